(** P_Writer.v -- C22, C23, C24, C27, C28: files produced by the Spyral writer. *)
From Coq Require Import ZArith Lia String Sorted.
From Flocq Require Import BinarySingleNaN.
From Verif Require Import Base F64 Simulator Response KinFile Writer SpecWriter WriterProofs.
Local Open Scope Z_scope.

Section Writer.
  Context (fexp : f64 -> f64) (argsort : list f64 -> list nat).
  Notation do_writes := (do_writes fexp argsort).
  Notation processed := (processed fexp argsort).

  (** The run [r0 + i] of the disk holds exactly the events [f]. *)
  Definition stored (d : disk) (r0 : Z) (files : list (list event_record)) : Prop :=
    forall i f, nth_error files i = Some f ->
      exists h, get_file d (run_name (r0 + Z.of_nat i)) = Some h /\ holds h (r0 + Z.of_nat i) f.

  Lemma inv_stored resp max r0 d done cur w : Inv resp max r0 d done cur w ->
    stored (w_disk w) r0 (done ++ [cur]).
  Proof.
    intros I i f H. destruct (Nat.lt_trichotomy i (length done)) as [L|[L|L]].
    - rewrite nth_error_app1 in H by auto.
      eexists. split; [exact (I_done _ _ _ _ _ _ _ I _ _ H)|]. reflexivity.
    - subst i. rewrite nth_error_app2, Nat.sub_diag in H by auto. injection H as <-.
      eexists. split; [exact (I_cur _ _ _ _ _ _ _ I)|]. reflexivity.
    - rewrite nth_error_app2 in H by lia. destruct (i - length done)%nat eqn:E; [lia|].
      destruct n; discriminate.
  Qed.

  Lemma inv_sizes resp max r0 d done cur w : Inv resp max r0 d done cur w -> 1 <= max ->
    forall i f, nth_error (done ++ [cur]) i = Some f ->
      Z.of_nat (length f) <= max /\
      ((S i < length (done ++ [cur]))%nat -> Z.of_nat (length f) = max) /\
      (concat done ++ cur <> [] -> f <> []).
  Proof.
    intros I M i f H. pose proof (I_len _ _ _ _ _ _ _ I) as HL. rewrite Forall_forall in HL.
    rewrite app_length. cbn [length].
    destruct (Nat.lt_ge_cases i (length done)) as [L|L].
    - rewrite nth_error_app1 in H by auto. apply nth_error_In in H. apply HL in H.
      split; [lia|]. split; [auto|]. intros _ ->. simpl in H. lia.
    - assert (Ei : i = length done).
      { assert ((i < length (done ++ [cur]))%nat) by (apply nth_error_Some; congruence).
        rewrite app_length in H0. simpl in H0. lia. }
      subst i. rewrite nth_error_app2, Nat.sub_diag in H by auto. injection H as <-.
      split; [now apply I|]. split; [lia|]. intros NE ->.
      destruct done as [|x done]; [now apply NE|].
      now apply (I_curlen _ _ _ _ _ _ _ I); [lia|congruence|].
  Qed.

  (** C22: the events end up in consecutive run files of at most [max] events. *)
  Theorem C22_output_is_split :
    forall resp max r0 d calls recs,
    1 <= max -> NoDup (map cl_event calls) -> processed resp calls recs ->
    exists w files,
      do_writes (init resp max r0 d) calls = (w, Ok tt) /\
      concat files = recs /\ files <> [] /\
      w_run w = r0 + Z.of_nat (length files) - 1 /\
      stored (w_disk w) r0 files /\
      forall i f, nth_error files i = Some f ->
        Z.of_nat (length f) <= max /\
        ((S i < length files)%nat -> Z.of_nat (length f) = max) /\
        (calls <> [] -> f <> []).
  Proof.
    intros resp max r0 d calls recs M ND P.
    destruct (writes_inv fexp argsort resp max r0 d calls recs [] [] _ (inv_init resp max r0 d) P ND)
      as (w & E & I).
    pose proof (spread_concat max recs [] []) as SC.
    set (done := fst (spread max recs ([], []))) in *. set (cur := snd (spread max recs ([], []))) in *.
    exists w, (done ++ [cur]). split; [exact E|]. split; [exact SC|].
    split; [intros H; now apply app_eq_nil in H|].
    split. { rewrite (I_run _ _ _ _ _ _ _ I), app_length. simpl. lia. }
    split; [now apply (inv_stored _ _ _ _ _ _ _ I)|].
    intros i f H. destruct (inv_sizes _ _ _ _ _ _ _ I M i f H) as (A & B & C).
    split; [exact A|]. split; [exact B|]. intros Hc. apply C.
    rewrite concat_snoc in SC. rewrite SC. simpl. intros ->. inversion P; subst. congruence.
  Qed.

  (** The same without assuming that event numbers are distinct, for any calls that succeed. *)
  Theorem C22_successful_writes_are_stored :
    forall resp max r0 d calls w,
    1 <= max -> do_writes (init resp max r0 d) calls = (w, Ok tt) ->
    exists recs files,
      processed resp calls recs /\ concat files = recs /\ files <> [] /\
      w_run w = r0 + Z.of_nat (length files) - 1 /\
      stored (w_disk w) r0 files /\
      forall i f, nth_error files i = Some f ->
        Z.of_nat (length f) <= max /\
        ((S i < length files)%nat -> Z.of_nat (length f) = max) /\
        (calls <> [] -> f <> []).
  Proof.
    intros resp max r0 d calls w M E.
    destruct (writes_ok_inv fexp argsort resp max r0 d calls [] [] _ _ (inv_init resp max r0 d) E)
      as (recs & P & I).
    pose proof (spread_concat max recs [] []) as SC.
    set (done := fst (spread max recs ([], []))) in *. set (cur := snd (spread max recs ([], []))) in *.
    exists recs, (done ++ [cur]). split; [exact P|]. split; [exact SC|].
    split; [intros H; now apply app_eq_nil in H|].
    split. { rewrite (I_run _ _ _ _ _ _ _ I), app_length. simpl. lia. }
    split; [now apply (inv_stored _ _ _ _ _ _ _ I)|].
    intros i f H. destruct (inv_sizes _ _ _ _ _ _ _ I M i f H) as (A & B & C).
    split; [exact A|]. split; [exact B|]. intros Hc. apply C.
    rewrite concat_snoc in SC. rewrite SC. simpl. intros ->. inversion P; subst. congruence.
  Qed.

  (** C22: a second write of an event number already in the current file raises ValueError and
      changes nothing. *)
  Theorem C22_repeated_event_raises :
    forall resp max r0 d calls c w recs,
    1 <= max -> do_writes (init resp max r0 d) calls = (w, Ok tt) ->
    process fexp argsort resp (cl_config c) (cl_data c) (cl_labels c) = Ok recs ->
    w_written w < max ->
    (exists h x, get_file (w_disk w) (run_name (w_run w)) = Some h /\
       In (append "cloud_" (string_of_Z (cl_event c)), x) (wf_sets h)) ->
    write fexp argsort w (cl_data c) (cl_labels c) (cl_config c) (cl_event c) = (w, Err ValueError).
  Proof.
    intros resp max r0 d calls c w out M E HP HW (h & x & Hh & Hin).
    destruct (writes_ok_inv fexp argsort resp max r0 d calls [] [] _ _ (inv_init resp max r0 d) E)
      as (recs & P & I).
    set (done := fst (spread max recs ([], []))) in *. set (cur := snd (spread max recs ([], []))) in *.
    clearbody done cur. unfold write, roll.
    rewrite (I_max _ _ _ _ _ _ _ I).
    destruct (w_written w =? max) eqn:Q; [apply Z.eqb_eq in Q; lia|].
    rewrite (I_resp _ _ _ _ _ _ _ I), HP. destruct out as [r1 l1]. unfold store_event.
    rewrite (I_open _ _ _ _ _ _ _ I), Hh. unfold create.
    destruct (dget String.eqb (wf_sets h) (cloud_name (cl_event c))) eqn:G; [reflexivity|].
    exfalso. apply (dget_none _ String.eqb_eq) in G. apply G.
    now apply (in_map fst) in Hin.
  Qed.

  (** ** C23 *)
  Definition attr (h : wfile) (k : string) : option Z := dget String.eqb (wf_attrs h) k.

  Lemma sorted_app_lt (a b : list Z) x y : StronglySorted Z.lt (a ++ b) -> In x a -> In y b -> x < y.
  Proof.
    induction a as [|z a IH]; simpl; intros S Hx Hy; [destruct Hx|].
    inversion S as [|? ? S' F]; subst. rewrite Forall_forall in F. destruct Hx as [->|Hx].
    - apply F. apply in_or_app. now right.
    - now apply IH.
  Qed.
  Lemma sorted_app_r (a b : list Z) : StronglySorted Z.lt (a ++ b) -> StronglySorted Z.lt b.
  Proof. induction a; simpl; auto. intros S. inversion S; auto. Qed.
  Lemma sorted_app_l (a b : list Z) : StronglySorted Z.lt (a ++ b) -> StronglySorted Z.lt a.
  Proof.
    induction a; simpl; intros S; [constructor|]. inversion S as [|? ? S' F]; subst.
    constructor; auto. rewrite Forall_forall in *. intros x Hx. apply F. apply in_or_app. now left.
  Qed.
  Lemma sorted_hd_le (a : list Z) x : StronglySorted Z.lt a -> In x a -> hd 0 a <= x.
  Proof.
    intros S Hx. destruct a as [|y a]; [destruct Hx|]. simpl. inversion S as [|? ? S' F]; subst.
    destruct Hx as [->|Hx]; [lia|]. rewrite Forall_forall in F. specialize (F x Hx). lia.
  Qed.
  Lemma sorted_le_last (a : list Z) x : StronglySorted Z.lt a -> In x a -> x <= last a 0.
  Proof.
    intros S Hx. destruct (exists_last (l := a)) as (b & y & ->); [intros ->; destruct Hx|].
    rewrite last_last. apply in_app_or in Hx. destruct Hx as [Hx|[->|[]]]; [|lia].
    assert (x < y) by (eapply sorted_app_lt; eauto; simpl; auto). lia.
  Qed.
  Lemma last_in (a : list Z) : a <> [] -> In (last a 0) a.
  Proof.
    intros N. destruct (exists_last N) as (b & y & ->). rewrite last_last. apply in_or_app; simpl; auto.
  Qed.
  Lemma hd_in (a : list Z) : a <> [] -> In (hd 0 a) a.
  Proof. destruct a; simpl; [congruence|auto]. Qed.
  Lemma last_app_ne (a b : list Z) : b <> [] -> last (a ++ b) 0 = last b 0.
  Proof. intros N. destruct (exists_last N) as (c & y & ->). now rewrite app_assoc, !last_last. Qed.

  Lemma in_concat_split {A} (l : list (list A)) i f : nth_error l i = Some f ->
    concat l = (concat (firstn i l) ++ f ++ concat (skipn (S i) l))%list.
  Proof.
    revert l. induction i as [|i IH]; intros [|x l] H; try discriminate; simpl in *.
    - now injection H as ->.
    - rewrite (IH _ H). simpl. now rewrite <- app_assoc.
  Qed.
  Lemma firstn_S_nth {A} (l : list A) i f : nth_error l i = Some f -> firstn (S i) l = (firstn i l ++ [f])%list.
  Proof.
    revert l. induction i as [|i IH]; intros [|x l] H; try discriminate; simpl in *.
    - now injection H as ->.
    - f_equal. now apply IH.
  Qed.

  Lemma nth_error_firstn_lt {A} (l : list A) i n : (i < n)%nat -> nth_error (firstn n l) i = nth_error l i.
  Proof.
    revert l n. induction i as [|i IH]; intros [|x l] [|n] L; try lia; simpl; auto. apply IH. lia.
  Qed.

  (** C23: for increasing non-negative event numbers, after [close] every file carries a range;
      the range encloses its events, ranges increase from file to file; the upper end is the last
      stored event, the lower end is the first stored event except in the first file, where it
      is 0. *)
  Theorem C23_event_ranges :
    forall resp max r0 d calls recs,
    1 <= max -> StronglySorted Z.lt (map cl_event calls) -> Forall (fun e => 0 <= e) (map cl_event calls) ->
    processed resp calls recs ->
    exists w w' files lo hi,
      do_writes (init resp max r0 d) calls = (w, Ok tt) /\ close w = (w', Ok tt) /\
      concat files = recs /\ stored (w_disk w') r0 files /\
      w_run w' = r0 + Z.of_nat (length files) - 1 /\
      (forall i f, nth_error files i = Some f -> exists h,
         get_file (w_disk w') (run_name (r0 + Z.of_nat i)) = Some h /\
         attr h "min_event" = Some (lo i) /\ attr h "max_event" = Some (hi i) /\
         (forall r, In r f -> lo i <= number r <= hi i) /\
         (f <> [] -> In (hi i) (map number f)) /\
         (i <> 0%nat -> hd_error (map number f) = Some (lo i)) /\
         (i = 0%nat -> lo i = 0) /\
         Z.of_nat (length f) <= max /\ ((S i < length files)%nat -> Z.of_nat (length f) = max)) /\
      (forall i j, (i < j < length files)%nat -> hi i < lo j) /\
      (calls = [] -> files = [[]] /\ hi 0%nat = 0).
  Proof.
    intros resp max r0 d calls recs M SS NN P.
    assert (NDc : NoDup (map cl_event calls)).
    { clear - SS. induction SS; constructor; auto. intros H1. rewrite Forall_forall in H.
      specialize (H _ H1). lia. }
    destruct (writes_inv fexp argsort resp max r0 d calls recs [] [] _ (inv_init resp max r0 d) P NDc)
      as (w & E & I).
    pose proof (spread_concat max recs [] []) as SC. cbn [app] in SC. change (concat []) with (@nil event_record) in SC. cbn [app] in SC.
    assert (RN : map number recs = map cl_event calls).
    { clear - P. induction P; simpl; auto. destruct H as [-> _]. now rewrite IHP. }
    set (done := fst (spread max recs ([], []))) in *. set (cur := snd (spread max recs ([], []))) in *.
    clearbody done cur.
    destruct (close_inv resp max r0 d done cur w I)
      as (w' & EC & O1 & R1 & M1 & N1 & W1 & L1 & S1 & F1 & G1).
    set (files := (done ++ [cur])%list) in *.
    set (lo := fun i => first_of i (nth i files [])).
    set (hi := fun i => lastZ (map number (concat (firstn (S i) files)))).
    assert (NE : forall i f, nth_error files i = Some f -> calls <> [] -> f <> []).
    { intros i f H Hc. destruct (inv_sizes _ _ _ _ _ _ _ I M i f H) as (_ & _ & C). apply C.
      unfold files in SC. rewrite concat_snoc in SC. rewrite SC. intros ->. inversion P; subst. congruence. }
    assert (SF : StronglySorted Z.lt (map number (concat files))) by (rewrite SC, RN; exact SS).
    assert (HI : forall i f, nth_error files i = Some f -> f <> [] -> hi i = last (map number f) 0).
    { intros i f H Hf. unfold hi, lastZ. rewrite (firstn_S_nth _ _ _ H), concat_snoc, map_app.
      apply last_app_ne. now destruct f. }
    assert (LO : forall i f, nth_error files i = Some f -> lo i = first_of i f).
    { intros i f H. unfold lo. now rewrite (nth_error_nth _ _ _ H). }
    assert (Sub : forall i f, nth_error files i = Some f -> StronglySorted Z.lt (map number f)).
    { intros i f H. rewrite (in_concat_split _ _ _ H), !map_app in SF.
      apply sorted_app_r, sorted_app_l in SF. exact SF. }
    assert (POS : forall i f r, nth_error files i = Some f -> In r f -> 0 <= number r).
    { intros i f r H Hr. rewrite Forall_forall in NN. apply NN. rewrite <- RN. apply in_map.
      rewrite <- SC, (in_concat_split _ _ _ H). apply in_or_app. right. apply in_or_app. now left. }
    exists w, w', files, lo, hi. split; [exact E|]. split; [exact EC|]. split; [exact SC|].
    split. { intros i f H. exists (closed_file files r0 i f). split; [now apply F1|]. reflexivity. }
    split. { rewrite N1, (I_run _ _ _ _ _ _ _ I). unfold files. rewrite app_length. simpl. lia. }
    split; [|split].
    - intros i f H. exists (closed_file files r0 i f). split; [now apply F1|].
      unfold attr, closed_file. cbn [wf_attrs]. simpl dget.
      split; [now rewrite (LO _ _ H)|]. split; [reflexivity|].
      split.
      { intros r Hr. assert (Hf : f <> []) by (intros ->; destruct Hr).
        rewrite (LO _ _ H), (HI _ _ H Hf). pose proof (Sub _ _ H) as Sf.
        pose proof (in_map number _ _ Hr) as Hn.
        split; [|now apply sorted_le_last].
        unfold first_of. destruct i; [now apply (POS 0%nat f)|now apply sorted_hd_le]. }
      split.
      { intros Hf. rewrite (HI _ _ H Hf). apply last_in. now destruct f. }
      split.
      { intros Hi. rewrite (LO _ _ H). destruct i; [congruence|]. unfold first_of.
        destruct f as [|r f]; [|reflexivity]. exfalso.
        apply (NE _ _ H); [|reflexivity]. intros ->. assert (R0 : recs = []) by (inversion P; reflexivity). rewrite R0 in SC.
        unfold files in H, SC. rewrite concat_snoc in SC.
        pose proof (I_len _ _ _ _ _ _ _ I) as HL. destruct done as [|g done].
        - simpl in H. destruct i; discriminate.
        - apply Forall_inv in HL. simpl in SC. destruct g; [cbn [length] in HL; lia|discriminate]. }
      split.
      { intros ->. rewrite (LO _ _ H). reflexivity. }
      destruct (inv_sizes _ _ _ _ _ _ _ I M i f H) as (A & B & _). now split.
    - intros i j Hij.
      destruct (nth_error files i) as [f|] eqn:Hf; [|apply nth_error_None in Hf; lia].
      destruct (nth_error files j) as [g|] eqn:Hg; [|apply nth_error_None in Hg; lia].
      assert (Hc : calls <> []).
      { intros ->. assert (R0 : recs = []) by (inversion P; reflexivity). rewrite R0 in SC. unfold files in SC, Hij. rewrite concat_snoc in SC.
        rewrite app_length in Hij. simpl in Hij.
        pose proof (I_len _ _ _ _ _ _ _ I) as HL. destruct done as [|g' done].
        - simpl in Hij. lia.
        - apply Forall_inv in HL. simpl in SC. destruct g'; [cbn [length] in HL; lia|discriminate]. }
      pose proof (NE _ _ Hf Hc) as Nf. pose proof (NE _ _ Hg Hc) as Ng.
      rewrite (HI _ _ Hf Nf), (LO _ _ Hg). destruct j; [lia|]. unfold first_of.
      assert (If : In (last (map number f) 0) (map number f)) by (apply last_in; now destruct f).
      assert (Ig : In (hd 0 (map number g)) (map number g)) by (apply hd_in; now destruct g).
      rewrite (in_concat_split _ _ _ Hg), map_app in SF.
      eapply sorted_app_lt; [exact SF| |].
      + rewrite in_map_iff in If. destruct If as (r & <- & Hr). apply in_map.
        assert (Hf' : nth_error (firstn (S j) files) i = Some f).
        { rewrite nth_error_firstn_lt by lia. exact Hf. }
        rewrite (in_concat_split _ _ _ Hf'). apply in_or_app. right. apply in_or_app. now left.
      + rewrite map_app. apply in_or_app. now left.
    - intros ->. assert (R0 : recs = []) by (inversion P; reflexivity). rewrite R0 in SC.
      assert (done = []).
      { destruct done as [|g done]; auto. exfalso. pose proof (I_len _ _ _ _ _ _ _ I) as HL.
        apply Forall_inv in HL. unfold files in SC. simpl in SC.
        destruct g; [cbn [length] in HL; lia|discriminate]. }
      subst done. unfold files in *. simpl in SC. rewrite app_nil_r in SC. subst cur.
      split; reflexivity.
  Qed.

  (** ** C24 *)
  (** A limit of 0: an empty first file, everything in the second. *)
  Theorem C24_limit_zero :
    forall resp r0 d calls recs,
    calls <> [] -> NoDup (map cl_event calls) -> processed resp calls recs ->
    exists w h1 h2, do_writes (init resp 0 r0 d) calls = (w, Ok tt) /\
      w_run w = r0 + 1 /\
      get_file (w_disk w) (run_name r0) = Some h1 /\ holds h1 r0 [] /\
      get_file (w_disk w) (run_name (r0 + 1)) = Some h2 /\ holds h2 (r0 + 1) recs.
  Proof.
    intros resp r0 d calls recs NE ND P.
    destruct (writes_inv fexp argsort resp 0 r0 d calls recs [] [] _ (inv_init resp 0 r0 d) P ND)
      as (w & E & I).
    assert (Hs : spread 0 recs ([], []) = ([[]], recs)).
    { destruct recs as [|x recs]; [inversion P; subst; congruence|].
      assert (G : forall l c, c <> [] -> spread 0 l ([[]], c) = ([[]], c ++ l)).
      { induction l as [|y l IH]; intros c Hc; unfold spread; cbn [fold_left].
        - now rewrite app_nil_r.
        - unfold add at 2. cbn [fst snd]. destruct (Z.of_nat (length c) =? 0) eqn:Q.
          + apply Z.eqb_eq in Q. destruct c; [congruence|simpl in Q; lia].
          + fold (spread 0 l ([[]], c ++ [y])). rewrite IH; [|now destruct c]. now rewrite <- app_assoc. }
      change (spread 0 (x :: recs) ([], [])) with (spread 0 recs ([[]], [x])). now rewrite G. }
    rewrite Hs in I. cbn [fst snd] in I.
    eexists w, _, _. split; [exact E|]. split; [exact (I_run _ _ _ _ _ _ _ I)|].
    pose proof (I_done _ _ _ _ _ _ _ I 0%nat [] eq_refl) as D. rewrite Z.add_0_r in D.
    split; [exact D|]. split; [reflexivity|].
    split; [exact (I_cur _ _ _ _ _ _ _ I)|]. reflexivity.
  Qed.

  (** A negative limit: one file with everything. *)
  Theorem C24_negative_limit_never_splits :
    forall resp max r0 d calls recs,
    max < 0 -> NoDup (map cl_event calls) -> processed resp calls recs ->
    exists w h, do_writes (init resp max r0 d) calls = (w, Ok tt) /\ w_run w = r0 /\
      get_file (w_disk w) (run_name r0) = Some h /\ holds h r0 recs.
  Proof.
    intros resp max r0 d calls recs M ND P.
    destruct (writes_inv fexp argsort resp max r0 d calls recs [] [] _ (inv_init resp max r0 d) P ND)
      as (w & E & I).
    pose proof (spread_concat max recs [] []) as SC.
    set (done := fst (spread max recs ([], []))) in *. set (cur := snd (spread max recs ([], []))) in *.
    clearbody done cur.
    assert (done = []).
    { destruct done as [|g done]; auto. pose proof (I_len _ _ _ _ _ _ _ I) as HL. inversion HL; subst. lia. }
    subst done. simpl in SC. rewrite app_nil_r in SC. subst cur.
    exists w. pose proof (I_cur _ _ _ _ _ _ _ I) as C. simpl in C. rewrite Z.add_0_r in C.
    eexists. split; [exact E|]. split; [rewrite (I_run _ _ _ _ _ _ _ I); simpl; lia|].
    split; [exact C|reflexivity].
  Qed.

  (** ** C27 *)
  Notation step := (step fexp argsort).
  Notation steps := (steps fexp argsort).

  Lemma close_frame w w' r : close w = (w', r) ->
    w_run w' = w_run w /\
    (w_open w = false -> w' = w) /\ w_max w' = w_max w /\ w_written w' = w_written w /\
    forall name, name <> run_name (w_run w) -> get_file (w_disk w') name = get_file (w_disk w) name.
  Proof.
    unfold close. destruct (w_open w) eqn:O; [destruct (get_file _ _)|]; intros H; injection H as <- <-;
      cbn; repeat split; auto; try congruence.
    intros name N. now apply get_put_ne.
  Qed.

  Lemma store_frame w rows labels e w' r : store_event w rows labels e = (w', r) ->
    w_run w' = w_run w /\ (w_open w = false -> w' = w) /\
    forall name, name <> run_name (w_run w) -> get_file (w_disk w') name = get_file (w_disk w) name.
  Proof.
    unfold store_event. intros H.
    destruct (w_open w) eqn:O; [|injection H as <- <-; auto].
    destruct (get_file _ _) as [f|]; [|injection H as <- <-; auto].
    destruct (create (wf_sets f) _ _) as [s1|]; [|injection H as <- <-; auto].
    destruct (create s1 _ _) as [s2|]; injection H as <- <-; cbn [w_run w_disk];
      (split; [reflexivity|]); (split; [congruence|]); intros name N; now rewrite ?get_put_ne.
  Qed.

  Lemma step_frame w o : 
    w_run w <= w_run (fst (step w o)) <= w_run w + 1 /\
    (w_open w = false -> fst (step w o) = w) /\
    (forall name, name <> run_name (w_run w) -> name <> run_name (w_run (fst (step w o))) ->
       get_file (w_disk (fst (step w o))) name = get_file (w_disk w) name).
  Proof.
    destruct o as [c|]; cbn [SpecWriter.step].
    - unfold write, roll. destruct (w_written w =? w_max w).
      + destruct (close w) as (w1 & r1) eqn:C. destruct (close_frame _ _ _ C) as (R & U & M1 & W1 & F).
        destruct r1 as [[]|x].
        * cbn [w_response create_next_file].
          assert (OP : w_open w = true).
          { unfold close in C. destruct (w_open w); auto. congruence. }
          destruct (process _ _ _ _ _ _) as [[rows labs]|x]; [destruct (store_event _ _ _ _) as (w2, r2) eqn:S|].
          -- apply store_frame in S. cbn [w_run w_disk create_next_file] in S. destruct S as (R2 & _ & F2).
             cbn [fst]. rewrite R2, R. split; [lia|]. split; [congruence|].
             intros name N1 N2. rewrite F2 by (now rewrite R).
             rewrite get_put_ne by (now rewrite R). now apply F.
          -- cbn [fst w_run w_disk create_next_file]. rewrite R. split; [lia|]. split; [congruence|].
             intros name N1 N2. rewrite get_put_ne by auto. now apply F.
        * cbn [fst]. rewrite R. split; [lia|]. split; [auto|]. intros; now apply F.
      + destruct (process _ _ _ _ _ _) as [[rows labs]|x]; [destruct (store_event _ _ _ _) as (w2, r2) eqn:S|].
        * apply store_frame in S. destruct S as (R2 & U & F2). cbn [fst]. rewrite R2. split; [lia|].
          split; [auto|]. intros; now apply F2.
        * cbn [fst]. split; [lia|]. auto.
    - destruct (close w) as (w1 & r1) eqn:C. destruct (close_frame _ _ _ C) as (R & U & M1 & W1 & F).
      cbn [fst]. rewrite R. split; [lia|]. split; [auto|]. intros; now apply F.
  Qed.

  Lemma steps_run os : forall w, w_run w <= w_run (steps w os).
  Proof.
    induction os as [|o os IH]; intros w; cbn [SpecWriter.steps fold_left]; [unfold steps; simpl; lia|].
    specialize (IH (fst (step w o))). unfold SpecWriter.steps in *. cbn [fold_left].
    destruct (step_frame w o) as (R & _). lia.
  Qed.

  Lemma steps_frame os : forall w name,
    (forall r, w_run w <= r <= w_run (steps w os) -> name <> run_name r) ->
    get_file (w_disk (steps w os)) name = get_file (w_disk w) name.
  Proof.
    induction os as [|o os IH]; intros w name H; unfold SpecWriter.steps in *; cbn [fold_left] in *; [reflexivity|].
    pose proof (steps_run os (fst (step w o))) as R1. unfold SpecWriter.steps in R1.
    destruct (step_frame w o) as (R & _ & F).
    rewrite IH.
    - apply F; apply H; lia.
    - intros r Hr. apply H. lia.
  Qed.

  (** C27: whatever a caller does with a writer (including calls that raise), only the run files
      from the first to the current run number can differ from the original disk. *)
  Theorem C27_only_own_run_files :
    forall resp max r0 d os name,
    let w := steps (init resp max r0 d) os in
    (forall r, r0 <= r <= w_run w -> name <> run_name r) ->
    get_file (w_disk w) name = get_file d name.
  Proof.
    intros resp max r0 d os name w H. unfold w. rewrite steps_frame.
    - cbn [init w_disk]. apply get_put_ne. apply H. unfold w.
      pose proof (steps_run os (init resp max r0 d)). cbn [init w_run] in *. lia.
    - intros r Hr. apply H. exact Hr.
  Qed.

  (** C27: files of earlier runs are never modified again. *)
  Theorem C27_finished_files_are_final :
    forall resp max r0 d before after r,
    let w := steps (init resp max r0 d) before in
    r < w_run w ->
    get_file (w_disk (steps w after)) (run_name r) = get_file (w_disk w) (run_name r).
  Proof.
    intros resp max r0 d before after r w Hr. apply steps_frame.
    intros r' H' E. apply run_name_inj in E. lia.
  Qed.

  (** ** C28 *)
  Lemma closed_step w o : w_open w = false -> fst (step w o) = w /\ exists x, snd (step w o) = Err x.
  Proof.
    intros O. split; [now apply step_frame|]. destruct o as [c|]; cbn [SpecWriter.step].
    - unfold write, roll, close. rewrite O. destruct (_ =? _); cbn; eauto.
      destruct (process _ _ _ _ _ _) as [[rows labs]|x]; cbn; eauto.
      unfold store_event. rewrite O. cbn; eauto.
    - unfold close. rewrite O. cbn; eauto.
  Qed.

  (** C28: after a successful [close] every operation raises and nothing changes any more. *)
  Theorem C28_finished_after_close :
    forall w w' os o,
    close w = (w', Ok tt) ->
    steps w' os = w' /\ (exists x, snd (step (steps w' os) o) = Err x) /\
    w_disk (steps w' (os ++ [o])) = w_disk w'.
  Proof.
    intros w w' os o C.
    assert (O : w_open w' = false).
    { unfold close in C. destruct (w_open w); [destruct (get_file _ _)|]; try discriminate.
      injection C as <-. reflexivity. }
    assert (S : forall l, steps w' l = w').
    { induction l as [|a l IH]; [reflexivity|]. unfold SpecWriter.steps. cbn [fold_left].
      rewrite (proj1 (closed_step w' a O)). exact IH. }
    rewrite !S. split; [reflexivity|]. split; [now apply closed_step|reflexivity].
  Qed.
End Writer.

(** Examples: three events without points, at most two per file, first run 7; the disk already
    has a file of run 8 and one with another name. *)
Definition ex_config : wconfig := mkWconfig 560 10 fnan 40 (Some []) [].
Definition ex_call (e : Z) : wcall := mkCall [] [] ex_config e.
Definition ex_calls := [ex_call 3; ex_call 5; ex_call 9].
Definition ex_disk : disk :=
  [("run_0008.h5"%string, mkWfile [("min_event"%string, 1)] []); ("notes"%string, new_file)].
Definition ex_sort (l : list f64) : list nat := seq 0 (length l).
Definition ex_recs : list event_record := [(3, ([], [])); (5, ([], [])); (9, ([], []))].

Example C22_hypotheses fexp : 1 <= 2 /\ NoDup (map cl_event ex_calls) /\
  processed fexp ex_sort [] ex_calls ex_recs.
Proof.
  split; [lia|]. split.
  - simpl. repeat constructor; simpl; intuition lia.
  - repeat constructor.
Qed.

Example C22_example fexp :
  let w := fst (close (fst (do_writes fexp ex_sort (init [] 2 7 ex_disk) ex_calls))) in
  map fst (w_disk w) = ["run_0008.h5"; "notes"; "run_0007.h5"]%string /\
  option_map (fun h => (wf_attrs h, map fst (wf_sets h))) (get_file (w_disk w) "run_0007.h5") =
    Some ([("min_event", 0); ("max_event", 5)],
          ["cloud_3"; "labels_3"; "cloud_5"; "labels_5"])%string /\
  option_map (fun h => (wf_attrs h, map fst (wf_sets h))) (get_file (w_disk w) "run_0008.h5") =
    Some ([("min_event", 9); ("max_event", 9)], ["cloud_9"; "labels_9"])%string.
Proof. vm_compute. repeat split. Qed.

Example C23_hypotheses : StronglySorted Z.lt (map cl_event ex_calls) /\
  Forall (fun e => 0 <= e) (map cl_event ex_calls).
Proof. simpl. split; repeat (constructor; try lia). Qed.

Example C24_example fexp :
  map (fun f => (fst f, map fst (wf_sets (snd f))))
      (w_disk (fst (do_writes fexp ex_sort (init [] 0 7 []) ex_calls))) =
    [("run_0007.h5", []); ("run_0008.h5", ["cloud_3"; "labels_3"; "cloud_5"; "labels_5"; "cloud_9"; "labels_9"])]%string
  /\ map fst (w_disk (fst (do_writes fexp ex_sort (init [] (-1) 7 []) ex_calls))) = ["run_0007.h5"%string].
Proof. vm_compute. split; reflexivity. Qed.

(** A call that raises after a new file was started (no pad centres) still creates that file. *)
Example C27_example fexp :
  let os := [OpWrite (ex_call 3); OpWrite (mkCall [] [] (mkWconfig 560 10 fnan 40 None []) 4); OpClose] in
  let w := steps fexp ex_sort (init [] 1 7 ex_disk) os in
  w_run w = 8 /\ get_file (w_disk w) "notes" = Some new_file /\
  option_map wf_attrs (get_file (w_disk w) "run_0008.h5") = Some [("min_event", 4); ("max_event", 3)]%string.
Proof. vm_compute. repeat split. Qed.

Example C28_example fexp : exists w', close (init [] 2 7 []) = (w', Ok tt) /\
  snd (write fexp ex_sort w' [] [] ex_config 0) = Err ClosedFileError.
Proof. eexists. split; reflexivity. Qed.

Print Assumptions C22_output_is_split.
Print Assumptions C22_successful_writes_are_stored.
Print Assumptions C22_repeated_event_raises.
Print Assumptions C23_event_ranges.
Print Assumptions C24_limit_zero.
Print Assumptions C24_negative_limit_never_splits.
Print Assumptions C27_only_own_run_files.
Print Assumptions C27_finished_files_are_final.
Print Assumptions C28_finished_after_close.
