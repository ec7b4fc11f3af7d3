(** WriterProofs.v -- invariants of the Spyral writer. *)
From Coq Require Import ZArith Lia String DecimalString DecimalFacts DecimalPos DecimalZ.
From Flocq Require Import BinarySingleNaN.
From Verif Require Import Base F64 Simulator Response KinFile Writer SpecWriter.
Local Open Scope Z_scope.

(** ** File names *)
Lemma append_inj_r (a b s : string) : append a s = append b s -> a = b.
Proof.
  assert (L : forall x y, String.length (append x y) = (String.length x + String.length y)%nat).
  { induction x; intros; simpl; auto. }
  revert b. induction a as [|c a IH]; intros [|c' b] H; simpl in H; auto.
  - apply (f_equal String.length) in H. simpl in H. rewrite L in H. lia.
  - apply (f_equal String.length) in H. simpl in H. rewrite L in H. lia.
  - injection H as -> H. f_equal. auto.
Qed.

Definition parse (s : string) : option Z := option_map Z.of_int (NilZero.int_of_string s).
Definition parse_u (s : string) : option Z := option_map Z.of_uint (NilEmpty.uint_of_string s).

Lemma pad_zero_nonempty k s : s <> EmptyString -> pad_zero k s <> EmptyString.
Proof. destruct k; simpl; auto. destruct (_ <? _)%nat; congruence. Qed.

Lemma parse_u_pad k s : parse_u (pad_zero k s) = parse_u s.
Proof.
  induction k as [|k IH]; simpl; auto. destruct (_ <? _)%nat; auto.
  unfold parse_u in *. simpl. unfold uint_of_char. simpl.
  destruct (NilEmpty.uint_of_string (pad_zero k s)); simpl in *; auto.
Qed.

Lemma to_uint_pos_shape n : 0 <= n -> exists u, Z.to_int n = Decimal.Pos u /\ u <> Decimal.Nil
    /\ Z.of_uint u = n.
Proof.
  intros H. assert (E := DecimalZ.of_to n). destruct n as [|p|p]; try lia; simpl in *.
  - exists (Decimal.D0 Decimal.Nil). repeat split; congruence.
  - exists (Pos.to_uint p). repeat split; auto. apply DecimalPos.Unsigned.to_uint_nonnil.
Qed.

Lemma parse_digits n : 0 <= n -> string_of_Z n <> EmptyString /\ parse_u (string_of_Z n) = Some n.
Proof.
  intros H. destruct (to_uint_pos_shape n H) as (u & E & Hn & Hu).
  unfold string_of_Z. rewrite E. cbn [NilZero.string_of_int]. unfold NilZero.string_of_uint.
  destruct u; try congruence;
    (split; [simpl; congruence|]); unfold parse_u; rewrite NilEmpty.usu; simpl; f_equal; exact Hu.
Qed.

Lemma pad_zero_head k s : (exists c r, s = String c r /\ c <> "-"%char) ->
  exists c r, pad_zero k s = String c r /\ c <> "-"%char.
Proof.
  intros H. destruct k; simpl; auto. destruct (_ <? _)%nat; eauto.
  eexists _, _; split; [reflexivity|]; congruence.
Qed.

Lemma digits_head n : 0 <= n -> exists c r, string_of_Z n = String c r /\ c <> "-"%char.
Proof.
  intros H. destruct (to_uint_pos_shape n H) as (u & E & Hn & Hu).
  unfold string_of_Z. rewrite E. cbn [NilZero.string_of_int]. unfold NilZero.string_of_uint.
  destruct u; try congruence; simpl; (eexists _, _; split; [reflexivity|]; congruence).
Qed.

Lemma parse_format n : parse (format04 n) = Some n.
Proof.
  unfold format04, parse. destruct (n <? 0) eqn:S.
  - apply Z.ltb_lt in S.
    destruct (parse_digits (- n) ltac:(lia)) as [N P].
    rewrite <- (parse_u_pad 3) in P. apply (pad_zero_nonempty 3) in N.
    set (s := pad_zero 3 (string_of_Z (- n))) in *. clearbody s.
    cbn [NilZero.int_of_string]. cbn. unfold parse_u in P.
    unfold NilZero.uint_of_string. destruct s as [|c r]; [congruence|].
    destruct (NilEmpty.uint_of_string (String c r)); simpl in *; try discriminate.
    injection P as P. rewrite P. f_equal. lia.
  - apply Z.ltb_ge in S.
    destruct (parse_digits n S) as [N P].
    rewrite <- (parse_u_pad 4) in P.
    destruct (pad_zero_head 4 _ (digits_head n S)) as (c & r & E & C).
    rewrite E in *. unfold NilZero.int_of_string.
    destruct (Ascii.eqb c "-") eqn:D.
    { apply Ascii.eqb_eq in D. congruence. }
    unfold parse_u in P. unfold NilZero.uint_of_string.
    change (option_map Z.of_int (option_map Decimal.Pos (NilEmpty.uint_of_string (String c r))) = Some n).
    destruct (NilEmpty.uint_of_string (String c r)); simpl in *; congruence.
Qed.

Lemma run_name_inj a b : run_name a = run_name b -> a = b.
Proof.
  unfold run_name. intros H. apply append_inj_l in H. apply append_inj_r in H.
  apply (f_equal parse) in H. rewrite !parse_format in H. congruence.
Qed.

Lemma cloud_name_inj a b : cloud_name a = cloud_name b -> a = b.
Proof. unfold cloud_name. intros H. apply append_inj_l in H. now apply string_of_Z_inj. Qed.
Lemma labels_name_inj a b : labels_name a = labels_name b -> a = b.
Proof. unfold labels_name. intros H. apply append_inj_l in H. now apply string_of_Z_inj. Qed.
Lemma cloud_labels_ne a b : cloud_name a <> labels_name b.
Proof. unfold cloud_name, labels_name. simpl. congruence. Qed.

Lemma get_put_eq d n f : get_file (put_file d n f) n = Some f.
Proof. apply dget_dset_eq. apply String.eqb_eq. Qed.
Lemma get_put_ne d n n' f : n' <> n -> get_file (put_file d n f) n' = get_file d n'.
Proof. intros H. apply dget_dset_ne; auto. apply String.eqb_eq. Qed.

(** ** The invariant *)
Definition sets_of (run : Z) (evs : list event_record) : list (string * wdset) :=
  flat_map (fun r => [(cloud_name (number r), WCloud (fst (snd r)) (cloud_attrs run (number r)));
                      (labels_name (number r), WLabels (snd (snd r)))]) evs.

Definition lastZ (l : list Z) : Z := last l 0.
Definition first_of (i : nat) (f : list event_record) : Z :=
  match i with O => 0 | S _ => hd 0 (map number f) end.
Definition closed_file (done : list (list event_record)) (r0 : Z) (i : nat) (f : list event_record) : wfile :=
  mkWfile [("min_event"%string, first_of i f);
           ("max_event"%string, lastZ (map number (concat (firstn (S i) done))))]
          (sets_of (r0 + Z.of_nat i) f).

Record Inv (resp : list f64) (max r0 : Z) (d0 : disk)
    (done : list (list event_record)) (cur : list event_record) (w : writer) : Prop := mkInv {
  I_resp : w_response w = resp;
  I_max : w_max w = max;
  I_run : w_run w = r0 + Z.of_nat (length done);
  I_written : w_written w = Z.of_nat (length cur);
  I_open : w_open w = true;
  I_start : w_start w = first_of (length done) cur;
  I_last : w_last w = lastZ (map number (concat done ++ cur));
  I_done : forall i f, nth_error done i = Some f ->
      get_file (w_disk w) (run_name (r0 + Z.of_nat i)) = Some (closed_file done r0 i f);
  I_cur : get_file (w_disk w) (run_name (r0 + Z.of_nat (length done)))
          = Some (mkWfile [] (sets_of (r0 + Z.of_nat (length done)) cur));
  I_other : forall name, (forall i, (i <= length done)%nat -> name <> run_name (r0 + Z.of_nat i)) ->
      get_file (w_disk w) name = get_file d0 name;
  I_len : Forall (fun f => Z.of_nat (length f) = max) done;
  I_curlen : 0 <= max -> done <> [] -> cur <> [];
  I_le : 1 <= max -> Z.of_nat (length cur) <= max;
  I_zero : max = 0 -> (length done <= 1)%nat
}.

Definition add (max : Z) (s : list (list event_record) * list event_record) (x : event_record) :=
  if Z.of_nat (length (snd s)) =? max then (fst s ++ [snd s], [x]) else (fst s, snd s ++ [x]).

Lemma inv_init resp max r0 d : Inv resp max r0 d [] [] (init resp max r0 d).
Proof.
  constructor; simpl; auto; try lia; try congruence.
  - intros [|i] f; discriminate.
  - rewrite Z.add_0_r. apply get_put_eq.
  - intros name H. apply get_put_ne. specialize (H O ltac:(lia)). now rewrite Z.add_0_r in H.
Qed.

Section Step.
  Context (fexp : f64 -> f64) (argsort : list f64 -> list nat).
  Context (resp : list f64) (max r0 : Z) (d0 : disk).

  Lemma sets_of_app run a b : sets_of run (a ++ b) = (sets_of run a ++ sets_of run b)%list.
  Proof. apply flat_map_app. Qed.

  Lemma dget_sets_cloud run evs e : dget String.eqb (sets_of run evs) (cloud_name e) = None
    <-> ~ In e (map number evs).
  Proof.
    rewrite (dget_none _ String.eqb_eq).
    assert (H : In (cloud_name e) (map fst (sets_of run evs)) <-> In e (map number evs)).
    { unfold sets_of. split; intros H.
      - apply in_map_iff in H. destruct H as ((n & ds) & E & H). simpl in E. subst n.
        apply in_flat_map in H. destruct H as (r & Hr & [H|[H|[]]]); apply (f_equal fst) in H; cbn [fst] in H.
        + apply cloud_name_inj in H. subst. now apply in_map.
        + symmetry in H. now apply cloud_labels_ne in H.
      - apply in_map_iff in H. destruct H as (r & <- & H).
        apply in_map_iff. exists (cloud_name (number r), WCloud (fst (snd r)) (cloud_attrs run (number r))).
        split; auto. apply in_flat_map. exists r. split; auto. simpl; auto. }
    tauto.
  Qed.

  Lemma dget_sets_labels run evs e : dget String.eqb (sets_of run evs) (labels_name e) = None
    <-> ~ In e (map number evs).
  Proof.
    rewrite (dget_none _ String.eqb_eq).
    assert (H : In (labels_name e) (map fst (sets_of run evs)) <-> In e (map number evs)).
    { unfold sets_of. split; intros H.
      - apply in_map_iff in H. destruct H as ((n & ds) & E & H). simpl in E. subst n.
        apply in_flat_map in H. destruct H as (r & Hr & [H|[H|[]]]); apply (f_equal fst) in H; cbn [fst] in H.
        + now apply cloud_labels_ne in H.
        + apply labels_name_inj in H. subst. now apply in_map.
      - apply in_map_iff in H. destruct H as (r & <- & H).
        apply in_map_iff. exists (labels_name (number r), WLabels (snd (snd r))).
        split; auto. apply in_flat_map. exists r. split; auto. simpl; auto. }
    tauto.
  Qed.

  Lemma lastZ_snoc l x : lastZ (l ++ [x]) = x.
  Proof. unfold lastZ. apply last_last. Qed.

  (** [close] on an open writer. *)
  Lemma close_inv done cur w : Inv resp max r0 d0 done cur w ->
    exists w', close w = (w', Ok tt) /\ w_open w' = false /\ w_response w' = resp /\ w_max w' = max
      /\ w_run w' = w_run w /\ w_written w' = w_written w /\ w_last w' = w_last w
      /\ w_start w' = w_start w
      /\ (forall i f, nth_error (done ++ [cur]) i = Some f ->
           get_file (w_disk w') (run_name (r0 + Z.of_nat i)) = Some (closed_file (done ++ [cur]) r0 i f))
      /\ (forall name, name <> run_name (w_run w) -> get_file (w_disk w') name = get_file (w_disk w) name).
  Proof.
    intros I. unfold close. rewrite (I_open _ _ _ _ _ _ _ I), (I_run _ _ _ _ _ _ _ I), (I_cur _ _ _ _ _ _ _ I).
    eexists. split; [reflexivity|]. cbn [w_open w_response w_max w_run w_written w_last w_start w_disk].
    split; [reflexivity|]. split; [apply I|]. split; [apply I|]. do 4 (split; [reflexivity|]).
    assert (N : forall i, (i < length done)%nat ->
      run_name (r0 + Z.of_nat i) <> run_name (r0 + Z.of_nat (length done))).
    { intros i Hi E. apply run_name_inj in E. lia. }
    split.
    - intros i f H. destruct (Nat.lt_trichotomy i (length done)) as [Hi|[Hi|Hi]].
      + rewrite nth_error_app1 in H by auto. rewrite get_put_ne by auto.
        rewrite (I_done _ _ _ _ _ _ _ I _ _ H). f_equal. unfold closed_file.
        rewrite firstn_app. replace (S i - length done)%nat with O by lia. simpl firstn at 3.
        now rewrite app_nil_r.
      + subst i. rewrite nth_error_app2, Nat.sub_diag in H by auto. injection H as <-.
        rewrite get_put_eq. f_equal. unfold closed_file. f_equal.
        cbn [wf_attrs dset String.eqb]. rewrite (I_start _ _ _ _ _ _ _ I), (I_last _ _ _ _ _ _ _ I).
        rewrite (firstn_all2 (n := S (length done)) (done ++ [cur])) by (rewrite app_length; simpl; lia).
        rewrite concat_app. simpl concat. rewrite app_nil_r. reflexivity.
      + rewrite nth_error_app2 in H by lia. destruct (i - length done)%nat eqn:E; [lia|].
        destruct n; discriminate.
    - intros name Hn. now apply get_put_ne.
  Qed.

  Lemma roll_inv done cur w e : Inv resp max r0 d0 done cur w ->
    exists w', roll w e = (w', Ok tt) /\
      if Z.of_nat (length cur) =? max
      then w_open w' = true /\ w_response w' = resp /\ w_max w' = max
        /\ w_run w' = r0 + Z.of_nat (length (done ++ [cur])) /\ w_written w' = 0
        /\ w_last w' = w_last w /\ w_start w' = e
        /\ (forall i f, nth_error (done ++ [cur]) i = Some f ->
             get_file (w_disk w') (run_name (r0 + Z.of_nat i)) = Some (closed_file (done ++ [cur]) r0 i f))
        /\ get_file (w_disk w') (run_name (r0 + Z.of_nat (length (done ++ [cur])))) = Some new_file
        /\ (forall name, (forall i, (i <= length (done ++ [cur]))%nat -> name <> run_name (r0 + Z.of_nat i)) ->
             get_file (w_disk w') name = get_file d0 name)
      else w' = w.
  Proof.
    intros I. unfold roll. rewrite (I_written _ _ _ _ _ _ _ I), (I_max _ _ _ _ _ _ _ I).
    destruct (_ =? max) eqn:Z0; [|eauto].
    destruct (close_inv _ _ _ I) as (w1 & -> & O1 & R1 & M1 & N1 & W1 & L1 & S1 & F1 & G1).
    eexists. split; [reflexivity|].
    unfold create_next_file. cbn [w_open w_response w_max w_run w_written w_last w_start w_disk].
    assert (RN : w_run w1 + 1 = r0 + Z.of_nat (length (done ++ [cur]))).
    { rewrite N1, (I_run _ _ _ _ _ _ _ I), app_length. simpl. lia. }
    rewrite RN.
    split; [reflexivity|]. split; [auto|]. split; [auto|]. split; [reflexivity|].
    split; [reflexivity|]. split; [auto|]. split; [reflexivity|].
    split.
    { intros i f H. rewrite get_put_ne.
      - now apply F1.
      - intros E. apply run_name_inj in E.
        assert ((i < length (done ++ [cur]))%nat) by (apply nth_error_Some; congruence). lia. }
    split; [apply get_put_eq|].
    intros name H. rewrite get_put_ne by (apply H; lia).
    rewrite G1.
    - apply I. intros i Hi. apply H. rewrite app_length; simpl; lia.
    - rewrite (I_run _ _ _ _ _ _ _ I). apply H. rewrite app_length; simpl; lia.
  Qed.

  Lemma concat_snoc {A} (l : list (list A)) x : concat (l ++ [x]) = concat l ++ x.
  Proof. rewrite concat_app. simpl. now rewrite app_nil_r. Qed.

  (** One successful write. *)
  Lemma write_inv done cur w (c : wcall) rec :
    Inv resp max r0 d0 done cur w ->
    number rec = cl_event c ->
    process fexp argsort resp (cl_config c) (cl_data c) (cl_labels c) = Ok (snd rec) ->
    (Z.of_nat (length cur) <> max -> ~ In (cl_event c) (map number cur)) ->
    exists w', write fexp argsort w (cl_data c) (cl_labels c) (cl_config c) (cl_event c) = (w', Ok tt)
      /\ Inv resp max r0 d0 (fst (add max (done, cur) rec)) (snd (add max (done, cur) rec)) w'.
  Proof.
    intros I HN HP HD. destruct (roll_inv done cur w (cl_event c) I) as (w1 & ER & C1).
    unfold write. rewrite ER. unfold add. cbn [fst snd].
    destruct rec as (e & rows & labels). cbn [number fst snd] in *. rewrite <- HN in *. clear HN.
    destruct (Z.of_nat (length cur) =? max) eqn:EM.
    - (* a new file was started *)
      apply Z.eqb_eq in EM.
      destruct C1 as (O1 & R1 & M1 & N1 & W1 & L1 & S1 & F1 & G1 & K1).
      rewrite R1, HP. unfold store_event. rewrite O1, N1, G1. cbn [new_file wf_sets wf_attrs create dget].
      unfold create. cbn [dget app].
      assert (CL : String.eqb (cloud_name e) (labels_name e) = false).
      { apply String.eqb_neq. apply cloud_labels_ne. }
      cbn [dget]. rewrite String.eqb_sym in CL. rewrite CL. eexists. split; [reflexivity|]. cbn [fst snd].
      set (done' := done ++ [cur]) in *.
      constructor; cbn [w_open w_response w_max w_run w_written w_last w_start w_disk]; auto.
      + rewrite W1. reflexivity.
      + rewrite S1. unfold done'. rewrite app_length. simpl. now rewrite Nat.add_comm.
      + unfold done'. rewrite concat_snoc, map_app. simpl. now rewrite lastZ_snoc.
      + intros i f H. rewrite !get_put_ne; [now apply F1| |];
          intros E; apply run_name_inj in E;
          assert ((i < length done')%nat) by (apply nth_error_Some; congruence); lia.
      + rewrite get_put_eq. reflexivity.
      + intros name H. rewrite !get_put_ne by (apply H; lia). now apply K1.
      + apply Forall_app. split; [apply I|]. constructor; auto.
      + intros. discriminate.
      + intros M0. rewrite M0 in EM. destruct cur; [|simpl in EM; lia].
        subst done'. destruct done; [simpl; lia|]. exfalso.
        apply (I_curlen _ _ _ _ _ _ _ I); [lia|congruence|reflexivity].
    - (* same file *)
      apply Z.eqb_neq in EM. subst w1. specialize (HD EM).
      rewrite (I_resp _ _ _ _ _ _ _ I), HP. unfold store_event.
      rewrite (I_open _ _ _ _ _ _ _ I), (I_run _ _ _ _ _ _ _ I), (I_cur _ _ _ _ _ _ _ I).
      cbn [wf_sets wf_attrs]. unfold create.
      rewrite (proj2 (dget_sets_cloud _ _ _) HD).
      assert (LN : forall k v, dget String.eqb (sets_of k cur ++ [(cloud_name e, v)])%list (labels_name e) = None).
      { intros k v. rewrite (dget_none _ String.eqb_eq), map_app, in_app_iff. intros [H|H].
        - revert H. apply (dget_none _ String.eqb_eq). now apply dget_sets_labels.
        - destruct H as [H|[]]. simpl in H. now apply cloud_labels_ne in H. }
      rewrite LN. eexists. split; [reflexivity|].
      constructor; cbn [fst snd w_open w_response w_max w_run w_written w_last w_start w_disk]; auto.
      + apply I.
      + apply I.
      + rewrite (I_written _ _ _ _ _ _ _ I), app_length. simpl. lia.
      + rewrite (I_start _ _ _ _ _ _ _ I). destruct done as [|x done]; [reflexivity|].
        destruct (Z_lt_le_dec max 0) as [Hm|Hm].
        * exfalso. assert (HF := I_len _ _ _ _ _ _ _ I). inversion HF; subst; lia.
        * assert (cur <> []) by (apply (I_curlen _ _ _ _ _ _ _ I); [lia|congruence]).
          destruct cur; [congruence|]. reflexivity.
      + rewrite app_assoc, map_app. simpl. now rewrite lastZ_snoc.
      + intros i f H. rewrite !get_put_ne; [now apply I| |];
          intros E; apply run_name_inj in E;
          assert ((i < length done)%nat) by (apply nth_error_Some; congruence); lia.
      + rewrite get_put_eq. f_equal. f_equal. rewrite sets_of_app. rewrite <- app_assoc. reflexivity.
      + intros name H. rewrite !get_put_ne by (apply H; lia). now apply I.
      + apply I.
      + intros _ _ E. now destruct cur.
      + intros H. rewrite app_length. simpl. assert (L := I_le _ _ _ _ _ _ _ I H). lia.
      + intros H. now apply (I_zero _ _ _ _ _ _ _ I).
  Qed.

  (** A successful write determines its record. *)
  Lemma write_ok_inv done cur w (c : wcall) w' :
    Inv resp max r0 d0 done cur w ->
    write fexp argsort w (cl_data c) (cl_labels c) (cl_config c) (cl_event c) = (w', Ok tt) ->
    exists out, process fexp argsort resp (cl_config c) (cl_data c) (cl_labels c) = Ok out /\
      (Z.of_nat (length cur) <> max -> ~ In (cl_event c) (map number cur)).
  Proof.
    intros I H. destruct (roll_inv done cur w (cl_event c) I) as (w1 & ER & C1).
    unfold write in H. rewrite ER in H.
    assert (R1 : w_response w1 = resp).
    { destruct (_ =? max); [apply C1|]. subst. apply I. }
    rewrite R1 in H. destruct (process _ _ _ _ _ _) as [[rows labels]|x]; [|discriminate].
    eexists. split; [reflexivity|]. intros EM. apply Z.eqb_neq in EM. rewrite EM in C1. subst w1.
    unfold store_event in H.
    rewrite (I_open _ _ _ _ _ _ _ I), (I_run _ _ _ _ _ _ _ I), (I_cur _ _ _ _ _ _ _ I) in H.
    cbn [wf_sets] in H. unfold create in H.
    destruct (dget String.eqb (sets_of _ cur) (cloud_name (cl_event c))) eqn:E; [discriminate|].
    now apply dget_sets_cloud in E.
  Qed.

  Definition spread (recs : list event_record) s := fold_left (add max) recs s.

  Lemma writes_inv calls : forall recs done cur w,
    Inv resp max r0 d0 done cur w ->
    processed fexp argsort resp calls recs ->
    NoDup (map number cur ++ map cl_event calls) ->
    exists w', do_writes fexp argsort w calls = (w', Ok tt) /\
      Inv resp max r0 d0 (fst (spread recs (done, cur))) (snd (spread recs (done, cur))) w'.
  Proof.
    induction calls as [|c calls IH]; intros recs done cur w I P ND; inversion P; subst; simpl.
    - eauto.
    - match goal with H : _ /\ _ |- _ => destruct H as [HN HP] end.
      cbn [map] in ND.
      assert (Hc : ~ In (cl_event c) (map number cur)).
      { apply NoDup_remove_2 in ND. rewrite in_app_iff in ND. tauto. }
      edestruct (write_inv done cur w c y I HN HP) as (w1 & E1 & I1); [auto|].
      rewrite E1. unfold spread. cbn [fold_left]. fold (spread l' (add max (done, cur) y)).
      rewrite (surjective_pairing (add max (done, cur) y)). apply IH; auto.
      unfold add. cbn [fst snd]. destruct (_ =? _); cbn [snd map].
      + rewrite HN. apply (NoDup_remove_1 _ _ _) in ND as ND1.
        constructor.
        * apply NoDup_remove_2 in ND. rewrite in_app_iff in ND. simpl. tauto.
        * simpl. clear -ND1. revert ND1. generalize (map number cur). induction l; simpl; auto.
          intros H. inversion H; auto.
      + rewrite map_app, <- app_assoc. simpl. rewrite HN. exact ND.
  Qed.

  Lemma writes_ok_inv calls : forall done cur w w',
    Inv resp max r0 d0 done cur w ->
    do_writes fexp argsort w calls = (w', Ok tt) ->
    exists recs, processed fexp argsort resp calls recs /\
      Inv resp max r0 d0 (fst (spread recs (done, cur))) (snd (spread recs (done, cur))) w'.
  Proof.
    induction calls as [|c calls IH]; intros done cur w w' I H; simpl in H.
    - injection H as ->. exists []. split; [constructor|]. exact I.
    - destruct (write _ _ _ _ _ _ _) as (w1 & [[]|x]) eqn:E; [|discriminate].
      destruct (write_ok_inv _ _ _ _ _ I E) as (out & HP & HD).
      destruct (write_inv done cur w c (cl_event c, out) I eq_refl HP HD) as (w1' & E1 & I1).
      assert (w1' = w1) by congruence. subst w1'.
      destruct (IH _ _ _ _ I1 H) as (recs & P & I2).
      exists ((cl_event c, out) :: recs). split.
      + constructor; auto.
      + unfold spread. cbn [fold_left]. rewrite (surjective_pairing (add max (done, cur) _)). exact I2.
  Qed.

  Lemma spread_concat recs : forall done cur,
    concat (fst (spread recs (done, cur)) ++ [snd (spread recs (done, cur))]) = concat done ++ cur ++ recs.
  Proof.
    induction recs as [|x recs IH]; intros done cur; unfold spread; cbn [fold_left].
    - cbn [fst snd]. rewrite concat_snoc, app_nil_r. reflexivity.
    - fold (spread recs (add max (done, cur) x)). rewrite (surjective_pairing (add max (done, cur) x)).
      rewrite IH. unfold add. cbn [fst snd]. destruct (_ =? _); cbn [fst snd].
      + rewrite concat_snoc, <- !app_assoc. reflexivity.
      + now rewrite <- !app_assoc.
  Qed.
End Step.
