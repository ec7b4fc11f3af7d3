(** P_WriterFail.v -- C64: a writer whose calls may fail, used by a caller who goes on. *)
From Coq Require Import ZArith Reals Lia Lra String Sorted.
From Flocq Require Import Core BinarySingleNaN.
From Verif Require Import Base F64 F64Bounds Simulator Response KinFile Writer SpecWriter WriterProofs P_Writer P_Response P_Cloud.
Local Open Scope Z_scope.
Local Open Scope list_scope.

Section Attempts.
  Context (fexp : f64 -> f64) (argsort : list f64 -> list nat).

  (** All calls, each with its result; the caller catches every exception. *)
  Fixpoint attempts (w : writer) (calls : list wcall) : writer * list (wcall * res unit) :=
    match calls with
    | [] => (w, [])
    | c :: calls' =>
        let (w1, r) := write fexp argsort w (cl_data c) (cl_labels c) (cl_config c) (cl_event c) in
        let (w2, rs) := attempts w1 calls' in (w2, (c, r) :: rs)
    end.
  Definition succeeded (rs : list (wcall * res unit)) : list wcall :=
    map fst (filter (fun x => match snd x with Ok _ => true | Err _ => false end) rs).

  Context (resp : list f64) (max r0 : Z) (d0 : disk) (Hmax : 1 <= max).

  (** The state of the writer: [done] are the completed files with the lower end of their range,
      [cur] the current one. *)
  Record Inv2 (done : list (Z * list event_record)) (cur : list event_record) (w : writer) : Prop := mkInv2 {
    J_resp : w_response w = resp;
    J_max : w_max w = max;
    J_run : w_run w = r0 + Z.of_nat (length done);
    J_written : w_written w = Z.of_nat (length cur);
    J_open : w_open w = true;
    J_last : w_last w = lastZ (map number (concat (map snd done) ++ cur));
    J_done : forall i lo f, nth_error done i = Some (lo, f) ->
        get_file (w_disk w) (run_name (r0 + Z.of_nat i)) =
        Some (mkWfile [("min_event"%string, lo); ("max_event"%string, lastZ (map number f))] (sets_of (r0 + Z.of_nat i) f));
    J_cur : get_file (w_disk w) (run_name (r0 + Z.of_nat (length done)))
            = Some (mkWfile [] (sets_of (r0 + Z.of_nat (length done)) cur));
    J_len : Forall (fun x => Z.of_nat (length (snd x)) = max) done;
    J_le : Z.of_nat (length cur) <= max }.

  Lemma inv2_init : Inv2 [] [] (init resp max r0 d0).
  Proof using Hmax.
    constructor; simpl; auto; try lia.
    - intros [|i] lo f; discriminate.
    - rewrite Z.add_0_r. apply get_put_eq.
  Qed.

  Lemma last_of_files (l : list (list event_record)) f : f <> [] ->
    lastZ (map number (concat l ++ f)) = lastZ (map number f).
  Proof.
    intros N. unfold lastZ. rewrite map_app. apply last_app_ne. now destruct f.
  Qed.

  (** Closing the current file. *)
  Lemma close_inv2 done cur w : Inv2 done cur w ->
    exists w', close w = (w', Ok tt) /\ w_open w' = false /\ w_response w' = resp /\ w_max w' = max
      /\ w_run w' = w_run w /\ w_last w' = w_last w
      /\ (forall i lo f, nth_error done i = Some (lo, f) ->
           get_file (w_disk w') (run_name (r0 + Z.of_nat i)) =
           Some (mkWfile [("min_event"%string, lo); ("max_event"%string, lastZ (map number f))] (sets_of (r0 + Z.of_nat i) f)))
      /\ get_file (w_disk w') (run_name (r0 + Z.of_nat (length done))) =
           Some (mkWfile [("min_event"%string, w_start w); ("max_event"%string, w_last w)] (sets_of (r0 + Z.of_nat (length done)) cur)).
  Proof.
    intros I. unfold close. rewrite (J_open _ _ _ I), (J_run _ _ _ I), (J_cur _ _ _ I).
    eexists. split; [reflexivity|]. cbn [w_open w_response w_max w_run w_written w_last w_start w_disk].
    split; [reflexivity|]. split; [apply I|]. split; [apply I|]. split; [reflexivity|]. split; [reflexivity|].
    split.
    - intros i lo f H. rewrite get_put_ne; [now apply I|]. intros E. apply run_name_inj in E.
      assert ((i < length done)%nat) by (apply nth_error_Some; congruence). lia.
    - now rewrite get_put_eq.
  Qed.

  Definition settle (done : list (Z * list event_record)) (cur : list event_record) (start e : Z) :=
    if Z.of_nat (length cur) =? max then (done ++ [(start, cur)], [], e) else (done, cur, start).

  Lemma roll_inv2 done cur w e : Inv2 done cur w ->
    exists w', roll w e = (w', Ok tt) /\
      let '(done', cur', start') := settle done cur (w_start w) e in
      Inv2 done' cur' w' /\ w_start w' = start' /\ Z.of_nat (length cur') <> max.
  Proof using Hmax.
    intros I. unfold roll, settle. rewrite (J_written _ _ _ I), (J_max _ _ _ I).
    destruct (Z.eqb_spec (Z.of_nat (length cur)) max) as [EM|EM]; [|exists w; split; [reflexivity|]; auto].
    destruct (close_inv2 _ _ _ I) as (w1 & -> & O1 & R1 & M1 & N1 & L1 & F1 & G1).
    eexists. split; [reflexivity|].
    unfold create_next_file. cbn [w_open w_response w_max w_run w_written w_last w_start w_disk].
    assert (RN : w_run w1 + 1 = r0 + Z.of_nat (length (done ++ [(w_start w, cur)]))).
    { rewrite N1, (J_run _ _ _ I), app_length. simpl. lia. }
    rewrite RN. split; [|split; [reflexivity|cbn [length]; lia]].
    constructor; cbn [w_open w_response w_max w_run w_written w_last w_start w_disk]; auto.
    - rewrite L1, (J_last _ _ _ I). rewrite (map_app snd), concat_app. cbn [map concat snd]. now rewrite !app_nil_r.
    - intros i lo f H. rewrite get_put_ne.
      + destruct (Nat.lt_trichotomy i (length done)) as [L|[L|L]].
        * rewrite nth_error_app1 in H by auto. now apply F1.
        * subst i. rewrite nth_error_app2, Nat.sub_diag in H by auto. cbn [nth_error] in H.
          assert (lo = w_start w /\ f = cur) as [-> ->] by (split; congruence).
          rewrite G1. rewrite (J_last _ _ _ I). rewrite last_of_files; [reflexivity|].
          intros ->. cbn [length] in EM. lia.
        * rewrite nth_error_app2 in H by lia. destruct (i - length done)%nat eqn:E; [lia|]. destruct n; discriminate.
      + intros E. apply run_name_inj in E.
        assert ((i < length (done ++ [(w_start w, cur)]))%nat) by (apply nth_error_Some; congruence). lia.
    - apply get_put_eq.
    - apply Forall_app. split; [apply I|]. constructor; auto.
    - cbn [length]. lia.
  Qed.

  (** One attempt: what it stored, if it succeeded. *)
  Lemma attempt_inv2 done cur w (c : wcall) w' r : Inv2 done cur w ->
    write fexp argsort w (cl_data c) (cl_labels c) (cl_config c) (cl_event c) = (w', r) ->
    let '(done', cur', start') := settle done cur (w_start w) (cl_event c) in
    w_start w' = start' /\
    match r with
    | Ok _ => exists rec, number rec = cl_event c /\
                process fexp argsort resp (cl_config c) (cl_data c) (cl_labels c) = Ok (snd rec) /\
                Inv2 done' (cur' ++ [rec]) w'
    | Err x => Inv2 done' cur' w' /\
                (process fexp argsort resp (cl_config c) (cl_data c) (cl_labels c) = Err x \/
                 x = ValueError /\ In (cl_event c) (map number cur'))
    end.
  Proof using Hmax.
    intros I E. destruct (roll_inv2 done cur w (cl_event c) I) as (w1 & ER & S).
    destruct (settle _ _ _ _) as ((done' & cur') & start'). destruct S as (I1 & S1 & L1).
    unfold write in E. rewrite ER, (J_resp _ _ _ I1) in E.
    destruct (process _ _ _ _ _ _) as [[rows labels]|x] eqn:HP.
    2:{ assert (w' = w1 /\ r = Err x) as [-> ->] by (split; congruence). auto. }
    unfold store_event in E. rewrite (J_open _ _ _ I1), (J_run _ _ _ I1), (J_cur _ _ _ I1) in E.
    cbn [wf_sets wf_attrs] in E. unfold create in E.
    destruct (dget String.eqb (sets_of _ cur') (cloud_name (cl_event c))) eqn:G.
    { assert (w' = w1 /\ r = Err ValueError) as [-> ->] by (split; congruence). split; [exact S1|]. split; [exact I1|].
      right. split; [reflexivity|].
      destruct (in_dec Z.eq_dec (cl_event c) (map number cur')) as [Y|Y]; [exact Y|].
      apply (dget_sets_cloud argsort resp (r0 + Z.of_nat (length done'))) in Y. congruence. }
    apply (dget_sets_cloud argsort resp) in G.
    assert (LN : forall k v, dget String.eqb (sets_of k cur' ++ [(cloud_name (cl_event c), v)])%list (labels_name (cl_event c)) = None).
    { intros k v. rewrite (dget_none _ String.eqb_eq), map_app, in_app_iff. intros [H|H].
      - revert H. apply (dget_none _ String.eqb_eq). now apply (dget_sets_labels argsort resp).
      - destruct H as [H|[]]. simpl in H. now apply cloud_labels_ne in H. }
    rewrite LN in E. apply pair_equal_spec in E. destruct E as (<- & <-). cbn [w_start]. split; [exact S1|].
    exists (cl_event c, (rows, labels)). split; [reflexivity|]. split; [reflexivity|].
    constructor; cbn [fst snd w_open w_response w_max w_run w_written w_last w_start w_disk]; auto.
    - apply I1.
    - apply I1.
    - rewrite (J_written _ _ _ I1), app_length. simpl. lia.
    - rewrite app_assoc, map_app. simpl. now rewrite lastZ_snoc.
    - intros i lo f H. rewrite !get_put_ne; [now apply I1| |];
        intros Q; apply run_name_inj in Q;
        assert ((i < length done')%nat) by (apply nth_error_Some; congruence); lia.
    - rewrite get_put_eq. f_equal. f_equal. rewrite sets_of_app. rewrite <- app_assoc. reflexivity.
    - apply I1.
    - pose proof (J_le _ _ _ I1). rewrite app_length. cbn [length]. lia.
  Qed.

  (** Ranges: numbers stored so far are at most [prev]. *)
  Record Ranges (done : list (Z * list event_record)) (cur : list event_record) (start prev : Z) : Prop := mkRanges {
    K_prev : forall r, In r (concat (map snd done) ++ cur) -> number r <= prev;
    K_start : start <= Z.max 0 prev;
    K_done : forall lo f, In (lo, f) done -> forall r, In r f -> lo <= number r;
    K_max : forall lo f, In (lo, f) done -> forall r, In r f -> number r <= lastZ (map number f);
    K_cur : forall r, In r cur -> start <= number r <= lastZ (map number cur);
    K_below : forall lo f, In (lo, f) done -> lastZ (map number f) < start;
    K_incr : forall i j lo f lo' f', (i < j)%nat -> nth_error done i = Some (lo, f) -> nth_error done j = Some (lo', f') ->
      lastZ (map number f) < lo' }.

  Lemma last_in_ne (f : list event_record) : f <> [] -> exists r, In r f /\ number r = lastZ (map number f).
  Proof.
    intros N. assert (H : In (lastZ (map number f)) (map number f)) by (apply last_in; now destruct f).
    apply in_map_iff in H. destruct H as (r & E & H). eauto.
  Qed.

  Lemma ranges_settle done cur start prev e : Ranges done cur start prev ->
    Forall (fun x => Z.of_nat (length (snd x)) = max) done ->
    prev < e -> 0 <= e ->
    let '(done', cur', start') := settle done cur start e in Ranges done' cur' start' e.
  Proof using Hmax.
    intros K L He H0. unfold settle. destruct (Z.eqb_spec (Z.of_nat (length cur)) max) as [EM|EM].
    - destruct K as [K1 K2 K3 K4 K5 K6 K7]. constructor.
      + intros r Hr. rewrite (map_app snd), concat_app in Hr. cbn [map concat snd] in Hr. rewrite !app_nil_r in Hr.
        specialize (K1 r Hr). lia.
      + lia.
      + intros lo f H r Hr. apply in_app_or in H. destruct H as [H|[H|[]]]; [eauto|].
        injection H as <- <-. now apply K5.
      + intros lo f H r Hr. apply in_app_or in H. destruct H as [H|[H|[]]]; [eauto|].
        injection H as <- <-. now apply K5.
      + intros r [].
      + intros lo f H. apply in_app_or in H.
        assert (F : f <> [] /\ forall r, In r f -> number r <= prev).
        { destruct H as [H|[H|[]]].
          - rewrite Forall_forall in L. specialize (L _ H). cbn [snd] in L. split; [intros ->; cbn [length] in L; lia|].
            intros r Hr. apply K1. apply in_or_app. left. apply in_concat. exists f. split; [|exact Hr].
            apply in_map_iff. now exists (lo, f).
          - injection H as <- <-. split; [intros ->; cbn [length] in EM; lia|].
            intros r Hr. apply K1. apply in_or_app. now right. }
        destruct F as [N F]. destruct (last_in_ne f N) as (r & Hr & <-). specialize (F r Hr). lia.
      + intros i j lo f lo' f' Hij Hi Hj.
        assert (Lj : (j < length (done ++ [(start, cur)]))%nat) by (apply nth_error_Some; congruence).
        rewrite app_length in Lj. cbn [length] in Lj.
        rewrite nth_error_app1 in Hi by lia.
        destruct (Nat.lt_ge_cases j (length done)) as [J|J].
        * rewrite nth_error_app1 in Hj by lia. exact (K7 i j lo f lo' f' Hij Hi Hj).
        * replace j with (length done) in Hj by lia. rewrite nth_error_app2, Nat.sub_diag in Hj by lia.
          cbn [nth_error] in Hj. assert (lo' = start) as -> by congruence. eapply K6. eapply nth_error_In; eauto.
    - destruct K as [K1 K2 K3 K4 K5 K6 K7]. constructor; auto.
      + intros r Hr. specialize (K1 r Hr). lia.
      + lia.
  Qed.

  Lemma ranges_add done cur start e rec : Ranges done cur start e -> 
    (forall r, In r cur -> number r <= e) -> start <= e -> number rec = e ->
    Ranges done (cur ++ [rec]) start e.
  Proof.
    intros [K1 K2 K3 K4 K5 K6 K7] H1 H2 <-. constructor; auto.
    - intros r Hr. rewrite app_assoc in Hr. apply in_app_or in Hr. destruct Hr as [Hr|[<-|[]]]; [auto|lia].
    - intros r Hr. rewrite map_app. cbn [map]. rewrite lastZ_snoc. apply in_app_or in Hr.
      destruct Hr as [Hr|[<-|[]]]; [|lia]. pose proof (K5 r Hr). specialize (H1 r Hr). lia.
  Qed.

  Lemma attempts_inv2 calls : forall done cur w w' rs,
    Inv2 done cur w -> attempts w calls = (w', rs) ->
    exists done' cur' recs, Inv2 done' cur' w' /\ processed fexp argsort resp (succeeded rs) recs /\
      concat (map snd done') ++ cur' = concat (map snd done) ++ cur ++ recs /\
      map fst rs = calls /\
      (forall prev, Ranges done cur (w_start w) prev -> StronglySorted Z.lt (prev :: map cl_event calls) ->
         Forall (fun e => 0 <= e) (map cl_event calls) ->
         exists prev', Ranges done' cur' (w_start w') prev').
  Proof using Hmax.
    induction calls as [|c calls IH]; intros done cur w w' rs I E; cbn [attempts] in E.
    - apply pair_equal_spec in E. destruct E as (<- & <-). exists done, cur, [].
      split; [exact I|]. split; [constructor|]. rewrite app_nil_r. split; [reflexivity|]. split; [reflexivity|].
      intros prev K _ _. eauto.
    - destruct (write _ _ _ _ _ _ _) as (w1 & r) eqn:E1. destruct (attempts w1 calls) as (w2 & rs2) eqn:E2.
      apply pair_equal_spec in E. destruct E as (<- & <-).
      pose proof (attempt_inv2 done cur w c w1 r I E1) as A.
      pose proof (ranges_settle done cur (w_start w)) as RS.
      assert (CS : forall d1 c1 s1, settle done cur (w_start w) (cl_event c) = (d1, c1, s1) ->
        concat (map snd d1) ++ c1 = concat (map snd done) ++ cur).
      { intros d1 c1 s1 Q. unfold settle in Q. destruct (_ =? max).
        - apply pair_equal_spec in Q. destruct Q as (Q & _). apply pair_equal_spec in Q. destruct Q as (<- & <-).
          rewrite (map_app snd), concat_app. cbn [map concat snd]. now rewrite !app_nil_r.
        - apply pair_equal_spec in Q. destruct Q as (Q & _). apply pair_equal_spec in Q. now destruct Q as (<- & <-). }
      specialize (RS). destruct (settle done cur (w_start w) (cl_event c)) as ((done1 & cur1) & start1) eqn:ES.
      specialize (CS _ _ _ eq_refl). destruct A as (S1 & A).
      assert (RS' : forall prev, Ranges done cur (w_start w) prev -> prev < cl_event c -> 0 <= cl_event c ->
                Ranges done1 cur1 (w_start w1) (cl_event c)).
      { intros prev K Hp H0. specialize (RS prev (cl_event c) K (J_len _ _ _ I) Hp H0). rewrite ES in RS. now rewrite S1. }
      destruct r as [u|x].
      + destruct A as (rec & HN & HP & I1).
        destruct (IH _ _ _ _ _ I1 E2) as (done' & cur' & recs & I' & P & C & M & R).
        exists done', cur', (rec :: recs). split; [exact I'|]. split; [|split; [|split]].
        * unfold succeeded. cbn [filter snd map fst]. constructor; auto.
        * rewrite C, <- !app_assoc. cbn [app]. rewrite app_assoc, CS. now rewrite <- app_assoc.
        * cbn [map fst]. now rewrite M.
        * intros prev K SS NN. cbn [map] in SS, NN. inversion SS as [|? ? SS1 F1]; subst.
          inversion NN; subst. assert (prev < cl_event c) by (now apply Forall_inv in F1).
          assert (K1 := RS' prev K ltac:(assumption) ltac:(assumption)).
          apply (R (cl_event c)); auto. apply ranges_add; auto.
          -- intros r Hr. apply (K_prev _ _ _ _ K1). apply in_or_app. now right.
          -- pose proof (K_start _ _ _ _ K1). lia.
      + destruct A as (I1 & _).
        destruct (IH _ _ _ _ _ I1 E2) as (done' & cur' & recs & I' & P & C & M & R).
        exists done', cur', recs. split; [exact I'|]. split; [exact P|]. split; [|split].
        * rewrite C, app_assoc, CS. now rewrite <- app_assoc.
        * cbn [map fst]. now rewrite M.
        * intros prev K SS NN. cbn [map] in SS, NN. inversion SS as [|? ? SS1 F1]; subst.
          inversion NN; subst. assert (prev < cl_event c) by (now apply Forall_inv in F1).
          apply (R (cl_event c)); auto. now apply (RS' prev).
  Qed.

  Lemma inv2_stored done cur w : Inv2 done cur w -> stored (w_disk w) r0 (map snd done ++ [cur]).
  Proof.
    intros I i f H. destruct (Nat.lt_trichotomy i (length done)) as [L|[L|L]].
    - rewrite nth_error_app1 in H by (now rewrite map_length). rewrite nth_error_map in H.
      destruct (nth_error done i) as [[lo g]|] eqn:Hi; [|discriminate]. cbn in H. assert (g = f) as -> by congruence.
      eexists. split; [exact (J_done _ _ _ I _ _ _ Hi)|]. reflexivity.
    - subst i. rewrite nth_error_app2, map_length, Nat.sub_diag in H by (now rewrite map_length).
      cbn [nth_error] in H. assert (f = cur) as -> by congruence.
      eexists. split; [exact (J_cur _ _ _ I)|]. reflexivity.
    - rewrite nth_error_app2, map_length in H by (rewrite map_length; lia).
      destruct (i - length done)%nat eqn:E; [lia|]. destruct n; discriminate.
  Qed.

  (** C64: whichever calls fail, the files hold exactly the events of the calls that succeeded, in
      order, every file but the last one full. *)
  Theorem C64_failed_writes_lose_nothing calls w rs :
    attempts (init resp max r0 d0) calls = (w, rs) ->
    map fst rs = calls /\
    exists recs files,
      processed fexp argsort resp (succeeded rs) recs /\ concat files = recs /\ files <> [] /\
      w_run w = r0 + Z.of_nat (length files) - 1 /\ w_open w = true /\
      stored (w_disk w) r0 files /\
      forall i f, nth_error files i = Some f ->
        Z.of_nat (length f) <= max /\ ((S i < length files)%nat -> Z.of_nat (length f) = max).
  Proof using Hmax.
    intros E. destruct (attempts_inv2 calls [] [] _ _ _ inv2_init E) as (done & cur & recs & I & P & C & M & _).
    split; [exact M|]. exists recs, (map snd done ++ [cur]). split; [exact P|].
    split. { rewrite concat_app. cbn [concat]. rewrite app_nil_r. exact C. }
    split; [intros Q; now apply app_eq_nil in Q|].
    split. { rewrite (J_run _ _ _ I), app_length, map_length. cbn [length]. lia. }
    split; [apply I|]. split; [now apply inv2_stored|].
    intros i f H. rewrite app_length, map_length. cbn [length].
    destruct (Nat.lt_ge_cases i (length done)) as [L|L].
    - rewrite nth_error_app1 in H by (now rewrite map_length). apply nth_error_In, in_map_iff in H.
      destruct H as (x & <- & H). pose proof (J_len _ _ _ I) as F. rewrite Forall_forall in F. specialize (F x H).
      cbn beta in F. split; [lia|auto].
    - assert (i = length done) as ->.
      { assert (X : (i < length (map snd done ++ [cur]))%nat) by (apply nth_error_Some; congruence).
        rewrite app_length, map_length in X. cbn [length] in X. lia. }
      rewrite nth_error_app2, map_length, Nat.sub_diag in H by (now rewrite map_length).
      cbn [nth_error] in H. assert (f = cur) as -> by congruence. split; [apply I|lia].
  Qed.

  (** C64: a write fails only because the cloud cannot be converted, or because the current file has
      an event of that number already; either way everything stored before is still there, and the
      writer is open. *)
  Theorem C64_reasons calls w rs c w' x :
    attempts (init resp max r0 d0) calls = (w, rs) ->
    write fexp argsort w (cl_data c) (cl_labels c) (cl_config c) (cl_event c) = (w', Err x) ->
    w_open w' = true /\
    (forall n h, r0 <= n <= w_run w ->
       get_file (w_disk w) (run_name n) = Some h ->
       exists h', get_file (w_disk w') (run_name n) = Some h' /\ wf_sets h' = wf_sets h) /\
    (process fexp argsort resp (cl_config c) (cl_data c) (cl_labels c) = Err x \/
     x = ValueError /\ w' = w /\
     exists h, get_file (w_disk w) (run_name (w_run w)) = Some h /\
       In (append "cloud_" (string_of_Z (cl_event c))) (map fst (wf_sets h))).
  Proof using Hmax.
    intros E EW. destruct (attempts_inv2 calls [] [] _ _ _ inv2_init E) as (done & cur & recs & I & _).
    pose proof (attempt_inv2 done cur w c w' (Err x) I EW) as A.
    destruct (settle _ _ _ _) as ((done1 & cur1) & start1) eqn:ES. destruct A as (S1 & I1 & W).
    split; [apply I1|]. split.
    - intros n h Hn Hh. set (k := Z.to_nat (n - r0)). rewrite (J_run _ _ _ I) in Hn.
      assert (En : n = r0 + Z.of_nat k) by (unfold k; lia). rewrite En in *.
      assert (Hk : (k <= length done)%nat) by (unfold k; lia).
      unfold settle in ES. destruct (Z.eqb_spec (Z.of_nat (length cur)) max) as [EM|EM];
        apply pair_equal_spec in ES; destruct ES as (ES & _); apply pair_equal_spec in ES; destruct ES as (<- & <-).
      + destruct (Nat.eq_dec k (length done)) as [->|Nk].
        * rewrite (J_cur _ _ _ I) in Hh. eexists. split.
          -- eapply (J_done _ _ _ I1 (length done)). rewrite nth_error_app2, Nat.sub_diag by auto. reflexivity.
          -- cbn [wf_sets]. assert (h = mkWfile [] (sets_of (r0 + Z.of_nat (length done)) cur)) as -> by congruence. reflexivity.
        * destruct (nth_error done k) as [[lo f]|] eqn:Hd; [|apply nth_error_None in Hd; lia].
          rewrite (J_done _ _ _ I _ _ _ Hd) in Hh. eexists. split.
          -- eapply (J_done _ _ _ I1 k). rewrite nth_error_app1 by lia. exact Hd.
          -- cbn [wf_sets]. match type of Hh with Some ?a = _ => assert (h = a) as -> by congruence end. reflexivity.
      + destruct (Nat.eq_dec k (length done)) as [->|Nk].
        * rewrite (J_cur _ _ _ I) in Hh. eexists. split; [apply (J_cur _ _ _ I1)|].
          match type of Hh with Some ?a = _ => assert (h = a) as -> by congruence end. reflexivity.
        * destruct (nth_error done k) as [[lo f]|] eqn:Hd; [|apply nth_error_None in Hd; lia].
          rewrite (J_done _ _ _ I _ _ _ Hd) in Hh. eexists. split; [apply (J_done _ _ _ I1 _ _ _ Hd)|].
          match type of Hh with Some ?a = _ => assert (h = a) as -> by congruence end. reflexivity.
    - destruct W as [W|(-> & W)]; [now left|].
      destruct (process fexp argsort resp (cl_config c) (cl_data c) (cl_labels c)) as [[rows labels]|y] eqn:HP.
      2:{ left. unfold write in EW. destruct (roll_inv2 done cur w (cl_event c) I) as (w1 & ER & SR).
          destruct (settle done cur (w_start w) (cl_event c)) as ((d2 & c2) & s2). destruct SR as (SR & _).
          rewrite ER, (J_resp _ _ _ SR), HP in EW. congruence. }
      right. unfold settle in ES. destruct (Z.eqb_spec (Z.of_nat (length cur)) max) as [EM|EM];
        apply pair_equal_spec in ES; destruct ES as (ES & _); apply pair_equal_spec in ES; destruct ES as (<- & <-).
      { destruct W. }
      split; [reflexivity|].
      assert (NM : (w_written w =? w_max w) = false) by (rewrite (J_written _ _ _ I), (J_max _ _ _ I); now apply Z.eqb_neq).
      unfold write, roll in EW. rewrite NM, (J_resp _ _ _ I), HP in EW. unfold store_event in EW.
      rewrite (J_open _ _ _ I), (J_run _ _ _ I), (J_cur _ _ _ I) in EW. cbn [wf_sets] in EW. unfold create in EW.
      rewrite (J_run _ _ _ I).
      destruct (dget String.eqb (sets_of _ cur) (cloud_name (cl_event c))) eqn:G.
      + split; [congruence|]. eexists. split; [apply (J_cur _ _ _ I)|]. cbn [wf_sets].
        destruct (in_dec String.string_dec (cloud_name (cl_event c)) (map fst (sets_of (r0 + Z.of_nat (length done)) cur))) as [Y|Y]; [exact Y|].
        apply (dget_none _ String.eqb_eq) in Y. congruence.
      + apply (dget_sets_cloud argsort resp) in G. contradiction.
  Qed.

  (** C64: with increasing event numbers the ranges stay right when calls fail: they contain the
      stored events and are disjoint (of a last file without events nothing is said). *)
  Theorem C64_ranges calls w rs :
    attempts (init resp max r0 d0) calls = (w, rs) ->
    StronglySorted Z.lt (map cl_event calls) -> Forall (fun e => 0 <= e) (map cl_event calls) ->
    exists w' files lo hi recs,
      close w = (w', Ok tt) /\ processed fexp argsort resp (succeeded rs) recs /\ concat files = recs /\
      (forall i f, nth_error files i = Some f -> f <> [] -> exists h,
         get_file (w_disk w') (run_name (r0 + Z.of_nat i)) = Some h /\ holds h (r0 + Z.of_nat i) f /\
         attr h "min_event" = Some (lo i) /\ attr h "max_event" = Some (hi i) /\
         (forall r, In r f -> lo i <= number r <= hi i)) /\
      (forall i j f g, (i < j)%nat -> nth_error files i = Some f -> nth_error files j = Some g -> g <> [] -> hi i < lo j).
  Proof using Hmax.
    intros E SS NN. destruct (attempts_inv2 calls [] [] _ _ _ inv2_init E) as (done & cur & recs & I & P & C & M & R).
    destruct (R (-1)) as (prev & K).
    { constructor; cbn; try (intros; contradiction); try lia.
      intros i j lo f lo' f' _ Hi. destruct i; discriminate. }
    { constructor; [exact SS|]. apply Forall_forall. intros e He. rewrite Forall_forall in NN. specialize (NN e He). lia. }
    { exact NN. }
    destruct (close_inv2 _ _ _ I) as (w' & EC & O1 & R1 & M1 & N1 & L1 & F1 & G1).
    set (files := map snd done ++ [cur]).
    exists w', files, (fun i => match nth_error done i with Some x => fst x | None => w_start w end),
      (fun i => match nth_error done i with Some x => lastZ (map number (snd x)) | None => w_last w end), recs.
    split; [exact EC|]. split; [exact P|]. split; [unfold files; rewrite concat_app; cbn [concat]; rewrite app_nil_r; exact C|].
    assert (FD : forall i f, nth_error files i = Some f ->
      (exists lo, nth_error done i = Some (lo, f)) \/ (i = length done /\ nth_error done i = None /\ f = cur)).
    { intros i f H. unfold files in H. destruct (Nat.lt_ge_cases i (length done)) as [L|L].
      - left. rewrite nth_error_app1, nth_error_map in H by (now rewrite map_length).
        destruct (nth_error done i) as [[lo g]|]; [|discriminate]. cbn in H. exists lo. congruence.
      - right. assert (X : (i < length (map snd done ++ [cur]))%nat) by (apply nth_error_Some; congruence).
        rewrite app_length, map_length in X. cbn [length] in X. assert (i = length done) as -> by lia.
        rewrite nth_error_app2, map_length, Nat.sub_diag in H by (now rewrite map_length).
        cbn [nth_error] in H. split; [reflexivity|]. split; [now apply nth_error_None|congruence]. }
    split.
    - intros i f H Nf. destruct (FD i f H) as [(lo & Hd)|(-> & Hd & ->)].
      + eexists. split; [exact (F1 _ _ _ Hd)|]. split; [reflexivity|]. rewrite Hd. cbn [fst snd].
        split; [reflexivity|]. split; [reflexivity|].
        intros r Hr. apply nth_error_In in Hd. split; [eapply (K_done _ _ _ _ K)|eapply (K_max _ _ _ _ K)]; eauto.
      + eexists. split; [exact G1|]. split; [reflexivity|]. rewrite Hd.
        split; [reflexivity|]. split; [reflexivity|].
        intros r Hr. rewrite (J_last _ _ _ I), last_of_files by exact Nf. now apply (K_cur _ _ _ _ K).
    - intros i j f g Hij Hi Hj Ng. destruct (FD i f Hi) as [(lo & Hd)|(-> & Hd & ->)].
      + rewrite Hd. cbn [snd]. destruct (FD j g Hj) as [(lo' & Hd')|(-> & Hd' & ->)].
        * rewrite Hd'. cbn [fst]. exact (K_incr _ _ _ _ K i j lo f lo' g Hij Hd Hd').
        * rewrite Hd'. apply nth_error_In in Hd. eapply (K_below _ _ _ _ K); eauto.
      + exfalso. assert (X : (j < length files)%nat) by (apply nth_error_Some; congruence).
        unfold files in X. rewrite app_length, map_length in X. cbn [length] in X. lia.
  Qed.
End Attempts.

(** C64: the lower end of a range need not be the number of a stored event: it is the number of the
    first event that was tried. *)
Definition bad_call (e : Z) : wcall := mkCall [] [] (mkWconfig 560 10 fnan 40 None []) e.
Theorem C64_minimum_is_stored_refuted : forall fexp, exists calls w rs w' h,
  attempts fexp ex_sort (init [] 1 7 []) calls = (w, rs) /\ close w = (w', Ok tt) /\
  get_file (w_disk w') "run_0008.h5" = Some h /\
  attr h "min_event" = Some 4 /\ attr h "max_event" = Some 6 /\
  map fst (wf_sets h) = ["cloud_6"; "labels_6"]%string.
Proof.
  intros fexp. exists [ex_call 3; bad_call 4; ex_call 6]. do 4 eexists.
  split; [reflexivity|]. split; [reflexivity|]. split; [reflexivity|].
  split; [reflexivity|]. split; reflexivity.
Qed.

(** The hypotheses of C64 met with failures of both kinds: event 4 has no pad centres, 6 is repeated. *)
Example C64_example fexp :
  let '(w, rs) := attempts fexp ex_sort (init [] 2 7 []) [ex_call 3; bad_call 4; ex_call 6; bad_call 7; ex_call 8; ex_call 8] in
  map (fun x => (cl_event (fst x), snd x)) rs =
    [(3, Ok tt); (4, Err ValueError); (6, Ok tt); (7, Err ValueError); (8, Ok tt); (8, Err ValueError)] /\
  map cl_event (succeeded rs) = [3; 6; 8] /\
  map (fun f => (fst f, map fst (wf_sets (snd f)))) (w_disk w) =
    [("run_0007.h5", ["cloud_3"; "labels_3"; "cloud_6"; "labels_6"]);
     ("run_0008.h5", ["cloud_8"; "labels_8"])]%string.
Proof. vm_compute. repeat split. Qed.

(** ** Clouds below the threshold *)
Section Threshold.
  Context (fexp : f64 -> f64) (argsort : list f64 -> list nat).

  Lemma filter_none {A} (f : A -> bool) l : (forall x, In x l -> f x = false) -> filter f l = [].
  Proof.
    induction l as [|a l IH]; intros H; [reflexivity|]. cbn [filter]. rewrite H by now left.
    apply IH. intros x Hx. apply H. now right.
  Qed.

  (** C25: an event all of whose points stay at or below the threshold is not skipped: it is stored
      as an empty cloud and counts towards the events of the file. *)
  Theorem C25_below_threshold : forall resp c centers data labels w0 e,
    argsort_ok argsort -> response_ok resp -> config_ok c -> wc_centers c = Some centers ->
    Forall (point_ok c centers) data -> length labels = length data ->
    (forall p amp int, In p data -> apply_response resp (p_el p) = Ok (amp, int) -> (R64 amp <= IZR (wc_threshold c))%R) ->
    w0 = init resp 1 0 [] ->
    process fexp argsort resp c data labels = Ok ([], []) /\
    exists w h, write fexp argsort w0 data labels c e = (w, Ok tt) /\ w_written w = 1 /\
      get_file (w_disk w) "run_0000.h5" = Some h /\ holds h 0 [(e, ([], []))].
  Proof.
    intros resp c centers data labels w0 e Ha Hr Hc Ec Hp Hl HB ->.
    destruct (C25_stored_rows fexp argsort resp c centers data labels Ha Hr Hc Ec Hp Hl)
      as (conv & rows & labs & E & F2 & L & Pm & _).
    assert (N : filter (above c) (combine conv labels) = []).
    { apply filter_none. intros [r l] H. apply in_combine_l in H. unfold above. cbn [fst].
      assert (X : exists p, In p data /\ row_of fexp resp c centers p r).
      { clear - F2 H. induction F2; [destruct H|]. destruct H as [<-|H].
        - exists x. split; [now left|assumption].
        - destruct (IHF2 H) as (p & Hp & Hr). exists p. split; [now right|assumption]. }
      destruct X as (p & Ip & (pad & _ & _ & _ & _ & _ & A & _)). apply Rlt_bool_false. eapply HB; eauto. }
    rewrite N in Pm. apply Permutation.Permutation_sym, Permutation.Permutation_nil in Pm.
    assert (rows = [] /\ labs = []) as [-> ->].
    { destruct rows, labs; try discriminate; auto. }
    split; [exact E|]. do 2 eexists. split.
    - unfold write, roll. cbn [w_written w_max init Z.eqb w_response]. rewrite E. reflexivity.
    - split; [reflexivity|]. split; [reflexivity|]. reflexivity.
  Qed.

  (** C25: amplitudes saturate at 4095, so a threshold of 4095 or more (which ElectronicsParams accepts)
      empties every cloud. *)
  Theorem C25_threshold_above_saturation : forall resp c centers data labels,
    argsort_ok argsort -> response_ok resp -> config_ok c -> wc_centers c = Some centers ->
    Forall (point_ok c centers) data -> length labels = length data -> 4095 <= wc_threshold c ->
    process fexp argsort resp c data labels = Ok ([], []).
  Proof.
    intros resp c centers data labels Ha Hr Hc Ec Hp Hl Ht.
    refine (proj1 (C25_below_threshold resp c centers data labels _ 0 Ha Hr Hc Ec Hp Hl _ eq_refl)).
    intros p amp int Ip E. destruct Hr as (N & Ln & F). rewrite Forall_forall in Hp.
    destruct (Hp p Ip) as (_ & _ & _ & He).
    destruct (C26_adc_range resp (p_el p) N Ln F He) as (a & i & E' & _ & _ & (_ & B) & _).
    assert (a = amp) as -> by congruence. apply IZR_le in Ht. lra.
  Qed.
End Threshold.

Print Assumptions C64_failed_writes_lose_nothing.
Print Assumptions C64_reasons.
Print Assumptions C64_ranges.
Print Assumptions C64_minimum_is_stored_refuted.
Print Assumptions C25_below_threshold.
Print Assumptions C25_threshold_above_saturation.
