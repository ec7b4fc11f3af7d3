(** P_Cloud.v -- C25: the rows the Spyral writer stores for an event. *)
From Coq Require Import ZArith Reals Lia Lra Permutation Sorted.
From Flocq Require Import Core BinarySingleNaN.
From Verif Require Import Base F64 F64Bounds Num TransportF64 Simulator Response KinFile Writer SpecWriter P_Response.
Local Open Scope Z_scope.

(** The Spyral row of a point: centre and size of its pad, z in mm, amplitude, integral. *)
Definition row_of (fexp : f64 -> f64) (resp : list f64) (c : wconfig) (centers : list (f64 * f64))
    (p : point) (r : srow) : Prop :=
  exists pad : nat,
    f_to_Z (p_pad p) = Some (Z.of_nat pad) /\
    nth_error centers pad = Some (s_x r, s_y r) /\ nth_error (wc_sizes c) pad = Some (s_size r) /\
    s_pad r = p_pad p /\ s_tb r = p_tb p /\
    apply_response resp (p_el p) = Ok (s_amp r, s_int r) /\
    s_z r = fmul (fmul (fdiv (fsub (f_of_Z (wc_windows_edge c)) (p_tb p))
                             (f_of_Z (wc_windows_edge c - wc_mm_edge c))) (wc_length c)) (f_of_Z 1000).

(** What the writer relies on: different edges of reasonable size, finite length, a pad number
    with centre and size, a finite time bucket, a finite non-negative number of electrons. *)
Definition config_ok (c : wconfig) : Prop :=
  Z.abs (wc_windows_edge c) <= 2 ^ 50 /\ Z.abs (wc_mm_edge c) <= 2 ^ 50 /\
  wc_windows_edge c <> wc_mm_edge c /\ Z.abs (wc_threshold c) <= 2 ^ 53 /\
  is_finite (wc_length c) = true /\ (Rabs (R64 (wc_length c)) <= bpow radix2 900)%R.
Definition point_ok (c : wconfig) (centers : list (f64 * f64)) (p : point) : Prop :=
  (exists pad : nat, f_to_Z (p_pad p) = Some (Z.of_nat pad) /\ (pad < length centers)%nat /\
     (pad < length (wc_sizes c))%nat) /\
  is_finite (p_tb p) = true /\ (Rabs (R64 (p_tb p)) <= bpow radix2 53)%R /\ nonneg (p_el p).
Definition response_ok (resp : list f64) : Prop :=
  resp <> [] /\ Z.of_nat (length resp) <= 2 ^ 41 /\ Forall nonneg resp.

Definition above (c : wconfig) (rl : srow * Z) : bool :=
  Rlt_bool (IZR (wc_threshold c)) (R64 (s_amp (fst rl))).

Lemma mapM_ok {A B} (f : A -> res B) (P : A -> B -> Prop) l :
  Forall (fun a => exists b, f a = Ok b /\ P a b) l -> exists bs, mapM f l = Ok bs /\ Forall2 P l bs.
Proof.
  induction 1 as [|a l (b & E & Hb) H (bs & E2 & H2)]; simpl; [eexists; split; eauto|].
  rewrite E, E2. simpl. eexists. split; [reflexivity|]. now constructor.
Qed.

Lemma nj_index_ok {A} (l : list A) (n : nat) a : nth_error l n = Some a -> nj_index l (Z.of_nat n) = Ok a.
Proof.
  intros H. unfold nj_index, py_index.
  assert ((n < length l)%nat) by (apply nth_error_Some; congruence).
  destruct (Z.of_nat n <? 0) eqn:E; [apply Z.ltb_lt in E; lia|].
  match goal with |- context [if ?b then _ else _] => destruct b eqn:E2 end.
  - rewrite Nat2Z.id, H. reflexivity.
  - exfalso. apply andb_false_iff in E2. destruct E2 as [E2|E2]; [apply Z.leb_gt in E2|apply Z.ltb_ge in E2]; lia.
Qed.

Section Rows.
  Context (fexp : f64 -> f64) (argsort : list f64 -> list nat).

  Local Open Scope R_scope.
  Lemma z_finite c p : config_ok c -> is_finite (p_tb p) = true ->
    Rabs (R64 (p_tb p)) <= bpow radix2 53 ->
    z_of_tb (N := F64 fexp) (wc_windows_edge c) (wc_mm_edge c) (wc_length c) (p_tb p) =
      Ok (fmul (fmul (fdiv (fsub (f_of_Z (wc_windows_edge c)) (p_tb p))
                     (f_of_Z (wc_windows_edge c - wc_mm_edge c))) (wc_length c)) (f_of_Z 1000)) /\
    is_finite (fmul (fmul (fdiv (fsub (f_of_Z (wc_windows_edge c)) (p_tb p))
                     (f_of_Z (wc_windows_edge c - wc_mm_edge c))) (wc_length c)) (f_of_Z 1000)) = true.
  Proof.
    intros (Hw & Hm & Hne & _ & Fl & Hl) Ft Ht.
    set (we := wc_windows_edge c) in *. set (mm := wc_mm_edge c) in *.
    assert (Fw := f_of_Z_fin we ltac:(lia)). assert (Rw := f_of_Z_R we ltac:(lia)).
    assert (Fd := f_of_Z_fin (we - mm) ltac:(lia)). assert (Rd := f_of_Z_R (we - mm) ltac:(lia)).
    assert (D1 : (1 <= Z.abs (we - mm))%Z) by lia.
    assert (D2 : 1 <= Rabs (IZR (we - mm))) by (rewrite <- abs_IZR; apply IZR_le; exact D1).
    assert (B53 : Rabs (IZR we) <= bpow radix2 53).
    { rewrite <- abs_IZR, <- IZR_pow2 by lia. apply IZR_le. lia. }
    destruct (fsub_fin (f_of_Z we) (p_tb p) 54 Fw Ft ltac:(lia)) as (R1 & F1).
    { rewrite Rw. apply Rle_trans with (1 := Rabs_triang _ _). rewrite Rabs_Ropp.
      change 54%Z with (1 + 53)%Z. rewrite bpow_plus. change (bpow radix2 1) with 2. lra. }
    assert (B1 : Rabs (R64 (fsub (f_of_Z we) (p_tb p))) <= bpow radix2 54).
    { rewrite R1. apply rnd64_abs_le; [lia|]. rewrite Rw. apply Rle_trans with (1 := Rabs_triang _ _).
      rewrite Rabs_Ropp. change 54%Z with (1 + 53)%Z. rewrite bpow_plus. change (bpow radix2 1) with 2. lra. }
    set (a := fsub (f_of_Z we) (p_tb p)) in *.
    assert (NZ : R64 (f_of_Z (we - mm)) <> 0).
    { rewrite Rd. intros E. rewrite E, Rabs_R0 in D2. lra. }
    assert (Bq : Rabs (R64 a / R64 (f_of_Z (we - mm))) <= bpow radix2 54).
    { unfold Rdiv. rewrite Rabs_mult, Rd, Rabs_inv. rewrite <- (Rmult_1_r (bpow radix2 54)).
      apply Rmult_le_compat; auto using Rabs_pos.
      - apply Rlt_le, Rinv_0_lt_compat. lra.
      - rewrite <- Rinv_1. apply Rinv_le; lra. }
    destruct (fdiv_fin a (f_of_Z (we - mm)) 54 F1 NZ ltac:(lia) Bq) as (R2 & F2).
    assert (B2 : Rabs (R64 (fdiv a (f_of_Z (we - mm)))) <= bpow radix2 54).
    { rewrite R2. apply rnd64_abs_le; [lia|exact Bq]. }
    assert (ZN : feqb (f_of_Z (we - mm)) (f_of_Z 0) = false).
    { rewrite feqb_R by (auto; apply f_of_Z_fin; lia). rewrite Rd, (f_of_Z_R 0) by lia.
      apply Req_bool_false. now rewrite <- Rd. }
    set (q := fdiv a (f_of_Z (we - mm))) in *.
    assert (Bm : Rabs (R64 q * R64 (wc_length c)) <= bpow radix2 954).
    { rewrite Rabs_mult. change 954%Z with (54 + 900)%Z. rewrite bpow_plus.
      apply Rmult_le_compat; auto using Rabs_pos. }
    destruct (fmul_fin q (wc_length c) 954 F2 Fl ltac:(lia) Bm) as (R3 & F3).
    assert (B3 : Rabs (R64 (fmul q (wc_length c))) <= bpow radix2 954).
    { rewrite R3. apply rnd64_abs_le; [lia|exact Bm]. }
    destruct (fmul_fin (fmul q (wc_length c)) (f_of_Z 1000) 964 F3) as (R4 & F4); try lia.
    { apply f_of_Z_fin. lia. }
    { rewrite Rabs_mult. change 964%Z with (954 + 10)%Z. rewrite bpow_plus.
      apply Rmult_le_compat; auto using Rabs_pos. rewrite f_of_Z_R by lia.
      rewrite Rabs_pos_eq by lra. change (bpow radix2 10) with 1024. lra. }
    split; [|exact F4].
    unfold z_of_tb, njdiv. cbn [neqb nsub ndiv nmul nofZ F64 bind T].
    rewrite wrap64_id by (unfold two63; lia).
    rewrite ZN. cbn [bind]. reflexivity.
  Qed.
  Local Close Scope R_scope.

  Lemma convert_ok resp c centers p : response_ok resp -> config_ok c -> point_ok c centers p ->
    exists r, convert_point fexp (wc_windows_edge c) (wc_mm_edge c) (wc_length c) resp centers (wc_sizes c) p = Ok r /\
      (row_of fexp resp c centers p r /\ is_finite (s_z r) = true /\ is_finite (s_amp r) = true).
  Proof.
    intros (NE & Ln & Fr) Hc ((pad & Ep & L1 & L2) & Ft & Bt & He).
    destruct (C26_adc_range resp (p_el p) NE Ln Fr He) as (amp & int & Ea & Fa & _).
    destruct (z_finite c p Hc Ft Bt) as (Ez & Fz).
    destruct (nth_error centers pad) as [ctr|] eqn:C1; [|apply nth_error_None in C1; lia].
    destruct (nth_error (wc_sizes c) pad) as [sz|] eqn:C2; [|apply nth_error_None in C2; lia].
    unfold convert_point. rewrite Ep. cbn [bind]. rewrite (nj_index_ok _ _ _ C1). cbn [bind].
    rewrite Ea. cbn [bind].
    match goal with |- context [bind ?m _] => replace m with (Ok (A := F64 fexp)
      (fmul (fmul (fdiv (fsub (f_of_Z (wc_windows_edge c)) (p_tb p))
                     (f_of_Z (wc_windows_edge c - wc_mm_edge c))) (wc_length c)) (f_of_Z 1000))) by (symmetry; exact Ez) end.
    cbn [bind]. rewrite (nj_index_ok _ _ _ C2). cbn [bind].
    eexists. split; [reflexivity|]. cbn [s_z s_amp]. split; [|split; [exact Fz|exact Fa]].
    exists pad. cbn [s_x s_y s_z s_amp s_int s_pad s_tb s_size].
    rewrite <- surjective_pairing. repeat split; auto.
  Qed.

  Lemma take_map {A B} (f : A -> B) (l : list A) idx out :
    take l idx = Ok out -> take (map f l) idx = Ok (map f out).
  Proof.
    revert out. unfold take. induction idx as [|i idx IH]; simpl; intros out H; [now injection H as <-|].
    rewrite nth_error_map. destruct (nth_error l i); simpl in *; [|discriminate].
    destruct (mapM _ idx) as [o|]; simpl in *; [|discriminate].
    injection H as <-. now rewrite (IH o eq_refl).
  Qed.

  Lemma take_ok {A} (l : list A) d idx : Forall (fun i => (i < length l)%nat) idx ->
    take l idx = Ok (map (fun i => nth i l d) idx).
  Proof.
    unfold take. induction 1 as [|i idx H F IH]; simpl; [reflexivity|].
    rewrite (nth_error_nth' l d H). simpl. now rewrite IH.
  Qed.

  Lemma seq_nth_all {A} (l : list A) d : map (fun i => nth i l d) (seq 0 (length l)) = l.
  Proof.
    induction l as [|a l IH]; [reflexivity|]. cbn [length seq map nth]. f_equal.
    rewrite <- seq_shift, map_map. exact IH.
  Qed.

  Lemma select_combine2 {A B} (mask : list bool) (l : list A) (k : list B) : length k = length l ->
    combine (select mask l) (select mask k) = select mask (combine l k) /\
    length (select mask l) = length (select mask k).
  Proof.
    revert l k. induction mask as [|b mask IH]; intros [|a l] [|x k] H; simpl in *; try discriminate; auto.
    destruct (IH l k ltac:(lia)) as (A1 & A2). destruct b; simpl; rewrite ?A1; auto.
  Qed.

  Lemma select_filter {A} (f : A -> bool) (l : list A) : select (map f l) l = filter f l.
  Proof. induction l as [|a l IH]; simpl; auto. rewrite IH. reflexivity. Qed.

  Lemma combine_fst {A B} (l : list A) (k : list B) : length k = length l -> map fst (combine l k) = l.
  Proof. revert k. induction l; intros [|x k] H; simpl in *; try discriminate; auto. f_equal. apply IHl. lia. Qed.
  Lemma combine_snd {A B} (l : list A) (k : list B) : length k = length l -> map snd (combine l k) = k.
  Proof. revert k. induction l; intros [|x k] H; simpl in *; try discriminate; auto. f_equal. apply IHl. lia. Qed.
  Lemma combine_split_map {A B} (l : list (A * B)) : combine (map fst l) (map snd l) = l.
  Proof. induction l as [|[a b] l IH]; simpl; f_equal; auto. Qed.

  Lemma select_incl {A} (mask : list bool) (l : list A) x : In x (select mask l) -> In x l.
  Proof.
    revert l. induction mask as [|b mask IH]; intros [|a l]; simpl; try tauto.
    destruct b; simpl; intros H; [destruct H; auto|auto].
  Qed.

  Lemma sorted_map {A} (f : nat -> A) (R : A -> A -> Prop) l :
    StronglySorted (fun i j => R (f i) (f j)) l -> StronglySorted R (map f l).
  Proof.
    induction 1 as [|a l S IH F]; simpl; constructor; auto.
    rewrite Forall_forall in *. intros y Hy. apply in_map_iff in Hy. destruct Hy as (j & <- & Hj). auto.
  Qed.

  (** C25: the stored rows are the converted points above the threshold, each with its own label,
      in non-decreasing z. *)
  Theorem C25_stored_rows :
    forall resp c centers data labels,
    argsort_ok argsort -> response_ok resp -> config_ok c ->
    wc_centers c = Some centers -> Forall (point_ok c centers) data -> length labels = length data ->
    exists conv rows labs,
      process fexp argsort resp c data labels = Ok (rows, labs) /\
      Forall2 (row_of fexp resp c centers) data conv /\
      length rows = length labs /\
      Permutation (combine rows labs) (filter (above c) (combine conv labels)) /\
      StronglySorted (fun r r' => (R64 (s_z r) <= R64 (s_z r'))%R) rows.
  Proof.
    intros resp c centers data labels Ha Hr Hc Ec Hp Hl.
    destruct (mapM_ok (convert_point fexp (wc_windows_edge c) (wc_mm_edge c) (wc_length c) resp centers (wc_sizes c))
                (fun p r => row_of fexp resp c centers p r /\ is_finite (s_z r) = true /\ is_finite (s_amp r) = true)
                data) as (conv & E & F2).
    { eapply Forall_impl; [|exact Hp]. intros p H. apply convert_ok; auto. }
    assert (Fin : Forall (fun r => is_finite (s_z r) = true /\ is_finite (s_amp r) = true) conv).
    { clear - F2. induction F2; constructor; tauto. }
    assert (Lc : length conv = length data) by (clear - F2; induction F2; simpl; congruence).
    assert (F2' : Forall2 (row_of fexp resp c centers) data conv).
    { clear - F2. induction F2; constructor; tauto. }
    unfold process. rewrite Ec. unfold convert_to_spyral. rewrite E. cbn [bind].
    replace (length labels =? length conv)%nat with true by (symmetry; apply Nat.eqb_eq; congruence).
    cbn [negb].
    set (mask := map (fun r => fltb (f_of_Z (wc_threshold c)) (s_amp r)) conv).
    set (pairs := select mask (combine conv labels)).
    destruct (select_combine2 mask conv labels ltac:(congruence)) as (SC & SL).
    fold pairs in SC.
    assert (E1 : select mask conv = map fst pairs).
    { rewrite <- SC. symmetry. apply combine_fst. congruence. }
    assert (E2 : select mask labels = map snd pairs).
    { rewrite <- SC. symmetry. apply combine_snd. congruence. }
    rewrite E1, E2.
    assert (EP : pairs = filter (above c) (combine conv labels)).
    { unfold pairs. rewrite <- select_filter. f_equal. unfold mask.
      assert (G : forall (k : list Z), length k = length conv ->
        map (fun r => fltb (f_of_Z (wc_threshold c)) (s_amp r)) conv = map (above c) (combine conv k)).
      { clear - Fin Hc. induction Fin as [|r l [_ Fa] Fin IH]; intros [|x k] H; try discriminate; [reflexivity|].
        cbn [combine map]. f_equal; [|apply IH; simpl in H; lia].
        unfold above. cbn [fst]. rewrite fltb_R; auto; [|apply f_of_Z_fin; apply Hc].
        rewrite f_of_Z_R by apply Hc. reflexivity. }
      apply G. congruence. }
    set (keys := map s_z (map fst pairs)).
    destruct (Ha keys) as (Pm & Ss).
    { unfold keys. rewrite <- E1. apply Forall_forall. intros z Hz. apply in_map_iff in Hz.
      destruct Hz as (r & <- & Hr'). apply select_incl in Hr'. rewrite Forall_forall in Fin. now apply Fin. }
    assert (Lk : length keys = length pairs) by (unfold keys; now rewrite !map_length).
    set (idx := argsort keys) in *.
    assert (Bi : Forall (fun i => (i < length pairs)%nat) idx).
    { apply Forall_forall. intros i Hi. apply (Permutation_in _ Pm) in Hi. apply in_seq in Hi. rewrite <- Lk. exact (proj2 Hi). }
    destruct pairs as [|p0 ps] eqn:Eps.
    - (* nothing above the threshold *)
      assert (I0 : idx = []).
      { destruct idx as [|i idx']; auto. inversion Bi; subst. simpl in *. lia. }
      rewrite I0. cbn [map take mapM bind]. unfold take. cbn [mapM bind].
      exists conv, [], []. rewrite <- EP. repeat split; auto; constructor.
    - rewrite <- Eps in *.
      pose proof (take_ok pairs p0 idx Bi) as T.
      pose proof (take_map fst _ _ _ T) as T1. pose proof (take_map snd _ _ _ T) as T2.
      rewrite T1. cbn [bind]. rewrite T2. cbn [bind].
      set (out := map (fun i => nth i pairs p0) idx) in *.
      exists conv, (map fst out), (map snd out). split; [reflexivity|]. split; [exact F2'|].
      split; [now rewrite !map_length|]. rewrite combine_split_map. split.
      + rewrite <- EP. unfold out.
        apply Permutation_trans with (map (fun i => nth i pairs p0) (seq 0 (length pairs)));
          [|rewrite seq_nth_all; apply Permutation_refl].
        apply Permutation_map. rewrite <- Lk. exact Pm.
      + unfold out. rewrite map_map. apply sorted_map.
        assert (K : forall i, (i < length pairs)%nat ->
          nth i keys (f_of_Z 0) = s_z (fst (nth i pairs p0))).
        { intros i Hi. unfold keys. rewrite <- Eps, map_map.
          apply eq_trans with (nth i (map (fun x => s_z (fst x)) pairs) (s_z (fst p0)));
            [apply nth_indep; rewrite map_length; exact Hi|].
          exact (map_nth (fun x => s_z (fst x)) pairs p0 i). }
        clear - Ss Bi K. induction Ss as [|a l S IH F]; constructor; inversion Bi; subst; auto.
        rewrite Forall_forall in *. intros j Hj. specialize (F j Hj).
        rewrite !K in F by auto. exact F.
  Qed.

  (** C25: without pad centres nothing is written. *)
  Theorem C25_centres_required :
    forall w data labels c e,
    wc_centers c = None -> w_written w <> w_max w ->
    write fexp argsort w data labels c e = (w, Err ValueError).
  Proof.
    intros w data labels c e Hc Hw. unfold write, roll.
    apply Z.eqb_neq in Hw. rewrite Hw. unfold process. now rewrite Hc.
  Qed.
  (** C25: a point whose pad is not in the table of centres is read from memory outside that table: no
      exception tells the caller, whatever follows the point. *)
  Theorem C25_unknown_pad :
    forall resp c centers pre p post labels z,
    response_ok resp -> config_ok c -> wc_centers c = Some centers -> Forall (point_ok c centers) pre ->
    f_to_Z (p_pad p) = Some z -> (z < - Z.of_nat (length centers) \/ Z.of_nat (length centers) <= z)%Z ->
    process fexp argsort resp c (pre ++ p :: post) labels = Err UB.
  Proof.
    intros resp c centers pre p post labels z Hr Hc Ec Hp Ez Out. unfold process. rewrite Ec.
    assert (E : convert_to_spyral fexp (pre ++ p :: post) (wc_windows_edge c) (wc_mm_edge c) (wc_length c) resp centers (wc_sizes c) = Err UB); [|now rewrite E].
    unfold convert_to_spyral. induction Hp as [|a pre Ha Hp IH]; cbn [app mapM].
    - unfold convert_point at 1. rewrite Ez. cbn [bind].
      assert (N : nj_index centers z = Err UB); [|now rewrite N]. unfold nj_index, py_index.
      destruct (Z.ltb_spec z 0); match goal with |- context [if ?b then _ else _] => destruct b eqn:B end; try reflexivity;
        apply andb_true_iff in B; rewrite Z.leb_le, Z.ltb_lt in B; lia.
    - destruct (convert_ok resp c centers a) as (b & Eb & _); auto. rewrite Eb. cbn [bind]. now rewrite IH.
  Qed.
End Rows.

(** An argsort that meets the contract (insertion sort). *)
Section Sort.
  Context (l : list f64).
  Definition key (i : nat) : f64 := nth i l (f_of_Z 0).
  Fixpoint insert (i : nat) (acc : list nat) : list nat :=
    match acc with
    | [] => [i]
    | j :: acc' => if fleb (key i) (key j) then i :: acc else j :: insert i acc'
    end.
  Definition isort (is : list nat) : list nat := fold_right insert [] is.

  Lemma insert_perm i acc : Permutation (insert i acc) (i :: acc).
  Proof.
    induction acc as [|j acc IH]; simpl; [auto|]. destruct (fleb _ _); [auto|].
    eapply perm_trans; [apply perm_skip; exact IH|]. apply perm_swap.
  Qed.
  Lemma isort_perm is : Permutation (isort is) is.
  Proof.
    induction is as [|i is IH]; simpl; [constructor|].
    eapply perm_trans; [apply insert_perm|]. now apply perm_skip.
  Qed.
  Context (Fin : Forall (fun x => is_finite x = true) l).
  Lemma key_fin i : is_finite (key i) = true.
  Proof.
    unfold key. destruct (Nat.lt_ge_cases i (length l)) as [L|L].
    - rewrite Forall_forall in Fin. apply Fin. now apply nth_In.
    - rewrite nth_overflow by exact L. apply f_of_Z_fin. lia.
  Qed.
  Notation le := (fun i j => (R64 (key i) <= R64 (key j))%R).
  Lemma insert_sorted i acc : StronglySorted le acc -> StronglySorted le (insert i acc).
  Proof.
    induction 1 as [|j acc S IH F]; simpl; [repeat constructor|].
    rewrite fleb_R by apply key_fin.
    destruct (Rle_bool_spec (R64 (key i)) (R64 (key j))) as [L|L].
    - constructor; [now constructor|]. constructor; [exact L|].
      rewrite Forall_forall in *. intros x Hx. specialize (F x Hx). simpl in F. lra.
    - constructor; [exact IH|]. rewrite Forall_forall in *. intros x Hx.
      apply (Permutation_in _ (insert_perm i acc)) in Hx. destruct Hx as [<-|Hx]; [simpl; lra|now apply F].
  Qed.
  Lemma isort_sorted is : StronglySorted le (isort is).
  Proof. induction is as [|i is IH]; simpl; [constructor|now apply insert_sorted]. Qed.
End Sort.
Definition the_sort (l : list f64) : list nat := isort l (seq 0 (length l)).
Example argsort_exists : argsort_ok the_sort.
Proof.
  intros l F. unfold the_sort. split; [apply isort_perm|]. exact (isort_sorted l F _).
Qed.

(** Example: three points in time buckets 60, 160 and 110 on pads 1, 0 and 1; amplitudes 2000,
    200 and 4095 (saturated); threshold 500: the second is dropped, the others are swapped. *)
Definition ex_wc : wconfig :=
  mkWconfig 560 60 (f_of_Z 1) 500 (Some [(f_of_Z 1, f_of_Z 2); (f_of_Z 3, f_of_Z 4)]) [f_of_Z 5; f_of_Z 6].
Definition ex_data : list point :=
  [mkPoint (f_of_Z 1) (f_of_Z 60) (f_of_Z 1000); mkPoint (f_of_Z 0) (f_of_Z 160) (f_of_Z 100);
   mkPoint (f_of_Z 1) (f_of_Z 110) (f_of_Z 3000)].
Definition view_row (r : srow) : list (option Z) :=
  map f_to_Z [s_x r; s_y r; s_z r; s_amp r; s_int r; s_pad r; s_tb r; s_size r].
Definition view_out (o : res (list srow * list Z)) : res (list (list (option Z)) * list Z) :=
  match o with Ok (rows, labs) => Ok (map view_row rows, labs) | Err x => Err x end.
Example C25_example fexp :
  view_out (process fexp the_sort ex_resp ex_wc ex_data [7; 8; 9]) =
  Ok ([map Some [3; 4; 900; 4095; 7095; 1; 110; 6];
       map Some [3; 4; 1000; 2000; 3000; 1; 60; 6]], [9; 7]).
Proof. vm_compute. reflexivity. Qed.
Example C25_unknown_pad_example fexp :
  view_out (process fexp the_sort ex_resp ex_wc (ex_data ++ [mkPoint (f_of_Z 2) (f_of_Z 60) (f_of_Z 1000)]) [7; 8; 9; 9]) = Err UB.
Proof. vm_compute. reflexivity. Qed.
Example C25_hypotheses : argsort_ok the_sort /\ response_ok ex_resp /\ config_ok ex_wc /\
  Forall (point_ok ex_wc [(f_of_Z 1, f_of_Z 2); (f_of_Z 3, f_of_Z 4)]) ex_data.
Proof.
  split; [apply argsort_exists|]. split; [|split].
  - destruct C26_hypotheses as (A & B & _). split; [exact A|]. split; [cbn; lia|exact B].
  - unfold config_ok, ex_wc. cbn [wc_windows_edge wc_mm_edge wc_threshold wc_length].
    split; [lia|]. split; [lia|]. split; [lia|]. split; [lia|]. split; [apply f_of_Z_fin; lia|].
    rewrite f_of_Z_R by lia. rewrite Rabs_pos_eq by lra. change 1%R with (bpow radix2 0). apply bpow_le. lia.
  - assert (G : forall pad tb el, (pad < 2)%nat -> 0 <= tb <= 512 -> 0 <= el <= 2 ^ 53 ->
      point_ok ex_wc [(f_of_Z 1, f_of_Z 2); (f_of_Z 3, f_of_Z 4)]
        (mkPoint (f_of_Z (Z.of_nat pad)) (f_of_Z tb) (f_of_Z el))).
    { intros pad tb el Hp Ht He. split; [|split; [|split]]; cbn [p_pad p_tb p_el].
      - exists pad. split; [|split; cbn; lia].
        rewrite f_to_Z_some; [|apply f_of_Z_fin; lia|rewrite f_of_Z_R, Ztrunc_IZR by lia; unfold two63; lia].
        now rewrite f_of_Z_R, Ztrunc_IZR by lia.
      - apply f_of_Z_fin; lia.
      - rewrite f_of_Z_R by lia. rewrite <- abs_IZR, <- IZR_pow2 by lia. apply IZR_le. lia.
      - apply nonneg_Z. lia. }
    apply Forall_cons; [|apply Forall_cons; [|apply Forall_cons; [|apply Forall_nil]]].
    + apply (G 1%nat 60 1000); lia.
    + apply (G 0%nat 160 100); lia.
    + apply (G 1%nat 110 3000); lia.
Qed.

Print Assumptions C25_stored_rows.
Print Assumptions C25_centres_required.
