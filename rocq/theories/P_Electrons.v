(** P_Electrons.v -- C36, C37 and C56: electrons along a track, the length used by the stopping
    conditions, and the time limit of a track. *)
From Coq Require Import ZArith Reals Lia Lra.
From Flocq Require Import Core.
From Verif Require Import Base F64 Num Simulator Response Parameters Nucleus Solver SpecSolver P_Solver.
Local Open Scope R_scope.

(** ** C36 *)
Lemma diff_length l : length (diff l) = (length l - 1)%nat.
Proof. induction l as [|a [|b l] IH]; auto. cbn [diff length] in *. rewrite IH. lia. Qed.

Lemma diff_nth l i : (S i < length l)%nat -> nth i (diff l) 0 = nth (S i) l 0 - nth i l 0.
Proof.
  revert i. induction l as [|a [|b l] IH]; intros i H; cbn [length] in H; try lia.
  destruct i as [|i]; [reflexivity|].
  change (nth i (diff (b :: l)) 0 = nth (S i) (b :: l) 0 - nth i (b :: l) 0). apply IH. cbn [length]. lia.
Qed.

Lemma map_energy nuc track : (forall s, In s track -> mom s <> vzero) ->
  map (row_energy nuc) track = map (ke nuc) track.
Proof. intros H. apply map_ext_in. intros s Hs. now apply row_energy_ke, H. Qed.

Lemma means_eq nuc p track means : mean_electrons nuc p track = Ok means ->
  (forall s, In s track -> mom s <> vzero) ->
  d_w p <> 0 /\ means = match track with [] => [] | _ =>
      0 :: map (fun x => Rabs x * (10 ^ 6 / d_w p)) (diff (map (ke nuc) track)) end.
Proof.
  unfold mean_electrons, pydivR. intros E H. rewrite (map_energy nuc track H) in E.
  destruct (Req_bool_spec (d_w p) 0) as [Z|Z]; [discriminate|]. split; [exact Z|].
  cbn [bind] in E. destruct track as [|s t]; [now injection E as <-|].
  change (match map (ke nuc) (s :: t) with [] => [] | _ :: _ => 0 :: map Rabs (diff (map (ke nuc) (s :: t))) end)
    with (0 :: map Rabs (diff (map (ke nuc) (s :: t)))) in E.
  set (l := diff (map (ke nuc) (s :: t))) in *. cbn [map] in E.
  apply (f_equal (fun r => match r with Ok a => a | Err _ => [] end)) in E. rewrite <- E.
  rewrite map_map. f_equal. ring.
Qed.

Lemma combine_nth' {A B} (la : list A) (lb : list B) i a b :
  length la = length lb -> nth i (combine la lb) (a, b) = (nth i la a, nth i lb b).
Proof. intros H. now apply combine_nth. Qed.

(** Mean number of electrons created between two rows: energy difference over the W value. *)
Definition created (nuc : nucleus) (p : dparams) (s s' : state) : R :=
  Rabs (ke nuc s' - ke nuc s) * 10 ^ 6 / d_w p.

(** C36: one count per row; none at the first row whatever is drawn; at a later row the mean is
    the energy change since the row before, over W, with variance fano * mean. *)
Theorem C36_counts :
  forall nuc p track gs els,
  generate_electrons track nuc p gs = Ok els ->
  length gs = length track -> (forall s, In s track -> mom s <> vzero) ->
  length els = length track /\
  nth 0 els 0%Z = 0%Z /\
  forall i d, (S i < length track)%nat ->
    let m := created nuc p (nth i track d) (nth (S i) track d) in
    nth (S i) els 0%Z = Ztrunc (m + sqrt (d_fano p * m) * nth (S i) gs 0).
Proof.
  unfold generate_electrons. intros nuc p track gs els E Lg Hm.
  destruct (mean_electrons nuc p track) as [means|] eqn:EM; [|discriminate]. cbn [bind] in E.
  apply (f_equal (fun r => match r with Ok a => a | Err _ => [] end)) in E. 
  destruct (means_eq _ _ _ _ EM Hm) as [Hw Em].
  assert (Lm : length means = length track).
  { rewrite Em. destruct track as [|s t]; [reflexivity|]. cbn [length]. rewrite map_length, diff_length, map_length.
    cbn [length]. lia. }
  assert (N : forall i, (i < length track)%nat ->
     nth i els 0%Z = Ztrunc (nth i means 0 + sqrt (d_fano p * nth i means 0) * nth i gs 0)).
  { intros i Hi. rewrite <- E.
    set (f := fun mg : R * R => Ztrunc (fst mg + sqrt (d_fano p * fst mg) * snd mg)).
    rewrite (nth_indep _ 0%Z (f (0, 0))) by (rewrite map_length, combine_length; lia).
    rewrite (map_nth f), combine_nth' by congruence. reflexivity. }
  split; [|split].
  - rewrite <- E, map_length, combine_length. lia.
  - destruct track as [|s t].
    + rewrite <- E, Em. reflexivity.
    + rewrite N by (cbn [length]; lia). rewrite Em. cbn [nth].
      rewrite Rmult_0_r, sqrt_0, Rmult_0_l, Rplus_0_r. now rewrite Ztrunc_IZR.
  - intros i d Hi. set (m := created _ _ _ _). rewrite N by exact Hi.
    replace (nth (S i) means 0) with m; [reflexivity|].
    rewrite Em. destruct track as [|s t]; [cbn [length] in Hi; lia|]. cbn [nth].
    set (h := fun x => Rabs x * (10 ^ 6 / d_w p)).
    assert (Ld : (i < length (diff (map (ke nuc) (s :: t))))%nat).
    { rewrite diff_length, map_length. cbn [length] in *. lia. }
    rewrite (nth_indep _ 0 (h 0)) by (rewrite map_length; exact Ld).
    rewrite (map_nth h), diff_nth by (rewrite map_length; exact Hi).
    rewrite !(nth_indep (map (ke nuc) (s :: t)) 0 (ke nuc d)) by (rewrite map_length; lia).
    rewrite !(map_nth (ke nuc)). unfold m, created, h, Rdiv. ring.
Qed.

Lemma last_cons {A} (b : A) l d : last (b :: l) d = last l b.
Proof.
  revert b d. induction l as [|x l IH]; intros b d; [reflexivity|].
  change (last (x :: l) d = last (x :: l) b). now rewrite !IH.
Qed.

(** Telescoping. *)
Lemma sum_abs_diff l a : let n := last l a in
  a - n <= sumR (map Rabs (diff (a :: l))) /\
  (decreasing (a :: l) -> sumR (map Rabs (diff (a :: l))) = a - n).
Proof.
  revert a. induction l as [|b l IH]; intros a; cbn zeta.
  - cbn. split; [lra|intros _; lra].
  - specialize (IH b). cbn zeta in IH. destruct IH as [I1 I2].
    rewrite (last_cons b l a).
    change (sumR (map Rabs (diff (a :: b :: l)))) with (Rabs (b - a) + sumR (map Rabs (diff (b :: l)))).
    split.
    + pose proof (Rle_abs (- (b - a))) as A. rewrite Rabs_Ropp in A. lra.
    + intros [D1 D2]. rewrite (I2 D2). rewrite Rabs_left1 by lra. lra.
Qed.

Lemma sum_scale k l : sumR (map (fun x => Rabs x * k) l) = sumR (map Rabs l) * k.
Proof. induction l as [|a l IH]; cbn; [ring|]. fold (sumR (map (fun x => Rabs x * k) l)). rewrite IH. unfold sumR. ring. Qed.

Lemma last_map {A B} (f : A -> B) l d : last (map f l) (f d) = f (last l d).
Proof. induction l as [|a [|b l] IH]; auto. Qed.

(** C36: the mean numbers of electrons account for at least the energy lost between the ends
    of the track, and for exactly that if the energy never increases. *)
Theorem C36_energy_accounting :
  forall nuc p s t means,
  mean_electrons nuc p (s :: t) = Ok means -> 0 < d_w p ->
  (forall x, In x (s :: t) -> mom x <> vzero) ->
  let lost := ke nuc s - ke nuc (last t s) in
  lost <= sumR means * d_w p / 10 ^ 6 /\
  (decreasing (map (ke nuc) (s :: t)) -> sumR means * d_w p / 10 ^ 6 = lost).
Proof.
  intros nuc p s t means E Hw Hm lost. destruct (means_eq _ _ _ _ E Hm) as [_ ->].
  destruct (sum_abs_diff (map (ke nuc) t) (ke nuc s)) as [S1 S2].
  change (ke nuc s :: map (ke nuc) t) with (map (ke nuc) (s :: t)) in S1, S2.
  rewrite (last_map (ke nuc)) in S1, S2.
  set (D := diff (map (ke nuc) (s :: t))) in *.
  assert (Q : sumR (0 :: map (fun x => Rabs x * (10 ^ 6 / d_w p)) D) * d_w p / 10 ^ 6 = sumR (map Rabs D)).
  { change (sumR (0 :: map (fun x => Rabs x * (10 ^ 6 / d_w p)) D))
      with (0 + sumR (map (fun x => Rabs x * (10 ^ 6 / d_w p)) D)).
    rewrite sum_scale. field. lra. }
  rewrite Q. unfold lost. split; [exact S1|exact S2].
Qed.

(** C36: a W value of zero is refused. *)
Theorem C36_zero_w : forall nuc p track gs, d_w p = 0 ->
  generate_electrons track nuc p gs = Err ZeroDivisionError.
Proof.
  intros nuc p track gs H. unfold generate_electrons, mean_electrons, pydivR. rewrite H.
  now rewrite (Req_bool_true 0 0 eq_refl).
Qed.

(** C36: without Fano fluctuations the electrons of a track number at most the energy lost over W,
    and fall short by less than one per row. *)
Theorem C36_electron_budget :
  forall nuc p s t gs els,
  generate_electrons (s :: t) nuc p gs = Ok els -> length gs = length (s :: t) ->
  0 < d_w p -> d_fano p = 0 ->
  (forall x, In x (s :: t) -> mom x <> vzero) -> decreasing (map (ke nuc) (s :: t)) ->
  let lost := (ke nuc s - ke nuc (last t s)) * 10 ^ 6 / d_w p in
  lost - INR (length t) <= IZR (sumZ els) <= lost.
Proof.
  intros nuc p s t gs els E Lg Hw Hf Hm HD lost.
  unfold generate_electrons in E.
  destruct (mean_electrons nuc p (s :: t)) as [means|] eqn:EM; [|discriminate]. cbn [bind] in E.
  apply (f_equal (fun r => match r with Ok a => a | Err _ => [] end)) in E. rewrite <- E. clear E els.
  destruct (C36_energy_accounting nuc p s t means EM Hw Hm) as [_ A]. specialize (A HD).
  destruct (means_eq _ _ _ _ EM Hm) as [_ Em].
  assert (L : sumR means = lost).
  { unfold lost. rewrite <- A. field. lra. }
  rewrite <- L. rewrite Hf. clear A L EM lost.
  assert (G : forall ms gs', length gs' = length ms -> Forall (fun m => 0 <= m) ms ->
     sumR ms - INR (length ms) <=
     IZR (sumZ (map (fun mg => Ztrunc (fst mg + sqrt (0 * fst mg) * snd mg)) (combine ms gs'))) <= sumR ms).
  { induction ms as [|m ms IH]; intros [|g gs'] Lc F; try discriminate.
    - cbn. lra.
    - inversion F as [|? ? F1 F2]; subst. cbn [combine map fst snd]. rewrite sumZ_cons, plus_IZR.
      rewrite Rmult_0_l, sqrt_0, Rmult_0_l, Rplus_0_r.
      specialize (IH gs' ltac:(cbn [length] in Lc; lia) F2).
      change (sumR (m :: ms)) with (m + sumR ms). cbn [length]. rewrite S_INR.
      rewrite Ztrunc_floor by exact F1.
      pose proof (Zfloor_lb m). pose proof (Zfloor_ub m). lra. }
  destruct means as [|m0 ms]; [discriminate|].
  pose proof (f_equal (hd 0) Em) as E0. apply (f_equal (@tl R)) in Em. cbn [hd tl] in E0, Em. subst m0.
  destruct gs as [|g gs]; [discriminate|].
  cbn [combine map fst snd]. rewrite sumZ_cons, plus_IZR.
  rewrite !Rmult_0_r, sqrt_0, Rmult_0_l, Rplus_0_r. rewrite Ztrunc_IZR.
  change (sumR (0 :: ms)) with (0 + sumR ms).
  assert (Lms : length ms = length t).
  { rewrite Em, map_length, diff_length, map_length. cbn [length]. lia. }
  destruct (G ms gs) as [G1 G2].
  - cbn [length] in Lg. lia.
  - rewrite Em. apply Forall_forall. intros x Hx. apply in_map_iff in Hx. destruct Hx as (y & <- & _).
    apply Rmult_le_pos; [apply Rabs_pos|]. unfold Rdiv. apply Rmult_le_pos; [lra|].
    apply Rlt_le. now apply Rinv_0_lt_compat.
  - rewrite Lms in G1. lra.
Qed.

(** ** C37: time buckets of the ends of a track *)
Lemma tb_R L we mm z : IZR (we - mm) <> 0 -> L <> 0 ->
  tb_of_z (N := XR) (Some L) (Some (L / IZR (we - mm))) mm (Some z)
    = Some (IZR mm + (L - z) / L * IZR (we - mm)).
Proof.
  intros H HL. unfold tb_of_z. cbn [nadd ndiv nsub nofZ XR lift2 xdiv].
  rewrite Req_bool_false.
  - cbn [lift2]. f_equal. field. split; assumption.
  - unfold Rdiv. apply Rmult_integral_contrapositive_currified; [exact HL|now apply Rinv_neq_0_compat].
Qed.

(** C37: the end of a track at z = 0 is the windows edge for every length, the end at z = 1 is the
    micromegas edge only for length 1.  For a shorter detector the rows beyond it get times
    before the micromegas edge; for a longer one no row comes near that edge. *)
Theorem C37_times :
  forall L we mm v, 0 < L -> (mm < we)%Z ->
  drift_velocity (N := XR) (Some L) we mm = Ok v ->
  forall z, exists t, tb_of_z (N := XR) (Some L) v mm (Some z) = Some t /\
    (t = IZR we <-> z = 0) /\
    (z = 1 -> (t = IZR mm <-> L = 1)) /\
    (t < IZR mm <-> L < z) /\
    (1 <= L -> z <= 1 -> IZR mm + (1 - / L) * IZR (we - mm) <= t).
Proof.
  intros L we mm v HL Hwe E z.
  assert (P : 0 < IZR (we - mm)) by (apply IZR_lt; lia).
  assert (V : v = Some (L / IZR (we - mm))).
  { unfold drift_velocity, pydiv in E. cbn [neqb nofZ ndiv XR cmp2 xdiv] in E.
    rewrite Req_bool_false in E by lra. now injection E as <-. }
  exists (IZR mm + (L - z) / L * IZR (we - mm)). rewrite V, tb_R by lra.
  split; [reflexivity|].
  assert (W : IZR we = IZR mm + IZR (we - mm)) by (rewrite minus_IZR; ring).
  set (D := IZR (we - mm)) in *.
  assert (Q : (L - z) / L = 1 - z * / L) by (field; lra). rewrite Q.
  assert (PL : 0 < / L) by (now apply Rinv_0_lt_compat).
  assert (LL : L * / L = 1) by (apply Rinv_r; lra).
  split; [|split; [|split]].
  - rewrite W. split; intros H; [|subst; lra].
    assert (z * / L * D = 0) by lra. apply Rmult_integral in H0. destruct H0; [|lra].
    apply Rmult_integral in H0. destruct H0; lra.
  - intros ->. rewrite Rmult_1_l. split; intros H.
    + assert ((1 - / L) * D = 0) by lra. apply Rmult_integral in H0. destruct H0; [|lra].
      assert (/ L = 1) by lra. rewrite H1 in LL. lra.
    + subst L. rewrite Rinv_1. lra.
  - split; intros H.
    + assert (N : (1 - z * / L) * D < 0) by lra. assert (1 < z * / L) by nra.
      apply Rnot_le_lt. intros X. assert (z * / L <= L * / L) by (apply Rmult_le_compat_r; lra). lra.
    + assert (1 < z * / L) by (rewrite <- LL; now apply Rmult_lt_compat_r). nra.
  - intros H1 H2. assert (z * / L <= 1 * / L) by (apply Rmult_le_compat_r; lra). nra.
Qed.

(** Example: a detector of half a metre, edges 10 and 500: the far end of a track is at time
    bucket -480, long before the micromegas edge. *)
Example C37_example :
  tb_of_z (N := XR) (Some (1 / 2)) (Some (1 / 2 / IZR (500 - 10))) 10 (Some 1) = Some (-480).
Proof. rewrite tb_R; [f_equal; simpl (500 - 10)%Z; lra|simpl (500 - 10)%Z; lra|lra]. Qed.

(** ** C56: tracks end after a microsecond *)
(** C56: whatever the solver, provided it returns no more rows than times it was asked for, a
    track has at most 10001 rows; with an ideal solver all rows lie within the first
    microsecond, and a nucleus that meets no stopping condition by then is cut off there. *)
Theorem C56_time_limit :
  forall c e_charge mev_kg mev_joule dedx density solve vertex momentum nuc p track,
  ideal_solver solve ->
  generate_trajectory c e_charge mev_kg mev_joule dedx density solve vertex momentum nuc p = Ok track ->
  (Z.of_nat (length track) <= 10001)%Z /\
  exists sol T, 0 <= T <= 1 /\ sol 0 = initial_state vertex momentum nuc /\
    (forall s, In s track -> exists t, 0 <= t <= / 10 ^ 6 /\ t <= T /\ s = sol t) /\
    (/ 10 ^ 6 <= T -> Z.of_nat (length track) = 10001%Z /\ forall d, last track d = sol (/ 10 ^ 6)).
Proof.
  intros c e_charge mev_kg mev_joule dedx density solve vertex momentum nuc p track [_ HI] E.
  destruct (HI _ _ _ _ _ E) as (sol & T & HT & S0 & _ & _ & _ & ->).
  assert (LT : length TIME_STEPS = Z.to_nat 10001) by (unfold TIME_STEPS; now rewrite map_length, seq_length).
  assert (FL : forall (f : R -> bool) l, (length (filter f l) <= length l)%nat).
  { intros f l. induction l as [|a l IH]; [apply le_n|]. cbn [filter length]. destruct (f a); cbn [length]; lia. }
  split.
  - rewrite map_length. pose proof (FL (fun t => Rle_bool t T) TIME_STEPS) as Q. rewrite LT in Q. lia.
  - exists sol, T. split; [exact HT|]. split; [exact S0|]. split.
    + intros s Hs. apply in_map_iff in Hs. destruct Hs as (t & <- & Ht). exists t.
      apply in_steps in Ht. destruct Ht as (I & Ht). apply steps_nonneg in I. repeat split; lra.
    + intros H.
      assert (FA : filter (fun t => Rle_bool t T) TIME_STEPS = TIME_STEPS).
      { assert (A : forall l, (forall t, In t l -> t <= T) -> filter (fun t => Rle_bool t T) l = l).
        { induction l as [|a l IH]; intros Hl; [reflexivity|]. cbn [filter].
          rewrite Rle_bool_true by (apply Hl; now left). f_equal. apply IH. intros t Ht. apply Hl. now right. }
        apply A. intros t Ht. apply steps_nonneg in Ht. lra. }
      rewrite FA, map_length, LT. split; [lia|]. intros d.
      unfold TIME_STEPS. replace (Z.to_nat 10001) with (S (Z.to_nat 10000)) by lia.
      rewrite seq_S, map_app, map_app. cbn [map]. rewrite last_last. f_equal.
      rewrite Nat.add_0_l, INR_IZR_INZ, Z2Nat.id by lia. lra.
Qed.
