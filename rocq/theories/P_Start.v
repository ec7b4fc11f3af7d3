(** P_Start.v -- C63: tracks that start on or beyond a boundary, or below the stopping energy. *)
From Coq Require Import ZArith Reals Lia Lra String.
From Flocq Require Import Core.
From Verif Require Import Base Nucleus Solver SpecSolver P_Solver P_Electrons P_Braking P_Motion.
Local Open Scope list_scope.
Local Open Scope R_scope.

Lemma falls_below f l d : derivable_pt_lim f 0 l -> l < 0 -> 0 < d -> exists t, 0 < t <= d /\ f t < f 0.
Proof.
  intros D Hl Hd. destruct (D (- l / 2)) as [delta P]; [lra|]. destruct delta as [delta Pd]. cbn [pos] in P.
  set (h := Rmin (delta / 2) d).
  assert (Ph : 0 < h <= d) by (unfold h, Rmin; destruct (Rle_dec (delta / 2) d); lra).
  assert (Pl : h < delta) by (unfold h; pose proof (Rmin_l (delta / 2) d); lra).
  exists h. split; [lra|]. specialize (P h ltac:(lra)).
  rewrite Rabs_pos_eq in P by lra. specialize (P Pl). rewrite Rplus_0_l in P.
  apply Rabs_def2 in P. destruct P as (P & _).
  assert ((f h - f 0) / h < 0) by lra.
  assert (f h - f 0 < 0); [|lra].
  replace (f h - f 0) with ((f h - f 0) / h * h) by (field; lra). nra.
Qed.

Lemma steps_at_zero_n n :
  filter (fun t => Rle_bool t 0) (map (fun i => INR i * (10 / 10 ^ 7 / 10000)) (seq 0 (S n))) = [0].
Proof.
  cbn [seq map filter]. rewrite Rle_bool_true by (cbn [INR]; lra). f_equal; [cbn [INR]; lra|].
  assert (G : forall l, (forall i, In i l -> (1 <= i)%nat) ->
    filter (fun t => Rle_bool t 0) (map (fun i => INR i * (10 / 10 ^ 7 / 10000)) l) = []).
  { induction l as [|a l IH]; intros H; [reflexivity|]. cbn [map filter].
    assert (1 <= INR a) by (apply (le_INR 1); apply H; now left).
    rewrite Rle_bool_false by lra. apply IH. intros i Hi. apply H. now right. }
  apply G. intros i Hi. apply in_seq in Hi. lia.
Qed.
Lemma steps_at_zero : filter (fun t => Rle_bool t 0) TIME_STEPS = [0].
Proof.
  unfold TIME_STEPS. assert (E : Z.to_nat 10001 = S (Z.to_nat 10000)) by lia. rewrite E. apply steps_at_zero_n.
Qed.

Section Start.
  Context (c e_charge mev_kg mev_joule : R) (dedx : nucleus -> R -> R) (density : R).
  Context (Hc : 0 < c) (Hkg : 0 < mev_kg).
  Local Notation eom := (equation_of_motion c e_charge mev_kg mev_joule dedx density).
  Local Notation stopping := (stopping mev_joule dedx density).

  (** C63: a nucleus emitted backwards from a vertex on the window (without a target material every
      vertex is the origin) has the vertex as its whole track and makes no electrons. *)
  Theorem C63_backwards_from_the_window solve vertex momentum nuc p track : ideal_solver solve ->
    traj c e_charge mev_kg mev_joule dedx density solve vertex momentum nuc p = Ok track ->
    0 < n_mass nuc -> vz vertex = 0 -> vz momentum < 0 ->
    track = [initial_state vertex momentum nuc] /\
    forall g els, generate_electrons track nuc p [g] = Ok els -> els = [0%Z].
  Proof using Hc Hkg.
    intros [HP HI] E Hm Hv Hz. destruct (HI _ _ _ _ _ E) as (sol & T & HT & S00 & S & U & _ & ->).
    set (s0 := initial_state vertex momentum nuc) in *.
    assert (Uz : vz (mom s0) < 0).
    { unfold s0, initial_state. cbn [mom vz]. unfold Rdiv. pose proof (Rinv_0_lt_compat _ Hm). nra. }
    assert (Hu : mom s0 <> vzero) by (intros X; rewrite X in Uz; cbn [vzero vz] in Uz; lra).
    assert (T0 : T = 0).
    { destruct (Rle_lt_or_eq_dec 0 T (proj1 HT)) as [PT|<-]; [exfalso|reflexivity].
      destruct (S 0 ltac:(lra)) as (d & Ed & (_ & _ & Dz) & _).
      rewrite S00 in Ed. rewrite eom_value in Ed by (assumption || lra).
      apply (f_equal (fun r => match r with Ok d => vz (pos d) | Err _ => 0 end)) in Ed.
      cbv beta match in Ed. cbn [pos vscale vz] in Ed.
      destruct (falls_below _ _ T Dz) as (t & Ht & B); [|exact PT|].
      - rewrite <- Ed. pose proof (sg_pos (norm (mom s0))) as Pg.
        assert (0 < c / sqrt (1 + norm (mom s0) ^ 2)) by (now apply Rdiv_lt_0_compat). nra.
      - rewrite Forall_forall in U.
        specialize (U (backward_z_bound_condition, false) ltac:(cbn; tauto)). cbn [unfired] in U.
        specialize (U t _ _ ltac:(lra) eq_refl eq_refl). rewrite S00 in *.
        unfold s0, initial_state in U, B. cbn [pos] in U, B. rewrite Hv in U, B. lra. }
    subst T. rewrite steps_at_zero. cbn [map]. rewrite S00. split; [reflexivity|].
    intros g els Eg. apply C36_counts in Eg; [|reflexivity|intros s [<-|[]]; exact Hu].
    destruct Eg as (L & F & _). destruct els as [|x [|]]; try discriminate. cbn [nth] in F. now rewrite F.
  Qed.

  (** C63: below the stopping energy the stopping condition never ends a track (no electric field). *)
  Theorem C63_slow_start solve vertex momentum nuc p track : ideal_solver solve ->
    traj c e_charge mev_kg mev_joule dedx density solve vertex momentum nuc p = Ok track ->
    0 < n_mass nuc -> d_efield p = 0 -> (forall k, 0 <= stopping nuc k) ->
    ke nuc (initial_state vertex momentum nuc) < KE_LIMIT ->
    (forall s, In s track -> ke nuc s < KE_LIMIT) /\
    exists sol T, track = map sol (filter (fun t => Rle_bool t T) TIME_STEPS) /\
      (T = 1 \/ vz (pos (sol T)) = 1 \/ vz (pos (sol T)) = 0 \/
       vx (pos (sol T)) ^ 2 + vy (pos (sol T)) ^ 2 = (292 / 1000) ^ 2).
  Proof using Hc Hkg.
    intros [_ HI] E Hm HE HS HK. destruct (HI _ _ _ _ _ E) as (sol & T & HT & S00 & S & U & EV & ->).
    rewrite HE, Rmult_0_l in S.
    assert (M : forall t, 0 <= t <= T -> ke nuc (sol t) < KE_LIMIT).
    { intros t Ht.
      pose proof (C34_energy_never_increases c e_charge mev_kg mev_joule dedx density Hc Hkg (d_bfield p * -1) nuc sol T 0 t Hm HS S ltac:(lra) ltac:(lra)) as L.
      rewrite S00 in L. lra. }
    split.
    - intros s Is. apply in_map_iff in Is. destruct Is as (t & <- & Ht). apply in_steps in Ht. apply M. lra.
    - exists sol, T. split; [reflexivity|]. destruct EV as [->|(g & up & I & Z)]; [now left|right].
      destruct I as [Q|[Q|[Q|[Q|[]]]]]; apply (f_equal fst) in Q; cbn [fst] in Q; subst g.
      + exfalso. destruct (S T ltac:(lra)) as (d & Ed & _).
        assert (Hu : mom (sol T) <> vzero).
        { intros X. assert (Y : sol T = mkState (pos (sol T)) vzero) by (destruct (sol T); cbn in *; congruence).
          rewrite Y in Ed. rewrite C35_at_rest in Ed. discriminate. }
        rewrite stop_value in Z by exact Hu. specialize (M T ltac:(lra)).
        apply (f_equal (fun r => match r with Ok x => x | Err _ => 0 end)) in Z. lra.
      + left. apply (f_equal (fun r => match r with Ok x => x | Err _ => 0 end)) in Z. cbn in Z. lra.
      + right; left. apply (f_equal (fun r => match r with Ok x => x | Err _ => 0 end)) in Z. exact Z.
      + right; right. apply (f_equal (fun r => match r with Ok x => x | Err _ => 0 end)) in Z. cbv beta match in Z.
        assert (Q : sqrt (vx (pos (sol T)) ^ 2 + vy (pos (sol T)) ^ 2) = 292 / 1000) by (unfold rho_bound_condition in Z; lra).
        rewrite <- Q, pow2_sqrt; [reflexivity|]. nra.
  Qed.

  (** Straight lines: no fields, no stopping. *)
  Definition line (z0 u t : R) : state := mkState (mkVec 0 0 (z0 + c / sqrt (1 + u ^ 2) * u * t)) (mkVec 0 0 u).
  Lemma line_solves nuc z0 u T : 0 < n_mass nuc -> 0 < u -> (forall k, stopping nuc k = 0) ->
    solves (eom 0 0 nuc) (line z0 u) T.
  Proof using Hc Hkg.
    intros Hm Hu HS t Ht. eexists. split; [apply eom_value; [exact Hkg|apply z_nonzero; cbn [line mom]; lra|lra]|].
    unfold line. cbn [pos mom]. rewrite norm_z by lra. unfold vscale. cbn [vx vy vz]. rewrite HS.
    pose proof (sg_pos u) as Ps.
    split; (split; [|split]); cbn [vx vy vz].
    - eapply deriv_eq; [apply deriv_const|ring].
    - eapply deriv_eq; [apply deriv_const|ring].
    - eapply deriv_eq; [apply deriv_plus; [apply deriv_const|apply deriv_scal, deriv_id]|ring].
    - eapply deriv_eq; [apply deriv_const|field; repeat split; lra].
    - eapply deriv_eq; [apply deriv_const|field; repeat split; lra].
    - eapply deriv_eq; [apply deriv_const|field; repeat split; lra].
  Qed.

End Start.

(** C63: a nucleus that starts beyond the micromegas is not stopped there: there is a track all of
    whose 10001 rows lie outside the detector. *)
Theorem C63_outside_refuted : exists nuc vertex momentum p track,
  n_Z nuc <> 0%Z /\ 0 < n_mass nuc /\ 1 < vz vertex /\
  ideal_track (equation_of_motion C0 E0 KG0 J0 (fun _ _ => 0) 1 (d_bfield p * -1) (d_efield p * -1) nuc)
    (initial_state vertex momentum nuc) (events nuc) TIME_STEPS track /\
  length track = Z.to_nat 10001 /\ (forall s, In s track -> 1 < vz (pos s)).
Proof.
  set (nuc := mkNucleus 1 1 1 "1H"%string).
  exists nuc, (mkVec 0 0 2), (mkVec 0 0 1), (mkDparams 0 0 0 1), (map (line C0 2 1) TIME_STEPS).
  split; [unfold nuc; cbn [n_Z]; lia|]. split; [unfold nuc; cbn [n_mass]; lra|]. split; [cbn [vz]; lra|].
  set (v := C0 / sqrt (1 + 1 ^ 2) * 1).
  assert (Hc : 0 < C0) by (unfold C0; lra).
  assert (Pv : 0 < v) by (unfold v; pose proof (sg_pos 1); rewrite Rmult_1_r; now apply Rdiv_lt_0_compat).
  assert (Zp : forall t, vz (pos (line C0 2 1 t)) = 2 + v * t) by (intros t; reflexivity).
  split; [|split].
  - exists (line C0 2 1), 1. split; [lra|].
    split; [unfold line, initial_state, nuc; cbn [n_mass vx vy vz]; f_equal; f_equal; first [ring|field]|].
    split; [cbn [d_bfield d_efield]; rewrite Rmult_0_l; apply line_solves; [exact Hc|unfold KG0; lra|unfold nuc; cbn [n_mass]; lra|lra|intros k; unfold stopping; ring]|].
    split; [|split; [now left|]].
    + unfold events. repeat apply Forall_cons; [| | | |apply Forall_nil]; cbn [unfired]; intros t g0 gt Ht E0 Et.
      * rewrite stop_value in E0, Et by (apply z_nonzero; lra). intros P.
        assert (K : ke nuc (line C0 2 1 0) = ke nuc (line C0 2 1 t)) by reflexivity.
        rewrite K in E0. assert (g0 = gt) by congruence. lra.
      * intros P. exfalso. apply (f_equal (fun r => match r with Ok x => x | Err _ => 0 end)) in E0.
        unfold forward_z_bound_condition in E0. rewrite Zp in E0. lra.
      * intros _. apply (f_equal (fun r => match r with Ok x => x | Err _ => 0 end)) in Et.
        unfold backward_z_bound_condition in Et. rewrite Zp in Et. nra.
      * intros P. apply (f_equal (fun r => match r with Ok x => x | Err _ => 0 end)) in E0, Et.
        unfold rho_bound_condition in E0, Et. cbn [line pos vx vy] in E0, Et. lra.
    + f_equal. symmetry. rewrite (filter_ext_in _ (fun _ => true)).
      * generalize TIME_STEPS. induction l as [|a l IH]; [reflexivity|]. cbn [filter]. now rewrite IH.
      * intros t Ht. apply steps_nonneg in Ht. apply Rle_bool_true. lra.
  - unfold TIME_STEPS. now rewrite !map_length, seq_length.
  - intros s Is. apply in_map_iff in Is. destruct Is as (t & <- & Ht). apply steps_nonneg in Ht. rewrite Zp. nra.
  Qed.

(** ** C56: the rows of a track *)
Lemma filter_prefix (f : nat -> R) T : (forall i j, (i <= j)%nat -> f i <= f j) -> forall n a,
  exists k, (k <= n)%nat /\ filter (fun t => Rle_bool t T) (map f (seq a n)) = map f (seq a k) /\
    (forall i, (i < n)%nat -> ((i < k)%nat <-> f (a + i)%nat <= T)).
Proof.
  intros M. induction n as [|n IH]; intros a.
  - exists O. split; [lia|]. split; [reflexivity|]. intros i Hi. lia.
  - cbn [seq map filter]. destruct (Rle_bool_spec (f a) T) as [L|L].
    + destruct (IH (S a)) as (k & Hk & E & Q). exists (S k). split; [lia|]. split; [cbn [seq map]; now rewrite E|].
      intros [|i] Hi; [rewrite Nat.add_0_r; split; [auto|lia]|].
      replace (a + S i)%nat with (S a + i)%nat by lia. rewrite <- Q by lia. lia.
    + destruct (IH (S a)) as (k & Hk & E & Q). exists O. split; [lia|]. split.
      * rewrite E. destruct k as [|k]; [reflexivity|]. exfalso.
        assert (X : (0 < S k)%nat) by lia. apply Q in X; [|lia]. rewrite Nat.add_0_r in X.
        pose proof (M a (S a) ltac:(lia)). lra.
      * intros i Hi. split; [lia|]. intros X. exfalso. pose proof (M a (a + i)%nat ltac:(lia)). lra.
Qed.

(** C56: row i of a track is the state i * 0.1 ns after the start, and rows are given until the first
    stopping condition is met or the microsecond is over. *)
Theorem C56_sampling : forall c e_charge mev_kg mev_joule dedx density solve vertex momentum nuc p track,
  ideal_solver solve ->
  generate_trajectory c e_charge mev_kg mev_joule dedx density solve vertex momentum nuc p = Ok track ->
  exists sol T, sol 0 = initial_state vertex momentum nuc /\
    solves (equation_of_motion c e_charge mev_kg mev_joule dedx density (d_bfield p * -1) (d_efield p * -1) nuc) sol T /\
    (T = 1 \/ exists g up, In (g, up) (events nuc) /\ g (sol T) = Ok 0) /\
    (forall i, (i < length track)%nat -> nth_error track i = Some (sol (INR i / 10 ^ 10))) /\
    (forall i, (Z.of_nat i <= 10000)%Z -> ((i < length track)%nat <-> INR i / 10 ^ 10 <= T)).
Proof.
  intros c e_charge mev_kg mev_joule dedx density solve vertex momentum nuc p track [_ HI] E.
  destruct (HI _ _ _ _ _ E) as (sol & T & HT & S00 & S & U & EV & ->). exists sol, T.
  split; [exact S00|]. split; [exact S|]. split; [exact EV|]. unfold TIME_STEPS. clear - HT.
  assert (Eq : forall i, INR i * (10 / 10 ^ 7 / 10000) = INR i / 10 ^ 10) by (intros i; field).
  destruct (filter_prefix (fun i => INR i * (10 / 10 ^ 7 / 10000)) T) with (n := Z.to_nat 10001) (a := O) as (k & Hk & F & Q).
  { intros i j H. apply le_INR in H. lra. }
  rewrite F, !map_length, seq_length. split.
  - intros i Hi. rewrite map_map, <- Eq.
    apply (map_nth_error (fun x => sol (INR x * (10 / 10 ^ 7 / 10000))) i (seq 0 k)).
    rewrite (nth_error_nth' _ 0%nat) by (now rewrite seq_length). now rewrite seq_nth.
  - intros i Hi. rewrite <- Eq. apply Q. lia.
Qed.

(** Examples: the hypotheses of the first two theorems can be met (with the ideal solver of
    P_Braking.v): a backward alpha particle at the window, and a slow one in the middle of a
    gas without stopping. *)
Example C63_backwards_example : exists solve track,
  ideal_solver solve /\
  traj C0 E0 KG0 J0 dedx0 1 solve (mkVec 0 0 0) (mkVec 100 0 (-300)) alpha p0 = Ok track /\
  track = [initial_state (mkVec 0 0 0) (mkVec 100 0 (-300)) alpha].
Proof.
  destruct ideal_solver_exists as (solve & HI & HA).
  set (s0 := initial_state (mkVec 0 0 0) (mkVec 100 0 (-300)) alpha).
  assert (Hu : mom s0 <> vzero) by (intros X; apply (f_equal vx) in X; unfold s0, initial_state, alpha, vzero in X; cbn in X; lra).
  pose proof (eom_value C0 E0 KG0 J0 dedx0 1 ltac:(unfold KG0; lra) (d_bfield p0 * -1) (d_efield p0 * -1) alpha s0 Hu ltac:(unfold alpha; cbn [n_mass]; lra)) as EV.
  cbv zeta in EV.
  match type of EV with _ = Ok ?d => set (ds := d) in EV end.
  set (sol := fun t => mkState (vadd (pos s0) (vscale t (pos ds))) (vadd (mom s0) (vscale t (mom ds)))).
  assert (S00 : sol 0 = s0).
  { unfold sol, vadd, vscale. destruct s0 as [[a b c] [a' b' c']]. cbn [pos mom vx vy vz]. f_equal; f_equal; ring. }
  assert (IT : ideal_track (equation_of_motion C0 E0 KG0 J0 dedx0 1 (d_bfield p0 * -1) (d_efield p0 * -1) alpha) s0 (events alpha) TIME_STEPS [s0]).
  { exists sol, 0. split; [lra|]. split; [exact S00|]. split; [|split; [|split]].
    - intros t Ht. replace t with 0 by lra. exists ds. split; [now rewrite S00|].
      split; (split; [|split]); unfold sol, vadd, vscale; cbn [pos mom vx vy vz];
        (eapply deriv_eq; [apply deriv_plus; [apply deriv_const|apply (deriv_mult (fun t => t) (fun _ => _)); [apply deriv_id|apply deriv_const]]|cbv beta; ring]).
    - rewrite Forall_forall. intros [g up] _. cbn [unfired]. intros t g0 gt Ht E0 Et.
      replace t with 0 in Et by lra. assert (g0 = gt) by congruence. destruct up; lra.
    - right. exists backward_z_bound_condition, false. split; [unfold events; cbn; tauto|].
      rewrite S00. reflexivity.
    - rewrite steps_at_zero. cbn [map]. now rewrite S00. }
  destruct (HA _ _ _ _ _ _ EV IT) as (track & ET).
  exists solve, track. split; [exact HI|]. split; [exact ET|].
  eapply C63_backwards_from_the_window; [| |exact HI|exact ET| |reflexivity|]; try (unfold C0, KG0; lra).
  - unfold alpha; cbn [n_mass]; lra.
  - cbn [vz]; lra.
Qed.
(** Example: the same nucleus turned by a right angle. *)
Example C61_example : exists track,
  ideal_track (equation_of_motion C0 E0 KG0 J0 dedx0 1 (d_bfield p0 * -1) (d_efield p0 * -1) alpha)
    (initial_state (mkVec 0 0 0) (mkVec 0 100 (-300)) alpha) (events alpha) TIME_STEPS track /\
  track = [initial_state (mkVec 0 0 0) (mkVec 0 100 (-300)) alpha].
Proof.
  destruct C63_backwards_example as (solve & track & [_ HI] & E & Et).
  unfold traj, generate_trajectory in E.
  apply HI in E. apply (C61_track_rotation C0 E0 KG0 J0 dedx0 1) with (a := PI / 2) in E.
  assert (Q : both (rot (PI / 2)) (initial_state (mkVec 0 0 0) (mkVec 100 0 (-300)) alpha)
    = initial_state (mkVec 0 0 0) (mkVec 0 100 (-300)) alpha).
  { unfold both, rot, initial_state, alpha. cbn [pos mom vx vy vz n_mass]. rewrite cos_PI2, sin_PI2. f_equal; f_equal; lra. }
  rewrite Q in E. eexists. split; [exact E|]. rewrite Et. cbn [map]. now rewrite Q.
Qed.
Print Assumptions C63_backwards_from_the_window.
Print Assumptions C63_slow_start.
Print Assumptions C63_outside_refuted.
Print Assumptions C56_sampling.
