(** P_Braking.v -- an exact track with constant stopping power: a concrete instance for the
    trajectory theorems (C34 to C37), and the witness for C56. *)
From Coq Require Import ZArith Reals Lia Lra ClassicalChoice String.
From Flocq Require Import Core.
From Verif Require Import Base Nucleus Solver SpecSolver P_Solver P_Electrons.
Local Open Scope R_scope.

Lemma stop_value nuc s : mom s <> vzero -> stop_condition nuc s = Ok (ke nuc s - KE_LIMIT).
Proof.
  intros H. pose proof (norm_pos _ H) as Pn. pose proof (beta_pos _ Pn) as Pb.
  unfold stop_condition, pydivR. rewrite gv_norm, Req_bool_false by lra. cbn [bind].
  rewrite gamma_eq by exact Pn. unfold ke. now rewrite norm_sq.
Qed.

Lemma z_nonzero u : u <> 0 -> mkVec 0 0 u <> vzero.
Proof. intros H E. apply H. now apply (f_equal vz) in E. Qed.

Lemma norm_z u : 0 <= u -> norm (mkVec 0 0 u) = u.
Proof.
  intros H. unfold norm, dot. cbn [vx vy vz].
  replace (0 * 0 + 0 * 0 + u * u) with (u ^ 2) by ring. now apply sqrt_pow2.
Qed.

Section Braking.
  Variables (c e_charge mev_kg mev_joule : R) (dedx : nucleus -> R -> R) (density : R).
  Variables (nuc : nucleus) (force u0 z0 : R).
  Hypotheses (Hc : 0 < c) (Hkg : 0 < mev_kg) (Hm : 0 < n_mass nuc) (Hf : 0 < force).
  Hypothesis const : forall k, stopping mev_joule dedx density nuc k = force.
  Notation eom := (equation_of_motion c e_charge mev_kg mev_joule dedx density).

  Definition rate : R := force / (n_mass nuc * mev_kg) / c.
  Definition ut (t : R) : R := u0 - rate * t.
  Definition zt (t : R) : R := z0 + c / rate * (sqrt (1 + u0 ^ 2) - sqrt (1 + ut t ^ 2)).
  Definition braking (t : R) : state := mkState (mkVec 0 0 (zt t)) (mkVec 0 0 (ut t)).

  Lemma rate_pos : 0 < rate.
  Proof.
    unfold rate, Rdiv. repeat apply Rmult_lt_0_compat; auto; apply Rinv_0_lt_compat; auto.
    now apply Rmult_lt_0_compat.
  Qed.

  Lemma ut_deriv t : derivable_pt_lim ut t (- rate).
  Proof.
    unfold ut. replace (- rate) with (0 - rate * 1) by ring.
    apply (derivable_pt_lim_minus (fun _ => u0) (fun t => rate * t)); [apply derivable_pt_lim_const|].
    apply (derivable_pt_lim_scal (fun t => t)). apply derivable_pt_lim_id.
  Qed.

  Lemma zt_deriv t : derivable_pt_lim zt t (c / sqrt (1 + ut t ^ 2) * ut t).
  Proof.
    pose proof rate_pos as Pr. pose proof (sg_pos (ut t)) as Pg.
    assert (D1 : derivable_pt_lim (fun t => 1 + ut t ^ 2) t (2 * ut t * - rate)).
    { replace (2 * ut t * - rate) with (0 + (- rate * ut t + ut t * - rate)) by ring.
      apply (derivable_pt_lim_plus (fun _ => 1)); [apply derivable_pt_lim_const|].
      replace (fun t => ut t ^ 2) with (fun t => ut t * ut t) by (apply FunctionalExtensionality.functional_extensionality; intros; ring).
      apply (derivable_pt_lim_mult ut ut); apply ut_deriv. }
    assert (D2 : derivable_pt_lim (fun t => sqrt (1 + ut t ^ 2)) t (/ (2 * sqrt (1 + ut t ^ 2)) * (2 * ut t * - rate))).
    { apply (derivable_pt_lim_comp (fun t => 1 + ut t ^ 2) sqrt); [exact D1|].
      apply derivable_pt_lim_sqrt. apply g_pos. }
    unfold zt.
    replace (c / sqrt (1 + ut t ^ 2) * ut t)
      with (0 + c / rate * (0 - / (2 * sqrt (1 + ut t ^ 2)) * (2 * ut t * - rate))) by (field; lra).
    apply (derivable_pt_lim_plus (fun _ => z0)); [apply derivable_pt_lim_const|].
    apply (derivable_pt_lim_scal (fun t => sqrt (1 + u0 ^ 2) - sqrt (1 + ut t ^ 2))).
    apply (derivable_pt_lim_minus (fun _ => sqrt (1 + u0 ^ 2)) (fun t => sqrt (1 + ut t ^ 2)));
      [apply derivable_pt_lim_const|exact D2].
  Qed.

  Lemma braking_solves b T : 0 < ut T -> solves (eom b 0 nuc) braking T.
  Proof.
    intros HT t Ht. pose proof rate_pos as Pr.
    assert (P : 0 < ut t) by (unfold ut in *; nra).
    assert (Nz : mom (braking t) <> vzero) by (apply z_nonzero; lra).
    eexists. split; [apply eom_value; auto; lra|].
    unfold braking. cbn [pos mom]. rewrite norm_z by lra.
    unfold vscale. cbn [vx vy vz]. rewrite const.
    assert (Z : derivable_pt_lim (fun _ : R => 0) t 0) by apply derivable_pt_lim_const.
    split; (split; [|split]); cbn [vx vy vz].
    - now rewrite Rmult_0_r.
    - now rewrite Rmult_0_r.
    - apply zt_deriv.
    - match goal with |- derivable_pt_lim _ _ ?x => replace x with 0; [exact Z|] end.
      rewrite !Rmult_0_r. unfold Rdiv. ring.
    - match goal with |- derivable_pt_lim _ _ ?x => replace x with 0; [exact Z|] end.
      rewrite !Rmult_0_r. unfold Rdiv. ring.
    - match goal with |- derivable_pt_lim _ _ ?x => replace x with (- rate); [apply ut_deriv|] end.
      unfold rate. field. repeat split; try lra.
  Qed.

  Lemma zt_bounds t : 0 <= t -> 0 <= ut t -> z0 <= zt t <= z0 + c * u0 * t.
  Proof.
    intros Ht Hu. pose proof rate_pos as Pr. unfold zt.
    assert (S1 : sqrt (1 + ut t ^ 2) <= sqrt (1 + u0 ^ 2)).
    { apply sqrt_le_1_alt. assert (ut t <= u0) by (unfold ut; nra). nra. }
    assert (P : 0 < c / rate) by (unfold Rdiv; apply Rmult_lt_0_compat; [lra|now apply Rinv_0_lt_compat]).
    split; [nra|].
    assert (S2 : sqrt (1 + u0 ^ 2) - sqrt (1 + ut t ^ 2) <= u0 * (rate * t)).
    { assert (Q : (sqrt (1 + u0 ^ 2) - sqrt (1 + ut t ^ 2)) * (sqrt (1 + u0 ^ 2) + sqrt (1 + ut t ^ 2))
                 = (u0 + ut t) * (rate * t)).
      { replace ((sqrt (1 + u0 ^ 2) - sqrt (1 + ut t ^ 2)) * (sqrt (1 + u0 ^ 2) + sqrt (1 + ut t ^ 2)))
          with (sqrt (1 + u0 ^ 2) * sqrt (1 + u0 ^ 2) - sqrt (1 + ut t ^ 2) * sqrt (1 + ut t ^ 2)) by ring.
        rewrite !sg_sq. unfold ut. ring. }
      assert (G : forall x, 1 <= sqrt (1 + x ^ 2)).
      { intros x. rewrite <- sqrt_1 at 1. apply sqrt_le_1_alt. nra. }
      pose proof (G u0). pose proof (G (ut t)).
      assert (W : 0 <= rate * t) by nra. assert (ut t <= u0) by (unfold ut; nra).
      set (A := sqrt (1 + u0 ^ 2)) in *. set (B := sqrt (1 + ut t ^ 2)) in *.
      assert ((u0 + ut t) * (rate * t) <= 2 * (u0 * (rate * t))) by nra.
      assert (0 <= A - B) by lra. nra. }
    apply Rle_trans with (z0 + c / rate * (u0 * (rate * t))).
    - apply Rplus_le_compat_l, Rmult_le_compat_l; lra.
    - right. field. lra.
  Qed.

  Lemma ke_braking t : ke nuc (braking t) = n_mass nuc * (sqrt (1 + ut t ^ 2) - 1).
  Proof. unfold ke, braking, dot. cbn [mom vx vy vz]. do 3 f_equal. ring. Qed.

  (** The track: if at time T the energy limit is reached and T is late enough. *)
  Lemma braking_track b T :
    0 <= T <= 1 -> 0 < ut T -> 0 <= z0 -> z0 + c * u0 * T <= 1 ->
    ke nuc (braking T) = KE_LIMIT ->
    ideal_track (eom b 0 nuc) (braking 0) (events nuc) TIME_STEPS
      (map braking (filter (fun t => Rle_bool t T) TIME_STEPS)).
  Proof.
    intros HT HU Hz0 Hz HK. pose proof rate_pos as Pr.
    assert (UP : forall t, t <= T -> 0 < ut t) by (intros t Ht; unfold ut in *; nra).
    assert (U0 : 0 < u0) by (specialize (UP 0 ltac:(lra)); unfold ut in UP; lra).
    assert (NZ : forall t, t <= T -> mom (braking t) <> vzero).
    { intros t Ht. apply z_nonzero. specialize (UP t Ht). lra. }
    exists braking, T. split; [exact HT|]. split; [reflexivity|].
    split; [now apply braking_solves|]. split; [|split; [|reflexivity]].
    - unfold events. repeat apply Forall_cons; [| | | |apply Forall_nil]; cbn [unfired]; intros t g0 gt Ht E0 Et.
      + rewrite stop_value in Et by (apply NZ; lra). injection Et as <-. intros _.
        rewrite <- HK, !ke_braking.
        assert (sqrt (1 + ut T ^ 2) <= sqrt (1 + ut t ^ 2)).
        { apply sqrt_le_1_alt. pose proof (UP T ltac:(lra)). assert (ut T <= ut t) by (unfold ut; nra). nra. }
        nra.
      + injection Et as <-. intros _. cbn [pos braking vz].
        destruct (zt_bounds t) as [_ B]; [lra|apply Rlt_le, UP; lra|].
        assert (c * u0 * t <= c * u0 * T) by (apply Rmult_le_compat_l; nra). lra.
      + injection Et as <-. intros _. cbn [pos braking vz].
        destruct (zt_bounds t) as [B _]; [lra|apply Rlt_le, UP; lra|]. lra.
      + injection Et as <-. intros _. cbn [pos braking vx vy].
        match goal with |- sqrt ?x - _ <= 0 => replace x with 0 by (cbn; ring) end. rewrite sqrt_0. lra.
    - right. exists (stop_condition nuc), false. split; [now left|].
      rewrite stop_value by (apply NZ; lra). rewrite HK. f_equal. ring.
  Qed.
End Braking.

(** ** A concrete case: an alpha particle of 4 GeV mass at 3.4e-4 c, slowed down to 1 eV in two
    microseconds. *)
Definition C0 : R := 299792458.
Definition E0 : R := 1602176634 / 10 ^ 28.
Definition KG0 : R := 1782661921 / 10 ^ 39.
Definition J0 : R := 1602176634 / 10 ^ 22.
Definition alpha : nucleus := mkNucleus 2 4 4000 "4He".
Definition U0 : R := 34 / 100000.
Definition eps : R := / 10 ^ 6 / 4000.
Definition uT : R := sqrt ((1 + eps) ^ 2 - 1).
Definition T0 : R := 2 / 10 ^ 6.
Definition force0 : R := (U0 - uT) / T0 * C0 * (n_mass alpha * KG0).
Definition dedx0 (_ : nucleus) (_ : R) : R := force0 / J0 / 100.

Lemma uT_sq : uT ^ 2 = (1 + eps) ^ 2 - 1.
Proof. unfold uT. rewrite pow2_sqrt; [reflexivity|]. unfold eps. lra. Qed.

Lemma uT_bounds : 0 < uT < U0 / 10.
Proof.
  pose proof uT_sq as S. split.
  - unfold uT. apply sqrt_lt_R0. unfold eps. lra.
  - apply Rsqr_incrst_0; [|apply sqrt_pos|unfold U0; lra]. unfold Rsqr.
    replace (uT * uT) with (uT ^ 2) by ring. rewrite S. unfold eps, U0. lra.
Qed.

Lemma force0_pos : 0 < force0.
Proof.
  pose proof uT_bounds. unfold force0, T0, C0, KG0, alpha. cbn [n_mass].
  unfold U0 in *. repeat apply Rmult_lt_0_compat; lra.
Qed.

Lemma force0_const k : stopping J0 dedx0 1 alpha k = force0.
Proof. unfold stopping, dedx0, J0. field. Qed.

Lemma rate0 : rate C0 KG0 alpha force0 = (U0 - uT) / T0.
Proof. unfold rate, force0, alpha, C0, KG0, T0. cbn [n_mass]. field. Qed.

Lemma ut0 t : ut C0 KG0 alpha force0 U0 t = U0 - (U0 - uT) / T0 * t.
Proof. unfold ut. now rewrite rate0. Qed.

Definition sol0 := braking C0 KG0 alpha force0 U0 (1 / 2).
Definition track0 := map sol0 TIME_STEPS.

Lemma steps_all : filter (fun t => Rle_bool t T0) TIME_STEPS = TIME_STEPS.
Proof.
  assert (A : forall l, (forall t, In t l -> t <= T0) -> filter (fun t => Rle_bool t T0) l = l).
  { induction l as [|a l IH]; intros Hl; [reflexivity|]. cbn [filter].
    rewrite Rle_bool_true by (apply Hl; now left). f_equal. apply IH. intros t Ht. apply Hl. now right. }
  apply A. intros t Ht. apply steps_nonneg in Ht. unfold T0. lra.
Qed.

Lemma track0_ideal b :
  ideal_track (equation_of_motion C0 E0 KG0 J0 dedx0 1 b 0 alpha) (sol0 0) (events alpha) TIME_STEPS track0.
Proof.
  assert (TE : track0 = map sol0 (filter (fun t => Rle_bool t T0) TIME_STEPS))
    by (now rewrite steps_all).
  rewrite TE. unfold sol0. pose proof uT_bounds as UB.
  apply braking_track; try (unfold C0, KG0, alpha, T0, U0; cbn [n_mass]; lra).
  - apply force0_pos.
  - apply force0_const.
  - rewrite ut0. replace (U0 - (U0 - uT) / T0 * T0) with uT by (unfold T0; field). lra.
  - rewrite ke_braking, ut0. replace (U0 - (U0 - uT) / T0 * T0) with uT by (unfold T0; field).
    rewrite uT_sq. replace (1 + ((1 + eps) ^ 2 - 1)) with ((1 + eps) ^ 2) by ring.
    rewrite sqrt_pow2 by (unfold eps; lra). unfold KE_LIMIT, alpha, eps. cbn [n_mass]. field.
Qed.

(** The state in which generate_trajectory starts it. *)
Definition p0 : dparams := mkDparams 0 3 (1 / 5) 30.
Definition vertex0 : vec := mkVec 0 0 (1 / 2).
Definition momentum0 : vec := mkVec 0 0 (4000 * U0).

Lemma start0 : sol0 0 = initial_state vertex0 momentum0 alpha.
Proof.
  unfold sol0, braking, initial_state, vertex0, momentum0, alpha. cbn [n_mass vx vy vz].
  f_equal; f_equal; try (unfold Rdiv; ring).
  - unfold zt. rewrite ut0, Rmult_0_r, Rminus_0_r. unfold Rminus. rewrite Rplus_opp_r. ring.
  - rewrite ut0. field. unfold T0. lra.
Qed.

(** An ideal solver that answers whenever there is an answer. *)
Lemma ideal_solver_exists : exists solve, ideal_solver solve /\
  forall f s0 evs ts track d, f s0 = Ok d -> ideal_track f s0 evs ts track ->
  exists track', solve f s0 evs ts = Ok track'.
Proof.
  set (I := ((state -> res state) * state * list event * list R)%type).
  destruct (choice (fun (i : I) (r : res (list state)) =>
    let '(f, s0, evs, ts) := i in
    match f s0 with
    | Err e => r = Err e
    | Ok _ => (exists track, r = Ok track /\ ideal_track f s0 evs ts track) \/
              (r = Err ValueError /\ ~ exists track, ideal_track f s0 evs ts track)
    end)) as [solve HS].
  { intros [[[f s0] evs] ts]. destruct (f s0) as [d|e]; [|exists (Err e); reflexivity].
    destruct (Classical_Prop.classic (exists track, ideal_track f s0 evs ts track)) as [[track HT]|HN].
    - exists (Ok track). left. eauto.
    - exists (Err ValueError). right. auto. }
  exists (fun f s0 evs ts => solve (f, s0, evs, ts)). split; [split|].
  - intros f s0 evs ts e He. specialize (HS (f, s0, evs, ts)). cbn in HS. now rewrite He in HS.
  - intros f s0 evs ts track Ht. specialize (HS (f, s0, evs, ts)). cbn in HS. cbn in Ht. rewrite Ht in HS.
    destruct (f s0); [|discriminate]. destruct HS as [(tr & [= <-] & H)|(H & _)]; [exact H|discriminate].
  - intros f s0 evs ts track d Hd Ht. specialize (HS (f, s0, evs, ts)). cbn in HS. rewrite Hd in HS.
    destruct HS as [(tr & H & _)|(_ & H)]; [eauto|]. exfalso. eauto.
Qed.

(** The hypotheses of C34_track_energies, C37_track_volume and C56_time_limit are met. *)
Example C37_hypotheses : exists solve track,
  ideal_solver solve /\ traj C0 E0 KG0 J0 dedx0 1 solve vertex0 momentum0 alpha p0 = Ok track /\
  d_efield p0 = 0 /\ 0 < n_mass alpha /\ (forall k, 0 <= stopping J0 dedx0 1 alpha k) /\
  0 <= vz vertex0 <= 1 /\ vx vertex0 ^ 2 + vy vertex0 ^ 2 <= (292 / 1000) ^ 2.
Proof.
  destruct ideal_solver_exists as (solve & HI & HA).
  pose proof (track0_ideal (d_bfield p0 * -1)) as T. rewrite start0 in T.
  replace 0 with (d_efield p0 * -1) in T at 1 by (unfold p0; cbn [d_efield]; ring).
  edestruct HA as (track & ET); [|exact T|].
  { apply eom_value.
    - unfold KG0. lra.
    - intros X. apply (f_equal vz) in X. unfold initial_state, momentum0, alpha, U0, vzero in X.
      cbn [n_mass mom vz] in X. lra.
    - unfold alpha. cbn [n_mass]. lra. }
  exists solve, track. split; [exact HI|]. split; [exact ET|].
  split; [reflexivity|]. split; [unfold alpha; cbn [n_mass]; lra|].
  split; [intros k; rewrite force0_const; apply Rlt_le, force0_pos|].
  unfold vertex0. cbn [vx vy vz]. lra.
Qed.

(** C56: the track of the example ends after a microsecond in the middle of the gas, at three
    times ten eV or more, a microsecond before the nucleus would stop: the claim that a track ends
    only at a stopping condition is false. *)
Theorem C56_track_cut_refuted :
  exists track last_row,
  ideal_track (equation_of_motion C0 E0 KG0 J0 dedx0 1 (d_bfield p0 * -1) (d_efield p0 * -1) alpha)
    (initial_state vertex0 momentum0 alpha) (events alpha) TIME_STEPS track /\
  track <> [] /\ (forall d, last track d = last_row) /\
  ke alpha last_row > 10 * KE_LIMIT /\
  0 < vz (pos last_row) < 1 /\ vx (pos last_row) = 0 /\ vy (pos last_row) = 0.
Proof.
  exists track0, (sol0 (/ 10 ^ 6)).
  pose proof (track0_ideal (d_bfield p0 * -1)) as T. rewrite start0 in T.
  replace 0 with (d_efield p0 * -1) in T at 1 by (unfold p0; cbn [d_efield]; ring).
  split; [exact T|].
  assert (L : forall d, last track0 d = sol0 (/ 10 ^ 6)).
  { intros d. unfold track0, TIME_STEPS. replace (Z.to_nat 10001) with (S (Z.to_nat 10000)) by lia.
    rewrite seq_S, map_app, map_app. cbn [map]. rewrite last_last. f_equal.
    rewrite Nat.add_0_l, INR_IZR_INZ, Z2Nat.id by lia. lra. }
  pose proof uT_bounds as UB.
  assert (UM : ut C0 KG0 alpha force0 U0 (/ 10 ^ 6) = (U0 + uT) / 2).
  { rewrite ut0. unfold T0. field. }
  split; [intros E; specialize (L (sol0 0)); rewrite E in L; cbn [last] in L;
          apply (f_equal (fun s => vz (mom s))) in L; unfold sol0, braking in L; cbn [mom vz] in L;
          rewrite UM, ut0 in L; lra|].
  split; [exact L|]. split; [|split; [|split; reflexivity]].
  - unfold sol0. rewrite ke_braking, UM. unfold alpha, KE_LIMIT. cbn [n_mass].
    assert (1 + 10 * eps < sqrt (1 + ((U0 + uT) / 2) ^ 2)); [|unfold eps in *; lra].
    rewrite <- (sqrt_pow2 (1 + 10 * eps)) by (unfold eps; lra). apply sqrt_lt_1_alt.
    assert ((U0 / 2) ^ 2 < ((U0 + uT) / 2) ^ 2) by (unfold U0 in *; nra). unfold eps, U0 in *. lra.
  - unfold sol0, braking. cbn [pos vz].
    destruct (zt_bounds C0 KG0 alpha force0 U0 (1 / 2)) with (t := / 10 ^ 6) as [B1 B2];
      try (unfold C0, KG0, alpha; cbn [n_mass]; lra).
    + apply force0_pos.
    + rewrite UM. unfold U0 in *. lra.
    + unfold C0, U0 in *. lra.
Qed.

(** C34_energy_never_increases and C34_power on the example. *)
Example C34_example : solves (equation_of_motion C0 E0 KG0 J0 dedx0 1 (-3) 0 alpha) sol0 T0 /\
  ke alpha (sol0 T0) <= ke alpha (sol0 0).
Proof.
  assert (S : solves (equation_of_motion C0 E0 KG0 J0 dedx0 1 (-3) 0 alpha) sol0 T0).
  { pose proof uT_bounds as UB. apply braking_solves; try (unfold C0, KG0, alpha; cbn [n_mass]; lra).
    - apply force0_pos.
    - apply force0_const.
    - rewrite ut0. replace (U0 - (U0 - uT) / T0 * T0) with uT by (unfold T0; field). lra. }
  split; [exact S|].
  apply (C34_energy_never_increases C0 E0 KG0 J0 dedx0 1) with (b := -3) (T := T0); try exact S;
    try (unfold C0, KG0, alpha, T0; cbn [n_mass]; lra).
  intros k. rewrite force0_const. apply Rlt_le, force0_pos.
Qed.

(** C36 on two rows: the energy drops from m/4 to m/12. *)
Definition row_a : state := mkState vertex0 (mkVec 0 0 (3 / 4)).
Definition row_b : state := mkState vertex0 (mkVec 0 0 (5 / 12)).
Lemma ke_row_a : ke alpha row_a = 1000.
Proof.
  unfold ke, row_a, dot, alpha. cbn [mom vx vy vz n_mass].
  replace (1 + (0 * 0 + 0 * 0 + 3 / 4 * (3 / 4))) with ((5 / 4) ^ 2) by field.
  rewrite sqrt_pow2 by lra. field.
Qed.
Lemma ke_row_b : ke alpha row_b = 1000 / 3.
Proof.
  unfold ke, row_b, dot, alpha. cbn [mom vx vy vz n_mass].
  replace (1 + (0 * 0 + 0 * 0 + 5 / 12 * (5 / 12))) with ((13 / 12) ^ 2) by field.
  rewrite sqrt_pow2 by lra. field.
Qed.

(** 2000/3 MeV at 30 eV per pair, no fluctuations: 22222222 electrons, all at the second row. *)
Example C36_example :
  exists els, generate_electrons [row_a; row_b] alpha (mkDparams 0 3 0 30) [1; 1] = Ok els /\
  els = [0; 22222222]%Z.
Proof.
  assert (NZ : forall s, In s [row_a; row_b] -> mom s <> vzero).
  { intros s [<-|[<-|[]]]; apply z_nonzero; lra. }
  assert (E : exists els, generate_electrons [row_a; row_b] alpha (mkDparams 0 3 0 30) [1; 1] = Ok els).
  { unfold generate_electrons, mean_electrons, pydivR. cbn [d_w].
    rewrite (Req_bool_false 30 0) by lra. cbn [bind]. eauto. }
  destruct E as (els & E). exists els. split; [exact E|].
  destruct (C36_counts _ _ _ _ _ E eq_refl NZ) as (L & F & N).
  specialize (N 0%nat row_a ltac:(cbn; lia)).
  destruct els as [|x [|y [|]]]; try discriminate. cbn [nth] in F, N. rewrite F, N.
  unfold created. rewrite ke_row_a, ke_row_b. cbn [d_fano d_w].
  rewrite Rmult_0_l, sqrt_0, Rmult_0_l, Rplus_0_r.
  rewrite Rabs_left by lra. do 2 f_equal.
  rewrite Ztrunc_floor by lra. apply Zfloor_imp. simpl (22222222 + 1)%Z. lra.
Qed.

Print Assumptions C34_lorentz_force.
Print Assumptions C34_power.
Print Assumptions C34_track_energies.
Print Assumptions C36_electron_budget.
Print Assumptions C37_track_volume.
Print Assumptions C37_times.
Print Assumptions C56_time_limit.
Print Assumptions C56_track_cut_refuted.
