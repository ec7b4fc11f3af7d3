(** P_Motion.v -- C59 to C61: helices, ranges and symmetries of tracks. *)
From Coq Require Import ZArith Reals Lia Lra String.
From Flocq Require Import Core.
From Verif Require Import Base Nucleus Solver SpecSolver P_Solver P_Braking.
Local Open Scope list_scope.
Local Open Scope R_scope.

Lemma deriv_eq f t a b : derivable_pt_lim f t a -> a = b -> derivable_pt_lim f t b.
Proof. now intros H <-. Qed.
Lemma deriv_plus f g t a b : derivable_pt_lim f t a -> derivable_pt_lim g t b ->
  derivable_pt_lim (fun t => f t + g t) t (a + b).
Proof. exact (derivable_pt_lim_plus f g t a b). Qed.
Lemma deriv_minus f g t a b : derivable_pt_lim f t a -> derivable_pt_lim g t b ->
  derivable_pt_lim (fun t => f t - g t) t (a - b).
Proof. exact (derivable_pt_lim_minus f g t a b). Qed.
Lemma deriv_mult f g t a b : derivable_pt_lim f t a -> derivable_pt_lim g t b ->
  derivable_pt_lim (fun t => f t * g t) t (a * g t + f t * b).
Proof. exact (derivable_pt_lim_mult f g t a b). Qed.
Lemma deriv_scal k f t a : derivable_pt_lim f t a -> derivable_pt_lim (fun t => k * f t) t (k * a).
Proof. exact (derivable_pt_lim_scal f k t a). Qed.
Lemma deriv_const k t : derivable_pt_lim (fun _ => k) t 0.
Proof. exact (derivable_pt_lim_const k t). Qed.
Lemma deriv_id t : derivable_pt_lim (fun t => t) t 1.
Proof. exact (derivable_pt_lim_id t). Qed.
Lemma deriv_cos w t : derivable_pt_lim (fun t => cos (w * t)) t (- w * sin (w * t)).
Proof.
  eapply deriv_eq; [apply (derivable_pt_lim_comp (fun t => w * t) cos)|].
  - apply deriv_scal, deriv_id.
  - apply derivable_pt_lim_cos.
  - ring.
Qed.
Lemma deriv_sin w t : derivable_pt_lim (fun t => sin (w * t)) t (w * cos (w * t)).
Proof.
  eapply deriv_eq; [apply (derivable_pt_lim_comp (fun t => w * t) sin)|].
  - apply deriv_scal, deriv_id.
  - apply derivable_pt_lim_sin.
  - ring.
Qed.

Lemma constant_of f T : (forall t, 0 <= t <= T -> derivable_pt_lim f t 0) ->
  forall t, 0 <= t <= T -> f t = f 0.
Proof.
  intros H t Ht. destruct (Rle_lt_or_eq_dec 0 t (proj1 Ht)) as [L|<-]; [|reflexivity].
  destruct (MVT_cor2 f (fun _ => 0) 0 t L) as (x & E & _); [intros x Hx; apply H; lra|]. lra.
Qed.

Section Motion.
  Variables (c e_charge mev_kg mev_joule : R) (dedx : nucleus -> R -> R) (density : R).
  Hypotheses (Hc : 0 < c) (Hkg : 0 < mev_kg).
  Notation eom := (equation_of_motion c e_charge mev_kg mev_joule dedx density).
  Notation stopping := (stopping mev_joule dedx density).
  Notation charge := (charge e_charge).

  (** ** C59: helices *)
  Definition gamma0 (u : vec) : R := sqrt (1 + dot u u).
  (** The position after turning for a time t around the field at frequency w. *)
  Definition turned (u : vec) (a : R) : vec :=
    mkVec (vx u * cos a + vy u * sin a) (vy u * cos a - vx u * sin a) (vz u).

  Lemma norm_gamma u : sqrt (1 + norm u ^ 2) = gamma0 u.
  Proof. unfold gamma0. now rewrite norm_sq. Qed.

  Lemma vacuum_rates b nuc sol T : 0 < n_mass nuc -> (forall k, stopping nuc k = 0) ->
    solves (eom b 0 nuc) sol T -> forall t, 0 <= t <= T ->
    dot (mom (sol t)) (mom (sol t)) = dot (mom (sol 0)) (mom (sol 0)) /\
    let g := gamma0 (mom (sol 0)) in
    let w := charge nuc * b / (n_mass nuc * mev_kg * g) in
    let u := mom (sol t) in
    derivable_pt_lim (fun t => vx (mom (sol t))) t (w * vy u) /\
    derivable_pt_lim (fun t => vy (mom (sol t))) t (- w * vx u) /\
    derivable_pt_lim (fun t => vz (mom (sol t))) t 0 /\
    derivable_pt_lim (fun t => vx (pos (sol t))) t (c / g * vx u) /\
    derivable_pt_lim (fun t => vy (pos (sol t))) t (c / g * vy u) /\
    derivable_pt_lim (fun t => vz (pos (sol t))) t (c / g * vz u).
  Proof using Hc Hkg.
    intros Hm S0 S.
    assert (K : forall t, 0 <= t <= T -> ke nuc (sol t) = ke nuc (sol 0)).
    { apply constant_of. intros t Ht. destruct (C34_power c e_charge mev_kg mev_joule dedx density Hc Hkg b 0 nuc sol T t Hm S Ht)
        as (d & _ & D). eapply deriv_eq; [exact D|]. rewrite S0. unfold Rdiv. ring. }
    intros t Ht.
    assert (DD : dot (mom (sol t)) (mom (sol t)) = dot (mom (sol 0)) (mom (sol 0))).
    { specialize (K t Ht). unfold ke in K. apply Rmult_eq_reg_l in K; [|lra].
      pose proof (dot_ge0 (mom (sol t))). pose proof (dot_ge0 (mom (sol 0))).
      assert (Q : sqrt (1 + dot (mom (sol t)) (mom (sol t))) = sqrt (1 + dot (mom (sol 0)) (mom (sol 0)))) by lra.
      apply sqrt_inj in Q; lra. }
    split; [exact DD|]. cbv zeta.
    destruct (S t Ht) as (d & E & (P1 & P2 & P3) & (M1 & M2 & M3)).
    pose proof (eom_ok_nonzero c e_charge mev_kg mev_joule dedx density _ _ _ _ _ E) as Hu.
    rewrite eom_value in E by (try assumption; lra).
    apply (f_equal (fun r => match r with Ok d => d | Err _ => sol t end)) in E.
    cbv beta match in E. rewrite <- E in *. clear E d. cbn [pos mom vx vy vz vscale] in *.
    rewrite S0, norm_gamma in *.
    assert (G : gamma0 (mom (sol t)) = gamma0 (mom (sol 0))) by (unfold gamma0; now rewrite DD).
    rewrite G in *. set (g := gamma0 (mom (sol 0))) in *.
    assert (Pg : 0 < g) by (unfold g; rewrite <- norm_gamma; apply sg_pos).
    pose proof (norm_pos _ Hu) as Pn.
    split; [eapply deriv_eq; [exact M1|field; lra]|].
    split; [eapply deriv_eq; [exact M2|field; lra]|].
    split; [eapply deriv_eq; [exact M3|field; lra]|]. auto.
  Qed.

  (** C59: without gas and electric field a charged nucleus moves on a helix around the magnetic
      field: its momentum turns with the relativistic cyclotron frequency q B / (gamma m). *)
  Theorem C59_helix b nuc sol T : 0 < n_mass nuc -> (forall k, stopping nuc k = 0) ->
    charge nuc * b <> 0 -> solves (eom b 0 nuc) sol T -> forall t, 0 <= t <= T ->
    let u := mom (sol 0) in
    let g := gamma0 u in
    let w := charge nuc * b / (n_mass nuc * mev_kg * g) in
    mom (sol t) = turned u (w * t) /\
    pos (sol t) = mkVec (vx (pos (sol 0)) + c / (g * w) * (vx u * sin (w * t) + vy u * (1 - cos (w * t))))
                        (vy (pos (sol 0)) + c / (g * w) * (vy u * sin (w * t) - vx u * (1 - cos (w * t))))
                        (vz (pos (sol 0)) + c / g * vz u * t).
  Proof using Hc Hkg.
    intros Hm S0 Hq S t Ht u g w.
    pose proof (vacuum_rates b nuc sol T Hm S0 S) as V.
    assert (Pg : 0 < g) by (unfold g; rewrite <- norm_gamma; apply sg_pos).
    assert (Hw : w <> 0).
    { unfold w, Rdiv. apply Rmult_integral_contrapositive_currified; [exact Hq|].
      apply Rinv_neq_0_compat. apply Rmult_integral_contrapositive_currified; [|lra].
      apply Rmult_integral_contrapositive_currified; lra. }
    assert (A : forall t, 0 <= t <= T ->
      vx (mom (sol t)) * cos (w * t) - vy (mom (sol t)) * sin (w * t) = vx u).
    { intros s Hs. transitivity (vx (mom (sol 0)) * cos (w * 0) - vy (mom (sol 0)) * sin (w * 0)).
      - apply (constant_of (fun s => vx (mom (sol s)) * cos (w * s) - vy (mom (sol s)) * sin (w * s)) T); [|exact Hs].
        intros r Hr. destruct (V r Hr) as (_ & D1 & D2 & _). fold u g w in D1, D2.
        eapply deriv_eq; [apply deriv_minus; apply deriv_mult; [exact D1|apply deriv_cos|exact D2|apply deriv_sin]|cbv beta; ring].
      - rewrite Rmult_0_r, cos_0, sin_0. unfold u. ring. }
    assert (B : forall t, 0 <= t <= T ->
      vx (mom (sol t)) * sin (w * t) + vy (mom (sol t)) * cos (w * t) = vy u).
    { intros s Hs. transitivity (vx (mom (sol 0)) * sin (w * 0) + vy (mom (sol 0)) * cos (w * 0)).
      - apply (constant_of (fun s => vx (mom (sol s)) * sin (w * s) + vy (mom (sol s)) * cos (w * s)) T); [|exact Hs].
        intros r Hr. destruct (V r Hr) as (_ & D1 & D2 & _). fold u g w in D1, D2.
        eapply deriv_eq; [apply deriv_plus; apply deriv_mult; [exact D1|apply deriv_sin|exact D2|apply deriv_cos]|cbv beta; ring].
      - rewrite Rmult_0_r, cos_0, sin_0. unfold u. ring. }
    assert (Z : forall t, 0 <= t <= T -> vz (mom (sol t)) = vz u).
    { apply (constant_of (fun s => vz (mom (sol s)))). intros r Hr. now destruct (V r Hr) as (_ & _ & _ & D & _). }
    assert (X : vx (mom (sol t)) = vx u * cos (w * t) + vy u * sin (w * t) /\
                vy (mom (sol t)) = vy u * cos (w * t) - vx u * sin (w * t)).
    { pose proof (sin2_cos2 (w * t)) as SC. unfold Rsqr in SC. rewrite <- (A t Ht), <- (B t Ht).
      set (sn := sin (w * t)) in *. set (cs := cos (w * t)) in *.
      split.
      - transitivity (vx (mom (sol t)) * (sn * sn + cs * cs)); [rewrite SC; ring|ring].
      - transitivity (vy (mom (sol t)) * (sn * sn + cs * cs)); [rewrite SC; ring|ring]. }
    assert (PX : vx (pos (sol t)) + c / (g * w) * vy (mom (sol t)) = vx (pos (sol 0)) + c / (g * w) * vy u).
    { apply (constant_of (fun s => vx (pos (sol s)) + c / (g * w) * vy (mom (sol s))) T); [|exact Ht].
      intros r Hr. destruct (V r Hr) as (_ & D1 & D2 & _ & D4 & _). fold u g w in D1, D2, D4.
      eapply deriv_eq; [apply deriv_plus; [exact D4|apply deriv_scal; exact D2]|field; lra]. }
    assert (PY : vy (pos (sol t)) - c / (g * w) * vx (mom (sol t)) = vy (pos (sol 0)) - c / (g * w) * vx u).
    { apply (constant_of (fun s => vy (pos (sol s)) - c / (g * w) * vx (mom (sol s))) T); [|exact Ht].
      intros r Hr. destruct (V r Hr) as (_ & D1 & D2 & _ & _ & D5 & _). fold u g w in D1, D2, D5.
      eapply deriv_eq; [apply deriv_minus; [exact D5|apply deriv_scal; exact D1]|field; lra]. }
    assert (PZ : vz (pos (sol t)) - c / g * vz u * t = vz (pos (sol 0)) - c / g * vz u * 0).
    { apply (constant_of (fun s => vz (pos (sol s)) - c / g * vz u * s) T); [|exact Ht].
      intros r Hr. destruct (V r Hr) as (_ & _ & _ & _ & _ & _ & D6). fold u g in D6. rewrite (Z r Hr) in D6.
      eapply deriv_eq; [apply deriv_minus; [exact D6|apply deriv_scal, deriv_id]|ring]. }
    destruct X as [X1 X2]. split.
    - unfold turned. destruct (mom (sol t)) as [a1 a2 a3] eqn:Em. cbn [vx vy vz] in *.
      rewrite X1, X2. specialize (Z t Ht). rewrite Em in Z. cbn [vz] in Z. now rewrite Z.
    - rewrite X2 in PX. rewrite X1 in PY. destruct (pos (sol t)) as [a1 a2 a3]. cbn [vx vy vz] in *.
      f_equal; lra.
  Qed.

  (** C59: all rows of a track without gas and electric field lie on one circle, whose radius is
      p_perp / (q B), run through in the sense given by the sign of q B, at constant momentum. *)
  Theorem C59_brho solve vertex momentum nuc p track : ideal_solver solve ->
    traj c e_charge mev_kg mev_joule dedx density solve vertex momentum nuc p = Ok track ->
    0 < n_mass nuc -> (forall k, stopping nuc k = 0) -> d_efield p = 0 -> charge nuc * d_bfield p <> 0 ->
    exists cx cy, forall s, In s track ->
      let rx := vx (pos s) - cx in let ry := vy (pos s) - cy in
      let px := n_mass nuc * vx (mom s) in let py := n_mass nuc * vy (mom s) in
      (rx ^ 2 + ry ^ 2) * (charge nuc * d_bfield p) ^ 2
        = (vx momentum ^ 2 + vy momentum ^ 2) * (mev_kg * c) ^ 2 /\
      (rx * py - ry * px) * (charge nuc * d_bfield p) = (vx momentum ^ 2 + vy momentum ^ 2) * (mev_kg * c) /\
      px ^ 2 + py ^ 2 = vx momentum ^ 2 + vy momentum ^ 2 /\
      n_mass nuc * vz (mom s) = vz momentum.
  Proof using Hc Hkg.
    intros [_ HI] E Hm S0 HE HB.
    destruct (HI _ _ _ _ _ E) as (sol & T & HT & S00 & S & _ & _ & ->).
    rewrite HE, Rmult_0_l in S.
    pose proof (C59_helix (d_bfield p * -1) nuc sol T Hm S0) as H.
    assert (Cq : charge nuc <> 0) by (intros Q; apply HB; rewrite Q; ring).
    assert (Cb : d_bfield p <> 0) by (intros Q; apply HB; rewrite Q; ring).
    assert (HB' : charge nuc * (d_bfield p * -1) <> 0) by lra. specialize (H HB' S). cbv zeta in H.
    set (u := mom (sol 0)) in *. set (g := gamma0 u) in *.
    set (w := charge nuc * (d_bfield p * -1) / (n_mass nuc * mev_kg * g)) in *.
    assert (Pg : 0 < g) by (unfold g; rewrite <- norm_gamma; apply sg_pos).
    set (k := c * (n_mass nuc * mev_kg) / (charge nuc * (d_bfield p * -1))).
    assert (Hk : c / (g * w) = k). { unfold k, w. field. repeat split; lra || assumption. }
    rewrite Hk in H.
    exists (vx (pos (sol 0)) + k * vy u), (vy (pos (sol 0)) - k * vx u).
    intros s Hs. apply in_map_iff in Hs. destruct Hs as (t & <- & Ht). apply in_steps in Ht.
    destruct Ht as (_ & Tp). destruct (H t Tp) as (Em & Ep). clear H.
    rewrite Em, Ep. cbn [vx vy vz turned]. cbv zeta.
    assert (U : u = mkVec (vx momentum / n_mass nuc) (vy momentum / n_mass nuc) (vz momentum / n_mass nuc)).
    { unfold u. rewrite S00. reflexivity. }
    pose proof (sin2_cos2 (w * t)) as SC. unfold Rsqr in SC.
    set (sn := sin (w * t)) in *. set (cs := cos (w * t)) in *.
    assert (Px : n_mass nuc * vx u = vx momentum) by (rewrite U; cbn [vx]; field; lra).
    assert (Py : n_mass nuc * vy u = vy momentum) by (rewrite U; cbn [vy]; field; lra).
    assert (Pz : n_mass nuc * vz u = vz momentum) by (rewrite U; cbn [vz]; field; lra).
    assert (Q : k * (charge nuc * d_bfield p) = - (n_mass nuc * (mev_kg * c))) by (unfold k; field; auto).
    rewrite <- Px, <- Py.
    set (qb := charge nuc * d_bfield p) in *. set (mc := mev_kg * c) in *.
    assert (E1 : (vx u * sn + vy u * (1 - cs)) - vy u = vx u * sn - vy u * cs) by ring.
    assert (E2 : (vy u * sn - vx u * (1 - cs)) + vx u = vy u * sn + vx u * cs) by ring.
    split; [|split; [|split]].
    - transitivity ((k * qb) ^ 2 * ((vx u ^ 2 + vy u ^ 2) * (sn * sn + cs * cs))); [ring|].
      rewrite Q, SC. ring.
    - transitivity (- (k * qb) * n_mass nuc * ((vx u ^ 2 + vy u ^ 2) * (sn * sn + cs * cs))); [ring|].
      rewrite Q, SC. ring.
    - transitivity (n_mass nuc ^ 2 * ((vx u ^ 2 + vy u ^ 2) * (sn * sn + cs * cs))); [ring|]. rewrite SC. ring.
    - exact Pz.
  Qed.

  (** C59: and such helices exist, from every position and momentum. *)
  Definition helix (b : R) (nuc : nucleus) (x u : vec) (t : R) : state :=
    let g := gamma0 u in
    let w := charge nuc * b / (n_mass nuc * mev_kg * g) in
    mkState (mkVec (vx x + c / (g * w) * (vx u * sin (w * t) + vy u * (1 - cos (w * t))))
                   (vy x + c / (g * w) * (vy u * sin (w * t) - vx u * (1 - cos (w * t))))
                   (vz x + c / g * vz u * t))
            (turned u (w * t)).
  Theorem C59_helix_exists b nuc x u T : 0 < n_mass nuc -> (forall k, stopping nuc k = 0) ->
    charge nuc * b <> 0 -> u <> vzero -> helix b nuc x u 0 = mkState x u /\ solves (eom b 0 nuc) (helix b nuc x u) T.
  Proof using Hc Hkg.
    intros Hm S0 Hq Hu. unfold helix. set (g := gamma0 u).
    assert (Pg : 0 < g) by (unfold g; rewrite <- norm_gamma; apply sg_pos).
    set (w := charge nuc * b / (n_mass nuc * mev_kg * g)).
    assert (Hw : w <> 0).
    { unfold w, Rdiv. apply Rmult_integral_contrapositive_currified; [exact Hq|].
      apply Rinv_neq_0_compat. apply Rmult_integral_contrapositive_currified; [|lra].
      apply Rmult_integral_contrapositive_currified; lra. }
    assert (TD : forall a, dot (turned u a) (turned u a) = dot u u).
    { intros a. unfold dot, turned. cbn [vx vy vz]. pose proof (sin2_cos2 a) as SC. unfold Rsqr in SC.
      transitivity ((vx u * vx u + vy u * vy u) * (sin a * sin a + cos a * cos a) + vz u * vz u); [ring|rewrite SC; ring]. }
    split.
    { rewrite Rmult_0_r. unfold turned. rewrite cos_0, sin_0. destruct x as [x1 x2 x3], u as [u1 u2 u3].
      cbn [vx vy vz]. f_equal; f_equal; ring. }
    intros t _. cbv zeta.
    assert (NZ : turned u (w * t) <> vzero).
    { intros Q. apply Hu. apply dot_0. rewrite <- (TD (w * t)), Q. unfold dot, vzero. cbn [vx vy vz]. ring. }
    eexists. split; [apply eom_value; [assumption|exact NZ|lra]|].
    cbn [pos mom]. rewrite norm_gamma.
    replace (gamma0 (turned u (w * t))) with g by (unfold g, gamma0; now rewrite TD).
    rewrite S0. pose proof (norm_pos _ NZ) as Pn. set (nn := norm (turned u (w * t))) in *.
    assert (Qw : charge nuc / (n_mass nuc * mev_kg) * b = w * g) by (unfold w; field; lra).
    unfold vderiv. cbn [pos mom vx vy vz vscale turned].
    split; split; [|split| |split].
    - eapply deriv_eq; [apply deriv_plus; [apply deriv_const|apply deriv_scal, deriv_plus;
        [apply deriv_scal, deriv_sin|apply deriv_scal, deriv_minus; [apply deriv_const|apply deriv_cos]]]|].
      field. lra.
    - eapply deriv_eq; [apply deriv_plus; [apply deriv_const|apply deriv_scal, deriv_minus;
        [apply deriv_scal, deriv_sin|apply deriv_scal, deriv_minus; [apply deriv_const|apply deriv_cos]]]|].
      field. lra.
    - eapply deriv_eq; [apply deriv_plus; [apply deriv_const|apply deriv_scal, deriv_id]|]. field. lra.
    - eapply deriv_eq.
      + apply deriv_plus; [apply deriv_scal, deriv_cos|apply deriv_scal, deriv_sin].
      + transitivity (w * (vy u * cos (w * t) - vx u * sin (w * t))); [ring|].
        transitivity (charge nuc / (n_mass nuc * mev_kg) * b * ((vy u * cos (w * t) - vx u * sin (w * t)) / g)).
        * rewrite Qw. field. lra.
        * field. lra.
    - eapply deriv_eq.
      + apply deriv_minus; [apply deriv_scal, deriv_cos|apply deriv_scal, deriv_sin].
      + transitivity (- w * (vx u * cos (w * t) + vy u * sin (w * t))); [ring|].
        transitivity (- (charge nuc / (n_mass nuc * mev_kg) * b) * ((vx u * cos (w * t) + vy u * sin (w * t)) / g)).
        * rewrite Qw. field. lra.
        * field. lra.
    - eapply deriv_eq; [apply deriv_const|]. field. lra.
  Qed.

  (** ** C60: range *)
  Definition vminus (a b : vec) : vec := mkVec (vx a - vx b) (vy a - vy b) (vz a - vz b).
  Lemma cauchy a b : dot a b <= norm a * norm b.
  Proof.
    destruct (Rle_lt_dec (dot a b) 0) as [L|L].
    { pose proof (norm_ge0 a). pose proof (norm_ge0 b). nra. }
    apply Rsqr_incr_0_var; [|apply Rmult_le_pos; apply norm_ge0].
    unfold Rsqr. replace (norm a * norm b * (norm a * norm b)) with (norm a ^ 2 * norm b ^ 2) by ring.
    rewrite !norm_sq. unfold dot.
    pose proof (pow2_ge_0 (vx a * vy b - vy a * vx b)). pose proof (pow2_ge_0 (vx a * vz b - vz a * vx b)).
    pose proof (pow2_ge_0 (vy a * vz b - vz a * vy b)). nra.
  Qed.
  Lemma nonincreasing f f' T : (forall t, 0 <= t <= T -> derivable_pt_lim f t (f' t) /\ f' t <= 0) ->
    forall t, 0 <= t <= T -> f t <= f 0.
  Proof.
    intros H t Ht. destruct (Rle_lt_or_eq_dec 0 t (proj1 Ht)) as [L|<-]; [|lra].
    destruct (MVT_cor2 f f' 0 t L) as (x & E & Hx); [intros x Hx; apply H; lra|].
    destruct (H x ltac:(lra)) as [_ N]. nra.
  Qed.

  (** The velocity the equation of motion gives at a state. *)
  Definition velocity (b e : R) (nuc : nucleus) (s : state) : vec :=
    match eom b e nuc s with Ok d => pos d | Err _ => vzero end.
  (** MeV to Joule, as it follows from MEV_2_KG. *)
  Definition joule : R := mev_kg * c ^ 2.

  Lemma power_velocity b e nuc sol T t : 0 < n_mass nuc -> solves (eom b e nuc) sol T -> 0 <= t <= T ->
    derivable_pt_lim (fun t => ke nuc (sol t)) t
      ((charge nuc * e * vz (velocity b e nuc (sol t)) - stopping nuc (ke nuc (sol t)) * norm (velocity b e nuc (sol t))) / joule) /\
    vderiv (fun t => pos (sol t)) t (velocity b e nuc (sol t)) /\ norm (velocity b e nuc (sol t)) < c.
  Proof using Hc Hkg.
    intros Hm S Ht. destruct (C34_power c e_charge mev_kg mev_joule dedx density Hc Hkg b e nuc sol T t Hm S Ht) as (d & E & D).
    unfold velocity. rewrite E. split; [exact D|]. destruct (S t Ht) as (d' & E' & P & _).
    assert (d' = d) by congruence. subst d'. split; [exact P|].
    pose proof (eom_ok_nonzero c e_charge mev_kg mev_joule dedx density _ _ _ _ _ E) as Hu.
    destruct (C34_lorentz_force c e_charge mev_kg mev_joule dedx density Hc Hkg b e nuc (sol t) Hu Hm) as (d'' & E'' & N & _).
    assert (d'' = d) by congruence. now subst d''.
  Qed.

  Lemma joule_pos : 0 < joule.
  Proof using Hc Hkg. unfold joule. apply Rmult_lt_0_compat; [lra|]. apply pow_lt. lra. Qed.

  (** C60: where the stopping force is at least [smin], a nucleus gets no further from where it
      started than the energy it has lost over that force. *)
  Theorem C60_range b nuc sol T smin : 0 < n_mass nuc -> solves (eom b 0 nuc) sol T ->
    0 <= smin -> (forall t, 0 <= t <= T -> smin <= stopping nuc (ke nuc (sol t))) ->
    forall t, 0 <= t <= T ->
    smin * norm (vminus (pos (sol t)) (pos (sol 0))) <= (ke nuc (sol 0) - ke nuc (sol t)) * joule.
  Proof using Hc Hkg.
    intros Hm S Hs HS t Ht. pose proof joule_pos as Pj.
    set (n := vminus (pos (sol t)) (pos (sol 0))).
    (* along every direction a of length at most one *)
    assert (A : forall a, norm a <= 1 ->
      smin * dot a (vminus (pos (sol t)) (pos (sol 0))) <= (ke nuc (sol 0) - ke nuc (sol t)) * joule).
    { intros a Ha.
      pose (f := fun t => ke nuc (sol t) * joule + smin * dot a (pos (sol t))).
      pose (f' := fun t => - (stopping nuc (ke nuc (sol t)) * norm (velocity b 0 nuc (sol t))) + smin * dot a (velocity b 0 nuc (sol t))).
      assert (N : f t <= f 0).
      { apply (nonincreasing f f' T); [|exact Ht]. intros r Hr.
        destruct (power_velocity b 0 nuc sol T r Hm S Hr) as (D & (P1 & P2 & P3) & _). split.
        - unfold f. eapply deriv_eq.
          + apply deriv_plus.
            * eapply deriv_eq; [apply (deriv_mult _ (fun _ => joule)); [exact D|apply deriv_const]|].
              instantiate (1 := - (stopping nuc (ke nuc (sol r)) * norm (velocity b 0 nuc (sol r)))). cbv beta. field. lra.
            * apply deriv_scal. unfold dot. apply deriv_plus; [apply deriv_plus|]; apply deriv_scal; [exact P1|exact P2|exact P3].
          + reflexivity.
        - unfold f'. specialize (HS r Hr). set (v := velocity b 0 nuc (sol r)) in *.
          pose proof (cauchy a v) as C. pose proof (norm_ge0 v) as Nv. pose proof (norm_ge0 a) as Na.
          assert (dot a v <= norm v) by (apply Rle_trans with (1 := C); nra).
          nra. }
      unfold f in N. unfold dot, vminus in *. cbn [vx vy vz] in *. lra. }
    destruct (Req_dec (norm n) 0) as [Z|Z].
    - fold n. rewrite Z, Rmult_0_r. specialize (A vzero).
      assert (Nz : norm vzero = 0) by (unfold norm, dot, vzero; cbn [vx vy vz]; replace (0*0+0*0+0*0) with 0 by ring; apply sqrt_0).
      rewrite Nz in A. specialize (A ltac:(lra)). unfold dot, vzero in A. cbn [vx vy vz] in A. lra.
    - assert (Pn : 0 < norm n) by (pose proof (norm_ge0 n); lra).
      specialize (A (vscale (/ norm n) n)). rewrite norm_scale in A by (apply Rlt_le, Rinv_0_lt_compat, Pn).
      rewrite Rinv_l in A by lra. specialize (A (Rle_refl 1)). fold n in A.
      assert (Q : dot (vscale (/ norm n) n) n = norm n).
      { transitivity (/ norm n * dot n n); [unfold dot, vscale; cbn [vx vy vz]; ring|].
        rewrite <- norm_sq. field. exact Z. }
      rewrite Q in A. fold n. exact A.
  Qed.

  (** C60: and losing energy takes time: at most the largest stopping force times c. *)
  Theorem C60_loss_rate b nuc sol T smax : 0 < n_mass nuc -> solves (eom b 0 nuc) sol T ->
    0 <= smax -> (forall t, 0 <= t <= T -> stopping nuc (ke nuc (sol t)) <= smax) ->
    forall t, 0 <= t <= T -> (ke nuc (sol 0) - ke nuc (sol t)) * joule <= smax * c * t.
  Proof using Hc Hkg.
    intros Hm S Hs HS t Ht. pose proof joule_pos as Pj.
    pose (f := fun t => - (ke nuc (sol t) * joule) - smax * c * t).
    pose (f' := fun t => stopping nuc (ke nuc (sol t)) * norm (velocity b 0 nuc (sol t)) - smax * c).
    assert (N : f t <= f 0).
    { apply (nonincreasing f f' T); [|exact Ht]. intros r Hr.
      destruct (power_velocity b 0 nuc sol T r Hm S Hr) as (D & _ & Nv). split.
      - unfold f. eapply deriv_eq; [apply deriv_minus; [apply (derivable_pt_lim_opp (fun t => ke nuc (sol t) * joule));
          apply (deriv_mult _ (fun _ => joule)); [exact D|apply deriv_const]|apply deriv_scal, deriv_id]|].
        unfold f'. cbv beta. field. lra.
      - unfold f'. specialize (HS r Hr). pose proof (norm_ge0 (velocity b 0 nuc (sol r))). 
        destruct (Rle_lt_dec (stopping nuc (ke nuc (sol r))) 0); nra. }
    unfold f in N. lra.
  Qed.

  (** Speed at a kinetic energy. *)
  Lemma speed_of b e nuc s d k : 0 < n_mass nuc -> eom b e nuc s = Ok d -> 0 <= k <= ke nuc s ->
    c * sqrt (1 - / (1 + k / n_mass nuc) ^ 2) <= norm (pos d).
  Proof using Hc Hkg.
    intros Hm E Hk. pose proof (eom_ok_nonzero c e_charge mev_kg mev_joule dedx density _ _ _ _ _ E) as Hu.
    rewrite eom_value in E by (try assumption; lra).
    apply (f_equal (fun r => match r with Ok d => pos d | Err _ => pos d end)) in E.
    cbv beta match in E. cbn [pos] in E. rewrite <- E. rewrite norm_gamma.
    set (u := mom s) in *. set (g := gamma0 u). assert (Pg : 0 < g) by (unfold g; rewrite <- norm_gamma; apply sg_pos).
    rewrite norm_scale by (apply Rlt_le, Rdiv_lt_0_compat; lra).
    assert (Sg : g ^ 2 = 1 + norm u ^ 2).
    { unfold g. rewrite <- norm_gamma. pose proof (sg_sq (norm u)). lra. }
    assert (Gk : 1 + k / n_mass nuc <= g).
    { unfold ke in Hk. fold u in Hk. fold (gamma0 u) in Hk. fold g in Hk.
      apply Rmult_le_reg_l with (n_mass nuc); [exact Hm|]. rewrite Rmult_plus_distr_l.
      replace (n_mass nuc * (k / n_mass nuc)) with k by (field; lra). lra. }
    assert (K1 : 1 <= 1 + k / n_mass nuc).
    { assert (0 <= k / n_mass nuc) by (apply Rmult_le_pos; [lra|apply Rlt_le, Rinv_0_lt_compat; lra]). lra. }
    replace (c / g * norm u) with (c * (norm u / g)) by (field; lra).
    apply Rmult_le_compat_l; [lra|].
    assert (Q : norm u / g = sqrt (1 - / g ^ 2)).
    { symmetry. replace (1 - / g ^ 2) with ((norm u / g) ^ 2).
      - apply sqrt_pow2. apply Rmult_le_pos; [apply norm_ge0|apply Rlt_le, Rinv_0_lt_compat, Pg].
      - replace ((norm u / g) ^ 2) with (norm u ^ 2 * / g ^ 2) by (field; lra).
        replace (norm u ^ 2) with (g ^ 2 - 1) by lra. field. lra. }
    rewrite Q. apply sqrt_le_1_alt. 
    assert (/ g ^ 2 <= / (1 + k / n_mass nuc) ^ 2).
    { apply Rinv_le; [apply pow_lt; lra|]. apply pow_incr. lra. }
    lra.
  Qed.

  (** C60: the time a nucleus needs to slow down to a kinetic energy k is bounded; in a gas that
      stops with at least [smin] every nucleus above k at time t has t * v(k) * smin <= energy lost. *)
  Theorem C60_stopping_time b nuc sol T smin k : 0 < n_mass nuc -> solves (eom b 0 nuc) sol T ->
    0 <= T -> 0 <= smin -> (forall t, 0 <= t <= T -> smin <= stopping nuc (ke nuc (sol t))) -> 0 <= k ->
    (forall t, 0 <= t <= T -> k <= ke nuc (sol t)) ->
    smin * (c * sqrt (1 - / (1 + k / n_mass nuc) ^ 2)) * T <= (ke nuc (sol 0) - k) * joule.
  Proof using Hc Hkg.
    intros Hm S HT Hs HS Hk HK. pose proof joule_pos as Pj.
    set (vk := c * sqrt (1 - / (1 + k / n_mass nuc) ^ 2)).
    assert (Pv : 0 <= vk) by (apply Rmult_le_pos; [lra|apply sqrt_pos]).
    pose (f := fun t => ke nuc (sol t) * joule + smin * vk * t).
    pose (f' := fun t => - (stopping nuc (ke nuc (sol t)) * norm (velocity b 0 nuc (sol t))) + smin * vk).
    assert (N : f T <= f 0).
    { apply (nonincreasing f f' T); [|lra]. intros r Hr.
      destruct (power_velocity b 0 nuc sol T r Hm S Hr) as (D & _ & _). split.
      - unfold f. eapply deriv_eq; [apply deriv_plus; [apply (deriv_mult _ (fun _ => joule)); [exact D|apply deriv_const]|apply deriv_scal, deriv_id]|].
        unfold f'. cbv beta. field. lra.
      - unfold f'. specialize (HS r Hr). 
        assert (V : vk <= norm (velocity b 0 nuc (sol r))).
        { unfold velocity. destruct (S r Hr) as (d & E & _). rewrite E. eapply speed_of; [exact Hm|exact E|]. split; [exact Hk|apply HK, Hr]. }
        nra. }
    unfold f in N. specialize (HK T ltac:(lra)). nra.
  Qed.

  (** C60: range of a track, in the units of the stopping power table: MeV per (g/cm2) times
      g/cm3 times 100 is MeV per metre, provided the two energy conversions agree. *)
  Theorem C60_track_range solve vertex momentum nuc p track smin : ideal_solver solve ->
    traj c e_charge mev_kg mev_joule dedx density solve vertex momentum nuc p = Ok track ->
    0 < n_mass nuc -> d_efield p = 0 -> mev_joule = joule -> 0 <= density ->
    0 <= smin -> (forall k, smin <= dedx nuc k) ->
    let k0 := ke nuc (initial_state vertex momentum nuc) in
    forall s, In s track ->
      smin * density * 100 * norm (vminus (pos s) vertex) <= k0 - ke nuc s.
  Proof using Hc Hkg.
    intros [_ HI] E Hm HE HJ Hd Hs HS k0 s Is. pose proof joule_pos as Pj.
    destruct (HI _ _ _ _ _ E) as (sol & T & HT & S00 & S & _ & _ & ->).
    rewrite HE, Rmult_0_l in S.
    apply in_map_iff in Is. destruct Is as (t & <- & Ht). apply in_steps in Ht. destruct Ht as (_ & Tp).
    pose proof (C60_range (d_bfield p * -1) nuc sol T (smin * joule * density * 100) Hm S) as R.
    assert (P1 : forall x y, 0 <= x -> 0 <= y -> 0 <= x * joule * y * 100).
    { intros x y Hx Hy. apply Rmult_le_pos; [|lra]. apply Rmult_le_pos; [|lra]. apply Rmult_le_pos; lra. }
    specialize (R (P1 _ _ Hs Hd)).
    assert (F : forall t, 0 <= t <= T -> smin * joule * density * 100 <= stopping nuc (ke nuc (sol t))).
    { intros r _. unfold P_Solver.stopping. rewrite HJ. pose proof (P1 (dedx nuc (ke nuc (sol r)) - smin) density) as Q.
      specialize (HS (ke nuc (sol r))). specialize (Q ltac:(lra) Hd). lra. }
    specialize (R F t Tp). rewrite S00 in R. cbn [pos initial_state] in R.
    apply Rmult_le_reg_r with joule; [exact Pj|]. fold k0 in R. unfold k0. 
    replace (smin * density * 100 * norm (vminus (pos (sol t)) vertex) * joule)
      with (smin * joule * density * 100 * norm (vminus (pos (sol t)) vertex)) by ring.
    exact R.
  Qed.

  (** C60: if the gas stops the nucleus fast enough, the time limit plays no role: the track ends
      with a stopping condition before the microsecond is over. *)
  Theorem C60_complete_track solve vertex momentum nuc p track smin : ideal_solver solve ->
    traj c e_charge mev_kg mev_joule dedx density solve vertex momentum nuc p = Ok track ->
    0 < n_mass nuc -> d_efield p = 0 -> mev_joule = joule -> 0 <= density ->
    0 <= smin -> (forall k, smin <= dedx nuc k) ->
    let k0 := ke nuc (initial_state vertex momentum nuc) in
    KE_LIMIT <= k0 ->
    k0 - KE_LIMIT < smin * density * 100 * (c * sqrt (1 - / (1 + KE_LIMIT / n_mass nuc) ^ 2)) / 10 ^ 6 ->
    exists sol T g up, sol 0 = initial_state vertex momentum nuc /\ 0 <= T < / 10 ^ 6 /\
      In (g, up) (events nuc) /\ g (sol T) = Ok 0 /\
      track = map sol (filter (fun t => Rle_bool t T) TIME_STEPS).
  Proof using Hc Hkg.
    intros [_ HI] E Hm HE HJ Hd Hs HS k0 HK HL. pose proof joule_pos as Pj.
    destruct (HI _ _ _ _ _ E) as (sol & T & HT & S00 & S & U & EV & ->).
    rewrite HE, Rmult_0_l in S.
    assert (P1 : forall x y, 0 <= x -> 0 <= y -> 0 <= x * joule * y * 100).
    { intros x y Hx Hy. apply Rmult_le_pos; [|lra]. apply Rmult_le_pos; [|lra]. apply Rmult_le_pos; lra. }
    assert (F : forall t, 0 <= t <= T -> smin * joule * density * 100 <= stopping nuc (ke nuc (sol t))).
    { intros r _. unfold P_Solver.stopping. rewrite HJ. pose proof (P1 (dedx nuc (ke nuc (sol r)) - smin) density) as Q.
      specialize (HS (ke nuc (sol r))). specialize (Q ltac:(lra) Hd). lra. }
    assert (Pk : 0 < KE_LIMIT) by (unfold KE_LIMIT; apply Rinv_0_lt_compat, pow_lt; lra).
    assert (SC : forall t, 0 <= t <= T -> stop_condition nuc (sol t) = Ok (ke nuc (sol t) - KE_LIMIT)).
    { intros t Ht. destruct (S t Ht) as (d & Ed & _).
      pose proof (eom_ok_nonzero c e_charge mev_kg mev_joule dedx density _ _ _ _ _ Ed) as Hu.
      pose proof (norm_pos _ Hu) as Pn. pose proof (beta_pos _ Pn) as Pb.
      unfold stop_condition. rewrite gv_norm. unfold pydivR. rewrite Req_bool_false by lra. cbn [bind].
      rewrite gamma_eq by exact Pn. do 2 f_equal. unfold ke. now rewrite norm_sq. }
    assert (HK' : forall t, 0 <= t <= T -> KE_LIMIT <= ke nuc (sol t)).
    { intros t Ht. unfold events in U. inversion U as [|? ? U1 _]; subst. cbn [unfired] in U1.
      specialize (U1 t _ _ Ht (SC 0 ltac:(lra)) (SC t Ht)). rewrite S00 in U1. fold k0 in U1.
      specialize (U1 ltac:(lra)). lra. }
    pose proof (C60_stopping_time (d_bfield p * -1) nuc sol T (smin * joule * density * 100) KE_LIMIT Hm S
      (proj1 HT) (P1 _ _ Hs Hd) F ltac:(lra) HK') as ST.
    rewrite S00 in ST. fold k0 in ST. set (vk := c * sqrt (1 - / (1 + KE_LIMIT / n_mass nuc) ^ 2)) in *.
    assert (TL : T < / 10 ^ 6).
    { apply Rnot_le_lt. intros G.
      assert (Pv : 0 <= vk) by (apply Rmult_le_pos; [lra|apply sqrt_pos]).
      assert (Q : smin * density * 100 * vk * / 10 ^ 6 <= smin * density * 100 * vk * T).
      { apply Rmult_le_compat_l; [|exact G]. apply Rmult_le_pos; [|exact Pv]. apply Rmult_le_pos; [|lra].
        apply Rmult_le_pos; lra. }
      assert (W : smin * density * 100 * vk * T <= k0 - KE_LIMIT).
      { apply Rmult_le_reg_r with joule; [exact Pj|]. lra. }
      unfold Rdiv in HL. lra. }
    destruct EV as [EV|(g & up & Ig & Eg)]; [exfalso; rewrite EV in TL; assert (/ 10 ^ 6 <= 1) by (apply Rinv_le_1 || lra); lra|].
    exists sol, T, g, up. repeat split; try assumption; lra.
  Qed.

  (** ** C61: symmetries *)
  Definition rot (a : R) (v : vec) : vec :=
    mkVec (vx v * cos a - vy v * sin a) (vx v * sin a + vy v * cos a) (vz v).
  Definition mirror (v : vec) : vec := mkVec (vx v) (- vy v) (vz v).
  Definition shift (h : R) (v : vec) : vec := mkVec (vx v) (vy v) (vz v + h).
  Definition both (f : vec -> vec) (s : state) : state := mkState (f (pos s)) (f (mom s)).
  Definition move (f : vec -> vec) (s : state) : state := mkState (f (pos s)) (mom s).
  Definition mapR {A B} (f : A -> B) (r : res A) : res B := match r with Ok x => Ok (f x) | Err e => Err e end.

  Lemma rot_dot a v : dot (rot a v) (rot a v) = dot v v.
  Proof.
    unfold dot, rot. cbn [vx vy vz]. pose proof (sin2_cos2 a) as SC. unfold Rsqr in SC.
    transitivity ((vx v * vx v + vy v * vy v) * (sin a * sin a + cos a * cos a) + vz v * vz v); [ring|rewrite SC; ring].
  Qed.
  Lemma gv_dot v : gv_of v = sqrt (dot v v).
  Proof. rewrite gv_norm. reflexivity. Qed.

  (** C61: the equation of motion does not distinguish directions around the axis. *)
  Theorem C61_rotation b e nuc a s : eom b e nuc (both (rot a) s) = mapR (both (rot a)) (eom b e nuc s).
  Proof.
    unfold equation_of_motion. cbn [both mom pos]. rewrite !gv_dot, rot_dot. set (gv := sqrt (dot (mom s) (mom s))).
    destruct (pydivR gv (beta_of gv)) as [gamma|]; [|reflexivity]. cbn [bind].
    destruct (pydivR (IZR (n_Z nuc) * e_charge) _) as [qm|]; [|reflexivity]. cbn [bind].
    destruct (pydivR _ (n_mass nuc * mev_kg)) as [dec|]; [|reflexivity]. cbn [bind mapR]. f_equal.
    unfold both, rot. cbn [pos mom vx vy vz]. unfold Rdiv. f_equal; f_equal; ring.
  Qed.
  (** Left and right are exchanged with the sign of the magnetic field. *)
  Theorem C61_mirror b e nuc s : eom (- b) e nuc (both mirror s) = mapR (both mirror) (eom b e nuc s).
  Proof.
    assert (D : dot (mirror (mom s)) (mirror (mom s)) = dot (mom s) (mom s)) by (unfold dot, mirror; cbn [vx vy vz]; ring).
    unfold equation_of_motion. cbn [both mom pos]. rewrite !gv_dot, D. set (gv := sqrt (dot (mom s) (mom s))).
    destruct (pydivR gv (beta_of gv)) as [gamma|]; [|reflexivity]. cbn [bind].
    destruct (pydivR (IZR (n_Z nuc) * e_charge) _) as [qm|]; [|reflexivity]. cbn [bind].
    destruct (pydivR _ (n_mass nuc * mev_kg)) as [dec|]; [|reflexivity]. cbn [bind mapR]. f_equal.
    unfold both, mirror. cbn [pos mom vx vy vz]. unfold Rdiv. f_equal; f_equal; ring.
  Qed.
  (** The position plays no role. *)
  Theorem C61_translation b e nuc f s : eom b e nuc (move f s) = eom b e nuc s.
  Proof. reflexivity. Qed.

  Lemma rot_vderiv a f t d : vderiv f t d -> vderiv (fun t => rot a (f t)) t (rot a d).
  Proof.
    intros (D1 & D2 & D3). unfold vderiv, rot. cbn [vx vy vz]. split; [|split; [|exact D3]].
    - eapply deriv_eq; [apply deriv_minus; apply (deriv_mult _ (fun _ => _)); [exact D1|apply deriv_const|exact D2|apply deriv_const]|].
      cbv beta. ring.
    - eapply deriv_eq; [apply deriv_plus; apply (deriv_mult _ (fun _ => _)); [exact D1|apply deriv_const|exact D2|apply deriv_const]|].
      cbv beta. ring.
  Qed.

  (** The stopping conditions see no angle either. *)
  Lemma events_rot nuc a g up s : In (g, up) (events nuc) -> g (both (rot a) s) = g s.
  Proof.
    intros [Q|[Q|[Q|[Q|[]]]]]; apply (f_equal fst) in Q; cbn [fst] in Q; subst g.
    - unfold stop_condition. cbn [both mom]. rewrite !gv_dot, rot_dot. reflexivity.
    - reflexivity.
    - reflexivity.
    - unfold rho_bound_condition. cbn [both pos rot vx vy]. do 3 f_equal.
      pose proof (sin2_cos2 a) as SC. unfold Rsqr in SC. set (x := vx (pos s)). set (y := vy (pos s)).
      transitivity ((x ^ 2 + y ^ 2) * (sin a * sin a + cos a * cos a)); [ring|rewrite SC; ring].
  Qed.

  (** C61: so turning vertex and momentum around the axis turns the track. *)
  Theorem C61_track_rotation b e nuc a s0 ts track :
    ideal_track (eom b e nuc) s0 (events nuc) ts track ->
    ideal_track (eom b e nuc) (both (rot a) s0) (events nuc) ts (map (both (rot a)) track).
  Proof.
    intros (sol & T & HT & S00 & S & U & EV & ->).
    exists (fun t => both (rot a) (sol t)), T. split; [exact HT|]. split; [now rewrite S00|]. split; [|split; [|split]].
    - intros t Ht. destruct (S t Ht) as (d & E & D1 & D2). exists (both (rot a) d). split.
      + rewrite C61_rotation, E. reflexivity.
      + cbn [both pos mom]. split; now apply rot_vderiv.
    - rewrite Forall_forall in *. intros [g up] I t g0 gt Ht. rewrite !(events_rot nuc a g up _ I).
      apply (U (g, up) I t g0 gt Ht).
    - destruct EV as [->|(g & up & I & Z)]; [now left|right]. exists g, up. split; [exact I|].
      now rewrite (events_rot nuc a g up _ I).
    - rewrite map_map. reflexivity.
  Qed.

  (** C61: orientation of the fields.  A positive electric field pushes a positive nucleus towards
      the window (z = 0): later time buckets, away from the micromegas, where electrons go. *)
  Theorem C61_electric_force nuc p s d d0 : 0 < n_mass nuc -> mom s <> vzero ->
    eom (d_bfield p * -1) (d_efield p * -1) nuc s = Ok d ->
    eom (d_bfield p * -1) 0 nuc s = Ok d0 ->
    vx (mom d) = vx (mom d0) /\ vy (mom d) = vy (mom d0) /\
    (vz (mom d) - vz (mom d0)) * (n_mass nuc * mev_kg * c) = - (charge nuc * d_efield p).
  Proof using Hc Hkg.
    intros Hm Hu E E0. rewrite eom_value in E, E0 by (try assumption; lra).
    apply (f_equal (fun r => match r with Ok d => mom d | Err _ => mom s end)) in E.
    apply (f_equal (fun r => match r with Ok d => mom d | Err _ => mom s end)) in E0.
    cbv beta match in E, E0. cbn [mom] in E, E0. rewrite <- E, <- E0. cbn [vx vy vz].
    split; [reflexivity|]. split; [reflexivity|].
    pose proof (norm_pos _ Hu) as Pn. field. repeat split; lra.
  Qed.
End Motion.

(** Example: a unit charge of unit mass on a circle; the hypotheses of C59, with all constants 1. *)
Definition unit_nuc : nucleus := mkNucleus 1 1 1 "1H"%string.
Example C59_example : exists sol,
  sol 0 = mkState vzero (mkVec 1 0 0) /\
  solves (equation_of_motion 1 1 1 1 (fun _ _ => 0) 1 (-1) 0 unit_nuc) sol 7 /\
  (** a quarter turn to the left *)
  mom (sol (PI / 2 * sqrt 2)) = mkVec 0 1 0.
Proof.
  destruct (C59_helix_exists 1 1 1 1 (fun _ _ => 0) 1 Rlt_0_1 Rlt_0_1 (-1) unit_nuc vzero (mkVec 1 0 0) 7) as (E & S).
  - cbn. lra.
  - intros k. unfold stopping. ring.
  - unfold charge, unit_nuc. cbn [n_Z]. lra.
  - intros Q. apply (f_equal vx) in Q. cbn in Q. lra.
  - eexists. split; [exact E|]. split; [exact S|]. unfold helix. cbn [mom].
    assert (G : gamma0 (mkVec 1 0 0) = sqrt 2) by (unfold gamma0, dot; cbn [vx vy vz]; f_equal; ring).
    rewrite G. assert (P2 : 0 < sqrt 2) by (apply sqrt_lt_R0; lra).
    replace (charge 1 unit_nuc * -1 / (n_mass unit_nuc * 1 * sqrt 2) * (PI / 2 * sqrt 2)) with (- (PI / 2))
      by (unfold charge, unit_nuc; cbn [n_Z n_mass]; field; lra).
    unfold turned. cbn [vx vy vz]. rewrite cos_neg, sin_neg, cos_PI2, sin_PI2. f_equal; ring.
Qed.

(** Example: the alpha particle of P_Braking.v, stopped within ten nanoseconds, with the constants
    MEV_2_JOULE and MEV_2_KG consistent; all hypotheses of C60_complete_track are met. *)
Definition T1 : R := / 10 ^ 8.
Definition J1 : R := KG0 * C0 ^ 2.
Definition force1 : R := (U0 - uT) / T1 * C0 * (n_mass alpha * KG0).
Definition dedx1 (_ : nucleus) (_ : R) : R := force1 / J1 / 100.
Lemma J1_pos : 0 < J1. Proof. unfold J1, KG0, C0. lra. Qed.
Lemma force1_pos : 0 < force1.
Proof.
  pose proof uT_bounds. unfold force1, T1, C0, KG0, alpha. cbn [n_mass].
  unfold U0 in *. repeat apply Rmult_lt_0_compat; lra.
Qed.
Lemma force1_const k : stopping J1 dedx1 1 alpha k = force1.
Proof. pose proof J1_pos. unfold stopping, dedx1. field. lra. Qed.
Lemma ut1 t : ut C0 KG0 alpha force1 U0 t = U0 - (U0 - uT) / T1 * t.
Proof. unfold ut, rate, force1, alpha, C0, KG0, T1. cbn [n_mass]. field. Qed.
Definition sol1 := braking C0 KG0 alpha force1 U0 (1 / 2).
Lemma start1 : sol1 0 = initial_state vertex0 momentum0 alpha.
Proof.
  unfold sol1, braking, initial_state, vertex0, momentum0, alpha. cbn [n_mass vx vy vz].
  f_equal; f_equal; try (unfold Rdiv; ring).
  - unfold zt. rewrite ut1, Rmult_0_r, Rminus_0_r. unfold Rminus. rewrite Rplus_opp_r. ring.
  - rewrite ut1. field. unfold T1. lra.
Qed.
Example C60_hypotheses : exists solve track,
  ideal_solver solve /\ traj C0 E0 KG0 J1 dedx1 1 solve vertex0 momentum0 alpha p0 = Ok track /\
  0 < n_mass alpha /\ d_efield p0 = 0 /\ J1 = KG0 * C0 ^ 2 /\ 0 <= dedx1 alpha 0 /\
  (forall k, dedx1 alpha 0 <= dedx1 alpha k) /\
  KE_LIMIT <= ke alpha (initial_state vertex0 momentum0 alpha) /\
  ke alpha (initial_state vertex0 momentum0 alpha) - KE_LIMIT <
    dedx1 alpha 0 * 1 * 100 * (C0 * sqrt (1 - / (1 + KE_LIMIT / n_mass alpha) ^ 2)) / 10 ^ 6.
Proof.
  destruct ideal_solver_exists as (solve & HI & HA).
  pose proof uT_bounds as UB. pose proof J1_pos as PJ. pose proof force1_pos as PF.
  assert (TT : ideal_track (equation_of_motion C0 E0 KG0 J1 dedx1 1 (d_bfield p0 * -1) 0 alpha) (sol1 0) (events alpha) TIME_STEPS
     (map sol1 (filter (fun t => Rle_bool t T1) TIME_STEPS))).
  { unfold sol1. apply braking_track; try (unfold C0, KG0, alpha, T1, U0; cbn [n_mass]; lra).
    - apply force1_const.
    - rewrite ut1. replace (U0 - (U0 - uT) / T1 * T1) with uT by (unfold T1; field). lra.
    - rewrite ke_braking, ut1. replace (U0 - (U0 - uT) / T1 * T1) with uT by (unfold T1; field).
      rewrite uT_sq. replace (1 + ((1 + eps) ^ 2 - 1)) with ((1 + eps) ^ 2) by ring.
      rewrite sqrt_pow2 by (unfold eps; lra). unfold KE_LIMIT, alpha, eps. cbn [n_mass]. field. }
  rewrite start1 in TT.
  replace 0 with (d_efield p0 * -1) in TT at 1 by (unfold p0; cbn [d_efield]; ring).
  edestruct HA as (track & ET); [|exact TT|].
  { apply eom_value.
    - unfold KG0. lra.
    - intros X. apply (f_equal vz) in X. unfold initial_state, momentum0, alpha, U0, vzero in X.
      cbn [n_mass mom vz] in X. lra.
    - unfold alpha. cbn [n_mass]. lra. }
  exists solve, track. split; [exact HI|]. split; [exact ET|]. split; [unfold alpha; cbn [n_mass]; lra|].
  split; [reflexivity|]. split; [reflexivity|].
  assert (PD : 0 < dedx1 alpha 0) by (unfold dedx1; apply Rdiv_lt_0_compat; [now apply Rdiv_lt_0_compat|lra]).
  split; [lra|]. split; [intros k; unfold dedx1; lra|].
  assert (K : ke alpha (initial_state vertex0 momentum0 alpha) = 4000 * (sqrt (1 + U0 ^ 2) - 1)).
  { rewrite <- start1. unfold sol1. rewrite ke_braking, ut1.
    replace (U0 - (U0 - uT) / T1 * 0) with U0 by ring. unfold alpha. cbn [n_mass]. ring. }
  rewrite K.
  assert (SQ : 1 + 57 / 10 ^ 9 <= sqrt (1 + U0 ^ 2) <= 1 + 58 / 10 ^ 9).
  { split.
    - rewrite <- (sqrt_pow2 (1 + 57 / 10 ^ 9)) by lra. apply sqrt_le_1_alt. unfold U0. lra.
    - rewrite <- (sqrt_pow2 (1 + 58 / 10 ^ 9)) by lra. apply sqrt_le_1_alt. unfold U0. lra. }
  split; [unfold KE_LIMIT; lra|].
  assert (V : 2 / 10 ^ 5 <= sqrt (1 - / (1 + KE_LIMIT / n_mass alpha) ^ 2)).
  { rewrite <- (sqrt_pow2 (2 / 10 ^ 5)) by lra. apply sqrt_le_1_alt. unfold KE_LIMIT, alpha. cbn [n_mass].
    assert (X : / (1 + / 10 ^ 6 / 4000) ^ 2 <= 1 - 45 / 10 ^ 11); [|lra].
    apply Rmult_le_reg_r with ((1 + / 10 ^ 6 / 4000) ^ 2); [lra|]. rewrite Rinv_l by lra. lra. }
  assert (D : dedx1 alpha 0 * 1 * 100 * C0 = (U0 - uT) * 10 ^ 8 * 4000).
  { unfold dedx1, force1, J1, T1, KG0, C0, alpha. cbn [n_mass]. field. }
  rewrite <- Rmult_assoc, D.
  assert (Y : (U0 * 9 / 10) * 10 ^ 8 * 4000 * (2 / 10 ^ 5) <= (U0 - uT) * 10 ^ 8 * 4000 * sqrt (1 - / (1 + KE_LIMIT / n_mass alpha) ^ 2)).
  { apply Rmult_le_compat; [unfold U0; lra|lra|lra|exact V]. }
  unfold KE_LIMIT, U0 in *. lra.
Qed.

Print Assumptions C59_helix.
Print Assumptions C59_brho.
Print Assumptions C59_helix_exists.
Print Assumptions C60_range.
Print Assumptions C60_loss_rate.
Print Assumptions C60_stopping_time.
Print Assumptions C60_track_range.
Print Assumptions C60_complete_track.
Print Assumptions C61_rotation.
Print Assumptions C61_mirror.
Print Assumptions C61_track_rotation.
Print Assumptions C61_electric_force.
