(** P_Solver.v -- C34 to C37: equation of motion, stopping conditions, electron creation. *)
From Coq Require Import ZArith Reals Lia Lra.
From Flocq Require Import Core.
From Verif Require Import Base Nucleus Solver SpecSolver.
Local Open Scope R_scope.

(** ** Algebra *)
Lemma gv_norm m : gv_of m = norm m.
Proof. unfold gv_of, norm, dot. f_equal. ring. Qed.

Lemma dot_ge0 a : 0 <= dot a a.
Proof. unfold dot. nra. Qed.

Lemma dot_0 a : dot a a = 0 -> a = vzero.
Proof.
  destruct a as [x y z]. unfold dot, vzero. cbn [vx vy vz]. intros H.
  assert (x = 0) by nra. assert (y = 0) by nra. assert (z = 0) by nra. now subst.
Qed.

Lemma norm_ge0 a : 0 <= norm a.
Proof. apply sqrt_pos. Qed.

Lemma norm_sq a : norm a ^ 2 = dot a a.
Proof. unfold norm. rewrite pow2_sqrt; [reflexivity|apply dot_ge0]. Qed.

Lemma norm_pos a : a <> vzero -> 0 < norm a.
Proof.
  intros H. unfold norm. apply sqrt_lt_R0. destruct (Rle_lt_or_eq_dec _ _ (dot_ge0 a)) as [L|E]; auto.
  symmetry in E. apply dot_0 in E. contradiction.
Qed.

Lemma norm_scale k a : 0 <= k -> norm (vscale k a) = k * norm a.
Proof.
  intros H. unfold norm, dot, vscale. cbn [vx vy vz].
  replace (k * vx a * (k * vx a) + k * vy a * (k * vy a) + k * vz a * (k * vz a))
    with (k ^ 2 * (vx a * vx a + vy a * vy a + vz a * vz a)) by ring.
  rewrite sqrt_mult; [now rewrite sqrt_pow2|apply pow2_ge_0|exact (dot_ge0 a)].
Qed.

Lemma g_pos x : 0 < 1 + x ^ 2.
Proof. nra. Qed.

Lemma sg_pos x : 0 < sqrt (1 + x ^ 2).
Proof. apply sqrt_lt_R0, g_pos. Qed.

Lemma sg_sq x : sqrt (1 + x ^ 2) * sqrt (1 + x ^ 2) = 1 + x ^ 2.
Proof. apply sqrt_sqrt. pose proof (g_pos x). lra. Qed.

Lemma beta_eq gv : 0 <= gv -> beta_of gv = gv / sqrt (1 + gv ^ 2).
Proof.
  intros H. unfold beta_of. rewrite sqrt_div; [|nra|apply g_pos]. now rewrite sqrt_pow2.
Qed.

Lemma gamma_eq gv : 0 < gv -> gv / beta_of gv = sqrt (1 + gv ^ 2).
Proof.
  intros H. rewrite beta_eq by lra. pose proof (sg_pos gv). field. lra.
Qed.

Lemma beta_pos gv : 0 < gv -> 0 < beta_of gv < 1.
Proof.
  intros H. rewrite beta_eq by lra. pose proof (sg_pos gv) as P. pose proof (sg_sq gv) as S. split.
  - unfold Rdiv. apply Rmult_lt_0_compat; [exact H|now apply Rinv_0_lt_compat].
  - apply Rmult_lt_reg_r with (sqrt (1 + gv ^ 2)); [exact P|]. unfold Rdiv.
    rewrite Rmult_assoc, Rinv_l by lra. nra.
Qed.

Lemma row_energy_ke nuc s : mom s <> vzero -> row_energy nuc s = ke nuc s.
Proof.
  intros H. unfold row_energy, ke. rewrite gv_norm, gamma_eq by now apply norm_pos.
  now rewrite norm_sq.
Qed.

Section Motion.
  Variables (c e_charge mev_kg mev_joule : R) (dedx : nucleus -> R -> R) (density : R).
  Hypotheses (Hc : 0 < c) (Hkg : 0 < mev_kg).
  Notation eom := (equation_of_motion c e_charge mev_kg mev_joule dedx density).

  (** The stopping force in Newton at a kinetic energy. *)
  Definition stopping (nuc : nucleus) (k : R) : R := dedx nuc k * mev_joule * density * 100.
  Definition charge (nuc : nucleus) : R := IZR (n_Z nuc) * e_charge.

  Lemma eom_value b e nuc s : mom s <> vzero -> n_mass nuc <> 0 ->
    let u := mom s in
    let g := sqrt (1 + norm u ^ 2) in
    let q := charge nuc / (n_mass nuc * mev_kg) in
    let d := stopping nuc (ke nuc s) / (n_mass nuc * mev_kg) in
    eom b e nuc s = Ok (mkState (vscale (c / g) u)
      (mkVec ((q * (c / g * vy u) * b - d * (vx u / norm u)) / c)
             ((q * (-1 * (c / g * vx u) * b) - d * (vy u / norm u)) / c)
             ((q * e - d * (vz u / norm u)) / c))).
  Proof.
    intros Hu Hm u g q d.
    pose proof (norm_pos _ Hu) as Pn. pose proof (beta_pos _ Pn) as Pb. pose proof (sg_pos (norm u)) as Pg.
    unfold equation_of_motion, pydivR. rewrite gv_norm.
    rewrite (Req_bool_false (beta_of (norm (mom s))) 0) by lra. cbn [bind].
    rewrite gamma_eq by exact Pn.
    assert (Hmk : n_mass nuc * mev_kg <> 0) by (apply Rmult_integral_contrapositive_currified; lra).
    rewrite !(Req_bool_false _ _ Hmk). cbn [bind].
    replace (n_mass nuc * (sqrt (1 + norm (mom s) ^ 2) - 1)) with (ke nuc s)
      by (unfold ke; now rewrite norm_sq).
    fold (stopping nuc (ke nuc s)). fold (charge nuc). fold u. fold q. fold d.
    assert (V : forall w, w / norm u * beta_of (norm u) * c = c / g * w).
    { intros w. unfold u. rewrite beta_eq by lra. fold u. fold g. field.
      split; [unfold g; lra|unfold u; lra]. }
    rewrite !V. reflexivity.
  Qed.

  (** C34: the right-hand side is the relativistic equation of motion.  With v the returned
      velocity, the state's momentum p/(mc) is gamma(v) v / c, |v| < c, and
      m c d(p/mc)/dt = q (E + v x B) - S v/|v|, with E and B along z. *)
  Theorem C34_lorentz_force :
    forall b e nuc s, mom s <> vzero -> 0 < n_mass nuc ->
    exists d, eom b e nuc s = Ok d /\
    let v := pos d in
    norm v < c /\
    mom s = vscale (lorentz c v / c) v /\
    vscale (n_mass nuc * mev_kg * c) (mom d) =
      vadd (vscale (charge nuc) (vadd (along_z e) (cross v (along_z b))))
           (vscale (- stopping nuc (n_mass nuc * (lorentz c v - 1)) / norm v) v).
  Proof.
    intros b e nuc s Hu Hm. rewrite eom_value by (try assumption; lra).
    eexists. split; [reflexivity|]. cbn [pos mom].
    pose proof (norm_pos _ Hu) as Pn. set (u := mom s) in *. set (g := sqrt (1 + norm u ^ 2)).
    assert (Pg : 0 < g) by apply sg_pos. assert (Sg : g * g = 1 + norm u ^ 2) by apply sg_sq.
    assert (NV : norm (vscale (c / g) u) = c / g * norm u).
    { apply norm_scale. apply Rlt_le. unfold Rdiv. apply Rmult_lt_0_compat; [lra|now apply Rinv_0_lt_compat]. }
    assert (LT : c / g * norm u < c).
    { apply Rmult_lt_reg_r with g; [exact Pg|].
      replace (c / g * norm u * g) with (c * norm u) by (field; lra). apply Rmult_lt_compat_l; [lra|nra]. }
    assert (LG : lorentz c (vscale (c / g) u) = g).
    { unfold lorentz. rewrite NV.
      replace (1 - (c / g * norm u / c) ^ 2) with (/ (g * g)).
      2:{ replace ((c / g * norm u / c) ^ 2) with ((norm u ^ 2) / (g * g)) by (field; lra).
          replace (norm u ^ 2) with (g * g - 1) by lra. field. lra. }
      rewrite sqrt_inv, sqrt_square by lra. now rewrite Rinv_inv. }
    split; [rewrite NV; exact LT|]. split.
    - rewrite LG. unfold vscale. cbn [vx vy vz]. destruct u as [a1 a2 a3]. cbn [vx vy vz].
      f_equal; field; lra.
    - rewrite LG, NV. unfold ke. fold u.
      replace (sqrt (1 + dot u u)) with g by (unfold g; now rewrite norm_sq).
      set (S := stopping nuc (n_mass nuc * (g - 1))).
      unfold vadd, vscale, cross, along_z. cbn [vx vy vz].
      f_equal; field; repeat split; lra.
  Qed.

  (** C34: the magnetic field does no work. *)
  Theorem C34_magnetic_field_does_no_work :
    forall b b' e nuc s d d', n_mass nuc <> 0 ->
    eom b e nuc s = Ok d -> eom b' e nuc s = Ok d' -> mom s <> vzero ->
    dot (mom s) (mom d) = dot (mom s) (mom d').
  Proof.
    intros b b' e nuc s d d' Hm E E' Hu. rewrite eom_value in E by assumption.
    rewrite eom_value in E' by assumption.
    pose proof (norm_pos _ Hu). pose proof (sg_pos (norm (mom s))) as Pg.
    set (g := sqrt (1 + norm (mom s) ^ 2)) in *.
    injection E as <-. injection E' as <-. unfold dot. cbn [mom vx vy vz].
    field. repeat split; try assumption; lra.
  Qed.

  (** A state the equation accepts has non-zero momentum. *)
  Lemma eom_ok_nonzero b e nuc s d : eom b e nuc s = Ok d -> mom s <> vzero.
  Proof.
    intros E H. unfold equation_of_motion in E. rewrite H in E.
    assert (Z : gv_of vzero = 0).
    { unfold gv_of, vzero. cbn [vx vy vz]. replace (0 ^ 2 + 0 ^ 2 + 0 ^ 2) with 0 by ring. apply sqrt_0. }
    assert (B : beta_of (gv_of vzero) = 0).
    { rewrite Z. unfold beta_of. replace (0 ^ 2 / (1 + 0 ^ 2)) with 0 by field. apply sqrt_0. }
    rewrite B in E. unfold pydivR in E. now rewrite (Req_bool_true 0 0 eq_refl) in E.
  Qed.

  (** C34: along every solution, the kinetic energy changes at the rate of the work done by the
      electric field minus the work against the stopping force (MEV_2_KG c^2 converts MeV to J). *)
  Theorem C34_power :
    forall b e nuc sol T t, 0 < n_mass nuc -> solves (eom b e nuc) sol T -> 0 <= t <= T ->
    exists d, eom b e nuc (sol t) = Ok d /\
    derivable_pt_lim (fun t => ke nuc (sol t)) t
      ((charge nuc * e * vz (pos d) - stopping nuc (ke nuc (sol t)) * norm (pos d)) / (mev_kg * c ^ 2)).
  Proof.
    intros b e nuc sol T t Hm S Ht. destruct (S t Ht) as (d & E & _ & (D1 & D2 & D3)).
    exists d. split; [exact E|]. pose proof (eom_ok_nonzero _ _ _ _ _ E) as Hu.
    set (u := mom (sol t)) in *. set (du := mom d) in *.
    assert (DD : derivable_pt_lim (fun t => 1 + dot (mom (sol t)) (mom (sol t))) t (2 * dot u du)).
    { unfold dot. replace (2 * (vx u * vx du + vy u * vy du + vz u * vz du))
        with (0 + (((vx du * vx u + vx u * vx du) + (vy du * vy u + vy u * vy du))
              + (vz du * vz u + vz u * vz du))) by ring.
      apply (derivable_pt_lim_plus (fun _ => 1)); [apply derivable_pt_lim_const|].
      apply (derivable_pt_lim_plus (fun t => vx (mom (sol t)) * vx (mom (sol t))
                                         + vy (mom (sol t)) * vy (mom (sol t)))
                                   (fun t => vz (mom (sol t)) * vz (mom (sol t)))).
      - apply (derivable_pt_lim_plus (fun t => vx (mom (sol t)) * vx (mom (sol t)))
                                     (fun t => vy (mom (sol t)) * vy (mom (sol t)))).
        + now apply (derivable_pt_lim_mult (fun t => vx (mom (sol t))) (fun t => vx (mom (sol t)))).
        + now apply (derivable_pt_lim_mult (fun t => vy (mom (sol t))) (fun t => vy (mom (sol t)))).
      - now apply (derivable_pt_lim_mult (fun t => vz (mom (sol t))) (fun t => vz (mom (sol t)))). }
    pose proof (norm_pos _ Hu) as Pn. fold u in Pn.
    set (g := sqrt (1 + norm u ^ 2)).
    assert (Pg : 0 < g) by apply sg_pos.
    assert (G1 : 0 < 1 + dot u u) by (rewrite <- norm_sq; apply g_pos).
    assert (Gg : sqrt (1 + dot u u) = g) by (unfold g; now rewrite norm_sq).
    assert (DS : derivable_pt_lim (fun t => ke nuc (sol t)) t (n_mass nuc * (/ (2 * g) * (2 * dot u du)))).
    { unfold ke. replace (n_mass nuc * (/ (2 * g) * (2 * dot u du)))
        with (n_mass nuc * (/ (2 * g) * (2 * dot u du) - 0)) by ring.
      apply (derivable_pt_lim_scal (fun t => sqrt (1 + dot (mom (sol t)) (mom (sol t))) - 1)).
      apply (derivable_pt_lim_minus (fun t => sqrt (1 + dot (mom (sol t)) (mom (sol t)))) (fun _ => 1));
        [|apply derivable_pt_lim_const].
      apply (derivable_pt_lim_comp (fun t => 1 + dot (mom (sol t)) (mom (sol t))) sqrt); [exact DD|].
      fold u. rewrite <- Gg. now apply derivable_pt_lim_sqrt. }
    rewrite eom_value in E by (try assumption; lra). fold u in E. fold g in E.
    injection E as E. subst d. subst du. cbn [pos mom] in *.
    rewrite norm_scale by (apply Rlt_le; unfold Rdiv; apply Rmult_lt_0_compat; [lra|now apply Rinv_0_lt_compat]).
    set (K := stopping nuc (ke nuc (sol t))) in *.
    match type of DS with derivable_pt_lim _ _ ?x =>
      match goal with |- derivable_pt_lim _ _ ?y => replace y with x; [exact DS|] end end.
    unfold vscale, dot. cbn [vx vy vz].
    assert (N2 : norm u * norm u = vx u * vx u + vy u * vy u + vz u * vz u).
    { pose proof (norm_sq u) as Q. unfold dot in Q. lra. }
    apply (Rmult_eq_reg_r (g * (n_mass nuc * mev_kg) * c * c * norm u)).
    2:{ apply Rgt_not_eq. repeat apply Rmult_lt_0_compat; lra. }
    transitivity (n_mass nuc * (charge nuc * e * vz u * c * norm u - K * c * (norm u * norm u))).
    - rewrite N2. field. repeat split; lra.
    - field. repeat split; lra.
  Qed.

  (** C34: without electric field the kinetic energy never increases. *)
  Theorem C34_energy_never_increases :
    forall b nuc sol T t1 t2, 0 < n_mass nuc -> (forall k, 0 <= stopping nuc k) ->
    solves (eom b 0 nuc) sol T -> 0 <= t1 <= t2 -> t2 <= T ->
    ke nuc (sol t2) <= ke nuc (sol t1).
  Proof.
    intros b nuc sol T t1 t2 Hm HS S Ht1 Ht2.
    destruct (Rle_lt_or_eq_dec t1 t2) as [L|E]; [lra| |subst; lra].
    set (f' := fun t => match eom b 0 nuc (sol t) with
                        | Ok d => (charge nuc * 0 * vz (pos d) - stopping nuc (ke nuc (sol t)) * norm (pos d))
                                  / (mev_kg * c ^ 2)
                        | Err _ => 0 end).
    destruct (MVT_cor2 (fun t => ke nuc (sol t)) f' t1 t2 L) as (x & Ex & Hx).
    { intros x Hx. destruct (C34_power b 0 nuc sol T x Hm S) as (d & Ed & D); [lra|].
      unfold f'. rewrite Ed. exact D. }
    assert (f' x <= 0).
    { destruct (C34_power b 0 nuc sol T x Hm S) as (d & Ed & _); [lra|]. unfold f'. rewrite Ed.
      replace (charge nuc * 0 * vz (pos d)) with 0 by ring.
      pose proof (HS (ke nuc (sol x))). pose proof (norm_ge0 (pos d)).
      assert (0 < mev_kg * c ^ 2) by (apply Rmult_lt_0_compat; [lra|]; apply pow_lt; lra).
      unfold Rdiv. rewrite Rminus_0_l, <- Ropp_mult_distr_l.
      assert (0 <= stopping nuc (ke nuc (sol x)) * norm (pos d) * / (mev_kg * c ^ 2)).
      { apply Rmult_le_pos; [now apply Rmult_le_pos|]. apply Rlt_le. now apply Rinv_0_lt_compat. }
      lra. }
    nra.
  Qed.

  (** C35: a nucleus at rest is refused, at every position and in every field. *)
  Theorem C35_at_rest :
    forall b e nuc p, eom b e nuc (mkState p vzero) = Err ZeroDivisionError.
  Proof.
    intros b e nuc p. unfold equation_of_motion. cbn [mom].
    assert (Z : gv_of vzero = 0).
    { unfold gv_of, vzero. cbn [vx vy vz]. replace (0 ^ 2 + 0 ^ 2 + 0 ^ 2) with 0 by ring. apply sqrt_0. }
    assert (B : beta_of (gv_of vzero) = 0).
    { rewrite Z. unfold beta_of. replace (0 ^ 2 / (1 + 0 ^ 2)) with 0 by field. apply sqrt_0. }
    rewrite B. unfold pydivR. now rewrite (Req_bool_true 0 0 eq_refl).
  Qed.

  (** C35: so generate_trajectory fails for zero momentum. *)
  Theorem C35_trajectory_at_rest :
    forall solve vertex nuc p, passes_exceptions solve ->
    generate_trajectory c e_charge mev_kg mev_joule dedx density solve vertex vzero nuc p
      = Err ZeroDivisionError.
  Proof.
    intros solve vertex nuc p H. unfold generate_trajectory. apply H.
    unfold initial_state, vzero. cbn [vx vy vz]. unfold Rdiv. rewrite !Rmult_0_l. apply C35_at_rest.
  Qed.

  (** ** Tracks *)
  Definition traj solve vertex momentum nuc p :=
    generate_trajectory c e_charge mev_kg mev_joule dedx density solve vertex momentum nuc p.

  Lemma steps_nonneg t : In t TIME_STEPS -> 0 <= t <= / 10 ^ 6.
  Proof.
    unfold TIME_STEPS. intros H. apply in_map_iff in H. destruct H as (i & <- & Hi). apply in_seq in Hi.
    assert (J : INR i <= 10000).
    { apply Rle_trans with (INR (Z.to_nat 10000)); [apply le_INR; lia|].
      rewrite INR_IZR_INZ, Z2Nat.id by lia. lra. }
    pose proof (pos_INR i). lra.
  Qed.

  Lemma in_steps t T : In t (filter (fun t => Rle_bool t T) TIME_STEPS) -> In t TIME_STEPS /\ 0 <= t <= T.
  Proof.
    intros H. apply filter_In in H. destruct H as [I L]. split; [exact I|]. apply steps_nonneg in I.
    destruct (Rle_bool_spec t T) as [X|X]; [lra|discriminate L].
  Qed.

  (** C37: with an ideal solver, a track that starts in the 1 m long cylinder of radius 0.292 m
      stays there, whatever the configured length. *)
  Theorem C37_track_volume :
    forall solve vertex momentum nuc p track,
    ideal_solver solve -> traj solve vertex momentum nuc p = Ok track ->
    0 <= vz vertex <= 1 -> vx vertex ^ 2 + vy vertex ^ 2 <= (292 / 1000) ^ 2 ->
    forall s, In s track ->
    0 <= vz (pos s) <= 1 /\ vx (pos s) ^ 2 + vy (pos s) ^ 2 <= (292 / 1000) ^ 2.
  Proof.
    intros solve vertex momentum nuc p track [_ HI] E Hz Hr s Hs.
    destruct (HI _ _ _ _ _ E) as (sol & T & HT & S0 & _ & U & _ & ->).
    apply in_map_iff in Hs. destruct Hs as (t & <- & Ht). apply in_steps in Ht. destruct Ht as (_ & Tp).
    unfold events in U. inversion U as [|? ? _ U2]; subst. inversion U2 as [|? ? F U3]; subst.
    inversion U3 as [|? ? B U4]; subst. inversion U4 as [|? ? RR _]; subst. clear U U2 U3 U4.
    cbn [unfired] in F, B, RR.
    specialize (F t _ _ Tp eq_refl eq_refl). specialize (B t _ _ Tp eq_refl eq_refl).
    specialize (RR t _ _ Tp eq_refl eq_refl).
    rewrite S0 in F, B, RR. unfold initial_state in F, B, RR. cbn [pos] in F, B, RR.
    split; [split; [apply B; lra|assert (vz (pos (sol t)) - 1 <= 0) by (apply F; lra); lra]|].
    assert (Q : sqrt (vx (pos (sol t)) ^ 2 + vy (pos (sol t)) ^ 2) - 292 / 1000 <= 0).
    { apply RR. rewrite <- (sqrt_pow2 (292 / 1000)) by lra.
      assert (sqrt (vx vertex ^ 2 + vy vertex ^ 2) <= sqrt ((292 / 1000) ^ 2)) by (apply sqrt_le_1_alt; exact Hr).
      lra. }
    assert (P : 0 <= vx (pos (sol t)) ^ 2 + vy (pos (sol t)) ^ 2) by nra.
    rewrite <- (pow2_sqrt _ P). apply pow_incr. split; [apply sqrt_pos|lra].
  Qed.

  Lemma sorted_steps : forall l a, decreasing (map Ropp (a :: l)) -> forall x, In x l -> a <= x.
  Proof.
    induction l as [|b l IH]; intros a H x Hx; [destruct Hx|].
    cbn [map decreasing] in H. destruct H as [H1 H2]. destruct Hx as [->|Hx]; [lra|].
    assert (b <= x); [|lra]. apply IH; auto.
  Qed.

  Lemma steps_sorted : forall n k, decreasing (map Ropp (map (fun i => INR i * (10 / 10 ^ 7 / 10000)) (seq k n))).
  Proof.
    induction n as [|n IH]; intros k; [exact I|]. cbn [seq map]. specialize (IH (S k)).
    destruct n; [exact I|]. cbn [seq map decreasing] in *. split; [|exact IH].
    rewrite (S_INR k). lra.
  Qed.

  Lemma filter_sorted T l : decreasing (map Ropp l) -> decreasing (map Ropp (filter (fun t => Rle_bool t T) l)).
  Proof.
    assert (W : forall l a, decreasing (map Ropp (a :: l)) -> decreasing (map Ropp l)).
    { intros l' a H. destruct l'; [exact I|]. exact (proj2 H). }
    assert (A : forall l a, decreasing (map Ropp (a :: l)) -> decreasing (map Ropp (a :: filter (fun t => Rle_bool t T) l))).
    { induction l0 as [|b l0 IH]; intros a H; [exact I|]. cbn [filter].
      destruct (Rle_bool b T).
      - split; [exact (proj1 H)|]. apply IH. exact (proj2 H).
      - apply IH. destruct l0; [exact I|]. destruct H as [H1 [H2 H3]]. split; [lra|exact H3]. }
    induction l as [|a l IH]; intros H; [exact I|]. cbn [filter].
    destruct (Rle_bool a T); [now apply A|]. apply IH. now apply (W _ a).
  Qed.

  (** C36/C34: without electric field the energies along a track never increase. *)
  Theorem C34_track_energies :
    forall solve vertex momentum nuc p track,
    ideal_solver solve -> traj solve vertex momentum nuc p = Ok track ->
    0 < n_mass nuc -> (forall k, 0 <= stopping nuc k) -> d_efield p = 0 ->
    decreasing (map (ke nuc) track) /\ (forall s, In s track -> mom s <> vzero).
  Proof.
    intros solve vertex momentum nuc p track [_ HI] E Hm HS HE.
    destruct (HI _ _ _ _ _ E) as (sol & T & HT & S0 & S & _ & _ & ->).
    rewrite HE, Rmult_0_l in S. split.
    - assert (A : forall l, (forall t, In t l -> 0 <= t <= T) -> decreasing (map Ropp l) ->
                  decreasing (map (ke nuc) (map sol l))).
      { induction l as [|a l IH]; intros H D; [exact I|]. destruct l as [|b l]; [exact I|].
        destruct D as [D1 D2]. split.
        - apply (C34_energy_never_increases _ nuc sol T a b Hm HS S); [|apply H; right; now left].
          split; [apply H; now left|lra].
        - apply IH; [intros t Ht; apply H; now right|exact D2]. }
      apply A.
      + intros t Ht. now apply in_steps in Ht.
      + apply filter_sorted. apply steps_sorted.
    - intros s Hs. apply in_map_iff in Hs. destruct Hs as (t & <- & Ht). apply in_steps in Ht.
      destruct (S t (proj2 Ht)) as (d & Ed & _).
      exact (eom_ok_nonzero _ _ _ _ _ Ed).
  Qed.
End Motion.
