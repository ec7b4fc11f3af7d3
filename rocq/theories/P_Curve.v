(** P_Curve.v -- C69: kinematic curves, how angle and energy in the laboratory depend on the sampled angle. *)
From Coq Require Import ZArith Reals Lia Lra List.
From Flocq Require Import Core.
From Verif Require Import Base Nucleus Reaction SpecReaction ReactionProofs P_Reaction.
Import ListNotations.
Local Open Scope R_scope.

(** Textbook quantities of a reaction on a target at rest: total energy, beam momentum, invariant
    mass, energy and momentum of the ejectile in the centre of mass. *)
Section Textbook.
  Context (r : reaction) (T ex : R).
  Definition total_energy : R := n_mass (r_target r) + T + n_mass (r_projectile r).
  Definition beam_momentum : R := sqrt (T * (T + 2 * n_mass (r_projectile r))).
  Definition invariant_mass : R := sqrt ((n_mass (r_target r) + n_mass (r_projectile r)) ^ 2 + 2 * n_mass (r_target r) * T).
  Definition ejectile_energy_cm : R :=
    (invariant_mass ^ 2 + n_mass (r_ejectile r) ^ 2 - (n_mass (r_residual r) + ex) ^ 2) / (2 * invariant_mass).
  Definition ejectile_momentum_cm : R := sqrt (ejectile_energy_cm ^ 2 - n_mass (r_ejectile r) ^ 2).
End Textbook.

(** A reaction that is allowed and has no negative masses. *)
Definition possible (r : reaction) (T ex : R) : Prop :=
  0 < n_mass (r_target r) /\ 0 <= n_mass (r_projectile r) /\ 0 <= n_mass (r_ejectile r) /\
  0 <= n_mass (r_residual r) + ex /\ 0 <= T /\ reaction_allowed r T ex = true.

Lemma textbook_facts r T ex : possible r T ex ->
  let E := total_energy r T in let p := beam_momentum r T in let m := invariant_mass r T in
  let e := ejectile_energy_cm r T ex in let k := ejectile_momentum_cm r T ex in
  0 < m /\ 0 < E /\ E * E = m * m + p * p /\ 0 <= p /\ 0 < k /\ e * e = k * k + n_mass (r_ejectile r) * n_mass (r_ejectile r)
  /\ n_mass (r_ejectile r) < e /\ (0 < T -> 0 < p).
Proof.
  intros (Ht & Hp & He & Hr & HT & A). cbv zeta.
  rewrite allowed_eq in A by auto.
  destruct (Rlt_bool_spec (n_mass (r_ejectile r) + n_mass (r_residual r) + ex) (ecm r T)) as [L|]; [|discriminate]. clear A.
  destruct (ecm_pos r T Ht Hp HT) as [M1 M2].
  assert (EM : invariant_mass r T = ecm r T) by reflexivity. rewrite EM.
  set (m := ecm r T) in *.
  assert (P2 : beam_momentum r T * beam_momentum r T = T * (T + 2 * n_mass (r_projectile r))).
  { apply sqrt_sqrt. apply Rmult_le_pos; lra. }
  assert (E1 : 0 < total_energy r T) by (unfold total_energy; lra).
  set (e := ejectile_energy_cm r T ex). set (me := n_mass (r_ejectile r)) in *.
  assert (Ee : e * (2 * m) = m ^ 2 + me ^ 2 - (n_mass (r_residual r) + ex) ^ 2).
  { unfold e, ejectile_energy_cm. rewrite EM. fold me. field. lra. }
  set (m2 := n_mass (r_residual r) + ex) in *.
  assert (G : (e - me) * (2 * m) = (m - me - m2) * (m - me + m2)).
  { replace ((e - me) * (2 * m)) with (e * (2 * m) - 2 * m * me) by ring. rewrite Ee. ring. }
  assert (G0 : 0 < (m - me - m2) * (m - me + m2)) by (apply Rmult_lt_0_compat; unfold m2 in *; lra).
  assert (Gp : me < e).
  { apply Rnot_le_lt. intros Q. assert ((e - me) * (2 * m) <= 0); [|lra].
    rewrite <- (Rmult_0_l (2 * m)). apply Rmult_le_compat_r; lra. }
  assert (G2 : 0 < e ^ 2 - me ^ 2) by (replace (e ^ 2 - me ^ 2) with ((e - me) * (e + me)) by ring; apply Rmult_lt_0_compat; lra).
  split; [exact M1|]. split; [exact E1|]. split.
  { rewrite P2. replace (m * m) with (m ^ 2) by ring. rewrite M2. unfold total_energy. ring. }
  split; [apply sqrt_pos|]. split; [unfold ejectile_momentum_cm; fold e me; now apply sqrt_lt_R0|].
  split. { unfold ejectile_momentum_cm. fold e me. rewrite sqrt_sqrt by lra. ring. }
  split; [exact Gp|]. intros Tp. apply sqrt_lt_R0. apply Rmult_lt_0_compat; lra.
Qed.

(** C69: the rows in closed form. *)
Theorem C69_laboratory r T th ph ex vs : possible r T ex -> reaction_calculate r T th ph ex = Ok vs ->
  let E := total_energy r T in let p := beam_momentum r T in let m := invariant_mass r T in
  let e := ejectile_energy_cm r T ex in let k := ejectile_momentum_cm r T ex in
  exists a b, nth 2 vs None = Some a /\ nth 3 vs None = Some b /\
    qE a = (E * e + p * (k * cos th)) / m /\ qz a = (E * (k * cos th) + p * e) / m /\
    qx a = k * sin th * cos ph /\ qy a = k * sin th * sin ph /\
    qE b = E - qE a /\ qz b = p - qz a /\ qx b = - qx a /\ qy b = - qy a.
Proof.
  intros Ps C. pose proof (textbook_facts r T ex Ps) as F. cbv zeta in F |- *.
  destruct Ps as (Ht & Hp & He & Hr & HT & A).
  destruct F as (M1 & E1 & E2 & P1 & K1 & _).
  revert C. unfold reaction_calculate. cbv zeta.
  destruct (pydivR _ _) as [thr|]; [|discriminate]. cbn [bind].
  destruct (Rlt_bool T thr); [discriminate|].
  rewrite osqrt_pz by auto. cbn [obind].
  pose proof (entrance_timelike _ _ T Ht Hp HT) as TL.
  pose proof (entrance_m2 (n_mass (r_target r)) (n_mass (r_projectile r)) T Hp HT) as EM.
  change (sqrt (T * (T + 2 * n_mass (r_projectile r)))) with (beam_momentum r T) in *.
  set (P := padd _ _) in *.
  assert (SM : sqrt (mdot P P) = invariant_mass r T) by (rewrite EM; reflexivity).
  rewrite boostCM_eq by auto. cbn [obind]. rewrite lboost_self by auto. cbn [qE]. rewrite SM.
  set (m := invariant_mass r T) in *.
  replace ((n_mass (r_ejectile r) ^ 2 - (n_mass (r_residual r) + ex) ^ 2 + m ^ 2) / (2 * m)) with (ejectile_energy_cm r T ex)
    by (unfold ejectile_energy_cm; fold m; f_equal; ring).
  assert (K2 : 0 < ejectile_energy_cm r T ex ^ 2 - n_mass (r_ejectile r) ^ 2).
  { unfold ejectile_momentum_cm in K1. apply Rnot_le_lt. intros Q. rewrite (sqrt_neg_0 _ Q) in K1. lra. }
  rewrite (osqrt_some _ K2). cbn [obind]. fold (ejectile_momentum_cm r T ex).
  rewrite boost_eq by auto. cbn [obind]. intros V.
  apply (f_equal (fun x => match x with Ok l => l | Err _ => [] end)) in V. cbv beta iota in V. subst vs.
  set (k := ejectile_momentum_cm r T ex) in *. set (e := ejectile_energy_cm r T ex) in *.
  cbn [nth]. eexists _, _. split; [reflexivity|]. split; [reflexivity|].
  unfold psub, lboost. cbn [qx qy qz qE]. rewrite SM.
  assert (PE : qE P = total_energy r T) by (unfold P, padd, total_energy; cbn [qE]; ring).
  assert (PX : qx P = 0) by (unfold P, padd; cbn [qx]; ring).
  assert (PY : qy P = 0) by (unfold P, padd; cbn [qy]; ring).
  assert (PZ : qz P = beam_momentum r T) by (unfold P, padd; cbn [qz]; ring).
  rewrite PE, PX, PY, PZ. set (E := total_energy r T) in *. set (p := beam_momentum r T) in *. set (c := cos th).
  assert (Ea : (E * e + 1 * (0 * (k * sin th * cos ph) + 0 * (k * sin th * sin ph) + p * (k * c))) / m
               = (E * e + p * (k * c)) / m) by (f_equal; ring).
  assert (Za : k * c + (1 * (0 * (k * sin th * cos ph) + 0 * (k * sin th * sin ph) + p * (k * c)) / (E + m) + e) / m * (1 * p)
               = (E * (k * c) + p * e) / m).
  { assert (Q : p * p = (E - m) * (E + m)) by (replace ((E - m) * (E + m)) with (E * E - m * m) by ring; lra).
    transitivity (k * c + ((p * p) * (k * c) / (E + m) + p * e) / m); [field; lra|]. rewrite Q. field. lra. }
  rewrite Ea, Za. repeat split; ring.
Qed.

(** C69: the larger the sampled polar angle, the less energy for the ejectile and the more for the residual. *)
Theorem C69_energy_falls r T th th' ph ph' ex vs vs' a a' b b' : possible r T ex -> 0 < T ->
  0 <= th -> th < th' -> th' <= PI ->
  reaction_calculate r T th ph ex = Ok vs -> reaction_calculate r T th' ph' ex = Ok vs' ->
  nth 2 vs None = Some a -> nth 2 vs' None = Some a' -> nth 3 vs None = Some b -> nth 3 vs' None = Some b' ->
  qE a' < qE a /\ qE b < qE b'.
Proof.
  intros Ps HT H0 H1 H2 C C' Na Na' Nb Nb'.
  destruct (textbook_facts r T ex Ps) as (M1 & _ & _ & _ & K1 & _ & _ & P1). specialize (P1 HT).
  destruct (C69_laboratory _ _ _ _ _ _ Ps C) as (x & y & X1 & Y1 & X2 & _ & _ & _ & Y2 & _).
  destruct (C69_laboratory _ _ _ _ _ _ Ps C') as (x' & y' & X1' & Y1' & X2' & _ & _ & _ & Y2' & _).
  assert (x = a) by congruence. assert (y = b) by congruence. assert (x' = a') by congruence. assert (y' = b') by congruence.
  subst x y x' y'. pose proof (cos_decreasing_1 th th' ltac:(lra) ltac:(lra) ltac:(lra) ltac:(lra) H1) as Hc.
  assert (L : qE a' < qE a); [|split; [exact L|lra]].
  rewrite X2, X2'. unfold Rdiv. apply Rmult_lt_compat_r; [now apply Rinv_0_lt_compat|].
  apply Rplus_lt_compat_l. apply Rmult_lt_compat_l; [exact P1|]. now apply Rmult_lt_compat_l.
Qed.

(** C69: the cone.  With sin(alpha) = k m / (m_e p) every ejectile is within alpha of the beam axis
    (as a statement about squares), and the angle alpha is reached when it is less than a right angle. *)
Definition transverse2 (a : p4) : R := qx a * qx a + qy a * qy a.
Definition momentum2 (a : p4) : R := qx a * qx a + qy a * qy a + qz a * qz a.

Lemma cone_identity E p m e k me c s : E * E = m * m + p * p -> e * e = k * k + me * me -> s * s = 1 - c * c ->
  m * m * (k * k) * (s * s) + (E * (k * c) + p * e) * (E * (k * c) + p * e) - me * me * (p * p) * (s * s)
  = (E * k + p * e * c) * (E * k + p * e * c).
Proof.
  intros H1 H2 H3. rewrite H3. replace (m * m) with (E * E - p * p) by lra. replace (me * me) with (e * e - k * k) by lra. ring.
Qed.

Theorem C69_cone r T ex : possible r T ex ->
  let p := beam_momentum r T in let m := invariant_mass r T in
  let k := ejectile_momentum_cm r T ex in let me := n_mass (r_ejectile r) in
  (forall th ph vs a, reaction_calculate r T th ph ex = Ok vs -> nth 2 vs None = Some a ->
     (me * p) ^ 2 * transverse2 a <= (k * m) ^ 2 * momentum2 a) /\
  (k * m <= me * p -> exists th, 0 <= th <= PI /\
     forall ph vs a, reaction_calculate r T th ph ex = Ok vs -> nth 2 vs None = Some a ->
       (me * p) ^ 2 * transverse2 a = (k * m) ^ 2 * momentum2 a /\ 0 <= qz a).
Proof.
  intros Ps. destruct (textbook_facts r T ex Ps) as (M1 & E1 & E2 & P1 & K1 & K2 & K3 & _). cbv zeta.
  set (E := total_energy r T) in *. set (p := beam_momentum r T) in *. set (m := invariant_mass r T) in *.
  set (e := ejectile_energy_cm r T ex) in *. set (k := ejectile_momentum_cm r T ex) in *. set (me := n_mass (r_ejectile r)) in *.
  assert (Me : 0 <= me) by (destruct Ps as (_ & _ & H & _); exact H).
  assert (V : forall th ph vs a, reaction_calculate r T th ph ex = Ok vs -> nth 2 vs None = Some a ->
    transverse2 a = k * k * (sin th * sin th) /\
    (k * m) ^ 2 * momentum2 a - (me * p) ^ 2 * transverse2 a = (k * (E * k + p * e * cos th)) ^ 2 /\
    qz a = (E * (k * cos th) + p * e) / m).
  { intros th ph vs a C N. destruct (C69_laboratory _ _ _ _ _ _ Ps C) as (x & y & X1 & _ & _ & X3 & X4 & X5 & _).
    assert (x = a) by congruence. subst x. fold E p m e k in X3, X4, X5.
    pose proof (sin2_cos2 th) as S1. pose proof (sin2_cos2 ph) as S2. unfold Rsqr in S1, S2.
    assert (T2 : transverse2 a = k * k * (sin th * sin th)).
    { unfold transverse2. rewrite X4, X5.
      transitivity (k * k * (sin th * sin th) * (sin ph * sin ph + cos ph * cos ph)); [ring|rewrite S2; ring]. }
    split; [exact T2|]. split; [|exact X3]. unfold momentum2. fold (transverse2 a). rewrite T2.
    pose proof (cone_identity E p m e k me (cos th) (sin th) E2 K2 ltac:(lra)) as CI.
    transitivity (k * k * (m * m * (k * k) * (sin th * sin th) + (m * qz a) * (m * qz a) - me * me * (p * p) * (sin th * sin th))); [ring|].
    replace (m * qz a) with (E * (k * cos th) + p * e) by (rewrite X3; field; lra). rewrite CI. ring. }
  split.
  - intros th ph vs a C N. destruct (V th ph vs a C N) as (_ & Q & _).
    pose proof (pow2_ge_0 (k * (E * k + p * e * cos th))). lra.
  - intros L. assert (Pp : 0 < p).
    { destruct (Rle_lt_or_eq_dec 0 p P1) as [H|H]; [exact H|]. rewrite <- H, Rmult_0_r in L.
      assert (0 < k * m) by now apply Rmult_lt_0_compat. lra. }
    assert (PE : 0 < p * e) by (apply Rmult_lt_0_compat; lra).
    (* E k <= p e *)
    assert (Q : E * k <= p * e).
    { apply Rsqr_incr_0; [|apply Rmult_le_pos; lra|lra]. unfold Rsqr.
      assert (L2 : (k * m) * (k * m) <= (me * p) * (me * p)).
      { apply Rmult_le_compat; try exact L; apply Rmult_le_pos; lra. }
      replace (E * k * (E * k)) with (E * E * (k * k)) by ring. replace (p * e * (p * e)) with (p * p * (e * e)) by ring.
      rewrite E2, K2. lra. }
    set (x := - (E * k / (p * e))).
    assert (Y : 0 <= E * k / (p * e) <= 1).
    { split; [apply Rmult_le_pos; [apply Rmult_le_pos; lra|left; now apply Rinv_0_lt_compat]|].
      apply Rmult_le_reg_r with (p * e); [exact PE|]. unfold Rdiv. rewrite Rmult_assoc, Rinv_l by lra. lra. }
    exists (acos x). split; [apply acos_bound|].
    assert (Cx : cos (acos x) = x) by (apply cos_acos; unfold x; lra).
    intros ph vs a C N. destruct (V _ _ _ _ C N) as (_ & Q1 & Q2). rewrite Cx in Q1, Q2.
    assert (Z : E * k + p * e * x = 0) by (unfold x; field; split; intros H; rewrite ?H in PE; lra).
    rewrite Z in Q1. split; [rewrite Rmult_0_r in Q1; simpl in Q1; lra|].
    rewrite Q2. apply Rmult_le_pos; [|left; now apply Rinv_0_lt_compat].
    (* p e x = - E k, so p e (E k x + p e) = - (E k)^2 + (p e)^2 *)
    apply Rmult_le_reg_l with (p * e); [exact PE|]. rewrite Rmult_0_r.
    replace (p * e * (E * (k * x) + p * e)) with (E * k * (p * e * x) + p * e * (p * e)) by ring.
    replace (p * e * x) with (- (E * k)) by lra.
    assert ((E * k) * (E * k) <= (p * e) * (p * e)); [|lra].
    apply Rmult_le_compat; try exact Q; apply Rmult_le_pos; lra.
Qed.

(** Elastic scattering of equal masses, the kinetic energy of the projectile equal to its mass: the cone is closed. *)
Example C69_example : possible ones 1 0 /\ beam_momentum ones 1 = sqrt 3 /\ ejectile_momentum_cm ones 1 0 * invariant_mass ones 1 <= 1 * beam_momentum ones 1
  /\ exists vs a, reaction_calculate ones 1 (PI / 3) 1 0 = Ok vs /\ nth 2 vs None = Some a.
Proof.
  destruct C39_example as (vs & A & C).
  assert (Ps : possible ones 1 0) by (unfold possible, ones, nuc; cbn [r_target r_projectile r_ejectile r_residual n_mass]; repeat split; try lra; exact A).
  split; [exact Ps|]. split; [unfold beam_momentum, ones, nuc; cbn; f_equal; ring|]. split.
  - assert (I : invariant_mass ones 1 = sqrt 6) by (unfold invariant_mass, ones, nuc; cbn; f_equal; ring).
    assert (S6 : 0 < sqrt 6) by (apply sqrt_lt_R0; lra). assert (Q6 : sqrt 6 * sqrt 6 = 6) by (apply sqrt_sqrt; lra).
    assert (Ee : ejectile_energy_cm ones 1 0 = sqrt 6 / 2).
    { unfold ejectile_energy_cm. rewrite I. unfold ones, nuc. cbn [r_target r_projectile r_ejectile r_residual n_mass]. field. lra. }
    unfold ejectile_momentum_cm. rewrite Ee, I. unfold ones, nuc. cbn [r_ejectile n_mass].
    replace ((sqrt 6 / 2) ^ 2 - 1 ^ 2) with (/ 2) by (replace ((sqrt 6 / 2) ^ 2) with (sqrt 6 * sqrt 6 / 4) by field; rewrite Q6; field).
    unfold beam_momentum. cbn [r_projectile n_mass]. rewrite <- sqrt_mult by lra. rewrite Rmult_1_l. apply sqrt_le_1_alt. lra.
  - destruct (C69_laboratory _ _ _ _ _ _ Ps C) as (a & _ & N & _). now exists vs, a.
Qed.
Print Assumptions C69_laboratory.
Print Assumptions C69_energy_falls.
Print Assumptions C69_cone.
