(** P_Budget.v -- C91: from the beam energy to the charge of the cloud, in binary64. *)
From Coq Require Import ZArith Reals Lia Lra List.
From Flocq Require Import Core BinarySingleNaN.
From Verif Require Import MeshReal P_MeshF64.
From Verif Require Import Base F64 F64Bounds Nucleus Reaction SpecReaction ReactionProofs P_Reaction KinF64 P_KinF64 KinChain P_KinChain
  ElectronsF64 P_ElectronsF64 P_Allowed P_Shell P_EventF64 VectorF64 P_VectorF64 Num Pairing BeamPads Transporter SpecTransport Simulator SpecSim
  KinFile SpecKinFile P_RunSim P_Simulator P_Cloud P_Complete P_SamplingF64 TransportF64 PositionProofs P_TransportF64 P_Calor P_NeverFails P_CalorDiff StartF64.
Import ListNotations.
Local Open Scope R_scope.

(** ** The energy with which a nucleus starts *)

(** Changing one entry changes the root by at most that much. *)
Lemma root_one s a b : 0 <= s -> Rabs (sqrt (1 + (a ^ 2 + s)) - sqrt (1 + (b ^ 2 + s))) <= Rabs (a - b).
Proof.
  intros Hs. set (A := sqrt (1 + (a ^ 2 + s))). set (B := sqrt (1 + (b ^ 2 + s))).
  pose proof (pow2_ge_0 a) as Pa. pose proof (pow2_ge_0 b) as Pb.
  assert (A0 : Rabs a <= A) by (rewrite <- sqrt_Rsqr_abs; apply sqrt_le_1_alt; unfold Rsqr; lra).
  assert (B0 : Rabs b <= B) by (rewrite <- sqrt_Rsqr_abs; apply sqrt_le_1_alt; unfold Rsqr; lra).
  assert (A1 : 0 < A) by (apply sqrt_lt_R0; lra).
  assert (B1 : 0 < B) by (apply sqrt_lt_R0; lra).
  assert (EA : A * A = 1 + (a ^ 2 + s)) by (apply sqrt_sqrt; lra).
  assert (EB : B * B = 1 + (b ^ 2 + s)) by (apply sqrt_sqrt; lra).
  assert (Q : (A - B) * (A + B) = (a - b) * (a + b)) by (replace ((A - B) * (A + B)) with (A * A - B * B) by ring; rewrite EA, EB; ring).
  apply Rmult_le_reg_r with (A + B); [lra|]. rewrite <- (Rabs_pos_eq (A + B)) at 1 by lra. rewrite <- Rabs_mult, Q, Rabs_mult.
  apply Rmult_le_compat_l; [apply Rabs_pos|]. eapply Rle_trans; [apply Rabs_triang|]. lra.
Qed.
Lemma root_three a b c a' b' c' :
  Rabs (sqrt (1 + (a ^ 2 + b ^ 2 + c ^ 2)) - sqrt (1 + (a' ^ 2 + b' ^ 2 + c' ^ 2))) <= Rabs (a - a') + Rabs (b - b') + Rabs (c - c').
Proof.
  pose proof (pow2_ge_0 a). pose proof (pow2_ge_0 b). pose proof (pow2_ge_0 c). pose proof (pow2_ge_0 a'). pose proof (pow2_ge_0 b'). pose proof (pow2_ge_0 c').
  pose proof (root_one (b ^ 2 + c ^ 2) a a' ltac:(lra)) as X. pose proof (root_one (a' ^ 2 + c ^ 2) b b' ltac:(lra)) as Y.
  pose proof (root_one (a' ^ 2 + b' ^ 2) c c' ltac:(lra)) as Z.
  replace (1 + (a ^ 2 + (b ^ 2 + c ^ 2))) with (1 + (a ^ 2 + b ^ 2 + c ^ 2)) in X by ring.
  replace (1 + (b ^ 2 + (a' ^ 2 + c ^ 2))) with (1 + (a' ^ 2 + (b ^ 2 + c ^ 2))) in Y by ring.
  replace (1 + (b' ^ 2 + (a' ^ 2 + c ^ 2))) with (1 + (c ^ 2 + (a' ^ 2 + b' ^ 2))) in Y by ring.
  replace (1 + (c' ^ 2 + (a' ^ 2 + b' ^ 2))) with (1 + (a' ^ 2 + b' ^ 2 + c' ^ 2)) in Z by ring.
  apply Rabs_le_inv in X, Y, Z. apply Rabs_le. lra.
Qed.

(** C91: a nucleus whose row of the event has mass [m] up to [t] starts its track with the kinetic
    energy of that row, up to [t / m] and the rounding of the division. *)
Theorem C91_start t E0 row mass : product t row (R64 mass) -> is_finite mass = true -> 1 <= R64 mass -> 0 <= t <= / 2 ->
  R64 (vE row) <= E0 -> E0 <= 2 ^ 30 ->
  let v := initial64 row mass in
  (is_finite (vx64 v) = true /\ is_finite (vy64 v) = true /\ is_finite (vz64 v) = true) /\
  Rabs (kinetic (R64 mass) v - (R64 (vE row) - R64 mass)) <= t / R64 mass + E0 / 2 ^ 50.
Proof.
  intros (Fr & Pe & Sh) Fm Hm Ht He H0 v.
  assert (P30 : 2 ^ 30 = 1073741824) by ring. rewrite P30 in *. destruct small_facts as (U0 & U1 & T0 & T1).
  set (m := R64 mass) in *. set (E := R64 (vE row)) in *. unfold mdot in Sh. cbn [real qx qy qz qE] in Sh. fold E in Sh.
  set (x := R64 (vx row)) in *. set (y := R64 (vy row)) in *. set (z := R64 (vz row)) in *.
  assert (M2 : 1 <= m ^ 2) by (replace 1 with (1 ^ 2) by ring; apply pow_incr; lra).
  apply Rabs_le_inv in Sh. pose proof (Rle_0_sqr x) as Px. pose proof (Rle_0_sqr y) as Py. pose proof (Rle_0_sqr z) as Pz. unfold Rsqr in *.
  assert (Small : forall a, a * a <= E * E -> Rabs a <= E).
  { intros a Ha. rewrite <- (Rabs_pos_eq E) by lra. apply Rsqr_le_abs_0. unfold Rsqr. exact Ha. }
  assert (Bx : Rabs x <= E) by (apply Small; lra). assert (By : Rabs y <= E) by (apply Small; lra). assert (Bz : Rabs z <= E) by (apply Small; lra).
  assert (Im : 0 < / m <= 1) by (split; [apply Rinv_0_lt_compat; lra|rewrite <- Rinv_1; apply Rinv_le_contravar; lra]).
  assert (Div : forall c, In c components -> Rabs (R64 (c row)) <= E ->
    is_finite (fdiv (c row) mass) = true /\ m * Rabs (R64 (fdiv (c row) mass) - R64 (c row) / m) <= 2 * (u * E0)).
  { intros c Ic Bc. assert (Q : Rabs (R64 (c row) / m) = Rabs (R64 (c row)) * / m) by (unfold Rdiv; rewrite Rabs_mult, (Rabs_pos_eq (/ m)) by lra; reflexivity).
    assert (Ql : Rabs (R64 (c row)) * / m <= E * 1) by (apply Rmult_le_compat; try lra; apply Rabs_pos).
    destruct (fdiv_fin (c row) mass 40 (Fr c Ic) ltac:(fold m; lra) ltac:(lia)) as (D & F).
    { fold m. change (b2 40) with 1099511627776. rewrite Q. lra. }
    split; [exact F|]. rewrite D. fold m. pose proof (rnd_err (R64 (c row) / m)) as Er. rewrite Q in Er.
    apply Rle_trans with (m * (u * (Rabs (R64 (c row)) * / m) + eta)); [apply Rmult_le_compat_l; lra|].
    replace (m * (u * (Rabs (R64 (c row)) * / m) + eta)) with (u * Rabs (R64 (c row)) + m * eta) by (field; lra).
    assert (A1 : u * Rabs (R64 (c row)) <= u * E0) by (apply Rmult_le_compat_l; lra).
    assert (ME : m <= 2 * E). { destruct (Rle_or_lt m (2 * E)) as [K|K]; [exact K|]. assert (2 * E * (2 * E) <= m * m) by (apply Rmult_le_compat; lra). replace (m ^ 2) with (m * m) in * by ring. lra. }
    assert (A2 : m * eta <= (2 * E0) * eta) by (apply Rmult_le_compat_r; lra).
    assert (A3 : (2 * E0) * eta <= (2 * E0) * (u / 1000000)) by (apply Rmult_le_compat_l; lra).
    assert (0 <= u * E0) by (apply Rmult_le_pos; lra). replace (2 * E0 * (u / 1000000)) with (u * E0 / 500000) in A3 by field. lra. }
  destruct (Div vx ltac:(cbn; auto) Bx) as (Fx & Dx). destruct (Div vy ltac:(cbn; auto) By) as (Fy & Dy). destruct (Div vz ltac:(cbn; auto) Bz) as (Fz & Dz).
  fold x in Dx. fold y in Dy. fold z in Dz.
  split; [unfold v, initial64; cbn [vx64 vy64 vz64]; auto|].
  set (S := sqrt (m ^ 2 + (x * x + y * y + z * z))).
  assert (ES : S = m * sqrt (1 + ((x / m) ^ 2 + (y / m) ^ 2 + (z / m) ^ 2))).
  { unfold S. rewrite <- (sqrt_square m) at 2 by lra. rewrite <- sqrt_mult by (pose proof (pow2_ge_0 (x / m)); pose proof (pow2_ge_0 (y / m)); pose proof (pow2_ge_0 (z / m)); nra).
    f_equal. field. lra. }
  assert (D1 : Rabs (m * lorentz_factor v - S) <= 6 * (u * E0)).
  { rewrite ES, <- Rmult_minus_distr_l, Rabs_mult, (Rabs_pos_eq m) by lra. unfold lorentz_factor, momentum2, v, initial64. cbn [vx64 vy64 vz64].
    eapply Rle_trans; [apply Rmult_le_compat_l; [lra|apply root_three]|]. lra. }
  assert (D2 : Rabs (S - E) <= t / m).
  { assert (Sm : m <= S) by (unfold S; rewrite <- (sqrt_square m) at 1 by lra; apply sqrt_le_1_alt; lra).
    assert (SS : S * S = m ^ 2 + (x * x + y * y + z * z)) by (apply sqrt_sqrt; lra).
    assert (Q : (S - E) * (S + E) = S * S - E * E) by ring. rewrite SS in Q.
    assert (Qa : Rabs ((S - E) * (S + E)) <= t) by (rewrite Q; apply Rabs_le; lra).
    rewrite Rabs_mult, (Rabs_pos_eq (S + E)) in Qa by lra.
    apply Rmult_le_reg_r with m; [lra|]. replace (t / m * m) with t by (field; lra).
    eapply Rle_trans; [apply Rmult_le_compat_l; [apply Rabs_pos|]|exact Qa]. lra. }
  unfold kinetic. apply Rabs_le_inv in D1, D2. assert (UE : 0 <= u * E0) by (apply Rmult_le_pos; lra).
  assert (E50 : E0 / 2 ^ 50 = 8 * (u * E0)) by (unfold Rdiv; rewrite eight_u; ring). rewrite E50.
  apply Rabs_le. lra.
Qed.

(** ** The rows of an event and their masses *)

Fixpoint chain_masses (ds : list decay_masses) (ps : list (f64 * f64 * f64)) : list R :=
  match ds, ps with
  | d :: ds', (ex, _, _) :: ps' => R64 (dm_res1 d) :: (R64 (dm_res2 d) + R64 ex) :: chain_masses ds' ps'
  | _, _ => []
  end.
(** Target, projectile, ejectile, residual with its excitation, and the products of the decays. *)
Definition event_masses (r : reaction_masses) (ds : list decay_masses) (ex : f64) (ps : list (f64 * f64 * f64)) : list R :=
  [R64 (rm_target r); R64 (rm_projectile r); R64 (rm_ejectile r); R64 (rm_residual r) + R64 ex] ++ chain_masses ds ps.

Lemma chain_products t E0 : 0 <= E0 -> forall ds ps q l, chain_rows t E0 q ds ps l ->
  Forall2 (product t) l (chain_masses ds ps) /\
  Forall (fun v => R64 (vE v) <= R64 (vE q) + INR (length ds) * (E0 / 2 ^ 50)) l.
Proof.
  intros H0. assert (D0 : 0 <= E0 / 2 ^ 50) by (apply Rmult_le_pos; [exact H0|left; apply Rinv_0_lt_compat, pow_lt; lra]).
  induction ds as [|d ds IH]; intros ps q l C.
  - destruct l as [|v l]; [|destruct ps; destruct C]. split; constructor.
  - destruct ps as [|[[ex th] ph] ps]; [destruct C|]. destruct l as [|v [|w l]]; try destruct C. cbn [chain_rows] in *.
    destruct H1 as (Pw & (_ & _ & _ & We) & C). pose proof H as Pv. destruct (IH ps w l C) as (A & B).
    assert (Ev : 0 < R64 (vE v)) by apply Pv. assert (Ew : 0 < R64 (vE w)) by apply Pw.
    cbn [padd real qE] in We. apply Rabs_le_inv in We. replace (/ 2 ^ 50 * E0) with (E0 / 2 ^ 50) in We by (unfold Rdiv; ring).
    set (dd := E0 / 2 ^ 50) in *. assert (L0 : 0 <= INR (length ds) * dd) by (apply Rmult_le_pos; [apply pos_INR|exact D0]).
    split.
    + cbn [chain_masses]. constructor; [exact Pv|]. constructor; [exact Pw|exact A].
    + cbn [length]. rewrite S_INR.
      constructor; [lra|]. constructor; [lra|]. eapply Forall_impl; [|exact B]. cbv beta. intros a Ha. lra.
Qed.

Lemma forall2_nth {A B} (P : A -> B -> Prop) l k a b : Forall2 P l k -> forall i, (i < length l)%nat -> P (nth i l a) (nth i k b).
Proof.
  intros F. induction F as [|x y l k H F IH]; intros i Hi; cbn [length] in Hi; [lia|]. destruct i as [|i]; [exact H|]. cbn [nth]. apply IH. lia.
Qed.

Lemma total_filter {A} (f : A -> R) (b : A -> bool) l :
  P_KinChain.total (map f l) = P_KinChain.total (map f (filter b l)) + P_KinChain.total (map f (filter (fun i => negb (b i)) l)).
Proof.
  induction l as [|a l IH]; [unfold P_KinChain.total; cbn; lra|]. cbn [map filter].
  change (P_KinChain.total (f a :: map f l)) with (f a + P_KinChain.total (map f l)). rewrite IH.
  destruct (b a); cbn [negb map]; unfold P_KinChain.total; cbn [fold_right]; lra.
Qed.
Lemma total_minus {A} (f h : A -> R) l :
  P_KinChain.total (map (fun x => f x - h x) l) = P_KinChain.total (map f l) - P_KinChain.total (map h l).
Proof. induction l as [|a l IH]; unfold P_KinChain.total in *; cbn [map fold_right]; [lra|rewrite IH; lra]. Qed.
Lemma total_le {A} (f : A -> R) b l : (forall a, In a l -> f a <= b) -> P_KinChain.total (map f l) <= INR (length l) * b.
Proof.
  induction l as [|a l IH]; intros H; unfold P_KinChain.total in *; cbn [map fold_right length]; [cbn; lra|].
  rewrite S_INR. specialize (IH (fun x I => H x (or_intror I))). specialize (H a (or_introl eq_refl)). lra.
Qed.

Section Budget.
  Context (sq sn cs : f64 -> f64) (g E0 : R).
  Hypothesis (Hok : pow_ok sq) (Hall : pow_all sq) (Htr : trig_ok sn cs).
  Hypothesis (G1 : 1 <= g) (G2 : g ^ 2 <= 2 ^ 23) (H0 : 2 <= E0 <= 2 ^ 20) (Ht : tau_v g E0 <= / 2).
  Notation t := (tau_v g E0).
  Notation event := (event64 sq sn cs (boost_v sq) (rest_v sq) (mass_v sq)).
  Context (r : reaction_masses) (ds : list decay_masses) (T th ph ex : f64) (ps : list (f64 * f64 * f64)).
  Hypothesis (So : start_ok E0 r T) (Ab : above_threshold t r T ex)
    (Op : open_ g E0 (2 * t) (cm_total (R64 (rm_target r)) (R64 (rm_projectile r)) (R64 T)) (rm_ejectile r) (rm_residual r) ex th ph)
    (Oc : open_chain g E0 (2 * t) (R64 (rm_residual r) + R64 ex) ds ps) (Few : (length ds <= 1000)%nat).
  Notation masses := (event_masses r ds ex ps).

  Lemma t_nonneg : 0 <= t.
  Proof using G1 H0. unfold tau_v. apply Rmult_le_pos; [apply Rmult_le_pos|left; apply Rinv_0_lt_compat, pow_lt; lra]; pose proof (pow2_ge_0 g); pose proof (pow2_ge_0 E0); lra. Qed.

  Lemma few_small : INR (length ds) * (E0 / 2 ^ 50) <= / 1000000.
  Proof using Few H0.
    assert (N : INR (length ds) <= 1000) by (replace 1000 with (INR 1000) by (rewrite INR_IZR_INZ; reflexivity); now apply le_INR).
    pose proof (pos_INR (length ds)) as N0. assert (P20 : 2 ^ 20 = 1048576) by ring. rewrite P20 in H0. assert (P50 : 2 ^ 50 = 1125899906842624) by ring. rewrite P50.
    apply Rle_trans with (1000 * (1048576 / 1125899906842624)); [|lra]. apply Rmult_le_compat; try lra.
  Qed.

  (** The event exists; each row has its mass, and an energy of at most twice [E0]. *)
  Lemma event_rows : exists rows, event r ds T th ph ex ps = Ok (Some rows) /\
    Forall2 (product t) rows masses /\ Forall (fun v => R64 (vE v) <= 2 * E0) rows /\
    finite_row (last rows vzero) /\
    Rabs (R64 (vE (nth 0 rows vzero)) + R64 (vE (nth 1 rows vzero)) - (R64 T + R64 (rm_projectile r) + R64 (rm_target r))) <= E0 / 2 ^ 50.
  Proof using Hok Hall Htr G1 G2 H0 Ht So Ab Op Oc Few.
    destruct (C86_event sq sn cs g E0 Hok Hall Htr G1 G2 H0 Ht r ds T th ph ex ps So Ab Op Oc)
      as (tv & pv & ev & qv & l & Ev & Ft & Rt & Wp & Pp & Pe & Pq & Wi & Cl).
    exists (tv :: pv :: ev :: qv :: l). split; [exact Ev|].
    pose proof t_nonneg as T0. pose proof few_small as Fs. assert (P20 : 2 ^ 20 = 1048576) by ring. rewrite P20 in H0.
    assert (D0 : 0 <= E0 / 2 ^ 50 <= / 1000000).
    { split; [apply Rmult_le_pos; [lra|left; apply Rinv_0_lt_compat, pow_lt; lra]|]. assert (P50 : 2 ^ 50 = 1125899906842624) by ring. rewrite P50. lra. }
    destruct (chain_products t E0 ltac:(lra) ds ps qv l Cl) as (A & B).
    pose proof So as (_ & _ & _ & Bt & Bp & Bk & Sm).
    assert (Pt : product t tv (R64 (rm_target r))).
    { split; [exact Ft|]. assert (Ee : R64 (vE tv) = R64 (rm_target r)) by (change (R64 (vE tv)) with (qE (real tv)); rewrite Rt; reflexivity).
      split; [lra|]. rewrite Rt. unfold mdot. cbn [qx qy qz qE].
      replace (R64 (rm_target r) * R64 (rm_target r) - (0 * 0 + 0 * 0 + 0 * 0) - R64 (rm_target r) ^ 2) with 0 by ring. rewrite Rabs_R0. exact T0. }
    destruct Wp as (_ & _ & _ & Wp). destruct Wi as (_ & _ & _ & Wi). cbn [padd qE] in Wp, Wi.
    change (qE (real pv)) with (R64 (vE pv)) in *. change (qE (real tv)) with (R64 (vE tv)) in *. change (qE (real ev)) with (R64 (vE ev)) in *. change (qE (real qv)) with (R64 (vE qv)) in *.
    assert (Ee : R64 (vE tv) = R64 (rm_target r)) by (change (R64 (vE tv)) with (qE (real tv)); rewrite Rt; reflexivity).
    replace (/ 2 ^ 50 * E0) with (E0 / 2 ^ 50) in Wp, Wi by (unfold Rdiv; ring). apply Rabs_le_inv in Wp, Wi.
    assert (Ev0 : 0 < R64 (vE ev)) by apply Pe. assert (Eq0 : 0 < R64 (vE qv)) by apply Pq. set (dd := E0 / 2 ^ 50) in *.
    split; [repeat (constructor; [assumption|]); exact A|]. split.
    { repeat (constructor; [lra|]). eapply Forall_impl; [|exact B]. cbv beta. intros a Ha. lra. }
    split.
    { rewrite !P_KinChain.last_cons. assert (Fl : Forall finite_row (qv :: l)).
      { constructor; [apply Pq|]. clear - A. revert A. generalize (chain_masses ds ps). induction l as [|a l IH]; intros k A; [constructor|]. inversion A; subst. constructor; [now apply (proj1 H1)|eapply IH; eassumption]. }
      clear - Fl. revert Fl. generalize qv. induction l as [|a l IH]; intros q F; [now inversion F|].
      rewrite P_KinChain.last_cons. apply IH. now inversion F. }
    cbn [nth]. apply Rabs_le. lra.
  Qed.

  (** The energies of the final nuclei add up to the energy of target and beam. *)
  Lemma final_energy rows zs : event r ds T th ph ex ps = Ok (Some rows) -> Forall2 (product t) rows masses ->
    Forall (fun v => R64 (vE v) <= 2 * E0) rows -> finite_row (last rows vzero) ->
    Rabs (R64 (vE (nth 0 rows vzero)) + R64 (vE (nth 1 rows vzero)) - (R64 T + R64 (rm_projectile r) + R64 (rm_target r))) <= E0 / 2 ^ 50 ->
    length zs = length rows ->
    length rows = (4 + 2 * length ds)%nat /\
    Rabs (P_KinChain.total (map (fun i => R64 (vE (nth (Z.to_nat i) rows vzero))) (nuclei_to_sim None zs)) - (R64 T + R64 (rm_projectile r) + R64 (rm_target r)))
      <= (INR (length ds) + 2) * (E0 / 2 ^ 49).
  Proof using H0 So Few.
    intros Ev F Fb Fl Es Lz.
    destruct (C67_conservation_binary64 sq sn cs (boost_v sq) (rest_v sq) (mass_v sq) r ds T th ph ex ps rows zs Ev Fl Lz) as (Ln & _ & C).
    split; [exact Ln|]. destruct (C vE ltac:(cbn; tauto)) as (_ & _ & Q). cbv zeta in Q. clear C.
    assert (Pos : forall i, (i < length rows)%nat -> 0 < R64 (vE (nth i rows vzero)) <= 2 * E0).
    { intros i Hi. split; [apply (forall2_nth _ _ _ vzero 0 F i Hi)|]. rewrite Forall_forall in Fb. apply Fb, nth_In, Hi. }
    set (tot := P_KinChain.total (map (fun i => R64 (vE (nth (Z.to_nat i) rows vzero))) (nuclei_to_sim None zs))) in *.
    set (par := P_KinChain.total (map (fun j => Rabs (R64 (vE (nth (3 + 2 * j) rows vzero)))) (seq 0 (S (length ds))))) in *.
    assert (Hp : par <= INR (S (length ds)) * (2 * E0)).
    { unfold par. eapply Rle_trans; [apply (total_le _ (2 * E0))|rewrite seq_length; lra].
      intros j Hj. apply in_seq in Hj. pose proof (Pos (3 + 2 * j)%nat ltac:(lia)). rewrite Rabs_pos_eq; lra. }
    rewrite S_INR in Hp. pose proof So as (_ & _ & _ & Bt & Bp & Bk & Sm).
    pose proof (Pos 0%nat ltac:(lia)) as P0. pose proof (Pos 1%nat ltac:(lia)) as P1.
    set (e0 := R64 (vE (nth 0 rows vzero))) in *. set (e1 := R64 (vE (nth 1 rows vzero))) in *.
    rewrite (Rabs_pos_eq (e0 + e1)) in Q by lra.
    assert (U53 : / 2 ^ 53 = u) by (assert (X := two_u); assert (Y : / 2 ^ 52 = 2 * / 2 ^ 53) by lra; lra). rewrite U53 in Q.
    assert (E50 : E0 / 2 ^ 50 = 8 * (u * E0)) by (unfold Rdiv; rewrite eight_u; ring).
    assert (E49 : E0 / 2 ^ 49 = 16 * (u * E0)) by (replace (E0 / 2 ^ 49) with (2 * (E0 / 2 ^ 50)) by (field); rewrite E50; ring).
    rewrite E50 in Es. rewrite E49. destruct small_facts as (U0 & U1 & _). pose proof (pos_INR (length ds)) as N0. set (nn := INR (length ds)) in *.
    apply Rabs_le_inv in Es, Q.
    assert (P20 : 2 ^ 20 = 1048576) by ring. rewrite P20 in H0.
    assert (UE : 0 <= u * E0) by (apply Rmult_le_pos; lra).
    assert (UE1 : u * E0 <= / 100). { apply Rle_trans with (/ 1000000000000000 * 1048576); [apply Rmult_le_compat; lra|lra]. }
    assert (B1 : u * (e0 + e1 + par) <= u * ((nn + 2) * (2 * E0))) by (apply Rmult_le_compat_l; lra).
    replace (u * ((nn + 2) * (2 * E0))) with (2 * ((nn + 2) * (u * E0))) in B1 by ring.
    assert (B2 : 0 <= nn * (u * E0)) by (apply Rmult_le_pos; lra).
    replace ((nn + 2) * (16 * (u * E0))) with (16 * (nn * (u * E0)) + 32 * (u * E0)) by ring.
    replace (2 * ((nn + 2) * (u * E0))) with (2 * (nn * (u * E0)) + 4 * (u * E0)) in B1 by ring.
    apply Rabs_le. lra.
  Qed.

  Context (fexp : f64 -> f64) (Hexp : P_MeshF64.exp_near fexp) {G Nuc : Type}.
  Context (get_data : Z -> Z -> res Nuc) (mass : Nuc -> f64)
    (ivp : (f64 * f64 * f64) * vec64 -> Nuc -> config fexp -> res (list (@traj vec64))) (w : Z) (fano : f64)
    (normals : nat -> G -> list f64 * G) (uniform : nat -> G -> list f64 * G).
  Notation trajectory := (generate_trajectory64 fexp mass ivp).
  Notation sim := (simulate fexp get_data trajectory (electrons64 fexp mass w fano normals) uniform).

  (** The kinetic energy a simulated nucleus has left in the last row of its track. *)
  Definition end_energy (h : @history Nuc) : R :=
    match h_track h with [] => 0 | t0 :: rest => kinetic (R64 (mass (h_nuc h))) (last (map t_v rest) (t_v t0)) end.
  (** What is asked of the solver: the first row is the state given, and the nucleus never gains energy. *)
  Definition slows_down (c : config fexp) : Prop := forall s nuc track, ivp s nuc c = Ok track ->
    exists t0 rest, track = t0 :: rest /\ t_v t0 = snd s /\
      forall i a b, nth_error (t_v t0 :: map t_v rest) i = Some a -> nth_error (map t_v rest) i = Some b ->
        kinetic (R64 (mass nuc)) b <= kinetic (R64 (mass nuc)) a.
  (** The table of nuclei has the masses of the event (so the last residual is in its ground state). *)
  Definition same_masses (zs ms : list Z) : Prop := forall i z a nuc, In i (nuclei_to_sim None zs) ->
    py_index zs i = Ok z -> z <> 0%Z -> py_index ms i = Ok a -> get_data z a = Ok nuc ->
    is_finite (mass nuc) = true /\ R64 (mass nuc) = nth (Z.to_nat i) masses 0.

  Definition row_energy (rows : list v4) (i : Z) : R := R64 (vE (nth (Z.to_nat i) rows vzero)).
  Definition row_mass (i : Z) : R := nth (Z.to_nat i) masses 0.
  (** Energy of beam and target, less the rest energy of the final nuclei, less what neutral nuclei
      take away, less what the charged ones have left where their tracks end. *)
  Definition available (rows : list v4) (zs : list Z) (hs : list (@history Nuc)) : R :=
    let final := nuclei_to_sim None zs in
    R64 T + R64 (rm_projectile r) + R64 (rm_target r) - P_KinChain.total (map row_mass final)
    - P_KinChain.total (map (fun i => row_energy rows i - row_mass i) (filter (fun i => negb (is_charged zs i)) final))
    - P_Calor.total end_energy hs.
  Definition tolerance : R := (INR (length ds) + 2) * (t + E0 / 2 ^ 47).

  Lemma histories_energy rows vertex zs ms c : (1 <= w)%Z -> Forall2 (product t) rows masses -> Forall (fun v => R64 (vE v) <= 2 * E0) rows ->
    length rows = (4 + 2 * length ds)%nat -> length zs = length rows -> slows_down c -> same_masses zs ms ->
    forall l hs, (forall i, In i l -> In i (nuclei_to_sim None zs)) -> Forall2 (made fexp get_data trajectory rows vertex zs ms c) l hs ->
    (forall i, In i l -> 1 <= row_mass i) ->
    Rabs (P_Calor.total (h_exact mass w) hs -
      (P_KinChain.total (map (fun i => row_energy rows i - row_mass i) l) - P_Calor.total end_energy hs) * (10 ^ 6 / IZR w))
    <= INR (length l) * (t + E0 / 2 ^ 49) * (10 ^ 6 / IZR w).
  Proof using G1 H0 Ht Few.
    intros Hw F Fb Ln Lz Sl Sm l hs Hl M Hm. pose proof t_nonneg as T0. assert (P20 : 2 ^ 20 = 1048576) by ring. rewrite P20 in H0.
    assert (W1 : 1 <= IZR w) by (apply IZR_le; exact Hw). assert (K0 : 0 < 10 ^ 6 / IZR w) by (apply Rdiv_lt_0_compat; lra).
    induction M as [|i h l hs Mi M IH].
    { unfold P_Calor.total, P_KinChain.total, P_Calor.sumR. cbn [map fold_right length INR]. rewrite Rminus_0_r, Rmult_0_l, Rminus_0_r, Rabs_R0. lra. }
    specialize (IH (fun j I => Hl j (or_intror I)) (fun j I => Hm j (or_intror I))).
    pose proof (Hl i (or_introl eq_refl)) as Ii. pose proof (Hm i (or_introl eq_refl)) as Bm.
    assert (Ri : (2 <= i < 4 + 2 * Z.of_nat (length ds))%Z).
    { destruct (C20_default_nuclei (Z.of_nat (length ds)) zs ltac:(lia) ltac:(lia)) as (FP & _). apply FP in Ii. apply Ii. }
    destruct Mi as (z & a & p & Ez & Nz & Ea & En & Ep & Et & _).
    destruct (Sm i z a (h_nuc h) Ii Ez Nz Ea En) as (Fm & Em).
    assert (Pn : p = nth (Z.to_nat i) rows vzero).
    { unfold py_index in Ep. rewrite (proj2 (Z.ltb_ge _ _)) in Ep by lia. rewrite (proj2 (Z.leb_le _ _)), (proj2 (Z.ltb_lt _ _)) in Ep by lia. cbn [andb] in Ep.
      destruct (nth_error rows (Z.to_nat i)) as [q|] eqn:Q; [|discriminate Ep]. apply nth_error_nth with (d := vzero) in Q. congruence. }
    assert (Hi : (Z.to_nat i < length rows)%nat) by lia.
    pose proof (forall2_nth _ _ _ vzero 0 F _ Hi) as Pr. rewrite <- Pn, <- Em in Pr.
    assert (Be : R64 (vE p) <= 2 * E0) by (rewrite Forall_forall in Fb; rewrite Pn; apply Fb, nth_In, Hi).
    unfold row_mass in Bm. rewrite <- Em in Bm.
    assert (P30 : 2 ^ 30 = 1073741824) by ring.
    destruct (C91_start t (2 * E0) p (mass (h_nuc h)) Pr Fm Bm ltac:(lra) Be ltac:(lra)) as (_ & St).
    unfold generate_trajectory64 in Et. destruct (Sl _ _ _ Et) as (t0 & rest & Etr & Ev & Mono). cbn [snd] in Ev. rewrite <- Ev in St.
    assert (He : h_exact mass w h = (kinetic (R64 (mass (h_nuc h))) (t_v t0) - end_energy h) * (10 ^ 6 / IZR w)).
    { unfold h_exact, exact_of, end_energy. rewrite Etr. cbn [map]. now apply C76_energy. }
    unfold P_Calor.total, P_KinChain.total in *. cbn [map fold_right length]. rewrite !P_Calor.sumR_cons, S_INR, He.
    assert (Re : row_energy rows i = R64 (vE p)) by (unfold row_energy; now rewrite Pn). rewrite Re. unfold row_mass at 1. rewrite <- Em.
    set (k := 10 ^ 6 / IZR w) in *. set (m := R64 (mass (h_nuc h))) in *.
    assert (Q : Rabs (kinetic m (t_v t0) - (R64 (vE p) - m)) <= t + E0 / 2 ^ 49).
    { eapply Rle_trans; [exact St|]. replace (2 * E0 / 2 ^ 50) with (E0 / 2 ^ 49) by field.
      assert (t / m <= t); [|lra]. apply Rmult_le_reg_r with m; [lra|]. replace (t / m * m) with t by (field; lra). rewrite <- (Rmult_1_r t) at 1. apply Rmult_le_compat_l; lra. }
    apply (Rmult_le_compat_r k) in Q; [|lra]. rewrite <- (Rabs_pos_eq k) in Q at 1 by lra. rewrite <- Rabs_mult in Q.
    set (kk := kinetic m (t_v t0)) in *. set (dd := t + E0 / 2 ^ 49) in *. set (ee := end_energy h) in *. set (rE := R64 (vE p)) in *.
    match type of IH with Rabs (?A - (?B - ?C) * k) <= ?D * dd * k => set (a1 := A) in *; set (b1 := B) in *; set (c1 := C) in *; set (n1 := D) in * end.
    apply Rabs_le_inv in IH, Q. replace ((kk - (rE - m)) * k) with (kk * k - rE * k + m * k) in Q by ring.
    replace ((b1 - c1) * k) with (b1 * k - c1 * k) in IH by ring. replace (n1 * dd * k) with (n1 * (dd * k)) in IH by ring.
    replace ((kk - ee) * k + a1 - (rE - m + b1 - (ee + c1)) * k) with (kk * k - rE * k + m * k + (a1 - (b1 * k - c1 * k))) by ring.
    replace ((n1 + 1) * dd * k) with (n1 * (dd * k) + dd * k) by ring. apply Rabs_le. lra.
  Qed.

  Lemma chain_massive : forall dl pl N, open_chain g E0 (2 * t) N dl pl -> Forall (fun m => 1 <= m) (chain_masses dl pl).
  Proof using Type.
    induction dl as [|d l IH]; intros [|[[e a] b] k] N O; cbn [chain_masses]; try (now constructor). cbn [open_chain] in O.
    constructor; [apply O|]. constructor; [apply O|]. eapply IH, O.
  Qed.
  Lemma massive_rows : Forall (fun m => 1 <= m) masses.
  Proof using So Op Oc.
    pose proof So as (_ & _ & _ & Bt & Bp & _). pose proof Op as (_ & _ & _ & P1 & P2 & _).
    unfold event_masses. cbn [app]. repeat (constructor; [assumption|]). exact (chain_massive _ _ _ Oc).
  Qed.

  (** The electrons that the tracks stand for, against the available energy. *)
  Lemma energy_near rows vertex zs ms c hs : event r ds T th ph ex ps = Ok (Some rows) -> length zs = length rows -> (1 <= w)%Z ->
    slows_down c -> same_masses zs ms ->
    Forall2 (made fexp get_data trajectory rows vertex zs ms c) (filter (is_charged zs) (nuclei_to_sim None zs)) hs ->
    Rabs (P_Calor.total (h_exact mass w) hs - available rows zs hs * (10 ^ 6 / IZR w)) <= tolerance * (10 ^ 6 / IZR w).
  Proof using Hok Hall Htr G1 G2 H0 Ht So Ab Op Oc Few.
    intros Ev Lz Hw Sl Sm A.
    destruct event_rows as (rows' & Ev' & F & Fb & Fl & Es). assert (rows' = rows) by congruence. subst rows'. clear Ev'.
    destruct (final_energy rows zs Ev F Fb Fl Es Lz) as (Ln & Fe).
    pose proof (histories_energy rows vertex zs ms c ltac:(lia) F Fb Ln Lz Sl Sm (filter (is_charged zs) (nuclei_to_sim None zs)) hs) as Q.
    specialize (Q (fun i I => proj1 (proj1 (filter_In _ _ _) I)) A).
    destruct (C20_default_nuclei (Z.of_nat (length ds)) zs ltac:(lia) ltac:(lia)) as (FP & _ & Li).
    assert (Q1 : forall i, In i (filter (is_charged zs) (nuclei_to_sim None zs)) -> 1 <= row_mass i).
    { intros i I. apply filter_In in I as (I & _). apply FP in I. destruct I as (I & _). unfold row_mass.
      pose proof massive_rows as Ms. rewrite Forall_forall in Ms. apply Ms, nth_In.
      assert (Lm : length rows = length masses) by (clear - F; induction F; cbn; lia). lia. }
    specialize (Q Q1). clear Q1.
    assert (W1 : 1 <= IZR w) by (apply IZR_le; lia). assert (K0 : 0 < 10 ^ 6 / IZR w) by (apply Rdiv_lt_0_compat; lra).
    set (k := 10 ^ 6 / IZR w) in *.
    pose proof (total_minus (row_energy rows) row_mass (nuclei_to_sim None zs)) as S1.
    pose proof (total_filter (fun i => row_energy rows i - row_mass i) (is_charged zs) (nuclei_to_sim None zs)) as S2.
    change (map (fun i => R64 (vE (nth (Z.to_nat i) rows vzero))) (nuclei_to_sim None zs)) with (map (row_energy rows) (nuclei_to_sim None zs)) in Fe.
    set (ne := P_KinChain.total (map (fun i => row_energy rows i - row_mass i) (filter (fun i => negb (is_charged zs i)) (nuclei_to_sim None zs)))) in *.
    set (ch := P_KinChain.total (map (fun i => row_energy rows i - row_mass i) (filter (is_charged zs) (nuclei_to_sim None zs)))) in *.
    set (lc := INR (length (filter (is_charged zs) (nuclei_to_sim None zs)))) in *.
    assert (Lc : 0 <= lc <= INR (length ds) + 2).
    { split; [apply pos_INR|]. unfold lc. apply Rle_trans with (INR (length (nuclei_to_sim None zs))).
      - apply le_INR. apply filter_shorter.
      - replace (INR (length ds) + 2) with (INR (length ds + 2)) by (rewrite plus_INR; reflexivity). apply le_INR. lia. }
    pose proof t_nonneg as T0. assert (D0 : 0 <= E0 / 2 ^ 49) by (apply Rmult_le_pos; [lra|left; apply Rinv_0_lt_compat, pow_lt; lra]).
    assert (D47 : E0 / 2 ^ 47 = 4 * (E0 / 2 ^ 49)) by field.
    assert (Qt : lc * (t + E0 / 2 ^ 49) * k <= (INR (length ds) + 2) * (t + E0 / 2 ^ 49) * k).
    { apply Rmult_le_compat_r; [lra|]. apply Rmult_le_compat_r; lra. }
    assert (Ea : available rows zs hs = R64 T + R64 (rm_projectile r) + R64 (rm_target r) - P_KinChain.total (map row_mass (nuclei_to_sim None zs)) - ne - P_Calor.total end_energy hs) by reflexivity.
      rewrite Ea. unfold tolerance. rewrite D47. set (d := E0 / 2 ^ 49) in *. set (nn := INR (length ds)) in *.
      set (tm := P_KinChain.total (map row_mass (nuclei_to_sim None zs))) in *. set (te := P_KinChain.total (map (row_energy rows) (nuclei_to_sim None zs))) in *.
      set (en := P_Calor.total end_energy hs) in *. set (xx := P_Calor.total (h_exact mass w) hs) in *. set (bt := R64 T + R64 (rm_projectile r) + R64 (rm_target r)) in *.
      assert (Ec : ch = te - tm - ne) by lra. rewrite Ec in Q.
      assert (Fe' : Rabs ((te - bt) * k) <= (nn + 2) * d * k) by (rewrite Rabs_mult, (Rabs_pos_eq k) by lra; apply Rmult_le_compat_r; lra).
      apply Rabs_le_inv in Q, Fe'. 
      replace ((te - tm - ne - en) * k) with ((bt - tm - ne - en) * k + (te - bt) * k) in Q by ring.
      assert (N2 : 0 <= (nn + 2) * d * k) by (apply Rmult_le_pos; [apply Rmult_le_pos|]; lra).
      replace ((nn + 2) * (t + 4 * d) * k) with ((nn + 2) * (t + d) * k + 3 * ((nn + 2) * d * k)) by ring.
      apply Rabs_le. lra.
  Qed.

  (** C91: an event made in binary64 and simulated with diffusion.  The electrons of the cloud are the
      gain times the available energy over W: at most this, up to the tolerance on the masses and the
      allowances of C88, and at least 99.78 % of it when the tracks are covered. *)
  Theorem C91_charge : exists rows, event r ds T th ph ex ps = Ok (Some rows) /\
    forall vertex zs ms c rng gr ge cloud labels rng', length zs = length rows ->
    c_grid fexp c = Some gr -> c_edges fexp c = Some ge -> (forall i j, (-1 <= gr_cell gr i j < 2 ^ 26)%Z) ->
    near fexp trajectory rows vertex c -> draws_ok uniform -> normals_ok normals ->
    (1 <= w <= 2 ^ 53)%Z -> is_finite fano = true -> 0 <= R64 fano <= 1 -> (0 <= c_gain fexp c)%Z ->
    (forall p nuc track, In p rows -> trajectory vertex p nuc c = Ok track ->
       usual (mass nuc) w (map t_v track) /\
       forall t, In t track -> good_width (fexp := fexp) (c_diffusion fexp c) (c_efield fexp c) (c_drift fexp c) (to_row fexp c t)) ->
    slows_down c -> same_masses zs ms ->
    sim rows vertex zs ms c rng (nuclei_to_sim None zs) = Ok ((cloud, labels), rng') ->
    exists hs, Forall2 (made fexp get_data trajectory rows vertex zs ms c) (filter (is_charged zs) (nuclei_to_sim None zs)) hs /\
      let gain := IZR (c_gain fexp c) in
      let charge := P_Calor.sumR (map (fun p => R64 (p_el p)) cloud) in
      let per_mev := 10 ^ 6 / IZR w in
      let slack := P_Calor.total (h_slack mass w fano) hs in
      gain * ((available rows zs hs + tolerance) * per_mev + slack) <= 2 ^ 53 ->
      charge <= gain * ((available rows zs hs + tolerance) * per_mev + slack) /\
      (Forall (contained_diff fexp gr ge c) hs ->
         9978 / 10000 * (gain * ((available rows zs hs - tolerance) * per_mev - slack)) - 100 * P_Calor.total rows_of hs <= charge).
  Proof using Hok Hall Htr G1 G2 H0 Ht So Ab Op Oc Few Hexp.
    destruct event_rows as (rows & Ev & _). exists rows. split; [exact Ev|].
    intros vertex zs ms c rng gr ge cloud labels rng' Lz Hg He Hp Hn Hu HN Hw Ff Bf Gp Htk Sl Sm H.
    destruct (C88_charge fexp Hexp get_data trajectory mass w fano normals uniform rows vertex zs ms c rng (nuclei_to_sim None zs) gr ge cloud labels rng'
      Hg He Hp Hn Hu HN Hw Ff Bf Gp Htk H) as (hs & A & B).
    exists hs. split; [exact A|]. cbv zeta in B |- *.
    pose proof (energy_near rows vertex zs ms c hs Ev Lz ltac:(lia) Sl Sm A) as Near.
    set (k := 10 ^ 6 / IZR w) in *.
    intros Sm53. assert (Gr : 0 <= IZR (c_gain fexp c)) by (apply (IZR_le 0); exact Gp).
    set (gn := IZR (c_gain fexp c)) in *. set (xx := P_Calor.total (h_exact mass w) hs) in *. set (sl := P_Calor.total (h_slack mass w fano) hs) in *.
    set (av := available rows zs hs) in *. set (tl := tolerance) in *. apply Rabs_le_inv in Near.
    assert (Up : gn * (xx + sl) <= gn * ((av + tl) * k + sl)) by (apply Rmult_le_compat_l; lra).
    assert (Lo : gn * ((av - tl) * k - sl) <= gn * (xx - sl)) by (apply Rmult_le_compat_l; lra).
    destruct B as (_ & B1 & B2); [lra|]. split; [lra|]. intros Cn. specialize (B2 Cn). lra.
  Qed.
End Budget.
(** ** Example: a beam of mass 11178 and 100 MeV on a target of mass 1876; ejectile of charge 1, the
    residual (excited by 5 MeV) emits a neutral particle; everything along the beam. *)
Section Example.
  Notation fexp := ideal_exp.
  Local Open Scope Z_scope.
  Definition bu_sq (x : f64) : f64 := fmul x x.
  Definition bu_sin (x : f64) : f64 := if feqb x (f_of_Z 0) then f_of_Z 0 else sin_r x.
  Definition bu_cos (x : f64) : f64 := if feqb x (f_of_Z 0) then f_of_Z 1 else cos_r x.
  Definition bu_r : reaction_masses := mkRM (f_of_Z 1876) (f_of_Z 11178) (f_of_Z 938) (f_of_Z 12110).
  Definition bu_ds : list decay_masses := [mkDM (f_of_Z 938) (f_of_Z 11170)].
  Definition bu_ps : list (f64 * f64 * f64) := [(f_of_Z 0, f_of_Z 0, f_of_Z 0)].
  Definition bu_event := event64 bu_sq bu_sin bu_cos (boost_v bu_sq) (rest_v bu_sq) (mass_v bu_sq) bu_r bu_ds (f_of_Z 100) (f_of_Z 0) (f_of_Z 0) (f_of_Z 5) bu_ps.
  Definition bu_zs : list Z := [1; 6; 1; 6; 0; 6].
  Definition bu_ms : list Z := [2; 12; 1; 13; 1; 12].
  (** Two kinds of nuclei, light and heavy. *)
  Definition bu_mass (light : bool) : f64 := f_of_Z (if light then 938 else 11170).
  Definition bu_data (z a : Z) : res bool := Ok (z =? 1).
  Definition bu_slow : f64 := f_of_ZE 1 (-6).
  (** A nucleus that moves along the beam slows down to 1/64 of its mass. *)
  Definition bu_ivp (s : (f64 * f64 * f64) * vec64) (nuc : bool) (c : config fexp) : res (list (@traj vec64)) :=
    let v := snd s in
    if is_finite (vx64 v) && is_finite (vy64 v) && is_finite (vz64 v) && feqb (vx64 v) (f_of_Z 0) && feqb (vy64 v) (f_of_Z 0) &&
       fleb bu_slow (vz64 v) && fleb (vz64 v) (f_of_Z 1)
    then Ok [mkTraj (f_of_Z 0) (f_of_Z 0) half v; mkTraj (f_of_Z 0) (f_of_Z 0) half (mkVec64 (f_of_Z 0) (f_of_Z 0) bu_slow)]
    else Err ValueError.
  Definition bu_traj := generate_trajectory64 fexp bu_mass bu_ivp.
  Definition bu_sim (w : Z) := simulate fexp bu_data bu_traj (electrons64 fexp bu_mass w (f_of_Z 0) al_normals) ex_uniform.

  Lemma bu_trig : trig_ok bu_sin bu_cos.
  Proof.
    intros x F B. pose proof (trig_rounded x F B) as Q. unfold bu_sin, bu_cos.
    rewrite feqb_R; [|exact F|apply f_of_Z_fin; lia]. rewrite !f_of_Z_R by lia. destruct (Req_bool_spec (R64 x) 0) as [E|E]; [|exact Q].
    rewrite E, sin_0, cos_0, !f_of_Z_R, !Rminus_eq_0, Rabs_R0 by lia.
    assert (0 <= / 2 ^ 52)%R by (left; apply Rinv_0_lt_compat, pow_lt; lra). repeat split; try (apply f_of_Z_fin; lia); assumption.
  Qed.
  Lemma bu_slow_R : R64 bu_slow = (1 / 64)%R /\ is_finite bu_slow = true.
  Proof.
    destruct (f_of_ZE_correct 1 (-6) ltac:(lia) ltac:(lia)) as (E & F). split; [|exact F].
    unfold bu_slow. rewrite E. change (bpow radix2 (-6)) with (/ 64)%R. lra.
  Qed.

  (** What the booleans of [bu_ivp] say. *)
  Lemma bu_tracks s nuc c track : bu_ivp s nuc c = Ok track ->
    track = [mkTraj (f_of_Z 0) (f_of_Z 0) half (snd s); mkTraj (f_of_Z 0) (f_of_Z 0) half (mkVec64 (f_of_Z 0) (f_of_Z 0) bu_slow)] /\
    is_finite (vx64 (snd s)) = true /\ is_finite (vy64 (snd s)) = true /\ is_finite (vz64 (snd s)) = true /\
    R64 (vx64 (snd s)) = 0%R /\ R64 (vy64 (snd s)) = 0%R /\ (1 / 64 <= R64 (vz64 (snd s)) <= 1)%R.
  Proof.
    unfold bu_ivp. destruct bu_slow_R as (Es & Fs). set (v := snd s).
    destruct (_ && _) eqn:B; [|intros X; discriminate X]. intros E.
    repeat (apply andb_prop in B as (B & ?)).
    rename H4 into Fy, H3 into Fz, H2 into Ex, H1 into Ey, H0 into Lo, H into Hi, B into Fx.
    rewrite feqb_R in Ex, Ey by (try assumption; apply f_of_Z_fin; lia). rewrite fleb_R in Lo, Hi by (try assumption; apply f_of_Z_fin; lia).
    rewrite f_of_Z_R in Ex, Ey, Hi by lia. rewrite Es in Lo.
    assert (Zx : R64 (vx64 v) = 0%R) by (revert Ex; case Req_bool_spec; [easy|discriminate]).
    assert (Zy : R64 (vy64 v) = 0%R) by (revert Ey; case Req_bool_spec; [easy|discriminate]).
    assert (Zl : (1 / 64 <= R64 (vz64 v))%R) by (revert Lo; case Rle_bool_spec; [easy|discriminate]).
    assert (Zh : (R64 (vz64 v) <= 1)%R) by (revert Hi; case Rle_bool_spec; [easy|discriminate]).
    split; [|auto 10]. apply (f_equal (fun r => match r with Ok x => x | Err _ => [] end)) in E. symmetry. exact E.
  Qed.

  Lemma bu_usual w vertex p nuc c track : 34 <= w -> bu_traj vertex p nuc c = Ok track -> usual (bu_mass nuc) w (map t_v track).
  Proof.
    intros Hw E. assert (Kw : (0 <= 10 ^ 6 / IZR w <= 10 ^ 6 / 34)%R).
    { apply IZR_le in Hw. assert (I0 : (0 < / IZR w)%R) by (apply Rinv_0_lt_compat; lra). unfold Rdiv. split; [apply Rmult_le_pos; lra|]. apply Rmult_le_compat_l; [lra|]. apply Rinv_le_contravar; lra. } unfold bu_traj, generate_trajectory64 in E. apply bu_tracks in E as (-> & Fx & Fy & Fz & Zx & Zy & B).
    destruct bu_slow_R as (Es & Fs). set (v := snd _) in *. clearbody v.
    assert (Fm : is_finite (bu_mass nuc) = true) by (apply f_of_Z_fin; destruct nuc; lia).
    assert (Bm : (938 <= R64 (bu_mass nuc) <= 11170)%R) by (unfold bu_mass; rewrite f_of_Z_R by (destruct nuc; lia); destruct nuc; lra).
    split; [exact Fm|].
    assert (P100 : (11170 <= 2 ^ 100)%R).
    { apply Rle_trans with (2 ^ 14)%R; [assert (2 ^ 14 = 16384)%R by ring; lra|apply Rle_pow; [lra|lia]]. }
    split; [lra|]. pose proof (inv_pow_le 12 200 ltac:(lia)) as I12. assert (P12 : (/ 2 ^ 12 = / 4096)%R) by (f_equal; ring). rewrite P12 in I12.
    assert (G4 : (1 <= 2 ^ 200)%R) by (apply pow_R1_Rle; lra). assert (P40 : (2 ^ 40 = 1099511627776)%R) by ring.
    assert (Z0 : R64 (f_of_Z 0) = 0%R) by (apply f_of_Z_R; lia). assert (F0 : is_finite (f_of_Z 0) = true) by (apply f_of_Z_fin; lia).
    assert (Main : forall q, is_finite (vx64 q) = true -> is_finite (vy64 q) = true -> is_finite (vz64 q) = true -> R64 (vx64 q) = 0%R -> R64 (vy64 q) = 0%R ->
      (1 / 64 <= R64 (vz64 q) <= 1)%R -> moving q /\ (R64 (bu_mass nuc) * lorentz_factor q * (10 ^ 6 / IZR w) <= 2 ^ 40)%R).
    { intros q A1 A2 A3 A4 A5 A6.
      assert (M : momentum2 q = (R64 (vz64 q) * R64 (vz64 q))%R) by (unfold momentum2; rewrite A4, A5; ring).
      assert (Mb : (1 / 64 * (1 / 64) <= momentum2 q <= 1 * 1)%R) by (rewrite M; split; apply Rmult_le_compat; lra).
      split; [unfold moving; repeat split; try assumption; lra|].
      assert (L : (0 <= lorentz_factor q <= 2)%R).
      { unfold lorentz_factor. split; [apply sqrt_pos|]. rewrite <- (sqrt_square 2) by lra. apply sqrt_le_1_alt. lra. }
      rewrite P40. apply Rle_trans with (11170 * 2 * (10 ^ 6 / 34))%R; [|lra]. apply Rmult_le_compat; [apply Rmult_le_pos; lra|lra|apply Rmult_le_compat; lra|lra]. }
    intros q [<-|[<-|[]]]; cbn [t_v]; apply Main; try assumption; cbn [vx64 vy64 vz64]; try assumption. rewrite Es. lra.
  Qed.

  Lemma bu_slows c : slows_down fexp bu_mass bu_ivp c.
  Proof.
    intros s nuc track E. apply bu_tracks in E as (-> & Fx & Fy & Fz & Zx & Zy & B). destruct bu_slow_R as (Es & Fs).
    assert (Z0 : R64 (f_of_Z 0) = 0%R) by (apply f_of_Z_R; lia).
    eexists _, _. split; [reflexivity|]. split; [reflexivity|]. cbn [t_v map]. intros i a b Ha Hb.
    destruct i as [|[|i]]; cbn [nth_error] in Ha, Hb; try discriminate Hb.
    assert (a = snd s) by congruence. assert (b = mkVec64 (f_of_Z 0) (f_of_Z 0) bu_slow) by congruence. subst a b.
    assert (Bm : (0 <= R64 (bu_mass nuc))%R) by (unfold bu_mass; rewrite f_of_Z_R by (destruct nuc; lia); destruct nuc; lra).
    unfold kinetic. apply Rmult_le_compat_l; [exact Bm|]. apply Rplus_le_compat_r. unfold lorentz_factor. apply sqrt_le_1_alt.
    unfold momentum2. cbn [vx64 vy64 vz64]. rewrite Z0, Es, Zx, Zy.
    assert ((1 / 64 * (1 / 64) <= R64 (vz64 (snd s)) * R64 (vz64 (snd s)))%R) by (apply Rmult_le_compat; lra). lra.
  Qed.

  Definition bu_row (i : Z) : v4 := match bu_event with Ok (Some rows) => nth (Z.to_nat i) rows vzero | _ => vzero end.
  Lemma bu_neutral : (960 <= R64 (vE (bu_row 4)) <= 961)%R.
  Proof.
    assert (E : B2SF (vE (bu_row 4)) = SpecFloat.S754_finite false 8447804048406622 (-43)) by (vm_compute; reflexivity).
    rewrite <- SF2R_B2SF, E. cbn [SF2R]. unfold F2R. cbn [Fnum Fexp cond_Zopp]. change (bpow radix2 (-43)) with (/ 8796093022208)%R. lra.
  Qed.
  Lemma bu_go : forall i nuc, (i = 2 /\ nuc = true) \/ (i = 5 /\ nuc = false) -> forall vertex, exists track, bu_traj vertex (bu_row i) nuc cd_config = Ok track.
  Proof.
    intros i nuc H vertex. unfold bu_traj, generate_trajectory64, bu_ivp. cbn [snd].
    destruct H as [(-> & ->)|(-> & ->)];
      match goal with |- context [if ?b then _ else _] => assert (Bq : b = true) by (vm_compute; reflexivity); rewrite Bq end; eexists; reflexivity.
  Qed.

  Lemma bu_end nuc : (R64 (bu_mass nuc) / 8300 <= kinetic (R64 (bu_mass nuc)) (mkVec64 (f_of_Z 0) (f_of_Z 0) bu_slow) <= R64 (bu_mass nuc) / 8192)%R.
  Proof.
    destruct bu_slow_R as (Es & _). assert (Z0 : R64 (f_of_Z 0) = 0%R) by (apply f_of_Z_R; lia).
    assert (Bm : (0 <= R64 (bu_mass nuc))%R) by (unfold bu_mass; rewrite f_of_Z_R by (destruct nuc; lia); destruct nuc; lra).
    assert (L : (/ 8300 <= lorentz_factor (mkVec64 (f_of_Z 0) (f_of_Z 0) bu_slow) - 1 <= / 8192)%R).
    { unfold lorentz_factor, momentum2. cbn [vx64 vy64 vz64]. rewrite Z0, Es. split.
      - assert (1 + / 8300 <= sqrt (1 + (0 ^ 2 + 0 ^ 2 + (1 / 64) ^ 2)))%R; [|lra].
        rewrite <- (sqrt_square (1 + / 8300)) at 1 by lra. apply sqrt_le_1_alt. lra.
      - assert (sqrt (1 + (0 ^ 2 + 0 ^ 2 + (1 / 64) ^ 2)) <= 1 + / 8192)%R; [|lra].
        rewrite <- (sqrt_square (1 + / 8192)) by lra. apply sqrt_le_1_alt. lra. }
    unfold kinetic, Rdiv. split; apply Rmult_le_compat_l; lra.
  Qed.

  (** Beam and target set free 108 MeV, of which the neutral particle takes 22.4 and 1.5 are left where
      the tracks end: 84.1 MeV, 24.7 million electrons at a gain of 10. *)
  Lemma bu_reaction :
    (tau_v 2 16384 <= / 2)%R /\ start_ok 16384 bu_r (f_of_Z 100) /\ above_threshold (tau_v 2 16384) bu_r (f_of_Z 100) (f_of_Z 5) /\
    open_ 2 16384 (2 * tau_v 2 16384) (cm_total (R64 (rm_target bu_r)) (R64 (rm_projectile bu_r)) (R64 (f_of_Z 100))) (rm_ejectile bu_r) (rm_residual bu_r) (f_of_Z 5) (f_of_Z 0) (f_of_Z 0) /\
    open_chain 2 16384 (2 * tau_v 2 16384) (R64 (rm_residual bu_r) + R64 (f_of_Z 5)) bu_ds bu_ps /\ (length bu_ds <= 1000)%nat.
  Proof.
    set (E0 := 16384%R).
    assert (RZ : forall n, (Z.abs n <= 2 ^ 53)%Z -> R64 (f_of_Z n) = IZR n) by (intros n N; apply f_of_Z_R; exact N).
    assert (FZ : forall n, (Z.abs n <= 2 ^ 53)%Z -> is_finite (f_of_Z n) = true) by (intros n N; apply f_of_Z_fin; exact N).
    assert (TV : (0 <= tau_v 2 E0 <= / 100)%R) by (unfold tau_v, E0; lra).
    assert (CM : (13060 <= cm_total 1876 11178 100)%R).
    { unfold cm_total. rewrite <- (sqrt_square 13060) by lra. apply sqrt_le_1_alt. lra. }
    split; [lra|]. split; [|split; [|split; [|split]]].
    - unfold start_ok, bu_r. cbn [rm_target rm_projectile]. rewrite !FZ, !RZ by lia. unfold E0. repeat split; lra.
    - unfold above_threshold, bu_r. cbn [rm_target rm_projectile rm_ejectile rm_residual]. cbv zeta. rewrite !RZ by lia. split; lra.
    - unfold open_, bu_r. cbn [rm_target rm_projectile rm_ejectile rm_residual]. rewrite !FZ, !RZ by lia. unfold E0 in *.
      repeat split; try lra; rewrite Rabs_pos_eq; lra.
    - unfold bu_r, bu_ds, bu_ps. cbn [open_chain rm_residual dm_res1 dm_res2]. split; [|exact I]. unfold open_. rewrite !FZ, !RZ by lia. unfold E0 in *.
      repeat split; try lra; rewrite Rabs_pos_eq; lra.
    - cbn [bu_ds length]. lia.
  Qed.

  Definition bu_vertex := (f_of_Z 0, f_of_Z 0, half).
  (** The event is made and simulated, and meets the hypotheses of C91_charge. *)
  Lemma bu_setting w : 34 <= w <= 2 ^ 20 -> exists rows cloud labels rng', bu_event = Ok (Some rows) /\ length bu_zs = length rows /\
    bu_sim w rows bu_vertex bu_zs bu_ms cd_config 0 (nuclei_to_sim None bu_zs) = Ok ((cloud, labels), rng') /\
    (forall i j, -1 <= gr_cell nf_grid i j < 2 ^ 26) /\ near fexp bu_traj rows bu_vertex cd_config /\ draws_ok ex_uniform /\ normals_ok al_normals /\
    (forall p nuc track, In p rows -> bu_traj bu_vertex p nuc cd_config = Ok track ->
       usual (bu_mass nuc) w (map t_v track) /\
       forall t, In t track -> good_width (fexp := fexp) (c_diffusion fexp cd_config) (c_efield fexp cd_config) (c_drift fexp cd_config) (to_row fexp cd_config t)) /\
    same_masses bu_r bu_ds (f_of_Z 5) bu_ps bu_data bu_mass bu_zs bu_ms /\
    forall hs, Forall2 (made fexp bu_data bu_traj rows bu_vertex bu_zs bu_ms cd_config) (filter (is_charged bu_zs) (nuclei_to_sim None bu_zs)) hs ->
      P_Calor.total (h_slack bu_mass w (f_of_Z 0)) hs = 8%R /\ P_Calor.total rows_of hs = 4%R /\
      (835 / 10 <= available bu_r bu_ds (f_of_Z 100) (f_of_Z 5) bu_ps bu_mass rows bu_zs hs <= 846 / 10)%R /\
      Forall (contained_diff fexp nf_grid (packaged_edges fexp) cd_config) hs.
  Proof.
    intros Hw.
    assert (RZ : forall n, (Z.abs n <= 2 ^ 53)%Z -> R64 (f_of_Z n) = IZR n) by (intros n N; apply f_of_Z_R; exact N).
    assert (FZ : forall n, (Z.abs n <= 2 ^ 53)%Z -> is_finite (f_of_Z n) = true) by (intros n N; apply f_of_Z_fin; exact N).
    destruct bu_reaction as (Ht & So & Ab & Op & Oc & Few).
    destruct (event_rows bu_sq bu_sin bu_cos 2 16384 mul_pow_ok mul_pow_all bu_trig ltac:(lra) ltac:(lra) ltac:(lra) Ht
      bu_r bu_ds (f_of_Z 100) (f_of_Z 0) (f_of_Z 0) (f_of_Z 5) bu_ps So Ab Op Oc Few) as (rows & Ev & _).
      assert (Row : forall i, nth (Z.to_nat i) rows vzero = bu_row i) by (intros i; unfold bu_row, bu_event; rewrite Ev; reflexivity).
      assert (Len : length rows = 6%nat).
      { assert (X : match bu_event with Ok (Some l) => length l | _ => 0%nat end = 6%nat) by (vm_compute; reflexivity). unfold bu_event in X. rewrite Ev in X. exact X. }
      assert (Idx : nuclei_to_sim None bu_zs = [2; 4; 5]) by reflexivity.
      assert (Pm : forall i, 0 <= i < 6 -> py_index rows i = Ok (bu_row i)).
      { intros i Hi. unfold py_index. rewrite Len. rewrite (proj2 (Z.ltb_ge _ _)) by lia. rewrite (proj2 (Z.leb_le _ _)), (proj2 (Z.ltb_lt _ _)) by lia. cbn [andb].
        rewrite <- Row. destruct (nth_error rows (Z.to_nat i)) as [q|] eqn:Q; [now rewrite (nth_error_nth _ _ vzero Q)|]. apply nth_error_None in Q. lia. }
      set (vertex := bu_vertex) in *.
      assert (TB : f_to_Z (drift_time fexp cd_config half) = Some 257) by (vm_compute; reflexivity).
      assert (Z0 : R64 (f_of_Z 0) = 0%R) by (apply RZ; lia). assert (F0 : is_finite (f_of_Z 0) = true) by (apply FZ; lia).
      assert (B0 : bnd (f_of_Z 0) 300) by (split; [exact F0|rewrite Z0, Rabs_R0; apply bpow_ge_0]).
      assert (HN : normals_ok al_normals).
      { intros n g. cbn [al_normals fst]. split; [apply repeat_length|].
        apply Forall_forall. intros u Hu. apply repeat_spec in Hu as ->.
        split; [apply FZ; lia|]. rewrite RZ by lia. rewrite Rabs_pos_eq; lra. }
      assert (HU : draws_ok ex_uniform).
      { intros n g. cbn [ex_uniform fst]. split; [apply repeat_length|].
        apply Forall_forall. intros u Hu. apply repeat_spec in Hu as ->. exact half_ok. }
      assert (Rt : rg (drift_time fexp cd_config half) (-60) 60) by (apply nf_rg; vm_compute; reflexivity).
      assert (Tr : forall p nuc track, bu_traj vertex p nuc cd_config = Ok track -> forall t, In t track ->
        to_row fexp cd_config t = @mkRow (F64 fexp) (f_of_Z 0) (f_of_Z 0) (drift_time fexp cd_config half) /\ t_z t = half).
      { intros p nuc track E t It. unfold bu_traj, generate_trajectory64 in E. apply bu_tracks in E as (-> & _). destruct It as [<-|[<-|[]]]; split; reflexivity. }
      assert (Gd : forall i j, -1 <= gr_cell nf_grid i j < 2 ^ 26) by (intros i j; cbn; lia).
      assert (Nr : near fexp bu_traj rows vertex cd_config).
      { intros p nuc track t tb _ Et It Hb. rewrite (proj2 (Tr _ _ _ Et t It)), TB in Hb. assert (tb = 257) by congruence. subst. reflexivity. }
      destruct (C89_simulate fexp bu_data bu_traj (electrons64 fexp bu_mass w (f_of_Z 0) al_normals) ex_uniform
        rows vertex bu_zs bu_ms cd_config 0 (nuclei_to_sim None bu_zs) nf_grid ideal_exp_ok eq_refl eq_refl eq_refl eq_refl) as (cloud & labels & rng' & E).
      { split; [right; apply nf_rg; vm_compute; reflexivity|]. split; [apply nf_rg; vm_compute; reflexivity|].
        destruct (f_of_ZE_correct 1 (-9) ltac:(lia) ltac:(lia)) as (E & Fe). cbn [cd_config c_drift]. split; [exact Fe|]. rewrite E.
        change (bpow radix2 (-9)) with (/ 512)%R. change (bpow radix2 (-60)) with (/ 1152921504606846976)%R. change (bpow radix2 60) with 1152921504606846976%R. lra. }
      { assert (Go : forall i z a nuc, py_index bu_zs i = Ok z -> py_index bu_ms i = Ok a -> bu_data z a = Ok nuc -> 0 <= i < 6 ->
          (i = 2 /\ nuc = true) \/ (i = 5 /\ nuc = false) -> ready fexp bu_data bu_traj (electrons64 fexp bu_mass w (f_of_Z 0) al_normals) rows vertex bu_zs bu_ms cd_config i).
        { intros i z a nuc Ez Ea En Hi Hc. right. destruct (bu_go i nuc Hc vertex) as (track & Et). exists z, a, nuc, (bu_row i), track.
          split; [exact Ez|]. split; [exact Ea|]. split; [exact En|]. split; [now apply Pm|]. split; [exact Et|]. split.
          - intros t It. rewrite (proj1 (Tr _ _ _ Et t It)). split; [exact B0|]. split; [exact B0|]. right. exact Rt.
          - apply C89_countable; try assumption; [lia|lra|change (0 <= 10 <= 2 ^ 11); lia|]. eapply bu_usual, Et; lia. }
        rewrite Idx. intros i [<-|[<-|[<-|[]]]].
        - apply (Go 2 1 1 true); try reflexivity; [lia|]. left. auto.
        - left. reflexivity.
        - apply (Go 5 6 12 false); try reflexivity; [lia|]. right. auto. }
      exists rows, cloud, labels, rng'. split; [exact Ev|]. split; [rewrite Len; reflexivity|]. split; [exact E|]. split; [exact Gd|]. split; [exact Nr|]. split; [exact HU|]. split; [exact HN|].
      split; [|split].
      + intros p nuc track _ Et. split; [eapply bu_usual, Et; lia|]. intros t It. rewrite (proj1 (Tr _ _ _ Et t It)). intros s Es. right. cbn [r_x r_y r_time] in *.
        pose proof cd_sigma as S. assert (s = cd_width) by congruence. subst s. exact cd_resolved.
      + intros i z a nuc Ii Ez Nz Ea En. rewrite Idx in Ii.
        apply (f_equal (fun r => match r with Ok x => x | Err _ => false end)) in En. cbv beta match delta [bu_data] in En. subst nuc.
        split; [apply FZ; destruct (z =? 1); lia|].
        destruct Ii as [<-|[<-|[<-|[]]]].
        * change (py_index bu_zs 2) with (Ok 1) in Ez. assert (z = 1) by congruence. subst z. reflexivity.
        * change (py_index bu_zs 4) with (Ok 0) in Ez. congruence.
        * change (py_index bu_zs 5) with (Ok 6) in Ez. assert (z = 6) by congruence. subst z. change (Z.to_nat 5) with 5%nat.
          unfold event_masses, bu_ds, bu_ps. cbn [chain_masses app nth dm_res2]. unfold bu_mass. cbn [Z.eqb Pos.eqb]. rewrite !RZ by lia. lra.
      + intros hs A. rewrite Idx in A. change (filter (is_charged bu_zs) [2; 4; 5]) with [2; 5] in A.
        inversion A as [|? h1 ? l1 M1 A1]; subst. inversion A1 as [|? h2 ? l2 M2 A2]; subst. inversion A2; subst. clear A A1 A2.
        assert (Hist : forall i h, made fexp bu_data bu_traj rows vertex bu_zs bu_ms cd_config i h ->
          exists v g1 g2, h_track h = [mkTraj (f_of_Z 0) (f_of_Z 0) half v; mkTraj (f_of_Z 0) (f_of_Z 0) half (mkVec64 (f_of_Z 0) (f_of_Z 0) bu_slow)] /\ h_gs h = [g1; g2] /\
            forall z a, py_index bu_zs i = Ok z -> py_index bu_ms i = Ok a -> bu_data z a = Ok (h_nuc h)).
        { intros i h (z & a & p & Ez & _ & Ea & En & _ & Et & Lg & _). unfold bu_traj, generate_trajectory64 in Et. apply bu_tracks in Et as (Et & _).
          rewrite Et in Lg. destruct (h_gs h) as [|g1 [|g2 [|]]]; try discriminate Lg. eexists _, g1, g2. split; [exact Et|]. split; [reflexivity|].
          intros z' a' Ez' Ea'. congruence. }
        destruct (Hist 2 h1 M1) as (v1 & g1 & g2 & Et1 & Eg1 & N1). destruct (Hist 5 h2 M2) as (v2 & g3 & g4 & Et2 & Eg2 & N2).
        specialize (N1 1 1 eq_refl eq_refl). specialize (N2 6 12 eq_refl eq_refl).
        apply (f_equal (fun r => match r with Ok x => x | Err _ => false end)) in N1, N2. cbv beta match delta [bu_data] in N1, N2. cbn [Z.eqb Pos.eqb] in N1, N2.
        assert (Sl : forall (h : @history bool) g g' v, h_track h = [mkTraj (f_of_Z 0) (f_of_Z 0) half v; mkTraj (f_of_Z 0) (f_of_Z 0) half (mkVec64 (f_of_Z 0) (f_of_Z 0) bu_slow)] ->
          h_gs h = [g; g'] -> h_slack bu_mass w (f_of_Z 0) h = 4%R).
        { intros h g g' v X Y. unfold h_slack, slacks, exact_of. rewrite X, Y. cbn [map exact_electrons steps combine fst snd].
          unfold slack, P_Calor.sumR. cbn [fold_right]. rewrite Z0. rewrite !Rmult_0_l, sqrt_0. lra. }
        assert (S8 : P_Calor.total (h_slack bu_mass w (f_of_Z 0)) [h1; h2] = 8%R).
        { unfold P_Calor.total, P_Calor.sumR. cbn [map fold_right]. rewrite (Sl h1 _ _ _ Et1 Eg1), (Sl h2 _ _ _ Et2 Eg2). lra. }
        assert (R4 : P_Calor.total rows_of [h1; h2] = 4%R).
        { unfold P_Calor.total, P_Calor.sumR, rows_of. cbn [map fold_right]. rewrite Et1, Et2. cbn [length INR]. lra. }
        assert (Av : (835 / 10 <= available bu_r bu_ds (f_of_Z 100) (f_of_Z 5) bu_ps bu_mass rows bu_zs [h1; h2] <= 846 / 10)%R).
        { unfold available. rewrite Idx. change (filter (fun i => negb (is_charged bu_zs i)) [2; 4; 5]) with [4].
          unfold P_KinChain.total, P_Calor.total, P_Calor.sumR. cbn [map fold_right].
          assert (M2' : row_mass bu_r bu_ds (f_of_Z 5) bu_ps 2 = 938%R) by (unfold row_mass; change (Z.to_nat 2) with 2%nat; unfold event_masses; cbn [app nth bu_r rm_ejectile]; apply RZ; lia).
          assert (M4' : row_mass bu_r bu_ds (f_of_Z 5) bu_ps 4 = 938%R) by (unfold row_mass; change (Z.to_nat 4) with 4%nat; unfold event_masses, bu_ds, bu_ps; cbn [chain_masses app nth dm_res1]; apply RZ; lia).
          assert (M5' : row_mass bu_r bu_ds (f_of_Z 5) bu_ps 5 = 11170%R) by (unfold row_mass; change (Z.to_nat 5) with 5%nat; unfold event_masses, bu_ds, bu_ps; cbn [chain_masses app nth dm_res2]; rewrite !RZ by lia; lra).
          rewrite M2', M4', M5'. unfold row_energy. rewrite Row. pose proof bu_neutral as Ne.
          unfold bu_r. cbn [rm_projectile rm_target]. rewrite !RZ by lia.
          unfold end_energy. rewrite Et1, Et2, <- N1, <- N2. cbn [map last t_v].
          pose proof (bu_end true) as X1. pose proof (bu_end false) as X2. unfold bu_mass in X1, X2 |- *. rewrite !RZ in X1, X2 by lia. rewrite !RZ by lia. lra. }
        assert (Cn : Forall (contained_diff fexp nf_grid (packaged_edges fexp) cd_config) [h1; h2]).
        { assert (One : forall (h : @history bool) v, h_track h = [mkTraj (f_of_Z 0) (f_of_Z 0) half v; mkTraj (f_of_Z 0) (f_of_Z 0) half (mkVec64 (f_of_Z 0) (f_of_Z 0) bu_slow)] ->
            contained_diff fexp nf_grid (packaged_edges fexp) cd_config h).
          { intros h v X t It. rewrite X in It.
            assert (T1 : to_row fexp cd_config t = @mkRow (F64 fexp) (f_of_Z 0) (f_of_Z 0) (drift_time fexp cd_config half) /\ t_z t = half) by (destruct It as [<-|[<-|[]]]; split; reflexivity).
            destruct T1 as (-> & ->). split.
            - intros s Es. cbn [r_time r_x r_y] in *. pose proof cd_sigma as S. assert (s = cd_width) by congruence. subst s.
              replace (feqb cd_width (f_of_Z 0)) with false by (vm_compute; reflexivity).
              intros q Iq. apply lands_ok. now apply cd_pixels.
            - intros tb Hb. rewrite TB in Hb. assert (tb = 257) by congruence. lia. }
          constructor; [eapply One, Et1|]. constructor; [eapply One, Et2|constructor]. }
        auto.
  Qed.

  Lemma bu_tolerance : (0 <= tolerance 2 16384 bu_ds <= 4 / 100)%R.
  Proof.
    assert (TV : (0 <= tau_v 2 16384 <= / 100)%R) by (unfold tau_v; lra).
    unfold tolerance, bu_ds. cbn [length INR]. assert (P47 : (2 ^ 47 = 140737488355328)%R) by ring. rewrite P47. lra.
  Qed.

  Example C91_example : exists rows cloud labels rng', bu_event = Ok (Some rows) /\
    bu_sim 34 rows bu_vertex bu_zs bu_ms cd_config 0 (nuclei_to_sim None bu_zs) = Ok ((cloud, labels), rng') /\
    (24400000 <= P_Calor.sumR (map (fun p => R64 (p_el p)) cloud) <= 25000000)%R.
  Proof.
    destruct bu_reaction as (Ht & So & Ab & Op & Oc & Few).
    destruct (bu_setting 34 ltac:(lia)) as (rows & cloud & labels & rng' & Ev & Lz & E & Gd & Nr & HU & HN & Gw & Sm & Facts).
    destruct (C91_charge bu_sq bu_sin bu_cos 2 16384 mul_pow_ok mul_pow_all bu_trig ltac:(lra) ltac:(lra) ltac:(lra) Ht
      bu_r bu_ds (f_of_Z 100) (f_of_Z 0) (f_of_Z 0) (f_of_Z 5) bu_ps So Ab Op Oc Few fexp ideal_exp_near bu_data bu_mass bu_ivp 34 (f_of_Z 0) al_normals ex_uniform) as (rows' & Ev' & Main).
    unfold bu_event in Ev. assert (rows' = rows) by congruence. subst rows'.
    exists rows, cloud, labels, rng'. split; [exact Ev|]. split; [exact E|].
    assert (Z0 : R64 (f_of_Z 0) = 0%R) by (apply f_of_Z_R; lia).
    destruct (Main bu_vertex bu_zs bu_ms cd_config 0 nf_grid (packaged_edges fexp) cloud labels rng' Lz eq_refl eq_refl Gd Nr HU HN
        ltac:(lia) ltac:(apply f_of_Z_fin; lia) ltac:(lra) ltac:(cbn; lia) Gw (bu_slows _) Sm E) as (hs & A & B).
    destruct (Facts hs A) as (S8 & R4 & Av & Cn). pose proof bu_tolerance as To.
    cbv zeta in B. change (IZR (c_gain fexp cd_config)) with 10%R in B. rewrite S8, R4 in B.
    assert (P53 : (2 ^ 53 = 9007199254740992)%R) by ring. destruct B as (B1 & B2); [lra|]. specialize (B2 Cn). lra.
  Qed.
End Example.

Print Assumptions C91_start.
Print Assumptions C91_charge.
Print Assumptions C91_example.
