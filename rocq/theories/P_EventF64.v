(** P_EventF64.v -- C85: a whole event in binary64, from the masses and the sampled numbers alone. *)
From Coq Require Import ZArith Reals Lia Lra List.
From Flocq Require Import Core BinarySingleNaN.
From Verif Require Import Base F64 F64Bounds Nucleus Reaction SpecReaction ReactionProofs P_Reaction KinF64 P_KinF64 KinChain P_KinChain
  P_ElectronsF64 P_Allowed P_Shell.
Import ListNotations.
Local Open Scope R_scope.

(** The tolerance on a squared mass, for energies up to [E0]. *)
Definition tau (delta eps E0 : R) : R := (16 * delta + 64 * eps + / 2 ^ 44) * E0 ^ 2.
(** A vector library accurate at every parent of mass at least 1/2, of energy at most [E0] and of
    energy at most [g] times the mass. *)
Definition library (boost : v4 -> v4 -> v4) (rest_energy mass : v4 -> f64) (delta eps g E0 : R) : Prop :=
  forall p, finite_row p -> timelike (real p) -> / 2 <= rest_mass (real p) -> R64 (vE p) <= E0 -> R64 (vE p) <= g * rest_mass (real p) ->
    library_at boost rest_energy delta eps p /\
    is_finite (mass p) = true /\ Rabs (R64 (mass p) - rest_mass (real p)) <= delta * rest_mass (real p).
(** A break-up of mass [N] into [m1] and [m2] plus excitation, open by [gap], with angles in radians. *)
Definition open_ (g E0 gap N : R) (m1 m2 ex th ph : f64) : Prop :=
  is_finite m1 = true /\ is_finite m2 = true /\ is_finite ex = true /\ 1 <= R64 m1 /\ 1 <= R64 m2 + R64 ex /\ Rabs (R64 ex) <= E0 /\
  is_finite th = true /\ Rabs (R64 th) <= 8 /\ is_finite ph = true /\ Rabs (R64 ph) <= 8 /\
  R64 m1 + (R64 m2 + R64 ex) + gap <= N /\ E0 <= g * (N - 1).
Fixpoint open_chain (g E0 gap N : R) (ds : list decay_masses) (ps : list (f64 * f64 * f64)) : Prop :=
  match ds, ps with
  | [], _ => True
  | d :: ds', (ex, th, ph) :: ps' => open_ g E0 gap N (dm_res1 d) (dm_res2 d) ex th ph /\ open_chain g E0 gap (R64 (dm_res2 d) + R64 ex) ds' ps'
  | _ :: _, [] => False
  end.

(** A row of positive energy and mass [m]. *)
Definition product (t : R) (row : v4) (m : R) : Prop :=
  finite_row row /\ 0 < R64 (vE row) /\ Rabs (mdot (real row) (real row) - m ^ 2) <= t.
(** The rows of a chain of decays: the products of each decay have their masses and add up to the row before. *)
Fixpoint chain_rows (t E0 : R) (q : v4) (ds : list decay_masses) (ps : list (f64 * f64 * f64)) (l : list v4) : Prop :=
  match ds, ps, l with
  | [], _, [] => True
  | d :: ds', (ex, _, _) :: ps', v :: w :: l' =>
      product t v (R64 (dm_res1 d)) /\ product t w (R64 (dm_res2 d) + R64 ex) /\
      within (/ 2 ^ 50 * E0) (padd (real v) (real w)) (real q) /\ chain_rows t E0 w ds' ps' l'
  | _, _, _ => False
  end.

(** Target and projectile: masses at least 1, total energy below [E0] by 1. *)
Definition start_ok (E0 : R) (r : reaction_masses) (T : f64) : Prop :=
  is_finite (rm_target r) = true /\ is_finite (rm_projectile r) = true /\ is_finite T = true /\
  1 <= R64 (rm_target r) /\ 1 <= R64 (rm_projectile r) /\ / 2 ^ 12 <= R64 T /\
  R64 (rm_target r) + R64 (rm_projectile r) + R64 T + 1 <= E0.
(** The threshold that Reaction.calculate uses (see C40), cleared by [gap]. *)
Definition above_threshold (gap : R) (r : reaction_masses) (T ex : f64) : Prop :=
  let out := R64 (rm_ejectile r) + R64 (rm_residual r) in
  let q_value := R64 (rm_target r) + R64 (rm_projectile r) - (out + R64 ex) in
  1 <= out - R64 (rm_projectile r) /\ - q_value * out + gap <= R64 T * (out - R64 (rm_projectile r)).

Lemma sum3 (a b c : f64) B : is_finite a = true -> is_finite b = true -> is_finite c = true -> 1 <= B <= 2 ^ 20 ->
  Rabs (R64 a) <= B -> Rabs (R64 b) <= 2 * B -> Rabs (R64 c) <= B ->
  is_finite (fadd (fadd a b) c) = true /\ Rabs (R64 (fadd (fadd a b) c) - (R64 a + R64 b + R64 c)) <= 8 * (u * B).
Proof.
  intros Fa Fb Fc HB Ba Bb Bc. destruct small_facts as (U0 & U1 & T0 & T1). assert (P20 : 2 ^ 20 = 1048576) by ring. rewrite P20 in HB.
  assert (UB : u * 1 <= u * B) by (apply Rmult_le_compat_l; lra). assert (UB2 : u * B <= / 1000 * B) by (apply Rmult_le_compat_r; lra).
  assert (S1 : Rabs (R64 a + R64 b) <= 3 * B) by (apply Rabs_le_inv in Ba, Bb; apply Rabs_le; lra).
  destruct (fadd_fin a b 30 Fa Fb ltac:(lia)) as (E1 & F1); [change (b2 30) with 1073741824; lra|].
  pose proof (rnd_bound _ _ S1) as R1. rewrite <- E1 in R1.
  assert (S2 : Rabs (R64 (fadd a b) + R64 c) <= 401 / 100 * B) by (apply Rabs_le_inv in R1, S1, Bc; apply Rabs_le; lra).
  destruct (fadd_fin (fadd a b) c 30 F1 Fc ltac:(lia)) as (E2 & F2); [change (b2 30) with 1073741824; lra|].
  pose proof (rnd_bound _ _ S2) as R2. rewrite <- E2 in R2. split; [exact F2|]. apply Rabs_le_inv in R1, R2. apply Rabs_le. lra.
Qed.

Section Event.
  Context (sq sn cs : f64 -> f64) (boost : v4 -> v4 -> v4) (rest_energy mass : v4 -> f64).
  Context (Hsq : pow_ok sq) (Htr : trig_ok sn cs).
  Context (delta eps g E0 : R) (Hg : 1 <= g) (Hd : 0 <= delta <= / 1000000) (He : 0 <= eps <= / 1000000).
  Let t := tau delta eps E0.
  Context (H0 : 2 <= E0 <= 2 ^ 20) (Ht : t <= / 2) (Lib : library boost rest_energy mass delta eps g E0).

  Lemma tau_facts : 0 <= u * E0 ^ 2 /\ 0 <= delta * E0 ^ 2 /\ 512 * (u * E0 ^ 2) + 16 * (delta * E0 ^ 2) <= t /\
    u * E0 <= u * E0 ^ 2 / 2 /\ delta * E0 <= delta * E0 ^ 2 / 2.
  Proof using Hd He H0.
    destruct small_facts as (U0 & U1 & T0 & T1). assert (Q : 2 * E0 <= E0 ^ 2) by (replace (E0 ^ 2) with (E0 * E0) by ring; apply Rmult_le_compat_r; lra).
    assert (Z1 : 0 <= u * E0 ^ 2) by (apply Rmult_le_pos; lra). assert (Z2 : 0 <= delta * E0 ^ 2) by (apply Rmult_le_pos; lra). assert (Z3 : 0 <= eps * E0 ^ 2) by (apply Rmult_le_pos; lra).
    assert (u * (2 * E0) <= u * E0 ^ 2) by (apply Rmult_le_compat_l; lra). assert (delta * (2 * E0) <= delta * E0 ^ 2) by (apply Rmult_le_compat_l; lra).
    unfold t, tau. rewrite u_44. repeat split; lra.
  Qed.

  (** The mass of a parent row. *)
  Lemma parent_mass q N : product t q N -> 2 <= N -> let M := rest_mass (real q) in
    timelike (real q) /\ 1 <= M /\ M <= R64 (vE q) /\ Rabs (M - N) <= t / 3.
  Proof using Ht.
    intros (F & E & D) N2 M. apply Rabs_le_inv in D. assert (NN : 2 * 2 <= N * N) by (apply Rmult_le_compat; lra).
    assert (T : timelike (real q)) by (split; [lra|exact E]).
    destruct (sqrt_m _ T) as (Pm & Sm). fold (rest_mass (real q)) in Pm, Sm. fold M in Pm, Sm.
    destruct (comp_le _ T) as (_ & _ & Le).
    assert (M1 : 1 <= M). { rewrite <- (Rabs_pos_eq M), <- Rabs_R1 by lra. apply Rsqr_le_abs_0. unfold Rsqr. lra. }
    split; [exact T|]. split; [exact M1|]. split; [exact Le|].
    assert (Q : (M - N) * (M + N) = mdot (real q) (real q) - N ^ 2) by (rewrite <- Sm; ring).
    assert (Q2 : Rabs (M - N) * (M + N) <= t).
    { rewrite <- (Rabs_pos_eq (M + N)) by lra. rewrite <- Rabs_mult, Q. apply Rabs_le. lra. }
    pose proof (Rabs_pos (M - N)). assert (Rabs (M - N) * 3 <= Rabs (M - N) * (M + N)) by (apply Rmult_le_compat_l; lra). lra.
  Qed.

  Lemma break_up q N m1 m2 ex th ph : product t q N -> R64 (vE q) <= E0 -> N <= E0 -> open_ g E0 (2 * t) N m1 m2 ex th ph ->
    let vw := two_body sq sn cs boost rest_energy q m1 (fadd m2 ex) th ph in
    decay_allowed (mass q) m1 m2 ex = true /\
    product t (fst vw) (R64 m1) /\ product t (snd vw) (R64 m2 + R64 ex) /\ R64 (vE (snd vw)) <= E0 /\
    within (7 * (u * E0)) (padd (real (fst vw)) (real (snd vw))) (real q).
  Proof using Hsq Htr Hg Hd He H0 Ht Lib.
    intros Pq Eq N0 (F1 & F2 & F3 & P1 & P2 & Bx & Ft & Bt & Fp & Bp & Gap & HG).
    destruct small_facts as (U0 & U1 & T0 & T1). destruct tau_facts as (Z1 & Z2 & TF & UE & DE).
    destruct (parent_mass q N Pq ltac:(lra)) as (T & M1 & ME & MN). destruct Pq as (Fq & Eq0 & _).
    set (M := rest_mass (real q)) in *. assert (P20 : 2 ^ 20 = 1048576) by ring. assert (P30 : 2 ^ 30 = 1073741824) by ring.
    apply Rabs_le_inv in MN. assert (GM : g * (N - 1) <= g * M) by (apply Rmult_le_compat_l; lra).
    destruct (Lib q Fq T ltac:(fold M; lra) Eq ltac:(fold M; lra)) as (L & Fm & Dm). fold M in Dm. apply Rabs_le_inv in Dm.
    assert (MQ : M ^ 2 <= E0 ^ 2) by (apply pow_incr; lra). assert (EQ : R64 (vE q) ^ 2 <= E0 ^ 2) by (apply pow_incr; lra).
    assert (K1 : delta * M ^ 2 <= delta * E0 ^ 2) by (apply Rmult_le_compat_l; lra). assert (K2 : u * M ^ 2 <= u * E0 ^ 2) by (apply Rmult_le_compat_l; lra).
    assert (O : step_ok boost rest_energy delta eps q m1 m2 ex th ph).
    { unfold step_ok. cbv zeta. fold M. split; [exact L|]. split; [exact Hd|]. split; [exact He|]. split; [lra|]. split; [lra|].
      do 9 (split; [assumption|]). rewrite u_49.
      assert (K : (M - R64 m1 - (R64 m2 + R64 ex)) * 1 <= (M - R64 m1 - (R64 m2 + R64 ex)) * (R64 m2 + R64 ex)) by (apply Rmult_le_compat_l; lra). lra. }
    intros vw. destruct (two_body_masses sq sn cs boost rest_energy Hsq Htr _ _ _ _ _ _ _ _ O) as (Q1 & Q2). fold vw in Q1, Q2.
    destruct (second_mass _ _ _ _ _ _ _ _ _ _ O) as (Fs & Ps & _ & _ & HC). fold M in HC.
    assert (HM : M <= 1048576) by lra. assert (HE : qE (real q) <= 1073741824) by (change (qE (real q)) with (R64 (vE q)); lra).
    assert (TE : (16 * delta + 64 * eps + / 2 ^ 44) * R64 (vE q) ^ 2 <= t).
    { unfold t, tau. apply Rmult_le_compat_l; [|exact EQ]. rewrite u_44. lra. }
    destruct (body_energy sq sn cs boost rest_energy Hsq Htr q m1 (fadd m2 ex) th ph delta eps F1 Fs P1 Ps Ft Bt Fp Bp Hd He HM HE HC L ltac:(change (qE (real q)) with (R64 (vE q)); lra)) as (V0 & W0 & W1).
    destruct (body_sub sq sn cs boost rest_energy Hsq Htr q m1 (fadd m2 ex) th ph delta eps F1 Fs P1 Ps Ft Bt Fp Bp Hd He HM HE HC L) as (_ & (S1 & S2 & S3 & S4) & _).
    change (qE (real q)) with (R64 (vE q)) in *.
    split.
    - destruct (sum3 m1 m2 ex E0 F1 F2 F3 ltac:(lra)) as (Fsum & Dsum); try (apply Rabs_le_inv in Bx; apply Rabs_le; lra).
      unfold decay_allowed. set (c := fadd (fadd m1 m2) ex) in *. apply Rabs_le_inv in Dsum.
      assert (KM : delta * M <= delta * E0) by (apply Rmult_le_compat_l; lra).
      assert (UB : u * E0 <= / 1000 * E0) by (apply Rmult_le_compat_r; lra). assert (DB : delta * E0 <= / 1000 * E0) by (apply Rmult_le_compat_r; lra).
      destruct (fsub_fin (mass q) c 30 Fm Fsum ltac:(lia)) as (Ed & Fd).
      { change (b2 30) with 1073741824. apply Rabs_le. lra. }
      rewrite fltb_R by (try exact Fd; reflexivity). rewrite f_of_Z_R, Ed by lia. apply Rlt_bool_true.
      assert (SP : 0 < u * E0) by (apply Rmult_lt_0_compat; lra).
      apply (rnd_sub_pos (R64 (mass q)) (R64 c)); [apply fmt64_R|apply fmt64_R|lra].
    - unfold vw, two_body in Q1, Q2 |- *. cbv zeta in *. cbn [fst snd] in *.
      destruct Q1 as (FV & Q1), Q2 as (FW & Q2).
      split; [split; [exact FV|split; [exact V0|lra]]|]. split; [split; [exact FW|split; [exact W0|lra]]|]. split; [lra|].
      assert (UQ : u * R64 (vE q) <= u * E0) by (apply Rmult_le_compat_l; lra).
      assert (K : forall x y z, Rabs (y - (z - x)) <= 607 / 100 * (u * R64 (vE q)) -> Rabs (x + y - z) <= 7 * (u * E0)).
      { intros x y z H. assert (0 <= u * E0) by (apply Rmult_le_pos; lra). apply Rabs_le_inv in H. apply Rabs_le. lra. }
      exact (conj (K _ _ _ S1) (conj (K _ _ _ S2) (conj (K _ _ _ S3) (K _ _ _ S4)))).
  Qed.

  Lemma decays_run : forall ds ps q N, product t q N -> R64 (vE q) <= E0 -> N <= E0 -> open_chain g E0 (2 * t) N ds ps ->
    exists l, decays64 sq sn cs boost rest_energy mass ds ps q = Ok (Some l) /\ chain_rows t E0 q ds ps l.
  Proof using Hsq Htr Hg Hd He H0 Ht Lib.
    induction ds as [|d ds IH]; intros ps q N Pq Eq N0 O; [exists []; split; [reflexivity|exact I]|].
    destruct ps as [|[[ex th] ph] ps]; [destruct O|]. destruct O as (O & Oc).
    destruct (break_up q N (dm_res1 d) (dm_res2 d) ex th ph Pq Eq N0 O) as (Al & Pv & Pw & Ew & Wi).
    set (vw := two_body sq sn cs boost rest_energy q (dm_res1 d) (fadd (dm_res2 d) ex) th ph) in *.
    destruct tau_facts as (Z1 & Z2 & TF & UE & DE). destruct O as (_ & _ & _ & P1 & P2 & _ & _ & _ & _ & _ & Gap & _).
    destruct (IH ps (snd vw) (R64 (dm_res2 d) + R64 ex) Pw Ew ltac:(lra) Oc) as (l & Dl & Cl).
    exists (fst vw :: snd vw :: l). split.
    - cbn [decays64]. unfold decay_allowed64. rewrite Al. cbn [negb].
      destruct (C77_decay_calculated sq sn cs boost rest_energy mass d q th ph ex Al) as (x & Ex).
      rewrite Ex. assert (x = vw) as ->.
      { unfold decay_calculate64 in Ex. destruct (fltb _ _); [discriminate Ex|].
        apply (f_equal (fun r => match r with Ok y => y | Err _ => x end)) in Ex. symmetry. exact Ex. }
      cbn [bind]. rewrite Dl. cbn [bind]. reflexivity.
    - cbn [chain_rows]. split; [exact Pv|]. split; [exact Pw|]. split; [|exact Cl].
      destruct small_facts as (U0 & _). assert (0 <= u * E0) by (apply Rmult_le_pos; lra).
      destruct Wi as (W1 & W2 & W3 & W4). rewrite eight_u. repeat split; lra.
  Qed.

  (** The projectile row. *)
  Lemma beam_row r T : start_ok E0 r T ->
    let pz := fsqrt (fmul T (fadd T (fmul (f_of_Z 2) (rm_projectile r)))) in
    let ep := fadd T (rm_projectile r) in
    let k := R64 T in let mp := R64 (rm_projectile r) in
    is_finite pz = true /\ is_finite ep = true /\ rel 3 (R64 pz) (sqrt (k * (k + 2 * mp))) /\ rel 1 (R64 ep) (k + mp).
  Proof using Hd He H0.
    intros (Ft & Fp & Fk & Bt & Bp & Bk & Sm) pz ep k mp. fold k in Bk, Sm. fold mp in Bp, Sm.
    assert (P20 : 2 ^ 20 = 1048576) by ring. assert (I12 : / 2 ^ 12 = / 4096) by (f_equal; ring). pose proof H0 as H0'. rewrite P20 in H0'. rewrite I12 in Bk.
    assert (P30 : 2 ^ 30 = 1073741824) by ring.
    assert (T1000 : / 2 ^ 1000 <= / 2 ^ 30) by (apply inv_pow_le; lia). assert (I30 : / 2 ^ 30 = / 1073741824) by (f_equal; ring). rewrite I30 in T1000.
    destruct small_facts as (U0 & U1 & T0 & T1).
    assert (R2 : R64 (f_of_Z 2) = 2) by (apply f_of_Z_R; lia).
    destruct (fmul_fin (f_of_Z 2) (rm_projectile r) 30 ltac:(apply f_of_Z_fin; lia) Fp ltac:(lia)) as (Ea & Fa).
    { change (b2 30) with 1073741824. rewrite R2. fold mp. rewrite Rabs_pos_eq; lra. }
    rewrite R2 in Ea. fold mp in Ea. assert (Ra : rel 1 (R64 (fmul (f_of_Z 2) (rm_projectile r))) (2 * mp)) by (rewrite Ea; apply rel_rnd; lra).
    pose proof (rel_half 1 _ _ ltac:(lia) Ra) as Ha. set (a := fmul (f_of_Z 2) (rm_projectile r)) in *.
    destruct (fadd_fin T a 30 Fk Fa ltac:(lia)) as (Eb & Fb).
    { change (b2 30) with 1073741824. fold k. rewrite Rabs_pos_eq; lra. }
    fold k in Eb.
    assert (Rb : rel 2 (R64 (fadd T a)) (k + 2 * mp)).
    { rewrite Eb. apply (rel_trans 1 1) with (k + R64 a); [apply rel_rnd; lra|]. apply rel_add; [|exact Ra].
      apply rel_weak with 0%nat; [lia|]. apply rel_refl. lra. }
    pose proof (rel_half 2 _ _ ltac:(lia) Rb) as Hb. set (b := fadd T a) in *.
    set (P := k * (k + 2 * mp)).
    assert (PL : / 4096 * 2 <= P) by (unfold P; apply Rmult_le_compat; lra).
    assert (PU : k * R64 b <= 1048576 * 10000000) by (apply Rmult_le_compat; lra).
    assert (PU' : / 4096 * (1 / 2) <= k * R64 b) by (apply Rmult_le_compat; lra).
    destruct (fmul_fin T b 50 Fk Fb ltac:(lia)) as (Ec & Fc).
    { change (b2 50) with 1125899906842624. fold k. rewrite Rabs_pos_eq; lra. }
    fold k in Ec. assert (Rc : rel 3 (R64 (fmul T b)) P).
    { rewrite Ec. apply (rel_trans 1 2) with (k * R64 b); [apply rel_rnd; lra|].
      apply (rel_mul 0 2); [apply rel_refl; lra|exact Rb]. }
    set (c := fmul T b) in *. pose proof (rel_pos _ _ _ Rc) as Pc.
    destruct (fsqrt_fin c Fc Pc) as (Ez & Fz). fold pz in Ez, Fz.
    assert (SP : / 64 <= sqrt P).
    { replace (/ 64) with (sqrt (/ 64 * / 64)) by (apply sqrt_square; lra). apply sqrt_le_1_alt. lra. }
    assert (Rs : rel 2 (sqrt (R64 c)) (sqrt P)) by (apply rel_sqrt; apply rel_weak with 3%nat; [lia|exact Rc]).
    pose proof (rel_half 2 _ _ ltac:(lia) Rs) as Hs.
    destruct (fadd_fin T (rm_projectile r) 30 Fk Fp ltac:(lia)) as (Ee & Fe).
    { change (b2 30) with 1073741824. fold k mp. rewrite Rabs_pos_eq; lra. }
    fold k mp ep in Ee. fold ep in Fe.
    split; [exact Fz|]. split; [exact Fe|]. split.
    - rewrite Ez. apply (rel_trans 1 2) with (sqrt (R64 c)); [apply rel_rnd; lra|exact Rs].
    - rewrite Ee. apply rel_rnd. lra.
  Qed.

  Lemma abs_R0_le x : 0 <= x -> Rabs (0 - 0) <= x.
  Proof using Type. intros H. rewrite Rminus_0_r, Rabs_R0. exact H. Qed.

  (** Target, projectile and their sum. *)
  Lemma entrance r T : start_ok E0 r T ->
    let mt := R64 (rm_target r) in let mp := R64 (rm_projectile r) in let k := R64 T in
    let tv := mkV4 (f_of_Z 0) (f_of_Z 0) (f_of_Z 0) (rm_target r) in
    let pv := mkV4 (f_of_Z 0) (f_of_Z 0) (fsqrt (fmul T (fadd T (fmul (f_of_Z 2) (rm_projectile r))))) (fadd T (rm_projectile r)) in
    product t tv mt /\ product t pv mp /\ product t (vadd tv pv) (cm_total mt mp k) /\ R64 (vE (vadd tv pv)) <= E0 /\
    real tv = mkP4 0 0 0 mt /\ within (/ 2 ^ 50 * E0) (real pv) (mkP4 0 0 (sqrt (k * (k + 2 * mp))) (k + mp)) /\
    within (u * E0) (real (vadd tv pv)) (padd (real tv) (real pv)).
  Proof using Hd He H0 Ht.
    intros Ok mt mp k tv pv. destruct (beam_row r T Ok) as (Fz & Fe & Rz & Re). fold k mp in Rz, Re.
    destruct Ok as (Ft & Fp & Fk & Bt & Bp & Bk & Sm). fold mt in Bt, Sm. fold mp in Bp, Sm. fold k in Bk, Sm. pose proof (ip 12) as I12.
    assert (P20 : 2 ^ 20 = 1048576) by ring. destruct small_facts as (U0 & U1 & T0 & T1). destruct tau_facts as (Z1 & Z2 & TF & UE & DE).
    pose proof H0 as H0'. rewrite P20 in H0'.
    set (pz := fsqrt (fmul T (fadd T (fmul (f_of_Z 2) (rm_projectile r))))) in *. set (ep := fadd T (rm_projectile r)) in *.
    set (P := k * (k + 2 * mp)) in *.
    assert (P0 : 0 < P) by (unfold P; apply Rmult_lt_0_compat; lra).
    assert (S2 : sqrt P * sqrt P = P) by (apply sqrt_sqrt; lra).
    assert (Pe : P = (k + mp) * (k + mp) - mp * mp) by (unfold P; ring).
    assert (MP : 0 <= mp * mp) by (apply Rmult_le_pos; lra).
    assert (EE : (mt + (k + mp)) * (mt + (k + mp)) <= E0 * E0) by (apply Rmult_le_compat; lra).
    assert (EK : (k + mp) * (k + mp) <= E0 * E0) by (apply Rmult_le_compat; lra).
    replace (E0 ^ 2) with (E0 * E0) in * by ring. set (Q := E0 * E0) in *.
    assert (SE : sqrt P <= k + mp). { rewrite <- (sqrt_square (k + mp)) by lra. apply sqrt_le_1_alt. lra. }
    assert (SP : 0 <= sqrt P) by apply sqrt_pos.
    assert (UB2 : u * E0 <= / 1000 * E0) by (apply Rmult_le_compat_r; lra).
    pose proof (rel_pos _ _ _ Re) as Ep0. pose proof (rel_pos _ _ _ Rz) as Pz0.
    pose proof (rel_bounds 1 _ _ ltac:(lia) Re) as Xe. replace (INR 1 + 1) with 2 in Xe by (simpl; lra).
    pose proof (rel_bounds 3 _ _ ltac:(lia) Rz) as Xz. replace (INR 3 + 1) with 4 in Xz by (simpl; lra).
    pose proof (rel_bounds 2 _ _ ltac:(lia) (rel_mul 1 1 _ _ _ _ Re Re)) as Xe2. replace (INR 2 + 1) with 3 in Xe2 by (simpl; lra).
    pose proof (rel_bounds 6 _ _ ltac:(lia) (rel_mul 3 3 _ _ _ _ Rz Rz)) as Xz2. replace (INR 6 + 1) with 7 in Xz2 by (simpl; lra). rewrite S2 in Xz2.
    assert (uK : u * (k + mp) <= u * E0) by (apply Rmult_le_compat_l; lra). assert (uS : u * sqrt P <= u * E0) by (apply Rmult_le_compat_l; lra).
    assert (uS0 : 0 <= u * sqrt P) by (apply Rmult_le_pos; lra). assert (uK0 : 0 <= u * (k + mp)) by (apply Rmult_le_pos; lra).
    assert (uKK : u * ((k + mp) * (k + mp)) <= u * Q) by (apply Rmult_le_compat_l; lra). assert (uP : u * P <= u * Q) by (apply Rmult_le_compat_l; lra).
    assert (uKK0 : 0 <= u * ((k + mp) * (k + mp))) by (apply Rmult_le_pos; [lra|apply Rmult_le_pos; lra]). assert (uP0 : 0 <= u * P) by (apply Rmult_le_pos; lra).
    (* the sum *)
    destruct (fadd_fin (rm_target r) ep 30 Ft Fe ltac:(lia)) as (Es & Fs).
    { change (b2 30) with 1073741824. fold mt. rewrite Rabs_pos_eq; lra. }
    fold mt in Es.
    assert (Rs : rel 2 (R64 (fadd (rm_target r) ep)) (mt + (k + mp))).
    { rewrite Es. apply (rel_trans 1 1) with (mt + R64 ep); [apply rel_rnd; pose proof (inv_pow_le 0 1000 ltac:(lia)) as I; simpl pow at 2 in I; lra|].
      apply rel_add; [apply rel_weak with 0%nat; [lia|apply rel_refl; lra]|exact Re]. }
    pose proof (rel_pos _ _ _ Rs) as Ps0.
    pose proof (rel_bounds 2 _ _ ltac:(lia) Rs) as Xs. replace (INR 2 + 1) with 3 in Xs by (simpl; lra).
    pose proof (rel_bounds 4 _ _ ltac:(lia) (rel_mul 2 2 _ _ _ _ Rs Rs)) as Xs2. replace (INR 4 + 1) with 5 in Xs2 by (simpl; lra).
    assert (uM : u * (mt + (k + mp)) <= u * E0) by (apply Rmult_le_compat_l; lra). assert (uM0 : 0 <= u * (mt + (k + mp))) by (apply Rmult_le_pos; lra).
    assert (uMM : u * ((mt + (k + mp)) * (mt + (k + mp))) <= u * Q) by (apply Rmult_le_compat_l; lra).
    assert (uMM0 : 0 <= u * ((mt + (k + mp)) * (mt + (k + mp)))) by (apply Rmult_le_pos; [lra|apply Rmult_le_pos; lra]).
    assert (Fz0 : is_finite (f_of_Z 0) = true) by reflexivity. assert (Rz0 : R64 (f_of_Z 0) = 0) by reflexivity.
    assert (B0 : forall x : f64, is_finite x = true -> Rabs (R64 x) <= 1073741824 -> is_finite (fadd (f_of_Z 0) x) = true /\ R64 (fadd (f_of_Z 0) x) = R64 x).
    { intros x Fx Bx. destruct (fadd_fin (f_of_Z 0) x 30 Fz0 Fx ltac:(lia)) as (E1 & F1); [rewrite Rz0, Rplus_0_l; exact Bx|].
      split; [exact F1|]. rewrite E1, Rz0, Rplus_0_l. apply rnd64_fmt. apply fmt64_R. }
    destruct (B0 _ Fz0 ltac:(rewrite Rz0, Rabs_R0; lra)) as (F00 & R00).
    destruct (B0 _ Fz ltac:(rewrite Rabs_pos_eq; lra)) as (F0z & R0z).
    rewrite Rz0 in R00.
    assert (RT : real tv = mkP4 0 0 0 mt) by (unfold real, tv; cbn [vx vy vz vE]; reflexivity).
    assert (RP : real pv = mkP4 0 0 (R64 pz) (R64 ep)) by (unfold real, pv; cbn [vx vy vz vE]; reflexivity).
    assert (RS : real (vadd tv pv) = mkP4 0 0 (R64 pz) (R64 (fadd (rm_target r) ep))).
    { unfold real, tv, pv, vadd. cbn [vx vy vz vE]. rewrite R0z, R00. reflexivity. }
    destruct (cm_total_facts mt mp k ltac:(lra) ltac:(lra) ltac:(lra)) as (CB & CM).
    split; [|split; [|split; [|split; [|split; [|split]]]]].
    - split; [intros c [<-|[<-|[<-|[<-|[]]]]]; assumption || reflexivity|]. split; [cbn [vE tv]; fold mt; lra|].
      rewrite RT. unfold mdot. cbn [qx qy qz qE]. replace (_ - _) with 0 by ring. rewrite Rabs_R0. lra.
    - split; [intros c [<-|[<-|[<-|[<-|[]]]]]; assumption || reflexivity|]. split; [cbn [vE pv]; exact Ep0|].
      rewrite RP. unfold mdot. cbn [qx qy qz qE]. apply Rabs_le. lra.
    - split; [intros c [<-|[<-|[<-|[<-|[]]]]]; cbn [vadd tv pv vx vy vz vE]; assumption|]. split; [cbn [vadd tv pv vE]; exact Ps0|].
      rewrite RS. unfold mdot. cbn [qx qy qz qE].
      replace (cm_total mt mp k ^ 2) with (cm_total mt mp k * cm_total mt mp k) by ring. rewrite CM. fold P.
      replace (mt + k + mp) with (mt + (k + mp)) by ring. apply Rabs_le. lra.
    - cbn [vadd tv pv vE]. lra.
    - exact RT.
    - rewrite RP. rewrite eight_u. repeat split; cbn [qx qy qz qE]; try (apply abs_R0_le; lra); apply Rabs_le; lra.
    - rewrite RS, RT, RP. cbn [padd qx qy qz qE]. assert (UE0 : 0 <= u * E0) by lra.
      repeat split; cbn [padd qx qy qz qE]; rewrite ?Rplus_0_l; try (apply abs_R0_le; exact UE0).
      + replace (R64 pz - R64 pz) with 0 by ring. rewrite Rabs_R0. exact UE0.
      + rewrite Es. eapply Rle_trans; [apply rnd_bound; rewrite Rabs_pos_eq; [|lra]; apply Rle_refl|].
        assert (u * (mt + R64 ep) <= u * (E0 - / 2)) by (apply Rmult_le_compat_l; lra). lra.
  Qed.

  Lemma reaction_open r T ex th ph : start_ok E0 r T ->
    open_ g E0 (2 * t) (cm_total (R64 (rm_target r)) (R64 (rm_projectile r)) (R64 T)) (rm_ejectile r) (rm_residual r) ex th ph ->
    reaction_allowed64 sq r T ex = true.
  Proof using Hsq Hd He H0.
    intros (Ft & Fp & Fk & Bt & Bp & Bk & Sm) (F1 & F2 & F3 & P1 & P2 & Bx & _ & _ & _ & _ & Gap & _).
    set (mt := R64 (rm_target r)) in *. set (mp := R64 (rm_projectile r)) in *. set (k := R64 T) in *.
    destruct tau_facts as (Z1 & Z2 & TF & UE & DE). destruct small_facts as (U0 & U1 & T0 & T1). pose proof (ip 12) as I12.
    destruct (e_cm_close sq r T Hsq) as (Fe & Ce); try (split; [assumption|]); fold mt mp k; try lra.
    cbv zeta in Ce. fold mt mp k in Ce.
    destruct (cm_total_facts mt mp k ltac:(lra) ltac:(lra) ltac:(lra)) as (CB & _). set (cm := cm_total mt mp k) in *.
    destruct (sum3 (rm_ejectile r) (rm_residual r) ex E0 F1 F2 F3 ltac:(lra)) as (Fs & Ds); try (apply Rabs_le_inv in Bx; apply Rabs_le; lra).
    unfold reaction_allowed64. cbv zeta. rewrite fltb_R by assumption. apply Rlt_bool_true.
    assert (EE : (mt + k + mp) * (mt + k + mp) <= E0 * E0) by (apply Rmult_le_compat; lra). replace (E0 * E0) with (E0 ^ 2) in EE by ring.
    assert (G : (mt + k + mp) * (mt + k + mp) / cm <= E0 ^ 2 / 2).
    { apply div_le; [lra|]. assert (0 <= E0 ^ 2) by (apply pow_le; lra). assert (E0 ^ 2 / 2 * 2 <= E0 ^ 2 / 2 * cm) by (apply Rmult_le_compat_l; lra). lra. }
    apply Rmult_le_compat_l with (r := 24 * u) in G; [|lra]. assert (SP : 0 < u * E0) by (apply Rmult_lt_0_compat; lra).
    apply Rabs_le_inv in Ce, Ds. lra.
  Qed.

  Lemma guard_passes r T ex : start_ok E0 r T ->
    is_finite (rm_ejectile r) = true -> is_finite (rm_residual r) = true -> is_finite ex = true -> 1 <= R64 (rm_ejectile r) -> 1 <= R64 (rm_residual r) + R64 ex ->
    R64 (rm_ejectile r) + (R64 (rm_residual r) + R64 ex) <= E0 -> Rabs (R64 ex) <= E0 -> above_threshold t r T ex ->
    let out := fadd (rm_ejectile r) (rm_residual r) in
    let q_value := fsub (fadd (rm_target r) (rm_projectile r)) (fadd out ex) in
    let den := fsub out (rm_projectile r) in
    feqb den (f_of_Z 0) = false /\ fltb T (fdiv (fmul (Bopp q_value) out) den) = false.
  Proof using Hd He H0.
    intros (Ft & Fp & Fk & Bt & Bp & Bk & Sm) F1 F2 F3 P1 P2 Se Bx (D1 & Th) out q_value den.
    set (mt := R64 (rm_target r)) in *. set (mp := R64 (rm_projectile r)) in *. set (k := R64 T) in *.
    set (me := R64 (rm_ejectile r)) in *. set (mr := R64 (rm_residual r)) in *. set (x := R64 ex) in *.
    destruct tau_facts as (Z1 & Z2 & TF & UE & DE). destruct small_facts as (U0 & U1 & T0 & T1). pose proof (ip 12) as I12.
    assert (P20 : 2 ^ 20 = 1048576) by ring. pose proof H0 as H0'. rewrite P20 in H0'.
    assert (UB : u * E0 <= / 1000 * E0) by (apply Rmult_le_compat_r; lra). assert (U2 : u * 2 <= u * E0) by (apply Rmult_le_compat_l; lra).
    assert (U6 : u * E0 <= / 1000000).
    { apply Rle_trans with (/ 1000000000000000 * 1048576); [apply Rmult_le_compat; lra|lra]. }
    assert (ET : eta <= u * E0 / 100) by lra. apply Rabs_le_inv in Bx.
    assert (A : forall (a b : f64) va vb B c, is_finite a = true -> is_finite b = true -> Rabs (va + vb) <= B * E0 -> 0 <= B <= 100 -> Rabs (R64 a + R64 b - (va + vb)) <= c * (u * E0) -> 0 <= c <= 100 ->
      is_finite (fadd a b) = true /\ Rabs (R64 (fadd a b) - (va + vb)) <= (c + B + / 10) * (u * E0)).
    { intros a b va vb B c Fa Fb HB B0 HD C0. assert (CU : c * (u * E0) <= 100 * / 1000000) by (apply Rmult_le_compat; lra).
      assert (BE : B * E0 <= 100 * 1048576) by (apply Rmult_le_compat; lra).
      assert (Sz : Rabs (R64 a + R64 b) <= B * E0 + / 1000) by (apply Rabs_le_inv in HB, HD; apply Rabs_le; lra).
      destruct (fadd_fin a b 30 Fa Fb ltac:(lia)) as (E1 & G1); [change (b2 30) with 1073741824; lra|].
      split; [exact G1|]. pose proof (rnd_bound _ _ Sz) as R1. rewrite <- E1 in R1.
      assert (X : u * (B * E0) = B * (u * E0)) by ring. apply Rabs_le_inv in R1, HD. apply Rabs_le. lra. }
    assert (S : forall (a b : f64) va vb B c, is_finite a = true -> is_finite b = true -> Rabs (va - vb) <= B * E0 -> 0 <= B <= 100 -> Rabs (R64 a - R64 b - (va - vb)) <= c * (u * E0) -> 0 <= c <= 100 ->
      is_finite (fsub a b) = true /\ Rabs (R64 (fsub a b) - (va - vb)) <= (c + B + / 10) * (u * E0)).
    { intros a b va vb B c Fa Fb HB B0 HD C0. assert (CU : c * (u * E0) <= 100 * / 1000000) by (apply Rmult_le_compat; lra).
      assert (BE : B * E0 <= 100 * 1048576) by (apply Rmult_le_compat; lra).
      assert (Sz : Rabs (R64 a - R64 b) <= B * E0 + / 1000) by (apply Rabs_le_inv in HB, HD; apply Rabs_le; lra).
      destruct (fsub_fin a b 30 Fa Fb ltac:(lia)) as (E1 & G1); [change (b2 30) with 1073741824; lra|].
      split; [exact G1|]. pose proof (rnd_bound _ _ Sz) as R1. rewrite <- E1 in R1.
      assert (X : u * (B * E0) = B * (u * E0)) by ring. apply Rabs_le_inv in R1, HD. apply Rabs_le. lra. }
    assert (Z0 : forall y, Rabs (y - y) <= 0 * (u * E0)) by (intros y; rewrite Rminus_eq_0, Rabs_R0; lra).
    destruct (A (rm_ejectile r) (rm_residual r) me mr 3 0 F1 F2 ltac:(apply Rabs_le; lra) ltac:(lra) (Z0 _) ltac:(lra)) as (Fo & Do). fold out in Fo, Do.
    destruct (A (rm_target r) (rm_projectile r) mt mp 1 0 Ft Fp ltac:(apply Rabs_le; lra) ltac:(lra) (Z0 _) ltac:(lra)) as (Fi & Di).
    destruct (A out ex (me + mr) x 1 4 Fo F3 ltac:(apply Rabs_le; lra) ltac:(lra) ltac:(fold x; apply Rabs_le_inv in Do; apply Rabs_le; lra) ltac:(lra)) as (Fx & Dx).
    destruct (S (fadd (rm_target r) (rm_projectile r)) (fadd out ex) (mt + mp) (me + mr + x) 1 7 Fi Fx ltac:(apply Rabs_le; lra) ltac:(lra) ltac:(apply Rabs_le_inv in Di, Dx; apply Rabs_le; lra) ltac:(lra)) as (Fq & Dq).
    fold q_value in Fq, Dq.
    destruct (S out (rm_projectile r) (me + mr) mp 3 4 Fo Fp ltac:(apply Rabs_le; lra) ltac:(lra) ltac:(fold mp; apply Rabs_le_inv in Do; apply Rabs_le; lra) ltac:(lra)) as (Fd & Dd).
    fold den in Fd, Dd. set (Q := mt + mp - (me + mr + x)) in *. set (O := me + mr) in *.
    assert (BQ : Rabs Q <= E0) by (unfold Q, O; apply Rabs_le; lra). assert (BO : Rabs O <= 3 * E0) by (unfold O; apply Rabs_le; lra).
    apply Rabs_le_inv in Dd.
    assert (Den : / 2 <= R64 den) by lra.
    assert (Fop : is_finite (Bopp q_value) = true) by (rewrite is_finite_Bopp; exact Fq). assert (Rop : R64 (Bopp q_value) = - R64 q_value) by apply B2R_Bopp.
    (* the product *)
    set (UQ := u * E0 ^ 2) in *.
    assert (PD : Rabs (- R64 q_value * R64 out - - Q * O) <= 40 * UQ).
    { replace (- R64 q_value * R64 out - - Q * O) with (- ((R64 q_value - Q) * (O + (R64 out - O)) + Q * (R64 out - O))) by ring. rewrite Rabs_Ropp.
      assert (X1 : Rabs (O + (R64 out - O)) <= 301 / 100 * E0) by (apply Rabs_le_inv in BO, Do; apply Rabs_le; lra).
      pose proof (abs_mul _ _ _ _ Dq X1) as M1. pose proof (abs_mul _ _ _ _ BQ Do) as M2.
      apply Rle_trans with ((7 + 1 + / 10) * (u * E0) * (301 / 100 * E0) + E0 * ((0 + 3 + / 10) * (u * E0))); [apply abs_add; assumption|].
      replace ((7 + 1 + / 10) * (u * E0) * (301 / 100 * E0) + E0 * ((0 + 3 + / 10) * (u * E0))) with (((7 + 1 + / 10) * (301 / 100) + (3 + / 10)) * UQ) by (unfold UQ; field). lra. }
    pose proof (abs_mul _ _ _ _ BQ BO) as BP. assert (UQ1 : UQ <= / 50).
    { unfold UQ. replace (u * E0 ^ 2) with (u * E0 * E0) by ring. assert (u * E0 * E0 <= / 100000000 * 1048576); [|lra].
      apply Rmult_le_compat; try lra. apply Rle_trans with (/ 1000000000000000 * 1048576); [apply Rmult_le_compat; lra|lra]. }
    assert (E2 : E0 * E0 <= 1048576 * 1048576) by (apply Rmult_le_compat; lra).
    assert (PB : Rabs (- R64 q_value * R64 out) <= 3 * (E0 * E0) + 1).
    { rewrite Rabs_mult in BP. assert (X : Rabs (- Q * O) <= 3 * (E0 * E0)) by (rewrite Rabs_mult, Rabs_Ropp; lra).
      apply Rabs_le_inv in PD, X. apply Rabs_le. lra. }
    destruct (fmul_fin (Bopp q_value) out 60 Fop Fo ltac:(lia)) as (En & Fn).
    { rewrite Rop. change (b2 60) with 1152921504606846976. lra. }
    rewrite Rop in En. pose proof (rnd_bound _ _ PB) as Rn. rewrite <- En in Rn.
    assert (UQE : u * (3 * (E0 * E0) + 1) <= 4 * UQ). { unfold UQ. assert (E4 : 2 * 2 <= E0 * E0) by (apply Rmult_le_compat; lra). apply Rle_trans with (u * (4 * (E0 * E0))); [apply Rmult_le_compat_l; lra|right; ring]. }
    set (num := fmul (Bopp q_value) out) in *.
    assert (KD : k * (O - mp) - k * R64 den <= 8 * UQ).
    { replace (k * (O - mp) - k * R64 den) with (k * (O - mp - R64 den)) by ring. apply Rle_trans with (E0 * (8 * (u * E0))); [|unfold UQ; right; ring].
      apply Rle_trans with (k * (8 * (u * E0))); [apply Rmult_le_compat_l; lra|apply Rmult_le_compat_r; lra]. }
    assert (Le : R64 num <= k * R64 den) by (apply Rabs_le_inv in PD, Rn; lra).
    split.
    - destruct (feqb den (f_of_Z 0)) eqn:Q0; [|reflexivity]. exfalso. rewrite feqb_R in Q0 by (try exact Fd; reflexivity).
      rewrite f_of_Z_R in Q0 by lia. destruct (Req_bool_spec (R64 den) 0) as [Z|Z]; [lra|discriminate Q0].
    - destruct (fdiv_fin num den 62 Fn ltac:(lra) ltac:(lia)) as (Eq & Fdv).
      { unfold Rdiv. rewrite Rabs_mult, Rabs_inv, (Rabs_pos_eq (R64 den)) by lra. apply div_le; [lra|].
        change (b2 62) with 4611686018427387904. apply Rabs_le_inv in Rn, PB. apply Rabs_le. lra. }
      rewrite fltb_R by assumption. apply Rlt_bool_false. rewrite Eq. apply rnd64_le_fmt; [apply fmt64_R|]. apply div_le; [lra|exact Le].
  Qed.

  (** C85: whenever reaction and decays are open by twice the tolerance, the calculation of the event
      neither raises nor samples again, and its rows are finite, have their masses and conserve four-momentum. *)
  Theorem C85_event r ds T th ph ex ps : start_ok E0 r T -> above_threshold t r T ex ->
    open_ g E0 (2 * t) (cm_total (R64 (rm_target r)) (R64 (rm_projectile r)) (R64 T)) (rm_ejectile r) (rm_residual r) ex th ph ->
    open_chain g E0 (2 * t) (R64 (rm_residual r) + R64 ex) ds ps ->
    let k := R64 T in let mp := R64 (rm_projectile r) in
    exists tv pv ev qv l, event64 sq sn cs boost rest_energy mass r ds T th ph ex ps = Ok (Some (tv :: pv :: ev :: qv :: l)) /\
      finite_row tv /\ real tv = mkP4 0 0 0 (R64 (rm_target r)) /\
      within (/ 2 ^ 50 * E0) (real pv) (mkP4 0 0 (sqrt (k * (k + 2 * mp))) (k + mp)) /\ product t pv mp /\
      product t ev (R64 (rm_ejectile r)) /\ product t qv (R64 (rm_residual r) + R64 ex) /\
      within (/ 2 ^ 50 * E0) (padd (real ev) (real qv)) (padd (real tv) (real pv)) /\
      chain_rows t E0 qv ds ps l.
  Proof using Hsq Htr Hg Hd He H0 Ht Lib.
    intros So Ab Op Oc k mp. pose proof (reaction_open r T ex th ph So Op) as Al.
    destruct (entrance r T So) as (Pt & Pp & Ps & Es & Rt & Wp & Ws). fold k mp in Wp.
    destruct tau_facts as (Z1 & Z2 & TF & UE & DE). pose proof Op as (F1 & F2 & F3 & P1 & P2 & Bx & _ & _ & _ & _ & Gap & _).
    pose proof So as (_ & _ & _ & Bt & Bp & Bk & Sm). pose proof (ip 12) as I12.
    destruct (cm_total_facts (R64 (rm_target r)) (R64 (rm_projectile r)) (R64 T) ltac:(lra) ltac:(lra) ltac:(lra)) as (CB & _).
    destruct (guard_passes r T ex So F1 F2 F3 P1 P2 ltac:(lra) Bx Ab) as (G1 & G2).
    unfold event64, reaction_calculate64. rewrite Al. cbn [negb]. cbv zeta in G1, G2. cbv zeta. rewrite G1, G2.
    set (tv := mkV4 (f_of_Z 0) (f_of_Z 0) (f_of_Z 0) (rm_target r)) in *.
    set (pv := mkV4 (f_of_Z 0) (f_of_Z 0) (fsqrt (fmul T (fadd T (fmul (f_of_Z 2) (rm_projectile r))))) (fadd T (rm_projectile r))) in *.
    destruct (break_up (vadd tv pv) _ _ _ _ _ _ Ps Es ltac:(lra) Op) as (_ & Pe & Pq & Eq & Wi).
    destruct (two_body sq sn cs boost rest_energy (vadd tv pv) (rm_ejectile r) (fadd (rm_residual r) ex) th ph) as (ev & qv).
    cbn [fst snd] in Pe, Pq, Eq, Wi. cbn [bind].
    destruct (decays_run ds ps qv _ Pq Eq ltac:(lra) Oc) as (l & Dl & Cl). rewrite Dl. cbn [bind].
    exists tv, pv, ev, qv, l. split; [reflexivity|]. split; [exact (proj1 Pt)|]. split; [exact Rt|]. split; [exact Wp|]. split; [exact Pp|]. split; [exact Pe|]. split; [exact Pq|].
    split; [|exact Cl].
    assert (K : forall x y z, Rabs (x - y) <= 7 * (u * E0) -> Rabs (y - z) <= u * E0 -> Rabs (x - z) <= / 2 ^ 50 * E0).
    { intros x y z A B. rewrite eight_u. apply Rabs_le_inv in A, B. apply Rabs_le. lra. }
    destruct Wi as (W1 & W2 & W3 & W4), Ws as (V1 & V2 & V3 & V4).
    exact (conj (K _ _ _ W1 V1) (conj (K _ _ _ W2 V2) (conj (K _ _ _ W3 V3) (K _ _ _ W4 V4)))).
  Qed.
End Event.

(** The correctly rounded library of P_Shell.v, and 12C on deuterons at 100 MeV, (d,p) followed by the emission of a nucleon (rounded masses). *)
Lemma C85_library g E0 : E0 <= 2 ^ 30 -> library boost_r rest_r rest_r (/ 2 ^ 50) (/ 2 ^ 49) g E0.
Proof.
  intros B p F T M1 E _. assert (Le : R64 (vE p) <= 2 ^ 30) by lra. pose proof (C84_library p F T M1 Le) as L. split; [exact L|].
  destruct L as (_ & _ & Fr & Dr & _). split; assumption.
Qed.

Example C85_example :
  let r := mkRM (f_of_Z 1876) (f_of_Z 11178) (f_of_Z 938) (f_of_Z 12110) in
  let ds := [mkDM (f_of_Z 938) (f_of_Z 11170)] in
  let ps := [(f_of_Z 3, f_of_Z 2, f_of_Z 1)] in
  exists rows, event64 (fun x => fmul x x) sin_r cos_r boost_r rest_r rest_r r ds (f_of_Z 100) (f_of_Z 1) (f_of_Z 2) (f_of_Z 5) ps = Ok (Some rows) /\
    length rows = 6%nat /\ Forall finite_row rows /\
    Rabs (mdot (real (nth 5 rows vzero)) (real (nth 5 rows vzero)) - 11173 ^ 2) <= / 10000.
Proof.
  intros r ds ps. set (E0 := 16384).
  assert (RZ : forall n, (Z.abs n <= 2 ^ 53)%Z -> R64 (f_of_Z n) = IZR n) by (intros n N; apply f_of_Z_R; exact N).
  assert (FZ : forall n, (Z.abs n <= 2 ^ 53)%Z -> is_finite (f_of_Z n) = true) by (intros n N; apply f_of_Z_fin; exact N).
  assert (TV : 0 <= tau (/ 2 ^ 50) (/ 2 ^ 49) E0 <= / 10000) by (unfold tau, E0; lra).
  assert (CM : 13060 <= cm_total 1876 11178 100).
  { unfold cm_total. rewrite <- (sqrt_square 13060) by lra. apply sqrt_le_1_alt. lra. }
  destruct (C85_event (fun x => fmul x x) sin_r cos_r boost_r rest_r rest_r mul_pow_ok trig_rounded (/ 2 ^ 50) (/ 2 ^ 49) E0 E0
    ltac:(unfold E0; lra) ltac:(lra) ltac:(lra) ltac:(unfold E0; lra) ltac:(lra) (C85_library E0 E0 ltac:(unfold E0; lra)) r ds (f_of_Z 100) (f_of_Z 1) (f_of_Z 2) (f_of_Z 5) ps)
    as (tv & pv & ev & qv & l & Ev & Ft & Rt & Wp & Pp & Pe & Pq & Wi & Cl).
  - unfold start_ok, r. cbn [rm_target rm_projectile]. rewrite !FZ, !RZ by lia. unfold E0. repeat split; lra.
  - unfold above_threshold, r. cbn [rm_target rm_projectile rm_ejectile rm_residual]. cbv zeta. rewrite !RZ by lia. split; lra.
  - unfold open_, r. cbn [rm_target rm_projectile rm_ejectile rm_residual]. rewrite !FZ, !RZ by lia. unfold E0 in *.
    repeat split; try lra; rewrite Rabs_pos_eq; lra.
  - unfold r, ds, ps. cbn [open_chain rm_residual dm_res1 dm_res2]. split; [|exact I]. unfold open_. rewrite !FZ, !RZ by lia. unfold E0 in *.
    repeat split; try lra; rewrite Rabs_pos_eq; lra.
  - exists (tv :: pv :: ev :: qv :: l). split; [exact Ev|]. unfold ds, ps in Cl. cbn [chain_rows] in Cl.
    destruct l as [|v [|w l]]; [destruct Cl|destruct Cl|]. destruct Cl as (Pv & Pw & _ & Cl). destruct l as [|x l]; [|destruct Cl].
    split; [reflexivity|]. split.
    + repeat constructor; try assumption; first [apply Pp|apply Pe|apply Pq|apply Pv|apply Pw].
    + cbn [nth]. destruct Pw as (_ & _ & Pw). cbn [dm_res2] in Pw. rewrite !RZ in Pw by lia.
      replace (11170 + 3) with 11173 in Pw by ring. lra.
Qed.

Print Assumptions C85_event.
Print Assumptions C85_example.
