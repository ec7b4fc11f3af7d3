(** P_Script.v -- C93: generating a kinematics file and simulating it, in binary64, never fails. *)
From Coq Require Import ZArith Reals Lia Lra List String.
From Flocq Require Import Core BinarySingleNaN.
From Verif Require Import Base F64 F64Bounds Num Nucleus Reaction SpecReaction ReactionProofs P_Reaction PipelineProofs KinF64 P_KinF64 KinChain P_KinChain
  ElectronsF64 P_ElectronsF64 P_Allowed Sampling SamplingF64 P_SamplingF64 P_Shell P_EventF64 VectorF64 P_VectorF64
  Pairing BeamPads Transporter SpecTransport TransportProofs PositionProofs TransportF64 P_TransportF64 Simulator SpecSim P_Simulator KinFile SpecKinFile P_KinFile
  SpecRun P_RunSim Response Writer SpecWriter P_Writer P_Cloud Parameters P_Parameters P_Detect P_Complete P_Calor P_NeverFails
  P_Budget StartF64 RunF64 P_RunF64.
Import ListNotations.
Local Open Scope R_scope.

(** ** The first row of a track *)

(** Components of at most [B] MeV/c, at least 1 keV/c in all (the solver stops nuclei below 1 keV, more than 1 MeV/c). *)
Definition bounded_row (B : R) (v : v4) : Prop :=
  finite_row v /\ Rabs (R64 (vx v)) <= B /\ Rabs (R64 (vy v)) <= B /\ Rabs (R64 (vz v)) <= B.
Definition in_motion (x y z : f64) : Prop := / 2 ^ 20 <= R64 x ^ 2 + R64 y ^ 2 + R64 z ^ 2.

Lemma rnd_abs_ge x e : (-1074 <= e)%Z -> b2 e <= Rabs x -> b2 e <= Rabs (rnd64 x).
Proof.
  intros He H. pose proof (bpow_ge_0 radix2 e) as P. destruct (Rle_or_lt 0 x) as [L|L].
  - rewrite Rabs_pos_eq in H by exact L. assert (b2 e <= rnd64 x) by (apply rnd64_ge_fmt; [now apply fmt64_bpow|exact H]). rewrite Rabs_pos_eq; lra.
  - rewrite Rabs_left in H by exact L. assert (rnd64 x <= - b2 e) by (apply rnd64_le_fmt; [apply generic_format_opp; now apply fmt64_bpow|lra]).
    rewrite Rabs_left1; lra.
Qed.

Lemma first_row B row mass : bounded_row B row -> is_finite mass = true -> 1 <= R64 mass <= 2 ^ 20 -> 1 <= B <= 2 ^ 22 ->
  in_motion (vx row) (vy row) (vz row) ->
  moving (initial64 row mass) /\ R64 mass * lorentz_factor (initial64 row mass) <= R64 mass + 4 * B.
Proof.
  intros (Fr & Bx & By & Bz) Fm Hm HB Mo. destruct small_facts as (U0 & U1 & N0 & N1).
  set (m := R64 mass) in *. assert (P20 : 2 ^ 20 = 1048576) by ring. assert (P22 : 2 ^ 22 = 4194304) by ring. unfold in_motion in Mo. rewrite P20, ?P22 in *.
  assert (Im : / 1048576 <= / m <= 1).
  { split; [apply Rinv_le_contravar; lra|rewrite <- Rinv_1; apply Rinv_le_contravar; lra]. }
  assert (D : forall c, In c [vx; vy; vz] -> Rabs (R64 (c row)) <= B ->
    is_finite (fdiv (c row) mass) = true /\ m * Rabs (R64 (fdiv (c row) mass)) <= B * (101 / 100) /\
    (/ 4096 <= Rabs (R64 (c row)) -> b2 (-32) <= Rabs (R64 (fdiv (c row) mass)))).
  { intros c Ic Bc. assert (Fc : is_finite (c row) = true) by (apply Fr; destruct Ic as [<-|[<-|[<-|[]]]]; cbn; auto).
    pose proof (Rabs_pos (R64 (c row))) as A0.
    assert (Q : Rabs (R64 (c row) / m) = Rabs (R64 (c row)) * / m) by (unfold Rdiv; rewrite Rabs_mult, (Rabs_pos_eq (/ m)) by lra; reflexivity).
    assert (Ql : Rabs (R64 (c row)) * / m <= B * 1) by (apply Rmult_le_compat; lra).
    destruct (fdiv_fin (c row) mass 40 Fc ltac:(fold m; lra) ltac:(lia)) as (E & F).
    { fold m. change (b2 40) with 1099511627776. rewrite Q. lra. }
    split; [exact F|]. fold m in E. rewrite E. split.
    - pose proof (rnd_err (R64 (c row) / m)) as Er. rewrite Q in Er. set (q := R64 (c row) / m) in *.
      assert (T : Rabs (rnd64 q) <= Rabs (rnd64 q - q) + Rabs q).
      { replace (rnd64 q) with ((rnd64 q - q) + q) at 1 by ring. apply Rabs_triang. }
      set (a := Rabs (R64 (c row)) * / m) in *. assert (Ea : m * a = Rabs (R64 (c row))) by (unfold a; field; lra).
      apply Rle_trans with (m * (u * a + eta + a)); [apply Rmult_le_compat_l; lra|].
      replace (m * (u * a + eta + a)) with (u * (m * a) + m * eta + m * a) by ring. rewrite Ea.
      assert (u * Rabs (R64 (c row)) <= / 1000 * B) by (apply Rmult_le_compat; lra).
      assert (m * eta <= 1048576 * / 1000000000000) by (apply Rmult_le_compat; lra). lra.
    - intros Lo. apply rnd_abs_ge; [lia|]. rewrite Q. change (b2 (-32)) with (/ 4294967296).
      apply Rle_trans with (/ 4096 * / 1048576); [rewrite <- Rinv_mult; right; f_equal; lra|]. apply Rmult_le_compat; lra. }
  destruct (D vx ltac:(cbn; auto) Bx) as (Fx & Mx & Lx). destruct (D vy ltac:(cbn; auto) By) as (Fy & My & Ly). destruct (D vz ltac:(cbn; auto) Bz) as (Fz & Mz & Lz).
  unfold moving, lorentz_factor, momentum2, initial64. cbn [vx64 vy64 vz64].
  set (X := R64 (fdiv (vx row) mass)) in *. set (Y := R64 (fdiv (vy row) mass)) in *. set (Z := R64 (fdiv (vz row) mass)) in *.
  pose proof (Rabs_pos X) as X0. pose proof (Rabs_pos Y) as Y0. pose proof (Rabs_pos Z) as Z0.
  assert (Sq : forall a, Rabs a * Rabs a = a ^ 2) by (intros a; rewrite <- Rabs_mult, Rabs_pos_eq; [ring|]; apply (Rle_0_sqr a)).
  assert (Up : forall a, 0 <= a -> m * a <= B * (101 / 100) -> a <= 8388608).
  { intros a Ha L. apply Rle_trans with (m * a); [|lra]. rewrite <- (Rmult_1_l a) at 1. apply Rmult_le_compat_r; lra. }
  pose proof (Up _ X0 Mx) as UX. pose proof (Up _ Y0 My) as UY. pose proof (Up _ Z0 Mz) as UZ.
  assert (SqU : forall a, Rabs a <= 8388608 -> a ^ 2 <= 8388608 * 8388608).
  { intros a Ha. rewrite <- Sq. pose proof (Rabs_pos a). apply Rmult_le_compat; lra. }
  pose proof (SqU _ UX) as SX. pose proof (SqU _ UY) as SY. pose proof (SqU _ UZ) as SZ.
  pose proof (pow2_ge_0 X) as PX. pose proof (pow2_ge_0 Y) as PY. pose proof (pow2_ge_0 Z) as PZ.
  split.
  - split; [exact Fx|]. split; [exact Fy|]. split; [exact Fz|]. split.
    + assert (SqL : forall a, b2 (-32) <= Rabs a -> / 2 ^ 200 <= a ^ 2).
      { intros a Ha. rewrite <- Sq. apply Rle_trans with (b2 (-32) * b2 (-32)).
        - change (b2 (-32)) with (/ 4294967296). rewrite <- Rinv_mult. apply Rinv_le_contravar; [lra|].
          replace (2 ^ 200) with (2 ^ 64 * 2 ^ 136) by (rewrite <- pow_add; reflexivity). replace (2 ^ 64) with (4294967296 * 4294967296) by ring.
          pose proof (pow_R1_Rle 2 136 ltac:(lra)). rewrite <- (Rmult_1_r (4294967296 * 4294967296)) at 1. apply Rmult_le_compat_l; lra.
        - pose proof (bpow_ge_0 radix2 (-32)). apply Rmult_le_compat; lra. }
      assert (Sm : forall a, Rabs a < / 4096 -> a ^ 2 <= / 4096 * / 4096).
      { intros a Ha. rewrite <- Sq. pose proof (Rabs_pos a). apply Rmult_le_compat; lra. }
      destruct (Rle_or_lt (/ 4096) (Rabs (R64 (vx row)))) as [K|K]; [specialize (SqL _ (Lx K)); lra|]. apply Sm in K.
      destruct (Rle_or_lt (/ 4096) (Rabs (R64 (vy row)))) as [K'|K']; [specialize (SqL _ (Ly K')); lra|]. apply Sm in K'.
      destruct (Rle_or_lt (/ 4096) (Rabs (R64 (vz row)))) as [K2|K2]; [specialize (SqL _ (Lz K2)); lra|]. apply Sm in K2.
      lra.
    + apply Rle_trans with (2 ^ 60); [|apply Rle_pow; [lra|lia]]. assert (P60 : 2 ^ 60 = 1152921504606846976) by ring. rewrite P60. lra.
  - assert (R1 : sqrt (1 + (X ^ 2 + Y ^ 2 + Z ^ 2)) <= 1 + Rabs X + Rabs Y + Rabs Z).
    { rewrite <- (sqrt_square (1 + Rabs X + Rabs Y + Rabs Z)) by lra. apply sqrt_le_1_alt.
      replace ((1 + Rabs X + Rabs Y + Rabs Z) * (1 + Rabs X + Rabs Y + Rabs Z)) with
        (1 + (Rabs X * Rabs X + Rabs Y * Rabs Y + Rabs Z * Rabs Z) + 2 * (Rabs X + Rabs Y + Rabs Z + Rabs X * Rabs Y + Rabs X * Rabs Z + Rabs Y * Rabs Z)) by ring.
      rewrite !Sq. pose proof (Rmult_le_pos _ _ X0 Y0). pose proof (Rmult_le_pos _ _ X0 Z0). pose proof (Rmult_le_pos _ _ Y0 Z0). lra. }
    apply Rle_trans with (m * (1 + Rabs X + Rabs Y + Rabs Z)); [apply Rmult_le_compat_l; lra|].
    replace (m * (1 + Rabs X + Rabs Y + Rabs Z)) with (m + m * Rabs X + m * Rabs Y + m * Rabs Z) by ring. lra.
Qed.

(** ** The rows of a sound event *)
Lemma chain_rows_length t E0 : forall ds q ps l, chain_rows t E0 q ds ps l -> length l = (2 * length ds)%nat.
Proof.
  induction ds as [|d ds IH]; intros q ps l C.
  - destruct l; [reflexivity|destruct ps; destruct C].
  - destruct ps as [|[[ex th] ph] ps]; [destruct C|]. destruct l as [|v [|w l]]; [destruct C|destruct C|]. cbn [chain_rows] in C.
    destruct C as (_ & _ & _ & C). apply IH in C. cbn [length]. lia.
Qed.

Lemma product_bounded t E0 v m : 0 <= t <= / 2 -> 2 <= E0 -> product t v m -> R64 (vE v) <= 2 * E0 -> bounded_row (3 * E0) v.
Proof.
  intros Ht H0 (F & P & Sh) L. unfold mdot in Sh. cbn [real qx qy qz qE] in Sh. apply Rabs_le_inv in Sh. split; [exact F|].
  set (x := R64 (vx v)) in *. set (y := R64 (vy v)) in *. set (z := R64 (vz v)) in *. set (E := R64 (vE v)) in *.
  pose proof (pow2_ge_0 m) as M. pose proof (Rle_0_sqr x) as X. pose proof (Rle_0_sqr y) as Y. pose proof (Rle_0_sqr z) as Z. unfold Rsqr in *.
  assert (Q : E * E + 1 <= (E + 1) * (E + 1)) by (replace ((E + 1) * (E + 1)) with (E * E + 2 * E + 1) by ring; lra).
  assert (A : forall a, a * a <= E * E + 1 -> Rabs a <= 3 * E0).
  { intros a Ha. apply Rle_trans with (E + 1); [|lra]. rewrite <- (Rabs_pos_eq (E + 1)) by lra. apply Rsqr_le_abs_0. unfold Rsqr. lra. }
  repeat split; apply A; lra.
Qed.

Lemma sound_bounded t E0 r ds s rows : 0 <= t <= / 2 -> 2 <= E0 <= 2 ^ 20 -> (length ds <= 1000)%nat ->
  is_finite (rm_target r) = true -> 1 <= R64 (rm_target r) -> R64 (rm_target r) + R64 (rm_projectile r) + R64 (s64_energy s) + 1 <= E0 ->
  sound_event t E0 r ds s rows -> length rows = (4 + 2 * length ds)%nat /\ Forall (bounded_row (3 * E0)) rows.
Proof.
  intros Ht H0 Few Ft Mt So Sd. destruct Sd as (tv & pv & ev & qv & l & -> & Fv & Rt & Wp & Pp & Pe & Pq & Wi & Cl).
  assert (P20 : 2 ^ 20 = 1048576) by ring. rewrite P20 in H0.
  split; [pose proof (chain_rows_length _ _ _ _ _ _ Cl) as L; cbn [length]; lia|].
  assert (D0 : 0 <= E0 / 2 ^ 50 <= / 1000000000).
  { split; [apply Rmult_le_pos; [lra|left; apply Rinv_0_lt_compat, pow_lt; lra]|]. assert (P50 : 2 ^ 50 = 1125899906842624) by ring. rewrite P50. lra. }
  assert (Fs : INR (length ds) * (E0 / 2 ^ 50) <= 1).
  { assert (N : INR (length ds) <= 1000) by (replace 1000 with (INR 1000) by (rewrite INR_IZR_INZ; reflexivity); now apply le_INR).
    pose proof (pos_INR (length ds)) as N0. apply Rle_trans with (1000 * / 1000000000); [|lra]. apply Rmult_le_compat; lra. }
  destruct (chain_products t E0 ltac:(lra) ds (params s) qv l Cl) as (A & B).
  destruct Wp as (_ & _ & _ & Wp). destruct Wi as (_ & _ & _ & Wi). cbn [padd qE] in Wp, Wi.
  change (qE (real pv)) with (R64 (vE pv)) in *. change (qE (real tv)) with (R64 (vE tv)) in *. change (qE (real ev)) with (R64 (vE ev)) in *. change (qE (real qv)) with (R64 (vE qv)) in *.
  assert (Ee : R64 (vE tv) = R64 (rm_target r)) by (change (R64 (vE tv)) with (qE (real tv)); rewrite Rt; reflexivity).
  replace (/ 2 ^ 50 * E0) with (E0 / 2 ^ 50) in Wp, Wi by (unfold Rdiv; ring). apply Rabs_le_inv in Wp, Wi.
  assert (Ev0 : 0 < R64 (vE ev)) by apply Pe. assert (Eq0 : 0 < R64 (vE qv)) by apply Pq. assert (Ep0 : 0 < R64 (vE pv)) by apply Pp.
  set (dd := E0 / 2 ^ 50) in *.
  assert (Z0 : Rabs 0 <= 3 * E0) by (rewrite Rabs_R0; lra).
  constructor.
  { split; [exact Fv|]. change (R64 (vx tv)) with (qx (real tv)). change (R64 (vy tv)) with (qy (real tv)). change (R64 (vz tv)) with (qz (real tv)).
    rewrite Rt. cbn [qx qy qz]. auto. }
  constructor; [apply (product_bounded t E0 pv _ Ht ltac:(lra) Pp); lra|].
  constructor; [apply (product_bounded t E0 ev _ Ht ltac:(lra) Pe); lra|].
  constructor; [apply (product_bounded t E0 qv _ Ht ltac:(lra) Pq); lra|].
  clear - A B Ht H0 Wi Wp Ee So Ev0 Eq0 Ep0 D0 Fs. revert B A. generalize (chain_masses ds (params s)).
  intros k B A. revert B. induction A as [|v m l k P A IH]; intros B; [constructor|]. inversion B; subst.
  constructor; [apply (product_bounded t E0 v m Ht ltac:(lra) P); lra|]. apply IH. assumption.
Qed.

(** ** The script *)
Definition as_v4 (p : mom4 f64) : v4 := mkV4 (m_px p) (m_py p) (m_pz p) (m_E p).
Lemma as_v4_read v : as_v4 (as_read v) = v.
Proof. destruct v. reflexivity. Qed.

Lemma py_index_other {A B} (l : list A) (k : list B) i a : length l = length k -> py_index l i = Ok a -> exists b, py_index k i = Ok b /\ In b k.
Proof.
  intros L H. unfold py_index in *. rewrite <- L. destruct ((0 <=? _) && (_ <? _))%Z eqn:Q; [|discriminate H].
  set (j := Z.to_nat (if (i <? 0)%Z then (i + Z.of_nat (length l))%Z else i)) in *.
  apply andb_prop in Q as (Q1 & Q2). apply Z.leb_le in Q1. apply Z.ltb_lt in Q2.
  destruct (nth_error k j) as [b|] eqn:N; [exists b; split; [reflexivity|eapply nth_error_In; exact N]|].
  apply nth_error_None in N. exfalso. assert (j < length l)%nat by (unfold j; lia). lia.
Qed.

Lemma py_index_nat {A} (l : list A) j a : nth_error l j = Some a -> py_index l (Z.of_nat j) = Ok a.
Proof.
  intros N. assert (j < length l)%nat by (apply nth_error_Some; congruence). unfold py_index.
  replace (Z.of_nat j <? 0)%Z with false by lia. replace ((0 <=? Z.of_nat j) && (Z.of_nat j <? Z.of_nat (length l)))%Z with true by lia.
  rewrite Nat2Z.id, N. reflexivity.
Qed.

Section Script.
  (** Kinematics: as in C92. *)
  Context {G : Type} (unit_draw normal_draw : G -> f64 * G) (bw_draw : f64 -> f64 -> G -> f64 * G).
  Context (cos64 sin64 acos64 : f64 -> f64) (pi64 : f64) (sum_is_one : list f64 -> bool).
  Context (draws : forall g, draw_ok (fst (unit_draw g))).
  Context (cosine : forall x, is_finite x = true -> P_SamplingF64.within (-1) 1 (cos64 x)).
  Context (sine : forall x, is_finite x = true -> P_SamplingF64.within (-1) 1 (sin64 x)).
  Context (pi_finite : is_finite (fmul pi64 (f_of_Z 2)) = true /\ is_finite (fmul (f_of_Z 2) pi64) = true).
  Context (pi_range : 1 <= R64 (fmul pi64 (f_of_Z 2)) <= 8 /\ 1 <= R64 (fmul (f_of_Z 2) pi64)).
  Context (sq : f64 -> f64) (Hok : pow_ok sq) (Hall : pow_all sq) (Htr : trig_ok sin64 cos64).
  Context (gm E0 : R) (G1 : 1 <= gm) (G2 : gm ^ 2 <= 2 ^ 23) (H0 : 2 <= E0 <= 2 ^ 20) (Ht : tau_v gm E0 <= / 2).
  Let t := tau_v gm E0.
  Context (r : reaction_masses) (ds : list decay_masses) (beam : f64) (target : option target64) (T : R).
  Context (excitations : list excitation64) (polar_dists : list polar64) (win : R * R) (wins : list (R * R)).
  Context (Hbeam : beam_above T beam target).
  Context (Hex : Forall2 (fun e w => gives (sample_excitation64 unit_draw normal_draw bw_draw e) (P_SamplingF64.within (fst w) (snd w))) excitations (win :: wins)).
  Context (Hpol : Forall (fun d => gives (sample_polar64 unit_draw cos64 acos64 sum_is_one d) angle_ok) polar_dists).
  Context (Hlen : length excitations = S (length ds)) (Hlen2 : length polar_dists = S (length ds)) (Few : (length ds <= 1000)%nat).
  Context (Hroom : room_reaction gm E0 t r T (R64 beam) win) (Hchain : room_chain gm E0 (2 * t) (R64 (rm_residual r) + fst win) ds wins).
  Notation sample_p := (sample_pipeline64 unit_draw normal_draw bw_draw cos64 sin64 acos64 pi64 sum_is_one beam target excitations polar_dists (length ds)).
  Notation gen limit := (generate64 sq sin64 cos64 (boost_v sq) (rest_v sq) (mass_v sq) sample_p r ds limit).

  (** Detector: as in C89. *)
  Context (fexp : f64 -> f64) {H Nuc : Type} (get_data : Z -> Z -> res Nuc) (mass : Nuc -> f64)
    (ivp : (f64 * f64 * f64) * vec64 -> Nuc -> config fexp -> res (list (@traj vec64)))
    (w : Z) (fano : f64) (normals : nat -> H -> list f64 * H) (uniform : nat -> H -> list f64 * H) (argsort : list f64 -> list nat).
  Context (Hu : draws_ok uniform) (Ha : argsort_ok argsort) (HN : normals_ok normals).
  Context (to_float : string -> option f64) (files : string -> option text) (resource : string -> text)
    (load : string -> res (grid * edges (F64 fexp))) (packaged : res (grid * edges (F64 fexp)))
    (dp : det_params) (ep : elec_params) (pp : pad_params) (fc : full_config fexp).
  Context (Hfc : make_config fexp to_float files resource load packaged dp ep pp = Ok fc).
  Context (Hgrid : forall i j, (-1 <= gr_cell (fc_grid fexp fc) i j < 10240)%Z)
    (Gr : gr_rows (fc_grid fexp fc) = 5600%Z) (Gc : gr_cols (fc_grid fexp fc) = 5600%Z)
    (Hed : fc_edges fexp fc = packaged_edges fexp).
  Context (Hs : P_Detect.sane dp ep) (Hmm : (1 <= ep_mm_edge ep)%Z) (Hth : (Z.abs (ep_threshold ep) <= 2 ^ 53)%Z).
  Context (Hexp : exp_ok fexp) (HD : fzero (dp_diffusion dp) \/ rg (dp_diffusion dp) (-60) 60)
    (HE : rg (dp_efield dp) (-60) 60) (Hgain : (0 <= dp_gain dp <= 2 ^ 11)%Z)
    (Hw : (1 <= w <= 2 ^ 53)%Z) (Hff : is_finite fano = true) (Hf : 0 <= R64 fano <= 1).

  (** What is asked of solve_ivp, for vertices inside the target: a track that stays in the detector,
      and for a nucleus in motion it exists and the nucleus neither stops dead nor gains speed. *)
  Definition solver_ok : Prop := forall v p nuc, vertex_inside target v ->
    (forall track x, ivp (v, p) nuc (sim_config fexp fc) = Ok track -> In x track ->
       bnd (t_x x) 300 /\ bnd (t_y x) 300 /\ around (dp_length dp) (t_z x) /\
       (moving p -> moving (t_v x) /\ lorentz_factor (t_v x) <= lorentz_factor p)) /\
    (moving p -> exists track, ivp (v, p) nuc (sim_config fexp fc) = Ok track).
  (** The data of every charged nucleus to simulate are there, and it does not make 2^40 electrons. *)
  Definition known (zs ms : list Z) (i : Z) : Prop :=
    py_index zs i = Ok 0%Z \/
    exists z a nuc, py_index zs i = Ok z /\ py_index ms i = Ok a /\ get_data z a = Ok nuc /\
      is_finite (mass nuc) = true /\ 1 <= R64 (mass nuc) <= 2 ^ 20 /\ (R64 (mass nuc) + 12 * E0) * (10 ^ 6 / IZR w) <= 2 ^ 40.
  (** No charged nucleus to simulate is at rest in the event. *)
  Definition no_rest (rows : list (mom4 f64)) (zs idx : list Z) : Prop := forall i z p, In i idx ->
    py_index zs i = Ok z -> z <> 0%Z -> py_index rows i = Ok p -> in_motion (m_px p) (m_py p) (m_pz p).

  Definition trajectory (v : @vertex f64) (p : mom4 f64) (nuc : Nuc) (c : config fexp) : res (list (@traj vec64)) :=
    generate_trajectory64 fexp mass ivp v (as_v4 p) nuc c.
  Notation electrons := (electrons64 fexp mass w fano normals).
  Notation simu := (P_Detect.sim fexp get_data trajectory electrons uniform fc).

  (** C93: the kinematics file is generated, with sound events, and unless it has a nucleus at rest, its simulation runs
      to the end and has a cloud for every event. *)
  Theorem C93_script zs ms chunk limit n st resp max r0 disk indices rng :
    (1 <= chunk)%Z -> (1 <= limit)%Z -> (0 <= n)%Z -> length (fst st) = (4 + 2 * length ds)%nat -> length zs = (4 + 2 * length ds)%nat ->
    resp <> [] -> (1 <= max)%Z -> solver_ok -> (forall i, In i (nuclei_to_sim indices zs) -> known zs ms i) ->
    exists d, run_kinematics_pipeline (gen limit) zs ms chunk n st = (d, Ok tt) /\
      (forall e, (0 <= e < n)%Z -> exists s rows, read_event d chunk e = Ok (map as_read rows, s64_vertex s) /\
         P_SamplingF64.within T (R64 beam) (s64_energy s) /\ sound_event t E0 r ds s rows) /\
      ((forall e rows v, (0 <= e < n)%Z -> read_event d chunk e = Ok (rows, v) -> no_rest rows zs (nuclei_to_sim indices zs)) ->
       exists w' rs rng',
         run_simulation simu (spyral_write fexp argsort fc) close d indices rng (init resp max r0 disk) = (w', Ok tt) /\
         simulated simu d zs ms chunk (nuclei_to_sim indices zs) (zrange 0 n) rng rs rng' /\
         map (fun r => fst (fst r)) rs = zrange 0 n).
  Proof using All.
    intros Hc Hl Hn Lb Lz NE Hmax So Kn.
    destruct (C92_certain unit_draw normal_draw bw_draw cos64 sin64 acos64 pi64 sum_is_one draws cosine sine pi_finite pi_range sq Hok Hall Htr gm E0 G1 G2 H0 Ht
      r ds beam target T excitations polar_dists win wins Hbeam Hex Hpol Hlen Hlen2 Hroom Hchain zs ms chunk limit n st Hc Hl Hn Lb)
      as (d & samples & g' & Run & Row & Ls & Ev).
    exists d. split; [exact Run|]. split.
    { intros e He. destruct (nth_error samples (Z.to_nat e)) as [s|] eqn:Ns.
      2:{ apply nth_error_None in Ns. lia. }
      destruct (Ev _ _ Ns) as (We & _ & _ & rows & Rd & Sd). rewrite Z2Nat.id in Rd by lia. exists s, rows. auto. }
    intros NR.
    pose proof Run as Fin. apply C49_finished in Fin; [|exact Hc|exact Hn]. destruct Fin as (evs & p' & _ & Le & Ed).
    assert (Hh : read_header d = Ok (zs, ms, n, chunks chunk (Z.of_nat (length evs)), chunk)) by (subst d; rewrite <- Le; reflexivity).
    apply (C89_run fexp get_data trajectory mass w fano normals uniform argsort Hu Ha HN to_float files resource load packaged dp ep pp fc Hfc Hgrid Gr Gc Hed
      Hs Hmm Hth Hexp HD HE Hgain Hw Hff Hf resp max r0 disk d indices rng zs ms n _ chunk NE Hmax Hh).
    intros e He. destruct (nth_error samples (Z.to_nat e)) as [s|] eqn:Ns.
    2:{ apply nth_error_None in Ns. lia. }
    destruct (Ev _ _ Ns) as (We & Vi & _ & rows & Rd & Sd). rewrite Z2Nat.id in Rd by lia.
    exists (map as_read rows), (s64_vertex s). split; [exact Rd|].
    assert (T0 : 0 <= t).
    { unfold t, tau_v. apply Rmult_le_pos; [apply Rmult_le_pos|left; apply Rinv_0_lt_compat, pow_lt; lra]; pose proof (pow2_ge_0 gm); pose proof (pow2_ge_0 E0); lra. }
    pose proof Hroom as (Ft & _ & Mt & _ & _ & Mx & _).
    destruct (sound_bounded t E0 r ds s rows ltac:(split; [exact T0|exact Ht]) H0 Few Ft Mt ltac:(destruct We as (_ & We); lra) Sd) as (Lr & Fb).
    split.
    - intros p nuc track x Ip Et Ix. unfold trajectory, generate_trajectory64 in Et. destruct (So (s64_vertex s) (initial64 (as_v4 p) (mass nuc)) nuc Vi) as (S1 & _).
      apply (S1 track x Et Ix).
    - intros i Ii. destruct (Kn i Ii) as [Kz|(z & a & nuc & Ez & Ea & En & Fm & Bm & Be)]; [left; exact Kz|].
      destruct (Z.eq_dec z 0) as [->|Nz]; [left; exact Ez|]. right.
      destruct (py_index_other zs (map as_read rows) i z ltac:(rewrite map_length; lia) Ez) as (p & Ep & Ip).
      apply in_map_iff in Ip as (v & Ev' & Iv). rewrite Forall_forall in Fb. specialize (Fb v Iv).
      assert (Mo : in_motion (vx v) (vy v) (vz v)).
      { specialize (NR e _ _ He Rd i z p Ii Ez Nz Ep). rewrite <- Ev' in NR. exact NR. }
      assert (P20 : 2 ^ 20 = 1048576) by ring. assert (P22 : 2 ^ 22 = 4194304) by ring.
      destruct (first_row (3 * E0) v (mass nuc) Fb Fm Bm ltac:(lra) Mo) as (Mv & Lv).
      destruct (So (s64_vertex s) (initial64 v (mass nuc)) nuc Vi) as (S1 & S2). destruct (S2 Mv) as (track & Et).
      exists z, a, nuc, p, track. split; [exact Ez|]. split; [exact Ea|]. split; [exact En|]. split; [exact Ep|]. split.
      { unfold trajectory, generate_trajectory64. rewrite <- Ev', as_v4_read. exact Et. }
      assert (W0 : 0 < 10 ^ 6 / IZR w) by (apply Rdiv_lt_0_compat; [lra|apply IZR_lt; lia]).
      split.
      + split; [exact Fm|]. split; [split; [lra|]; apply Rle_trans with (1 := proj2 Bm); apply Rle_pow; [lra|lia]|].
        intros q Iq. apply in_map_iff in Iq as (x & <- & Ix). destruct (S1 track x Et Ix) as (_ & _ & _ & Q). destruct (Q Mv) as (Mx' & Lx). split; [exact Mx'|].
        apply Rle_trans with (2 := Be). apply Rmult_le_compat_r; [lra|].
        apply Rle_trans with (R64 (mass nuc) * lorentz_factor (initial64 v (mass nuc))); [apply Rmult_le_compat_l; lra|]. lra.
      + intros x Ix. destruct (S1 track x Et Ix) as (A & B & C & _). auto.
  Qed.
End Script.

(** ** A nucleus at rest *)

(** A row of the track at rest: its velocity is a zero of either sign. *)
Definition at_rest (p : vec64) : Prop :=
  (exists s, vx64 p = B754_zero s) /\ (exists s, vy64 p = B754_zero s) /\ (exists s, vz64 p = B754_zero s).

Lemma rest_energy m p : is_finite m = true -> at_rest p -> row_energy64 m p = B754_nan.
Proof.
  intros Fm ((a & Hx) & (b & Hy) & (c & Hz)). unfold row_energy64, gv64. rewrite Hx, Hy, Hz.
  replace (fsub _ fone) with (@B754_nan prec64 emax64) by (destruct a, b, c; vm_compute; reflexivity).
  destruct m; try discriminate; reflexivity.
Qed.

Lemma foldM_fails {S A} (f : S -> A -> res S) i l : In i l -> (forall s, exists e, f s i = Err e) ->
  forall s, exists e, foldM f l s = Err e.
Proof.
  induction l as [|a l IH]; intros I H s; [destruct I|]. cbn [foldM]. destruct I as [->|I].
  - destruct (H s) as (e & E). rewrite E. exists e. reflexivity.
  - destruct (f s a) as [s'|e] eqn:E; cbn [bind]; [apply IH; assumption|exists e; reflexivity].
Qed.

Lemma combine_nth_error {A B} (l : list A) (m : list B) i x y :
  nth_error l i = Some x -> nth_error m i = Some y -> nth_error (combine l m) i = Some (x, y).
Proof.
  revert m i. induction l as [|a l IH]; intros [|b m] [|i] H K; try discriminate; cbn [nth_error combine] in *; [|now apply IH].
  congruence.
Qed.

Section Rest.
  Context (fexp : f64 -> f64) {G Nuc Mom Vtx : Type} (get_data : Z -> Z -> res Nuc)
    (generate_trajectory : Vtx -> Mom -> Nuc -> config fexp -> res (list (@traj vec64)))
    (mass : Nuc -> f64) (w : Z) (fano : f64)
    (normals : nat -> G -> list f64 * G) (uniform : nat -> G -> list f64 * G).

  (** C93: one nucleus to simulate that is at rest after the first row of its track, and the event
      cannot be simulated: its energy there is not a number, nor is the number of electrons. *)
  Theorem C93_rest momenta vertex zs ms c rng indices i z a nuc p track k x :
    (forall n g, length (fst (normals n g)) = n) -> In i indices ->
    py_index zs i = Ok z -> z <> 0%Z -> py_index ms i = Ok a -> get_data z a = Ok nuc -> py_index momenta i = Ok p ->
    generate_trajectory vertex p nuc c = Ok track -> nth_error track (S k) = Some x -> at_rest (t_v x) ->
    is_finite (mass nuc) = true ->
    exists e, simulate fexp get_data generate_trajectory (electrons64 fexp mass w fano normals) uniform
      momenta vertex zs ms c rng indices = Err e.
  Proof.
    intros Ln I Ez Nz Ea En Ep Et Hx R Fm. unfold simulate.
    destruct (foldM_fails (simulate_nucleus fexp get_data generate_trajectory (electrons64 fexp mass w fano normals) momenta vertex zs ms c)
      i indices I) with (s := (@nil (Z * (Z * Z)), rng)) as (e & E).
    2:{ exists e. unfold points in *. rewrite E. reflexivity. }
    intros [pts g]. unfold simulate_nucleus. rewrite Ez. cbn [bind]. replace (z =? 0)%Z with false by lia.
    rewrite Ea. cbn [bind]. rewrite En. cbn [bind]. rewrite Ep. cbn [bind]. unfold generate_point_cloud. rewrite Et. cbn [bind].
    unfold electrons64. pose proof (Ln (length track) g) as Lg. destruct (normals (length track) g) as [gs g']. cbn [fst] in Lg.
    assert (Lt : (S k < length track)%nat) by (apply nth_error_Some; congruence).
    destruct (nth_error track k) as [x'|] eqn:Hx'; [|apply nth_error_None in Hx'; lia].
    rewrite (converted_none _ (S k)).
    - replace (length (@nil Z) =? length track)%nat with false by (symmetry; apply Nat.eqb_neq; cbn [length]; lia). eexists. reflexivity.
    - unfold counts64. destruct (nth_error gs (S k)) as [gk|] eqn:Hg; [|apply nth_error_None in Hg; lia].
      refine (eq_trans (map_nth_error _ (S k) _ (d := (@B754_nan prec64 emax64 : f64, gk)) _) _); [|reflexivity]. apply combine_nth_error; [|exact Hg].
      rewrite (means64_nth (mass nuc) w (map t_v track) k (t_v x') (t_v x)) by (apply map_nth_error; assumption).
      rewrite (rest_energy _ _ Fm R). reflexivity.
  Qed.
End Rest.

(** ** Example *)
Section Example.
  Context (fexp : f64 -> f64) (Hexp : exp_ok fexp).

  Definition sc_zs : list Z := [1; 6; 1; 6; 1; 6]%Z.
  Definition sc_ms : list Z := [2; 12; 1; 13; 1; 12]%Z.
  Definition sc_mass (n : Z) : f64 := f_of_Z 11178.
  Definition sc_data (z a : Z) : res Z := Ok (100 * z + a)%Z.
  (** Two rows half way along the detector, at the velocity at which it starts. *)
  Definition sc_ivp (s : (f64 * f64 * f64) * vec64) (n : Z) (c : config fexp) : res (list (@traj vec64)) :=
    Ok [mkTraj (f_of_Z 0) (f_of_Z 0) half (snd s); mkTraj (f_of_Z 0) (f_of_Z 0) half (snd s)].
  Definition sc_sim (fc : full_config fexp) :=
    P_Detect.sim fexp sc_data (trajectory fexp sc_mass sc_ivp) (electrons64 fexp sc_mass 34 (f_of_Z 0) al_normals) ex_uniform fc.

  (** C92's reaction in C89's detector: the projectile of every event is simulated, in any number of
      events. The target of every event is at rest, and asking for it makes the event fail. *)
  Example C93_example : exists fc, nf_make fexp (f_of_Z 1) = Ok fc /\
    forall buf g n rng disk, length buf = 6%nat -> (0 <= n)%Z ->
    exists d, run_kinematics_pipeline rx_gen sc_zs sc_ms 50 n (buf, g) = (d, Ok tt) /\
      (exists w' rs rng', run_simulation (sc_sim fc) (spyral_write fexp the_sort fc) close d (Some [1%Z]) rng (init [f_of_Z 1] 10 0%Z disk) = (w', Ok tt) /\
         simulated (sc_sim fc) d sc_zs sc_ms 50 [1%Z] (zrange 0 n) rng rs rng' /\ map (fun r => fst (fst r)) rs = zrange 0 n) /\
      (forall e, (0 <= e < n)%Z -> exists rows v, read_event d 50 e = Ok (rows, v) /\ exists er, sc_sim fc rows v sc_zs sc_ms rng [0%Z] = Err er).
  Proof using Hexp.
    destruct (nf_made fexp (f_of_Z 1)) as (fc & Em & Eg & Ee); [apply f_of_Z_fin; lia|]. exists fc. split; [exact Em|].
    intros buf g n rng disk Lb Hn.
    destruct rx_setting as (S1 & S2 & S3 & S4 & S5 & S6).
    assert (Z0 : R64 (f_of_Z 0) = 0) by (apply f_of_Z_R; lia).
    assert (M : is_finite (f_of_Z 11178) = true /\ R64 (f_of_Z 11178) = 11178) by (split; [apply f_of_Z_fin; lia|apply f_of_Z_R; lia]).
    assert (P20 : 2 ^ 20 = 1048576) by ring. assert (P40 : 2 ^ 40 = 1099511627776) by ring.
    destruct (C93_script fixed_draw (fun g => (f_of_Z 1, S g)) (fun _ _ g => (f_of_Z 0, S g)) cos_r sin_r acos_r pi_r (fun _ => true)
      fixed_draw_ok (fun x _ => unit_rounded _ (COS_bound _)) (fun x _ => unit_rounded _ (SIN_bound _)) ltac:(apply two_pi_r) S1
      (fun x => fmul x x) mul_pow_ok mul_pow_all trig_rounded 2 16384 ltac:(lra) ltac:(lra) ltac:(lra) ltac:(unfold tau_v; lra)
      rx_r rx_ds (f_of_Z 100) (Some tank64) 97 rx_ex rx_polar (0, 5) [(1, 1)] S2 S3 S4 eq_refl eq_refl ltac:(cbn; lia) S5 S6
      fexp sc_data sc_mass sc_ivp 34%Z (f_of_Z 0) al_normals ex_uniform the_sort) with (4 := Em) (zs := sc_zs) (ms := sc_ms) (chunk := 50%Z)
      (limit := 1000%Z) (n := n) (st := (buf, g)) (resp := [f_of_Z 1]) (max := 10%Z) (r0 := 0%Z) (disk := disk) (indices := Some [1%Z]) (rng := rng) as (d & Run & Ev & Sim).
    - intros k c. cbn [ex_uniform fst]. split; [apply repeat_length|].
      apply Forall_forall. intros x Hx. apply repeat_spec in Hx as ->. exact half_ok.
    - exact argsort_exists.
    - intros k c. cbn [al_normals fst]. split; [apply repeat_length|].
      apply Forall_forall. intros x Hx. apply repeat_spec in Hx as ->.
      split; [apply f_of_Z_fin; lia|]. rewrite f_of_Z_R by lia. rewrite Rabs_pos_eq; lra.
    - intros i j. rewrite Eg. cbn [nf_grid gr_cell]. lia.
    - rewrite Eg. reflexivity.
    - rewrite Eg. reflexivity.
    - exact Ee.
    - unfold P_Detect.sane, nf_dp, nf_ep. cbn [dp_length ep_mm_edge ep_windows_edge].
      rewrite f_of_Z_R by lia. split; [apply f_of_Z_fin; lia|].
      change (bpow radix2 (-10)) with (/ 1024). change (bpow radix2 10) with 1024. split; [lra|lia].
    - cbn. lia.
    - cbn. lia.
    - exact Hexp.
    - right. apply nf_rg; vm_compute; reflexivity.
    - apply nf_rg; vm_compute; reflexivity.
    - cbn. lia.
    - lia.
    - apply f_of_Z_fin; lia.
    - rewrite Z0. lra.
    - lia.
    - lia.
    - exact Hn.
    - exact Lb.
    - reflexivity.
    - intros Q. discriminate Q.
    - lia.
    - intros v p nuc _. split.
      + intros track x Et Ix. assert (Et' : [mkTraj (f_of_Z 0) (f_of_Z 0) half p; mkTraj (f_of_Z 0) (f_of_Z 0) half p] = track) by (unfold sc_ivp in Et; cbn [snd] in Et; congruence).
        subst track. assert (Ex : mkTraj (f_of_Z 0) (f_of_Z 0) half p = x) by (destruct Ix as [Ix|[Ix|[]]]; exact Ix). subst x. cbn [t_x t_y t_z t_v].
        assert (B0 : bnd (f_of_Z 0) 300) by (split; [apply f_of_Z_fin; lia|rewrite Z0, Rabs_R0; apply bpow_ge_0]).
        split; [exact B0|]. split; [exact B0|]. destruct half_ok as (Fh & Bh). split; [|intros Mv; split; [exact Mv|lra]].
        split; [exact Fh|]. cbn [nf_dp dp_length]. rewrite f_of_Z_R by lia. apply Rabs_le. lra.
      + intros _. eexists. reflexivity.
    - intros i [<-|[]]. right. exists 6%Z, 12%Z, 612%Z. do 3 (split; [reflexivity|]). unfold sc_mass. destruct M as (Fm & ->). rewrite P20, P40.
      split; [exact Fm|]. split; lra.
    - exists d. split; [exact Run|]. split.
      + apply Sim. intros e rows v He Rd. destruct (Ev e He) as (s & rows' & Rd' & We & Sd).
        assert (Er : rows = map as_read rows') by (rewrite Rd' in Rd; congruence). subst rows.
        destruct Sd as (tv & pv & ev & qv & l & -> & _ & _ & Wp & _). intros i z p [<-|[]] _ _ Ep.
        assert (Ep' : as_read pv = p) by (pose proof (py_index_nat (map as_read (tv :: pv :: ev :: qv :: l)) 1 (as_read pv) eq_refl) as Q; cbn [Z.of_nat Pos.of_succ_nat] in Q; congruence). subst p. cbn [as_read m_px m_py m_pz].
        unfold in_motion. rewrite P20. destruct Wp as (_ & _ & Wp & _). cbn [real qz] in Wp. destruct We as (_ & We).
        set (k := R64 (s64_energy s)) in *. set (mp := R64 (rm_projectile rx_r)) in *.
        assert (Mp : mp = 11178) by exact (proj2 M).
        assert (Sq : 97 <= sqrt (k * (k + 2 * mp))).
        { rewrite <- (sqrt_square 97) by lra. apply sqrt_le_1_alt. rewrite Mp. apply Rmult_le_compat; lra. }
        apply Rabs_le_inv in Wp. assert (P50 : 2 ^ 50 = 1125899906842624) by ring. rewrite P50 in Wp.
        assert (Lz : 1 <= R64 (vz pv)) by lra. pose proof (pow2_ge_0 (R64 (vx pv))). pose proof (pow2_ge_0 (R64 (vy pv))).
        assert (1 * 1 <= R64 (vz pv) * R64 (vz pv)) by (apply Rmult_le_compat; lra).
        replace (R64 (vz pv) ^ 2) with (R64 (vz pv) * R64 (vz pv)) by ring. lra.
      + intros e He. destruct (Ev e He) as (s & rows & Rd & _ & Sd). exists (map as_read rows), (s64_vertex s). split; [exact Rd|].
        destruct Sd as (tv & pv & ev & qv & l & -> & Fv & Rt & _).
        assert (Zr : forall c, is_finite (c tv) = true -> R64 (c tv) = 0 -> exists b, fdiv (c tv) (f_of_Z 11178) = B754_zero b).
        { intros c F E. destruct (c tv) as [b| | |b m e0 B]; try discriminate F.
          - exists b. destruct b; apply same64_eq; vm_compute; reflexivity.
          - exfalso. revert E. unfold R64. cbn [B2R]. destruct b; cbn [cond_Zopp].
            + apply Rlt_not_eq. apply F2R_lt_0. cbn [Fnum]. lia.
            + apply Rgt_not_eq. apply F2R_gt_0. cbn [Fnum]. lia. }
        unfold sc_sim, P_Detect.sim.
        refine (C93_rest fexp sc_data (trajectory fexp sc_mass sc_ivp) sc_mass 34%Z (f_of_Z 0) al_normals ex_uniform (map as_read (tv :: pv :: ev :: qv :: l)) (s64_vertex s) sc_zs sc_ms
          (sim_config fexp fc) rng [0%Z] 0%Z 1%Z 2%Z 102%Z (as_read tv) _ 0%nat (mkTraj (f_of_Z 0) (f_of_Z 0) half (initial64 tv (f_of_Z 11178))) _ (or_introl eq_refl) eq_refl _ eq_refl eq_refl _ _ _ _ (proj1 M)).
        * intros k c. cbn [al_normals fst]. apply repeat_length.
        * lia.
        * exact (py_index_nat (map as_read (tv :: pv :: ev :: qv :: l)) 0 (as_read tv) eq_refl).
        * unfold trajectory, generate_trajectory64, sc_ivp. rewrite as_v4_read. cbn [snd]. reflexivity.
        * reflexivity.
        * cbn [t_v]. unfold at_rest, initial64. cbn [vx64 vy64 vz64].
          pose proof (f_equal qx Rt) as Rx. pose proof (f_equal qy Rt) as Ry. pose proof (f_equal qz Rt) as Rz. cbn [real qx qy qz] in Rx, Ry, Rz.
          split; [|split]; apply Zr; try assumption; apply Fv; cbn; auto.
  Qed.
End Example.

Print Assumptions C93_script.
Print Assumptions C93_rest.
Print Assumptions C93_example.
