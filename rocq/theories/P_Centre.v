(** P_Centre.v -- C106: the z of a stored point, averaged over the draw that smears its time
    (simulator.py 103-112, writer.py 101-103). *)
From Coq Require Import ZArith Reals Lia Lra List.
From Flocq Require Import Core BinarySingleNaN.
From Verif Require Import Base F64 F64Bounds Num Pairing PairingProofs BeamPads Transporter SpecTransport TransportProofs
  Simulator SpecSim SimulatorProofs TransportF64 P_TransportF64 P_Simulator P_KinF64 KinFile P_KinFile P_SamplingF64 P_Frequency P_Isotropy P_Smear
  Parameters P_Parameters Response Writer SpecWriter P_Cloud P_Spot.
From Verif Require P_Detect P_OnTrack ConfigObj.
Import ListNotations.
Local Open Scope R_scope.

(** ** Specification *)
(** The average over the 2^53 values of a draw. *)
Definition mean_draw (f : Z -> R) : R := sum_to (2 ^ 53) f / 2 ^ 53.
(** Millimetres of one time bucket, and the z of a time, in exact numbers. *)
Definition bucket (dp : det_params) (ep : elec_params) : R := 1000 * (R64 (dp_length dp) / IZR (ep_windows_edge ep - ep_mm_edge ep)).
Definition z_at (dp : det_params) (ep : elec_params) (t : R) : R := (IZR (ep_windows_edge ep) - t) * bucket dp ep.
(** The time at which electrons from z (in metres) arrive, in exact numbers. *)
Definition arrival (dp : det_params) (ep : elec_params) (z : R) : R :=
  IZR (ep_mm_edge ep) + (R64 (dp_length dp) - z) / R64 (dp_length dp) * IZR (ep_windows_edge ep - ep_mm_edge ep).
(** The z that is stored for a time. *)
Definition stored_z (fexp : f64 -> f64) (dp : det_params) (ep : elec_params) (time : f64) : R :=
  match z_of_tb (N := F64 fexp) (ep_windows_edge ep) (ep_mm_edge ep) (dp_length dp) time with Ok z => R64 z | Err _ => 0 end.

(** ** Sums *)
Lemma sum_first N : (0 <= N)%Z -> 2 * sum_to N (fun k => IZR k) = IZR N * (IZR N - 1).
Proof.
  revert N. apply natlike_ind; [rewrite sum_to_0; ring|]. intros N HN IH. rewrite <- Z.add_1_r, sum_to_step by exact HN. rewrite Rmult_plus_distr_l, IH, plus_IZR. ring.
Qed.
Lemma sum_squares N : (0 <= N)%Z -> 6 * sum_to N (fun k => IZR k * IZR k) = (IZR N - 1) * IZR N * (2 * IZR N - 1).
Proof.
  revert N. apply natlike_ind; [rewrite sum_to_0; ring|]. intros N HN IH. rewrite <- Z.add_1_r, sum_to_step by exact HN. rewrite Rmult_plus_distr_l, IH, plus_IZR. ring.
Qed.
Lemma P53 : IZR (2 ^ 53) = 2 ^ 53.
Proof. rewrite (pow_IZR 2 53). reflexivity. Qed.
Lemma N53 : 0 < 2 ^ 53. Proof. apply pow_lt. lra. Qed.
(** Distance of a draw from the middle. *)
Lemma mean_off_gen N M : (0 < N)%Z -> IZR N = M ->
  sum_to N (fun k => IZR k / M - / 2) / M = - (/ 2 * / M) /\ sum_to N (fun k => (IZR k / M - / 2) ^ 2) / M = / 12 + / 6 * (/ M * / M).
Proof.
  intros HN E. assert (NP : 0 < M) by (rewrite <- E; now apply IZR_lt).
  pose proof (sum_first N ltac:(lia)) as S1. pose proof (sum_squares N ltac:(lia)) as S2. pose proof (sum_to_const N 1 ltac:(lia)) as S0. rewrite E in S0, S1, S2.
  rewrite (sum_to_ext _ (fun k => IZR k / M - / 2) (fun k => / M * IZR k + (- / 2) * 1)) by (try lia; intros; unfold Rdiv; ring).
  rewrite (sum_to_ext _ (fun k => (IZR k / M - / 2) ^ 2) (fun k => 1 * ((/ M * / M) * (IZR k * IZR k) + (- / M) * IZR k) + / 4 * 1)) by (try lia; intros; field; lra).
  rewrite (sum_to_lin _ (fun k => / M * / M * (IZR k * IZR k) + - / M * IZR k) (fun _ => 1)) by lia.
  rewrite (sum_to_lin _ (fun k => IZR k * IZR k) (fun k => IZR k)) by lia. rewrite (sum_to_lin _ (fun k => IZR k) (fun _ => 1)) by lia. rewrite S0.
  set (A := sum_to N (fun k => IZR k)) in *. set (B := sum_to N (fun k => IZR k * IZR k)) in *.
  replace A with (M * (M - 1) / 2) by lra. replace B with ((M - 1) * M * (2 * M - 1) / 6) by lra. split; field; lra.
Qed.
Lemma mean_off : mean_draw (fun k => IZR k / 2 ^ 53 - / 2) = - (/ 2 * / 2 ^ 53) /\
  mean_draw (fun k => (IZR k / 2 ^ 53 - / 2) ^ 2) = / 12 + / 6 * (/ 2 ^ 53 * / 2 ^ 53).
Proof. unfold mean_draw. apply mean_off_gen; [lia|exact P53]. Qed.
Lemma over_close a c M D : 0 < M -> Rabs (a - c) <= M * D -> Rabs (a / M - c / M) <= D.
Proof.
  intros NP S. replace (a / M - c / M) with ((a - c) / M) by (field; lra).
  unfold Rdiv. rewrite Rabs_mult, (Rabs_pos_eq (/ M)) by (apply Rlt_le, Rinv_0_lt_compat, NP).
  apply Rmult_le_reg_r with M; [exact NP|]. rewrite Rmult_assoc, Rinv_l by lra. lra.
Qed.
Lemma mean_close f g D : (forall k, (0 <= k < 2 ^ 53)%Z -> Rabs (f k - g k) <= D) -> Rabs (mean_draw f - mean_draw g) <= D.
Proof.
  intros H. unfold mean_draw. apply over_close; [exact N53|]. rewrite <- P53. apply sum_to_close; [lia|exact H].
Qed.
Lemma mean_affine_gen N M f a b : (0 < N)%Z -> IZR N = M -> sum_to N (fun k => a * f k + b) / M = a * (sum_to N f / M) + b.
Proof.
  intros HN E. assert (NP : 0 < M) by (rewrite <- E; now apply IZR_lt).
  rewrite (sum_to_ext _ _ (fun k => a * f k + b * 1)) by (try lia; intros; ring). rewrite (sum_to_lin _ f (fun _ => 1)), (sum_to_const _ 1), E by lia. field. lra.
Qed.
Lemma mean_affine f a b : mean_draw (fun k => a * f k + b) = a * mean_draw f + b.
Proof. unfold mean_draw. apply mean_affine_gen; [lia|exact P53]. Qed.
Lemma mean_ext f g : (forall k, (0 <= k < 2 ^ 53)%Z -> f k = g k) -> mean_draw f = mean_draw g.
Proof. intros H. unfold mean_draw. apply (f_equal (fun a => a / 2 ^ 53)). apply sum_to_ext; [lia|exact H]. Qed.
Global Opaque mean_draw.

Lemma u_value : u = / 9007199254740992.
Proof. Transparent u. unfold u. Opaque u. f_equal. ring. Qed.

(** ** One point *)
Section Point.
  Context (fexp : f64 -> f64) (dp : det_params) (ep : elec_params) (Hs : P_Detect.sane dp ep).
  Notation b := (bucket dp ep).

  Lemma bucket_pos : 0 < b.
  Proof using Hs.
    destruct (P_OnTrack.ranges dp ep Hs) as (RL & Rn & _). unfold bucket. apply Rmult_lt_0_compat; [lra|]. apply Rdiv_lt_0_compat; lra.
  Qed.
  Lemma stored_close tb k : (0 <= tb <= 510)%Z -> (0 <= k < 2 ^ 53)%Z ->
    Rabs (stored_z fexp dp ep (smeared tb k) - (z_at dp ep (IZR tb + / 2) - b * (IZR k / 2 ^ 53 - / 2))) <= / 2 ^ 29 * b.
  Proof using Hs.
    intros T K. pose proof bucket_pos as B0. destruct (P_OnTrack.ranges dp ep Hs) as (RL & Rn & Rm & Rw & En).
    destruct (smear_bounds tb _ ltac:(lia) (unit_smear k K)) as (F & Bs). fold (smeared tb k) in F, Bs. rewrite plus_IZR in Bs.
    assert (T0 : 0 <= IZR tb <= 510) by (split; [apply (IZR_le 0)|apply (IZR_le tb 510)]; lia).
    assert (V : Rabs (R64 (smeared tb k) - (IZR tb + IZR k / 2 ^ 53)) <= / 2 ^ 40).
    { rewrite smeared_value by lia. destruct (unit_draw_ok k K) as [_ D]. rewrite (proj2 (unit_val k K)) in D. assert (0 < / 2 ^ 53) by (apply Rinv_0_lt_compat, N53).
      eapply Rle_trans; [apply (rnd_bound _ 511); rewrite Rabs_pos_eq; lra|]. pose proof eta_tiny as Et. destruct small_facts as (U0 & U1 & N0 & N1).
      assert (U : u = / 9007199254740992) by exact u_value. assert (P40 : / 2 ^ 40 = / 1099511627776) by (f_equal; ring). rewrite P40. lra. }
    assert (Rg : 0 <= R64 (smeared tb k) < 512) by lra.
    destruct (P_OnTrack.z_column_close dp ep Hs (smeared tb k) F Rg) as (Fz & Cz).
    assert (E : z_of_tb (N := F64 fexp) (ep_windows_edge ep) (ep_mm_edge ep) (dp_length dp) (smeared tb k) =
      Ok (fmul (fmul (fdiv (fsub (f_of_Z (ep_windows_edge ep)) (smeared tb k)) (f_of_Z (ep_windows_edge ep - ep_mm_edge ep))) (dp_length dp)) (f_of_Z 1000))).
    { destruct Hs as (Fl & Bl & Em & Ew).
      apply (fun C => proj1 (z_finite fexp (mkWconfig (ep_windows_edge ep) (ep_mm_edge ep) (dp_length dp) 0 None []) (mkPoint (f_of_Z 0) (smeared tb k) (f_of_Z 0)) C F
        ltac:(cbn [p_tb]; rewrite Rabs_pos_eq by lra; apply Rlt_le, Rlt_le_trans with 512; [lra|change 512 with (bpow radix2 9); apply bpow_le; lia]))).
      repeat split; cbn [wc_windows_edge wc_mm_edge wc_threshold wc_length]; try lia; [exact Fl|].
      rewrite Rabs_pos_eq by (change (bpow radix2 (-10)) with (/ 1024) in Bl; lra). eapply Rle_trans; [apply Bl|]. apply bpow_le. lia. }
    unfold stored_z. rewrite E.
    replace ((IZR (ep_windows_edge ep) - R64 (smeared tb k)) / IZR (ep_windows_edge ep - ep_mm_edge ep) * R64 (dp_length dp) * 1000)
      with ((IZR (ep_windows_edge ep) - R64 (smeared tb k)) * b) in Cz by (unfold bucket; field; lra).
    fold b in Cz. set (zf := R64 (fmul _ (f_of_Z 1000))) in *. clearbody zf. unfold z_at.
    replace (zf - ((IZR (ep_windows_edge ep) - (IZR tb + / 2)) * b - b * (IZR k / 2 ^ 53 - / 2)))
      with ((zf - (IZR (ep_windows_edge ep) - R64 (smeared tb k)) * b) + - ((R64 (smeared tb k) - (IZR tb + IZR k / 2 ^ 53)) * b)) by ring.
    eapply Rle_trans; [apply Rabs_triang|]. rewrite Rabs_Ropp, Rabs_mult, (Rabs_pos_eq b) by lra.
    assert (X : Rabs (R64 (smeared tb k) - (IZR tb + IZR k / 2 ^ 53)) * b <= / 2 ^ 40 * b) by (apply Rmult_le_compat_r; lra).
    assert (P40 : / 2 ^ 40 = / 1099511627776) by (f_equal; ring). assert (P30 : / 2 ^ 30 = / 1073741824) by (f_equal; ring). assert (P29 : / 2 ^ 29 = / 536870912) by (f_equal; ring).
    rewrite P40 in X. rewrite P30 in Cz. rewrite P29. lra.
  Qed.

  (** C106: averaged over the draw the stored z is that of the middle of the time bucket, and its standard deviation
      is a bucket over the square root of 12. *)
  Theorem C106_middle tb : (0 <= tb <= 510)%Z ->
    let z k := stored_z fexp dp ep (smeared tb k) in
    let middle := z_at dp ep (IZR tb + / 2) in
    Rabs (mean_draw z - middle) <= / 2 ^ 28 * b /\
    Rabs (mean_draw (fun k => (z k - middle) ^ 2) - b ^ 2 / 12) <= / 2 ^ 27 * b ^ 2.
  Proof using Hs.
    intros T z middle. pose proof bucket_pos as B0. destruct mean_off as (M1 & M2). set (s := fun k => IZR k / 2 ^ 53 - / 2) in *.
    assert (P53' : / 2 ^ 53 = / 9007199254740992) by (f_equal; ring). assert (P29 : / 2 ^ 29 = / 536870912) by (f_equal; ring).
    assert (P28 : / 2 ^ 28 = / 268435456) by (f_equal; ring). assert (P27 : / 2 ^ 27 = / 134217728) by (f_equal; ring).
    assert (C : forall k, (0 <= k < 2 ^ 53)%Z -> Rabs (z k - (- b * s k + middle)) <= / 2 ^ 29 * b).
    { intros k K. replace (- b * s k + middle) with (middle - b * s k) by ring. exact (stored_close tb k T K). }
    split.
    - pose proof (mean_close z (fun k => - b * s k + middle) _ C) as Q. rewrite (mean_affine s), M1 in Q.
      rewrite P29 in Q. rewrite P53' in Q. rewrite P28. apply Rabs_le_inv in Q. apply Rabs_le. lra.
    - assert (C2 : forall k, (0 <= k < 2 ^ 53)%Z -> Rabs ((z k - middle) ^ 2 - (b ^ 2 * s k ^ 2 + 0)) <= / 2 ^ 28 * b ^ 2).
      { intros k K. specialize (C k K). assert (S : Rabs (s k) <= / 2).
        { unfold s. destruct (unit_draw_ok k K) as [_ D]. rewrite (proj2 (unit_val k K)) in D. apply Rabs_le. assert (0 < / 2 ^ 53) by (apply Rinv_0_lt_compat, N53). lra. }
        set (e := z k - (- b * s k + middle)) in *. replace ((z k - middle) ^ 2 - (b ^ 2 * s k ^ 2 + 0)) with (e * (e - 2 * (b * s k))) by (unfold e; ring).
        rewrite Rabs_mult. assert (S2 : Rabs (e - 2 * (b * s k)) <= / 2 ^ 29 * b + b).
        { eapply Rle_trans; [apply Rabs_triang|]. rewrite Rabs_Ropp, Rabs_mult, (Rabs_pos_eq 2), Rabs_mult, (Rabs_pos_eq b) by lra.
          assert (b * Rabs (s k) <= b * / 2) by (apply Rmult_le_compat_l; lra). lra. }
        eapply Rle_trans; [apply Rmult_le_compat; [apply Rabs_pos|apply Rabs_pos|exact C|exact S2]|].
        rewrite P29, P28. assert (0 <= b ^ 2) by apply pow2_ge_0. replace (/ 536870912 * b * (/ 536870912 * b + b)) with (/ 536870912 * (/ 536870912 + 1) * b ^ 2) by ring. apply Rmult_le_compat_r; lra. }
      pose proof (mean_close _ (fun k => b ^ 2 * s k ^ 2 + 0) _ C2) as Q. rewrite (mean_affine (fun k => s k ^ 2)) in Q.
      assert (M2' : mean_draw (fun k => s k ^ 2) = / 12 + / 6 * (/ 2 ^ 53 * / 2 ^ 53)) by exact M2. rewrite M2' in Q.
      rewrite P28 in Q. rewrite P53' in Q. rewrite P27. assert (0 <= b ^ 2) by apply pow2_ge_0. apply Rabs_le_inv in Q. apply Rabs_le. lra.
  Qed.

  (** C106: seen from the track the average is off by the distance of the arrival time from the middle of its
      bucket, at most half a bucket in either direction. *)
  Theorem C106_track dv g ed z tb :
    drift_velocity (N := F64 fexp) (dp_length dp) (ep_windows_edge ep) (ep_mm_edge ep) = Ok dv ->
    P_Detect.around (dp_length dp) z ->
    f_to_Z (drift_time fexp (Simulator.mkConfig fexp (dp_length dp) (dp_efield dp) (dp_diffusion dp) dv (dp_gain dp) (ep_mm_edge ep) g ed) z) = Some tb ->
    (tb <= 510)%Z ->
    let mean := mean_draw (fun k => stored_z fexp dp ep (smeared tb k)) in
    let t := arrival dp ep (R64 z) in
    Rabs (mean - (1000 * R64 z + (t - (IZR tb + / 2)) * b)) <= / 2 ^ 28 * b /\
    - / 2 ^ 29 <= t - IZR tb <= 1 + / 2 ^ 29 /\
    Rabs (mean - 1000 * R64 z) <= (/ 2 + / 2 ^ 27) * b.
  Proof using Hs.
    intros Ed Az Et T mean t. pose proof bucket_pos as B0. destruct (P_OnTrack.ranges dp ep Hs) as (RL & Rn & Rm & Rw & En).
    destruct (P_OnTrack.drift_time_close dp ep Hs fexp dv g ed z Ed Az) as (Fv & V0 & Cv). cbv zeta in Fv, V0, Cv.
    apply f_to_Z_inv in Et as (_ & Etb & _). set (v := R64 (drift_time _ _ _)) in *.
    change (Rabs (v - t) <= / 2 ^ 29) in Cv. rewrite Ztrunc_floor in Etb by exact V0.
    assert (T0 : (0 <= tb)%Z) by (rewrite Etb; apply Zfloor_lub; exact V0).
    assert (Lo : IZR tb <= v) by (rewrite Etb; apply Zfloor_lb). assert (Up : v < IZR tb + 1) by (rewrite Etb; apply Zfloor_ub).
    clearbody v. apply Rabs_le_inv in Cv. destruct (C106_middle tb ltac:(lia)) as (M & _). cbv zeta in M. fold mean in M.
    assert (Z : z_at dp ep (IZR tb + / 2) = 1000 * R64 z + (t - (IZR tb + / 2)) * b).
    { unfold z_at. replace (1000 * R64 z) with ((IZR (ep_windows_edge ep) - t) * b); [ring|]. unfold t, arrival, bucket. rewrite minus_IZR in *. field. lra. }
    rewrite Z in M. split; [exact M|]. split; [lra|].
    assert (P29 : / 2 ^ 29 = / 536870912) by (f_equal; ring). assert (P28 : / 2 ^ 28 = / 268435456) by (f_equal; ring). assert (P27 : / 2 ^ 27 = / 134217728) by (f_equal; ring).
    rewrite P29 in *. rewrite P28 in *. rewrite P27.
    assert (X : Rabs ((t - (IZR tb + / 2)) * b) <= (/ 2 + / 536870912) * b) by (rewrite Rabs_mult, (Rabs_pos_eq b) by lra; apply Rmult_le_compat_r; [lra|apply Rabs_le; lra]).
    apply Rabs_le_inv in X. apply Rabs_le_inv in M. apply Rabs_le. lra.
  Qed.
End Point.

(** ** In the cloud *)
Section Theorems.
  Context (fexp : f64 -> f64) {H Nuc Mom Vtx Vel : Type}.
  Context (get_data : Z -> Z -> res Nuc)
    (generate_trajectory : Vtx -> Mom -> Nuc -> config fexp -> res (list (@traj Vel)))
    (generate_electrons : list (@traj Vel) -> Nuc -> config fexp -> nat * H -> list Z * (nat * H)).
  Notation sim d := (simulate fexp get_data generate_trajectory generate_electrons (uniform_at d)).

  (** C106: every pad and bucket up to 510 that is hit has a point in the cloud for every value of its draw, with the
      same charge and label, and the z stored for it has this average, whatever the other draws are. *)
  Theorem C106_cloud dp ep momenta vertex zs ms (c : config fexp) rng indices g ge l p h lds : P_Detect.sane dp ep ->
    c_grid fexp c = Some g -> c_edges fexp c = Some ge -> (forall i j, (-1 <= gr_cell g i j < 2 ^ 26)%Z) ->
    SpecSim.near fexp generate_trajectory momenta vertex c ->
    tracks fexp get_data generate_trajectory generate_electrons momenta vertex zs ms c indices rng l (p, h) ->
    event_ledger (N := F64 fexp) g ge (c_diffusion fexp c) (c_efield fexp c) (c_drift fexp c) l lds ->
    forall tb pad, (0 <= tb <= 510)%Z -> hit lds tb pad -> exists place label, forall d, valid d ->
      exists points : Z -> point,
        (forall k, (0 <= k < 2 ^ 53)%Z -> p_pad (points k) = f_of_Z pad /\ p_el (points k) = f_of_Z (wrap64 (collected tb pad lds)) /\
           exists cloud labels st, sim (ConfigObj.set d place k) momenta vertex zs ms c rng indices = Ok ((cloud, labels), st) /\
             In (points k, label) (combine cloud labels)) /\
        let z k := stored_z fexp dp ep (p_tb (points k)) in
        let middle := z_at dp ep (IZR tb + / 2) in
        Rabs (mean_draw z - middle) <= / 2 ^ 28 * bucket dp ep /\
        Rabs (mean_draw (fun k => (z k - middle) ^ 2) - bucket dp ep ^ 2 / 12) <= / 2 ^ 27 * bucket dp ep ^ 2.
  Proof using Type.
    intros Hs Hg He Hp Hn Ht Hl tb pad T Hh.
    destruct (C97_cloud fexp get_data generate_trajectory generate_electrons momenta vertex zs ms c rng indices g ge l p h lds Hg He Hp Hn Ht Hl)
      as (n & cells & _ & _ & _ & Hit & _ & All).
    apply Hit in Hh as (x & Ix & Ex & Px); [|lia]. exists (c_place x), (c_label x). intros d Vd.
    assert (At : forall k, ConfigObj.set d (c_place x) k (c_place x) = k) by (intros k; unfold ConfigObj.set; now rewrite Nat.eqb_refl).
    exists (fun k => cell_point (ConfigObj.set d (c_place x) k) lds x). split.
    - intros k K. unfold cell_point at 1 2. cbn [p_pad p_el]. rewrite Ex, Px. split; [reflexivity|]. split; [reflexivity|].
      assert (Vk : valid (ConfigObj.set d (c_place x) k)) by (intros j; unfold ConfigObj.set; destruct (Nat.eqb j (c_place x)); [exact K|apply Vd]).
      pose proof (All _ Vk) as E. cbv zeta in E. eexists _, _, _. split; [exact E|].
      assert (I : In x (filter (fun y => stays (c_tb y) (ConfigObj.set d (c_place x) k (c_place y))) cells)).
      { apply filter_In. split; [exact Ix|]. rewrite Ex. unfold stays. replace (tb <=? 510)%Z with true by lia. reflexivity. }
      revert I. generalize (filter (fun y => stays (c_tb y) (ConfigObj.set d (c_place x) k (c_place y))) cells) as kc. induction kc as [|y kc IH]; intros I; [destruct I|].
      cbn [map combine]. destruct I as [->|I]; [now left|right; exact (IH I)].
    - cbv zeta. pose proof (C106_middle fexp dp ep Hs tb T) as M. cbv zeta in M.
      assert (Z : forall k, stored_z fexp dp ep (p_tb (cell_point (ConfigObj.set d (c_place x) k) lds x)) = stored_z fexp dp ep (smeared tb k)).
      { intros k. unfold cell_point. cbn [p_tb]. now rewrite At, Ex. }
      rewrite (mean_ext (fun k => stored_z fexp dp ep (p_tb (cell_point (ConfigObj.set d (c_place x) k) lds x))) (fun k => stored_z fexp dp ep (smeared tb k))) by (intros; apply Z).
      rewrite (mean_ext (fun k => (stored_z fexp dp ep (p_tb (cell_point (ConfigObj.set d (c_place x) k) lds x)) - z_at dp ep (IZR tb + / 2)) ^ 2)
        (fun k => (stored_z fexp dp ep (smeared tb k) - z_at dp ep (IZR tb + / 2)) ^ 2)) by (intros; now rewrite Z). exact M.
  Qed.
End Theorems.

(** ** Examples: a detector of one metre with 512 buckets *)
Lemma e_sane : P_Detect.sane P_Detect.e_dp P_Detect.e_ep.
Proof.
  unfold P_Detect.sane, P_Detect.e_dp, P_Detect.e_ep. cbn [dp_length ep_mm_edge ep_windows_edge]. split; [apply f_of_Z_fin; lia|].
  rewrite (f_of_Z_R 1) by lia. change (bpow radix2 (-10)) with (/ 1024). change (bpow radix2 10) with 1024. split; [lra|lia].
Qed.
Lemma e_bucket : bucket P_Detect.e_dp P_Detect.e_ep = 1000 / 512.
Proof. unfold bucket, P_Detect.e_dp, P_Detect.e_ep. cbn [dp_length ep_mm_edge ep_windows_edge]. rewrite (f_of_Z_R 1) by lia. change (512 - 0)%Z with 512%Z. lra. Qed.
(** Bucket 256 lies below the middle of the detector: 499.02 mm on average, with a width of 0.564 mm. *)
Example C106_middle_example fexp :
  let z k := stored_z fexp P_Detect.e_dp P_Detect.e_ep (smeared 256 k) in
  499 + 2 / 100 <= mean_draw z <= 499 + 3 / 100 /\ 317 / 1000 <= mean_draw (fun k => (z k - (500 - 1000 / 1024)) ^ 2) <= 318 / 1000.
Proof.
  cbv zeta. destruct (C106_middle fexp _ _ e_sane 256 ltac:(lia)) as (A & B). cbv zeta in A, B.
  assert (M : z_at P_Detect.e_dp P_Detect.e_ep (256 + / 2) = 500 - 1000 / 1024) by (unfold z_at; rewrite e_bucket; cbn [P_Detect.e_ep ep_windows_edge]; lra).
  rewrite M in A, B. rewrite e_bucket in A, B.
  assert (P28 : / 2 ^ 28 = / 268435456) by (f_equal; ring). assert (P27 : / 2 ^ 27 = / 134217728) by (f_equal; ring). rewrite P28 in A. rewrite P27 in B.
  apply Rabs_le_inv in A. apply Rabs_le_inv in B. split; lra.
Qed.
Definition e_velocity (fexp : f64 -> f64) : res f64 := drift_velocity (N := F64 fexp) (dp_length P_Detect.e_dp) (ep_windows_edge P_Detect.e_ep) (ep_mm_edge P_Detect.e_ep).
Definition e_drift (fexp : f64 -> f64) : f64 := match e_velocity fexp with Ok v => v | Err _ => f_of_Z 0 end.
Lemma e_drift_ok fexp : e_velocity fexp = Ok (e_drift fexp).
Proof.
  assert (V : match e_velocity fexp with Ok _ => true | Err _ => false end = true) by (vm_compute; reflexivity).
  unfold e_drift. destruct (e_velocity fexp) as [v|]; [reflexivity|discriminate V].
Qed.
(** Ionisation in the middle of the detector, z = 1/2: the stored z is 0.977 mm too small on average, half a bucket. *)
Example C106_track_example fexp : let mean := mean_draw (fun k => stored_z fexp P_Detect.e_dp P_Detect.e_ep (smeared 256 k)) in
  - 98 / 100 <= mean - 1000 * R64 half <= - 97 / 100.
Proof.
  cbv zeta. destruct (C106_track fexp _ _ e_sane (e_drift fexp) None None half 256) as (A & _ & _).
  - exact (e_drift_ok fexp).
  - destruct half_ok as (F & B). split; [exact F|]. unfold P_Detect.e_dp. cbn [dp_length]. rewrite (f_of_Z_R 1) by lia. rewrite Rabs_pos_eq; lra.
  - vm_compute. reflexivity.
  - lia.
  - cbv zeta in A. assert (Hh : R64 half = / 2) by (unfold half; destruct (f_of_ZE_correct 1 (-1) ltac:(lia) ltac:(lia)) as (E & _); rewrite E; unfold F2R; cbn; lra).
    assert (T : arrival P_Detect.e_dp P_Detect.e_ep (R64 half) = 256).
    { unfold arrival, P_Detect.e_dp, P_Detect.e_ep. cbn [dp_length ep_mm_edge ep_windows_edge]. rewrite Hh, (f_of_Z_R 1) by lia. change (512 - 0)%Z with 512%Z. lra. }
    rewrite T, e_bucket in A. assert (P28 : / 2 ^ 28 = / 268435456) by (f_equal; ring). rewrite P28 in A. apply Rabs_le_inv in A. lra.
Qed.

(** An event with this ionisation: the cloud has a point of pad 300 for every draw. *)
Section Example.
  Context (fexp : f64 -> f64).
  Definition ce_traj (v : unit) (m : Z) (n : Z) (c : config fexp) : res (list (@traj unit)) := Ok [mkTraj (f_of_Z 0) (f_of_Z 0) half tt].
  Definition ce_electrons (t : list (@traj unit)) (n : Z) (c : config fexp) (g : nat * Z) : list Z * (nat * Z) := ([n], (fst g, snd g + 1)%Z).
  Definition ce_sim (d : nat -> Z) := simulate fexp (fun z a => Ok (100 * z + a)%Z) ce_traj ce_electrons (uniform_at d) [0%Z] tt [1%Z] [1%Z] (sm_config fexp) (0%nat, 0%Z) [0%Z].
  Example C106_cloud_example : exists place label, forall d, valid d -> exists points : Z -> point,
    (forall k, (0 <= k < 2 ^ 53)%Z -> exists cloud labels st, ce_sim (ConfigObj.set d place k) = Ok ((cloud, labels), st) /\ In (points k, label) (combine cloud labels)) /\
    499 + 2 / 100 <= mean_draw (fun k => stored_z fexp P_Detect.e_dp P_Detect.e_ep (p_tb (points k))) <= 499 + 3 / 100.
  Proof.
    set (d0 := fun _ : nat => 0%Z). assert (V0 : valid d0) by (intros k; unfold d0; lia).
    assert (W : match ce_sim d0 with Ok (([q], _), _) => feqb (p_tb q) (f_of_Z 256) | _ => false end = true) by (vm_compute; reflexivity).
    destruct (ce_sim d0) as [[[cloud labels] rng']|] eqn:E; [|discriminate W].
    assert (Lc : length cloud = 1%nat) by (destruct cloud as [|q [|? ?]]; [discriminate W|reflexivity|discriminate W]).
    unfold ce_sim in E. pose proof E as E'. apply (simulate_iff _ _ _ _ _ _ _ _ _ (sm_config fexp) (ex_grid 300) (ex_edges fexp) eq_refl eq_refl) in E'.
    destruct E' as (l & [p h] & lds & us & Ht & Hl & _).
    assert (Nr : SpecSim.near fexp ce_traj [0%Z] tt (sm_config fexp)).
    { intros q nuc track t tb _ Et It Hb. unfold ce_traj in Et. apply (f_equal (fun r => match r with Ok x => x | _ => [] end)) in Et.
      cbv beta match in Et. rewrite <- Et in It. destruct It as [<-|[]].
      assert (A : f_to_Z (drift_time fexp (sm_config fexp) half) = Some 256%Z) by (vm_compute; reflexivity). cbn [t_z] in Hb. rewrite A in Hb. assert (tb = 256%Z) by congruence. lia. }
    destruct (C97_cloud fexp _ _ _ [0%Z] tt [1%Z] [1%Z] (sm_config fexp) (0%nat, 0%Z) [0%Z] (ex_grid 300) (ex_edges fexp) l p h lds eq_refl eq_refl ltac:(intros; cbn; lia) Nr Ht Hl)
      as (n & cells & _ & _ & _ & Hit & Cp & All).
    pose proof (All d0 V0) as E0. cbv zeta in E0. rewrite E in E0.
    assert (Ec : cloud = map (cell_point d0 lds) (filter (fun x => stays (c_tb x) (d0 (c_place x))) cells)) by congruence.
    destruct (filter (fun x => stays (c_tb x) (d0 (c_place x))) cells) as [|x [|? ?]] eqn:Ef; rewrite Ec in Lc; cbn [map length] in Lc; try discriminate Lc.
    assert (Ix : In x cells /\ stays (c_tb x) 0 = true) by (apply (filter_In (fun x => stays (c_tb x) (d0 (c_place x)))); rewrite Ef; now left).
    destruct Ix as (Ix & Sx). destruct (Cp x Ix) as (Tx & _).
    assert (Tb : c_tb x = 256%Z).
    { assert (Tu : (c_tb x <= 511)%Z) by (unfold stays in Sx; lia).
      rewrite Ec in W. cbn [map cell_point p_tb] in W. unfold d0 in W.
      destruct (smear_bounds (c_tb x) _ ltac:(lia) (unit_smear 0 ltac:(lia))) as (F & B). fold (smeared (c_tb x) 0) in F, B.
      rewrite feqb_R in W by (auto; apply f_of_Z_fin; lia). rewrite (f_of_Z_R 256), smeared_value in W by lia.
      replace (IZR (c_tb x) + 0 / 2 ^ 53) with (IZR (c_tb x)) in W by lra. rewrite rnd64_fmt in W by (apply fmt64_IZR; lia).
      destruct (Req_bool_spec (IZR (c_tb x)) 256) as [Q|Q]; [now apply eq_IZR|discriminate W]. }
    assert (Hh : hit lds 256 (c_pad x)) by (apply Hit; [lia|]; exists x; auto).
    destruct (C106_cloud fexp _ _ _ P_Detect.e_dp P_Detect.e_ep [0%Z] tt [1%Z] [1%Z] (sm_config fexp) (0%nat, 0%Z) [0%Z] (ex_grid 300) (ex_edges fexp) l p h lds
      e_sane eq_refl eq_refl ltac:(intros; cbn; lia) Nr Ht Hl 256%Z (c_pad x) ltac:(lia) Hh) as (place & label & C).
    exists place, label. intros d Vd. destruct (C d Vd) as (points & P1 & P2). exists points. split.
    - intros k K. apply (P1 k K).
    - destruct P2 as (A & _). cbv zeta in A.
      assert (M : z_at P_Detect.e_dp P_Detect.e_ep (256 + / 2) = 500 - 1000 / 1024) by (unfold z_at; rewrite e_bucket; cbn [P_Detect.e_ep ep_windows_edge]; lra).
      rewrite M, e_bucket in A. assert (P28 : / 2 ^ 28 = / 268435456) by (f_equal; ring). rewrite P28 in A. apply Rabs_le_inv in A. lra.
  Qed.
End Example.

Print Assumptions C106_middle.
Print Assumptions C106_track.
Print Assumptions C106_cloud.
