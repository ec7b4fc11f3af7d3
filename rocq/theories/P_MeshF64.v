(** P_MeshF64.v -- C87: the diffusion mesh in binary64 when the spread can be resolved. *)
From Coq Require Import ZArith Reals Lia Lra List.
From Flocq Require Import Core BinarySingleNaN.
From Verif Require Import Base F64 F64Bounds Num Pairing BeamPads Transporter SpecTransport TransportProofs TransportF64 MeshReal P_Mesh KinF64 P_KinF64 P_ElectronsF64.
Import ListNotations.
Local Open Scope R_scope.

(** libm exp between -20 and 0: within a relative 2^-40. *)
Definition exp_near (fexp : f64 -> f64) : Prop := forall x, is_finite x = true -> -20 <= R64 x <= 0 ->
  is_finite (fexp x) = true /\ Rabs (R64 (fexp x) - exp (R64 x)) <= / 2 ^ 40 * exp (R64 x).

(** The width [s] (metres) can be resolved at the point (x, y): a nanometre to a kilometre, and the
    coordinates are at most 2^30 widths. *)
Definition resolved (x y s : f64) : Prop :=
  is_finite x = true /\ is_finite y = true /\ is_finite s = true /\
  / 1000000000 <= R64 s <= 1000 /\ Rabs (R64 x) <= 2 ^ 30 * R64 s /\ Rabs (R64 y) <= 2 ^ 30 * R64 s.

(** Share of the pixel that is (t, v) widths from the centre: the normal density there times the
    area of a pixel, which is 2/3 of a width on each side. *)
Definition share (t v : R) : R := exp (- (t * t + v * v) / 2) / (2 * PI) * (2 / 3) ^ 2.

(** [x] is [X] up to the relative error [d]. *)
Definition near (d x X : R) : Prop := Rabs (x - X) <= d * Rabs X.

Lemma near_le d d' x X : near d x X -> d <= d' -> near d' x X.
Proof. intros H L. unfold near in *. eapply Rle_trans; [exact H|]. apply Rmult_le_compat_r; [apply Rabs_pos|exact L]. Qed.
Lemma near_self d x : 0 <= d -> near d x x.
Proof. intros H. unfold near. rewrite Rminus_eq_0, Rabs_R0. apply Rmult_le_pos; [exact H|apply Rabs_pos]. Qed.
Lemma near_eq d x X Y : near d x X -> X = Y -> near d x Y. Proof. now intros H <-. Qed.

Lemma near_ratio d x X : X <> 0 -> near d x X -> exists r, x = X * (1 + r) /\ Rabs r <= d.
Proof.
  intros N H. exists ((x - X) / X). split; [field; exact N|]. unfold Rdiv. rewrite Rabs_mult, Rabs_inv.
  apply Rabs_pos_lt in N. apply div_le; assumption.
Qed.
Lemma ratio_near d X r : Rabs r <= d -> near d (X * (1 + r)) X.
Proof.
  intros H. unfold near. replace (X * (1 + r) - X) with (r * X) by ring. rewrite Rabs_mult.
  apply Rmult_le_compat_r; [apply Rabs_pos|exact H].
Qed.

Definition huge : R := 1000000000000000000000000000000.
Lemma huge_b2 : 2 * huge <= b2 110.
Proof. unfold huge. change (b2 110) with 1298074214633706907132624082305024. lra. Qed.

Lemma eta_far : eta <= u * / 10000000000000000000000000000000000000000.
Proof.
  Transparent u eta. unfold eta, u. assert (H : / 2 ^ 1000 <= / 2 ^ 200).
  { apply Rinv_le_contravar; [apply pow_lt; lra|]. apply Rle_pow; [lra|lia]. }
  lra.
Qed.
#[global] Opaque u eta.

(** Rounding a number of moderate size. *)
Lemma rnd_near x d X : X <> 0 -> near d x X -> 0 <= d <= / 100 -> / huge <= Rabs X -> near (d + 2 * u) (rnd64 x) X.
Proof.
  intros N H Hd HX. pose proof (near_ratio _ _ _ N H) as (r & -> & Hr). destruct small_facts as (U0 & U1 & T0 & T1). pose proof eta_far as EF.
  assert (B : Rabs (X * (1 + r)) <= 101 / 100 * Rabs X).
  { rewrite Rabs_mult, Rmult_comm. apply Rmult_le_compat_r; [apply Rabs_pos|]. apply Rabs_le_inv in Hr. apply Rabs_le. lra. }
  pose proof (rnd_bound _ _ B) as R. unfold near in *. unfold huge in HX.
  assert (u * / 10000000000000000000000000000000000000000 <= u * (/ 100 * Rabs X)) by (apply Rmult_le_compat_l; lra).
  apply Rabs_le_inv in R, H. apply Rabs_le. lra.
Qed.

Lemma mulG (x y : f64) X Y d1 d2 d : is_finite x = true -> is_finite y = true -> near d1 (R64 x) X -> near d2 (R64 y) Y ->
  0 <= d1 <= / 1000 -> 0 <= d2 <= / 1000 -> d1 + d2 + d1 * d2 <= d -> d <= / 100 -> / huge <= Rabs (X * Y) <= huge ->
  is_finite (fmul x y) = true /\ near (d + 2 * u) (R64 (fmul x y)) (X * Y).
Proof.
  intros Fx Fy Hx Hy H1 H2 Hd Hd1 HS.
  assert (NT : X * Y <> 0) by (intros E; rewrite E, Rabs_R0 in HS; unfold huge in HS; lra).
  assert (NX : X <> 0) by (intros E; apply NT; rewrite E; ring). assert (NY : Y <> 0) by (intros E; apply NT; rewrite E; ring).
  destruct (near_ratio _ _ _ NX Hx) as (r & Er & Hr). destruct (near_ratio _ _ _ NY Hy) as (q & Eq & Hq).
  assert (D0 : 0 <= d) by (assert (0 <= d1 * d2) by (apply Rmult_le_pos; lra); lra).
  assert (HH : near d (R64 x * R64 y) (X * Y)).
  { rewrite Er, Eq. replace (X * (1 + r) * (Y * (1 + q))) with (X * Y * (1 + (r + q + r * q))) by ring. apply ratio_near.
    assert (M : Rabs (r * q) <= d1 * d2) by (rewrite Rabs_mult; apply Rmult_le_compat; try apply Rabs_pos; lra).
    apply Rabs_le_inv in Hr, Hq, M. apply Rabs_le. lra. }
  assert (Sz : Rabs (R64 x * R64 y) <= 2 * huge).
  { unfold near in HH. pose proof (Rabs_triang_inv (R64 x * R64 y) (X * Y)).
    assert (d * Rabs (X * Y) <= 1 * Rabs (X * Y)) by (apply Rmult_le_compat_r; [apply Rabs_pos|lra]). lra. }
  destruct (fmul_fin x y 110 Fx Fy ltac:(lia)) as (E & F); [pose proof huge_b2; lra|].
  split; [exact F|]. rewrite E. apply rnd_near; [exact NT|exact HH|lra|apply HS].
Qed.
Lemma mulM (x y : f64) X Y d1 d2 : is_finite x = true -> is_finite y = true -> near d1 (R64 x) X -> near d2 (R64 y) Y ->
  0 <= d1 <= / 1000 -> 0 <= d2 <= / 1000000000000 -> / huge <= Rabs (X * Y) <= huge ->
  is_finite (fmul x y) = true /\ near (d1 + 2 * d2 + 2 * u) (R64 (fmul x y)) (X * Y).
Proof.
  intros Fx Fy Hx Hy H1 H2 HS. apply (mulG x y X Y d1 d2); try assumption; try lra.
  assert (d1 * d2 <= / 1000 * d2) by (apply Rmult_le_compat_r; lra). lra.
Qed.

Lemma divM (x y : f64) X Y d1 d2 : is_finite x = true -> near d1 (R64 x) X -> near d2 (R64 y) Y -> Y <> 0 ->
  0 <= d1 <= / 1000 -> 0 <= d2 <= / 1000000000000 -> / huge <= Rabs (X / Y) <= huge ->
  is_finite (fdiv x y) = true /\ near (d1 + 2 * d2 + 2 * u) (R64 (fdiv x y)) (X / Y).
Proof.
  intros Fx Hx Hy NY H1 H2 HS.
  assert (NT : X / Y <> 0) by (intros E; rewrite E, Rabs_R0 in HS; unfold huge in HS; lra).
  assert (NX : X <> 0) by (intros E; apply NT; rewrite E; unfold Rdiv; ring).
  destruct (near_ratio _ _ _ NX Hx) as (r & Er & Hr). destruct (near_ratio _ _ _ NY Hy) as (q & Eq & Hq).
  assert (Q1 : / 2 <= 1 + q) by (apply Rabs_le_inv in Hq; lra).
  assert (Ny : R64 y <> 0) by (rewrite Eq; apply Rmult_integral_contrapositive_currified; lra).
  assert (HH : near (d1 + 2 * d2) (R64 x / R64 y) (X / Y)).
  { rewrite Er, Eq. replace (X * (1 + r) / (Y * (1 + q))) with (X / Y * (1 + (r - q) / (1 + q))) by (field; split; [lra|exact NY]). apply ratio_near.
    unfold Rdiv. rewrite Rabs_mult, Rabs_inv, (Rabs_pos_eq (1 + q)) by lra. apply div_le; [lra|].
    assert (M : Rabs (d1 * q) <= / 1000 * d2) by (rewrite Rabs_mult; apply Rmult_le_compat; try apply Rabs_pos; try (rewrite Rabs_pos_eq; lra); lra).
    assert (M2 : Rabs (d2 * q) <= / 1000 * d2) by (rewrite Rabs_mult, (Rmult_comm (/ 1000)); apply Rmult_le_compat; try apply Rabs_pos; try (rewrite Rabs_pos_eq; lra); lra).
    apply Rabs_le_inv in Hr, Hq, M, M2. apply Rabs_le. lra. }
  assert (Sz : Rabs (R64 x / R64 y) <= 2 * huge).
  { unfold near in HH. pose proof (Rabs_triang_inv (R64 x / R64 y) (X / Y)).
    assert ((d1 + 2 * d2) * Rabs (X / Y) <= 1 * Rabs (X / Y)) by (apply Rmult_le_compat_r; [apply Rabs_pos|lra]). lra. }
  destruct (fdiv_fin x y 110 Fx Ny ltac:(lia)) as (E & F); [pose proof huge_b2; lra|].
  split; [exact F|]. rewrite E. apply rnd_near; [exact NT|exact HH|lra|apply HS].
Qed.

Lemma addM (x y : f64) X Y d : is_finite x = true -> is_finite y = true -> near d (R64 x) X -> near d (R64 y) Y ->
  0 < X -> 0 < Y -> 0 <= d <= / 1000 -> / huge <= X + Y <= huge ->
  is_finite (fadd x y) = true /\ near (d + 2 * u) (R64 (fadd x y)) (X + Y).
Proof.
  intros Fx Fy Hx Hy X0 Y0 Hd HS.
  assert (HH : near d (R64 x + R64 y) (X + Y)).
  { unfold near in *. rewrite (Rabs_pos_eq X) in Hx by lra. rewrite (Rabs_pos_eq Y) in Hy by lra. rewrite (Rabs_pos_eq (X + Y)) by lra. apply Rabs_le_inv in Hx, Hy. apply Rabs_le. lra. }
  assert (Sz : Rabs (R64 x + R64 y) <= 2 * huge).
  { unfold near in HH. rewrite (Rabs_pos_eq (X + Y)) in HH by lra.
    assert (d * (X + Y) <= 1 * (X + Y)) by (apply Rmult_le_compat_r; lra). apply Rabs_le_inv in HH. apply Rabs_le. lra. }
  destruct (fadd_fin x y 110 Fx Fy ltac:(lia)) as (E & F); [pose proof huge_b2; lra|].
  split; [exact F|]. rewrite E. apply rnd_near; [apply Rgt_not_eq; lra|exact HH|lra|rewrite Rabs_pos_eq; lra].
Qed.

Lemma rnd_abs x B : Rabs x <= B -> / huge <= B -> Rabs (rnd64 x - x) <= 2 * (u * B).
Proof.
  intros H L. pose proof (rnd_bound _ _ H) as R. pose proof eta_far as EF. destruct small_facts as (U0 & U1 & T0 & T1). unfold huge in L.
  assert (u * / 10000000000000000000000000000000000000000 <= u * B) by (apply Rmult_le_compat_l; lra). lra.
Qed.
Lemma u_31 : u * 2147483648 = / 4194304.
Proof. Transparent u. unfold u. lra. Qed.
#[global] Opaque u.

(** Coordinate i of an axis: exactly (i * 2/3 - 3) widths from the centre. *)
Definition tick (i : nat) : R := -3 + 2 / 3 * INR i.

(** ** One axis of the mesh *)
Section Axis.
  Context (c s : f64) (Fc : is_finite c = true) (Fs : is_finite s = true).
  Context (Hs : / 1000000000 <= R64 s <= 1000) (Hc : Rabs (R64 c) <= 2 ^ 30 * R64 s).

  Definition axis_start : f64 := fsub c (fmul (f_of_Z 3) s).
  Definition axis_stop : f64 := fadd c (fmul (f_of_Z 3) s).
  Definition axis_point (i : nat) : f64 :=
    if (Z.of_nat i =? 9)%Z then axis_stop
    else fadd axis_start (fmul (f_of_Z (Z.of_nat i)) (fdiv (fsub axis_stop axis_start) (f_of_Z 9))).

  Lemma axis_close (i : nat) : (i < 10)%nat ->
    is_finite (axis_point i) = true /\ Rabs (R64 (axis_point i) - (R64 c + tick i * R64 s)) <= / 400000 * R64 s /\
    is_finite (fsub (axis_point i) c) = true /\ Rabs (R64 (fsub (axis_point i) c) - tick i * R64 s) <= / 400000 * R64 s.
  Proof using Fc Fs Hs Hc.
    intros Hi. set (g := R64 s) in *. destruct small_facts as (U0 & U1 & _ & _). pose proof u_31 as U31.
    assert (P30 : 2 ^ 30 = 1073741824) by ring. rewrite P30 in Hc. clear P30.
    assert (HU : 0 < huge) by (unfold huge; lra).
    set (w := u * (2147483648 * g)).
    assert (Ew : w = / 4194304 * g) by (unfold w; rewrite <- U31; ring).
    assert (UG : u * g = w / 2147483648) by (unfold w; field).
    assert (Hb : forall k, 0 < k -> / huge <= / 1000000000 * k -> / huge <= k * g).
    { intros k K0 K. eapply Rle_trans; [exact K|]. rewrite (Rmult_comm k). apply Rmult_le_compat_r; lra. }
    assert (Big : forall k, 0 <= k <= 2147483648 -> k * g <= b2 60).
    { intros k K. change (b2 60) with 1152921504606846976. eapply Rle_trans; [apply Rmult_le_compat; [| |apply K|apply Hs]|]; lra. }
    (* 3 * sigma *)
    assert (A3 : Rabs (3 * g) <= 3 * g) by (rewrite Rabs_pos_eq; lra).
    destruct (fmul_fin (f_of_Z 3) s 60 (f_of_Z_fin 3 ltac:(lia)) Fs ltac:(lia)) as (E3 & F3).
    { rewrite f_of_Z_R by lia. fold g. eapply Rle_trans; [exact A3|]. apply Big. lra. }
    rewrite f_of_Z_R in E3 by lia. fold g in E3.
    pose proof (rnd_abs _ _ A3 ltac:(apply Hb; unfold huge; lra)) as R3. rewrite <- E3 in R3.
    unfold axis_point, axis_start, axis_stop. set (s3 := fmul (f_of_Z 3) s) in *. clearbody s3. clear E3 A3.
    assert (W3 : Rabs (R64 s3 - 3 * g) <= w / 1000) by (eapply Rle_trans; [exact R3|]; lra). clear R3.
    apply Rabs_le_inv in W3. apply Rabs_le_inv in Hc.
    assert (W0 : 0 < w) by lra.
    (* start, stop *)
    assert (As : Rabs (R64 c - R64 s3) <= 2147483648 * g) by (apply Rabs_le; lra).
    destruct (fsub_fin c s3 60 Fc F3 ltac:(lia)) as (Es & Fst). { eapply Rle_trans; [exact As|]. apply Big. lra. }
    pose proof (rnd_abs _ _ As ltac:(apply Hb; unfold huge; lra)) as Rs. fold w in Rs. rewrite <- Es in Rs.
    assert (Ap : Rabs (R64 c + R64 s3) <= 2147483648 * g) by (apply Rabs_le; lra).
    destruct (fadd_fin c s3 60 Fc F3 ltac:(lia)) as (Ep & Fsp). { eapply Rle_trans; [exact Ap|]. apply Big. lra. }
    pose proof (rnd_abs _ _ Ap ltac:(apply Hb; unfold huge; lra)) as Rp. fold w in Rp. rewrite <- Ep in Rp.
    set (lo := fsub c s3) in *. set (hi := fadd c s3) in *. clearbody lo hi. clear Es Ep As Ap.
    apply Rabs_le_inv in Rs, Rp.
    (* difference and step *)
    assert (Ad : Rabs (R64 hi - R64 lo) <= 7 * g) by (apply Rabs_le; lra).
    destruct (fsub_fin hi lo 60 Fsp Fst ltac:(lia)) as (Ed & Fd). { eapply Rle_trans; [exact Ad|]. apply Big. lra. }
    pose proof (rnd_abs _ _ Ad ltac:(apply Hb; unfold huge; lra)) as Rd. rewrite <- Ed in Rd.
    set (df := fsub hi lo) in *. clearbody df. clear Ed Ad. apply Rabs_le_inv in Rd.
    assert (N9 : R64 (f_of_Z 9) = 9) by (now rewrite f_of_Z_R by lia).
    assert (Aq : Rabs (R64 df / 9) <= g) by (apply Rabs_le; lra).
    destruct (fdiv_fin df (f_of_Z 9) 60 Fd ltac:(rewrite N9; lra) ltac:(lia)) as (Eq & Fq).
    { rewrite N9. eapply Rle_trans; [exact Aq|]. rewrite <- (Rmult_1_l g). apply Big. lra. }
    rewrite N9 in Eq. pose proof (rnd_abs _ _ Aq ltac:(rewrite <- (Rmult_1_l g); apply Hb; unfold huge; lra)) as Rq. rewrite <- Eq in Rq.
    set (st := fdiv df (f_of_Z 9)) in *. clearbody st. clear Eq Aq N9. apply Rabs_le_inv in Rq.
    assert (St : Rabs (R64 st - 2 / 3 * g) <= w / 2) by (apply Rabs_le; lra). apply Rabs_le_inv in St.
    (* the point *)
    set (n := Z.of_nat i). assert (In : INR i = IZR n) by apply INR_IZR_INZ.
    assert (P : exists p, (if (n =? 9)%Z then hi else fadd lo (fmul (f_of_Z n) st)) = p /\ is_finite p = true /\
                 Rabs (R64 p - (R64 c + tick i * g)) <= 82 / 10 * w).
    { unfold tick. rewrite In. destruct (Z.eqb_spec n 9) as [E9|N].
      - exists hi. split; [reflexivity|]. split; [exact Fsp|]. rewrite E9. apply Rabs_le. lra.
      - assert (Hn : (0 <= n <= 8)%Z) by lia. assert (Hr : 0 <= IZR n <= 8) by (split; apply IZR_le; lia).
        set (k := IZR n) in *.
        assert (Dk : Rabs (k * R64 st - k * (2 / 3 * g)) <= 4 * w).
        { rewrite <- Rmult_minus_distr_l, Rabs_mult, (Rabs_pos_eq k) by lra.
          replace (4 * w) with (8 * (w / 2)) by field. apply Rmult_le_compat; try apply Rabs_pos; try lra. apply Rabs_le. lra. }
        assert (Kg : 0 <= k * g <= 8 * g) by (split; [apply Rmult_le_pos|apply Rmult_le_compat_r]; lra).
        apply Rabs_le_inv in Dk.
        assert (Am : Rabs (k * R64 st) <= 6 * g) by (apply Rabs_le; lra).
        destruct (fmul_fin (f_of_Z n) st 60 (f_of_Z_fin n ltac:(lia)) Fq ltac:(lia)) as (Em & Fm).
        { rewrite f_of_Z_R by lia. fold k. eapply Rle_trans; [exact Am|]. apply Big. lra. }
        rewrite f_of_Z_R in Em by lia. fold k in Em.
        pose proof (rnd_abs _ _ Am ltac:(apply Hb; unfold huge; lra)) as Rm. rewrite <- Em in Rm.
        set (m := fmul (f_of_Z n) st) in *. clearbody m. clear Em Am. apply Rabs_le_inv in Rm.
        assert (Aa : Rabs (R64 lo + R64 m) <= 2147483648 * g) by (apply Rabs_le; lra).
        destruct (fadd_fin lo m 60 Fst Fm ltac:(lia)) as (Ea & Fa). { eapply Rle_trans; [exact Aa|]. apply Big. lra. }
        pose proof (rnd_abs _ _ Aa ltac:(apply Hb; unfold huge; lra)) as Ra. fold w in Ra. rewrite <- Ea in Ra. apply Rabs_le_inv in Ra.
        exists (fadd lo m). split; [reflexivity|]. split; [exact Fa|]. apply Rabs_le. lra. }
    destruct P as (p & -> & Fp & Dp). apply Rabs_le_inv in Dp.
    assert (T : -3 <= tick i <= 3).
    { unfold tick. rewrite In. assert (0 <= IZR n <= 9) by (split; apply IZR_le; unfold n; lia). lra. }
    assert (Tg : -3 * g <= tick i * g <= 3 * g) by (split; apply Rmult_le_compat_r; lra).
    assert (Ax : Rabs (R64 p - R64 c) <= 4 * g) by (apply Rabs_le; lra).
    destruct (fsub_fin p c 60 Fp Fc ltac:(lia)) as (Ex & Fx). { eapply Rle_trans; [exact Ax|]. apply Big. lra. }
    pose proof (rnd_abs _ _ Ax ltac:(apply Hb; unfold huge; lra)) as Rx. rewrite <- Ex in Rx. apply Rabs_le_inv in Rx.
    split; [exact Fp|]. split; [apply Rabs_le; lra|]. split; [exact Fx|]. apply Rabs_le. lra.
  Qed.
End Axis.

(** ** One pixel *)
Lemma exp_shift x y : Rabs (y - x) <= / 1000 -> near (101 / 100 * Rabs (y - x)) (exp y) (exp x).
Proof.
  intros H. unfold near. rewrite (Rabs_pos_eq (exp x)) by (left; apply exp_pos).
  replace (exp y) with (exp x * exp (y - x)) by (rewrite <- exp_plus; f_equal; ring).
  set (z := y - x) in *. replace (exp x * exp z - exp x) with ((exp z - 1) * exp x) by ring.
  rewrite Rabs_mult, (Rabs_pos_eq (exp x)) by (left; apply exp_pos). apply Rmult_le_compat_r; [left; apply exp_pos|].
  pose proof (exp_ineq1_le z) as L. pose proof (exp_ineq1_le (- z)) as M. rewrite exp_Ropp in M. pose proof (exp_pos z) as EP.
  assert (U : exp z <= / (1 - z)).
  { rewrite <- (Rinv_inv (exp z)). apply Rinv_le_contravar; [apply Rabs_le_inv in H; lra|lra]. }
  assert (V : / (1 - z) <= 1 + z + 101 / 100 * (z * z)).
  { apply Rabs_le_inv in H. apply Rmult_le_reg_l with (1 - z); [lra|]. rewrite Rinv_r by lra.
    assert (Q : 0 <= z * z * (/ 100 - 101 / 100 * z)) by (apply Rmult_le_pos; [apply Rle_0_sqr|]; lra).
    replace ((1 - z) * (1 + z + 101 / 100 * (z * z))) with (1 + z * z * (/ 100 - 101 / 100 * z)) by field. lra. }
  assert (ZZ : z * z <= / 1000 * Rabs z).
  { replace (z * z) with (Rabs z * Rabs z) by (rewrite <- Rabs_mult; apply Rabs_pos_eq, Rle_0_sqr). apply Rmult_le_compat_r; [apply Rabs_pos|exact H]. }
  pose proof (Rle_abs z) as A1. pose proof (Rle_abs (- z)) as A2. rewrite Rabs_Ropp in A2. apply Rabs_le. lra.
Qed.

Lemma tick_range i : (i < 10)%nat -> / 3 <= Rabs (tick i) <= 3.
Proof.
  intros H. unfold tick. do 10 (destruct i as [|i]; [rewrite INR_IZR_INZ; cbn [Z.of_nat Pos.of_succ_nat Pos.succ];
    (rewrite Rabs_left by lra; lra) || (rewrite Rabs_right by lra; lra)|]). lia.
Qed.

(** One squared coordinate. *)
Lemma square_close (dx : f64) t g : is_finite dx = true -> / 1000000000 <= g <= 1000 -> / 3 <= Rabs t <= 3 -> Rabs (R64 dx - t * g) <= / 400000 * g ->
  exists a, is_finite (fmul dx dx) = true /\ near (2 * u) (R64 (fmul dx dx)) (a * (g * g)) /\ / 10 <= a <= 10 /\ Rabs (a - t * t) <= / 66000.
Proof.
  intros F Hg Ht H. set (x := R64 dx) in *. set (r := x / g). assert (Ex : x = r * g) by (unfold r; field; lra).
  assert (Hr : Rabs (r - t) <= / 400000).
  { apply Rmult_le_reg_r with g; [lra|]. rewrite <- (Rabs_pos_eq g) at 1 by lra. rewrite <- Rabs_mult.
    replace ((r - t) * g) with (x - t * g) by (rewrite Ex; ring). exact H. }
  assert (D : Rabs (r * r - t * t) <= / 66000).
  { replace (r * r - t * t) with ((r - t) * (r - t + 2 * t)) by ring. rewrite Rabs_mult.
    assert (Rabs (r - t + 2 * t) <= 60001 / 10000).
    { eapply Rle_trans; [apply Rabs_triang|]. rewrite Rabs_mult, (Rabs_pos_eq 2) by lra. lra. }
    eapply Rle_trans; [apply Rmult_le_compat; [apply Rabs_pos|apply Rabs_pos|exact Hr|eassumption]|]. lra. }
  assert (TT : / 9 <= t * t <= 9).
  { replace (t * t) with (Rabs t * Rabs t) by (rewrite <- Rabs_mult; apply Rabs_pos_eq, Rle_0_sqr).
    split; [replace (/ 9) with (/ 3 * / 3) by lra|replace 9 with (3 * 3) by lra]; apply Rmult_le_compat; lra. }
  exists (r * r). apply Rabs_le_inv in D. assert (A : / 10 <= r * r <= 10) by lra.
  assert (GG : / 1000000000000000000 <= g * g <= 1000000).
  { split; [replace (/ 1000000000000000000) with (/ 1000000000 * / 1000000000) by lra|replace 1000000 with (1000 * 1000) by lra]; apply Rmult_le_compat; lra. }
  assert (AG : / huge <= r * r * (g * g) <= huge).
  { unfold huge. split; [apply Rle_trans with (/ 10 * / 1000000000000000000); [lra|]|apply Rle_trans with (10 * 1000000); [|lra]]; apply Rmult_le_compat; lra. }
  assert (XX : x * x = r * r * (g * g)) by (rewrite Ex; ring).
  destruct (mulM dx dx x x 0 0 F F) as (F2 & N2).
  - apply near_self; lra. - apply near_self; lra. - lra. - lra.
  - rewrite XX, Rabs_pos_eq; [exact AG|]. assert (0 < / huge) by (apply Rinv_0_lt_compat; unfold huge; lra). lra.
  - split; [exact F2|]. split; [|split; [exact A|apply Rabs_le; lra]].
    rewrite <- XX. eapply near_le; [exact N2|]. lra.
Qed.

Definition pi64 : f64 := f_of_ZE 7074237752028440 (-51).
Lemma pi64_fin : is_finite pi64 = true. Proof. vm_compute. reflexivity. Qed.
Lemma pi64_R : R64 pi64 = 7074237752028440 / 2251799813685248.
Proof.
  assert (E : B2SF pi64 = SpecFloat.S754_finite false 7074237752028440 (-51)) by (vm_compute; reflexivity).
  rewrite <- SF2R_B2SF, E. unfold SF2R, F2R. cbn [Fnum Fexp cond_Zopp]. change (bpow radix2 (-51)) with (/ 2251799813685248). reflexivity.
Qed.

Lemma exp_9 x : -9 <= x <= 0 -> / 20000 <= exp x <= 1.
Proof.
  intros H. split.
  - apply Rle_trans with (exp (- (9))); [|destruct H as [[H|H] _]; [left; apply exp_increasing; lra|right; f_equal; lra]].
    rewrite exp_Ropp. apply Rinv_le_contravar; [apply exp_pos|].
    replace 9 with (1 + 1 + 1 + (1 + 1 + 1) + (1 + 1 + 1)) by ring. rewrite !exp_plus. pose proof exp_le_3 as L. pose proof (exp_pos 1) as P.
    set (z := exp 1) in *. assert (A : 0 <= z * z <= 9) by (split; [apply Rle_0_sqr|replace 9 with (3 * 3) by ring; apply Rmult_le_compat; lra]).
    assert (B : 0 <= z * z * z <= 27) by (split; [apply Rmult_le_pos; lra|replace 27 with (9 * 3) by ring; apply Rmult_le_compat; lra]).
    assert (C : 0 <= z * z * z * (z * z * z) <= 729) by (split; [apply Rmult_le_pos; lra|replace 729 with (27 * 27) by ring; apply Rmult_le_compat; lra]).
    apply Rle_trans with (729 * 27); [apply Rmult_le_compat; lra|lra].
  - rewrite <- exp_0. destruct H as [_ [H|H]]; [left; apply exp_increasing; exact H|right; now f_equal].
Qed.

Section Pixel.
  Context (fexp : f64 -> f64) (Hexp : exp_near fexp).
  Context (px c : f64 * f64) (s : f64) (e : Z) (t v : R).
  Context (Fs : is_finite s = true) (Hs : / 1000000000 <= R64 s <= 1000).
  Context (Ht : / 3 <= Rabs t <= 3) (Hv : / 3 <= Rabs v <= 3) (He : (0 <= e <= 2 ^ 53)%Z).
  Context (Fx : is_finite (fsub (fst px) (fst c)) = true) (Fy : is_finite (fsub (snd px) (snd c)) = true).
  Context (Hx : Rabs (R64 (fsub (fst px) (fst c)) - t * R64 s) <= / 400000 * R64 s).
  Context (Hy : Rabs (R64 (fsub (snd px) (snd c)) - v * R64 s) <= / 400000 * R64 s).

  Lemma pixel_close : exists W, near (/ 10000) W (share t v) /\
    @pixel_electrons (F64 fexp) px c s e = Ok (Ztrunc (W * IZR e)).
  Proof using Hexp Fs Hs Ht Hv He Fx Fy Hx Hy.
    rewrite (@pixel_electrons_eq fexp px c s e). cbv zeta. fold pi64.
    set (dx := fsub (fst px) (fst c)) in *. set (dy := fsub (snd px) (snd c)) in *. clearbody dx dy.
    set (g := R64 s) in *. destruct small_facts as (U0 & U1 & _ & _).
    assert (HU : 0 < / huge) by (apply Rinv_0_lt_compat; unfold huge; lra).
    destruct (square_close dx t g Fx Hs Ht Hx) as (a & FX & NX & Ra & Da).
    destruct (square_close dy v g Fy Hs Hv Hy) as (b & FY & NY & Rb & Db).
    set (x2 := fmul dx dx) in *. set (y2 := fmul dy dy) in *. clearbody x2 y2. clear Fx Fy Hx Hy.
    assert (Eg : near 0 (R64 s) g) by (apply near_self; lra).
    assert (GG : / 1000000000000000000 <= g * g <= 1000000).
    { split; [replace (/ 1000000000000000000) with (/ 1000000000 * / 1000000000) by lra|replace 1000000 with (1000 * 1000) by lra]; apply Rmult_le_compat; lra. }
    set (gg := g * g) in *.
    (* sigma squared *)
    destruct (mulM s s g g 0 0 Fs Fs Eg Eg ltac:(lra) ltac:(lra)) as (F2 & N2). { fold gg. rewrite Rabs_pos_eq by lra. unfold huge. lra. }
    fold gg in N2. set (s2 := fmul s s) in *. clearbody s2.
    assert (P2 : 0 < R64 s2) by (unfold near in N2; rewrite (Rabs_pos_eq gg) in N2 by lra; apply Rabs_le_inv in N2; assert (u * gg <= / 1000 * gg) by (apply Rmult_le_compat_r; lra); lra).
    rewrite (feqb_nonzero s2 F2 ltac:(lra)).
    (* constants *)
    assert (N1' : near 0 (R64 (f_of_Z 1)) 1) by (rewrite f_of_Z_R by lia; apply near_self; lra).
    assert (Nm' : near 0 (R64 (f_of_Z (-1))) (-1)) by (rewrite f_of_Z_R by lia; apply near_self; lra).
    assert (N2' : near 0 (R64 (f_of_Z 2)) 2) by (rewrite f_of_Z_R by lia; apply near_self; lra).
    assert (N6' : near 0 (R64 (f_of_Z 6)) 6) by (rewrite f_of_Z_R by lia; apply near_self; lra).
    assert (N9' : near 0 (R64 (f_of_Z 9)) 9) by (rewrite f_of_Z_R by lia; apply near_self; lra).
    assert (Np' : near 0 (R64 pi64) (R64 pi64)) by (apply near_self; lra).
    pose proof pi64_R as RP. set (p := R64 pi64) in *.
    assert (Hp : 31415 / 10000 <= p <= 31416 / 10000) by lra.
    assert (IG : / 1000000 <= / gg <= 1000000000000000000).
    { split; [apply Rinv_le_contravar; lra|]. replace 1000000000000000000 with (/ / 1000000000000000000) by lra. apply Rinv_le_contravar; lra. }
    assert (IP : / 4 <= / p <= / 3) by (split; apply Rinv_le_contravar; lra).
    (* -1/2/s2 and the exponent *)
    destruct (divM (f_of_Z (-1)) (f_of_Z 2) (-1) 2 0 0 (f_of_Z_fin (-1) ltac:(lia)) Nm' N2' ltac:(lra) ltac:(lra) ltac:(lra)) as (Fk & Nk).
    { rewrite Rabs_left by lra. unfold huge. lra. }
    set (k2 := fdiv (f_of_Z (-1)) (f_of_Z 2)) in *. clearbody k2.
    destruct (divM k2 s2 (-1 / 2) gg _ _ Fk Nk N2 ltac:(lra) ltac:(lra) ltac:(lra)) as (Fm & Nm).
    { unfold Rdiv. rewrite Rabs_left by lra. unfold huge. lra. }
    set (m := fdiv k2 s2) in *. clearbody m.
    assert (AG : 0 < a * gg /\ 0 < b * gg) by (split; apply Rmult_lt_0_compat; lra).
    assert (SG : / 5 * / 1000000000000000000 <= (a + b) * gg <= 20 * 1000000) by (split; apply Rmult_le_compat; lra).
    destruct (addM x2 y2 (a * gg) (b * gg) (2 * u) FX FY NX NY (proj1 AG) (proj2 AG) ltac:(lra)) as (Fq & Nq).
    { rewrite <- (Rmult_plus_distr_r a b gg). unfold huge. lra. }
    rewrite <- (Rmult_plus_distr_r a b gg) in Nq. set (q := fadd x2 y2) in *. clearbody q.
    assert (EX : -1 / 2 / gg * ((a + b) * gg) = - ((a + b) / 2)) by (field; lra).
    destruct (mulM m q (-1 / 2 / gg) ((a + b) * gg) _ _ Fm Fq Nm Nq ltac:(lra) ltac:(lra)) as (Fc & Nc).
    { rewrite EX, Rabs_left by lra. unfold huge. lra. }
    rewrite EX in Nc. set (c2 := fmul m q) in *. clearbody c2.
    assert (Dc : Rabs (R64 c2 - - ((a + b) / 2)) <= 20 * u * 10).
    { unfold near in Nc. eapply Rle_trans; [exact Nc|]. rewrite Rabs_left by lra. apply Rmult_le_compat; lra. }
    apply Rabs_le_inv in Dc, Da, Db.
    destruct (Hexp c2 Fc ltac:(lra)) as (FE & NE).
    set (y := - (t * t + v * v) / 2).
    assert (Dy : Rabs (R64 c2 - y) <= 16 / 1000000) by (unfold y; apply Rabs_le; lra).
    assert (TT : forall z, / 3 <= Rabs z <= 3 -> 0 <= z * z <= 9).
    { intros z Hz. replace (z * z) with (Rabs z * Rabs z) by (rewrite <- Rabs_mult; apply Rabs_pos_eq, Rle_0_sqr).
      split; [apply Rmult_le_pos; lra|]. replace 9 with (3 * 3) by lra. apply Rmult_le_compat; lra. }
    pose proof (TT t Ht) as T1. pose proof (TT v Hv) as T2.
    assert (Y9 : / 20000 <= exp y <= 1) by (apply exp_9; unfold y; lra).
    assert (NX1 : near (17 / 1000000) (R64 (fexp c2)) (exp y)).
    { pose proof (exp_shift y (R64 c2) ltac:(lra)) as S. unfold near in *. rewrite (Rabs_pos_eq (exp y)) in * by lra.
      set (A := exp (R64 c2)) in *.
      assert (101 / 100 * Rabs (R64 c2 - y) * exp y <= 101 / 100 * (16 / 1000000) * exp y) by (apply Rmult_le_compat_r; lra).
      apply Rabs_le_inv in S. assert (A <= 2 * exp y) by lra. assert (/ 2 ^ 40 * A <= / 2 ^ 40 * (2 * exp y)) by (apply Rmult_le_compat_l; lra).
      apply Rabs_le_inv in NE. apply Rabs_le. lra. }
    set (E := fexp c2) in *. clearbody E. clear NE Dc Da Db Nc Nq Nm Nk EX SG AG NX NY.
    (* normalisation *)
    destruct (divM (f_of_Z 1) (f_of_Z 2) 1 2 0 0 (f_of_Z_fin 1 ltac:(lia)) N1' N2' ltac:(lra) ltac:(lra) ltac:(lra)) as (Fh & Nh).
    { rewrite Rabs_pos_eq by lra. unfold huge. lra. }
    set (h := fdiv (f_of_Z 1) (f_of_Z 2)) in *. clearbody h.
    destruct (divM h pi64 (1 / 2) p _ _ Fh Nh Np' ltac:(lra) ltac:(lra) ltac:(lra)) as (Fh2 & Nh2).
    { unfold Rdiv. rewrite Rabs_pos_eq by lra. unfold huge. lra. }
    set (h2 := fdiv h pi64) in *. clearbody h2.
    assert (K1 : / 100000000 <= 1 / 2 / p / gg <= 1000000000000000000).
    { unfold Rdiv. split; [apply Rle_trans with (1 * / 2 * / 4 * / 1000000); [lra|]|apply Rle_trans with (1 * / 2 * / 3 * 1000000000000000000); [|lra]];
        apply Rmult_le_compat; lra. }
    destruct (divM h2 s2 (1 / 2 / p) gg _ _ Fh2 Nh2 N2 ltac:(lra) ltac:(lra) ltac:(lra)) as (F1 & N1).
    { rewrite Rabs_pos_eq by lra. unfold huge. lra. }
    set (c1 := fdiv h2 s2) in *. clearbody c1. set (kk := 1 / 2 / p / gg) in *.
    assert (KE : / 100000000 * / 20000 <= kk * exp y <= 1000000000000000000 * 1) by (split; apply Rmult_le_compat; lra).
    assert (UU : u * u <= u) by (rewrite <- (Rmult_1_r u) at 3; apply Rmult_le_compat_l; lra).
    destruct (mulG c1 E kk (exp y) _ _ (17 / 1000000 + 20 * u) F1 FE N1 NX1 ltac:(lra) ltac:(lra) ltac:(lra) ltac:(lra)) as (Fp & Npp).
    { rewrite Rabs_pos_eq by lra. unfold huge. lra. }
    set (pp := fmul c1 E) in *. clearbody pp.
    (* pixel area *)
    destruct (mulM (f_of_Z 6) s 6 g 0 0 (f_of_Z_fin 6 ltac:(lia)) Fs N6' Eg ltac:(lra) ltac:(lra)) as (F6 & N6).
    { rewrite Rabs_pos_eq by lra. unfold huge. lra. }
    set (s6 := fmul (f_of_Z 6) s) in *. clearbody s6.
    destruct (divM s6 (f_of_Z 9) (6 * g) 9 _ _ F6 N6 N9' ltac:(lra) ltac:(lra) ltac:(lra)) as (Ft & Nt).
    { rewrite Rabs_pos_eq by lra. unfold huge. lra. }
    set (st := fdiv s6 (f_of_Z 9)) in *. clearbody st.
    assert (AE : 6 * g / 9 * (6 * g / 9) = 4 / 9 * gg) by (unfold gg; field).
    destruct (mulM st st (6 * g / 9) (6 * g / 9) _ _ Ft Ft Nt Nt ltac:(lra) ltac:(lra)) as (Fa & Na).
    { rewrite AE, Rabs_pos_eq by lra. unfold huge. lra. }
    rewrite AE in Na. set (ar := fmul st st) in *. clearbody ar.
    set (S := 2 / 9 / p * exp y).
    assert (SE : kk * exp y * (4 / 9 * gg) = S) by (unfold S, kk; field; split; lra).
    assert (S1 : / 1000000 <= S <= / 10).
    { unfold S, Rdiv. split; [apply Rle_trans with (2 * / 9 * / 4 * / 20000); [lra|]|apply Rle_trans with (2 * / 9 * / 3 * 1); [|lra]]; apply Rmult_le_compat; lra. }
    destruct (mulM pp ar (kk * exp y) (4 / 9 * gg) _ _ Fp Fa Npp Na ltac:(lra) ltac:(lra)) as (Fw & Nw).
    { rewrite SE, Rabs_pos_eq by lra. unfold huge. lra. }
    rewrite SE in Nw. set (wt := fmul pp ar) in *. clearbody wt.
    (* share *)
    pose proof PI_bounds as PB.
    assert (SH : near (34 / 1000000) S (share t v)).
    { assert (E0 : S = share t v * (1 + (PI - p) / p)). { unfold S, share. fold y. field. split; lra. }
      rewrite E0. apply ratio_near. unfold Rdiv. rewrite Rabs_mult, Rabs_inv, (Rabs_pos_eq p) by lra. apply div_le; [lra|]. apply Rabs_le. lra. }
    assert (SP : 0 < share t v) by (unfold share; fold y; pose proof (exp_pos y); apply Rmult_lt_0_compat; [apply Rmult_lt_0_compat; [lra|apply Rinv_0_lt_compat; lra]|lra]).
    assert (CH : forall W, near (18 / 1000000) W S -> near (/ 10000) W (share t v)).
    { intros W HW. unfold near in *. rewrite (Rabs_pos_eq S) in HW by lra. rewrite (Rabs_pos_eq (share t v)) in * by lra.
      apply Rabs_le_inv in HW, SH. apply Rabs_le. lra. }
    (* times the electrons *)
    assert (RE : R64 (f_of_Z e) = IZR e) by (apply f_of_Z_R; lia).
    assert (E53 : 0 <= IZR e <= 9007199254740992) by (split; apply IZR_le; [lia|]; change 9007199254740992%Z with (2 ^ 53)%Z; lia).
    destruct (Z.eq_dec e 0) as [E0|NE0].
    - exists S. split; [apply CH, near_self; lra|]. rewrite E0, Rmult_0_r.
      destruct (fmul_fin wt (f_of_Z 0) 0 Fw (f_of_Z_fin 0 ltac:(lia)) ltac:(lia)) as (Ez & Fz).
      { rewrite (f_of_Z_R 0) by lia. rewrite Rmult_0_r, Rabs_R0. apply bpow_ge_0. }
      rewrite (f_of_Z_R 0) in Ez by lia. rewrite Rmult_0_r, rnd64_0 in Ez.
      assert (T0 : Ztrunc 0 = 0%Z) by (rewrite Ztrunc_floor by lra; apply Zfloor_imp; simpl; lra).
      rewrite f_to_Z_some; [|exact Fz|rewrite Ez, T0; unfold two63; lia]. now rewrite Ez, T0.
    - assert (E1 : 1 <= IZR e) by (apply IZR_le; lia).
      assert (SEb : / 1000000 * 1 <= S * IZR e <= / 10 * 9007199254740992) by (split; apply Rmult_le_compat; lra).
      destruct (mulM wt (f_of_Z e) S (IZR e) _ 0 Fw (f_of_Z_fin e ltac:(lia)) Nw ltac:(rewrite RE; apply near_self; lra) ltac:(lra) ltac:(lra)) as (Fz & Nz).
      { rewrite Rabs_pos_eq by lra. unfold huge. lra. }
      apply near_le with (d' := 18 / 1000000) in Nz; [|lra].
      assert (NSE : S * IZR e <> 0) by (apply Rgt_not_eq; lra).
      destruct (near_ratio _ _ _ NSE Nz) as (r & Er & Hr).
      exists (S * (1 + r)). split; [apply CH, ratio_near, Hr|].
      replace (S * (1 + r) * IZR e) with (S * IZR e * (1 + r)) by ring. rewrite <- Er.
      rewrite f_to_Z_some; [reflexivity|exact Fz|].
      unfold near in Nz. rewrite (Rabs_pos_eq (S * IZR e)) in Nz by lra. apply Rabs_le_inv in Nz.
      destruct (Ztrunc_le (R64 (fmul wt (f_of_Z e))) ltac:(lra)) as (Z0 & _ & Z1).
      split; [unfold two63; lia|]. apply lt_IZR. unfold two63. lra.
  Qed.
End Pixel.

(** ** The mesh *)
Definition cells : list (nat * nat) := flat_map (fun i : nat => map (fun j : nat => (i, j)) (seq 0 10)) (seq 0 10).

Lemma cells_range i j : In (i, j) cells -> (i < 10)%nat /\ (j < 10)%nat.
Proof.
  unfold cells. rewrite in_flat_map. intros (k & Hk & H). apply in_map_iff in H as (l & [= -> ->] & Hl).
  apply in_seq in Hk, Hl. lia.
Qed.

Lemma mesh_F64 fexp (x y s : f64) :
  @diffusion_mesh (F64 fexp) (x, y) s = map (fun ij : nat * nat => (axis_point x s (fst ij), axis_point y s (snd ij))) cells.
Proof.
  unfold diffusion_mesh, linspace, meshgrid. cbn [fst snd]. cbn [nsub nadd nmul ndiv nofZ F64].
  change (STEPS - 1)%Z with 9%Z. change (Z.to_nat STEPS) with 10%nat.
  fold (axis_start x s) (axis_stop x s) (axis_start y s) (axis_stop y s).
  fold (axis_point x s) (axis_point y s). unfold cells.
  generalize (seq 0 10) at 2 4. intros l. induction l as [|i l IH]; [reflexivity|].
  cbn [map flat_map]. etransitivity; [apply f_equal; exact IH|]. rewrite map_app, !map_map. reflexivity.
Qed.

Lemma shares_total : sumR (map (fun ij : nat * nat => share (tick (fst ij)) (tick (snd ij))) cells) = 4 / 9 / (2 * PI) * (bells * bells).
Proof.
  pose proof PI_RGT_0.
  assert (E : map (fun ij : nat * nat => share (tick (fst ij)) (tick (snd ij))) cells =
              flat_map (fun t => map (fun v => (4 / 9 / (2 * PI) * bell t) * bell v) ticks) ticks).
  { unfold cells, ticks. change (fun i : nat => -3 + 2 / 3 * INR i) with tick. generalize (seq 0 10) at 2 4. intros l.
    induction l as [|i l IH]; [reflexivity|]. cbn [flat_map map]. rewrite map_app, map_map, IH. f_equal. rewrite map_map. apply map_ext. intros j.
    cbn [fst snd]. unfold share, bell. rewrite Rmult_assoc, <- exp_plus.
    replace (- (tick i * tick i) / 2 + - (tick j * tick j) / 2) with (- (tick i * tick i + tick j * tick j) / 2) by field. field. lra. }
  rewrite E. rewrite (sum_product (fun t => 4 / 9 / (2 * PI) * bell t) bell), sumR_scale. unfold bells. ring.
Qed.

Lemma shares_bounds : 998 / 1000 <= 4 / 9 / (2 * PI) * (bells * bells) <= 9988 / 10000.
Proof.
  split; [apply total_weight_bounds|]. pose proof PI_bounds as P. pose proof bells_bounds as B. apply sq_bounds in B; [|lra].
  replace (4 / 9 / (2 * PI) * (bells * bells)) with (bells * bells * (2 / 9) / PI) by (field; lra). apply div_le; lra.
Qed.

Lemma share_pos t v : 0 < share t v.
Proof.
  unfold share. pose proof PI_RGT_0. pose proof (exp_pos (- (t * t + v * v) / 2)).
  apply Rmult_lt_0_compat; [apply Rmult_lt_0_compat; [lra|apply Rinv_0_lt_compat; lra]|lra].
Qed.

Section Mesh.
  Context (fexp : f64 -> f64) (Hexp : exp_near fexp) (x y s : f64) (Hr : resolved x y s).

  Lemma pixel_bounds (i j : nat) (e : Z) : (i < 10)%nat -> (j < 10)%nat -> (0 <= e <= 2 ^ 53)%Z ->
    exists z, @pixel_electrons (F64 fexp) (axis_point x s i, axis_point y s j) (x, y) s e = Ok z /\ (0 <= z)%Z /\
      9999 / 10000 * share (tick i) (tick j) * IZR e - 1 <= IZR z <= 10001 / 10000 * share (tick i) (tick j) * IZR e.
  Proof using Hexp Hr.
    intros Hi Hj He. destruct Hr as (Fx & Fy & Fs & Hs & Hx & Hy).
    destruct (axis_close x s Fx Fs Hs Hx i Hi) as (_ & _ & Dx & Nx). destruct (axis_close y s Fy Fs Hs Hy j Hj) as (_ & _ & Dy & Ny).
    destruct (pixel_close fexp Hexp (axis_point x s i, axis_point y s j) (x, y) s e (tick i) (tick j) Fs Hs (tick_range i Hi) (tick_range j Hj) He Dx Dy Nx Ny) as (W & NW & E).
    pose proof (share_pos (tick i) (tick j)) as SP. set (S := share (tick i) (tick j)) in *.
    unfold near in NW. rewrite (Rabs_pos_eq S) in NW by lra. apply Rabs_le_inv in NW.
    assert (E0 : 0 <= IZR e) by (apply IZR_le; lia).
    assert (L : 9999 / 10000 * S * IZR e <= W * IZR e <= 10001 / 10000 * S * IZR e) by (split; apply Rmult_le_compat_r; lra).
    assert (P : 0 <= 9999 / 10000 * S * IZR e) by (apply Rmult_le_pos; lra).
    exists (Ztrunc (W * IZR e)). split; [exact E|]. destruct (Ztrunc_le (W * IZR e) ltac:(lra)) as (Z0 & Z1). split; [exact Z0|]. lra.
  Qed.

  Lemma mesh_sum64 g (ge : edges (F64 fexp)) (time : f64) (e : Z) dss : (0 <= e <= 2 ^ 53)%Z ->
    Forall2 (fun (p : f64 * f64) ds => pos_ledger (N := F64 fexp) g ge time (fun z => @pixel_electrons (F64 fexp) p (x, y) s e = Ok z) p ds)
      (@diffusion_mesh (F64 fexp) (x, y) s) dss ->
    (forall d, In d (concat dss) -> (0 <= d_el d)%Z) /\
    IZR (sumZ (map d_el (concat dss))) <= 10001 / 10000 * (9988 / 10000) * IZR e /\
    ((forall p, In p (@diffusion_mesh (F64 fexp) (x, y) s) -> exists pad, lands (N := F64 fexp) g ge p pad) ->
     9999 / 10000 * (998 / 1000) * IZR e - 100 <= IZR (sumZ (map d_el (concat dss)))).
  Proof using Hexp Hr.
    intros He. rewrite mesh_F64. intros F.
    assert (E0 : 0 <= IZR e) by (apply IZR_le; lia).
    assert (M : forall l dss, (forall i j, In (i, j) l -> (i < 10)%nat /\ (j < 10)%nat) ->
      Forall2 (fun (p : f64 * f64) ds => pos_ledger (N := F64 fexp) g ge time (fun z => @pixel_electrons (F64 fexp) p (x, y) s e = Ok z) p ds)
        (map (fun ij : nat * nat => (axis_point x s (fst ij), axis_point y s (snd ij))) l) dss ->
      let T := sumR (map (fun ij : nat * nat => share (tick (fst ij)) (tick (snd ij))) l) in
      (forall d, In d (concat dss) -> (0 <= d_el d)%Z) /\
      IZR (sumZ (map d_el (concat dss))) <= 10001 / 10000 * T * IZR e /\
      ((forall p, In p (map (fun ij : nat * nat => (axis_point x s (fst ij), axis_point y s (snd ij))) l) -> exists pad, lands (N := F64 fexp) g ge p pad) ->
       9999 / 10000 * T * IZR e - INR (length l) <= IZR (sumZ (map d_el (concat dss))))).
    { clear F dss. induction l as [|[i j] l IH]; intros dss Hl F.
      - inversion F; subst. cbv zeta. split; [intros d []|]. unfold sumR, sumZ. simpl. split; [lra|]. intros _. lra.
      - cbn [map fst snd] in F. inversion F as [|p ds px dss' H F']; subst. clear F.
        destruct (IH dss' ltac:(intros; apply Hl; now right) F') as (I1 & I2 & I3). cbv zeta in *. clear IH F'.
        destruct (Hl i j (or_introl eq_refl)) as (Hi & Hj). destruct (pixel_bounds i j e Hi Hj He) as (z & Ez & Z0 & Z1).
        cbn [map concat fst snd]. rewrite sumR_cons, map_app, sumZ_app, plus_IZR.
        pose proof (share_pos (tick i) (tick j)) as SP. set (S := share (tick i) (tick j)) in *.
        set (T := sumR (map (fun ij : nat * nat => share (tick (fst ij)) (tick (snd ij))) l)) in *.
        assert (SE : 0 <= S * IZR e) by (apply Rmult_le_pos; lra).
        replace (10001 / 10000 * (S + T) * IZR e) with (10001 / 10000 * (S * IZR e) + 10001 / 10000 * T * IZR e) by ring.
        replace (9999 / 10000 * (S + T) * IZR e) with (9999 / 10000 * (S * IZR e) + 9999 / 10000 * T * IZR e) by ring.
        rewrite !(Rmult_assoc _ S) in Z1.
        change (length ((i, j) :: l)) with (Datatypes.S (length l)). rewrite S_INR.
        destruct H as [Ms|pad tb a L T' A].
        + cbn [map app]. change (IZR (sumZ [])) with 0. split; [exact I1|]. split; [lra|].
          intros HL. exfalso. destruct (HL _ (or_introl eq_refl)) as (pad & ix & iy & E1 & N1 & N2 & E2 & N3 & N4).
          destruct Ms as (ix' & iy' & E1' & Ms). rewrite E1 in E1'.
          assert (ix' = ix) by congruence. assert (iy' = iy) by congruence. subst ix' iy'.
          destruct Ms as [Ms|[Ms|(_ & _ & pad' & E2' & Ms)]]; [contradiction..|].
          rewrite E2 in E2'. assert (pad' = pad) by congruence. subst pad'. tauto.
        + assert (a = z) by congruence. subst a. cbn [map app d_el]. rewrite sumZ_cons. change (sumZ []) with 0%Z.
          rewrite Z.add_0_r. split; [intros d [<-|Hd]; [exact Z0|now apply I1]|]. split; [lra|].
          intros HL. specialize (I3 ltac:(intros; apply HL; now right)). lra. }
    specialize (M cells dss cells_range F). cbv zeta in M. rewrite shares_total in M. pose proof shares_bounds as SB.
    set (T := 4 / 9 / (2 * PI) * (bells * bells)) in *. destruct M as (M1 & M2 & M3). split; [exact M1|].
    assert (TE : 998 / 1000 * IZR e <= T * IZR e <= 9988 / 10000 * IZR e) by (split; apply Rmult_le_compat_r; lra).
    rewrite Rmult_assoc in M2. split; [lra|]. intros HL. specialize (M3 HL). rewrite Rmult_assoc in M3.
    change (length cells) with 100%nat in M3. replace (INR 100) with 100 in M3 by (rewrite INR_IZR_INZ; reflexivity). lra.
  Qed.
End Mesh.

(** ** C87 *)

(** Every pixel of a resolvable point gets its Gaussian share up to one part in ten thousand and the
    truncation, and sits where it should up to 1/400000 of the width. *)
Theorem C87_pixel : forall (fexp : f64 -> f64) (x y s : f64) (e : Z) (i j : nat),
  exp_near fexp -> resolved x y s -> (0 <= e <= 2 ^ 53)%Z -> (i < 10)%nat -> (j < 10)%nat ->
  exists p z, nth_error (@diffusion_mesh (F64 fexp) (x, y) s) (i * 10 + j) = Some p /\
    Rabs (R64 (fst p) - (R64 x + tick i * R64 s)) <= / 400000 * R64 s /\
    Rabs (R64 (snd p) - (R64 y + tick j * R64 s)) <= / 400000 * R64 s /\
    @pixel_electrons (F64 fexp) p (x, y) s e = Ok z /\ (0 <= z)%Z /\
    9999 / 10000 * share (tick i) (tick j) * IZR e - 1 <= IZR z <= 10001 / 10000 * share (tick i) (tick j) * IZR e.
Proof.
  intros fexp x y s e i j Hexp Hr He Hi Hj. destruct (pixel_bounds fexp Hexp x y s Hr i j e Hi Hj He) as (z & Ez & Z0 & Z1).
  exists (axis_point x s i, axis_point y s j), z. destruct Hr as (Fx & Fy & Fs & Hs & Hx & Hy).
  destruct (axis_close x s Fx Fs Hs Hx i Hi) as (_ & Dx & _). destruct (axis_close y s Fy Fs Hs Hy j Hj) as (_ & Dy & _).
  split; [|auto]. rewrite mesh_F64.
  assert (C : nth_error cells (i * 10 + j) = Some (i, j)).
  { clear - Hi Hj. do 10 (destruct i as [|i]; [do 10 (destruct j as [|j]; [reflexivity|]); lia|]). lia. }
  now rewrite (map_nth_error _ _ _ C).
Qed.

(** A row's width: either zero (no diffusion) or resolvable at the row's position. *)
Definition good_width {fexp} (diffusion efield dv : F64 fexp) (r : row (F64 fexp)) : Prop :=
  forall s : f64, sigma_of (N := F64 fexp) diffusion efield dv (r_time r) = Ok s ->
    feqb s (f_of_Z 0) = true \/ resolved (r_x r) (r_y r) s.

Theorem C87_row_no_creation : forall (fexp : f64 -> f64) (g : grid) (ge : edges (F64 fexp)) (diffusion efield dv : F64 fexp)
    (r : row (F64 fexp)) (e : Z) (ds : list dep),
  exp_near fexp -> (0 <= e <= 2 ^ 53)%Z -> good_width diffusion efield dv r ->
  row_ledger g ge diffusion efield dv (r, e) ds ->
  (forall d, In d ds -> (0 <= d_el d)%Z) /\ (sumZ (map d_el ds) <= e)%Z.
Proof.
  intros fexp g ge D E dv r e ds Hexp He Hw H. inversion H as [r' e' s ds' Es E0 P|r' e' s dss Es E0 P]; subst.
  - destruct P as [M|pad tb z L T A]; [split; [intros d []|cbn; lia]|]. subst z.
    cbn [map d_el]. rewrite sumZ_cons. change (sumZ []) with 0%Z. split; [intros d [<-|[]]; cbn [d_el]; lia|lia].
  - destruct (Hw s Es) as [Z|R]; [cbn [neqb nofZ F64] in E0; congruence|].
    destruct (mesh_sum64 fexp Hexp (r_x r) (r_y r) s R g ge (r_time r) e dss He P) as (I1 & I2 & _).
    split; [exact I1|]. apply le_IZR. assert (0 <= IZR e) by (apply IZR_le; lia). lra.
Qed.

(** Whole tracks in binary64: the total charge grows by at most the electrons of the track. *)
Theorem C87_track_no_creation : forall (fexp : f64 -> f64) (g : grid) (ge : edges (F64 fexp)) (diffusion efield dv : F64 fexp)
    (track : list (row (F64 fexp))) (el : list Z) (pts pts' : points) (label : Z),
  exp_near fexp -> (forall r, In r track -> good_width diffusion efield dv r) ->
  transport_track g ge diffusion efield dv track el pts label = Ok pts' ->
  NoDup (map fst pts) -> (forall k, (0 <= charge_at pts k)%Z) -> (forall e, In e el -> (0 <= e <= 2 ^ 53)%Z) ->
  (forall k, (charge_at pts k + sumZ el < two63)%Z) ->
  (total_charge pts <= total_charge pts' <= total_charge pts + sumZ (firstn (length track) el))%Z.
Proof.
  intros fexp g ge D E dv track el pts pts' label Hexp Hw H Hn Hc He Hm.
  apply transport_track_iff in H as (ds & (Hl & dss & F & ->) & ->).
  assert (Hs : (forall d, In d (concat dss) -> (0 <= d_el d)%Z) /\
               (sumZ (map d_el (concat dss)) <= sumZ (map snd (combine track el)))%Z).
  { assert (Hc' : forall re, In re (combine track el) -> (0 <= snd re <= 2 ^ 53)%Z /\ good_width D E dv (fst re)).
    { intros [r e] I. split; [apply in_combine_r in I; now apply He|apply in_combine_l in I; now apply Hw]. }
    clear Hl Hm. induction F as [|re ds rest dss Hr F IH]; [split; [intros d []|apply Z.le_refl]|].
    destruct IH as (I1 & I2); [intros; apply Hc'; now right|].
    destruct re as [r e]. destruct (Hc' _ (or_introl eq_refl)) as (C1 & C2). cbn [fst snd] in C1, C2.
    destruct (C87_row_no_creation fexp g ge D E dv r e ds Hexp C1 C2 Hr) as (J1 & J2).
    cbn [concat map snd]. rewrite map_app, sumZ_app, sumZ_cons. split; [|lia].
    intros d Hd. apply in_app_iff in Hd as [Hd|Hd]; auto. }
  destruct Hs as (S1 & S2).
  assert (Ec : map snd (combine track el) = firstn (length track) el).
  { clear - Hl. revert el Hl. induction track as [|r track IH]; intros el Hl; [reflexivity|].
    destruct el as [|e el]; [reflexivity|]. cbn [combine map length firstn snd]. f_equal.
    apply IH. cbn [length] in Hl. lia. }
  rewrite Ec in S2.
  assert (S3 : (sumZ (firstn (length track) el) <= sumZ el)%Z).
  { rewrite <- (firstn_skipn (length track) el) at 2. rewrite sumZ_app.
    assert (0 <= sumZ (skipn (length track) el))%Z; [|lia].
    assert (Hk : forall e, In e (skipn (length track) el) -> (0 <= e)%Z).
    { intros e I. apply He. rewrite <- (firstn_skipn (length track) el). apply in_or_app. now right. }
    clear - Hk. induction (skipn (length track) el) as [|e l IH]; [apply Z.le_refl|].
    rewrite sumZ_cons. specialize (IH ltac:(intros; apply Hk; now right)).
    specialize (Hk e (or_introl eq_refl)). lia. }
  rewrite total_post_all_le; auto.
  - assert (0 <= sumZ (map d_el (concat dss)))%Z; [|lia].
    clear - S1. induction (concat dss) as [|d l IH]; [apply Z.le_refl|]. cbn [map]. rewrite sumZ_cons.
    specialize (IH ltac:(intros; apply S1; now right)). specialize (S1 d (or_introl eq_refl)). lia.
  - intros k. specialize (Hm k).
    assert (G1 : (due k (concat dss) <= sumZ (map d_el (concat dss)))%Z).
    { clear - S1. induction (concat dss) as [|d l IH]; [apply Z.le_refl|].
      rewrite due_cons. cbn [map]. rewrite sumZ_cons. specialize (IH ltac:(intros; apply S1; now right)).
      specialize (S1 d (or_introl eq_refl)). destruct (_ =? _)%Z; lia. }
    lia.
Qed.

(** If every pixel is above an active pad, at most 0.22 % plus one electron per pixel are lost. *)
Theorem C87_bounded_loss : forall (fexp : f64 -> f64) (g : grid) (ge : edges (F64 fexp)) (diffusion efield dv : F64 fexp)
    (r : row (F64 fexp)) (s : f64) (e : Z) (ds : list dep),
  exp_near fexp -> (0 <= e <= 2 ^ 53)%Z ->
  sigma_of (N := F64 fexp) diffusion efield dv (r_time r) = Ok s -> resolved (r_x r) (r_y r) s ->
  (forall p, In p (@diffusion_mesh (F64 fexp) (r_x r, r_y r) s) -> exists pad, lands (N := F64 fexp) g ge p pad) ->
  row_ledger g ge diffusion efield dv (r, e) ds ->
  9978 / 10000 * IZR e - 100 <= IZR (sumZ (map d_el ds)).
Proof.
  intros fexp g ge D E dv r s e ds Hexp He Es R HL H.
  assert (NZ : feqb s (f_of_Z 0) = false) by (destruct R as (_ & _ & Fs & Hs & _); apply feqb_nonzero; [exact Fs|lra]).
  inversion H as [r' e' s' ds' Es' E0 P|r' e' s' dss Es' E0 P]; subst; rewrite Es in Es';
    assert (Q : s' = s) by congruence; subst s'; cbn [neqb nofZ F64] in E0; [congruence|].
  destruct (mesh_sum64 fexp Hexp (r_x r) (r_y r) s R g ge (r_time r) e dss He P) as (_ & _ & I3).
  specialize (I3 HL). assert (0 <= IZR e) by (apply IZR_le; lia). lra.
Qed.

(** ** Which detector settings give a resolvable width *)
Definition med (x : f64) : Prop := is_finite x = true /\ / 1000000000 <= R64 x <= 1000000000.

Lemma sqrtM (x : f64) X d : is_finite x = true -> near d (R64 x) X -> 0 < X -> 0 <= d <= / 1000 -> / huge <= sqrt X ->
  is_finite (fsqrt x) = true /\ near (d + 2 * u) (R64 (fsqrt x)) (sqrt X).
Proof.
  intros F H X0 Hd HS. unfold near in H. rewrite (Rabs_pos_eq X) in H by lra. apply Rabs_le_inv in H.
  assert (DX : d * X <= / 1000 * X) by (apply Rmult_le_compat_r; lra).
  destruct (fsqrt_fin x F ltac:(lra)) as (E & G). split; [exact G|]. rewrite E.
  assert (S0 : 0 < sqrt X) by (apply sqrt_lt_R0; exact X0). assert (S1 : 0 < sqrt (R64 x)) by (apply sqrt_lt_R0; lra).
  apply rnd_near; [lra| |lra|rewrite Rabs_pos_eq; lra]. unfold near. rewrite (Rabs_pos_eq (sqrt X)) by lra.
  assert (Q : (sqrt (R64 x) - sqrt X) * (sqrt (R64 x) + sqrt X) = R64 x - X).
  { replace ((sqrt (R64 x) - sqrt X) * (sqrt (R64 x) + sqrt X)) with (sqrt (R64 x) * sqrt (R64 x) - sqrt X * sqrt X) by ring. rewrite !sqrt_sqrt by lra. reflexivity. }
  apply Rmult_le_reg_r with (sqrt (R64 x) + sqrt X); [lra|].
  rewrite <- (Rabs_pos_eq (sqrt (R64 x) + sqrt X)) at 1 by lra. rewrite <- Rabs_mult, Q.
  apply Rle_trans with (d * X); [apply Rabs_le; lra|].
  assert (XX : d * X = d * sqrt X * sqrt X) by (rewrite Rmult_assoc, sqrt_sqrt by lra; reflexivity). rewrite XX.
  apply Rmult_le_compat_l; [apply Rmult_le_pos; lra|lra].
Qed.

(** Moderate settings, a row within 10 m of the axis and at drift time zero or with a mean square
    width between (10 nm)^2 and (300 m)^2. *)
Theorem C87_width : forall (fexp : f64 -> f64) (diffusion efield dv : F64 fexp) (r : row (F64 fexp)),
  med diffusion -> med efield -> med dv ->
  is_finite (r_x r) = true -> is_finite (r_y r) = true -> Rabs (R64 (r_x r)) <= 10 -> Rabs (R64 (r_y r)) <= 10 ->
  (is_finite (r_time r) = true /\ R64 (r_time r) = 0 \/
   med (r_time r) /\ / 10000000000000000 <= 2 * R64 diffusion * R64 dv * R64 (r_time r) / R64 efield <= 100000) ->
  good_width diffusion efield dv r.
Proof.
  intros fexp D E dv r (FD & HD) (FE & HE) (Fv & Hv) Fx Fy Hx Hy Ht s.
  unfold sigma_of, njdiv. cbn [neqb nofZ F64 nsqrt ndiv nmul].
  rewrite (feqb_nonzero E FE) by lra. cbn [bind]. intros Es.
  assert (Q : s = fsqrt (fdiv (fmul (fmul (fmul (f_of_Z 2) D) dv) (r_time r)) E)) by congruence. clear Es.
  set (t := r_time r) in *. clearbody t. set (a := R64 D) in *. set (b := R64 dv) in *. set (c := R64 E) in *.
  destruct small_facts as (U0 & U1 & _ & _).
  assert (N2 : near 0 (R64 (f_of_Z 2)) 2) by (rewrite f_of_Z_R by lia; apply near_self; lra).
  assert (Na : near 0 (R64 D) a) by (apply near_self; lra). assert (Nb : near 0 (R64 dv) b) by (apply near_self; lra).
  assert (Nc : near 0 (R64 E) c) by (apply near_self; lra).
  destruct (mulM (f_of_Z 2) D 2 a 0 0 (f_of_Z_fin 2 ltac:(lia)) FD N2 Na ltac:(lra) ltac:(lra)) as (F1 & N1). { rewrite Rabs_pos_eq by lra. unfold huge. lra. }
  set (p1 := fmul (f_of_Z 2) D) in *. clearbody p1.
  assert (B2' : / 500000000000000000 <= 2 * a * b <= 2000000000000000000).
  { split; [replace (/ 500000000000000000) with (2 * / 1000000000 * / 1000000000) by lra|replace 2000000000000000000 with (2 * 1000000000 * 1000000000) by lra]; apply Rmult_le_compat; lra. }
  destruct (mulM p1 dv (2 * a) b _ 0 F1 Fv N1 Nb ltac:(lra) ltac:(lra)) as (F2 & N2'). { rewrite Rabs_pos_eq by lra. unfold huge. lra. }
  set (p2 := fmul p1 dv) in *. clearbody p2. destruct Ht as [(Ft & T0)|((Ft & Ht) & Hq)].
  - left. rewrite Q. apply feqb_zero; [|apply f_of_Z_0]. apply fsqrt_zero, fdiv_zero_l; [|exact FE|unfold c in HE; lra].
    apply fmul_zero_r; [exact F2|]. now apply fzero_R.
  - right. set (z := R64 t) in *. assert (Nz : near 0 (R64 t) z) by (apply near_self; lra).
    assert (B3 : / 500000000000000000 * / 1000000000 <= 2 * a * b * z <= 2000000000000000000 * 1000000000) by (split; apply Rmult_le_compat; lra).
    destruct (mulM p2 t (2 * a * b) z _ 0 F2 Ft N2' Nz ltac:(lra) ltac:(lra)) as (F3 & N3). { rewrite Rabs_pos_eq by lra. unfold huge. lra. }
    set (p3 := fmul p2 t) in *. clearbody p3.
    destruct (divM p3 E (2 * a * b * z) c _ 0 F3 N3 Nc ltac:(lra) ltac:(lra) ltac:(lra)) as (F4 & N4). { rewrite Rabs_pos_eq by lra. unfold huge. lra. }
    set (p4 := fdiv p3 E) in *. clearbody p4. set (X := 2 * a * b * z / c) in *.
    assert (SB : / 100000000 <= sqrt X <= 317).
    { split; [rewrite <- (sqrt_square (/ 100000000)) by lra|rewrite <- (sqrt_square 317) by lra]; apply sqrt_le_1_alt; lra. }
    destruct (sqrtM p4 X _ F4 N4 ltac:(lra) ltac:(lra)) as (F5 & N5). { unfold huge. lra. }
    rewrite <- Q in F5, N5. unfold near in N5. rewrite (Rabs_pos_eq (sqrt X)) in N5 by lra.
    assert (UX : u * sqrt X <= / 1000000000 * sqrt X) by (apply Rmult_le_compat_r; lra).
    apply Rabs_le_inv in N5. assert (P : 2 ^ 30 = 1073741824) by ring. unfold resolved. rewrite P.
    repeat split; try assumption; lra.
Qed.

(** A library exponential meeting the assumption exists: round a fine truncation of exp. *)
Definition ideal_exp (x : f64) : f64 := f_of_ZE (Zfloor (exp (R64 x) * 1208925819614629174706176)) (-80).

Lemma ideal_exp_near : exp_near ideal_exp.
Proof.
  intros x Fx Hx. unfold ideal_exp, f_of_ZE. set (A := exp (R64 x)).
  assert (A1 : / 4000000000 <= A <= 1).
  { unfold A. split.
    - apply Rle_trans with (exp (- (20))).
      + rewrite exp_Ropp. apply Rinv_le_contravar; [apply exp_pos|].
        replace 20 with (1 + 1 + 1 + 1 + 1 + (1 + 1 + 1 + 1 + 1) + (1 + 1 + 1 + 1 + 1 + (1 + 1 + 1 + 1 + 1))) by ring. rewrite !exp_plus.
        pose proof exp_le_3 as L. pose proof (exp_pos 1) as P. set (z := exp 1) in *.
        assert (B5 : 0 <= z * z * z * z * z <= 243).
        { split; [repeat apply Rmult_le_pos; lra|]. replace 243 with (3 * 3 * 3 * 3 * 3) by ring. repeat apply Rmult_le_compat; try lra; repeat apply Rmult_le_pos; lra. }
        set (w := z * z * z * z * z) in *.
        assert (B10 : 0 <= w * w <= 59049) by (split; [apply Rmult_le_pos; lra|]; replace 59049 with (243 * 243) by ring; apply Rmult_le_compat; lra).
        apply Rle_trans with (59049 * 59049); [apply Rmult_le_compat; lra|lra].
      + destruct Hx as [[H|H] _]; [left; apply exp_increasing; lra|right; f_equal; lra].
    - rewrite <- exp_0. destruct Hx as [_ [H|H]]; [left; apply exp_increasing; exact H|right; now f_equal]. }
  set (n := Zfloor (A * 1208925819614629174706176)).
  pose proof (Zfloor_lb (A * 1208925819614629174706176)) as L. pose proof (Zfloor_ub (A * 1208925819614629174706176)) as U. fold n in L, U.
  pose proof (binary_normalize_correct prec64 emax64 _ _ mode_NE n (-80) false) as C.
  cbv zeta in C. unfold F2R in C. cbn [Fnum Fexp] in C. change (bpow radix2 (-80)) with (/ 1208925819614629174706176) in C. simpl round_mode in C.
  set (v := IZR n * / 1208925819614629174706176) in *.
  assert (V : Rabs (v - A) <= / 1208925819614629174706176) by (unfold v; apply Rabs_le; lra). apply Rabs_le_inv in V.
  assert (Bv : Rabs v <= 2) by (apply Rabs_le; lra).
  rewrite Rlt_bool_true in C.
  2:{ apply (small_lt_emax _ 1); [lia|exact Bv]. }
  destruct C as (C1 & C2 & _). split; [exact C2|]. rewrite C1.
  pose proof (rnd_err v) as R. destruct small_facts as (U0 & U1 & T0 & T1). pose proof eta_far as EF.
  assert (Va : Rabs v <= 2 * A) by (apply Rabs_le; lra).
  assert (u * Rabs v <= u * (2 * A)) by (apply Rmult_le_compat_l; lra).
  assert (u * A <= / 1000000000000000 * A) by (apply Rmult_le_compat_r; lra).
  apply Rabs_le_inv in R. apply Rabs_le. lra.
Qed.

(** A realistic row: 10 cm and -5 cm off axis, 300 buckets of 2 mm, 45 kV/m, D = 1/4 V: about 2.6 mm. *)
Definition ex_row (fexp : f64 -> f64) : row (F64 fexp) := @mkRow (F64 fexp) (fdiv (f_of_Z 1) (f_of_Z 10)) (fdiv (f_of_Z (-1)) (f_of_Z 20)) (f_of_Z 300).
Definition ex_width : f64 := fsqrt (fdiv (fmul (fmul (fmul (f_of_Z 2) (f_of_ZE 1 (-2))) (fdiv (f_of_Z 1) (f_of_Z 500))) (f_of_Z 300)) (f_of_Z 45000)).

Lemma ex_resolved : resolved (fdiv (f_of_Z 1) (f_of_Z 10)) (fdiv (f_of_Z (-1)) (f_of_Z 20)) ex_width.
Proof.
  assert (F : is_finite ex_width = true) by (vm_compute; reflexivity).
  assert (Fx : is_finite (fdiv (f_of_Z 1) (f_of_Z 10)) = true) by (vm_compute; reflexivity).
  assert (Fy : is_finite (fdiv (f_of_Z (-1)) (f_of_Z 20)) = true) by (vm_compute; reflexivity).
  assert (A : fleb (f_of_ZE 1 (-10)) ex_width = true) by (vm_compute; reflexivity).
  assert (B : fleb ex_width (f_of_Z 1) = true) by (vm_compute; reflexivity).
  assert (X : fleb (fdiv (f_of_Z 1) (f_of_Z 10)) (f_of_Z 1) = true) by (vm_compute; reflexivity).
  assert (X' : fleb (f_of_Z (-1)) (fdiv (f_of_Z 1) (f_of_Z 10)) = true) by (vm_compute; reflexivity).
  assert (Y : fleb (fdiv (f_of_Z (-1)) (f_of_Z 20)) (f_of_Z 1) = true) by (vm_compute; reflexivity).
  assert (Y' : fleb (f_of_Z (-1)) (fdiv (f_of_Z (-1)) (f_of_Z 20)) = true) by (vm_compute; reflexivity).
  assert (G : is_finite (f_of_ZE 1 (-10)) = true) by (vm_compute; reflexivity).
  assert (V : R64 (f_of_ZE 1 (-10)) = / 1024).
  { rewrite <- SF2R_B2SF. assert (E : B2SF (f_of_ZE 1 (-10)) = SpecFloat.S754_finite false 4503599627370496 (-62)) by (vm_compute; reflexivity).
    rewrite E. unfold SF2R, F2R. cbn [Fnum Fexp cond_Zopp]. change (bpow radix2 (-62)) with (/ 4611686018427387904). lra. }
  rewrite fleb_R in A, B, X, X', Y, Y' by (assumption || (apply f_of_Z_fin; lia)). rewrite V in A.
  rewrite !f_of_Z_R in B, X, X', Y, Y' by lia.
  assert (LE : forall a b, Rle_bool a b = true -> a <= b) by (intros a b H; destruct (Rle_bool_spec a b); [assumption|discriminate H]).
  apply LE in A, B, X, X', Y, Y'. assert (P : 2 ^ 30 = 1073741824) by ring.
  unfold resolved. rewrite P. repeat split; try assumption; try lra; apply Rabs_le; lra.
Qed.

Example C87_example : exp_near ideal_exp /\
  good_width (fexp := ideal_exp) (f_of_ZE 1 (-2)) (f_of_Z 45000) (fdiv (f_of_Z 1) (f_of_Z 500)) (ex_row ideal_exp) /\
  sigma_of (N := F64 ideal_exp) (f_of_ZE 1 (-2)) (f_of_Z 45000) (fdiv (f_of_Z 1) (f_of_Z 500)) (f_of_Z 300) = Ok ex_width /\
  resolved (r_x (ex_row ideal_exp)) (r_y (ex_row ideal_exp)) ex_width.
Proof.
  assert (S : sigma_of (N := F64 ideal_exp) (f_of_ZE 1 (-2)) (f_of_Z 45000) (fdiv (f_of_Z 1) (f_of_Z 500)) (f_of_Z 300) = Ok ex_width).
  { unfold sigma_of, njdiv. cbn [neqb nofZ F64 nsqrt ndiv nmul].
    rewrite (feqb_nonzero (f_of_Z 45000)) by (try (apply f_of_Z_fin; lia); rewrite f_of_Z_R by lia; lra). reflexivity. }
  split; [exact ideal_exp_near|]. split; [|split; [exact S|exact ex_resolved]].
  intros s H. right. cbn [r_time r_x r_y ex_row] in *. assert (E : s = ex_width) by congruence. rewrite E. exact ex_resolved.
Qed.

Print Assumptions C87_pixel.
Print Assumptions C87_row_no_creation.
Print Assumptions C87_track_no_creation.
Print Assumptions C87_bounded_loss.
Print Assumptions C87_width.
