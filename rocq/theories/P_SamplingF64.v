(** P_SamplingF64.v -- C80: samples stay within the ranges asked for, rounding included. *)
From Coq Require Import ZArith Reals Lra Lia List Arith.
From Flocq Require Import Core BinarySingleNaN.
From Verif Require Import Base F64 F64Bounds Sampling P_Sampling SamplingF64 P_KinF64.
Import ListNotations.
Local Open Scope R_scope.

(** ** Rounded operations without overflow *)
Lemma fsub_val (x y : f64) : is_finite x = true -> is_finite y = true -> is_finite (fsub x y) = true ->
  R64 (fsub x y) = rnd64 (R64 x - R64 y).
Proof.
  intros Fx Fy F. pose proof (Bminus_correct prec64 emax64 _ _ mode_NE x y Fx Fy) as C.
  destruct (Rlt_bool _ _); [apply C|]. destruct C as [C _]. exfalso.
  unfold fsub in F. destruct (Bminus mode_NE x y); try discriminate F; discriminate C.
Qed.
Lemma fmul_val (x y : f64) : is_finite x = true -> is_finite y = true -> Rabs (rnd64 (R64 x * R64 y)) < bpow radix2 emax64 ->
  R64 (fmul x y) = rnd64 (R64 x * R64 y) /\ is_finite (fmul x y) = true.
Proof.
  intros Fx Fy B. pose proof (Bmult_correct prec64 emax64 _ _ mode_NE x y) as C.
  change (round_mode mode_NE) with ZnearestE in C. rewrite Rlt_bool_true in C by exact B.
  destruct C as (C1 & C2 & _). split; [exact C1|]. unfold fmul. rewrite C2, Fx, Fy. reflexivity.
Qed.
Lemma fadd_val (x y : f64) : is_finite x = true -> is_finite y = true -> Rabs (rnd64 (R64 x + R64 y)) < bpow radix2 emax64 ->
  R64 (fadd x y) = rnd64 (R64 x + R64 y) /\ is_finite (fadd x y) = true.
Proof.
  intros Fx Fy B. pose proof (Bplus_correct prec64 emax64 _ _ mode_NE x y Fx Fy) as C.
  change (round_mode mode_NE) with ZnearestE in C. rewrite Rlt_bool_true in C by exact B.
  destruct C as (C1 & C2 & _). now split.
Qed.
Lemma fadd_fin_val (x y : f64) : is_finite x = true -> is_finite y = true -> is_finite (fadd x y) = true ->
  R64 (fadd x y) = rnd64 (R64 x + R64 y).
Proof.
  intros Fx Fy F. pose proof (Bplus_correct prec64 emax64 _ _ mode_NE x y Fx Fy) as C.
  destruct (Rlt_bool _ _); [apply C|]. destruct C as [C _]. exfalso.
  unfold fadd in F. destruct (Bplus mode_NE x y); try discriminate F; discriminate C.
Qed.
Lemma big64 (x : f64) : Rabs (R64 x) < bpow radix2 emax64.
Proof. apply abs_B2R_lt_emax. Qed.

(** A draw: at least 0, at most 1 - 2^-53 (numpy takes a multiple of 2^-53). *)
Definition draw_ok (x : f64) : Prop := is_finite x = true /\ 0 <= R64 x <= 1 - / 2 ^ 53.

Lemma small_exact x y : fmt64 x -> fmt64 y -> Rabs (x - y) < bpow radix2 (-1022) -> fmt64 (x - y).
Proof.
  intros Fx Fy B.
  assert (E : forall z, fmt64 z -> exists n, z = IZR n * bpow radix2 (-1074)).
  { intros z Fz. change fexp64 with (FLT_exp (-1074) 53) in Fz. apply FLT_format_generic in Fz; [|reflexivity].
    destruct Fz as [[m e] Ef _ He]. cbn [Fnum Fexp F2R] in *. exists (m * 2 ^ (e + 1074))%Z.
    rewrite Ef. unfold F2R. cbn [Fnum Fexp]. rewrite mult_IZR, Rmult_assoc, IZR_pow2 by lia. rewrite <- bpow_plus.
    do 2 f_equal. lia. }
  destruct (E _ Fx) as [n ->]. destruct (E _ Fy) as [m ->]. rewrite <- Rmult_minus_distr_r, <- minus_IZR in *.
  change fexp64 with (FLT_exp (-1074) 53). apply generic_format_FLT.
  exists (Float radix2 (n - m) (-1074)); [reflexivity| |cbn; lia]. cbn [Fnum].
  rewrite Rabs_mult, (Rabs_pos_eq (bpow _ _)) in B by apply bpow_ge_0. rewrite <- abs_IZR in B.
  apply lt_IZR. apply Rmult_lt_reg_r with (bpow radix2 (-1074)); [apply bpow_gt_0|].
  eapply Rlt_le_trans; [exact B|].
  replace (IZR (radix2 ^ 53)) with (bpow radix2 53) by (rewrite <- IZR_pow2 by lia; reflexivity).
  rewrite <- bpow_plus. apply bpow_le. lia.
Qed.

(** The product of a positive normal number and a draw is rounded below that number. *)
Lemma times_draw d v : fmt64 d -> bpow radix2 (-1022) < d -> 0 <= v <= 1 - / 2 ^ 53 ->
  rnd64 (d * v) <= pred radix2 fexp64 d.
Proof.
  intros Fd B V. assert (P0 : 0 < d) by (pose proof (bpow_gt_0 radix2 (-1022)); lra).
  assert (Pd : fmt64 (pred radix2 fexp64 d)) by (apply generic_format_pred; [apply _|exact Fd]).
  assert (PB : bpow radix2 (-1022) <= pred radix2 fexp64 d).
  { apply pred_ge_gt; try assumption; [apply _|]. apply fmt64_bpow. lia. }
  apply round_N_le_midp; [apply _|exact Pd|].
  rewrite succ_pred by (apply _ || assumption).
  assert (S : succ radix2 fexp64 (pred radix2 fexp64 d) = d) by (apply succ_pred; [apply _|exact Fd]).
  rewrite succ_eq_pos in S by (pose proof (bpow_gt_0 radix2 (-1022)); lra).
  assert (U : ulp radix2 fexp64 (pred radix2 fexp64 d) <= Rabs (pred radix2 fexp64 d) * bpow radix2 (1 - 53)).
  { change fexp64 with (FLT_exp (-1074) 53) in *. apply ulp_FLT_le.
    rewrite Rabs_pos_eq by (pose proof (bpow_gt_0 radix2 (-1022)); lra). exact PB. }
  rewrite Rabs_pos_eq in U by (pose proof (bpow_gt_0 radix2 (-1022)); lra).
  set (p := pred radix2 fexp64 d) in *. set (w := ulp radix2 fexp64 p) in *.
  assert (W : 0 < w).
  { assert (p < d); [|lra]. apply pred_lt_id. lra. }
  assert (E52 : bpow radix2 (1 - 53) = 2 * / 2 ^ 53).
  { change (1 - 53)%Z with (- (52))%Z. rewrite bpow_opp. change (bpow radix2 52) with (IZR (2 ^ 52)).
    change (2 ^ 52)%Z with 4503599627370496%Z. lra. }
  rewrite E52 in U.
  assert (D1 : d * v <= d * (1 - / 2 ^ 53)) by (apply Rmult_le_compat_l; lra).
  set (y := / 2 ^ 53) in *. assert (Y : 0 < y) by (unfold y; apply Rinv_0_lt_compat, pow_lt; lra).
  assert (D2 : p * y < d * y) by (apply Rmult_lt_compat_r; lra).
  lra.
Qed.

(** ** numpy's uniform *)
Lemma uniform_value low high v : is_finite low = true -> is_finite high = true -> is_finite (fsub high low) = true ->
  R64 low <= R64 high -> draw_ok v ->
  let x := fadd low (fmul (fsub high low) v) in
  is_finite x = true /\ R64 low <= R64 x <= R64 high.
Proof.
  intros Fl Fh Fr L (Fv & V) x.
  pose proof (fsub_val _ _ Fh Fl Fr) as E. set (d := R64 (fsub high low)) in *.
  assert (Y : 0 < / 2 ^ 53) by (apply Rinv_0_lt_compat, pow_lt; lra).
  assert (D0 : 0 <= d) by (rewrite E; apply rnd64_ge_fmt; [apply generic_format_0|lra]).
  assert (Fd : fmt64 d) by apply fmt64_R.
  assert (M0 : 0 <= rnd64 (d * R64 v)) by (apply rnd64_ge_fmt; [apply generic_format_0|apply Rmult_le_pos; lra]).
  assert (M1 : rnd64 (d * R64 v) <= d).
  { apply rnd64_le_fmt; [exact Fd|]. rewrite <- (Rmult_1_r d) at 2. apply Rmult_le_compat_l; lra. }
  assert (M2 : rnd64 (d * R64 v) <= R64 high - R64 low).
  { destruct (Rle_lt_dec d (R64 high - R64 low)) as [Q|Q]; [lra|].
    assert (N : bpow radix2 (-1022) <= R64 high - R64 low).
    { destruct (Rle_lt_dec (bpow radix2 (-1022)) (R64 high - R64 low)) as [|T]; [assumption|exfalso].
      assert (X : fmt64 (R64 high - R64 low)).
      { apply small_exact; try apply fmt64_R. rewrite Rabs_pos_eq by lra. exact T. }
      apply rnd64_fmt in X. rewrite X in E. lra. }
    apply Rle_trans with (pred radix2 fexp64 d); [apply times_draw; [exact Fd|lra|exact V]|].
    destruct (Rle_lt_dec (pred radix2 fexp64 d) (R64 high - R64 low)) as [|T]; [assumption|exfalso].
    assert (X : d <= pred radix2 fexp64 d).
    { rewrite E at 1. apply rnd64_le_fmt; [apply generic_format_pred; [apply _|exact Fd]|lra]. }
    pose proof (pred_lt_id radix2 fexp64 d ltac:(pose proof (bpow_gt_0 radix2 (-1022)); lra)). lra. }
  destruct (fmul_val (fsub high low) v Fr Fv) as (Ep & Fp).
  { fold d. rewrite Rabs_pos_eq by exact M0. eapply Rle_lt_trans; [exact M1|].
    pose proof (big64 (fsub high low)) as B. fold d in B. rewrite Rabs_pos_eq in B by exact D0. exact B. }
  fold d in Ep. set (p := rnd64 (d * R64 v)) in *.
  assert (A0 : R64 low <= rnd64 (R64 low + R64 (fmul (fsub high low) v))) by (rewrite Ep; apply rnd64_ge_fmt; [apply fmt64_R|lra]).
  assert (A1 : rnd64 (R64 low + R64 (fmul (fsub high low) v)) <= R64 high) by (rewrite Ep; apply rnd64_le_fmt; [apply fmt64_R|lra]).
  destruct (fadd_val low (fmul (fsub high low) v) Fl Fp) as (Ea & Fa).
  { pose proof (big64 low) as B1. pose proof (big64 high) as B2. apply Rabs_def2 in B1, B2. apply Rabs_def1; lra. }
  split; [exact Fa|]. fold x in Ea. rewrite Ea. lra.
Qed.

(** From 0 the upper end is never reached. *)
Lemma uniform_below high v : is_finite high = true -> bpow radix2 (-1022) < R64 high -> draw_ok v ->
  let x := fadd (f_of_Z 0) (fmul (fsub high (f_of_Z 0)) v) in
  is_finite x = true /\ 0 <= R64 x < R64 high.
Proof.
  intros Fh B V x. pose proof (bpow_gt_0 radix2 (-1022)) as P.
  assert (Z0 : R64 (f_of_Z 0) = 0) by (apply (f_of_Z_R 0); lia).
  assert (F0 : is_finite (f_of_Z 0) = true) by (apply f_of_Z_fin; lia).
  assert (Es : rnd64 (R64 high - R64 (f_of_Z 0)) = R64 high) by (rewrite Z0, Rminus_0_r; apply rnd64_fmt, fmt64_R).
  assert (Fr : R64 (fsub high (f_of_Z 0)) = R64 high /\ is_finite (fsub high (f_of_Z 0)) = true).
  { pose proof (Bminus_correct prec64 emax64 _ _ mode_NE high (f_of_Z 0) Fh F0) as C.
    change (round_mode mode_NE) with ZnearestE in C. rewrite Es, Rlt_bool_true in C by apply big64. now destruct C as (C1 & C2 & _). }
  destruct Fr as [Er Fr].
  destruct (uniform_value (f_of_Z 0) high v F0 Fh Fr ltac:(lra) V) as (Fx & Lx & _). fold x in Fx, Lx.
  split; [exact Fx|]. split; [lra|].
  destruct V as (Fv & V).
  assert (T : rnd64 (R64 high * R64 v) <= pred radix2 fexp64 (R64 high)) by (apply times_draw; [apply fmt64_R|exact B|exact V]).
  assert (T0 : 0 <= rnd64 (R64 high * R64 v)) by (apply rnd64_ge_fmt; [apply generic_format_0|apply Rmult_le_pos; lra]).
  assert (Q : pred radix2 fexp64 (R64 high) < R64 high) by (apply pred_lt_id; lra).
  pose proof (big64 high) as Bh. rewrite Rabs_pos_eq in Bh by lra.
  destruct (fmul_val (fsub high (f_of_Z 0)) v Fr Fv) as (Ep & Fp).
  { rewrite Er, Rabs_pos_eq by exact T0. lra. }
  rewrite Er in Ep. set (p := rnd64 (R64 high * R64 v)) in *.
  assert (Rp : rnd64 (R64 (f_of_Z 0) + R64 (fmul (fsub high (f_of_Z 0)) v)) = p).
  { rewrite Z0, Rplus_0_l, rnd64_fmt by apply fmt64_R. exact Ep. }
  destruct (fadd_val (f_of_Z 0) (fmul (fsub high (f_of_Z 0)) v) F0 Fp) as (Ea & _).
  { rewrite Rp, Rabs_pos_eq by exact T0. lra. }
  unfold x. rewrite Ea, Rp. lra.
Qed.

(** ** numpy's choice *)
Definition weights (p : list f64) : Prop :=
  (Z.of_nat (length p) <= 2 ^ 53)%Z /\ Forall (fun x : f64 => is_finite x = true /\ 0 <= R64 x <= 1) p /\ Exists (fun x : f64 => 0 < R64 x) p.

Lemma step_sum acc x i : (0 <= i < 2 ^ 53)%Z -> is_finite acc = true -> 0 <= R64 acc <= IZR i ->
  is_finite x = true -> 0 <= R64 x <= 1 ->
  is_finite (fadd acc x) = true /\ R64 acc <= R64 (fadd acc x) <= IZR (i + 1) /\ R64 x <= R64 (fadd acc x) /\
  (R64 x = 0 -> R64 (fadd acc x) = R64 acc).
Proof.
  intros I Fa A Fx X. rewrite plus_IZR.
  assert (L : R64 acc <= rnd64 (R64 acc + R64 x)) by (apply rnd64_ge_fmt; [apply fmt64_R|lra]).
  assert (L' : R64 x <= rnd64 (R64 acc + R64 x)) by (apply rnd64_ge_fmt; [apply fmt64_R|lra]).
  assert (U : rnd64 (R64 acc + R64 x) <= IZR i + 1).
  { rewrite <- plus_IZR. apply rnd64_le_IZR; [lia|]. rewrite plus_IZR. lra. }
  assert (B : Rabs (rnd64 (R64 acc + R64 x)) < bpow radix2 emax64).
  { rewrite Rabs_pos_eq by lra. eapply Rle_lt_trans; [exact U|]. rewrite <- plus_IZR.
    eapply Rle_lt_trans; [apply Rle_abs|]. apply abs_IZR_small. lia. }
  destruct (fadd_val acc x Fa Fx B) as (E & F). rewrite E. repeat split; auto; try lra.
  intros Z0. rewrite Z0, Rplus_0_r. apply rnd64_fmt, fmt64_R.
Qed.

(** The sums grow; they stay as they are where the probability is 0. *)
Definition growing (lo : R) (l : list f64) (p : list f64) : Prop :=
  length l = length p /\ Forall (fun x : f64 => is_finite x = true /\ lo <= R64 x) l /\
  (forall i j a b, (i <= j)%nat -> nth_error l i = Some a -> nth_error l j = Some b -> R64 a <= R64 b) /\
  (forall i a b x, nth_error l i = Some a -> nth_error l (S i) = Some b -> nth_error p (S i) = Some x -> R64 x = 0 -> R64 b = R64 a) /\
  (forall a x, nth_error l 0 = Some a -> nth_error p 0 = Some x -> R64 x = 0 -> R64 a = lo) /\
  (forall i a x, nth_error l i = Some a -> nth_error p i = Some x -> R64 x <= R64 a).

Lemma cumsum_growing p : forall acc i, (0 <= i)%Z -> (i + Z.of_nat (length p) <= 2 ^ 53)%Z ->
  is_finite acc = true -> 0 <= R64 acc <= IZR i ->
  Forall (fun x : f64 => is_finite x = true /\ 0 <= R64 x <= 1) p -> growing (R64 acc) (cumsum64 acc p) p.
Proof.
  induction p as [|x p IH]; intros acc i I L Fa A F.
  - cbn [cumsum64]. split; [reflexivity|]. split; [constructor|]. split; [|split; [|split]].
    + intros [|n] j a b _ H; discriminate H.
    + intros [|n] a b x H; discriminate H.
    + intros a x H; discriminate H.
    + intros [|n] a x H; discriminate H.
  - inversion F as [|? ? [Fx Hx] Fp]; subst. cbn [length] in L. cbn [cumsum64].
    destruct (step_sum acc x i) as (Fs & [S1 S2] & S3 & S4); try assumption; [lia|].
    destruct (IH (fadd acc x) (i + 1)%Z) as (G1 & G2 & G3 & G4 & G5 & G6); try assumption; try lia; [lra|].
    split; [cbn [length]; now rewrite G1|]. split.
    { constructor; [split; [exact Fs|lra]|]. eapply Forall_impl; [|exact G2]. intros y [Y1 Y2]. split; [exact Y1|lra]. }
    split; [|split; [|split]].
    + intros [|i'] [|j'] a b Hij Ha Hb; cbn [nth_error] in *; try lia.
      * assert (a = b) by congruence. subst. lra.
      * assert (a = fadd acc x) by congruence. subst a. apply nth_error_In in Hb. rewrite Forall_forall in G2. apply (G2 _ Hb).
      * apply (G3 i' j'); auto. lia.
    + intros [|i'] a b y Ha Hb Hy Hz; cbn [nth_error] in *.
      * assert (a = fadd acc x) by congruence. subst a. apply (G5 b y Hb Hy Hz).
      * apply (G4 i' a b y); auto.
    + intros a y Ha Hy Hz. cbn [nth_error] in *. assert (a = fadd acc x) by congruence. assert (y = x) by congruence. subst. now apply S4.
    + intros [|i'] a y Ha Hy; cbn [nth_error] in *.
      * assert (a = fadd acc x) by congruence. assert (y = x) by congruence. subst. exact S3.
      * apply (G6 i' a y); auto.
Qed.

(** Counting the entries of a growing list that are at most v gives the place of the first one above. *)
Lemma count_place l (v : f64) k b :
  (forall i j a b, (i <= j)%nat -> nth_error l i = Some a -> nth_error l j = Some b -> R64 a <= R64 b) ->
  Forall (fun x : f64 => is_finite x = true) l -> is_finite v = true ->
  nth_error l k = Some b -> R64 v < R64 b -> (forall j a, (j < k)%nat -> nth_error l j = Some a -> R64 a <= R64 v) ->
  length (filter (fun c => fleb c v) l) = k.
Proof.
  revert k. induction l as [|x l IH]; intros k M F Fv Nk Hb Hj; [destruct k; discriminate Nk|].
  inversion F as [|? ? Fx Fl]; subst. cbn [filter].
  assert (M' : forall i j a b, (i <= j)%nat -> nth_error l i = Some a -> nth_error l j = Some b -> R64 a <= R64 b).
  { intros i j a c Hij Ha Hc. apply (M (S i) (S j)); auto. lia. }
  destruct k as [|k].
  - cbn [nth_error] in Nk. assert (x = b) by congruence. subst x.
    rewrite fleb_R by assumption. rewrite Rle_bool_false by exact Hb.
    assert (A : forall y, In y l -> fleb y v = false).
    { intros y Iy. apply In_nth_error in Iy. destruct Iy as [j Ny]. rewrite fleb_R.
      - apply Rle_bool_false. eapply Rlt_le_trans; [exact Hb|]. apply (M 0%nat (S j)); auto. lia.
      - rewrite Forall_forall in Fl. apply Fl. eapply nth_error_In; exact Ny.
      - exact Fv. }
    clear - A. induction l as [|y l IH]; [reflexivity|]. cbn [filter]. rewrite (A y) by now left. apply IH. intros z I. apply A. now right.
  - cbn [nth_error] in Nk. rewrite fleb_R by assumption. rewrite Rle_bool_true by (apply (Hj 0%nat x); [lia|reflexivity]).
    cbn [length]. f_equal. apply IH; auto. intros j a Lj Na. apply (Hj (S j) a); [lia|exact Na].
Qed.

Lemma cdf_spec p : weights p -> length (cdf64 p) = length p /\ Forall (fun x : f64 => is_finite x = true) (cdf64 p) /\
  (forall i j a b, (i <= j)%nat -> nth_error (cdf64 p) i = Some a -> nth_error (cdf64 p) j = Some b -> R64 a <= R64 b) /\
  (forall i a b x, nth_error (cdf64 p) i = Some a -> nth_error (cdf64 p) (S i) = Some b -> nth_error p (S i) = Some x -> R64 x = 0 -> R64 b = R64 a) /\
  (forall a x, nth_error (cdf64 p) 0 = Some a -> nth_error p 0 = Some x -> R64 x = 0 -> R64 a = 0) /\
  (forall b, nth_error (cdf64 p) (length p - 1) = Some b -> R64 b = 1).
Proof.
  intros (L & F & E). destruct p as [|x p]; [inversion E|].
  inversion F as [|? ? [Fx Hx] Fp]; subst. cbn [length] in L.
  rewrite Nat2Z.inj_succ in L.
  assert (L1 : (1 + Z.of_nat (length p) <= 2 ^ 53)%Z) by lia.
  assert (L2 : 0 <= R64 x <= IZR 1) by lra.
  destruct (cumsum_growing p x 1 Z.le_0_1 L1 Fx L2 Fp) as (G1 & G2 & G3 & G4 & G5 & G6).
  set (c := x :: cumsum64 x p).
  assert (Lc : length c = S (length p)) by (unfold c; cbn [length]; now rewrite G1).
  assert (Fc : Forall (fun y : f64 => is_finite y = true /\ R64 x <= R64 y) c) by (constructor; [split; [exact Fx|lra]|exact G2]).
  assert (Mc : forall i j a b, (i <= j)%nat -> nth_error c i = Some a -> nth_error c j = Some b -> R64 a <= R64 b).
  { intros [|i] [|j] a b Hij Ha Hb; cbn [c nth_error] in *; try lia.
    - assert (a = b) by congruence. subst. lra.
    - assert (a = x) by congruence. subst a. apply nth_error_In in Hb. rewrite Forall_forall in G2. apply (G2 _ Hb).
    - apply (G3 i j); auto. lia. }
  assert (Nl : nth_error c (length p) = Some (last c x)).
  { clear - Lc. assert (c <> []) by (unfold c; discriminate). destruct (exists_last H) as (l & z & Q). rewrite Q in *.
    rewrite last_last. rewrite app_length in Lc. cbn [length] in Lc. replace (length p) with (length l) by lia.
    rewrite nth_error_app2, Nat.sub_diag by lia. reflexivity. }
  set (t := last c x) in *.
  assert (Ft : is_finite t = true /\ R64 x <= R64 t) by (rewrite Forall_forall in Fc; apply Fc; eapply nth_error_In; exact Nl).
  assert (Pt : 0 < R64 t).
  { apply Exists_exists in E. destruct E as (y & Iy & Py). apply In_nth_error in Iy. destruct Iy as [j Ny].
    destruct j as [|j]; cbn [nth_error] in Ny; [assert (y = x) by congruence; subst y; lra|].
    change (nth_error p j = Some y) in Ny. assert (Hj : (j < length p)%nat) by (apply (proj1 (nth_error_Some p j)); intros Q; rewrite Q in Ny; discriminate Ny).
    destruct (nth_error (cumsum64 x p) j) as [a|] eqn:Na; [|apply nth_error_None in Na; lia].
    apply Rlt_le_trans with (R64 a); [eapply Rlt_le_trans; [exact Py|apply (G6 j); assumption]|].
    apply (Mc (S j) (length p)); [lia|exact Na|exact Nl]. }
  assert (Dv : forall y, In y c -> is_finite (fdiv y t) = true /\ R64 (fdiv y t) = rnd64 (R64 y / R64 t)).
  { intros y Iy. apply In_nth_error in Iy. destruct Iy as [j Ny].
    assert (Fy : is_finite y = true /\ R64 x <= R64 y) by (rewrite Forall_forall in Fc; apply Fc; eapply nth_error_In; exact Ny).
    assert (Yt : R64 y <= R64 t).
    { apply (Mc j (length p)); [|exact Ny|exact Nl]. assert (j < length c)%nat by (apply nth_error_Some; congruence). lia. }
    destruct (fdiv_fin y t 0) as (Q1 & Q2); [apply Fy|lra|lia| |split; [exact Q2|exact Q1]].
    change (b2 0) with 1. rewrite Rabs_pos_eq.
    - apply Rmult_le_reg_r with (R64 t); [exact Pt|]. unfold Rdiv. rewrite Rmult_assoc, Rinv_l by lra. lra.
    - apply Rmult_le_pos; [lra|]. left. now apply Rinv_0_lt_compat. }
  assert (Ecdf : cdf64 (x :: p) = map (fun y => fdiv y t) c) by reflexivity. rewrite Ecdf.
  assert (Nm : forall i a, nth_error (map (fun y => fdiv y t) c) i = Some a -> exists y, nth_error c i = Some y /\ R64 a = rnd64 (R64 y / R64 t) /\ is_finite a = true).
  { intros i a Na. rewrite nth_error_map in Na. destruct (nth_error c i) as [y|] eqn:Ny; [|discriminate Na].
    exists y. split; [reflexivity|]. assert (Ea : fdiv y t = a) by exact (f_equal (fun o => match o with Some z => z | None => a end) Na). subst a.
    destruct (Dv y) as [D1 D2]; [eapply nth_error_In; exact Ny|]. now split. }
  split; [rewrite map_length, Lc; reflexivity|]. split; [|split; [|split; [|split]]].
  - apply Forall_forall. intros a Ia. apply In_nth_error in Ia. destruct Ia as [i Na]. destruct (Nm _ _ Na) as (_ & _ & _ & Q). exact Q.
  - intros i j a b Hij Na Nb. destruct (Nm _ _ Na) as (y & Ny & -> & _). destruct (Nm _ _ Nb) as (z & Nz & -> & _).
    apply rnd64_le. apply Rmult_le_compat_r; [left; now apply Rinv_0_lt_compat|]. apply (Mc i j); auto.
  - intros i a b w Na Nb Nw W. destruct (Nm _ _ Na) as (y & Ny & -> & _). destruct (Nm _ _ Nb) as (z & Nz & -> & _).
    do 2 f_equal. cbn [nth_error] in Nw, Nz. destruct i as [|i].
    + cbn [c nth_error] in Ny. assert (y = x) by congruence. subst y. apply (G5 z w Nz Nw W).
    + cbn [c nth_error] in Ny. apply (G4 i y z w Ny Nz Nw W).
  - intros a w Na Nw W. destruct (Nm _ _ Na) as (y & Ny & -> & _). cbn [c nth_error] in Ny, Nw.
    assert (y = w) by congruence. subst y. rewrite W. unfold Rdiv. rewrite Rmult_0_l. apply rnd64_0.
  - intros b Nb. cbn [length] in Nb. replace (S (length p) - 1)%nat with (length p) in Nb by lia.
    destruct (Nm _ _ Nb) as (y & Ny & -> & _). assert (y = t) by congruence. subst y.
    unfold Rdiv. rewrite Rinv_r by lra. apply rnd64_fmt. apply (fmt64_IZR 1). lia.
Qed.

(** The entry chosen exists and has a probability above 0. *)
Lemma choice_place p v : weights p -> draw_ok v ->
  exists x, nth_error p (length (filter (fun c => fleb c v) (cdf64 p))) = Some x /\ 0 < R64 x.
Proof.
  intros W (Fv & V). destruct (cdf_spec p W) as (L & F & M & Q & Q0 & One). destruct W as (_ & Wp & Ex).
  assert (Np : p <> []) by (intros ->; inversion Ex).
  assert (Y : 0 < / 2 ^ 53) by (apply Rinv_0_lt_compat, pow_lt; lra).
  (* the first entry above v *)
  assert (H : forall n, (n <= length p)%nat ->
    (exists k b, (k < n)%nat /\ nth_error (cdf64 p) k = Some b /\ R64 v < R64 b /\ forall j a, (j < k)%nat -> nth_error (cdf64 p) j = Some a -> R64 a <= R64 v) \/
    (forall j a, (j < n)%nat -> nth_error (cdf64 p) j = Some a -> R64 a <= R64 v)).
  { induction n as [|n IH]; intros Hn; [right; intros; lia|].
    destruct IH as [(k & b & K & Nb & B & J)|J]; [lia|left; exists k, b; repeat split; auto; lia|].
    destruct (nth_error (cdf64 p) n) as [b|] eqn:Nb; [|apply nth_error_None in Nb; lia].
    destruct (Rlt_le_dec (R64 v) (R64 b)) as [B|B]; [left; exists n, b; repeat split; auto|right].
    intros j a Hj Na. destruct (Nat.eq_dec j n) as [->|]; [assert (a = b) by congruence; now subst|apply (J j); auto; lia]. }
  destruct (H (length p) (le_n _)) as [(k & b & K & Nb & B & J)|J].
  - rewrite (count_place _ v k b M F Fv Nb B J).
    destruct (nth_error p k) as [x|] eqn:Nx; [|apply nth_error_None in Nx; lia]. exists x. split; [reflexivity|].
    assert (Hx : 0 <= R64 x) by (rewrite Forall_forall in Wp; apply (Wp x (nth_error_In _ _ Nx))).
    destruct (Rle_lt_or_eq_dec _ _ Hx) as [|Z]; [assumption|exfalso]. symmetry in Z.
    destruct k as [|k].
    + rewrite (Q0 b x Nb Nx Z) in B. lra.
    + destruct (nth_error (cdf64 p) k) as [a|] eqn:Na; [|apply nth_error_None in Na; lia].
      rewrite (Q k a b x Na Nb Nx Z) in B. specialize (J k a ltac:(lia) Na). lra.
  - exfalso. destruct (nth_error (cdf64 p) (length p - 1)) as [b|] eqn:Nb.
    + pose proof (One b eq_refl). assert (length p <> 0)%nat by (destruct p; [congruence|discriminate]).
      specialize (J (length p - 1)%nat b ltac:(lia) Nb). lra.
    + apply nth_error_None in Nb. destruct p; [congruence|cbn [length] in *; lia].
Qed.

(** ** Specification *)
(** The draw succeeds from every state of the generator and gives a value with this property. *)
Definition gives {G A} (m : @rand G A) (Q : A -> Prop) : Prop := forall g, exists a g', m g = (Ok a, g') /\ Q a.
(** A number of a closed interval. *)
Definition within (lo hi : R) (x : f64) : Prop := is_finite x = true /\ lo <= R64 x <= hi.

Lemma gives_bind {G A B} (m : @rand G A) (f : A -> rand B) (Q : A -> Prop) (P : B -> Prop) :
  gives m Q -> (forall a, Q a -> gives (f a) P) -> gives (rbind m f) P.
Proof. intros H K g. unfold rbind. destruct (H g) as (a & g1 & -> & Qa). apply (K a Qa). Qed.
Lemma gives_ret {G A} (a : A) (Q : A -> Prop) : Q a -> gives (G := G) (ret a) Q.
Proof. intros H g. exists a, g. split; [reflexivity|exact H]. Qed.
Lemma gives_weak {G A} (m : @rand G A) (Q P : A -> Prop) : (forall a, Q a -> P a) -> gives m Q -> gives m P.
Proof. intros I H g. destruct (H g) as (a & g1 & E & Qa). exists a, g1. split; [exact E|now apply I]. Qed.
Lemma gives_index {G A} (l : list A) k a : nth_error l k = Some a -> gives (G := G) (lift (py_index l (Z.of_nat k))) (fun b => b = a).
Proof.
  intros N g. exists a, g. split; [|reflexivity]. unfold lift. f_equal. unfold py_index.
  assert (k < length l)%nat by (apply nth_error_Some; rewrite N; discriminate).
  destruct (Z.ltb_spec (Z.of_nat k) 0); [lia|]. destruct (Z.leb_spec 0 (Z.of_nat k)); [|lia].
  destruct (Z.ltb_spec (Z.of_nat k) (Z.of_nat (length l))); [|lia]. cbn [andb]. rewrite Nat2Z.id, N. reflexivity.
Qed.
Lemma gives_rmap_index {G A B} (f : A -> @rand G B) (V : A -> Prop) (Q : A -> B -> Prop) (l : list A) :
  (forall a, V a -> gives (f a) (Q a)) -> Forall V l ->
  forall n k, (k + n <= length l)%nat ->
  gives (rmap (fun i => rbind (lift (py_index l i)) f) (map Z.of_nat (seq k n))) (fun bs => Forall2 Q (firstn n (skipn k l)) bs).
Proof.
  intros H F. induction n as [|n IH]; intros k K; cbn [seq map rmap].
  - apply gives_ret. constructor.
  - destruct (nth_error l k) as [a|] eqn:N; [|apply nth_error_None in N; lia].
    assert (Va : V a) by (rewrite Forall_forall in F; apply F; eapply nth_error_In; exact N).
    apply gives_bind with (Q a).
    + apply gives_bind with (fun b => b = a); [now apply gives_index|]. intros b ->. now apply H.
    + intros b Qb. apply gives_bind with (fun bs => Forall2 Q (firstn n (skipn (S k) l)) bs); [apply IH; lia|].
      intros bs Fb. apply gives_ret.
      assert (Sk : skipn k l = a :: skipn (S k) l).
      { clear - N. revert l N. induction k as [|k IH]; intros [|x l] N; try discriminate N.
        - cbn [nth_error] in N. assert (x = a) by congruence. subst. reflexivity.
        - cbn [nth_error] in N. exact (IH l N). }
      rewrite Sk. cbn [firstn]. now constructor.
Qed.
Lemma gives_rmap_same {G B} (m : @rand G B) (Q : B -> Prop) n : gives m Q ->
  gives (rmap (fun _ : unit => m) (repeat tt n)) (fun bs => length bs = n /\ Forall Q bs).
Proof.
  intros H. induction n as [|n IH]; cbn [repeat rmap]; [apply gives_ret; split; [reflexivity|constructor]|].
  apply gives_bind with Q; [exact H|]. intros b Qb.
  eapply gives_bind; [exact IH|]. intros bs [L F]. apply gives_ret. split; [cbn [length]; now rewrite L|now constructor].
Qed.

Section C80.
  Context {G : Type} (unit_draw normal_draw : G -> f64 * G) (bw_draw : f64 -> f64 -> G -> f64 * G).
  Context (cos64 sin64 acos64 : f64 -> f64) (pi64 : f64) (sum_is_one : list f64 -> bool).
  Hypothesis draws : forall g, draw_ok (fst (unit_draw g)).
  Hypothesis cosine : forall x, is_finite x = true -> within (-1) 1 (cos64 x).
  Hypothesis sine : forall x, is_finite x = true -> within (-1) 1 (sin64 x).
  Hypothesis arccosine : forall c, within (-1) 1 c -> is_finite (acos64 c) = true.
  Hypothesis antitone : forall c d, within (-1) 1 c -> within (-1) 1 d -> R64 c <= R64 d -> R64 (acos64 d) <= R64 (acos64 c).
  Hypothesis pi_finite : is_finite (fmul pi64 (f_of_Z 2)) = true /\ is_finite (fmul (f_of_Z 2) pi64) = true.
  Hypothesis pi_positive : 1 <= R64 (fmul pi64 (f_of_Z 2)) /\ 1 <= R64 (fmul (f_of_Z 2) pi64).

  Let uniform64 := uniform64 unit_draw.

  (** An interval as numpy's uniform takes it. *)
  Definition interval (low high : f64) : Prop :=
    is_finite low = true /\ is_finite high = true /\ is_finite (fsub high low) = true /\ R64 low <= R64 high.

  (** numpy's uniform gives a number of the closed interval. *)
  Theorem C80_uniform low high : interval low high -> gives (uniform64 low high) (within (R64 low) (R64 high)).
  Proof using draws.
    intros (Fl & Fh & Fr & L) g. unfold uniform64, SamplingF64.uniform64. rewrite Fr. cbn [negb orb].
    assert (N : fltb high low = false) by (rewrite fltb_R by assumption; now apply Rlt_bool_false). rewrite N.
    unfold rbind, random64. pose proof (draws g) as D. destruct (unit_draw g) as [v g'] eqn:E. cbn [fst] in D.
    exists (fadd low (fmul (fsub high low) v)), g'. split; [reflexivity|]. now apply uniform_value.
  Qed.

  (** Azimuthal angles: 2 pi is never reached. *)
  Theorem C80_azimuth high : is_finite high = true -> 1 <= R64 high ->
    gives (uniform64 (f_of_Z 0) high) (fun x => is_finite x = true /\ 0 <= R64 x < R64 high).
  Proof using draws.
    intros Fh H g. assert (Z0 : R64 (f_of_Z 0) = 0) by (apply (f_of_Z_R 0); lia).
    assert (F0 : is_finite (f_of_Z 0) = true) by (apply f_of_Z_fin; lia).
    assert (B : Rabs (rnd64 (R64 high - R64 (f_of_Z 0))) < bpow radix2 emax64).
    { rewrite Z0, Rminus_0_r. rewrite rnd64_fmt by apply fmt64_R. apply big64. }
    assert (Fr : is_finite (fsub high (f_of_Z 0)) = true).
    { pose proof (Bminus_correct prec64 emax64 _ _ mode_NE high (f_of_Z 0) Fh F0) as C.
      change (round_mode mode_NE) with ZnearestE in C. rewrite Rlt_bool_true in C by exact B. apply C. }
    unfold uniform64, SamplingF64.uniform64. rewrite Fr. cbn [negb orb].
    assert (N : fltb high (f_of_Z 0) = false) by (rewrite fltb_R by assumption; apply Rlt_bool_false; lra). rewrite N.
    unfold rbind, random64. pose proof (draws g) as D. destruct (unit_draw g) as [v g'] eqn:E. cbn [fst] in D.
    exists (fadd (f_of_Z 0) (fmul (fsub high (f_of_Z 0)) v)), g'. split; [reflexivity|]. apply uniform_below; auto.
    eapply Rlt_le_trans; [|exact H]. change 1 with (bpow radix2 0). apply bpow_lt. lia.
  Qed.

  (** Polar angles.  The distribution is well formed, the angle is one that it describes. *)
  Definition polar_valid (d : polar64) : Prop :=
    match d with
    | PolarUniform64 angle_min angle_max =>
        is_finite angle_min = true /\ is_finite angle_max = true /\ R64 (cos64 angle_max) <= R64 (cos64 angle_min)
    | PolarArbitrary64 angles probs w =>
        length angles = length probs /\ weights probs /\ sum_is_one probs = true /\ is_finite w = true /\ 0 <= R64 w /\
        Forall (fun a : f64 => is_finite a = true /\ is_finite (fadd a w) = true) angles
    end.
  Definition polar_in (d : polar64) (theta : f64) : Prop :=
    match d with
    | PolarUniform64 angle_min angle_max => within (R64 (acos64 (cos64 angle_min))) (R64 (acos64 (cos64 angle_max))) theta
    | PolarArbitrary64 angles probs w =>
        exists k a p, nth_error angles k = Some a /\ nth_error probs k = Some p /\ 0 < R64 p /\
                      within (R64 a) (R64 (fadd a w)) theta
    end.

  Lemma choice_gives angles probs : length angles = length probs -> weights probs -> sum_is_one probs = true ->
    gives (choice64 unit_draw sum_is_one angles probs)
      (fun a => exists k p, nth_error angles k = Some a /\ nth_error probs k = Some p /\ 0 < R64 p).
  Proof using draws.
    intros L W O g. pose proof W as (_ & Wp & Ex). unfold choice64.
    assert (Ne : length probs <> 0%nat) by (destruct probs; [inversion Ex|discriminate]).
    rewrite L. destruct (Nat.eqb_spec (length probs) 0); [contradiction|]. rewrite Nat.eqb_refl. cbn [negb].
    assert (Ng : existsb (fun x => fltb x (f_of_Z 0)) probs = false).
    { assert (Z0 : R64 (f_of_Z 0) = 0) by (apply (f_of_Z_R 0); lia).
      assert (F0 : is_finite (f_of_Z 0) = true) by (apply f_of_Z_fin; lia).
      clear - Wp Z0 F0. induction Wp as [|x l [Fx Hx] _ IH]; [reflexivity|]. cbn [existsb]. rewrite IH, fltb_R by assumption.
      rewrite Rlt_bool_false by (rewrite Z0; lra). reflexivity. }
    rewrite Ng, O. cbn [negb]. unfold rbind, random64. pose proof (draws g) as D.
    destruct (unit_draw g) as [v g'] eqn:E. cbn [fst] in D.
    destruct (choice_place probs v W D) as (p & Np & Pp).
    set (k := length (filter (fun c => fleb c v) (cdf64 probs))) in *.
    assert (Hk : (k < length probs)%nat) by (apply (proj1 (nth_error_Some probs k)); rewrite Np; discriminate).
    destruct (nth_error angles k) as [a|] eqn:Na; [|apply nth_error_None in Na; lia].
    exists a, g'. split; [reflexivity|]. exists k, p. auto.
  Qed.

  Theorem C80_polar d : polar_valid d ->
    gives (sample_polar64 unit_draw cos64 acos64 sum_is_one d) (polar_in d).
  Proof using draws cosine arccosine antitone.
    destruct d as [amin amax|angles probs w]; cbn [polar_valid polar_in sample_polar64].
    - intros (F1 & F2 & L). destruct (cosine _ F1) as (Fc1 & C1). destruct (cosine _ F2) as (Fc2 & C2).
      apply gives_bind with (within (R64 (cos64 amax)) (R64 (cos64 amin))).
      + apply C80_uniform. split; [exact Fc2|]. split; [exact Fc1|]. split; [|exact L].
        destruct (fsub_fin (cos64 amin) (cos64 amax) 1) as (_ & Q); auto; [lia|].
        change (b2 1) with 2. apply Rabs_le. lra.
      + intros c (Fc & Hc). apply gives_ret.
        assert (W : forall x, is_finite x = true -> -1 <= R64 x <= 1 -> within (-1) 1 x) by (intros; now split).
        split; [apply arccosine; apply W; [exact Fc|lra]|]. split; apply antitone; try apply W; auto; lra.
    - intros (L & W & O & Fw & Hw & Fa).
      eapply gives_bind; [now apply choice_gives|]. intros a (k & p & Na & Np & Pp).
      rewrite Forall_forall in Fa. destruct (Fa a (nth_error_In _ _ Na)) as (Fa1 & Fa2).
      assert (H1 : R64 (f_of_Z 1) = 1) by (apply (f_of_Z_R 1); lia).
      apply gives_bind with (fun x => is_finite x = true /\ 0 <= R64 x < R64 (f_of_Z 1)).
      + apply C80_azimuth; [apply f_of_Z_fin; lia|lra].
      + intros x (Fx & Hx). rewrite H1 in Hx. apply gives_ret. exists k, a, p. repeat split; auto.
        all: assert (M : 0 <= R64 x * R64 w <= R64 w) by
          (split; [apply Rmult_le_pos; lra|rewrite <- (Rmult_1_l (R64 w)) at 2; apply Rmult_le_compat_r; lra]).
        all: assert (RM : 0 <= rnd64 (R64 x * R64 w) <= R64 w) by
          (split; [rewrite <- rnd64_0; apply rnd64_le; lra|apply Rle_trans with (rnd64 (R64 w)); [apply rnd64_le; lra|rewrite rnd64_fmt by apply fmt64_R; lra]]).
        all: pose proof (big64 w) as Bw; rewrite Rabs_pos_eq in Bw by exact Hw.
        all: destruct (fmul_val x w Fx Fw) as (Em & Fm); [rewrite Rabs_pos_eq by lra; lra|].
        all: assert (Ew : R64 (fadd a w) = rnd64 (R64 a + R64 w)) by (apply fadd_fin_val; assumption).
        all: assert (S1 : R64 a <= rnd64 (R64 a + R64 (fmul x w))) by (apply rnd64_ge_fmt; [apply fmt64_R|rewrite Em; lra]).
        all: assert (S2 : rnd64 (R64 a + R64 (fmul x w)) <= R64 (fadd a w)) by (rewrite Ew; apply rnd64_le; rewrite Em; lra).
        all: pose proof (big64 a) as Ba; pose proof (big64 (fadd a w)) as Bb; apply Rabs_def2 in Ba; apply Rabs_def2 in Bb.
        all: destruct (fadd_val a (fmul x w) Fa1 Fm) as (Es & Fs); [apply Rabs_def1; lra|].
        * exact Fs.
        * rewrite Es. exact S1.
        * rewrite Es. exact S2.
  Qed.

  (** Excitation energies. *)
  Definition excitation_valid (e : excitation64) : Prop :=
    match e with
    | ExGaussian64 _ width => fltb (fdiv width (fdiv (f_of_Z 2355) (f_of_Z 1000))) (f_of_Z 0) = false
    | ExUniform64 a b => interval a b
    | ExBreitWigner64 _ _ width => feqb width (f_of_Z 0) = false
    end.
  Definition excitation_in (e : excitation64) (x : f64) : Prop :=
    match e with ExUniform64 a b => within (R64 a) (R64 b) x | _ => True end.
  Theorem C80_excitation e : excitation_valid e ->
    gives (sample_excitation64 unit_draw normal_draw bw_draw e) (excitation_in e).
  Proof using draws.
    destruct e as [c w|a b|m c w]; cbn [excitation_valid excitation_in sample_excitation64].
    - intros H g. unfold normal64. rewrite H. destruct (normal_draw g) as [z g']. eexists _, _. split; [reflexivity|exact I].
    - apply C80_uniform.
    - intros H g. rewrite H. destruct (bw_draw _ _ g) as [z g']. eexists _, _. split; [reflexivity|exact I].
  Qed.

  (** The vertex and the beam energy there. *)
  Definition target_valid (beam : f64) (t : target64) : Prop :=
    fltb (t64_rho_sigma t) (f_of_Z 0) = false /\ interval (t64_zmin t) (t64_zmax t) /\ is_finite beam = true /\
    forall z, within (R64 (t64_zmin t)) (R64 (t64_zmax t)) z -> within 0 (R64 beam) (t64_loss t beam z).
  Definition vertex_in (beam : f64) (t : target64) (ev : f64 * (f64 * f64 * f64)) : Prop :=
    let '(e, (x, y, z)) := ev in
    within 0 (R64 beam) e /\ within (R64 (t64_zmin t)) (R64 (t64_zmax t)) z /\
    exists g n g1, normal_draw g = (n, g1) /\
      let r := fadd (f_of_Z 0) (fmul (t64_rho_sigma t) n) in
      is_finite r = true -> within (- Rabs (R64 r)) (Rabs (R64 r)) x /\ within (- Rabs (R64 r)) (Rabs (R64 r)) y.

  Lemma scaled r c : is_finite r = true -> within (-1) 1 c ->
    within (- Rabs (R64 r)) (Rabs (R64 r)) (fmul (@Babs prec64 emax64 r) c).
  Proof using.
    intros Fr (Fc & C).
    assert (Ea : R64 (@Babs prec64 emax64 r) = Rabs (R64 r)) by apply B2R_Babs.
    assert (Fa : is_finite (@Babs prec64 emax64 r) = true) by now rewrite is_finite_Babs.
    assert (Fmt : fmt64 (Rabs (R64 r))) by (rewrite <- Ea; apply fmt64_R).
    pose proof (Rabs_pos (R64 r)) as P. pose proof (big64 r) as B.
    assert (M : - Rabs (R64 r) <= Rabs (R64 r) * R64 c <= Rabs (R64 r)).
    { split.
      - replace (- Rabs (R64 r)) with (Rabs (R64 r) * (-1)) by ring. apply Rmult_le_compat_l; lra.
      - rewrite <- (Rmult_1_r (Rabs (R64 r))) at 2. apply Rmult_le_compat_l; lra. }
    assert (RM : - Rabs (R64 r) <= rnd64 (Rabs (R64 r) * R64 c) <= Rabs (R64 r)).
    { split.
      - apply rnd64_ge_fmt; [apply generic_format_opp; exact Fmt|apply M].
      - rewrite <- (rnd64_fmt (Rabs (R64 r))) at 2 by exact Fmt. apply rnd64_le, M. }
    destruct (fmul_val (Babs r) c Fa Fc) as (E & F); [rewrite Ea; apply Rabs_def1; lra|].
    split; [exact F|]. rewrite E, Ea. exact RM.
  Qed.

  Theorem C80_vertex beam t : target_valid beam t ->
    gives (sample_vertex64 unit_draw normal_draw cos64 sin64 pi64 beam (Some t)) (vertex_in beam t).
  Proof using draws cosine sine pi_finite pi_positive.
    intros (Hs & Hz & Fb & Hl). unfold sample_vertex64.
    apply gives_bind with (fun r => exists g n g1, normal_draw g = (n, g1) /\ r = fadd (f_of_Z 0) (fmul (t64_rho_sigma t) n)).
    { intros g. unfold normal64. rewrite Hs. destruct (normal_draw g) as [n g1] eqn:En. eexists _, _. split; [reflexivity|]. exists g, n, g1. auto. }
    intros r (g & n & g1 & En & Er). cbv zeta.
    eapply gives_bind; [apply C80_azimuth; [apply pi_finite|apply pi_positive]|]. intros theta (Ft & _).
    eapply gives_bind; [now apply C80_uniform|]. intros z Wz. apply gives_ret. cbn [vertex_in].
    split; [|split; [exact Wz|]].
    - destruct (Hl z Wz) as (Fl & L). pose proof (big64 beam) as Bb.
      assert (RM : 0 <= rnd64 (R64 beam - R64 (t64_loss t beam z)) <= R64 beam).
      { split; [rewrite <- rnd64_0; apply rnd64_le; lra|]. rewrite <- (rnd64_fmt (R64 beam)) at 2 by apply fmt64_R. apply rnd64_le. lra. }
      rewrite Rabs_pos_eq in Bb by lra.
      pose proof (Bminus_correct prec64 emax64 _ _ mode_NE beam (t64_loss t beam z) Fb Fl) as C.
      change (round_mode mode_NE) with ZnearestE in C.
      rewrite Rlt_bool_true in C by (apply Rabs_def1; lra). destruct C as (C1 & C2 & _).
      split; [exact C2|]. unfold fsub. rewrite C1. exact RM.
    - exists g, n, g1. split; [exact En|]. intros Fr. rewrite <- Er in *. split; apply scaled; auto.
  Qed.

  (** A whole sample.  Every draw succeeds, and every number of the sample lies in its range. *)
  Definition azimuth_in (x : f64) : Prop := is_finite x = true /\ 0 <= R64 x < R64 (fmul pi64 (f_of_Z 2)).
  Definition sample_in (beam : f64) (t : option target64) (excitations : list excitation64) (polar_dists : list polar64)
      (decays : nat) (s : sample64) : Prop :=
    match t with
    | Some t => vertex_in beam t (s64_energy s, s64_vertex s)
    | None => s64_energy s = beam /\ s64_vertex s = (f_of_Z 0, f_of_Z 0, f_of_Z 0)
    end /\
    Forall2 excitation_in excitations (s64_ex s :: s64_decay_ex s) /\
    Forall2 polar_in polar_dists (s64_theta s :: s64_decay_thetas s) /\
    Forall azimuth_in (s64_phi s :: s64_decay_phis s) /\ length (s64_decay_phis s) = decays.

  Theorem C80_sample beam t excitations polar_dists decays :
    match t with Some t => target_valid beam t | None => True end ->
    excitations <> [] -> length polar_dists = length excitations ->
    Forall excitation_valid excitations -> Forall polar_valid polar_dists ->
    gives (sample_pipeline64 unit_draw normal_draw bw_draw cos64 sin64 acos64 pi64 sum_is_one beam t excitations polar_dists decays)
      (sample_in beam t excitations polar_dists decays).
  Proof using draws cosine sine arccosine antitone pi_finite pi_positive.
    intros Ht Ne L Fe Fp. unfold sample_pipeline64.
    destruct excitations as [|e es]; [congruence|]. destruct polar_dists as [|d ds]; [discriminate L|]. clear Ne.
    set (Qv := fun ev : f64 * (f64 * f64 * f64) => match t with Some t => vertex_in beam t ev
                 | None => ev = (beam, (f_of_Z 0, f_of_Z 0, f_of_Z 0)) end).
    apply gives_bind with Qv.
    { unfold Qv. destruct t as [t|]; [now apply C80_vertex|]. apply gives_ret. reflexivity. }
    intros ev Hv.
    apply gives_bind with (fun b => b = e); [exact (gives_index (e :: es) 0 e eq_refl)|]. intros ? ->.
    eapply gives_bind; [apply C80_excitation; now inversion Fe|]. intros rex Hrex.
    apply gives_bind with (fun b => b = d); [exact (gives_index (d :: ds) 0 d eq_refl)|]. intros ? ->.
    eapply gives_bind; [apply C80_polar; now inversion Fp|]. intros rth Hrth. cbv zeta.
    eapply gives_bind; [apply C80_azimuth; [apply pi_finite|apply pi_positive]|]. intros rphi Hrphi.
    cbn [length] in *. replace (S (length es) - 1)%nat with (length es) by lia.
    eapply gives_bind.
    { apply (gives_rmap_index _ excitation_valid excitation_in (e :: es)); [apply C80_excitation|exact Fe|cbn [length]; lia]. }
    intros dex Hdex. cbn [skipn] in Hdex. rewrite firstn_all in Hdex.
    eapply gives_bind.
    { apply (gives_rmap_index _ polar_valid polar_in (d :: ds)); [apply C80_polar|exact Fp|cbn [length]; lia]. }
    intros dth Hdth. cbn [skipn] in Hdth. assert (Ll : length es = length ds) by lia. rewrite Ll, firstn_all in Hdth.
    eapply gives_bind; [apply gives_rmap_same; apply C80_azimuth; [apply pi_finite|apply pi_positive]|].
    intros dph [Ldph Hdph]. apply gives_ret.
    split; [|split; [now constructor|split; [now constructor|split; [now constructor|exact Ldph]]]].
    cbn [s64_energy s64_vertex]. unfold Qv in Hv. destruct t as [t|]; [now destruct ev|]. subst ev. split; reflexivity.
  Qed.
End C80.

Lemma val_of (x : f64) m e : B2SF x = SpecFloat.S754_finite false m e -> R64 x = IZR (Z.pos m) * bpow radix2 e.
Proof. intros H. rewrite <- SF2R_B2SF, H. reflexivity. Qed.

(** The upper end can be reached when the lower one is not 0: numpy's uniform is not half-open. *)
Theorem C80_half_open_refuted : exists low high v, interval low high /\ R64 low < R64 high /\ draw_ok v /\
  R64 (fadd low (fmul (fsub high low) v)) = R64 high.
Proof.
  set (low := f_of_Z 1). set (high := fadd (f_of_Z 1) (fdiv (f_of_Z 1) (f_of_Z (2 ^ 52)))).
  set (v := fdiv (f_of_Z 3) (f_of_Z 4)).
  assert (Hl : R64 low = 1) by (apply (f_of_Z_R 1); lia).
  assert (Fl : is_finite low = true) by (apply f_of_Z_fin; lia).
  assert (Hh : is_finite high = true /\ R64 high = 1 + / 2 ^ 52).
  { split; [vm_compute; reflexivity|].
    assert (E : R64 (high) = IZR (Z.pos 4503599627370497) * bpow radix2 (-52)) by (apply val_of; vm_compute; reflexivity).
    rewrite E. cbn [bpow]. change (Z.pow_pos radix2 52) with 4503599627370496%Z.
    replace (2 ^ 52) with 4503599627370496 by (rewrite pow_IZR; reflexivity). lra. }
  assert (Hv : draw_ok v).
  { split; [vm_compute; reflexivity|]. assert (E : R64 (v) = IZR (Z.pos 6755399441055744) * bpow radix2 (-53)) by (apply val_of; vm_compute; reflexivity).
    rewrite E. cbn [bpow]. change (Z.pow_pos radix2 53) with 9007199254740992%Z.
    replace (2 ^ 53) with 9007199254740992 by (rewrite pow_IZR; reflexivity). lra. }
  destruct Hh as [Fh Hh]. assert (P : 0 < / 2 ^ 52) by (apply Rinv_0_lt_compat, pow_lt; lra).
  exists low, high, v. split; [|split; [lra|split; [exact Hv|]]].
  - split; [exact Fl|]. split; [exact Fh|]. split; [vm_compute; reflexivity|lra].
  - rewrite <- (SF2R_B2SF _ _ high), <- SF2R_B2SF. apply (f_equal (SF2R radix2)). vm_compute. reflexivity.
Qed.

(** ** Functions rounded correctly meet the requirements *)
Definition f_of_R (x : R) : f64 :=
  binary_normalize prec64 emax64 eq_refl eq_refl mode_NE (ZnearestE (scaled_mantissa radix2 fexp64 x)) (cexp radix2 fexp64 x) false.
Lemma f_of_R_val x : Rabs x <= 4 -> is_finite (f_of_R x) = true /\ R64 (f_of_R x) = rnd64 x.
Proof.
  intros B.
  pose proof (binary_normalize_correct prec64 emax64 eq_refl eq_refl mode_NE (ZnearestE (scaled_mantissa radix2 fexp64 x)) (cexp radix2 fexp64 x) false) as C.
  cbv zeta in C. change (round_mode mode_NE) with ZnearestE in C.
  change (F2R (Float radix2 (ZnearestE (scaled_mantissa radix2 fexp64 x)) (cexp radix2 fexp64 x))) with (rnd64 x) in C.
  rewrite round_generic in C; [|apply _|apply generic_format_round; apply _].
  assert (L : Rabs (rnd64 x) <= 4).
  { apply Rabs_le. apply Rabs_le_inv in B. split.
    - apply rnd64_ge_fmt; [|lra]. apply generic_format_opp, (fmt64_IZR 4). lia.
    - apply (rnd64_le_IZR x 4); [lia|lra]. }
  rewrite Rlt_bool_true in C.
  - destruct C as (C1 & C2 & _). split; assumption.
  - eapply Rle_lt_trans; [exact L|]. change 4 with (bpow radix2 2). apply bpow_lt. reflexivity.
Qed.
Definition cos_r (x : f64) : f64 := f_of_R (cos (R64 x)).
Definition sin_r (x : f64) : f64 := f_of_R (sin (R64 x)).
Definition acos_r (x : f64) : f64 := f_of_R (acos (R64 x)).
Lemma unit_rounded x : -1 <= x <= 1 -> within (-1) 1 (f_of_R x).
Proof.
  intros H. destruct (f_of_R_val x) as [F E]; [apply Rabs_le; lra|]. split; [exact F|]. rewrite E. split.
  - apply rnd64_ge_fmt; [|lra]. apply (fmt64_IZR (-1)). lia.
  - apply (rnd64_le_IZR x 1); [lia|lra].
Qed.
Lemma acos_small x : Rabs (acos x) <= 4.
Proof. pose proof (acos_bound x). pose proof PI_4. rewrite Rabs_pos_eq; lra. Qed.
Lemma acos_antitone c d : -1 <= c <= 1 -> -1 <= d <= 1 -> c <= d -> acos d <= acos c.
Proof.
  intros C D H. destruct (Rle_lt_dec (acos d) (acos c)) as [|N]; [assumption|exfalso].
  pose proof (acos_bound c). pose proof (acos_bound d).
  assert (Q : cos (acos d) < cos (acos c)) by (apply cos_decreasing_1; lra).
  rewrite !cos_acos in Q by assumption. lra.
Qed.
Definition pi_r : f64 := f_of_R PI.
Lemma pi_r_val : is_finite pi_r = true /\ 3 <= R64 pi_r <= 4.
Proof.
  destruct (f_of_R_val PI) as [F E]; [pose proof PI_RGT_0; pose proof PI_4; rewrite Rabs_pos_eq; lra|].
  split; [exact F|]. unfold pi_r. rewrite E. split.
  - apply rnd64_ge_fmt; [apply (fmt64_IZR 3); lia|]. pose proof PI2_3_2. unfold PI2 in *. lra.
  - apply (rnd64_le_IZR PI 4); [lia|apply PI_4].
Qed.
Lemma two_pi_r : (is_finite (fmul pi_r (f_of_Z 2)) = true /\ is_finite (fmul (f_of_Z 2) pi_r) = true) /\
  (1 <= R64 (fmul pi_r (f_of_Z 2)) /\ 1 <= R64 (fmul (f_of_Z 2) pi_r)).
Proof.
  destruct pi_r_val as [F B]. assert (F2 : is_finite (f_of_Z 2) = true) by (apply f_of_Z_fin; lia).
  assert (H2 : R64 (f_of_Z 2) = 2) by (apply (f_of_Z_R 2); lia).
  assert (R1 : forall z, 6 <= z <= 8 -> 1 <= rnd64 z <= 8).
  { intros z Hz. split; [apply rnd64_ge_fmt; [apply (fmt64_IZR 1); lia|lra]|apply (rnd64_le_IZR z 8); [lia|lra]]. }
  assert (B8 : forall z, 1 <= z <= 8 -> Rabs z < bpow radix2 emax64).
  { intros z Hz. rewrite Rabs_pos_eq by lra. apply Rle_lt_trans with (bpow radix2 3); [change (bpow radix2 3) with 8; lra|apply bpow_lt; reflexivity]. }
  assert (M1 : 1 <= rnd64 (R64 pi_r * R64 (f_of_Z 2)) <= 8) by (apply R1; rewrite H2; lra).
  assert (M2 : 1 <= rnd64 (R64 (f_of_Z 2) * R64 pi_r) <= 8) by (apply R1; rewrite H2; lra).
  destruct (fmul_val pi_r (f_of_Z 2) F F2 (B8 _ M1)) as (E1 & G1).
  destruct (fmul_val (f_of_Z 2) pi_r F2 F (B8 _ M2)) as (E2 & G2).
  rewrite E1, E2. repeat split; auto; lra.
Qed.

(** A target of 1 m with a loss of 1/2 of the beam energy, two excitations, isotropic angles and a table. *)
Definition fixed_draw (g : nat) : f64 * nat := (fdiv (f_of_Z 3) (f_of_Z 4), S g).
Definition tank64 : target64 := mkTarget64 (fun e _ => fdiv (f_of_Z 5) (f_of_Z 2)) (f_of_Z 0) (f_of_Z 1) (fdiv (f_of_Z 1) (f_of_Z 8)).
Definition table64 : polar64 :=
  PolarArbitrary64 [f_of_Z 0; f_of_Z 1; f_of_Z 2] [fdiv (f_of_Z 1) (f_of_Z 4); f_of_Z 0; fdiv (f_of_Z 3) (f_of_Z 4)] (f_of_Z 1).
Lemma fixed_draw_ok g : draw_ok (fst (fixed_draw g)).
Proof.
  cbn [fixed_draw fst]. set (v := fdiv (f_of_Z 3) (f_of_Z 4)).
  split; [vm_compute; reflexivity|]. assert (E : R64 (v) = IZR (Z.pos 6755399441055744) * bpow radix2 (-53)) by (apply val_of; vm_compute; reflexivity).
  rewrite E. cbn [bpow]. change (Z.pow_pos radix2 53) with 9007199254740992%Z.
  replace (2 ^ 53) with 9007199254740992 by (rewrite pow_IZR; reflexivity). lra.
Qed.
Lemma quarter_val : is_finite (fdiv (f_of_Z 1) (f_of_Z 4)) = true /\ 0 < R64 (fdiv (f_of_Z 1) (f_of_Z 4)) <= 1.
Proof.
  split; [vm_compute; reflexivity|]. assert (E : R64 (fdiv (f_of_Z 1) (f_of_Z 4)) = IZR (Z.pos 4503599627370496) * bpow radix2 (-54)) by (apply val_of; vm_compute; reflexivity).
  rewrite E. cbn [bpow]. change (Z.pow_pos radix2 54) with 18014398509481984%Z. lra.
Qed.

Example C80_example : forall decays,
  gives (sample_pipeline64 fixed_draw (fun g => (f_of_Z 1, S g)) (fun _ _ g => (f_of_Z 0, S g)) cos_r sin_r acos_r pi_r (fun _ => true)
           (f_of_Z 20) (Some tank64) [ExUniform64 (f_of_Z 0) (f_of_Z 5); ExGaussian64 (f_of_Z 4) (f_of_Z 1)]
           [PolarUniform64 (f_of_Z 0) (f_of_Z 1); table64] decays)
        (sample_in (fun g => (f_of_Z 1, S g)) cos_r acos_r pi_r (f_of_Z 20) (Some tank64)
           [ExUniform64 (f_of_Z 0) (f_of_Z 5); ExGaussian64 (f_of_Z 4) (f_of_Z 1)] [PolarUniform64 (f_of_Z 0) (f_of_Z 1); table64] decays).
Proof.
  intros decays.
  assert (FZ : forall z, (Z.abs z <= 2 ^ 53)%Z -> is_finite (f_of_Z z) = true) by (intros; now apply f_of_Z_fin).
  assert (RZ : forall z, (Z.abs z <= 2 ^ 53)%Z -> R64 (f_of_Z z) = IZR z) by (intros; now apply f_of_Z_R).
  assert (IV : forall a b, is_finite (fsub (f_of_Z b) (f_of_Z a)) = true -> (a <= b)%Z -> (Z.abs a <= 2 ^ 53)%Z -> (Z.abs b <= 2 ^ 53)%Z ->
    interval (f_of_Z a) (f_of_Z b)).
  { intros a b F L A B. split; [now apply FZ|]. split; [now apply FZ|]. split; [exact F|]. rewrite !RZ by assumption. now apply IZR_le. }
  apply C80_sample.
  - apply fixed_draw_ok.
  - intros x _. apply unit_rounded, COS_bound.
  - intros x _. apply unit_rounded, SIN_bound.
  - intros c _. apply f_of_R_val, acos_small.
  - intros c d (_ & C) (_ & D) H. unfold acos_r. destruct (f_of_R_val (acos (R64 d)) (acos_small _)) as [_ ->].
    destruct (f_of_R_val (acos (R64 c)) (acos_small _)) as [_ ->]. apply rnd64_le. now apply acos_antitone.
  - apply two_pi_r.
  - apply two_pi_r.
  - split; [vm_compute; reflexivity|]. split; [apply (IV 0 1)%Z; [vm_compute; reflexivity|lia|lia|lia]|]. split; [apply FZ; lia|].
    intros z _. cbn [tank64 t64_loss]. split; [vm_compute; reflexivity|]. rewrite RZ by lia.
    assert (E : R64 (fdiv (f_of_Z 5) (f_of_Z 2)) = IZR (Z.pos 5629499534213120) * bpow radix2 (-51)) by (apply val_of; vm_compute; reflexivity).
    rewrite E. cbn [bpow]. change (Z.pow_pos radix2 51) with 2251799813685248%Z. lra.
  - discriminate.
  - reflexivity.
  - constructor; [|constructor; [|constructor]]; cbn [excitation_valid].
    + apply (IV 0 5)%Z; [vm_compute; reflexivity|lia|lia|lia].
    + vm_compute. reflexivity.
  - constructor; [|constructor; [|constructor]]; cbn [polar_valid table64].
    + split; [apply FZ; lia|]. split; [apply FZ; lia|]. unfold cos_r. rewrite !RZ by lia.
      destruct (f_of_R_val (cos 1)) as [_ ->]; [pose proof (COS_bound 1); apply Rabs_le; lra|].
      destruct (f_of_R_val (cos 0)) as [_ ->]; [pose proof (COS_bound 0); apply Rabs_le; lra|].
      apply rnd64_le. rewrite cos_0. apply COS_bound.
    + assert (Q : R64 (f_of_Z 0) = 0) by (apply (RZ 0%Z); lia).
      pose proof (fixed_draw_ok 0) as (F3 & D3). cbn [fixed_draw fst] in F3, D3.
      assert (Y : 0 < / 2 ^ 53) by (apply Rinv_0_lt_compat, pow_lt; lra). destruct quarter_val as [F1 D1].
      split; [reflexivity|]. split.
      { split; [cbn; lia|]. split.
        - constructor; [split; [exact F1|lra]|]. constructor; [split; [apply FZ; lia|rewrite Q; lra]|].
          constructor; [split; [exact F3|lra]|constructor].
        - constructor. lra. }
      split; [reflexivity|]. split; [apply FZ; lia|]. split; [rewrite RZ by lia; lra|].
      constructor; [split; vm_compute; reflexivity|]. constructor; [split; vm_compute; reflexivity|].
      constructor; [split; vm_compute; reflexivity|constructor].
Qed.

Print Assumptions C80_sample.
