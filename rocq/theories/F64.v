(** F64.v -- IEEE binary64 on top of Flocq's [BinarySingleNaN] (one NaN, rounding to
    nearest even), with the handful of lemmas used later. *)
From Coq Require Import ZArith Reals Lia Lra Bool.
From Flocq Require Import Core BinarySingleNaN.
From Verif Require Import Base.
Local Open Scope Z_scope.

Definition prec64 := 53%Z.
Definition emax64 := 1024%Z.
#[global] Instance prec64_gt_0 : Prec_gt_0 prec64. Proof. reflexivity. Qed.
#[global] Instance prec64_lt_emax : Prec_lt_emax prec64 emax64. Proof. reflexivity. Qed.

(** Python / numpy float64. *)
Definition f64 := binary_float prec64 emax64.

Definition fadd : f64 -> f64 -> f64 := Bplus mode_NE.
Definition fsub : f64 -> f64 -> f64 := Bminus mode_NE.
Definition fmul : f64 -> f64 -> f64 := Bmult mode_NE.
Definition fdiv : f64 -> f64 -> f64 := Bdiv mode_NE.
Definition fsqrt : f64 -> f64 := Bsqrt mode_NE.
(** np.floor *)
Definition ffloor : f64 -> f64 := Bnearbyint mode_DN.
(** float64(int): rounding conversion of a (mathematical) integer. *)
Definition f_of_Z (z : Z) : f64 := binary_normalize prec64 emax64 _ _ mode_NE z 0 false.
(** m * 2^e, correctly rounded. *)
Definition f_of_ZE (m e : Z) : f64 := binary_normalize prec64 emax64 _ _ mode_NE m e false.
Definition fltb : f64 -> f64 -> bool := @Bltb prec64 emax64.
Definition fleb : f64 -> f64 -> bool := @Bleb prec64 emax64.
Definition feqb : f64 -> f64 -> bool := @Beqb prec64 emax64.
Definition fnan : f64 := B754_nan.
(** int(x) in numba: truncation; not defined for NaN, infinities and values outside int64. *)
Definition f_to_Z (x : f64) : option Z :=
  if is_finite x then
    let z := Btrunc x in if in_int64 z then Some z else None
  else None.

Notation R64 := (@B2R prec64 emax64).
Notation fexp64 := (SpecFloat.fexp prec64 emax64).
Notation rnd64 := (round radix2 fexp64 ZnearestE).
Notation fmt64 := (generic_format radix2 fexp64).

#[global] Instance fexp64_valid : Valid_exp fexp64 :=
  FLT_exp_valid (SpecFloat.emin prec64 emax64) prec64.
#[global] Instance fexp64_mono : Monotone_exp fexp64 :=
  FLT_exp_monotone (SpecFloat.emin prec64 emax64) prec64.

Local Open Scope R_scope.

Lemma bpow1024_big : bpow radix2 53 < bpow radix2 emax64.
Proof. apply bpow_lt. reflexivity. Qed.

Lemma IZR_pow2 (n : Z) : (0 <= n)%Z -> IZR (2 ^ n) = bpow radix2 n.
Proof. intros H. now rewrite <- (IZR_Zpower radix2). Qed.

(** Integers up to 2^53 are representable. *)
Lemma fmt64_IZR (z : Z) : (Z.abs z <= 2 ^ 53)%Z -> fmt64 (IZR z).
Proof.
  intros H.
  destruct (Z.eq_dec (Z.abs z) (2 ^ 53)) as [E|N].
  - assert (Hz : IZR z = bpow radix2 53 \/ IZR z = - bpow radix2 53).
    { rewrite <- IZR_pow2 by lia. rewrite <- opp_IZR.
      destruct (Z.abs_eq_or_opp z) as [Ha|Ha]; rewrite Ha in E; [left|right];
        apply f_equal; lia. }
    assert (Hf : fmt64 (bpow radix2 53)).
    { apply generic_format_bpow. unfold SpecFloat.fexp, SpecFloat.emin, prec64, emax64. lia. }
    destruct Hz as [->| ->]; [exact Hf|]. now apply generic_format_opp.
  - apply generic_format_FLT.
    exists (Float radix2 z 0).
    + unfold F2R; simpl. now rewrite Rmult_1_r.
    + simpl. change (radix2 ^ prec64)%Z with (2 ^ 53)%Z. lia.
    + unfold SpecFloat.emin, emax64, prec64. simpl. lia.
Qed.

Lemma rnd64_IZR (z : Z) : (Z.abs z <= 2 ^ 53)%Z -> rnd64 (IZR z) = IZR z.
Proof. intros H. apply round_generic; [apply valid_rnd_N|]. now apply fmt64_IZR. Qed.

Lemma abs_IZR_small (z : Z) : (Z.abs z <= 2 ^ 53)%Z -> Rabs (IZR z) < bpow radix2 emax64.
Proof.
  intros H. rewrite <- abs_IZR. apply Rle_lt_trans with (2 := bpow1024_big).
  rewrite <- IZR_pow2 by lia. now apply IZR_le.
Qed.

Lemma f_of_Z_correct (z : Z) : (Z.abs z <= 2 ^ 53)%Z ->
  R64 (f_of_Z z) = IZR z /\ is_finite (f_of_Z z) = true /\
  Bsign (f_of_Z z) = (z <? 0)%Z.
Proof.
  intros H. unfold f_of_Z.
  pose proof (binary_normalize_correct prec64 emax64 _ _ mode_NE z 0 false) as C.
  cbv zeta in C. unfold F2R in C. simpl Fnum in C. simpl Fexp in C.
  change (bpow radix2 0) with 1 in C. rewrite Rmult_1_r in C. simpl round_mode in C.
  rewrite rnd64_IZR in C by exact H.
  rewrite Rlt_bool_true in C by now apply abs_IZR_small.
  destruct C as (C1 & C2 & C3). split; [exact C1|]. split; [exact C2|].
  rewrite C3. rewrite Rcompare_IZR.
  unfold Z.ltb. now destruct (z ?= 0)%Z.
Qed.

Lemma f64_eq_of_Z (x : f64) (z : Z) : (Z.abs z <= 2 ^ 53)%Z ->
  is_finite x = true -> R64 x = IZR z -> Bsign x = (z <? 0)%Z -> x = f_of_Z z.
Proof.
  intros H F R S. destruct (f_of_Z_correct z H) as (R' & F' & S').
  apply B2R_Bsign_inj; congruence.
Qed.

(** Exact integer arithmetic through the float operations. *)
Lemma fsub_IZR (x y : f64) (a b : Z) :
  is_finite x = true -> is_finite y = true -> R64 x = IZR a -> R64 y = IZR b ->
  (Z.abs (a - b) <= 2 ^ 53)%Z ->
  R64 (fsub x y) = IZR (a - b) /\ is_finite (fsub x y) = true /\
  ((a - b <> 0)%Z -> Bsign (fsub x y) = (a - b <? 0)%Z) /\
  ((a - b = 0)%Z -> Bsign x = false -> Bsign (fsub x y) = false).
Proof.
  intros Fx Fy Rx Ry H. unfold fsub.
  pose proof (Bminus_correct prec64 emax64 _ _ mode_NE x y Fx Fy) as C.
  simpl round_mode in C. rewrite Rx, Ry, <- minus_IZR, rnd64_IZR in C by exact H.
  rewrite Rlt_bool_true in C by now apply abs_IZR_small.
  destruct C as (C1 & C2 & C3). split; [exact C1|]. split; [exact C2|].
  rewrite C3, Rcompare_IZR. unfold Z.ltb. split.
  - intros N. destruct (a - b ?= 0)%Z eqn:E; try reflexivity.
    apply Z.compare_eq in E. lia.
  - intros E S. rewrite E. simpl. now rewrite S.
Qed.

Lemma fmul_IZR (x y : f64) (a b : Z) :
  is_finite x = true -> is_finite y = true -> R64 x = IZR a -> R64 y = IZR b ->
  (Z.abs (a * b) <= 2 ^ 53)%Z ->
  R64 (fmul x y) = IZR (a * b) /\ is_finite (fmul x y) = true.
Proof.
  intros Fx Fy Rx Ry H. unfold fmul.
  pose proof (Bmult_correct prec64 emax64 _ _ mode_NE x y) as C.
  simpl round_mode in C. rewrite Rx, Ry, <- mult_IZR, rnd64_IZR in C by exact H.
  rewrite Rlt_bool_true in C by now apply abs_IZR_small.
  destruct C as (C1 & C2 & C3). split; [exact C1|]. now rewrite C2, Fx, Fy.
Qed.

Lemma fadd_IZR (x y : f64) (a b : Z) :
  is_finite x = true -> is_finite y = true -> R64 x = IZR a -> R64 y = IZR b ->
  (Z.abs (a + b) <= 2 ^ 53)%Z ->
  R64 (fadd x y) = IZR (a + b) /\ is_finite (fadd x y) = true.
Proof.
  intros Fx Fy Rx Ry H. unfold fadd.
  pose proof (Bplus_correct prec64 emax64 _ _ mode_NE x y Fx Fy) as C.
  simpl round_mode in C. rewrite Rx, Ry, <- plus_IZR, rnd64_IZR in C by exact H.
  rewrite Rlt_bool_true in C by now apply abs_IZR_small.
  destruct C as (C1 & C2 & C3). now split.
Qed.

Lemma fltb_R (x y : f64) : is_finite x = true -> is_finite y = true ->
  fltb x y = Rlt_bool (R64 x) (R64 y).
Proof. intros; now apply Bltb_correct. Qed.

Lemma fleb_R (x y : f64) : is_finite x = true -> is_finite y = true ->
  fleb x y = Rle_bool (R64 x) (R64 y).
Proof. intros; now apply Bleb_correct. Qed.

Lemma feqb_R (x y : f64) : is_finite x = true -> is_finite y = true ->
  feqb x y = Req_bool (R64 x) (R64 y).
Proof. intros; now apply Beqb_correct. Qed.

(** floor on finite floats. *)
Lemma round_FIX0 (rnd : R -> Z) x : round radix2 (FIX_exp 0) rnd x = IZR (rnd x).
Proof.
  unfold round, scaled_mantissa, F2R, cexp, FIX_exp. simpl.
  now rewrite Rmult_1_r, Rmult_1_r.
Qed.

Lemma ffloor_R (x : f64) :
  R64 (ffloor x) = IZR (Zfloor (R64 x)) /\ is_finite (ffloor x) = is_finite x.
Proof.
  unfold ffloor. destruct (Bnearbyint_correct prec64 emax64 _ mode_DN x) as (A & B & _).
  split; [|exact B]. rewrite A. simpl round_mode. apply round_FIX0.
Qed.

Lemma Btrunc_R (x : f64) : Btrunc x = Ztrunc (R64 x).
Proof. apply eq_IZR. rewrite (Btrunc_correct prec64 emax64 _ x). apply round_FIX0. Qed.

Lemma f_to_Z_some (x : f64) : is_finite x = true -> (- two63 <= Ztrunc (R64 x) < two63)%Z ->
  f_to_Z x = Some (Ztrunc (R64 x)).
Proof.
  intros F H. unfold f_to_Z. rewrite F, Btrunc_R. unfold in_int64.
  replace (_ && _) with true by (symmetry; apply andb_true_intro; lia). reflexivity.
Qed.

Lemma f_to_Z_inv (x : f64) z : f_to_Z x = Some z ->
  is_finite x = true /\ z = Ztrunc (R64 x) /\ (- two63 <= z < two63)%Z.
Proof.
  unfold f_to_Z. destruct (is_finite x) eqn:F; [|discriminate].
  rewrite Btrunc_R. unfold in_int64.
  destruct ((_ <=? _)%Z && _)%bool eqn:E; [|discriminate].
  intros [= <-]. apply andb_prop in E. lia.
Qed.

(** Monotonicity of rounding, on integers bounds. *)
Lemma rnd64_le a b : a <= b -> rnd64 a <= rnd64 b.
Proof. apply round_le; auto with typeclass_instances. Qed.

Lemma rnd64_le_IZR a (z : Z) : (Z.abs z <= 2 ^ 53)%Z -> a <= IZR z -> rnd64 a <= IZR z.
Proof. intros H L. rewrite <- (rnd64_IZR z H). now apply rnd64_le. Qed.

Lemma rnd64_ge_IZR a (z : Z) : (Z.abs z <= 2 ^ 53)%Z -> IZR z <= a -> IZR z <= rnd64 a.
Proof. intros H L. rewrite <- (rnd64_IZR z H). now apply rnd64_le. Qed.
