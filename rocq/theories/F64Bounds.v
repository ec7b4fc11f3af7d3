(** F64Bounds.v -- range lemmas for binary64 operations. *)
From Coq Require Import ZArith Reals Lia Lra.
From Flocq Require Import Core BinarySingleNaN.
From Verif Require Import Base F64.
Local Open Scope R_scope.

Notation b2 := (bpow radix2).

Lemma fmt64_bpow e : (-1074 <= e)%Z -> fmt64 (b2 e).
Proof.
  intros H. apply generic_format_bpow.
  unfold SpecFloat.fexp, SpecFloat.emin, prec64, emax64. lia.
Qed.

Lemma rnd64_bpow e : (-1074 <= e)%Z -> rnd64 (b2 e) = b2 e.
Proof. intros H. apply round_generic; [apply valid_rnd_N|now apply fmt64_bpow]. Qed.

Lemma rnd64_fmt x : fmt64 x -> rnd64 x = x.
Proof. intros H. apply round_generic; [apply valid_rnd_N|exact H]. Qed.

Lemma rnd64_0 : rnd64 0 = 0.
Proof. apply round_0. apply valid_rnd_N. Qed.

Lemma fmt64_R (x : f64) : fmt64 (R64 x).
Proof. apply generic_format_B2R. Qed.

Lemma rnd64_le_fmt x y : fmt64 y -> x <= y -> rnd64 x <= y.
Proof. intros F H. rewrite <- (rnd64_fmt y F). now apply rnd64_le. Qed.

Lemma rnd64_ge_fmt x y : fmt64 y -> y <= x -> y <= rnd64 x.
Proof. intros F H. rewrite <- (rnd64_fmt y F). now apply rnd64_le. Qed.

Lemma rnd64_abs_le x e : (-1074 <= e)%Z -> Rabs x <= b2 e -> Rabs (rnd64 x) <= b2 e.
Proof.
  intros He H. apply Rabs_le_inv in H. apply Rabs_le.
  pose proof (fmt64_bpow e He) as F.
  split; [apply rnd64_ge_fmt; [now apply generic_format_opp|lra]|now apply rnd64_le_fmt; [|lra]].
Qed.

Lemma small_lt_emax x e : (-1074 <= e < 1024)%Z -> Rabs x <= b2 e -> Rabs (rnd64 x) < b2 emax64.
Proof.
  intros He H. apply Rle_lt_trans with (b2 e); [apply rnd64_abs_le; [lia|exact H]|].
  apply bpow_lt. unfold emax64. lia.
Qed.

Lemma fmul_fin (x y : f64) e : is_finite x = true -> is_finite y = true ->
  (-1074 <= e < 1024)%Z -> Rabs (R64 x * R64 y) <= b2 e ->
  R64 (fmul x y) = rnd64 (R64 x * R64 y) /\ is_finite (fmul x y) = true.
Proof.
  intros Fx Fy He H. pose proof (Bmult_correct prec64 emax64 _ _ mode_NE x y) as C.
  fold (fmul x y) in C. simpl round_mode in C.
  rewrite Rlt_bool_true in C by (apply small_lt_emax with e; assumption).
  destruct C as (C1 & C2 & _). split; [exact C1|]. now rewrite C2, Fx, Fy.
Qed.

Lemma fadd_fin (x y : f64) e : is_finite x = true -> is_finite y = true ->
  (-1074 <= e < 1024)%Z -> Rabs (R64 x + R64 y) <= b2 e ->
  R64 (fadd x y) = rnd64 (R64 x + R64 y) /\ is_finite (fadd x y) = true.
Proof.
  intros Fx Fy He H. pose proof (Bplus_correct prec64 emax64 _ _ mode_NE x y Fx Fy) as C.
  fold (fadd x y) in C. simpl round_mode in C.
  rewrite Rlt_bool_true in C by (apply small_lt_emax with e; assumption).
  destruct C as (C1 & C2 & _). now split.
Qed.

Lemma fsub_fin (x y : f64) e : is_finite x = true -> is_finite y = true ->
  (-1074 <= e < 1024)%Z -> Rabs (R64 x - R64 y) <= b2 e ->
  R64 (fsub x y) = rnd64 (R64 x - R64 y) /\ is_finite (fsub x y) = true.
Proof.
  intros Fx Fy He H. pose proof (Bminus_correct prec64 emax64 _ _ mode_NE x y Fx Fy) as C.
  fold (fsub x y) in C. simpl round_mode in C.
  rewrite Rlt_bool_true in C by (apply small_lt_emax with e; assumption).
  destruct C as (C1 & C2 & _). now split.
Qed.

Lemma fdiv_fin (x y : f64) e : is_finite x = true -> R64 y <> 0 ->
  (-1074 <= e < 1024)%Z -> Rabs (R64 x / R64 y) <= b2 e ->
  R64 (fdiv x y) = rnd64 (R64 x / R64 y) /\ is_finite (fdiv x y) = true.
Proof.
  intros Fx Hy He H. pose proof (Bdiv_correct prec64 emax64 _ _ mode_NE x y Hy) as C.
  fold (fdiv x y) in C. simpl round_mode in C.
  rewrite Rlt_bool_true in C by (apply small_lt_emax with e; assumption).
  destruct C as (C1 & C2 & _). split; [exact C1|]. now rewrite C2, Fx.
Qed.

(** Not NaN. *)
Definition ok (x : f64) : bool := negb (@is_nan prec64 emax64 x).
Lemma finite_ok x : is_finite x = true -> ok x = true.
Proof. destruct x; try discriminate; reflexivity. Qed.

Lemma f_of_Z_R z : (Z.abs z <= 2 ^ 53)%Z -> R64 (f_of_Z z) = IZR z.
Proof. intros H. now destruct (f_of_Z_correct z H). Qed.
Lemma f_of_Z_fin z : (Z.abs z <= 2 ^ 53)%Z -> is_finite (f_of_Z z) = true.
Proof. intros H. now destruct (f_of_Z_correct z H) as (_ & ? & _). Qed.

(** Sign of a finite non-zero float is the sign of its value. *)
Lemma Bsign_neg (x : f64) : R64 x < 0 -> Bsign x = true.
Proof.
  destruct x as [s|s| |s m e H]; simpl; intros L; try lra.
  destruct s; [reflexivity|]. exfalso. apply Rlt_not_le in L. apply L.
  apply Rlt_le. now apply F2R_gt_0.
Qed.
Lemma Bsign_pos (x : f64) : 0 < R64 x -> Bsign x = false.
Proof.
  destruct x as [s|s| |s m e H]; simpl; intros L; try lra.
  destruct s; [|reflexivity]. exfalso. apply Rlt_not_le in L. apply L.
  apply Rlt_le. now apply F2R_lt_0.
Qed.
