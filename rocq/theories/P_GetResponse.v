(** P_GetResponse.v -- C30: the electronics response, in exact arithmetic and in binary64. *)
From Coq Require Import ZArith Reals Lia Lra.
From Flocq Require Import Core BinarySingleNaN.
From Verif Require Import Base F64 F64Bounds Num Response P_Response P_Cloud.
Local Open Scope R_scope.

(** Exact arithmetic: the library functions. *)
Definition xsin := lift1 sin.
Definition xcube := lift1 (fun x => x ^ 3).
Definition real_response (e : R) (gain shaping : Z) (clock : R) : res (list (T XR)) :=
  get_response (N := XR) xsin xcube (Some e) (Some (/ 10 ^ 15)) (Some (/ 1000)) gain shaping (Some clock).

(** The documented formula, at time [t] in units of the shaping time. *)
Definition formula (c1 t : R) : R := Rmax 0 (c1 * exp (-3 * t) * t ^ 3 * sin t).
Definition time (i : nat) : R := INR i * (512 / 511).

Lemma x3_le t : 0 <= t -> exp (-3 * t) * t ^ 3 <= exp (-3).
Proof.
  intros H.
  assert (A : t <= exp (t - 1)).
  { destruct (Req_dec (t - 1) 0) as [E|E]; [rewrite E, exp_0; lra|].
    pose proof (exp_ineq1 (t - 1) E). lra. }
  assert (B : t ^ 3 <= exp (t - 1) ^ 3) by (apply pow_incr; lra).
  assert (C : exp (t - 1) ^ 3 = exp (3 * t - 3)).
  { simpl. rewrite Rmult_1_r, <- !exp_plus. f_equal. lra. }
  rewrite C in B. apply Rle_trans with (exp (-3 * t) * exp (3 * t - 3)).
  - apply Rmult_le_compat_l; [apply Rlt_le, exp_pos|exact B].
  - rewrite <- exp_plus. right. f_equal. lra.
Qed.

Lemma formula_bounds c1 t : 0 <= c1 -> 0 <= t -> 0 <= formula c1 t <= c1 * exp (-3).
Proof.
  intros H T. unfold formula. split; [apply Rmax_l|]. pose proof (exp_pos (-3)) as P.
  apply Rmax_lub; [apply Rmult_le_pos; lra|].
  assert (0 <= exp (-3 * t) * t ^ 3) by (apply Rmult_le_pos; [apply Rlt_le, exp_pos|now apply pow_le]).
  pose proof (x3_le t T) as X. pose proof (SIN_bound t) as S.
  replace (c1 * exp (-3 * t) * t ^ 3 * sin t) with (c1 * ((exp (-3 * t) * t ^ 3) * sin t)) by ring.
  apply Rmult_le_compat_l; [exact H|].
  apply Rle_trans with ((exp (-3 * t) * t ^ 3) * 1); [apply Rmult_le_compat_l; lra|lra].
Qed.

Lemma time_points_R : time_points (N := XR) = map (fun i => Some (time i)) (seq 0 512).
Proof.
  unfold time_points. apply map_ext_in. intros i Hi. apply in_seq in Hi.
  cbn [nofZ nadd nmul ndiv XR lift2 xdiv]. rewrite Req_bool_false by lra.
  unfold time. rewrite INR_IZR_INZ.
  destruct (Z.eqb_spec (Z.of_nat i) 511) as [E|E].
  - rewrite E. f_equal. lra.
  - cbn [lift2]. f_equal. lra.
Qed.

Lemma scale_R e gain : (gain <> 0)%Z ->
  scale (N := XR) (Some e) (Some (/ 10 ^ 15)) gain = Ok (Some (4095 * e / IZR gain * 10 ^ 15)).
Proof.
  intros H. assert (N : IZR gain <> 0) by (now apply IZR_neq).
  unfold scale, pydiv. cbn [nofZ nmul ndiv neqb XR lift2 xdiv cmp2].
  rewrite (Req_bool_false _ _ N). cbn [bind lift2 xdiv].
  rewrite ?(Req_bool_false _ _ N). cbn [cmp2 xdiv].
  assert (N2 : / 10 ^ 15 <> 0) by (apply Rinv_neq_0_compat; apply pow_nonzero; lra).
  rewrite !(Req_bool_false _ _ N2). cbn [xdiv]. rewrite ?(Req_bool_false _ _ N2). do 2 f_equal. field. exact N.
Qed.

(** C30 (exact): 512 samples, sample i is the documented formula at the i-th time, which is
    non-negative and at most c1 exp(-3); the first sample is 0. *)
Theorem C30_response :
  forall e gain shaping clock,
  (gain <> 0)%Z -> shaping <> 0%Z -> clock <> 0 ->
  let width := IZR shaping * clock / 1000 in
  let c1 := 4095 * e / IZR gain * 10 ^ 15 in
  exists l, real_response e gain shaping clock = Ok (map Some l) /\ length l = 512%nat /\
    (forall i, (i < 512)%nat -> nth i l 0 = formula c1 (time i / width)) /\
    nth 0 l 0 = 0 /\
    (forall x, In x l -> 0 <= x) /\
    (0 <= c1 -> 0 < width -> forall x, In x l -> x <= c1 * exp (-3)).
Proof.
  intros e gain shaping clock Hg Hs Hc width c1.
  assert (W : width <> 0).
  { unfold width. unfold Rdiv. repeat apply Rmult_integral_contrapositive_currified; auto; try lra.
    now apply IZR_neq. }
  assert (W' : IZR shaping * clock * / 1000 = width) by reflexivity.
  exists (map (fun i => formula c1 (time i / width)) (seq 0 512)).
  assert (NT : forall i, (i < 512)%nat ->
     nth i (map (fun i => formula c1 (time i / width)) (seq 0 512)) 0 = formula c1 (time i / width)).
  { intros i Hi. rewrite (nth_indep _ 0 (formula c1 (time 0 / width))) by (rewrite map_length, seq_length; lia).
    rewrite (map_nth (fun i => formula c1 (time i / width))). f_equal. rewrite seq_nth by lia. reflexivity. }
  split; [|split; [|split; [|split; [|split]]]].
  - unfold real_response, get_response. rewrite scale_R by exact Hg. cbn [bind nmul nofZ XR lift2].
    rewrite time_points_R, !map_map. f_equal. apply map_ext. intros i.
    unfold sample. cbn [ndiv nmul nofZ nexp nltb XR lift2 lift1 xdiv xsin xcube cmp2].
    rewrite W', (Req_bool_false _ _ W). cbn [lift1 lift2 xsin xcube]. unfold formula.
    fold c1. unfold cmp2.
    match goal with |- context [Rlt_bool ?x 0] => destruct (Rlt_bool_spec x 0) as [L|L] end.
    + rewrite Rmax_left; [reflexivity|]. change (-3) with (IZR (-3)). lra.
    + rewrite Rmax_right; [reflexivity|]. exact L.
  - now rewrite map_length, seq_length.
  - exact NT.
  - rewrite NT by lia. unfold formula, time. simpl INR. rewrite Rmult_0_l. unfold Rdiv. rewrite Rmult_0_l.
    rewrite pow_i by lia. rewrite Rmult_0_r, Rmult_0_l. apply Rmax_left. lra.
  - intros x Hx. apply in_map_iff in Hx. destruct Hx as (i & <- & _). apply Rmax_l.
  - intros C P x Hx. apply in_map_iff in Hx. destruct Hx as (i & <- & _). apply formula_bounds; [exact C|].
    unfold Rdiv. apply Rmult_le_pos; [|apply Rlt_le; now apply Rinv_0_lt_compat].
    unfold time. apply Rmult_le_pos; [apply pos_INR|lra].
Qed.

(** C30 (exact): k times the gain gives the k-th part of the response. *)
Theorem C30_inverse_gain :
  forall e gain shaping clock k l l',
  (0 < gain)%Z -> (0 < k)%Z -> shaping <> 0%Z -> clock <> 0 ->
  real_response e gain shaping clock = Ok (map Some l) ->
  real_response e (k * gain) shaping clock = Ok (map Some l') ->
  map (fun x => IZR k * x) l' = l.
Proof.
  intros e gain shaping clock k l l' Hg Hk Hs Hc E E'.
  destruct (C30_response e gain shaping clock ltac:(lia) Hs Hc) as (m & Em & Lm & Nm & _).
  destruct (C30_response e (k * gain) shaping clock ltac:(lia) Hs Hc) as (m' & Em' & Lm' & Nm' & _).
  assert (INJ : forall a b : list R, map Some a = map Some b -> a = b).
  { induction a as [|x a IH]; intros [|y b] H; try discriminate; auto. injection H as -> H. f_equal. auto. }
  rewrite E in Em. injection Em as Em. apply INJ in Em. subst m.
  rewrite E' in Em'. injection Em' as Em'. apply INJ in Em'. subst m'.
  apply nth_ext with (d := IZR k * 0) (d' := 0); [rewrite map_length; congruence|].
  intros i Hi. rewrite map_length, Lm' in Hi.
  rewrite (map_nth (fun x => IZR k * x)), Nm, Nm' by exact Hi.
  assert (Pk : 0 < IZR k) by (now apply IZR_lt). assert (Pg : 0 < IZR gain) by (now apply IZR_lt).
  generalize (time i / (IZR shaping * clock / 1000)). intros t.
  unfold formula. rewrite <- RmaxRmult by lra. rewrite Rmult_0_r. f_equal.
  rewrite mult_IZR. field. lra.
Qed.

(** C30: a gain of zero is refused. *)
Theorem C30_zero_gain :
  forall (N : Num) nsin cube (e femto milli clock : N) shaping,
  neqb (nofZ (n := N) 0) (nofZ 0) = true ->
  get_response nsin cube e femto milli 0 shaping clock = Err ZeroDivisionError.
Proof. intros N nsin cube e femto milli clock shaping H. unfold get_response, scale, pydiv. now rewrite H. Qed.

(** ** Binary64 *)
(** What is assumed of the C library: exp of a finite non-positive number is a finite number in
    [0, 1]; sin of a finite number is a finite number in [-1, 1]; the cube of x in [0, 2^40] is a
    finite number in [0, 2^120]. *)
Definition libm_ok (fexp fsin fcube : f64 -> f64) : Prop :=
  (forall x, is_finite x = true -> R64 x <= 0 -> is_finite (fexp x) = true /\ 0 <= R64 (fexp x) <= 1) /\
  (forall x, is_finite x = true -> is_finite (fsin x) = true /\ -1 <= R64 (fsin x) <= 1) /\
  (forall x, is_finite x = true -> 0 <= R64 x <= bpow radix2 40 ->
     is_finite (fcube x) = true /\ 0 <= R64 (fcube x) <= bpow radix2 120).

Lemma rnd64_range x a b : fmt64 a -> fmt64 b -> a <= x <= b -> a <= rnd64 x <= b.
Proof. intros A B [H1 H2]. split; [now apply rnd64_ge_fmt|now apply rnd64_le_fmt]. Qed.

(** Multiplication and division with bounds that are powers of two. *)
Lemma fmul_pos (x y : f64) (a b : Z) : is_finite x = true -> is_finite y = true ->
  0 <= R64 x <= bpow radix2 a -> 0 <= R64 y <= bpow radix2 b -> (-1074 <= a + b < 1024)%Z ->
  is_finite (fmul x y) = true /\ 0 <= R64 (fmul x y) <= bpow radix2 (a + b).
Proof.
  intros Fx Fy Hx Hy He.
  assert (B : 0 <= R64 x * R64 y <= bpow radix2 (a + b)).
  { rewrite bpow_plus. split; [apply Rmult_le_pos; lra|apply Rmult_le_compat; lra]. }
  destruct (fmul_fin x y (a + b) Fx Fy He) as (R & F); [rewrite Rabs_pos_eq; lra|].
  split; [exact F|]. rewrite R. apply rnd64_range; [apply generic_format_0|apply fmt64_bpow; lia|exact B].
Qed.

Lemma fdiv_pos (x y : f64) (a b : Z) : is_finite x = true -> 
  0 <= R64 x <= bpow radix2 a -> bpow radix2 b <= R64 y -> (-1074 <= a - b < 1024)%Z ->
  is_finite (fdiv x y) = true /\ 0 <= R64 (fdiv x y) <= bpow radix2 (a - b).
Proof.
  intros Fx Hx Hy He. pose proof (bpow_gt_0 radix2 b) as Pb.
  assert (B : 0 <= R64 x / R64 y <= bpow radix2 (a - b)).
  { unfold Z.sub. rewrite bpow_plus, bpow_opp. unfold Rdiv. split.
    - apply Rmult_le_pos; [lra|]. apply Rlt_le, Rinv_0_lt_compat. lra.
    - apply Rmult_le_compat; try lra; [apply Rlt_le, Rinv_0_lt_compat; lra|now apply Rinv_le]. }
  destruct (fdiv_fin x y (a - b) Fx) as (R & F); try lra; try lia; [rewrite Rabs_pos_eq; lra|].
  split; [exact F|]. rewrite R. apply rnd64_range; [apply generic_format_0|apply fmt64_bpow; lia|exact B].
Qed.

(** C30 (binary64): for gains from 1 to 2^53, shaping time and clock such that the shaping time is
    at least 2^-20 buckets, the response is a list of 512 finite non-negative numbers: a valid
    input for the conversion of C25 and C26. *)
Theorem C30_response_binary64 :
  forall fexp fsin fcube (e femto milli clock : f64) gain shaping,
  libm_ok fexp fsin fcube ->
  is_finite e = true -> 0 <= R64 e <= bpow radix2 (-62) ->
  is_finite femto = true -> bpow radix2 (-50) <= R64 femto ->
  (1 <= gain <= 2 ^ 53)%Z ->
  let width := fmul (fmul (f_of_Z shaping) clock) milli in
  is_finite width = true -> bpow radix2 (-20) <= R64 width ->
  exists l, get_response (N := F64 fexp) fsin fcube e femto milli gain shaping clock = Ok l /\
    length l = 512%nat /\ response_ok l.
Proof.
  intros fexp fsin fcube e femto milli clock gain shaping (Lx & Ls & Lc) Fe He Ff Hf Hg width Fw Hw.
  assert (G0 : is_finite (f_of_Z gain) = true) by (apply f_of_Z_fin; lia).
  assert (G1 : R64 (f_of_Z gain) = IZR gain) by (apply f_of_Z_R; lia).
  assert (Z0 : R64 (f_of_Z 0) = 0) by (apply f_of_Z_R; lia).
  assert (Zf : is_finite (f_of_Z 0) = true) by (apply f_of_Z_fin; lia).
  assert (B0 : bpow radix2 0 = 1) by reflexivity.
  (* c1 *)
  assert (C1 : exists c1 : f64, scale (N := F64 fexp) e femto gain = Ok c1 /\ is_finite c1 = true /\
                 0 <= R64 c1 <= bpow radix2 0).
  { destruct (fmul_pos (f_of_Z 4095) e 12 (-62)) as (A1 & A2); auto; try lia; try (apply f_of_Z_fin; lia).
    { rewrite f_of_Z_R by lia. change (bpow radix2 12) with 4096. lra. }
    assert (Gp : 1 <= IZR gain) by (apply IZR_le; lia).
    destruct (fdiv_pos (fmul (f_of_Z 4095) e) (f_of_Z gain) (12 + -62) 0) as (A3 & A4); auto; try lia; try (apply f_of_Z_fin; lia).
    { rewrite G1, B0. exact Gp. }
    destruct (fdiv_pos (fdiv (fmul (f_of_Z 4095) e) (f_of_Z gain)) femto (12 + -62 - 0) (-50)) as (A5 & A6); auto; try lia; try (apply f_of_Z_fin; lia).
    exists (fdiv (fdiv (fmul (f_of_Z 4095) e) (f_of_Z gain)) femto).
    split; [|split; [exact A5|exact A6]].
    unfold scale, pydiv. cbn [neqb nofZ nmul ndiv F64].
    rewrite feqb_R by auto. rewrite G1, Z0, Req_bool_false by lra. cbn [bind].
    pose proof (bpow_gt_0 radix2 (-50)).
    rewrite feqb_R by auto. rewrite Z0, Req_bool_false by lra. reflexivity. }
  destruct C1 as (c1 & E1 & F1 & H1).
  unfold get_response.
  match goal with |- exists l, bind ?m _ = _ /\ _ => replace m with (Ok (A := F64 fexp) c1) by (symmetry; exact E1) end.
  cbn [bind nmul nofZ F64]. fold width.
  eexists. split; [reflexivity|].
  assert (LEN : length (map (sample (N := F64 fexp) fsin fcube c1 width) (time_points (N := F64 fexp))) = 512%nat).
  { rewrite map_length. unfold time_points. now rewrite map_length, seq_length. }
  split; [exact LEN|]. split; [|split].
  - intros X. rewrite X in LEN. discriminate.
  - change (Z.of_nat (length (map (sample (N := F64 fexp) fsin fcube c1 width) (time_points (N := F64 fexp)))) <= 2 ^ 41)%Z.
    rewrite LEN. lia.
  - apply Forall_forall. intros r Hr. apply in_map_iff in Hr. destruct Hr as (tb & <- & Ht).
    unfold time_points in Ht. apply in_map_iff in Ht. destruct Ht as (i & Et & Hi). apply in_seq in Hi.
    (* the time point *)
    assert (T : is_finite tb = true /\ 0 <= R64 tb <= bpow radix2 11).
    { rewrite <- Et. cbn [nofZ nadd nmul ndiv F64].
      change (bpow radix2 11) with 2048. destruct (Z.of_nat i =? 511)%Z.
      - split; [apply f_of_Z_fin; lia|]. rewrite f_of_Z_R by lia. lra.
      - destruct (fdiv_pos (f_of_Z 512) (f_of_Z 511) 9 8) as (D1 & D2); try lia; try (apply f_of_Z_fin; lia).
        { rewrite f_of_Z_R by lia. change (bpow radix2 9) with 512. lra. }
        { rewrite f_of_Z_R by lia. change (bpow radix2 8) with 256. lra. }
        destruct (fmul_pos (f_of_Z (Z.of_nat i)) (fdiv (f_of_Z 512) (f_of_Z 511)) 9 (9 - 8)) as (D3 & D4); auto; try lia; try (apply f_of_Z_fin; lia).
        { rewrite f_of_Z_R by lia. change (bpow radix2 9) with 512. split; apply IZR_le; lia. }
        change (bpow radix2 (9 + (9 - 8))) with 1024 in D4.
        destruct (fadd_fin (fmul (f_of_Z (Z.of_nat i)) (fdiv (f_of_Z 512) (f_of_Z 511))) (f_of_Z 0) 11) as (D5 & D6);
          auto; try lia; try (apply f_of_Z_fin; lia).
        { rewrite Z0, Rplus_0_r, Rabs_pos_eq by lra. change (bpow radix2 11) with 2048. lra. }
        split; [exact D6|]. rewrite D5, Z0, Rplus_0_r.
        apply rnd64_range; [apply generic_format_0|apply fmt64_IZR; lia|lra]. }
    destruct T as (Ft & Ht). clear Et Hi i.
    destruct (fdiv_pos tb width 11 (-20)) as (Fc & Hc); auto; try lia; try (apply f_of_Z_fin; lia).
    unfold sample. cbn [ndiv nmul nofZ nexp nltb F64].
    set (c2 := fdiv tb width) in *. change (11 - -20)%Z with 31%Z in Hc.
    (* -3 c2 *)
    destruct (fmul_fin (f_of_Z (-3)) c2 33) as (M1 & M2); auto; try lia; try (apply f_of_Z_fin; lia).
    { rewrite f_of_Z_R by lia. rewrite Rabs_mult, (Rabs_pos_eq (R64 c2)) by lra.
      rewrite <- abs_IZR. change 33%Z with (2 + 31)%Z. rewrite bpow_plus. change (bpow radix2 2) with 4.
      simpl (Z.abs (-3)). apply Rmult_le_compat; lra. }
    destruct (Lx (fmul (f_of_Z (-3)) c2) M2) as (X1 & X2).
    { rewrite M1. apply rnd64_le_fmt; [apply generic_format_0|]. rewrite f_of_Z_R by lia. lra. }
    destruct (Ls c2 Fc) as (S1 & S2).
    destruct (Lc c2 Fc) as (U1 & U2).
    { split; [lra|]. apply Rle_trans with (bpow radix2 31); [lra|]. apply bpow_le. lia. }
    destruct (fmul_pos c1 (fexp (fmul (f_of_Z (-3)) c2)) 0 0) as (P1 & P2); auto; try lia; try (apply f_of_Z_fin; lia).
    destruct (fmul_pos (fmul c1 (fexp (fmul (f_of_Z (-3)) c2))) (fcube c2) (0 + 0) 120) as (P3 & P4); auto; try lia; try (apply f_of_Z_fin; lia).
    set (w := fmul (fmul c1 (fexp (fmul (f_of_Z (-3)) c2))) (fcube c2)) in *.
    destruct (fmul_fin w (fsin c2) 120) as (P5 & P6); auto; try lia; try (apply f_of_Z_fin; lia).
    { rewrite Rabs_mult, Rabs_pos_eq by lra. rewrite <- (Rmult_1_r (bpow radix2 120)).
      apply Rmult_le_compat; try lra; [apply Rabs_pos|exact (proj2 P4)|apply Rabs_le; lra]. }
    change (nonneg (if fltb (fmul w (fsin c2)) (f_of_Z 0) then f_of_Z 0 else fmul w (fsin c2))).
    rewrite fltb_R by auto. rewrite Z0. destruct (Rlt_bool_spec (R64 (fmul w (fsin c2))) 0) as [L|L].
    + split; [exact Zf|]. rewrite Z0. lra.
    + split; [exact P6|exact L].
Qed.

(** Example: gain 900, shaping time 1000 ns, clock 6.25 MHz: a shaping time of 6.25 buckets. *)
Example C30_example : exists l,
  real_response (1602176634 / 10 ^ 28) 900 1000 (625 / 100) = Ok (map Some l) /\ length l = 512%nat /\
  nth 5 l 0 = formula (4095 * (1602176634 / 10 ^ 28) / 900 * 10 ^ 15) (5 * (512 / 511) / (625 / 100)).
Proof.
  destruct (C30_response (1602176634 / 10 ^ 28) 900 1000 (625 / 100)) as (l & E & L & N & _);
    try lia; try lra.
  exists l. split; [exact E|]. split; [exact L|]. rewrite N by lia. unfold time.
  replace (INR 5) with 5 by (simpl; lra).
  replace (1000 * (625 / 100) / 1000) with (625 / 100) by field. reflexivity.
Qed.

(** The library assumptions are satisfiable. *)
Example C30_libm_example : libm_ok (fun _ => f_of_Z 1) (fun _ => f_of_Z (-1)) (fun _ => f_of_Z 8).
Proof.
  split; [|split]; intros; (split; [apply f_of_Z_fin; lia|]); rewrite f_of_Z_R by lia; try lra.
  split; [lra|]. rewrite <- IZR_pow2 by lia. apply IZR_le. lia.
Qed.

Print Assumptions C30_response.
Print Assumptions C30_inverse_gain.
Print Assumptions C30_zero_gain.
Print Assumptions C30_response_binary64.
