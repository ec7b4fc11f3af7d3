(** MeshReal.v -- the diffusion mesh and its weights in exact arithmetic ([XR] instance). *)
From Coq Require Import ZArith Reals Lia Lra Machin.
From Flocq Require Import Core.
From Verif Require Import Base Num Transporter.
Local Open Scope R_scope.

Definition sumR (l : list R) : R := fold_right Rplus 0 l.
Lemma sumR_cons x l : sumR (x :: l) = x + sumR l. Proof. reflexivity. Qed.
Lemma sumR_app a b : sumR (a ++ b) = sumR a + sumR b.
Proof. induction a as [|x a IH]; [unfold sumR; simpl; ring|]. cbn [app]. rewrite !sumR_cons, IH. ring. Qed.

(** The ten positions of one axis in units of sigma: -3, -7/3, ..., 3. *)
Definition ticks : list R := map (fun i => -3 + 2 / 3 * INR i) (seq 0 10).
Definition axis (c s : R) : list R := map (fun t => c + t * s) ticks.

Lemma linspace_XR (c s : R) :
  @linspace XR (Some (c - 3 * s)) (Some (c + 3 * s)) STEPS = map Some (axis c s).
Proof.
  unfold linspace, axis, ticks. rewrite !map_map. change (Z.to_nat STEPS) with 10%nat.
  change (STEPS - 1)%Z with 9%Z. apply map_ext. intros i.
  cbn [nsub ndiv nadd nmul nofZ XR lift2 xdiv]. rewrite Req_bool_false by lra. cbn [lift2].
  rewrite INR_IZR_INZ. destruct (Z.eqb_spec (Z.of_nat i) 9) as [E|E].
  - rewrite E. f_equal. field.
  - f_equal. field.
Qed.

Lemma mesh_XR (a b s : R) :
  @diffusion_mesh XR (Some a, Some b) (Some s) =
  flat_map (fun x => map (fun y => (Some x, Some y)) (axis b s)) (axis a s).
Proof.
  unfold diffusion_mesh. cbn [fst snd nmul nsub nadd nofZ XR lift2].
  rewrite !linspace_XR. unfold meshgrid.
  induction (axis a s) as [|x l IH]; [reflexivity|]. cbn [map flat_map]. rewrite IH.
  now rewrite map_map.
Qed.

(** Weight of a pixel: pdf times pixel area. *)
Definition weight (a b s x y : R) : R :=
  1 / 2 / PI / (s * s) * exp (-1 / 2 / (s * s) * ((x - a) * (x - a) + (y - b) * (y - b)))
  * ((2 / 3 * s) * (2 / 3 * s)).

Lemma pixel_electrons_XR (a b s x y : R) (e : Z) : 0 < s ->
  @pixel_electrons XR (Some x, Some y) (Some a, Some b) (Some s) e =
  if in_int64 (Ztrunc (weight a b s x y * IZR e)) then Ok (Ztrunc (weight a b s x y * IZR e))
  else Err UB.
Proof.
  intros Hs. unfold pixel_electrons, bivariate_normal_pdf, njdiv, njint, step_size.
  cbn [fst snd nmul ndiv nofZ npi nsub nadd nexp ntoZ neqb XR lift2 lift1 xdiv cmp2].
  pose proof PI_RGT_0. assert (s * s > 0) by nra.
  rewrite (Req_bool_false (s * s)) by lra. cbn [bind].
  rewrite (Req_bool_false 2) by lra. cbn [xdiv].
  rewrite (Req_bool_false PI) by lra. cbn [xdiv].
  rewrite (Req_bool_false (s * s)) by lra. cbn [lift2 lift1 bind].
  rewrite (Req_bool_false (IZR (STEPS - 1))) by (unfold STEPS; apply not_eq_sym, Rlt_not_eq, IZR_lt; lia).
  cbn [lift2 xtoZ].
  assert (Es : IZR (2 * 3) * s / IZR (STEPS - 1) = 2 / 3 * s).
  { unfold STEPS. simpl. field. }
  rewrite Es. unfold weight.
  match goal with |- match (if ?c then _ else _) with _ => _ end = _ => destruct c; reflexivity end.
Qed.

(** One axis factor. *)
Definition bell (t : R) : R := exp (- (t * t) / 2).

Lemma weight_ticks a b s u v : 0 < s ->
  weight a b s (a + u * s) (b + v * s) = 4 / 9 / (2 * PI) * (bell u * bell v).
Proof.
  intros Hs. unfold weight, bell. rewrite <- exp_plus. pose proof PI_RGT_0.
  replace (-1 / 2 / (s * s) * ((a + u * s - a) * (a + u * s - a) + (b + v * s - b) * (b + v * s - b)))
    with (- (u * u) / 2 + - (v * v) / 2) by (field; lra).
  field. lra.
Qed.

Definition bells : R := sumR (map bell ticks).

Lemma sum_product {A B} (f : A -> R) (h : B -> R) (l : list A) (m : list B) :
  sumR (flat_map (fun x => map (fun y => f x * h y) m) l) = sumR (map f l) * sumR (map h m).
Proof.
  induction l as [|x l IH]; [unfold sumR; simpl; ring|]. cbn [flat_map map].
  rewrite sumR_app, IH, sumR_cons.
  assert (E : sumR (map (fun y => f x * h y) m) = f x * sumR (map h m)).
  { clear. induction m as [|y m IH]; [unfold sumR; simpl; ring|]. cbn [map].
    rewrite !sumR_cons, IH. ring. }
  rewrite E. ring.
Qed.

Lemma sumR_scale {A} (k : R) (f : A -> R) l : sumR (map (fun x => k * f x) l) = k * sumR (map f l).
Proof. induction l as [|x l IH]; [unfold sumR; simpl; ring|]. cbn [map]. rewrite !sumR_cons, IH. ring. Qed.

Lemma total_weight a b s : 0 < s ->
  sumR (flat_map (fun x => map (fun y => weight a b s x y) (axis b s)) (axis a s)) =
  4 / 9 / (2 * PI) * (bells * bells).
Proof.
  intros Hs. unfold axis.
  assert (E : flat_map (fun x => map (fun y => weight a b s x y) (map (fun t => b + t * s) ticks))
                       (map (fun t => a + t * s) ticks) =
              flat_map (fun u => map (fun v => (4 / 9 / (2 * PI) * bell u) * bell v) ticks) ticks).
  { generalize ticks at 2 4. intros l. induction l as [|u l IH]; [reflexivity|].
    cbn [map flat_map]. rewrite IH. f_equal. rewrite map_map. apply map_ext. intros v.
    rewrite weight_ticks by exact Hs. ring. }
  rewrite E. rewrite (sum_product (fun u => 4 / 9 / (2 * PI) * bell u) bell).
  rewrite sumR_scale. unfold bells. ring.
Qed.

(** ** Numerical bounds without any library beyond the standard one *)

Lemma sq_bounds x l u : 0 <= l -> l <= x <= u -> l * l <= x * x <= u * u.
Proof. intros Hl (A & B). split; nra. Qed.

Lemma exp_neg_small (x : R) : 0 < x < 1 -> 1 - x <= exp (- x) <= / (1 + x).
Proof.
  intros H. split.
  - pose proof (exp_ineq1_le (- x)). lra.
  - rewrite exp_Ropp. apply Rinv_le; [lra|]. apply exp_ineq1_le.
Qed.

Lemma exp_dbl x l u l' u' : 0 <= l -> l <= exp x <= u -> l' <= l * l -> u * u <= u' ->
  l' <= exp (2 * x) <= u'.
Proof.
  intros H0 H1 H2 H3. replace (2 * x) with (x + x) by ring. rewrite exp_plus.
  pose proof (sq_bounds _ _ _ H0 H1). lra.
Qed.

(** q = exp(-1/18). *)
Definition q18 : R := exp (- (1 / 18)).

Lemma q18_bounds_0 : 999945746 / 1000000000 <= exp (- (1 / 18432)) <= 999945750 / 1000000000.
Proof. pose proof (exp_neg_small (1 / 18432) ltac:(lra)). lra. Qed.
Lemma q18_bounds_1 : 999891494 / 1000000000 <= exp (- (1 / 9216)) <= 999891503 / 1000000000.
Proof.
  replace (- (1 / 9216)) with (2 * - (1 / 18432)) by lra.
  apply (exp_dbl _ (999945746 / 1000000000) (999945750 / 1000000000)); [lra|apply q18_bounds_0|lra|lra].
Qed.
Lemma q18_bounds_2 : 999782999 / 1000000000 <= exp (- (1 / 4608)) <= 999783018 / 1000000000.
Proof.
  replace (- (1 / 4608)) with (2 * - (1 / 9216)) by lra.
  apply (exp_dbl _ (999891494 / 1000000000) (999891503 / 1000000000)); [lra|apply q18_bounds_1|lra|lra].
Qed.
Lemma q18_bounds_3 : 999566045 / 1000000000 <= exp (- (1 / 2304)) <= 999566084 / 1000000000.
Proof.
  replace (- (1 / 2304)) with (2 * - (1 / 4608)) by lra.
  apply (exp_dbl _ (999782999 / 1000000000) (999783018 / 1000000000)); [lra|apply q18_bounds_2|lra|lra].
Qed.
Lemma q18_bounds_4 : 999132278 / 1000000000 <= exp (- (1 / 1152)) <= 999132357 / 1000000000.
Proof.
  replace (- (1 / 1152)) with (2 * - (1 / 2304)) by lra.
  apply (exp_dbl _ (999566045 / 1000000000) (999566084 / 1000000000)); [lra|apply q18_bounds_3|lra|lra].
Qed.
Lemma q18_bounds_5 : 998265308 / 1000000000 <= exp (- (1 / 576)) <= 998265467 / 1000000000.
Proof.
  replace (- (1 / 576)) with (2 * - (1 / 1152)) by lra.
  apply (exp_dbl _ (999132278 / 1000000000) (999132357 / 1000000000)); [lra|apply q18_bounds_4|lra|lra].
Qed.
Lemma q18_bounds_6 : 996533625 / 1000000000 <= exp (- (1 / 288)) <= 996533943 / 1000000000.
Proof.
  replace (- (1 / 288)) with (2 * - (1 / 576)) by lra.
  apply (exp_dbl _ (998265308 / 1000000000) (998265467 / 1000000000)); [lra|apply q18_bounds_5|lra|lra].
Qed.
Lemma q18_bounds_7 : 993079265 / 1000000000 <= exp (- (1 / 144)) <= 993079900 / 1000000000.
Proof.
  replace (- (1 / 144)) with (2 * - (1 / 288)) by lra.
  apply (exp_dbl _ (996533625 / 1000000000) (996533943 / 1000000000)); [lra|apply q18_bounds_6|lra|lra].
Qed.
Lemma q18_bounds_8 : 986206426 / 1000000000 <= exp (- (1 / 72)) <= 986207688 / 1000000000.
Proof.
  replace (- (1 / 72)) with (2 * - (1 / 144)) by lra.
  apply (exp_dbl _ (993079265 / 1000000000) (993079900 / 1000000000)); [lra|apply q18_bounds_7|lra|lra].
Qed.
Lemma q18_bounds_9 : 972603114 / 1000000000 <= exp (- (1 / 36)) <= 972605604 / 1000000000.
Proof.
  replace (- (1 / 36)) with (2 * - (1 / 72)) by lra.
  apply (exp_dbl _ (986206426 / 1000000000) (986207688 / 1000000000)); [lra|apply q18_bounds_8|lra|lra].
Qed.
Lemma q18_bounds_10 : 945956817 / 1000000000 <= exp (- (1 / 18)) <= 945961661 / 1000000000.
Proof.
  replace (- (1 / 18)) with (2 * - (1 / 36)) by lra.
  apply (exp_dbl _ (972603114 / 1000000000) (972605604 / 1000000000)); [lra|apply q18_bounds_9|lra|lra].
Qed.

Lemma mul_bounds x y l u l' u' a b : 0 <= l -> 0 <= l' -> l <= x <= u -> l' <= y <= u' ->
  a <= l * l' -> u * u' <= b -> a <= x * y <= b.
Proof.
  intros Hl Hl' (A & B) (C & E) Ha Hb. split.
  - apply Rle_trans with (1 := Ha). apply Rmult_le_compat; lra.
  - apply Rle_trans with (2 := Hb). apply Rmult_le_compat; lra.
Qed.

Lemma q18_p1 : 945956817 / 1000000000 <= q18 <= 945961661 / 1000000000.
Proof. apply q18_bounds_10. Qed.
Lemma q18_p2 : 894834299 / 1000000000 <= q18 ^ 2 <= 894843465 / 1000000000.
Proof.
  replace (q18 ^ 2) with (q18 * q18) by ring.
  eapply mul_bounds; [| |apply q18_p1|apply q18_p1| |]; lra.
Qed.
Lemma q18_p4 : 800728422 / 1000000000 <= q18 ^ 4 <= 800744827 / 1000000000.
Proof.
  replace (q18 ^ 4) with (q18 ^ 2 * q18 ^ 2) by ring.
  eapply mul_bounds; [| |apply q18_p2|apply q18_p2| |]; lra.
Qed.
Lemma q18_p8 : 641166005 / 1000000000 <= q18 ^ 8 <= 641192278 / 1000000000.
Proof.
  replace (q18 ^ 8) with (q18 ^ 4 * q18 ^ 4) by ring.
  eapply mul_bounds; [| |apply q18_p4|apply q18_p4| |]; lra.
Qed.
Lemma q18_p9 : 606515353 / 1000000000 <= q18 ^ 9 <= 606543313 / 1000000000.
Proof.
  replace (q18 ^ 9) with (q18 ^ 8 * q18) by ring.
  eapply mul_bounds; [| |apply q18_p8|apply q18_p1| |]; lra.
Qed.
Lemma q18_p16 : 411093845 / 1000000000 <= q18 ^ 16 <= 411127538 / 1000000000.
Proof.
  replace (q18 ^ 16) with (q18 ^ 8 * q18 ^ 8) by ring.
  eapply mul_bounds; [| |apply q18_p8|apply q18_p8| |]; lra.
Qed.
Lemma q18_p24 : 263579398 / 1000000000 <= q18 ^ 24 <= 263611803 / 1000000000.
Proof.
  replace (q18 ^ 24) with (q18 ^ 16 * q18 ^ 8) by ring.
  eapply mul_bounds; [| |apply q18_p16|apply q18_p8| |]; lra.
Qed.
Lemma q18_p25 : 249334728 / 1000000000 <= q18 ^ 25 <= 249366660 / 1000000000.
Proof.
  replace (q18 ^ 25) with (q18 ^ 24 * q18) by ring.
  eapply mul_bounds; [| |apply q18_p24|apply q18_p1| |]; lra.
Qed.
Lemma q18_p32 : 168998149 / 1000000000 <= q18 ^ 32 <= 169025853 / 1000000000.
Proof.
  replace (q18 ^ 32) with (q18 ^ 16 * q18 ^ 16) by ring.
  eapply mul_bounds; [| |apply q18_p16|apply q18_p16| |]; lra.
Qed.
Lemma q18_p49 : 65719497 / 1000000000 <= q18 ^ 49 <= 65735995 / 1000000000.
Proof.
  replace (q18 ^ 49) with (q18 ^ 25 * q18 ^ 24) by ring.
  eapply mul_bounds; [| |apply q18_p25|apply q18_p24| |]; lra.
Qed.
Lemma q18_p81 : 11106473 / 1000000000 <= q18 ^ 81 <= 11111083 / 1000000000.
Proof.
  replace (q18 ^ 81) with (q18 ^ 49 * q18 ^ 32) by ring.
  eapply mul_bounds; [| |apply q18_p49|apply q18_p32| |]; lra.
Qed.

Lemma bell_q n t : t * t = INR n / 9 -> bell t = q18 ^ n.
Proof.
  intros H. unfold bell, q18. rewrite <- Rpower_pow by apply exp_pos.
  unfold Rpower. rewrite ln_exp. f_equal. rewrite H. field.
Qed.

Lemma bells_eq : bells = 2 * (q18 ^ 1 + q18 ^ 9 + q18 ^ 25 + q18 ^ 49 + q18 ^ 81).
Proof.
  unfold bells, ticks. cbn [seq map]. rewrite !sumR_cons. change (sumR []) with 0.
  rewrite (bell_q 81 (-3 + 2 / 3 * INR 0)), (bell_q 49 (-3 + 2 / 3 * INR 1)),
    (bell_q 25 (-3 + 2 / 3 * INR 2)), (bell_q 9 (-3 + 2 / 3 * INR 3)),
    (bell_q 1 (-3 + 2 / 3 * INR 4)), (bell_q 1 (-3 + 2 / 3 * INR 5)),
    (bell_q 9 (-3 + 2 / 3 * INR 6)), (bell_q 25 (-3 + 2 / 3 * INR 7)),
    (bell_q 49 (-3 + 2 / 3 * INR 8)), (bell_q 81 (-3 + 2 / 3 * INR 9));
    [ring|rewrite !INR_IZR_INZ; simpl Z.of_nat; lra..].
Qed.

Lemma bells_bounds : 3757265736 / 1000000000 <= bells <= 3757437424 / 1000000000.
Proof.
  rewrite bells_eq, pow_1. pose proof q18_p1. pose proof q18_p9. pose proof q18_p25.
  pose proof q18_p49. pose proof q18_p81. lra.
Qed.

Lemma PI_bounds : 31415 / 10000 <= PI <= 31416 / 10000.
Proof.
  pose proof (PI_2_3_7_ineq 2) as (A & _). pose proof (PI_2_3_7_ineq 2) as (_ & B).
  unfold tg_alt, PI_2_3_7_tg, Ratan_seq in A, B.
  cbn [sum_f_R0 Nat.mul Nat.add pow] in A, B.
  replace (INR 11) with 11 in A by (rewrite INR_IZR_INZ; reflexivity).
  repeat rewrite INR_IZR_INZ in A. repeat rewrite INR_IZR_INZ in B.
  cbn [Z.of_nat Pos.of_succ_nat Pos.succ] in A, B. lra.
Qed.

(** The total weight lies in [0.998, 1]. *)
Lemma total_weight_bounds : 998 / 1000 <= 4 / 9 / (2 * PI) * (bells * bells) <= 1.
Proof.
  pose proof PI_bounds as P. pose proof bells_bounds as B.
  apply sq_bounds in B; [|lra].
  assert (E : 4 / 9 / (2 * PI) * (bells * bells) = bells * bells * (2 / 9) / PI) by (field; lra).
  rewrite E. split.
  - apply Rmult_le_reg_r with PI; [lra|]. unfold Rdiv at 2. rewrite Rmult_assoc, Rinv_l by lra. lra.
  - apply Rmult_le_reg_r with PI; [lra|]. unfold Rdiv at 1. rewrite Rmult_assoc, Rinv_l by lra. lra.
Qed.
