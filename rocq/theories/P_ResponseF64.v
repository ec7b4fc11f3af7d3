(** P_ResponseF64.v -- C82: amplitude and integral measure the charge; rounding in the electronics response. *)
From Coq Require Import ZArith Reals Lra Lia List.
From Flocq Require Import Core Relative BinarySingleNaN.
From Verif Require Import Base F64 F64Bounds Num Response P_Response P_Cloud P_GetResponse P_KinF64 P_SamplingF64.
Import ListNotations.
Local Open Scope R_scope.

(** ** Relative errors in units of 2^-53 *)
Definition rel (k x y : R) : Prop := exists d, Rabs d <= k * u /\ x = y * (1 + d).

Lemma u_small : u <= / 1000000000000000. Proof. apply small_facts. Qed.

Lemma u_smaller : u <= / 9000000000000000.
Proof. pose proof two_u as T. replace (2 ^ 52) with 4503599627370496 in T by (rewrite pow_IZR; reflexivity). lra. Qed.

Lemma rel_refl x : rel 0 x x.
Proof. exists 0. rewrite Rabs_R0. split; lra. Qed.
Lemma rel_weak a b x y : a <= b -> rel a x y -> rel b x y.
Proof.
  intros L (d & D & E). exists d. split; [|exact E]. pose proof u_pos.
  assert (a * u <= b * u) by (apply Rmult_le_compat_r; lra). lra.
Qed.
Lemma one_plus A B a b : Rabs a <= A -> Rabs b <= B -> A <= 1 / 100000 -> Rabs ((1 + a) * (1 + b) - 1) <= A + B * (100001 / 100000).
Proof.
  intros Ha Hb HA. replace ((1 + a) * (1 + b) - 1) with (a + b * (1 + a)) by ring.
  eapply Rle_trans; [apply Rabs_triang|]. apply Rplus_le_compat; [exact Ha|]. rewrite Rabs_mult.
  apply Rmult_le_compat; try apply Rabs_pos; [exact Hb|]. eapply Rle_trans; [apply Rabs_triang|].
  rewrite Rabs_R1. lra.
Qed.
Lemma rel_mul a b x x' y y' : 0 <= a <= 1000 -> 0 <= b <= 1000 -> rel a x y -> rel b x' y' -> rel (a + b + 1 / 100) (x * x') (y * y').
Proof.
  intros A B (d & D & ->) (d' & D' & ->). exists ((1 + d) * (1 + d') - 1). split; [|ring].
  pose proof u_pos as P. pose proof u_small as P'.
  assert (S1 : a * u <= 1000 * u) by (apply Rmult_le_compat_r; lra).
  assert (S2 : b * u <= 1000 * u) by (apply Rmult_le_compat_r; lra).
  eapply Rle_trans; [apply (one_plus (a * u) (b * u)); [exact D|exact D'|lra]|].
  assert (b * u * (1 / 100000) <= 1 / 100 * u) by (rewrite (Rmult_comm b u), Rmult_assoc, (Rmult_comm _ u); apply Rmult_le_compat_l; lra).
  lra.
Qed.
Lemma rel_inv b x y : 0 <= b <= 1000 -> y <> 0 -> rel b x y -> rel (b + 1 / 100) (/ x) (/ y).
Proof.
  intros B N (d & D & ->). pose proof u_pos as P. pose proof u_small as P'.
  assert (S2 : b * u <= 1000 * u) by (apply Rmult_le_compat_r; lra).
  assert (D1 : Rabs d <= 1 / 1000000) by lra. pose proof D1 as D2. apply Rabs_le_inv in D2.
  exists (/ (1 + d) - 1). split; [|field; split; [lra|exact N]].
  replace (/ (1 + d) - 1) with (- d * / (1 + d)) by (field; lra). rewrite Rabs_mult, Rabs_Ropp.
  assert (I : Rabs (/ (1 + d)) <= 100001 / 100000).
  { rewrite Rabs_pos_eq by (left; apply Rinv_0_lt_compat; lra). replace (100001 / 100000) with (/ (100000 / 100001)) by (field). apply Rinv_le; lra. }
  apply Rle_trans with (b * u * (100001 / 100000)); [apply Rmult_le_compat; try apply Rabs_pos; assumption|].
  assert (b * u * (1 / 100000) <= 1 / 100 * u) by (rewrite (Rmult_comm b u), Rmult_assoc, (Rmult_comm _ u); apply Rmult_le_compat_l; lra).
  lra.
Qed.
Lemma rel_div a b x x' y y' : 0 <= a <= 900 -> 0 <= b <= 900 -> y' <> 0 -> rel a x y -> rel b x' y' -> rel (a + b + 1 / 50) (x / x') (y / y').
Proof.
  intros A B N H H'. apply rel_weak with (a + (b + 1 / 100) + 1 / 100); [lra|].
  apply rel_mul; try lra; [exact H|]. apply rel_inv; try lra; assumption.
Qed.
Lemma rnd_rel x : bpow radix2 (-1022) <= Rabs x \/ x = 0 -> rel 1 (rnd64 x) x.
Proof.
  intros [H| ->].
  - destruct (relative_error_N_FLT_ex radix2 (SpecFloat.emin prec64 emax64) prec64 ltac:(reflexivity) (fun n => negb (Z.even n)) x) as (d & D & E).
    + exact H.
    + exists d. split; [|exact E]. eapply Rle_trans; [exact D|]. right. rewrite Rmult_1_l. change (bpow radix2 (- prec64 + 1)) with (/ 4503599627370496). pose proof two_u as T.
      replace (2 ^ 52) with 4503599627370496 in T by (rewrite pow_IZR; reflexivity). lra.
  - rewrite rnd64_0. exists 0. rewrite Rabs_R0. pose proof u_pos. split; lra.
Qed.
Lemma rel_rnd a x y : 0 <= a <= 900 -> rel a x y -> bpow radix2 (-1022) <= Rabs x \/ x = 0 -> rel (a + 1 + 1 / 100) (rnd64 x) y.
Proof.
  intros A (d & D & E) H. destruct (rnd_rel x H) as (d' & D' & E'). rewrite E', E.
  assert (R1 : rel a (y * (1 + d)) y) by (exists d; auto).
  assert (R2 : rel 1 (1 + d') 1) by (exists d'; split; [exact D'|ring]).
  replace y with (y * 1) at 2 by ring. apply rel_mul; try lra; assumption.
Qed.
(** The size of what is known up to a few units. *)
Lemma rel_size k x y : 0 <= k <= 1000 -> 0 <= y -> rel k x y -> y * (999999 / 1000000) <= x <= y * (1000001 / 1000000).
Proof.
  intros K Y (d & D & ->). pose proof u_pos as P. pose proof u_small as P'.
  assert (S2 : k * u <= 1000 * u) by (apply Rmult_le_compat_r; lra).
  assert (D1 : Rabs d <= 1 / 1000000) by lra. apply Rabs_le_inv in D1.
  split; apply Rmult_le_compat_l; lra.
Qed.
Lemma rel_abs k x y : rel k x y -> Rabs (x - y) <= k * u * Rabs y.
Proof. intros (d & D & ->). replace (y * (1 + d) - y) with (d * y) by ring. rewrite Rabs_mult. apply Rmult_le_compat_r; [apply Rabs_pos|exact D]. Qed.

(** exp near 0. *)
Lemma exp_near z : Rabs z <= 1 / 2 -> Rabs (exp z - 1) <= 2 * Rabs z.
Proof.
  intros H. pose proof (exp_ineq1_le z) as L. pose proof (exp_ineq1_le (- z)) as L'. pose proof (exp_pos z) as P.
  assert (I : exp z * exp (- z) = 1) by (rewrite <- exp_plus; replace (z + - z) with 0 by ring; apply exp_0).
  apply Rabs_le_inv in H. assert (U : exp z * (1 - z) <= 1).
  { rewrite <- I. apply Rmult_le_compat_l; lra. }
  destruct (Rle_lt_dec 0 z) as [Z|Z].
  - rewrite (Rabs_pos_eq z) by lra. rewrite Rabs_pos_eq by lra.
    assert (exp z <= 1 + 2 * z); [|lra]. apply Rmult_le_reg_r with (1 - z); [lra|].
    eapply Rle_trans; [exact U|]. replace ((1 + 2 * z) * (1 - z)) with (1 + z * (1 - 2 * z)) by ring.
    assert (0 <= z * (1 - 2 * z)) by (apply Rmult_le_pos; lra). lra.
  - rewrite (Rabs_left z) by lra. assert (exp z <= 1) by (rewrite <- exp_0; left; now apply exp_increasing).
    apply Rabs_le. lra.
Qed.
Lemma exp_3 : exp (-3) <= 1 / 8.
Proof.
  assert (H : 2 <= exp 1) by (pose proof (exp_ineq1_le 1); lra).
  assert (E : exp (-3) * exp 3 = 1) by (rewrite <- exp_plus; replace (-3 + 3) with 0 by lra; apply exp_0).
  assert (E3 : exp 3 = exp 1 * exp 1 * exp 1) by (rewrite <- !exp_plus; f_equal; lra).
  assert (8 <= exp 3). { rewrite E3. assert (4 <= exp 1 * exp 1) by (replace 4 with (2 * 2) by lra; apply Rmult_le_compat; lra).
    replace 8 with (4 * 2) by lra. apply Rmult_le_compat; lra. }
  pose proof (exp_pos (-3)). apply Rmult_le_reg_r with (exp 3); [lra|]. rewrite E. lra.
Qed.
Lemma t4_le t : 0 <= t -> exp (-3 * t) * t ^ 4 <= 2 / 5.
Proof.
  intros H. set (s := 3 / 4 * t).
  assert (A : s <= exp (s - 1)) by (pose proof (exp_ineq1_le (s - 1)); lra).
  assert (B : s ^ 4 <= exp (s - 1) ^ 4) by (apply pow_incr; unfold s in *; lra).
  assert (C : exp (s - 1) ^ 4 = exp (3 * t - 4)).
  { simpl. rewrite Rmult_1_r, <- !exp_plus. f_equal. unfold s. lra. }
  rewrite C in B. assert (D : t ^ 4 = (4 / 3) ^ 4 * s ^ 4) by (unfold s; field).
  assert (E : exp (-3 * t) * s ^ 4 <= exp (-4)).
  { apply Rle_trans with (exp (-3 * t) * exp (3 * t - 4)); [apply Rmult_le_compat_l; [left; apply exp_pos|exact B]|].
    rewrite <- exp_plus. right. f_equal. lra. }
  assert (E4 : exp (-4) <= 1 / 8) by (left; eapply Rlt_le_trans; [|apply exp_3]; apply exp_increasing; lra).
  rewrite D. replace (exp (-3 * t) * ((4 / 3) ^ 4 * s ^ 4)) with ((4 / 3) ^ 4 * (exp (-3 * t) * s ^ 4)) by ring.
  apply Rle_trans with ((4 / 3) ^ 4 * (1 / 8)); [apply Rmult_le_compat_l; lra|lra].
Qed.

Lemma split_err x y a b : 0 <= y -> 0 <= a -> 0 <= b -> Rabs (x - y) <= a * y + b ->
  exists g e, Rabs g <= a /\ Rabs e <= b /\ x = y * (1 + g) + e.
Proof.
  intros Y A B H. destruct (Req_dec y 0) as [->|N].
  - exists 0, x. rewrite Rabs_R0. repeat split; try lra. rewrite Rmult_0_r, Rplus_0_l, Rminus_0_r in H. exact H.
  - assert (Py : 0 < y) by lra. apply Rabs_le_inv in H. destruct (Rle_lt_dec (x - y) (a * y)) as [U|U].
    + destruct (Rle_lt_dec (- (a * y)) (x - y)) as [D|D].
      * exists ((x - y) / y), 0. rewrite Rabs_R0. repeat split; try lra; [|field; lra].
        apply Rabs_le. split; [apply le_div; lra|apply div_le; lra].
      * exists (- a), (x - y + a * y). rewrite Rabs_Ropp, (Rabs_pos_eq a) by lra. repeat split; try lra. apply Rabs_le. lra.
    + exists a, (x - y - a * y). rewrite (Rabs_pos_eq a) by lra. repeat split; try lra. apply Rabs_le. lra.
Qed.
Lemma rnd_split x : 0 <= x -> exists g e, Rabs g <= u /\ Rabs e <= eta /\ rnd64 x = x * (1 + g) + e.
Proof.
  intros H. pose proof (rnd_err x) as R. rewrite (Rabs_pos_eq x) in R by exact H.
  apply split_err; auto; left; [apply u_pos|apply eta_pos].
Qed.

(** The size of the neglected terms. *)
Lemma tiny_c c : bpow radix2 (-150) <= c -> 2 ^ 123 * eta <= u * c * (1 / 1000).
Proof.
  intros H. assert (E : eta <= u * bpow radix2 (-150) * (1 / 2 ^ 10) * / 2 ^ 123).
  { Transparent u eta. unfold u, eta. Opaque u eta. change (-150)%Z with (- (150))%Z. rewrite bpow_opp.
    replace (bpow radix2 150) with (2 ^ 150) by (rewrite pow_IZR; rewrite <- IZR_pow2 by lia; reflexivity).
    unfold Rdiv. rewrite Rmult_1_l. rewrite <- !Rinv_mult, <- !pow_add. apply Rinv_le; [apply pow_lt; lra|].
    apply Rle_pow; [lra|]. cbn [Nat.add]. lia. }
  pose proof u_pos as P. assert (P2 : 0 < 2 ^ 123) by (apply pow_lt; lra).
  apply Rle_trans with (u * bpow radix2 (-150) * (1 / 2 ^ 10)).
  - apply Rmult_le_reg_r with (/ 2 ^ 123); [now apply Rinv_0_lt_compat|].
    replace (2 ^ 123 * eta * / 2 ^ 123) with eta by (field; lra). exact E.
  - apply Rle_trans with (u * c * (1 / 2 ^ 10)).
    + apply Rmult_le_compat_r; [lra|]. apply Rmult_le_compat_l; lra.
    + apply Rmult_le_compat_l; [|lra]. apply Rmult_le_pos; [lra|]. pose proof (bpow_gt_0 radix2 (-150)). lra.
Qed.

(** exp, sin and the third power are accurate to one unit in the last place. *)
Definition libm_accurate (fexp fsin fcube : f64 -> f64) : Prop :=
  libm_ok fexp fsin fcube /\
  (forall x, is_finite x = true -> - bpow radix2 40 <= R64 x <= 0 ->
     Rabs (R64 (fexp x) - exp (R64 x)) <= / 2 ^ 52 * exp (R64 x) + eta) /\
  (forall x, is_finite x = true -> 0 <= R64 x <= bpow radix2 40 -> Rabs (R64 (fsin x) - sin (R64 x)) <= / 2 ^ 52) /\
  (forall x, is_finite x = true -> 0 <= R64 x <= bpow radix2 40 ->
     Rabs (R64 (fcube x) - R64 x ^ 3) <= / 2 ^ 52 * R64 x ^ 3 + eta).

Lemma sin_lipschitz x y : Rabs (sin x - sin y) <= Rabs (x - y).
Proof.
  destruct (Req_dec x y) as [->|N]; [unfold Rminus; rewrite !Rplus_opp_r, Rabs_R0; lra|].
  assert (H : forall a b, a < b -> Rabs (sin b - sin a) <= b - a).
  { intros a b L. destruct (MVT_cor2 sin cos a b L) as (c & E & _).
    - intros. apply derivable_pt_lim_sin.
    - rewrite E, Rabs_mult, (Rabs_pos_eq (b - a)) by lra.
      rewrite <- (Rmult_1_l (b - a)) at 2. apply Rmult_le_compat_r; [lra|].
      pose proof (COS_bound c). apply Rabs_le. lra. }
  destruct (Rlt_le_dec x y) as [L|L].
  - rewrite Rabs_minus_sym, (Rabs_minus_sym x y), (Rabs_pos_eq (y - x)) by lra. now apply H.
  - rewrite (Rabs_pos_eq (x - y)) by lra. apply H. lra.
Qed.
Lemma rmax_lipschitz a x y : Rabs (Rmax a x - Rmax a y) <= Rabs (x - y).
Proof. unfold Rmax. destruct (Rle_dec a x), (Rle_dec a y); unfold Rabs; repeat destruct Rcase_abs; lra. Qed.
Lemma rmin_lipschitz a x y : Rabs (Rmin a x - Rmin a y) <= Rabs (x - y).
Proof. unfold Rmin. destruct (Rle_dec a x), (Rle_dec a y); unfold Rabs; repeat destruct Rcase_abs; lra. Qed.

Section Sample.
  Context (fexp fsin fcube : f64 -> f64) (LA : libm_accurate fexp fsin fcube).
  Context (c1' w' tb' : f64) (c1 W T : R).
  Hypothesis (F1 : is_finite c1' = true) (Fw : is_finite w' = true) (Ft : is_finite tb' = true).
  Hypothesis (R1 : rel 4 (R64 c1') c1) (Rw : rel 3 (R64 w') W) (Rt : rel 3 (R64 tb') T).
  Hypothesis (H1 : bpow radix2 (-150) <= c1 <= 4095 / 4096) (HW : bpow radix2 (-19) <= W <= bpow radix2 140) (HT : T = 0 \/ 1 <= T <= 512).

  Let t := T / W.
  Let c2 := fdiv tb' w'.
  Let Wp : 0 < W.
  Proof. pose proof (bpow_gt_0 radix2 (-19)). lra. Qed.
  Lemma t_range : 0 <= t <= 2 ^ 28.
  Proof using HW HT Wp.
    unfold t. split; [apply Rmult_le_pos; [lra|left; now apply Rinv_0_lt_compat]|].
    apply div_le; [exact Wp|]. apply Rle_trans with (2 ^ 28 * bpow radix2 (-19)); [|apply Rmult_le_compat_l; [apply pow_le; lra|apply HW]].
    change (bpow radix2 (-19)) with (/ 524288). lra.
  Qed.
  Lemma c2_rel : is_finite c2 = true /\ rel (71 / 10) (R64 c2) t.
  Proof using F1 Fw Ft Rw Rt HW HT Wp.
    assert (Rq : rel (3 + 3 + 1 / 50) (R64 tb' / R64 w') t) by (apply rel_div; try lra; assumption).
    pose proof (rel_size 3 (R64 w') W ltac:(lra) ltac:(lra) Rw) as Sw.
    pose proof t_range as Tr.
    pose proof (rel_size (3 + 3 + 1 / 50) _ _ ltac:(lra) (proj1 Tr) Rq) as Sq.
    assert (B28 : 2 ^ 28 * (1000001 / 1000000) <= bpow radix2 29) by (change (bpow radix2 29) with 536870912; lra).
    destruct (fdiv_fin tb' w' 29 Ft) as (E & F); [lra|lia| |].
    { rewrite Rabs_pos_eq by lra. lra. }
    split; [exact F|]. unfold c2. rewrite E. apply rel_weak with (3 + 3 + 1 / 50 + 1 + 1 / 100); [lra|].
    apply rel_rnd; [lra|exact Rq|].
    destruct HT as [->|HT'].
    - right. destruct Rq as (d & _ & ->). unfold t. unfold Rdiv. ring.
    - left. rewrite Rabs_pos_eq by lra.
      assert (Lo : bpow radix2 (-140) <= t).
      { unfold t. apply le_div; [exact Wp|]. apply Rle_trans with (bpow radix2 (-140) * bpow radix2 140); [apply Rmult_le_compat_l; [apply bpow_ge_0|apply HW]|].
        rewrite <- bpow_plus. change (bpow radix2 (-140 + 140)) with 1. lra. }
      apply Rle_trans with (bpow radix2 (-140) * (999999 / 1000000)); [|apply Rle_trans with (t * (999999 / 1000000)); [apply Rmult_le_compat_r; lra|lra]].
      apply Rle_trans with (bpow radix2 (-140) * (1 / 2)); [|apply Rmult_le_compat_l; [apply bpow_ge_0|lra]].
      replace (1 / 2) with (bpow radix2 (-1)) by (cbn; lra). rewrite <- bpow_plus. apply bpow_le. lia.
  Qed.

  Lemma sample_close :
    let r := sample (N := F64 fexp) fsin fcube c1' w' tb' in
    is_finite (r : f64) = true /\ Rabs (R64 (r : f64) - formula c1 t) <= 32 * u * c1.
  Proof using All.
    intros r. pose proof t_range as Tr. destruct c2_rel as (Fc & Rc). pose proof u_pos as Pu. pose proof u_small as Su. pose proof eta_pos as Pe.
    destruct LA as ((Lx & Ls & Lc) & Ax & As & Ac). rewrite two_u in Ax, As, Ac.
    assert (Z0 : R64 (f_of_Z 0) = 0) by (apply f_of_Z_R; lia).
    assert (Zf : is_finite (f_of_Z 0) = true) by (apply f_of_Z_fin; lia).
    pose proof (rel_size (71 / 10) _ _ ltac:(lra) (proj1 Tr) Rc) as Sc.
    pose proof (rel_size 4 (R64 c1') c1 ltac:(lra) ltac:(pose proof (bpow_ge_0 radix2 (-150)); lra) R1) as S1.
    pose proof (bpow_gt_0 radix2 (-150)) as P150.
    assert (Hc2 : 0 <= R64 c2 <= bpow radix2 29) by (change (bpow radix2 29) with 536870912; lra).
    assert (B2940 : bpow radix2 29 <= bpow radix2 40) by (apply bpow_le; lia).
    (* the argument of exp *)
    set (y := fmul (f_of_Z (-3)) c2).
    assert (H3 : R64 (f_of_Z (-3)) = -3) by (apply (f_of_Z_R (-3)); lia).
    destruct (fmul_fin (f_of_Z (-3)) c2 31) as (Ey & Fy); [apply f_of_Z_fin; lia|exact Fc|lia| |].
    { rewrite H3, Rabs_mult, (Rabs_pos_eq (R64 c2)) by lra. rewrite Rabs_left by lra. change (bpow radix2 31) with 2147483648. change (bpow radix2 29) with 536870912 in Hc2. lra. }
    assert (Ry : rel (82 / 10) (R64 y) (-3 * t)).
    { unfold y. rewrite Ey, H3. apply rel_weak with (0 + 71 / 10 + 1 / 100 + 1 + 1 / 100); [lra|]. apply rel_rnd; [lra| |].
      - apply rel_mul; try lra; [apply rel_refl|exact Rc].
      - destruct Rc as (d & Dd & Ec). destruct HT as [T0|HT'].
        + right. rewrite Ec. unfold t. rewrite T0. unfold Rdiv. ring.
        + left. rewrite Rabs_mult, Rabs_left, (Rabs_pos_eq (R64 c2)) by lra.
          assert (Lo : bpow radix2 (-140) <= t).
          { unfold t. apply le_div; [exact Wp|]. apply Rle_trans with (bpow radix2 (-140) * bpow radix2 140); [apply Rmult_le_compat_l; [apply bpow_ge_0|apply HW]|].
            rewrite <- bpow_plus. change (bpow radix2 (-140 + 140)) with 1. lra. }
          apply Rle_trans with (bpow radix2 (-140)); [apply bpow_le; lia|]. lra. }
    assert (Hy : - bpow radix2 40 <= R64 y <= 0).
    { destruct Ry as (d & Dd & ->). apply Rabs_le_inv in Dd. assert (82 / 10 * u <= 1) by lra.
      assert (0 <= t * (1 + d) <= t * 2) by (split; [apply Rmult_le_pos|apply Rmult_le_compat_l]; lra).
      replace (-3 * t * (1 + d)) with (- (3 * (t * (1 + d)))) by ring.
      assert (6 * 2 ^ 28 <= bpow radix2 40) by (change (bpow radix2 40) with 1099511627776; lra). lra. }
    destruct (Lx y Fy (proj2 Hy)) as (Fx & Hx). destruct (Ls c2 Fc) as (Fs & Hs). 
    assert (Hc40 : 0 <= R64 c2 <= bpow radix2 40) by lra.
    destruct (Lc c2 Fc Hc40) as (Fu & Hu).
    specialize (Ax y Fy Hy). specialize (As c2 Fc Hc40). specialize (Ac c2 Fc Hc40).
    set (EX := exp (-3 * t)). assert (PX : 0 < EX) by apply exp_pos.
    assert (EX1 : EX <= 1) by (unfold EX; rewrite <- exp_0; destruct (Req_dec t 0) as [->|]; [rewrite Rmult_0_r; lra|left; apply exp_increasing; lra]).
    (* exp *)
    assert (X : exists h, Rabs h <= 50 * t * u /\ exp (R64 y) = EX * (1 + h)).
    { destruct Ry as (d & Dd & Eyy). exists (exp (-3 * t * d) - 1). split.
      - assert (Z : Rabs (-3 * t * d) <= 25 * t * u).
        { rewrite Rabs_mult, Rabs_mult, (Rabs_pos_eq t), (Rabs_left (-3)) by lra.
          apply Rle_trans with (- -3 * t * (82 / 10 * u)); [apply Rmult_le_compat_l; lra|].
          assert (0 <= t * u) by (apply Rmult_le_pos; lra). lra. }
        assert (TU : t * u <= 2 ^ 28 * u) by (apply Rmult_le_compat_r; lra).
        eapply Rle_trans; [apply exp_near|]; lra.
      - rewrite Eyy. replace (-3 * t * (1 + d)) with (-3 * t + -3 * t * d) by ring. rewrite exp_plus. unfold EX. ring. }
    destruct X as (h & Hh & Eh).
    destruct (split_err (R64 (fexp y)) (exp (R64 y)) (2 * u) eta) as (g & e3 & Hg & He3 & Eg); [left; apply exp_pos|lra|lra|exact Ax|].
    (* the cube *)
    assert (C3 : rel (22) (R64 c2 ^ 3) (t ^ 3)).
    { replace (R64 c2 ^ 3) with (R64 c2 * R64 c2 * R64 c2) by ring. replace (t ^ 3) with (t * t * t) by ring.
      apply rel_weak with (71 / 10 + 71 / 10 + 1 / 100 + 71 / 10 + 1 / 100); [lra|]. apply rel_mul; try lra; [apply rel_mul; try lra; exact Rc|exact Rc]. }
    destruct (split_err (R64 (fcube c2)) (R64 c2 ^ 3) (2 * u) eta) as (k0 & ek & Hk0 & Hek & Ek); [apply pow_le; lra|lra|lra|exact Ac|].
    destruct C3 as (k1 & Hk1 & Ek1).
    set (k := (1 + k1) * (1 + k0) - 1).
    assert (Hk : Rabs k <= 25 * u) by (eapply Rle_trans; [apply (one_plus (22 * u) (2 * u)); [exact Hk1|exact Hk0|lra]|lra]).
    assert (EC : R64 (fcube c2) = t ^ 3 * (1 + k) + ek) by (rewrite Ek, Ek1; unfold k; ring).
    (* first product *)
    set (p1 := fmul c1' (fexp y)).
    assert (M1 : 0 <= R64 c1' * R64 (fexp y) <= 1) by (split; [apply Rmult_le_pos; lra|rewrite <- (Rmult_1_r 1); apply Rmult_le_compat; lra]).
    destruct (fmul_fin c1' (fexp y) 0 F1 Fx) as (E1 & G1); [lia|rewrite Rabs_pos_eq by lra; change (bpow radix2 0) with 1; lra|].
    fold p1 in E1, G1.
    assert (P1 : 0 <= R64 p1 <= 1).
    { rewrite E1. split; [apply rnd64_ge_fmt; [apply generic_format_0|lra]|apply rnd64_le_fmt; [apply (fmt64_IZR 1); lia|lra]]. }
    destruct (rnd_split _ (proj1 M1)) as (a & e1 & Ha & He1 & Ea). rewrite <- E1 in Ea.
    (* second product *)
    set (p2 := fmul p1 (fcube c2)).
    assert (P120 : 1 <= bpow radix2 120) by (change 1 with (bpow radix2 0); apply bpow_le; lia).
    assert (M2 : 0 <= R64 p1 * R64 (fcube c2) <= bpow radix2 120).
    { split; [apply Rmult_le_pos; lra|]. rewrite <- (Rmult_1_l (bpow radix2 120)). apply Rmult_le_compat; lra. }
    destruct (fmul_fin p1 (fcube c2) 120 G1 Fu) as (E2 & G2); [lia|rewrite Rabs_pos_eq by lra; lra|]. fold p2 in E2, G2.
    destruct (rnd_split _ (proj1 M2)) as (b & e2 & Hb & He2 & Eb). rewrite <- E2 in Eb.
    assert (P2 : 0 <= R64 p2 <= bpow radix2 120).
    { rewrite E2. split; [apply rnd64_ge_fmt; [apply generic_format_0|lra]|apply rnd64_le_fmt; [apply fmt64_bpow; lia|lra]]. }
    (* the value of the second product *)
    destruct R1 as (d1 & Hd1 & Ed1).
    pose proof u_smaller as Su'.
    set (q := (1 + d1) * (1 + h) * (1 + g) * (1 + a) * (1 + k) * (1 + b) - 1).
    assert (TU : t * u <= 2 ^ 28 * u) by (apply Rmult_le_compat_r; lra).
    assert (TU0 : 0 <= t * u) by (apply Rmult_le_pos; lra).
    assert (Hq : Rabs q <= (34 + 51 * t) * u).
    { pose proof (one_plus _ _ _ _ Hd1 Hh ltac:(lra)) as Q1. set (q1 := (1 + d1) * (1 + h) - 1) in Q1.
      pose proof (one_plus _ _ _ _ Q1 Hg ltac:(lra)) as Q2. set (q2 := (1 + q1) * (1 + g) - 1) in Q2.
      pose proof (one_plus _ _ _ _ Q2 Ha ltac:(lra)) as Q3. set (q3 := (1 + q2) * (1 + a) - 1) in Q3.
      pose proof (one_plus _ _ _ _ Q3 Hk ltac:(lra)) as Q4. set (q4 := (1 + q3) * (1 + k) - 1) in Q4.
      pose proof (one_plus _ _ _ _ Q4 Hb ltac:(lra)) as Q5.
      replace q with ((1 + q4) * (1 + b) - 1) by (unfold q, q4, q3, q2, q1; ring). lra. }
    set (V := c1 * EX * t ^ 3).
    set (xm := c1 * (1 + d1) * (EX * (1 + h) * (1 + g)) * (1 + a)).
    set (r1 := c1 * (1 + d1) * e3 * (1 + a) + e1).
    assert (Ep1 : R64 p1 = xm + r1) by (rewrite Ea, Eg, Eh, Ed1; unfold xm, r1; ring).
    assert (Ep2 : R64 p2 = V * (1 + q) + ((xm * ek + r1 * R64 (fcube c2)) * (1 + b) + e2)).
    { rewrite Eb, Ep1. rewrite Rmult_plus_distr_r. rewrite EC at 1. unfold V, q, xm. ring. }
    assert (B1 : Rabs (1 + a) <= 11 / 10) by (eapply Rle_trans; [apply Rabs_triang|rewrite Rabs_R1; lra]).
    assert (B2 : Rabs (1 + b) <= 11 / 10) by (eapply Rle_trans; [apply Rabs_triang|rewrite Rabs_R1; lra]).
    assert (Br1 : Rabs r1 <= 3 * eta).
    { unfold r1. eapply Rle_trans; [apply Rabs_triang|]. rewrite <- Ed1, !Rabs_mult, (Rabs_pos_eq (R64 c1')) by lra.
      assert (R64 c1' * Rabs e3 <= 1 * eta) by (apply Rmult_le_compat; try apply Rabs_pos; lra).
      assert (R64 c1' * Rabs e3 * Rabs (1 + a) <= 1 * eta * (11 / 10)).
      { apply Rmult_le_compat; auto; [apply Rmult_le_pos; [lra|apply Rabs_pos]|apply Rabs_pos]. }
      lra. }
    assert (Bxm : Rabs xm <= 1 + 3 * eta).
    { replace xm with (R64 p1 - r1) by (rewrite Ep1; ring). unfold Rminus. eapply Rle_trans; [apply Rabs_triang|].
      rewrite Rabs_Ropp, (Rabs_pos_eq (R64 p1)) by lra. lra. }
    assert (Eta1 : eta <= 1) by (pose proof small_facts; lra).
    assert (Brest : Rabs ((xm * ek + r1 * R64 (fcube c2)) * (1 + b) + e2) <= 2 ^ 123 * eta).
    { eapply Rle_trans; [apply Rabs_triang|]. rewrite Rabs_mult.
      assert (Rabs (xm * ek + r1 * R64 (fcube c2)) <= 4 * eta + 3 * eta * bpow radix2 120).
      { eapply Rle_trans; [apply Rabs_triang|]. rewrite !Rabs_mult, (Rabs_pos_eq (R64 (fcube c2))) by lra.
        apply Rplus_le_compat; (apply Rmult_le_compat; try apply Rabs_pos; lra). }
      assert (Rabs (xm * ek + r1 * R64 (fcube c2)) * Rabs (1 + b) <= (4 * eta + 3 * eta * bpow radix2 120) * (11 / 10))
        by (apply Rmult_le_compat; try apply Rabs_pos; assumption).
      replace (2 ^ 123) with (8 * bpow radix2 120).
      2:{ replace (bpow radix2 120) with (2 ^ 120) by (rewrite pow_IZR; rewrite <- IZR_pow2 by lia; reflexivity). change (2 ^ 123) with (2 ^ (3 + 120)). rewrite pow_add. lra. }
      assert (eta * 4 <= eta * bpow radix2 120) by (apply Rmult_le_compat_l; [lra|change 4 with (bpow radix2 2); apply bpow_le; lia]). lra. }
    pose proof (tiny_c c1 (proj1 H1)) as Ty.
    set (rest := (xm * ek + r1 * R64 (fcube c2)) * (1 + b) + e2) in *.
    assert (PV : 0 <= V) by (unfold V; apply Rmult_le_pos; [apply Rmult_le_pos; lra|apply pow_le; lra]).
    assert (V3 : V <= c1 * (1 / 8)).
    { unfold V. rewrite Rmult_assoc. apply Rmult_le_compat_l; [lra|]. eapply Rle_trans; [apply x3_le; lra|apply exp_3]. }
    assert (V4 : V * t <= c1 * (2 / 5)).
    { unfold V. replace (c1 * EX * t ^ 3 * t) with (c1 * (EX * t ^ 4)) by ring. apply Rmult_le_compat_l; [lra|apply t4_le; lra]. }
    assert (UV3 : u * V <= u * (c1 * (1 / 8))) by (apply Rmult_le_compat_l; lra).
    assert (UV4 : u * (V * t) <= u * (c1 * (2 / 5))) by (apply Rmult_le_compat_l; lra).
    assert (Uc : 0 <= u * c1) by (apply Rmult_le_pos; lra).
    assert (D2 : Rabs (R64 p2 - V) <= 34 * (u * V) + 51 * (u * (V * t)) + u * c1 * (1 / 1000)).
    { replace (R64 p2 - V) with (V * q + rest) by (rewrite Ep2; ring). eapply Rle_trans; [apply Rabs_triang|].
      rewrite Rabs_mult, (Rabs_pos_eq V) by exact PV.
      assert (V * Rabs q <= V * ((34 + 51 * t) * u)) by (apply Rmult_le_compat_l; assumption). lra. }
    (* third product *)
    assert (Sp : Rabs (R64 (fsin c2)) <= 1) by (apply Rabs_le; lra).
    destruct (fmul_fin p2 (fsin c2) 120 G2 Fs) as (E3 & G3); [lia| |].
    { rewrite Rabs_mult, Rabs_pos_eq by lra. rewrite <- (Rmult_1_r (bpow radix2 120)). apply Rmult_le_compat; try lra; apply Rabs_pos. }
    set (p3 := fmul p2 (fsin c2)) in *.
    assert (N3 : Rabs (R64 p3 - R64 p2 * R64 (fsin c2)) <= u * R64 p2 + eta).
    { rewrite E3. apply rnd_bound. rewrite Rabs_mult, Rabs_pos_eq by lra.
      rewrite <- (Rmult_1_r (R64 p2)) at 2. apply Rmult_le_compat_l; lra. }
    assert (Ds : Rabs (R64 (fsin c2) - sin t) <= 2 * u + 71 / 10 * (t * u)).
    { replace (R64 (fsin c2) - sin t) with ((R64 (fsin c2) - sin (R64 c2)) + (sin (R64 c2) - sin t)) by ring.
      eapply Rle_trans; [apply Rabs_triang|]. apply Rplus_le_compat; [exact As|].
      eapply Rle_trans; [apply sin_lipschitz|]. eapply Rle_trans; [apply rel_abs, Rc|]. rewrite Rabs_pos_eq by lra. lra. }
    assert (D3 : Rabs (R64 p3 - V * sin t) <= 31 * u * c1).
    { replace (R64 p3 - V * sin t) with ((R64 p3 - R64 p2 * R64 (fsin c2)) + ((R64 p2 - V) * R64 (fsin c2) + V * (R64 (fsin c2) - sin t))) by ring.
      eapply Rle_trans; [apply Rabs_triang|].
      assert (A1 : Rabs ((R64 p2 - V) * R64 (fsin c2) + V * (R64 (fsin c2) - sin t)) <= Rabs (R64 p2 - V) + V * (2 * u + 71 / 10 * (t * u))).
      { eapply Rle_trans; [apply Rabs_triang|]. rewrite !Rabs_mult, (Rabs_pos_eq V) by exact PV. apply Rplus_le_compat.
        - rewrite <- (Rmult_1_r (Rabs (R64 p2 - V))) at 2. apply Rmult_le_compat_l; [apply Rabs_pos|exact Sp].
        - apply Rmult_le_compat_l; assumption. }
      assert (A2 : R64 p2 <= V + Rabs (R64 p2 - V)) by (pose proof (Rle_abs (R64 p2 - V)); lra).
      assert (A3 : u * R64 p2 <= u * (2 * c1)).
      { apply Rmult_le_compat_l; [lra|]. assert (u * c1 <= / 1000000000000000 * c1) by (apply Rmult_le_compat_r; lra). lra. }
      assert (A4 : eta <= 2 ^ 123 * eta) by (rewrite <- (Rmult_1_l eta) at 1; apply Rmult_le_compat_r; [lra|apply pow_R1_Rle; lra]).
      lra. }
    (* the cut at 0 *)
    assert (Er : R64 (r : f64) = Rmax 0 (R64 p3) /\ is_finite (r : f64) = true).
    { assert (Rr : r = if fltb p3 (f_of_Z 0) then f_of_Z 0 else p3) by reflexivity. rewrite Rr.
      rewrite fltb_R by assumption. rewrite Z0. destruct (Rlt_bool_spec (R64 p3) 0) as [L|L].
      - rewrite Z0, Rmax_left by lra. now split.
      - rewrite Rmax_right by lra. now split. }
    destruct Er as (Er & Fr). split; [exact Fr|]. rewrite Er. unfold formula.
    eapply Rle_trans; [apply rmax_lipschitz|].
    replace (c1 * exp (-3 * t) * t ^ 3 * sin t) with (V * sin t) by (unfold V, EX; ring). lra.
  Qed.
End Sample.

(** ** The parameters of the response *)
Lemma mul_step (x y : f64) X Y a b lo hi : is_finite x = true -> is_finite y = true ->
  0 <= a <= 10 -> 0 <= b <= 10 -> rel a (R64 x) X -> rel b (R64 y) Y ->
  (-1000 <= lo)%Z -> (lo <= hi <= 1000)%Z -> bpow radix2 lo <= X * Y <= bpow radix2 hi ->
  is_finite (fmul x y) = true /\ rel (a + b + 1 + 1 / 25) (R64 (fmul x y)) (X * Y).
Proof.
  intros Fx Fy A B Rx Ry Hl Hh H. pose proof (bpow_gt_0 radix2 lo) as P. pose proof (bpow_gt_0 radix2 hi) as P'.
  pose proof (rel_mul a b (R64 x) (R64 y) X Y ltac:(lra) ltac:(lra) Rx Ry) as M.
  pose proof (rel_size (a + b + 1 / 100) (R64 x * R64 y) (X * Y) ltac:(lra) ltac:(lra) M) as S1.
  destruct (fmul_fin x y (hi + 1) Fx Fy) as (E & F); [lia| |].
  { rewrite Rabs_pos_eq by lra. rewrite bpow_plus. change (bpow radix2 1) with 2. lra. }
  split; [exact F|]. rewrite E. apply rel_weak with (a + b + 1 / 100 + 1 + 1 / 100); [lra|]. apply rel_rnd; [lra|exact M|].
  left. rewrite Rabs_pos_eq by lra. apply Rle_trans with (bpow radix2 (lo + -1)); [apply bpow_le; lia|].
  rewrite bpow_plus. change (bpow radix2 (-1)) with (/ 2). lra.
Qed.
Lemma div_step (x y : f64) X Y a b lo hi : is_finite x = true -> 0 < Y ->
  0 <= a <= 10 -> 0 <= b <= 10 -> rel a (R64 x) X -> rel b (R64 y) Y ->
  (-1000 <= lo)%Z -> (lo <= hi <= 1000)%Z -> bpow radix2 lo <= X / Y <= bpow radix2 hi ->
  is_finite (fdiv x y) = true /\ rel (a + b + 1 + 1 / 25) (R64 (fdiv x y)) (X / Y).
Proof.
  intros Fx PY A B Rx Ry Hl Hh H. pose proof (bpow_gt_0 radix2 lo) as P. pose proof (bpow_gt_0 radix2 hi) as P'.
  pose proof (rel_div a b (R64 x) (R64 y) X Y ltac:(lra) ltac:(lra) ltac:(lra) Rx Ry) as M.
  pose proof (rel_size (a + b + 1 / 50) (R64 x / R64 y) (X / Y) ltac:(lra) ltac:(lra) M) as S1.
  pose proof (rel_size b (R64 y) Y ltac:(lra) ltac:(lra) Ry) as S2.
  destruct (fdiv_fin x y (hi + 1) Fx) as (E & F); [lra|lia| |].
  { rewrite Rabs_pos_eq by lra. rewrite bpow_plus. change (bpow radix2 1) with 2. lra. }
  split; [exact F|]. rewrite E. apply rel_weak with (a + b + 1 / 50 + 1 + 1 / 100); [lra|]. apply rel_rnd; [lra|exact M|].
  left. rewrite Rabs_pos_eq by lra. apply Rle_trans with (bpow radix2 (lo + -1)); [apply bpow_le; lia|].
  rewrite bpow_plus. change (bpow radix2 (-1)) with (/ 2). lra.
Qed.
(** Products and quotients of numbers between powers of two. *)
Lemma mul_range x y a b c d : bpow radix2 a <= x <= bpow radix2 b -> bpow radix2 c <= y <= bpow radix2 d ->
  bpow radix2 (a + c) <= x * y <= bpow radix2 (b + d).
Proof.
  intros H H'. pose proof (bpow_gt_0 radix2 a). pose proof (bpow_gt_0 radix2 c). rewrite !bpow_plus. split; apply Rmult_le_compat; lra.
Qed.
Lemma div_range x y a b c d : bpow radix2 a <= x <= bpow radix2 b -> bpow radix2 c <= y <= bpow radix2 d ->
  bpow radix2 (a - d) <= x / y <= bpow radix2 (b - c).
Proof.
  intros H H'. pose proof (bpow_gt_0 radix2 a). pose proof (bpow_gt_0 radix2 c). pose proof (bpow_gt_0 radix2 d). unfold Z.sub, Rdiv. apply mul_range; [exact H|].
  rewrite !bpow_opp. split; apply Rinv_le; lra.
Qed.
Lemma int_range n : (1 <= n <= 2 ^ 53)%Z -> bpow radix2 0 <= IZR n <= bpow radix2 53.
Proof. intros H. split; [change (bpow radix2 0) with 1|rewrite <- IZR_pow2 by lia]; apply IZR_le; lia. Qed.

(** The parameters: the charge of the electron between 2^-100 and 2^-62 C (1.6e-19 C is close to
    2^-62.4), 1e-15 between 2^-50 and 1, gain and shaping time positive integers, the clock and the
    factor 0.001 positive, and a shaping time of at least 2^-19 time buckets. *)
Definition params_ok (e femto milli clock : f64) (gain shaping : Z) : Prop :=
  (is_finite e = true /\ bpow radix2 (-100) <= R64 e <= bpow radix2 (-62)) /\
  (is_finite femto = true /\ bpow radix2 (-50) <= R64 femto <= 1) /\
  (is_finite milli = true /\ bpow radix2 (-40) <= R64 milli <= bpow radix2 40) /\
  (is_finite clock = true /\ bpow radix2 (-40) <= R64 clock <= bpow radix2 40) /\
  (1 <= gain <= 2 ^ 53)%Z /\ (1 <= shaping <= 2 ^ 53)%Z /\
  bpow radix2 (-19) <= IZR shaping * R64 clock * R64 milli.

Definition c1_of (e femto : f64) (gain : Z) : R := 4095 * R64 e / IZR gain / R64 femto.
Definition width_of (milli clock : f64) (shaping : Z) : R := IZR shaping * R64 clock * R64 milli.
(** Sample i of the documented formula. *)
Definition exact_sample (e femto milli clock : f64) (gain shaping : Z) (i : nat) : R :=
  formula (c1_of e femto gain) (time i / width_of milli clock shaping).

Section Parameters.
  Context (fexp : f64 -> f64) (e femto milli clock : f64) (gain shaping : Z).
  Hypothesis (OK : params_ok e femto milli clock gain shaping).

  Lemma c1_range : bpow radix2 (-150) <= c1_of e femto gain <= 4095 / 4096.
  Proof using OK.
    destruct OK as ((Fe & He) & (Ff & Hf) & _ & _ & Hg & _). pose proof (int_range gain Hg) as Gr. unfold c1_of.
    split.
    - assert (bpow radix2 (11 + -100) <= 4095 * R64 e <= bpow radix2 (12 + -62)).
      { apply mul_range; [|exact He]. change (bpow radix2 11) with 2048. change (bpow radix2 12) with 4096. lra. }
      assert (D := div_range _ _ _ _ _ _ H Gr).
      assert (D' := div_range _ _ _ _ (-50) 0 D Hf). destruct D' as [D' _]. eapply Rle_trans; [|exact D']. apply bpow_le. lia.
    - assert (He2 : R64 e / IZR gain <= bpow radix2 (-62)).
      { pose proof (bpow_gt_0 radix2 (-62)). pose proof (bpow_gt_0 radix2 (-100)). change (bpow radix2 0) with 1 in Gr. apply div_le; [lra|].
        apply Rle_trans with (bpow radix2 (-62) * 1); [lra|apply Rmult_le_compat_l; lra]. }
      pose proof (bpow_gt_0 radix2 (-50)). apply div_le; [lra|]. replace (4095 * R64 e / IZR gain) with (4095 * (R64 e / IZR gain)) by (unfold Rdiv; ring).
      apply Rle_trans with (4095 * bpow radix2 (-62)); [apply Rmult_le_compat_l; lra|].
      apply Rle_trans with (4095 / 4096 * bpow radix2 (-50)); [|apply Rmult_le_compat_l; lra].
      change (-62)%Z with (-50 + -12)%Z. rewrite bpow_plus. change (bpow radix2 (-12)) with (/ 4096). lra.
  Qed.
  Lemma scale_close : exists c1 : f64, scale (N := F64 fexp) e femto gain = Ok c1 /\ is_finite c1 = true /\ rel 4 (R64 c1) (c1_of e femto gain).
  Proof using OK.
    pose proof c1_range as CR. destruct OK as ((Fe & He) & (Ff & Hf) & _ & _ & Hg & _). pose proof (int_range gain Hg) as Gr.
    pose proof (bpow_gt_0 radix2 (-50)) as P50. pose proof (bpow_gt_0 radix2 (-150)) as P150.
    assert (G0 : is_finite (f_of_Z gain) = true) by (apply f_of_Z_fin; lia).
    assert (G1 : R64 (f_of_Z gain) = IZR gain) by (apply f_of_Z_R; lia).
    assert (Z0 : R64 (f_of_Z 0) = 0) by (apply f_of_Z_R; lia).
    assert (Zf : is_finite (f_of_Z 0) = true) by (apply f_of_Z_fin; lia).
    assert (H : bpow radix2 (11 + -100) <= 4095 * R64 e <= bpow radix2 (12 + -62)).
    { apply mul_range; [|exact He]. change (bpow radix2 11) with 2048. change (bpow radix2 12) with 4096. lra. }
    assert (F45 : is_finite (f_of_Z 4095) = true) by (apply f_of_Z_fin; lia).
    assert (R45 : rel 0 (R64 (f_of_Z 4095)) 4095) by (rewrite f_of_Z_R by lia; apply rel_refl).
    destruct (mul_step (f_of_Z 4095) e 4095 (R64 e) 0 0 (11 + -100) (12 + -62)) as (F1 & R1); try lra; try lia; auto; try apply rel_refl.
    assert (D := div_range _ _ _ _ _ _ H Gr).
    assert (Rg : rel 0 (R64 (f_of_Z gain)) (IZR gain)) by (rewrite G1; apply rel_refl).
    destruct (div_step (fmul (f_of_Z 4095) e) (f_of_Z gain) (4095 * R64 e) (IZR gain) (0 + 0 + 1 + 1 / 25) 0 (11 + -100 - 53) (12 + -62 - 0) F1) as (F2 & R2); try lra; try lia; auto.
    { change (bpow radix2 0) with 1 in Gr. lra. }
    assert (D' := div_range _ _ _ _ (-50) 0 D Hf).
    destruct (div_step (fdiv (fmul (f_of_Z 4095) e) (f_of_Z gain)) femto (4095 * R64 e / IZR gain) (R64 femto) (0 + 0 + 1 + 1 / 25 + 0 + 1 + 1 / 25) 0 (11 + -100 - 53 - 0) (12 + -62 - 0 - -50) F2) as (F3 & R3); try lra; try lia; auto; try apply rel_refl.
    exists (fdiv (fdiv (fmul (f_of_Z 4095) e) (f_of_Z gain)) femto). split; [|split; [exact F3|]].
    - unfold scale, pydiv. cbn [neqb nofZ nmul ndiv F64]. change (bpow radix2 0) with 1 in Gr.
      rewrite feqb_R by auto. rewrite G1, Z0, Req_bool_false by lra. cbn [bind].
      rewrite feqb_R by auto. rewrite Z0, Req_bool_false by lra. reflexivity.
    - eapply rel_weak; [|exact R3]. lra.
  Qed.
  Lemma width_close : let w := fmul (fmul (f_of_Z shaping) clock) milli in
    is_finite w = true /\ rel 3 (R64 w) (width_of milli clock shaping) /\ bpow radix2 (-19) <= width_of milli clock shaping <= bpow radix2 140.
  Proof using OK.
    intros w. destruct OK as (_ & _ & (Fm & Hm) & (Fk & Hk) & _ & Hs & Hw). pose proof (int_range shaping Hs) as Sr.
    assert (D := mul_range _ _ _ _ _ _ Sr Hk). assert (D' := mul_range _ _ _ _ _ _ D Hm).
    assert (F45 : is_finite (f_of_Z shaping) = true) by (apply f_of_Z_fin; lia).
    assert (R45 : rel 0 (R64 (f_of_Z shaping)) (IZR shaping)) by (rewrite f_of_Z_R by lia; apply rel_refl).
    destruct (mul_step (f_of_Z shaping) clock (IZR shaping) (R64 clock) 0 0 (0 + -40) (53 + 40)) as (F1 & R1); try lra; try lia; auto; try apply rel_refl.
    destruct (mul_step (fmul (f_of_Z shaping) clock) milli (IZR shaping * R64 clock) (R64 milli) (0 + 0 + 1 + 1 / 25) 0 (0 + -40 + -40) (53 + 40 + 40)) as (F2 & R2); try lra; try lia; auto; try apply rel_refl.
    split; [exact F2|]. split; [eapply rel_weak; [|exact R2]; lra|]. unfold width_of. split; [exact Hw|].
    eapply Rle_trans; [apply D'|]. apply bpow_le. lia.
  Qed.
End Parameters.

Definition f_time (i : nat) : f64 :=
  if (Z.of_nat i =? 511)%Z then f_of_Z 512 else fadd (fmul (f_of_Z (Z.of_nat i)) (fdiv (f_of_Z 512) (f_of_Z 511))) (f_of_Z 0).
Lemma time_close i : (i < 512)%nat -> is_finite (f_time i) = true /\ rel 3 (R64 (f_time i)) (time i) /\ (time i = 0 \/ 1 <= time i <= 512).
Proof.
  intros Hi. assert (Z0 : R64 (f_of_Z 0) = 0) by (apply f_of_Z_R; lia).
  assert (Zf : is_finite (f_of_Z 0) = true) by (apply f_of_Z_fin; lia).
  assert (Ti : time i = IZR (Z.of_nat i) * (512 / 511)) by (unfold time; now rewrite INR_IZR_INZ).
  assert (TR : time i = 0 \/ 1 <= time i <= 512).
  { rewrite Ti. destruct i as [|i]; [left; simpl; lra|right]. assert (1 <= IZR (Z.of_nat (S i)) <= 511) by (split; apply IZR_le; lia). lra. }
  split; [|split; [|exact TR]]; unfold f_time; destruct (Z.eqb_spec (Z.of_nat i) 511) as [E|E].
  - apply f_of_Z_fin; lia.
  - destruct (div_step (f_of_Z 512) (f_of_Z 511) 512 511 0 0 0 1) as (F1 & R1); try lra; try lia; try (apply f_of_Z_fin; lia); try (rewrite f_of_Z_R by lia; apply rel_refl).
    { change (bpow radix2 0) with 1. change (bpow radix2 1) with 2. lra. }
    pose proof (rel_size (0 + 0 + 1 + 1 / 25) (R64 (fdiv (f_of_Z 512) (f_of_Z 511))) (512 / 511) ltac:(lra) ltac:(lra) R1) as S1.
    destruct (fmul_fin (f_of_Z (Z.of_nat i)) (fdiv (f_of_Z 512) (f_of_Z 511)) 10) as (E2 & F2); auto; try lia; try (apply f_of_Z_fin; lia).
    { rewrite f_of_Z_R by lia. assert (0 <= IZR (Z.of_nat i) <= 511) by (split; apply IZR_le; lia). rewrite Rabs_pos_eq by (apply Rmult_le_pos; lra).
      change (bpow radix2 10) with (IZR 1024). apply Rle_trans with (511 * R64 (fdiv (f_of_Z 512) (f_of_Z 511))); [apply Rmult_le_compat_r; lra|lra]. }
    destruct (fadd_fin (fmul (f_of_Z (Z.of_nat i)) (fdiv (f_of_Z 512) (f_of_Z 511))) (f_of_Z 0) 10) as (_ & F3); auto; try lia.
    rewrite Z0, Rplus_0_r, E2. assert (0 <= IZR (Z.of_nat i) <= 511) by (split; apply IZR_le; lia).
    rewrite f_of_Z_R by lia. apply Rabs_le. assert (0 <= IZR (Z.of_nat i) * R64 (fdiv (f_of_Z 512) (f_of_Z 511)) <= 1024).
    { split; [apply Rmult_le_pos; lra|]. apply Rle_trans with (511 * R64 (fdiv (f_of_Z 512) (f_of_Z 511))); [apply Rmult_le_compat_r; lra|lra]. }
    change (bpow radix2 10) with 1024. split; [apply Rle_trans with 0; [lra|apply rnd64_ge_fmt; [apply generic_format_0|lra]]|apply (rnd64_le_IZR _ 1024); [lia|lra]].
  - rewrite Ti, E, f_of_Z_R by lia. replace (511 * (512 / 511)) with 512 by lra. apply rel_weak with 0; [lra|apply rel_refl].
  - destruct (div_step (f_of_Z 512) (f_of_Z 511) 512 511 0 0 0 1) as (F1 & R1); try lra; try lia; try (apply f_of_Z_fin; lia); try (rewrite f_of_Z_R by lia; apply rel_refl).
    { change (bpow radix2 0) with 1. change (bpow radix2 1) with 2. lra. }
    pose proof (rel_size (0 + 0 + 1 + 1 / 25) (R64 (fdiv (f_of_Z 512) (f_of_Z 511))) (512 / 511) ltac:(lra) ltac:(lra) R1) as S1.
    assert (I : 0 <= IZR (Z.of_nat i) <= 511) by (split; apply IZR_le; lia).
    destruct (fmul_fin (f_of_Z (Z.of_nat i)) (fdiv (f_of_Z 512) (f_of_Z 511)) 10) as (E2 & F2); auto; try lia; try (apply f_of_Z_fin; lia).
    { rewrite f_of_Z_R by lia. rewrite Rabs_pos_eq by (apply Rmult_le_pos; lra).
      change (bpow radix2 10) with (IZR 1024). apply Rle_trans with (511 * R64 (fdiv (f_of_Z 512) (f_of_Z 511))); [apply Rmult_le_compat_r; lra|lra]. }
    destruct (fadd_fin (fmul (f_of_Z (Z.of_nat i)) (fdiv (f_of_Z 512) (f_of_Z 511))) (f_of_Z 0) 11) as (E3 & F3); auto; try lia.
    { rewrite Z0, Rplus_0_r, E2. rewrite f_of_Z_R by lia. apply Rabs_le. assert (0 <= IZR (Z.of_nat i) * R64 (fdiv (f_of_Z 512) (f_of_Z 511)) <= 1024).
      { split; [apply Rmult_le_pos; lra|]. apply Rle_trans with (511 * R64 (fdiv (f_of_Z 512) (f_of_Z 511))); [apply Rmult_le_compat_r; lra|lra]. }
      change (bpow radix2 11) with 2048. split; [apply Rle_trans with 0; [lra|apply rnd64_ge_fmt; [apply generic_format_0|lra]]|apply (rnd64_le_IZR _ 2048); [lia|lra]]. }
    rewrite E3, Z0, Rplus_0_r, round_generic by (try apply _; apply fmt64_R).
    destruct i as [|i].
    + rewrite E2, f_of_Z_R by lia. rewrite Ti. simpl (IZR (Z.of_nat 0)). rewrite !Rmult_0_l, rnd64_0. apply rel_weak with 0; [lra|apply rel_refl].
    + assert (I1 : 1 <= IZR (Z.of_nat (S i))) by (apply IZR_le; lia).
      destruct (mul_step (f_of_Z (Z.of_nat (S i))) (fdiv (f_of_Z 512) (f_of_Z 511)) (IZR (Z.of_nat (S i))) (512 / 511) 0 (0 + 0 + 1 + 1 / 25) 0 10) as (_ & R4); try lra; try lia; auto; try (apply f_of_Z_fin; lia).
      * rewrite f_of_Z_R by lia. apply rel_refl.
      * change (bpow radix2 0) with 1. change (bpow radix2 10) with 1024. lra.
      * rewrite Ti. eapply rel_weak; [|exact R4]. lra.
Qed.

Lemma u32 : 32 * u = / 2 ^ 48. Proof. symmetry. apply thirtytwo_u. Qed.

(** C82: sample i of the computed response is within c1 / 2^48 of the documented formula. *)
Theorem C82_samples :
  forall fexp fsin fcube (e femto milli clock : f64) gain shaping,
  libm_accurate fexp fsin fcube -> params_ok e femto milli clock gain shaping ->
  exists l, get_response (N := F64 fexp) fsin fcube e femto milli gain shaping clock = Ok l /\
    length l = 512%nat /\ response_ok l /\
    forall i, (i < 512)%nat ->
      Rabs (R64 (nth i l (f_of_Z 0)) - exact_sample e femto milli clock gain shaping i) <= c1_of e femto gain / 2 ^ 48.
Proof.
  intros fexp fsin fcube e femto milli clock gain shaping LA OK.
  destruct (scale_close fexp e femto milli clock gain shaping OK) as (c1 & E1 & F1 & R1).
  destruct (width_close e femto milli clock gain shaping OK) as (Fw & Rw & HW). cbv zeta in *.
  pose proof (c1_range e femto milli clock gain shaping OK) as HC.
  set (w := fmul (fmul (f_of_Z shaping) clock) milli) in *.
  assert (SC : forall i, (i < 512)%nat -> 
     is_finite (sample (N := F64 fexp) fsin fcube c1 w (f_time i) : f64) = true /\
     Rabs (R64 (sample (N := F64 fexp) fsin fcube c1 w (f_time i) : f64) - exact_sample e femto milli clock gain shaping i) <= 32 * u * c1_of e femto gain).
  { intros i Hi. destruct (time_close i Hi) as (Ft & Rt & HT). unfold exact_sample.
    apply (sample_close fexp fsin fcube LA c1 w (f_time i) _ _ _ F1 Fw Ft R1 Rw Rt HC HW HT). }
  exists (map (fun i => sample (N := F64 fexp) fsin fcube c1 w (f_time i)) (seq 0 512)).
  assert (LEN : length (map (fun i => sample (N := F64 fexp) fsin fcube c1 w (f_time i)) (seq 0 512)) = 512%nat) by (now rewrite map_length, seq_length).
  split; [|split; [exact LEN|split]].
  - unfold get_response.
    match goal with |- bind ?m _ = _ => replace m with (Ok (A := F64 fexp) c1) by (symmetry; exact E1) end.
    cbn [bind]. unfold time_points. rewrite map_map. reflexivity.
  - assert (Wr : bpow radix2 (-20) <= R64 w).
    { pose proof (rel_size 3 (R64 w) (width_of milli clock shaping) ltac:(lra) ltac:(pose proof (bpow_gt_0 radix2 (-19)); lra) Rw) as S1. 
      change (bpow radix2 (-20)) with (/ 1048576). change (bpow radix2 (-19)) with (/ 524288) in HW. lra. }
    destruct LA as (LO & _). destruct OK as ((Fe & He) & (Ff & Hf) & _ & _ & Hg & _).
    destruct (C30_response_binary64 fexp fsin fcube e femto milli clock gain shaping LO Fe) as (l & El & _ & RO); try assumption.
    { pose proof (bpow_gt_0 radix2 (-100)). lra. }
    { apply Hf. }
    assert (El' : get_response (N := F64 fexp) fsin fcube e femto milli gain shaping clock = Ok (map (fun i => sample (N := F64 fexp) fsin fcube c1 w (f_time i)) (seq 0 512))).
    { unfold get_response. match goal with |- bind ?m _ = _ => replace m with (Ok (A := F64 fexp) c1) by (symmetry; exact E1) end.
      cbn [bind]. unfold time_points. rewrite map_map. reflexivity. }
    assert (X : Ok l = Ok (map (fun i => sample (N := F64 fexp) fsin fcube c1 w (f_time i)) (seq 0 512))) by (exact (eq_trans (eq_sym El) El')).
    apply (f_equal (fun r => match r with Ok v => v | _ => [] end)) in X. cbn beta iota in X. rewrite <- X. exact RO.
  - intros i Hi. rewrite (nth_indep _ (f_of_Z 0) (sample (N := F64 fexp) fsin fcube c1 w (f_time 0))) by (exact (eq_ind_r (lt i) Hi LEN)).
    assert (Ni : nth i (map (fun i => sample (N := F64 fexp) fsin fcube c1 w (f_time i)) (seq 0 512)) (sample (N := F64 fexp) fsin fcube c1 w (f_time 0))
                 = sample (N := F64 fexp) fsin fcube c1 w (f_time i)) by (rewrite (map_nth (fun i => sample (N := F64 fexp) fsin fcube c1 w (f_time i))), seq_nth by exact Hi; reflexivity).
    apply (f_equal (fun x : f64 => R64 x)) in Ni. cbv beta in Ni.
    match goal with |- Rabs (?x - _) <= _ => replace x with (R64 (sample (N := F64 fexp) fsin fcube c1 w (f_time i) : f64)) by (symmetry; exact Ni) end.
    destruct (SC i Hi) as (_ & D). unfold Rdiv. rewrite <- u32. rewrite Rmult_comm. exact D.
Qed.

(** ** Amplitude and integral *)
Definition total (l : list R) : R := fold_right Rplus 0 l.
Lemma total_pos l : (forall y, In y l -> 0 <= y) -> 0 <= total l.
Proof.
  induction l as [|y l IH]; intros P; [unfold total; simpl; lra|]. change (total (y :: l)) with (y + total l).
  assert (0 <= y) by (apply P; now left). assert (0 <= total l) by (apply IH; intros; apply P; now right). lra.
Qed.
Lemma rsum_close l : forall s B D, 0 <= s -> 0 <= D -> u * B + eta <= D -> (forall x, In x l -> 0 <= x) ->
  s + total l + INR (length l) * D <= B ->
  Rabs (rsum l s - (s + total l)) <= INR (length l) * D.
Proof.
  induction l as [|x l IH]; intros s B D Hs HD HB P H.
  - unfold rsum, total. simpl. rewrite Rplus_0_r. unfold Rminus. rewrite Rplus_opp_r, Rabs_R0, Rmult_0_l. lra.
  - cbn [length] in *. rewrite S_INR in *. change (total (x :: l)) with (x + total l) in *. change (rsum (x :: l) s) with (rsum l (rnd64 (s + x))).
    assert (Px : 0 <= x) by (apply P; now left). assert (Pl : forall y, In y l -> 0 <= y) by (intros; apply P; now right).
    pose proof (total_pos l Pl) as Tl. pose proof (pos_INR (length l)) as Pn. set (n := INR (length l)) in *.
    assert (0 <= n * D) by (apply Rmult_le_pos; lra).
    assert (E : Rabs (rnd64 (s + x) - (s + x)) <= D).
    { eapply Rle_trans; [apply (rnd_bound _ B)|exact HB]. rewrite Rabs_pos_eq by lra. lra. }
    assert (S0 : 0 <= rnd64 (s + x)) by (apply rnd64_ge_fmt; [apply generic_format_0|lra]).
    pose proof E as E'. apply Rabs_le_inv in E'.
    pose proof (IH (rnd64 (s + x)) B D S0 HD HB Pl ltac:(lra)) as I.
    replace (rsum l (rnd64 (s + x)) - (s + (x + total l))) with ((rsum l (rnd64 (s + x)) - (rnd64 (s + x) + total l)) + (rnd64 (s + x) - (s + x))) by ring.
    eapply Rle_trans; [apply Rabs_triang|]. lra.
Qed.
Lemma total_close f g d : forall k n, (forall i, (k <= i < k + n)%nat -> Rabs (f i - g i) <= d) ->
  Rabs (total (map f (seq k n)) - total (map g (seq k n))) <= INR n * d.
Proof.
  intros k n. revert k. induction n as [|n IH]; intros k H.
  - unfold total. simpl. unfold Rminus. rewrite Rplus_opp_r, Rabs_R0. lra.
  - cbn [seq map]. change (total (f k :: ?l)) with (f k + total l). change (total (g k :: ?l)) with (g k + total l). rewrite S_INR.
    assert (A : Rabs (f k - g k) <= d) by (apply H; lia).
    assert (B : Rabs (total (map f (seq (S k) n)) - total (map g (seq (S k) n))) <= INR n * d) by (apply IH; intros i Hi; apply H; lia).
    replace (f k + total (map f (seq (S k) n)) - (g k + total (map g (seq (S k) n)))) with ((f k - g k) + (total (map f (seq (S k) n)) - total (map g (seq (S k) n)))) by ring.
    eapply Rle_trans; [apply Rabs_triang|]. lra.
Qed.
Lemma total_le f d : forall k n, (forall i, (k <= i < k + n)%nat -> f i <= d) -> total (map f (seq k n)) <= INR n * d.
Proof.
  intros k n. revert k. induction n as [|n IH]; intros k H; [unfold total; simpl; lra|].
  cbn [seq map]. change (total (f k :: ?l)) with (f k + total l). rewrite S_INR.
  assert (f k <= d) by (apply H; lia). assert (total (map f (seq (S k) n)) <= INR n * d) by (apply IH; intros i Hi; apply H; lia). lra.
Qed.
Lemma map_as_seq {A B} (f : A -> B) d l : map f l = map (fun i => f (nth i l d)) (seq 0 (length l)).
Proof.
  induction l as [|x l IH]; [reflexivity|]. cbn [length seq map nth]. f_equal. rewrite IH at 1. rewrite <- seq_shift, map_map. reflexivity.
Qed.

Section Charge.
  Context (l : list f64) (c1 : R) (g : nat -> R) (n : f64).
  Hypothesis (LEN : length l = 512%nat) (RO : response_ok l) (C : bpow radix2 (-150) <= c1).
  Hypothesis (G : forall i, (i < 512)%nat -> 0 <= g i <= c1 * (1 / 8)).
  Hypothesis (CL : forall i, (i < 512)%nat -> Rabs (R64 (nth i l (f_of_Z 0)) - g i) <= 32 * u * c1).
  Hypothesis (Fn : is_finite n = true) (Hn : R64 n = 0 \/ 1 <= R64 n).

  Let sig i := cut (R64 (nth i l (f_of_Z 0))) (R64 n).
  Let ideal i := Rmin 4095 (R64 n * g i).
  Let K := R64 n * c1.

  Lemma sig_close i : (i < 512)%nat -> Rabs (sig i - ideal i) <= 33 * (u * K) /\ 0 <= ideal i <= K * (1 / 8) /\ 0 <= sig i.
  Proof using All.
    intros Hi. pose proof u_pos as Pu. pose proof u_small as Su. pose proof eta_pos as Pe. pose proof (bpow_gt_0 radix2 (-150)) as P150.
    specialize (G i Hi). specialize (CL i Hi). set (r := R64 (nth i l (f_of_Z 0))) in *.
    destruct Hn as [N0|Hn1].
    { unfold sig, ideal, cut, K. fold r. rewrite N0, Rmult_0_r, !Rmult_0_l, rnd64_0, Rmult_0_r, Rmult_0_r, Rmin_right by lra.
      unfold Rminus. rewrite Rplus_opp_r, Rabs_R0. lra. }
    assert (PK : c1 <= K) by (unfold K; rewrite <- (Rmult_1_l c1) at 1; apply Rmult_le_compat_r; lra).
    assert (Gn : 0 <= R64 n * g i <= K * (1 / 8)).
    { split; [apply Rmult_le_pos; lra|]. unfold K. rewrite Rmult_assoc. apply Rmult_le_compat_l; lra. }
    assert (Dn : Rabs (r * R64 n - R64 n * g i) <= 32 * (u * K)).
    { replace (r * R64 n - R64 n * g i) with (R64 n * (r - g i)) by ring. rewrite Rabs_mult, (Rabs_pos_eq (R64 n)) by lra.
      replace (32 * (u * K)) with (R64 n * (32 * u * c1)) by (unfold K; ring). apply Rmult_le_compat_l; lra. }
    assert (Hr : 0 <= r).
    { destruct RO as (_ & _ & F). unfold r. rewrite Forall_forall in F. apply (F (nth i l (f_of_Z 0))). apply nth_In. rewrite LEN. exact Hi. }
    assert (UK : u * K <= / 1000000000000000 * K) by (apply Rmult_le_compat_r; lra).
    assert (Up : 0 <= u * K) by (apply Rmult_le_pos; lra).
    assert (Rn : Rabs (rnd64 (r * R64 n) - r * R64 n) <= u * (K * (1 / 4)) + eta).
    { apply rnd_bound. pose proof (Rabs_pos_eq (r * R64 n) ltac:(apply Rmult_le_pos; lra)) as ->. apply Rabs_le_inv in Dn. lra. }
    pose proof (tiny_c c1 C) as Ty.
    assert (A4 : eta <= 2 ^ 123 * eta) by (rewrite <- (Rmult_1_l eta) at 1; apply Rmult_le_compat_r; [lra|apply pow_R1_Rle; lra]).
    assert (Ty' : u * c1 <= u * K) by (apply Rmult_le_compat_l; lra).
    split; [|split].
    - unfold sig, ideal, cut. fold r. eapply Rle_trans; [apply rmin_lipschitz|].
      replace (rnd64 (r * R64 n) - R64 n * g i) with ((rnd64 (r * R64 n) - r * R64 n) + (r * R64 n - R64 n * g i)) by ring.
      eapply Rle_trans; [apply Rabs_triang|]. lra.
    - unfold ideal. split; [apply Rmin_glb; lra|]. eapply Rle_trans; [apply Rmin_r|lra].
    - unfold sig. apply cut_range; [exact Hr|lra].
  Qed.

  Lemma charge_close : exists amp int, apply_response l n = Ok (amp, int) /\
    is_finite amp = true /\ is_finite int = true /\
    (forall P, (forall i, (i < 512)%nat -> g i <= P) -> (exists i, (i < 512)%nat /\ g i = P) ->
       Rabs (R64 amp - Rmin 4095 (R64 n * P)) <= 33 * (u * K)) /\
    Rabs (R64 int - total (map ideal (seq 0 512))) <= 2 ^ 16 * (u * K).
  Proof using All.
    pose proof u_pos as Pu. pose proof u_smaller as Su. pose proof eta_pos as Pe. pose proof (bpow_gt_0 radix2 (-150)) as P150.
    assert (Kp : 0 <= K) by (unfold K; apply Rmult_le_pos; lra).
    pose proof RO as (NE & _ & Fl).
    assert (Ln : (Z.of_nat (length l) * 4095 <= 2 ^ 53)%Z) by (rewrite LEN; lia).
    destruct (apply_R l n NE Fl ltac:(split; [exact Fn|lra]) Ln) as (amp & int & E & Fa & Fi & (h & t & El & Ra) & Ri & _).
    assert (M : map (fun r => cut (R64 r) (R64 n)) l = map sig (seq 0 512)).
    { rewrite (map_as_seq _ (f_of_Z 0) l), LEN. reflexivity. }
    exists amp, int. split; [exact E|]. split; [exact Fa|]. split; [exact Fi|]. split.
    - intros P HP (j & Hj & EP).
      assert (In1 : exists i, (i < 512)%nat /\ R64 amp = sig i).
      { assert (Hin : In (R64 amp) (h :: t)) by (rewrite Ra; destruct (rmax_in t h) as [->|X]; [now left|now right]).
        rewrite <- El, M in Hin. apply in_map_iff in Hin. destruct Hin as (i & X & Y). apply in_seq in Y. exists i. split; [lia|auto]. }
      assert (All1 : forall i, (i < 512)%nat -> sig i <= R64 amp).
      { intros i Hi. assert (Hin : In (sig i) (h :: t)) by (rewrite <- El, M; apply in_map, in_seq; lia).
        rewrite Ra. destruct (rmax_ge t h) as [A B]. destruct Hin as [<-|Hin]; auto. }
      destruct In1 as (i & Hi & Ei). specialize (All1 j Hj).
      destruct (sig_close i Hi) as (Di & _). destruct (sig_close j Hj) as (Dj & _). apply Rabs_le_inv in Di. apply Rabs_le_inv in Dj.
      assert (Ij : ideal j = Rmin 4095 (R64 n * P)) by (unfold ideal; now rewrite EP).
      assert (Ii : ideal i <= Rmin 4095 (R64 n * P)).
      { unfold ideal. apply Rmin_glb; [apply Rmin_l|]. eapply Rle_trans; [apply Rmin_r|]. apply Rmult_le_compat_l; [lra|auto]. }
      apply Rabs_le. rewrite Ei in *. lra.
    - rewrite Ri, M. destruct Hn as [N0|Hn1].
      { assert (Zs : forall i, sig i = 0) by (intros i; unfold sig, cut; rewrite N0, Rmult_0_r, rnd64_0; apply Rmin_right; lra).
        assert (Zi : forall i, ideal i = 0) by (intros i; unfold ideal; rewrite N0, Rmult_0_l; apply Rmin_right; lra).
        assert (Z1 : forall L, rsum (map sig L) 0 = 0).
        { unfold rsum. induction L as [|a L IH]; [reflexivity|]. cbn [map fold_left]. rewrite Zs, Rplus_0_r, rnd64_0. exact IH. }
        assert (Z2 : forall L, total (map ideal L) = 0).
        { unfold total. induction L as [|a L IH]; [reflexivity|]. cbn [map fold_right]. rewrite Zi, IH. lra. }
        rewrite Z1, Z2. unfold Rminus. rewrite Rplus_opp_r, Rabs_R0. apply Rmult_le_pos; [lra|apply Rmult_le_pos; lra]. }
      assert (PK : c1 <= K) by (unfold K; rewrite <- (Rmult_1_l c1) at 1; apply Rmult_le_compat_r; lra).
      assert (Up : 0 <= u * K) by (apply Rmult_le_pos; lra).
      assert (UK : u * K <= / 9000000000000000 * K) by (apply Rmult_le_compat_r; lra).
      assert (N512 : INR 512 = 512) by (rewrite INR_IZR_INZ; reflexivity).
      assert (T1 : Rabs (total (map sig (seq 0 512)) - total (map ideal (seq 0 512))) <= INR 512 * (33 * (u * K))).
      { apply total_close. intros i Hi. apply sig_close. lia. }
      assert (T2 : total (map sig (seq 0 512)) <= INR 512 * (K * (126 / 1000))).
      { apply total_le. intros i Hi. destruct (sig_close i) as (D & I & _); [lia|]. apply Rabs_le_inv in D. lra. }
      rewrite N512 in T1, T2. pose proof (tiny_c c1 C) as Ty.
      assert (A4 : eta <= 2 ^ 123 * eta) by (rewrite <- (Rmult_1_l eta) at 1; apply Rmult_le_compat_r; [lra|apply pow_R1_Rle; lra]).
      assert (Ty' : u * c1 <= u * K) by (apply Rmult_le_compat_l; lra).
      assert (T3 : Rabs (rsum (map sig (seq 0 512)) 0 - (0 + total (map sig (seq 0 512)))) <= INR (length (map sig (seq 0 512))) * (66 * (u * K))).
      { apply rsum_close with (B := 65 * K); try lra.
        - intros x Hx. apply in_map_iff in Hx. destruct Hx as (i & <- & Hi). apply in_seq in Hi. apply sig_close. lia.
        - rewrite map_length, seq_length, N512. lra. }
      rewrite map_length, seq_length, N512 in T3.
      replace (rsum (map sig (seq 0 512)) 0 - total (map ideal (seq 0 512)))
        with ((rsum (map sig (seq 0 512)) 0 - (0 + total (map sig (seq 0 512)))) + (total (map sig (seq 0 512)) - total (map ideal (seq 0 512)))) by ring.
      eapply Rle_trans; [apply Rabs_triang|]. lra.
  Qed.
End Charge.

(** C82: amplitude and integral of [n] electrons are those of the documented formula, up to
    n c1 / 2^47 and n c1 / 2^37 counts.  [peak] is the largest of the 512 samples of the formula. *)
Theorem C82_charge :
  forall fexp fsin fcube (e femto milli clock : f64) gain shaping l n peak,
  libm_accurate fexp fsin fcube -> params_ok e femto milli clock gain shaping ->
  get_response (N := F64 fexp) fsin fcube e femto milli gain shaping clock = Ok l ->
  is_finite n = true -> R64 n = 0 \/ 1 <= R64 n ->
  (forall i, (i < 512)%nat -> exact_sample e femto milli clock gain shaping i <= peak) ->
  (exists i, (i < 512)%nat /\ exact_sample e femto milli clock gain shaping i = peak) ->
  exists amp int, apply_response l n = Ok (amp, int) /\ is_finite amp = true /\ is_finite int = true /\
    Rabs (R64 amp - Rmin 4095 (R64 n * peak)) <= R64 n * c1_of e femto gain / 2 ^ 47 /\
    Rabs (R64 int - total (map (fun i => Rmin 4095 (R64 n * exact_sample e femto milli clock gain shaping i)) (seq 0 512)))
      <= R64 n * c1_of e femto gain / 2 ^ 37.
Proof.
  intros fexp fsin fcube e femto milli clock gain shaping l n peak LA OK E Fn Hn HP EP.
  destruct (C82_samples fexp fsin fcube e femto milli clock gain shaping LA OK) as (l' & E' & LEN & RO & CL).
  assert (X : Ok l = Ok l') by (exact (eq_trans (eq_sym E) E')).
  apply (f_equal (fun r => match r with Ok v => v | _ => [] end)) in X. cbn beta iota in X. 
  clear E E'. revert LEN RO CL. rewrite <- X. clear X l'. intros LEN RO CL.
  pose proof (c1_range e femto milli clock gain shaping OK) as (HC & _). pose proof (bpow_gt_0 radix2 (-150)) as P150.
  destruct (width_close e femto milli clock gain shaping OK) as (_ & _ & HW). pose proof (bpow_gt_0 radix2 (-19)) as P19.
  destruct (charge_close l (c1_of e femto gain) (exact_sample e femto milli clock gain shaping) n LEN RO HC) as (amp & int & A1 & A2 & A3 & A4 & A5); auto.
  - intros i Hi. unfold exact_sample.
    assert (T0 : 0 <= time i / width_of milli clock shaping).
    { apply Rmult_le_pos; [unfold time; apply Rmult_le_pos; [apply pos_INR|lra]|left; apply Rinv_0_lt_compat; lra]. }
    destruct (formula_bounds (c1_of e femto gain) _ ltac:(lra) T0) as (B1 & B2). split; [exact B1|]. eapply Rle_trans; [exact B2|].
    apply Rmult_le_compat_l; [lra|apply exp_3].
  - intros i Hi. specialize (CL i Hi). unfold Rdiv in CL. rewrite <- u32, Rmult_comm in CL. exact CL.
  - exists amp, int. split; [exact A1|]. split; [exact A2|]. split; [exact A3|].
    pose proof u_pos as Pu.
    assert (Kp : 0 <= R64 n * c1_of e femto gain) by (apply Rmult_le_pos; lra).
    assert (Up : 0 <= u * (R64 n * c1_of e femto gain)) by (apply Rmult_le_pos; lra).
    assert (P48 : 0 < 2 ^ 48) by (apply pow_lt; lra). assert (P37 : 0 < 2 ^ 37) by (apply pow_lt; lra).
    split.
    + eapply Rle_trans; [apply A4; assumption|]. unfold Rdiv.
      replace (/ 2 ^ 47) with (64 * u); [lra|]. pose proof u32 as U. change 48%nat with (47 + 1)%nat in U. rewrite pow_add, Rinv_mult in U.
      replace (2 ^ 1) with 2 in U by lra. lra.
    + eapply Rle_trans; [exact A5|]. unfold Rdiv.
      replace (/ 2 ^ 37) with (65536 * u); [lra|]. pose proof u32 as U. change 48%nat with (37 + 11)%nat in U. rewrite pow_add, Rinv_mult in U.
      replace (2 ^ 11) with 2048 in U by lra. lra.
Qed.

(** C82: below saturation the amplitude is proportional to the charge. *)
Theorem C82_proportional :
  forall fexp fsin fcube (e femto milli clock : f64) gain shaping l n n' amp int amp' int',
  libm_accurate fexp fsin fcube -> params_ok e femto milli clock gain shaping ->
  get_response (N := F64 fexp) fsin fcube e femto milli gain shaping clock = Ok l ->
  is_finite n = true -> 1 <= R64 n -> is_finite n' = true -> 1 <= R64 n' ->
  (forall i, (i < 512)%nat -> R64 n * exact_sample e femto milli clock gain shaping i <= 4095) ->
  (forall i, (i < 512)%nat -> R64 n' * exact_sample e femto milli clock gain shaping i <= 4095) ->
  apply_response l n = Ok (amp, int) -> apply_response l n' = Ok (amp', int') ->
  Rabs (R64 amp / R64 n - R64 amp' / R64 n') <= c1_of e femto gain / 2 ^ 46.
Proof.
  intros fexp fsin fcube e femto milli clock gain shaping l n n' amp int amp' int' LA OK E Fn Hn Fn' Hn' S1 S2 A A'.
  assert (PK : exists peak, (forall i, (i < 512)%nat -> exact_sample e femto milli clock gain shaping i <= peak) /\
                            (exists i, (i < 512)%nat /\ exact_sample e femto milli clock gain shaping i = peak)).
  { clear. generalize (exact_sample e femto milli clock gain shaping). intros f.
    enough (K : forall k, exists p, (forall i, (i < S k)%nat -> f i <= p) /\ exists i, (i < S k)%nat /\ f i = p) by exact (K 511%nat).
    induction k as [|k (p & H & j & Hj & Ej)].
    - exists (f 0%nat). split; [intros i Hi; replace i with 0%nat by lia; lra|exists 0%nat; split; [lia|reflexivity]].
    - destruct (Rle_lt_dec (f (S k)) p) as [L|L].
      + exists p. split; [|exists j; split; [lia|exact Ej]]. intros i Hi. destruct (Nat.eq_dec i (S k)) as [->|N]; [exact L|apply H; lia].
      + exists (f (S k)). split; [|exists (S k); split; [lia|reflexivity]]. intros i Hi. destruct (Nat.eq_dec i (S k)) as [->|N]; [lra|].
        assert (f i <= p) by (apply H; lia). lra. }
  destruct PK as (peak & HP & i & Hi & Ei).
  assert (EP : exists i, (i < 512)%nat /\ exact_sample e femto milli clock gain shaping i = peak) by eauto.
  assert (Q : forall m a b, is_finite m = true -> 1 <= R64 m ->
            (forall i, (i < 512)%nat -> R64 m * exact_sample e femto milli clock gain shaping i <= 4095) ->
            apply_response l m = Ok (a, b) -> Rabs (R64 a / R64 m - peak) <= c1_of e femto gain / 2 ^ 47).
  { intros m a b Fm Hm Sm Am. destruct (C82_charge fexp fsin fcube e femto milli clock gain shaping l m peak LA OK E Fm (or_intror Hm) HP EP) as (x & y & X & _ & _ & D & _).
    assert (x = a) by congruence. subst x. rewrite Rmin_right in D by (rewrite <- Ei; apply Sm; exact Hi).
    replace (R64 a / R64 m - peak) with ((R64 a - R64 m * peak) / R64 m) by (field; lra). unfold Rdiv at 1. rewrite Rabs_mult.
    rewrite (Rabs_pos_eq (/ R64 m)) by (left; apply Rinv_0_lt_compat; lra). apply div_le; [lra|]. eapply Rle_trans; [exact D|]. right. unfold Rdiv. ring. }
  pose proof (Q n amp int Fn Hn S1 A) as D. pose proof (Q n' amp' int' Fn' Hn' S2 A') as D'. apply Rabs_le_inv in D. apply Rabs_le_inv in D'.
  replace (c1_of e femto gain / 2 ^ 46) with (2 * (c1_of e femto gain / 2 ^ 47)).
  - apply Rabs_le. lra.
  - change (2 ^ 47) with (2 * 2 ^ 46). field.
Qed.

(** ** Example: correctly rounded functions, the constants of the package, gain 900, shaping time
    1000 ns and a clock of 6.25 MHz. *)
Lemma f_of_R_big x k : (0 <= k < 1024)%Z -> Rabs x <= bpow radix2 k -> is_finite (f_of_R x) = true /\ R64 (f_of_R x) = rnd64 x.
Proof.
  intros K B.
  pose proof (binary_normalize_correct prec64 emax64 eq_refl eq_refl mode_NE (ZnearestE (scaled_mantissa radix2 fexp64 x)) (cexp radix2 fexp64 x) false) as C.
  cbv zeta in C. change (round_mode mode_NE) with ZnearestE in C.
  change (F2R (Float radix2 (ZnearestE (scaled_mantissa radix2 fexp64 x)) (cexp radix2 fexp64 x))) with (rnd64 x) in C.
  rewrite round_generic in C; [|apply _|apply generic_format_round; apply _].
  assert (L : Rabs (rnd64 x) <= bpow radix2 k).
  { apply Rabs_le. apply Rabs_le_inv in B. split.
    - apply rnd64_ge_fmt; [|lra]. apply generic_format_opp, fmt64_bpow. lia.
    - apply rnd64_le_fmt; [apply fmt64_bpow; lia|lra]. }
  rewrite Rlt_bool_true in C.
  - destruct C as (C1 & C2 & _). split; assumption.
  - eapply Rle_lt_trans; [exact L|]. apply bpow_lt. change emax64 with 1024%Z. lia.
Qed.
Definition exp_r (x : f64) : f64 := f_of_R (exp (R64 x)).
Definition cube_r (x : f64) : f64 := f_of_R (R64 x ^ 3).

Example C82_libm : libm_accurate exp_r sin_r cube_r.
Proof.
  assert (B0 : bpow radix2 0 = 1) by reflexivity. pose proof u_pos as Pu. pose proof eta_pos as Pe.
  assert (XP : forall x : f64, R64 x <= 0 -> 0 < exp (R64 x) <= 1).
  { intros x H. split; [apply exp_pos|]. rewrite <- exp_0. destruct H as [H| ->]; [left; now apply exp_increasing|lra]. }
  assert (X : forall x : f64, R64 x <= 0 -> is_finite (exp_r x) = true /\ R64 (exp_r x) = rnd64 (exp (R64 x))).
  { intros x H. specialize (XP x H). apply (f_of_R_big _ 0); [lia|]. rewrite Rabs_pos_eq, B0 by lra. lra. }
  assert (Y : forall x : f64, is_finite (sin_r x) = true /\ R64 (sin_r x) = rnd64 (sin (R64 x))).
  { intros x. apply (f_of_R_big _ 0); [lia|]. rewrite B0. pose proof (SIN_bound (R64 x)). apply Rabs_le. lra. }
  assert (CP : forall x : f64, 0 <= R64 x <= bpow radix2 40 -> 0 <= R64 x ^ 3 <= bpow radix2 120).
  { intros x H. split; [apply pow_le; lra|]. replace (bpow radix2 120) with (bpow radix2 40 ^ 3) by (replace 120%Z with (40 + 40 + 40)%Z by reflexivity; rewrite 2 bpow_plus; generalize (bpow radix2 40); intros b; ring).
    apply pow_incr. exact H. }
  assert (Z : forall x : f64, 0 <= R64 x <= bpow radix2 40 -> is_finite (cube_r x) = true /\ R64 (cube_r x) = rnd64 (R64 x ^ 3)).
  { intros x H. specialize (CP x H). apply (f_of_R_big _ 120); [lia|]. rewrite Rabs_pos_eq; lra. }
  split; [split; [|split]|split; [|split]].
  - intros x Fx H. destruct (X x H) as (F & E). split; [exact F|]. rewrite E. specialize (XP x H).
    apply rnd64_range; [apply generic_format_0|apply (fmt64_IZR 1); lia|lra].
  - intros x Fx. destruct (Y x) as (F & E). split; [exact F|]. rewrite E. pose proof (SIN_bound (R64 x)).
    apply rnd64_range; [apply (fmt64_IZR (-1)); lia|apply (fmt64_IZR 1); lia|lra].
  - intros x Fx H. destruct (Z x H) as (F & E). split; [exact F|]. rewrite E. specialize (CP x H).
    apply rnd64_range; [apply generic_format_0|apply fmt64_bpow; lia|lra].
  - intros x Fx [_ H]. destruct (X x H) as (F & E). rewrite E, two_u. eapply Rle_trans; [apply rnd_err|]. specialize (XP x H).
    rewrite Rabs_pos_eq by lra. assert (0 <= u * exp (R64 x)) by (apply Rmult_le_pos; lra). lra.
  - intros x Fx H. destruct (Y x) as (F & E). rewrite E, two_u. pose proof (SIN_bound (R64 x)). pose proof small_facts.
    eapply Rle_trans; [apply (rnd_bound _ 1); apply Rabs_le; lra|]. lra.
  - intros x Fx H. destruct (Z x H) as (F & E). rewrite E, two_u. eapply Rle_trans; [apply rnd_err|]. specialize (CP x H).
    rewrite Rabs_pos_eq by lra. assert (0 <= u * R64 x ^ 3) by (apply Rmult_le_pos; lra). lra.
Qed.

Definition e_r : f64 := f_of_R (1602176634 / 10 ^ 28).
Definition femto_r : f64 := f_of_R (/ 10 ^ 15).
Definition milli_r : f64 := f_of_R (/ 1000).
Definition clock_r : f64 := f_of_R (625 / 100).
Lemma rounded_range x a b : (-1074 <= a <= b)%Z -> (b < 1024)%Z -> bpow radix2 a <= x <= bpow radix2 b ->
  is_finite (f_of_R x) = true /\ bpow radix2 a <= R64 (f_of_R x) <= bpow radix2 b.
Proof.
  intros A B H. pose proof (bpow_gt_0 radix2 a). assert (bpow radix2 b <= bpow radix2 (Z.max 0 b)) by (apply bpow_le; lia).
  destruct (f_of_R_big x (Z.max 0 b)) as (F & E); [lia|rewrite Rabs_pos_eq by lra; lra|]. split; [exact F|]. rewrite E.
  apply rnd64_range; [apply fmt64_bpow; lia|apply fmt64_bpow; lia|exact H].
Qed.
Example C82_params : params_ok e_r femto_r milli_r clock_r 900 1000.
Proof.
  assert (P28 : 10 ^ 28 = 10000000000000000000000000000) by (rewrite pow_IZR; reflexivity).
  destruct (rounded_range (1602176634 / 10 ^ 28) (-63) (-62)) as (F1 & H1); try lia.
  { rewrite P28. change (bpow radix2 (-63)) with (/ 9223372036854775808). change (bpow radix2 (-62)) with (/ 4611686018427387904). lra. }
  destruct (rounded_range (/ 10 ^ 15) (-50) (-49)) as (F2 & H2); try lia.
  { rewrite pow_IZR. change (bpow radix2 (-50)) with (/ 1125899906842624). change (bpow radix2 (-49)) with (/ 562949953421312). 
    change (10 ^ Z.of_nat 15)%Z with 1000000000000000%Z. lra. }
  destruct (rounded_range (/ 1000) (-10) (-9)) as (F3 & H3); try lia.
  { change (bpow radix2 (-10)) with (/ 1024). change (bpow radix2 (-9)) with (/ 512). lra. }
  destruct (rounded_range (625 / 100) 2 3) as (F4 & H4); try lia.
  { change (bpow radix2 2) with 4. change (bpow radix2 3) with 8. lra. }
  fold e_r in F1, H1. fold femto_r in F2, H2. fold milli_r in F3, H3. fold clock_r in F4, H4.
  assert (LE : forall a b, (a <= b)%Z -> bpow radix2 a <= bpow radix2 b) by (intros; now apply bpow_le).
  unfold params_ok. repeat match goal with |- _ /\ _ => split end; auto; try lia; try apply H1; try apply H2;
    try (eapply Rle_trans; [apply H3|apply LE; lia]); try (eapply Rle_trans; [apply H4|apply LE; lia]); try (eapply Rle_trans; [|apply H3]; apply LE; lia);
    try (eapply Rle_trans; [|apply H4]; apply LE; lia); try (eapply Rle_trans; [|apply H1]; apply LE; lia).
  - eapply Rle_trans; [apply H2|]. change 1 with (bpow radix2 0). apply LE. lia.
  - change (bpow radix2 (-10)) with (/ 1024) in H3. change (bpow radix2 2) with 4 in H4. change (bpow radix2 (-19)) with (/ 524288).
    assert (M : 4 * / 1024 <= R64 clock_r * R64 milli_r) by (apply Rmult_le_compat; lra). rewrite Rmult_assoc. lra.
Qed.
Example C82_example : exists l, get_response (N := F64 exp_r) sin_r cube_r e_r femto_r milli_r 900 1000 clock_r = Ok l /\ length l = 512%nat /\
  exists amp int, apply_response l (f_of_Z 5000000) = Ok (amp, int) /\ is_finite amp = true.
Proof.
  destruct (C82_samples exp_r sin_r cube_r e_r femto_r milli_r clock_r 900 1000 C82_libm C82_params) as (l & E & L & RO & _).
  exists l. split; [exact E|]. split; [exact L|]. destruct RO as (NE & Ln & F).
  destruct (apply_R l (f_of_Z 5000000) NE F) as (a & i & X & Fa & _).
  - split; [apply f_of_Z_fin; lia|]. rewrite f_of_Z_R by lia. lra.
  - refine (eq_ind_r (fun k => (Z.of_nat k * 4095 <= 2 ^ 53)%Z) _ L). lia.
  - exists a, i. split; [exact X|exact Fa].
Qed.

Print Assumptions C82_samples.
Print Assumptions C82_charge.
Print Assumptions C82_proportional.
