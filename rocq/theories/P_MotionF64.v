(** P_MotionF64.v -- C78: rounding in the equation of motion and in the conditions that end a track. *)
From Coq Require Import ZArith Reals Lia Lra List.
From Flocq Require Import Core BinarySingleNaN Relative.
From Verif Require Import Base F64 F64Bounds P_KinF64 TransportF64 P_TransportF64 P_Simulator ElectronsF64 P_ElectronsF64 MotionF64 P_Allowed.
Import ListNotations.
Local Open Scope R_scope.

Lemma rnd_sub_neg x y : fmt64 x -> fmt64 y -> x < y -> rnd64 (x - y) < 0.
Proof.
  intros Fx Fy H. assert (rnd64 (x - y) <= 0) by (apply rnd64_le_fmt; [apply generic_format_0|lra]).
  assert (N : rnd64 (x - y) <> 0); [|lra].
  unfold rnd64, Rminus. apply Plus_error.round_plus_neq_0; try typeclasses eauto; [exact Fx|now apply generic_format_opp|lra].
Qed.

(** * Absolute errors in units of [u] times a bound of the exact value. *)
Definition near (a : R) (x : f64) (X B : R) : Prop :=
  is_finite x = true /\ Rabs (R64 x - X) <= a * (u * B) /\ Rabs X <= B.
(** Within a factor 2^k of one. *)
Definition pb (k : nat) (x : R) : Prop := / 2 ^ k <= x <= 2 ^ k.

Lemma pw1 k : 1 <= 2 ^ k. Proof. apply pow_R1_Rle. lra. Qed.
Lemma pb_pos k x : pb k x -> 0 < x. Proof. intros (A & _). pose proof (ip k). lra. Qed.
Lemma pb_weak j k x : (j <= k)%nat -> pb j x -> pb k x.
Proof.
  intros L (A & B). pose proof (inv_pow_le j k L). assert (2 ^ j <= 2 ^ k) by (apply Rle_pow; [lra|exact L]). split; lra.
Qed.
Lemma pb_mul j k x y : pb j x -> pb k y -> pb (j + k) (x * y).
Proof.
  intros H K. pose proof (pb_pos _ _ H). pose proof (pb_pos _ _ K). destruct H as (A & B), K as (C & D).
  pose proof (ip j). pose proof (ip k). unfold pb. rewrite pow_add, Rinv_mult. split; apply Rmult_le_compat; lra.
Qed.
Lemma pb_inv k x : pb k x -> pb k (/ x).
Proof.
  intros H. pose proof (pb_pos _ _ H). destruct H as (A & B). split.
  - apply Rinv_le_contravar; assumption.
  - rewrite <- (Rinv_inv (2 ^ k)). apply Rinv_le_contravar; [apply ip|exact A].
Qed.
Lemma pb_div j k x y : pb j x -> pb k y -> pb (j + k) (x / y).
Proof. intros H K. apply pb_mul; [exact H|now apply pb_inv]. Qed.
Lemma pb_add k x y : pb k x -> pb k y -> pb (S k) (x + y).
Proof. intros (A & B) (C & D). pose proof (ip k). split; [rewrite ip_half; lra|cbn [pow]; lra]. Qed.

Lemma eta_900 : eta <= u * / 2 ^ 900 / 1000.
Proof.
  Transparent u eta. unfold eta, u. Opaque u eta.
  assert (H : / 2 ^ 1000 = / 2 ^ 900 * / 2 ^ 100) by (rewrite <- Rinv_mult, <- pow_add; reflexivity).
  rewrite H. pose proof (ip 900). set (k := / 2 ^ 900) in *. clearbody k.
  assert (/ 2 ^ 100 <= / 2 ^ 53 / 1000) by lra.
  assert (k * / 2 ^ 100 <= k * (/ 2 ^ 53 / 1000)) by (apply Rmult_le_compat_l; lra). lra.
Qed.
Lemma u_22 : / 10 ^ 22 <= u.
Proof. Transparent u. unfold u. Opaque u. lra. Qed.
Lemma u_45 : / 2 ^ 45 = 256 * u.
Proof. Transparent u. unfold u. Opaque u. lra. Qed.
Lemma u_49 : / 2 ^ 49 = 16 * u.
Proof. Transparent u. unfold u. Opaque u. lra. Qed.
Lemma u_54 : / 2 ^ 54 = u / 2.
Proof. Transparent u. unfold u. Opaque u. lra. Qed.
Lemma big900 x : Rabs x <= 2 * 2 ^ 900 -> Rabs x <= b2 1000.
Proof.
  intros H. apply (b2_le x 901); [lia|]. change (2 ^ 901) with (2 * 2 ^ 900). exact H.
Qed.

Lemma round_near x t X B a : 0 <= a <= 1000 -> pb 900 B -> is_finite x = true -> R64 x = rnd64 t ->
  Rabs (t - X) <= a * (u * B) -> Rabs X <= B -> near (a + 2) x X B.
Proof.
  intros Ha Hb F E D H. pose proof (pb_pos _ _ Hb). destruct small_facts as (U0 & U1 & _). split; [exact F|]. split; [|exact H].
  assert (uB : 0 < u * B) by (apply Rmult_lt_0_compat; lra).
  assert (aB : a * (u * B) <= / 1000 * B).
  { assert (a * (u * B) <= 1000 * (/ 1000000000000000 * B)); [|lra].
    apply Rmult_le_compat; try lra. apply Rmult_le_compat_r; lra. }
  assert (T : Rabs t <= 1001 / 1000 * B).
  { apply Rabs_le_inv in D. apply Rabs_le_inv in H. apply Rabs_le. lra. }
  pose proof (rnd_bound t _ T) as R. rewrite E. pose proof eta_900.
  assert (u * / 2 ^ 900 <= u * B) by (apply Rmult_le_compat_l; [lra|apply Hb]).
  apply Rabs_le_inv in R. apply Rabs_le_inv in D. apply Rabs_le. lra.
Qed.
Lemma near_exact x B : is_finite x = true -> Rabs (R64 x) <= B -> near 0 x (R64 x) B.
Proof. intros F H. split; [exact F|]. split; [rewrite Rminus_eq_0, Rabs_R0; lra|exact H]. Qed.
Lemma near_weak a b x X B : 0 < B -> a <= b -> near a x X B -> near b x X B.
Proof.
  intros P L (F & D & H). split; [exact F|]. split; [|exact H]. destruct small_facts as (U0 & _).
  assert (0 < u * B) by (apply Rmult_lt_0_compat; lra).
  assert (a * (u * B) <= b * (u * B)) by (apply Rmult_le_compat_r; lra). lra.
Qed.
Lemma near_rel n x X : (n <= 100)%nat -> is_finite x = true -> rel n (R64 x) X -> near (INR n + 1) x X X.
Proof.
  intros L F R. split; [exact F|]. split.
  - rewrite <- Rmult_assoc. now apply rel_abs.
  - destruct R as (P & _). rewrite Rabs_pos_eq; lra.
Qed.
Lemma near_abs a x X B : 0 <= a <= 1000 -> 0 < B -> near a x X B -> Rabs (R64 x) <= 1001 / 1000 * B.
Proof.
  intros Ha P (F & D & H). destruct small_facts as (U0 & U1 & _).
  assert (aB : a * (u * B) <= / 1000 * B).
  { assert (0 < u * B) by (apply Rmult_lt_0_compat; lra).
    assert (a * (u * B) <= 1000 * (/ 1000000000000000 * B)); [|lra].
    apply Rmult_le_compat; try lra. apply Rmult_le_compat_r; lra. }
  apply Rabs_le_inv in D. apply Rabs_le_inv in H. apply Rabs_le. lra.
Qed.

Lemma near_mul a b x y X Y B D : 0 <= a <= 100 -> 0 <= b <= 100 -> 0 < B -> 0 < D -> pb 900 (B * D) ->
  near a x X B -> near b y Y D -> near (a + b + 3) (fmul x y) (X * Y) (B * D).
Proof.
  intros Ha Hb PB PD Hp Nx Ny. pose proof (near_abs a x X B ltac:(lra) PB Nx) as Ax. pose proof (near_abs b y Y D ltac:(lra) PD Ny) as Ay.
  destruct Nx as (Fx & Dx & Hx), Ny as (Fy & Dy & Hy). destruct small_facts as (U0 & U1 & _).
  assert (PP : 0 < B * D) by (apply Rmult_lt_0_compat; lra).
  destruct (fmul_fin x y 1000 Fx Fy ltac:(lia)) as (E & F).
  { apply big900. rewrite Rabs_mult. apply Rle_trans with (1001 / 1000 * B * (1001 / 1000 * D)).
    - apply Rmult_le_compat; try apply Rabs_pos; assumption.
    - destruct Hp as (_ & Hp). lra. }
  replace (a + b + 3) with (a + b + 1 + 2) by ring.
  apply (round_near _ (R64 x * R64 y)); [lra|exact Hp|exact F|exact E| |].
  - replace (R64 x * R64 y - X * Y) with ((R64 x - X) * R64 y + X * (R64 y - Y)) by ring.
    eapply Rle_trans; [apply Rabs_triang|]. rewrite !Rabs_mult.
    assert (T1 : Rabs (R64 x - X) * Rabs (R64 y) <= a * (u * B) * (1001 / 1000 * D)).
    { apply Rmult_le_compat; try apply Rabs_pos; assumption. }
    assert (T2 : Rabs X * Rabs (R64 y - Y) <= B * (b * (u * D))).
    { apply Rmult_le_compat; try apply Rabs_pos; assumption. }
    assert (T1' : Rabs (R64 x - X) * Rabs (R64 y) <= a * (u * B) * (D + b * (u * D))).
    { apply Rmult_le_compat; try apply Rabs_pos; [assumption|]. apply Rabs_le_inv in Dy. apply Rabs_le_inv in Hy. apply Rabs_le. lra. }
    assert (T3 : a * (u * B) * (b * (u * D)) <= u * (B * D)).
    { replace (a * (u * B) * (b * (u * D))) with ((a * b * u) * (u * (B * D))) by ring.
      rewrite <- (Rmult_1_l (u * (B * D))) at 2. apply Rmult_le_compat_r; [apply Rmult_le_pos; lra|].
      assert (a * b <= 100 * 100) by (apply Rmult_le_compat; lra). assert (0 <= a * b) by (apply Rmult_le_pos; lra).
      apply Rle_trans with (100 * 100 * / 1000000000000000); [|lra]. apply Rmult_le_compat; lra. }
    lra.
  - rewrite Rabs_mult. apply Rmult_le_compat; try apply Rabs_pos; assumption.
Qed.

Lemma near_sub a x y X Y B D : 0 <= a <= 100 -> 0 < B -> 0 < D -> pb 900 (B + D) ->
  near a x X B -> near a y Y D -> near (a + 2) (fsub x y) (X - Y) (B + D).
Proof.
  intros Ha PB PD Hp Nx Ny. pose proof (near_abs a x X B ltac:(lra) PB Nx) as Ax. pose proof (near_abs a y Y D ltac:(lra) PD Ny) as Ay.
  destruct Nx as (Fx & Dx & Hx), Ny as (Fy & Dy & Hy).
  apply Rabs_le_inv in Dx. apply Rabs_le_inv in Dy. apply Rabs_le_inv in Ax. apply Rabs_le_inv in Ay.
  apply Rabs_le_inv in Hx. apply Rabs_le_inv in Hy.
  destruct (fsub_fin x y 1000 Fx Fy ltac:(lia)) as (E & F).
  { apply big900. destruct Hp as (_ & Hp). apply Rabs_le. lra. }
  apply (round_near _ (R64 x - R64 y)); [lra|exact Hp|exact F|exact E| |]; apply Rabs_le; lra.
Qed.

Lemma near_div a b x y X Y B : 0 <= a <= 100 -> 0 <= b <= 100 -> 0 < B -> 0 < Y -> pb 900 (B / Y) ->
  near a x X B -> near b y Y Y -> near (a + b + 3) (fdiv x y) (X / Y) (B / Y).
Proof.
  intros Ha Hb PB PY Hp Nx Ny. pose proof (near_abs a x X B ltac:(lra) PB Nx) as Ax.
  destruct Nx as (Fx & Dx & Hx), Ny as (Fy & Dy & Hy). destruct small_facts as (U0 & U1 & _).
  assert (uY : 0 < u * Y <= / 1000000000000000 * Y) by (split; [apply Rmult_lt_0_compat; lra|apply Rmult_le_compat_r; lra]).
  assert (bY : 0 <= b * (u * Y) <= 100 * (u * Y)).
  { split; [apply Rmult_le_pos; lra|apply Rmult_le_compat_r; lra]. }
  pose proof Dy as Dy'. apply Rabs_le_inv in Dy'. assert (Py : 999 / 1000 * Y <= R64 y) by lra.
  assert (Hin : / R64 y <= 1002 / 1000 * / Y).
  { replace (1002 / 1000 * / Y) with (/ (1000 / 1002 * Y)) by (field; lra). apply Rinv_le_contravar; lra. }
  assert (Pi : 0 < / R64 y) by (apply Rinv_0_lt_compat; lra). assert (PYi : 0 < / Y) by (apply Rinv_0_lt_compat; lra).
  destruct (fdiv_fin x y 1000 Fx ltac:(lra) ltac:(lia)) as (E & F).
  { apply big900. unfold Rdiv. rewrite Rabs_mult, (Rabs_pos_eq (/ R64 y)) by lra.
    apply Rle_trans with (1001 / 1000 * B * (1002 / 1000 * / Y)).
    - apply Rmult_le_compat; try lra. apply Rabs_pos.
    - destruct Hp as (_ & Hp). unfold Rdiv in Hp. assert (0 < B * / Y) by (apply Rmult_lt_0_compat; lra). lra. }
  replace (a + b + 3) with (a + b + 1 + 2) by ring.
  apply (round_near _ (R64 x / R64 y)); [lra|exact Hp|exact F|exact E| |].
  - replace (R64 x / R64 y - X / Y) with (((R64 x - X) - X / Y * (R64 y - Y)) * / R64 y) by (field; lra).
    rewrite Rabs_mult, (Rabs_pos_eq (/ R64 y)) by lra.
    assert (N : Rabs ((R64 x - X) - X / Y * (R64 y - Y)) <= (a + b) * (u * B)).
    { eapply Rle_trans; [apply Rabs_triang|]. rewrite Rabs_Ropp, Rabs_mult. unfold Rdiv. rewrite Rabs_mult, (Rabs_pos_eq (/ Y)) by lra.
      assert (T : Rabs X * / Y * Rabs (R64 y - Y) <= B * / Y * (b * (u * Y))).
      { apply Rmult_le_compat; [apply Rmult_le_pos; [apply Rabs_pos|lra]|apply Rabs_pos| |exact Dy]. apply Rmult_le_compat_r; lra. }
      replace (B * / Y * (b * (u * Y))) with (b * (u * B)) in T by (field; lra). lra. }
    assert (uB : 0 < u * B) by (apply Rmult_lt_0_compat; lra).
    assert (N0 : 0 <= (a + b) * (u * B)) by (apply Rmult_le_pos; lra).
    (* / y <= (1 + 101 u) / Y *)
    assert (Hin2 : / R64 y <= (1 + 101 * u) * / Y).
    { apply Rmult_le_reg_r with (R64 y * Y); [apply Rmult_lt_0_compat; lra|].
      replace (/ R64 y * (R64 y * Y)) with Y by (field; lra). replace ((1 + 101 * u) * / Y * (R64 y * Y)) with ((1 + 101 * u) * R64 y) by (field; lra).
      assert ((1 + 101 * u) * (Y - 100 * (u * Y)) <= (1 + 101 * u) * R64 y) by (apply Rmult_le_compat_l; lra).
      assert (u * (u * Y) <= / 1000000000000000 * (u * Y)) by (apply Rmult_le_compat_r; lra). lra. }
    eapply Rle_trans; [apply Rmult_le_compat; [apply Rabs_pos|lra|exact N|exact Hin2]|].
    replace ((a + b) * (u * B) * ((1 + 101 * u) * / Y)) with ((a + b + (a + b) * 101 * u) * (u * (B / Y))) by (unfold Rdiv; ring).
    apply Rmult_le_compat_r; [apply Rmult_le_pos; [lra|unfold Rdiv; apply Rmult_le_pos; lra]|].
    assert ((a + b) * 101 * u <= 200 * 101 * / 1000000000000000); [|lra].
    apply Rmult_le_compat; lra.
  - unfold Rdiv. rewrite Rabs_mult, (Rabs_pos_eq (/ Y)) by lra. apply Rmult_le_compat_r; lra.
Qed.

(** * Speed and Lorentz factor for any accurate power. *)
(** [x**2.0]: within one unit in the last place of the square. *)
Definition square_ok (pw : f64 -> f64) : Prop :=
  forall x, is_finite x = true -> Rabs (R64 x) <= 2 ^ 110 ->
    is_finite (pw x) = true /\ 0 <= R64 (pw x) /\ Rabs (R64 (pw x) - R64 x ^ 2) <= / 2 ^ 52 * R64 x ^ 2 + eta.

Lemma mul_square_ok : square_ok (fun x => fmul x x).
Proof.
  intros x F B. assert (E2 : R64 x * R64 x = R64 x ^ 2) by ring. pose proof (pow2_ge_0 (R64 x)) as P0.
  destruct (fmul_fin x x 300 F F ltac:(lia)) as (E & Fm).
  { apply (b2_le _ (110 + 110)); [lia|]. rewrite pow_add, Rabs_mult. apply Rmult_le_compat; try apply Rabs_pos; assumption. }
  rewrite E2 in E. split; [exact Fm|]. rewrite E. split; [apply rnd64_ge_fmt; [apply generic_format_0|exact P0]|].
  pose proof (rnd_err (R64 x ^ 2)) as R. rewrite (Rabs_pos_eq (R64 x ^ 2)) in R by exact P0. rewrite two_u.
  destruct small_facts as (U0 & _). assert (0 <= u * R64 x ^ 2) by (apply Rmult_le_pos; lra). lra.
Qed.

Lemma bern n : 1 + INR n * u <= q ^ n.
Proof.
  destruct q_facts as (Q1 & Q2 & Q3). destruct small_facts as (U0 & _).
  apply Rle_trans with ((1 + u) ^ n); [|apply pow_incr; lra].
  induction n as [|n IH]; [cbn; lra|]. rewrite S_INR. cbn [pow].
  assert ((1 + u) * (1 + INR n * u) <= (1 + u) * (1 + u) ^ n) by (apply Rmult_le_compat_l; lra).
  assert (0 <= u * (INR n * u)) by (apply Rmult_le_pos; [lra|apply Rmult_le_pos; [apply pos_INR|lra]]). lra.
Qed.
Lemma rel_of_abs a x X : 0 < X -> Rabs (x - X) <= INR a * (u * X) -> (a <= 100)%nat -> rel (S a) x X.
Proof.
  intros P D L. destruct small_facts as (U0 & U1 & _). pose proof (bern (S a)) as Q. rewrite S_INR in Q.
  assert (I : 0 <= INR a <= 100) by (split; [apply pos_INR|replace 100 with (INR 100) by (cbn; lra); now apply le_INR]).
  apply Rabs_le_inv in D. assert (uX : 0 < u * X) by (apply Rmult_lt_0_compat; lra).
  assert (uuX : u * (u * X) <= / 1000000000000000 * (u * X)) by (apply Rmult_le_compat_r; lra).
  assert (Ix : 0 <= INR a * (u * X) <= 100 * (u * X)) by (split; [apply Rmult_le_pos; lra|apply Rmult_le_compat_r; lra]).
  assert (uX' : u * X <= / 1000000000000000 * X) by (apply Rmult_le_compat_r; lra).
  unfold rel. set (k := q ^ S a) in *. clearbody k. split; [exact P|]. split.
  - apply Rle_trans with (x * (1 + (INR a + 1) * u)); [|apply Rmult_le_compat_l; lra].
    assert ((X - INR a * (u * X)) * (1 + (INR a + 1) * u) <= x * (1 + (INR a + 1) * u)).
    { apply Rmult_le_compat_r; [|lra]. assert (0 <= (INR a + 1) * u) by (apply Rmult_le_pos; lra). lra. }
    set (i := INR a) in *. clearbody i.
    assert (T : i * (i + 1) * (u * (u * X)) <= 100 * 101 * (/ 1000000000000000 * (u * X))).
    { apply Rmult_le_compat; try lra; try (apply Rmult_le_pos; lra). apply Rmult_le_compat; lra. }
    replace ((X - i * (u * X)) * (1 + (i + 1) * u)) with (X + u * X - i * (i + 1) * (u * (u * X))) in H by ring. lra.
  - apply Rle_trans with (X * (1 + (INR a + 1) * u)); [|apply Rmult_le_compat_l; lra].
    replace (X * (1 + (INR a + 1) * u)) with (X + INR a * (u * X) + u * X) by ring. lra.
Qed.

Section Pow.
  Context (pw : f64 -> f64) (Hpw : square_ok pw).
  Definition speed_factor (p : vec64) : R := sqrt (momentum2 p / (1 + momentum2 p)).

  Lemma pw_rel n x X : (n <= 20)%nat -> is_finite x = true -> pb 102 X -> rel n (R64 x) X ->
    is_finite (pw x) = true /\ rel (n + n + 4) (R64 (pw x)) (X * X).
  Proof using Hpw.
    intros L F B R. pose proof (rel_half n _ _ ltac:(lia) R) as Hh. pose proof (pb_pos _ _ B) as PX.
    destruct (Hpw x F) as (Fp & P0 & E).
    { rewrite Rabs_pos_eq by lra. destruct B as (_ & B). assert (2 * 2 ^ 102 <= 2 ^ 110); [|lra].
      change (2 ^ 103 <= 2 ^ 110). apply Rle_pow; [lra|lia]. }
    split; [exact Fp|]. rewrite (Nat.add_comm (n + n) 4). apply rel_trans with (R64 x * R64 x); [|now apply rel_mul].
    assert (PP : 0 < R64 x * R64 x) by (apply Rmult_lt_0_compat; lra).
    apply (rel_of_abs 3); [exact PP| |lia].
    rewrite two_u in E. replace (R64 x ^ 2) with (R64 x * R64 x) in E by ring. replace (INR 3) with 3 by (cbn; lra).
    destruct small_facts as (U0 & _).
    assert (LB : / 2 ^ 900 <= R64 x * R64 x).
    { apply Rle_trans with (/ 2 ^ 103 * / 2 ^ 103).
      - rewrite <- Rinv_mult, <- pow_add. apply inv_pow_le. lia.
      - pose proof (ip 103). destruct B as (B & _). rewrite (ip_half 102) in *. apply Rmult_le_compat; lra. }
    pose proof eta_900. assert (u * / 2 ^ 900 <= u * (R64 x * R64 x)) by (apply Rmult_le_compat_l; lra). 
    pose proof (ip 900). assert (0 < u * / 2 ^ 900) by (apply Rmult_lt_0_compat; lra). lra.
  Qed.

  Lemma sum_pw p : moving p ->
    let s := fadd (fadd (pw (vx64 p)) (pw (vy64 p))) (pw (vz64 p)) in
    is_finite s = true /\ rel 6 (R64 s) (momentum2 p).
  Proof using Hpw.
    intros (FX & FY & FZ & M). cbv zeta. unfold momentum2 in *.
    destruct small_facts as (U0 & U1 & T0 & _). pose proof eta_200 as T1.
    set (x := R64 (vx64 p)) in *. set (y := R64 (vy64 p)) in *. set (z := R64 (vz64 p)) in *.
    set (X := x ^ 2) in *. set (Y := y ^ 2) in *. set (Z := z ^ 2) in *. set (A := X + Y + Z) in *.
    assert (P0 : 0 < / 2 ^ 200) by (apply Rinv_0_lt_compat; apply pow_lt; lra).
    assert (PX : 0 <= X) by (unfold X; apply pow2_ge_0). assert (PY : 0 <= Y) by (unfold Y; apply pow2_ge_0).
    assert (PZ : 0 <= Z) by (unfold Z; apply pow2_ge_0).
    assert (BX : X <= A) by (unfold A; lra). assert (BY : Y <= A) by (unfold A; lra).
    assert (BZ : Z <= A) by (unfold A; lra). assert (BXY : X + Y <= A) by (unfold A; lra).
    assert (EA : A = X + Y + Z) by reflexivity. clearbody A.
    assert (W : forall t, 0 <= t -> t <= 2 * A -> Rabs t <= b2 300).
    { intros t Ht L. apply (b2_le t 201); [lia|]. rewrite Rabs_pos_eq by exact Ht.
      replace (2 ^ 201) with (2 * 2 ^ 200) by ring. lra. }
    assert (V : forall t, t ^ 2 <= A -> Rabs t <= 2 ^ 110).
    { intros t Ht. apply Rle_trans with (2 ^ 100); [|apply Rle_pow; [lra|lia]].
      rewrite <- (sqrt_pow 100), <- (sqrt_pow2 (Rabs t)) by apply Rabs_pos. apply sqrt_le_1_alt.
      rewrite pow2_abs. cbn [Nat.add]. lra. }
    destruct (Hpw (vx64 p) FX (V x BX)) as (Fa & Na & Ra). destruct (Hpw (vy64 p) FY (V y BY)) as (Fb & Nb & Rb).
    destruct (Hpw (vz64 p) FZ (V z BZ)) as (Fc & Nc & Rc).
    rewrite two_u in Ra, Rb, Rc. fold x in Ra. fold y in Rb. fold z in Rc. fold X in Ra. fold Y in Rb. fold Z in Rc.
    set (a := pw (vx64 p)) in *. set (b := pw (vy64 p)) in *. set (c := pw (vz64 p)) in *.
    apply Rabs_le_inv in Ra. apply Rabs_le_inv in Rb. apply Rabs_le_inv in Rc.
    assert (N : forall t, 0 <= t -> 0 <= rnd64 t) by (intros t Ht; apply rnd64_ge_fmt; [apply generic_format_0|exact Ht]).
    assert (R : forall t B, 0 <= t <= B -> - (u * B + eta) <= rnd64 t - t <= u * B + eta).
    { intros t B Ht. apply Rabs_le_inv. apply rnd_bound. rewrite Rabs_pos_eq; lra. }
    assert (UA : 0 < u * A <= A / 1000).
    { split; [apply Rmult_lt_0_compat; lra|]. assert (u * A <= / 1000 * A) by (apply Rmult_le_compat_r; lra). lra. }
    assert (TA : eta <= u * A / 1000).
    { assert (u * / 2 ^ 200 <= u * A) by (apply Rmult_le_compat_l; lra). lra. }
    assert (UE : u * X + u * Y + u * Z = u * A) by (rewrite EA; ring).
    assert (UX : 0 <= u * X) by (apply Rmult_le_pos; lra). assert (UY : 0 <= u * Y) by (apply Rmult_le_pos; lra).
    assert (UZ : 0 <= u * Z) by (apply Rmult_le_pos; lra).
    destruct (fadd_fin a b 300 Fa Fb ltac:(lia)) as (Et & Ft); [apply W; lra|].
    set (t := fadd a b) in *.
    pose proof (R (R64 a + R64 b) (A + A / 100) ltac:(lra)) as Rt. pose proof (N (R64 a + R64 b) ltac:(lra)) as Nt.
    rewrite <- Et in Rt, Nt.
    assert (U2 : u * (A + A / 100) = u * A + u * A / 100) by field. rewrite U2 in Rt.
    destruct (fadd_fin t c 300 Ft Fc ltac:(lia)) as (Es & Fs); [apply W; lra|].
    set (s := fadd t c) in *.
    pose proof (R (R64 t + R64 c) (A + A / 100) ltac:(lra)) as Rs. rewrite <- Es, U2 in Rs.
    split; [exact Fs|]. apply (rel_of_abs 5); [lra| |lia]. replace (INR 5) with 5 by (cbn; lra). apply Rabs_le. lra.
  Qed.

  Lemma motion_close p : moving p ->
    let gv := gv_pw pw p in let be := beta_pw pw gv in let g := fdiv gv be in
    is_finite gv = true /\ rel 4 (R64 gv) (sqrt (momentum2 p)) /\
    is_finite be = true /\ rel 14 (R64 be) (speed_factor p) /\
    is_finite g = true /\ rel 19 (R64 g) (lorentz_factor p) /\
    pb 100 (sqrt (momentum2 p)) /\ / 2 ^ 201 <= speed_factor p <= 1 /\
    sqrt (momentum2 p) / speed_factor p = lorentz_factor p.
  Proof using Hpw.
    intros M. destruct (sum_pw p M) as (Fs & Rs). cbv zeta in Fs, Rs |- *.
    destruct M as (_ & _ & _ & MB). unfold gv_pw, beta_pw, speed_factor, lorentz_factor.
    set (s := fadd (fadd (pw (vx64 p)) (pw (vy64 p))) (pw (vz64 p))) in *.
    set (A := momentum2 p) in *. clearbody A.
    pose proof (ip 200) as I200. assert (PA : 0 < A) by lra.
    destruct (fsqrt_fin s Fs (rel_pos _ _ _ Rs)) as (Eg & Fg). set (gv := fsqrt s) in *.
    assert (GB : / 2 ^ 100 <= sqrt A <= 2 ^ 100).
    { split; [rewrite <- (sqrt_inv_pow 100)|rewrite <- (sqrt_pow 100)]; cbn [Nat.add]; apply sqrt_le_1_alt; lra. }
    assert (R1 : rel 3 (sqrt (R64 s)) (sqrt A)) by (apply rel_sqrt; exact Rs).
    assert (R2 : rel 4 (R64 gv) (sqrt A)).
    { rewrite Eg. apply (rel_trans 1 3) with (sqrt (R64 s)); [|exact R1].
      apply rel_rnd. destruct (rel_half 3 _ _ ltac:(lia) R1) as (H & _).
      pose proof (inv_pow_le 101 1000 ltac:(lia)). rewrite (ip_half 100) in H0. lra. }
    destruct (pw_rel 4 gv (sqrt A) ltac:(lia) Fg (pb_weak 100 102 _ ltac:(lia) GB) R2) as (F2 & R4).
    rewrite sqrt_sqrt in R4 by lra. cbn [Nat.add] in R4.
    assert (P200 : 1 <= 2 ^ 200) by (apply pow_R1_Rle; lra).
    assert (D202 : 2 ^ 202 = 4 * 2 ^ 200) by (cbn [pow]; ring).
    destruct (rel_half 12 _ _ ltac:(lia) R4) as (L4 & H4). set (g2 := pw gv) in *.
    assert (O : R64 fone = 1) by (unfold fone; apply f_of_Z_R; lia).
    assert (Fo : is_finite fone = true) by (unfold fone; apply f_of_Z_fin; lia).
    assert (R5 : rel 12 (1 + R64 g2) (1 + A)).
    { apply rel_add; [|exact R4]. apply (rel_weak 0); [lia|]. apply rel_refl. lra. }
    destruct (fadd_fin fone g2 300 Fo F2 ltac:(lia)) as (E5 & F5).
    { rewrite O. apply (b2_le _ 202); [lia|]. rewrite Rabs_pos_eq by lra. lra. }
    rewrite O in E5. set (d := fadd fone g2) in *.
    assert (R6 : rel 13 (R64 d) (1 + A)).
    { rewrite E5. apply (rel_trans 1 12) with (1 + R64 g2); [|exact R5]. apply rel_rnd.
      pose proof (inv_pow_le 0 1000 ltac:(lia)). rewrite pow_O, Rinv_1 in H. lra. }
    assert (R7 : rel 25 (R64 g2 / R64 d) (A / (1 + A))) by now apply (rel_div 12 13).
    assert (QB : / 2 ^ 402 <= A / (1 + A) <= 1).
    { split; [|apply div_le; lra]. apply le_div; [lra|].
      replace (/ 2 ^ 402) with (/ 2 ^ 200 * / 2 ^ 202) by (rewrite <- Rinv_mult, <- pow_add; reflexivity).
      assert (K : / 2 ^ 202 * (1 + A) <= 1).
      { apply Rmult_le_reg_l with (2 ^ 202); [apply pow_lt; lra|].
        rewrite <- Rmult_assoc, Rinv_r by (apply pow_nonzero; lra). lra. }
      assert (/ 2 ^ 200 * (/ 2 ^ 202 * (1 + A)) <= / 2 ^ 200 * 1) by (apply Rmult_le_compat_l; lra). lra. }
    destruct (rel_half 25 _ _ ltac:(lia) R7) as (L7 & H7).
    pose proof (rel_pos _ _ _ R7) as P7. pose proof (rel_pos _ _ _ R6) as P6.
    destruct (fdiv_fin g2 d 300 F2 ltac:(lra) ltac:(lia)) as (E8 & F8).
    { apply (b2_le _ 1); [lia|]. rewrite Rabs_pos_eq by lra. lra. }
    set (k := fdiv g2 d) in *.
    assert (R8 : rel 26 (R64 k) (A / (1 + A))).
    { rewrite E8. apply (rel_trans 1 25) with (R64 g2 / R64 d); [|exact R7]. apply rel_rnd.
      pose proof (inv_pow_le 403 1000 ltac:(lia)). rewrite (ip_half 402) in H. lra. }
    destruct (fsqrt_fin k F8 (rel_pos _ _ _ R8)) as (E9 & F9). set (be := fsqrt k) in *.
    assert (R9 : rel 13 (sqrt (R64 k)) (sqrt (A / (1 + A)))) by (apply rel_sqrt; exact R8).
    assert (SB : / 2 ^ 201 <= sqrt (A / (1 + A)) <= 1).
    { split; [rewrite <- (sqrt_inv_pow 201)|rewrite <- sqrt_1 at 2]; cbn [Nat.add]; apply sqrt_le_1_alt; lra. }
    assert (R10 : rel 14 (R64 be) (sqrt (A / (1 + A)))).
    { rewrite E9. apply (rel_trans 1 13) with (sqrt (R64 k)); [|exact R9]. apply rel_rnd.
      destruct (rel_half 13 _ _ ltac:(lia) R9) as (H & _).
      pose proof (inv_pow_le 202 1000 ltac:(lia)). rewrite (ip_half 201) in H0. lra. }
    assert (ER : sqrt A / sqrt (A / (1 + A)) = sqrt (1 + A)).
    { rewrite sqrt_div_alt by lra. assert (0 < sqrt A) by (apply sqrt_lt_R0; lra).
      assert (0 < sqrt (1 + A)) by (apply sqrt_lt_R0; lra). field. lra. }
    assert (R11 : rel 18 (R64 gv / R64 be) (sqrt (1 + A))).
    { rewrite <- ER. now apply (rel_div 4 14). }
    destruct (rel_half 18 _ _ ltac:(lia) R11) as (L11 & H11).
    assert (GG : 1 <= sqrt (1 + A) <= 2 ^ 101).
    { split; [rewrite <- sqrt_1 at 1|rewrite <- (sqrt_pow 101)]; cbn [Nat.add]; apply sqrt_le_1_alt; lra. }
    assert (D102 : 2 ^ 102 = 2 * 2 ^ 101) by (cbn [pow]; ring).
    destruct (fdiv_fin gv be 300 Fg ltac:(pose proof (rel_pos _ _ _ R10); lra) ltac:(lia)) as (E12 & F12).
    { apply (b2_le _ 102); [lia|]. rewrite Rabs_pos_eq by lra. lra. }
    do 5 (split; [assumption|]). split.
    { rewrite E12. apply (rel_trans 1 18) with (R64 gv / R64 be); [|exact R11]. apply rel_rnd.
      pose proof (inv_pow_le 1 1000 ltac:(lia)). rewrite pow_1 in H. lra. }
    split; [exact GB|]. split; [exact SB|exact ER].
  Qed.

  (** ** The stopping condition. *)
  Lemma ke_limit_R : is_finite ke_limit = true /\ Rabs (R64 ke_limit - / 1000000) <= / 10 ^ 22.
  Proof.
    destruct (f_of_ZE_correct 4722366482869645 (-72) ltac:(lia) ltac:(lia)) as (E & F). split; [exact F|].
    unfold ke_limit. rewrite E. replace (bpow radix2 (-72)) with (/ 4722366482869645213696) by (cbn; lra). apply Rabs_le. lra.
  Qed.

  Lemma pydiv64_ok x y : is_finite y = true -> R64 y <> 0 -> pydiv64 x y = Ok (fdiv x y).
  Proof.
    intros F N. unfold pydiv64. rewrite feqb_R by (try exact F; reflexivity). rewrite f_of_Z_R by lia.
    destruct (Req_bool_spec (R64 y) (IZR 0)); [contradiction|reflexivity].
  Qed.

  Lemma kinetic_close m p : bounded m 1 (2 ^ 100) -> moving p ->
    let gv := gv_pw pw p in let ke := fmul m (fsub (fdiv gv (beta_pw pw gv)) fone) in
    is_finite ke = true /\ Rabs (R64 ke - kinetic (R64 m) p) <= 26 * (u * (R64 m * lorentz_factor p)).
  Proof using Hpw.
    intros (Fm & Bm) M. cbv zeta. destruct (motion_close p M) as (_ & _ & _ & _ & Fg & Rg & _). cbv zeta in Fg, Rg.
    pose proof (lorentz_ge1 p) as G1. pose proof (lorentz_le p M) as G2. unfold kinetic.
    set (g := fdiv (gv_pw pw p) (beta_pw pw (gv_pw pw p))) in *. set (G := lorentz_factor p) in *. clearbody G.
    pose proof (near_rel 19 _ _ ltac:(lia) Fg Rg) as N. replace (INR 19 + 1) with 20 in N by (cbn; lra).
    assert (O : R64 fone = 1) by (unfold fone; apply f_of_Z_R; lia).
    assert (Fo : is_finite fone = true) by (unfold fone; apply f_of_Z_fin; lia).
    (* gamma - 1 with the bound gamma *)
    destruct N as (_ & Dg & _). apply Rabs_le_inv in Dg. destruct small_facts as (U0 & U1 & _).
    assert (uG : 0 < u * G <= / 1000000000000000 * G) by (split; [apply Rmult_lt_0_compat; lra|apply Rmult_le_compat_r; lra]).
    assert (P101 : 2 * 2 ^ 101 <= 2 ^ 900) by (change (2 ^ 102 <= 2 ^ 900); apply Rle_pow; [lra|lia]).
    destruct (fsub_fin g fone 1000 Fg Fo ltac:(lia)) as (Es & Fs).
    { apply big900. rewrite O. apply Rabs_le. lra. }
    rewrite O in Es. set (d := fsub g fone) in *.
    assert (pbG : pb 101 G) by (split; [|lra]; pose proof (inv_pow_le 0 101 ltac:(lia)) as I; rewrite pow_O, Rinv_1 in I; lra).
    assert (pbm : pb 100 (R64 m)) by (split; [|lra]; pose proof (inv_pow_le 0 100 ltac:(lia)) as I; rewrite pow_O, Rinv_1 in I; lra).
    assert (Nd : near (20 + 2) d (G - 1) G).
    { apply (round_near _ (R64 g - 1)); [lra|apply (pb_weak 101); [lia|exact pbG]|exact Fs|exact Es| |]; apply Rabs_le; lra. }
    pose proof (near_exact m (R64 m) Fm ltac:(rewrite Rabs_pos_eq; lra)) as Nm.
    destruct (near_mul 0 (20 + 2) m d (R64 m) (G - 1) (R64 m) G ltac:(lra) ltac:(lra) ltac:(lra) ltac:(lra) (pb_weak (100 + 101) 900 _ ltac:(lia) (pb_mul _ _ _ _ pbm pbG)) Nm Nd)
      as (Fk & Dk & _).
    split; [exact Fk|]. replace (0 + (20 + 2) + 3) with 25 in Dk by lra.
    assert (0 < u * (R64 m * G)) by (apply Rmult_lt_0_compat; [lra|apply Rmult_lt_0_compat; lra]). lra.
  Qed.

  (** The condition has the sign of the kinetic energy minus one electronvolt, except within 2^-48 of
      the total energy (for all nuclei of the chart: 1e-9 eV). *)
  Theorem C78_stop m p : bounded m 1 (2 ^ 100) -> moving p ->
    let total := R64 m * lorentz_factor p in
    exists v, stop64 pw m p = Ok v /\
      (/ 1000000 + / 2 ^ 48 * total < kinetic (R64 m) p -> 0 < R64 v) /\
      (kinetic (R64 m) p + / 2 ^ 48 * total < / 1000000 -> R64 v < 0).
  Proof using Hpw.
    intros Bm M total. destruct (kinetic_close m p Bm M) as (Fk & Dk). cbv zeta in Fk, Dk.
    destruct (motion_close p M) as (_ & _ & Fb & Rb & _). cbv zeta in Fb, Rb.
    unfold stop64. rewrite (pydiv64_ok _ _ Fb) by (pose proof (rel_pos _ _ _ Rb); lra). cbn [bind].
    eexists. split; [reflexivity|]. destruct ke_limit_R as (Fl & Dl).
    pose proof (lorentz_ge1 p) as G1. pose proof (lorentz_le p M) as G2. unfold kinetic in *. fold total in Dk.
    set (K := R64 m * (lorentz_factor p - 1)) in *.
    destruct small_facts as (U0 & U1 & _). destruct Bm as (Fm & Bm).
    assert (T1 : 1 <= total) by (unfold total; replace 1 with (1 * 1) by lra; apply Rmult_le_compat; lra).
    assert (TB : total <= 2 ^ 201).
    { change (2 ^ 201) with (2 ^ (100 + 101)). rewrite pow_add. apply Rmult_le_compat; lra. }
    assert (KT : 0 <= K <= total) by (unfold K, total; split; [apply Rmult_le_pos; lra|lra]).
    set (ke := fmul m (fsub (fdiv (gv_pw pw p) (beta_pw pw (gv_pw pw p))) fone)) in *.
    assert (uT : u <= u * total <= / 1000000000000000 * total).
    { split; [rewrite <- (Rmult_1_r u) at 1; apply Rmult_le_compat_l; lra|apply Rmult_le_compat_r; lra]. }
    assert (P900 : 4 * 2 ^ 201 <= 2 ^ 900) by (change (4 * 2 ^ 201) with (2 * 2 * 2 ^ 201); rewrite Rmult_assoc; change (2 ^ 203 <= 2 ^ 900); apply Rle_pow; [lra|lia]).
    apply Rabs_le_inv in Dk. apply Rabs_le_inv in Dl. clearbody K total.
    destruct (fsub_fin ke ke_limit 1000 Fk Fl ltac:(lia)) as (E & F).
    { apply big900. apply Rabs_le. lra. }
    rewrite E, thirtytwo_u. pose proof u_22 as X.
    split; intros H.
    - apply rnd_sub_pos; try apply fmt64_R. lra.
    - apply rnd_sub_neg; try apply fmt64_R. lra.
  Qed.

  (** ** The equation of motion. *)
  Context (c e_charge mev_kg mev_joule density : f64) (dedx : f64 -> f64).
  Definition constant (x : f64) : Prop := is_finite x = true /\ pb 110 (R64 x).
  Context (Hc : constant c) (He : constant e_charge) (Hk : constant mev_kg) (Hj : constant mev_joule) (Hd : constant density).

  Lemma near_const x : constant x -> near 0 x (R64 x) (R64 x).
  Proof. intros (F & B). apply near_exact; [exact F|]. pose proof (pb_pos _ _ B). rewrite Rabs_pos_eq; lra. Qed.
  Lemma near_same a x X B X' B' : X = X' -> B = B' -> near a x X B -> near a x X' B'.
  Proof. now intros -> ->. Qed.

  Lemma eom_close p z mass bfield efield bm em sm :
    (1 <= z <= 1000)%Z -> bounded mass 1 (2 ^ 100) -> moving p ->
    is_finite bfield = true -> is_finite efield = true ->
    Rabs (R64 bfield) <= bm -> Rabs (R64 efield) <= em -> pb 110 bm -> pb 110 em -> pb 110 sm ->
    (forall k, is_finite k = true -> is_finite (dedx k) = true /\ Rabs (R64 (dedx k)) <= sm) ->
    let P := sqrt (momentum2 p) in
    let be := speed_factor p in
    let q_m := IZR z * R64 e_charge / (R64 mass * R64 mev_kg) in
    let drag s := s * R64 mev_joule * R64 density * 100 / (R64 mass * R64 mev_kg) in
    exists vx vy vz fx fy fz k,
      eom64 pw c e_charge mev_kg mev_joule dedx density bfield efield z mass p
        = Ok (mkVec64 vx vy vz, mkVec64 fx fy fz) /\
      is_finite k = true /\ Rabs (R64 k - kinetic (R64 mass) p) <= 26 * (u * (R64 mass * lorentz_factor p)) /\
      near 29 vx (R64 (vx64 p) / P * be * R64 c) (1 * be * R64 c) /\
      near 29 vy (R64 (vy64 p) / P * be * R64 c) (1 * be * R64 c) /\
      near 29 vz (R64 (vz64 p) / P * be * R64 c) (1 * be * R64 c) /\
      near 52 fx ((q_m * (R64 (vy64 p) / P * be * R64 c) * R64 bfield - drag (R64 (dedx k)) * (R64 (vx64 p) / P)) / R64 c)
                 ((q_m * (1 * be * R64 c) * bm + drag sm * 1) / R64 c) /\
      near 52 fy ((q_m * (-1 * (R64 (vx64 p) / P * be * R64 c) * R64 bfield) - drag (R64 (dedx k)) * (R64 (vy64 p) / P)) / R64 c)
                 ((q_m * (1 * (1 * be * R64 c) * bm) + drag sm * 1) / R64 c) /\
      near 52 fz ((q_m * R64 efield - drag (R64 (dedx k)) * (R64 (vz64 p) / P)) / R64 c)
                 ((q_m * em + drag sm * 1) / R64 c).
  Proof using Hpw Hc He Hk Hj Hd.
    intros Hz Bm M Fb Fe Lb Le Pbm Pem Psm Hs P be q_m drag.
    destruct (kinetic_close mass p Bm M) as (Fk & Dk). cbv zeta in Fk, Dk.
    destruct (motion_close p M) as (Fg & Rg & Fbe & Rbe & Fga & _ & PbP & Bbe & _). cbv zeta in Fg, Rg, Fbe, Rbe, Fga.
    fold P in Rg, PbP. fold be in Rbe, Bbe.
    unfold eom64. set (gv := gv_pw pw p) in *. set (b64 := beta_pw pw gv) in *.
    rewrite (pydiv64_ok _ _ Fbe) by (pose proof (rel_pos _ _ _ Rbe); lra). cbn [bind]. cbv zeta.
    set (ke := fmul mass (fsub (fdiv gv b64) fone)) in *. clearbody ke.
    destruct Bm as (Fm & Bm).
    assert (Pbm' : pb 100 (R64 mass)) by (split; [|lra]; pose proof (inv_pow_le 0 100 ltac:(lia)) as I; rewrite pow_O, Rinv_1 in I; lra).
    assert (Pbe : pb 201 be).
    { split; [lra|]. pose proof (pw1 201). lra. }
    pose proof (pb_pos _ _ PbP) as PP. pose proof (pb_pos _ _ Pbe) as Pb. pose proof (pb_pos _ _ Pbm) as Pbm0.
    pose proof (pb_pos _ _ Pem) as Pem0. pose proof (pb_pos _ _ Psm) as Psm0.
    pose proof (near_const _ Hc) as Nc. pose proof (near_const _ He) as Ne. pose proof (near_const _ Hk) as Nk.
    pose proof (near_const _ Hj) as Nj. pose proof (near_const _ Hd) as Nd.
    destruct Hc as (_ & Bc), He as (_ & Be'), Hk as (_ & Bk), Hj as (_ & Bj), Hd as (_ & Bd).
    pose proof (pb_pos _ _ Bc) as Pc. pose proof (pb_pos _ _ Be') as Pe. pose proof (pb_pos _ _ Bk) as Pk.
    pose proof (pb_pos _ _ Bj) as Pj. pose proof (pb_pos _ _ Bd) as Pd.
    (* gv, beta *)
    pose proof (near_rel 4 _ _ ltac:(lia) Fg Rg) as Ng. replace (INR 4 + 1) with 5 in Ng by (cbn; lra).
    pose proof (near_rel 14 _ _ ltac:(lia) Fbe Rbe) as Nb. replace (INR 14 + 1) with 15 in Nb by (cbn; lra).
    (* direction *)
    assert (NU : forall x, is_finite x = true -> R64 x ^ 2 <= momentum2 p -> near 8 (fdiv x gv) (R64 x / P) 1).
    { intros x Fx Lx. apply (near_same _ _ (R64 x / P) (P / P)); [reflexivity|field; lra|].
      replace 8 with (0 + 5 + 3) by lra. apply near_div; try lra; [|apply near_exact; [exact Fx|]|exact Ng].
      - replace (P / P) with 1 by (field; lra). split; [|apply pw1]. pose proof (inv_pow_le 0 900 ltac:(lia)) as I. rewrite pow_O, Rinv_1 in I. exact I.
      - unfold P. rewrite <- (sqrt_pow2 (Rabs (R64 x))) by apply Rabs_pos. apply sqrt_le_1_alt. now rewrite pow2_abs. }
    assert (M' := M). destruct M' as (FX & FY & FZ & MB).
    assert (LX : R64 (vx64 p) ^ 2 <= momentum2 p /\ R64 (vy64 p) ^ 2 <= momentum2 p /\ R64 (vz64 p) ^ 2 <= momentum2 p).
    { unfold momentum2. pose proof (pow2_ge_0 (R64 (vx64 p))). pose proof (pow2_ge_0 (R64 (vy64 p))). pose proof (pow2_ge_0 (R64 (vz64 p))). lra. }
    destruct LX as (LX & LY & LZ).
    pose proof (NU _ FX LX) as NX. pose proof (NU _ FY LY) as NY. pose proof (NU _ FZ LZ) as NZ. clear NU.
    set (ux := fdiv (vx64 p) gv) in *. set (uy := fdiv (vy64 p) gv) in *. set (uz := fdiv (vz64 p) gv) in *.
    set (X := R64 (vx64 p) / P) in *. set (Y := R64 (vy64 p) / P) in *. set (Z := R64 (vz64 p) / P) in *.
    (* velocity *)
    assert (pb1 : pb 0 1) by (split; rewrite pow_O, ?Rinv_1; lra).
    assert (pbb : pb 201 (1 * be)) by (rewrite Rmult_1_l; exact Pbe).
    assert (pbv : pb 311 (1 * be * R64 c)) by exact (pb_mul 201 110 _ _ pbb Bc).
    assert (W : forall k t, (k <= 900)%nat -> pb k t -> pb 900 t) by (intros k t L; now apply pb_weak).
    assert (NV : forall a A, near 8 a A 1 -> near 29 (fmul (fmul a b64) c) (A * be * R64 c) (1 * be * R64 c)).
    { intros a A Na. replace 29 with (8 + 15 + 3 + 0 + 3) by lra.
      apply near_mul; try lra; [now apply (W 311%nat); [lia|]| |exact Nc].
      apply near_mul; try lra; [now apply (W 201%nat); [lia|]|exact Na|exact Nb]. }
    pose proof (NV _ _ NX) as VX. pose proof (NV _ _ NY) as VY. pose proof (NV _ _ NZ) as VZ. clear NV.
    set (velx := fmul (fmul ux b64) c) in *. set (vely := fmul (fmul uy b64) c) in *. set (velz := fmul (fmul uz b64) c) in *.
    assert (Pv : 0 < 1 * be * R64 c) by exact (pb_pos _ _ pbv).
    set (BV := 1 * be * R64 c) in *. set (VXr := X * be * R64 c) in *. set (VYr := Y * be * R64 c) in *. set (VZr := Z * be * R64 c) in *.
    (* charge over mass *)
    assert (Rz : R64 (f_of_Z z) = IZR z) by (apply f_of_Z_R; lia).
    assert (Bz : 1 <= IZR z <= 1000) by (split; apply IZR_le; lia).
    assert (pbz : pb 10 (IZR z)).
    { split; [pose proof (inv_pow_le 0 10 ltac:(lia)) as I; rewrite pow_O, Rinv_1 in I; lra|assert (2 ^ 10 = 1024) by ring; lra]. }
    assert (Nz : near 0 (f_of_Z z) (IZR z) (IZR z)).
    { rewrite <- Rz. apply near_exact; [apply f_of_Z_fin; lia|]. rewrite Rz, Rabs_pos_eq; lra. }
    assert (Nm : near 0 mass (R64 mass) (R64 mass)) by (apply near_exact; [exact Fm|rewrite Rabs_pos_eq; lra]).
    assert (pbmk : pb 210 (R64 mass * R64 mev_kg)) by exact (pb_mul 100 110 _ _ Pbm' Bk).
    assert (pbch : pb 120 (IZR z * R64 e_charge)) by exact (pb_mul 10 110 _ _ pbz Be').
    assert (Nmk : near 3 (fmul mass mev_kg) (R64 mass * R64 mev_kg) (R64 mass * R64 mev_kg)).
    { replace 3 with (0 + 0 + 3) by lra. apply near_mul; try lra; [now apply (W 210%nat); [lia|]|exact Nm|exact Nk]. }
    assert (Nch : near 3 (fmul (f_of_Z z) e_charge) (IZR z * R64 e_charge) (IZR z * R64 e_charge)).
    { replace 3 with (0 + 0 + 3) by lra. apply near_mul; try lra; [now apply (W 120%nat); [lia|]|exact Nz|exact Ne]. }
    pose proof (pb_pos _ _ pbmk) as Pmk. pose proof (pb_pos _ _ pbch) as Pch.
    assert (Nzmk : R64 (fmul mass mev_kg) <> 0).
    { destruct Nmk as (_ & D & _). destruct small_facts as (U0 & U1 & _). apply Rabs_le_inv in D.
      assert (u * (R64 mass * R64 mev_kg) <= / 1000000000000000 * (R64 mass * R64 mev_kg)) by (apply Rmult_le_compat_r; lra). lra. }
    rewrite !(pydiv64_ok _ (fmul mass mev_kg)) by (exact Nzmk || apply Nmk). cbn [bind].
    assert (pbq : pb 330 q_m) by exact (pb_div 120 210 _ _ pbch pbmk).
    assert (Nq : near 9 (fdiv (fmul (f_of_Z z) e_charge) (fmul mass mev_kg)) q_m q_m).
    { replace 9 with (3 + 3 + 3) by lra. apply near_div; try lra; [now apply (W 330%nat); [lia|]|exact Nch|exact Nmk]. }
    set (qm := fdiv (fmul (f_of_Z z) e_charge) (fmul mass mev_kg)) in *. pose proof (pb_pos _ _ pbq) as Pq. clearbody q_m qm.
    (* drag *)
    destruct (Hs ke Fk) as (Fs & Ls).
    assert (N100 : near 0 (f_of_Z 100) 100 100).
    { assert (E : R64 (f_of_Z 100) = 100) by (apply f_of_Z_R; lia). rewrite <- E at 1. apply near_exact; [apply f_of_Z_fin; lia|rewrite E, Rabs_pos_eq; lra]. }
    assert (pb100 : pb 7 100).
    { split; [pose proof (inv_pow_le 0 7 ltac:(lia)) as I; rewrite pow_O, Rinv_1 in I; lra|assert (2 ^ 7 = 128) by ring; lra]. }
    assert (pb_1 : pb 220 (sm * R64 mev_joule)) by exact (pb_mul 110 110 _ _ Psm Bj).
    assert (pb_2 : pb 330 (sm * R64 mev_joule * R64 density)) by exact (pb_mul 220 110 _ _ pb_1 Bd).
    assert (pb_3 : pb 337 (sm * R64 mev_joule * R64 density * 100)) by exact (pb_mul 330 7 _ _ pb_2 pb100).
    assert (pbD : pb 547 (drag sm)) by exact (pb_div 337 210 _ _ pb_3 pbmk).
    pose proof (pb_pos _ _ pb_1) as P1. pose proof (pb_pos _ _ pb_2) as P2. pose proof (pb_pos _ _ pb_3) as P3. pose proof (pb_pos _ _ pbD) as PD.
    assert (ND : near 15 (fdiv (fmul (fmul (fmul (dedx ke) mev_joule) density) (f_of_Z 100)) (fmul mass mev_kg)) (drag (R64 (dedx ke))) (drag sm)).
    { replace 15 with (0 + 0 + 3 + 0 + 3 + 0 + 3 + 3 + 3) by lra. unfold drag.
      apply near_div; try lra; [now apply (W 547%nat); [lia|]| |exact Nmk].
      apply near_mul; try lra; [now apply (W 337%nat); [lia|]| |exact N100].
      apply near_mul; try lra; [now apply (W 330%nat); [lia|]| |exact Nd].
      apply near_mul; try lra; [now apply (W 220%nat); [lia|]| |exact Nj].
      now apply near_exact. }
    set (dec := fdiv (fmul (fmul (fmul (dedx ke) mev_joule) density) (f_of_Z 100)) (fmul mass mev_kg)) in *.
    assert (NDU : forall a A, near 8 a A 1 -> near 26 (fmul dec a) (drag (R64 (dedx ke)) * A) (drag sm * 1)).
    { intros a A Na. replace 26 with (15 + 8 + 3) by lra. apply near_mul; try lra; [|exact ND|exact Na].
      rewrite Rmult_1_r. now apply (W 547%nat); [lia|]. }
    pose proof (NDU _ _ NX) as DX. pose proof (NDU _ _ NY) as DY. pose proof (NDU _ _ NZ) as DZ. clear NDU.
    assert (pbD1 : pb 547 (drag sm * 1)) by (rewrite Rmult_1_r; exact pbD). pose proof (pb_pos _ _ pbD1) as PD1.
    set (DB := drag sm * 1) in *.
    (* sums *)
    assert (FIN : forall a b A B T, near 47 a A T -> near 26 b B DB -> 0 < T -> pb 761 T ->
       near 52 (fdiv (fsub a b) c) ((A - B) / R64 c) ((T + DB) / R64 c)).
    { intros a b A B T Na Nb' PT pbT.
      assert (pbS : pb 762 (T + DB)) by (apply pb_add; [exact pbT|now apply (pb_weak 547); [lia|]]).
      replace 52 with (47 + 2 + 0 + 3) by lra. apply near_div; try lra; [now apply (W (762 + 110)%nat); [lia|apply pb_div]| |exact Nc].
      apply near_sub; try lra; [now apply (W 762%nat); [lia|]|exact Na|]. apply near_weak with 26; [lra|lra|exact Nb']. }
    assert (Nbf : near 0 bfield (R64 bfield) bm) by now apply near_exact.
    assert (Nef : near 0 efield (R64 efield) em) by now apply near_exact.
    assert (pbqv : pb 641 (q_m * BV)) by exact (pb_mul 330 311 _ _ pbq pbv). pose proof (pb_pos _ _ pbqv) as Pqv.
    assert (pbqvb : pb 751 (q_m * BV * bm)) by exact (pb_mul 641 110 _ _ pbqv Pbm). pose proof (pb_pos _ _ pbqvb) as Pqvb.
    exists velx, vely, velz. do 3 eexists. exists ke. split; [reflexivity|].
    split; [exact Fk|]. split; [exact Dk|]. split; [exact VX|]. split; [exact VY|]. split; [exact VZ|].
    split; [|split].
    - apply FIN; [|exact DX|exact Pqvb|now apply (pb_weak 751); [lia|]].
      apply near_weak with (9 + 29 + 3 + 0 + 3); [exact Pqvb|lra|].
      apply near_mul; try lra; [now apply (W 751%nat); [lia|]| |exact Nbf].
      apply near_mul; try lra; [now apply (W 641%nat); [lia|]|exact Nq|exact VY].
    - assert (N1 : near 0 (f_of_Z (-1)) (-1) 1).
      { assert (E : R64 (f_of_Z (-1)) = -1) by (apply f_of_Z_R; lia). rewrite <- E. apply near_exact; [apply f_of_Z_fin; lia|].
        rewrite E. rewrite Rabs_left; lra. }
      assert (E1 : 1 * BV = BV) by ring. assert (pbv1 : pb 421 (1 * BV * bm)) by (rewrite E1; exact (pb_mul 311 110 _ _ pbv Pbm)).
      pose proof (pb_pos _ _ pbv1) as Pv1. assert (pbt : pb 751 (q_m * (1 * BV * bm))) by exact (pb_mul 330 421 _ _ pbq pbv1).
      pose proof (pb_pos _ _ pbt) as Pt.
      apply FIN; [|exact DY|exact Pt|now apply (pb_weak 751); [lia|]].
      replace 47 with (9 + (0 + 29 + 3 + 0 + 3) + 3) by lra.
      apply near_mul; try lra; [now apply (W 751%nat); [lia|]|exact Nq|].
      apply near_mul; try lra; [now apply (W 421%nat); [lia|]| |exact Nbf].
      apply near_mul; try lra; [rewrite E1; now apply (W 311%nat); [lia|]|exact N1|exact VX].
    - assert (pbe : pb 440 (q_m * em)) by exact (pb_mul 330 110 _ _ pbq Pem). pose proof (pb_pos _ _ pbe) as Pqe.
      apply FIN; [|exact DZ|exact Pqe|now apply (pb_weak 440); [lia|]].
      apply near_weak with (9 + 0 + 3); [exact Pqe|lra|].
      apply near_mul; try lra; [now apply (W 440%nat); [lia|]|exact Nq|exact Nef].
  Qed.

  (** C78: the computed derivatives are the relativistic velocity and the Lorentz force with drag,
      up to 2^-48 of the speed and 2^-47 of the terms of the force; the stopping power is taken at a
      kinetic energy right up to 2^-48 of the total energy. [bm], [em] and [sm] bound the fields and
      the stopping power. *)
  Theorem C78_motion p z mass bfield efield bm em sm :
    (1 <= z <= 1000)%Z -> bounded mass 1 (2 ^ 100) -> moving p ->
    is_finite bfield = true -> is_finite efield = true ->
    Rabs (R64 bfield) <= bm -> Rabs (R64 efield) <= em -> pb 110 bm -> pb 110 em -> pb 110 sm ->
    (forall k, is_finite k = true -> is_finite (dedx k) = true /\ Rabs (R64 (dedx k)) <= sm) ->
    let size := sqrt (momentum2 p) in
    let gamma := lorentz_factor p in
    let speed := R64 c * (size / gamma) in
    let velocity (i : vec64 -> f64) := R64 c * R64 (i p) / gamma in
    let direction (i : vec64 -> f64) := R64 (i p) / size in
    let kg := R64 mass * R64 mev_kg in
    let q_m := IZR z * R64 e_charge / kg in
    let drag s := s * R64 mev_joule * (R64 density * 100) / kg in
    exists v f k,
      eom64 pw c e_charge mev_kg mev_joule dedx density bfield efield z mass p = Ok (v, f) /\
      Rabs (R64 k - R64 mass * (gamma - 1)) <= / 2 ^ 48 * (R64 mass * gamma) /\
      (forall i, In i [vx64; vy64; vz64] -> is_finite (i v) = true /\ Rabs (R64 (i v) - velocity i) <= / 2 ^ 48 * speed) /\
      (forall i, In i [vx64; vy64; vz64] -> is_finite (i f) = true) /\
      let s := R64 (dedx k) in
      Rabs (R64 (vx64 f) - (q_m * velocity vy64 * R64 bfield - drag s * direction vx64) / R64 c)
        <= / 2 ^ 47 * ((q_m * speed * bm + drag sm) / R64 c) /\
      Rabs (R64 (vy64 f) - (- q_m * velocity vx64 * R64 bfield - drag s * direction vy64) / R64 c)
        <= / 2 ^ 47 * ((q_m * speed * bm + drag sm) / R64 c) /\
      Rabs (R64 (vz64 f) - (q_m * R64 efield - drag s * direction vz64) / R64 c)
        <= / 2 ^ 47 * ((q_m * em + drag sm) / R64 c).
  Proof using Hpw Hc He Hk Hj Hd.
    intros Hz Bm M Fb Fe Lb Le Pbm Pem Psm Hs size gamma speed velocity direction kg q_m drag.
    destruct (eom_close p z mass bfield efield bm em sm Hz Bm M Fb Fe Lb Le Pbm Pem Psm Hs)
      as (vx & vy & vz & fx & fy & fz & k & E & Fk & Dk & (FVx & VX & _) & (FVy & VY & _) & (FVz & VZ & _) & (FX & DX & BX) & (FY & DY & BY) & (FZ & DZ & BZ)).
    destruct (motion_close p M) as (_ & _ & _ & _ & _ & _ & PbP & Bbe & ER).
    fold size in PbP, ER, VX, VY, VZ, DX, DY, DZ, BX, BY, BZ. fold gamma in ER, Dk.
    pose proof (lorentz_ge1 p) as G1. fold gamma in G1. pose proof (pb_pos _ _ PbP) as PP. pose proof (ip 201).
    set (be := speed_factor p) in *. assert (Pb : 0 < be) by lra.
    assert (Eb : be = size / gamma) by (rewrite <- ER; field; lra).
    assert (EV : forall x, x / size * be * R64 c = R64 c * x / gamma) by (intros x; rewrite Eb; field; lra).
    assert (ES : 1 * be * R64 c = speed) by (unfold speed; rewrite Eb; ring).
    rewrite ES, EV in VX, VY, VZ, DX, DY. rewrite EV in VX, VY, VZ, DX, DY || idtac.
    assert (ED : forall t, t * R64 mev_joule * R64 density * 100 / (R64 mass * R64 mev_kg) = drag t) by (intros t; unfold drag, kg, Rdiv; ring).
    rewrite !ED in DX, DY, DZ. fold kg in DX, DY, DZ. fold q_m in DX, DY, DZ.
    exists (mkVec64 vx vy vz), (mkVec64 fx fy fz), k. split; [exact E|].
    destruct small_facts as (U0 & _). pose proof (pb_pos _ _ (proj2 Hc)) as Pc.
    assert (Ps : 0 < u * speed).
    { apply Rmult_lt_0_compat; [lra|]. unfold speed. apply Rmult_lt_0_compat; [lra|]. rewrite <- Eb. exact Pb. }
    destruct Bm as (Fm & Bm). rewrite thirtytwo_u, u_47.
    split.
    { unfold kinetic in Dk. fold gamma in Dk. assert (0 < u * (R64 mass * gamma)) by (apply Rmult_lt_0_compat; [lra|apply Rmult_lt_0_compat; lra]). lra. }
    split.
    { intros i [<-|[<-|[<-|[]]]]; cbn [vx64 vy64 vz64]; (split; [assumption|]); unfold velocity; lra. }
    split.
    { intros i [<-|[<-|[<-|[]]]]; assumption. }
    cbv zeta. cbn [vx64 vy64 vz64].
    assert (T : forall t : R, 0 <= t -> 52 * (u * t) <= 64 * u * t).
    { intros t Ht. assert (0 <= u * t) by (apply Rmult_le_pos; lra). lra. }
    split; [|split].
    - eapply Rle_trans; [|apply T].
      + replace (drag sm) with (drag sm * 1) by ring. exact DX.
      + eapply Rle_trans; [apply Rabs_pos|]. replace (drag sm) with (drag sm * 1) by ring. rewrite ES, !ED in BX. exact BX.
    - eapply Rle_trans; [|apply T].
      + replace ((q_m * speed * bm + drag sm) / R64 c) with ((q_m * (1 * speed * bm) + drag sm * 1) / R64 c) by (unfold Rdiv; ring).
        eapply Rle_trans; [|exact DY]. right. f_equal. f_equal. unfold velocity, direction, Rdiv. ring.
      + eapply Rle_trans; [apply Rabs_pos|]. rewrite ES, !ED in BY.
        replace ((q_m * speed * bm + drag sm) / R64 c) with ((q_m * (1 * speed * bm) + drag sm * 1) / R64 c) by (unfold Rdiv; ring). exact BY.
    - eapply Rle_trans; [|apply T].
      + replace (drag sm) with (drag sm * 1) by ring. exact DZ.
      + eapply Rle_trans; [apply Rabs_pos|]. rewrite !ED in BZ. replace (drag sm) with (drag sm * 1) by ring. exact BZ.
  Qed.
End Pow.

(** No computed velocity exceeds c by more than rounding. *)
Theorem C78_speed pw c e_charge mev_kg mev_joule density dedx p z mass bfield efield bm em sm :
  square_ok pw -> constant c -> constant e_charge -> constant mev_kg -> constant mev_joule -> constant density ->
  (1 <= z <= 1000)%Z -> bounded mass 1 (2 ^ 100) -> moving p ->
  is_finite bfield = true -> is_finite efield = true ->
  Rabs (R64 bfield) <= bm -> Rabs (R64 efield) <= em -> pb 110 bm -> pb 110 em -> pb 110 sm ->
  (forall k, is_finite k = true -> is_finite (dedx k) = true /\ Rabs (R64 (dedx k)) <= sm) ->
  exists v f, eom64 pw c e_charge mev_kg mev_joule dedx density bfield efield z mass p = Ok (v, f) /\
    momentum2 v <= R64 c ^ 2 * (1 + / 2 ^ 45).
Proof.
  intros Hpw Hc He Hk Hj Hd Hz Bm M Fb Fe Lb Le Pbm Pem Psm Hs.
  destruct (C78_motion pw Hpw c e_charge mev_kg mev_joule density dedx Hc He Hk Hj Hd p z mass bfield efield bm em sm
    Hz Bm M Fb Fe Lb Le Pbm Pem Psm Hs) as (v & f & k & E & _ & V & _).
  exists v, f. split; [exact E|]. cbv zeta in V.
  assert (VX := proj2 (V vx64 ltac:(simpl; auto))). assert (VY := proj2 (V vy64 ltac:(simpl; auto))). assert (VZ := proj2 (V vz64 ltac:(simpl; auto))).
  cbv beta in VX, VY, VZ. clear V E. unfold momentum2 at 1.
  pose proof (lorentz_ge1 p) as G1. pose proof (pb_pos _ _ (proj2 Hc)) as Pc.
  assert (M2 : momentum2 p = lorentz_factor p ^ 2 - 1).
  { unfold lorentz_factor. rewrite pow2_sqrt; [ring|]. destruct M as (_ & _ & _ & B). pose proof (ip 200). lra. }
  set (g := lorentz_factor p) in *. set (cc := R64 c) in *.
  set (a := cc * R64 (vx64 p) / g) in *. set (b := cc * R64 (vy64 p) / g) in *. set (d := cc * R64 (vz64 p) / g) in *.
  set (w := cc * (sqrt (momentum2 p) / g)) in *.
  assert (P0 : 0 <= momentum2 p) by (destruct M as (_ & _ & _ & B); pose proof (ip 200); lra).
  assert (W0 : 0 <= w).
  { unfold w. apply Rmult_le_pos; [lra|]. apply Rle_mult_inv_pos; [apply sqrt_pos|lra]. }
  assert (SW : a ^ 2 + b ^ 2 + d ^ 2 = w ^ 2).
  { unfold a, b, d, w. replace ((cc * (sqrt (momentum2 p) / g)) ^ 2) with (cc ^ 2 * (sqrt (momentum2 p) ^ 2) / g ^ 2) by (field; lra).
    rewrite pow2_sqrt by exact P0. unfold momentum2. field. lra. }
  assert (WC : w ^ 2 <= cc ^ 2).
  { unfold w. replace ((cc * (sqrt (momentum2 p) / g)) ^ 2) with (cc ^ 2 * (sqrt (momentum2 p) ^ 2 / g ^ 2)) by (field; lra).
    rewrite pow2_sqrt by exact P0. rewrite <- (Rmult_1_r (cc ^ 2)) at 2. apply Rmult_le_compat_l; [apply pow2_ge_0|].
    apply div_le; [apply pow_lt; lra|]. lra. }
  assert (AB : forall t, t ^ 2 <= w ^ 2 -> Rabs t <= w).
  { intros t Ht. rewrite <- (sqrt_pow2 (Rabs t)), <- (sqrt_pow2 w) by (try exact W0; apply Rabs_pos). apply sqrt_le_1_alt. now rewrite pow2_abs. }
  pose proof (pow2_ge_0 a). pose proof (pow2_ge_0 b). pose proof (pow2_ge_0 d).
  pose proof (AB a ltac:(lra)) as La. pose proof (AB b ltac:(lra)) as Lb'. pose proof (AB d ltac:(lra)) as Ld.
  rewrite thirtytwo_u in VX, VY, VZ. rewrite u_45. destruct small_facts as (U0 & U1 & _).
  assert (SQ : forall t s, Rabs t <= w -> Rabs (s - t) <= 32 * u * w -> s ^ 2 <= t ^ 2 + 65 * (u * w ^ 2)).
  { intros t s Lt Ds. replace (s ^ 2) with (t ^ 2 + (s - t) * (2 * t + (s - t))) by ring. apply Rplus_le_compat_l.
    assert (X : (s - t) * (2 * t + (s - t)) <= 32 * u * w * (2 * w + 32 * u * w)).
    { eapply Rle_trans; [apply Rle_abs|]. rewrite Rabs_mult. apply Rmult_le_compat; try apply Rabs_pos; [exact Ds|].
      eapply Rle_trans; [apply Rabs_triang|]. rewrite Rabs_mult, (Rabs_pos_eq 2) by lra. lra. }
    replace (32 * u * w * (2 * w + 32 * u * w)) with (64 * (u * w ^ 2) + 1024 * u * (u * w ^ 2)) in X by ring.
    assert (0 <= u * w ^ 2) by (apply Rmult_le_pos; [lra|apply pow2_ge_0]).
    assert (1024 * u * (u * w ^ 2) <= 1 * (u * w ^ 2)) by (apply Rmult_le_compat_r; lra). lra. }
  pose proof (SQ _ _ La VX). pose proof (SQ _ _ Lb' VY). pose proof (SQ _ _ Ld VZ).
  assert (u * w ^ 2 <= u * cc ^ 2) by (apply Rmult_le_compat_l; lra).
  assert (0 <= u * w ^ 2) by (apply Rmult_le_pos; [lra|apply pow2_ge_0]). lra.
Qed.

(** The ends of the detector: the conditions in z have exactly the right sign, that in rho except
    within 2^-49 of 0.292 m. *)
Lemma max_rho_R : is_finite max_rho = true /\ Rabs (R64 max_rho - 292 / 1000) <= / 2 ^ 54.
Proof.
  destruct (f_of_ZE_correct 5260204364768739 (-54) ltac:(lia) ltac:(lia)) as (E & F). split; [exact F|].
  unfold max_rho. rewrite E. replace (bpow radix2 (-54)) with (/ 18014398509481984) by (cbn; lra). apply Rabs_le. lra.
Qed.

Theorem C78_ends z x y : is_finite z = true -> Rabs (R64 z) <= 2 ^ 100 -> is_finite x = true -> is_finite y = true ->
  Rabs (R64 x) <= 2 ^ 100 -> Rabs (R64 y) <= 2 ^ 100 ->
  let r := sqrt (R64 x ^ 2 + R64 y ^ 2) in
  (0 < R64 (forward_z64 z) <-> 1 < R64 z) /\ (R64 (forward_z64 z) < 0 <-> R64 z < 1) /\
  R64 (backward_z64 z) = R64 z /\
  (292 / 1000 * (1 + / 2 ^ 49) < r -> 0 < R64 (rho64 x y)) /\ (r < 292 / 1000 * (1 - / 2 ^ 49) -> R64 (rho64 x y) < 0).
Proof.
  intros Fz Bz Fx Fy Bx By r.
  assert (O : R64 fone = 1) by (unfold fone; apply f_of_Z_R; lia).
  assert (Fo : is_finite fone = true) by (unfold fone; apply f_of_Z_fin; lia).
  assert (P100 : 2 * 2 ^ 100 <= 2 ^ 900) by (change (2 ^ 101 <= 2 ^ 900); apply Rle_pow; [lra|lia]).
  assert (Q100 : 1 <= 2 ^ 100) by apply pw1.
  destruct (fsub_fin z fone 1000 Fz Fo ltac:(lia)) as (Ez & _).
  { apply big900. rewrite O. apply Rabs_le_inv in Bz. apply Rabs_le. lra. }
  rewrite O in Ez.
  assert (F1 : fmt64 1) by (rewrite <- O; apply fmt64_R).
  split. { unfold forward_z64. rewrite Ez. apply rnd_sub_pos; [apply fmt64_R|exact F1]. }
  split.
  { unfold forward_z64. rewrite Ez. split; [|apply rnd_sub_neg; [apply fmt64_R|exact F1]].
    intros H. destruct (Rlt_or_le (R64 z) 1) as [L|L]; [exact L|].
    assert (0 <= rnd64 (R64 z - 1)) by (apply rnd64_ge_fmt; [apply generic_format_0|lra]). lra. }
  split; [reflexivity|].
  destruct (mul_square_ok x Fx) as (Fa & Na & Da); [eapply Rle_trans; [exact Bx|apply Rle_pow; [lra|lia]]|].
  destruct (mul_square_ok y Fy) as (Fb & Nb & Db); [eapply Rle_trans; [exact By|apply Rle_pow; [lra|lia]]|].
  cbv beta in *. rewrite two_u in Da, Db. unfold rho64. set (a := fmul x x) in *. set (b := fmul y y) in *.
  pose proof (pow2_ge_0 (R64 x)) as X0. pose proof (pow2_ge_0 (R64 y)) as Y0.
  set (X := R64 x ^ 2) in *. set (Y := R64 y ^ 2) in *. destruct small_facts as (U0 & U1 & T0 & T1).
  assert (XB : X <= 2 ^ 200).
  { unfold X. rewrite <- pow2_abs. replace (2 ^ 200) with ((2 ^ 100) ^ 2) by (rewrite <- pow_mult; reflexivity). apply pow_incr. split; [apply Rabs_pos|exact Bx]. }
  assert (YB : Y <= 2 ^ 200).
  { unfold Y. rewrite <- pow2_abs. replace (2 ^ 200) with ((2 ^ 100) ^ 2) by (rewrite <- pow_mult; reflexivity). apply pow_incr. split; [apply Rabs_pos|exact By]. }
  assert (P200 : 1 <= 2 ^ 200) by apply pw1.
  assert (P900 : 4 * 2 ^ 200 <= 2 ^ 900).
  { replace (4 * 2 ^ 200) with (2 ^ 202) by (cbn [pow]; ring). apply Rle_pow; [lra|lia]. }
  apply Rabs_le_inv in Da. apply Rabs_le_inv in Db.
  assert (uX : 0 <= u * X <= / 1000000000000000 * X) by (split; [apply Rmult_le_pos; lra|apply Rmult_le_compat_r; lra]).
  assert (uY : 0 <= u * Y <= / 1000000000000000 * Y) by (split; [apply Rmult_le_pos; lra|apply Rmult_le_compat_r; lra]).
  destruct (fadd_fin a b 1000 Fa Fb ltac:(lia)) as (Es & Fs).
  { apply big900. rewrite Rabs_pos_eq; lra. }
  set (s := fadd a b) in *.
  assert (S0 : 0 <= R64 s) by (rewrite Es; apply rnd64_ge_fmt; [apply generic_format_0|lra]).
  assert (SD : Rabs (R64 s - (X + Y)) <= 4 * (u * (X + Y)) + 4 * eta).
  { pose proof (rnd_bound (R64 a + R64 b) (2 * (X + Y) + 2 * eta) ltac:(rewrite Rabs_pos_eq; lra)) as R. rewrite <- Es in R.
    apply Rabs_le_inv in R. assert (u * eta <= / 1000000000000000 * eta) by (apply Rmult_le_compat_r; lra). apply Rabs_le. lra. }
  apply Rabs_le_inv in SD.
  destruct (fsqrt_fin0 s Fs S0) as (Er & Fr). set (r64 := fsqrt s) in *.
  assert (r2 : r * r = X + Y) by (apply sqrt_sqrt; lra). assert (r0 : 0 <= r) by apply sqrt_pos.
  assert (SB : R64 s <= 4 * 2 ^ 200) by lra.
  assert (SQB : sqrt (R64 s) <= 2 ^ 101).
  { rewrite <- (sqrt_pow 101). apply sqrt_le_1_alt. eapply Rle_trans; [exact SB|]. right. cbn [Nat.add pow]. ring. }
  pose proof (sqrt_pos (R64 s)) as SQ0.
  pose proof (rnd_bound (sqrt (R64 s)) (2 ^ 101) ltac:(rewrite Rabs_pos_eq; lra)) as RB. rewrite <- Er in RB. apply Rabs_le_inv in RB.
  destruct max_rho_R as (Fm & Dm). apply Rabs_le_inv in Dm. rewrite u_54 in Dm.
  assert (P101 : 1 <= 2 ^ 101) by apply pw1. assert (P901 : 4 * 2 ^ 101 <= 2 ^ 900).
  { replace (4 * 2 ^ 101) with (2 ^ 103) by (cbn [pow]; ring). apply Rle_pow; [lra|lia]. }
  assert (uP : u * 2 ^ 101 <= 2 ^ 101) by (rewrite <- (Rmult_1_l (2 ^ 101)) at 2; apply Rmult_le_compat_r; lra).
  destruct (fsub_fin r64 max_rho 1000 Fr Fm ltac:(lia)) as (Ed & _).
  { apply big900. apply Rabs_le. lra. }
  rewrite Ed, u_49. clear RB.
  assert (RE : forall t, 0 <= t -> Rabs (rnd64 t - t) <= u * t + eta).
  { intros t Ht. apply rnd_bound. rewrite Rabs_pos_eq; lra. }
  split; intros H.
  - apply rnd_sub_pos; try apply fmt64_R. rewrite Er.
    (* s is at least the square of 0.292 (1 + 10 u) *)
    assert (G : (292 / 1000 * (1 + 10 * u)) * (292 / 1000 * (1 + 10 * u)) <= R64 s).
    { assert (A : (292 / 1000 * (1 + 16 * u)) * (292 / 1000 * (1 + 16 * u)) <= X + Y) by (rewrite <- r2; apply Rmult_le_compat; lra).
      assert (uu : 0 <= u * u <= / 1000000000000000 * u) by (split; [apply Rmult_le_pos; lra|apply Rmult_le_compat_r; lra]).
      assert (B : (X + Y) * (1 - 4 * u) - 4 * eta <= R64 s) by lra.
      assert (A2 : (292 / 1000 * (1 + 16 * u)) * (292 / 1000 * (1 + 16 * u)) * (1 - 4 * u) <= (X + Y) * (1 - 4 * u)) by (apply Rmult_le_compat_r; lra).
      assert (uuu : 0 <= u * (u * u) <= / 1000000000000000 * (u * u)) by (split; [apply Rmult_le_pos; lra|apply Rmult_le_compat_r; lra]).
      lra. }
    assert (G2 : 292 / 1000 * (1 + 10 * u) <= sqrt (R64 s)).
    { rewrite <- (sqrt_square (292 / 1000 * (1 + 10 * u))) by lra. apply sqrt_le_1_alt. exact G. }
    pose proof (RE _ SQ0) as R. apply Rabs_le_inv in R.
    assert (L : 292 / 1000 * (1 + 10 * u) * (1 - u) <= sqrt (R64 s) * (1 - u)) by (apply Rmult_le_compat_r; lra).
    assert (uu : 0 <= u * u <= / 1000000000000000 * u) by (split; [apply Rmult_le_pos; lra|apply Rmult_le_compat_r; lra]). lra.
  - apply rnd_sub_neg; try apply fmt64_R. rewrite Er.
    assert (uu : 0 <= u * u <= / 1000000000000000 * u) by (split; [apply Rmult_le_pos; lra|apply Rmult_le_compat_r; lra]).
    assert (uuu : 0 <= u * (u * u) <= / 1000000000000000 * (u * u)) by (split; [apply Rmult_le_pos; lra|apply Rmult_le_compat_r; lra]).
    assert (G : R64 s <= (292 / 1000 * (1 - 10 * u)) * (292 / 1000 * (1 - 10 * u))).
    { assert (A : X + Y <= (292 / 1000 * (1 - 16 * u)) * (292 / 1000 * (1 - 16 * u))) by (rewrite <- r2; apply Rmult_le_compat; lra).
      assert (B : R64 s <= (X + Y) * (1 + 4 * u) + 4 * eta) by lra.
      assert (A2 : (X + Y) * (1 + 4 * u) <= (292 / 1000 * (1 - 16 * u)) * (292 / 1000 * (1 - 16 * u)) * (1 + 4 * u)) by (apply Rmult_le_compat_r; lra).
      lra. }
    assert (G2 : sqrt (R64 s) <= 292 / 1000 * (1 - 10 * u)).
    { rewrite <- (sqrt_square (292 / 1000 * (1 - 10 * u))) by lra. apply sqrt_le_1_alt. exact G. }
    pose proof (RE _ SQ0) as R. apply Rabs_le_inv in R.
    assert (u * sqrt (R64 s) <= u * (292 / 1000 * (1 - 10 * u))) by (apply Rmult_le_compat_l; lra). lra.
Qed.

(** At rest, or with a momentum whose square underflows, both functions raise. *)
Theorem C78_rest pw c e_charge mev_kg mev_joule density dedx bfield efield z mass p :
  (forall s, pw (B754_zero s) = f_of_Z 0) ->
  fzero (vx64 p) -> fzero (vy64 p) -> fzero (vz64 p) ->
  eom64 pw c e_charge mev_kg mev_joule dedx density bfield efield z mass p = Err ZeroDivisionError /\
  stop64 pw mass p = Err ZeroDivisionError.
Proof.
  intros Hp (s1 & X) (s2 & Y) (s3 & Z). unfold eom64, stop64.
  assert (E : gv_pw pw p = f_of_Z 0).
  { unfold gv_pw. rewrite X, Y, Z, !Hp. apply same64_eq. vm_compute. reflexivity. }
  assert (B : feqb (beta_pw pw (gv_pw pw p)) (f_of_Z 0) = true).
  { rewrite E. destruct f_of_Z_0 as (s & E0). unfold beta_pw. rewrite E0 at 1 2. rewrite Hp. vm_compute. reflexivity. }
  unfold pydiv64. rewrite B. split; reflexivity.
Qed.

Example C78_rest_example :
  stop64 (fun x => fmul x x) (f_of_Z 3728) (mkVec64 (B754_zero false) (B754_zero true) (B754_zero false)) = Err ZeroDivisionError.
Proof.
  refine (proj2 (C78_rest (fun x => fmul x x) fone fone fone fone fone (fun x => x) fone fone 2 (f_of_Z 3728) _ _ _ _ _)).
  - intros []; apply same64_eq; vm_compute; reflexivity.
  - now exists false.
  - now exists true.
  - now exists false.
Qed.

Theorem C78_moving_is_enough_refuted :
  exists pw p, square_ok pw /\ is_finite (vx64 p) = true /\ 0 < R64 (vx64 p) /\
    forall c e_charge mev_kg mev_joule density dedx bfield efield z mass,
      eom64 pw c e_charge mev_kg mev_joule dedx density bfield efield z mass p = Err ZeroDivisionError.
Proof.
  exists (fun x => fmul x x), (mkVec64 (f_of_ZE 1 (-600)) (f_of_Z 0) (f_of_Z 0)). split; [exact mul_square_ok|].
  destruct (f_of_ZE_correct 1 (-600) ltac:(lia) ltac:(lia)) as (E & F). split; [exact F|]. split.
  - cbn [vx64]. rewrite E. pose proof (bpow_gt_0 radix2 (-600)). lra.
  - intros. unfold eom64, pydiv64.
    assert (B : feqb (beta_pw (fun x => fmul x x) (gv_pw (fun x => fmul x x) (mkVec64 (f_of_ZE 1 (-600)) (f_of_Z 0) (f_of_Z 0)))) (f_of_Z 0) = true)
      by (vm_compute; reflexivity).
    rewrite B. reflexivity.
Qed.

(** An alpha particle at 0.6 c along x in 3 T and 50 kV/m in a gas. *)
Example C78_example :
  let c := f_of_Z 299792458 in
  let e_charge := f_of_ZE 6654912938124851 (-115) in
  let mev_kg := f_of_ZE 5087410474243233 (-151) in
  let mev_joule := f_of_ZE 6346505106926823 (-95) in
  let density := f_of_ZE 4503599627370496 (-65) in
  let p := mkVec64 (quarters 3) (quarters 0) (quarters 0) in
  exists v f, eom64 (fun x => fmul x x) c e_charge mev_kg mev_joule (fun _ => f_of_Z 500) density
      (f_of_Z (-3)) (f_of_Z (-50000)) 2 (f_of_Z 3728) p = Ok (v, f) /\
    Rabs (R64 (vx64 v) - 3 / 5 * 299792458) <= / 1000.
Proof.
  intros c e_charge mev_kg mev_joule density p.
  assert (CN : forall m e, (2 ^ 45 <= m < 2 ^ 53)%Z -> (-151 <= e <= 0)%Z -> constant (f_of_ZE m e)).
  { intros m e Hm He. destruct (f_of_ZE_correct m e ltac:(lia) ltac:(lia)) as (E & F). split; [exact F|]. rewrite E.
    assert (M1 : 2 ^ 45 <= IZR m <= 2 ^ 53).
    { rewrite !pow_IZR. split; apply IZR_le; change (Z.of_nat 45) with 45%Z; change (Z.of_nat 53) with 53%Z; lia. }
    assert (B1 : bpow radix2 (-151) <= bpow radix2 e <= bpow radix2 0) by (split; apply bpow_le; lia).
    change (bpow radix2 0) with 1 in B1.
    assert (E151 : bpow radix2 (-151) = / 2 ^ 151).
    { change (-151)%Z with (- (151))%Z. rewrite bpow_opp. f_equal. rewrite <- IZR_pow2 by lia. now rewrite (pow_IZR 2 151). }
    rewrite E151 in B1. pose proof (ip 151) as I. pose proof (pw1 45). split.
    - apply Rle_trans with (2 ^ 45 * / 2 ^ 151); [|apply Rmult_le_compat; lra].
      change 151%nat with (45 + 106)%nat. rewrite pow_add, Rinv_mult. rewrite <- Rmult_assoc, Rinv_r, Rmult_1_l by (apply pow_nonzero; lra).
      apply inv_pow_le. lia.
    - apply Rle_trans with (2 ^ 53 * 1); [apply Rmult_le_compat; lra|]. rewrite Rmult_1_r. apply Rle_pow; [lra|lia]. }
  assert (PZ : forall x, 1 <= x <= 1000000000 -> pb 110 x).
  { intros x Hx. split.
    - pose proof (inv_pow_le 0 110 ltac:(lia)) as I. rewrite pow_O, Rinv_1 in I. lra.
    - apply Rle_trans with (2 ^ 30); [assert (2 ^ 30 = 1073741824) by ring; lra|apply Rle_pow; [lra|lia]]. }
  destruct (quarters_R 0 ltac:(lia)) as (E0 & F0). destruct (quarters_R 3 ltac:(lia)) as (E3 & F3).
  assert (Rc : R64 c = 299792458) by (apply f_of_Z_R; lia).
  assert (A : momentum2 p = 9 / 16) by (unfold momentum2, p; cbn [vx64 vy64 vz64]; rewrite E0, E3; lra).
  assert (L : lorentz_factor p = 5 / 4).
  { unfold lorentz_factor. rewrite A. replace (1 + 9 / 16) with (5 / 4 * (5 / 4)) by lra. apply sqrt_square. lra. }
  assert (SM : sqrt (momentum2 p) = 3 / 4) by (rewrite A; replace (9 / 16) with (3 / 4 * (3 / 4)) by lra; apply sqrt_square; lra).
  assert (P100 : 4096 <= 2 ^ 100) by (assert (2 ^ 12 = 4096) by ring; rewrite <- H; apply Rle_pow; [lra|lia]).
  destruct (C78_motion (fun x => fmul x x) mul_square_ok c e_charge mev_kg mev_joule density (fun _ => f_of_Z 500)) with
    (p := p) (z := 2%Z) (mass := f_of_Z 3728) (bfield := f_of_Z (-3)) (efield := f_of_Z (-50000)) (bm := 3) (em := 50000) (sm := 500)
    as (v & f & k & E & _ & V & _).
  - split; [apply f_of_Z_fin; lia|]. rewrite Rc. apply PZ. lra.
  - apply CN; lia.
  - apply CN; lia.
  - apply CN; lia.
  - apply CN; lia.
  - lia.
  - split; [apply f_of_Z_fin; lia|]. rewrite f_of_Z_R by lia. lra.
  - split; [exact F3|]. split; [exact F0|]. split; [exact F0|]. rewrite A.
    pose proof (inv_pow_le 4 200 ltac:(lia)). pose proof (pw1 200). lra.
  - apply f_of_Z_fin; lia.
  - apply f_of_Z_fin; lia.
  - rewrite f_of_Z_R by lia. rewrite Rabs_left; lra.
  - rewrite f_of_Z_R by lia. rewrite Rabs_left; lra.
  - apply PZ; lra.
  - apply PZ; lra.
  - apply PZ; lra.
  - intros _ _. split; [apply f_of_Z_fin; lia|]. rewrite f_of_Z_R by lia. rewrite Rabs_pos_eq; lra.
  - exists v, f. split; [exact E|]. pose proof (proj2 (V vx64 ltac:(simpl; auto))) as VX. cbv beta zeta in VX.
    rewrite SM, L, Rc in VX. unfold p in VX. cbn [vx64] in VX. rewrite E3 in VX.
    rewrite thirtytwo_u in VX. destruct small_facts as (U0 & U1 & _). apply Rabs_le_inv in VX. apply Rabs_le. lra.
Qed.

Print Assumptions C78_motion.
Print Assumptions C78_speed.
Print Assumptions C78_stop.
Print Assumptions C78_ends.
Print Assumptions C78_rest.
Print Assumptions C78_moving_is_enough_refuted.
