(** P_ElectronsF64.v -- C75: rounding in the creation of electrons. *)
From Coq Require Import ZArith Reals Lia Lra List.
From Flocq Require Import Core BinarySingleNaN Relative.
From Verif Require Import Base F64 F64Bounds P_KinF64 P_Simulator ElectronsF64.
Import ListNotations.
Local Open Scope R_scope.

(** * Relative errors: [rel a x X]: x is X up to [a] roundings. *)
Definition q : R := / (1 - u).
Definition rel (a : nat) (x X : R) : Prop := 0 < X /\ X <= x * q ^ a /\ x <= X * q ^ a.

Lemma q_facts : 1 < q /\ 1 + u <= q /\ (1 - u) * q = 1.
Proof.
  destruct small_facts as (U0 & U1 & _). assert (H : (1 - u) * q = 1) by (unfold q; field; lra).
  assert (0 < q) by (unfold q; apply Rinv_0_lt_compat; lra).
  assert (L : 1 + u <= q).
  { unfold q. apply Rmult_le_reg_r with (1 - u); [lra|]. rewrite Rinv_l by lra.
    assert (0 <= u * u) by (apply Rmult_le_pos; lra). lra. }
  repeat split; lra.
Qed.
Lemma qp a : 0 < q ^ a. Proof. apply pow_lt. pose proof q_facts. lra. Qed.
Lemma q_ge1 a : 1 <= q ^ a. Proof. apply pow_R1_Rle. pose proof q_facts. lra. Qed.

Lemma rel_pos a x X : rel a x X -> 0 < x.
Proof.
  intros (P & A & _). pose proof (qp a). apply Rmult_lt_reg_r with (q ^ a); [assumption|]. lra.
Qed.
Lemma rel_sym a x X : rel a x X -> rel a X x.
Proof. intros H. pose proof (rel_pos _ _ _ H). destruct H as (P & A & B). now repeat split. Qed.
Lemma rel_refl x : 0 < x -> rel 0 x x.
Proof. intros H. repeat split; cbn; lra. Qed.
Lemma rel_weak a b x X : (a <= b)%nat -> rel a x X -> rel b x X.
Proof.
  intros L H. pose proof (rel_pos _ _ _ H). destruct H as (P & A & B).
  assert (q ^ a <= q ^ b) by (apply Rle_pow; [pose proof q_facts; lra|exact L]).
  assert (x * q ^ a <= x * q ^ b) by (apply Rmult_le_compat_l; lra).
  assert (X * q ^ a <= X * q ^ b) by (apply Rmult_le_compat_l; lra).
  repeat split; lra.
Qed.
Lemma rel_trans a b x y z : rel a x y -> rel b y z -> rel (a + b) x z.
Proof.
  intros H K. pose proof (rel_pos _ _ _ H). destruct H as (P & A & B), K as (Q & C & D).
  pose proof (qp a). pose proof (qp b). repeat split; [exact Q| |]; rewrite pow_add.
  - eapply Rle_trans; [exact C|].
    assert (y * q ^ b <= x * q ^ a * q ^ b) by (apply Rmult_le_compat_r; lra). lra.
  - eapply Rle_trans; [exact B|].
    assert (y * q ^ a <= z * q ^ b * q ^ a) by (apply Rmult_le_compat_r; lra). lra.
Qed.
Lemma rel_mul a b x X y Y : rel a x X -> rel b y Y -> rel (a + b) (x * y) (X * Y).
Proof.
  intros H K. pose proof (rel_pos _ _ _ H). pose proof (rel_pos _ _ _ K).
  destruct H as (P & A & B), K as (Q & C & D).
  repeat split; [now apply Rmult_lt_0_compat| |]; rewrite pow_add.
  - replace (x * y * (q ^ a * q ^ b)) with (x * q ^ a * (y * q ^ b)) by ring. apply Rmult_le_compat; lra.
  - replace (X * Y * (q ^ a * q ^ b)) with (X * q ^ a * (Y * q ^ b)) by ring. apply Rmult_le_compat; lra.
Qed.
Lemma rel_inv a x X : rel a x X -> rel a (/ x) (/ X).
Proof.
  intros H. pose proof (rel_pos _ _ _ H). destruct H as (P & A & B). pose proof (qp a).
  repeat split; [now apply Rinv_0_lt_compat| |].
  - apply Rmult_le_reg_l with (x * X); [now apply Rmult_lt_0_compat|].
    replace (x * X * / X) with x by (field; lra).
    replace (x * X * (/ x * q ^ a)) with (X * q ^ a) by (field; lra). exact B.
  - apply Rmult_le_reg_l with (x * X); [now apply Rmult_lt_0_compat|].
    replace (x * X * / x) with X by (field; lra).
    replace (x * X * (/ X * q ^ a)) with (x * q ^ a) by (field; lra). exact A.
Qed.
Lemma rel_div a b x X y Y : rel a x X -> rel b y Y -> rel (a + b) (x / y) (X / Y).
Proof. intros H K. apply rel_mul; [exact H|now apply rel_inv]. Qed.
Lemma rel_add a x X y Y : rel a x X -> rel a y Y -> rel a (x + y) (X + Y).
Proof. intros (P & A & B) (Q & C & D). repeat split; lra. Qed.
Lemma rel_sqrt a x X : rel (a + a) x X -> rel a (sqrt x) (sqrt X).
Proof.
  intros H. pose proof (rel_pos _ _ _ H). destruct H as (P & A & B). rewrite pow_add in A, B.
  pose proof (qp a).
  assert (E : sqrt (q ^ a * q ^ a) = q ^ a) by (apply sqrt_square; lra).
  repeat split; [now apply sqrt_lt_R0| |]; rewrite <- E, <- sqrt_mult_alt by lra; apply sqrt_le_1_alt; assumption.
Qed.
Lemma rel_rnd x : / 2 ^ 1000 <= x -> rel 1 (rnd64 x) x.
Proof.
  intros H. destruct small_facts as (U0 & U1 & _). destruct q_facts as (Q1 & Q2 & Q3).
  assert (P0 : 0 < / 2 ^ 1000) by (apply Rinv_0_lt_compat; apply pow_lt; lra).
  assert (E : Rabs (rnd64 x - x) <= u * x).
  { pose proof (relative_error_N_FLT radix2 (SpecFloat.emin prec64 emax64) prec64 ltac:(reflexivity) (fun n => negb (Z.even n)) x) as R.
    change (rnd64 x) with (round radix2 (FLT_exp (SpecFloat.emin prec64 emax64) prec64) ZnearestE x).
    rewrite (Rabs_pos_eq x) in R by lra.
    assert (C : b2 (SpecFloat.emin prec64 emax64 + prec64 - 1) <= x).
    { apply Rle_trans with (b2 (-1000)).
      - apply bpow_le. cbv. discriminate.
      - eapply Rle_trans; [|exact H]. right. change (-1000)%Z with (- (1000))%Z. rewrite bpow_opp. f_equal.
        rewrite <- IZR_pow2 by lia. now rewrite (pow_IZR 2 1000). }
    specialize (R C). eapply Rle_trans; [exact R|]. right. f_equal.
    transitivity (/ 2 ^ 53); [unfold prec64; cbn; lra|]. Transparent u. unfold u. Opaque u. reflexivity. }
  apply Rabs_le_inv in E.
  assert (q * ((1 - u) * x) <= q * rnd64 x) by (apply Rmult_le_compat_l; lra).
  assert ((1 + u) * x <= q * x) by (apply Rmult_le_compat_r; lra).
  assert (q * ((1 - u) * x) = x) by (replace (q * ((1 - u) * x)) with ((1 - u) * q * x) by ring; rewrite Q3; ring).
  repeat split; rewrite ?pow_1; lra.
Qed.

Lemma q_pow a : (a <= 100)%nat -> q ^ a <= 1 + (INR a + 1) * u.
Proof.
  intros L. destruct small_facts as (U0 & U1 & _). destruct q_facts as (Q1 & Q2 & Q3).
  assert (I : 0 <= INR a <= 100) by (split; [apply pos_INR|replace 100 with (INR 100) by (cbn; lra); now apply le_INR]).
  assert (B : forall n, 1 - INR n * u <= (1 - u) ^ n).
  { induction n as [|n IH]; [cbn; lra|]. rewrite S_INR. cbn [pow].
    assert (K : 0 <= INR n * u) by (apply Rmult_le_pos; [apply pos_INR|lra]).
    assert ((1 - u) * (1 - INR n * u) <= (1 - u) * (1 - u) ^ n) by (apply Rmult_le_compat_l; lra).
    assert (0 <= u * (INR n * u)) by (apply Rmult_le_pos; lra). lra. }
  assert (M : q ^ a * (1 - u) ^ a = 1) by (rewrite <- Rpow_mult_distr, (Rmult_comm q), Q3; apply pow1).
  pose proof (B a) as Ba. pose proof (qp a) as Qa.
  assert (N : q ^ a * (1 - INR a * u) <= 1) by (rewrite <- M; apply Rmult_le_compat_l; lra).
  assert (AU : 0 <= INR a * u <= / 1000000).
  { split; [apply Rmult_le_pos; lra|]. assert (INR a * u <= 100 * u) by (apply Rmult_le_compat_r; lra). lra. }
  apply Rmult_le_reg_r with (1 - INR a * u); [lra|]. eapply Rle_trans; [exact N|].
  assert (AA : INR a * u * ((INR a + 1) * u) <= / 1000000 * (101 * u)).
  { apply Rmult_le_compat; try lra. apply Rmult_le_compat_r; lra. }
  lra.
Qed.
Lemma rel_abs a x X : (a <= 100)%nat -> rel a x X -> Rabs (x - X) <= (INR a + 1) * u * X.
Proof.
  intros L H. pose proof (rel_pos _ _ _ H) as Px. destruct H as (P & A & B). pose proof (q_pow a L) as Q.
  pose proof (qp a). destruct small_facts as (U0 & U1 & _).
  set (d := (INR a + 1) * u) in *.
  assert (x <= X * (1 + d)) by (eapply Rle_trans; [exact B|]; apply Rmult_le_compat_l; lra).
  assert (X <= x * (1 + d)) by (eapply Rle_trans; [exact A|]; apply Rmult_le_compat_l; lra).
  apply Rabs_le. split; [|lra].
  assert (D0 : 0 <= d) by (unfold d; apply Rmult_le_pos; [pose proof (pos_INR a); lra|lra]).
  destruct (Rle_dec x X) as [Lx|Lx].
  - assert (x * d <= X * d) by (apply Rmult_le_compat_r; lra). lra.
  - assert (0 <= X * d) by (apply Rmult_le_pos; lra). lra.
Qed.

(** * The kinetic energy of a row. *)

(** What is computed: [m (sqrt(1 + p.p) - 1)] for p the momentum in units of mc. *)
Definition momentum2 (p : vec64) : R := R64 (vx64 p) ^ 2 + R64 (vy64 p) ^ 2 + R64 (vz64 p) ^ 2.
Definition lorentz_factor (p : vec64) : R := sqrt (1 + momentum2 p).
Definition kinetic (m : R) (p : vec64) : R := m * (lorentz_factor p - 1).
(** Finite entries, and a length between 2^-100 and 2^100. *)
Definition moving (p : vec64) : Prop :=
  is_finite (vx64 p) = true /\ is_finite (vy64 p) = true /\ is_finite (vz64 p) = true /\
  / 2 ^ 200 <= momentum2 p <= 2 ^ 200.

Lemma rel_half a x X : (a <= 100)%nat -> rel a x X -> X / 2 <= x <= 2 * X.
Proof.
  intros L H. pose proof (q_pow a L) as Q. pose proof (qp a). pose proof (rel_pos _ _ _ H).
  destruct small_facts as (U0 & U1 & _).
  assert (I : 0 <= INR a <= 100) by (split; [apply pos_INR|replace 100 with (INR 100) by (cbn; lra); now apply le_INR]).
  assert (q ^ a <= 2). { assert ((INR a + 1) * u <= 101 * u) by (apply Rmult_le_compat_r; lra). lra. }
  destruct H as (P & A & B).
  assert (x * q ^ a <= x * 2) by (apply Rmult_le_compat_l; lra).
  assert (X * q ^ a <= X * 2) by (apply Rmult_le_compat_l; lra). lra.
Qed.
Lemma eta_200 : eta <= u * / 2 ^ 200 / 1000.
Proof.
  Transparent u eta. unfold eta, u. Opaque u eta.
  assert (H : / 2 ^ 1000 <= / 2 ^ 300).
  { apply Rinv_le_contravar; [apply pow_lt; lra|]. apply Rle_pow; [lra|lia]. }
  lra.
Qed.
Lemma u_47 : / 2 ^ 47 = 64 * u.
Proof. Transparent u. unfold u. Opaque u. lra. Qed.
Lemma eta_500 : eta <= / 2 ^ 500.
Proof.
  Transparent eta. unfold eta. Opaque eta.
  apply Rinv_le_contravar; [apply pow_lt; lra|]. apply Rle_pow; [lra|lia].
Qed.
Lemma b2_le (x : R) k e : (Z.of_nat k <= e)%Z -> Rabs x <= 2 ^ k -> Rabs x <= b2 e.
Proof.
  intros L H. eapply Rle_trans; [exact H|]. apply Rle_trans with (b2 (Z.of_nat k)).
  - right. rewrite <- IZR_pow2 by lia. now rewrite pow_IZR.
  - now apply bpow_le.
Qed.
Lemma inv_pow_le a b : (a <= b)%nat -> / 2 ^ b <= / 2 ^ a.
Proof. intros L. apply Rinv_le_contravar; [apply pow_lt; lra|]. apply Rle_pow; [lra|exact L]. Qed.

Lemma sum_squares p : moving p ->
  let s := fadd (fadd (fmul (vx64 p) (vx64 p)) (fmul (vy64 p) (vy64 p))) (fmul (vz64 p) (vz64 p)) in
  is_finite s = true /\ rel 6 (R64 s) (momentum2 p).
Proof.
  intros (FX & FY & FZ & M). cbv zeta. unfold momentum2 in *.
  destruct small_facts as (U0 & U1 & T0 & _). pose proof eta_200 as T1.
  set (x := R64 (vx64 p)) in *. set (y := R64 (vy64 p)) in *. set (z := R64 (vz64 p)) in *.
  set (X := x ^ 2) in *. set (Y := y ^ 2) in *. set (Z := z ^ 2) in *. set (A := X + Y + Z) in *.
  assert (P0 : 0 < / 2 ^ 200) by (apply Rinv_0_lt_compat; apply pow_lt; lra).
  assert (PX : 0 <= X) by (unfold X; apply pow2_ge_0). assert (PY : 0 <= Y) by (unfold Y; apply pow2_ge_0).
  assert (PZ : 0 <= Z) by (unfold Z; apply pow2_ge_0).
  assert (BX : X <= A) by (unfold A; lra). assert (BY : Y <= A) by (unfold A; lra).
  assert (BZ : Z <= A) by (unfold A; lra). assert (BXY : X + Y <= A) by (unfold A; lra).
  assert (EA : A = X + Y + Z) by reflexivity. clearbody A.
  assert (W : forall t, 0 <= t -> t <= 2 * A -> Rabs t <= b2 300).
  { intros t Ht L. apply (b2_le t 201); [lia|]. rewrite Rabs_pos_eq by exact Ht.
    replace (2 ^ 201) with (2 * 2 ^ 200) by ring. lra. }
  assert (EX : x * x = X) by (unfold X; ring). assert (EY : y * y = Y) by (unfold Y; ring).
  assert (EZ : z * z = Z) by (unfold Z; ring).
  destruct (fmul_fin (vx64 p) (vx64 p) 300 FX FX ltac:(lia)) as (Ea & Fa); [fold x; rewrite EX; apply W; lra|].
  destruct (fmul_fin (vy64 p) (vy64 p) 300 FY FY ltac:(lia)) as (Eb & Fb); [fold y; rewrite EY; apply W; lra|].
  destruct (fmul_fin (vz64 p) (vz64 p) 300 FZ FZ ltac:(lia)) as (Ec & Fc); [fold z; rewrite EZ; apply W; lra|].
  fold x in Ea. fold y in Eb. fold z in Ec. rewrite EX in Ea. rewrite EY in Eb. rewrite EZ in Ec.
  set (a := fmul (vx64 p) (vx64 p)) in *. set (b := fmul (vy64 p) (vy64 p)) in *. set (c := fmul (vz64 p) (vz64 p)) in *.
  assert (N : forall t, 0 <= t -> 0 <= rnd64 t) by (intros t Ht; apply rnd64_ge_fmt; [apply generic_format_0|exact Ht]).
  assert (R : forall t B, 0 <= t <= B -> - (u * B + eta) <= rnd64 t - t <= u * B + eta).
  { intros t B Ht. apply Rabs_le_inv. apply rnd_bound. rewrite Rabs_pos_eq; lra. }
  assert (UA : 0 < u * A <= A / 1000).
  { split; [apply Rmult_lt_0_compat; lra|]. assert (u * A <= / 1000 * A) by (apply Rmult_le_compat_r; lra). lra. }
  assert (TA : eta <= u * A / 1000).
  { assert (u * / 2 ^ 200 <= u * A) by (apply Rmult_le_compat_l; lra). lra. }
  pose proof (N X PX) as Na. pose proof (N Y PY) as Nb. pose proof (N Z PZ) as Nc.
  pose proof (R X X ltac:(lra)) as Ra. pose proof (R Y Y ltac:(lra)) as Rb. pose proof (R Z Z ltac:(lra)) as Rc.
  rewrite <- Ea in Na, Ra. rewrite <- Eb in Nb, Rb. rewrite <- Ec in Nc, Rc.
  assert (UE : u * X + u * Y + u * Z = u * A) by (rewrite EA; ring).
  assert (UX : 0 <= u * X) by (apply Rmult_le_pos; lra). assert (UY : 0 <= u * Y) by (apply Rmult_le_pos; lra).
  assert (UZ : 0 <= u * Z) by (apply Rmult_le_pos; lra).
  destruct (fadd_fin a b 300 Fa Fb ltac:(lia)) as (Et & Ft); [apply W; lra|].
  set (t := fadd a b) in *.
  pose proof (R (R64 a + R64 b) (A + A / 100) ltac:(lra)) as Rt. pose proof (N (R64 a + R64 b) ltac:(lra)) as Nt.
  rewrite <- Et in Rt, Nt.
  assert (U2 : u * (A + A / 100) = u * A + u * A / 100) by field. rewrite U2 in Rt.
  destruct (fadd_fin t c 300 Ft Fc ltac:(lia)) as (Es & Fs); [apply W; lra|].
  set (s := fadd t c) in *.
  pose proof (R (R64 t + R64 c) (A + A / 100) ltac:(lra)) as Rs. rewrite <- Es, U2 in Rs.
  split; [exact Fs|].
  destruct q_facts as (Q1 & Q2 & Q3).
  assert (Q6 : 1 + 6 * u <= q ^ 6).
  { apply Rle_trans with ((1 + u) ^ 6).
    - assert (K : forall n, 1 + INR n * u <= (1 + u) ^ n).
      { induction n as [|n IH]; [cbn; lra|]. rewrite S_INR. cbn [pow].
        assert ((1 + u) * (1 + INR n * u) <= (1 + u) * (1 + u) ^ n) by (apply Rmult_le_compat_l; lra).
        assert (0 <= u * (INR n * u)) by (apply Rmult_le_pos; [lra|apply Rmult_le_pos; [apply pos_INR|lra]]). lra. }
      pose proof (K 6%nat) as K6. replace (INR 6) with 6 in K6 by (cbn; lra). exact K6.
    - apply pow_incr. lra. }
  assert (S0 : A * (1 - 4 * u) <= R64 s <= A * (1 + 4 * u)).
  { replace (A * (1 - 4 * u)) with (A - 4 * (u * A)) by ring. replace (A * (1 + 4 * u)) with (A + 4 * (u * A)) by ring. lra. }
  repeat split; [lra| |].
  - assert (B1 : A * (1 - 4 * u) * (1 + 6 * u) <= R64 s * q ^ 6).
    { apply Rmult_le_compat; lra. }
    assert (UU : u * (u * A) <= / 1000 * (u * A)) by (apply Rmult_le_compat_r; lra).
    lra.
  - assert (A * (1 + 6 * u) <= A * q ^ 6) by (apply Rmult_le_compat_l; lra). lra.
Qed.

Lemma fsqrt_fin0 (x : f64) : is_finite x = true -> 0 <= R64 x ->
  R64 (fsqrt x) = rnd64 (sqrt (R64 x)) /\ is_finite (fsqrt x) = true.
Proof.
  intros F P. destruct (Bsqrt_correct prec64 emax64 _ _ mode_NE x) as (E & G & _).
  fold (fsqrt x) in E, G. simpl round_mode in E. split; [exact E|]. rewrite G.
  destruct x as [s|s| |s mm ee h]; try discriminate; [reflexivity|].
  destruct s; [|reflexivity]. exfalso. apply Rle_not_lt in P. apply P. now apply F2R_lt_0.
Qed.
Lemma fsqrt_fin (x : f64) : is_finite x = true -> 0 < R64 x ->
  R64 (fsqrt x) = rnd64 (sqrt (R64 x)) /\ is_finite (fsqrt x) = true.
Proof. intros F P. apply fsqrt_fin0; [exact F|lra]. Qed.

Lemma sqrt_pow n : sqrt (2 ^ (n + n)) = 2 ^ n.
Proof. rewrite pow_add. apply sqrt_square. apply pow_le. lra. Qed.
Lemma sqrt_inv_pow n : sqrt (/ 2 ^ (n + n)) = / 2 ^ n.
Proof. rewrite sqrt_inv. now rewrite sqrt_pow. Qed.
Lemma ip n : 0 < / 2 ^ n. Proof. apply Rinv_0_lt_compat. apply pow_lt. lra. Qed.
Lemma ip_half n : / 2 ^ S n = / 2 ^ n / 2. Proof. cbn [pow]. field. apply pow_nonzero. lra. Qed.

Lemma gamma_close p : moving p ->
  let gv := gv64 p in let g := fdiv gv (beta64 gv) in
  is_finite g = true /\ rel 16 (R64 g) (lorentz_factor p).
Proof.
  intros M. destruct (sum_squares p M) as (Fs & Rs). cbv zeta in Fs, Rs.
  destruct M as (_ & _ & _ & MB). unfold gv64, beta64.
  set (s := fadd (fadd (fmul (vx64 p) (vx64 p)) (fmul (vy64 p) (vy64 p))) (fmul (vz64 p) (vz64 p))) in *.
  unfold lorentz_factor. set (A := momentum2 p) in *. clearbody A.
  pose proof (ip 200) as I200. assert (PA : 0 < A) by lra.
  (* gv *)
  destruct (fsqrt_fin s Fs (rel_pos _ _ _ Rs)) as (Eg & Fg). set (gv := fsqrt s) in *.
  assert (GB : / 2 ^ 100 <= sqrt A <= 2 ^ 100).
  { split; [rewrite <- (sqrt_inv_pow 100)|rewrite <- (sqrt_pow 100)]; cbn [Nat.add]; apply sqrt_le_1_alt; lra. }
  assert (R1 : rel 3 (sqrt (R64 s)) (sqrt A)) by (apply rel_sqrt; exact Rs).
  assert (R2 : rel 4 (R64 gv) (sqrt A)).
  { rewrite Eg. apply (rel_trans 1 3) with (sqrt (R64 s)); [|exact R1].
    apply rel_rnd. destruct (rel_half 3 _ _ ltac:(lia) R1) as (H & _).
    pose proof (inv_pow_le 101 1000 ltac:(lia)). rewrite (ip_half 100) in H0. lra. }
  (* gv^2 *)
  assert (R3 : rel 8 (R64 gv * R64 gv) A).
  { rewrite <- (sqrt_sqrt A) by lra. now apply (rel_mul 4 4). }
  destruct (rel_half 8 _ _ ltac:(lia) R3) as (L3 & H3).
  assert (P200 : 1 <= 2 ^ 200) by (apply pow_R1_Rle; lra).
  assert (D201 : 2 ^ 201 = 2 * 2 ^ 200) by (cbn [pow]; ring). assert (D202 : 2 ^ 202 = 4 * 2 ^ 200) by (cbn [pow]; ring).
  destruct (fmul_fin gv gv 300 Fg Fg ltac:(lia)) as (E2 & F2).
  { apply (b2_le _ 201); [lia|]. rewrite Rabs_pos_eq by lra. lra. }
  set (g2 := fmul gv gv) in *.
  assert (R4 : rel 9 (R64 g2) A).
  { rewrite E2. apply (rel_trans 1 8) with (R64 gv * R64 gv); [|exact R3]. apply rel_rnd.
    pose proof (inv_pow_le 201 1000 ltac:(lia)). rewrite (ip_half 200) in H. lra. }
  destruct (rel_half 9 _ _ ltac:(lia) R4) as (L4 & H4).
  (* 1 + gv^2 *)
  assert (O : R64 fone = 1) by (unfold fone; apply f_of_Z_R; lia).
  assert (Fo : is_finite fone = true) by (unfold fone; apply f_of_Z_fin; lia).
  assert (R5 : rel 9 (1 + R64 g2) (1 + A)).
  { apply rel_add; [|exact R4]. apply (rel_weak 0); [lia|]. apply rel_refl. lra. }
  destruct (fadd_fin fone g2 300 Fo F2 ltac:(lia)) as (E5 & F5).
  { rewrite O. apply (b2_le _ 202); [lia|]. rewrite Rabs_pos_eq by lra. lra. }
  rewrite O in E5. set (d := fadd fone g2) in *.
  assert (R6 : rel 10 (R64 d) (1 + A)).
  { rewrite E5. apply (rel_trans 1 9) with (1 + R64 g2); [|exact R5]. apply rel_rnd.
    pose proof (inv_pow_le 0 1000 ltac:(lia)). rewrite pow_O, Rinv_1 in H. lra. }
  (* quotient *)
  assert (R7 : rel 19 (R64 g2 / R64 d) (A / (1 + A))) by now apply (rel_div 9 10).
  assert (QB : / 2 ^ 402 <= A / (1 + A) <= 1).
  { split; [|apply div_le; lra]. apply le_div; [lra|].
    replace (/ 2 ^ 402) with (/ 2 ^ 200 * / 2 ^ 202) by (rewrite <- Rinv_mult, <- pow_add; reflexivity).
    assert (K : / 2 ^ 202 * (1 + A) <= 1).
    { apply Rmult_le_reg_l with (2 ^ 202); [apply pow_lt; lra|].
      rewrite <- Rmult_assoc, Rinv_r by (apply pow_nonzero; lra). lra. }
    assert (/ 2 ^ 200 * (/ 2 ^ 202 * (1 + A)) <= / 2 ^ 200 * 1) by (apply Rmult_le_compat_l; lra). lra. }
  destruct (rel_half 19 _ _ ltac:(lia) R7) as (L7 & H7).
  pose proof (rel_pos _ _ _ R7) as P7. pose proof (rel_pos _ _ _ R6) as P6.
  destruct (fdiv_fin g2 d 300 F2 ltac:(lra) ltac:(lia)) as (E8 & F8).
  { apply (b2_le _ 1); [lia|]. rewrite Rabs_pos_eq by lra. lra. }
  set (k := fdiv g2 d) in *.
  assert (R8 : rel 20 (R64 k) (A / (1 + A))).
  { rewrite E8. apply (rel_trans 1 19) with (R64 g2 / R64 d); [|exact R7]. apply rel_rnd.
    pose proof (inv_pow_le 403 1000 ltac:(lia)). rewrite (ip_half 402) in H. lra. }
  (* beta *)
  destruct (fsqrt_fin k F8 (rel_pos _ _ _ R8)) as (E9 & F9). set (be := fsqrt k) in *.
  assert (R9 : rel 10 (sqrt (R64 k)) (sqrt (A / (1 + A)))) by (apply rel_sqrt; exact R8).
  assert (SB : / 2 ^ 201 <= sqrt (A / (1 + A)) <= 1).
  { split; [rewrite <- (sqrt_inv_pow 201)|rewrite <- sqrt_1 at 2]; cbn [Nat.add]; apply sqrt_le_1_alt; lra. }
  assert (R10 : rel 11 (R64 be) (sqrt (A / (1 + A)))).
  { rewrite E9. apply (rel_trans 1 10) with (sqrt (R64 k)); [|exact R9]. apply rel_rnd.
    destruct (rel_half 10 _ _ ltac:(lia) R9) as (H & _).
    pose proof (inv_pow_le 202 1000 ltac:(lia)). rewrite (ip_half 201) in H0. lra. }
  (* gamma *)
  assert (ER : sqrt A / sqrt (A / (1 + A)) = sqrt (1 + A)).
  { rewrite sqrt_div_alt by lra. assert (0 < sqrt A) by (apply sqrt_lt_R0; lra).
    assert (0 < sqrt (1 + A)) by (apply sqrt_lt_R0; lra). field. lra. }
  assert (R11 : rel 15 (R64 gv / R64 be) (sqrt (1 + A))).
  { rewrite <- ER. now apply (rel_div 4 11). }
  destruct (rel_half 15 _ _ ltac:(lia) R11) as (L11 & H11).
  assert (GG : 1 <= sqrt (1 + A) <= 2 ^ 101).
  { split; [rewrite <- sqrt_1 at 1|rewrite <- (sqrt_pow 101)]; cbn [Nat.add]; apply sqrt_le_1_alt; lra. }
  assert (D102 : 2 ^ 102 = 2 * 2 ^ 101) by (cbn [pow]; ring).
  destruct (fdiv_fin gv be 300 Fg ltac:(pose proof (rel_pos _ _ _ R10); lra) ltac:(lia)) as (E12 & F12).
  { apply (b2_le _ 102); [lia|]. rewrite Rabs_pos_eq by lra. lra. }
  split; [exact F12|]. rewrite E12.
  apply (rel_trans 1 15) with (R64 gv / R64 be); [|exact R11]. apply rel_rnd.
  pose proof (inv_pow_le 1 1000 ltac:(lia)). rewrite pow_1 in H. lra.
Qed.

Lemma lorentz_ge1 p : 1 <= lorentz_factor p.
Proof.
  unfold lorentz_factor, momentum2. rewrite <- sqrt_1 at 1. apply sqrt_le_1_alt.
  pose proof (pow2_ge_0 (R64 (vx64 p))). pose proof (pow2_ge_0 (R64 (vy64 p))). pose proof (pow2_ge_0 (R64 (vz64 p))). lra.
Qed.
Lemma lorentz_le p : moving p -> lorentz_factor p <= 2 ^ 101.
Proof.
  intros (_ & _ & _ & M). unfold lorentz_factor. rewrite <- (sqrt_pow 101). cbn [Nat.add]. apply sqrt_le_1_alt.
  assert (2 ^ 202 = 4 * 2 ^ 200) by (cbn [pow]; ring). assert (1 <= 2 ^ 200) by (apply pow_R1_Rle; lra). lra.
Qed.

Lemma energy_20 m p : is_finite m = true -> 1 <= R64 m <= 2 ^ 100 -> moving p ->
  is_finite (row_energy64 m p) = true /\
  Rabs (R64 (row_energy64 m p) - kinetic (R64 m) p) <= 20 * (u * (R64 m * lorentz_factor p)).
Proof.
  intros Fm Bm M. destruct (gamma_close p M) as (Fg & Rg). cbv zeta in Fg, Rg. unfold row_energy64, kinetic.
  pose proof (lorentz_ge1 p) as G1. pose proof (lorentz_le p M) as G2.
  set (g := fdiv (gv64 p) (beta64 (gv64 p))) in *. set (G := lorentz_factor p) in *. clearbody G.
  destruct small_facts as (U0 & U1 & T0 & T1).
  pose proof (rel_abs 16 _ _ ltac:(lia) Rg) as E. replace (INR 16) with 16 in E by (cbn; lra).
  apply Rabs_le_inv in E.
  assert (UG : 0 < u * G <= G / 1000).
  { split; [apply Rmult_lt_0_compat; lra|]. assert (u * G <= / 1000 * G) by (apply Rmult_le_compat_r; lra). lra. }
  assert (E17 : (16 + 1) * u * G = 17 * (u * G)) by ring. rewrite E17 in E.
  assert (O : R64 fone = 1) by (unfold fone; apply f_of_Z_R; lia).
  assert (Fo : is_finite fone = true) by (unfold fone; apply f_of_Z_fin; lia).
  assert (UU : u <= u * G) by (assert (u * 1 <= u * G) by (apply Rmult_le_compat_l; lra); lra).
  assert (B1 : Rabs (R64 g - 1) <= G + G / 50) by (apply Rabs_le; split; lra).
  assert (D102 : 2 ^ 102 = 2 * 2 ^ 101) by (cbn [pow]; ring).
  destruct (fsub_fin g fone 300 Fg Fo ltac:(lia)) as (Ed & Fd).
  { rewrite O. apply (b2_le _ 102); [lia|]. lra. }
  rewrite O in Ed. set (d := fsub g fone) in *.
  pose proof (rnd_bound _ _ B1) as Rd. rewrite <- Ed in Rd. apply Rabs_le_inv in Rd.
  assert (E1 : u * (G + G / 50) = u * G + u * G / 50) by field. rewrite E1 in Rd.
  set (m' := R64 m) in *.
  assert (B2 : Rabs (R64 d) <= G + G / 20) by (apply Rabs_le; apply Rabs_le_inv in B1; split; lra).
  assert (MG : 0 < m' * G) by (apply Rmult_lt_0_compat; lra).
  assert (B3 : Rabs (m' * R64 d) <= m' * (G + G / 20)).
  { rewrite Rabs_mult, (Rabs_pos_eq m') by lra. apply Rmult_le_compat_l; lra. }
  assert (MG2 : m' * G <= 2 ^ 100 * 2 ^ 101) by (apply Rmult_le_compat; lra).
  rewrite <- pow_add in MG2. cbn [Nat.add] in MG2. assert (D202 : 2 ^ 202 = 2 * 2 ^ 201) by (cbn [pow]; ring).
  assert (E2 : m' * (G + G / 20) = m' * G + m' * G / 20) by field. rewrite E2 in B3.
  destruct (fmul_fin m d 300 Fm Fd ltac:(lia)) as (Ee & Fe).
  { fold m'. apply (b2_le _ 202); [lia|]. lra. }
  split; [exact Fe|]. rewrite Ee. fold m'.
  pose proof (rnd_bound _ _ B3) as Re. apply Rabs_le_inv in Re.
  assert (E3 : u * (m' * G + m' * G / 20) = u * (m' * G) + u * (m' * G) / 20) by field. rewrite E3 in Re.
  assert (ETA : eta <= u * (m' * G) / 100).
  { assert (1 * (u * G) <= m' * (u * G)) by (apply Rmult_le_compat_r; lra).
    assert (m' * (u * G) = u * (m' * G)) by ring. lra. }
  assert (Hd : - (19 * (u * G) - u * G / 2) <= R64 d - (G - 1) <= 19 * (u * G) - u * G / 2) by lra.
  assert (K1 : m' * (R64 d - (G - 1)) <= m' * (19 * (u * G) - u * G / 2)) by (apply Rmult_le_compat_l; lra).
  assert (K2 : m' * (- (19 * (u * G) - u * G / 2)) <= m' * (R64 d - (G - 1))) by (apply Rmult_le_compat_l; lra).
  assert (P1 : 0 < u * (m' * G)) by (apply Rmult_lt_0_compat; lra).
  assert (E4 : m' * (19 * (u * G) - u * G / 2) = 19 * (u * (m' * G)) - u * (m' * G) / 2) by field.
  assert (E5 : m' * (- (19 * (u * G) - u * G / 2)) = - (19 * (u * (m' * G)) - u * (m' * G) / 2)) by field.
  apply Rabs_le. lra.
Qed.

(** C75: the kinetic energy of a row of a track, as computed, is the relativistic kinetic energy up to
    2^-48 of the total energy. *)
Theorem C75_energy : forall m p, is_finite m = true -> 1 <= R64 m <= 2 ^ 100 -> moving p ->
  is_finite (row_energy64 m p) = true /\
  Rabs (R64 (row_energy64 m p) - kinetic (R64 m) p) <= / 2 ^ 48 * (R64 m + kinetic (R64 m) p).
Proof.
  intros m p Fm Bm M. destruct (energy_20 m p Fm Bm M) as (F & E). split; [exact F|].
  rewrite thirtytwo_u. pose proof u_pos. pose proof (lorentz_ge1 p).
  assert (Q : R64 m + kinetic (R64 m) p = R64 m * lorentz_factor p) by (unfold kinetic; ring). rewrite Q.
  assert (0 < u * (R64 m * lorentz_factor p)) by (apply Rmult_lt_0_compat; [lra|apply Rmult_lt_0_compat; lra]). lra.
Qed.

(** * The mean numbers of electrons. *)
Lemma diff64_nth : forall l i a b, nth_error l i = Some a -> nth_error l (S i) = Some b ->
  nth_error (diff64 l) i = Some (fsub b a).
Proof.
  induction l as [|x l IH]; intros i a b Ha Hb; [destruct i; discriminate|].
  destruct l as [|y l]; [destruct i as [|[|i]]; discriminate|].
  destruct i as [|i].
  - injection Ha as <-. injection Hb as <-. reflexivity.
  - cbn [diff64 nth_error]. apply IH; assumption.
Qed.

Lemma means64_nth m w track i p p' : nth_error track i = Some p -> nth_error track (S i) = Some p' ->
  nth_error (means64 m w track) (S i) =
    Some (fmul (Babs (fsub (row_energy64 m p') (row_energy64 m p))) (fdiv fmega (f_of_Z w))).
Proof.
  intros H H'. unfold means64. destruct track as [|p0 track]; [destruct i; discriminate|].
  set (l := map (row_energy64 m) (p0 :: track)).
  assert (D : nth_error (diff64 l) i = Some (fsub (row_energy64 m p') (row_energy64 m p))).
  { apply diff64_nth; unfold l; rewrite nth_error_map; [rewrite H|rewrite H']; reflexivity. }
  unfold l in *. clear l. cbn [map] in D |- *. cbn [nth_error].
  rewrite !nth_error_map.
  exact (f_equal (fun o => option_map (fun e => fmul e (fdiv fmega (f_of_Z w))) (option_map (@Babs prec64 emax64) o)) D).
Qed.

Lemma mean_bound m w p p' T : is_finite m = true -> 1 <= R64 m <= 2 ^ 100 -> (1 <= w <= 2 ^ 53)%Z ->
  moving p -> moving p' -> R64 m * lorentz_factor p <= T -> R64 m * lorentz_factor p' <= T -> T <= 2 ^ 250 ->
  let e := fmul (Babs (fsub (row_energy64 m p') (row_energy64 m p))) (fdiv fmega (f_of_Z w)) in
  is_finite e = true /\ 0 <= R64 e /\
  Rabs (R64 e - Rabs (kinetic (R64 m) p' - kinetic (R64 m) p) * (10 ^ 6 / IZR w)) <= / 2 ^ 47 * (T * (10 ^ 6 / IZR w)).
Proof.
  intros Fm Bm Hw M M' HT HT' BT. cbv zeta.
  destruct (energy_20 m p Fm Bm M) as (F1 & E1). destruct (energy_20 m p' Fm Bm M') as (F2 & E2).
  destruct small_facts as (U0 & U1 & T0 & T1).
  set (x1 := row_energy64 m p) in *. set (x2 := row_energy64 m p') in *.
  set (k1 := kinetic (R64 m) p) in *. set (k2 := kinetic (R64 m) p') in *.
  assert (K : forall r, 1 <= lorentz_factor r -> R64 m * lorentz_factor r <= T -> 0 <= kinetic (R64 m) r <= T).
  { intros r H1 H2. unfold kinetic. split; [apply Rmult_le_pos; lra|]. lra. }
  pose proof (K p (lorentz_ge1 p) HT) as K1. pose proof (K p' (lorentz_ge1 p') HT') as K2. fold k1 in K1. fold k2 in K2.
  assert (TT : 1 <= T).
  { pose proof (lorentz_ge1 p). assert (1 * 1 <= R64 m * lorentz_factor p) by (apply Rmult_le_compat; lra). lra. }
  assert (UT : 0 < u * T <= T / 10000).
  { split; [apply Rmult_lt_0_compat; lra|]. assert (u * T <= / 10000 * T) by (apply Rmult_le_compat_r; lra). lra. }
  assert (U1' : u <= u * T) by (assert (u * 1 <= u * T) by (apply Rmult_le_compat_l; lra); lra).
  assert (L1 : u * (R64 m * lorentz_factor p) <= u * T) by (apply Rmult_le_compat_l; lra).
  assert (L2 : u * (R64 m * lorentz_factor p') <= u * T) by (apply Rmult_le_compat_l; lra).
  apply Rabs_le_inv in E1. apply Rabs_le_inv in E2.
  assert (B1 : Rabs (R64 x2 - R64 x1) <= T + T / 100) by (apply Rabs_le; lra).
  assert (D251 : 2 ^ 251 = 2 * 2 ^ 250) by (cbn [pow]; ring).
  destruct (fsub_fin x2 x1 300 F2 F1 ltac:(lia)) as (Ed & Fd).
  { apply (b2_le _ 251); [lia|]. lra. }
  set (d := fsub x2 x1) in *.
  pose proof (rnd_bound _ _ B1) as Rd. rewrite <- Ed in Rd. apply Rabs_le_inv in Rd.
  assert (Q1 : u * (T + T / 100) = u * T + u * T / 100) by field. rewrite Q1 in Rd.
  assert (Hd : Rabs (R64 d - (k2 - k1)) <= 42 * (u * T)) by (apply Rabs_le; lra).
  assert (Ea : R64 (Babs d) = Rabs (R64 d)) by apply B2R_Babs.
  assert (Fa : is_finite (Babs d) = true) by (now rewrite is_finite_Babs).
  assert (Ha : Rabs (Rabs (R64 d) - Rabs (k2 - k1)) <= 42 * (u * T)).
  { eapply Rle_trans; [apply Rabs_triang_inv2|exact Hd]. }
  assert (Hk : Rabs (k2 - k1) <= T) by (apply Rabs_le; lra).
  assert (Pa : 0 <= Rabs (R64 d)) by apply Rabs_pos.
  (* the conversion factor *)
  assert (EM : R64 fmega = 1000000) by (unfold fmega; apply f_of_Z_R; lia).
  assert (FM : is_finite fmega = true) by (unfold fmega; apply f_of_Z_fin; lia).
  assert (Ew : R64 (f_of_Z w) = IZR w) by (apply f_of_Z_R; lia).
  assert (W1 : 1 <= IZR w <= 9007199254740992).
  { split; apply IZR_le; lia. }
  replace (10 ^ 6) with 1000000 by ring.
  set (kk := 1000000 / IZR w).
  assert (KK : / 10000000000 <= kk <= 1000000).
  { unfold kk. split; [apply le_div; lra|apply div_le; lra]. }
  destruct (fdiv_fin fmega (f_of_Z w) 300 FM ltac:(rewrite Ew; lra) ltac:(lia)) as (Ek & Fk).
  { rewrite EM, Ew. fold kk. apply (b2_le _ 20); [lia|]. rewrite Rabs_pos_eq by lra. assert (2 ^ 20 = 1048576) by ring. lra. }
  rewrite EM, Ew in Ek. fold kk in Ek. set (k := fdiv fmega (f_of_Z w)) in *.
  assert (Rk : rel 1 (R64 k) kk).
  { rewrite Ek. apply rel_rnd. pose proof (inv_pow_le 40 1000 ltac:(lia)).
    assert (/ 2 ^ 40 <= / 1000000000000) by (apply Rinv_le_contravar; [lra|]; assert (2 ^ 40 = 1099511627776) by ring; lra). lra. }
  pose proof (rel_abs 1 _ _ ltac:(lia) Rk) as Rk'. pose proof (rel_pos _ _ _ Rk) as Pk. apply Rabs_le_inv in Rk'.
  replace (INR 1) with 1 in Rk' by (cbn; lra).
  assert (UK : 0 < u * kk) by (apply Rmult_lt_0_compat; lra).
  assert (UK2 : u * kk <= kk / 10000) by (assert (u * kk <= / 10000 * kk) by (apply Rmult_le_compat_r; lra); lra).
  set (D := Rabs (R64 d)) in *. set (D0 := Rabs (k2 - k1)) in *. set (kr := R64 k) in *.
  assert (PD0 : 0 <= D0) by apply Rabs_pos.
  assert (Ekr : R64 k = kr) by reflexivity.
  clearbody D D0 kr kk. apply Rabs_le_inv in Ha.
  set (X := T * kk).
  assert (PX : 0 < u * X) by (unfold X; apply Rmult_lt_0_compat; [lra|apply Rmult_lt_0_compat; lra]).
  (* |D kr - D0 kk| *)
  assert (A1 : D * kr - D0 * kk = (D - D0) * kr + D0 * (kr - kk)) by ring.
  assert (A2 : Rabs ((D - D0) * kr) <= 42 * (u * T) * (kk + kk / 100)).
  { rewrite Rabs_mult, (Rabs_pos_eq kr) by lra. apply Rmult_le_compat; [apply Rabs_pos|lra| |lra]. apply Rabs_le. lra. }
  assert (A3 : Rabs (D0 * (kr - kk)) <= T * (2 * (u * kk))).
  { rewrite Rabs_mult, (Rabs_pos_eq D0) by lra. apply Rmult_le_compat; [lra|apply Rabs_pos|lra|]. apply Rabs_le. lra. }
  assert (A2' : 42 * (u * T) * (kk + kk / 100) = 42 * (u * X) + 42 * (u * X) / 100) by (unfold X; field).
  assert (A3' : T * (2 * (u * kk)) = 2 * (u * X)) by (unfold X; field).
  assert (A4 : Rabs (D * kr) <= X + X / 10).
  { rewrite Rabs_pos_eq by (apply Rmult_le_pos; lra).
    apply Rle_trans with ((T + T / 50) * (kk + kk / 50)).
    - apply Rmult_le_compat; lra.
    - assert (0 < T * kk) by (apply Rmult_lt_0_compat; lra). unfold X. lra. }
  assert (XB : X <= 2 ^ 250 * 2 ^ 20).
  { unfold X. assert (2 ^ 20 = 1048576) by ring. apply Rmult_le_compat; lra. }
  rewrite <- pow_add in XB. cbn [Nat.add] in XB. assert (D271 : 2 ^ 271 = 2 * 2 ^ 270) by (cbn [pow]; ring).
  assert (PX0 : 0 < X) by (unfold X; apply Rmult_lt_0_compat; lra).
  destruct (fmul_fin (Babs d) k 300 Fa Fk ltac:(lia)) as (Ee & Fe).
  { rewrite Ea, Ekr. apply (b2_le _ 271); [lia|]. lra. }
  rewrite Ea, Ekr in Ee. pose proof (rnd_bound _ _ A4) as Re. rewrite <- Ee in Re. apply Rabs_le_inv in Re.
  split; [exact Fe|]. split.
  - rewrite Ee. apply rnd64_ge_fmt; [apply generic_format_0|]. apply Rmult_le_pos; lra.
  - rewrite u_47. fold X.
    assert (Q2 : u * (X + X / 10) = u * X + u * X / 10) by field. rewrite Q2 in Re.
    assert (XG : / 10000000000 <= X) by (unfold X; assert (1 * kk <= T * kk) by (apply Rmult_le_compat_r; lra); lra).
    assert (ETA : eta <= u * X).
    { pose proof eta_200. pose proof (inv_pow_le 40 200 ltac:(lia)).
      assert (/ 2 ^ 40 <= / 1000000000000) by (apply Rinv_le_contravar; [lra|]; assert (2 ^ 40 = 1099511627776) by ring; lra).
      assert (u * / 2 ^ 200 <= u * X) by (apply Rmult_le_compat_l; lra). lra. }
    rewrite A2' in A2. rewrite A3' in A3. apply Rabs_le_inv in A2. apply Rabs_le_inv in A3.
    replace (64 * u * X) with (64 * (u * X)) by ring. apply Rabs_le. lra.
Qed.

(** The mean number of electrons of every row after the first is the exact energy loss over W up to
    2^-47 of T/W, T a bound on the total energies of the rows; that of the first row is zero. *)
Theorem C75_means : forall m w track T i, is_finite m = true -> 1 <= R64 m <= 2 ^ 100 -> (1 <= w <= 2 ^ 53)%Z ->
  (forall p, In p track -> moving p /\ R64 m * lorentz_factor p <= T) -> T <= 2 ^ 250 ->
  match i with
  | O => track <> [] -> exists e, nth_error (means64 m w track) 0 = Some e /\ is_finite e = true /\ R64 e = 0
  | S i => forall p p', nth_error track i = Some p -> nth_error track (S i) = Some p' ->
      exists e, nth_error (means64 m w track) (S i) = Some e /\ is_finite e = true /\ 0 <= R64 e /\
      Rabs (R64 e - Rabs (kinetic (R64 m) p' - kinetic (R64 m) p) * (10 ^ 6 / IZR w)) <= / 2 ^ 47 * (T * (10 ^ 6 / IZR w))
  end.
Proof.
  intros m w track T i Fm Bm Hw H BT. destruct i as [|i].
  - intros N. destruct track as [|p track]; [congruence|]. unfold means64. cbn [map nth_error].
    eexists. split; [reflexivity|].
    assert (EM : R64 fmega = 1000000) by (unfold fmega; apply f_of_Z_R; lia).
    assert (FM : is_finite fmega = true) by (unfold fmega; apply f_of_Z_fin; lia).
    assert (Ew : R64 (f_of_Z w) = IZR w) by (apply f_of_Z_R; lia).
    assert (W1 : 1 <= IZR w) by (apply IZR_le; lia).
    destruct (fdiv_fin fmega (f_of_Z w) 300 FM ltac:(rewrite Ew; lra) ltac:(lia)) as (Ek & Fk).
    { rewrite EM, Ew. apply (b2_le _ 20); [lia|].
      rewrite Rabs_pos_eq by (apply Rle_mult_inv_pos; lra). apply div_le; [lra|].
      assert (2 ^ 20 = 1048576) by ring. lra. }
    assert (E0 : R64 (f_of_Z 0) = 0) by (apply f_of_Z_R; lia).
    destruct (fmul_fin (f_of_Z 0) (fdiv fmega (f_of_Z w)) 0 ltac:(apply f_of_Z_fin; lia) Fk ltac:(lia)) as (Ee & Fe).
    { rewrite E0, Rmult_0_l, Rabs_R0. apply bpow_ge_0. }
    split; [exact Fe|]. rewrite Ee, E0, Rmult_0_l. apply rnd64_0.
  - intros p p' Hp Hp'. rewrite (means64_nth m w track i p p' Hp Hp'). eexists. split; [reflexivity|].
    destruct (H p (nth_error_In _ _ Hp)) as (M & L). destruct (H p' (nth_error_In _ _ Hp')) as (M' & L').
    now apply mean_bound.
Qed.

(** * The counts. *)
(** Every entry is converted to an integer without error; what is truncated is the normal variate with the
    computed mean up to 2^-50 of its terms. *)
Theorem C75_counts : forall fano point g, is_finite fano = true -> is_finite point = true -> is_finite g = true ->
  0 <= R64 fano <= 1 -> 0 <= R64 point <= 2 ^ 50 -> Rabs (R64 g) <= 32 ->
  exists y, count64 fano point g = Some (Ztrunc y) /\
    Rabs (y - (R64 point + sqrt (R64 fano * R64 point) * R64 g)) <=
      / 2 ^ 50 * (R64 point + sqrt (R64 fano * R64 point) * Rabs (R64 g)) + / 2 ^ 400.
Proof.
  intros fano point g Ff Fp Fg Bf Bp Bg. unfold count64.
  destruct small_facts as (U0 & U1 & T0 & T1).
  set (f := R64 fano) in *. set (mu := R64 point) in *. set (gg := R64 g) in *.
  assert (Hh : 0 <= f * mu <= mu).
  { split; [apply Rmult_le_pos; lra|]. assert (f * mu <= 1 * mu) by (apply Rmult_le_compat_r; lra). lra. }
  assert (P50 : 2 ^ 50 = 1125899906842624) by ring.
  destruct (fmul_fin fano point 50 Ff Fp ltac:(lia)) as (Er & Fr).
  { fold f mu. apply (b2_le _ 50); [lia|]. rewrite Rabs_pos_eq; lra. }
  fold f mu in Er. set (h := f * mu) in *. clearbody h. set (r := fmul fano point) in *.
  assert (Pr : 0 <= R64 r) by (rewrite Er; apply rnd64_ge_fmt; [apply generic_format_0|lra]).
  pose proof eta_500 as eta2.
  pose proof (ip 500) as I500.
  (* square roots *)
  assert (Ps : 0 <= sqrt h) by apply sqrt_pos.
  assert (US : 0 <= u * sqrt h <= sqrt h / 1000).
  { split; [apply Rmult_le_pos; lra|]. assert (u * sqrt h <= / 1000 * sqrt h) by (apply Rmult_le_compat_r; lra). lra. }
  assert (S1 : Rabs (sqrt (R64 r) - sqrt h) <= 2 * (u * sqrt h) + / 2 ^ 500).
  { destruct (Rle_dec (/ 2 ^ 1000) h) as [L|L].
    - assert (R1 : rel 1 (R64 r) h) by (rewrite Er; now apply rel_rnd).
      assert (R2 : rel 1 (sqrt (R64 r)) (sqrt h)) by (apply rel_sqrt; apply (rel_weak 1); [lia|exact R1]).
      pose proof (rel_abs 1 _ _ ltac:(lia) R2) as A. replace (INR 1) with 1 in A by (cbn; lra). lra.
    - assert (Rr : R64 r <= / 2 ^ 1000).
      { rewrite Er. assert (E : / 2 ^ 1000 = b2 (-1000)).
        { change (-1000)%Z with (- (1000))%Z. rewrite bpow_opp. f_equal.
          rewrite <- IZR_pow2 by lia. now rewrite (pow_IZR 2 1000). }
        apply rnd64_le_fmt; [rewrite E; apply fmt64_bpow; lia|lra]. }
      assert (B : forall t, 0 <= t -> t <= / 2 ^ 1000 -> 0 <= sqrt t <= / 2 ^ 500).
      { intros t P Q. split; [apply sqrt_pos|]. rewrite <- (sqrt_inv_pow 500). cbn [Nat.add]. now apply sqrt_le_1_alt. }
      pose proof (B _ Pr Rr). pose proof (B h ltac:(lra) ltac:(lra)). apply Rabs_le. lra. }
  destruct (fsqrt_fin0 r Fr Pr) as (Ew & Fw). set (w := fsqrt r) in *.
  apply Rabs_le_inv in S1. set (sh := sqrt h) in *. set (sr := sqrt (R64 r)) in *.
  assert (I4 : / 2 ^ 500 <= / 2 ^ 450 / 1000 /\ / 2 ^ 450 <= / 2 ^ 400 / 1000000 /\ / 2 ^ 400 <= / 1000000000).
  { pose proof (inv_pow_le 460 500 ltac:(lia)). pose proof (inv_pow_le 420 450 ltac:(lia)). pose proof (inv_pow_le 40 400 ltac:(lia)).
    assert (A1 : / 2 ^ 460 = / 2 ^ 450 * / 1024) by (replace 1024 with (2 ^ 10) by ring; rewrite <- Rinv_mult, <- pow_add; reflexivity).
    assert (A2 : / 2 ^ 420 = / 2 ^ 400 * / 1048576) by (replace 1048576 with (2 ^ 20) by ring; rewrite <- Rinv_mult, <- pow_add; reflexivity).
    assert (/ 2 ^ 40 <= / 1000000000000) by (apply Rinv_le_contravar; [lra|]; assert (2 ^ 40 = 1099511627776) by ring; lra).
    pose proof (ip 450). pose proof (ip 400). lra. }
  assert (Psr : 0 <= sr) by apply sqrt_pos.
  assert (SH : sh <= 33554432).
  { unfold sh. replace 33554432 with (2 ^ 25) by ring. rewrite <- (sqrt_pow 25). apply sqrt_le_1_alt. cbn [Nat.add]. lra. }
  clearbody sh sr.
  pose proof (ip 450) as I450. pose proof (ip 400) as I400.
  set (z4 := / 2 ^ 400) in *. set (z45 := / 2 ^ 450) in *. set (z5 := / 2 ^ 500) in *. clearbody z4 z45 z5.
  pose proof (rnd_bound sr (sh + sh / 100 + z5) ltac:(rewrite Rabs_pos_eq; lra)) as Rw. rewrite <- Ew in Rw. apply Rabs_le_inv in Rw.
  assert (Q1 : u * (sh + sh / 100 + z5) = u * sh + u * sh / 100 + u * z5) by field. rewrite Q1 in Rw.
  assert (UZ : 0 <= u * z5 <= z5) by (split; [apply Rmult_le_pos; lra|]; assert (u * z5 <= 1 * z5) by (apply Rmult_le_compat_r; lra); lra).
  assert (Hw : - (4 * (u * sh) + z45) <= R64 w - sh <= 4 * (u * sh) + z45) by lra.
  (* times g *)
  assert (Pg : 0 <= Rabs gg) by apply Rabs_pos.
  assert (Hv0 : Rabs (R64 w * gg - sh * gg) <= (4 * (u * sh) + z45) * Rabs gg).
  { replace (R64 w * gg - sh * gg) with ((R64 w - sh) * gg) by ring. rewrite Rabs_mult.
    apply Rmult_le_compat_r; [lra|]. apply Rabs_le. lra. }
  set (p := sh * Rabs gg).
  assert (Pp : 0 <= p) by (apply Rmult_le_pos; lra).
  assert (Pp2 : p <= 33554432 * 32) by (apply Rmult_le_compat; lra).
  assert (Q2 : (4 * (u * sh) + z45) * Rabs gg <= 4 * (u * p) + 32 * z45).
  { assert (z45 * Rabs gg <= z45 * 32) by (apply Rmult_le_compat_l; lra).
    replace ((4 * (u * sh) + z45) * Rabs gg) with (4 * (u * p) + z45 * Rabs gg) by (unfold p; ring). lra. }
  assert (Up : 0 <= u * p <= p / 1000).
  { split; [apply Rmult_le_pos; lra|]. assert (u * p <= / 1000 * p) by (apply Rmult_le_compat_r; lra). lra. }
  assert (Ap : Rabs (sh * gg) = p) by (rewrite Rabs_mult, (Rabs_pos_eq sh) by lra; reflexivity).
  assert (Bv : Rabs (R64 w * gg) <= p + p / 100 + z4).
  { replace (R64 w * gg) with ((R64 w * gg - sh * gg) + sh * gg) by ring.
    eapply Rle_trans; [apply Rabs_triang|]. lra. }
  destruct (fmul_fin w g 50 Fw Fg ltac:(lia)) as (Ev & Fv).
  { fold gg. apply (b2_le _ 50); [lia|]. lra. }
  fold gg in Ev. set (v := fmul w g) in *.
  pose proof (rnd_bound _ _ Bv) as Rv. rewrite <- Ev in Rv.
  assert (Q3 : u * (p + p / 100 + z4) = u * p + u * p / 100 + u * z4) by field. rewrite Q3 in Rv.
  assert (UZ4 : 0 <= u * z4 <= z4 / 1000) by (split; [apply Rmult_le_pos; lra|]; assert (u * z4 <= / 1000 * z4) by (apply Rmult_le_compat_r; lra); lra).
  apply Rabs_le_inv in Rv. apply Rabs_le_inv in Hv0.
  assert (Hv : - (6 * (u * p) + z4 / 100) <= R64 v - sh * gg <= 6 * (u * p) + z4 / 100) by lra.
  assert (Bv' : Rabs (R64 v) <= p + p / 50 + z4).
  { apply Rabs_le. rewrite <- Ap in Pp. pose proof (Rabs_le_inv (sh * gg) p ltac:(lra)). lra. }
  pose proof (Rabs_le_inv _ _ Bv') as Bv2.
  assert (By : Rabs (mu + R64 v) <= mu + p + p / 50 + z4) by (apply Rabs_le; lra).
  destruct (fadd_fin point v 52 Fp Fv ltac:(lia)) as (Ey & Fy).
  { fold mu. apply (b2_le _ 52); [lia|]. assert (2 ^ 52 = 4503599627370496) by ring. lra. }
  fold mu in Ey. set (y := fadd point v) in *.
  pose proof (rnd_bound _ _ By) as Ry. rewrite <- Ey in Ry. apply Rabs_le_inv in Ry.
  assert (Q4 : u * (mu + p + p / 50 + z4) = u * mu + u * p + u * p / 50 + u * z4) by field. rewrite Q4 in Ry.
  assert (Um : 0 <= u * mu) by (apply Rmult_le_pos; lra).
  assert (Um2 : u * mu <= 10). { assert (u * mu <= / 1000000000000000 * mu) by (apply Rmult_le_compat_r; lra). lra. }
  exists (R64 y). split.
  - apply f_to_Z_some; [exact Fy|].
    assert (YB : Rabs (R64 y) <= IZR (2 ^ 52)).
    { replace (IZR (2 ^ 52)) with 4503599627370496 by (vm_compute; reflexivity). apply Rabs_le. apply Rabs_le_inv in By. lra. }
    assert (Z.abs (Ztrunc (R64 y)) <= 2 ^ 52)%Z.
    { rewrite <- Ztrunc_abs. rewrite <- (Ztrunc_IZR (2 ^ 52)). now apply Ztrunc_le. }
    unfold two63. lia.
  - rewrite eight_u. replace (8 * u * (mu + p)) with (8 * (u * mu) + 8 * (u * p)) by ring.
    apply Rabs_le. lra.
Qed.

(** A nucleus that loses no energy between two rows makes no electrons there, whatever the draw. *)
Theorem C75_no_loss : forall m w track T i p p' fano g, is_finite m = true -> 1 <= R64 m <= 2 ^ 100 -> (1 <= w <= 2 ^ 53)%Z ->
  (forall p, In p track -> moving p /\ R64 m * lorentz_factor p <= T) -> T <= 2 ^ 250 ->
  T * (10 ^ 6 / IZR w) <= 2 ^ 33 ->
  is_finite fano = true -> 0 <= R64 fano <= 1 -> is_finite g = true -> Rabs (R64 g) <= 32 ->
  nth_error track i = Some p -> nth_error track (S i) = Some p' -> kinetic (R64 m) p = kinetic (R64 m) p' ->
  exists e, nth_error (means64 m w track) (S i) = Some e /\ count64 fano e g = Some 0%Z.
Proof.
  intros m w track T i p p' fano g Fm Bm Hw H BT BK Ff Bf Fg Bg Hp Hp' Eq.
  destruct (C75_means m w track T (S i) Fm Bm Hw H BT p p' Hp Hp') as (e & E & Fe & Pe & Be).
  exists e. split; [exact E|].
  replace (kinetic (R64 m) p' - kinetic (R64 m) p) with 0 in Be by lra.
  rewrite Rabs_R0, Rmult_0_l, Rminus_0_r in Be.
  rewrite Rabs_pos_eq in Be by exact Pe.
  assert (B1 : R64 e <= / 2 ^ 14).
  { eapply Rle_trans; [exact Be|]. apply Rle_trans with (/ 2 ^ 47 * 2 ^ 33); [|lra].
    apply Rmult_le_compat_l; [pose proof (ip 47); lra|exact BK]. }
  destruct (C75_counts fano e g Ff Fe Fg Bf ltac:(lra) Bg) as (y & Y & By). rewrite Y.
  assert (Sq : 0 <= sqrt (R64 fano * R64 e) <= / 2 ^ 7).
  { split; [apply sqrt_pos|]. rewrite <- (sqrt_inv_pow 7). cbn [Nat.add]. apply sqrt_le_1_alt.
    assert (R64 fano * R64 e <= 1 * R64 e) by (apply Rmult_le_compat_r; lra). lra. }
  set (sq := sqrt (R64 fano * R64 e)) in *.
  assert (A1 : 0 <= sq * Rabs (R64 g) <= / 2 ^ 7 * 32).
  { pose proof (Rabs_pos (R64 g)). split; [apply Rmult_le_pos; lra|apply Rmult_le_compat; lra]. }
  assert (A2 : Rabs (sq * R64 g) = sq * Rabs (R64 g)) by (rewrite Rabs_mult, (Rabs_pos_eq sq) by lra; reflexivity).
  pose proof (Rabs_le_inv (sq * R64 g) (/ 2 ^ 7 * 32) ltac:(lra)) as A3.
  apply Rabs_le_inv in By. pose proof (inv_pow_le 10 400 ltac:(lia)).
  f_equal. assert (L : Rabs y < 1) by (apply Rabs_lt; lra).
  unfold Ztrunc. destruct (Rlt_bool_spec y 0) as [Ny|Ny].
  - apply Rabs_lt_inv in L. unfold Zceil. rewrite (Zfloor_imp 0); [reflexivity|]. cbn [IZR Z.add]. split; cbn; lra.
  - apply Rabs_lt_inv in L. apply Zfloor_imp. split; cbn; lra.
Qed.

(** At rest the computed energy is NaN (0/0), so are the neighbouring entries, and the conversion to
    integers fails. *)
Theorem C75_rest : forall m p fano g w track i p', is_finite m = true ->
  vx64 p = B754_zero false -> vy64 p = B754_zero false -> vz64 p = B754_zero false ->
  nth_error track i = Some p' -> nth_error track (S i) = Some p ->
  exists e, nth_error (means64 m w track) (S i) = Some e /\ count64 fano e g = None.
Proof.
  intros m p fano g w track i p' Fm Hx Hy Hz Hp' Hp. rewrite (means64_nth m w track i p' p Hp' Hp).
  assert (N : row_energy64 m p = B754_nan).
  { unfold row_energy64, gv64. rewrite Hx, Hy, Hz.
    replace (fsub _ fone) with (@B754_nan prec64 emax64) by (vm_compute; reflexivity).
    destruct m; try discriminate; reflexivity. }
  rewrite N. eexists. split; [reflexivity|].
  assert (E : fmul (Babs (fsub B754_nan (row_energy64 m p'))) (fdiv fmega (f_of_Z w)) = B754_nan).
  { replace (fsub B754_nan (row_energy64 m p')) with (@B754_nan prec64 emax64) by reflexivity. reflexivity. }
  rewrite E. reflexivity.
Qed.

(** Alpha particle with p = 3/4 mc turning in the field without loss (rows 0, 1), then slower (row 2). *)
Definition quarters (n : Z) : f64 := f_of_ZE n (-2).
Lemma quarters_R n : (Z.abs n < 2 ^ 53)%Z -> R64 (quarters n) = IZR n / 4 /\ is_finite (quarters n) = true.
Proof.
  intros H. destruct (f_of_ZE_correct n (-2) H ltac:(lia)) as (E & F). split; [|exact F]. unfold quarters. rewrite E.
  unfold F2R. cbn [Fnum Fexp]. change (b2 (-2)) with (/ 4). lra.
Qed.
Example C75_example :
  let row a b c := mkVec64 (quarters a) (quarters b) (quarters c) in
  let track := [row 3 0 0; row 0 3 0; row 1 1 0]%Z in
  let m := f_of_Z 3728 in
  Rabs (R64 (row_energy64 m (row 3 0 0)%Z) - 932) <= / 2 ^ 48 * 4660 /\
  (forall g, is_finite g = true -> Rabs (R64 g) <= 32 ->
    exists e, nth_error (means64 m 34 track) 1 = Some e /\ count64 (quarters 1) e g = Some 0%Z) /\
  exists e, nth_error (means64 m 34 track) 2 = Some e /\ 1 <= R64 e.
Proof.
  cbv zeta. set (m := f_of_Z 3728).
  assert (Em : R64 m = 3728) by (apply f_of_Z_R; lia). assert (Fm : is_finite m = true) by (apply f_of_Z_fin; lia).
  assert (P100 : 3728 <= 2 ^ 100).
  { apply Rle_trans with (2 ^ 12); [assert (2 ^ 12 = 4096) by ring; lra|apply Rle_pow; [lra|lia]]. }
  destruct (quarters_R 0 ltac:(lia)) as (E0 & F0). destruct (quarters_R 1 ltac:(lia)) as (E1 & F1).
  destruct (quarters_R 3 ltac:(lia)) as (E3 & F3).
  set (r1 := mkVec64 (quarters 3) (quarters 0) (quarters 0)). set (r2 := mkVec64 (quarters 0) (quarters 3) (quarters 0)).
  set (r3 := mkVec64 (quarters 1) (quarters 1) (quarters 0)).
  assert (A1 : momentum2 r1 = 9 / 16) by (unfold momentum2, r1; cbn [vx64 vy64 vz64]; rewrite E0, E3; lra).
  assert (A2 : momentum2 r2 = 9 / 16) by (unfold momentum2, r2; cbn [vx64 vy64 vz64]; rewrite E0, E3; lra).
  assert (A3 : momentum2 r3 = 1 / 8) by (unfold momentum2, r3; cbn [vx64 vy64 vz64]; rewrite E0, E1; lra).
  pose proof (inv_pow_le 4 200 ltac:(lia)) as I4. assert (G4 : 1 <= 2 ^ 200) by (apply pow_R1_Rle; lra).
  assert (M1 : moving r1) by (repeat split; cbn [r1 vx64 vy64 vz64]; try assumption; rewrite A1; lra).
  assert (M2 : moving r2) by (repeat split; cbn [r2 vx64 vy64 vz64]; try assumption; rewrite A2; lra).
  assert (M3 : moving r3) by (repeat split; cbn [r3 vx64 vy64 vz64]; try assumption; rewrite A3; lra).
  assert (SQ : sqrt (25 / 16) = 5 / 4) by (replace (25 / 16) with (5 / 4 * (5 / 4)) by lra; apply sqrt_square; lra).
  assert (L1 : lorentz_factor r1 = 5 / 4) by (unfold lorentz_factor; rewrite A1, <- SQ; f_equal; lra).
  assert (L2 : lorentz_factor r2 = 5 / 4) by (unfold lorentz_factor; rewrite A2, <- SQ; f_equal; lra).
  assert (L3 : 1 <= lorentz_factor r3 <= 11 / 10).
  { split; [apply lorentz_ge1|]. unfold lorentz_factor. rewrite A3. replace (11 / 10) with (sqrt (11 / 10 * (11 / 10))) by (apply sqrt_square; lra).
    apply sqrt_le_1_alt. lra. }
  assert (H : forall p, In p [r1; r2; r3] -> moving p /\ R64 m * lorentz_factor p <= 4660).
  { intros p [<-|[<-|[<-|[]]]]; (split; [assumption|rewrite Em, ?L1, ?L2; lra]). }
  assert (B250 : 4660 <= 2 ^ 250).
  { apply Rle_trans with (2 ^ 13); [assert (2 ^ 13 = 8192) by ring; lra|apply Rle_pow; [lra|lia]]. }
  split; [|split].
  - destruct (C75_energy m r1 Fm ltac:(rewrite Em; lra) M1) as (_ & E). unfold kinetic in E. rewrite Em, L1 in E.
    replace (3728 * (5 / 4 - 1)) with 932 in E by lra. replace (3728 + 932) with 4660 in E by lra. exact E.
  - intros g Fg Bg. apply (C75_no_loss m 34 [r1; r2; r3] 4660 0%nat r1 r2 (quarters 1) g Fm); try assumption; try reflexivity.
    + rewrite Em; lra.
    + lia.
    + assert (2 ^ 33 = 8589934592) by ring. lra.
    + rewrite E1. lra.
    + unfold kinetic. rewrite L1, L2. reflexivity.
  - destruct (C75_means m 34 [r1; r2; r3] 4660 2%nat Fm ltac:(rewrite Em; lra) ltac:(lia) H B250 r2 r3 eq_refl eq_refl) as (e & E & _ & _ & Be).
    exists e. split; [exact E|]. unfold kinetic in Be. rewrite Em, L2 in Be.
    assert (K : 3728 / 10 <= Rabs (3728 * (lorentz_factor r3 - 1) - 3728 * (5 / 4 - 1))) by (rewrite Rabs_left; lra).
    apply Rabs_le_inv in Be.
    assert (3728 / 10 * (10 ^ 6 / 34) <= Rabs (3728 * (lorentz_factor r3 - 1) - 3728 * (5 / 4 - 1)) * (10 ^ 6 / 34)) by (apply Rmult_le_compat_r; lra).
    assert (/ 2 ^ 47 <= / 10000) by lra.
    assert (/ 2 ^ 47 * (4660 * (10 ^ 6 / 34)) <= / 10000 * (4660 * (10 ^ 6 / 34))) by (apply Rmult_le_compat_r; lra). lra.
Qed.

Print Assumptions C75_energy.
Print Assumptions C75_means.
Print Assumptions C75_counts.
Print Assumptions C75_no_loss.
Print Assumptions C75_rest.
