(** P_KinF64.v -- C65: rounding in the two-body kinematics. *)
From Coq Require Import ZArith Reals Lia Lra Psatz.
From Flocq Require Import Core BinarySingleNaN Relative Mult_error.
From Verif Require Import Base F64 F64Bounds KinF64.
Local Open Scope R_scope.

(** The float power [x**2.0]: within one unit in the last place of the square and monotone. *)
Definition pow_ok (sq : f64 -> f64) : Prop :=
  (forall x, is_finite x = true -> / 2 ^ 8 <= Rabs (R64 x) <= 2 ^ 30 ->
     is_finite (sq x) = true /\ Rabs (R64 (sq x) - R64 x ^ 2) <= / 2 ^ 52 * R64 x ^ 2) /\
  (forall x y, is_finite x = true -> is_finite y = true -> / 2 ^ 8 <= R64 x -> R64 x <= R64 y -> R64 y <= 2 ^ 30 ->
     R64 (sq x) <= R64 (sq y)).

(** Textbook two-body break-up of a parent of mass M: energy and squared momentum of product 1. *)
Definition breakup_energy (M m1 m2 : R) : R := (M ^ 2 + m1 ^ 2 - m2 ^ 2) / (2 * M).
Definition breakup_momentum2 (M m1 m2 : R) : R :=
  (M ^ 2 - (m1 + m2) ^ 2) * (M ^ 2 - (m1 - m2) ^ 2) / (4 * M ^ 2).

Definition u := / 2 ^ 53.
Definition eta := / 2 ^ 1000.
Lemma u_pos : 0 < u. Proof. unfold u. apply Rinv_0_lt_compat. apply pow_lt. lra. Qed.
Lemma eta_pos : 0 < eta. Proof. unfold eta. apply Rinv_0_lt_compat. apply pow_lt. lra. Qed.

Lemma rnd_err x : Rabs (rnd64 x - x) <= u * Rabs x + eta.
Proof.
  destruct (error_N_FLT radix2 (SpecFloat.emin prec64 emax64) prec64 ltac:(reflexivity) (fun n => negb (Z.even n)) x) as (eps & et & He & Ht & _ & E).
  change (rnd64 x) with (round radix2 (FLT_exp (SpecFloat.emin prec64 emax64) prec64) ZnearestE x). rewrite E.
  replace (x * (1 + eps) + et - x) with (x * eps + et) by ring.
  eapply Rle_trans; [apply Rabs_triang|]. apply Rplus_le_compat.
  - rewrite Rabs_mult, Rmult_comm. apply Rmult_le_compat_r; [apply Rabs_pos|].
    eapply Rle_trans; [exact He|]. right. unfold u, prec64. cbn. lra.
  - eapply Rle_trans; [exact Ht|]. unfold eta.
    apply Rle_trans with (bpow radix2 (-1000)).
    + apply Rle_trans with (bpow radix2 (SpecFloat.emin prec64 emax64)).
      * pose proof (bpow_gt_0 radix2 (SpecFloat.emin prec64 emax64)). lra.
      * apply bpow_le. cbv. discriminate.
    + right. change (-1000)%Z with (- (1000))%Z. rewrite bpow_opp. f_equal. rewrite <- IZR_pow2 by lia.
      now rewrite (pow_IZR 2 1000).
Qed.

Lemma rnd_bound x B : Rabs x <= B -> Rabs (rnd64 x - x) <= u * B + eta.
Proof.
  intros H. pose proof (rnd_err x). pose proof u_pos.
  assert (u * Rabs x <= u * B) by (apply Rmult_le_compat_l; lra). lra.
Qed.

Lemma small_facts : 0 < u /\ u <= / 1000000000000000 /\ 0 < eta /\ eta <= u / 1000000.
Proof.
  split; [apply u_pos|]. split; [unfold u; lra|]. split; [apply eta_pos|].
  unfold eta, u. assert (H : / 2 ^ 1000 <= / 2 ^ 100).
  { apply Rinv_le_contravar; [apply pow_lt; lra|]. apply Rle_pow; [lra|lia]. }
  lra.
Qed.
Lemma bb k n : (0 <= n)%Z -> IZR (2 ^ n) = k -> bpow radix2 n = k.
Proof. intros Hn <-. symmetry. now apply IZR_pow2. Qed.
Lemma le_div (a b c : R) : 0 < c -> a * c <= b -> a <= b / c.
Proof. intros H L. apply Rmult_le_reg_r with c; [exact H|]. replace (b / c * c) with b by (field; lra). exact L. Qed.
Lemma div_le (a b c : R) : 0 < c -> b <= a * c -> b / c <= a.
Proof. intros H L. apply Rmult_le_reg_r with c; [exact H|]. replace (b / c * c) with b by (field; lra). exact L. Qed.
Lemma two_u : / 2 ^ 52 = 2 * u. Proof. unfold u. lra. Qed.
Lemma eight_u : / 2 ^ 50 = 8 * u. Proof. unfold u. lra. Qed.
Lemma thirtytwo_u : / 2 ^ 48 = 32 * u. Proof. unfold u. lra. Qed.
Lemma u_29 : / 2 ^ 29 = u * 16777216. Proof. unfold u. lra. Qed.
Lemma u_30 : / 2 ^ 30 = u * 8388608. Proof. unfold u. lra. Qed.
Lemma eta_tiny : eta <= u / 2 ^ 40.
Proof.
  unfold eta, u. assert (H : / 2 ^ 1000 <= / 2 ^ 100).
  { apply Rinv_le_contravar; [apply pow_lt; lra|]. apply Rle_pow; [lra|lia]. }
  lra.
Qed.
#[global] Opaque u eta.
Section Breakup.
  Context (sq : f64 -> f64) (Hsq : pow_ok sq).
  Context (m1 m2 e : f64) (M delta : R).
  Context (F1 : is_finite m1 = true) (F2 : is_finite m2 = true) (FE : is_finite e = true).
  Context (P1 : 1 <= R64 m1) (P2 : 1 <= R64 m2) (HM : M <= 1048576).
  Context (HQ : R64 m1 + R64 m2 <= M).
  Context (Hd : 0 <= delta <= / 1000000) (HE : Rabs (R64 e - M) <= delta * M).

  Let x1 := R64 m1. Let x2 := R64 m2. Let xE := R64 e.

  Lemma e_bounds : 2 <= M /\ M * (1 - / 1000000) <= xE <= M * (1 + / 1000000).
  Proof using All.
    assert (M2 : 2 <= M) by lra. split; [exact M2|].
    unfold xE. apply Rabs_le_inv in HE.
    assert (delta * M <= / 1000000 * M) by (apply Rmult_le_compat_r; lra). lra.
  Qed.

  (** The computed energy is close to the exact one. *)
  Lemma energy_close :
    is_finite (cm_energy sq m1 m2 e) = true /\
    Rabs (R64 (cm_energy sq m1 m2 e) - breakup_energy xE x1 x2) <= 5 * (u * M).
  Proof using All.
    destruct small_facts as (U0 & U1 & T0 & T1). destruct e_bounds as (M2 & EB).
    fold x1 in P1. fold x2 in P2. fold x1 x2 in HQ.
    assert (R10 : / 2 ^ 8 <= 1) by lra. assert (R30 : 2 ^ 30 = 1073741824) by lra.
    destruct Hsq as [SQ _].
    destruct (SQ m1 F1) as (G1 & A1); [fold x1; rewrite Rabs_pos_eq by lra; lra|].
    destruct (SQ m2 F2) as (G2 & A2); [fold x2; rewrite Rabs_pos_eq by lra; lra|].
    destruct (SQ e FE) as (G3 & A3); [fold xE; rewrite Rabs_pos_eq by lra; lra|].
    fold x1 in A1. fold x2 in A2. fold xE in A3.
    rewrite two_u in A1, A2, A3.
    set (a := R64 (sq m1)) in *. set (b := R64 (sq m2)) in *. set (c := R64 (sq e)) in *.
    assert (S12 : x1 ^ 2 + x2 ^ 2 <= M ^ 2).
    { assert ((x1 + x2) * (x1 + x2) <= M * M) by (apply Rmult_le_compat; lra).
      assert (0 <= x1 * x2) by (apply Rmult_le_pos; lra). lra. }
    assert (MM : 4 <= M ^ 2) by (assert (2 * 2 <= M * M) by (apply Rmult_le_compat; lra); lra).
    assert (EE : xE ^ 2 <= M ^ 2 * (1 + / 400000)).
    { assert (xE * xE <= (M * (1 + / 1000000)) * (M * (1 + / 1000000))) by (apply Rmult_le_compat; lra). lra. }
    assert (EE' : M ^ 2 * (1 - / 400000) <= xE ^ 2).
    { assert ((M * (1 - / 1000000)) * (M * (1 - / 1000000)) <= xE * xE) by (apply Rmult_le_compat; lra). lra. }
    assert (M40 : M ^ 2 <= 1099511627776) by (assert (M * M <= 1048576 * 1048576) by (apply Rmult_le_compat; lra); lra).
    apply Rabs_le_inv in A1. apply Rabs_le_inv in A2. apply Rabs_le_inv in A3.
    assert (N1 : 0 <= x1 ^ 2) by (apply pow_le; lra). assert (N2 : 0 <= x2 ^ 2) by (apply pow_le; lra).
    (* linear facts about the errors *)
    assert (XW : M ^ 2 * (1 - / 1000000) <= M * xE).
    { assert (M * (M * (1 - / 1000000)) <= M * xE) by (apply Rmult_le_compat_l; lra). lra. }
    assert (EX : forall t, t / (2 * xE) - breakup_energy xE x1 x2 = (t - (x1 ^ 2 - x2 ^ 2 + xE ^ 2)) / (2 * xE)).
    { intros t. unfold breakup_energy. field. lra. }
    set (X1 := x1 ^ 2) in *. set (X2 := x2 ^ 2) in *. set (XE := xE ^ 2) in *. set (W := M ^ 2) in *.
    clearbody X1 X2 XE W.
    assert (p1 : 0 <= u * X1) by (apply Rmult_le_pos; lra).
    assert (p2 : 0 <= u * X2) by (apply Rmult_le_pos; lra).
    assert (p3 : u * X1 + u * X2 <= u * W) by (rewrite <- Rmult_plus_distr_l; apply Rmult_le_compat_l; lra).
    assert (p4 : u * XE <= u * W * (1 + / 400000)) by (rewrite Rmult_assoc; apply Rmult_le_compat_l; lra).
    assert (p5 : 0 <= u * XE) by (apply Rmult_le_pos; lra).
    assert (p6 : 4 * u <= u * W) by (rewrite Rmult_comm; apply Rmult_le_compat_l; lra).
    assert (p7 : u * W <= / 1000000000000000 * W) by (apply Rmult_le_compat_r; lra).
    rewrite !Rmult_assoc in A1, A2, A3.
    (* s = a - b *)
    assert (Bs : Rabs (a - b) <= (1 + / 1000) * W) by (apply Rabs_le; split; lra).
    destruct (fsub_fin (sq m1) (sq m2) 41 G1 G2 ltac:(lia)) as (Rs & Fs).
    { fold a b. rewrite (bb 2199023255552 41%Z) by (lia || reflexivity). lra. }
    fold a b in Rs. set (s := R64 (fsub (sq m1) (sq m2))) in *.
    assert (Es : Rabs (s - (a - b)) <= u * ((1 + / 1000) * W) + eta) by (rewrite Rs; now apply rnd_bound).
    apply Rabs_le_inv in Es. apply Rabs_le_inv in Bs.
    replace (u * ((1 + / 1000) * W)) with ((1 + / 1000) * (u * W)) in Es by ring.
    (* t = s + c *)
    assert (Bt : Rabs (s + c) <= (2 + / 100) * W) by (apply Rabs_le; split; lra).
    destruct (fadd_fin (fsub (sq m1) (sq m2)) (sq e) 42 Fs G3 ltac:(lia)) as (Rt & Ft).
    { fold s c. rewrite (bb 4398046511104 42%Z) by (lia || reflexivity). lra. }
    fold s c in Rt. set (t := R64 (fadd (fsub (sq m1) (sq m2)) (sq e))) in *.
    assert (Et : Rabs (t - (s + c)) <= u * ((2 + / 100) * W) + eta) by (rewrite Rt; now apply rnd_bound).
    apply Rabs_le_inv in Et.
    replace (u * ((2 + / 100) * W)) with ((2 + / 100) * (u * W)) in Et by ring.
    assert (Ett : Rabs (t - (X1 - X2 + XE)) <= (7 + / 20) * (u * W)) by (apply Rabs_le; split; lra).
    (* d = 2 e *)
    assert (Rd : R64 (fmul (f_of_Z 2) e) = 2 * xE /\ is_finite (fmul (f_of_Z 2) e) = true).
    { destruct (fmul_fin (f_of_Z 2) e 30 (f_of_Z_fin 2 ltac:(lia)) FE ltac:(lia)) as (X & Y).
      - rewrite f_of_Z_R by lia. fold xE. rewrite (bb 1073741824 30%Z) by (lia || reflexivity).
        rewrite Rabs_pos_eq by lra. lra.
      - split; [|exact Y]. rewrite X, f_of_Z_R by lia. fold xE. apply rnd64_fmt.
        replace (2 * xE) with (xE * bpow radix2 1) by (cbn; lra).
        apply mult_bpow_pos_exact_FLT; [apply fmt64_R|lia]. }
    destruct Rd as (Rd & Fd).
    (* e1 = t / d *)
    specialize (EX t). set (q := t / (2 * xE)) in *.
    assert (Pe : 0 < 2 * xE) by lra.
    assert (Eq : t = q * (2 * xE)) by (unfold q; field; lra).
    assert (Bq : Rabs q <= M * (1 + / 50)).
    { apply Rabs_le_inv in Ett. apply Rabs_le. split.
      - apply Rmult_le_reg_r with (2 * xE); [lra|]. rewrite <- Eq. lra.
      - apply Rmult_le_reg_r with (2 * xE); [lra|]. rewrite <- Eq. lra. }
    assert (Eq' : Rabs (q - breakup_energy xE x1 x2) <= (3 + 7 / 10) * (u * M)).
    { rewrite EX.
      unfold Rdiv at 1. rewrite Rabs_mult, (Rabs_pos_eq (/ _)) by (left; now apply Rinv_0_lt_compat).
      apply Rmult_le_reg_r with (2 * xE); [lra|]. rewrite Rmult_assoc, Rinv_l, Rmult_1_r by lra.
      eapply Rle_trans; [exact Ett|].
      replace ((3 + 7 / 10) * (u * M) * (2 * xE)) with ((7 + 2 / 5) * (u * (M * xE))) by field.
      assert (u * (W * (1 - / 1000000)) <= u * (M * xE)) by (apply Rmult_le_compat_l; lra). lra. }
    assert (Fq : is_finite (cm_energy sq m1 m2 e) = true /\ R64 (cm_energy sq m1 m2 e) = rnd64 q).
    { unfold cm_energy. destruct (fdiv_fin (fadd (fsub (sq m1) (sq m2)) (sq e)) (fmul (f_of_Z 2) e) 30 Ft) as (X & Y).
      - rewrite Rd. lra.
      - lia.
      - fold t. rewrite Rd. fold q. rewrite (bb 1073741824 30%Z) by (lia || reflexivity). lra.
      - fold t in X. rewrite Rd in X. fold q in X. now split. }
    destruct Fq as (Fq & Rq). split; [exact Fq|]. rewrite Rq.
    pose proof (rnd_bound q _ Bq) as Er. apply Rabs_le_inv in Er. apply Rabs_le_inv in Eq'.
    assert (p8 : 2 * u <= u * M) by (rewrite Rmult_comm; apply Rmult_le_compat_l; lra).
    replace (u * (M * (1 + / 50))) with ((1 + / 50) * (u * M)) in Er by ring.
    apply Rabs_le. split; lra.
  Qed.

  Lemma exact_gap : xE <> 0 -> breakup_energy xE x1 x2 - x1 = (xE - x1 - x2) * (xE - x1 + x2) / (2 * xE).
  Proof using. intros H. unfold breakup_energy. field. exact H. Qed.

  Lemma exact_shift : 0 < M -> 0 < xE ->
    Rabs (breakup_energy xE x1 x2 - breakup_energy M x1 x2) <= 3 / 2 * (delta * M).
  Proof using All.
    intros PM PX. destruct e_bounds as (M2 & EB). fold x1 in P1. fold x2 in P2. fold x1 x2 in HQ.
    fold xE in HE.
    replace (breakup_energy xE x1 x2 - breakup_energy M x1 x2)
      with ((xE - M) * ((1 - (x1 ^ 2 - x2 ^ 2) / (xE * M)) / 2)) by (unfold breakup_energy; field; lra).
    rewrite Rabs_mult.
    assert (B : Rabs ((1 - (x1 ^ 2 - x2 ^ 2) / (xE * M)) / 2) <= 3 / 2).
    { assert (W : M ^ 2 * (1 - / 1000000) <= xE * M).
      { assert (M * (1 - / 1000000) * M <= xE * M) by (apply Rmult_le_compat_r; lra). lra. }
      assert (S12 : x1 ^ 2 + x2 ^ 2 <= M ^ 2).
      { assert ((x1 + x2) * (x1 + x2) <= M * M) by (apply Rmult_le_compat; lra).
        assert (0 <= x1 * x2) by (apply Rmult_le_pos; lra). lra. }
      assert (N1 : 0 <= x1 ^ 2) by (apply pow_le; lra). assert (N2 : 0 <= x2 ^ 2) by (apply pow_le; lra).
      assert (NM : 0 < M ^ 2) by (apply pow_lt; lra).
      assert (L : -2 <= (x1 ^ 2 - x2 ^ 2) / (xE * M) <= 2).
      { assert (PP : 0 < xE * M) by (apply Rmult_lt_0_compat; lra).
        split; [apply le_div|apply div_le]; try exact PP; lra. }
      apply Rabs_le. lra. }
    rewrite (Rmult_comm (3 / 2)). apply Rmult_le_compat; [apply Rabs_pos|apply Rabs_pos|exact HE|exact B].
  Qed.

  Context (HC : (delta + / 2 ^ 50) * M ^ 2 <= (M - x1 - x2) * x2).

  Lemma above_mass : x1 <= R64 (cm_energy sq m1 m2 e).
  Proof using All.
    destruct energy_close as (_ & C). destruct small_facts as (U0 & U1 & T0 & T1). destruct e_bounds as (M2 & EB).
    fold x1 in P1. fold x2 in P2. fold x1 x2 in HQ. fold xE in HE.
    apply Rabs_le_inv in C. apply Rabs_le_inv in HE.
    assert (G := exact_gap ltac:(lra)).
    assert (U8 : / 2 ^ 50 = 8 * u) by (rewrite eight_u; reflexivity). rewrite U8 in HC.
    set (QE := xE - x1 - x2) in *. set (Q := M - x1 - x2) in *.
    assert (K1 : Q - delta * M <= QE) by (unfold QE, Q; lra).
    assert (K2 : 8 * u * M ^ 2 <= QE * x2).
    { assert ((Q - delta * M) * x2 <= QE * x2) by (apply Rmult_le_compat_r; lra).
      assert (delta * M * x2 <= delta * M * M).
      { apply Rmult_le_compat_l; [apply Rmult_le_pos; lra|unfold Q in *; lra]. }
      lra. }
    assert (K3 : 0 <= QE).
    { assert (0 <= u * M ^ 2) by (apply Rmult_le_pos; [lra|apply pow_le; lra]).
      apply Rmult_le_reg_r with x2; lra. }
    assert (K4 : QE * (2 * x2) <= QE * (xE - x1 + x2)) by (apply Rmult_le_compat_l; unfold QE in *; lra).
    assert (K5 : 7 * (u * M) <= breakup_energy xE x1 x2 - x1).
    { rewrite G. apply le_div; [lra|].
      assert (u * M * xE <= u * M * (M * (1 + / 1000000))) by (apply Rmult_le_compat_l; [apply Rmult_le_pos; lra|lra]).
      assert (0 <= u * M ^ 2) by (apply Rmult_le_pos; [lra|apply pow_le; lra]). lra. }
    assert (0 <= u * M) by (apply Rmult_le_pos; lra). lra.
  Qed.

  (** C65: the break-up momentum is a number, and close to the exact one. *)
  Theorem C65_break_up_is_real :
    is_finite (cm_momentum sq m1 m2 e) = true /\ 0 <= R64 (cm_momentum sq m1 m2 e) /\
    Rabs (R64 (cm_energy sq m1 m2 e) - breakup_energy M x1 x2) <= (2 * delta + / 2 ^ 50) * M /\
    Rabs (R64 (cm_momentum sq m1 m2 e) ^ 2 - breakup_momentum2 M x1 x2) <= (5 * delta + / 2 ^ 48) * M ^ 2.
  Proof using All.
    pose proof above_mass as AM. destruct energy_close as (Fe & C). destruct small_facts as (U0 & U1 & T0 & T1).
    destruct e_bounds as (M2 & EB). pose proof (exact_shift ltac:(lra) ltac:(lra)) as SH.
    fold x1 in P1. fold x2 in P2. fold x1 x2 in HQ. fold xE in HE.
    set (en := R64 (cm_energy sq m1 m2 e)) in *. set (ex := breakup_energy M x1 x2) in *.
    assert (PuM : 0 <= u * M) by (apply Rmult_le_pos; lra).
    assert (PdM : 0 <= delta * M) by (apply Rmult_le_pos; lra).
    assert (E1 : Rabs (en - ex) <= 3 / 2 * (delta * M) + 5 * (u * M)).
    { apply Rabs_le_inv in C. apply Rabs_le_inv in SH. apply Rabs_le. lra. }
    assert (EX1 : x1 <= ex <= M).
    { unfold ex, breakup_energy. split; [apply le_div|apply div_le]; try lra.
      - assert (0 <= (M - x1 - x2) * (M - x1 + x2)) by (apply Rmult_le_pos; lra). lra.
      - assert ((x1 + x2) * (x1 + x2) <= M * M) by (apply Rmult_le_compat; lra).
        assert (0 <= x1 * x2) by (apply Rmult_le_pos; lra). assert (0 <= x2 ^ 2) by (apply pow_le; lra). lra. }
    assert (EN : en <= M * (1 + / 1000)).
    { apply Rabs_le_inv in E1. assert (delta * M <= / 1000000 * M) by (apply Rmult_le_compat_r; lra).
      assert (u * M <= / 1000000000000000 * M) by (apply Rmult_le_compat_r; lra). lra. }
    destruct Hsq as [SQ MO].
    assert (R10 : / 2 ^ 8 <= 1) by lra. assert (R30 : 2 ^ 30 = 1073741824) by lra.
    destruct (SQ m1 F1) as (G1 & A1); [fold x1; rewrite Rabs_pos_eq by lra; lra|].
    destruct (SQ (cm_energy sq m1 m2 e) Fe) as (G2 & A2); [fold en; rewrite Rabs_pos_eq by lra; lra|].
    assert (MN := MO m1 (cm_energy sq m1 m2 e) F1 Fe ltac:(fold x1; lra) AM ltac:(fold en; lra)).
    fold x1 in A1. fold en in A2. rewrite two_u in A1, A2.
    set (a := R64 (sq m1)) in *. set (b := R64 (sq (cm_energy sq m1 m2 e))) in *.
    assert (S1 : x1 ^ 2 <= M ^ 2) by (assert (x1 * x1 <= M * M) by (apply Rmult_le_compat; lra); lra).
    assert (S2 : en ^ 2 <= M ^ 2 * (1 + / 400)).
    { assert (en * en <= M * (1 + / 1000) * (M * (1 + / 1000))) by (apply Rmult_le_compat; lra).
      assert (0 <= M ^ 2) by (apply pow_le; lra). lra. }
    assert (N1 : 0 <= x1 ^ 2) by (apply pow_le; lra). assert (N2 : 0 <= en ^ 2) by (apply pow_le; lra).
    assert (MM : 4 <= M ^ 2) by (assert (2 * 2 <= M * M) by (apply Rmult_le_compat; lra); lra).
    assert (M40 : M ^ 2 <= 1099511627776) by (assert (M * M <= 1048576 * 1048576) by (apply Rmult_le_compat; lra); lra).
    assert (D2 : Rabs (en ^ 2 - ex ^ 2) <= (3 / 2 * (delta * M) + 5 * (u * M)) * (M * (2 + / 1000))).
    { replace (en ^ 2 - ex ^ 2) with ((en - ex) * (en + ex)) by ring. rewrite Rabs_mult.
      apply Rmult_le_compat; [apply Rabs_pos|apply Rabs_pos|exact E1|]. rewrite Rabs_pos_eq by lra. lra. }
    assert (PE : breakup_momentum2 M x1 x2 = ex ^ 2 - x1 ^ 2).
    { unfold ex, breakup_energy, breakup_momentum2. field. lra. }
    replace ((3 / 2 * (delta * M) + 5 * (u * M)) * (M * (2 + / 1000)))
      with ((3 / 2 * (2 + / 1000)) * (delta * M ^ 2) + (5 * (2 + / 1000)) * (u * M ^ 2)) in D2 by ring.
    split; [|split; [|split]]; cycle 2.
    { rewrite eight_u. apply Rle_trans with (1 := E1). lra. }
    all: set (W := M ^ 2) in *; set (X1 := x1 ^ 2) in *; set (XN := en ^ 2) in *; set (XX := ex ^ 2) in *; clearbody W X1 XN XX.
    all: assert (p1 : 0 <= u * X1 <= u * W) by (split; [apply Rmult_le_pos|apply Rmult_le_compat_l]; lra).
    all: assert (p2 : 0 <= u * XN <= u * W * (1 + / 400)) by (split; [apply Rmult_le_pos|rewrite Rmult_assoc; apply Rmult_le_compat_l]; lra).
    all: assert (p6 : 4 * u <= u * W) by (rewrite Rmult_comm; apply Rmult_le_compat_l; lra).
    all: assert (p7 : u * W <= / 1000000000000000 * W) by (apply Rmult_le_compat_r; lra).
    all: assert (p8 : 0 <= delta * W <= / 1000000 * W) by (split; [apply Rmult_le_pos|apply Rmult_le_compat_r]; lra).
    all: rewrite !Rmult_assoc in A1, A2; apply Rabs_le_inv in A1; apply Rabs_le_inv in A2; apply Rabs_le_inv in D2.
    all: assert (Bs : Rabs (b - a) <= (1 + / 100) * W) by (apply Rabs_le; split; lra).
    all: destruct (fsub_fin (sq (cm_energy sq m1 m2 e)) (sq m1) 42 G2 G1 ltac:(lia)) as (Rs & Fs);
      [fold a b; rewrite (bb 4398046511104 42%Z) by (lia || reflexivity); lra|].
    all: fold a b in Rs; unfold cm_momentum; set (y := fsub (sq (cm_energy sq m1 m2 e)) (sq m1)) in *.
    all: assert (Es : Rabs (R64 y - (b - a)) <= u * ((1 + / 100) * W) + eta) by (rewrite Rs; now apply rnd_bound).
    all: apply Rabs_le_inv in Es; apply Rabs_le_inv in Bs.
    all: replace (u * ((1 + / 100) * W)) with ((1 + / 100) * (u * W)) in Es by ring.
    all: assert (Y0 : 0 <= R64 y) by (rewrite Rs; apply rnd64_ge_fmt; [apply generic_format_0|lra]).
    all: destruct (Bsqrt_correct prec64 emax64 _ _ mode_NE y) as (Eq & Fq & _); fold (fsqrt y) in Eq, Fq; simpl round_mode in Eq.
    - (* accuracy *)
      rewrite PE. set (r := sqrt (R64 y)) in *.
      assert (R0 : 0 <= r) by (apply sqrt_pos).
      assert (RR : r ^ 2 = R64 y) by (unfold r; rewrite pow2_sqrt; lra).
      assert (ER := rnd_bound r r ltac:(rewrite Rabs_pos_eq; lra)). rewrite <- Eq in ER.
      set (p := R64 (fsqrt y)) in *.
      assert (P0 : 0 <= p) by (rewrite Eq; apply rnd64_ge_fmt; [apply generic_format_0|exact R0]).
      apply Rabs_le_inv in ER.
      assert (RM : r ^ 2 <= (1 + / 50) * W) by (rewrite RR; lra).
      assert (RMb : r <= 2 * 1048576).
      { apply Rnot_lt_le. intros H. assert (2 * 1048576 * (2 * 1048576) <= r * r) by (apply Rmult_le_compat; lra). lra. }
      assert (PP : Rabs (p ^ 2 - r ^ 2) <= 3 * (u * r ^ 2) + u * W / 10).
      { replace (p ^ 2 - r ^ 2) with ((p - r) * (2 * r + (p - r))) by ring. rewrite Rabs_mult.
        assert (ur : 0 <= u * r) by (apply Rmult_le_pos; lra).
        assert (urb : u * r <= / 1000000000000000 * r) by (apply Rmult_le_compat_r; lra).
        apply Rle_trans with ((u * r + eta) * ((2 + / 10) * r + eta)).
        - apply Rmult_le_compat; [apply Rabs_pos|apply Rabs_pos|apply Rabs_le; lra|apply Rabs_le; lra].
        - assert (er : eta * r <= u / 1000000 * r) by (apply Rmult_le_compat_r; lra).
          assert (uer : u * r * eta <= u * r * (/ 1000)) by (apply Rmult_le_compat_l; lra).
          assert (ee : eta * eta <= eta * 1) by (apply Rmult_le_compat_l; lra).
          assert (ru : u * r <= u * (1 + r ^ 2)) by (apply Rmult_le_compat_l; [lra|]; assert (0 <= (r - 1) ^ 2) by (apply pow2_ge_0); lra).
          assert (0 <= u * r ^ 2) by (apply Rmult_le_pos; [lra|apply pow2_ge_0]). lra. }
      assert (ur2 : u * r ^ 2 <= u * ((1 + / 50) * W)) by (apply Rmult_le_compat_l; lra).
      assert (U48 : / 2 ^ 48 = 32 * u) by (rewrite thirtytwo_u; reflexivity).
      rewrite U48. apply Rabs_le_inv in PP. apply Rabs_le. lra.
    - rewrite Fq. destruct y as [?|?| |[] m ee He]; try discriminate; try reflexivity.
      exfalso. pose proof (F2R_lt_0 radix2 (Float radix2 (Z.neg m) ee) ltac:(cbn; lia)) as N. cbn [B2R] in Y0. unfold SpecFloat.cond_Zopp in Y0. cbn in Y0, N. lra.
    - rewrite Eq. apply rnd64_ge_fmt; [apply generic_format_0|apply sqrt_pos].
  Qed.
End Breakup.

(** The correctly rounded product meets the assumption on [x**2.0]. *)
Lemma mul_pow_ok : pow_ok (fun x => fmul x x).
Proof.
  destruct small_facts as (U0 & U1 & T0 & T1).
  assert (K : forall x, is_finite x = true -> / 2 ^ 8 <= Rabs (R64 x) <= 2 ^ 30 ->
    R64 (fmul x x) = rnd64 (R64 x * R64 x) /\ is_finite (fmul x x) = true).
  { intros x F (L & H). apply (fmul_fin x x 60 F F ltac:(lia)). rewrite (bb 1152921504606846976 60%Z) by (lia || reflexivity).
    rewrite Rabs_mult. replace 1152921504606846976 with (2 ^ 30 * 2 ^ 30) by lra.
    apply Rmult_le_compat; try apply Rabs_pos; exact H. }
  split.
  - intros x F B. destruct (K x F B) as (E & G). split; [exact G|]. rewrite E, two_u.
    replace (R64 x ^ 2) with (R64 x * R64 x) by ring.
    assert (L : / 2 ^ 16 <= R64 x * R64 x).
    { rewrite <- (Rabs_pos_eq (R64 x * R64 x)) by (apply Rle_0_sqr). rewrite Rabs_mult.
      replace (/ 2 ^ 16) with (/ 2 ^ 8 * / 2 ^ 8) by lra. apply Rmult_le_compat; lra. }
    pose proof (rnd_err (R64 x * R64 x)) as Er. rewrite (Rabs_pos_eq (R64 x * R64 x)) in Er by (apply Rle_0_sqr).
    assert (u * / 2 ^ 16 <= u * (R64 x * R64 x)) by (apply Rmult_le_compat_l; lra). lra.
  - intros x y F G L LE H. destruct (K x F) as (E & _); [rewrite Rabs_pos_eq by lra; lra|].
    destruct (K y G) as (E' & _); [rewrite Rabs_pos_eq by lra; lra|]. rewrite E, E'.
    apply round_le; [apply FLT_exp_valid; reflexivity|apply valid_rnd_N|].
    apply Rmult_le_compat; lra.
Qed.

(** The hypotheses of [C65_break_up_is_real] met: 4He (3727 MeV) + 12C (11178 MeV) from a parent
    of 14912 MeV. *)
Example C65_hypotheses :
  let m1 := f_of_Z 3727 in let m2 := f_of_Z 11178 in let e := f_of_Z 14912 in
  pow_ok (fun x => fmul x x) /\
  is_finite (cm_momentum (fun x => fmul x x) m1 m2 e) = true /\
  Rabs (R64 (cm_energy (fun x => fmul x x) m1 m2 e) - breakup_energy 14912 3727 11178) <= (2 * 0 + / 2 ^ 50) * 14912.
Proof.
  intros m1 m2 e. split; [exact mul_pow_ok|].
  assert (R1 : R64 m1 = 3727) by (apply f_of_Z_R; lia). assert (R2 : R64 m2 = 11178) by (apply f_of_Z_R; lia).
  assert (RE : R64 e = 14912) by (apply f_of_Z_R; lia).
  destruct (C65_break_up_is_real (fun x => fmul x x) mul_pow_ok m1 m2 e 14912 0) as (A & _ & B & _);
    try (apply f_of_Z_fin; lia); rewrite ?R1, ?R2, ?RE; try lra.
  - rewrite Rminus_eq_0, Rabs_R0. lra.
  - rewrite R1, R2 in B. now split.
Qed.

(** Three units in the last place above the sum of the product masses: the excitation is "allowed",
    the exact energy available is positive, and the momentum is not a number. *)
Theorem C65_allowed_is_real_refuted :
  exists sq m1 m2 mass, pow_ok sq /\ is_finite m1 = true /\ is_finite m2 = true /\ is_finite mass = true /\
    1 <= R64 m1 /\ 1 <= R64 m2 /\ R64 m1 + R64 m2 < R64 mass <= 1048576 /\
    decay_allowed mass m1 m2 (f_of_Z 0) = true /\
    is_nan (cm_momentum sq m1 m2 mass) = true.
Proof.
  set (n := 7978056371142659%Z (* 3628 * 2^41 + 3 *)).
  exists (fun x => fmul x x), (f_of_Z 3418), (f_of_Z 210), (fdiv (f_of_Z n) (f_of_Z (2 ^ 41))).
  assert (Rn : R64 (f_of_Z n) = IZR n) by (apply f_of_Z_R; unfold n; lia).
  assert (Rd : R64 (f_of_Z (2 ^ 41)) = 2199023255552) by (apply f_of_Z_R; unfold n; lia).
  destruct (fdiv_fin (f_of_Z n) (f_of_Z (2 ^ 41)) 20) as (E & F).
  { apply f_of_Z_fin. unfold n; lia. }
  { rewrite Rd. lra. } { lia. }
  { rewrite Rn, Rd, (bb 1048576 20%Z) by (lia || reflexivity). unfold n. rewrite Rabs_pos_eq; [|apply le_div; lra]. apply div_le; lra. }
  rewrite Rn, Rd in E.
  assert (V : R64 (fdiv (f_of_Z n) (f_of_Z (2 ^ 41))) = IZR n / 2199023255552).
  { rewrite E. apply rnd64_fmt. replace (IZR n / 2199023255552) with (F2R (Float radix2 n (-41))).
    - apply generic_format_FLT. exists (Float radix2 n (-41)); [reflexivity|cbv; reflexivity|cbv; discriminate].
    - unfold F2R. cbn [Fnum Fexp]. change (bpow radix2 (-41)) with (/ 2199023255552). reflexivity. }
  repeat match goal with |- _ /\ _ => split end.
  - exact mul_pow_ok.
  - apply f_of_Z_fin; lia.
  - apply f_of_Z_fin; lia.
  - exact F.
  - rewrite f_of_Z_R by lia. lra.
  - rewrite f_of_Z_R by lia. lra.
  - rewrite V, !f_of_Z_R by lia. unfold n. apply Rmult_lt_reg_r with 2199023255552; [lra|].
    replace (7978056371142659 / 2199023255552 * 2199023255552) with (7978056371142659) by (field). lra.
  - rewrite V. unfold n. apply div_le; lra.
  - vm_compute. reflexivity.
  - vm_compute. reflexivity.
Qed.
