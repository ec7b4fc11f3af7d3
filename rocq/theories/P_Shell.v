(** P_Shell.v -- C84: the masses of the four-momenta computed in binary64. *)
From Coq Require Import ZArith Reals Lia Lra List.
From Flocq Require Import Core BinarySingleNaN.
From Verif Require Import Base F64 F64Bounds Nucleus Reaction SpecReaction ReactionProofs P_Reaction KinF64 P_KinF64 KinChain P_KinChain.
From Verif Require P_SamplingF64 P_ResponseF64.
Import ListNotations.
Local Open Scope R_scope.

(** The real four-vector of a row. *)
Definition real (v : v4) : p4 := mkP4 (R64 (vx v)) (R64 (vy v)) (R64 (vz v)) (R64 (vE v)).
(** Every component within [t]. *)
Definition within (t : R) (a b : p4) : Prop :=
  Rabs (qx a - qx b) <= t /\ Rabs (qy a - qy b) <= t /\ Rabs (qz a - qz b) <= t /\ Rabs (qE a - qE b) <= t.
Definition sized (t : R) (a : p4) : Prop := Rabs (qx a) <= t /\ Rabs (qy a) <= t /\ Rabs (qz a) <= t /\ Rabs (qE a) <= t.
Definition rest_mass (p : p4) : R := sqrt (mdot p p).

(** numpy's sine and cosine, to one unit in the last place of 1. *)
Definition trig_ok (sn cs : f64 -> f64) : Prop := forall x, is_finite x = true -> Rabs (R64 x) <= 8 ->
  is_finite (sn x) = true /\ Rabs (R64 (sn x) - sin (R64 x)) <= / 2 ^ 52 /\
  is_finite (cs x) = true /\ Rabs (R64 (cs x) - cos (R64 x)) <= / 2 ^ 52.

(** The vector library at a parent [p]: rest energy accurate to [delta], boosts of vectors of the size
    of the parent's mass accurate to [eps] of the parent's energy. *)
Definition library_at (boost : v4 -> v4 -> v4) (rest_energy : v4 -> f64) (delta eps : R) (p : v4) : Prop :=
  let P := real p in
  finite_row p /\ timelike P /\
  is_finite (rest_energy p) = true /\ Rabs (R64 (rest_energy p) - rest_mass P) <= delta * rest_mass P /\
  forall a, finite_row a -> sized (2 * rest_mass P) (real a) ->
    finite_row (boost p a) /\
    exists b, Reaction.boost P (real a) = Some b /\ within (eps * qE P) (real (boost p a)) b.

(** ** Four-vectors *)
Lemma comp_le P : timelike P -> sized (qE P) P /\ 0 < rest_mass P <= qE P.
Proof.
  intros T. destruct (sqrt_m P T) as (Pm & Sm). destruct T as (T1 & T2). unfold rest_mass. unfold mdot in T1.
  pose proof (pow2_ge_0 (qx P)). pose proof (pow2_ge_0 (qy P)). pose proof (pow2_ge_0 (qz P)).
  assert (A : forall x, x ^ 2 <= qE P ^ 2 -> Rabs x <= qE P).
  { intros x H'. rewrite <- (Rabs_pos_eq (qE P)) by lra. apply Rsqr_le_abs_0. unfold Rsqr. lra. }
  split; [repeat split; try (apply A; lra); rewrite Rabs_pos_eq; lra|].
  split; [exact Pm|]. rewrite <- (Rabs_pos_eq (sqrt (mdot P P))) by lra. apply A. replace (sqrt (mdot P P) ^ 2) with (sqrt (mdot P P) * sqrt (mdot P P)) by ring.
  rewrite Sm. unfold mdot. lra.
Qed.

Lemma abs_mul a b x y : Rabs a <= x -> Rabs b <= y -> Rabs (a * b) <= x * y.
Proof. intros A B. rewrite Rabs_mult. apply Rmult_le_compat; auto using Rabs_pos. Qed.
Lemma abs_add a b x y : Rabs a <= x -> Rabs b <= y -> Rabs (a + b) <= x + y.
Proof. intros A B. eapply Rle_trans; [apply Rabs_triang|lra]. Qed.

(** Size of a boosted vector. *)
Lemma boost_size P a g h : timelike P -> Rabs (qx a) <= g -> Rabs (qy a) <= g -> Rabs (qz a) <= g -> Rabs (qE a) <= h ->
  sized ((4 * g + h) * (qE P / rest_mass P)) (lboost P 1 a).
Proof.
  intros T X Y Z W. destruct (comp_le P T) as ((PX & PY & PZ & PE) & Pm & Le). destruct T as (_ & T2).
  unfold lboost. fold (rest_mass P). set (m := rest_mass P) in *. set (E := qE P) in *.
  pose proof (Rabs_pos (qx a)). pose proof (Rabs_pos (qE a)).
  assert (G : 1 <= E / m) by (apply le_div; lra). set (ga := E / m) in *.
  set (s := 1 * (qx P * qx a + qy P * qy a + qz P * qz a)).
  assert (Sb : Rabs s <= 3 * (E * g)).
  { unfold s. rewrite Rmult_1_l. pose proof (abs_mul _ _ _ _ PX X). pose proof (abs_mul _ _ _ _ PY Y). pose proof (abs_mul _ _ _ _ PZ Z).
    pose proof (Rabs_triang (qx P * qx a + qy P * qy a) (qz P * qz a)). pose proof (Rabs_triang (qx P * qx a) (qy P * qy a)). lra. }
  assert (Eg : 0 <= E * g) by (apply Rmult_le_pos; lra).
  set (k := (s / (E + m) + qE a) / m).
  assert (Q : Rabs (s / (E + m)) <= 3 * g).
  { unfold Rdiv. rewrite Rabs_mult, Rabs_inv, (Rabs_pos_eq (E + m)) by lra. apply div_le; [lra|].
    assert (0 <= g * m) by (apply Rmult_le_pos; lra). lra. }
  assert (K : Rabs k * m <= 3 * g + h).
  { unfold k. unfold Rdiv. rewrite Rabs_mult, Rabs_inv, (Rabs_pos_eq m) by lra. rewrite Rmult_assoc, Rinv_l, Rmult_1_r by lra.
    eapply Rle_trans; [apply Rabs_triang|]. unfold Rdiv in Q. lra. }
  assert (S1 : forall x p, Rabs x <= g -> Rabs p <= E -> Rabs (x + k * (1 * p)) <= (4 * g + h) * ga).
  { intros x p Hx Hp. eapply Rle_trans; [apply Rabs_triang|]. rewrite Rabs_mult, Rmult_1_l.
    assert (Rabs k * Rabs p <= Rabs k * E) by (apply Rmult_le_compat_l; [apply Rabs_pos|exact Hp]).
    assert (Rabs k * E <= (3 * g + h) * ga).
    { unfold ga. apply Rmult_le_reg_r with m; [lra|]. replace ((3 * g + h) * (E / m) * m) with ((3 * g + h) * E) by (field; lra).
      replace (Rabs k * E * m) with (Rabs k * m * E) by ring. apply Rmult_le_compat_r; lra. }
    assert (g * 1 <= g * ga) by (apply Rmult_le_compat_l; lra). lra. }
  repeat split; cbn [qx qy qz qE]; try (apply S1; assumption).
  apply Rmult_le_reg_r with m; [lra|]. unfold Rdiv. rewrite Rabs_mult, Rabs_inv, (Rabs_pos_eq m) by lra. rewrite Rmult_assoc, Rinv_l, Rmult_1_r by lra.
  replace ((4 * g + h) * ga * m) with ((4 * g + h) * E) by (unfold ga; field; lra).
  eapply Rle_trans; [apply Rabs_triang|]. pose proof (abs_mul _ _ _ _ PE W). lra.
Qed.

Lemma lboost_sub P a b : lboost P 1 (psub a b) = psub (lboost P 1 a) (lboost P 1 b).
Proof. unfold lboost, psub. cbn [qx qy qz qE]. apply p4_eq; cbn [qx qy qz qE]; unfold Rdiv; ring. Qed.

(** How far the square of a vector moves. *)
Lemma mdot_close a b K t : sized K b -> within t a b -> Rabs (mdot a a - mdot b b) <= 4 * (t * (2 * K + t)).
Proof.
  intros (BX & BY & BZ & BE) (DX & DY & DZ & DE).
  assert (S1 : forall x y, Rabs y <= K -> Rabs (x - y) <= t -> Rabs (x * x - y * y) <= t * (2 * K + t)).
  { intros x y Hy Hd. replace (x * x - y * y) with ((x - y) * (2 * y + (x - y))) by ring. apply abs_mul; [exact Hd|].
    apply abs_add; [|exact Hd]. rewrite Rabs_mult, Rabs_pos_eq by lra. lra. }
  pose proof (S1 _ _ BX DX) as A. pose proof (S1 _ _ BY DY) as B. pose proof (S1 _ _ BZ DZ) as C. pose proof (S1 _ _ BE DE) as D.
  unfold mdot. apply Rabs_le_inv in A, B, C, D. apply Rabs_le. lra.
Qed.
Lemma mdot_bound a b K t : sized K a -> sized t b -> Rabs (mdot a b) <= 4 * (K * t).
Proof.
  intros (A1 & A2 & A3 & A4) (B1 & B2 & B3 & B4). unfold mdot.
  pose proof (abs_mul _ _ _ _ A1 B1) as X1. pose proof (abs_mul _ _ _ _ A2 B2) as X2. pose proof (abs_mul _ _ _ _ A3 B3) as X3. pose proof (abs_mul _ _ _ _ A4 B4) as X4.
  apply Rabs_le_inv in X1, X2, X3, X4. apply Rabs_le. lra.
Qed.
Lemma mdot_boosted P a : timelike P -> mdot P (lboost P 1 a) = rest_mass P * qE a.
Proof.
  intros T. assert (Q : P = lboost P 1 (mkP4 0 0 0 (rest_mass P))).
  { pose proof (lboost_self P T) as Q. fold (rest_mass P) in Q. rewrite <- Q. replace 1 with (- (-1)) by ring.
    symmetry. apply lboost_inv; [exact T|ring]. }
  rewrite Q at 1. rewrite lboost_mdot by (auto; ring). unfold mdot. cbn [qx qy qz qE]. ring.
Qed.

(** A boosted vector keeps a positive energy. *)
Lemma boost_low P a c h : timelike P -> 0 < qE a <= h -> 0 < c <= mdot a a ->
  c / (2 * h) * (qE P / rest_mass P) <= qE (lboost P 1 a).
Proof.
  intros T Ha Hc. destruct (comp_le P T) as (_ & Pm & Le). destruct T as (T1 & T2).
  unfold lboost. fold (rest_mass P). set (m := rest_mass P) in *. cbn [qE]. rewrite Rmult_1_l.
  set (n2 := qx a * qx a + qy a * qy a + qz a * qz a).
  assert (N2 : 0 <= n2) by (unfold n2; pose proof (pow2_ge_0 (qx a)); pose proof (pow2_ge_0 (qy a)); pose proof (pow2_ge_0 (qz a)); lra).
  assert (Nm : n2 = qE a * qE a - mdot a a) by (unfold n2, mdot; ring).
  set (n := sqrt n2). assert (N0 : 0 <= n) by apply sqrt_pos. assert (Nn : n * n = n2) by (apply sqrt_sqrt; exact N2).
  set (s := qx P * qx a + qy P * qy a + qz P * qz a).
  assert (Sb : Rabs s <= qE P * n).
  { rewrite <- (Rabs_pos_eq (qE P * n)) by (apply Rmult_le_pos; lra). apply Rsqr_le_abs_0. unfold Rsqr.
    replace (qE P * n * (qE P * n)) with (qE P * qE P * (n * n)) by ring. rewrite Nn.
    assert (L : qx P * qx P + qy P * qy P + qz P * qz P <= qE P * qE P) by (unfold mdot in T1; lra).
    apply Rle_trans with ((qx P * qx P + qy P * qy P + qz P * qz P) * n2); [|apply Rmult_le_compat_r; assumption].
    pose proof (pow2_ge_0 (qx P * qy a - qy P * qx a)). pose proof (pow2_ge_0 (qx P * qz a - qz P * qx a)). pose proof (pow2_ge_0 (qy P * qz a - qz P * qy a)).
    unfold s, n2. lra. }
  assert (Nl : n <= qE a).
  { rewrite <- (Rabs_pos_eq n), <- (Rabs_pos_eq (qE a)) by lra. apply Rsqr_le_abs_0. unfold Rsqr. lra. }
  assert (D : c / (2 * h) <= qE a - n).
  { apply div_le; [lra|]. assert ((qE a - n) * (qE a + n) <= (qE a - n) * (2 * h)) by (apply Rmult_le_compat_l; lra). lra. }
  apply Rmult_le_reg_r with m; [lra|]. unfold Rdiv. rewrite !Rmult_assoc, Rinv_l, !Rmult_1_r by lra. apply Rabs_le_inv in Sb.
  fold s. unfold Rdiv in D. apply Rmult_le_compat_r with (r := qE P) in D; lra.
Qed.

(** ** Rounding *)
Lemma mul_close (x t : f64) (X tau B a b : R) : is_finite x = true -> is_finite t = true -> Rabs (R64 x - X) <= a * (u * B) ->
  Rabs (R64 t - tau) <= b * u -> Rabs X <= B -> Rabs tau <= 1 -> 1 <= B <= 2 ^ 22 -> 0 <= a <= 100 -> 0 <= b <= 100 ->
  is_finite (fmul x t) = true /\ Rabs (R64 (fmul x t) - X * tau) <= (a + b + 2) * (u * B).
Proof.
  intros Fx Ft Hx Ht HX HT HB Ha Hb. destruct small_facts as (U0 & U1 & T0 & T1). assert (P22 : 2 ^ 22 = 4194304) by ring. rewrite P22 in HB.
  assert (UB : 0 < u * B) by (apply Rmult_lt_0_compat; lra). assert (UB1 : u * B <= / 100000000) by (assert (u * B <= / 1000000000000000 * 4194304) by (apply Rmult_le_compat; lra); lra).
  assert (LB : u * 1 <= u * B) by (apply Rmult_le_compat_l; lra).
  assert (D : R64 x * R64 t - X * tau = (R64 x - X) * tau + (R64 x - X) * (R64 t - tau) + X * (R64 t - tau)) by ring.
  pose proof (abs_mul _ _ _ _ Hx HT) as D1. pose proof (abs_mul _ _ _ _ Hx Ht) as D2. pose proof (abs_mul _ _ _ _ HX Ht) as D3.
  assert (S2 : a * (u * B) * (b * u) <= / 10 * (u * B)).
  { replace (a * (u * B) * (b * u)) with (a * b * u * (u * B)) by ring. apply Rmult_le_compat_r; [lra|].
    assert (a * b <= 100 * 100) by (apply Rmult_le_compat; lra). assert (0 <= a * b) by (apply Rmult_le_pos; lra).
    assert (a * b * u <= 100 * 100 * / 1000000000000000) by (apply Rmult_le_compat; lra). lra. }
  assert (E1 : Rabs (R64 x * R64 t - X * tau) <= (a + b + / 10) * (u * B)).
  { rewrite D. apply Rabs_le_inv in D1, D2, D3. apply Rabs_le. replace (B * (b * u)) with (b * (u * B)) in D3 by ring. lra. }
  assert (Xt : Rabs (X * tau) <= B) by (replace B with (B * 1) by ring; now apply abs_mul).
  assert (Sz : Rabs (R64 x * R64 t) <= B + (a + b + / 10) * (u * B)).
  { apply Rabs_le_inv in E1, Xt. apply Rabs_le. lra. }
  assert (Cu : (a + b + / 10) * (u * B) <= / 2).
  { apply Rle_trans with (201 * / 100000000); [apply Rmult_le_compat; lra|lra]. }
  destruct (fmul_fin x t 30 Fx Ft ltac:(lia)) as (E & F).
  { eapply Rle_trans; [exact Sz|]. change (b2 30) with 1073741824. lra. }
  split; [exact F|]. rewrite E. pose proof (rnd_bound _ _ Sz) as R.
  assert (u * (B + (a + b + / 10) * (u * B)) <= u * (B + / 2)) by (apply Rmult_le_compat_l; lra).
  apply Rabs_le_inv in R, E1. apply Rabs_le. lra.
Qed.

Lemma squares_close x y z X Y Z p k : 0 <= p -> Rabs X <= p -> Rabs Y <= p -> Rabs Z <= p -> X * X + Y * Y + Z * Z = p ^ 2 -> 0 <= k ->
  Rabs (x - X) <= k -> Rabs (y - Y) <= k -> Rabs (z - Z) <= k -> Rabs (x * x + y * y + z * z - p ^ 2) <= 3 * (k * (2 * p + k)).
Proof.
  intros Hp BX BY BZ <- Hk DX DY DZ.
  assert (S1 : forall x y, Rabs y <= p -> Rabs (x - y) <= k -> Rabs (x * x - y * y) <= k * (2 * p + k)).
  { intros a b Hy Hd. replace (a * a - b * b) with ((a - b) * (2 * b + (a - b))) by ring. apply abs_mul; [exact Hd|].
    apply abs_add; [|exact Hd]. rewrite Rabs_mult, Rabs_pos_eq by lra. lra. }
  pose proof (S1 _ _ BX DX) as A. pose proof (S1 _ _ BY DY) as B. pose proof (S1 _ _ BZ DZ) as C.
  apply Rabs_le_inv in A, B, C. apply Rabs_le. lra.
Qed.

Lemma u_44 : / 2 ^ 44 = 512 * u. Proof. Transparent u. unfold u. Opaque u. lra. Qed.
Lemma u_47 : / 2 ^ 47 = 64 * u. Proof. Transparent u. unfold u. Opaque u. lra. Qed.

Section Body.
  Context (sq sn cs : f64 -> f64) (boost : v4 -> v4 -> v4) (rest_energy : v4 -> f64).
  Context (Hsq : pow_ok sq) (Htr : trig_ok sn cs).
  Context (parent : v4) (m1 m2 th ph : f64) (delta eps : R).
  Context (F1 : is_finite m1 = true) (F2 : is_finite m2 = true) (P1 : 1 <= R64 m1) (P2 : 1 <= R64 m2).
  Context (Ft : is_finite th = true) (Bt : Rabs (R64 th) <= 8) (Fp : is_finite ph = true) (Bp : Rabs (R64 ph) <= 8).
  Context (Hd : 0 <= delta <= / 1000000) (He : 0 <= eps <= / 1000000).
  Let P := real parent. Let M := rest_mass P. Let E := qE P. Let x1 := R64 m1. Let x2 := R64 m2.
  Context (HM : M <= 1048576) (HE : E <= 1073741824).
  Context (HC : (delta + / 2 ^ 50) * M ^ 2 <= (M - x1 - x2) * x2).
  Context (L : library_at boost rest_energy delta eps parent).
  Let e := rest_energy parent.
  Let en := R64 (cm_energy sq m1 m2 e). Let p := R64 (cm_momentum sq m1 m2 e).
  Let e0 := breakup_energy M x1 x2.

  Lemma body_real : 2 <= M /\ x1 <= e0 <= M /\ is_finite (cm_energy sq m1 m2 e) = true /\ is_finite (cm_momentum sq m1 m2 e) = true /\
    0 <= p <= M * (1 + / 1000) /\ Rabs (en - e0) <= (2 * delta + 8 * u) * M /\
    Rabs (p ^ 2 - (e0 ^ 2 - x1 ^ 2)) <= (5 * delta + 32 * u) * M ^ 2 /\ x1 + x2 <= M.
  Proof using Hsq F1 F2 P1 P2 Hd HM HC L.
    destruct L as (_ & T & Fe & Ae & _). fold P in T, Ae. fold M e in Ae, Fe. destruct small_facts as (U0 & U1 & T0 & T1).
    destruct (comp_le P T) as (_ & M0 & _). fold M in M0. unfold x1, x2 in *.
    assert (HQ : R64 m1 + R64 m2 <= M).
    { assert (0 <= (delta + / 2 ^ 50) * M ^ 2) by (apply Rmult_le_pos; [rewrite eight_u; lra|apply pow_le; lra]).
      destruct (Rle_or_lt (R64 m1 + R64 m2) M) as [Q|Q]; [exact Q|].
      assert (0 < (R64 m1 + R64 m2 - M) * R64 m2) by (apply Rmult_lt_0_compat; lra). lra. }
    destruct (C65_break_up_is_real sq Hsq m1 m2 e M delta F1 F2 Fe P1 P2 HM HQ Hd Ae HC) as (Fk & Pk & EC & KC).
    destruct (energy_close sq Hsq m1 m2 e M delta F1 F2 Fe P1 P2 HM HQ Hd Ae) as (Fn & _).
    rewrite eight_u in EC. rewrite thirtytwo_u in KC. fold p in Pk, KC. fold en in EC.
    change (breakup_energy M (R64 m1) (R64 m2)) with e0 in EC.
    assert (B2 : breakup_momentum2 M (R64 m1) (R64 m2) = e0 ^ 2 - R64 m1 ^ 2).
    { unfold breakup_momentum2, e0, breakup_energy. field. lra. }
    rewrite B2 in KC.
    assert (EX1 : R64 m1 <= e0 <= M).
    { unfold e0, x1, x2, breakup_energy. split; [apply le_div|apply div_le]; try lra.
      - assert (0 <= (M - R64 m1 - R64 m2) * (M - R64 m1 + R64 m2)) by (apply Rmult_le_pos; lra). lra.
      - assert ((R64 m1 + R64 m2) * (R64 m1 + R64 m2) <= M * M) by (apply Rmult_le_compat; lra).
        assert (0 <= R64 m1 * R64 m2) by (apply Rmult_le_pos; lra). assert (0 <= R64 m2 ^ 2) by (apply pow_le; lra). lra. }
    split; [lra|]. split; [exact EX1|]. split; [exact Fn|]. split; [exact Fk|].
    split; [|split; [exact EC|split; [exact KC|exact HQ]]].
    split; [exact Pk|]. apply Rabs_le_inv in KC.
    assert (e0 ^ 2 <= M ^ 2) by (apply pow_incr; lra). assert (0 <= R64 m1 ^ 2) by (apply pow_le; lra).
    assert (M2 : 0 <= M ^ 2) by (apply pow_le; lra).
    assert ((5 * delta + 32 * u) * M ^ 2 <= / 1000 * M ^ 2) by (apply Rmult_le_compat_r; lra).
    assert (Q : p ^ 2 <= (M * (1 + / 1000)) ^ 2).
    { replace ((M * (1 + / 1000)) ^ 2) with (M ^ 2 * (1 + / 1000) ^ 2) by ring. lra. }
    rewrite <- (Rabs_pos_eq p), <- (Rabs_pos_eq (M * (1 + / 1000))) by lra. apply Rsqr_le_abs_0. unfold Rsqr. lra.
  Qed.

  Let a := mkV4 (fmul (fmul (cm_momentum sq m1 m2 e) (sn th)) (cs ph)) (fmul (fmul (cm_momentum sq m1 m2 e) (sn th)) (sn ph))
                (fmul (cm_momentum sq m1 m2 e) (cs th)) (cm_energy sq m1 m2 e).
  Let t := R64 th. Let f := R64 ph.

  Lemma cm_row : finite_row a /\ Rabs (R64 (vx a) - p * (sin t * cos f)) <= 9 * (u * M) /\
    Rabs (R64 (vy a) - p * (sin t * sin f)) <= 9 * (u * M) /\ Rabs (R64 (vz a) - p * cos t) <= 9 * (u * M).
  Proof using Hsq Htr F1 F2 P1 P2 Ft Bt Fp Bp Hd HM HC L.
    destruct body_real as (M2 & _ & Fn & Fk & (Pp & Bpm) & _). destruct small_facts as (U0 & U1 & T0 & T1).
    set (B := M * (1 + / 1000)) in *. assert (UB : 0 < u * M) by (apply Rmult_lt_0_compat; lra).
    assert (UBM : u * B <= 1002 / 1000 * (u * M)) by (unfold B; lra).
    assert (BB : 1 <= B <= 2 ^ 22) by (unfold B; assert (2 ^ 22 = 4194304) by ring; lra).
    destruct (Htr th Ft Bt) as (Fs1 & Hs1 & Fc1 & Hc1). destruct (Htr ph Fp Bp) as (Fs2 & Hs2 & Fc2 & Hc2). fold t in Hs1, Hc1. fold f in Hs2, Hc2.
    rewrite two_u in *.
    assert (Sb : forall x, Rabs (sin x) <= 1) by (intros x; apply Rabs_le; pose proof (SIN_bound x); lra).
    assert (Cb : forall x, Rabs (cos x) <= 1) by (intros x; apply Rabs_le; pose proof (COS_bound x); lra).
    assert (Z0 : Rabs (R64 (cm_momentum sq m1 m2 e) - p) <= 0 * (u * B)) by (unfold p; replace (_ - _) with 0 by ring; rewrite Rabs_R0; lra).
    assert (Zp : Rabs p <= B) by (rewrite Rabs_pos_eq; lra).
    assert (A1 : 0 <= 0 <= 100) by lra. assert (A2 : 0 <= 2 <= 100) by lra. assert (A4 : 0 <= 0 + 2 + 2 <= 100) by lra.
    destruct (mul_close _ (sn th) p (sin t) B 0 2 Fk Fs1 Z0 Hs1 Zp (Sb t) BB A1 A2) as (G1 & H1).
    destruct (mul_close _ (cs th) p (cos t) B 0 2 Fk Fc1 Z0 Hc1 Zp (Cb t) BB A1 A2) as (G2 & H2).
    assert (Zs : Rabs (p * sin t) <= B) by (replace B with (B * 1) by ring; apply abs_mul; auto).
    destruct (mul_close _ (cs ph) (p * sin t) (cos f) B _ 2 G1 Fc2 H1 Hc2 Zs (Cb f) BB A4 A2) as (G3 & H3).
    destruct (mul_close _ (sn ph) (p * sin t) (sin f) B _ 2 G1 Fs2 H1 Hs2 Zs (Sb f) BB A4 A2) as (G4 & H4).
    split; [intros c [<-|[<-|[<-|[<-|[]]]]]; assumption|].
    unfold a. cbn [vx vy vz]. rewrite <- !Rmult_assoc.
    split; [eapply Rle_trans; [exact H3|]; lra|]. split; [eapply Rle_trans; [exact H4|]; lra|]. eapply Rle_trans; [exact H2|]. lra.
  Qed.

  Let A := real a.
  Lemma dir_facts : let X := p * (sin t * cos f) in let Y := p * (sin t * sin f) in let Z := p * cos t in
    X * X + Y * Y + Z * Z = p ^ 2 /\ Rabs X <= Rabs p /\ Rabs Y <= Rabs p /\ Rabs Z <= Rabs p.
  Proof using Type.
    intros X Y Z. pose proof (sin2_cos2 t) as A1. pose proof (sin2_cos2 f) as B1. unfold Rsqr in A1, B1.
    assert (Q : X * X + Y * Y + Z * Z = p ^ 2).
    { unfold X, Y, Z. replace (p * (sin t * cos f) * (p * (sin t * cos f)) + p * (sin t * sin f) * (p * (sin t * sin f)) + p * cos t * (p * cos t))
        with (p ^ 2 * (sin t * sin t * (sin f * sin f + cos f * cos f) + cos t * cos t)) by ring. rewrite B1, Rmult_1_r, A1. ring. }
    split; [exact Q|]. pose proof (pow2_ge_0 X). pose proof (pow2_ge_0 Y). pose proof (pow2_ge_0 Z).
    repeat split; apply Rsqr_le_abs_0; unfold Rsqr; lra.
  Qed.

  Lemma cm_mass : Rabs (mdot A A - x1 ^ 2) <= (10 * delta + 120 * u) * M ^ 2.
  Proof using Hsq Htr F1 F2 P1 P2 Ft Bt Fp Bp Hd HM HC L.
    destruct body_real as (M2 & EX & _ & _ & (Pp & Bpm) & EC & KC & _). destruct cm_row as (_ & X & Y & Z).
    destruct small_facts as (U0 & U1 & T0 & T1). destruct dir_facts as (Q & BX & BY & BZ). rewrite (Rabs_pos_eq p) in BX, BY, BZ by lra.
    assert (UM : 0 < u * M) by (apply Rmult_lt_0_compat; lra).
    pose proof (squares_close _ _ _ _ _ _ p (9 * (u * M)) Pp BX BY BZ Q ltac:(lra) X Y Z) as S.
    assert (M0 : 0 <= M ^ 2) by (apply pow_le; lra).
    assert (K1 : 3 * (9 * (u * M) * (2 * p + 9 * (u * M))) <= 55 * (u * M ^ 2)).
    { assert (u * M <= / 1000000 * M) by (apply Rmult_le_compat_r; lra).
      assert (u * M * (2 * p + 9 * (u * M)) <= u * M * (2002 / 1000 * M + / 100000 * M)) by (apply Rmult_le_compat_l; lra).
      assert (0 <= u * M ^ 2) by (apply Rmult_le_pos; lra). lra. }
    assert (K2 : Rabs (en ^ 2 - e0 ^ 2) <= (2 * delta + 8 * u) * M * (2001 / 1000 * M)).
    { replace (en ^ 2 - e0 ^ 2) with ((en - e0) * (2 * e0 + (en - e0))) by ring. apply abs_mul; [exact EC|].
      assert ((2 * delta + 8 * u) * M <= / 1000 * M) by (apply Rmult_le_compat_r; lra).
      assert (1 <= x1) by exact P1. apply Rabs_le_inv in EC. apply Rabs_le. lra. }
    replace ((2 * delta + 8 * u) * M * (2001 / 1000 * M)) with (4002 / 1000 * (delta * M ^ 2) + 16008 / 1000 * (u * M ^ 2)) in K2 by field.
    replace ((5 * delta + 32 * u) * M ^ 2) with (5 * (delta * M ^ 2) + 32 * (u * M ^ 2)) in KC by ring.
    replace ((10 * delta + 120 * u) * M ^ 2) with (10 * (delta * M ^ 2) + 120 * (u * M ^ 2)) by ring.
    assert (0 <= delta * M ^ 2) by (apply Rmult_le_pos; lra). assert (0 <= u * M ^ 2) by (apply Rmult_le_pos; lra).
    unfold A, real, mdot. cbn [qx qy qz qE]. change (R64 (vE a)) with en. 
    apply Rabs_le_inv in S, KC, K2. apply Rabs_le. replace (en * en) with (en ^ 2) by ring. lra.
  Qed.

  Let v := boost parent a. Let w := vsub parent v.

  Lemma a_size : Rabs (qx A) <= 101 / 100 * M /\ Rabs (qy A) <= 101 / 100 * M /\ Rabs (qz A) <= 101 / 100 * M /\ Rabs (qE A) <= 101 / 100 * M.
  Proof using Hsq Htr F1 F2 P1 P2 Ft Bt Fp Bp Hd HM HC L.
    destruct body_real as (M2 & EX & _ & _ & (Pp & Bpm) & EC & _). destruct cm_row as (_ & X & Y & Z).
    destruct small_facts as (U0 & U1 & T0 & T1). destruct dir_facts as (_ & BX & BY & BZ). rewrite (Rabs_pos_eq p) in BX, BY, BZ by lra.
    assert (u * M <= / 1000000 * M) by (apply Rmult_le_compat_r; lra). assert (delta * M <= / 1000000 * M) by (apply Rmult_le_compat_r; lra).
    assert (1 <= x1) by exact P1. unfold A, real. cbn [qx qy qz qE]. change (R64 (vE a)) with en.
    apply Rabs_le_inv in X, Y, Z, BX, BY, BZ, EC. repeat split; apply Rabs_le; lra.
  Qed.

  Lemma body_boost : finite_row v /\ timelike P /\ 0 < M <= E /\ 2 <= E /\ within (eps * E) (real v) (lboost P 1 A) /\ sized (505 / 100 * E) (lboost P 1 A).
  Proof using Hsq Htr F1 F2 P1 P2 Ft Bt Fp Bp Hd HM HC L.
    destruct a_size as (X & Y & Z & W). destruct cm_row as (Fa & _). destruct body_real as (M2 & _).
    destruct L as (_ & T & _ & _ & Lb). destruct (comp_le P T) as (_ & M0 & M1). fold M in M0, M1. fold E in M1.
    destruct (Lb a Fa) as (Fv & b & Eb & Wi).
    { fold P. fold M. fold A. repeat split; lra. }
    fold P in Eb, T. fold A in Eb. rewrite (boost_eq P A T) in Eb.
    apply (f_equal (fun x => match x with Some y => y | None => A end)) in Eb. cbv beta iota in Eb. subst b.
    split; [exact Fv|]. split; [exact T|]. split; [lra|]. split; [lra|]. split; [exact Wi|].
    pose proof (boost_size P A (101 / 100 * M) (101 / 100 * M) T X Y Z W) as Sz. fold M E in Sz.
    replace ((4 * (101 / 100 * M) + 101 / 100 * M) * (E / M)) with (505 / 100 * E) in Sz by (field; lra). exact Sz.
  Qed.

  Lemma body_first : Rabs (mdot (real v) (real v) - x1 ^ 2) <= (10 * delta + 41 * eps + 120 * u) * E ^ 2.
  Proof using Hsq Htr F1 F2 P1 P2 Ft Bt Fp Bp Hd He HM HC L.
    destruct body_boost as (_ & T & ME & E2 & Wi & Sz). pose proof cm_mass as CM. pose proof (mdot_close _ _ _ _ Sz Wi) as D.
    rewrite lboost_mdot in D by (auto; ring). destruct small_facts as (U0 & U1 & T0 & T1).
    assert (Q : M ^ 2 <= E ^ 2) by (apply pow_incr; lra). assert (Q0 : 0 <= E ^ 2) by (apply pow_le; lra).
    assert (K : (10 * delta + 120 * u) * M ^ 2 <= (10 * delta + 120 * u) * E ^ 2) by (apply Rmult_le_compat_l; lra).
    assert (eps * E <= / 1000000 * E) by (apply Rmult_le_compat_r; lra). assert (Ee : 0 <= eps * E) by (apply Rmult_le_pos; lra).
    assert (K2 : eps * E * (2 * (505 / 100 * E) + eps * E) <= eps * E * (1011 / 100 * E)) by (apply Rmult_le_compat_l; lra).
    assert (0 <= eps * E ^ 2) by (apply Rmult_le_pos; lra).
    apply Rabs_le_inv in D, CM. apply Rabs_le. lra.
  Qed.

  Lemma v_size : sized (506 / 100 * E) (real v).
  Proof using Hsq Htr F1 F2 P1 P2 Ft Bt Fp Bp Hd He HM HC L.
    destruct body_boost as (_ & _ & ME & E2 & (W1 & W2 & W3 & W4) & (S1 & S2 & S3 & S4)).
    assert (eps * E <= / 1000000 * E) by (apply Rmult_le_compat_r; lra).
    apply Rabs_le_inv in W1, W2, W3, W4, S1, S2, S3, S4. repeat split; apply Rabs_le; lra.
  Qed.

  Lemma body_sub : finite_row w /\ within (607 / 100 * (u * E)) (real w) (psub P (real v)) /\ sized (606 / 100 * E) (psub P (real v)).
  Proof using Hsq Htr F1 F2 P1 P2 Ft Bt Fp Bp Hd He HM HC L HE.
    destruct body_boost as (Fv & T & ME & E2 & _). destruct v_size as (V1 & V2 & V3 & V4).
    destruct (comp_le P T) as ((S1 & S2 & S3 & S4) & _). fold E in S1, S2, S3, S4. destruct L as (FP & _).
    destruct small_facts as (U0 & U1 & T0 & T1).
    assert (K : forall x y : f64, is_finite x = true -> is_finite y = true -> Rabs (R64 x) <= E -> Rabs (R64 y) <= 506 / 100 * E ->
      is_finite (fsub x y) = true /\ Rabs (R64 (fsub x y) - (R64 x - R64 y)) <= 607 / 100 * (u * E) /\ Rabs (R64 x - R64 y) <= 606 / 100 * E).
    { intros x y Fx Fy Bx By. assert (S0 : Rabs (R64 x - R64 y) <= 606 / 100 * E) by (apply Rabs_le_inv in Bx, By; apply Rabs_le; lra).
      destruct (fsub_fin x y 40 Fx Fy ltac:(lia)) as (Eq & Fi).
      { eapply Rle_trans; [exact S0|]. change (b2 40) with 1099511627776. lra. }
      split; [exact Fi|]. split; [|exact S0]. rewrite Eq. eapply Rle_trans; [apply (rnd_bound _ _ S0)|].
      assert (u * 2 <= u * E) by (apply Rmult_le_compat_l; lra). lra. }
    destruct (K (vx parent) (vx v)) as (G1 & H1 & I1); [apply FP; now left|apply Fv; now left|exact S1|exact V1|].
    destruct (K (vy parent) (vy v)) as (G2 & H2 & I2); [apply FP; right; now left|apply Fv; right; now left|exact S2|exact V2|].
    destruct (K (vz parent) (vz v)) as (G3 & H3 & I3); [apply FP; do 2 right; now left|apply Fv; do 2 right; now left|exact S3|exact V3|].
    destruct (K (vE parent) (vE v)) as (G4 & H4 & I4); [apply FP; do 3 right; now left|apply Fv; do 3 right; now left|exact S4|exact V4|].
    split; [intros c [<-|[<-|[<-|[<-|[]]]]]; assumption|]. split; repeat split; assumption.
  Qed.

  Lemma body_second : Rabs (mdot (real w) (real w) - x2 ^ 2) <= (14 * delta + 49 * eps + 440 * u) * E ^ 2.
  Proof using Hsq Htr F1 F2 P1 P2 Ft Bt Fp Bp Hd He HM HC L HE.
    destruct body_sub as (_ & Wi & Sz). destruct body_boost as (_ & T & ME & E2 & (W1 & W2 & W3 & W4) & _).
    pose proof body_first as BF. destruct body_real as (M2 & EX & _ & _ & _ & EC & _). destruct small_facts as (U0 & U1 & T0 & T1).
    pose proof (mdot_close _ _ _ _ Sz Wi) as D. rewrite mdot_psub in D.
    destruct (comp_le P T) as (SP & _). fold E in SP.
    assert (Sd : sized (eps * E) (psub (real v) (lboost P 1 A))) by (repeat split; assumption).
    pose proof (mdot_bound _ _ _ _ SP Sd) as G.
    assert (Lin : mdot P (psub (real v) (lboost P 1 A)) = mdot P (real v) - M * en).
    { unfold M. change en with (qE A). rewrite <- (mdot_boosted P A T). unfold mdot, psub. cbn [qx qy qz qE]. ring. }
    rewrite Lin in G. destruct (sqrt_m P T) as (_ & Sm). fold (rest_mass P) in Sm. fold M in Sm.
    assert (Kin : M * M - 2 * (M * e0) + x1 ^ 2 = x2 ^ 2) by (unfold e0, breakup_energy; field; lra).
    assert (Q : M ^ 2 <= E ^ 2) by (apply pow_incr; lra). assert (Q0 : 0 <= E ^ 2) by (apply pow_le; lra).
    assert (KE : Rabs (M * (en - e0)) <= (2 * delta + 8 * u) * E ^ 2).
    { apply Rle_trans with (M * ((2 * delta + 8 * u) * M)); [apply abs_mul; [rewrite Rabs_pos_eq; lra|exact EC]|].
      replace (M * ((2 * delta + 8 * u) * M)) with ((2 * delta + 8 * u) * M ^ 2) by ring. apply Rmult_le_compat_l; lra. }
    assert (UE : 0 < u * E) by (apply Rmult_lt_0_compat; lra). assert (u * E <= / 1000000 * E) by (apply Rmult_le_compat_r; lra).
    assert (K2 : 607 / 100 * (u * E) * (2 * (606 / 100 * E) + 607 / 100 * (u * E)) <= 607 / 100 * (u * E) * (1213 / 100 * E)) by (apply Rmult_le_compat_l; lra).
    assert (0 <= eps * E ^ 2) by (apply Rmult_le_pos; lra). assert (0 <= u * E ^ 2) by (apply Rmult_le_pos; lra). assert (0 <= delta * E ^ 2) by (apply Rmult_le_pos; lra).
    replace (E * (eps * E)) with (eps * E ^ 2) in G by ring.
    apply Rabs_le_inv in D, BF, G, KE. apply Rabs_le. lra.
  Qed.

  (** The distance to the exact products, of masses [x1] and [y]. *)
  Lemma body_exact y : Rabs (x2 - y) <= 11 / 10 * (u * y) -> 1 <= y -> x1 + y < M ->
    let es := breakup_energy M x1 y in let k := sqrt (es ^ 2 - x1 ^ 2) in
    let b := lboost P 1 (mkP4 (k * sin t * cos f) (k * sin t * sin f) (k * cos t) es) in
    let tol := (eps + 2 * delta + 4 * sqrt (5 * delta + / 2 ^ 47) + / 2 ^ 47) * E in
    within tol (real v) b /\ within tol (real w) (psub P b).
  Proof using Hsq Htr F1 F2 P1 P2 Ft Bt Fp Bp Hd He HM HC L HE.
    intros Dy Y1 Lt es k b tol. destruct small_facts as (U0 & U1 & T0 & T1).
    destruct body_real as (M2 & EX & _ & _ & (Pp & Bpm) & EC & KC & _). destruct cm_row as (_ & X & Y & Z).
    destruct body_boost as (_ & T & ME & E2 & (W1 & W2 & W3 & W4) & _). destruct body_sub as (_ & (S1 & S2 & S3 & S4) & _).
    assert (X1 : 1 <= x1) by exact P1.
    assert (UM : 0 < u * M) by (apply Rmult_lt_0_compat; lra). assert (UE : u * M <= u * E) by (apply Rmult_le_compat_l; lra).
    assert (uyM : u * y <= u * M) by (apply Rmult_le_compat_l; lra). assert (uy : u * y <= / 1000 * y) by (apply Rmult_le_compat_r; lra).
    assert (D0 : Rabs (e0 - es) <= 12 / 10 * (u * M)).
    { replace (e0 - es) with (- ((x2 - y) * (2 * y + (x2 - y))) / (2 * M)) by (unfold e0, es, breakup_energy; field; lra).
      unfold Rdiv. rewrite Rabs_mult, Rabs_Ropp, Rabs_inv, (Rabs_pos_eq (2 * M)) by lra. apply div_le; [lra|].
      apply Rle_trans with (11 / 10 * (u * M) * (21 / 10 * M)); [|assert (0 <= u * M * M) by (apply Rmult_le_pos; lra); lra].
      apply abs_mul; [lra|]. apply Rabs_le_inv in Dy. apply Rabs_le. lra. }
    assert (EX1 : x1 <= es <= M).
    { unfold es, breakup_energy. split; [apply le_div|apply div_le]; try lra.
      - assert (0 <= (M - x1 - y) * (M - x1 + y)) by (apply Rmult_le_pos; lra). lra.
      - assert ((x1 + y) * (x1 + y) <= M * M) by (apply Rmult_le_compat; lra).
        assert (0 <= x1 * y) by (apply Rmult_le_pos; lra). assert (0 <= y ^ 2) by (apply pow_le; lra). lra. }
    assert (K0 : 0 <= es ^ 2 - x1 ^ 2) by (assert (x1 ^ 2 <= es ^ 2) by (apply pow_incr; lra); lra).
    assert (Kp : 0 <= k) by apply sqrt_pos. assert (Ks : k ^ 2 = es ^ 2 - x1 ^ 2) by (unfold k; rewrite pow2_sqrt; auto).
    set (sg := sqrt (5 * delta + / 2 ^ 47)) in *.
    assert (Sg0 : 0 <= sg) by apply sqrt_pos.
    assert (Sg2 : sg ^ 2 = 5 * delta + 64 * u) by (unfold sg; rewrite pow2_sqrt, u_47; [ring|rewrite u_47; lra]).
    assert (M0 : 0 <= M ^ 2) by (apply pow_le; lra).
    assert (D2 : Rabs (e0 ^ 2 - es ^ 2) <= 3 * (u * M ^ 2)).
    { replace (e0 ^ 2 - es ^ 2) with ((e0 - es) * (e0 + es)) by ring.
      apply Rle_trans with (12 / 10 * (u * M) * (2 * M)); [|assert (0 <= u * M * M) by (apply Rmult_le_pos; lra); lra].
      apply abs_mul; [exact D0|]. apply Rabs_le. lra. }
    assert (Pk : Rabs (p ^ 2 - k ^ 2) <= (sg * M) ^ 2).
    { replace ((sg * M) ^ 2) with (sg ^ 2 * M ^ 2) by ring. rewrite Sg2, Ks. assert (0 <= u * M ^ 2) by (apply Rmult_le_pos; lra).
      apply Rabs_le_inv in D2, KC. apply Rabs_le. lra. }
    assert (SM : 0 <= sg * M) by (apply Rmult_le_pos; lra).
    assert (Dp : Rabs (p - k) <= sg * M).
    { rewrite <- (Rabs_pos_eq (sg * M)) by exact SM. apply Rsqr_le_abs_0. unfold Rsqr.
      apply Rle_trans with (Rabs (p ^ 2 - k ^ 2)); [|replace (sg * M * (sg * M)) with ((sg * M) ^ 2) by ring; exact Pk].
      replace (p ^ 2 - k ^ 2) with ((p - k) * (p + k)) by ring. rewrite Rabs_mult, (Rabs_pos_eq (p + k)) by lra.
      replace ((p - k) * (p - k)) with (Rabs (p - k) * Rabs (p - k)) by (rewrite <- Rabs_mult; apply Rabs_pos_eq; replace ((p - k) * (p - k)) with ((p - k) ^ 2) by ring; apply pow2_ge_0).
      apply Rmult_le_compat_l; [apply Rabs_pos|]. apply Rabs_le. lra. }
    assert (Sb : forall x, Rabs (sin x) <= 1) by (intros x; apply Rabs_le; pose proof (SIN_bound x); lra).
    assert (Cb : forall x, Rabs (cos x) <= 1) by (intros x; apply Rabs_le; pose proof (COS_bound x); lra).
    assert (Dc : forall x d, Rabs d <= 1 -> Rabs (x - p * d) <= 9 * (u * M) -> Rabs (x - k * d) <= sg * M + 9 * (u * M)).
    { intros x d Hb Hx. replace (x - k * d) with ((p - k) * d + (x - p * d)) by ring. apply abs_add; [|exact Hx].
      replace (sg * M) with (sg * M * 1) by ring. now apply abs_mul. }
    set (As := mkP4 (k * sin t * cos f) (k * sin t * sin f) (k * cos t) es) in *.
    assert (G1 : Rabs (qx (psub A As)) <= sg * M + 9 * (u * M)).
    { unfold psub, As. cbn [qx]. rewrite Rmult_assoc. apply Dc; [|exact X]. replace 1 with (1 * 1) by ring. apply abs_mul; auto. }
    assert (G2 : Rabs (qy (psub A As)) <= sg * M + 9 * (u * M)).
    { unfold psub, As. cbn [qy]. rewrite Rmult_assoc. apply Dc; [|exact Y]. replace 1 with (1 * 1) by ring. apply abs_mul; auto. }
    assert (G3 : Rabs (qz (psub A As)) <= sg * M + 9 * (u * M)).
    { unfold psub, As. cbn [qz]. apply Dc; [auto|exact Z]. }
    assert (G4 : Rabs (qE (psub A As)) <= 2 * (delta * M) + 10 * (u * M)).
    { unfold psub, As. cbn [qE]. change (qE A) with en. apply Rabs_le_inv in D0, EC. apply Rabs_le. lra. }
    pose proof (boost_size P _ _ _ T G1 G2 G3 G4) as Q. fold M E in Q. rewrite lboost_sub in Q. fold b in Q.
    replace ((4 * (sg * M + 9 * (u * M)) + (2 * (delta * M) + 10 * (u * M))) * (E / M)) with ((4 * sg + 2 * delta + 46 * u) * E) in Q by (field; lra).
    destruct Q as (Q1 & Q2 & Q3 & Q4). unfold psub in Q1, Q2, Q3, Q4. cbn [qx qy qz qE] in Q1, Q2, Q3, Q4.
    assert (Tol : tol = eps * E + (4 * sg + 2 * delta + 46 * u) * E + 18 * (u * E)) by (unfold tol; rewrite u_47; ring). rewrite Tol.
    set (c := (4 * sg + 2 * delta + 46 * u) * E) in *.
    assert (N : forall x y z d, Rabs (x - y) <= eps * E -> Rabs (y - z) <= c -> 0 <= d -> Rabs (x - z) <= eps * E + c + d).
    { intros x y0 z d B1 B2 Hd0. apply Rabs_le_inv in B1, B2. apply Rabs_le. lra. }
    assert (N2 : forall q r x y z, Rabs (x - y) <= eps * E -> Rabs (y - z) <= c -> Rabs (q - (r - x)) <= 607 / 100 * (u * E) -> Rabs (q - (r - z)) <= eps * E + c + 18 * (u * E)).
    { intros q r x y0 z B1 B2 B3. apply Rabs_le_inv in B1, B2, B3. apply Rabs_le. lra. }
    split.
    - assert (Z0 : 0 <= 18 * (u * E)) by lra.
      exact (conj (N _ _ _ _ W1 Q1 Z0) (conj (N _ _ _ _ W2 Q2 Z0) (conj (N _ _ _ _ W3 Q3 Z0) (N _ _ _ _ W4 Q4 Z0)))).
    - exact (conj (N2 _ _ _ _ _ W1 Q1 S1) (conj (N2 _ _ _ _ _ W2 Q2 S2) (conj (N2 _ _ _ _ _ W3 Q3 S3) (N2 _ _ _ _ _ W4 Q4 S4)))).
  Qed.

  (** Both energies are positive, and the second does not exceed the parent's. *)
  Lemma body_energy : (16 * delta + 64 * eps + / 2 ^ 44) * E ^ 2 <= / 2 -> 0 < R64 (vE v) /\ 0 < R64 (vE w) <= E.
  Proof using Hsq Htr F1 F2 P1 P2 Ft Bt Fp Bp Hd He HM HC L HE.
    intros HT. rewrite u_44 in HT. destruct small_facts as (U0 & U1 & T0 & T1).
    destruct body_real as (M2 & EX & _ & _ & _ & EC & _ & SM). destruct body_boost as (Fv & T & ME & E2 & (_ & _ & _ & W4) & _).
    destruct body_sub as (Fw & (_ & _ & _ & S4) & _). pose proof cm_mass as CM. destruct a_size as (_ & _ & _ & AE).
    assert (X1 : 1 <= x1) by exact P1. assert (X2 : 1 <= x2) by exact P2.
    assert (Q : M ^ 2 <= E ^ 2) by (apply pow_incr; lra). assert (Q0 : 0 <= M ^ 2) by (apply pow_le; lra).
    assert (B1 : delta * M ^ 2 <= delta * E ^ 2) by (apply Rmult_le_compat_l; lra).
    assert (B2 : eps * M ^ 2 <= eps * E ^ 2) by (apply Rmult_le_compat_l; lra).
    assert (B3 : u * M ^ 2 <= u * E ^ 2) by (apply Rmult_le_compat_l; lra).
    assert (Z1 : 0 <= delta * M ^ 2) by (apply Rmult_le_pos; lra). assert (Z2 : 0 <= eps * M ^ 2) by (apply Rmult_le_pos; lra). assert (Z3 : 0 <= u * M ^ 2) by (apply Rmult_le_pos; lra).
    assert (MM : M <= M ^ 2) by (replace (M ^ 2) with (M * M) by ring; assert (1 * M <= M * M) by (apply Rmult_le_compat_r; lra); lra).
    assert (B4 : delta * M <= delta * M ^ 2) by (apply Rmult_le_compat_l; lra). assert (B5 : u * M <= u * M ^ 2) by (apply Rmult_le_compat_l; lra).
    apply Rabs_le_inv in CM, EC, AE. change (qE A) with en in AE. assert (X12 : 1 * 1 <= x1 * x1) by (apply Rmult_le_compat; lra). assert (X22 : 1 * 1 <= x2 * x2) by (apply Rmult_le_compat; lra).
    assert (En : 0 < en <= 2 * M) by lra.
    assert (HA : 0 < / 2 <= mdot A A) by lra.
    pose proof (boost_low P A (/ 2) (2 * M) T En HA) as LA. fold M E in LA.
    set (D := mkP4 (- qx A) (- qy A) (- qz A) (M - en)).
    assert (De : M - e0 = (M * M + x2 * x2 - x1 * x1) / (2 * M)) by (unfold e0, breakup_energy; field; lra).
    assert (Dp : / 2 <= M - e0).
    { rewrite De. apply le_div; [lra|]. assert (0 <= (M - x1 - x2) * (M + x1)) by (apply Rmult_le_pos; lra).
      assert (1 * (M + x1) <= x2 * (M + x1)) by (apply Rmult_le_compat_r; lra). lra. }
    assert (Dn : 0 < qE D <= 2 * M) by (unfold D; cbn [qE]; lra).
    assert (Kin : M * M - 2 * (M * e0) + x1 ^ 2 = x2 ^ 2) by (unfold e0, breakup_energy; field; lra).
    assert (Md : mdot D D = mdot A A + M * M - 2 * (M * en)) by (unfold D, mdot; cbn [qx qy qz qE]; change (qE A) with en; ring).
    assert (KE : M * (en - e0) <= (2 * delta + 8 * u) * M ^ 2).
    { replace ((2 * delta + 8 * u) * M ^ 2) with (M * ((2 * delta + 8 * u) * M)) by ring. apply Rmult_le_compat_l; lra. }
    assert (HD : 0 < / 2 <= mdot D D) by (rewrite Md; lra).
    pose proof (boost_low P D (/ 2) (2 * M) T Dn HD) as LD. fold M E in LD.
    assert (Sum : qE (lboost P 1 D) = E - qE (lboost P 1 A)).
    { assert (EqD : D = psub (mkP4 0 0 0 M) A) by (unfold D, psub; cbn [qx qy qz qE]; apply p4_eq; cbn [qx qy qz qE]; try reflexivity; ring).
      rewrite EqD, lboost_sub. cbn [psub qE]. f_equal.
      unfold lboost. fold (rest_mass P). fold M. cbn [qx qy qz qE]. unfold E. field. lra. }
    rewrite Sum in LD.
    replace (/ 2 / (2 * (2 * M)) * (E / M)) with (/ 8 * (E / M ^ 2)) in LA, LD by (field; lra).
    assert (EpsM : eps * E <= / 128 * (E / M ^ 2)).
    { replace (/ 128 * (E / M ^ 2)) with (/ 128 / M ^ 2 * E) by (field; lra). apply Rmult_le_compat_r; [lra|]. apply le_div; [apply pow_lt; lra|lra]. }
    assert (UM : u * E <= / 1024 * (E / M ^ 2)).
    { replace (/ 1024 * (E / M ^ 2)) with (/ 1024 / M ^ 2 * E) by (field; lra). apply Rmult_le_compat_r; [lra|]. apply le_div; [apply pow_lt; lra|lra]. }
    assert (Pos : 0 < E / M ^ 2) by (apply Rdiv_lt_0_compat; [lra|apply pow_lt; lra]).
    change (qE (real v)) with (R64 (vE v)) in *. change (qE (real w)) with (R64 (vE w)) in *. cbn [psub qE] in S4. change (qE (real v)) with (R64 (vE v)) in S4. change (qE P) with E in S4.
    apply Rabs_le_inv in W4, S4.
    assert (V0 : 0 < R64 (vE v)) by lra. split; [exact V0|]. split; [lra|].
    assert (FwE : is_finite (vE w) = true) by (apply Fw; do 3 right; now left).
    destruct (fsub_finite_inv (vE parent) (vE v) FwE) as (_ & _ & Eq).
    change (vE w) with (fsub (vE parent) (vE v)). rewrite Eq. apply rnd64_le_fmt; [apply format_R64|]. change (R64 (vE parent)) with E. lra.
  Qed.
End Body.

(** ** The theorems *)
(** Conditions on a break-up: the library is accurate at the parent, masses in MeV between 1 and 2^20, and
    the parent's mass exceeds that of the products by more than the rounding errors (see C65). *)
Definition step_ok (boost : v4 -> v4 -> v4) (rest_energy : v4 -> f64) (delta eps : R) (parent : v4) (m1 m2 ex th ph : f64) : Prop :=
  let M := rest_mass (real parent) in
  let x2 := R64 m2 + R64 ex in
  library_at boost rest_energy delta eps parent /\ 0 <= delta <= / 1000000 /\ 0 <= eps <= / 1000000 /\
  M <= 2 ^ 20 /\ R64 (vE parent) <= 2 ^ 30 /\
  is_finite m1 = true /\ is_finite m2 = true /\ is_finite ex = true /\ 1 <= R64 m1 /\ 1 <= x2 /\
  is_finite th = true /\ Rabs (R64 th) <= 8 /\ is_finite ph = true /\ Rabs (R64 ph) <= 8 /\
  (delta + / 2 ^ 49) * M ^ 2 <= (M - R64 m1 - x2) * x2.
(** A row of mass [m]; the tolerance is relative to the energy of the parent. *)
Definition of_mass (delta eps : R) (parent row : v4) (m : R) : Prop :=
  finite_row row /\ Rabs (mdot (real row) (real row) - m ^ 2) <= (16 * delta + 64 * eps + / 2 ^ 44) * R64 (vE parent) ^ 2.

Lemma u_49 : / 2 ^ 49 = 16 * u. Proof. Transparent u. unfold u. Opaque u. lra. Qed.

(** The rounded sum of mass and excitation. *)
Lemma second_mass boost rest_energy delta eps parent m1 m2 ex th ph :
  step_ok boost rest_energy delta eps parent m1 m2 ex th ph ->
  let M := rest_mass (real parent) in let y := R64 m2 + R64 ex in let x := R64 (fadd m2 ex) in
  is_finite (fadd m2 ex) = true /\ 1 <= x /\ Rabs (x - y) <= 11 / 10 * (u * y) /\ R64 m1 + y < M /\
  (delta + / 2 ^ 50) * M ^ 2 <= (M - R64 m1 - x) * x.
Proof.
  intros (L & Hd & He & HM & HE & F1 & F2 & F3 & P1 & P2 & _ & _ & _ & _ & HC) M y x.
  destruct L as (_ & T & _). destruct (comp_le _ T) as (_ & M0 & _). fold M in M0, HM, HC. fold y in P2, HC.
  destruct small_facts as (U0 & U1 & T0 & T1). rewrite u_49 in HC. rewrite eight_u.
  assert (P20 : 2 ^ 20 = 1048576) by ring. rewrite P20 in HM.
  assert (UM : 0 < u * M ^ 2) by (apply Rmult_lt_0_compat; [lra|apply pow_lt; lra]).
  assert (DM : 0 <= delta * M ^ 2) by (apply Rmult_le_pos; [lra|apply pow_le; lra]).
  assert (Lt : R64 m1 + y < M).
  { destruct (Rlt_or_le (R64 m1 + y) M) as [Q|Q]; [exact Q|]. assert (0 <= (R64 m1 + y - M) * y) by (apply Rmult_le_pos; lra). lra. }
  destruct (fadd_fin m2 ex 30 F2 F3 ltac:(lia)) as (Eq & Fi).
  { fold y. rewrite Rabs_pos_eq by lra. change (b2 30) with 1073741824. lra. }
  fold y in Eq. fold x in Eq. split; [exact Fi|].
  split; [rewrite Eq; apply rnd64_ge_fmt; [apply (fmt64_IZR 1); lia|lra]|].
  assert (Uy : u * 1 <= u * y) by (apply Rmult_le_compat_l; lra).
  assert (D : Rabs (x - y) <= 11 / 10 * (u * y)).
  { rewrite Eq. eapply Rle_trans; [apply rnd_err|]. rewrite Rabs_pos_eq by lra. lra. }
  split; [exact D|]. split; [exact Lt|].
  assert (Id : (M - R64 m1 - x) * x = (M - R64 m1 - y) * y + (x - y) * (M - R64 m1 - y - x)) by ring. rewrite Id.
  assert (uyM : u * y <= u * M) by (apply Rmult_le_compat_l; lra).
  assert (uM1 : u * M <= / 1000 * M) by (apply Rmult_le_compat_r; lra).
  assert (K : Rabs ((x - y) * (M - R64 m1 - y - x)) <= 11 / 10 * (u * M) * (11 / 10 * M)).
  { apply abs_mul; [lra|]. apply Rabs_le_inv in D. apply Rabs_le. lra. }
  apply Rabs_le_inv in K. lra.
Qed.

Section Theorems.
  Context (sq sn cs : f64 -> f64) (boost : v4 -> v4 -> v4) (rest_energy mass : v4 -> f64).
  Context (Hsq : pow_ok sq) (Htr : trig_ok sn cs).
  Notation step_ok := (step_ok boost rest_energy).

  Lemma two_body_masses delta eps parent m1 m2 ex th ph : step_ok delta eps parent m1 m2 ex th ph ->
    let vw := two_body sq sn cs boost rest_energy parent m1 (fadd m2 ex) th ph in
    of_mass delta eps parent (fst vw) (R64 m1) /\ of_mass delta eps parent (snd vw) (R64 m2 + R64 ex).
  Proof using Hsq Htr.
    intros O. destruct (second_mass _ _ _ _ _ _ _ _ _ _ O) as (Fs & Ps & Ds & Lt & HC).
    destruct O as (L & Hd & He & HM & HE & F1 & F2 & F3 & P1 & P2 & Ft & Bt & Fp & Bp & _).
    assert (P20 : 2 ^ 20 = 1048576) by ring. rewrite P20 in HM. assert (P30 : 2 ^ 30 = 1073741824) by ring. rewrite P30 in HE.
    destruct (body_boost sq sn cs boost rest_energy Hsq Htr parent m1 (fadd m2 ex) th ph delta eps F1 Fs P1 Ps Ft Bt Fp Bp Hd HM HC L) as (Fv & T & ME & E2 & _).
    pose proof (body_first sq sn cs boost rest_energy Hsq Htr parent m1 (fadd m2 ex) th ph delta eps F1 Fs P1 Ps Ft Bt Fp Bp Hd He HM HC L) as Q1.
    destruct (body_sub sq sn cs boost rest_energy Hsq Htr parent m1 (fadd m2 ex) th ph delta eps F1 Fs P1 Ps Ft Bt Fp Bp Hd He HM HE HC L) as (Fw & _).
    pose proof (body_second sq sn cs boost rest_energy Hsq Htr parent m1 (fadd m2 ex) th ph delta eps F1 Fs P1 Ps Ft Bt Fp Bp Hd He HM HE HC L) as Q2.
    change (qE (real parent)) with (R64 (vE parent)) in *. set (E := R64 (vE parent)) in *. set (M := rest_mass (real parent)) in *.
    destruct small_facts as (U0 & U1 & T0 & T1).
    assert (E0 : 0 <= E ^ 2) by (apply pow_le; lra). assert (0 <= u * E ^ 2) by (apply Rmult_le_pos; lra).
    assert (0 <= delta * E ^ 2) by (apply Rmult_le_pos; lra). assert (0 <= eps * E ^ 2) by (apply Rmult_le_pos; lra).
    unfold two_body, of_mass. cbv zeta. cbn [fst snd]. fold E. rewrite u_44.
    split; (split; [assumption|]).
    - eapply Rle_trans; [exact Q1|]. lra.
    - set (x := R64 (fadd m2 ex)) in *. set (y := R64 m2 + R64 ex) in *.
      assert (D : Rabs (x ^ 2 - y ^ 2) <= 3 * (u * E ^ 2)).
      { replace (x ^ 2 - y ^ 2) with ((x - y) * (2 * y + (x - y))) by ring.
        assert (uy : u * y <= / 1000 * y) by (apply Rmult_le_compat_r; lra).
        assert (uE : u * y <= u * E) by (apply Rmult_le_compat_l; lra).
        apply Rle_trans with (11 / 10 * (u * E) * (21 / 10 * E)); [|lra]. apply abs_mul; [lra|]. apply Rabs_le_inv in Ds. apply Rabs_le. lra. }
      apply Rabs_le_inv in Q2, D. apply Rabs_le. lra.
  Qed.

  (** C84: the two products of a decay have the masses they should, up to rounding. *)
  Theorem C84_decay delta eps d parent polar azimuthal ex v w :
    step_ok delta eps parent (dm_res1 d) (dm_res2 d) ex polar azimuthal ->
    decay_calculate64 sq sn cs boost rest_energy mass d parent polar azimuthal ex = Ok (v, w) ->
    of_mass delta eps parent v (R64 (dm_res1 d)) /\ of_mass delta eps parent w (R64 (dm_res2 d) + R64 ex).
  Proof using Hsq Htr.
    intros O C. unfold decay_calculate64 in C. destruct (fltb _ _); [discriminate C|].
    pose proof (two_body_masses _ _ _ _ _ _ _ _ O) as (A & B).
    apply (f_equal (fun r => match r with Ok x => x | Err _ => (v, w) end)) in C. cbv beta iota in C.
    rewrite C in A, B. split; assumption.
  Qed.

  (** C84: so do ejectile and residual of a reaction; the parent is the computed sum of target and projectile. *)
  Theorem C84_reaction delta eps r T polar azimuthal ex t p v w :
    reaction_calculate64 sq sn cs boost rest_energy r T polar azimuthal ex = Ok (t, p, v, w) ->
    step_ok delta eps (vadd t p) (rm_ejectile r) (rm_residual r) ex polar azimuthal ->
    of_mass delta eps (vadd t p) v (R64 (rm_ejectile r)) /\ of_mass delta eps (vadd t p) w (R64 (rm_residual r) + R64 ex).
  Proof using Hsq Htr.
    intros C O. unfold reaction_calculate64 in C. destruct (feqb _ _); [discriminate C|]. destruct (fltb _ _); [discriminate C|].
    match type of C with context [two_body _ _ _ _ _ ?par _ _ _ _] => set (parent := par) in C end.
    destruct (two_body sq sn cs boost rest_energy parent _ _ _ _) as (v' & w') eqn:TB.
    pose proof (f_equal (fun r => match r with Ok (a, b, c, d) => a | Err _ => t end) C) as Ct.
    pose proof (f_equal (fun r => match r with Ok (a, b, c, d) => b | Err _ => t end) C) as Cp.
    pose proof (f_equal (fun r => match r with Ok (a, b, c, d) => c | Err _ => t end) C) as Cv.
    pose proof (f_equal (fun r => match r with Ok (a, b, c, d) => d | Err _ => t end) C) as Cw.
    cbv beta iota in Ct, Cp, Cv, Cw. clear C.
    assert (EP : vadd t p = parent) by (rewrite <- Ct, <- Cp; reflexivity). rewrite EP in *.
    pose proof (two_body_masses _ _ _ _ _ _ _ _ O) as (A & B). rewrite TB in A, B. cbn [fst snd] in A, B. rewrite <- Cv, <- Cw. split; assumption.
  Qed.

  Lemma decays_rows : forall ds ps q l, decays64 sq sn cs boost rest_energy mass ds ps q = Ok (Some l) ->
    forall j d ex th ph, nth_error ds j = Some d -> nth_error ps j = Some (ex, th, ph) ->
    decay_calculate64 sq sn cs boost rest_energy mass d (nth (1 + 2 * j) (vzero :: q :: l) vzero) th ph ex =
      Ok (nth (2 * j) l vzero, nth (1 + 2 * j) l vzero).
  Proof using Type.
    induction ds as [|d0 ds IH]; intros ps q l C j d ex th ph Hd Hp; [destruct j; discriminate Hd|].
    cbn [decays64] in C. destruct ps as [|[[ex0 th0] ph0] ps]; [discriminate C|].
    destruct (negb _); [discriminate C|]. destruct (decay_calculate64 sq sn cs boost rest_energy mass d0 q th0 ph0 ex0) as [(v & w)|] eqn:DC; [|discriminate C].
    cbn [bind fst snd] in C. destruct (decays64 sq sn cs boost rest_energy mass ds ps w) as [[l'|]|] eqn:DS; [|discriminate C|discriminate C].
    cbn [bind] in C. apply (f_equal (fun r => match r with Ok (Some x) => x | _ => [] end)) in C. cbv beta iota in C. subst l.
    destruct j as [|j].
    - cbn [nth_error] in Hd, Hp. assert (d0 = d) by congruence. subst d0.
      assert (ex0 = ex /\ th0 = th /\ ph0 = ph) as (-> & -> & ->) by (repeat split; congruence).
      cbn [nth Nat.mul Nat.add]. exact DC.
    - cbn [nth_error] in Hd, Hp. specialize (IH ps w l' DS j d ex th ph Hd Hp).
      replace (2 * S j)%nat with (S (S (2 * j))) by lia. cbn [nth Nat.add]. cbn [nth Nat.add] in IH. exact IH.
  Qed.

  (** C84: every pair of products in an event that comes out of the calculation. *)
  Theorem C84_event r ds T th ph ex ps rows :
    event64 sq sn cs boost rest_energy mass r ds T th ph ex ps = Ok (Some rows) ->
    let row i := nth i rows vzero in
    (forall delta eps, step_ok delta eps (vadd (row 0%nat) (row 1%nat)) (rm_ejectile r) (rm_residual r) ex th ph ->
       of_mass delta eps (vadd (row 0%nat) (row 1%nat)) (row 2%nat) (R64 (rm_ejectile r)) /\
       of_mass delta eps (vadd (row 0%nat) (row 1%nat)) (row 3%nat) (R64 (rm_residual r) + R64 ex)) /\
    forall j d exj thj phj delta eps, nth_error ds j = Some d -> nth_error ps j = Some (exj, thj, phj) ->
      let parent := row (3 + 2 * j)%nat in
      step_ok delta eps parent (dm_res1 d) (dm_res2 d) exj thj phj ->
      of_mass delta eps parent (row (4 + 2 * j)%nat) (R64 (dm_res1 d)) /\
      of_mass delta eps parent (row (5 + 2 * j)%nat) (R64 (dm_res2 d) + R64 exj).
  Proof using Hsq Htr.
    intros C row. unfold event64 in C. destruct (negb _); [discriminate C|].
    destruct (reaction_calculate64 sq sn cs boost rest_energy r T th ph ex) as [(((t & p) & v) & w)|] eqn:RC; [|discriminate C].
    cbn [bind] in C. destruct (decays64 sq sn cs boost rest_energy mass ds ps w) as [[l|]|] eqn:DS; [|discriminate C|discriminate C].
    cbn [bind] in C. apply (f_equal (fun r => match r with Ok (Some x) => x | _ => [] end)) in C. cbv beta iota in C.
    unfold row. rewrite <- C. clear C row. split.
    - intros delta eps O. exact (C84_reaction _ _ _ _ _ _ _ _ _ _ _ RC O).
    - intros j d exj thj phj delta eps Hd Hp O.
      pose proof (decays_rows _ _ _ _ DS j d exj thj phj Hd Hp) as DC.
      exact (C84_decay delta eps d _ thj phj exj _ _ O DC).
  Qed.

  (** C84: component by component, the products are those of the exact calculation (C41). *)
  Theorem C84_exact delta eps dm d parent polar azimuthal ex v w :
    step_ok delta eps parent (dm_res1 dm) (dm_res2 dm) ex polar azimuthal ->
    n_mass (d_res1 d) = R64 (dm_res1 dm) -> n_mass (d_res2 d) = R64 (dm_res2 dm) ->
    decay_calculate64 sq sn cs boost rest_energy mass dm parent polar azimuthal ex = Ok (v, w) ->
    let tol := (eps + 2 * delta + 4 * sqrt (5 * delta + / 2 ^ 47) + / 2 ^ 47) * R64 (vE parent) in
    exists b1 b2, decay_calculate d (real parent) (R64 polar) (R64 azimuthal) (R64 ex) = Ok [Some (real parent); Some b1; Some b2] /\
      within tol (real v) b1 /\ within tol (real w) b2.
  Proof using Hsq Htr.
    intros O N1 N2 C tol. destruct (second_mass _ _ _ _ _ _ _ _ _ _ O) as (Fs & Ps & Ds & Lt & HC).
    destruct O as (L & Hd & He & HM & HE & F1 & F2 & F3 & P1 & P2 & Ft & Bt & Fp & Bp & _).
    assert (P20 : 2 ^ 20 = 1048576) by ring. rewrite P20 in HM. assert (P30 : 2 ^ 30 = 1073741824) by ring. rewrite P30 in HE.
    pose proof (body_exact sq sn cs boost rest_energy Hsq Htr parent (dm_res1 dm) (fadd (dm_res2 dm) ex) polar azimuthal delta eps F1 Fs P1 Ps Ft Bt Fp Bp Hd He HM HE HC L _ Ds P2 Lt) as (Q1 & Q2).
    unfold decay_calculate64 in C. destruct (fltb _ _); [discriminate C|].
    pose proof (f_equal (fun r => match r with Ok x => fst x | Err _ => v end) C) as Cv.
    pose proof (f_equal (fun r => match r with Ok x => snd x | Err _ => v end) C) as Cw.
    cbv beta iota in Cv, Cw. cbn [fst snd] in Cv, Cw. clear C. unfold two_body in Cv, Cw. cbv zeta in Cv, Cw. cbn [fst snd] in Cv, Cw.
    rewrite Cv in Q1, Cw. rewrite Cv, Cw in Q2. destruct L as (_ & T & _).
    unfold decay_calculate. rewrite N1, N2, M_timelike by exact T. fold (rest_mass (real parent)).
    rewrite Rlt_bool_false by lra. rewrite boostCM_eq by exact T. cbn [obind]. rewrite lboost_self by exact T. cbn [qE]. fold (rest_mass (real parent)).
    assert (Eo : (R64 (dm_res1 dm) ^ 2 - (R64 (dm_res2 dm) + R64 ex) ^ 2 + rest_mass (real parent) ^ 2) / (2 * rest_mass (real parent)) =
      breakup_energy (rest_mass (real parent)) (R64 (dm_res1 dm)) (R64 (dm_res2 dm) + R64 ex)) by (unfold breakup_energy, Rdiv; ring).
    assert (E1 : 0 <= R64 (dm_res1 dm)) by lra. assert (E2 : 0 <= R64 (dm_res2 dm) + R64 ex) by lra.
    destruct (e_range (real parent) (R64 (dm_res1 dm)) (R64 (dm_res2 dm) + R64 ex) T E1 E2 Lt) as (_ & _ & E3). fold (rest_mass (real parent)) in E3.
    rewrite Eo in *. rewrite (osqrt_some _ E3). cbn [obind]. rewrite boost_eq by exact T. cbn [obind].
    eexists _, _. split; [reflexivity|]. split; [exact Q1|exact Q2].
  Qed.
End Theorems.

(** ** A library that meets the conditions: every operation correctly rounded *)
Notation f_of_R := P_SamplingF64.f_of_R.
Notation sin_r := P_SamplingF64.sin_r.
Notation cos_r := P_SamplingF64.cos_r.
Definition rest_r (p : v4) : f64 := f_of_R (rest_mass (real p)).
Definition boost_r (p a : v4) : v4 :=
  match Reaction.boost (real p) (real a) with
  | Some b => mkV4 (f_of_R (qx b)) (f_of_R (qy b)) (f_of_R (qz b)) (f_of_R (qE b))
  | None => a
  end.

Lemma trig_rounded : trig_ok sin_r cos_r.
Proof.
  intros x _ _. destruct small_facts as (U0 & U1 & T0 & T1). rewrite two_u.
  assert (K : forall y, -1 <= y <= 1 -> is_finite (f_of_R y) = true /\ Rabs (R64 (f_of_R y) - y) <= 2 * u).
  { intros y B. destruct (P_SamplingF64.f_of_R_val y) as (F & E); [apply Rabs_le; lra|]. split; [exact F|]. rewrite E.
    eapply Rle_trans; [apply rnd_err|]. assert (u * Rabs y <= u * 1) by (apply Rmult_le_compat_l; [lra|apply Rabs_le; lra]). lra. }
  destruct (K (sin (R64 x)) (SIN_bound _)) as (A & B). destruct (K (cos (R64 x)) (COS_bound _)) as (C & D). auto.
Qed.

(** Correct rounding gives delta = 2^-50 and eps = 2^-49, whatever the parent. *)
Lemma C84_library p : finite_row p -> timelike (real p) -> / 2 <= rest_mass (real p) -> R64 (vE p) <= 2 ^ 30 ->
  library_at boost_r rest_r (/ 2 ^ 50) (/ 2 ^ 49) p.
Proof.
  intros F T M1 E30. assert (P30 : 2 ^ 30 = 1073741824) by ring. rewrite P30 in E30.
  destruct (comp_le _ T) as (_ & M0 & ME). change (qE (real p)) with (R64 (vE p)) in ME.
  destruct small_facts as (U0 & U1 & T0 & T1). unfold library_at. cbv zeta. set (P := real p) in *. rewrite eight_u, u_49.
  assert (K : forall y, Rabs y <= 2 ^ 40 -> is_finite (f_of_R y) = true /\ Rabs (R64 (f_of_R y) - y) <= u * Rabs y + eta).
  { intros y B. destruct (P_ResponseF64.f_of_R_big y 40) as (Fi & E); [lia| |].
    { change (bpow radix2 40) with 1099511627776. replace 1099511627776 with (2 ^ 40) by ring. exact B. }
    split; [exact Fi|]. rewrite E. apply rnd_err. }
  assert (P40 : 2 ^ 40 = 1099511627776) by ring. rewrite P40 in K.
  assert (UM : u * / 2 <= u * rest_mass P) by (apply Rmult_le_compat_l; lra).
  assert (UE : u * rest_mass P <= u * R64 (vE p)) by (apply Rmult_le_compat_l; lra).
  split; [exact F|]. split; [exact T|]. unfold rest_r. fold P.
  destruct (K (rest_mass P)) as (Fr & Er); [rewrite Rabs_pos_eq; lra|]. split; [exact Fr|].
  split; [eapply Rle_trans; [exact Er|]; rewrite Rabs_pos_eq by lra; lra|].
  intros a Fa (A1 & A2 & A3 & A4). unfold boost_r. fold P. rewrite (boost_eq P (real a) T).
  pose proof (boost_size P (real a) _ _ T A1 A2 A3 A4) as Sz.
  replace ((4 * (2 * rest_mass P) + 2 * rest_mass P) * (qE P / rest_mass P)) with (10 * qE P) in Sz by (field; lra).
  destruct Sz as (B1 & B2 & B3 & B4). change (qE P) with (R64 (vE p)) in *. set (E := R64 (vE p)) in *. set (b := lboost P 1 (real a)) in *.
  assert (K2 : forall y, Rabs y <= 10 * E -> is_finite (f_of_R y) = true /\ Rabs (R64 (f_of_R y) - y) <= 16 * u * E).
  { intros y B. destruct (K y) as (Fi & Ei); [lra|]. split; [exact Fi|]. eapply Rle_trans; [exact Ei|].
    assert (u * Rabs y <= u * (10 * E)) by (apply Rmult_le_compat_l; lra). lra. }
  destruct (K2 _ B1) as (G1 & H1). destruct (K2 _ B2) as (G2 & H2). destruct (K2 _ B3) as (G3 & H3). destruct (K2 _ B4) as (G4 & H4).
  split; [intros c [<-|[<-|[<-|[<-|[]]]]]; assumption|]. exists b. split; [reflexivity|].
  exact (conj H1 (conj H2 (conj H3 H4))).
Qed.

(** A nucleus of mass 400 with momentum 300 along the beam, decaying into masses 100 and 150 (excited by 20). *)
Example C84_example :
  let parent := mkV4 (f_of_Z 0) (f_of_Z 0) (f_of_Z 300) (f_of_Z 500) in
  let d := mkDM (f_of_Z 100) (f_of_Z 150) in
  pow_ok (fun x => fmul x x) /\ trig_ok sin_r cos_r /\
  step_ok boost_r rest_r (/ 2 ^ 50) (/ 2 ^ 49) parent (dm_res1 d) (dm_res2 d) (f_of_Z 20) (f_of_Z 1) (f_of_Z 2) /\
  exists v w, decay_calculate64 (fun x => fmul x x) sin_r cos_r boost_r rest_r (fun _ => f_of_Z 400) d parent (f_of_Z 1) (f_of_Z 2) (f_of_Z 20) = Ok (v, w) /\
    Rabs (mdot (real v) (real v) - 100 ^ 2) <= / 10 ^ 6 /\ Rabs (mdot (real w) (real w) - 170 ^ 2) <= / 10 ^ 6.
Proof.
  intros parent d.
  assert (RZ : forall n, (Z.abs n <= 2 ^ 53)%Z -> R64 (f_of_Z n) = IZR n) by (intros n N; apply f_of_Z_R; exact N).
  assert (FZ : forall n, (Z.abs n <= 2 ^ 53)%Z -> is_finite (f_of_Z n) = true) by (intros n N; apply f_of_Z_fin; exact N).
  split; [exact mul_pow_ok|]. split; [exact trig_rounded|].
  assert (RP : real parent = mkP4 0 0 300 500) by (unfold real, parent; cbn [vx vy vz vE]; rewrite !RZ by lia; reflexivity).
  assert (RM : rest_mass (real parent) = 400).
  { unfold rest_mass. rewrite RP. unfold mdot. cbn [qx qy qz qE]. replace (_ - _) with (400 ^ 2) by ring. apply sqrt_pow2. lra. }
  assert (FP : finite_row parent) by (intros c [<-|[<-|[<-|[<-|[]]]]]; apply FZ; lia).
  assert (TP : timelike (real parent)) by (rewrite RP; unfold timelike, mdot; cbn [qx qy qz qE]; lra).
  assert (EP : R64 (vE parent) = 500) by (unfold parent; cbn [vE]; rewrite RZ by lia; reflexivity).
  assert (LP : library_at boost_r rest_r (/ 2 ^ 50) (/ 2 ^ 49) parent) by (apply C84_library; [exact FP|exact TP|rewrite RM; lra|rewrite EP; lra]).
  assert (SO : step_ok boost_r rest_r (/ 2 ^ 50) (/ 2 ^ 49) parent (dm_res1 d) (dm_res2 d) (f_of_Z 20) (f_of_Z 1) (f_of_Z 2)).
  { unfold step_ok. cbv zeta. rewrite RM, EP. cbn [dm_res1 dm_res2 d]. rewrite !RZ, !FZ by lia.
    destruct small_facts as (U0 & U1 & T0 & T1). rewrite eight_u, u_49.
    split; [rewrite <- eight_u, <- u_49; exact LP|]. repeat split; try lra; rewrite Rabs_pos_eq; lra. }
  split; [exact SO|].
  destruct (decay_calculate64 (fun x => fmul x x) sin_r cos_r boost_r rest_r (fun _ => f_of_Z 400) d parent (f_of_Z 1) (f_of_Z 2) (f_of_Z 20)) as [(v & w)|] eqn:C.
  - exists v, w. split; [reflexivity|].
    destruct (C84_decay _ _ _ _ _ _ mul_pow_ok trig_rounded _ _ _ _ _ _ _ _ _ SO C) as ((_ & A) & (_ & B)). cbn [dm_res1 dm_res2 d] in A, B.
    rewrite EP in A, B. rewrite (RZ 100%Z) in A by lia. rewrite (RZ 150%Z), (RZ 20%Z) in B by lia. replace (150 + 20) with 170 in B by ring.
    split; [eapply Rle_trans; [exact A|]|eapply Rle_trans; [exact B|]]; lra.
  - exfalso. unfold decay_calculate64 in C. destruct (fltb _ _) eqn:Q; [|discriminate C]. cbn [dm_res1 dm_res2 d] in Q. clear C.
    assert (A1 : forall a b, (Z.abs a <= 1000)%Z -> (Z.abs b <= 1000)%Z -> forall x y, is_finite x = true -> is_finite y = true -> R64 x = IZR a -> R64 y = IZR b ->
      (is_finite (fadd x y) = true /\ R64 (fadd x y) = IZR (a + b)) /\ (is_finite (fsub x y) = true /\ R64 (fsub x y) = IZR (a - b))).
    { intros a b Ba Bb x y Fx Fy Ex Ey.
      destruct (fadd_fin x y 30 Fx Fy ltac:(lia)) as (E1 & G1); [rewrite Ex, Ey, <- plus_IZR, <- abs_IZR; change (b2 30) with 1073741824; apply IZR_le; lia|].
      destruct (fsub_fin x y 30 Fx Fy ltac:(lia)) as (E2 & G2); [rewrite Ex, Ey, <- minus_IZR, <- abs_IZR; change (b2 30) with 1073741824; apply IZR_le; lia|].
      split; (split; [assumption|]).
      - rewrite E1, Ex, Ey, <- plus_IZR. apply rnd64_fmt. apply fmt64_IZR. lia.
      - rewrite E2, Ex, Ey, <- minus_IZR. apply rnd64_fmt. apply fmt64_IZR. lia. }
    assert (V : forall n, (Z.abs n <= 1000)%Z -> is_finite (f_of_Z n) = true /\ R64 (f_of_Z n) = IZR n) by (intros n N; split; [apply FZ|apply RZ]; lia).
    destruct (V 100%Z ltac:(lia)) as (F1 & E1). destruct (V 150%Z ltac:(lia)) as (F2 & E2). destruct (V 20%Z ltac:(lia)) as (F3 & E3). destruct (V 400%Z ltac:(lia)) as (F4 & E4).
    destruct (A1 100 150 ltac:(lia) ltac:(lia) _ _ F1 F2 E1 E2)%Z as ((F5 & E5) & _).
    destruct (A1 (100 + 150) 20 ltac:(lia) ltac:(lia) _ _ F5 F3 E5 E3)%Z as ((F6 & E6) & _).
    destruct (A1 400 (100 + 150 + 20) ltac:(lia) ltac:(lia) _ _ F4 F6 E4 E6)%Z as (_ & (F7 & E7)).
    rewrite fltb_R in Q; [|exact F7|apply FZ; lia]. rewrite E7, RZ in Q by lia. destruct (Rlt_bool_spec (IZR (400 - (100 + 150 + 20))) 0) as [N|N]; [apply lt_IZR in N; lia|discriminate Q].
Qed.

Print Assumptions C84_decay.
Print Assumptions C84_reaction.
Print Assumptions C84_event.
Print Assumptions C84_exact.
Print Assumptions C84_example.
