(** P_VectorF64.v -- C86: the vector library's boost, rest energy and mass in binary64. *)
From Coq Require Import ZArith Reals Lia Lra List.
From Flocq Require Import Core BinarySingleNaN.
From Verif Require Import Base F64 F64Bounds Nucleus Reaction SpecReaction ReactionProofs P_Reaction KinF64 P_KinF64 KinChain P_KinChain
  P_ElectronsF64 P_Allowed P_Shell P_EventF64 VectorF64.
Import ListNotations.
Local Open Scope R_scope.

(** The float power [x**2] at any moderate number: within one unit in the last place. *)
Definition pow_all (sq : f64 -> f64) : Prop := forall x, is_finite x = true -> Rabs (R64 x) <= 2 ^ 30 ->
  is_finite (sq x) = true /\ Rabs (R64 (sq x) - R64 x ^ 2) <= / 2 ^ 52 * R64 x ^ 2 + / 2 ^ 1000.

(** [x] is [X] up to [k] units of [w] at the scale [S]. *)
Definition ap (w k x X S : R) : Prop := Rabs (x - X) <= k * (w * S) /\ Rabs X <= S.

Lemma ap_refl w x S : Rabs x <= S -> ap w 0 x x S.
Proof. intros H. split; [|exact H]. rewrite Rminus_eq_0, Rabs_R0. lra. Qed.
Lemma ap_scale w k x X S k' S' : ap w k x X S -> k * S <= k' * S' -> S <= S' -> 0 <= w -> ap w k' x X S'.
Proof.
  intros (A & B) H L W. split; [|lra]. eapply Rle_trans; [exact A|].
  replace (k * (w * S)) with (w * (k * S)) by ring. replace (k' * (w * S')) with (w * (k' * S')) by ring. now apply Rmult_le_compat_l.
Qed.
Lemma ap_unit w w' k x X S : ap w k x X S -> 0 <= k -> w <= w' -> 0 <= S -> ap w' k x X S.
Proof. intros (A & B) K W S0. split; [|exact B]. eapply Rle_trans; [exact A|]. apply Rmult_le_compat_l; [exact K|]. now apply Rmult_le_compat_r. Qed.

Lemma eta_def : / 2 ^ 1000 = eta. Proof. Transparent eta. reflexivity. Opaque eta. Qed.

Section Approx.
  Context (w : R) (Hw : u <= w <= / 1000000000).

  Lemma mulN (a b : f64) A B ka kb SA SB : is_finite a = true -> is_finite b = true -> ap w ka (R64 a) A SA -> ap w kb (R64 b) B SB ->
    0 <= ka <= 1000 -> 0 <= kb <= 1000 -> / 1000 <= SA * SB <= 2 ^ 50 ->
    is_finite (fmul a b) = true /\ ap w (ka + kb + 102 / 100) (R64 (fmul a b)) (A * B) (SA * SB).
  Proof using Hw.
    intros Fa Fb (Da & Ba) (Db & Bb) Ka Kb HS. destruct small_facts as (U0 & U1 & T0 & T1).
    pose proof (Rabs_pos A). pose proof (Rabs_pos B). assert (P50 : 2 ^ 50 = 1125899906842624) by ring. rewrite P50 in HS.
    pose proof (abs_mul _ _ _ _ Da Bb) as D1. pose proof (abs_mul _ _ _ _ Da Db) as D2. pose proof (abs_mul _ _ _ _ Ba Db) as D3. pose proof (abs_mul _ _ _ _ Ba Bb) as D4.
    set (T := SA * SB) in *. replace (ka * (w * SA) * SB) with (ka * (w * T)) in D1 by (unfold T; ring).
    replace (SA * (kb * (w * SB))) with (kb * (w * T)) in D3 by (unfold T; ring).
    replace (ka * (w * SA) * (kb * (w * SB))) with (ka * kb * w * (w * T)) in D2 by (unfold T; ring).
    assert (WT : 0 < w * T) by (apply Rmult_lt_0_compat; lra).
    assert (K2 : ka * kb * w <= / 1000).
    { assert (0 <= ka * kb) by (apply Rmult_le_pos; lra). assert (ka * kb <= 1000 * 1000) by (apply Rmult_le_compat; lra).
      assert (ka * kb * w <= 1000 * 1000 * / 1000000000) by (apply Rmult_le_compat; lra). lra. }
    apply Rmult_le_compat_r with (r := w * T) in K2; [|lra].
    assert (D : Rabs (R64 a * R64 b - A * B) <= (ka + kb + / 1000) * (w * T)).
    { replace (R64 a * R64 b - A * B) with ((R64 a - A) * B + (R64 a - A) * (R64 b - B) + A * (R64 b - B)) by ring.
      apply Rabs_le_inv in D1, D2, D3. apply Rabs_le. lra. }
    assert (W9 : w * T <= / 1000000000 * T) by (apply Rmult_le_compat_r; lra).
    assert (KT : (ka + kb + / 1000) * (w * T) <= 2001 * (/ 1000000000 * T)) by (apply Rmult_le_compat; lra).
    assert (Sz : Rabs (R64 a * R64 b) <= 10001 / 10000 * T) by (apply Rabs_le_inv in D, D4; apply Rabs_le; lra).
    destruct (fmul_fin a b 60 Fa Fb ltac:(lia)) as (E & F); [change (b2 60) with 1152921504606846976; lra|].
    split; [exact F|]. split; [|exact D4]. rewrite E. pose proof (rnd_bound _ _ Sz) as R.
    assert (UT : u * T <= w * T) by (apply Rmult_le_compat_r; lra). assert (u * / 1000 <= u * T) by (apply Rmult_le_compat_l; lra).
    apply Rabs_le_inv in R, D. apply Rabs_le. lra.
  Qed.

  Lemma addN (a b : f64) A B ka kb S : is_finite a = true -> is_finite b = true -> Rabs (R64 a - A) <= ka * (w * S) -> Rabs (R64 b - B) <= kb * (w * S) ->
    Rabs (A + B) <= S -> 0 <= ka <= 1000 -> 0 <= kb <= 1000 -> / 1000 <= S <= 2 ^ 50 ->
    is_finite (fadd a b) = true /\ ap w (ka + kb + 102 / 100) (R64 (fadd a b)) (A + B) S.
  Proof using Hw.
    intros Fa Fb Da Db BS Ka Kb HS. destruct small_facts as (U0 & U1 & T0 & T1). assert (P50 : 2 ^ 50 = 1125899906842624) by ring. rewrite P50 in HS.
    assert (W9 : w * S <= / 1000000000 * S) by (apply Rmult_le_compat_r; lra). assert (WS : 0 < w * S) by (apply Rmult_lt_0_compat; lra).
    assert (KT : (ka + kb) * (w * S) <= 2000 * (/ 1000000000 * S)) by (apply Rmult_le_compat; lra).
    assert (Sz : Rabs (R64 a + R64 b) <= 10001 / 10000 * S) by (apply Rabs_le_inv in Da, Db, BS; apply Rabs_le; lra).
    destruct (fadd_fin a b 60 Fa Fb ltac:(lia)) as (E & F); [change (b2 60) with 1152921504606846976; lra|].
    split; [exact F|]. split; [|exact BS]. rewrite E. pose proof (rnd_bound _ _ Sz) as R.
    assert (UT : u * S <= w * S) by (apply Rmult_le_compat_r; lra). assert (u * / 1000 <= u * S) by (apply Rmult_le_compat_l; lra).
    apply Rabs_le_inv in R, Da, Db. apply Rabs_le. lra.
  Qed.

  Lemma subN (a b : f64) A B ka kb S : is_finite a = true -> is_finite b = true -> Rabs (R64 a - A) <= ka * (w * S) -> Rabs (R64 b - B) <= kb * (w * S) ->
    Rabs (A - B) <= S -> 0 <= ka <= 1000 -> 0 <= kb <= 1000 -> / 1000 <= S <= 2 ^ 50 ->
    is_finite (fsub a b) = true /\ ap w (ka + kb + 102 / 100) (R64 (fsub a b)) (A - B) S.
  Proof using Hw.
    intros Fa Fb Da Db BS Ka Kb HS. destruct small_facts as (U0 & U1 & T0 & T1). assert (P50 : 2 ^ 50 = 1125899906842624) by ring. rewrite P50 in HS.
    assert (W9 : w * S <= / 1000000000 * S) by (apply Rmult_le_compat_r; lra). assert (WS : 0 < w * S) by (apply Rmult_lt_0_compat; lra).
    assert (KT : (ka + kb) * (w * S) <= 2000 * (/ 1000000000 * S)) by (apply Rmult_le_compat; lra).
    assert (Sz : Rabs (R64 a - R64 b) <= 10001 / 10000 * S) by (apply Rabs_le_inv in Da, Db, BS; apply Rabs_le; lra).
    destruct (fsub_fin a b 60 Fa Fb ltac:(lia)) as (E & F); [change (b2 60) with 1152921504606846976; lra|].
    split; [exact F|]. split; [|exact BS]. rewrite E. pose proof (rnd_bound _ _ Sz) as R.
    assert (UT : u * S <= w * S) by (apply Rmult_le_compat_r; lra). assert (u * / 1000 <= u * S) by (apply Rmult_le_compat_l; lra).
    apply Rabs_le_inv in R, Da, Db. apply Rabs_le. lra.
  Qed.

  Lemma divN (a b : f64) A B ka kb : is_finite a = true -> 0 < A -> 0 < B -> Rabs (R64 a - A) <= ka * (w * A) -> Rabs (R64 b - B) <= kb * (w * B) ->
    0 <= ka <= 1000 -> 0 <= kb <= 1000 -> / 1000 <= A / B <= 2 ^ 50 ->
    is_finite (fdiv a b) = true /\ ap w (ka + kb + 103 / 100) (R64 (fdiv a b)) (A / B) (A / B).
  Proof using Hw.
    intros Fa A0 B0 Da Db Ka Kb HS. destruct small_facts as (U0 & U1 & T0 & T1). assert (P50 : 2 ^ 50 = 1125899906842624) by ring. rewrite P50 in HS.
    assert (WB : 0 < w * B) by (apply Rmult_lt_0_compat; lra). assert (W9 : w * B <= / 1000000000 * B) by (apply Rmult_le_compat_r; lra).
    assert (KB : kb * (w * B) <= 1000 * (/ 1000000000 * B)) by (apply Rmult_le_compat; lra).
    assert (BL : 999999 / 1000000 * B <= R64 b) by (apply Rabs_le_inv in Db; lra).
    set (q := A / B) in *. assert (QB : A = q * B) by (unfold q; field; lra).
    assert (WQ : 0 < w * q) by (apply Rmult_lt_0_compat; lra). assert (WQ9 : w * q <= / 1000000000 * q) by (apply Rmult_le_compat_r; lra).
    assert (D : Rabs (R64 a / R64 b - q) <= (ka + kb) * (w * q) + / 200 * (w * q)).
    { replace (R64 a / R64 b - q) with (((R64 a - A) - q * (R64 b - B)) / R64 b) by (rewrite QB; field; lra).
      unfold Rdiv. rewrite Rabs_mult, Rabs_inv, (Rabs_pos_eq (R64 b)) by lra. apply div_le; [lra|].
      assert (X : Rabs (q * (R64 b - B)) <= q * (kb * (w * B))) by (apply abs_mul; [rewrite Rabs_pos_eq; lra|exact Db]).
      assert (Y : Rabs (R64 a - A - q * (R64 b - B)) <= (ka + kb) * (w * q * B)).
      { replace (q * (kb * (w * B))) with (kb * (w * q * B)) in X by ring. rewrite QB in Da at 2. replace (ka * (w * (q * B))) with (ka * (w * q * B)) in Da by ring.
        apply Rabs_le_inv in X, Da. apply Rabs_le. lra. }
      eapply Rle_trans; [exact Y|].
      assert (WQB : 0 < w * q * B) by (apply Rmult_lt_0_compat; lra).
      assert (Z0 : 0 <= (ka + kb) * (w * q) + / 200 * (w * q)) by (rewrite <- Rmult_plus_distr_r; apply Rmult_le_pos; lra).
      assert (Z : ((ka + kb) * (w * q) + / 200 * (w * q)) * (999999 / 1000000 * B) <= ((ka + kb) * (w * q) + / 200 * (w * q)) * R64 b) by (apply Rmult_le_compat_l; lra).
      eapply Rle_trans; [|exact Z]. replace (((ka + kb) * (w * q) + / 200 * (w * q)) * (999999 / 1000000 * B)) with (((ka + kb + / 200) * (999999 / 1000000)) * (w * q * B)) by field.
      apply Rmult_le_compat_r; [lra|].
      assert (ka + kb <= 1000 * 2) by lra. lra. }
    assert (KQ : (ka + kb) * (w * q) <= 2000 * (/ 1000000000 * q)) by (apply Rmult_le_compat; lra).
    assert (Sz : Rabs (R64 a / R64 b) <= 10001 / 10000 * q) by (apply Rabs_le_inv in D; apply Rabs_le; lra).
    destruct (fdiv_fin a b 60 Fa ltac:(lra) ltac:(lia)) as (E & F); [change (b2 60) with 1152921504606846976; lra|].
    split; [exact F|]. split; [|rewrite Rabs_pos_eq; lra]. rewrite E. pose proof (rnd_bound _ _ Sz) as R.
    assert (UT : u * q <= w * q) by (apply Rmult_le_compat_r; lra). assert (u * / 1000 <= u * q) by (apply Rmult_le_compat_l; lra).
    apply Rabs_le_inv in R, D. apply Rabs_le. lra.
  Qed.

  Lemma sqrtN (a : f64) S k : is_finite a = true -> / 10000 <= S <= 2 ^ 50 -> Rabs (R64 a - S * S) <= k * (w * (S * S)) -> 0 <= k <= 1000 ->
    is_finite (fsqrt a) = true /\ ap w (k * (51 / 100) + 102 / 100) (R64 (fsqrt a)) S S.
  Proof using Hw.
    intros Fa HS Da K. destruct small_facts as (U0 & U1 & T0 & T1). assert (P50 : 2 ^ 50 = 1125899906842624) by ring. rewrite P50 in HS.
    assert (SS : 0 < S * S) by (apply Rmult_lt_0_compat; lra). assert (WS : 0 < w * S) by (apply Rmult_lt_0_compat; lra).
    assert (W9 : w * (S * S) <= / 1000000000 * (S * S)) by (apply Rmult_le_compat_r; lra). assert (W0 : 0 < w * (S * S)) by (apply Rmult_lt_0_compat; lra).
    assert (KS : k * (w * (S * S)) <= 1000 * (/ 1000000000 * (S * S))) by (apply Rmult_le_compat; lra).
    assert (AL : 98 / 100 * (S * S) <= R64 a) by (apply Rabs_le_inv in Da; lra).
    destruct (fsqrt_fin0 a Fa ltac:(lra)) as (E & F).
    set (r := sqrt (R64 a)) in *. assert (RR : r * r = R64 a) by (apply sqrt_sqrt; lra). assert (R0 : 0 <= r) by apply sqrt_pos.
    assert (RL : 98 / 100 * S <= r).
    { unfold r. rewrite <- (sqrt_square (98 / 100 * S)) by lra. apply sqrt_le_1_alt. lra. }
    assert (D : Rabs (r - S) <= k * (51 / 100) * (w * S)).
    { apply Rmult_le_reg_r with (r + S); [lra|]. rewrite <- (Rabs_pos_eq (r + S)) at 1 by lra. rewrite <- Rabs_mult.
      replace ((r - S) * (r + S)) with (R64 a - S * S) by (rewrite <- RR; ring). eapply Rle_trans; [exact Da|].
      assert (Z0 : 0 <= k * (51 / 100) * (w * S)) by (apply Rmult_le_pos; lra).
      assert (k * (51 / 100) * (w * S) * (198 / 100 * S) <= k * (51 / 100) * (w * S) * (r + S)) by (apply Rmult_le_compat_l; lra).
      assert (0 <= k * (w * (S * S))) by (apply Rmult_le_pos; lra). lra. }
    assert (W8 : w * S <= / 1000000000 * S) by (apply Rmult_le_compat_r; lra).
    assert (KD : k * (51 / 100) * (w * S) <= 1000 * (/ 1000000000 * S)) by (apply Rmult_le_compat; lra).
    split; [exact F|]. split; [|rewrite Rabs_pos_eq; lra]. rewrite E.
    assert (Sz : Rabs r <= 10001 / 10000 * S) by (apply Rabs_le_inv in D; apply Rabs_le; lra). pose proof (rnd_bound _ _ Sz) as R.
    assert (UT : u * S <= w * S) by (apply Rmult_le_compat_r; lra). assert (u * / 10000 <= u * S) by (apply Rmult_le_compat_l; lra).
    apply Rabs_le_inv in R, D. apply Rabs_le. lra.
  Qed.
End Approx.

Section Core.
  Context (sq : f64 -> f64) (Hsq : pow_all sq) (g : R) (Hg : 1 <= g <= 4096).
  Let rho := u * (g * g).
  Context (Hr : rho <= / 1000000000).
  Context (bx b_y bz : f64) (Fx : is_finite bx = true) (Fy : is_finite b_y = true) (Fz : is_finite bz = true).
  Context (Bx By Bz ga : R) (Ax : ap u (102 / 100) (R64 bx) Bx 1) (Ay : ap u (102 / 100) (R64 b_y) By 1) (Az : ap u (102 / 100) (R64 bz) Bz 1).
  Context (Hga : 1 <= ga <= g) (HB : Bx * Bx + By * By + Bz * Bz = 1 - / ga * / ga).

  Lemma rho_facts : 0 < u /\ u <= rho /\ u <= / 1000000000000000 /\ 0 < rho /\ eta <= u / 1000000 /\ 0 < eta.
  Proof using Hg.
    destruct small_facts as (U0 & U1 & T0 & T1). assert (1 * 1 <= g * g) by (apply Rmult_le_compat; lra).
    assert (u * 1 <= u * (g * g)) by (apply Rmult_le_compat_l; lra). unfold rho. repeat split; lra.
  Qed.

  Lemma sq_close (x : f64) X : is_finite x = true -> ap u (102 / 100) (R64 x) X 1 -> is_finite (sq x) = true /\ Rabs (R64 (sq x) - X * X) <= 41 / 10 * (u * 1).
  Proof using Hsq Hg.
    intros F (D & B). destruct rho_facts as (U0 & _ & U1 & _ & T1 & T0).
    assert (Sz : Rabs (R64 x) <= 1001 / 1000) by (apply Rabs_le_inv in D, B; apply Rabs_le; lra).
    destruct (Hsq x F) as (Fs & Ds); [assert (2 ^ 30 = 1073741824) by ring; lra|]. split; [exact Fs|].
    rewrite two_u, eta_def in Ds.
    assert (X2 : Rabs (R64 x * R64 x) <= 1001 / 1000 * (1001 / 1000)) by now apply abs_mul. apply Rabs_le_inv in X2.
    assert (u * (R64 x * R64 x) <= u * (1001 / 1000 * (1001 / 1000))) by (apply Rmult_le_compat_l; lra).
    replace (R64 x ^ 2) with (R64 x * R64 x) in Ds by ring.
    assert (Q : Rabs (R64 x * R64 x - X * X) <= 102 / 100 * (u * 1) * (2 * 1 + 102 / 100 * (u * 1))).
    { replace (R64 x * R64 x - X * X) with ((R64 x - X) * (2 * X + (R64 x - X))) by ring. apply abs_mul; [exact D|].
      apply abs_add; [|exact D]. rewrite Rabs_mult, Rabs_pos_eq by lra. lra. }
    assert (102 / 100 * (u * 1) * (2 * 1 + 102 / 100 * (u * 1)) <= 102 / 100 * (u * 1) * (2001 / 1000)) by (apply Rmult_le_compat_l; lra).
    apply Rabs_le_inv in Q, Ds. apply Rabs_le. lra.
  Qed.

  Let one := f_of_Z 1.
  Let bp2 := fadd (fadd (sq bx) (sq b_y)) (sq bz).
  Let gam := fdiv one (fsqrt (fsub one bp2)).
  Let bgam := fdiv (fmul gam gam) (fadd one gam).

  Lemma one_facts : is_finite one = true /\ R64 one = 1.
  Proof using Type. split; [apply f_of_Z_fin; lia|apply f_of_Z_R; lia]. Qed.

  Lemma ga_facts : 0 < / ga <= 1 /\ / 4096 <= / ga /\ u <= rho * (/ ga * / ga) /\ u * (ga * ga) <= rho.
  Proof using Hg Hga.
    destruct rho_facts as (U0 & _ & U1 & R0 & _). assert (G0 : 0 < / ga) by (apply Rinv_0_lt_compat; lra).
    assert (GI : ga * / ga = 1) by (apply Rinv_r; lra). assert (GG : ga * ga <= g * g) by (apply Rmult_le_compat; lra).
    assert (Q : u * (ga * ga) <= rho) by (apply Rmult_le_compat_l; lra).
    split; [|split; [|split; [|exact Q]]].
    - split; [exact G0|]. rewrite <- Rinv_1. apply Rinv_le_contravar; lra.
    - apply Rinv_le_contravar; lra.
    - assert (I0 : 0 <= / ga * / ga) by (apply Rmult_le_pos; lra). apply Rmult_le_compat_r with (r := / ga * / ga) in Q; [|exact I0].
      replace (u * (ga * ga) * (/ ga * / ga)) with (u * ((ga * / ga) * (ga * / ga))) in Q by ring. rewrite GI in Q. lra.
  Qed.

  Lemma gam_close : is_finite gam = true /\ ap rho 10 (R64 gam) ga ga.
  Proof using Hsq Hg Hr Fx Fy Fz Ax Ay Az Hga HB.
    destruct rho_facts as (U0 & UR & U1 & R0 & T1 & T0). destruct one_facts as (F1 & R1). destruct ga_facts as (G0 & GL & UG & _).
    assert (Hu : u <= u <= / 1000000000) by lra. assert (Hrho : u <= rho <= / 1000000000) by (split; [exact UR|exact Hr]).
    destruct (sq_close bx Bx Fx Ax) as (F2 & D2). destruct (sq_close b_y By Fy Ay) as (F3 & D3). destruct (sq_close bz Bz Fz Az) as (F4 & D4).
    assert (P50 : / 1000 <= 1 <= 2 ^ 50) by (assert (2 ^ 50 = 1125899906842624) by ring; lra).
    pose proof (pow2_ge_0 Bx) as X0. pose proof (pow2_ge_0 By) as Y0. pose proof (pow2_ge_0 Bz) as Z0.
    replace (Bx ^ 2) with (Bx * Bx) in X0 by ring. replace (By ^ 2) with (By * By) in Y0 by ring. replace (Bz ^ 2) with (Bz * Bz) in Z0 by ring.
    assert (I0 : 0 < / ga * / ga) by (apply Rmult_lt_0_compat; lra).
    assert (I1 : / ga * / ga <= 1 * 1) by (apply Rmult_le_compat; lra).
    destruct (addN u Hu _ _ _ _ _ _ 1 F2 F3 D2 D3 ltac:(rewrite Rabs_pos_eq; lra) ltac:(lra) ltac:(lra) P50) as (F5 & D5 & _).
    destruct (addN u Hu _ _ _ _ _ _ 1 F5 F4 D5 D4 ltac:(rewrite Rabs_pos_eq; lra) ltac:(lra) ltac:(lra) P50) as (F6 & D6 & _). fold bp2 in F6, D6.
    assert (D1 : Rabs (R64 one - 1) <= 0 * (u * 1)) by (rewrite R1, Rminus_eq_0, Rabs_R0; lra).
    destruct (subN u Hu _ _ _ _ _ _ 1 F1 F6 D1 D6 ltac:(rewrite Rabs_pos_eq; lra) ltac:(lra) ltac:(lra) P50) as (F7 & D7 & _).
    assert (P5 : 2 ^ 50 = 1125899906842624) by ring.
    destruct (sqrtN rho Hrho (fsub one bp2) (/ ga) (1536 / 100) F7) as (F8 & D8 & _); [lra| |lra|].
    { replace (/ ga * / ga) with (1 - (Bx * Bx + By * By + Bz * Bz)) by lra. eapply Rle_trans; [exact D7|].
      replace (1 - (Bx * Bx + By * By + Bz * Bz)) with (/ ga * / ga) by lra. lra. }
    assert (GI : 1 / / ga = ga) by (field; lra).
    destruct (divN rho Hrho one (fsqrt (fsub one bp2)) 1 (/ ga) 0 _ F1 ltac:(lra) ltac:(lra) ltac:(rewrite R1, Rminus_eq_0, Rabs_R0; lra) D8 ltac:(lra) ltac:(lra)) as (F9 & D9 & _).
    { rewrite GI. lra. }
    fold gam in F9, D9. rewrite GI in D9. split; [exact F9|]. split; [|rewrite Rabs_pos_eq; lra].
    assert (0 < rho * ga) by (apply Rmult_lt_0_compat; lra). lra.
  Qed.

  Let G := ga * ga / (1 + ga).
  Lemma G_facts : / 2 <= G <= ga.
  Proof using Hga.
    unfold G. assert (1 * 1 <= ga * ga) by (apply Rmult_le_compat; lra). assert (1 * ga <= ga * ga) by (apply Rmult_le_compat_r; lra).
    split; [apply le_div|apply div_le]; lra.
  Qed.

  Lemma bgam_close : is_finite bgam = true /\ ap rho (331 / 10) (R64 bgam) G ga.
  Proof using Hsq Hg Hr Fx Fy Fz Ax Ay Az Hga HB.
    destruct rho_facts as (U0 & UR & U1 & R0 & T1 & T0). destruct one_facts as (F1 & R1). destruct gam_close as (Fg & Ag). destruct G_facts as (G1 & G2).
    assert (Hrho : u <= rho <= / 1000000000) by (split; [exact UR|exact Hr]). assert (P5 : 2 ^ 50 = 1125899906842624) by ring.
    assert (GA : 1 * 1 <= ga * ga <= 4096 * 4096) by (split; apply Rmult_le_compat; lra).
    destruct (mulN rho Hrho gam gam ga ga 10 10 ga ga Fg Fg Ag Ag ltac:(lra) ltac:(lra) ltac:(lra)) as (F2 & D2 & _).
    assert (0 < rho * ga) by (apply Rmult_lt_0_compat; lra).
    destruct (addN rho Hrho one gam 1 ga 0 10 (1 + ga) F1 Fg) as (F3 & D3 & _); try lra.
    { rewrite R1, Rminus_eq_0, Rabs_R0. lra. }
    { eapply Rle_trans; [exact (proj1 Ag)|]. lra. }
    { rewrite Rabs_pos_eq; lra. }
    destruct (divN rho Hrho _ _ (ga * ga) (1 + ga) _ _ F2 ltac:(lra) ltac:(lra) D2 D3 ltac:(lra) ltac:(lra)) as (F4 & D4).
    { fold G. lra. }
    fold G bgam in F4, D4. split; [exact F4|]. apply (ap_scale _ _ _ _ _ (331 / 10) ga D4); try lra.
  Qed.

  (** One component of the transformed vector. *)
  Lemma row_close (m1 m2 m3 m4 a1 a2 a3 a4 : f64) M1 M2 M3 M4 h :
    is_finite m1 = true -> is_finite m2 = true -> is_finite m3 = true -> is_finite m4 = true ->
    is_finite a1 = true -> is_finite a2 = true -> is_finite a3 = true -> is_finite a4 = true ->
    ap rho 20 (R64 m1) M1 (2 * ga) -> ap rho 20 (R64 m2) M2 (2 * ga) -> ap rho 20 (R64 m3) M3 (2 * ga) -> ap rho 20 (R64 m4) M4 (2 * ga) ->
    Rabs (R64 a1) <= h -> Rabs (R64 a2) <= h -> Rabs (R64 a3) <= h -> Rabs (R64 a4) <= h -> 1 <= h <= 2 ^ 21 ->
    let r := fadd (fadd (fadd (fmul m1 a1) (fmul m2 a2)) (fmul m3 a3)) (fmul m4 a4) in
    is_finite r = true /\ Rabs (R64 r - (M1 * R64 a1 + M2 * R64 a2 + M3 * R64 a3 + M4 * R64 a4)) <= 195 * (rho * (ga * h)).
  Proof using Hg Hr Hga.
    intros N1 N2 N3 N4 O1 O2 O3 O4 A1 A2 A3 A4 B1 B2 B3 B4 Hh r.
    destruct rho_facts as (U0 & UR & U1 & R0 & T1 & T0). assert (Hrho : u <= rho <= / 1000000000) by (split; [exact UR|exact Hr]).
    assert (P5 : 2 ^ 50 = 1125899906842624) by ring. assert (P21 : 2 ^ 21 = 2097152) by ring. rewrite P21 in Hh.
    assert (GH : 1 * 1 <= ga * h <= 4096 * 2097152) by (split; apply Rmult_le_compat; lra). set (s := 2 * ga * h).
    assert (Es : s = 2 * (ga * h)) by (unfold s; ring).
    assert (K : forall m a : f64, forall Mm, is_finite m = true -> is_finite a = true -> ap rho 20 (R64 m) Mm (2 * ga) -> Rabs (R64 a) <= h ->
      is_finite (fmul m a) = true /\ Rabs (R64 (fmul m a) - Mm * R64 a) <= 53 / 10 * (rho * (4 * s)) /\ Rabs (Mm * R64 a) <= s).
    { intros m a Mm Fm Fa Am Ba. destruct (mulN rho Hrho m a Mm (R64 a) 20 0 (2 * ga) h Fm Fa Am (ap_refl _ _ _ Ba) ltac:(lra) ltac:(lra)) as (F & D & B); [fold s; lra|].
      fold s in D, B. split; [exact F|]. split; [|exact B]. assert (0 < rho * s) by (apply Rmult_lt_0_compat; lra). lra. }
    destruct (K _ _ _ N1 O1 A1 B1) as (F1 & D1 & S1). destruct (K _ _ _ N2 O2 A2 B2) as (F2 & D2 & S2).
    destruct (K _ _ _ N3 O3 A3 B3) as (F3 & D3 & S3). destruct (K _ _ _ N4 O4 A4 B4) as (F4 & D4 & S4).
    apply Rabs_le_inv in S1, S2, S3, S4.
    assert (SS : / 1000 <= 4 * s <= 2 ^ 50) by lra.
    destruct (addN rho Hrho _ _ _ _ _ _ (4 * s) F1 F2 D1 D2 ltac:(apply Rabs_le; lra) ltac:(lra) ltac:(lra) SS) as (F5 & D5 & _).
    destruct (addN rho Hrho _ _ _ _ _ _ (4 * s) F5 F3 D5 D3 ltac:(apply Rabs_le; lra) ltac:(lra) ltac:(lra) SS) as (F6 & D6 & _).
    destruct (addN rho Hrho _ _ _ _ _ _ (4 * s) F6 F4 D6 D4 ltac:(apply Rabs_le; lra) ltac:(lra) ltac:(lra) SS) as (F7 & D7 & _).
    fold r in F7, D7. split; [exact F7|]. eapply Rle_trans; [exact D7|]. replace (rho * (4 * s)) with (8 * (rho * (ga * h))) by (rewrite Es; ring).
    assert (0 < rho * (ga * h)) by (apply Rmult_lt_0_compat; lra). lra.
  Qed.

  Lemma coef (c d : f64) C D : is_finite c = true -> is_finite d = true -> ap u (102 / 100) (R64 c) C 1 -> ap u (102 / 100) (R64 d) D 1 ->
    is_finite (fmul (fmul bgam c) d) = true /\ ap rho (372 / 10) (R64 (fmul (fmul bgam c) d)) (G * C * D) ga.
  Proof using Hsq Hg Hr Fx Fy Fz Ax Ay Az Hga HB.
    intros Fc Fd Ac Ad. destruct rho_facts as (U0 & UR & U1 & R0 & T1 & T0). destruct bgam_close as (Fb & Ab).
    assert (Hrho : u <= rho <= / 1000000000) by (split; [exact UR|exact Hr]). assert (P5 : 2 ^ 50 = 1125899906842624) by ring.
    assert (Bc : ap rho (102 / 100) (R64 c) C 1) by (apply (ap_unit u); auto; lra). assert (Bd : ap rho (102 / 100) (R64 d) D 1) by (apply (ap_unit u); auto; lra).
    destruct (mulN rho Hrho _ _ _ _ _ _ _ _ Fb Fc Ab Bc ltac:(lra) ltac:(lra) ltac:(lra)) as (F1 & A1).
    destruct (mulN rho Hrho _ _ _ _ _ _ _ _ F1 Fd A1 Bd ltac:(lra) ltac:(lra) ltac:(lra)) as (F2 & A2).
    split; [exact F2|]. apply (ap_scale _ _ _ _ _ (372 / 10) ga A2); lra.
  Qed.
  Lemma coef_off (c d : f64) C D : is_finite c = true -> is_finite d = true -> ap u (102 / 100) (R64 c) C 1 -> ap u (102 / 100) (R64 d) D 1 ->
    is_finite (fmul (fmul bgam c) d) = true /\ ap rho 20 (R64 (fmul (fmul bgam c) d)) (G * C * D) (2 * ga).
  Proof using Hsq Hg Hr Fx Fy Fz Ax Ay Az Hga HB.
    intros Fc Fd Ac Ad. destruct (coef c d C D Fc Fd Ac Ad) as (F & A). destruct rho_facts as (_ & _ & _ & R0 & _).
    split; [exact F|]. apply (ap_scale _ _ _ _ _ 20 (2 * ga) A); lra.
  Qed.
  Lemma coef_diag (c : f64) C : is_finite c = true -> ap u (102 / 100) (R64 c) C 1 ->
    is_finite (fadd one (fmul (fmul bgam c) c)) = true /\ ap rho 20 (R64 (fadd one (fmul (fmul bgam c) c))) (1 + G * C * C) (2 * ga).
  Proof using Hsq Hg Hr Fx Fy Fz Ax Ay Az Hga HB.
    intros Fc Ac. destruct (coef c c C C Fc Fc Ac Ac) as (F & A). destruct rho_facts as (U0 & UR & U1 & R0 & T1 & T0). destruct one_facts as (F1 & R1).
    assert (Hrho : u <= rho <= / 1000000000) by (split; [exact UR|exact Hr]). assert (P5 : 2 ^ 50 = 1125899906842624) by ring.
    destruct A as (A & B). assert (0 < rho * ga) by (apply Rmult_lt_0_compat; lra).
    destruct (addN rho Hrho one _ 1 (G * C * C) 0 (186 / 10) (2 * ga) F1 F) as (F2 & A2); try lra.
    { rewrite R1, Rminus_eq_0, Rabs_R0. lra. }
    { apply Rabs_le_inv in B. apply Rabs_le. lra. }
    split; [exact F2|]. apply (ap_scale _ _ _ _ _ 20 (2 * ga) A2); lra.
  Qed.
  Lemma coef_time (c : f64) C : is_finite c = true -> ap u (102 / 100) (R64 c) C 1 ->
    is_finite (fmul gam c) = true /\ ap rho 20 (R64 (fmul gam c)) (ga * C) (2 * ga).
  Proof using Hsq Hg Hr Fx Fy Fz Ax Ay Az Hga HB.
    intros Fc Ac. destruct gam_close as (Fg & Ag). destruct rho_facts as (U0 & UR & U1 & R0 & T1 & T0).
    assert (Hrho : u <= rho <= / 1000000000) by (split; [exact UR|exact Hr]). assert (P5 : 2 ^ 50 = 1125899906842624) by ring.
    assert (Bc : ap rho (102 / 100) (R64 c) C 1) by (apply (ap_unit u); auto; lra).
    destruct (mulN rho Hrho _ _ _ _ _ _ _ _ Fg Fc Ag Bc ltac:(lra) ltac:(lra) ltac:(lra)) as (F1 & A1).
    split; [exact F1|]. apply (ap_scale _ _ _ _ _ 20 (2 * ga) A1); lra.
  Qed.

  (** The boost of a vector with components up to [h]. *)
  Lemma boost_core a h : finite_row a -> sized h (real a) -> 1 <= h <= 2 ^ 21 ->
    let x := R64 (vx a) in let y := R64 (vy a) in let z := R64 (vz a) in let e := R64 (vE a) in
    finite_row (boost_beta64 sq bx b_y bz a) /\
    within (195 * (rho * (ga * h))) (real (boost_beta64 sq bx b_y bz a))
      (mkP4 ((1 + G * Bx * Bx) * x + G * Bx * By * y + G * Bx * Bz * z + ga * Bx * e)
            (G * Bx * By * x + (1 + G * By * By) * y + G * By * Bz * z + ga * By * e)
            (G * Bx * Bz * x + G * By * Bz * y + (1 + G * Bz * Bz) * z + ga * Bz * e)
            (ga * Bx * x + ga * By * y + ga * Bz * z + ga * e)).
  Proof using Hsq Hg Hr Fx Fy Fz Ax Ay Az Hga HB.
    intros Fa (S1 & S2 & S3 & S4) Hh x y z e. cbn [real qx qy qz qE] in S1, S2, S3, S4. destruct rho_facts as (_ & _ & _ & R0 & _).
    assert (O1 : is_finite (vx a) = true) by (apply Fa; cbn; auto). assert (O2 : is_finite (vy a) = true) by (apply Fa; cbn; auto).
    assert (O3 : is_finite (vz a) = true) by (apply Fa; cbn; auto). assert (O4 : is_finite (vE a) = true) by (apply Fa; cbn; auto).
    destruct (coef_diag bx Bx Fx Ax) as (F1 & A1). destruct (coef_diag b_y By Fy Ay) as (F2 & A2). destruct (coef_diag bz Bz Fz Az) as (F3 & A3).
    destruct (coef_off bx b_y Bx By Fx Fy Ax Ay) as (F4 & A4). destruct (coef_off bx bz Bx Bz Fx Fz Ax Az) as (F5 & A5). destruct (coef_off b_y bz By Bz Fy Fz Ay Az) as (F6 & A6).
    destruct (coef_time bx Bx Fx Ax) as (F7 & A7). destruct (coef_time b_y By Fy Ay) as (F8 & A8). destruct (coef_time bz Bz Fz Az) as (F9 & A9).
    destruct gam_close as (F0 & A0). assert (A0' : ap rho 20 (R64 gam) ga (2 * ga)) by (apply (ap_scale _ _ _ _ _ 20 (2 * ga) A0); lra).
    destruct (row_close _ _ _ _ _ _ _ _ _ _ _ _ _ F1 F4 F5 F7 O1 O2 O3 O4 A1 A4 A5 A7 S1 S2 S3 S4 Hh) as (P1 & Q1).
    destruct (row_close _ _ _ _ _ _ _ _ _ _ _ _ _ F4 F2 F6 F8 O1 O2 O3 O4 A4 A2 A6 A8 S1 S2 S3 S4 Hh) as (P2 & Q2).
    destruct (row_close _ _ _ _ _ _ _ _ _ _ _ _ _ F5 F6 F3 F9 O1 O2 O3 O4 A5 A6 A3 A9 S1 S2 S3 S4 Hh) as (P3 & Q3).
    destruct (row_close _ _ _ _ _ _ _ _ _ _ _ _ _ F7 F8 F9 F0 O1 O2 O3 O4 A7 A8 A9 A0' S1 S2 S3 S4 Hh) as (P4 & Q4).
    split.
    - intros c [<-|[<-|[<-|[<-|[]]]]]; assumption.
    - unfold within, real. cbn [qx qy qz qE]. exact (conj Q1 (conj Q2 (conj Q3 Q4))).
  Qed.

  (** The energy of a vector in the frame of its own velocity. *)
  Lemma rest_core p M : finite_row p -> / 2 <= M -> R64 (vE p) = ga * M -> R64 (vE p) <= 2 ^ 20 ->
    Bx * R64 (vE p) = - R64 (vx p) -> By * R64 (vE p) = - R64 (vy p) -> Bz * R64 (vE p) = - R64 (vz p) ->
    is_finite (vE (boost_beta64 sq bx b_y bz p)) = true /\ Rabs (R64 (vE (boost_beta64 sq bx b_y bz p)) - M) <= 24 * (rho * M).
  Proof using Hsq Hg Hr Fx Fy Fz Ax Ay Az Hga HB.
    intros Fp M1 EM E20 QX QY QZ. destruct rho_facts as (U0 & UR & U1 & R0 & T1 & T0). destruct gam_close as (Fg & Dg & _). destruct ga_facts as (G0 & GL & UG & UGG).
    assert (P20 : 2 ^ 20 = 1048576) by ring. rewrite P20 in E20. assert (P5 : 2 ^ 50 = 1125899906842624) by ring. assert (Hu : u <= u <= / 1000000000) by lra.
    set (X := R64 (vx p)) in *. set (Y := R64 (vy p)) in *. set (Z := R64 (vz p)) in *. set (E := R64 (vE p)) in *. set (gh := R64 gam) in *.
    assert (E1 : / 2 <= E). { rewrite EM. assert (1 * M <= ga * M) by (apply Rmult_le_compat_r; lra). lra. }
    assert (RG9 : rho * ga <= / 1000000000 * ga) by (apply Rmult_le_compat_r; lra). assert (RG : 0 < rho * ga) by (apply Rmult_lt_0_compat; lra).
    apply Rabs_le_inv in Dg. assert (GH : 99 / 100 * ga <= gh <= 101 / 100 * ga) by lra.
    assert (N1 : is_finite (vx p) = true) by (apply Fp; cbn; auto). assert (N2 : is_finite (vy p) = true) by (apply Fp; cbn; auto).
    assert (N3 : is_finite (vz p) = true) by (apply Fp; cbn; auto). assert (N4 : is_finite (vE p) = true) by (apply Fp; cbn; auto).
    assert (BE : forall B V, Rabs B <= 1 -> B * E = - V -> Rabs V <= E).
    { intros B V HBd Q. replace V with (- (B * E)) by lra. rewrite Rabs_Ropp. replace E with (1 * E) at 2 by ring. apply abs_mul; [exact HBd|]. rewrite Rabs_pos_eq; lra. }
    pose proof (BE _ _ (proj2 Ax) QX) as BX. pose proof (BE _ _ (proj2 Ay) QY) as BY. pose proof (BE _ _ (proj2 Az) QZ) as BZ.
    assert (GE : 99 / 100 * 1 * / 2 <= gh * E <= 101 / 100 * 4096 * 1048576) by (split; apply Rmult_le_compat; lra).
    set (S := gh * E) in *.
    assert (Agh : ap u 0 (R64 gam) gh gh) by (apply ap_refl; fold gh; rewrite Rabs_pos_eq; lra).
    assert (AE : ap u 0 (R64 (vE p)) E E) by (apply ap_refl; fold E; rewrite Rabs_pos_eq; lra).
    assert (K : forall b v : f64, forall B V, is_finite b = true -> is_finite v = true -> ap u (102 / 100) (R64 b) B 1 -> R64 v = V -> Rabs V <= E ->
      is_finite (fmul (fmul gam b) v) = true /\ Rabs (R64 (fmul (fmul gam b) v) - gh * B * V) <= 307 / 100 * (u * S)).
    { intros b v B V Fb Fv Ab Ev Bv. subst V.
      destruct (mulN u Hu gam b gh B 0 (102 / 100) gh 1 Fg Fb Agh Ab ltac:(lra) ltac:(lra) ltac:(lra)) as (F1 & A1).
      destruct (mulN u Hu _ v _ (R64 v) _ 0 _ E F1 Fv A1 (ap_refl _ _ _ Bv) ltac:(lra) ltac:(lra)) as (F2 & A2 & _).
      { rewrite Rmult_1_r. fold S. lra. }
      rewrite Rmult_1_r in A2. fold S in A2. split; [exact F2|]. eapply Rle_trans; [exact A2|].
      assert (0 < u * S) by (apply Rmult_lt_0_compat; lra). lra. }
    destruct (K bx (vx p) Bx X Fx N1 Ax eq_refl BX) as (F1 & D1). destruct (K b_y (vy p) By Y Fy N2 Ay eq_refl BY) as (F2 & D2). destruct (K bz (vz p) Bz Z Fz N3 Az eq_refl BZ) as (F3 & D3).
    destruct (mulN u Hu gam (vE p) gh E 0 0 gh E Fg N4 Agh AE ltac:(lra) ltac:(lra) ltac:(fold S; lra)) as (F4 & D4 & _).
    fold S in D4.
    assert (T : forall B V, B * E = - V -> gh * B * V = - (S * (B * B))).
    { intros B V Q. replace V with (- (B * E)) by lra. unfold S. ring. }
    rewrite (T _ _ QX) in D1. rewrite (T _ _ QY) in D2. rewrite (T _ _ QZ) in D3.
    pose proof (pow2_ge_0 Bx) as X0. pose proof (pow2_ge_0 By) as Y0. pose proof (pow2_ge_0 Bz) as Z0.
    replace (Bx ^ 2) with (Bx * Bx) in X0 by ring. replace (By ^ 2) with (By * By) in Y0 by ring. replace (Bz ^ 2) with (Bz * Bz) in Z0 by ring.
    assert (I0 : 0 < / ga * / ga) by (apply Rmult_lt_0_compat; lra). assert (I1 : / ga * / ga <= 1 * 1) by (apply Rmult_le_compat; lra).
    assert (SX : 0 <= S * (Bx * Bx)) by (apply Rmult_le_pos; lra). assert (SY : 0 <= S * (By * By)) by (apply Rmult_le_pos; lra). assert (SZ : 0 <= S * (Bz * Bz)) by (apply Rmult_le_pos; lra).
    assert (SI0 : 0 <= S * (/ ga * / ga)) by (apply Rmult_le_pos; lra). assert (SI1 : S * (/ ga * / ga) <= S * 1) by (apply Rmult_le_compat_l; lra).
    assert (HS : S * (Bx * Bx) + S * (By * By) + S * (Bz * Bz) = S - S * (/ ga * / ga)) by (rewrite <- !Rmult_plus_distr_l, HB; ring).
    assert (SR : / 1000 <= S <= 2 ^ 50) by lra.
    destruct (addN u Hu _ _ _ _ _ _ S F1 F2 D1 D2 ltac:(apply Rabs_le; lra) ltac:(lra) ltac:(lra) SR) as (F5 & D5 & _).
    destruct (addN u Hu _ _ _ _ _ _ S F5 F3 D5 D3 ltac:(apply Rabs_le; lra) ltac:(lra) ltac:(lra) SR) as (F6 & D6 & _).
    destruct (addN u Hu _ _ _ _ _ _ S F6 F4 D6 D4 ltac:(fold S; apply Rabs_le; lra) ltac:(lra) ltac:(lra) SR) as (F7 & D7 & _).
    set (r := fadd _ _) in F7, D7. change (vE (boost_beta64 sq bx b_y bz p)) with r.
    split; [exact F7|]. fold S in D7.
    replace (- (S * (Bx * Bx)) + - (S * (By * By)) + - (S * (Bz * Bz)) + S) with (S * (/ ga * / ga)) in D7 by lra.
    assert (V : S * (/ ga * / ga) = gh * (/ ga * M)). { unfold S. rewrite EM. field. lra. }
    assert (IM : ga * (/ ga * M) = M) by (field; lra). assert (IM0 : 0 < / ga * M) by (apply Rmult_lt_0_compat; lra).
    assert (V1 : Rabs (gh * (/ ga * M) - M) <= 10 * (rho * M)).
    { replace (gh * (/ ga * M) - M) with ((gh - ga) * (/ ga * M)) by (rewrite Rmult_minus_distr_r, IM; reflexivity).
      replace (10 * (rho * M)) with (10 * (rho * ga) * (/ ga * M)) by (field; lra). apply abs_mul; [apply Rabs_le; lra|rewrite Rabs_pos_eq; lra]. }
    assert (US : u * S <= 101 / 100 * (rho * M)).
    { apply Rle_trans with (u * (101 / 100 * ga * E)).
      - apply Rmult_le_compat_l; [lra|]. unfold S. apply Rmult_le_compat_r; lra.
      - rewrite EM. replace (u * (101 / 100 * ga * (ga * M))) with (101 / 100 * (u * (ga * ga) * M)) by ring. apply Rmult_le_compat_l; [lra|]. apply Rmult_le_compat_r; lra. }
    assert (0 < rho * M) by (apply Rmult_lt_0_compat; lra).
    rewrite V in D7. apply Rabs_le_inv in D7, V1. apply Rabs_le. lra.
  Qed.
End Core.

(** ** A parent *)
Section Parent.
  Context (sq : f64 -> f64) (Hsq : pow_all sq) (g : R) (Hg : 1 <= g <= 4096).
  Let rho := u * (g * g).
  Context (Hr : rho <= / 1000000000).
  Context (p : v4) (Fp : finite_row p) (T : timelike (real p)).
  Let X := R64 (vx p). Let Y := R64 (vy p). Let Z := R64 (vz p). Let E := R64 (vE p). Let M := rest_mass (real p).
  Context (M1 : / 2 <= M) (E20 : E <= 2 ^ 20) (EM : E <= g * M).
  Let ga := E / M.

  Lemma parent_facts : is_finite (vx p) = true /\ is_finite (vy p) = true /\ is_finite (vz p) = true /\ is_finite (vE p) = true /\
    Rabs X <= E /\ Rabs Y <= E /\ Rabs Z <= E /\ / 2 <= E <= 1048576 /\ M <= E /\ 1 <= ga <= g /\ E = ga * M /\ M * M = E * E - (X * X + Y * Y + Z * Z).
  Proof using Fp T M1 E20 EM.
    destruct (comp_le _ T) as ((BX & BY & BZ & _) & M0 & ME). destruct (sqrt_m _ T) as (_ & SM). fold (rest_mass (real p)) in SM.
    fold M in M0, ME, SM. cbn [real qx qy qz qE] in BX, BY, BZ, ME. fold X E in BX. fold Y E in BY. fold Z E in BZ. fold E in ME.
    assert (P20 : 2 ^ 20 = 1048576) by ring. rewrite P20 in E20.
    split; [apply Fp; cbn; auto|]. split; [apply Fp; cbn; auto|]. split; [apply Fp; cbn; auto|]. split; [apply Fp; cbn; auto|].
    split; [exact BX|]. split; [exact BY|]. split; [exact BZ|]. split; [lra|]. split; [exact ME|].
    split; [unfold ga; split; [apply le_div|apply div_le]; lra|]. split; [unfold ga; field; lra|].
    rewrite SM. unfold mdot. cbn [real qx qy qz qE]. fold X Y Z E. ring.
  Qed.

  Lemma velocity (v : f64) : is_finite v = true -> Rabs (R64 v) <= E ->
    is_finite (fdiv v (vE p)) = true /\ ap u (102 / 100) (R64 (fdiv v (vE p))) (R64 v / E) 1.
  Proof using Fp T M1 E20 EM.
    intros Fv Bv. destruct parent_facts as (_ & _ & _ & _ & _ & _ & _ & HE & _). destruct small_facts as (U0 & U1 & T0 & T1).
    assert (B : Rabs (R64 v / E) <= 1) by (unfold Rdiv; rewrite Rabs_mult, Rabs_inv, (Rabs_pos_eq E) by lra; apply div_le; lra).
    destruct (fdiv_fin v (vE p) 30 Fv) as (Q & F); [fold E; lra|lia|fold E; change (b2 30) with 1073741824; lra|].
    split; [exact F|]. split; [|exact B]. rewrite Q. fold E. pose proof (rnd_bound _ _ B). lra.
  Qed.

  Lemma velocity_gamma sg : sg * sg = 1 -> (sg * X / E) * (sg * X / E) + (sg * Y / E) * (sg * Y / E) + (sg * Z / E) * (sg * Z / E) = 1 - / ga * / ga.
  Proof using Fp T M1 E20 EM.
    intros S. destruct parent_facts as (_ & _ & _ & _ & _ & _ & _ & HE & ME & _ & _ & MM).
    unfold ga. replace (/ (E / M) * / (E / M)) with (M * M / (E * E)) by (field; lra). rewrite MM.
    replace (sg * X / E * (sg * X / E) + sg * Y / E * (sg * Y / E) + sg * Z / E * (sg * Z / E)) with (sg * sg * ((X * X + Y * Y + Z * Z) / (E * E))) by (field; lra).
    rewrite S. field. lra.
  Qed.

  Lemma boost_close a : finite_row a -> sized (2 * M) (real a) ->
    finite_row (boost_v sq p a) /\ within (390 * rho * E) (real (boost_v sq p a)) (lboost (real p) 1 (real a)).
  Proof using Hsq Hg Hr Fp T M1 E20 EM.
    intros Fa Sa. destruct parent_facts as (F1 & F2 & F3 & F4 & BX & BY & BZ & HE & ME & Hga & Ega & MM).
    destruct (velocity _ F1 BX) as (V1 & A1). destruct (velocity _ F2 BY) as (V2 & A2). destruct (velocity _ F3 BZ) as (V3 & A3). fold X in A1. fold Y in A2. fold Z in A3.
    pose proof (velocity_gamma 1 ltac:(ring)) as HB. rewrite !Rmult_1_l in HB. assert (P21 : 2 ^ 21 = 2097152) by ring.
    destruct (boost_core sq Hsq g Hg Hr _ _ _ V1 V2 V3 _ _ _ ga A1 A2 A3 Hga HB a (2 * M) Fa Sa ltac:(lra)) as (Fb & W).
    split; [exact Fb|]. fold rho in W.
    replace (195 * (rho * (ga * (2 * M)))) with (390 * rho * E) in W by (rewrite Ega; ring).
    assert (Q : lboost (real p) 1 (real a) = mkP4
      ((1 + ga * ga / (1 + ga) * (X / E) * (X / E)) * R64 (vx a) + ga * ga / (1 + ga) * (X / E) * (Y / E) * R64 (vy a) + ga * ga / (1 + ga) * (X / E) * (Z / E) * R64 (vz a) + ga * (X / E) * R64 (vE a))
      (ga * ga / (1 + ga) * (X / E) * (Y / E) * R64 (vx a) + (1 + ga * ga / (1 + ga) * (Y / E) * (Y / E)) * R64 (vy a) + ga * ga / (1 + ga) * (Y / E) * (Z / E) * R64 (vz a) + ga * (Y / E) * R64 (vE a))
      (ga * ga / (1 + ga) * (X / E) * (Z / E) * R64 (vx a) + ga * ga / (1 + ga) * (Y / E) * (Z / E) * R64 (vy a) + (1 + ga * ga / (1 + ga) * (Z / E) * (Z / E)) * R64 (vz a) + ga * (Z / E) * R64 (vE a))
      (ga * (X / E) * R64 (vx a) + ga * (Y / E) * R64 (vy a) + ga * (Z / E) * R64 (vz a) + ga * R64 (vE a))).
    { unfold lboost. fold (rest_mass (real p)). fold M. cbn [real qx qy qz qE]. fold X Y Z E. unfold ga.
      apply p4_eq; cbn [qx qy qz qE]; field; repeat split; lra. }
    rewrite Q. exact W.
  Qed.

  Lemma rest_close : is_finite (rest_v sq p) = true /\ Rabs (R64 (rest_v sq p) - M) <= 24 * (rho * M).
  Proof using Hsq Hg Hr Fp T M1 E20 EM.
    destruct parent_facts as (F1 & F2 & F3 & F4 & BX & BY & BZ & HE & ME & Hga & Ega & MM).
    assert (O : forall v : f64, R64 (Bopp v) = - R64 v) by (intros v; apply B2R_Bopp).
    assert (G1 : is_finite (Bopp (vx p)) = true) by now rewrite is_finite_Bopp. assert (G2 : is_finite (Bopp (vy p)) = true) by now rewrite is_finite_Bopp.
    assert (G3 : is_finite (Bopp (vz p)) = true) by now rewrite is_finite_Bopp.
    destruct (velocity _ G1 ltac:(rewrite O, Rabs_Ropp; exact BX)) as (V1 & A1). destruct (velocity _ G2 ltac:(rewrite O, Rabs_Ropp; exact BY)) as (V2 & A2).
    destruct (velocity _ G3 ltac:(rewrite O, Rabs_Ropp; exact BZ)) as (V3 & A3). rewrite O in A1, A2, A3. fold X in A1. fold Y in A2. fold Z in A3.
    pose proof (velocity_gamma (-1) ltac:(ring)) as HB. replace (-1 * X) with (- X) in HB by ring. replace (-1 * Y) with (- Y) in HB by ring. replace (-1 * Z) with (- Z) in HB by ring.
    apply (rest_core sq Hsq g Hg Hr _ _ _ V1 V2 V3 _ _ _ ga A1 A2 A3 Hga HB p M Fp M1 Ega E20); fold X Y Z E; field; lra.
  Qed.

  Lemma mass_close : is_finite (mass_v sq p) = true /\ Rabs (R64 (mass_v sq p) - M) <= 7 * (rho * M).
  Proof using Hsq Hg Hr Fp T M1 E20 EM.
    destruct parent_facts as (F1 & F2 & F3 & F4 & BX & BY & BZ & HE & ME & Hga & Ega & MM). destruct small_facts as (U0 & U1 & T0 & T1).
    assert (GG : 1 * 1 <= g * g) by (apply Rmult_le_compat; lra). assert (UR : u * 1 <= rho) by (apply Rmult_le_compat_l; lra).
    assert (P5 : 2 ^ 50 = 1125899906842624) by ring. assert (Hu : u <= u <= / 1000000000) by lra. assert (Hrho : u <= rho <= / 1000000000) by (split; [lra|exact Hr]).
    assert (EE : / 2 * / 2 <= E * E <= 1048576 * 1048576) by (split; apply Rmult_le_compat; lra). set (S := E * E) in *.
    assert (UE : u * (/ 2 * / 2) <= u * S) by (apply Rmult_le_compat_l; lra).
    assert (K : forall v : f64, is_finite v = true -> Rabs (R64 v) <= E -> is_finite (sq v) = true /\ Rabs (R64 (sq v) - R64 v * R64 v) <= 201 / 100 * (u * S) /\ 0 <= R64 v * R64 v <= S).
    { intros v Fv Bv. destruct (Hsq v Fv) as (Fs & Ds); [assert (2 ^ 30 = 1073741824) by ring; lra|]. rewrite two_u, eta_def in Ds.
      replace (R64 v ^ 2) with (R64 v * R64 v) in Ds by ring. pose proof (Rle_0_sqr (R64 v)) as Q0. unfold Rsqr in Q0.
      pose proof (abs_mul _ _ _ _ Bv Bv) as Q1. fold S in Q1. rewrite Rabs_pos_eq in Q1 by exact Q0.
      assert (u * (R64 v * R64 v) <= u * S) by (apply Rmult_le_compat_l; lra).
      split; [exact Fs|]. split; [lra|]. lra. }
    destruct (K _ F1 BX) as (G1 & D1 & Q1). destruct (K _ F2 BY) as (G2 & D2 & Q2). destruct (K _ F3 BZ) as (G3 & D3 & Q3).
    destruct (K _ F4 ltac:(fold E; rewrite Rabs_pos_eq; lra)) as (G4 & D4 & _). fold X in D1, Q1. fold Y in D2, Q2. fold Z in D3, Q3. fold E in D4. fold S in D4.
    assert (MM0 : 0 < M * M) by (apply Rmult_lt_0_compat; lra).
    assert (SS : / 1000 <= S <= 2 ^ 50) by lra.
    destruct (addN u Hu _ _ _ _ _ _ S G1 G2 D1 D2 ltac:(apply Rabs_le; lra) ltac:(lra) ltac:(lra) SS) as (G5 & D5 & _).
    destruct (addN u Hu _ _ _ _ _ _ S G5 G3 D5 D3 ltac:(apply Rabs_le; lra) ltac:(lra) ltac:(lra) SS) as (G6 & D6 & _).
    destruct (subN u Hu _ _ _ _ _ _ S G4 G6 D4 D6 ltac:(apply Rabs_le; lra) ltac:(lra) ltac:(lra) SS) as (G7 & D7 & _).
    fold (tau2_v sq p) in G7, D7. rewrite <- MM in D7. set (t2 := tau2_v sq p) in *.
    assert (US : u * S <= rho * (M * M)).
    { unfold S. rewrite Ega. replace (u * (ga * M * (ga * M))) with (u * (ga * ga) * (M * M)) by ring. apply Rmult_le_compat_r; [lra|].
      unfold rho. apply Rmult_le_compat_l; [lra|]. apply Rmult_le_compat; lra. }
    assert (D8 : Rabs (R64 t2 - M * M) <= 112 / 10 * (rho * (M * M))) by (apply Rabs_le_inv in D7; apply Rabs_le; lra).
    assert (RM : rho * (M * M) <= / 1000000000 * (M * M)) by (apply Rmult_le_compat_r; lra).
    assert (P2 : 0 < R64 t2) by (apply Rabs_le_inv in D8; lra).
    unfold mass_v. fold t2. rewrite (Bsign_pos t2 P2).
    assert (Ra : R64 (Babs t2) = R64 t2) by (rewrite B2R_Babs; apply Rabs_pos_eq; lra). assert (Fa : is_finite (Babs t2) = true) by now rewrite is_finite_Babs.
    destruct (sqrtN rho Hrho (Babs t2) M (112 / 10) Fa ltac:(lra) ltac:(rewrite Ra; exact D8) ltac:(lra)) as (Fm & Dm & _).
    split; [exact Fm|]. assert (0 < rho * M) by (apply Rmult_lt_0_compat; lra). lra.
  Qed.
End Parent.

(** C86: the library's formulas are accurate wherever the energy is at most [g] times the mass. *)
Theorem C86_library sq g E0 : pow_all sq -> 1 <= g -> g ^ 2 <= 2 ^ 23 -> E0 <= 2 ^ 20 ->
  library (boost_v sq) (rest_v sq) (mass_v sq) (g ^ 2 / 2 ^ 48) (g ^ 2 / 2 ^ 44) g E0.
Proof.
  intros Hsq G1 G2 H0 p Fp T M1 EE EM.
  assert (P23 : 2 ^ 23 = 8388608) by ring. rewrite P23 in G2. replace (g ^ 2) with (g * g) in * by ring.
  assert (G3 : g <= 4096). { destruct (Rle_or_lt g 4096) as [Q|Q]; [exact Q|]. assert (4096 * 4096 <= g * g) by (apply Rmult_le_compat; lra). lra. }
  assert (Hg : 1 <= g <= 4096) by lra. destruct small_facts as (U0 & U1 & T0 & T1).
  assert (U53 : u * 8388608 <= / 1000000000) by (rewrite <- u_30; lra).
  assert (Hr : u * (g * g) <= / 1000000000) by (assert (u * (g * g) <= u * 8388608) by (apply Rmult_le_compat_l; lra); lra).
  assert (E20 : R64 (vE p) <= 2 ^ 20) by lra.
  assert (Q1 : g * g / 2 ^ 48 = 32 * (u * (g * g))) by (unfold Rdiv; rewrite thirtytwo_u; ring).
  assert (Q2 : g * g / 2 ^ 44 = 512 * (u * (g * g))) by (unfold Rdiv; rewrite u_44; ring). rewrite Q1, Q2.
  set (rho := u * (g * g)) in *. assert (R0 : 0 <= rho) by (apply Rmult_le_pos; [lra|apply Rmult_le_pos; lra]).
  destruct (rest_close sq Hsq g Hg Hr p Fp T M1 E20 EM) as (Fr & Dr). destruct (mass_close sq Hsq g Hg Hr p Fp T M1 E20 EM) as (Fm & Dm).
  fold rho in Dr, Dm. set (M := rest_mass (real p)) in *.
  assert (RM : 0 <= rho * M) by (apply Rmult_le_pos; lra).
  split; [|split; [exact Fm|lra]].
  split; [exact Fp|]. split; [exact T|]. split; [exact Fr|]. split; [fold M; lra|].
  intros a Fa Sa. destruct (boost_close sq Hsq g Hg Hr p Fp T M1 E20 EM a Fa Sa) as (Fb & W1 & W2 & W3 & W4). fold rho in W1, W2, W3, W4.
  split; [exact Fb|]. exists (lboost (real p) 1 (real a)). split; [now apply boost_eq|].
  assert (RE : 0 <= rho * R64 (vE p)) by (apply Rmult_le_pos; [exact R0|]; destruct T as (_ & T2); cbn [real qE] in T2; lra).
  change (qE (real p)) with (R64 (vE p)). repeat split; lra.
Qed.

(** The tolerance on a squared mass with these formulas. *)
Definition tau_v (g E0 : R) : R := (33280 * g ^ 2 + 512) * E0 ^ 2 / 2 ^ 53.
Lemma tau_v_eq g E0 : tau (g ^ 2 / 2 ^ 48) (g ^ 2 / 2 ^ 44) E0 = tau_v g E0.
Proof. unfold tau, tau_v. field. Qed.

(** C86: events in binary64 with these formulas, no assumption on the vector library left. *)
Theorem C86_event sq sn cs g E0 : pow_ok sq -> pow_all sq -> trig_ok sn cs ->
  1 <= g -> g ^ 2 <= 2 ^ 23 -> 2 <= E0 <= 2 ^ 20 -> tau_v g E0 <= / 2 ->
  let t := tau_v g E0 in
  forall r ds T th ph ex ps, start_ok E0 r T -> above_threshold t r T ex ->
  open_ g E0 (2 * t) (cm_total (R64 (rm_target r)) (R64 (rm_projectile r)) (R64 T)) (rm_ejectile r) (rm_residual r) ex th ph ->
  open_chain g E0 (2 * t) (R64 (rm_residual r) + R64 ex) ds ps ->
  let k := R64 T in let mp := R64 (rm_projectile r) in
  exists tv pv ev qv l, event64 sq sn cs (boost_v sq) (rest_v sq) (mass_v sq) r ds T th ph ex ps = Ok (Some (tv :: pv :: ev :: qv :: l)) /\
    finite_row tv /\ real tv = mkP4 0 0 0 (R64 (rm_target r)) /\
    within (/ 2 ^ 50 * E0) (real pv) (mkP4 0 0 (sqrt (k * (k + 2 * mp))) (k + mp)) /\ product t pv mp /\
    product t ev (R64 (rm_ejectile r)) /\ product t qv (R64 (rm_residual r) + R64 ex) /\
    within (/ 2 ^ 50 * E0) (padd (real ev) (real qv)) (padd (real tv) (real pv)) /\
    chain_rows t E0 qv ds ps l.
Proof.
  intros Hok Hall Htr G1 G2 H0 Ht t. unfold t. rewrite <- tau_v_eq in *.
  assert (P23 : 2 ^ 23 = 8388608) by ring. assert (G0 : 1 * 1 <= g ^ 2) by (replace (g ^ 2) with (g * g) by ring; apply Rmult_le_compat; lra).
  assert (P48 : 0 <= g ^ 2 / 2 ^ 48 <= / 1000000) by (split; [apply le_div|apply div_le]; lra).
  assert (P44 : 0 <= g ^ 2 / 2 ^ 44 <= / 1000000) by (split; [apply le_div|apply div_le]; lra).
  intros r ds T th ph ex ps So Ab Op Oc.
  exact (C85_event sq sn cs (boost_v sq) (rest_v sq) (mass_v sq) Hok Htr _ _ g E0 G1 P48 P44 H0 Ht (C86_library sq g E0 Hall G1 G2 (proj2 H0)) r ds T th ph ex ps So Ab Op Oc).
Qed.

Lemma mul_pow_all : pow_all (fun x => fmul x x).
Proof.
  intros x F B. assert (P30 : 2 ^ 30 = 1073741824) by ring. rewrite P30 in B. pose proof (abs_mul _ _ _ _ B B) as B2.
  destruct (fmul_fin x x 60 F F ltac:(lia)) as (E & G); [change (b2 60) with 1152921504606846976; lra|].
  split; [exact G|]. rewrite E, eta_def, two_u. replace (R64 x ^ 2) with (R64 x * R64 x) by ring.
  pose proof (rnd_err (R64 x * R64 x)) as Er. pose proof (Rle_0_sqr (R64 x)) as Q. unfold Rsqr in Q. rewrite (Rabs_pos_eq (R64 x * R64 x)) in Er by exact Q.
  destruct small_facts as (U0 & _). assert (0 <= u * (R64 x * R64 x)) by (apply Rmult_le_pos; lra). lra.
Qed.

(** 12C on deuterons at 100 MeV, (d,p) followed by the emission of a nucleon (rounded masses). *)
Example C86_example :
  let sq := fun x : f64 => fmul x x in
  let r := mkRM (f_of_Z 1876) (f_of_Z 11178) (f_of_Z 938) (f_of_Z 12110) in
  let ds := [mkDM (f_of_Z 938) (f_of_Z 11170)] in
  let ps := [(f_of_Z 3, f_of_Z 2, f_of_Z 1)] in
  exists rows, event64 sq sin_r cos_r (boost_v sq) (rest_v sq) (mass_v sq) r ds (f_of_Z 100) (f_of_Z 1) (f_of_Z 2) (f_of_Z 5) ps = Ok (Some rows) /\
    length rows = 6%nat /\ Forall finite_row rows /\
    Rabs (mdot (real (nth 5 rows vzero)) (real (nth 5 rows vzero)) - 11173 ^ 2) <= / 100.
Proof.
  intros sq r ds ps. set (E0 := 16384).
  assert (RZ : forall n, (Z.abs n <= 2 ^ 53)%Z -> R64 (f_of_Z n) = IZR n) by (intros n N; apply f_of_Z_R; exact N).
  assert (FZ : forall n, (Z.abs n <= 2 ^ 53)%Z -> is_finite (f_of_Z n) = true) by (intros n N; apply f_of_Z_fin; exact N).
  assert (TV : 0 <= tau_v 2 E0 <= / 100) by (unfold tau_v, E0; lra).
  assert (CM : 13060 <= cm_total 1876 11178 100).
  { unfold cm_total. rewrite <- (sqrt_square 13060) by lra. apply sqrt_le_1_alt. lra. }
  destruct (C86_event sq sin_r cos_r 2 E0 mul_pow_ok mul_pow_all trig_rounded ltac:(lra) ltac:(lra) ltac:(unfold E0; lra) ltac:(lra)
    r ds (f_of_Z 100) (f_of_Z 1) (f_of_Z 2) (f_of_Z 5) ps)
    as (tv & pv & ev & qv & l & Ev & Ft & Rt & Wp & Pp & Pe & Pq & Wi & Cl).
  - unfold start_ok, r. cbn [rm_target rm_projectile]. rewrite !FZ, !RZ by lia. unfold E0. repeat split; lra.
  - unfold above_threshold, r. cbn [rm_target rm_projectile rm_ejectile rm_residual]. cbv zeta. rewrite !RZ by lia. split; lra.
  - unfold open_, r. cbn [rm_target rm_projectile rm_ejectile rm_residual]. rewrite !FZ, !RZ by lia. unfold E0 in *.
    repeat split; try lra; rewrite Rabs_pos_eq; lra.
  - unfold r, ds, ps. cbn [open_chain rm_residual dm_res1 dm_res2]. split; [|exact I]. unfold open_. rewrite !FZ, !RZ by lia. unfold E0 in *.
    repeat split; try lra; rewrite Rabs_pos_eq; lra.
  - exists (tv :: pv :: ev :: qv :: l). split; [exact Ev|]. unfold ds, ps in Cl. cbn [chain_rows] in Cl.
    destruct l as [|v [|w l]]; [destruct Cl|destruct Cl|]. destruct Cl as (Pv & Pw & _ & Cl). destruct l as [|x l]; [|destruct Cl].
    split; [reflexivity|]. split.
    + repeat constructor; try assumption; first [apply Pp|apply Pe|apply Pq|apply Pv|apply Pw].
    + cbn [nth]. destruct Pw as (_ & _ & Pw). cbn [dm_res2] in Pw. rewrite !RZ in Pw by lia.
      replace (11170 + 3) with 11173 in Pw by ring. lra.
Qed.

Print Assumptions C86_library.
Print Assumptions C86_event.
Print Assumptions C86_example.
