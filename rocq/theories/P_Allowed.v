(** P_Allowed.v -- C77: the tests for allowed excitations in binary64. *)
From Coq Require Import ZArith Reals Lia Lra List.
From Flocq Require Import Core BinarySingleNaN Relative Plus_error.
From Verif Require Import Base F64 F64Bounds KinF64 P_KinF64 KinChain P_ElectronsF64.
Import ListNotations.
Local Open Scope R_scope.

(** A subtraction has the sign of the exact difference. *)
Lemma rnd_sub_pos x y : fmt64 x -> fmt64 y -> (0 < rnd64 (x - y) <-> y < x).
Proof.
  intros Fx Fy. split; intros H.
  - destruct (Rle_or_lt x y) as [L|L]; [|exact L]. exfalso.
    assert (rnd64 (x - y) <= 0) by (apply rnd64_le_fmt; [apply generic_format_0|lra]). lra.
  - assert (0 <= rnd64 (x - y)) by (apply rnd64_ge_fmt; [apply generic_format_0|lra]).
    assert (N : rnd64 (x - y) <> 0); [|lra].
    unfold rnd64, Rminus. apply round_plus_neq_0; try typeclasses eauto; [exact Fx|now apply generic_format_opp|lra].
Qed.

Definition bounded (x : f64) (lo hi : R) : Prop := is_finite x = true /\ lo <= R64 x <= hi.

Lemma pos_rel a b : bounded a 1 (2 ^ 100) -> bounded b 0 (2 ^ 100) ->
  is_finite (fadd a b) = true /\ R64 (fadd a b) = rnd64 (R64 a + R64 b) /\ rel 1 (R64 (fadd a b)) (R64 a + R64 b).
Proof.
  intros (Fa & Ba) (Fb & Bb). destruct (fadd_fin a b 102 Fa Fb ltac:(lia)) as (E & F).
  { apply b2_le with (100 + 2)%nat; [lia|]. assert (2 ^ (100 + 2) = 4 * 2 ^ 100) by (rewrite pow_add; ring).
    rewrite Rabs_pos_eq; lra. }
  split; [exact F|]. split; [exact E|]. rewrite E. apply rel_rnd.
  pose proof (inv_pow_le 0 1000 ltac:(lia)) as I. simpl pow at 2 in I. lra.
Qed.

(** The computed sum of masses and excitation. *)
Lemma mass_sum m1 m2 ex : bounded m1 1 (2 ^ 30) -> bounded m2 0 (2 ^ 30) -> bounded ex 0 (2 ^ 30) ->
  let s := fadd (fadd m1 m2) ex in
  is_finite s = true /\ R64 s = rnd64 (rnd64 (R64 m1 + R64 m2) + R64 ex) /\ rel 2 (R64 s) (R64 m1 + R64 m2 + R64 ex) /\ R64 s <= 2 ^ 33.
Proof.
  intros B1 B2 B3. assert (P : 2 ^ 30 <= 2 ^ 100) by (apply Rle_pow; [lra|lia]).
  destruct (pos_rel m1 m2) as (F12 & E12 & R12).
  { destruct B1 as (F1 & K1). split; [exact F1|lra]. } { destruct B2 as (F1 & K1). split; [exact F1|lra]. }
  pose proof (rel_half 1 _ _ ltac:(lia) R12) as H12.
  destruct B1 as (F1 & K1), B2 as (F2 & K2), B3 as (F3 & K3).
  assert (P100 : 2 ^ 33 <= 2 ^ 100) by (apply Rle_pow; [lra|lia]).
  assert (P33 : 2 ^ 33 = 8589934592) by ring. assert (P30 : 2 ^ 30 = 1073741824) by ring.
  assert (G1 : 1 <= R64 (fadd m1 m2)) by (rewrite E12; apply rnd64_ge_fmt; [apply (fmt64_bpow 0); lia|lra]).
  destruct (pos_rel (fadd m1 m2) ex) as (F & E & R).
  { split; [exact F12|lra]. } { split; [exact F3|lra]. }
  split; [exact F|]. split; [now rewrite E, E12|].
  assert (R2 : rel 2 (R64 (fadd (fadd m1 m2) ex)) (R64 m1 + R64 m2 + R64 ex)).
  { eapply (rel_trans 1 1); [exact R|]. destruct (Rle_lt_or_eq_dec 0 (R64 ex) ltac:(lra)) as [L|L].
    - apply rel_add; [exact R12|]. apply rel_weak with 0%nat; [lia|]. now apply rel_refl.
    - rewrite <- L, !Rplus_0_r. exact R12. }
  split; [exact R2|]. pose proof (rel_half 2 _ _ ltac:(lia) R2). lra.
Qed.

Lemma rel_bounds a x X : (a <= 100)%nat -> rel a x X -> X * (1 - (INR a + 1) * u) <= x <= X * (1 + (INR a + 1) * u).
Proof. intros L H. pose proof (rel_abs a x X L H) as A. apply Rabs_le_inv in A. lra. Qed.

Lemma u_51 : / 2 ^ 51 = 4 * u.
Proof. Transparent u. unfold u. Opaque u. lra. Qed.

(** Decay: the test compares the mass with the computed sum, exactly; so it is right except within
    2^-51 of the sum, and right everywhere if the sums are representable. *)
Theorem C77_decay mass m1 m2 ex :
  bounded mass 0 (2 ^ 33) -> bounded m1 1 (2 ^ 30) -> bounded m2 0 (2 ^ 30) -> bounded ex 0 (2 ^ 30) ->
  let s := R64 m1 + R64 m2 + R64 ex in
  (s * (1 + / 2 ^ 51) < R64 mass -> decay_allowed mass m1 m2 ex = true) /\
  (R64 mass < s * (1 - / 2 ^ 51) -> decay_allowed mass m1 m2 ex = false) /\
  (fmt64 (R64 m1 + R64 m2) -> fmt64 s -> (decay_allowed mass m1 m2 ex = true <-> s < R64 mass)).
Proof.
  intros (FM & BM) B1 B2 B3 s. destruct (mass_sum m1 m2 ex B1 B2 B3) as (F & E & R & B).
  set (c := fadd (fadd m1 m2) ex) in *.
  assert (P33 : 2 ^ 33 = 8589934592) by ring. assert (P34 : 2 ^ 34 = 17179869184) by ring.
  pose proof (rel_pos _ _ _ R) as Pc.
  destruct (fsub_fin mass c 34 FM F ltac:(lia)) as (Ed & Fd).
  { apply b2_le with 34%nat; [lia|]. apply Rabs_le. lra. }
  assert (Key : decay_allowed mass m1 m2 ex = true <-> R64 c < R64 mass).
  { unfold decay_allowed. fold c. rewrite fltb_R by (try exact Fd; reflexivity).
    rewrite f_of_Z_R, Ed by lia. rewrite <- (rnd_sub_pos (R64 mass) (R64 c)) by apply fmt64_R.
    destruct (Rlt_bool_spec (IZR 0) (rnd64 (R64 mass - R64 c))) as [L|L].
    - split; [intros _; exact L|reflexivity].
    - split; [discriminate|]. intros K. lra. }
  pose proof (rel_bounds 2 _ _ ltac:(lia) R) as (L1 & L2). fold s in L1, L2.
  replace (INR 2 + 1) with 3 in * by (simpl; lra).
  pose proof u_51 as U51.
  destruct small_facts as (U0 & _). assert (Ps : 0 < s) by apply R.
  assert (0 < u * s) by (apply Rmult_lt_0_compat; lra). rewrite U51.
  split; [|split].
  - intros K. apply Key. lra.
  - intros K. apply Bool.not_true_is_false. rewrite Key. lra.
  - intros G1 G2. rewrite Key, E, (rnd64_fmt _ G1). fold s. rewrite (rnd64_fmt _ G2). reflexivity.
Qed.

(** Textbook total energy in the centre-of-mass frame of a beam of kinetic energy [t] on a target at rest. *)
Definition cm_total (mt mp t : R) : R := sqrt ((mt + mp) ^ 2 + 2 * mt * t).

Lemma pow_rel sq x X a : pow_ok sq -> is_finite x = true -> / 2 ^ 8 <= R64 x <= 2 ^ 30 -> rel a (R64 x) X ->
  is_finite (sq x) = true /\ rel (a + a + 3) (R64 (sq x)) (X * X).
Proof.
  intros (Pw & _) F Bx R. destruct small_facts as (U0 & U1 & _). pose proof (ip 8) as I8.
  destruct (Pw x F) as (Fs & E); [rewrite Rabs_pos_eq by lra; exact Bx|]. split; [exact Fs|].
  rewrite (Nat.add_comm (a + a) 3). apply rel_trans with (R64 x * R64 x); [|apply rel_mul; exact R].
  rewrite two_u in E. apply Rabs_le_inv in E. replace (R64 x ^ 2) with (R64 x * R64 x) in E by ring.
  assert (Px : 0 < R64 x * R64 x) by (apply Rmult_lt_0_compat; lra). set (y := R64 x * R64 x) in *.
  destruct q_facts as (Q1 & Q2 & Q3).
  assert (Q : 1 + 3 * u <= q ^ 3).
  { assert (A : (1 + u) * (1 + u) <= q * q) by (apply Rmult_le_compat; lra).
    assert (B' : (1 + u) * (1 + u) * (1 + u) <= q * q * q).
    { apply Rmult_le_compat; try lra. apply Rmult_le_pos; lra. }
    replace (q ^ 3) with (q * q * q) by ring. assert (0 <= u * u) by (apply Rmult_le_pos; lra).
    assert (0 <= u * u * u) by (apply Rmult_le_pos; lra). lra. }
  split; [exact Px|]. split.
  - apply Rle_trans with (R64 (sq x) * (1 + 3 * u)); [|apply Rmult_le_compat_l; [|exact Q]].
    + assert (y * (1 - 2 * u) * (1 + 3 * u) <= R64 (sq x) * (1 + 3 * u)) by (apply Rmult_le_compat_r; lra).
      assert (0 <= u * y * (1 - 6 * u)) by (apply Rmult_le_pos; [apply Rmult_le_pos; lra|lra]). lra.
    + assert (0 <= y * (1 - 2 * u)) by (apply Rmult_le_pos; lra). lra.
  - apply Rle_trans with (y * (1 + 3 * u)); [assert (0 <= u * y) by (apply Rmult_le_pos; lra); lra|].
    apply Rmult_le_compat_l; lra.
Qed.

Lemma cm_total_facts mt mp t : 1 <= mt -> 1 <= mp -> 0 <= t ->
  2 <= cm_total mt mp t <= mt + t + mp /\
  cm_total mt mp t * cm_total mt mp t = (mt + t + mp) * (mt + t + mp) - t * (t + 2 * mp).
Proof.
  intros A B C. unfold cm_total.
  assert (P : 0 <= mt * t) by (apply Rmult_le_pos; lra).
  assert (Q : 0 <= mp * t) by (apply Rmult_le_pos; lra). assert (R : 0 <= t * t) by (apply Rmult_le_pos; lra).
  assert (S4 : 4 <= (mt + mp) ^ 2).
  { replace ((mt + mp) ^ 2) with ((mt + mp) * (mt + mp)) by ring. replace 4 with (2 * 2) by lra. apply Rmult_le_compat; lra. }
  split; [split|].
  - apply Rle_trans with (sqrt (2 * 2)); [right; symmetry; apply sqrt_square; lra|]. apply sqrt_le_1_alt. lra.
  - rewrite <- (sqrt_square (mt + t + mp)) by lra. apply sqrt_le_1_alt. lra.
  - rewrite sqrt_sqrt by lra. ring.
Qed.

Lemma e_cm_close sq r t : pow_ok sq ->
  bounded (rm_target r) 1 (2 ^ 20) -> bounded (rm_projectile r) 1 (2 ^ 20) -> bounded t (/ 2 ^ 12) (2 ^ 20) ->
  let pz := fsqrt (fmul t (fadd t (fmul (f_of_Z 2) (rm_projectile r)))) in
  let e := fsqrt (fsub (sq (fadd (fadd (rm_target r) t) (rm_projectile r))) (sq pz)) in
  let E := R64 (rm_target r) + R64 t + R64 (rm_projectile r) in
  let cm := cm_total (R64 (rm_target r)) (R64 (rm_projectile r)) (R64 t) in
  is_finite e = true /\ Rabs (R64 e - cm) <= 24 * u * (E * E / cm).
Proof.
  intros Hq Bt Bp Bk pz e E cm.
  assert (P20 : 2 ^ 20 = 1048576) by ring. assert (P30 : 2 ^ 30 = 1073741824) by ring.
  assert (P100 : 2 ^ 30 <= 2 ^ 100) by (apply Rle_pow; [lra|lia]).
  assert (I12 : / 2 ^ 12 = / 4096) by (f_equal; ring). assert (I8 : / 2 ^ 8 = / 256) by (f_equal; ring).
  destruct small_facts as (U0 & U1 & T0 & T1). rewrite P20, I12 in *.
  destruct Bt as (Ft & Bt), Bp as (Fp & Bp), Bk as (Fk & Bk).
  set (mt := R64 (rm_target r)) in *. set (mp := R64 (rm_projectile r)) in *. set (k := R64 t) in *.
  assert (T1000 : / 2 ^ 1000 <= / 2 ^ 30) by (apply inv_pow_le; lia).
  assert (I30 : / 2 ^ 30 = / 1073741824) by (f_equal; ring). rewrite I30 in T1000.
  (* E *)
  destruct (mass_sum (rm_target r) t (rm_projectile r)) as (FE & _ & RE & _); try (split; [assumption|]).
  { fold mt. lra. } { fold k. lra. } { fold mp. lra. }
  fold mt mp k in RE. fold E in RE.
  assert (E2 : 2 <= E <= 4000000) by (unfold E; lra).
  pose proof (rel_half 2 _ _ ltac:(lia) RE) as HE.
  destruct (pow_rel sq _ _ 2 Hq FE ltac:(lra) RE) as (FE2 & RE2).
  (* pz *)
  assert (R2 : R64 (f_of_Z 2) = 2) by (apply f_of_Z_R; lia).
  destruct (fmul_fin (f_of_Z 2) (rm_projectile r) 30 ltac:(apply f_of_Z_fin; lia) Fp ltac:(lia)) as (Ea & Fa).
  { apply b2_le with 30%nat; [lia|]. rewrite R2. fold mp. rewrite Rabs_pos_eq; lra. }
  rewrite R2 in Ea. fold mp in Ea. assert (Ra : rel 1 (R64 (fmul (f_of_Z 2) (rm_projectile r))) (2 * mp)) by (rewrite Ea; apply rel_rnd; lra).
  pose proof (rel_half 1 _ _ ltac:(lia) Ra) as Ha. set (a := fmul (f_of_Z 2) (rm_projectile r)) in *.
  destruct (fadd_fin t a 30 Fk Fa ltac:(lia)) as (Eb & Fb).
  { apply b2_le with 30%nat; [lia|]. fold k. rewrite Rabs_pos_eq; lra. }
  fold k in Eb.
  assert (Rb : rel 2 (R64 (fadd t a)) (k + 2 * mp)).
  { rewrite Eb. apply (rel_trans 1 1) with (k + R64 a); [apply rel_rnd; lra|]. apply rel_add; [|exact Ra].
    apply rel_weak with 0%nat; [lia|]. apply rel_refl. lra. }
  pose proof (rel_half 2 _ _ ltac:(lia) Rb) as Hb. set (b := fadd t a) in *.
  set (P := k * (k + 2 * mp)). 
  assert (PL : / 4096 * 2 <= P) by (unfold P; apply Rmult_le_compat; lra).
  assert (PE : P <= E * E).
  { replace (E * E) with (P + ((mt + mp) * (mt + mp) + 2 * (mt * k))) by (unfold P, E; ring).
    assert (0 <= (mt + mp) * (mt + mp)) by (apply Rmult_le_pos; lra). assert (0 <= mt * k) by (apply Rmult_le_pos; lra). lra. }
  assert (EE : E * E <= 4000000 * 4000000) by (apply Rmult_le_compat; lra).
  assert (PU : k * R64 b <= 1048576 * 10000000) by (apply Rmult_le_compat; lra).
  assert (PU' : / 4096 * (1 / 2) <= k * R64 b) by (apply Rmult_le_compat; lra).
  assert (P50 : 2 ^ 50 = 1125899906842624) by ring.
  destruct (fmul_fin t b 50 Fk Fb ltac:(lia)) as (Ec & Fc).
  { apply b2_le with 50%nat; [lia|]. fold k. rewrite Rabs_pos_eq; lra. }
  fold k in Ec. assert (Rc : rel 3 (R64 (fmul t b)) P).
  { rewrite Ec. apply (rel_trans 1 2) with (k * R64 b); [apply rel_rnd; lra|].
    apply (rel_mul 0 2); [apply rel_refl; lra|exact Rb]. }
  set (c := fmul t b) in *. pose proof (rel_pos _ _ _ Rc) as Pc.
  destruct (fsqrt_fin c Fc Pc) as (Ez & Fz). fold pz in Ez, Fz.
  assert (SP : / 64 <= sqrt P <= 4000000).
  { split.
    - replace (/ 64) with (sqrt (/ 64 * / 64)) by (apply sqrt_square; lra). apply sqrt_le_1_alt. lra.
    - replace 4000000 with (sqrt (4000000 * 4000000)) by (apply sqrt_square; lra). apply sqrt_le_1_alt. lra. }
  assert (Rs : rel 2 (sqrt (R64 c)) (sqrt P)) by (apply rel_sqrt; apply rel_weak with 3%nat; [lia|exact Rc]).
  pose proof (rel_half 2 _ _ ltac:(lia) Rs) as Hs.
  assert (Rz : rel 3 (R64 pz) (sqrt P)).
  { rewrite Ez. apply (rel_trans 1 2) with (sqrt (R64 c)); [apply rel_rnd; lra|exact Rs]. }
  pose proof (rel_half 3 _ _ ltac:(lia) Rz) as Hz.
  destruct (pow_rel sq pz _ 3 Hq Fz ltac:(lra) Rz) as (Fz2 & Rz2). rewrite sqrt_sqrt in Rz2 by lra.
  (* difference *)
  pose proof (rel_bounds 7 _ _ ltac:(lia) RE2) as X7. pose proof (rel_bounds 9 _ _ ltac:(lia) Rz2) as X9.
  replace (INR 7 + 1) with 8 in X7 by (simpl; lra). replace (INR 9 + 1) with 10 in X9 by (simpl; lra).
  set (x := R64 (sq (fadd (fadd (rm_target r) t) (rm_projectile r)))) in *. set (y := R64 (sq pz)) in *.
  destruct (cm_total_facts mt mp k ltac:(lra) ltac:(lra) ltac:(lra)) as (CB & CM). fold cm E P in CB, CM.
  set (EQ := E * E) in *. assert (uP : u * P <= u * EQ) by (apply Rmult_le_compat_l; lra).
  assert (E4 : 4 <= EQ) by (unfold EQ; replace 4 with (2 * 2) by lra; apply Rmult_le_compat; lra).
  assert (uE : u * 4 <= u * EQ) by (apply Rmult_le_compat_l; lra).
  assert (uU : u * EQ <= / 50) by (apply Rle_trans with (/ 1000000000000000 * (4000000 * 4000000)); [apply Rmult_le_compat; lra|lra]).
  assert (uP0 : 0 <= u * P) by (apply Rmult_le_pos; lra).
  assert (D1 : Rabs (x - y - cm * cm) <= 18 * (u * EQ)) by (rewrite CM; apply Rabs_le; lra).
  apply Rabs_le_inv in D1.
  assert (CC : 4 <= cm * cm) by (replace 4 with (2 * 2) by lra; apply Rmult_le_compat; lra).
  set (p := sq (fadd (fadd (rm_target r) t) (rm_projectile r))) in *.
  destruct (fsub_fin p (sq pz) 60 FE2 Fz2 ltac:(lia)) as (Ed & Fd).
  { apply b2_le with 60%nat; [lia|]. fold x y. assert (2 ^ 60 = 1152921504606846976) by ring. apply Rabs_le. lra. }
  fold x y in Ed. set (d := fsub p (sq pz)) in *.
  assert (D2 : Rabs (rnd64 (x - y) - (x - y)) <= u * (2 * EQ) + eta).
  { apply rnd_bound. apply Rabs_le. lra. }
  rewrite <- Ed in D2. apply Rabs_le_inv in D2.
  assert (Pd : 1 <= R64 d) by lra.
  destruct (fsqrt_fin d Fd ltac:(lra)) as (Ee & Fe). fold e in Ee, Fe. split; [exact Fe|].
  set (G := EQ / cm). assert (GC : G * cm = EQ) by (unfold G; field; lra).
  assert (CG : cm <= G).
  { unfold G. apply le_div; [lra|]. unfold EQ. apply Rmult_le_compat; lra. }
  set (s := sqrt (R64 d)) in *. assert (SS : s * s = R64 d) by (apply sqrt_sqrt; lra).
  assert (S1 : 1 <= s) by (unfold s; replace 1 with (sqrt 1) by apply sqrt_1; apply sqrt_le_1_alt; lra).
  assert (D3 : Rabs (s - cm) <= 21 * (u * G)).
  { assert (H : (s - cm) * (s + cm) = R64 d - cm * cm) by (rewrite <- SS; ring).
    assert (H2 : Rabs (s - cm) * (s + cm) <= 21 * (u * EQ)).
    { rewrite <- (Rabs_pos_eq (s + cm)) by lra. rewrite <- Rabs_mult, H. apply Rabs_le. lra. }
    apply Rmult_le_reg_r with cm; [lra|]. replace (21 * (u * G) * cm) with (21 * (u * EQ)) by (rewrite <- GC; ring).
    assert (0 <= Rabs (s - cm) * s) by (apply Rmult_le_pos; [apply Rabs_pos|lra]). lra. }
  apply Rabs_le_inv in D3.
  assert (uG : u * 2 <= u * G) by (apply Rmult_le_compat_l; lra).
  assert (S2 : s <= 2 * G).
  { assert (u * G <= / 1000000000000000 * G) by (apply Rmult_le_compat_r; lra). lra. }
  pose proof (rnd_bound s (2 * G) ltac:(rewrite Rabs_pos_eq; lra)) as D4. rewrite <- Ee in D4. apply Rabs_le_inv in D4.
  apply Rabs_le. lra.
Qed.

(** Reaction: the test is right except within 2^-48 E^2/m of the threshold, where E is the total
    laboratory energy and m the total centre-of-mass energy. *)
Theorem C77_reaction sq r t ex : pow_ok sq ->
  bounded (rm_target r) 1 (2 ^ 20) -> bounded (rm_projectile r) 1 (2 ^ 20) -> bounded t (/ 2 ^ 12) (2 ^ 20) ->
  bounded (rm_ejectile r) 1 (2 ^ 20) -> bounded (rm_residual r) 0 (2 ^ 20) -> bounded ex 0 (2 ^ 20) ->
  let needed := R64 (rm_ejectile r) + R64 (rm_residual r) + R64 ex in
  let cm := cm_total (R64 (rm_target r)) (R64 (rm_projectile r)) (R64 t) in
  let margin := / 2 ^ 48 * ((R64 (rm_target r) + R64 t + R64 (rm_projectile r)) ^ 2 / cm) in
  (needed + margin < cm -> reaction_allowed64 sq r t ex = true) /\
  (cm + margin < needed -> reaction_allowed64 sq r t ex = false).
Proof.
  intros Hq Bt Bp Bk Be Br Bx needed cm margin.
  destruct (e_cm_close sq r t Hq Bt Bp Bk) as (Fe & C). cbv zeta in C. fold cm in C.
  assert (P : 2 ^ 20 <= 2 ^ 30) by (apply Rle_pow; [lra|lia]).
  destruct (mass_sum (rm_ejectile r) (rm_residual r) ex) as (Fs & _ & Rs & _).
  { destruct Be. split; [assumption|lra]. } { destruct Br. split; [assumption|lra]. } { destruct Bx. split; [assumption|lra]. }
  fold needed in Rs. pose proof (rel_bounds 2 _ _ ltac:(lia) Rs) as X. replace (INR 2 + 1) with 3 in X by (simpl; lra).
  destruct Bt as (_ & Bt), Bp as (_ & Bp), Bk as (_ & Bk). pose proof (ip 12).
  destruct (cm_total_facts (R64 (rm_target r)) (R64 (rm_projectile r)) (R64 t) ltac:(lra) ltac:(lra) ltac:(lra)) as (CB & _).
  fold cm in CB. unfold margin in *. rewrite thirtytwo_u.
  set (E := R64 (rm_target r) + R64 t + R64 (rm_projectile r)) in *. replace (E ^ 2) with (E * E) by ring.
  set (G := E * E / cm) in *.
  assert (CG : cm <= G) by (unfold G; apply le_div; [lra|]; apply Rmult_le_compat; lra).
  destruct small_facts as (U0 & U1 & _).
  assert (uG : u * cm <= u * G) by (apply Rmult_le_compat_l; lra). 
  assert (uS : u * G <= / 1000000000000000 * G) by (apply Rmult_le_compat_r; lra).
  assert (0 < u * G) by (apply Rmult_lt_0_compat; lra).
  unfold reaction_allowed64. cbv zeta.
  match goal with |- context [fltb ?s ?e] => set (sm := s) in *; set (en := e) in * end.
  apply Rabs_le_inv in C. rewrite fltb_R by assumption. assert (Pn : 0 < needed) by apply Rs. split; intros K.
  - apply Rlt_bool_true. assert (u * needed <= u * cm) by (apply Rmult_le_compat_l; lra). lra.
  - apply Rlt_bool_false.
    assert (M : (cm + 32 * u * G) * (1 - 3 * u) <= needed * (1 - 3 * u)) by (apply Rmult_le_compat_r; lra).
    assert (uu : u * (u * G) <= / 1000000000000000 * (u * G)) by (apply Rmult_le_compat_r; lra). lra.
Qed.

(** A decay that the test allows is calculated. *)
Theorem C77_decay_calculated sq sn cs boost rest_energy mass d parent polar azimuthal ex :
  decay_allowed64 mass d parent ex = true ->
  exists v, decay_calculate64 sq sn cs boost rest_energy mass d parent polar azimuthal ex = Ok v.
Proof.
  unfold decay_allowed64, decay_allowed, decay_calculate64.
  set (x := fsub (mass parent) (fadd (fadd (dm_res1 d) (dm_res2 d)) ex)). clearbody x. intros H.
  assert (L : fltb x (f_of_Z 0) = false); [|rewrite L; eauto].
  revert H. destruct x as [s|s| |s m e h]; try destruct s; vm_compute; congruence.
Qed.

(** 12C on deuterons, inelastic, 100 MeV: 10 MeV of excitation is allowed and 20 is not (14.4 available);
    16O at 7 MeV breaking up into alpha and 12C with 5 or 10 MeV. *)
Example C77_example :
  let r := mkRM (f_of_Z 1876) (f_of_Z 11178) (f_of_Z 1876) (f_of_Z 11178) in
  reaction_allowed64 (fun x => fmul x x) r (f_of_Z 100) (f_of_Z 10) = true /\
  reaction_allowed64 (fun x => fmul x x) r (f_of_Z 100) (f_of_Z 20) = false /\
  decay_allowed (f_of_Z 14912) (f_of_Z 3727) (f_of_Z 11178) (f_of_Z 5) = true /\
  decay_allowed (f_of_Z 14912) (f_of_Z 3727) (f_of_Z 11178) (f_of_Z 10) = false.
Proof.
  assert (B : forall n lo hi, (Z.abs n <= 2 ^ 53)%Z -> lo <= IZR n <= hi -> bounded (f_of_Z n) lo hi).
  { intros n lo hi Hn H. split; [now apply f_of_Z_fin|]. now rewrite f_of_Z_R. }
  assert (P20 : 2 ^ 20 = 1048576) by ring. assert (P30 : 2 ^ 30 = 1073741824) by ring.
  assert (P33 : 2 ^ 33 = 8589934592) by ring. assert (I12 : / 2 ^ 12 = / 4096) by (f_equal; ring).
  assert (I48 : / 2 ^ 48 <= / 1000000000).
  { apply Rinv_le_contravar; [lra|]. assert (2 ^ 48 = 281474976710656) by ring. lra. }
  assert (I51 : / 2 ^ 51 <= / 1000000000).
  { apply Rinv_le_contravar; [lra|]. assert (2 ^ 51 = 2251799813685248) by ring. lra. }
  pose proof (ip 48). pose proof (ip 51).
  set (r := mkRM (f_of_Z 1876) (f_of_Z 11178) (f_of_Z 1876) (f_of_Z 11178)). intros r'. subst r'.
  assert (CM : 13068 <= cm_total 1876 11178 100 <= 13069).
  { unfold cm_total. split.
    - replace 13068 with (sqrt (13068 * 13068)) by (apply sqrt_square; lra). apply sqrt_le_1_alt. lra.
    - replace 13069 with (sqrt (13069 * 13069)) by (apply sqrt_square; lra). apply sqrt_le_1_alt. lra. }
  assert (MG : / 2 ^ 48 * ((1876 + 100 + 11178) ^ 2 / cm_total 1876 11178 100) <= 1).
  { assert (D : (1876 + 100 + 11178) ^ 2 / cm_total 1876 11178 100 <= 14000) by (apply div_le; lra).
    assert (D0 : 0 <= (1876 + 100 + 11178) ^ 2 / cm_total 1876 11178 100) by (apply le_div; lra).
    apply Rle_trans with (/ 1000000000 * 14000); [apply Rmult_le_compat; lra|lra]. }
  assert (K : forall x, (0 <= x <= 20)%Z ->
    (13054 + IZR x + 1 < 13068 -> reaction_allowed64 (fun x => fmul x x) r (f_of_Z 100) (f_of_Z x) = true) /\
    (13069 + 1 < 13054 + IZR x -> reaction_allowed64 (fun x => fmul x x) r (f_of_Z 100) (f_of_Z x) = false)).
  { intros x Hx. assert (0 <= IZR x <= 20) by (split; apply IZR_le; lia).
    destruct (C77_reaction (fun x => fmul x x) r (f_of_Z 100) (f_of_Z x) mul_pow_ok) as (A & A');
      try (apply B; cbn [r rm_target rm_projectile rm_ejectile rm_residual]; lia || lra).
    cbn [r rm_target rm_projectile rm_ejectile rm_residual] in A, A'. rewrite !f_of_Z_R in A, A' by lia.
    split; intros Q; [apply A|apply A']; lra. }
  split; [apply K; lia || lra|]. split; [apply K; lia || lra|].
  assert (D : forall x, (0 <= x <= 20)%Z ->
    ((14905 + IZR x) * (1 + / 2 ^ 51) < 14912 -> decay_allowed (f_of_Z 14912) (f_of_Z 3727) (f_of_Z 11178) (f_of_Z x) = true) /\
    (14912 < (14905 + IZR x) * (1 - / 2 ^ 51) -> decay_allowed (f_of_Z 14912) (f_of_Z 3727) (f_of_Z 11178) (f_of_Z x) = false)).
  { intros x Hx. assert (0 <= IZR x <= 20) by (split; apply IZR_le; lia).
    destruct (C77_decay (f_of_Z 14912) (f_of_Z 3727) (f_of_Z 11178) (f_of_Z x)) as (A & A' & _);
      try (apply B; lia || lra).
    rewrite !f_of_Z_R in A, A' by lia. split; intros Q; [apply A|apply A'];
    [replace (3727 + 11178 + IZR x) with (14905 + IZR x) by lra|replace (3727 + 11178 + IZR x) with (14905 + IZR x) by lra]; assumption. }
  split; apply D; lia || lra.
Qed.

Print Assumptions C77_reaction.
Print Assumptions C77_decay.
Print Assumptions C77_decay_calculated.
