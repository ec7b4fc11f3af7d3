(** P_Frequency.v -- C94: how often a sampled value comes up, in binary64.

    numpy's Generator.random is k * 2^-53 for a whole number k of [0, 2^53), every k equally likely.
    Probabilities of what one draw decides are therefore numbers of k, over 2^53. *)
From Coq Require Import ZArith Reals Lia Lra List.
From Flocq Require Import Core BinarySingleNaN.
From Verif Require P_Simulator.
From Verif Require Import Base F64 F64Bounds Num P_KinF64 Sampling SamplingF64 KinFile P_KinFile P_SamplingF64.
Import ListNotations.
Local Open Scope R_scope.

(** ** Specification *)

(** The draw that belongs to [k]. *)
Definition unit_of (k : Z) : f64 := f_of_ZE k (-53).
(** A generator that is about to make these draws. *)
Definition stream (ks : list Z) : f64 * list Z :=
  match ks with [] => (unit_of 0, []) | k :: ks' => (unit_of k, ks') end.
(** Out of the 2^53 first draws, before the [rest], how many make the result one of [P]. *)
Definition hits {A} (m : @rand (list Z) A) (rest : list Z) (P : A -> bool) : Z :=
  Z.of_nat (length (filter (fun k => match fst (m (k :: rest)) with Ok a => P a | Err _ => false end) (zrange 0 (2 ^ 53)))).
Definition probability {A} (m : @rand (list Z) A) (rest : list Z) (P : A -> bool) : R := IZR (hits m rest P) / 2 ^ 53.

(** ** Counting *)
Definition tally (N : Z) (P : Z -> bool) : Z := Z.of_nat (length (filter P (zrange 0 N))).

Lemma tally_step N P : (0 <= N)%Z -> tally (N + 1) P = (tally N P + if P N then 1 else 0)%Z.
Proof.
  intros H. unfold tally. rewrite zrange_snoc by lia. rewrite filter_app, app_length. cbn [filter]. destruct (P N); cbn [length]; lia.
Qed.
Lemma tally_0 P : tally 0 P = 0%Z.
Proof. reflexivity. Qed.

Lemma tally_between P N : (0 <= N)%Z -> forall a b, (0 <= a <= b)%Z -> (b <= N)%Z ->
  (forall k, (0 <= k < a)%Z -> P k = true) -> (forall k, (b <= k < N)%Z -> P k = false) -> (a <= tally N P <= b)%Z.
Proof.
  intros HN. pattern N. apply natlike_ind; [|clear N HN; intros N HN IH|exact HN].
  - intros a b A B _ _. rewrite tally_0. lia.
  - intros a b A B T F. rewrite <- Z.add_1_r, tally_step by exact HN. destruct (Z.eq_dec b (N + 1)) as [->|Nb].
    + destruct (Z.eq_dec a (N + 1)) as [->|Na].
      * rewrite (T N ltac:(lia)). destruct (IH N N ltac:(lia) ltac:(lia)) as (X & Y); [intros k K; apply T; lia|intros k K; lia|lia].
      * destruct (IH a N ltac:(lia) ltac:(lia)) as (X & Y); [exact T|intros k K; lia|]. destruct (P N); lia.
    + rewrite (F N ltac:(lia)). destruct (IH a b A ltac:(lia)) as (X & Y); [exact T|intros k K; apply F; lia|]. lia.
Qed.

Lemma tally_not P N : (0 <= N)%Z -> tally N (fun k => negb (P k)) = (N - tally N P)%Z.
Proof.
  intros HN. pattern N. apply natlike_ind; [reflexivity|clear N HN; intros N HN IH|exact HN].
  rewrite <- Z.add_1_r, !tally_step, IH by exact HN. destruct (P N); cbn [negb]; lia.
Qed.

Lemma tally_ext P Q N : (0 <= N)%Z -> (forall k, (0 <= k < N)%Z -> P k = Q k) -> tally N P = tally N Q.
Proof.
  intros HN. pattern N. apply natlike_ind; [reflexivity|clear N HN; intros N HN IH|exact HN].
  intros H. rewrite <- Z.add_1_r, !tally_step by exact HN. rewrite IH by (intros k K; apply H; lia). rewrite (H N) by lia. reflexivity.
Qed.

(** Between [a] and [b]. *)
Lemma tally_range a b N : (0 <= a <= b)%Z -> (b <= N)%Z -> tally N (fun k => (a <=? k) && (k <? b))%Z = (b - a)%Z.
Proof.
  intros A. assert (HN : (0 <= N - b \/ N < b)%Z) by lia. destruct HN as [HN|]; [|lia]. intros _.
  assert (G : forall n, (0 <= n)%Z -> forall M, (M = n)%Z -> tally M (fun k => (a <=? k) && (k <? b))%Z = Z.max 0 (Z.min M b - a)).
  { intros n Hn. pattern n. apply natlike_ind; [|clear n Hn; intros n Hn IH|exact Hn].
    - intros M ->. rewrite tally_0. lia.
    - intros M ->. rewrite <- Z.add_1_r, tally_step, (IH n eq_refl) by exact Hn.
      destruct ((a <=? n) && (n <? b))%Z eqn:E; [apply andb_prop in E as (E1 & E2); lia|]. apply Bool.andb_false_iff in E as [E|E]; lia. }
  rewrite (G N ltac:(lia) N eq_refl). lia.
Qed.

(** A condition that holds up to about [t] of the way. *)
Lemma tally_band N P t e : (1 <= N)%Z -> 0 <= t <= 1 -> 0 <= e ->
  (forall k, (0 <= k < N)%Z -> IZR k / IZR N <= t - e -> P k = true) ->
  (forall k, (0 <= k < N)%Z -> t + e < IZR k / IZR N -> P k = false) ->
  Rabs (IZR (tally N P) / IZR N - t) <= e + / IZR N.
Proof.
  intros HN Ht He T F. assert (PN : 1 <= IZR N) by (apply IZR_le; exact HN).
  set (a := Z.max 0 (Z.min N (Zfloor ((t - e) * IZR N) + 1))). set (b := Z.max a (Z.min N (Zfloor ((t + e) * IZR N) + 1))).
  assert (Q : forall k y, IZR k <= y * IZR N -> IZR k / IZR N <= y).
  { intros k y H. apply Rmult_le_reg_r with (IZR N); [lra|]. unfold Rdiv. rewrite Rmult_assoc, Rinv_l by lra. lra. }
  assert (Q' : forall k y, y * IZR N < IZR k -> y < IZR k / IZR N).
  { intros k y H. apply Rmult_lt_reg_r with (IZR N); [lra|]. unfold Rdiv. rewrite Rmult_assoc, Rinv_l by lra. lra. }
  assert (Mono : ((t - e) * IZR N <= (t + e) * IZR N)) by (apply Rmult_le_compat_r; lra).
  destruct (tally_between P N ltac:(lia) a b) as (La & Lb).
  - unfold b. lia.
  - unfold a, b. lia.
  - intros k K. apply T; [unfold a in K; lia|]. apply Q. apply Rle_trans with (IZR (Zfloor ((t - e) * IZR N))); [apply IZR_le; unfold a in K; lia|apply Zfloor_lb].
  - intros k K. apply F; [unfold b, a in K; lia|]. apply Q'. apply Rlt_le_trans with (1 := Zfloor_ub ((t + e) * IZR N)).
    rewrite <- plus_IZR. apply IZR_le. unfold b in K. lia.
  - assert (Ta : (t - e) * IZR N <= IZR a).
    { unfold a. destruct (Z_le_gt_dec N (Zfloor ((t - e) * IZR N) + 1)) as [C|C].
      - apply Rle_trans with (IZR N); [|apply IZR_le; lia]. rewrite <- (Rmult_1_l (IZR N)) at 2. apply Rmult_le_compat_r; lra.
      - apply Rle_trans with (IZR (Zfloor ((t - e) * IZR N) + 1)); [|apply IZR_le; lia]. rewrite plus_IZR. left. apply Zfloor_ub. }
    assert (Tb : IZR b <= (t + e) * IZR N + 1).
    { assert (E0 : IZR (Zfloor ((t + e) * IZR N) + 1) <= (t + e) * IZR N + 1) by (rewrite plus_IZR; pose proof (Zfloor_lb ((t + e) * IZR N)); lra).
      assert (E1 : 0 <= (t + e) * IZR N) by (apply Rmult_le_pos; lra).
      assert (M1 : (Zfloor ((t - e) * IZR N) <= Zfloor ((t + e) * IZR N))%Z) by (apply Zfloor_le; exact Mono).
      destruct (Z_le_gt_dec (Zfloor ((t + e) * IZR N) + 1) 0) as [C|C].
      - apply Rle_trans with 0; [|lra]. apply IZR_le. unfold b, a. lia.
      - apply Rle_trans with (2 := E0). apply IZR_le. unfold b, a. lia. }
    apply IZR_le in La, Lb. set (x := IZR (tally N P)) in *. set (n := IZR N) in *.
    assert (Ex : x / n - t = (x - t * n) * / n) by (field; lra). rewrite Ex.
    assert (In : 0 < / n) by (apply Rinv_0_lt_compat; lra).
    rewrite Rabs_mult, (Rabs_pos_eq (/ n)) by lra. replace (e + / n) with ((e * n + 1) * / n) by (field; lra).
    apply Rmult_le_compat_r; [lra|]. apply Rabs_le. split; lra.
Qed.

Lemma tally_53 {A} (m : @rand (list Z) A) rest P : hits m rest P = tally (2 ^ 53) (fun k => match fst (m (k :: rest)) with Ok a => P a | Err _ => false end).
Proof. unfold hits, tally. reflexivity. Qed.

Lemma unit_val k : (0 <= k < 2 ^ 53)%Z -> is_finite (unit_of k) = true /\ R64 (unit_of k) = IZR k / 2 ^ 53.
Proof.
  intros K. unfold unit_of, f_of_ZE.
  pose proof (binary_normalize_correct prec64 emax64 _ _ mode_NE k (-53) false) as C.
  cbv zeta in C. cbn [round_mode] in C.
  assert (V : F2R (Float radix2 k (-53)) = IZR k / 2 ^ 53).
  { unfold F2R. cbn [Fnum Fexp]. change (bpow radix2 (-53)) with (/ IZR (2 ^ 53)). unfold Rdiv. f_equal. f_equal. change (2 ^ 53)%Z with 9007199254740992%Z. ring. }
  assert (Fm : fmt64 (F2R (Float radix2 k (-53)))).
  { apply generic_format_FLT. exists (Float radix2 k (-53)); [reflexivity| |].
    - cbn [Fnum]. change (radix2 ^ prec64)%Z with (2 ^ 53)%Z. lia.
    - cbn [Fexp]. unfold SpecFloat.emin, prec64, emax64. lia. }
  assert (Rd : round radix2 (SpecFloat.fexp prec64 emax64) ZnearestE (F2R (Float radix2 k (-53))) = F2R (Float radix2 k (-53))) by (apply rnd64_fmt in Fm; exact Fm).
  assert (Sm : Rabs (F2R (Float radix2 k (-53))) <= 1).
  { rewrite V. assert (0 <= IZR k <= 9007199254740992) by (split; apply IZR_le; lia). assert (P : 2 ^ 53 = 9007199254740992) by ring. rewrite P. apply Rabs_le. lra. }
  set (f := F2R (Float radix2 k (-53))) in *.
  rewrite Rd in C. rewrite Rlt_bool_true in C.
  - destruct C as (E & Fi & _). split; [exact Fi|]. rewrite <- V. exact E.
  - apply Rle_lt_trans with (1 := Sm). change 1 with (bpow radix2 0). apply bpow_lt. reflexivity.
Qed.

Lemma unit_draw_ok k : (0 <= k < 2 ^ 53)%Z -> draw_ok (unit_of k).
Proof.
  intros K. destruct (unit_val k K) as (F & V). split; [exact F|]. rewrite V. assert (P : 2 ^ 53 = 9007199254740992) by ring. rewrite P.
  assert (0 <= IZR k <= 9007199254740991) by (split; apply IZR_le; lia). lra.
Qed.

(** ** numpy's uniform *)
Lemma uniform_close low high v : is_finite low = true -> is_finite high = true -> is_finite (fsub high low) = true ->
  / 2 ^ 900 <= R64 high - R64 low -> draw_ok v ->
  Rabs (R64 (fadd low (fmul (fsub high low) v)) - (R64 low + (R64 high - R64 low) * R64 v)) <= / 2 ^ 50 * (Rabs (R64 low) + Rabs (R64 high)).
Proof.
  intros Fl Fh Fr L (Fv & V).
  assert (P9 : 0 < / 2 ^ 900) by (apply Rinv_0_lt_compat, pow_lt; lra).
  assert (Y : 0 < / 2 ^ 53) by (apply Rinv_0_lt_compat, pow_lt; lra).
  destruct (uniform_value low high v Fl Fh Fr ltac:(lra) (conj Fv V)) as (Fa & _).
  pose proof (fsub_val _ _ Fh Fl Fr) as E. set (d := R64 (fsub high low)) in *.
  assert (D0 : 0 <= d) by (rewrite E; apply rnd64_ge_fmt; [apply generic_format_0|lra]).
  assert (M0 : 0 <= rnd64 (d * R64 v)) by (apply rnd64_ge_fmt; [apply generic_format_0|apply Rmult_le_pos; lra]).
  assert (M1 : rnd64 (d * R64 v) <= d).
  { apply rnd64_le_fmt; [apply fmt64_R|]. rewrite <- (Rmult_1_r d) at 2. apply Rmult_le_compat_l; lra. }
  destruct (fmul_val (fsub high low) v Fr Fv) as (Ep & Fp).
  { fold d. rewrite Rabs_pos_eq by exact M0. eapply Rle_lt_trans; [exact M1|].
    pose proof (big64 (fsub high low)) as B. fold d in B. rewrite Rabs_pos_eq in B by exact D0. exact B. }
  fold d in Ep. pose proof (fadd_fin_val _ _ Fl Fp Fa) as Es. rewrite Es, Ep.
  destruct small_facts as (U0 & U1 & N0 & N1). rewrite eight_u.
  set (D := R64 high - R64 low) in *. set (x := R64 v) in *. set (lo := R64 low) in *.
  pose proof (rnd_err D) as E1. fold D in E. rewrite <- E in E1. rewrite (Rabs_pos_eq D) in E1 by lra.
  pose proof (rnd_err (d * x)) as E2. assert (Dx : 0 <= d * x <= d).
  { split; [apply Rmult_le_pos; lra|]. rewrite <- (Rmult_1_r d) at 2. apply Rmult_le_compat_l; lra. }
  rewrite (Rabs_pos_eq (d * x)) in E2 by lra. set (p := rnd64 (d * x)) in *.
  pose proof (rnd_err (lo + p)) as E3.
  assert (E4 : Rabs (lo + p) <= Rabs lo + p) by (eapply Rle_trans; [apply Rabs_triang|]; rewrite (Rabs_pos_eq p) by lra; lra).
  assert (E5 : D <= Rabs lo + Rabs (R64 high)) by (unfold D, lo; pose proof (Rle_abs (R64 high)); pose proof (Rle_abs (- R64 low)); rewrite Rabs_Ropp in *; lra).
  set (M := Rabs lo + Rabs (R64 high)) in *. assert (Lm : Rabs lo <= M) by (unfold M; pose proof (Rabs_pos (R64 high)); lra).
  assert (T1 : eta <= u * D / 1000000).
  { assert (eta <= u * / 2 ^ 900 / 1000000).
    { Transparent u eta. unfold eta, u. Opaque u eta. replace (2 ^ 1000) with (2 ^ 900 * (2 ^ 53 * 2 ^ 47)) by (rewrite <- !pow_add; reflexivity).
      assert (P47 : 2 ^ 47 = 140737488355328) by ring. pose proof (pow_lt 2 900 ltac:(lra)). pose proof (pow_lt 2 53 ltac:(lra)). rewrite P47.
      rewrite !Rinv_mult. set (i9 := / 2 ^ 900) in *. set (i5 := / 2 ^ 53) in *. assert (0 < i9 * i5) by (apply Rmult_lt_0_compat; assumption).
      replace (i9 * (i5 * / 140737488355328)) with (i9 * i5 * / 140737488355328) by ring. replace (i5 * i9 / 1000000) with (i9 * i5 * / 1000000) by (unfold Rdiv; ring).
      apply Rmult_le_compat_l; lra. }
    apply Rle_trans with (1 := H). apply Rmult_le_compat_r; [lra|]. apply Rmult_le_compat_l; lra. }
  assert (UD : u * D <= u * M) by (apply Rmult_le_compat_l; lra).
  assert (D2 : d <= 101 / 100 * D).
  { apply Rabs_le_inv in E1. assert (u * D <= / 1000 * D) by (apply Rmult_le_compat_r; lra). lra. }
  assert (F1 : u * (d * x) <= u * (101 / 100 * D)) by (apply Rmult_le_compat_l; lra).
  assert (F2 : u * Rabs (lo + p) <= u * (M + 101 / 100 * D)) by (apply Rmult_le_compat_l; lra).
  assert (F3 : Rabs (d * x - D * x) <= u * D + eta).
  { replace (d * x - D * x) with ((d - D) * x) by ring. rewrite Rabs_mult, (Rabs_pos_eq x) by lra. rewrite <- (Rmult_1_r (u * D + eta)).
    apply Rmult_le_compat; try apply Rabs_pos; lra. }
  replace (rnd64 (lo + p) - (lo + D * x)) with ((rnd64 (lo + p) - (lo + p)) + (p - d * x) + (d * x - D * x)) by ring.
  apply Rle_trans with (Rabs (rnd64 (lo + p) - (lo + p)) + Rabs (p - d * x) + Rabs (d * x - D * x)).
  { eapply Rle_trans; [apply Rabs_triang|]. apply Rplus_le_compat_r, Rabs_triang. }
  lra.
Qed.

(** C94: the value is at most [x] with the probability that a uniform distribution gives it. *)
Theorem C94_uniform low high x rest : interval low high -> / 2 ^ 900 <= R64 high - R64 low -> R64 low <= x <= R64 high ->
  Rabs (probability (uniform64 stream low high) rest (fun v => Rle_bool (R64 v) x) - (x - R64 low) / (R64 high - R64 low))
  <= / 2 ^ 50 * ((Rabs (R64 low) + Rabs (R64 high)) / (R64 high - R64 low)) + / 2 ^ 53.
Proof.
  intros (Fl & Fh & Fr & L) Hd Hx. assert (P9 : 0 < / 2 ^ 900) by (apply Rinv_0_lt_compat, pow_lt; lra).
  set (D := R64 high - R64 low) in *. set (M := Rabs (R64 low) + Rabs (R64 high)).
  assert (P53 : IZR (2 ^ 53) = 2 ^ 53) by (change (2 ^ 53)%Z with 9007199254740992%Z; ring).
  assert (N : fltb high low = false) by (rewrite fltb_R by assumption; now apply Rlt_bool_false).
  assert (I50 : 0 < / 2 ^ 50) by (apply Rinv_0_lt_compat, pow_lt; lra).
  assert (Mp : 0 <= M) by (unfold M; pose proof (Rabs_pos (R64 low)); pose proof (Rabs_pos (R64 high)); lra).
  assert (Di : 0 < / D) by (apply Rinv_0_lt_compat; lra).
  unfold probability. rewrite tally_53, <- P53. set (q := / 2 ^ 50) in *.
  apply tally_band; [lia| | | |].
  - split; [apply Rmult_le_pos; lra|]. apply Rmult_le_reg_r with D; [lra|]. unfold Rdiv. rewrite Rmult_assoc, Rinv_l by lra. unfold D. lra.
  - apply Rmult_le_pos; [lra|]. apply Rmult_le_pos; lra.
  - intros k K Hk. unfold uniform64, rbind, random64. rewrite Fr, N. cbn [negb orb stream ret fst]. apply Rle_bool_true.
    pose proof (uniform_close low high (unit_of k) Fl Fh Fr Hd (unit_draw_ok k K)) as C. apply Rabs_le_inv in C. fold D M q in C.
    rewrite (proj2 (unit_val k K)), <- P53 in C. set (y := IZR k / IZR (2 ^ 53)) in *.
    apply Rmult_le_compat_l with (r := D) in Hk; [|lra].
    replace (D * ((x - R64 low) / D - q * (M / D))) with (x - R64 low - q * M) in Hk by (field; lra). lra.
  - intros k K Hk. unfold uniform64, rbind, random64. rewrite Fr, N. cbn [negb orb stream ret fst]. apply Rle_bool_false.
    pose proof (uniform_close low high (unit_of k) Fl Fh Fr Hd (unit_draw_ok k K)) as C. apply Rabs_le_inv in C. fold D M q in C.
    rewrite (proj2 (unit_val k K)), <- P53 in C. set (y := IZR k / IZR (2 ^ 53)) in *.
    apply Rmult_lt_compat_l with (r := D) in Hk; [|lra].
    replace (D * ((x - R64 low) / D + q * (M / D))) with (x - R64 low + q * M) in Hk by (field; lra). lra.
Qed.

(** ** Polar angles *)
Lemma cos_lipschitz a b : Rabs (cos a - cos b) <= Rabs (a - b).
Proof.
  assert (S : forall x, Rabs (sin x) <= Rabs x).
  { intros x. destruct (Rtotal_order x 0) as [L|[->|L]].
    - rewrite <- (Rabs_Ropp (sin x)), <- sin_neg, <- (Rabs_Ropp x). pose proof (sin_lt_x (- x) ltac:(lra)). rewrite (Rabs_pos_eq (- x)) by lra.
      apply Rabs_le. split; [|lra]. destruct (Rle_or_lt (- x) PI) as [Q|Q]; [pose proof (sin_ge_0 (- x) ltac:(lra) Q); lra|].
      pose proof (SIN_bound (- x)). pose proof PI2_3_2. lra.
    - rewrite sin_0. lra.
    - pose proof (sin_lt_x x L). rewrite (Rabs_pos_eq x) by lra. apply Rabs_le. split; [|lra].
      destruct (Rle_or_lt x PI) as [Q|Q]; [pose proof (sin_ge_0 x ltac:(lra) Q); lra|]. pose proof (SIN_bound x). pose proof PI2_3_2. lra. }
  rewrite form2, !Rabs_mult. rewrite (Rabs_left (-2)) by lra.
  assert (B : Rabs (sin ((a + b) / 2)) <= 1) by (apply Rabs_le; pose proof (SIN_bound ((a + b) / 2)); lra).
  pose proof (S ((a - b) / 2)) as C. pose proof (Rabs_pos (sin ((a - b) / 2))) as P0. pose proof (Rabs_pos (sin ((a + b) / 2))) as P1.
  assert (H : Rabs ((a - b) / 2) = Rabs (a - b) / 2) by (unfold Rdiv; rewrite Rabs_mult, (Rabs_pos_eq (/ 2)) by lra; reflexivity). rewrite H in C.
  assert (Rabs (sin ((a - b) / 2)) * Rabs (sin ((a + b) / 2)) <= Rabs (a - b) / 2 * 1) by (apply Rmult_le_compat; lra). lra.
Qed.

(** C94: PolarUniform is uniform in the cosine: the angle is below [t] with the probability of the
    solid angle below [t], for an arccos that is accurate to [ea]. *)
Theorem C94_polar cos64 acos64 sum_is_one amin amax ea t rest :
  P_SamplingF64.within (-1) 1 (cos64 amin) -> P_SamplingF64.within (-1) 1 (cos64 amax) ->
  (forall c, P_SamplingF64.within (-1) 1 c -> Rabs (R64 (acos64 c) - acos (R64 c)) <= ea) ->
  let ca := R64 (cos64 amin) in let cb := R64 (cos64 amax) in
  / 2 ^ 900 <= ca - cb -> 0 <= t <= PI -> cb <= cos t <= ca ->
  Rabs (probability (sample_polar64 stream cos64 acos64 sum_is_one (PolarUniform64 amin amax)) rest (fun th => Rlt_bool (R64 th) t) - (ca - cos t) / (ca - cb))
  <= (ea + / 2 ^ 49) / (ca - cb) + / 2 ^ 53.
Proof.
  intros (Fa & Ba) (Fb & Bb) Hac ca cb Hd Ht Hc. fold ca in Ba. fold cb in Bb.
  assert (P9 : 0 < / 2 ^ 900) by (apply Rinv_0_lt_compat, pow_lt; lra).
  assert (I49 : 0 < / 2 ^ 49) by (apply Rinv_0_lt_compat, pow_lt; lra).
  assert (Ea : 0 <= ea) by (specialize (Hac (cos64 amin) (conj Fa Ba)); pose proof (Rabs_pos (R64 (acos64 (cos64 amin)) - acos (R64 (cos64 amin)))); lra).
  assert (Fr : is_finite (fsub (cos64 amin) (cos64 amax)) = true).
  { destruct (fsub_fin (cos64 amin) (cos64 amax) 1) as (_ & Q); auto; [lia|]. fold ca cb. change (b2 1) with 2. apply Rabs_le. lra. }
  assert (P53 : IZR (2 ^ 53) = 2 ^ 53) by (change (2 ^ 53)%Z with 9007199254740992%Z; ring).
  assert (P49 : / 2 ^ 49 = 2 * / 2 ^ 50) by lra.
  assert (N : fltb (cos64 amin) (cos64 amax) = false) by (rewrite fltb_R by assumption; apply Rlt_bool_false; fold ca cb; lra).
  set (D := ca - cb) in *. assert (Di : 0 < / D) by (apply Rinv_0_lt_compat; lra).
  set (P := fun k : Z => match fst (sample_polar64 stream cos64 acos64 sum_is_one (PolarUniform64 amin amax) (k :: rest)) with Ok th => Rlt_bool (R64 th) t | Err _ => false end).
  unfold probability. rewrite tally_53. fold P. rewrite <- P53.
  set (t' := (cos t - cb) / D). set (e := (ea + / 2 ^ 49) / D).
  (* the value of a draw *)
  assert (Val : forall k, (0 <= k < 2 ^ 53)%Z -> exists c, P_SamplingF64.within (-1) 1 c /\ P k = Rlt_bool (R64 (acos64 c)) t /\
    Rabs (R64 c - (cb + D * (IZR k / IZR (2 ^ 53)))) <= / 2 ^ 49).
  { intros k K. exists (fadd (cos64 amax) (fmul (fsub (cos64 amin) (cos64 amax)) (unit_of k))).
    destruct (uniform_value (cos64 amax) (cos64 amin) (unit_of k) Fb Fa Fr ltac:(fold ca cb; lra) (unit_draw_ok k K)) as (Fx & Bx). fold ca cb in Bx.
    split; [split; [exact Fx|lra]|]. split.
    - unfold P. cbn [sample_polar64]. unfold rbind at 1. unfold uniform64, rbind, random64. rewrite Fr, N. cbn [negb orb stream ret fst]. reflexivity.
    - pose proof (uniform_close (cos64 amax) (cos64 amin) (unit_of k) Fb Fa Fr Hd (unit_draw_ok k K)) as C. fold ca cb D in C.
      rewrite (proj2 (unit_val k K)), <- P53 in C. apply Rle_trans with (1 := C). rewrite P49, Rmult_comm.
      apply Rmult_le_compat_r; [lra|]. assert (Rabs cb <= 1) by (apply Rabs_le; lra). assert (Rabs ca <= 1) by (apply Rabs_le; lra). lra. }
  assert (B : Rabs (IZR (tally (2 ^ 53) (fun k => negb (P k))) / IZR (2 ^ 53) - t') <= e + / IZR (2 ^ 53)).
  { apply tally_band; [lia| | | |].
    - unfold t'. split; [apply Rmult_le_pos; lra|]. apply Rmult_le_reg_r with D; [lra|]. unfold Rdiv. rewrite Rmult_assoc, Rinv_l by lra. unfold D. lra.
    - unfold e. apply Rmult_le_pos; lra.
    - intros k K Hk. destruct (Val k K) as (c & Wc & -> & C). rewrite Rlt_bool_false; [reflexivity|].
      specialize (Hac c Wc). destruct Wc as (_ & Wc). apply Rabs_le_inv in C, Hac. set (y := IZR k / IZR (2 ^ 53)) in *. apply Rmult_le_compat_l with (r := D) in Hk; [|lra].
      replace (D * (t' - e)) with (cos t - cb - (ea + / 2 ^ 49)) in Hk by (unfold t', e; set (q := / 2 ^ 49); field; lra).
      assert (Lc : R64 c <= cos t - ea) by lra. pose proof (acos_bound (R64 c)) as Ab.
      destruct (Rle_or_lt (t + ea) (acos (R64 c))) as [Q|Q]; [lra|exfalso].
      destruct (Rle_or_lt (acos (R64 c)) t) as [Q1|Q1].
      + assert (X : cos t <= cos (acos (R64 c))) by (apply cos_decr_1; lra). rewrite cos_acos in X by lra.
        assert (ea = 0) by lra. assert (Y : R64 c = cos t) by lra. rewrite Y, acos_cos in Q by lra. lra.
      + pose proof (cos_lipschitz (acos (R64 c)) t) as X. rewrite cos_acos in X by lra. rewrite (Rabs_pos_eq (acos (R64 c) - t)) in X by lra. apply Rabs_le_inv in X. lra.
    - intros k K Hk. destruct (Val k K) as (c & Wc & -> & C). rewrite Rlt_bool_true; [reflexivity|].
      specialize (Hac c Wc). destruct Wc as (_ & Wc). apply Rabs_le_inv in C, Hac. set (y := IZR k / IZR (2 ^ 53)) in *. apply Rmult_lt_compat_l with (r := D) in Hk; [|lra].
      replace (D * (t' + e)) with (cos t - cb + (ea + / 2 ^ 49)) in Hk by (unfold t', e; set (q := / 2 ^ 49); field; lra).
      assert (Lc : cos t + ea < R64 c) by lra. pose proof (acos_bound (R64 c)) as Ab.
      destruct (Rlt_or_le (acos (R64 c)) (t - ea)) as [Q|Q]; [lra|exfalso].
      destruct (Rle_or_lt t (acos (R64 c))) as [Q1|Q1].
      + assert (X : cos (acos (R64 c)) <= cos t) by (apply cos_decr_1; lra). rewrite cos_acos in X by lra. lra.
      + pose proof (cos_lipschitz (acos (R64 c)) t) as X. rewrite cos_acos in X by lra. rewrite (Rabs_left (acos (R64 c) - t)) in X by lra. apply Rabs_le_inv in X. lra. }
  rewrite tally_not in B by lia. rewrite minus_IZR in B.
  assert (Nz : 0 < IZR (2 ^ 53)) by (apply IZR_lt; lia).
  assert (E1 : (ca - cos t) / D = 1 - t') by (unfold t', D; field; fold D; lra).
  rewrite E1. revert B Nz. generalize (IZR (tally (2 ^ 53) P)) (IZR (2 ^ 53)). clear. intros x n B Nz.
  replace ((n - x) / n - t') with (- (x / n - (1 - t'))) in B by (field; lra).
  rewrite Rabs_Ropp in B. exact B.
Qed.

(** ** Tables of probabilities *)
Definition sum64 (p : list f64) : R := fold_right (fun x s => R64 x + s) 0 p.

Lemma cumsum_close p : forall acc A e, is_finite acc = true -> 0 <= R64 acc -> Rabs (R64 acc - A) <= e -> 0 <= A ->
  e + 5 * u * INR (length p) <= / 100 -> A + sum64 p <= 11 / 10 ->
  Forall (fun x : f64 => is_finite x = true /\ 0 <= R64 x <= 1) p ->
  forall i c, nth_error (cumsum64 acc p) i = Some c ->
    is_finite c = true /\ 0 <= R64 c /\ Rabs (R64 c - (A + sum64 (firstn (S i) p))) <= e + 5 * u * INR (S i).
Proof.
  destruct small_facts as (U0 & U1 & N0 & N1).
  induction p as [|x p IH]; intros acc A e Fa Pa Ca PA Le Ls F i c Nc; [destruct i; discriminate Nc|].
  apply Forall_inv in F as Fx. apply Forall_inv_tail in F as Fp. destruct Fx as (Fx & Bx). cbn [cumsum64] in Nc. cbn [sum64 fold_right] in Ls. fold (sum64 p) in Ls.
  assert (Sp : 0 <= sum64 p).
  { clear - Fp. induction Fp as [|y p (_ & Y) Fp IH]; cbn [sum64 fold_right]; [lra|]. fold (sum64 p). lra. }
  cbn [length] in Le. rewrite S_INR in Le. pose proof (pos_INR (length p)) as Lp. pose proof (Rabs_pos (R64 acc - A)) as E0.
  assert (Un : 0 <= u * INR (length p)) by (apply Rmult_le_pos; lra).
  apply Rabs_le_inv in Ca as Ca'.
  destruct (fadd_fin acc x 2 Fa Fx ltac:(lia)) as (Es & Fs).
  { change (b2 2) with 4. apply Rabs_le. lra. }
  pose proof (rnd_bound (R64 acc + R64 x) 4 ltac:(apply Rabs_le; lra)) as Er. rewrite <- Es in Er. apply Rabs_le_inv in Er.
  assert (P1 : 0 <= R64 (fadd acc x)) by (rewrite Es; apply rnd64_ge_fmt; [apply generic_format_0|lra]).
  assert (C1 : Rabs (R64 (fadd acc x) - (A + R64 x)) <= e + 5 * u) by (apply Rabs_le; lra).
  destruct i as [|i]; cbn [nth_error] in Nc.
  - assert (c = fadd acc x) by congruence. subst c. split; [exact Fs|]. split; [exact P1|]. cbn [firstn sum64 fold_right]. rewrite Rplus_0_r. cbn [INR]. lra.
  - destruct (IH (fadd acc x) (A + R64 x) (e + 5 * u) Fs P1 C1 ltac:(lra) ltac:(lra) ltac:(lra) Fp i c Nc) as (Fc & Pc & Cc). split; [exact Fc|]. split; [exact Pc|].
    change (firstn (S (S i)) (x :: p)) with (x :: firstn (S i) p). cbn [sum64 fold_right]. fold (sum64 (firstn (S i) p)).
    rewrite (S_INR (S i)). replace (A + (R64 x + sum64 (firstn (S i) p))) with (A + R64 x + sum64 (firstn (S i) p)) by ring. lra.
Qed.

Lemma sum64_split p i x : nth_error p i = Some x -> sum64 (firstn (S i) p) = sum64 (firstn i p) + R64 x.
Proof.
  revert i. induction p as [|y p IH]; intros [|i] N; try discriminate N; cbn [nth_error] in N.
  - assert (y = x) by congruence. subst. cbn [firstn sum64 fold_right]. lra.
  - specialize (IH i N). change (firstn (S (S i)) (y :: p)) with (y :: firstn (S i) p). change (firstn (S i) (y :: p)) with (y :: firstn i p).
    cbn [sum64 fold_right]. fold (sum64 (firstn (S i) p)) (sum64 (firstn i p)). lra.
Qed.

Lemma sum64_part p i : Forall (fun x : f64 => is_finite x = true /\ 0 <= R64 x <= 1) p -> 0 <= sum64 (firstn i p) <= sum64 p.
Proof.
  intros F. revert i. induction F as [|y p (_ & Y) Fp IH]; intros [|i]; cbn [firstn sum64 fold_right]; try lra.
  - fold (sum64 p). specialize (IH 0%nat). cbn [firstn sum64 fold_right] in IH. fold (sum64 p) in IH. lra.
  - fold (sum64 p) (sum64 (firstn i p)). specialize (IH i). lra.
Qed.

(** The cumulative distribution of the table. *)
Lemma cdf_close p i c : Forall (fun x : f64 => is_finite x = true /\ 0 <= R64 x <= 1) p -> (Z.of_nat (length p) <= 2 ^ 40)%Z ->
  9 / 10 <= sum64 p <= 11 / 10 -> nth_error (cdf64 p) i = Some c ->
  0 <= R64 c /\ Rabs (R64 c - sum64 (firstn (S i) p) / sum64 p) <= (13 * INR (length p) + 2) * u.
Proof.
  intros F Ln Hs Nc. destruct small_facts as (U0 & U1 & N0 & N1). destruct p as [|x p]; [destruct i; discriminate Nc|].
  assert (Un : 5 * u * INR (length (x :: p)) <= / 100).
  { rewrite INR_IZR_INZ. apply IZR_le in Ln. change (IZR (2 ^ 40)) with 1099511627776 in Ln.
    apply Rle_trans with (5 * / 1000000000000000 * 1099511627776); [|lra]. apply Rmult_le_compat; [lra|apply IZR_le; lia|lra|exact Ln]. }
  pose proof F as F'. apply Forall_inv_tail in F as Fp. apply Forall_inv in F as (Fx & Bx).
  set (n := INR (length (x :: p))) in *. assert (N0' : 1 <= n) by (unfold n; cbn [length]; rewrite S_INR; pose proof (pos_INR (length p)); lra).
  set (S := sum64 (x :: p)) in *. set (E := 5 * u * n).
  set (cs := x :: cumsum64 x p).
  assert (Cl : forall j y, nth_error cs j = Some y -> is_finite y = true /\ 0 <= R64 y /\ Rabs (R64 y - sum64 (firstn (Datatypes.S j) (x :: p))) <= E).
  { intros [|j] y Ny; cbn [cs nth_error] in Ny.
    - assert (y = x) by congruence. subst y. split; [exact Fx|]. split; [lra|]. cbn [firstn sum64 fold_right]. rewrite Rplus_0_r, Rminus_eq_0, Rabs_R0. unfold E. apply Rmult_le_pos; lra.
    - assert (Lj : (j < length p)%nat).
      { assert (length (cumsum64 x p) = length p) by (clear; revert x; induction p as [|z p IH]; intros x; cbn [cumsum64 length]; [reflexivity|now rewrite IH]).
        rewrite <- H. apply nth_error_Some. congruence. }
      assert (Nj : INR (Datatypes.S j) + 1 <= n) by (unfold n; cbn [length]; rewrite (S_INR (length p)); apply Rplus_le_compat_r; apply le_INR; lia).
      destruct (cumsum_close p x (R64 x) 0 Fx ltac:(lra) ltac:(rewrite Rminus_eq_0, Rabs_R0; lra) ltac:(lra)) with (i := j) (c := y) as (Fy & Py & Cy); try assumption.
      + rewrite Rplus_0_l. apply Rle_trans with (2 := Un). apply Rmult_le_compat_l; [lra|]. unfold n. cbn [length]. rewrite S_INR. lra.
      + unfold S in Hs. cbn [sum64 fold_right] in Hs. fold (sum64 p) in Hs. lra.
      + split; [exact Fy|]. split; [exact Py|]. change (firstn (Datatypes.S (Datatypes.S j)) (x :: p)) with (x :: firstn (Datatypes.S j) p). cbn [sum64 fold_right]. fold (sum64 (firstn (Datatypes.S j) p)).
        rewrite Rplus_0_l in Cy. apply Rle_trans with (1 := Cy). unfold E. apply Rmult_le_compat_l; lra. }
  assert (Lc : length cs = Datatypes.S (length p)) by (unfold cs; cbn [length]; f_equal; clear; revert x; induction p as [|z p IH]; intros x; cbn [cumsum64 length]; [reflexivity|now rewrite IH]).
  assert (Nl : nth_error cs (length p) = Some (last cs x)).
  { clear - Lc. assert (cs <> []) by (unfold cs; discriminate). destruct (exists_last H) as (l & z & Q). rewrite Q in *.
    rewrite last_last. rewrite app_length in Lc. cbn [length] in Lc. replace (length p) with (length l) by lia.
    rewrite nth_error_app2, Nat.sub_diag by lia. reflexivity. }
  destruct (Cl _ _ Nl) as (Ft & Pt & Ct). replace (firstn (Datatypes.S (length p)) (x :: p)) with (x :: p) in Ct by (symmetry; apply (firstn_all (x :: p))). fold S in Ct.
  change (cdf64 (x :: p)) with (map (fun y => fdiv y (last cs x)) cs) in Nc. set (t := last cs x) in *.
  rewrite nth_error_map in Nc. destruct (nth_error cs i) as [y|] eqn:Ny; [|discriminate Nc]. cbn [option_map] in Nc.
  assert (Ec : c = fdiv y t) by congruence. subst c. destruct (Cl i y Ny) as (Fy & Py & Cy).
  destruct (sum64_part (x :: p) (Datatypes.S i) F') as (A0 & A1). fold S in A1. set (Si := sum64 (firstn (Datatypes.S i) (x :: p))) in *.
  assert (E1 : 0 <= E <= / 100) by (unfold E; split; [apply Rmult_le_pos; lra|lra]).
  apply Rabs_le_inv in Ct, Cy. assert (It : / R64 t <= / (88 / 100)) by (apply Rinv_le_contravar; lra). assert (I0 : 0 < / R64 t) by (apply Rinv_0_lt_compat; lra).
  assert (Q0 : 0 <= R64 y / R64 t <= 13 / 10).
  { split; [apply Rmult_le_pos; lra|]. apply Rle_trans with (112 / 100 * / (88 / 100)); [apply Rmult_le_compat; lra|lra]. }
  destruct (fdiv_fin y t 1 Fy ltac:(lra) ltac:(lia)) as (Ev & _); [change (b2 1) with 2; rewrite Rabs_pos_eq; lra|]. rewrite Ev.
  split; [apply rnd64_ge_fmt; [apply generic_format_0|lra]|].
  pose proof (rnd_bound (R64 y / R64 t) (13 / 10) ltac:(rewrite Rabs_pos_eq; lra)) as Er. set (q := R64 y / R64 t) in *.
  assert (IS : 0 < / S <= 10 / 9) by (split; [apply Rinv_0_lt_compat; lra|replace (10 / 9) with (/ (9 / 10)) by lra; apply Rinv_le_contravar; lra]).
  assert (Eq : q - Si / S = (R64 y - Si + q * (S - R64 t)) * / S) by (unfold q; field; lra).
  assert (B1 : Rabs (q * (S - R64 t)) <= 13 / 10 * E).
  { rewrite Rabs_mult, (Rabs_pos_eq q) by lra. apply Rmult_le_compat; [lra|apply Rabs_pos|lra|apply Rabs_le; lra]. }
  assert (B2 : Rabs (q - Si / S) <= (23 / 10 * E) * (10 / 9)).
  { rewrite Eq, Rabs_mult, (Rabs_pos_eq (/ S)) by lra. apply Rmult_le_compat; [apply Rabs_pos|lra| |lra].
    eapply Rle_trans; [apply Rabs_triang|]. assert (Rabs (R64 y - Si) <= E) by (apply Rabs_le; lra). lra. }
  replace (rnd64 q - Si / S) with ((rnd64 q - q) + (q - Si / S)) by ring. eapply Rle_trans; [apply Rabs_triang|].
  assert (E * (23 / 9) <= 13 * n * u).
  { unfold E. replace (5 * u * n * (23 / 9)) with (u * n * (115 / 9)) by (field; lra). replace (13 * n * u) with (u * n * 13) by ring.
    apply Rmult_le_compat_l; [apply Rmult_le_pos; lra|lra]. }
  lra.
Qed.

(** The number of entries up to [v], in a growing list. *)
Lemma count_le (l : list f64) (v : f64) j b :
  (forall i j a b, (i <= j)%nat -> nth_error l i = Some a -> nth_error l j = Some b -> R64 a <= R64 b) ->
  Forall (fun x : f64 => is_finite x = true) l -> is_finite v = true -> nth_error l j = Some b ->
  (length (filter (fun c => fleb c v) l) <= j)%nat <-> R64 v < R64 b.
Proof.
  intros M F Fv Nb.
  assert (A : forall k, Forall (fun x : f64 => is_finite x = true) k -> (forall y, In y k -> R64 v < R64 y) -> filter (fun c => fleb c v) k = []).
  { induction k as [|y k IH]; intros Fk H; [reflexivity|]. inversion Fk; subst. cbn [filter]. rewrite fleb_R by assumption.
    rewrite Rle_bool_false by (apply H; now left). apply IH; [assumption|]. intros z I. apply H. now right. }
  assert (B : forall k, Forall (fun x : f64 => is_finite x = true) k -> (forall y, In y k -> R64 y <= R64 v) -> filter (fun c => fleb c v) k = k).
  { induction k as [|y k IH]; intros Fk H; [reflexivity|]. inversion Fk; subst. cbn [filter]. rewrite fleb_R by assumption.
    rewrite Rle_bool_true by (apply H; now left). f_equal. apply IH; [assumption|]. intros z I. apply H. now right. }
  assert (Lj : (j < length l)%nat) by (apply nth_error_Some; congruence).
  assert (NF : forall n y, In y (firstn n l) -> exists i, (i < n)%nat /\ nth_error l i = Some y).
  { clear. intros n y I. apply In_nth_error in I as (i & Ni). exists i. assert (i < length (firstn n l))%nat by (apply nth_error_Some; congruence).
    rewrite firstn_length in H. split; [lia|]. revert l i Ni H. induction n as [|n IH]; intros [|z l] [|i] Ni H; cbn in *; try lia; try discriminate; [exact Ni|].
    apply IH; [exact Ni|lia]. }
  assert (NS : forall n y, In y (skipn n l) -> exists i, (n <= i)%nat /\ nth_error l i = Some y).
  { clear. intros n y I. apply In_nth_error in I as (i & Ni). exists (n + i)%nat. split; [lia|]. revert l Ni. induction n as [|n IH]; intros [|z l] Ni; cbn in *; try assumption; [destruct i; discriminate|apply IH; exact Ni]. }
  assert (FF : forall n, Forall (fun x : f64 => is_finite x = true) (firstn n l) /\ Forall (fun x : f64 => is_finite x = true) (skipn n l)).
  { intros n. rewrite <- (firstn_skipn n l) in F. apply Forall_app in F. exact F. }
  split.
  - intros L. destruct (Rlt_or_le (R64 v) (R64 b)) as [|Q]; [assumption|exfalso].
    rewrite <- (firstn_skipn (S j) l), filter_app, app_length, B in L.
    + rewrite firstn_length in L. lia.
    + apply FF.
    + intros y I. destruct (NF _ _ I) as (i & Li & Ni). apply Rle_trans with (2 := Q). apply (M i j); [lia|exact Ni|exact Nb].
  - intros L. rewrite <- (firstn_skipn j l), filter_app, app_length, (A (skipn j l)).
    + cbn [length]. pose proof (firstn_le_length j l) as X. assert (Y : forall k, (length (filter (fun c => fleb c v) k) <= length k)%nat).
      { clear. induction k as [|y k IH]; cbn [filter length]; [lia|]. destruct (fleb y v); cbn [length]; lia. }
      specialize (Y (firstn j l)). lia.
    + apply FF.
    + intros y I. destruct (NS _ _ I) as (i & Li & Ni). apply Rlt_le_trans with (1 := L). apply (M j i); [lia|exact Nb|exact Ni].
Qed.

(** C94: numpy's choice takes an entry with the probability that the table gives it. *)
Theorem C94_table sum_is_one (values probs : list f64) i a p rest :
  length values = length probs -> weights probs -> sum_is_one probs = true -> (Z.of_nat (length probs) <= 2 ^ 40)%Z ->
  9 / 10 <= sum64 probs <= 11 / 10 -> Forall (fun x : f64 => is_finite x = true) values ->
  nth_error values i = Some a -> nth_error probs i = Some p ->
  (forall j b, nth_error values j = Some b -> R64 b = R64 a -> j = i) ->
  Rabs (probability (choice64 stream sum_is_one values probs) rest (fun x => feqb x a) - R64 p / sum64 probs) <= (26 * INR (length probs) + 5) / 2 ^ 53.
Proof.
  intros L W O Ln Hs Fv Na Np Di. pose proof W as (Lw & Wp & Ex).
  assert (P53 : IZR (2 ^ 53) = 2 ^ 53) by (change (2 ^ 53)%Z with 9007199254740992%Z; ring).
  assert (Li : (i < length probs)%nat) by (apply nth_error_Some; congruence).
  destruct (cdf_spec probs W) as (Lc & Fc & Mc & _ & _ & One).
  assert (Ng : existsb (fun x => fltb x (f_of_Z 0)) probs = false).
  { assert (Z0 : R64 (f_of_Z 0) = 0) by (apply (f_of_Z_R 0); lia).
    assert (F0 : is_finite (f_of_Z 0) = true) by (apply f_of_Z_fin; lia).
    clear - Wp Z0 F0. induction Wp as [|x l [Fx Hx] _ IH]; [reflexivity|]. cbn [existsb]. rewrite IH, fltb_R by assumption.
    rewrite Rlt_bool_false by (rewrite Z0; lra). reflexivity. }
  assert (Ci : exists c, nth_error (cdf64 probs) i = Some c) by (destruct (nth_error (cdf64 probs) i) as [c|] eqn:E; [now exists c|apply nth_error_None in E; lia]).
  destruct Ci as (c & Nc).
  (* before the entry *)
  assert (Before : exists b0, 0 <= b0 <= R64 c /\ Rabs (b0 - sum64 (firstn i probs) / sum64 probs) <= (13 * INR (length probs) + 2) * u /\
    forall v, draw_ok v -> (b0 <= R64 v <-> (i <= length (filter (fun c => fleb c v) (cdf64 probs)))%nat)).
  { destruct small_facts as (U0 & _). pose proof (pos_INR (length probs)) as In.
    destruct i as [|i].
    - exists 0. split; [split; [lra|apply (cdf_close probs 0 c Wp Ln Hs Nc)]|]. split.
      + cbn [firstn sum64 fold_right]. unfold Rdiv. rewrite Rmult_0_l, Rminus_0_r, Rabs_R0. apply Rmult_le_pos; lra.
      + intros v (_ & V). split; intros _; [lia|lra].
    - destruct (nth_error (cdf64 probs) i) as [c0|] eqn:N0; [|apply nth_error_None in N0; lia]. exists (R64 c0).
      destruct (cdf_close probs i c0 Wp Ln Hs N0) as (P0 & C0). split; [split; [exact P0|apply (Mc i (S i) c0 c); [lia|exact N0|exact Nc]]|]. split; [exact C0|].
      intros v (Fv' & _). pose proof (count_le (cdf64 probs) v i c0 Mc Fc Fv' N0) as Q. split; intros H.
      + destruct (le_lt_dec (S i) (length (filter (fun c => fleb c v) (cdf64 probs)))) as [|X]; [assumption|exfalso]. assert (X' : (length (filter (fun c => fleb c v) (cdf64 probs)) <= i)%nat) by lia. apply Q in X'. lra.
      + destruct (Rle_or_lt (R64 c0) (R64 v)) as [|X]; [assumption|exfalso]. apply Q in X. lia. }
  destruct Before as (b0 & (B0 & B1) & B2 & B3).
  assert (After : forall v, draw_ok v -> (R64 v < R64 c <-> (length (filter (fun c => fleb c v) (cdf64 probs)) <= i)%nat)).
  { intros v (Fv' & _). symmetry. apply count_le; assumption. }
  assert (C1 : R64 c <= 1).
  { destruct (nth_error (cdf64 probs) (length probs - 1)) as [z|] eqn:Ez; [|apply nth_error_None in Ez; lia].
    rewrite <- (One z eq_refl). apply (Mc i (length probs - 1)%nat); [lia|exact Nc|exact Ez]. }
  set (lo := Zceil (b0 * IZR (2 ^ 53))). set (hi := Zceil (R64 c * IZR (2 ^ 53))).
  assert (Nz : 0 < IZR (2 ^ 53)) by (apply IZR_lt; lia).
  assert (Le : b0 * IZR (2 ^ 53) <= R64 c * IZR (2 ^ 53)) by (apply Rmult_le_compat_r; lra).
  assert (H1 : (0 <= lo <= hi)%Z).
  { split; [|apply Zceil_le; exact Le]. unfold lo. rewrite <- (Zceil_IZR 0). apply Zceil_le. apply Rmult_le_pos; lra. }
  assert (H2 : (hi <= 2 ^ 53)%Z).
  { unfold hi. rewrite <- (Zceil_IZR (2 ^ 53)). apply Zceil_le. rewrite Zceil_IZR. rewrite <- (Rmult_1_l (IZR (2 ^ 53))) at 2. apply Rmult_le_compat_r; lra. }
  assert (Cut : forall k y, (k < Zceil (y * IZR (2 ^ 53)))%Z <-> IZR k / IZR (2 ^ 53) < y).
  { intros k y. revert Nz. generalize (IZR (2 ^ 53)). clear. intros n Nz. split; intros H.
    - apply Rmult_lt_reg_r with n; [exact Nz|]. unfold Rdiv. rewrite Rmult_assoc, Rinv_l, Rmult_1_r by lra.
      destruct (Rlt_or_le (IZR k) (y * n)) as [|X]; [assumption|exfalso]. assert (Zceil (y * n) <= k)%Z by (apply Zceil_glb; exact X). lia.
    - destruct (Z_lt_le_dec k (Zceil (y * n))) as [|X]; [assumption|exfalso]. apply IZR_le in X. pose proof (Zceil_ub (y * n)).
      apply (Rmult_lt_compat_r n) in H; [|exact Nz]. unfold Rdiv in H. rewrite Rmult_assoc, Rinv_l, Rmult_1_r in H by lra. lra. }
  assert (T : hits (choice64 stream sum_is_one values probs) rest (fun x => feqb x a) = (hi - lo)%Z).
  { rewrite tally_53, <- (tally_range lo hi (2 ^ 53) H1 H2). apply tally_ext; [lia|]. intros k K.
    unfold choice64. rewrite L. replace (length probs =? 0)%nat with false by (symmetry; apply Nat.eqb_neq; lia). rewrite Nat.eqb_refl, Ng, O. cbn [negb].
    unfold rbind, random64. cbn [stream].
    destruct (unit_val k K) as (Fk & Vk). pose proof (unit_draw_ok k K) as Dk. specialize (B3 _ Dk). specialize (After _ Dk).
    destruct (choice_place probs (unit_of k) W Dk) as (pk & Npk & _).
    set (j := length (filter (fun c => fleb c (unit_of k)) (cdf64 probs))) in *.
    assert (Lj : (j < length values)%nat) by (rewrite L; apply nth_error_Some; congruence).
    destruct (nth_error values j) as [x|] eqn:Nx; [|apply nth_error_None in Nx; lia]. cbn [ret fst].
    rewrite Forall_forall in Fv. rewrite feqb_R by (apply Fv; eapply nth_error_In; eassumption).
    assert (J : j = i <-> ((lo <= k)%Z /\ (k < hi)%Z)).
    { rewrite <- P53 in Vk. unfold lo, hi. rewrite (Cut k (R64 c)), <- Vk. rewrite After.
      assert (X : (Zceil (b0 * IZR (2 ^ 53)) <= k)%Z <-> (i <= j)%nat).
      { rewrite <- B3, Vk. split; intros H.
        - destruct (Rle_or_lt b0 (IZR k / IZR (2 ^ 53))) as [|Y]; [assumption|exfalso]. apply Cut in Y. lia.
        - destruct (Z_lt_le_dec k (Zceil (b0 * IZR (2 ^ 53)))) as [Y|]; [exfalso; apply Cut in Y; lra|assumption]. }
      rewrite X. lia. }
    destruct (Nat.eq_dec j i) as [Ej|Ej].
    - assert (Ex' : x = a) by congruence. subst x. rewrite Req_bool_true by reflexivity. apply J in Ej as (J1 & J2). symmetry. apply andb_true_intro. split; [apply Z.leb_le|apply Z.ltb_lt]; assumption.
    - rewrite Req_bool_false by (intros X; apply Ej; apply (Di j x Nx X)). symmetry. apply Bool.andb_false_iff.
      destruct (Z_lt_le_dec k lo); [left; apply Z.leb_gt; assumption|]. destruct (Z_lt_le_dec k hi); [exfalso; apply Ej, J; split; assumption|right; apply Z.ltb_ge; assumption]. }
  unfold probability. rewrite T, minus_IZR, <- P53.
  destruct (cdf_close probs i c Wp Ln Hs Nc) as (_ & Cc). rewrite (sum64_split probs i p Np) in Cc.
  set (S0 := sum64 (firstn i probs)) in *. set (S1 := sum64 probs) in *. set (e := (13 * INR (length probs) + 2) * u) in *.
  assert (Cl : forall y, y * IZR (2 ^ 53) <= IZR (Zceil (y * IZR (2 ^ 53))) <= y * IZR (2 ^ 53) + 1).
  { intros y. split; [apply Zceil_ub|]. left. pose proof (Zceil_lb (y * IZR (2 ^ 53))) as X. lra. }
  pose proof (Cl b0) as X0. pose proof (Cl (R64 c)) as X1. fold lo in X0. fold hi in X1.
  replace ((26 * INR (length probs) + 5) / IZR (2 ^ 53)) with (2 * e + / IZR (2 ^ 53)).
  2:{ Transparent u. unfold e, u. Opaque u. rewrite <- P53. revert Nz. generalize (IZR (2 ^ 53)) (INR (length probs)). clear. intros n m Nz. field. lra. }
  revert X0 X1 B2 Cc Nz Hs. clear. generalize (IZR (2 ^ 53)). intros n X0 X1 B2 Cc Nz Hs.
  set (h := IZR hi) in *. set (l := IZR lo) in *. set (d := R64 c) in *. set (q := R64 p) in *. clearbody e.
  assert (Y : (h - l) / n - q / S1 = ((h - l) - (d - b0) * n) * / n + ((d - (S0 + q) / S1) - (b0 - S0 / S1))) by (field; split; lra).
  rewrite Y. eapply Rle_trans; [apply Rabs_triang|].
  assert (I0 : 0 < / n) by (apply Rinv_0_lt_compat; lra).
  assert (Z1 : Rabs ((h - l - (d - b0) * n) * / n) <= / n).
  { rewrite Rabs_mult, (Rabs_pos_eq (/ n)) by lra. rewrite <- (Rmult_1_l (/ n)) at 2. apply Rmult_le_compat_r; [lra|]. apply Rabs_le. split; lra. }
  assert (Z2 : Rabs (d - (S0 + q) / S1 - (b0 - S0 / S1)) <= 2 * e).
  { apply Rabs_le_inv in B2, Cc. apply Rabs_le. lra. }
  lra.
Qed.

(** Hypotheses are met: a quarter of the draws of uniform(0, 1) is up to 1/4 ... *)
Example C94_uniform_example rest :
  Rabs (probability (uniform64 stream (f_of_Z 0) (f_of_Z 1)) rest (fun v => Rle_bool (R64 v) (1 / 4)) - 1 / 4) <= / 2 ^ 49.
Proof.
  assert (R0 : R64 (f_of_Z 0) = 0) by (apply (f_of_Z_R 0); lia). assert (R1 : R64 (f_of_Z 1) = 1) by (apply (f_of_Z_R 1); lia).
  assert (I : / 2 ^ 900 <= 1) by (rewrite <- Rinv_1; apply Rinv_le_contravar; [lra|apply pow_R1_Rle; lra]).
  pose proof (C94_uniform (f_of_Z 0) (f_of_Z 1) (1 / 4) rest) as H. rewrite R0, R1 in H.
  replace ((1 / 4 - 0) / (1 - 0)) with (1 / 4) in H by lra. rewrite Rabs_R0, Rabs_R1 in H.
  eapply Rle_trans; [apply H|].
  - split; [apply f_of_Z_fin; lia|]. split; [apply f_of_Z_fin; lia|]. split; [reflexivity|]. rewrite R0, R1. lra.
  - lra.
  - lra.
  - lra.
Qed.

(** ... a polar angle of [0, 3] is forward with the probability 1/(1 - cos 3), up to rounding ... *)
Example C94_polar_example rest :
  Rabs (probability (sample_polar64 stream cos_r acos_r (fun _ => true) (PolarUniform64 (f_of_Z 0) (f_of_Z 3))) rest (fun th => Rlt_bool (R64 th) (PI / 2))
        - 1 / (1 - rnd64 (cos 3))) <= / 2 ^ 47.
Proof.
  assert (R0 : R64 (f_of_Z 0) = 0) by (apply (f_of_Z_R 0); lia). assert (R3 : R64 (f_of_Z 3) = 3) by (apply (f_of_Z_R 3); lia).
  assert (I : / 2 ^ 900 <= 1) by (rewrite <- Rinv_1; apply Rinv_le_contravar; [lra|apply pow_R1_Rle; lra]).
  assert (S : forall x, Rabs (cos x) <= 4) by (intros x; pose proof (COS_bound x); apply Rabs_le; lra).
  assert (F1 : forall z, (Z.abs z <= 2 ^ 53)%Z -> generic_format radix2 (FLT_exp (-1074) 53) (IZR z)).
  { intros z Hz. rewrite <- (f_of_Z_R z Hz). apply generic_format_B2R. }
  assert (Ca : R64 (cos_r (f_of_Z 0)) = 1).
  { unfold cos_r. rewrite (proj2 (f_of_R_val _ (S _))), R0, cos_0. apply round_generic; [typeclasses eauto|]. apply (F1 1%Z). lia. }
  assert (Cb : R64 (cos_r (f_of_Z 3)) = rnd64 (cos 3)) by (unfold cos_r; rewrite (proj2 (f_of_R_val _ (S _))), R3; reflexivity).
  pose proof PI2_3_2. pose proof PI_4.
  assert (C3 : cos 3 < 0) by (apply cos_lt_0; lra).
  assert (Bb : -1 <= rnd64 (cos 3) <= 0).
  { pose proof (COS_bound 3). split; [apply rnd64_ge_fmt; [apply (F1 (-1)%Z); lia|lra]|].
    rewrite <- (round_0 radix2 (FLT_exp (-1074) 53) ZnearestE). apply rnd64_le. lra. }
  pose proof (C94_polar cos_r acos_r (fun _ => true) (f_of_Z 0) (f_of_Z 3) (/ 2 ^ 50) (PI / 2) rest) as H'.
  cbv zeta in H'. rewrite Ca, Cb, cos_PI2, Rminus_0_r in H'.
  eapply Rle_trans; [apply H'; clear H'|].
  - split; [apply f_of_R_val, S|]. rewrite Ca. lra.
  - split; [apply f_of_R_val, S|]. rewrite Cb. lra.
  - intros c _. unfold acos_r. rewrite (proj2 (f_of_R_val _ (acos_small _))). eapply Rle_trans; [apply rnd_bound, acos_small|]. Transparent u eta. unfold u, eta. Opaque u eta.
    destruct small_facts as (U0 & U1 & N0 & N1). pose proof eta_tiny. lra.
  - lra.
  - lra.
  - lra.
  - clear H'. apply Rle_trans with ((/ 2 ^ 50 + / 2 ^ 49) / 1 + / 2 ^ 53); [|lra]. apply Rplus_le_compat_r. unfold Rdiv. apply Rmult_le_compat_l; [lra|].
    apply Rinv_le_contravar; lra.
Qed.

(** ... and a table with 1/4 and 3/4 gives the second entry three times out of four. *)
Example C94_table_example rest :
  Rabs (probability (choice64 stream (fun _ => true) [f_of_Z 10; f_of_Z 20] [f_of_ZE 1 (-2); f_of_ZE 3 (-2)]) rest (fun x => feqb x (f_of_Z 20)) - 3 / 4) <= / 2 ^ 47.
Proof.
  assert (A : R64 (f_of_ZE 1 (-2)) = 1 / 4) by (rewrite (proj1 (P_Simulator.f_of_ZE_correct 1 (-2) ltac:(lia) ltac:(lia))); change (bpow radix2 (-2)) with (/ 4); lra).
  assert (B : R64 (f_of_ZE 3 (-2)) = 3 / 4) by (rewrite (proj1 (P_Simulator.f_of_ZE_correct 3 (-2) ltac:(lia) ltac:(lia))); change (bpow radix2 (-2)) with (/ 4); lra).
  assert (C : R64 (f_of_Z 10) = 10) by (apply (f_of_Z_R 10); lia). assert (D : R64 (f_of_Z 20) = 20) by (apply (f_of_Z_R 20); lia).
  assert (S : sum64 [f_of_ZE 1 (-2); f_of_ZE 3 (-2)] = 1) by (cbn [sum64 fold_right]; rewrite A, B; lra).
  assert (P : Forall (fun x : f64 => is_finite x = true /\ 0 <= R64 x <= 1) [f_of_ZE 1 (-2); f_of_ZE 3 (-2)]).
  { constructor; [|constructor; [|constructor]]; (split; [reflexivity|]); rewrite ?A, ?B; lra. }
  pose proof (C94_table (fun _ => true) [f_of_Z 10; f_of_Z 20] [f_of_ZE 1 (-2); f_of_ZE 3 (-2)] 1 (f_of_Z 20) (f_of_ZE 3 (-2)) rest) as H.
  rewrite S, B in H. cbn [length] in H. replace (3 / 4 / 1) with (3 / 4) in H by lra.
  eapply Rle_trans; [apply H; clear H|].
  - reflexivity.
  - split; [cbn; lia|]. split; [exact P|]. apply Exists_cons_hd. rewrite A. lra.
  - reflexivity.
  - cbn. lia.
  - lra.
  - constructor; [|constructor; [|constructor]]; apply f_of_Z_fin; lia.
  - reflexivity.
  - reflexivity.
  - intros [|[|j]] b E Q; cbn [nth_error] in E; [|reflexivity|destruct j; discriminate E].
    assert (b = f_of_Z 10) by congruence. subst b. rewrite C, D in Q. lra.
  - cbn [INR]. lra.
Qed.

Print Assumptions C94_uniform.
Print Assumptions C94_polar.
Print Assumptions C94_table.
