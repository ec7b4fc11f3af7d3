(** PairingProofs.v -- correctness of [pair]/[unpair]. *)
From Coq Require Import ZArith Reals Lra Lia.
From Flocq Require Import Core BinarySingleNaN.
From Verif Require Import Base F64 Pairing.
Local Open Scope Z_scope.

(** Where no intermediate result leaves int64. *)
Lemma pair_nowrap tb pad : 0 <= tb <= 3037000498 -> 0 <= pad <= 3037000498 ->
  pair tb pad = if pad <=? tb then tb * tb + tb + pad else pad * pad + tb.
Proof.
  intros Ht Hp. unfold pair.
  replace (tb <? 0) with false by lia. replace (pad <? 0) with false by lia. simpl.
  destruct (pad <=? tb) eqn:E.
  - replace (tb =? Z.max tb pad) with true by lia.
    assert (tb * tb <= 3037000498 * 3037000498) by nia.
    assert (0 <= tb * tb) by nia.
    rewrite (wrap64_id (tb * tb)) by (unfold two63; lia).
    rewrite (wrap64_id (tb * tb + tb)) by (unfold two63; lia).
    rewrite wrap64_id by (unfold two63; lia). reflexivity.
  - replace (tb =? Z.max tb pad) with false by lia.
    assert (pad * pad <= 3037000498 * 3037000498) by nia.
    assert (0 <= pad * pad) by nia.
    rewrite (wrap64_id (pad * pad)) by (unfold two63; lia).
    rewrite wrap64_id by (unfold two63; lia). reflexivity.
Qed.

Lemma pair_inj_nowrap t1 p1 t2 p2 :
  0 <= t1 <= 3037000498 -> 0 <= p1 <= 3037000498 ->
  0 <= t2 <= 3037000498 -> 0 <= p2 <= 3037000498 ->
  pair t1 p1 = pair t2 p2 -> t1 = t2 /\ p1 = p2.
Proof.
  intros A B C D. rewrite !pair_nowrap by assumption.
  destruct (p1 <=? t1) eqn:E1; destruct (p2 <=? t2) eqn:E2; intros H.
  - assert (t1 = t2) by nia. nia.
  - exfalso. assert (p2 < t1 \/ p2 = t1 \/ t1 < p2) as [X|[X|X]] by lia; nia.
  - exfalso. assert (t2 < p1 \/ t2 = p1 \/ p1 < t2) as [X|[X|X]] by lia; nia.
  - assert (p1 = p2) by nia. nia.
Qed.

Lemma pair_negative tb pad : tb < 0 \/ pad < 0 -> pair tb pad = -1.
Proof. intros H. unfold pair. now replace ((tb <? 0) || (pad <? 0)) with true by lia. Qed.

Local Open Scope R_scope.

Lemma sqrt_id_floor (s id : Z) :
  (0 <= s < 2 ^ 26)%Z -> (s * s <= id)%Z -> (id < (s + 1) * (s + 1))%Z ->
  Zfloor (rnd64 (sqrt (IZR id))) = s.
Proof.
  intros Hs L U. apply Zfloor_imp. split.
  - apply rnd64_ge_IZR; [lia|].
    rewrite <- (sqrt_square (IZR s)) by (apply IZR_le; lia).
    apply sqrt_le_1_alt. rewrite <- mult_IZR. now apply IZR_le.
  - set (p := IZR (s + 1) - bpow radix2 (-27)).
    assert (Fp : fmt64 p).
    { apply generic_format_FLT.
      exists (Float radix2 ((s + 1) * 2 ^ 27 - 1) (-27)).
      - unfold F2R. cbn [Fnum Fexp]. unfold p.
        rewrite minus_IZR, mult_IZR, (IZR_pow2 27) by lia.
        rewrite Rmult_minus_distr_r, Rmult_assoc, <- bpow_plus. simpl. lra.
      - simpl Fnum. change (radix2 ^ prec64)%Z with (2 ^ 53)%Z. lia.
      - unfold SpecFloat.emin, emax64, prec64. simpl. lia. }
    apply Rle_lt_trans with p.
    + rewrite <- (round_generic radix2 fexp64 ZnearestE p Fp).
      apply rnd64_le.
      (* sqrt id <= (s+1) - 2^-27 *)
      assert (B0 : bpow radix2 (-27) * IZR (2 ^ 27) = 1).
      { rewrite (IZR_pow2 27), <- bpow_plus by lia. reflexivity. }
      assert (Bp : 0 < bpow radix2 (-27)) by apply bpow_gt_0.
      assert (Hm : IZR (s + 1) * (2 * bpow radix2 (-27)) <= 1).
      { assert (IZR (s + 1) <= IZR (2 ^ 26)) by (apply IZR_le; lia).
        assert (IZR (2 ^ 27) = 2 * IZR (2 ^ 26)) by (simpl; lra).
        nra. }
      assert (1 <= IZR (s + 1)) by (apply IZR_le; lia).
      assert (0 <= p) by (unfold p; nra).
      rewrite <- (sqrt_square p) by assumption.
      apply sqrt_le_1_alt.
      assert (IZR id <= IZR (s + 1) * IZR (s + 1) - 1).
      { rewrite <- mult_IZR, <- minus_IZR. apply IZR_le. lia. }
      unfold p. nra.
    + unfold p. rewrite plus_IZR. pose proof (bpow_gt_0 radix2 (-27)). lra.
Qed.

Lemma unpair_sqrt (s id : Z) :
  (0 <= s < 2 ^ 26)%Z -> (s * s <= id)%Z -> (id < (s + 1) * (s + 1))%Z ->
  ffloor (fsqrt (f_of_Z id)) = f_of_Z s.
Proof.
  intros Hs L U.
  assert (Hid : (Z.abs id <= 2 ^ 53)%Z) by nia.
  destruct (f_of_Z_correct id Hid) as (R & F & S).
  pose proof (Bsqrt_correct prec64 emax64 _ _ mode_NE (f_of_Z id)) as (C1 & C2 & C3).
  simpl round_mode in C1. fold (fsqrt (f_of_Z id)) in C1, C2, C3.
  rewrite R in C1.
  assert (Fs : is_finite (fsqrt (f_of_Z id)) = true).
  { rewrite C2. destruct (f_of_Z id); try discriminate; try reflexivity.
    simpl in S. subst s0. now replace (id <? 0)%Z with false by lia. }
  destruct (ffloor_R (fsqrt (f_of_Z id))) as (D1 & D2).
  rewrite C1, (sqrt_id_floor s) in D1 by assumption.
  apply f64_eq_of_Z; [lia| |exact D1|].
  - now rewrite D2.
  - replace (s <? 0)%Z with false by lia.
    unfold ffloor.
    destruct (Bnearbyint_correct prec64 emax64 _ mode_DN (fsqrt (f_of_Z id))) as (_ & _ & E).
    rewrite E.
    + rewrite C3. { rewrite S. lia. }
      destruct (fsqrt (f_of_Z id)); try discriminate; reflexivity.
    + fold (ffloor (fsqrt (f_of_Z id))).
      rewrite Fs in D2. destruct (ffloor (fsqrt (f_of_Z id))); try discriminate; reflexivity.
Qed.

(** What [unpair] computes below 2^52. *)
Lemma unpair_spec (s id : Z) :
  (0 <= s < 2 ^ 26)%Z -> (s * s <= id)%Z -> (id < (s + 1) * (s + 1))%Z ->
  unpair id = if (id - s * s <? s)%Z
              then (f_of_Z (id - s * s), f_of_Z s)
              else (f_of_Z s, f_of_Z (id - s * s - s)).
Proof.
  intros Hs L U. unfold unpair.
  replace (id <? 0)%Z with false by nia. cbv zeta.
  rewrite (unpair_sqrt s id Hs L U).
  assert (Hid : (Z.abs id <= 2 ^ 53)%Z) by nia.
  assert (Hss : (Z.abs (s * s) <= 2 ^ 53)%Z) by nia.
  destruct (f_of_Z_correct id Hid) as (R & F & S).
  destruct (f_of_Z_correct s ltac:(lia)) as (Rs & Fs & Ss).
  destruct (fmul_IZR _ _ _ _ Fs Fs Rs Rs Hss) as (Rm & Fm).
  destruct (fsub_IZR _ _ _ _ F Fm R Rm ltac:(lia)) as (Rd & Fd & Sd1 & Sd2).
  assert (Hd : fsub (f_of_Z id) (fmul (f_of_Z s) (f_of_Z s)) = f_of_Z (id - s * s)).
  { apply f64_eq_of_Z; auto; [lia|].
    destruct (Z.eq_dec (id - s * s) 0) as [E|N].
    - rewrite Sd2; [|exact E|rewrite S; lia]. lia.
    - now rewrite Sd1. }
  rewrite Hd.
  destruct (f_of_Z_correct (id - s * s) ltac:(lia)) as (Rq & Fq & Sq).
  rewrite fltb_R by assumption. rewrite Rq, Rs.
  destruct (Z.ltb_spec (id - s * s) s) as [A|A].
  - rewrite Rlt_bool_true by now apply IZR_lt. reflexivity.
  - rewrite Rlt_bool_false by now apply IZR_le. f_equal.
    destruct (fsub_IZR _ _ _ _ Fq Fs Rq Rs ltac:(lia)) as (Re & Fe & Se1 & Se2).
    apply f64_eq_of_Z; auto; [lia|].
    destruct (Z.eq_dec (id - s * s - s) 0) as [E|N].
    + rewrite Se2; [|exact E|rewrite Sq; lia]. lia.
    + now rewrite Se1.
Qed.

Lemma unpair_pair (tb pad : Z) : (0 <= tb < 2 ^ 26)%Z -> (0 <= pad < 2 ^ 26)%Z ->
  unpair (pair tb pad) = (f_of_Z tb, f_of_Z pad).
Proof.
  intros Ht Hp. rewrite pair_nowrap by lia.
  destruct (Z.leb_spec pad tb) as [E|E].
  - rewrite (unpair_spec tb) by nia.
    replace (tb * tb + tb + pad - tb * tb <? tb)%Z with false by lia.
    repeat f_equal; lia.
  - rewrite (unpair_spec pad) by nia.
    replace (pad * pad + tb - pad * pad <? pad)%Z with true by lia.
    repeat f_equal; lia.
Qed.

Lemma f_to_Z_of_Z z : (Z.abs z <= 2 ^ 53)%Z -> f_to_Z (f_of_Z z) = Some z.
Proof.
  intros H. destruct (f_of_Z_correct z H) as (R & F & _).
  rewrite f_to_Z_some; rewrite ?R, ?Ztrunc_IZR; auto. unfold two63. lia.
Qed.

Lemma pair_unpair (id : Z) : (0 <= id < 2 ^ 52)%Z ->
  exists tb pad, f_to_Z (fst (unpair id)) = Some tb /\ f_to_Z (snd (unpair id)) = Some pad /\
    (0 <= tb < 2 ^ 26)%Z /\ (0 <= pad < 2 ^ 26)%Z /\ pair tb pad = id.
Proof.
  intros H. pose proof (Z.sqrt_spec id ltac:(lia)) as [L U].
  pose proof (Z.sqrt_nonneg id).
  set (s := Z.sqrt id) in *.
  assert (s < 2 ^ 26)%Z by nia.
  rewrite (unpair_spec s) by lia.
  destruct (Z.ltb_spec (id - s * s) s); cbn [fst snd]; do 2 eexists;
    (split; [apply f_to_Z_of_Z; lia|]; split; [apply f_to_Z_of_Z; lia|]);
    rewrite pair_nowrap by lia.
  - replace (s <=? id - s * s)%Z with false by lia. lia.
  - replace (id - s * s - s <=? s)%Z with true by lia. lia.
Qed.

(** Beyond 2^26 the round trip breaks. *)
Lemma unpair_pair_2_26 :
  snd (unpair (pair (2 ^ 26) (2 ^ 26))) <> f_of_Z (2 ^ 26).
Proof.
  intros H. apply (f_equal (fun x => feqb x (f_of_Z (2 ^ 26)))) in H.
  vm_compute in H. discriminate.
Qed.
