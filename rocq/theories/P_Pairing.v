(** P_Pairing.v -- properties C01-C03 of pairing.py. *)
From Coq Require Import ZArith Lia.
From Verif Require Import Base F64 Pairing PairingProofs.
Local Open Scope Z_scope.

(** C01: the round trip is exact for all components below 2^26, computed in binary64. *)
Theorem C01_round_trip : forall tb pad : Z,
  0 <= tb < 2 ^ 26 -> 0 <= pad < 2 ^ 26 ->
  unpair (pair tb pad) = (f_of_Z tb, f_of_Z pad).
Proof. exact unpair_pair. Qed.

(** ... and int() of the two floats gives back the integers. *)
Theorem C01_round_trip_int : forall tb pad : Z,
  0 <= tb < 2 ^ 26 -> 0 <= pad < 2 ^ 26 ->
  f_to_Z (fst (unpair (pair tb pad))) = Some tb /\
  f_to_Z (snd (unpair (pair tb pad))) = Some pad.
Proof.
  intros tb pad Ht Hp. rewrite unpair_pair by assumption. cbn [fst snd].
  split; apply f_to_Z_of_Z; lia.
Qed.

Example C01_example : unpair (pair 511 10239) = (f_of_Z 511, f_of_Z 10239)
                      /\ pair 511 10239 = 104837632.
Proof. split; [apply C01_round_trip; lia|reflexivity]. Qed.

(** C02: injective wherever int64 does not overflow (which includes everything below 2^26). *)
Theorem C02_pair_injective : forall t1 p1 t2 p2 : Z,
  0 <= t1 <= 3037000498 -> 0 <= p1 <= 3037000498 ->
  0 <= t2 <= 3037000498 -> 0 <= p2 <= 3037000498 ->
  pair t1 p1 = pair t2 p2 -> t1 = t2 /\ p1 = p2.
Proof. exact pair_inj_nowrap. Qed.

(** Every id below 2^52 is the id of exactly one pair, the one [unpair] returns; and ids of
    components below 2^26 are below 2^52. *)
Theorem C02_unpair_inverse : forall id : Z, 0 <= id < 2 ^ 52 ->
  exists tb pad : Z,
    f_to_Z (fst (unpair id)) = Some tb /\ f_to_Z (snd (unpair id)) = Some pad /\
    0 <= tb < 2 ^ 26 /\ 0 <= pad < 2 ^ 26 /\ pair tb pad = id /\
    (forall tb' pad', 0 <= tb' < 2 ^ 26 -> 0 <= pad' < 2 ^ 26 -> pair tb' pad' = id ->
       tb' = tb /\ pad' = pad).
Proof.
  intros id H. destruct (pair_unpair id H) as (tb & pad & A & B & C & D & E).
  exists tb, pad. repeat (split; [assumption|]). intros tb' pad' C' D' E'.
  apply pair_inj_nowrap; try lia.
Qed.

Theorem C02_pair_range : forall tb pad : Z,
  0 <= tb < 2 ^ 26 -> 0 <= pad < 2 ^ 26 -> 0 <= pair tb pad < 2 ^ 52.
Proof.
  intros tb pad Ht Hp. rewrite pair_nowrap by lia.
  destruct (Z.leb_spec pad tb); nia.
Qed.

Theorem C02_negative : forall tb pad : Z, tb < 0 \/ pad < 0 ->
  pair tb pad = -1 /\ unpair (-1) = (f_of_Z (-1), f_of_Z (-1)).
Proof. intros tb pad H. split; [now apply pair_negative|reflexivity]. Qed.

(** No pair of non-overflowing components shares the id -1 of rejected inputs. *)
Theorem C02_negative_only : forall tb pad : Z,
  tb <= 3037000498 -> pad <= 3037000498 -> pair tb pad = -1 -> tb < 0 \/ pad < 0.
Proof.
  intros tb pad Ht Hp E. destruct (Z.ltb_spec tb 0); [now left|].
  destruct (Z.ltb_spec pad 0); [now right|]. exfalso.
  rewrite pair_nowrap in E by lia. destruct (pad <=? tb); nia.
Qed.

Example C02_example : pair 3 7 = 52 /\ pair 7 3 = 59 /\ pair (-4) 3 = -1.
Proof. repeat split. Qed.

(** C03: the limit 2^26 is sharp -- the round trip holds for all components below [B]
    exactly when B <= 2^26 (although the failing id still fits int64 and below 2^53). *)
Theorem C03_limit_sharp : forall B : Z,
  (forall tb pad, 0 <= tb < B -> 0 <= pad < B -> unpair (pair tb pad) = (f_of_Z tb, f_of_Z pad))
  <-> B <= 2 ^ 26.
Proof.
  intros B. split.
  - intros H. destruct (Z.le_gt_cases B (2 ^ 26)) as [L|L]; [exact L|]. exfalso.
    apply unpair_pair_2_26. rewrite H by lia. reflexivity.
  - intros L tb pad Ht Hp. apply unpair_pair; lia.
Qed.

Theorem C03_refuted_for_all_int64 : exists tb pad : Z,
  0 <= tb /\ 0 <= pad /\ pair tb pad = tb * tb + tb + pad /\ pair tb pad < 2 ^ 53 /\
  unpair (pair tb pad) <> (f_of_Z tb, f_of_Z pad).
Proof.
  exists (2 ^ 26), (2 ^ 26). repeat split; try lia.
  intros E. apply unpair_pair_2_26. now rewrite E.
Qed.

Print Assumptions C01_round_trip.
Print Assumptions C01_round_trip_int.
Print Assumptions C02_pair_injective.
Print Assumptions C02_unpair_inverse.
Print Assumptions C02_pair_range.
Print Assumptions C02_negative.
Print Assumptions C02_negative_only.
Print Assumptions C03_limit_sharp.
Print Assumptions C03_refuted_for_all_int64.
