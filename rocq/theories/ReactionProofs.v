(** ReactionProofs.v -- algebra of boosts. *)
From Coq Require Import ZArith Reals Lra Lia.
From Flocq Require Import Core.
From Verif Require Import Base Nucleus Reaction SpecReaction.
Local Open Scope R_scope.

Lemma p4_eq a b : qx a = qx b -> qy a = qy b -> qz a = qz b -> qE a = qE b -> a = b.
Proof. destruct a, b. cbn. congruence. Qed.

(** The boost with velocity p/E of a timelike p, with gamma = E/m. *)
Definition lboost (p : p4) (sg : R) (a : p4) : p4 :=
  let m := sqrt (mdot p p) in
  let s := sg * (qx p * qx a + qy p * qy a + qz p * qz a) in
  let k := (s / (qE p + m) + qE a) / m in
  mkP4 (qx a + k * (sg * qx p)) (qy a + k * (sg * qy p)) (qz a + k * (sg * qz p)) ((qE p * qE a + s) / m).

Lemma sqrt_m p : timelike p -> 0 < sqrt (mdot p p) /\ sqrt (mdot p p) * sqrt (mdot p p) = mdot p p.
Proof. intros [H _]. split; [now apply sqrt_lt_R0|apply sqrt_sqrt; lra]. Qed.

Lemma boost_beta_eq p sg a : timelike p -> sg ^ 2 = 1 ->
  boost_beta (sg * qx p / qE p) (sg * qy p / qE p) (sg * qz p / qE p) a = Some (lboost p sg a).
Proof.
  intros T S. destruct (sqrt_m p T) as [Pm Sm]. destruct T as [T1 T2].
  unfold boost_beta, lboost. set (m := sqrt (mdot p p)) in *.
  set (bp2 := (sg * qx p / qE p) ^ 2 + (sg * qy p / qE p) ^ 2 + (sg * qz p / qE p) ^ 2).
  assert (B : 1 - bp2 = (m / qE p) ^ 2).
  { unfold bp2. replace ((m / qE p) ^ 2) with ((m * m) / (qE p) ^ 2) by (field; lra). rewrite Sm. unfold mdot.
    replace ((sg * qx p / qE p) ^ 2 + (sg * qy p / qE p) ^ 2 + (sg * qz p / qE p) ^ 2)
      with (sg ^ 2 * (qx p ^ 2 + qy p ^ 2 + qz p ^ 2) / qE p ^ 2) by (field; lra).
    rewrite S. field. lra. }
  assert (P : 0 < m / qE p) by (unfold Rdiv; apply Rmult_lt_0_compat; [lra|now apply Rinv_0_lt_compat]).
  rewrite Rle_bool_false.
  2:{ assert (0 < (m / qE p) ^ 2) by (apply pow_lt; lra). lra. }
  rewrite B, sqrt_pow2 by lra.
  f_equal. apply p4_eq; cbn [qx qy qz qE]; field; repeat split; lra.
Qed.

Lemma boost_eq p a : timelike p -> boost p a = Some (lboost p 1 a).
Proof.
  intros T. unfold boost. rewrite Req_bool_false by (destruct T; lra).
  rewrite <- (boost_beta_eq p 1 a T) by ring. now rewrite !Rmult_1_l.
Qed.

Lemma boostCM_eq p a : timelike p -> boostCM_of p a = Some (lboost p (-1) a).
Proof.
  intros T. unfold boostCM_of. rewrite Req_bool_false by (destruct T; lra).
  rewrite <- (boost_beta_eq p (-1) a T) by ring.
  now replace (-1 * qx p) with (- qx p) by ring; replace (-1 * qy p) with (- qy p) by ring;
    replace (-1 * qz p) with (- qz p) by ring.
Qed.

(** Boosts preserve the Minkowski product. *)
Lemma lboost_mdot p sg a b : timelike p -> sg ^ 2 = 1 ->
  mdot (lboost p sg a) (lboost p sg b) = mdot a b.
Proof.
  intros T S. destruct (sqrt_m p T) as [Pm Sm]. destruct T as [T1 T2].
  unfold lboost. set (m := sqrt (mdot p p)) in *.
  set (sa := sg * (qx p * qx a + qy p * qy a + qz p * qz a)).
  set (sb := sg * (qx p * qx b + qy p * qy b + qz p * qz b)).
  set (ka := (sa / (qE p + m) + qE a) / m). set (kb := (sb / (qE p + m) + qE b) / m).
  unfold mdot at 1. cbn [qx qy qz qE].
  assert (PP : sg ^ 2 * (qx p ^ 2 + qy p ^ 2 + qz p ^ 2) = qE p ^ 2 - m * m).
  { rewrite S, Sm. unfold mdot. ring. }
  replace ((qx a + ka * (sg * qx p)) * (qx b + kb * (sg * qx p)) +
           (qy a + ka * (sg * qy p)) * (qy b + kb * (sg * qy p)) +
           (qz a + ka * (sg * qz p)) * (qz b + kb * (sg * qz p)))
    with (qx a * qx b + qy a * qy b + qz a * qz b + kb * sa + ka * sb
          + ka * kb * (sg ^ 2 * (qx p ^ 2 + qy p ^ 2 + qz p ^ 2))) by (unfold sa, sb; ring).
  rewrite PP. unfold ka, kb. unfold mdot. field. split; lra.
Qed.

(** The two boosts are inverse to each other. *)
Lemma lboost_inv p sg a : timelike p -> sg ^ 2 = 1 -> lboost p (- sg) (lboost p sg a) = a.
Proof.
  intros T S. destruct (sqrt_m p T) as [Pm Sm]. destruct T as [T1 T2].
  unfold lboost. set (m := sqrt (mdot p p)) in *.
  set (sa := sg * (qx p * qx a + qy p * qy a + qz p * qz a)).
  set (ka := (sa / (qE p + m) + qE a) / m). cbn [qx qy qz qE].
  assert (PP : sg ^ 2 * (qx p ^ 2 + qy p ^ 2 + qz p ^ 2) = qE p ^ 2 - m * m).
  { rewrite S, Sm. unfold mdot. ring. }
  replace (- sg * (qx p * (qx a + ka * (sg * qx p)) + qy p * (qy a + ka * (sg * qy p)) +
                   qz p * (qz a + ka * (sg * qz p))))
    with (- sa - ka * (sg ^ 2 * (qx p ^ 2 + qy p ^ 2 + qz p ^ 2))) by (unfold sa; ring).
  rewrite PP. apply p4_eq; cbn [qx qy qz qE]; unfold ka; field; split; lra.
Qed.

(** p itself is at rest in its frame. *)
Lemma lboost_self p : timelike p -> lboost p (-1) p = mkP4 0 0 0 (sqrt (mdot p p)).
Proof.
  intros T. destruct (sqrt_m p T) as [Pm Sm]. destruct T as [T1 T2].
  unfold lboost. set (m := sqrt (mdot p p)) in *.
  assert (PP : qx p * qx p + qy p * qy p + qz p * qz p = qE p ^ 2 - m * m).
  { rewrite Sm. unfold mdot. ring. }
  rewrite PP.
  assert (K : (-1 * (qE p ^ 2 - m * m) / (qE p + m) + qE p) / m = 1) by (field; lra).
  rewrite K. apply p4_eq; cbn [qx qy qz qE]; try ring. field. lra.
Qed.

(** The boost back is the passage to the rest frame. *)
Lemma lboost_rest_frame p a : timelike p -> in_rest_frame p a (lboost p (-1) a).
Proof.
  intros T. destruct (sqrt_m p T) as [Pm Sm]. destruct T as [T1 T2].
  unfold in_rest_frame, lboost. set (m := sqrt (mdot p p)) in *. cbn [qx qy qz qE].
  assert (K : (-1 * (qx p * qx a + qy p * qy a + qz p * qz a) / (qE p + m) + qE a) / m
     = (qE a + (qE p * qE a + -1 * (qx p * qx a + qy p * qy a + qz p * qz a)) / m) / (qE p + m)).
  { field. lra. }
  split; [unfold mdot; field; lra|]. rewrite <- K. repeat split; ring.
Qed.

(** The energy of a future-directed vector stays positive: reversed Cauchy-Schwarz. *)
Lemma cs3 a1 a2 a3 b1 b2 b3 :
  (a1 * b1 + a2 * b2 + a3 * b3) ^ 2 <= (a1 ^ 2 + a2 ^ 2 + a3 ^ 2) * (b1 ^ 2 + b2 ^ 2 + b3 ^ 2).
Proof.
  pose proof (pow2_ge_0 (a1 * b2 - a2 * b1)). pose proof (pow2_ge_0 (a1 * b3 - a3 * b1)).
  pose proof (pow2_ge_0 (a2 * b3 - a3 * b2)).
  replace ((a1 ^ 2 + a2 ^ 2 + a3 ^ 2) * (b1 ^ 2 + b2 ^ 2 + b3 ^ 2))
    with ((a1 * b1 + a2 * b2 + a3 * b3) ^ 2 + (a1 * b2 - a2 * b1) ^ 2 + (a1 * b3 - a3 * b1) ^ 2
          + (a2 * b3 - a3 * b2) ^ 2) by ring. lra.
Qed.

Lemma lboost_energy p sg a : timelike p -> sg ^ 2 = 1 -> 0 <= mdot a a -> 0 <= qE a ->
  0 <= qE (lboost p sg a).
Proof.
  intros T S A1 A2. destruct (sqrt_m p T) as [Pm Sm]. destruct T as [T1 T2].
  unfold lboost. cbn [qE]. set (m := sqrt (mdot p p)) in *. unfold mdot in A1, T1.
  unfold Rdiv. apply Rmult_le_pos; [|apply Rlt_le; now apply Rinv_0_lt_compat].
  set (s := sg * (qx p * qx a + qy p * qy a + qz p * qz a)).
  assert (S2 : s ^ 2 <= (qE p * qE a) ^ 2).
  { unfold s. replace ((sg * (qx p * qx a + qy p * qy a + qz p * qz a)) ^ 2)
      with (sg ^ 2 * (qx p * qx a + qy p * qy a + qz p * qz a) ^ 2) by ring.
    rewrite S, Rmult_1_l. eapply Rle_trans; [apply cs3|].
    replace ((qE p * qE a) ^ 2) with (qE p ^ 2 * qE a ^ 2) by ring.
    apply Rmult_le_compat; nra. }
  assert (0 <= qE p * qE a) by (apply Rmult_le_pos; lra). nra.
Qed.

Lemma mdot_psub p a : mdot (psub p a) (psub p a) = mdot p p - 2 * mdot p a + mdot a a.
Proof. unfold mdot, psub. cbn. ring. Qed.
