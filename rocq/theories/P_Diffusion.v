(** P_Diffusion.v -- C62: how wide the charge of a point is spread over the pad plane. *)
From Coq Require Import ZArith Reals Lia Lra.
From Flocq Require Import Core.
From Verif Require Import Base F64 Num Transporter Simulator Response Parameters P_Parameters P_Electrons.
Local Open Scope R_scope.

(** Specification: mean square displacement (per axis) of electrons after drifting a distance
    [l] in the field [e], with characteristic energy [d] (transporter.py 278-284 gives the unit V):
    2 d l / e. *)
Definition spread (d e l : R) : R := 2 * d * l / e.

Lemma sigma_R d e v t : e <> 0 -> 0 <= spread d e (v * t) ->
  @sigma_of XR (Some d) (Some e) (Some v) (Some t) = Ok (Some (sqrt (spread d e (v * t)))).
Proof.
  intros He Hp. unfold sigma_of, njdiv. cbn [neqb nmul nofZ ndiv nsqrt XR lift2 cmp2 xdiv].
  rewrite !(Req_bool_false e 0 He). cbn [bind xsqrt].
  replace (2 * d * v * t / e) with (spread d e (v * t)) by (unfold spread, Rdiv; ring).
  rewrite Rlt_bool_false by exact Hp. reflexivity.
Qed.

(** The distance the code lets the electrons of a point at [z] drift: the real one plus what they
    would cover in the time buckets before the micromegas edge. *)
Definition drifted (L z : R) (we mm : Z) : R := (L - z) + IZR mm * (L / IZR (we - mm)).

(** C62: width of the charge distribution of a point at z. *)
Theorem C62_width : forall L we mm v z d e,
  0 < L -> 0 <= d -> 0 < e -> 0 <= drifted L z we mm ->
  drift_velocity (N := XR) (Some L) we mm = Ok v ->
  exists t s, tb_of_z (N := XR) (Some L) v mm (Some z) = Some t /\
    @sigma_of XR (Some d) (Some e) v (Some t) = Ok (Some s) /\
    0 <= s /\ s ^ 2 = spread d e (drifted L z we mm).
Proof.
  intros L we mm v z d e HL Hd He Hz E.
  assert (W : we <> mm).
  { intros ->. unfold drift_velocity, pydiv in E. cbn [neqb nofZ XR cmp2] in E.
    replace (mm - mm)%Z with 0%Z in E by lia. rewrite Req_bool_true in E by reflexivity. discriminate. }
  assert (N : IZR (we - mm) <> 0) by (apply not_0_IZR; lia).
  assert (V : v = Some (L / IZR (we - mm))).
  { unfold drift_velocity, pydiv in E. cbn [neqb nofZ ndiv XR cmp2 xdiv] in E.
    rewrite (Req_bool_false _ _ N) in E.
    apply (f_equal (fun r => match r with Ok a => a | Err _ => None end)) in E. symmetry. exact E. }
  subst v. exists (IZR mm + (L - z) / L * IZR (we - mm)).
  assert (Q : L / IZR (we - mm) * (IZR mm + (L - z) / L * IZR (we - mm)) = drifted L z we mm)
    by (unfold drifted; field; rewrite <- ?minus_IZR; split; first [exact N|lra]).
  assert (P : 0 <= spread d e (drifted L z we mm)).
  { unfold spread, Rdiv. apply Rmult_le_pos; [|apply Rlt_le, Rinv_0_lt_compat, He].
    apply Rmult_le_pos; [lra|exact Hz]. }
  exists (sqrt (spread d e (drifted L z we mm))). split; [apply tb_R; lra|].
  split; [rewrite <- Q; apply sigma_R; [lra|now rewrite Q]|].
  split; [apply sqrt_pos|]. rewrite pow2_sqrt; [reflexivity|exact P].
Qed.

(** C62: of two points in front of the micromegas, the one further away is spread wider, if the
    edges are in order and there is any diffusion. *)
Theorem C62_monotone : forall L we mm v z z' d e t t' s s',
  0 < L -> 0 < d -> 0 < e -> (0 <= mm < we)%Z -> z < z' <= L ->
  drift_velocity (N := XR) (Some L) we mm = Ok v ->
  tb_of_z (N := XR) (Some L) v mm (Some z) = Some t ->
  tb_of_z (N := XR) (Some L) v mm (Some z') = Some t' ->
  @sigma_of XR (Some d) (Some e) v (Some t) = Ok (Some s) ->
  @sigma_of XR (Some d) (Some e) v (Some t') = Ok (Some s') -> s' < s.
Proof.
  intros L we mm v z z' d e t t' s s' HL Hd He Hm Hz E T T' S S'.
  assert (P0 : 0 <= IZR mm * (L / IZR (we - mm))).
  { apply Rmult_le_pos; [apply IZR_le; lia|]. apply Rlt_le, Rdiv_lt_0_compat; [exact HL|apply IZR_lt; lia]. }
  destruct (C62_width L we mm v z d e) as (t1 & s1 & T1 & S1 & P1 & Q1); try lra; try assumption; [unfold drifted; lra|].
  destruct (C62_width L we mm v z' d e) as (t2 & s2 & T2 & S2 & P2 & Q2); try lra; try assumption; [unfold drifted; lra|].
  assert (t = t1) by congruence. assert (t' = t2) by congruence. subst t t'.
  assert (s = s1) by congruence. assert (s' = s2) by congruence. subst s s'.
  assert (X : s2 ^ 2 < s1 ^ 2).
  { rewrite Q1, Q2. unfold spread, Rdiv. apply Rmult_lt_compat_r; [now apply Rinv_0_lt_compat|].
    apply Rmult_lt_compat_l; [lra|]. unfold drifted. lra. }
  nra.
Qed.

(** C62 does not hold with the real drift distance: unless the micromegas edge is at time bucket
    zero, a point at the micromegas itself, whose electrons do not drift, is spread over the pads. *)
Theorem C62_no_drift_no_spread_refuted : exists L we mm v d e t s,
  (0 < mm < we)%Z /\ 0 < L /\ 0 < d /\ 0 < e /\
  drift_velocity (N := XR) (Some L) we mm = Ok v /\
  tb_of_z (N := XR) (Some L) v mm (Some L) = Some t /\
  @sigma_of XR (Some d) (Some e) v (Some t) = Ok (Some s) /\
  spread d e (L - L) = 0 /\ 0 < s.
Proof.
  destruct (C31_velocity 1 560 10) as (v & E & _); [lia|].
  destruct (C62_width 1 560 10 (Some v) 1 (1 / 4) 45000) as (t & s & T & S & P & Q); try lra; try assumption.
  { unfold drifted. change (560 - 10)%Z with 550%Z. lra. }
  exists 1, 560%Z, 10%Z, (Some v), (1 / 4), 45000, t, s.
  split; [lia|]. split; [lra|]. split; [lra|]. split; [lra|]. split; [exact E|]. split; [exact T|]. split; [exact S|].
  split; [unfold spread; lra|].
  unfold spread, drifted in Q. change (560 - 10)%Z with 550%Z in Q.
  destruct P as [P|P]; [exact P|]. exfalso. rewrite <- P in Q. lra.
Qed.

(** Example: edges 10 and 560 over one metre, 45 kV/m, 0.25 V: a point half way, 2.4 mm. *)
Example C62_example : exists v t s,
  drift_velocity (N := XR) (Some 1) 560 10 = Ok v /\
  tb_of_z (N := XR) (Some 1) v 10 (Some (1 / 2)) = Some t /\
  @sigma_of XR (Some (1 / 4)) (Some 45000) v (Some t) = Ok (Some s) /\ 0.0023 < s < 0.0025.
Proof.
  destruct (C31_velocity 1 560 10) as (v & E & _); [lia|].
  destruct (C62_width 1 560 10 (Some v) (1 / 2) (1 / 4) 45000) as (t & s & T & S & P & Q); try lra; try assumption.
  { unfold drifted. change (560 - 10)%Z with 550%Z. lra. }
  exists (Some v), t, s. split; [exact E|]. split; [exact T|]. split; [exact S|].
  unfold spread, drifted in Q. change (560 - 10)%Z with 550%Z in Q.
  split; apply Rnot_le_lt; intros H; nra.
Qed.

Print Assumptions C62_width.
Print Assumptions C62_monotone.
Print Assumptions C62_no_drift_no_spread_refuted.
