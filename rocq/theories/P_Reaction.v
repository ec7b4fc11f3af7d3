(** P_Reaction.v -- C38 to C41: two-body kinematics. *)
From Coq Require Import ZArith Reals Lra Lia String.
From Flocq Require Import Core.
From Verif Require Import Base Nucleus Reaction SpecReaction ReactionProofs.
Import List.ListNotations.
Local Open Scope R_scope.

(** ** C38: construction *)
(** The data table returns the nucleus it is asked for. *)
Definition faithful (get_data : Z -> Z -> res nucleus) : Prop :=
  forall z a n, get_data z a = Ok n -> n_Z n = z /\ n_A n = a.

Theorem C38_reaction get_data t p e r : faithful get_data ->
  make_reaction get_data t p e = Ok r ->
  r_target r = t /\ r_projectile r = p /\ r_ejectile r = e /\
  (n_Z t + n_Z p = n_Z e + n_Z (r_residual r))%Z /\
  (n_A t + n_A p = n_A e + n_A (r_residual r))%Z.
Proof.
  intros F. unfold make_reaction. destruct (Z.ltb_spec (n_Z p + n_Z t - n_Z e) 0) as [|Hz]; [discriminate|].
  destruct (Z.ltb_spec (n_A p + n_A t - n_A e) 0) as [|Ha]; [discriminate|].
  destruct (get_data _ _) as [n|x] eqn:G; [|discriminate].
  cbn [bind]. intros [= <-]. cbn [r_target r_projectile r_ejectile r_residual].
  destruct (F _ _ _ G). repeat split; lia.
Qed.

Theorem C38_reaction_refused get_data t p e :
  ((n_Z t + n_Z p < n_Z e)%Z \/ (n_A t + n_A p < n_A e)%Z ->
   make_reaction get_data t p e = Err ValueError) /\
  ((n_Z e <= n_Z t + n_Z p)%Z -> (n_A e <= n_A t + n_A p)%Z ->
   forall x, make_reaction get_data t p e = Err x ->
   get_data (n_Z t + n_Z p - n_Z e)%Z (n_A t + n_A p - n_A e)%Z = Err x).
Proof.
  unfold make_reaction. split.
  - intros H. destruct (Z.ltb_spec (n_Z p + n_Z t - n_Z e) 0) as [|Hz]; [easy|].
    destruct (Z.ltb_spec (n_A p + n_A t - n_A e) 0) as [|Ha]; [easy|]. lia.
  - intros Hz Ha x. destruct (Z.ltb_spec (n_Z p + n_Z t - n_Z e) 0) as [|_]; [lia|].
    destruct (Z.ltb_spec (n_A p + n_A t - n_A e) 0) as [|_]; [lia|].
    rewrite (Z.add_comm (n_Z t)), (Z.add_comm (n_A t)).
    destruct (get_data _ _) as [n|y]; cbn [bind]; congruence.
Qed.

Theorem C38_decay get_data p a d : faithful get_data -> make_decay get_data p a = Ok d ->
  d_parent d = p /\ d_res1 d = a /\
  (n_Z p = n_Z a + n_Z (d_res2 d))%Z /\ (n_A p = n_A a + n_A (d_res2 d))%Z.
Proof.
  intros F. unfold make_decay. destruct (Z.ltb_spec (n_Z p - n_Z a) 0) as [|Hz]; [discriminate|].
  destruct (Z.ltb_spec (n_A p - n_A a) 0) as [|Ha]; [discriminate|].
  destruct (get_data _ _) as [n|x] eqn:G; [|discriminate].
  cbn [bind]. intros [= <-]. cbn [d_parent d_res1 d_res2].
  destruct (F _ _ _ G). repeat split; lia.
Qed.

Theorem C38_decay_refused get_data p a :
  ((n_Z p < n_Z a)%Z \/ (n_A p < n_A a)%Z -> make_decay get_data p a = Err ValueError) /\
  ((n_Z a <= n_Z p)%Z -> (n_A a <= n_A p)%Z ->
   forall x, make_decay get_data p a = Err x ->
   get_data (n_Z p - n_Z a)%Z (n_A p - n_A a)%Z = Err x).
Proof.
  unfold make_decay. split.
  - intros H. destruct (Z.ltb_spec (n_Z p - n_Z a) 0) as [|Hz]; [easy|].
    destruct (Z.ltb_spec (n_A p - n_A a) 0) as [|Ha]; [easy|]. lia.
  - intros Hz Ha x. destruct (Z.ltb_spec (n_Z p - n_Z a) 0) as [|_]; [lia|].
    destruct (Z.ltb_spec (n_A p - n_A a) 0) as [|_]; [lia|].
    destruct (get_data _ _) as [n|y]; cbn [bind]; congruence.
Qed.

(** ** Two-body break-up of a timelike vector *)
Section TwoBody.
  Context (P : p4) (m1 m2 th ph : R).
  Context (TP : timelike P) (H1 : 0 <= m1) (H2 : 0 <= m2).
  Let m := sqrt (mdot P P).
  Context (H : m1 + m2 < m).
  Let e := (m1 ^ 2 - m2 ^ 2 + m ^ 2) / (2 * m).

  Lemma m_pos : 0 < m. Proof. apply (sqrt_m P TP). Qed.

  Lemma e_range : m1 < e /\ 0 < m - e /\ 0 < e ^ 2 - m1 ^ 2.
  Proof using H H1 H2 TP.
    pose proof m_pos as Pm.
    assert (Em : e * (2 * m) = m1 ^ 2 - m2 ^ 2 + m ^ 2) by (unfold e; field; lra).
    assert (E1 : m1 < e) by nra. split; [easy|]. split; nra.
  Qed.

  Definition cm_vec (k : R) : p4 := mkP4 (k * sin th * cos ph) (k * sin th * sin ph) (k * cos th) e.

  Lemma cm_vec_p2 k : qx (cm_vec k) ^ 2 + qy (cm_vec k) ^ 2 + qz (cm_vec k) ^ 2 = k ^ 2.
  Proof.
    unfold cm_vec. cbn [qx qy qz].
    pose proof (sin2_cos2 th) as A. pose proof (sin2_cos2 ph) as B. unfold Rsqr in A, B.
    replace ((k * sin th * cos ph) ^ 2 + (k * sin th * sin ph) ^ 2 + (k * cos th) ^ 2)
      with (k ^ 2 * (sin th * sin th * (sin ph * sin ph + cos ph * cos ph) + cos th * cos th)) by ring.
    rewrite B, Rmult_1_r, A. ring.
  Qed.

  Lemma two_body : let k := sqrt (e ^ 2 - m1 ^ 2) in
    let v := lboost P 1 (cm_vec k) in
    0 < k /\ on_shell m1 v /\ on_shell m2 (psub P v) /\
    in_rest_frame P v (direction k th ph e).
  Proof using H H1 H2 TP.
    intros k v. destruct e_range as (E1 & E2 & E3). pose proof m_pos as Pm.
    assert (Kp : 0 < k) by now apply sqrt_lt_R0.
    assert (K2 : k ^ 2 = e ^ 2 - m1 ^ 2) by (unfold k; rewrite pow2_sqrt; lra).
    assert (Em : e * (2 * m) = m1 ^ 2 - m2 ^ 2 + m ^ 2) by (unfold e; field; lra).
    assert (C : mdot (cm_vec k) (cm_vec k) = m1 ^ 2).
    { pose proof (cm_vec_p2 k) as W. unfold mdot. cbn [qE cm_vec].
      change (qE (cm_vec k)) with e. nra. }
    assert (V : mdot v v = m1 ^ 2) by (unfold v; rewrite lboost_mdot by (auto; ring); exact C).
    assert (Sm : m * m = mdot P P) by apply (sqrt_m P TP).
    assert (PV : mdot P v = m * e).
    { assert (Q : P = lboost P 1 (mkP4 0 0 0 m)).
      { pose proof (lboost_self P TP) as Q. fold m in Q. rewrite <- Q. replace 1 with (- (-1)) by ring.
        symmetry. apply lboost_inv; [exact TP|ring]. }
      rewrite Q at 1. unfold v. rewrite lboost_mdot by (auto; ring).
      unfold mdot. cbn [qx qy qz qE]. change (qE (cm_vec k)) with e. ring. }
    assert (EV : 0 <= qE v).
    { apply lboost_energy; [exact TP|ring|rewrite C; apply pow2_ge_0|]. change (0 <= e). lra. }
    split; [exact Kp|]. split; [split; [exact V|exact EV]|]. split; [split|].
    - rewrite mdot_psub, V, PV, <- Sm. nra.
    - set (w := mkP4 (- qx (cm_vec k)) (- qy (cm_vec k)) (- qz (cm_vec k)) (m - e)).
      assert (W : qE (psub P v) = qE (lboost P 1 w)).
      { unfold v, lboost, psub, w. cbn [qE qx qy qz]. fold m. change (qE (cm_vec k)) with e.
        field. lra. }
      rewrite W. apply lboost_energy; [exact TP|ring| |cbn [w qE]; unfold w; cbn [qE]; lra].
      unfold mdot, w. cbn [qx qy qz qE]. pose proof (cm_vec_p2 k) as Q.
      nra.
    - replace (direction k th ph e) with (lboost P (-1) v).
      { now apply lboost_rest_frame. }
      unfold v. replace (-1) with (- (1)) by ring. rewrite lboost_inv by (auto; ring).
      unfold cm_vec, direction. apply p4_eq; cbn [qx qy qz qE]; ring.
  Qed.
End TwoBody.

Lemma osqrt_some x : 0 < x -> osqrt x = Some (sqrt x).
Proof. intros L. unfold osqrt. now rewrite Rlt_bool_false by lra. Qed.

Lemma osqrt_none x : x < 0 -> osqrt x = None.
Proof. intros L. unfold osqrt. now rewrite Rlt_bool_true by lra. Qed.

(** ** C39: the reaction *)
Section Entrance.
  Context (mt mp T : R) (Ht : 0 < mt) (Hp : 0 <= mp) (HT : 0 <= T).
  Let pz := sqrt (T * (T + 2 * mp)).
  Let P := padd (mkP4 0 0 0 mt) (mkP4 0 0 pz (T + mp)).

  Lemma pz2 : pz ^ 2 = T * (T + 2 * mp).
  Proof using HT Hp. unfold pz. rewrite pow2_sqrt; [easy|]. apply Rmult_le_pos; lra. Qed.

  Lemma entrance_m2 : mdot P P = (mt + mp) ^ 2 + 2 * mt * T.
  Proof using HT Hp. pose proof pz2 as E. unfold mdot, P, padd. cbn [qx qy qz qE]. nra. Qed.

  Lemma entrance_timelike : timelike P.
  Proof using HT Hp Ht.
    split; [rewrite entrance_m2|unfold P; cbn [padd qE]; lra].
    assert (0 <= 2 * mt * T) by (apply Rmult_le_pos; lra).
    assert (0 < (mt + mp) ^ 2) by (apply pow_lt; lra). lra.
  Qed.

  Lemma osqrt_pz : osqrt (T * (T + 2 * mp)) = Some pz.
  Proof using HT Hp.
    unfold osqrt. rewrite Rlt_bool_false; [easy|]. apply Rmult_le_pos; lra.
  Qed.
End Entrance.

Section Reaction.
  Context (r : reaction) (T : R).
  Let mt := n_mass (r_target r). Let mp := n_mass (r_projectile r).
  Let me := n_mass (r_ejectile r). Let mr := n_mass (r_residual r).
  Context (Ht : 0 < mt) (Hp : 0 <= mp) (HT : 0 <= T).

  (** The invariant mass. *)
  Definition ecm : R := sqrt ((mt + mp) ^ 2 + 2 * mt * T).

  Lemma allowed_eq ex : reaction_allowed r T ex = Rlt_bool (me + mr + ex) ecm.
  Proof using HT Hp Ht.
    unfold reaction_allowed. fold mt mp me mr. rewrite osqrt_pz by auto. cbn [obind].
    unfold osqrt. rewrite pz2 by auto.
    replace ((mt + T + mp) ^ 2 - T * (T + 2 * mp)) with ((mt + mp) ^ 2 + 2 * mt * T) by ring.
    rewrite Rlt_bool_false; [easy|].
    assert (0 <= 2 * mt * T) by (apply Rmult_le_pos; lra). pose proof (pow2_ge_0 (mt + mp)). lra.
  Qed.

  Lemma ecm_pos : 0 < ecm /\ ecm ^ 2 = (mt + mp) ^ 2 + 2 * mt * T.
  Proof using HT Hp Ht.
    assert (0 <= 2 * mt * T) by (apply Rmult_le_pos; lra).
    assert (0 < (mt + mp) ^ 2) by (apply pow_lt; lra).
    unfold ecm. split; [apply sqrt_lt_R0; lra|rewrite pow2_sqrt; lra].
  Qed.
End Reaction.

Theorem C39_reaction r T th ph ex vs :
  0 < n_mass (r_target r) -> 0 <= n_mass (r_projectile r) -> 0 <= n_mass (r_ejectile r) ->
  0 <= n_mass (r_residual r) + ex -> 0 <= T ->
  reaction_allowed r T ex = true ->
  reaction_calculate r T th ph ex = Ok vs ->
  exists t p e s k ecm, vs = [Some t; Some p; Some e; Some s] /\
    t = mkP4 0 0 0 (n_mass (r_target r)) /\
    on_shell (n_mass (r_projectile r)) p /\ qE p = T + n_mass (r_projectile r) /\
    qx p = 0 /\ qy p = 0 /\ 0 <= qz p /\
    padd t p = padd e s /\
    on_shell (n_mass (r_ejectile r)) e /\ on_shell (n_mass (r_residual r) + ex) s /\
    0 < k /\ in_rest_frame (padd t p) e (direction k th ph ecm).
Proof.
  intros Ht Hp He Hr HT A. rewrite allowed_eq in A by auto.
  destruct (Rlt_bool_spec (n_mass (r_ejectile r) + n_mass (r_residual r) + ex) (ecm r T)) as [L|]; [|discriminate].
  clear A. unfold reaction_calculate.
  set (mt := n_mass (r_target r)) in *. set (mp := n_mass (r_projectile r)) in *.
  set (me := n_mass (r_ejectile r)) in *. set (mr := n_mass (r_residual r)) in *.
  destruct (pydivR _ _) as [thr|]; [|discriminate]. cbn [bind].
  destruct (Rlt_bool T thr); [discriminate|].
  rewrite osqrt_pz by auto. cbn [obind].
  set (pz := sqrt (T * (T + 2 * mp))). set (p := mkP4 0 0 pz (T + mp)). set (t := mkP4 0 0 0 mt).
  pose proof (entrance_timelike mt mp T Ht Hp HT) as TL. fold pz p t in TL.
  set (P := padd t p) in *.
  assert (EM : sqrt (mdot P P) = ecm r T).
  { unfold ecm. f_equal. exact (entrance_m2 mt mp T Hp HT). }
  rewrite boostCM_eq by auto. cbn [obind]. rewrite lboost_self by auto. cbn [qE].
  assert (HL : me + (mr + ex) < sqrt (mdot P P)) by lra.
  destruct (e_range P me (mr + ex) TL He Hr HL) as (E1 & E2 & E3).
  destruct (two_body P me (mr + ex) th ph TL He Hr HL) as (K & S1 & S2 & RF).
  rewrite (osqrt_some _ E3). cbn [obind].
  rewrite boost_eq by auto. cbn [obind].
  intros V. apply (f_equal (fun x => match x with Ok l => l | Err _ => [] end)) in V.
  cbv beta iota in V. subst vs.
  eexists t, p, _, _, _, _. split; [reflexivity|]. split; [reflexivity|].
  split. { split; [|unfold p; cbn [qE]; lra]. pose proof (pz2 mp T Hp HT) as E.
           fold pz in E. unfold p, mdot. cbn [qx qy qz qE]. nra. }
  split; [reflexivity|]. split; [reflexivity|]. split; [reflexivity|].
  split; [apply sqrt_pos|].
  split. { fold P. apply p4_eq; cbn [padd psub qx qy qz qE]; ring. }
  split; [exact S1|]. split; [exact S2|]. split; [exact K|exact RF].
Qed.

(** ** C40: two different thresholds *)
(** The smallest energy at which the products can be made: invariant mass = sum of masses. *)
Definition exact_threshold (r : reaction) (ex : R) : R :=
  ((n_mass (r_ejectile r) + n_mass (r_residual r) + ex) ^ 2
   - (n_mass (r_target r) + n_mass (r_projectile r)) ^ 2) / (2 * n_mass (r_target r)).
(** The mass excess of the exit channel in the ground state, and with the excitation. *)
Definition deficit (r : reaction) (ex : R) : R :=
  n_mass (r_ejectile r) + n_mass (r_residual r) + ex
  - (n_mass (r_target r) + n_mass (r_projectile r)).

Theorem C40_allowed_is_exact r T ex :
  0 < n_mass (r_target r) -> 0 <= n_mass (r_projectile r) -> 0 <= T ->
  0 <= n_mass (r_ejectile r) + n_mass (r_residual r) + ex ->
  reaction_allowed r T ex = true <-> exact_threshold r ex < T.
Proof.
  intros Ht Hp HT Ho. rewrite allowed_eq by auto.
  destruct (ecm_pos r T Ht Hp HT) as [Pc Sc]. unfold exact_threshold.
  set (mt := n_mass (r_target r)) in *. set (mp := n_mass (r_projectile r)) in *.
  set (o := n_mass (r_ejectile r) + n_mass (r_residual r) + ex) in *.
  assert (X : (o ^ 2 - (mt + mp) ^ 2) / (2 * mt) * (2 * mt) = o ^ 2 - (mt + mp) ^ 2) by (field; lra).
  destruct (Rlt_bool_spec o (ecm r T)) as [L|L]; split; try easy.
  - intros _. assert (o ^ 2 < ecm r T ^ 2) by nra.
    apply Rmult_lt_reg_r with (2 * mt); [lra|]. lra.
  - intros Y. assert (ecm r T ^ 2 <= o ^ 2) by nra.
    apply Rmult_lt_compat_r with (r := 2 * mt) in Y; [|lra]. lra.
Qed.

(** What [reaction_calculate] compares with. *)
Lemma refused_iff r T th ph ex :
  n_mass (r_projectile r) < n_mass (r_ejectile r) + n_mass (r_residual r) ->
  let d := n_mass (r_ejectile r) + n_mass (r_residual r) - n_mass (r_projectile r) in
  (reaction_calculate r T th ph ex = Err ValueError <->
   T * d < deficit r ex * (n_mass (r_ejectile r) + n_mass (r_residual r))) /\
  (~ T * d < deficit r ex * (n_mass (r_ejectile r) + n_mass (r_residual r)) ->
   exists vs, reaction_calculate r T th ph ex = Ok vs).
Proof.
  intros Hm d. unfold reaction_calculate, pydivR.
  set (mt := n_mass (r_target r)) in *. set (mp := n_mass (r_projectile r)) in *.
  set (me := n_mass (r_ejectile r)) in *. set (mr := n_mass (r_residual r)) in *.
  rewrite Req_bool_false by lra. cbn [bind].
  set (thr := - (mt + mp - (me + mr + ex)) * (me + mr) / (me + mr - mp)).
  assert (X : thr * d = deficit r ex * (me + mr)).
  { unfold thr, d, deficit. fold mt mp me mr. field. lra. }
  rewrite <- X. assert (Pd : 0 < d) by (unfold d; lra).
  destruct (Rlt_bool_spec T thr) as [L|L].
  - split; [|intros N; exfalso; apply N; apply Rmult_lt_compat_r; lra].
    split; [|easy]. intros _. apply Rmult_lt_compat_r; lra.
  - split; [|intros _; eexists; reflexivity]. split; [discriminate|].
    intros N. apply Rmult_lt_reg_r in N; lra.
Qed.

(** No disagreement to the caller's harm when the ground state is endothermic, or when the excited
    reaction is still exothermic. *)
Theorem C40_allowed_is_calculated r T th ph ex :
  0 < n_mass (r_target r) -> 0 <= n_mass (r_projectile r) -> 0 <= T ->
  n_mass (r_projectile r) < n_mass (r_ejectile r) + n_mass (r_residual r) ->
  0 <= n_mass (r_ejectile r) + n_mass (r_residual r) + ex ->
  0 <= deficit r 0 \/ deficit r ex <= 0 ->
  reaction_allowed r T ex = true ->
  exists vs, reaction_calculate r T th ph ex = Ok vs.
Proof.
  intros Ht Hp HT Hm Ho C A. apply C40_allowed_is_exact in A; auto.
  apply (refused_iff r T th ph ex Hm). unfold exact_threshold in A. unfold deficit in *.
  set (mt := n_mass (r_target r)) in *. set (mp := n_mass (r_projectile r)) in *.
  set (me := n_mass (r_ejectile r)) in *. set (mr := n_mass (r_residual r)) in *.
  apply Rmult_lt_compat_r with (r := 2 * mt) in A; [|lra].
  replace (((me + mr + ex) ^ 2 - (mt + mp) ^ 2) / (2 * mt) * (2 * mt))
    with ((me + mr + ex - (mt + mp)) * (me + mr + ex + (mt + mp))) in A by (field; lra).
  set (q := me + mr + ex - (mt + mp)) in *.
  assert (D : 0 < me + mr - mp) by lra.
  apply Rle_not_lt. destruct (Rle_or_lt q 0) as [Q|Q].
  - assert (0 <= T * (me + mr - mp)) by (apply Rmult_le_pos; lra).
    assert (q * (me + mr) <= 0) by nra. lra.
  - destruct C as [C|C]; [|lra].
    (* q (me+mr) (2 mt) <= q (o + mt + mp) (me+mr-mp) <= 2 mt T (me+mr-mp) *)
    apply Rmult_le_reg_r with (2 * mt); [lra|].
    assert (Y : (me + mr) * (2 * mt) <= (me + mr + ex + (mt + mp)) * (me + mr - mp)).
    { assert (me + mr + ex = q + (mt + mp)) by (unfold q; ring).
      assert (0 <= q * (me + mr - mp)) by (apply Rmult_le_pos; lra). nra. }
    assert (q * ((me + mr) * (2 * mt)) <= q * ((me + mr + ex + (mt + mp)) * (me + mr - mp)))
      by (apply Rmult_le_compat_l; lra).
    assert (q * (me + mr + ex + (mt + mp)) * (me + mr - mp) <= T * (2 * mt) * (me + mr - mp))
      by (apply Rmult_le_compat_r; lra). lra.
Qed.

(** For the other reactions (exothermic, to a state above the Q value) there are beam energies that
    is_excitation_allowed accepts and calculate refuses exactly near the threshold. *)
Theorem C40_window r ex :
  0 < n_mass (r_target r) -> 0 < n_mass (r_projectile r) ->
  n_mass (r_projectile r) < n_mass (r_ejectile r) + n_mass (r_residual r) ->
  0 <= n_mass (r_ejectile r) + n_mass (r_residual r) + ex ->
  0 < deficit r ex ->
  (exists T, 0 <= T /\ reaction_allowed r T ex = true /\
     forall th ph, reaction_calculate r T th ph ex = Err ValueError) <->
  deficit r ex * (n_mass (r_ejectile r) + n_mass (r_residual r) - n_mass (r_projectile r))
    < - (2 * n_mass (r_projectile r) * deficit r 0).
Proof.
  intros Ht Hp Hm Ho Q.
  assert (ET : 0 <= exact_threshold r ex).
  { unfold exact_threshold, deficit in *. unfold Rdiv. apply Rmult_le_pos.
    - set (a := n_mass (r_ejectile r) + n_mass (r_residual r) + ex) in *.
      set (b := n_mass (r_target r) + n_mass (r_projectile r)) in *. assert (0 < b) by (unfold b; lra). nra.
    - apply Rlt_le, Rinv_0_lt_compat. lra. }
  assert (X : exact_threshold r ex * (2 * n_mass (r_target r))
            = deficit r ex * (deficit r ex + 2 * (n_mass (r_target r) + n_mass (r_projectile r)))).
  { unfold exact_threshold, deficit. field. lra. }
  assert (D0 : n_mass (r_ejectile r) + n_mass (r_residual r)
     = deficit r 0 + (n_mass (r_target r) + n_mass (r_projectile r))) by (unfold deficit; ring).
  split.
  - intros (T & HT & A & B). specialize (B 0 0).
    apply C40_allowed_is_exact in A; [|lra..]. apply refused_iff in B; [|exact Hm].
    rewrite D0 in *. set (q := deficit r ex) in *. set (D := deficit r 0) in *.
    set (mt := n_mass (r_target r)) in *. set (mp := n_mass (r_projectile r)) in *.
    apply Rmult_lt_compat_r with (r := 2 * mt) in A; [|lra]. rewrite X in A.
    set (d := D + (mt + mp) - mp) in *. assert (Pd : 0 < d) by (unfold d; lra).
    apply Rmult_lt_compat_r with (r := 2 * mt) in B; [|lra].
    apply Rmult_lt_compat_r with (r := d) in A; [|lra].
    assert (Y : q * ((q + 2 * (mt + mp)) * d) < q * ((D + (mt + mp)) * (2 * mt))) by lra.
    apply Rmult_lt_reg_l in Y; [|exact Q]. unfold d in *. nra.
  - intros Y. rewrite D0 in Y.
    set (d := n_mass (r_ejectile r) + n_mass (r_residual r) - n_mass (r_projectile r)).
    set (c := deficit r ex * (n_mass (r_ejectile r) + n_mass (r_residual r)) / d).
    assert (Pd : 0 < d) by (unfold d; lra).
    assert (C : exact_threshold r ex < c).
    { apply Rmult_lt_reg_r with (2 * n_mass (r_target r)); [lra|]. rewrite X. unfold c.
      apply Rmult_lt_reg_r with d; [exact Pd|].
      replace (deficit r ex * (n_mass (r_ejectile r) + n_mass (r_residual r)) / d * (2 * n_mass (r_target r)) * d)
        with (deficit r ex * ((n_mass (r_ejectile r) + n_mass (r_residual r)) * (2 * n_mass (r_target r))))
        by (field; lra).
      rewrite Rmult_assoc. apply Rmult_lt_compat_l; [exact Q|]. unfold d. rewrite D0. nra. }
    exists ((exact_threshold r ex + c) / 2). split; [lra|]. split.
    + apply C40_allowed_is_exact; lra.
    + intros th ph. apply refused_iff; [exact Hm|]. fold d.
      replace (deficit r ex * (n_mass (r_ejectile r) + n_mass (r_residual r))) with (c * d)
        by (unfold c; field; lra).
      apply Rmult_lt_compat_r; [exact Pd|lra].
Qed.

(** Below the exact threshold calculate can go through and return NaN for both products. *)
Theorem C40_below_threshold_nan r T th ph ex :
  0 < n_mass (r_target r) -> 0 <= n_mass (r_projectile r) -> 0 <= T ->
  0 < n_mass (r_ejectile r) -> 0 < n_mass (r_residual r) + ex ->
  n_mass (r_projectile r) < n_mass (r_ejectile r) + n_mass (r_residual r) ->
  T < exact_threshold r ex ->
  deficit r ex * (n_mass (r_ejectile r) + n_mass (r_residual r))
    <= T * (n_mass (r_ejectile r) + n_mass (r_residual r) - n_mass (r_projectile r)) ->
  n_mass (r_residual r) + ex - n_mass (r_ejectile r) < n_mass (r_target r) + n_mass (r_projectile r) ->
  n_mass (r_ejectile r) - (n_mass (r_residual r) + ex) < n_mass (r_target r) + n_mass (r_projectile r) ->
  reaction_allowed r T ex = false /\
  exists t p, reaction_calculate r T th ph ex = Ok [Some t; Some p; None; None].
Proof.
  intros Ht Hp HT He Hr Hm L N D1 D2. split.
  { destruct (reaction_allowed r T ex) eqn:A; [|easy].
    apply C40_allowed_is_exact in A; lra. }
  assert (X : exact_threshold r ex * (2 * n_mass (r_target r))
    = (n_mass (r_ejectile r) + n_mass (r_residual r) + ex) ^ 2
       - (n_mass (r_target r) + n_mass (r_projectile r)) ^ 2).
  { unfold exact_threshold. field. lra. }
  unfold deficit in N. unfold reaction_calculate, pydivR.
  set (mt := n_mass (r_target r)) in *. set (mp := n_mass (r_projectile r)) in *.
  set (me := n_mass (r_ejectile r)) in *. set (mr := n_mass (r_residual r)) in *.
  rewrite Req_bool_false by lra. cbn [bind].
  rewrite Rlt_bool_false.
  2:{ apply Rmult_le_reg_r with (me + mr - mp); [lra|].
      replace (- (mt + mp - (me + mr + ex)) * (me + mr) / (me + mr - mp) * (me + mr - mp))
        with ((me + mr + ex - (mt + mp)) * (me + mr)) by (field; lra). lra. }
  rewrite osqrt_pz by auto. cbn [obind].
  set (pz := sqrt (T * (T + 2 * mp))). set (p := mkP4 0 0 pz (T + mp)). set (t := mkP4 0 0 0 mt).
  pose proof (entrance_timelike mt mp T Ht Hp HT) as TL. fold pz p t in TL.
  set (P := padd t p) in *.
  assert (EM : mdot P P = (mt + mp) ^ 2 + 2 * mt * T) by exact (entrance_m2 mt mp T Hp HT).
  rewrite boostCM_eq by auto. cbn [obind]. rewrite lboost_self by auto. cbn [qE].
  destruct (sqrt_m P TL) as [Pm Sm]. set (m := sqrt (mdot P P)) in *.
  rewrite osqrt_none.
  { cbn [obind]. exists t, p. reflexivity. }
  set (m2 := mr + ex) in *.
  assert (L2 : m * m < (me + m2) ^ 2).
  { rewrite Sm, EM. apply Rmult_lt_compat_r with (r := 2 * mt) in L; [|lra]. rewrite X in L.
    unfold m2. replace (me + (mr + ex)) with (me + mr + ex) by ring. lra. }
  assert (L3 : (me - m2) ^ 2 < m * m).
  { rewrite Sm, EM. assert (0 <= 2 * mt * T) by (apply Rmult_le_pos; lra). nra. }
  assert (F : (((me ^ 2 - m2 ^ 2 + m ^ 2) / (2 * m)) ^ 2 - me ^ 2) * (2 * m) ^ 2
     = - (((me + m2) ^ 2 - m * m) * (m * m - (me - m2) ^ 2))) by (field; lra).
  assert (0 < ((me + m2) ^ 2 - m * m) * (m * m - (me - m2) ^ 2)) by (apply Rmult_lt_0_compat; lra).
  assert (0 < (2 * m) ^ 2) by (apply pow_lt; lra). nra.
Qed.

(** ** C41: the decay *)
Lemma M_timelike P : timelike P -> M P = sqrt (mdot P P).
Proof.
  intros [T _]. unfold M. assert (E : M2 P = mdot P P) by (unfold M2, mdot; ring). rewrite E.
  now rewrite Rlt_bool_false by lra.
Qed.

Theorem C41_decay d P th ph ex :
  timelike P -> 0 <= n_mass (d_res1 d) -> 0 <= n_mass (d_res2 d) + ex ->
  decay_allowed d P ex = true ->
  exists a b k e, decay_calculate d P th ph ex = Ok [Some P; Some a; Some b] /\
    P = padd a b /\ on_shell (n_mass (d_res1 d)) a /\ on_shell (n_mass (d_res2 d) + ex) b /\
    0 < k /\ in_rest_frame P a (direction k th ph e).
Proof.
  intros TL H1 H2 A. unfold decay_allowed, decay_calculate in *. rewrite M_timelike in * by auto.
  set (m1 := n_mass (d_res1 d)) in *. set (m2 := n_mass (d_res2 d)) in *.
  destruct (Rlt_bool_spec 0 (sqrt (mdot P P) - (m1 + m2 + ex))) as [L|]; [|discriminate].
  rewrite Rlt_bool_false by lra.
  rewrite boostCM_eq by auto. cbn [obind]. rewrite lboost_self by auto. cbn [qE].
  assert (HL : m1 + (m2 + ex) < sqrt (mdot P P)) by lra.
  destruct (e_range P m1 (m2 + ex) TL H1 H2 HL) as (E1 & E2 & E3).
  destruct (two_body P m1 (m2 + ex) th ph TL H1 H2 HL) as (K & S1 & S2 & RF).
  rewrite (osqrt_some _ E3). cbn [obind].
  rewrite boost_eq by auto. cbn [obind].
  eexists _, _, _, _. split; [reflexivity|].
  split. { apply p4_eq; cbn [padd psub qx qy qz qE]; ring. }
  split; [exact S1|]. split; [exact S2|]. split; [exact K|exact RF].
Qed.

Theorem C41_refused d P th ph ex : timelike P ->
  (decay_allowed d P ex = true <-> n_mass (d_res1 d) + n_mass (d_res2 d) + ex < sqrt (mdot P P)) /\
  (decay_calculate d P th ph ex = Err ValueError <->
   sqrt (mdot P P) < n_mass (d_res1 d) + n_mass (d_res2 d) + ex).
Proof.
  intros TL. unfold decay_allowed, decay_calculate. rewrite M_timelike by auto. split.
  - destruct (Rlt_bool_spec 0 (sqrt (mdot P P) - (n_mass (d_res1 d) + n_mass (d_res2 d) + ex)));
      split; try easy; intros; lra.
  - destruct (Rlt_bool_spec (sqrt (mdot P P) - (n_mass (d_res1 d) + n_mass (d_res2 d) + ex)) 0).
    + split; [intros _; lra|easy].
    + split; [discriminate|intros; lra].
Qed.

(** A vector that is not that of a massive particle never decays. *)
Theorem C41_not_massive d P th ph ex : mdot P P <= 0 ->
  0 < n_mass (d_res1 d) + n_mass (d_res2 d) + ex ->
  decay_allowed d P ex = false /\ decay_calculate d P th ph ex = Err ValueError.
Proof.
  intros L O. assert (E : M2 P = mdot P P) by (unfold M2, mdot; ring).
  assert (MP : M P <= 0).
  { unfold M. rewrite E. destruct (Rlt_bool_spec (mdot P P) 0) as [H|H].
    - pose proof (sqrt_pos (- mdot P P)). lra.
    - replace (mdot P P) with 0 by lra. rewrite sqrt_0. lra. }
  unfold decay_allowed, decay_calculate. split.
  - apply Rlt_bool_false. lra.
  - now rewrite Rlt_bool_true by lra.
Qed.

(** ** Witnesses *)
Definition ideal_table (z a : Z) : res nucleus := Ok (mkNucleus z a (939 * IZR a) "").
Definition nuc (m : R) : nucleus := mkNucleus 1 1 m "".

Example C38_example :
  faithful ideal_table /\
  (exists r, make_reaction ideal_table (mkNucleus 1 2 1875.6 "2H") (mkNucleus 6 15 13979.2 "15C")
                           (mkNucleus 1 3 2808.9 "3H") = Ok r /\
             n_Z (r_residual r) = 6%Z /\ n_A (r_residual r) = 14%Z) /\
  make_reaction ideal_table (nuc 1) (nuc 1) (mkNucleus 2 3 1 "3He") = Err ValueError /\
  make_decay ideal_table (nuc 1) (mkNucleus 2 1 1 "") = Err ValueError.
Proof.
  split; [intros z a n; unfold ideal_table; intros [= <-]; now split|].
  split; [eexists; split; [reflexivity|now split]|]. now split.
Qed.

(** 10B(3He,4He)9B to a state at 14.5 MeV, 3.0688 MeV beam: masses in MeV. *)
Definition b10 : reaction :=
  mkReaction (mkNucleus 5 10 9324.437 "10B") (mkNucleus 2 3 2808.392 "3He")
             (mkNucleus 2 4 3727.379 "4He") (mkNucleus 5 9 8393.308 "9B").

Theorem C40_allowed_but_refused_refuted : exists r T ex, 0 < T /\ 0 < ex /\
  reaction_allowed r T ex = true /\
  forall th ph, reaction_calculate r T th ph ex = Err ValueError.
Proof.
  exists b10, 3.0688, 14.5. split; [lra|]. split; [lra|]. split.
  - apply C40_allowed_is_exact; try (unfold b10; cbn [r_target r_projectile r_ejectile r_residual n_mass]; lra).
    unfold exact_threshold, b10. cbn [r_target r_projectile r_ejectile r_residual n_mass]. lra.
  - intros th ph. apply refused_iff; unfold deficit, b10;
      cbn [r_target r_projectile r_ejectile r_residual n_mass]; lra.
Qed.

Definition ones : reaction := mkReaction (nuc 1) (nuc 1) (nuc 1) (nuc 1).

Example C39_example : exists vs,
  reaction_allowed ones 1 0 = true /\ reaction_calculate ones 1 (PI / 3) 1 0 = Ok vs.
Proof.
  assert (A : reaction_allowed ones 1 0 = true).
  { apply C40_allowed_is_exact; unfold exact_threshold, ones, nuc;
      cbn [r_target r_projectile r_ejectile r_residual n_mass]; lra. }
  destruct (C40_allowed_is_calculated ones 1 (PI / 3) 1 0) as [vs V];
    try (unfold deficit, ones, nuc; cbn [r_target r_projectile r_ejectile r_residual n_mass]; lra); auto.
  now exists vs.
Qed.

Example C40_nan_example : reaction_allowed ones 2.2 1 = false /\
  exists t p, reaction_calculate ones 2.2 1 1 1 = Ok [Some t; Some p; None; None].
Proof.
  apply C40_below_threshold_nan; unfold exact_threshold, deficit, ones, nuc;
    cbn [r_target r_projectile r_ejectile r_residual n_mass]; lra.
Qed.

Example C41_example : let d := mkDecay (nuc 4) (nuc 1) (nuc 1) in let P := mkP4 0 0 3 5 in
  timelike P /\ decay_allowed d P 1 = true /\
  exists a b, decay_calculate d P 1 2 1 = Ok [Some P; Some a; Some b] /\ P = padd a b.
Proof.
  intros d P. assert (T : timelike P) by (unfold timelike, mdot, P; cbn [qx qy qz qE]; lra).
  assert (S : sqrt (mdot P P) = 4).
  { replace (mdot P P) with (4 * 4) by (unfold mdot, P; cbn [qx qy qz qE]; ring). apply sqrt_square. lra. }
  assert (A : decay_allowed d P 1 = true).
  { apply (proj2 (proj1 (C41_refused d P 0 0 1 T))). rewrite S. unfold d, nuc. cbn [d_res1 d_res2 n_mass]. lra. }
  split; [exact T|]. split; [exact A|].
  destruct (C41_decay d P 1 2 1) as (a & b & _ & _ & E & S' & _);
    try (unfold d, nuc; cbn [d_res1 d_res2 n_mass]; lra); auto.
  now exists a, b.
Qed.

Print Assumptions C39_reaction.
Print Assumptions C40_window.
Print Assumptions C41_decay.
