(** P_EventSymmetry.v -- C68: generated events have no preferred direction around the beam axis. *)
From Coq Require Import ZArith Reals Lia Lra List.
From Flocq Require Import Core.
From Verif Require Import Base Nucleus Reaction SpecReaction ReactionProofs P_Reaction Pipeline SpecPipeline PipelineProofs P_Pipeline.
Import ListNotations.
Local Open Scope R_scope.

(** A four-vector turned by the angle [a] around the z axis. *)
Definition turn (a : R) (p : p4) : p4 :=
  mkP4 (qx p * cos a - qy p * sin a) (qx p * sin a + qy p * cos a) (qz p) (qE p).
(** A sample with all azimuthal angles increased by [a]. *)
Definition turn_sample (a : R) (s : sample) : sample :=
  mkSample (s_energy s) (s_ex s) (s_theta s) (s_phi s + a) (s_vertex s)
           (s_decay_ex s) (s_decay_thetas s) (map (fun ph => ph + a) (s_decay_phis s)).
Definition turn_res (a : R) (m : res (list row)) : res (list row) :=
  match m with Ok l => Ok (map (option_map (turn a)) l) | Err x => Err x end.
Definition turn_verdict (a : R) (v : verdict) : verdict :=
  match v with Accept l => Accept (map (option_map (turn a)) l) | _ => v end.

Lemma cs1 a : cos a * cos a + sin a * sin a = 1.
Proof. pose proof (sin2_cos2 a) as H. unfold Rsqr in H. lra. Qed.
Lemma turn_dot a p q : mdot (turn a p) (turn a q) = mdot p q.
Proof.
  unfold mdot, turn. cbn [qx qy qz qE]. pose proof (cs1 a) as H.
  transitivity (qE p * qE q - (qx p * qx q * (cos a * cos a + sin a * sin a) + qy p * qy q * (cos a * cos a + sin a * sin a) + qz p * qz q)); [ring|].
  rewrite H. ring.
Qed.
Lemma turn_M a p : M (turn a p) = M p.
Proof.
  assert (E : forall q, M2 q = mdot q q) by (intros q; unfold M2, mdot; ring).
  unfold M. rewrite !E, turn_dot. reflexivity.
Qed.
Lemma turn_psub a p q : turn a (psub p q) = psub (turn a p) (turn a q).
Proof. apply p4_eq; unfold turn, psub; cbn [qx qy qz qE]; ring. Qed.

Lemma boost_beta_turn a bx b_y bz v :
  boost_beta (bx * cos a - b_y * sin a) (bx * sin a + b_y * cos a) bz (turn a v)
  = option_map (turn a) (boost_beta bx b_y bz v).
Proof.
  unfold boost_beta. pose proof (cs1 a) as H. cbv zeta.
  replace ((bx * cos a - b_y * sin a) ^ 2 + (bx * sin a + b_y * cos a) ^ 2 + bz ^ 2) with (bx ^ 2 + b_y ^ 2 + bz ^ 2).
  2:{ transitivity (bx ^ 2 * (cos a * cos a + sin a * sin a) + b_y ^ 2 * (cos a * cos a + sin a * sin a) + bz ^ 2); [rewrite H|]; ring. }
  destruct (Rle_bool 1 _); [reflexivity|]. cbn [option_map].
  set (gam := / sqrt _). set (bg := gam ^ 2 / (1 + gam)). cbn [turn qx qy qz qE].
  replace ((bx * cos a - b_y * sin a) * (qx v * cos a - qy v * sin a) + (bx * sin a + b_y * cos a) * (qx v * sin a + qy v * cos a) + bz * qz v)
    with (bx * qx v + b_y * qy v + bz * qz v).
  2:{ transitivity (bx * qx v * (cos a * cos a + sin a * sin a) + b_y * qy v * (cos a * cos a + sin a * sin a) + bz * qz v); [rewrite H|]; ring. }
  f_equal. apply p4_eq; unfold turn; cbn [qx qy qz qE]; ring.
Qed.
Lemma boost_turn a p v : boost (turn a p) (turn a v) = option_map (turn a) (boost p v).
Proof.
  unfold boost. change (qE (turn a p)) with (qE p). destruct (Req_bool (qE p) 0); [reflexivity|].
  rewrite <- boost_beta_turn. unfold turn at 1 2 3; cbn [qx qy qz qE]. f_equal; unfold Rdiv; ring.
Qed.
Lemma boostCM_turn a p v : boostCM_of (turn a p) (turn a v) = option_map (turn a) (boostCM_of p v).
Proof.
  unfold boostCM_of. change (qE (turn a p)) with (qE p). destruct (Req_bool (qE p) 0); [reflexivity|].
  rewrite <- boost_beta_turn. unfold turn at 1 2 3; cbn [qx qy qz qE]. f_equal; unfold Rdiv; ring.
Qed.
Lemma turn_direction a k th ph e :
  mkP4 (k * sin th * cos (ph + a)) (k * sin th * sin (ph + a)) (k * cos th) e
  = turn a (mkP4 (k * sin th * cos ph) (k * sin th * sin ph) (k * cos th) e).
Proof. unfold turn. cbn [qx qy qz qE]. rewrite cos_plus, sin_plus. f_equal; ring. Qed.

(** C68: turning the ejectile turns ejectile and residual. *)
Theorem C68_reaction r T th ph ex a :
  reaction_calculate r T th (ph + a) ex = turn_res a (reaction_calculate r T th ph ex).
Proof.
  unfold reaction_calculate. cbv zeta. destruct (pydivR _ _) as [thr|x]; [|reflexivity]. cbn [bind].
  destruct (Rlt_bool T thr); [reflexivity|]. unfold turn_res.
  assert (Z : forall z e, turn a (mkP4 0 0 z e) = mkP4 0 0 z e) by (intros; apply p4_eq; cbn; ring).
  destruct (osqrt (T * _)) as [pz|]; cbn [obind map option_map]; rewrite ?Z; [|reflexivity].
  set (P := padd _ _). assert (ZP : turn a P = P) by (unfold P, padd; cbn [qx qy qz qE]; apply p4_eq; cbn; ring).
  destruct (boostCM_of P P) as [c|]; cbn [obind map option_map]; [|reflexivity].
  destruct (osqrt (_ ^ 2 - _)) as [k|]; cbn [obind map option_map]; [|reflexivity].
  assert (BP : forall x, boost P (turn a x) = option_map (turn a) (boost P x)).
  { intros x. rewrite <- ZP at 1. apply boost_turn. }
  rewrite !turn_direction, !BP.
  destruct (boost P _) as [e|]; cbn [obind map option_map]; [|reflexivity].
  now rewrite turn_psub, ZP.
Qed.

(** C68: turning the parent and the direction of the first product turns both products. *)
Theorem C68_decay d P th ph ex a :
  decay_allowed d (turn a P) ex = decay_allowed d P ex /\
  decay_calculate d (turn a P) th (ph + a) ex = turn_res a (decay_calculate d P th ph ex).
Proof.
  split; [unfold decay_allowed; now rewrite turn_M|].
  unfold decay_calculate. cbv zeta. rewrite turn_M. destruct (Rlt_bool _ 0); [reflexivity|]. unfold turn_res.
  rewrite boostCM_turn. destruct (boostCM_of P P) as [c|]; cbn [obind map option_map]; [|reflexivity].
  change (qE (turn a c)) with (qE c).
  destruct (osqrt (_ ^ 2 - _)) as [k|]; cbn [obind map option_map]; [|reflexivity].
  rewrite turn_direction, boost_turn.
  destruct (boost P _) as [e|]; cbn [obind map option_map]; [|reflexivity].
  now rewrite turn_psub.
Qed.

Lemma turn_row_allowed d P ex a : decay_allowed_row d (option_map (turn a) P) ex = decay_allowed_row d P ex.
Proof. destruct P as [P|]; [exact (proj1 (C68_decay d P 0 0 ex a))|reflexivity]. Qed.
Lemma turn_row_calculate d P th ph ex a :
  decay_calculate_row d (option_map (turn a) P) th (ph + a) ex = turn_res a (decay_calculate_row d P th ph ex).
Proof. destruct P as [P|]; [exact (proj2 (C68_decay d P th ph ex a))|reflexivity]. Qed.

Definition turn_param (a : R) (p : R * R * R) : R * R * R := (fst p, snd p + a).
Lemma decays_turn a ds ps P v : decays_verdict ds ps P v ->
  decays_verdict ds (map (turn_param a) ps) (option_map (turn a) P) (turn_verdict a v).
Proof.
  induction 1; cbn [map turn_param fst snd].
  - constructor.
  - constructor. now rewrite turn_row_allowed.
  - apply DV_raise; [now rewrite turn_row_allowed|]. rewrite turn_row_calculate.
    cbn [snd]. now rewrite H0.
  - replace (turn_verdict a match v with Accept rows => Accept (a0 :: b :: rows) | _ => v end)
      with (match turn_verdict a v with
            | Accept rows => Accept (option_map (turn a) a0 :: option_map (turn a) b :: rows)
            | _ => turn_verdict a v end) by (destruct v; reflexivity).
    eapply DV_step; [now rewrite turn_row_allowed| |exact IHdecays_verdict].
    rewrite turn_row_calculate. cbn [snd]. rewrite H0. reflexivity.
Qed.

(** C68: whole events. *)
Theorem C68_events r ds s v a : sample_verdict r ds s v ->
  sample_verdict r ds (turn_sample a s) (turn_verdict a v).
Proof.
  assert (Pa : decay_params (turn_sample a s) = map (turn_param a) (decay_params s)).
  { unfold decay_params, turn_sample. cbn [s_decay_ex s_decay_thetas s_decay_phis].
    set (l := combine (s_decay_ex s) (s_decay_thetas s)). clearbody l. generalize (s_decay_phis s). clear.
    induction l as [|x l IH]; intros [|y k]; try reflexivity. cbn [map combine]. now rewrite IH. }
  intros V. inversion V as [A|x A C|t p e q w A C D].
  - apply SV_reject. exact A.
  - apply SV_raise; [exact A|]. cbn [turn_sample s_energy s_theta s_phi s_ex]. rewrite C68_reaction, C. reflexivity.
  - replace (turn_verdict a match w with Accept rows => Accept (t :: p :: e :: q :: rows) | _ => w end)
      with (match turn_verdict a w with
            | Accept rows => Accept (option_map (turn a) t :: option_map (turn a) p :: option_map (turn a) e :: option_map (turn a) q :: rows)
            | _ => turn_verdict a w end) by (destruct w; reflexivity).
    eapply SV_step; [exact A| |rewrite Pa; apply decays_turn; exact D].
    cbn [turn_sample s_energy s_theta s_phi s_ex]. rewrite C68_reaction, C. reflexivity.
Qed.

(** C68: what a detector measures without regard to the azimuth -- energies and longitudinal
    momenta of all rows -- depends on the differences of the azimuthal angles only; those of
    the reaction products not on the azimuth at all. *)
Theorem C68_energies r T th ph ph' ex vs vs' :
  reaction_calculate r T th ph ex = Ok vs -> reaction_calculate r T th ph' ex = Ok vs' ->
  map (option_map qE) vs = map (option_map qE) vs' /\ map (option_map qz) vs = map (option_map qz) vs'.
Proof.
  intros E E'. replace ph' with (ph + (ph' - ph)) in E' by ring. rewrite C68_reaction, E in E'. cbn [turn_res] in E'.
  assert (Q : vs' = map (option_map (turn (ph' - ph))) vs) by congruence. rewrite Q, !map_map.
  split; apply map_ext; intros [p|]; reflexivity.
Qed.

(** The chain 4 + 1 -> 1 + 4, 4 -> 1 + 2 of P_Pipeline.v, as it is and turned by a right angle. *)
Example C68_example : exists rows, sample_verdict chain_r [chain_d] (chain_s 1) (Accept rows) /\
  sample_verdict chain_r [chain_d] (turn_sample (PI / 2) (chain_s 1)) (Accept (map (option_map (turn (PI / 2))) rows)) /\
  turn (PI / 2) (mkP4 1 2 3 4) = mkP4 (-2) 1 3 4.
Proof.
  destruct (chain_accepted 1 ltac:(lra)) as [rows V]. exists rows. split; [exact V|].
  split; [exact (C68_events _ _ _ _ (PI / 2) V)|].
  unfold turn. cbn [qx qy qz qE]. rewrite cos_PI2, sin_PI2. f_equal; ring.
Qed.
Print Assumptions C68_reaction.
Print Assumptions C68_decay.
Print Assumptions C68_events.
Print Assumptions C68_energies.
