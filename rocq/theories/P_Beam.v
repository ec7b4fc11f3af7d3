(** P_Beam.v -- C74: how far into the target material reactions happen. *)
From Coq Require Import ZArith Reals Lra Lia String List.
From Flocq Require Import Core.
From Verif Require Import Base Nucleus Reaction SpecReaction ReactionProofs P_Reaction Pipeline SpecPipeline
  PipelineProofs P_Pipeline Sampling P_Sampling Simulator KinFile SpecKinFile P_KinFile P_Generate.
Local Open Scope R_scope.
Local Open Scope list_scope.

Section Beam.
  Context {G : Type} (unit_draw normal_draw : G -> R * G) (bw_draw : R -> G -> R * G).
  Context (U : forall g, 0 <= fst (unit_draw g) < 1).
  Context (beam : R) (t : target) (exs : list excitation) (pols : list polar).
  Context (pl : pipeline) (loc : nat) (zs ms : list Z) (cs : Z) (Hcs : (1 <= cs)%Z).
  Context (Hex : length exs = S (length (pl_decays pl))).
  Notation draw := (sample_pipeline unit_draw normal_draw bw_draw beam (Some t) exs pols (pl_decays pl)).
  Notation r := (pl_reaction pl).

  (** C74: every event in a generated file has its vertex within the z range of the target, and at
      a depth at which the beam, slowed down on the way there, is still above the threshold of the
      reaction to the sampled excitation.  So no event lies at or beyond a depth at which the beam
      has dropped to that threshold; where the reaction needs energy the beam has not stopped. *)
  Theorem C74_depth n m g d e :
    (0 <= e < n)%Z -> buffer_ok pl loc m ->
    0 < n_mass (r_target r) -> 0 <= n_mass (r_projectile r) ->
    (forall z, t_loss t beam z <= beam) -> (forall z z', z <= z' -> t_loss t beam z <= t_loss t beam z') ->
    run_kinematics_pipeline (generate draw pl loc) zs ms cs n (m, g) = (d, Ok tt) ->
    exists rows x y z ex, read_event d cs e = Ok (rows, (Some x, Some y, Some z)) /\
      t_zmin t <= z <= t_zmax t /\
      (0 <= n_mass (r_ejectile r) + n_mass (r_residual r) + ex ->
         exact_threshold r ex < beam - t_loss t beam z /\
         (0 <= deficit r ex -> t_loss t beam z < beam) /\
         (forall z0, beam - t_loss t beam z0 <= exact_threshold r ex -> z < z0)) /\
      nth_error rows 1 = Some (mkMom (Some 0) (Some 0)
        (Some (sqrt ((beam - t_loss t beam z) * (beam - t_loss t beam z + 2 * n_mass (r_projectile r)))))
        (Some (beam - t_loss t beam z + n_mass (r_projectile r)))).
  Proof using U Hcs Hex.
    intros He B Ht Hp Hl Mono R.
    assert (WF : forall g s g', draw g = (Ok s, g') -> well_formed (pl_decays pl) s).
    { intros g0 s g' E. apply C52_sample_is_complete in E; [apply E|exact U|exact Hex]. }
    apply (C57_events draw pl loc WF zs ms cs Hcs) in R; [|lia|exact B]. destruct R as (hs & g' & L & F & D & RE).
    destruct (nth_error hs (Z.to_nat e)) as [h|] eqn:N; [|apply nth_error_None in N; lia].
    specialize (RE _ _ N). rewrite Z2Nat.id in RE by lia.
    rewrite Forall_forall in F. destruct (F h (nth_error_In _ _ N)) as (_ & _ & V).
    assert (I : In (h_sample h) (all_draws hs)).
    { unfold all_draws. apply in_flat_map. exists h. split; [eapply nth_error_In; eauto|].
      apply in_or_app. right. now left. }
    assert (Dh : exists g0 g1, draw g0 = (Ok (h_sample h), g1)).
    { clear - D I. induction D as [|? ? ? ? ? Ds D IH]; [destruct I|]. destruct I as [->|I]; eauto. }
    destruct Dh as (g0 & g1 & Dh). apply C52_sample_is_complete in Dh; [|exact U|exact Hex].
    destruct Dh as (_ & _ & g2 & Vx). apply C52_vertex in Vx; [|exact U].
    destruct Vx as (x & y & z & nn & gn & Ev & _ & _ & Rz & Een).
    set (s := h_sample h) in *. set (T := beam - t_loss t beam z) in *.
    assert (T0 : 0 <= T) by (unfold T; specialize (Hl z); lra).
    inversion V as [| |tv pv ev qv w A C Dv EV]. destruct w as [rs| |xx]; try discriminate EV.
    assert (ER : h_rows h = tv :: pv :: ev :: qv :: rs) by congruence.
    exists (map file_row (h_rows h)), x, y, z, (s_ex s). rewrite RE, Ev. split; [reflexivity|]. split; [exact Rz|]. split.
    - intros Ho. rewrite Een in A. pose proof A as A1. apply (C40_allowed_is_exact r T (s_ex s) Ht Hp T0 Ho) in A1.
      split; [exact A1|]. split.
      + intros Hd. unfold deficit in Hd. unfold exact_threshold in A1.
        set (o := n_mass (r_ejectile r) + n_mass (r_residual r) + s_ex s) in *.
        set (i := n_mass (r_target r) + n_mass (r_projectile r)) in *.
        assert (Pi : 0 < i) by (unfold i; lra).
        assert (0 <= (o ^ 2 - i ^ 2) / (2 * n_mass (r_target r))).
        { unfold Rdiv. apply Rmult_le_pos; [|left; apply Rinv_0_lt_compat; lra].
          replace (o ^ 2 - i ^ 2) with ((o - i) * (o + i)) by ring. apply Rmult_le_pos; lra. }
        unfold T in A1. lra.
      + intros z0 Hz. destruct (Rlt_le_dec z z0) as [Lz|Lz]; [exact Lz|exfalso]. specialize (Mono _ _ Lz). unfold T in A1. lra.
    - rewrite ER. cbn [map nth_error]. f_equal.
      rewrite Een in C. unfold reaction_calculate in C.
      destruct (pydivR _ _) as [thr|]; [|discriminate]. cbn [bind] in C. destruct (Rlt_bool T thr); [discriminate|].
      assert (Ep : pv = (let? pz := osqrt (T * (T + 2 * n_mass (r_projectile r))) in Some (mkP4 0 0 pz (T + n_mass (r_projectile r))))).
      { apply (f_equal (fun q => match q with Ok (_ :: p :: _) => p | _ => None end)) in C. symmetry. exact C. }
      rewrite Ep. unfold osqrt. rewrite Rlt_bool_false by (apply Rmult_le_pos; lra). reflexivity.
  Qed.
End Beam.

(** ** A reaction that sets energy free happens also where the beam has stopped. *)
(** 3 + 1 -> 1 + 1 in a material in which a beam of energy 2 stops after half a unit of length. *)
Definition free : reaction := mkReaction (nuc 3) (nuc 1) (nuc 1) (nuc 1).
Definition thick : target := mkTarget (fun e z => Rmin e (4 * z)) 0 2 3.
Definition free_pl : pipeline := mkPipeline free [] 10 [].
Notation free_draw := (sample_pipeline half_draw low_draw (fun _ => half_draw) 2 (Some thick) [ExUniform 0 0] [PolarUniform 0 PI] []).

Lemma free_sample : exists s, free_draw 0%nat = (Ok s, 6%nat) /\ s_energy s = 0 /\ s_ex s = 0 /\ s_vertex s = (-3, 0, 1) /\ s_decay_ex s = [].
Proof.
  pose proof PI_RGT_0 as P.
  unfold sample_pipeline, sample_vertex. cbn [py_index length Nat.sub seq map rmap].
  unfold rbind, uniform, normal, random, ret, lift, fail, sample_excitation, sample_polar, uniform, normal, rbind, random, ret.
  cbn [thick t_rho_sigma t_zmin t_zmax t_loss]. rewrite !Rlt_bool_false; try lra.
  cbn [half_draw low_draw fst snd].
  change (py_index [ExUniform 0 0] 0) with (Ok (ExUniform 0 0)).
  change (py_index [PolarUniform 0 PI] 0) with (Ok (PolarUniform 0 PI)).
  cbn [half_draw low_draw fst snd]. rewrite !Rlt_bool_false; try lra; try (rewrite cos_0, cos_PI; lra).
  cbn [half_draw low_draw fst snd].
  eexists. split; [reflexivity|]. cbn [s_energy s_ex s_vertex s_decay_ex]. repeat split.
  - rewrite Rmin_left; lra.
  - ring.
  - replace (0 + (2 * PI - 0) * (1 / 2)) with PI by lra. rewrite cos_PI, sin_PI.
    replace (0 + 3 * -1) with (-3) by ring. rewrite Rabs_left by lra. f_equal; [f_equal|]; lra.
Qed.

(** C74: an event whose projectile is at rest, at a depth the beam never reaches moving. *)
Theorem C74_stopped_beam_refuted : exists d rows,
  run_kinematics_pipeline (generate free_draw free_pl 0) [1; 1; 1; 1]%Z [1; 1; 1; 1]%Z 1 1
    ((fun _ => repeat None 4), 0%nat) = (d, Ok tt) /\
  read_event d 1 0 = Ok (rows, (Some (-3), Some 0, Some 1)) /\
  nth_error rows 1 = Some (mkMom (Some 0) (Some 0) (Some 0) (Some 1)) /\
  t_loss thick 2 1 = 2 /\ (forall z, 0 <= t_loss thick 2 (Rmax 0 z) <= 2) /\ (forall z z', z <= z' -> t_loss thick 2 z <= t_loss thick 2 z').
Proof.
  destruct free_sample as (s & D & Se & Sx & Sv & Sd).
  assert (WF : forall g s g', free_draw g = (Ok s, g') -> well_formed (pl_decays free_pl) s).
  { intros g s1 g' E. apply C52_sample_is_complete in E; [apply E|apply half_draw_ok|reflexivity]. }
  pose proof (WF _ _ _ D) as W.
  destruct (verdict_exists free_pl s W) as [v V]. cbn [free_pl pl_reaction pl_decays] in V.
  assert (M : massive free [] s).
  { unfold massive, massive_decays, free, nuc. cbn [r_target r_projectile r_ejectile r_residual n_mass combine].
    rewrite Se, Sx. repeat split; try lra. constructor. }
  destruct (C47_accepted_iff _ _ _ _ M V) as [[_ I] _]. destruct I as [rows ->].
  { assert (EX : exact_threshold free (s_ex s) < s_energy s).
    { rewrite Se, Sx. unfold exact_threshold, free, nuc. cbn [r_target r_projectile r_ejectile r_residual n_mass]. lra. }
    split; [exact EX|]. split; [|exact I].
    apply C40_allowed_is_calculated; rewrite ?Se, ?Sx; unfold deficit, free, nuc;
      cbn [r_target r_projectile r_ejectile r_residual n_mass]; try lra.
    apply C40_allowed_is_exact; cbn [r_target r_projectile r_ejectile r_residual n_mass]; try lra.
    rewrite Se, Sx in EX. exact EX. }
  set (hs := [mkHistory [] s rows]).
  assert (Hl : forall z, t_loss thick 2 z <= 2) by (intros z; apply Rmin_l).
  assert (Hm : forall z z', z <= z' -> t_loss thick 2 z <= t_loss thick 2 z').
  { intros z z' L. cbn [thick t_loss]. apply Rle_min_compat_l. lra. }
  assert (R : run_kinematics_pipeline (generate free_draw free_pl 0) [1; 1; 1; 1]%Z [1; 1; 1; 1]%Z 1 1
    ((fun _ => repeat None 4), 0%nat) = (finished_file [1; 1; 1; 1]%Z [1; 1; 1; 1]%Z 1 (map as_event hs), Ok tt)).
  { apply (C57_succeeds free_draw free_pl 0 WF _ _ 1 ltac:(lia) 1 _ 0%nat hs 6%nat); [reflexivity|reflexivity| |].
    - constructor; [|constructor]. split; [constructor|]. split; [cbn; lia|exact V].
    - cbn [hs all_draws flat_map h_rejected h_sample app]. eapply D_cons; [exact D|]. constructor. }
  destruct (C74_depth half_draw low_draw (fun _ => half_draw) half_draw_ok 2 thick [ExUniform 0 0] [PolarUniform 0 PI]
              free_pl 0 _ _ 1 ltac:(lia) eq_refl 1 (fun _ => repeat None 4) 0%nat _ 0 ltac:(lia) ltac:(reflexivity) ltac:(cbn; lra) ltac:(cbn; lra) Hl Hm R)
    as (rows' & x & y & z & ex & RE & _ & _ & P1).
  assert (RR : read_event (finished_file [1; 1; 1; 1]%Z [1; 1; 1; 1]%Z 1 (map as_event hs)) 1 0 = Ok (map file_row rows, (Some (-3), Some 0, Some 1))).
  { apply C50_read_back; [lia|lia|]. unfold hs. cbn [map nth_error Z.to_nat]. unfold as_event. cbn [h_sample h_rows]. rewrite Sv. reflexivity. }
  assert (EL : t_loss thick 2 1 = 2) by (cbn [thick t_loss]; apply Rmin_left; lra).
  rewrite RR in RE. assert (z = 1) by congruence. assert (rows' = map file_row rows) by congruence. subst z rows'. rewrite EL in P1.
  exists (finished_file [1; 1; 1; 1]%Z [1; 1; 1; 1]%Z 1 (map as_event hs)), (map file_row rows).
  split; [exact R|]. split; [exact RR|]. split; [|split; [exact EL|split; [|exact Hm]]].
  - rewrite P1. cbn [free_pl pl_reaction free r_projectile n_mass nuc].
    replace ((2 - 2) * (2 - 2 + 2 * 1)) with 0 by ring. rewrite sqrt_0. do 4 f_equal. ring.
  - intros z. split; [|apply Rmin_l]. cbn [thick t_loss]. apply Rmin_glb; [lra|]. pose proof (Rmax_l 0 z). lra.
Qed.
Print Assumptions C74_depth.
Print Assumptions C74_stopped_beam_refuted.
