(** P_Rest.v -- C35: the target of a generated event cannot be simulated. *)
From Coq Require Import ZArith Reals Lra Lia.
From Flocq Require Import Core.
From Verif Require Import Base F64 Nucleus Reaction SpecReaction P_Reaction Pipeline SpecPipeline PipelineProofs P_Pipeline
  Simulator KinFile SpecKinFile P_KinFile P_Generate Solver SpecSolver P_Solver.
Local Open Scope R_scope.

Lemma foldM_err {A S} (f : S -> A -> res S) i l : In i l -> (forall s, exists x, f s i = Err x) ->
  forall s, exists x, foldM f l s = Err x.
Proof.
  intros I H. induction l as [|a l IH]; [destruct I|]. intros s. cbn [foldM].
  destruct I as [->|I].
  - destruct (H s) as [x ->]. exists x. reflexivity.
  - destruct (f s a) as [s'|x]; [apply IH, I|exists x; reflexivity].
Qed.

Section Rest.
  Context (fexp : f64 -> f64) {G Vel : Type} (get_data : Z -> Z -> res nucleus)
    (generate_electrons : list (@Simulator.traj Vel) -> nucleus -> config fexp -> G -> list Z * G)
    (uniform : nat -> G -> list f64 * G).
  (** Constants, gas, solver, and the field settings of a configuration. *)
  Context (c e_charge mev_kg mev_joule : R) (dedx : nucleus -> R -> R) (density : R)
    (solve : (state -> res state) -> state -> list event -> list R -> res (list state))
    (fields : config fexp -> dparams).
  Context (Hsolve : passes_exceptions solve).
  (** Rows of the exact track as the floating point numbers of the simulation; what happens when
      a momentum or vertex holds NaN is left open. *)
  Context (to_traj : state -> @Simulator.traj Vel) (with_nan : res (list (@Simulator.traj Vel))).

  Definition vec_of (x y z : cell) : option vec :=
    match x, y, z with Some x, Some y, Some z => Some (mkVec x y z) | _, _, _ => None end.
  Definition trajectory (v : @vertex cell) (p : mom4 cell) (nuc : nucleus) (cf : config fexp) : res (list (@Simulator.traj Vel)) :=
    let '(x, y, z) := v in
    match vec_of x y z, vec_of (m_px p) (m_py p) (m_pz p) with
    | Some x, Some q =>
        let* track := Solver.generate_trajectory c e_charge mev_kg mev_joule dedx density solve x q nuc (fields cf) in
        Ok (map to_traj track)
    | _, _ => with_nan
    end.
  Definition sim := simulate fexp get_data trajectory generate_electrons uniform.

  (** C35: in every event of every generated file, simulating the (charged) target raises, and
      raises ZeroDivisionError if it comes first. *)
  Theorem C35_target_of_a_file {G' : Type} (draw : G' -> res sample * G') pl loc zs ms cs n m g d e :
    (forall g s g', draw g = (Ok s, g') -> well_formed (pl_decays pl) s) ->
    (forall g s g', draw g = (Ok s, g') -> massive (pl_reaction pl) (pl_decays pl) s) ->
    (1 <= cs)%Z -> (0 <= e < n)%Z -> buffer_ok pl loc m ->
    run_kinematics_pipeline (generate draw pl loc) zs ms cs n (m, g) = (d, Ok tt) ->
    exists rows v, read_event d cs e = Ok (rows, v) /\
      forall cf rng z a, py_index zs 0 = Ok z -> z <> 0%Z -> py_index ms 0 = Ok a ->
      (forall indices, In 0%Z indices -> exists x, sim rows v zs ms cf rng indices = Err x) /\
      (forall rest nuc, get_data z a = Ok nuc -> sim rows v zs ms cf rng (0%Z :: rest) = Err ZeroDivisionError).
  Proof using Hsolve.
    intros WF Ms Hcs He B R.
    apply (C57_events draw pl loc WF zs ms cs Hcs) in R; [|lia|exact B]. destruct R as (hs & g' & L & F & D & RE).
    destruct (nth_error hs (Z.to_nat e)) as [h|] eqn:N; [|apply nth_error_None in N; lia].
    specialize (RE _ _ N). rewrite Z2Nat.id in RE by lia.
    rewrite Forall_forall in F. destruct (F h (nth_error_In _ _ N)) as (_ & _ & V).
    assert (Mh : massive (pl_reaction pl) (pl_decays pl) (h_sample h)).
    { assert (I : In (h_sample h) (all_draws hs)).
      { unfold all_draws. apply in_flat_map. exists h. split; [eapply nth_error_In; eauto|].
        apply in_or_app. right. now left. }
      clear - D I Ms. induction D as [|? ? ? ? ? Ds D IH]; [destruct I|]. destruct I as [->|I]; eauto. }
    assert (ER : exists tail, h_rows h = Some (mkP4 0 0 0 (n_mass (r_target (pl_reaction pl)))) :: tail).
    { destruct Mh as (M1 & M2 & M3 & M4 & M5 & _).
      inversion V as [| |t p e0 q v A C DD EV]; try discriminate.
      destruct v as [rs| |]; try discriminate.
      destruct (C39_reaction (pl_reaction pl) (s_energy (h_sample h)) (s_theta (h_sample h)) (s_phi (h_sample h)) (s_ex (h_sample h)) [t; p; e0; q]) as (t' & p' & e' & s' & k & ec & Q & Et & _); try lra; [exact A|exact C|].
      exists (p :: e0 :: q :: rs). rewrite <- Et. congruence. }
    destruct ER as [tail ER].
    do 2 eexists. split; [exact RE|]. intros cf rng z a Hz Nz Ha. rewrite ER.
    set (rows := map file_row _).
    assert (SN : forall s, simulate_nucleus fexp get_data trajectory generate_electrons rows (file_vertex (s_vertex (h_sample h))) zs ms cf s 0
       = match get_data z a with Ok _ => Err ZeroDivisionError | Err x => Err x end).
    { intros [pts r]. unfold simulate_nucleus. rewrite Hz. cbn [bind].
      rewrite (proj2 (Z.eqb_neq z 0) Nz). rewrite Ha. cbn [bind]. destruct (get_data z a) as [nuc|x]; [|reflexivity].
      cbn [bind]. unfold rows. cbn [map].
      match goal with |- context [py_index (?h :: ?t) 0] => replace (py_index (h :: t) 0) with (Ok h) by reflexivity end.
      cbn [bind]. unfold generate_point_cloud. cbn [file_row qx qy qz qE].
      destruct (s_vertex (h_sample h)) as [[x y] zz]. unfold trajectory, file_vertex. cbn [vec_of m_px m_py m_pz].
      change (mkVec 0 0 0) with vzero.
      rewrite (C35_trajectory_at_rest c e_charge mev_kg mev_joule dedx density solve _ nuc _ Hsolve). reflexivity. }
    split.
    - intros indices I. unfold sim, simulate.
      match goal with |- context [foldM ?f] => destruct (foldM_err f 0%Z indices I) with (s := (@nil (Z * (Z * Z)), rng)) as [x E] end.
      { intros s. rewrite SN. destruct (get_data z a); eauto. }
      exists x. rewrite E. reflexivity.
    - intros rest nuc Hn. unfold sim, simulate. cbn [foldM]. rewrite SN, Hn. reflexivity.
  Qed.
End Rest.

(** Example: a solver that evaluates the equations in the initial state, as scipy's does, passes
    their exceptions on. *)
Example C35_solver : passes_exceptions (fun f s0 _ _ => match f s0 with Err e => Err e | Ok _ => Ok [s0] end).
Proof. intros f s0 evs ts e He. now rewrite He. Qed.

(** Example: the second event of the file of C57_example, simulated with nuclei 0 and 2. *)
Example C35_example fexp (cf : config fexp) : exists d rows v,
  run_kinematics_pipeline (generate alt_draw chain_pl 0) [1; 1; 1; 1; 1; 1]%Z [1; 1; 1; 1; 1; 1]%Z 1 2
    ((fun _ => repeat None 6), 0%nat) = (d, Ok tt) /\
  read_event d 1 1 = Ok (rows, v) /\
  sim fexp (G := unit) (Vel := unit) (fun _ _ => Ok (nuc 1)) (fun _ _ _ g => ([], g)) (fun _ g => ([], g)) 1 1 1 1
    (fun _ _ => 1) 1 (fun f s0 _ _ => match f s0 with Err e => Err e | Ok _ => Ok [s0] end)
    (fun _ => mkDparams 1 1 1 1) (fun _ => mkTraj (f_of_Z 0) (f_of_Z 0) (f_of_Z 0) tt) (Ok [])
    rows v [1; 1; 1; 1; 1; 1]%Z [1; 1; 1; 1; 1; 1]%Z cf tt [0; 2]%Z = Err ZeroDivisionError.
Proof.
  assert (Dr : forall g s g', alt_draw g = (Ok s, g') -> s = chain_s (INR (S g))).
  { intros g s g' E. apply (f_equal fst) in E. cbn [alt_draw fst] in E. congruence. }
  destruct C57_example as (d & rows1 & rows2 & R & _).
  assert (WF : forall g s g', alt_draw g = (Ok s, g') -> well_formed (pl_decays chain_pl) s).
  { intros g s g' E. rewrite (Dr _ _ _ E). repeat split; reflexivity. }
  assert (Ms : forall g s g', alt_draw g = (Ok s, g') -> massive (pl_reaction chain_pl) (pl_decays chain_pl) s).
  { intros g s g' E. rewrite (Dr _ _ _ E). clear. pose proof (pos_INR g).
    unfold massive, massive_decays, chain_pl, chain_r, chain_d, chain_s, nuc, decay_params.
    cbn [pl_reaction pl_decays r_target r_projectile r_ejectile r_residual n_mass s_energy s_ex s_decay_ex s_decay_thetas s_decay_phis combine map].
    rewrite S_INR. repeat split; try lra. repeat apply Forall_cons; [cbn; lra|constructor]. }
  edestruct (C35_target_of_a_file fexp (G := unit) (Vel := unit) (fun _ _ => Ok (nuc 1)) (fun _ _ _ g => ([], g)) (fun _ g => ([], g)) 1 1 1 1
    (fun _ _ => 1) 1 _ (fun _ => mkDparams 1 1 1 1) C35_solver (fun _ => mkTraj (f_of_Z 0) (f_of_Z 0) (f_of_Z 0) tt) (Ok [])
    alt_draw chain_pl 0%nat [1; 1; 1; 1; 1; 1]%Z [1; 1; 1; 1; 1; 1]%Z 1%Z 2%Z (fun _ => repeat None 6) 0%nat d 1%Z WF Ms) as (rows & v & RE & H);
    [lia|lia|reflexivity|exact R|].
  exists d, rows, v. split; [exact R|]. split; [exact RE|].
  destruct (H cf tt 1%Z 1%Z) as [_ Q]; [reflexivity|lia|reflexivity|].
  exact (Q [2%Z] (nuc 1) eq_refl).
Qed.

Print Assumptions C35_target_of_a_file.
