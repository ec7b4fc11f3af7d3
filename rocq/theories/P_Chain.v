(** P_Chain.v -- C72: from the random draws of the generator to the rows in the run files. *)
From Coq Require Import ZArith Reals Lra Lia String.
From Flocq Require Import Core BinarySingleNaN.
From Verif Require Import Base F64 Num BeamPads Transporter Nucleus Reaction Pipeline SpecPipeline PipelineProofs P_Pipeline Sampling KinFile SpecKinFile P_KinFile
  P_Generate Simulator SpecSim P_Simulator Response SpecRun P_RunSim Writer SpecWriter P_Writer P_Cloud Parameters P_Parameters P_Detect F64Bounds.
Local Open Scope Z_scope.
Local Open Scope list_scope.

Lemma zrange_cons a b : a < b -> zrange a b = a :: zrange (a + 1) b.
Proof.
  intros L. unfold zrange. replace (Z.to_nat (b - a)) with (S (Z.to_nat (b - (a + 1)))) by lia. cbn [seq map].
  f_equal; [lia|]. rewrite <- seq_shift, map_map. apply map_ext. intros i. lia.
Qed.

Section Chain.
  (** Generation. *)
  Context {G : Type} (draw : G -> res Pipeline.sample * G) (pl : pipeline) (loc : nat).
  Context (WF : forall g s g', draw g = (Ok s, g') -> well_formed (pl_decays pl) s).
  Context (zs ms : list Z) (cs : Z) (Hcs : 1 <= cs).
  (** Detector. *)
  Context (fexp : f64 -> f64) {H Nuc Vel : Type}.
  Notation config := (config fexp).
  Notation traj := (@traj Vel).
  Context (get_data : Z -> Z -> res Nuc)
    (generate_trajectory : @vertex cell -> mom4 cell -> Nuc -> config -> res (list traj))
    (generate_electrons : list traj -> Nuc -> config -> H -> list Z * H)
    (uniform : nat -> H -> list f64 * H) (argsort : list f64 -> list nat).
  Context (Hu : draws_ok uniform) (Ha : argsort_ok argsort).
  Context (to_float : string -> option f64) (files : string -> option text) (resource : string -> text)
    (load : string -> res (grid * edges (F64 fexp))) (packaged : res (grid * edges (F64 fexp)))
    (dp : det_params) (ep : elec_params) (pp : pad_params) (fc : full_config fexp).
  Context (Hfc : make_config fexp to_float files resource load packaged dp ep pp = Ok fc).
  Context (Hgrid : forall i j, -1 <= gr_cell (fc_grid fexp fc) i j < 10240).
  Context (Hs : sane dp ep) (Hth : Z.abs (ep_threshold ep) <= 2 ^ 53).
  Notation simu := (sim fexp get_data generate_trajectory generate_electrons uniform fc).

  (** The sampled events, simulated one after the other: number, cloud and labels of each. *)
  Inductive detected (idx : list Z) : Z -> list history -> H -> list (Z * list point * list Z) -> H -> Prop :=
  | De_nil e r : detected idx e [] r [] r
  | De_cons e h hs r cloud labels r1 rs r2 :
      simu (map file_row (h_rows h)) (file_vertex (s_vertex (h_sample h))) zs ms r idx = Ok ((cloud, labels), r1) ->
      detected idx (e + 1) hs r1 rs r2 ->
      detected idx e (h :: hs) r ((e, cloud, labels) :: rs) r2.

  (** C72: generate [n] events, then simulate the file into run files of at most [max] events.  The
      run files hold, in order, for every generated event that left points, exactly the processed
      cloud of its sample, under the number of the event; nothing else. *)
  Theorem C72_generate_and_detect n m g d indices resp max r0 disk rng :
    0 <= n -> buffer_ok pl loc m -> resp <> [] -> 1 <= max ->
    run_kinematics_pipeline (generate draw pl loc) zs ms cs n (m, g) = (d, Ok tt) ->
    exists hs g', Z.of_nat (length hs) = n /\ Forall (legitimate pl) hs /\ drawn draw g (all_draws hs) g' /\
      forall rs rng', detected (nuclei_to_sim indices zs) 0 hs rng rs rng' ->
      (forall h, In h hs -> contained fexp generate_trajectory dp fc (map file_row (h_rows h)) (file_vertex (s_vertex (h_sample h)))) ->
      exists w' fs lo hi,
        run_simulation simu (spyral_write fexp argsort fc) close d indices rng (init resp max r0 disk) = (w', Ok tt) /\
        Forall2 (fun r rec => number rec = fst (fst r) /\
                   process fexp argsort resp (writer_config fexp fc) (snd (fst r)) (snd r) = Ok (snd rec))
                (filter (fun r => negb (length (snd (fst r)) =? 0)%nat) rs) (concat fs) /\
        (forall i f, nth_error fs i = Some f -> exists h,
           get_file (w_disk w') (run_name (r0 + Z.of_nat i)) = Some h /\ holds h (r0 + Z.of_nat i) f /\
           attr h "min_event" = Some (lo i) /\ attr h "max_event" = Some (hi i) /\
           (forall rec, In rec f -> lo i <= number rec <= hi i) /\
           Z.of_nat (length f) <= max /\ ((S i < length fs)%nat -> Z.of_nat (length f) = max)) /\
        (forall i j, (i < j < length fs)%nat -> hi i < lo j) /\
        (forall name, (forall r, r0 <= r < r0 + Z.of_nat (length fs) -> name <> run_name r) ->
           get_file (w_disk w') name = get_file disk name).
  Proof using WF Hcs Hu Ha Hfc Hgrid Hs Hth.
    intros Hn B NE M R. pose proof R as R0. apply C49_finished in R0; [|exact Hcs|exact Hn].
    destruct R0 as (evs & p' & _ & Le & Ed).
    destruct (C57_events draw pl loc WF zs ms cs Hcs n m g d Hn B R) as (hs & g' & L & F & D & RE).
    exists hs, g'. split; [exact L|]. split; [exact F|]. split; [exact D|].
    intros rs rng' De Co.
    assert (Hh : exists nc, read_header d = Ok (zs, ms, n, nc, cs)).
    { subst d. exists (chunks cs (Z.of_nat (length evs))). rewrite <- Le. reflexivity. }
    destruct Hh as (nc & Hh).
    assert (S : simulated simu d zs ms cs (nuclei_to_sim indices zs) (zrange 0 n) rng rs rng').
    { assert (G0 : forall k e hs' r rs' r', detected (nuclei_to_sim indices zs) e hs' r rs' r' ->
        0 <= e -> (forall i h, nth_error hs' i = Some h -> nth_error hs (Z.to_nat e + i) = Some h) ->
        k = e + Z.of_nat (length hs') ->
        simulated simu d zs ms cs (nuclei_to_sim indices zs) (zrange e k) r rs' r').
      { intros k e hs' r rs' r' Dx. induction Dx as [e r|e h hs' r cl lb r1 rs' r2 S1 Dx IH]; intros He N Ek.
        - cbn [length] in Ek. replace k with e by lia. unfold zrange. replace (e - e) with 0 by lia. constructor.
        - cbn [length] in Ek. rewrite (zrange_cons e k) by lia.
          econstructor; [|exact S1|].
          + specialize (N 0%nat h eq_refl). rewrite Nat.add_0_r in N. specialize (RE _ _ N).
            rewrite Z2Nat.id in RE by exact He. exact RE.
          + apply IH; [lia| |lia]. intros i h' Hi. specialize (N (S i) h' Hi).
            replace (Z.to_nat (e + 1) + i)%nat with (Z.to_nat e + S i)%nat by lia. exact N. }
      apply (G0 n 0 hs); [exact De|lia|intros i h Hi; exact Hi|lia]. }
    destruct (C58_run fexp get_data generate_trajectory generate_electrons uniform argsort Hu Ha to_float files resource load packaged
                dp ep pp fc Hfc Hgrid Hs Hth resp max r0 disk d indices rng zs ms n nc cs rs rng' NE M Hh S) as (w' & fs & lo & hi & Q).
    - intros e rows v He Re.
      destruct (nth_error hs (Z.to_nat e)) as [h|] eqn:N; [|apply nth_error_None in N; lia].
      specialize (RE _ _ N). rewrite Z2Nat.id in RE by lia. rewrite RE in Re.
      assert (E1 : rows = map file_row (h_rows h)) by congruence.
      assert (E2 : v = file_vertex (s_vertex (h_sample h))) by congruence.
      rewrite E1, E2. apply Co. eapply nth_error_In; exact N.
    - exists w', fs, lo, hi. exact Q.
  Qed.
End Chain.

(** The two events generated in C57_example, simulated with the configuration of C58_example: nuclei
    2, 4 and 5 leave charge on the same pad and bucket, so each event leaves one point with label 5. *)
Definition chain_traj fexp (v : @vertex cell) (p : mom4 cell) (n : Z) (c : config fexp) : res (list (@traj unit)) :=
  Ok [mkTraj (f_of_Z 0) (f_of_Z 0) half tt; mkTraj (f_of_Z 0) (f_of_Z 0) (f_of_Z (-1)) tt].
Notation ones := [1; 1; 1; 1; 1; 1].
Lemma chain_sim fexp fc rows v r : e_make fexp = Ok fc -> length rows = 6%nat -> r = 0 \/ r = 4 ->
  exists cloud, sim fexp e_nuc (chain_traj fexp) (e_electrons fexp) ex_uniform fc rows v ones ones r (nuclei_to_sim None ones)
    = Ok ((cloud, [5]), r + 4) /\ length cloud = 1%nat.
Proof.
  intros E L Hr. destruct rows as [|a [|b [|c [|d [|e [|f [|g rows]]]]]]]; try discriminate L.
  set (rows := [a; b; c; d; e; f]).
  assert (Q : match e_make fexp with
    | Ok fc => match sim fexp e_nuc (chain_traj fexp) (e_electrons fexp) ex_uniform fc rows v ones ones r (nuclei_to_sim None ones) with
               | Ok ((cl, lb), r') => Some (length cl, lb, r') | Err _ => None end
    | Err _ => None end = Some (1%nat, [5], r + 4)) by (destruct Hr as [-> | ->]; vm_compute; reflexivity).
  rewrite E in Q. destruct (sim _ _ _ _ _ _ _ _ _ _ _ _) as [[[cl lb] r']|]; [|discriminate Q].
  exists cl. assert (lb = [5]) by congruence. assert (r' = r + 4) by congruence. subst. split; [reflexivity|congruence].
Qed.
Lemma decayed_length ds ps q v : decays_verdict ds ps q v -> forall rows, v = Accept rows -> length rows = (2 * length ds)%nat.
Proof.
  induction 1; intros rows E; try discriminate E.
  - injection E as <-. reflexivity.
  - destruct v as [rows'| |]; try discriminate E. injection E as <-. cbn [length]. rewrite (IHdecays_verdict _ eq_refl). lia.
Qed.
Lemma accepted_length r ds s rows : sample_verdict r ds s (Accept rows) -> length rows = (4 + 2 * length ds)%nat.
Proof.
  intros V. inversion V as [| |t p e q v A C D E]. destruct v as [rows'| |]; try discriminate E. injection E as <-.
  cbn [length]. now rewrite (decayed_length _ _ _ _ D _ eq_refl).
Qed.
Example C72_example fexp fc : e_make fexp = Ok fc ->
  exists d hs rs, run_kinematics_pipeline (generate alt_draw chain_pl 0) ones ones 1 2
      ((fun _ => repeat None 6), 0%nat) = (d, Ok tt) /\ Forall (legitimate chain_pl) hs /\ length hs = 2%nat /\
    detected ones ones fexp e_nuc (chain_traj fexp) (e_electrons fexp) ex_uniform fc (nuclei_to_sim None ones) 0 hs 0 rs 8 /\
    map (fun r => (fst (fst r), length (snd (fst r)), snd r)) rs = [(0, 1%nat, [5]); (1, 1%nat, [5])] /\
    forall rows v, contained fexp (chain_traj fexp) e_dp fc rows v.
Proof.
  intros E.
  assert (WF : forall g s g', alt_draw g = (Ok s, g') -> well_formed (pl_decays chain_pl) s).
  { intros g s g' Q. apply (f_equal fst) in Q. cbn [alt_draw fst] in Q.
    assert (s = chain_s (INR (S g))) by congruence. subst s. repeat split; reflexivity. }
  destruct (chain_accepted (INR 1) ltac:(simpl; lra)) as [rows1 V1].
  destruct (chain_accepted (INR 2) ltac:(simpl; lra)) as [rows2 V2].
  set (hs := [mkHistory [] (chain_s (INR 1)) rows1; mkHistory [] (chain_s (INR 2)) rows2]).
  assert (L : Forall (legitimate chain_pl) hs).
  { repeat apply Forall_cons; [| |constructor].
    - split; [constructor|]. split; [cbn; lia|exact V1].
    - split; [constructor|]. split; [cbn; lia|exact V2]. }
  destruct (chain_sim fexp fc (map file_row rows1) (file_vertex (s_vertex (chain_s (INR 1)))) 0 E) as (c1 & S1 & L1);
    [rewrite map_length; apply (accepted_length _ _ _ _ V1)|now left|].
  destruct (chain_sim fexp fc (map file_row rows2) (file_vertex (s_vertex (chain_s (INR 2)))) 4 E) as (c2 & S2 & L2);
    [rewrite map_length; apply (accepted_length _ _ _ _ V2)|now right|].
  exists (finished_file ones ones 1 (map as_event hs)), hs, [(0, c1, [5]); (1, c2, [5])].
  split; [|split; [exact L|split; [reflexivity|split; [|split]]]].
  - apply (C57_succeeds alt_draw chain_pl 0 WF _ _ 1 ltac:(lia) 2 _ 0%nat hs 2%nat); [reflexivity|reflexivity|exact L|].
    cbn [hs all_draws flat_map h_rejected h_sample app].
    eapply D_cons; [reflexivity|]. eapply D_cons; [reflexivity|]. constructor.
  - econstructor; [exact S1|]. econstructor; [exact S2|]. constructor.
  - cbn [map fst snd]. now rewrite L1, L2.
  - intros rows v p nuc track t _ Et It. unfold chain_traj in Et.
    assert (Ez : t_z t = half \/ t_z t = f_of_Z (-1)).
    { apply (f_equal (fun r => match r with Ok x => x | _ => [] end)) in Et. cbv beta match in Et. rewrite <- Et in It.
      destruct It as [<-|[<-|[]]]; auto. }
    unfold around. cbn [e_dp dp_length]. rewrite (f_of_Z_R 1) by lia.
    destruct Ez as [-> | ->].
    + destruct half_ok as (F & B). split; [exact F|]. apply Rabs_le. lra.
    + rewrite f_of_Z_R by lia. split; [apply f_of_Z_fin; lia|]. apply Rabs_le. lra.
Qed.
Print Assumptions C72_generate_and_detect.
