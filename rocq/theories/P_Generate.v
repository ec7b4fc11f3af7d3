(** P_Generate.v -- C57: what a generated kinematics file contains, from the random draws to the
    events read back. *)
From Coq Require Import ZArith Reals Lra Lia String.
From Flocq Require Import Core.
From Verif Require Import Base Nucleus Reaction SpecReaction ReactionProofs P_Reaction Pipeline SpecPipeline
  PipelineProofs P_Pipeline Sampling P_Sampling Simulator KinFile SpecKinFile P_KinFile.
Local Open Scope R_scope.

(** Numbers in the file: [None] is NaN. *)
Definition cell := option R.
(** pipeline.py 479-484: create_dataset(data=result) copies the rows of the buffer, and the vertex
    goes into three attributes. *)
Definition file_row (r : row) : mom4 cell :=
  match r with
  | Some p => mkMom (Some (qx p)) (Some (qy p)) (Some (qz p)) (Some (qE p))
  | None => mkMom None None None None
  end.
Definition file_vertex (v : vertex3) : @vertex cell :=
  let '(x, y, z) := v in (Some x, Some y, Some z).

Lemma Forall2_same_length {A B} (Q : A -> B -> Prop) l k : Forall2 Q l k -> length l = length k.
Proof. induction 1; cbn [length]; congruence. Qed.

Section Generate.
  Context {G : Type} (draw : G -> res sample * G) (pl : pipeline) (loc : nat).
  Notation verdict_of := (sample_verdict (pl_reaction pl) (pl_decays pl)).

  (** pipeline.py 480-484: run the pipeline and copy the buffer it returns. *)
  Definition generate (s : memory * G) : res (@vertex cell * list (mom4 cell)) * (memory * G) :=
    match Pipeline.run draw pl loc (fst s) (snd s) with
    | (s', Ok (v, a)) => (Ok (file_vertex v, map file_row (fst s' a)), s')
    | (s', Err x) => (Err x, s')
    end.

  (** The samples behind one event: those thrown away, the one that was used, its rows. *)
  Record history := mkHistory { h_rejected : list sample; h_sample : sample; h_rows : list row }.
  Definition legitimate (h : history) : Prop :=
    Forall (fun s => verdict_of s Reject) (h_rejected h) /\
    (Z.of_nat (length (h_rejected h)) < pl_limit pl)%Z /\
    verdict_of (h_sample h) (Accept (h_rows h)).
  Definition all_draws (hs : list history) : list sample :=
    flat_map (fun h => h_rejected h ++ [h_sample h]) hs.
  Definition as_event (h : history) : @vertex cell * list (mom4 cell) :=
    (file_vertex (s_vertex (h_sample h)), map file_row (h_rows h)).

  Context (WF : forall g s g', draw g = (Ok s, g') -> well_formed (pl_decays pl) s).
  Notation buffer_ok := (buffer_ok pl loc).

  Lemma drawn_app g l g1 k g2 : drawn draw g l g1 -> drawn draw g1 k g2 -> drawn draw g (l ++ k) g2.
  Proof. induction 1; intros D; [exact D|]. cbn [app]. eapply D_cons; eauto. Qed.
  Lemma drawn_split l k : forall g g2, drawn draw g (l ++ k) g2 ->
    exists g1, drawn draw g l g1 /\ drawn draw g1 k g2.
  Proof.
    induction l as [|s l IH]; intros g g2 D; [exists g; split; [constructor|exact D]|].
    inversion D as [|? ? ga ? ? Ds D2]; subst. destruct (IH _ _ D2) as (g1 & A & B). exists g1. split; [|exact B].
    eapply D_cons; eauto.
  Qed.

  Lemma generate_ok m g ev s' : buffer_ok m -> generate (m, g) = (Ok ev, s') ->
    buffer_ok (fst s') /\ exists h, legitimate h /\ drawn draw g (h_rejected h ++ [h_sample h]) (snd s') /\ ev = as_event h.
  Proof using WF.
    intros B E. unfold generate in E. cbn [fst snd] in E.
    destruct (Pipeline.run draw pl loc m g) as [[m' g'] [[v a]|x]] eqn:R; [|discriminate].
    assert (Es : s' = (m', g')) by congruence. subst s'. cbn [fst snd] in *.
    assert (Ev : ev = (file_vertex v, map file_row (m' a))) by congruence. clear E.
    destruct (run_outcome draw pl loc WF m g B) as (m1 & g1 & o1 & R1 & B1 & _).
    assert (m1 = m') by congruence. subst m1. split; [exact B1|].
    destruct (C44_outcomes draw pl loc WF m g m' g' _ B R) as (l & g2 & D & F & [(_ & _ & Q)|(L & [(x & _ & Q)|[(s & x & _ & _ & Q)|(s & rows & O2 & O3 & Q & O5)]])]);
      try discriminate.
    exists (mkHistory l s rows). cbn [h_rejected h_sample h_rows]. split; [split; [exact F|]; split; [exact L|exact O3]|].
    split.
    - apply (drawn_app g l g2 [s] g' D). eapply D_cons; [exact O2|constructor].
    - subst ev. assert (v = s_vertex s) by congruence. assert (a = loc) by congruence. subst v a.
      unfold as_event. cbn [h_sample h_rows]. now rewrite O5.
  Qed.

  Lemma generated s evs s' : produced generate s evs s' -> buffer_ok (fst s) ->
    exists hs, Forall legitimate hs /\ drawn draw (snd s) (all_draws hs) (snd s') /\ evs = map as_event hs.
  Proof using WF.
    induction 1 as [s|s ev s1 evs s2 R H IH]; intros B.
    - exists []. split; [constructor|]. split; [constructor|reflexivity].
    - destruct s as [m g]. destruct (generate_ok m g ev s1 B R) as (B1 & h & Lh & Dh & ->).
      destruct (IH B1) as (hs & F & D & ->).
      exists (h :: hs). split; [now constructor|]. split; [|reflexivity].
      cbn [all_draws flat_map]. eapply drawn_app; eauto.
  Qed.

  Lemma generated_conv hs : forall m g g', buffer_ok m -> Forall legitimate hs -> drawn draw g (all_draws hs) g' ->
    exists m', produced generate (m, g) (map as_event hs) (m', g').
  Proof using WF.
    induction hs as [|h hs IH]; intros m g g' B F D.
    - inversion D; subst. exists m. constructor.
    - inversion F as [|? ? (Fr & Lr & Va) Fh]; subst. cbn [all_draws flat_map] in D.
      apply drawn_split in D. destruct D as (g1 & D1 & D2).
      apply drawn_split in D1. destruct D1 as (g0 & D0 & D1).
      inversion D1 as [|? ? ga ? ? Ds Dn]; subst. inversion Dn; subst.
      destruct (C44_first_allowed draw pl loc WF m g _ _ _ _ _ B D0 Fr Ds Va Lr) as (m1 & R & Em & _).
      destruct (run_outcome draw pl loc WF m g B) as (m2 & g2 & o & R2 & B2 & _).
      assert (m2 = m1) by congruence. subst m2.
      destruct (IH m1 g1 g' B2 Fh D2) as (m' & Pr). exists m'. cbn [map].
      eapply Pr_cons; [|exact Pr]. unfold generate. cbn [fst snd]. rewrite R. cbn [fst].
      unfold as_event. now rewrite Em.
  Qed.

  Context (zs ms : list Z) (cs : Z) (Hcs : (1 <= cs)%Z).

  (** C57: generation succeeds exactly when the draws run through that many events, each the
      first allowed sample since the event before, found within the limit; then every event of
      the file is its sample, unharmed by the re-used buffer. *)
  Theorem C57_events n m g d : (0 <= n)%Z -> buffer_ok m ->
    run_kinematics_pipeline generate zs ms cs n (m, g) = (d, Ok tt) ->
    exists hs g', Z.of_nat (length hs) = n /\ Forall legitimate hs /\ drawn draw g (all_draws hs) g' /\
      forall e h, nth_error hs e = Some h ->
        read_event d cs (Z.of_nat e) = Ok (map file_row (h_rows h), file_vertex (s_vertex (h_sample h))).
  Proof using WF Hcs.
    intros Hn B R. apply C49_finished in R; [|exact Hcs|exact Hn]. destruct R as (evs & [m' g'] & Pr & L & ->).
    destruct (generated _ _ _ Pr B) as (hs & F & D & ->). cbn [snd] in D. rewrite map_length in L.
    exists hs, g'. split; [exact L|]. split; [exact F|]. split; [exact D|].
    intros e h N. apply C50_read_back; [exact Hcs|lia|]. rewrite Nat2Z.id, nth_error_map, N. reflexivity.
  Qed.

  Theorem C57_succeeds n m g hs g' : buffer_ok m ->
    Z.of_nat (length hs) = n -> Forall legitimate hs -> drawn draw g (all_draws hs) g' ->
    run_kinematics_pipeline generate zs ms cs n (m, g) = (finished_file zs ms cs (map as_event hs), Ok tt).
  Proof using WF Hcs.
    intros B L F D. destruct (generated_conv hs m g g' B F D) as (m' & Pr).
    apply C49_finished; [exact Hcs|lia|]. exists (map as_event hs), (m', g').
    rewrite map_length. auto.
  Qed.

  (** The rows a user reads: numbers, on the mass shell, and the default nuclei of every event
      carry the four-momentum of target and projectile. *)
  Definition numbers (p : p4) : mom4 cell := mkMom (Some (qx p)) (Some (qy p)) (Some (qz p)) (Some (qE p)).

  Theorem C57_conservation n m g d e : (0 <= e < n)%Z -> buffer_ok m ->
    length zs = (4 + 2 * length (pl_decays pl))%nat ->
    (forall g s g', draw g = (Ok s, g') -> massive (pl_reaction pl) (pl_decays pl) s) ->
    run_kinematics_pipeline generate zs ms cs n (m, g) = (d, Ok tt) ->
    exists s ps v, read_event d cs e = Ok (map numbers ps, v) /\ v = file_vertex (s_vertex s) /\
      let r := pl_reaction pl in
      Forall2 on_shell ([n_mass (r_target r); n_mass (r_projectile r); n_mass (r_ejectile r);
                         n_mass (r_residual r) + s_ex s] ++ decay_masses (pl_decays pl) (decay_params s)) ps /\
      psum (map (fun i => nth (Z.to_nat i) ps pzero) (nuclei_to_sim None zs))
        = padd (nth 0 ps pzero) (nth 1 ps pzero).
  Proof using WF Hcs.
    intros He B Lz Ms R. apply C57_events in R; [|lia|exact B]. destruct R as (hs & g' & L & F & D & RE).
    destruct (nth_error hs (Z.to_nat e)) as [h|] eqn:N; [|apply nth_error_None in N; lia].
    specialize (RE _ _ N). rewrite Z2Nat.id in RE by lia.
    rewrite Forall_forall in F. destruct (F h (nth_error_In _ _ N)) as (_ & _ & V).
    assert (Mh : massive (pl_reaction pl) (pl_decays pl) (h_sample h)).
    { assert (I : In (h_sample h) (all_draws hs)).
      { unfold all_draws. apply in_flat_map. exists h. split; [eapply nth_error_In; eauto|].
        apply in_or_app. right. now left. }
      clear - D I Ms. induction D as [|? ? ? ? ? Ds D IH]; [destruct I|]. destruct I as [->|I]; eauto. }
    destruct (C47_on_shell _ _ _ _ Mh V) as (ps & E & S).
    exists (h_sample h), ps. eexists. split.
    { rewrite RE, E, map_map. f_equal. }
    split; [reflexivity|]. cbv zeta. split; [exact S|].
    assert (Lr : length zs = length (h_rows h)).
    { rewrite E, map_length. apply Forall2_same_length in S. rewrite <- S, app_length. cbn [length].
      assert (W : length (decay_params (h_sample h)) = length (pl_decays pl)).
      { assert (Wh : well_formed (pl_decays pl) (h_sample h)).
        { assert (I : In (h_sample h) (all_draws hs)).
          { unfold all_draws. apply in_flat_map. exists h. split; [eapply nth_error_In; eauto|].
            apply in_or_app. right. now left. }
          clear - D I WF. induction D as [|? ? ? ? ? Ds D IH]; [destruct I|]. destruct I as [->|I]; eauto. }
        destruct Wh as (W1 & W2 & W3). unfold decay_params. rewrite map_length, !combine_length. lia. }
      assert (Q : length (decay_masses (pl_decays pl) (decay_params (h_sample h))) = (2 * length (pl_decays pl))%nat).
      { unfold decay_masses. revert W. generalize (decay_params (h_sample h)). clear.
        induction (pl_decays pl) as [|dd ds IH]; intros [|q qs] W; try discriminate; [reflexivity|].
        cbn [combine flat_map app length]. rewrite IH by (cbn [length] in W; lia). lia. }
      lia. }
    destruct (C47_conservation _ _ _ _ ps zs V E Lr) as (_ & _ & K). exact K.
  Qed.
End Generate.

(** Two events of the chain of P_Pipeline, in chunks of one: the events drawn one after the other. *)
Example C57_example : exists d rows1 rows2,
  run_kinematics_pipeline (generate alt_draw chain_pl 0) [1; 1; 1; 1; 1; 1]%Z [1; 1; 1; 1; 1; 1]%Z 1 2
    ((fun _ => repeat None 6), 0%nat) = (d, Ok tt) /\
  read_event d 1 0 = Ok (map file_row rows1, (Some 0, Some 0, Some 0)) /\
  read_event d 1 1 = Ok (map file_row rows2, (Some 0, Some 0, Some 0)) /\
  sample_verdict chain_r [chain_d] (chain_s (INR 1)) (Accept rows1) /\
  sample_verdict chain_r [chain_d] (chain_s (INR 2)) (Accept rows2).
Proof.
  assert (WF : forall g s g', alt_draw g = (Ok s, g') -> well_formed (pl_decays chain_pl) s).
  { intros g s g' E. apply (f_equal fst) in E. cbn [alt_draw fst] in E.
    assert (s = chain_s (INR (S g))) by congruence. subst s. repeat split; reflexivity. }
  destruct (chain_accepted (INR 1) ltac:(simpl; lra)) as [rows1 V1].
  destruct (chain_accepted (INR 2) ltac:(simpl; lra)) as [rows2 V2].
  set (hs := [mkHistory [] (chain_s (INR 1)) rows1; mkHistory [] (chain_s (INR 2)) rows2]).
  assert (L : Forall (legitimate chain_pl) hs).
  { repeat apply Forall_cons; [| |constructor].
    - split; [constructor|]. split; [cbn; lia|exact V1].
    - split; [constructor|]. split; [cbn; lia|exact V2]. }
  exists (finished_file [1; 1; 1; 1; 1; 1]%Z [1; 1; 1; 1; 1; 1]%Z 1 (map as_event hs)), rows1, rows2.
  split; [|split; [|split; [|split; [exact V1|exact V2]]]].
  - apply (C57_succeeds alt_draw chain_pl 0 WF _ _ 1 ltac:(lia) 2 _ 0%nat hs 2%nat); [reflexivity|reflexivity|exact L|].
    cbn [hs all_draws flat_map h_rejected h_sample app].
    eapply D_cons; [reflexivity|]. eapply D_cons; [reflexivity|]. constructor.
  - apply C50_read_back; [lia|lia|]. reflexivity.
  - apply C50_read_back; [lia|lia|]. reflexivity.
Qed.

Print Assumptions C57_events.
Print Assumptions C57_succeeds.
Print Assumptions C57_conservation.
