(** P_Pipeline.v -- C42 to C48: reaction chains. *)
From Coq Require Import ZArith Reals Lra Lia String.
From Flocq Require Import Core.
From Verif Require Import Base Nucleus Reaction SpecReaction ReactionProofs P_Reaction Pipeline SpecPipeline
  PipelineProofs Simulator SpecSim KinFile.
Local Open Scope R_scope.

(** ** C42: validation *)
Theorem C42_accepted X D junk steps (excitations : list X) (polars : list D) limit pl :
  make_pipeline junk steps excitations polars limit = Ok pl <->
  exists r ds, steps = SReaction r :: map SDecay ds /\ connected r ds /\
    length excitations = S (length ds) /\ length polars = S (length ds) /\
    pl = mkPipeline r ds limit (junk (4 + 2 * length ds)%nat).
Proof.
  unfold make_pipeline. destruct steps as [|s steps]; cbn [length].
  { split; [intros Q; discriminate Q|]. intros (r & ds & E & _). discriminate. }
  change (S (length steps) =? 0)%nat with false. cbv iota.
  destruct (Nat.eqb_spec (S (length steps)) (length excitations)) as [He|He]; cbn [negb].
  2:{ split; [intros Q; discriminate Q|]. intros (r & ds & E & _ & L & _). injection E as -> ->.
      rewrite map_length in He. congruence. }
  destruct (Nat.eqb_spec (S (length steps)) (length polars)) as [Hp|Hp]; cbn [negb].
  2:{ split; [intros Q; discriminate Q|]. intros (r & ds & E & _ & _ & L & _). injection E as -> ->.
      rewrite map_length in Hp. congruence. }
  destruct s as [r|d].
  2:{ split; [intros Q; discriminate Q|]. intros (r & ds & E & _). discriminate. }
  destruct (check_steps (SReaction r) steps) as [ds|x] eqn:C; cbn [bind].
  - pose proof C as C'. apply check_steps_iff in C'. destruct C' as [-> H]. split.
    + intros [= <-]. exists r, ds. rewrite map_length in *.
      split; [reflexivity|]. split; [exact H|]. split; [congruence|]. split; [congruence|].
      do 2 f_equal. lia.
    + intros (r' & ds' & E & K & _ & _ & ->). injection E as <- E.
      assert (Q : check_steps (SReaction r) (map SDecay ds) = Ok ds')
        by (apply check_steps_iff; split; [exact E|exact K]).
      rewrite C in Q. injection Q as <-. rewrite map_length. do 3 f_equal. lia.
  - split; [intros Q; discriminate Q|]. intros (r' & ds' & E & K & _). injection E as -> ->.
    assert (Q : check_steps (SReaction r') (map SDecay ds') = Ok ds')
      by (apply check_steps_iff; split; [reflexivity|exact K]). congruence.
Qed.

Theorem C42_refused X D junk steps (excitations : list X) (polars : list D) limit x :
  make_pipeline junk steps excitations polars limit = Err x -> x = PipelineError.
Proof.
  unfold make_pipeline. destruct (length steps =? 0)%nat; [congruence|].
  destruct (negb _); [congruence|]. destruct (negb _); [congruence|].
  destruct steps as [|[r|d] steps]; [congruence| |congruence].
  destruct (check_steps (SReaction r) steps) as [ds|y] eqn:C; cbn [bind]; [discriminate|].
  intros [= <-]. eapply check_steps_err; eauto.
Qed.

(** ** C43: number arrays *)
Definition junk_ok {A} (junk : nat -> list A) : Prop := forall n, length (junk n) = n.

Lemma map_flat2 f ds : map f (flat_map (fun d => [d_res1 d; d_res2 d]) ds)
  = flat_map (fun d => [f (d_res1 d); f (d_res2 d)]) ds :> list Z.
Proof. induction ds as [|d ds IH]; [reflexivity|]. cbn [flat_map map app]. now rewrite IH. Qed.

Theorem C43_row_order f junkz pl : junk_ok junkz ->
  length (pl_result pl) = (4 + 2 * length (pl_decays pl))%nat ->
  get_numbers f junkz pl = map f (row_nuclei (pl_reaction pl) (pl_decays pl)).
Proof.
  intros J L. unfold get_numbers. rewrite L. pose proof (J (4 + 2 * length (pl_decays pl))%nat) as Jn.
  destruct (junkz _) as [|z0 [|z1 [|z2 [|z3 rest]]]]; [cbn [length] in Jn; lia..|]. cbn [upd].
  set (r := pl_reaction pl).
  pose proof (fill_decays_eq f (pl_decays pl) 0
    [f (r_target r); f (r_projectile r); f (r_ejectile r); f (r_residual r)] rest) as H.
  cbn [app] in H. rewrite H; [|reflexivity|cbn [length] in Jn; lia].
  unfold row_nuclei. cbn [app map]. now rewrite map_flat2.
Qed.

(** The final products carry the charge and mass number of the entrance channel. *)
Definition balanced (f : nucleus -> Z) (r : reaction) (ds : list decay) : Prop :=
  (f (r_target r) + f (r_projectile r) = f (r_ejectile r) + f (r_residual r))%Z /\
  Forall (fun d => f (d_parent d) = f (d_res1 d) + f (d_res2 d))%Z ds.

Lemma last_cons {A} (l : list A) : forall x n, last (x :: l) n = last l x.
Proof.
  induction l as [|y l IH]; intros x n; [reflexivity|].
  change (last (x :: y :: l) n) with (last (y :: l) n). now rewrite !IH.
Qed.

Lemma sum_tail f ds : forall n : nucleus,
  Forall (fun d => f (d_parent d) = f (d_res1 d) + f (d_res2 d))%Z ds ->
  (forall i d m, nth_error ds i = Some d -> nth_error (n :: map d_res2 ds) i = Some m -> f m = f (d_parent d)) ->
  sumZ (map f (map d_res1 ds ++ [last (map d_res2 ds) n])) = f n.
Proof.
  induction ds as [|d ds IH]; intros n B C.
  - cbn [map app last]. unfold sumZ. cbn [fold_right]. lia.
  - inversion B as [|? ? B1 B2]; subst.
    replace (last (map d_res2 (d :: ds)) n) with (last (map d_res2 ds) (d_res2 d)).
    2:{ cbn [map]. now rewrite last_cons. }
    cbn [map app]. rewrite sumZ_cons, IH; auto.
    + rewrite (C 0%nat d n eq_refl eq_refl). lia.
    + intros i e m A1 A2. apply (C (S i)); auto.
Qed.

(** Everything built by the constructors from one table in which equal symbols mean equal numbers. *)
Definition built (get_data : Z -> Z -> res nucleus) (r : reaction) (ds : list decay) : Prop :=
  (exists t p e, make_reaction get_data t p e = Ok r) /\
  Forall (fun d => exists p a, make_decay get_data p a = Ok d) ds.

(** C43: the lists of proton and mass numbers. *)
Theorem C43_numbers junkz pl : junk_ok junkz ->
  length (pl_result pl) = (4 + 2 * length (pl_decays pl))%nat ->
  let r := pl_reaction pl in
  let nuclei := [r_target r; r_projectile r; r_ejectile r; r_residual r] ++
                flat_map (fun d => [d_res1 d; d_res2 d]) (pl_decays pl) in
  get_proton_numbers junkz pl = map n_Z nuclei /\ get_mass_numbers junkz pl = map n_A nuclei.
Proof. intros J L. split; now apply C43_row_order. Qed.

Theorem C43_conserved get_data r ds : faithful get_data -> built get_data r ds -> connected r ds ->
  (forall a b, In a (left_over r ds) -> In b (map d_parent ds) ->
     n_symbol a = n_symbol b -> n_Z a = n_Z b /\ n_A a = n_A b) ->
  sumZ (map n_Z (final_nuclei r ds)) = (n_Z (r_target r) + n_Z (r_projectile r))%Z /\
  sumZ (map n_A (final_nuclei r ds)) = (n_A (r_target r) + n_A (r_projectile r))%Z.
Proof.
  intros F [(t & p & e & R) B] C S.
  destruct (C38_reaction _ _ _ _ _ F R) as (Et & Ep & Ee & RZ & RA). subst t p e.
  assert (BZ : Forall (fun d => n_Z (d_parent d) = n_Z (d_res1 d) + n_Z (d_res2 d) /\
                                n_A (d_parent d) = n_A (d_res1 d) + n_A (d_res2 d))%Z ds).
  { eapply Forall_impl; [|exact B]. intros d (q & a & M).
    destruct (C38_decay _ _ _ _ F M) as (Ep & Ea & A1 & A2). subst q a. now split. }
  assert (K : forall i d m, nth_error ds i = Some d -> nth_error (left_over r ds) i = Some m ->
     n_Z m = n_Z (d_parent d) /\ n_A m = n_A (d_parent d)).
  { intros i d m A1 A2. apply S.
    - eapply nth_error_In; eauto.
    - apply in_map. eapply nth_error_In; eauto.
    - eapply C; eauto. }
  unfold final_nuclei. cbn [map]. rewrite !sumZ_cons.
  rewrite (sum_tail n_Z ds (r_residual r)), (sum_tail n_A ds (r_residual r)).
  - lia.
  - eapply Forall_impl; [|exact BZ]. intros d [_ H]. exact H.
  - intros i d m A1 A2. apply (K i d m A1 A2).
  - eapply Forall_impl; [|exact BZ]. intros d [H _]. exact H.
  - intros i d m A1 A2. apply (K i d m A1 A2).
Qed.

(** ** C44 and C45: sampling *)
Section Run.
  Context {G : Type} (draw : G -> res sample * G) (pl : pipeline) (loc : nat).
  Notation verdict_of := (sample_verdict (pl_reaction pl) (pl_decays pl)).
  (** Every sample has one excitation and one pair of angles per decay. *)
  Context (WF : forall g s g', draw g = (Ok s, g') -> well_formed (pl_decays pl) s).
  (** The buffer has the rows of the event. *)
  Definition buffer_ok (m : memory) : Prop := length (m loc) = (4 + 2 * length (pl_decays pl))%nat.

  Lemma run_outcome m g : buffer_ok m ->
    exists m' g' out, run draw pl loc m g = ((m', g'), out) /\ buffer_ok m' /\
      (forall l, l <> loc -> m' l = m l) /\
      outcome draw pl 0 g g' (m' loc) (match out with Ok (v, _) => Ok v | Err x => Err x end) /\
      (forall v a, out = Ok (v, a) -> a = loc).
  Proof using WF.
    intros B. unfold run.
    destruct (run_loop_outcome draw pl WF (S (Z.to_nat (pl_limit pl))) 0 (m loc) g) as (r & g' & out & R & L & O);
      [exact B|lia|lia|]. rewrite R.
    assert (E : forall a, mem_set m loc a loc = a) by (intros a; unfold mem_set; now rewrite Nat.eqb_refl).
    assert (N : forall a l, l <> loc -> mem_set m loc a l = m l).
    { intros a l H. unfold mem_set. now rewrite (proj2 (Nat.eqb_neq l loc) H). }
    destruct out as [v|x].
    - exists (mem_set m loc r), g', (Ok (v, loc)). split; [reflexivity|].
      split; [unfold buffer_ok in *; rewrite E; congruence|]. split; [apply N|]. rewrite E. split; [exact O|].
      intros v' a [= _ <-]. reflexivity.
    - exists (mem_set m loc r), g', (Err x). split; [reflexivity|].
      split; [unfold buffer_ok in *; rewrite E; congruence|]. split; [apply N|]. rewrite E. split; [exact O|].
      discriminate.
  Qed.

  (** Draws are determined. *)
  Lemma drawn_fun g l g1 : drawn draw g l g1 -> forall l' g1', drawn draw g l' g1' ->
    length l = length l' -> l = l' /\ g1 = g1'.
  Proof.
    induction 1 as [g|g s g1 l g2 D H IH]; intros l' g1' D' L.
    - inversion D'; subst; [now split|discriminate].
    - inversion D'; subst; [discriminate|]. rewrite D in H0. injection H0 as <- <-.
      cbn [length] in L. destruct (IH _ _ H1 ltac:(lia)) as [-> ->]. now split.
  Qed.
  Lemma drawn_prefix g l g1 : drawn draw g l g1 -> forall l' g1', drawn draw g l' g1' ->
    (length l < length l')%nat ->
    exists s l2 g2, l' = l ++ s :: l2 /\ draw g1 = (Ok s, g2).
  Proof.
    induction 1 as [g|g s g1 l g2 D H IH]; intros l' g1' D' L.
    - inversion D'; subst; [cbn [length] in L; lia|]. do 3 eexists. split; [reflexivity|eassumption].
    - inversion D'; subst; [cbn [length] in L; lia|]. rewrite D in H0. injection H0 as <- <-.
      cbn [length] in L. destruct (IH _ _ H1 ltac:(lia)) as (s' & l2 & g3 & -> & E). now exists s', l2, g3.
  Qed.

  Lemma rejects_stop l s v : Forall (fun s => verdict_of s Reject) (l ++ s :: v) -> verdict_of s Reject.
  Proof. intros F. apply Forall_app in F. destruct F as [_ F]. now inversion F. Qed.

  (** The first accepted sample within the limit is the event. *)
  Theorem C44_first_allowed m g l g1 s g2 rows : buffer_ok m ->
    drawn draw g l g1 -> Forall (fun s => verdict_of s Reject) l ->
    draw g1 = (Ok s, g2) -> verdict_of s (Accept rows) ->
    (Z.of_nat (length l) < pl_limit pl)%Z ->
    exists m', run draw pl loc m g = ((m', g2), Ok (s_vertex s, loc)) /\ m' loc = rows /\
      (forall a, a <> loc -> m' a = m a).
  Proof using WF.
    intros B D F Ds V L. destruct (run_outcome m g B) as (m' & g' & out & R & B' & N & (l' & g1' & D' & F' & O) & A).
    rewrite R.
    destruct (Nat.lt_trichotomy (length l) (length l')) as [C|[C|C]].
    - destruct (drawn_prefix _ _ _ D _ _ D' C) as (s' & l2 & g3 & -> & E).
      assert (s' = s) by congruence. subst s'. apply rejects_stop in F'.
      discriminate (sample_verdict_fun _ _ _ _ _ V F').
    - destruct (drawn_fun _ _ _ D _ _ D' C) as [<- <-].
      destruct O as [(O1 & _)|(O1 & [(x & O2 & _)|[(s' & x & O2 & O3 & _)|(s' & rows' & O2 & O3 & O4 & O5)]])].
      + lia.
      + congruence.
      + assert (s' = s) by congruence. subst s'. discriminate (sample_verdict_fun _ _ _ _ _ V O3).
      + assert (s' = s) by congruence. assert (g' = g2) by congruence. subst s' g'.
        assert (Q := sample_verdict_fun _ _ _ _ _ V O3).
        assert (Er : rows = rows') by congruence.
        exists m'. destruct out as [[v a]|x]; [|discriminate].
        assert (v = s_vertex s) by congruence. rewrite (A v a eq_refl). subst v.
        split; [reflexivity|]. split; [congruence|exact N].
    - destruct (drawn_prefix _ _ _ D' _ _ D C) as (s' & l2 & g3 & -> & E).
      apply rejects_stop in F.
      destruct O as [(O1 & _)|(O1 & [(x & O2 & _)|[(s'' & x & O2 & O3 & _)|(s'' & rows' & O2 & O3 & _)]])].
      + rewrite app_length in *. cbn [length] in *. lia.
      + congruence.
      + assert (s'' = s') by congruence. subst s''. discriminate (sample_verdict_fun _ _ _ _ _ F O3).
      + assert (s'' = s') by congruence. subst s''. discriminate (sample_verdict_fun _ _ _ _ _ F O3).
  Qed.

  (** After as many rejected samples as the limit allows, PipelineError and no further draw. *)
  Theorem C44_limit m g l g1 : buffer_ok m ->
    drawn draw g l g1 -> Forall (fun s => verdict_of s Reject) l ->
    Z.of_nat (length l) = Z.max 0 (pl_limit pl) ->
    exists m', run draw pl loc m g = ((m', g1), Err PipelineError).
  Proof using WF.
    intros B D F L. destruct (run_outcome m g B) as (m' & g' & out & R & B' & N & (l' & g1' & D' & F' & O) & A).
    rewrite R.
    destruct (Nat.lt_trichotomy (length l) (length l')) as [C|[C|C]].
    - destruct O as [(O1 & _)|(O1 & _)]; lia.
    - destruct (drawn_fun _ _ _ D _ _ D' C) as [<- <-]. destruct O as [(O1 & -> & O3)|(O1 & _)]; [|lia].
      exists m'. destruct out as [[v a]|x]; [discriminate|]. do 2 f_equal. congruence.
    - destruct (drawn_prefix _ _ _ D' _ _ D C) as (s' & l2 & g3 & -> & E).
      apply rejects_stop in F.
      destruct O as [(O1 & _)|(O1 & [(x & O2 & _)|[(s'' & x & O2 & O3 & _)|(s'' & rows' & O2 & O3 & _)]])].
      + rewrite app_length in *. cbn [length] in *. lia.
      + congruence.
      + assert (s'' = s') by congruence. subst s''. discriminate (sample_verdict_fun _ _ _ _ _ F O3).
      + assert (s'' = s') by congruence. subst s''. discriminate (sample_verdict_fun _ _ _ _ _ F O3).
  Qed.

  (** Conversely: every outcome has one of these causes. *)
  Theorem C44_outcomes m g m' g' out : buffer_ok m -> run draw pl loc m g = ((m', g'), out) ->
    exists l g1, drawn draw g l g1 /\ Forall (fun s => verdict_of s Reject) l /\
      ((Z.of_nat (length l) = Z.max 0 (pl_limit pl) /\ g' = g1 /\ out = Err PipelineError) \/
       ((Z.of_nat (length l) < pl_limit pl)%Z /\
        ((exists x, draw g1 = (Err x, g') /\ out = Err x) \/
         (exists s x, draw g1 = (Ok s, g') /\ verdict_of s (Raise x) /\ out = Err x) \/
         (exists s rows, draw g1 = (Ok s, g') /\ verdict_of s (Accept rows) /\
            out = Ok (s_vertex s, loc) /\ m' loc = rows)))).
  Proof using WF.
    intros B R. destruct (run_outcome m g B) as (m1 & g1 & out1 & R1 & B' & N & (l & g2 & D & F & O) & A).
    rewrite R in R1. injection R1 as <- <- <-. exists l, g2. split; [exact D|]. split; [exact F|].
    destruct O as [(O1 & O2 & O3)|(O1 & [(x & O2 & O3)|[(s & x & O2 & O3 & O4)|(s & rows & O2 & O3 & O4 & O5)]])].
    - left. split; [lia|]. split; [exact O2|]. destruct out as [[v a]|x]; [discriminate|]. congruence.
    - right. split; [lia|]. left. exists x. split; [exact O2|]. destruct out as [[v a]|y]; [discriminate|]. congruence.
    - right. split; [lia|]. right. left. exists s, x. split; [exact O2|]. split; [exact O3|].
      destruct out as [[v a]|y]; [discriminate|]. congruence.
    - right. split; [lia|]. right. right. exists s, rows. split; [exact O2|]. split; [exact O3|].
      split; [|exact O5]. destruct out as [[v a]|y]; [|discriminate].
      rewrite (A v a eq_refl). congruence.
  Qed.

  (** C45: what the buffer held before has no influence on the event. *)
  Theorem C45_no_stale_data m1 m2 g m1' g' v a : buffer_ok m1 -> buffer_ok m2 ->
    run draw pl loc m1 g = ((m1', g'), Ok (v, a)) ->
    exists m2', run draw pl loc m2 g = ((m2', g'), Ok (v, a)) /\ m2' a = m1' a.
  Proof using WF.
    intros B1 B2 R. pose proof R as R0. apply C44_outcomes in R; [|exact B1].
    destruct R as (l & g1 & D & F & [(_ & _ & Q)|(L & [(x & _ & Q)|[(s & x & _ & _ & Q)|(s & rows & O2 & O3 & Q & E)]])]);
      try discriminate.
    destruct (C44_first_allowed m2 g l g1 s g' rows B2 D F O2 O3 L) as (m2' & R2 & E2 & _).
    exists m2'. assert (v = s_vertex s) by congruence. assert (a = loc) by congruence. subst v a.
    split; [exact R2|congruence].
  Qed.

  (** C46: the array returned by an earlier run is the one the next run writes. *)
  Theorem C46_alias m g m1 g1 v1 a1 m2 g2 v2 a2 : buffer_ok m ->
    run draw pl loc m g = ((m1, g1), Ok (v1, a1)) ->
    run draw pl loc m1 g1 = ((m2, g2), Ok (v2, a2)) ->
    a1 = a2 /\ m2 a1 = m2 a2.
  Proof using WF.
    intros B R1 R2. destruct (run_outcome m g B) as (x1 & y1 & z1 & Q1 & B1 & _ & _ & A1).
    rewrite Q1 in R1. assert (z1 = Ok (v1, a1)) by congruence. assert (x1 = m1) by congruence. subst x1.
    destruct (run_outcome m1 g1 B1) as (x2 & y2 & z2 & Q2 & B2 & _ & _ & A2).
    rewrite Q2 in R2. assert (z2 = Ok (v2, a2)) by congruence.
    rewrite (A1 v1 a1), (A2 v2 a2) by assumption. now split.
  Qed.
End Run.

(** ** C47: conservation over the chain *)
Lemma decays_rows ds ps P v : decays_verdict ds ps P v -> forall rows, v = Accept rows ->
  length rows = (2 * length ds)%nat /\
  forall j, (j < length ds)%nat ->
    exists d ex th ph Q, decay_calculate_row d (nth (2 * j) (P :: rows) None) th ph ex
      = Ok [Q; nth (2 * j) rows None; nth (2 * j + 1) rows None].
Proof.
  induction 1 as [P|d ds ex th ph ps P A|d ds ex th ph ps P x A C|d ds ex th ph ps P P' a b v A C H IH];
    intros rows E; try discriminate.
  - injection E as <-. split; [reflexivity|]. cbn [length]. intros j Hj. lia.
  - destruct v as [rs| |x]; try discriminate. assert (a :: b :: rs = rows) by congruence. subst rows.
    destruct (IH rs eq_refl) as [L I]. split; [cbn [length]; lia|].
    intros [|j] Hj.
    + exists d, ex, th, ph, P'. cbn [Nat.mul Nat.add nth]. exact C.
    + cbn [length] in Hj. destruct (I j ltac:(lia)) as (d' & ex' & th' & ph' & Q & K).
      exists d', ex', th', ph', Q. replace (2 * S j)%nat with (S (S (2 * j))) by lia.
      replace (S (S (2 * j)) + 1)%nat with (S (S (2 * j + 1))) by lia. exact K.
Qed.

Lemma psum_app l k : psum (l ++ k) = padd (psum l) (psum k).
Proof.
  induction l as [|a l IH].
  - cbn [app]. generalize (psum k). intros b. apply p4_eq; cbn; ring.
  - change (psum ((a :: l) ++ k)) with (padd a (psum (l ++ k))).
    change (psum (a :: l)) with (padd a (psum l)). rewrite IH. apply p4_eq; cbn [padd qx qy qz qE]; ring.
Qed.

(** In an event made of numbers every decaying row is the sum of its products, and the rows that
    are simulated by default add up to target + projectile. *)
Theorem C47_conservation r ds s rows ps (zs : list Z) :
  sample_verdict r ds s (Accept rows) -> rows = map Some ps -> length zs = length rows ->
  length ps = (4 + 2 * length ds)%nat /\
  (forall j, (j < length ds)%nat ->
     nth (3 + 2 * j) ps pzero = padd (nth (4 + 2 * j) ps pzero) (nth (5 + 2 * j) ps pzero)) /\
  psum (map (fun i => nth (Z.to_nat i) ps pzero) (nuclei_to_sim None zs))
    = padd (nth 0 ps pzero) (nth 1 ps pzero).
Proof.
  intros V E Lz. inversion V as [| |t p e q v A C D EV]. destruct v as [rs| |x]; try discriminate.
  assert (ER : t :: p :: e :: q :: rs = rows) by congruence. clear EV. rewrite <- ER in *. clear ER.
  destruct (decays_rows _ _ _ _ D rs eq_refl) as [L I].
  destruct ps as [|t' [|p' [|e' [|q' ps]]]]; try discriminate E.
  assert (t = Some t') by (apply (f_equal (hd None)) in E; exact E).
  assert (p = Some p') by (apply (f_equal (fun l => hd None (tl l))) in E; exact E).
  assert (e = Some e') by (apply (f_equal (fun l => hd None (tl (tl l)))) in E; exact E).
  assert (q = Some q') by (apply (f_equal (fun l => hd None (tl (tl (tl l))))) in E; exact E).
  assert (Er : rs = map Some ps) by (apply (f_equal (fun l => tl (tl (tl (tl l))))) in E; exact E).
  clear E. subst t p e q rs. rewrite map_length in L.
  assert (R : padd t' p' = padd e' q') by (eapply reaction_calculate_sum; eauto).
  assert (J : forall j, (j < length ds)%nat ->
     nth (2 * j) (q' :: ps) pzero = padd (nth (2 * j) ps pzero) (nth (2 * j + 1) ps pzero)).
  { intros j Hj. destruct (I j Hj) as (d & ex & th & ph & Q & K).
    assert (N : forall l i, (i < length l)%nat -> nth i (map Some l) None = Some (nth i l pzero)).
    { intros l i Hi. rewrite (nth_indep _ None (Some pzero)) by (rewrite map_length; exact Hi). apply map_nth. }
    change (Some q' :: map Some ps) with (map Some (q' :: ps)) in K.
    rewrite !N in K by (cbn [length]; lia). apply decay_calculate_sum in K. congruence. }
  split; [cbn [length]; lia|].
  assert (J' : forall j, (j < length ds)%nat ->
     nth (3 + 2 * j) (t' :: p' :: e' :: q' :: ps) pzero
     = padd (nth (4 + 2 * j) (t' :: p' :: e' :: q' :: ps) pzero) (nth (5 + 2 * j) (t' :: p' :: e' :: q' :: ps) pzero)).
  { intros j Hj. change (nth (3 + 2 * j) (t' :: p' :: e' :: q' :: ps) pzero) with (nth (2 * j) (q' :: ps) pzero).
    rewrite (J j Hj). replace (5 + 2 * j)%nat with (4 + (2 * j + 1))%nat by lia. reflexivity. }
  split; [exact J'|].
  set (all := t' :: p' :: e' :: q' :: ps) in *.
  unfold nuclei_to_sim, zrange2.
  assert (Ln : Z.of_nat (length zs) = (4 + 2 * Z.of_nat (length ds))%Z).
  { rewrite Lz. cbn [length]. rewrite map_length. lia. }
  rewrite Ln, map_app, psum_app.
  replace (Z.to_nat ((4 + 2 * Z.of_nat (length ds) - 2 + 1) / 2)) with (S (length ds)).
  2:{ replace (4 + 2 * Z.of_nat (length ds) - 2 + 1)%Z with (1 + (Z.of_nat (length ds) + 1) * 2)%Z by lia.
      rewrite Z.div_add by lia. change (1 / 2)%Z with 0%Z. lia. }
  rewrite map_map. cbn [map psum fold_right].
  replace (Z.to_nat (4 + 2 * Z.of_nat (length ds) - 1)) with (3 + 2 * length ds)%nat by lia.
  rewrite (map_ext _ (fun i => nth (2 + 2 * i) all pzero)) by (intros i; f_equal; lia).
  change (nth 0 all pzero) with t'. change (nth 1 all pzero) with p'.
  assert (Tel : forall m, (m <= length ds)%nat ->
    padd (psum (map (fun i => nth (2 + 2 * i) all pzero) (seq 0 (S m)))) (padd (nth (3 + 2 * m) all pzero) pzero)
      = padd e' q').
  { induction m as [|m IH]; intros Hm.
    - cbn [seq map psum fold_right]. change (nth (2 + 2 * 0) all pzero) with e'.
      change (nth (3 + 2 * 0) all pzero) with q'. unfold pzero.
      apply p4_eq; cbn [padd qx qy qz qE]; ring.
    - rewrite <- (IH ltac:(lia)), (J' m) by lia.
      rewrite seq_S, map_app, psum_app. cbn [map psum fold_right].
      replace (2 + 2 * (0 + S m))%nat with (4 + 2 * m)%nat by lia.
      replace (3 + 2 * S m)%nat with (5 + 2 * m)%nat by lia. unfold pzero.
      apply p4_eq; cbn [padd qx qy qz qE]; ring. }
  rewrite (Tel (length ds) (le_n _)). congruence.
Qed.

(** ** C47 continued: masses *)
Lemma on_shell_timelike m P : 0 < m -> on_shell m P -> timelike P /\ sqrt (mdot P P) = m.
Proof.
  intros Hm [S E]. split; [split|].
  - rewrite S. nra.
  - destruct (Rle_or_lt (qE P) 0) as [H|H]; [|exact H]. exfalso. assert (qE P = 0) as Z by lra.
    unfold mdot in S. rewrite Z in S.
    assert (0 <= qx P * qx P + qy P * qy P + qz P * qz P) by nra. nra.
  - rewrite S. apply sqrt_pow2. lra.
Qed.

Lemma massive_cons d ds ex th ph ps : massive_decays (d :: ds) ((ex, th, ph) :: ps) ->
  0 <= n_mass (d_res1 d) /\ 0 < n_mass (d_res2 d) + ex /\ massive_decays ds ps.
Proof. unfold massive_decays. cbn [combine]. intros H. inversion H as [|? ? [A B] C]; subst. now repeat split. Qed.

Lemma decays_physical ds ps P v : decays_verdict ds ps P v ->
  forall m p, P = Some p -> 0 < m -> on_shell m p -> massive_decays ds ps ->
  (forall x, v <> Raise x) /\
  (forall rows, v = Accept rows -> exothermic m ds ps /\
     exists l, rows = map Some l /\ Forall2 on_shell (decay_masses ds ps) l) /\
  (v = Reject -> ~ exothermic m ds ps).
Proof.
  induction 1 as [P|d ds ex th ph ps P A|d ds ex th ph ps P x A C|d ds ex th ph ps P P' a b v A C H IH];
    intros m p -> Hm S F.
  - split; [discriminate|]. split; [|discriminate].
    intros rows [= <-]. split; [exact I|]. exists []. split; [reflexivity|constructor].
  - destruct (on_shell_timelike m p Hm S) as [T M].
    split; [discriminate|]. split; [discriminate|].
    intros _ [E _]. cbn [decay_allowed_row] in A.
    assert (decay_allowed d p ex = true) by (apply (proj2 (proj1 (C41_refused d p 0 0 ex T))); rewrite M; exact E).
    congruence.
  - destruct (on_shell_timelike m p Hm S) as [T M]. apply massive_cons in F. destruct F as (F1 & F2 & F3).
    cbn [decay_allowed_row decay_calculate_row] in A, C.
    destruct (C41_decay d p th ph ex T F1 ltac:(lra) A) as (a & b & _ & _ & E & _). congruence.
  - destruct (on_shell_timelike m p Hm S) as [T M]. apply massive_cons in F. destruct F as (F1 & F2 & F3).
    cbn [decay_allowed_row decay_calculate_row] in A, C.
    destruct (C41_decay d p th ph ex T F1 ltac:(lra) A) as (a' & b' & _ & _ & E & _ & Sa & Sb & _).
    assert (Q : [P'; a; b] = [Some p; Some a'; Some b']) by congruence.
    assert (Qa : a = Some a') by congruence. assert (Qb : b = Some b') by congruence. clear Q.
    destruct (IH _ b' Qb F2 Sb F3) as (I1 & I2 & I3).
    assert (L : n_mass (d_res1 d) + n_mass (d_res2 d) + ex < m).
    { rewrite <- M. exact (proj1 (proj1 (C41_refused d p 0 0 ex T)) A). }
    split; [|split].
    + intros x Q. destruct v as [rows| |y]; try discriminate. apply (I1 y). congruence.
    + intros rows Q. destruct v as [rs| |y]; try discriminate.
      destruct (I2 rs eq_refl) as (X & l & -> & Fl). split; [split; [exact L|exact X]|].
      exists (a' :: b' :: l). split; [assert (ER : a :: b :: map Some l = rows) by congruence; rewrite <- ER, Qa, Qb; reflexivity|].
      unfold decay_masses. cbn [combine flat_map fst snd app]. constructor; [exact Sa|].
      constructor; [exact Sb|exact Fl].
    + intros Q. destruct v as [rs| |y]; try discriminate. intros [_ X]. now apply (I3 eq_refl).
Qed.

(** Whatever the masses: in an accepted event every nucleus that decays further has a four-momentum of
    numbers; only the products of the last step can hold NaN. *)
Lemma decays_no_nan ds ps P v : decays_verdict ds ps P v -> forall rows, v = Accept rows ->
  forall i, (i < length ds)%nat -> exists q, match i with O => P | S j => nth (2 * j + 1) rows None end = Some q.
Proof.
  induction 1 as [P|d ds ex th ph ps P A|d ds ex th ph ps P x A C|d ds ex th ph ps P P' a b v A C H IH]; intros rows Q i Hi.
  - cbn [length] in Hi. lia.
  - discriminate Q.
  - discriminate Q.
  - destruct i as [|i].
    + destruct P as [q|]; [exists q; reflexivity|discriminate A].
    + destruct v as [rs| |y]; try discriminate Q. assert (E : a :: b :: rs = rows) by congruence. subst rows.
      cbn [length] in Hi. destruct (IH rs eq_refl i ltac:(lia)) as [q E]. exists q.
      destruct i as [|j]; [exact E|]. replace (2 * S j + 1)%nat with (S (S (2 * j + 1))) by lia. exact E.
Qed.
Theorem C47_no_nan r ds s rows : sample_verdict r ds s (Accept rows) ->
  forall i, (i < length ds)%nat -> exists q, nth (3 + 2 * i) rows None = Some q.
Proof.
  intros H i Hi. inversion H as [| |t p e q v A C D E]. destruct v as [rs| |y]; try discriminate E.
  assert (R : t :: p :: e :: q :: rs = rows) by congruence. clear E. subst rows.
  destruct (decays_no_nan _ _ _ _ D rs eq_refl i Hi) as [x X]. exists x.
  destruct i as [|j]; [exact X|]. replace (3 + 2 * S j)%nat with (S (S (S (S (2 * j + 1))))) by lia. exact X.
Qed.

(** Every accepted event consists of numbers, with every nucleus on its mass shell, excitation
    included; a sample is accepted exactly when the reaction is allowed and every decay is
    exothermic; only the threshold test of [reaction_calculate] can raise. *)
Theorem C47_on_shell r ds s rows : massive r ds s -> sample_verdict r ds s (Accept rows) ->
  exists ps, rows = map Some ps /\
    Forall2 on_shell ([n_mass (r_target r); n_mass (r_projectile r); n_mass (r_ejectile r);
                       n_mass (r_residual r) + s_ex s] ++ decay_masses ds (decay_params s)) ps.
Proof.
  intros (Ht & Hp & He & Hr & HT & Hd) V. inversion V as [| |t p e q v A C D EV].
  destruct v as [rs| |x]; try discriminate. assert (ER : t :: p :: e :: q :: rs = rows) by congruence.
  clear EV. subst rows.
  destruct (C39_reaction r (s_energy s) (s_theta s) (s_phi s) (s_ex s) [t; p; e; q] Ht Hp He ltac:(lra) HT A C)
    as (t' & p' & e' & q' & _ & _ & E & Et & Sp & _ & _ & _ & _ & _ & Se & Sq & _).
  assert (t = Some t') by congruence. assert (p = Some p') by congruence.
  assert (e = Some e') by congruence. assert (q = Some q') by congruence. clear E. subst t p e q.
  destruct (decays_physical _ _ _ _ D _ q' eq_refl Hr Sq Hd) as (_ & I2 & _).
  destruct (I2 rs eq_refl) as (_ & l & -> & Fl).
  exists (t' :: p' :: e' :: q' :: l). split; [reflexivity|]. cbn [app].
  constructor. { subst t'. split; [unfold mdot; cbn [qx qy qz qE]; ring|cbn [qE]; lra]. }
  constructor; [exact Sp|]. constructor; [exact Se|]. constructor; [exact Sq|exact Fl].
Qed.

Theorem C47_accepted_iff r ds s v : massive r ds s -> sample_verdict r ds s v ->
  ((exists rows, v = Accept rows) <->
   exact_threshold r (s_ex s) < s_energy s /\
   (exists l, reaction_calculate r (s_energy s) (s_theta s) (s_phi s) (s_ex s) = Ok l) /\
   exothermic (n_mass (r_residual r) + s_ex s) ds (decay_params s)) /\
  (forall x, v = Raise x -> exact_threshold r (s_ex s) < s_energy s /\
     reaction_calculate r (s_energy s) (s_theta s) (s_phi s) (s_ex s) = Err x).
Proof.
  intros (Ht & Hp & He & Hr & HT & Hd) V.
  pose proof (C40_allowed_is_exact r (s_energy s) (s_ex s) Ht Hp HT ltac:(lra)) as X.
  inversion V as [A EV|x A C EV|t p e q w A C D EV].
  - split; [|discriminate]. split; [intros [rows Q]; discriminate|].
    intros (L & _). apply X in L. congruence.
  - split.
    + split; [intros [rows Q]; discriminate|]. intros (_ & (l & Q) & _). congruence.
    + intros y Q. split; [now apply X|congruence].
  - destruct (C39_reaction r (s_energy s) (s_theta s) (s_phi s) (s_ex s) [t; p; e; q] Ht Hp He ltac:(lra) HT A C)
      as (t' & p' & e' & q' & _ & _ & E & Et & Sp & _ & _ & _ & _ & _ & Se & Sq & _).
    assert (Qq : q = Some q') by congruence.
    destruct (decays_physical _ _ _ _ D _ q' Qq Hr Sq Hd) as (I1 & I2 & I3).
    split.
    + split.
      * intros [rows Q]. destruct w as [rs| |y]; try discriminate.
        split; [now apply X|]. split; [eauto|]. now destruct (I2 rs eq_refl).
      * intros (_ & _ & L). destruct w as [rs| |y]; [eauto| |].
        -- exfalso. now apply (I3 eq_refl).
        -- exfalso. now apply (I1 y).
    + intros y Q. destruct w as [rs| |z]; try discriminate. exfalso. now apply (I1 z).
Qed.

(** Every sample has a verdict. *)
Lemma verdict_exists pl s : well_formed (pl_decays pl) s ->
  exists v, sample_verdict (pl_reaction pl) (pl_decays pl) s v.
Proof.
  intros W.
  destruct (attempt_verdict pl s (repeat None (4 + 2 * length (pl_decays pl)))) as (v & _ & _ & _ & V & _);
    [exact W|apply repeat_length|]. now exists v.
Qed.

(** ** C48: check_excitations_allowed *)
Lemma subtract_decays_eq ds : forall idx pre exs q, length pre = S (Z.to_nat idx) -> (0 <= idx)%Z ->
  length exs = length ds ->
  subtract_decays idx ds (pre ++ exs) q
  = Ok (q - sum_R (map (fun x => n_mass (d_res1 (fst x)) + (n_mass (d_res2 (fst x)) + snd x)) (combine ds exs))).
Proof.
  induction ds as [|d ds IH]; intros idx pre exs q Hp Hi L; cbn [subtract_decays].
  - destruct exs; [|discriminate]. cbn [combine map sum_R fold_right]. f_equal. ring.
  - destruct exs as [|ex exs]; [discriminate|].
    replace (idx + 1)%Z with (Z.of_nat (length pre)) by lia. rewrite py_index_app. cbn [bind].
    replace (pre ++ ex :: exs) with ((pre ++ [ex]) ++ exs) by (rewrite <- app_assoc; reflexivity).
    rewrite IH.
    + f_equal. cbn [combine map fst snd sum_R fold_right]. fold (sum_R). unfold sum_R. ring.
    + rewrite app_length. cbn [length]. lia.
    + lia.
    + cbn [length] in L. lia.
Qed.

Lemma sum_R_cons x l : sum_R (x :: l) = x + sum_R l.
Proof. reflexivity. Qed.

(** It compares the available energy with the masses of the ejectile, of the first products of all
    decays, and of the nuclei left over by every step, although all of these but the last have
    decayed. *)
Theorem C48_counts_decayed_nuclei pl T exs : length exs = S (length (pl_decays pl)) ->
  let r := pl_reaction pl in
  check_excitations_allowed pl T exs
  = Ok (Rle_bool (n_mass (r_ejectile r) + sum_R (map (fun d => n_mass (d_res1 d)) (pl_decays pl))
                  + sum_R (left_over_masses r (pl_decays pl) exs))
                 (n_mass (r_projectile r) + T + n_mass (r_target r))).
Proof.
  intros L r. destruct exs as [|ex0 exs]; [discriminate|]. unfold check_excitations_allowed. fold r.
  change (py_index (ex0 :: exs) 0) with (py_index ([] ++ ex0 :: exs) (Z.of_nat (length (@nil R)))).
  rewrite py_index_app. cbn [bind].
  change (ex0 :: exs) with ([ex0] ++ exs).
  rewrite subtract_decays_eq; [|reflexivity|lia|cbn [length] in L; lia]. cbn [bind]. f_equal.
  unfold left_over_masses, left_over. cbn [app combine map fst snd]. rewrite sum_R_cons.
  assert (S : forall ds es, length es = length ds ->
    sum_R (map (fun x => n_mass (d_res1 (fst x)) + (n_mass (d_res2 (fst x)) + snd x)) (combine ds es))
    = sum_R (map (fun d => n_mass (d_res1 d)) ds)
      + sum_R (map (fun x => n_mass (fst x) + snd x) (combine (map d_res2 ds) es))).
  { induction ds as [|d ds IH]; intros es Le.
    - cbn [combine map sum_R fold_right]. ring.
    - destruct es as [|e es]; [discriminate|]. cbn [combine map fst snd]. rewrite !sum_R_cons, IH by (cbn [length] in Le; lia). ring. }
  rewrite S by (cbn [length] in L; lia).
  set (a := sum_R (map (fun d => n_mass (d_res1 d)) (pl_decays pl))).
  set (b := sum_R (map _ (combine (map d_res2 _) exs))).
  match goal with |- Rle_bool 0 ?x = Rle_bool ?y ?z => destruct (Rle_bool_spec 0 x); destruct (Rle_bool_spec y z) end;
    try reflexivity; lra.
Qed.

(** Without decays that is conservation of energy. *)
Theorem C48_no_decays pl T ex : pl_decays pl = [] ->
  let r := pl_reaction pl in
  check_excitations_allowed pl T [ex] = Ok true <->
  n_mass (r_ejectile r) + (n_mass (r_residual r) + ex) <= n_mass (r_projectile r) + T + n_mass (r_target r).
Proof.
  intros E r. rewrite C48_counts_decayed_nuclei by (rewrite E; reflexivity). fold r. rewrite E.
  unfold left_over_masses, left_over. cbn [map combine fst snd]. rewrite sum_R_cons. cbn [sum_R fold_right].
  match goal with |- Ok (Rle_bool ?y ?z) = _ <-> _ => destruct (Rle_bool_spec y z) end.
  - split; [intros _; lra|reflexivity].
  - split; [discriminate|intros; lra].
Qed.

(** ** Witnesses *)
Definition one_sample (s : sample) (g : nat) : res sample * nat := (Ok s, S g).
(** 4 + 1 -> 1 + 4, then 4 -> 1 + 2. *)
Definition chain_r : reaction := mkReaction (nuc 4) (nuc 1) (nuc 1) (nuc 4).
Definition chain_d : decay := mkDecay (nuc 4) (nuc 1) (nuc 2).
Definition chain_s (T : R) : sample := mkSample T 0 1 2 (0, 0, 0) [0] [1] [3].
Definition chain_pl : pipeline := mkPipeline chain_r [chain_d] 1000 (repeat None 6).

Lemma chain_accepted T : 1 <= T -> exists rows, sample_verdict chain_r [chain_d] (chain_s T) (Accept rows).
Proof.
  intros HT.
  destruct (verdict_exists chain_pl (chain_s T)) as [v V]; [repeat split; reflexivity|].
  cbn [chain_pl pl_reaction pl_decays] in V.
  assert (M : massive chain_r [chain_d] (chain_s T)).
  { unfold massive, massive_decays, chain_r, chain_d, chain_s, nuc, decay_params.
    cbn [r_target r_projectile r_ejectile r_residual n_mass s_ex s_energy s_decay_ex s_decay_thetas s_decay_phis combine map].
    repeat split; try lra. repeat apply Forall_cons; [cbn; lra|constructor]. }
  destruct (C47_accepted_iff _ _ _ _ M V) as [[_ I] _].
  destruct I as [rows ->]; [|now exists rows].
  assert (EX : exact_threshold chain_r (s_ex (chain_s T)) < s_energy (chain_s T)).
  { unfold exact_threshold, chain_r, chain_s, nuc. cbn [r_target r_projectile r_ejectile r_residual n_mass s_ex s_energy]. lra. }
  split; [exact EX|]. split.
  - apply C40_allowed_is_calculated; unfold deficit, chain_r, chain_s, nuc;
      cbn [r_target r_projectile r_ejectile r_residual n_mass s_ex s_energy]; try lra.
    apply C40_allowed_is_exact; cbn [r_target r_projectile r_ejectile r_residual n_mass]; try lra. exact EX.
  - unfold chain_r, chain_d, chain_s, nuc, decay_params.
    cbn [exothermic r_residual n_mass s_ex s_decay_ex s_decay_thetas s_decay_phis combine map fst snd d_res1 d_res2].
    split; [lra|exact I].
Qed.

(** The chain is energetically possible and run accepts it, but the check denies it. *)
Theorem C48_chain_rejected_refuted : exists pl s rows,
  sample_verdict (pl_reaction pl) (pl_decays pl) s (Accept rows) /\
  check_excitations_allowed pl (s_energy s) (s_ex s :: s_decay_ex s) = Ok false.
Proof.
  destruct (chain_accepted 1 ltac:(lra)) as [rows V].
  exists chain_pl, (chain_s 1), rows. split; [exact V|].
  rewrite C48_counts_decayed_nuclei by reflexivity. f_equal. apply Rle_bool_false.
  unfold left_over_masses, left_over, chain_pl, chain_r, chain_d, chain_s, nuc, sum_R.
  cbn [pl_reaction pl_decays r_target r_projectile r_ejectile r_residual n_mass s_ex s_energy s_decay_ex
       combine map fst snd d_res1 d_res2 fold_right]. lra.
Qed.

(** And without decays it can be True although the reaction is not possible. *)
Theorem C48_endothermic_refuted : exists pl T ex,
  pl_decays pl = [] /\ check_excitations_allowed pl T [ex] = Ok true /\
  reaction_allowed (pl_reaction pl) T ex = false.
Proof.
  exists (mkPipeline ones [] 1000 []), 1, 1. split; [reflexivity|]. split.
  - apply C48_no_decays; [reflexivity|]. unfold ones, nuc.
    cbn [pl_reaction r_target r_projectile r_ejectile r_residual n_mass]. lra.
  - cbn [pl_reaction]. destruct (reaction_allowed ones 1 1) eqn:A; [|reflexivity].
    apply C40_allowed_is_exact in A; unfold exact_threshold, ones, nuc in *;
      cbn [r_target r_projectile r_ejectile r_residual n_mass] in *; lra.
Qed.

(** Two runs of one pipeline: the event kept from the first is overwritten by the second. *)
Definition alt_draw (g : nat) : res sample * nat := (Ok (chain_s (INR (S g))), S g).

Theorem C46_overwritten_refuted : exists (pl : pipeline) (m m1 m2 : memory) g1 g2 v1 v2 a,
  run alt_draw pl a m 0%nat = ((m1, g1), Ok (v1, a)) /\
  run alt_draw pl a m1 g1 = ((m2, g2), Ok (v2, a)) /\
  m2 a <> m1 a.
Proof.
  assert (WF : forall g s g', alt_draw g = (Ok s, g') -> well_formed (pl_decays chain_pl) s).
  { intros g s g' E. apply (f_equal fst) in E. cbn [alt_draw fst] in E.
    assert (s = chain_s (INR (S g))) by congruence. subst s. repeat split; reflexivity. }
  assert (H1 : 1 <= INR 1) by (simpl; lra). assert (H2 : 1 <= INR 2) by (simpl; lra).
  destruct (chain_accepted (INR 1) H1) as [rows1 V1]. destruct (chain_accepted (INR 2) H2) as [rows2 V2].
  set (m := fun _ : nat => repeat (@None p4) 6).
  destruct (C44_first_allowed alt_draw chain_pl 0 WF m 0%nat [] 0%nat (chain_s (INR 1)) 1%nat rows1)
    as (m1 & R1 & E1 & _); try assumption; try reflexivity; [constructor|constructor|].
  assert (B1 : buffer_ok chain_pl 0 m1).
  { destruct (run_outcome alt_draw chain_pl 0 WF m 0%nat) as (x & y & z & Q & B & _); [reflexivity|].
    rewrite R1 in Q. assert (x = m1) by congruence. now subst x. }
  destruct (C44_first_allowed alt_draw chain_pl 0 WF m1 1%nat [] 1%nat (chain_s (INR 2)) 2%nat rows2)
    as (m2 & R2 & E2 & _); try assumption; try reflexivity; [constructor|constructor|].
  exists chain_pl, m, m1, m2. do 4 eexists. exists 0%nat. split; [exact R1|]. split; [exact R2|].
  rewrite E1, E2. intros Q.
  assert (K : forall T rows, 0 <= T -> sample_verdict chain_r [chain_d] (chain_s T) (Accept rows) ->
    exists p, nth 1 rows None = Some p /\ qE p = T + 1).
  { intros T rows HT V. inversion V as [| |t p e q v A C D EV]. destruct v as [rs| |x]; try discriminate.
    destruct (C39_reaction chain_r T 1 2 0 [t; p; e; q]) as (t' & p' & e' & q' & _ & _ & E & _ & _ & EE & _);
      try (unfold chain_r, nuc; cbn [r_target r_projectile r_ejectile r_residual n_mass]; lra); auto.
    exists p'. split; [|exact EE]. assert (ER : t :: p :: e :: q :: rs = rows) by congruence.
    rewrite <- ER. cbn [nth]. congruence. }
  destruct (K (INR 1) rows1 ltac:(lra) V1) as (p1 & N1 & Q1). destruct (K (INR 2) rows2 ltac:(lra) V2) as (p2 & N2 & Q2).
  rewrite Q in N2. assert (p1 = p2) by congruence. subst p2. simpl in Q1, Q2. lra.
Qed.

(** The first run of alt_draw, once into an array of NaN and once into an array holding numbers. *)
Example C45_example : exists m1 m2,
  run alt_draw chain_pl 0 (fun _ => repeat None 6) 0%nat = ((m1, 1%nat), Ok ((0, 0, 0), 0%nat)) /\
  run alt_draw chain_pl 0 (fun _ => repeat (Some (mkP4 7 7 7 7)) 6) 0%nat = ((m2, 1%nat), Ok ((0, 0, 0), 0%nat)) /\
  m2 0%nat = m1 0%nat /\ length (m1 0%nat) = 6%nat.
Proof.
  assert (WF : forall g s g', alt_draw g = (Ok s, g') -> well_formed (pl_decays chain_pl) s).
  { intros g s g' E. apply (f_equal fst) in E. cbn [alt_draw fst] in E.
    assert (s = chain_s (INR (S g))) by congruence. subst s. repeat split; reflexivity. }
  destruct (chain_accepted (INR 1) ltac:(simpl; lra)) as [rows1 V1].
  destruct (C44_first_allowed alt_draw chain_pl 0 WF (fun _ => repeat None 6) 0%nat [] 0%nat (chain_s (INR 1)) 1%nat rows1)
    as (m1 & R1 & E1 & _); try assumption; try reflexivity; [constructor|constructor|].
  destruct (C45_no_stale_data alt_draw chain_pl 0 WF (fun _ => repeat None 6) (fun _ => repeat (Some (mkP4 7 7 7 7)) 6) 0%nat
    m1 1%nat (0, 0, 0) 0%nat) as (m2 & R2 & E2); [reflexivity|reflexivity|exact R1|].
  exists m1, m2. split; [exact R1|]. split; [exact R2|]. split; [exact E2|].
  destruct (run_outcome alt_draw chain_pl 0 WF (fun _ => repeat None 6) 0%nat) as (x & y & z & Q & B & _); [reflexivity|].
  rewrite R1 in Q. assert (x = m1) by congruence. subst x. exact B.
Qed.

(** The chain with a beam of energy 2: six nuclei on shell, and the three that are left (masses 1, 1
    and 2) carry the energy 2 + 1 + 4 of beam and target. *)
Example C47_example : exists rows ps,
  sample_verdict chain_r [chain_d] (chain_s 2) (Accept rows) /\ rows = map Some ps /\
  Forall2 on_shell [4; 1; 1; 4; 1; 2] ps /\
  nuclei_to_sim None [1; 1; 1; 1; 1; 1]%Z = [2; 4; 5]%Z /\
  qE (psum (map (fun i => nth (Z.to_nat i) ps pzero) [2; 4; 5]%Z)) = 7.
Proof.
  destruct (chain_accepted 2 ltac:(lra)) as [rows V].
  assert (M : massive chain_r [chain_d] (chain_s 2)).
  { unfold massive, massive_decays, chain_r, chain_d, chain_s, nuc, decay_params.
    cbn [r_target r_projectile r_ejectile r_residual n_mass s_ex s_energy s_decay_ex s_decay_thetas s_decay_phis combine map].
    repeat split; try lra. repeat apply Forall_cons; [cbn; lra|constructor]. }
  destruct (C47_on_shell _ _ _ _ M V) as (ps & E & F).
  assert (L : length rows = 6%nat) by (rewrite E, map_length; clear - F; repeat (match goal with H : Forall2 _ _ _ |- _ => inversion H; clear H; subst end); reflexivity).
  destruct (C47_conservation _ _ _ _ ps [1; 1; 1; 1; 1; 1]%Z V E ltac:(rewrite L; reflexivity)) as (_ & _ & K).
  exists rows, ps. split; [exact V|]. split; [exact E|].
  cbn [chain_r chain_d chain_s nuc r_target r_projectile r_ejectile r_residual n_mass s_ex app decay_masses decay_params
       s_decay_ex s_decay_thetas s_decay_phis combine map flat_map d_res1 d_res2 fst snd] in F.
  rewrite !Rplus_0_r in F.
  split; [exact F|]. split; [reflexivity|].
  change [2; 4; 5]%Z with (nuclei_to_sim None [1; 1; 1; 1; 1; 1]%Z). rewrite K.
  inversion V as [| |t p e q v A C D EV]. destruct v as [rs| |x]; try discriminate.
  destruct (C39_reaction chain_r 2 1 2 0 [t; p; e; q]) as (t' & p' & e' & q' & _ & _ & EE & Et & _ & Ep & _);
    try (unfold chain_r, nuc; cbn [r_target r_projectile r_ejectile r_residual n_mass]; lra); auto.
  assert (ER : t :: p :: e :: q :: rs = rows) by congruence. rewrite <- ER in E.
  destruct ps as [|a [|b ps]]; try discriminate E. cbn [map] in E. cbn [nth].
  assert (a = t') by congruence. assert (b = p') by congruence. subst a b.
  rewrite Et. cbn [padd qE]. rewrite Ep. cbn [chain_r nuc r_target r_projectile n_mass]. lra.
Qed.

(** The check on the chain asks for a mass of 1 + 1 + 4 + 2 instead of the 1 + 1 + 2 that is left. *)
Example C48_example : check_excitations_allowed chain_pl (29 / 10) [0; 0] = Ok false /\
  check_excitations_allowed chain_pl 3 [0; 0] = Ok true.
Proof.
  split; (rewrite C48_counts_decayed_nuclei by reflexivity; f_equal;
    unfold left_over_masses, left_over, chain_pl, chain_r, chain_d, nuc, sum_R;
    cbn [pl_reaction pl_decays r_target r_projectile r_ejectile r_residual n_mass combine map fst snd d_res1 d_res2 fold_right];
    first [apply Rle_bool_false; lra|apply Rle_bool_true; lra]).
Qed.

Example C42_example :
  (exists pl, make_pipeline (fun n => repeat None n) [SReaction chain_r; SDecay chain_d] [tt; tt] [tt; tt] 1000 = Ok pl) /\
  make_pipeline (fun n => repeat None n) [SDecay chain_d] [tt] [tt] 1000 = Err PipelineError.
Proof.
  split; [|reflexivity]. eexists. apply C42_accepted. exists chain_r, [chain_d].
  split; [reflexivity|]. split; [|now repeat split].
  intros [|[|i]] d n A B; cbn in A, B; try discriminate. injection A as <-. injection B as <-. reflexivity.
Qed.

Example C43_example :
  let d := mkDecay (mkNucleus 6 15 1 "15C") (mkNucleus 0 1 1 "n") (mkNucleus 6 14 1 "14C") in
  let r := mkReaction (mkNucleus 1 2 1 "2H") (mkNucleus 6 14 1 "14C") (mkNucleus 1 1 1 "1H") (mkNucleus 6 15 1 "15C") in
  get_proton_numbers (fun n => repeat 77%Z n) (mkPipeline r [d] 10 (repeat None 6)) = [1; 6; 1; 6; 0; 6]%Z /\
  get_mass_numbers (fun n => repeat 77%Z n) (mkPipeline r [d] 10 (repeat None 6)) = [2; 14; 1; 15; 1; 14]%Z /\
  map n_A (final_nuclei r [d]) = [1; 1; 14]%Z.
Proof. repeat split; reflexivity. Qed.

Example C44_limit_example :
  exists m', run (one_sample (mkSample 0 5 1 1 (0, 0, 0) [0] [1] [1])) (mkPipeline chain_r [chain_d] 3 []) 0
    (fun _ => repeat None 6) 0%nat = ((m', 3%nat), Err PipelineError).
Proof.
  set (s := mkSample 0 5 1 1 (0, 0, 0) [0] [1] [1]). set (pl := mkPipeline chain_r [chain_d] 3 []).
  apply (C44_limit (one_sample s) pl 0) with (l := [s; s; s]).
  - intros g s' g' E. unfold one_sample in E. assert (s = s') by congruence. subst s'. repeat split; reflexivity.
  - reflexivity.
  - repeat (econstructor; [reflexivity|]). constructor.
  - assert (V : sample_verdict chain_r [chain_d] s Reject).
    { apply SV_reject. unfold s. cbn [s_energy s_ex]. destruct (reaction_allowed chain_r 0 5) eqn:A; [|reflexivity].
      apply C40_allowed_is_exact in A; unfold exact_threshold, chain_r, nuc in *;
        cbn [r_target r_projectile r_ejectile r_residual n_mass] in *; lra. }
    repeat apply Forall_cons; auto.
  - reflexivity.
Qed.

Print Assumptions C44_outcomes.
Print Assumptions C47_on_shell.
