(** P_RunF64.v -- C92: kinematics files in binary64, from the random draws to the rows read back. *)
From Coq Require Import ZArith Reals Lia Lra List.
From Flocq Require Import Core BinarySingleNaN.
From Verif Require Import Base F64 F64Bounds Nucleus Reaction SpecReaction ReactionProofs P_Reaction PipelineProofs KinF64 P_KinF64 KinChain P_KinChain P_TransportF64
  P_ElectronsF64 P_Allowed Sampling SamplingF64 P_SamplingF64 P_Shell P_EventF64 VectorF64 P_VectorF64 Simulator KinFile SpecKinFile P_KinFile RunF64.
Import ListNotations.
Local Open Scope R_scope.

(** ** Specification *)
(** The numbers of the decays of a sample: excitation, polar and azimuthal angle. *)
(** A row as it is read back: the columns are px, py, pz, E. *)
Definition as_read (v : v4) : mom4 f64 := {| m_px := vx v; m_py := vy v; m_pz := vz v; m_E := vE v |}.
Definition params (s : sample64) : list (f64 * f64 * f64) := combine (combine (s64_decay_ex s) (s64_decay_thetas s)) (s64_decay_phis s).
Definition shaped (n : nat) (s : sample64) : Prop :=
  length (s64_decay_ex s) = n /\ length (s64_decay_thetas s) = n /\ length (s64_decay_phis s) = n.

(** Draws in a row that succeed. *)
Inductive in_a_row {G A} (draw : G -> res A * G) : G -> list A -> G -> Prop :=
| Row_nil g : in_a_row draw g [] g
| Row_cons g a g1 l g2 : draw g = (Ok a, g1) -> in_a_row draw g1 l g2 -> in_a_row draw g (a :: l) g2.
Lemma in_a_row_app {G A} (draw : G -> res A * G) g l g1 k g2 : in_a_row draw g l g1 -> in_a_row draw g1 k g2 -> in_a_row draw g (l ++ k) g2.
Proof. induction 1; intros D; [exact D|]. cbn [app]. eapply Row_cons; eauto. Qed.
Lemma in_a_row_in {G A} (draw : G -> res A * G) g l g' a : in_a_row draw g l g' -> In a l -> exists g1 g2, draw g1 = (Ok a, g2).
Proof. induction 1 as [|g b g1 l g2 D R IH]; intros I; [destruct I|]. destruct I as [<-|I]; [exists g, g1; exact D|exact (IH I)]. Qed.

Section Run.
  Context (sq sn cs : f64 -> f64) (boost : v4 -> v4 -> v4) (rest_energy mass : v4 -> f64).
  Context {G : Type} (draw : rand (G := G) sample64) (r : reaction_masses) (ds : list decay_masses) (limit : Z).

  (** What a sample amounts to: an event ([KinChain.event64]), nothing, or an exception. *)
  Definition event_of (s : sample64) : res (option (list v4)) :=
    event64 sq sn cs boost rest_energy mass r ds (s64_energy s) (s64_theta s) (s64_phi s) (s64_ex s) (params s).

  Context (WF : forall g s g', draw g = (Ok s, g') -> shaped (length ds) s).

  Lemma decay_loop_rows s ds' : forall idx P pre rest e1 e2 t1 t2 f1 f2,
    s64_decay_ex s = e1 ++ e2 -> s64_decay_thetas s = t1 ++ t2 -> s64_decay_phis s = f1 ++ f2 ->
    length e1 = idx -> length t1 = idx -> length f1 = idx ->
    length e2 = length ds' -> length t2 = length ds' -> length f2 = length ds' ->
    length pre = (idx * 2 + 4)%nat -> length rest = (2 * length ds')%nat ->
    exists out o, decay_loop64 sq sn cs boost rest_energy mass s idx ds' P (pre ++ rest) = (pre ++ out, o) /\ length out = (2 * length ds')%nat /\
      match decays64 sq sn cs boost rest_energy mass ds' (combine (combine e2 t2) f2) P with
      | Ok (Some l) => o = Ok true /\ out = l
      | Ok None => o = Ok false
      | Err x => o = Err x
      end.
  Proof using.
    induction ds' as [|d ds' IH]; intros idx P pre rest e1 e2 t1 t2 f1 f2 E T F Le Lt Lf Me Mt Mf Hp Hr.
    - destruct rest; [|discriminate Hr]. exists [], (Ok true). repeat split.
    - destruct e2 as [|ex e2]; [discriminate Me|]. destruct t2 as [|th t2]; [discriminate Mt|].
      destruct f2 as [|ph f2]; [discriminate Mf|]. destruct rest as [|x [|y rest]]; [cbn [length] in Hr; lia..|].
      cbn [decay_loop64 combine decays64].
      assert (Ie : py_index (s64_decay_ex s) (Z.of_nat idx) = Ok ex) by (rewrite E, <- Le; apply py_index_app).
      assert (It : py_index (s64_decay_thetas s) (Z.of_nat idx) = Ok th) by (rewrite T, <- Lt; apply py_index_app).
      assert (If : py_index (s64_decay_phis s) (Z.of_nat idx) = Ok ph) by (rewrite F, <- Lf; apply py_index_app).
      rewrite Ie, It, If. cbn [bind].
      destruct (decay_allowed64 mass d P ex); cbn [negb].
      2:{ exists (x :: y :: rest), (Ok false). split; [reflexivity|]. split; [exact Hr|reflexivity]. }
      destruct (decay_calculate64 sq sn cs boost rest_energy mass d P th ph ex) as [[a b]|z]; cbn [bind fst snd].
      2:{ exists (x :: y :: rest), (Err z). split; [reflexivity|]. split; [exact Hr|reflexivity]. }
      rewrite (upd_app' _ _ _ _ _ Hp).
      replace (pre ++ a :: y :: rest) with ((pre ++ [a]) ++ y :: rest) by (rewrite <- app_assoc; reflexivity).
      rewrite upd_app' by (rewrite app_length; cbn [length]; lia).
      replace ((pre ++ [a]) ++ b :: rest) with ((pre ++ [a; b]) ++ rest) by (rewrite <- !app_assoc; reflexivity).
      destruct (IH (S idx) b (pre ++ [a; b]) rest (e1 ++ [ex]) e2 (t1 ++ [th]) t2 (f1 ++ [ph]) f2) as (out & o & L & Lo & V);
        try (rewrite app_length; cbn [length]; lia); try (rewrite <- app_assoc; assumption).
      + cbn [length] in Me. lia.
      + cbn [length] in Mt. lia.
      + cbn [length] in Mf. lia.
      + cbn [length] in Hr. lia.
      + exists (a :: b :: out), o. split; [rewrite L, <- app_assoc; reflexivity|]. split; [cbn [length]; lia|].
        destruct (decays64 _ _ _ _ _ _ ds' _ b) as [[l|]|z]; cbn [bind]; [|exact V|exact V].
        destruct V as (-> & ->). split; reflexivity.
  Qed.

  (** One pass of the loop leaves exactly the rows of the event in the buffer, whatever was there before. *)
  Lemma attempt_rows s result : shaped (length ds) s -> length result = (4 + 2 * length ds)%nat ->
    exists result' o, attempt64 sq sn cs boost rest_energy mass r ds s result = (result', o) /\ length result' = (4 + 2 * length ds)%nat /\
      match event_of s with
      | Ok (Some rows) => o = Ok true /\ result' = rows
      | Ok None => o = Ok false
      | Err x => o = Err x
      end.
  Proof using.
    intros (Le & Lt & Lf) L. unfold attempt64, event_of, event64.
    destruct (reaction_allowed64 sq r (s64_energy s) (s64_ex s)); cbn [negb].
    2:{ exists result, (Ok false). auto. }
    destruct (reaction_calculate64 _ _ _ _ _ r _ _ _ _) as [[[[t p] e] q]|x]; cbn [bind].
    2:{ exists result, (Err x). auto. }
    destruct result as [|x0 [|x1 [|x2 [|x3 rest]]]]; [cbn [length] in L; lia..|]. cbn [upd].
    destruct (decay_loop_rows s ds 0 q [t; p; e; q] rest [] (s64_decay_ex s) [] (s64_decay_thetas s) [] (s64_decay_phis s))
      as (out & o & D & Lo & V); try reflexivity; try assumption; [cbn [length] in L; lia|].
    cbn [app] in D. rewrite D. exists (t :: p :: e :: q :: out), o. split; [reflexivity|]. split; [cbn [length]; lia|].
    fold (params s) in V. destruct (decays64 _ _ _ _ _ _ ds (params s) q) as [[l|]|x]; cbn [bind]; [|exact V|exact V].
    destruct V as (-> & ->). split; reflexivity.
  Qed.

  Definition rejected (s : sample64) : Prop := event_of s = Ok None.
  Lemma loop_outcome fuel : forall count result g, (Z.to_nat (limit - count) < fuel)%nat -> length result = (4 + 2 * length ds)%nat ->
    exists result' g' o, run_loop64 sq sn cs boost rest_energy mass draw fuel r ds limit count result g = ((result', g'), o) /\
      length result' = (4 + 2 * length ds)%nat /\
      exists rej g1, in_a_row draw g rej g1 /\ Forall rejected rej /\
        ((o = Err PipelineError /\ Z.max count limit = (count + Z.of_nat (length rej))%Z) \/
         (count + Z.of_nat (length rej) < limit)%Z /\
         ((exists x, draw g1 = (Err x, g') /\ o = Err x) \/
          (exists s, draw g1 = (Ok s, g') /\
             ((exists x, event_of s = Err x /\ o = Err x) \/ (event_of s = Ok (Some result') /\ o = Ok (s64_vertex s)))))).
  Proof using WF.
    induction fuel as [|fuel IH]; intros count result g Hf L; [lia|]. cbn [run_loop64].
    destruct (Z.ltb_spec limit (count + 1)) as [H|H].
    { exists result, g, (Err PipelineError). split; [reflexivity|]. split; [exact L|]. exists [], g. split; [constructor|]. split; [constructor|].
      left. split; [reflexivity|]. cbn [length]. lia. }
    destruct (draw g) as [[s|x] g1] eqn:D.
    2:{ exists result, g1, (Err x). split; [reflexivity|]. split; [exact L|]. exists [], g. split; [constructor|]. split; [constructor|].
        right. cbn [length]. split; [lia|]. left. exists x. auto. }
    destruct (attempt_rows s result (WF _ _ _ D) L) as (res1 & o & A & L1 & V). rewrite A.
    destruct (event_of s) as [[rows|]|x] eqn:E.
    - destruct V as (-> & ->). exists rows, g1, (Ok (s64_vertex s)). split; [reflexivity|]. split; [exact L1|]. exists [], g.
      split; [constructor|]. split; [constructor|]. right. cbn [length]. split; [lia|]. right. exists s. split; [exact D|]. right. auto.
    - subst o. destruct (IH (count + 1)%Z res1 g1 ltac:(lia) L1) as (res2 & g2 & o & R & L2 & rej & g3 & Ro & Fr & C).
      exists res2, g2, o. split; [exact R|]. split; [exact L2|]. exists (s :: rej), g3. split; [eapply Row_cons; eauto|]. split; [now constructor|].
      cbn [length]. destruct C as [(C1 & C2)|(C1 & C2)]; [left; split; [exact C1|lia]|right; split; [lia|exact C2]].
    - subst o. exists res1, g1, (Err x). split; [reflexivity|]. split; [exact L1|]. exists [], g. split; [constructor|]. split; [constructor|].
      right. cbn [length]. split; [lia|]. right. exists s. split; [exact D|]. left. eauto.
  Qed.

  (** The samples behind one event: those thrown away, the one that was used, its rows. *)
  Record history64 := mkHistory64 { h_rejected : list sample64; h_sample : sample64; h_rows : list v4 }.
  Definition legitimate (h : history64) : Prop :=
    Forall rejected (h_rejected h) /\ (Z.of_nat (length (h_rejected h)) < limit)%Z /\ event_of (h_sample h) = Ok (Some (h_rows h)).
  Definition all_draws (hs : list history64) : list sample64 := flat_map (fun h => h_rejected h ++ [h_sample h]) hs.
  Definition as_event (h : history64) : @vertex f64 * list (mom4 f64) := (s64_vertex (h_sample h), map as_read (h_rows h)).
  Notation gen := (generate64 sq sn cs boost rest_energy mass draw r ds limit).
  Definition buffer_ok (st : list v4 * G) : Prop := length (fst st) = (4 + 2 * length ds)%nat.

  (** Ways in which [run] raises: the limit is used up, or self.sample(), or the calculation raises. *)
  Definition gives_up (g : G) (x : exn) : Prop :=
    exists rej g1, in_a_row draw g rej g1 /\ Forall rejected rej /\
      ((x = PipelineError /\ Z.max 0 limit = Z.of_nat (length rej)) \/
       (Z.of_nat (length rej) < limit)%Z /\
       ((exists g', draw g1 = (Err x, g')) \/ exists s g', draw g1 = (Ok s, g') /\ event_of s = Err x)).

  Lemma gen_outcome st : buffer_ok st -> exists o st', gen st = (o, st') /\ buffer_ok st' /\
    match o with
    | Ok ev => exists h, legitimate h /\ in_a_row draw (snd st) (h_rejected h ++ [h_sample h]) (snd st') /\ ev = as_event h
    | Err x => gives_up (snd st) x
    end.
  Proof using WF.
    intros B. unfold generate64. destruct (loop_outcome (S (Z.to_nat limit)) 0 (fst st) (snd st) ltac:(lia) B) as (res & g' & o & R & L & rej & g1 & Ro & Fr & C).
    rewrite R. destruct C as [(-> & Lm)|(Lm & [(x & D & ->)|(s & D & [(x & E & ->)|(E & ->)])])].
    - eexists _, _. split; [reflexivity|]. split; [exact L|]. exists rej, g1. split; [exact Ro|]. split; [exact Fr|]. left. split; [reflexivity|lia].
    - eexists _, _. split; [reflexivity|]. split; [exact L|]. exists rej, g1. split; [exact Ro|]. split; [exact Fr|]. right. split; [lia|]. left. eauto.
    - eexists _, _. split; [reflexivity|]. split; [exact L|]. exists rej, g1. split; [exact Ro|]. split; [exact Fr|]. right. split; [lia|]. right. eauto.
    - eexists _, _. split; [reflexivity|]. split; [exact L|]. exists (mkHistory64 rej s res). cbn [h_rejected h_sample h_rows fst snd].
      split; [split; [exact Fr|]; split; [cbn [h_rejected]; lia|exact E]|]. split; [|reflexivity].
      eapply in_a_row_app; [exact Ro|]. eapply Row_cons; [exact D|constructor].
  Qed.
  Lemma gen_ok st ev st' : buffer_ok st -> gen st = (Ok ev, st') ->
    buffer_ok st' /\ exists h, legitimate h /\ in_a_row draw (snd st) (h_rejected h ++ [h_sample h]) (snd st') /\ ev = as_event h.
  Proof using WF.
    intros B E. destruct (gen_outcome st B) as (o & st1 & E1 & B1 & C). assert (o = Ok ev) by congruence. assert (st1 = st') by congruence.
    subst. split; assumption.
  Qed.

  Lemma generated64 s evs s' : produced gen s evs s' -> buffer_ok s ->
    buffer_ok s' /\ exists hs, Forall legitimate hs /\ in_a_row draw (snd s) (all_draws hs) (snd s') /\ evs = map as_event hs.
  Proof using WF.
    induction 1 as [s|s ev s1 evs s2 R H IH]; intros B.
    - split; [exact B|]. exists []. split; [constructor|]. split; [constructor|reflexivity].
    - destruct (gen_ok s ev s1 B R) as (B1 & h & Lh & Dh & ->). destruct (IH B1) as (B2 & hs & F & D & ->). split; [exact B2|].
      exists (h :: hs). split; [now constructor|]. split; [|reflexivity]. cbn [all_draws flat_map]. eapply in_a_row_app; eauto.
  Qed.

  Context (zs ms : list Z) (chunk : Z) (Hc : (1 <= chunk)%Z).

  (** C92: a finished file.  Event by event, the rows are those of the first sample that is not thrown
      away since the event before, found within the limit, and they are not touched by later events. *)
  Theorem C92_file n st d : (0 <= n)%Z -> buffer_ok st ->
    run_kinematics_pipeline gen zs ms chunk n st = (d, Ok tt) ->
    exists hs g', Z.of_nat (length hs) = n /\ Forall legitimate hs /\ in_a_row draw (snd st) (all_draws hs) g' /\
      forall e h, nth_error hs e = Some h ->
        read_event d chunk (Z.of_nat e) = Ok (map as_read (h_rows h), s64_vertex (h_sample h)).
  Proof using WF Hc.
    intros Hn B R. apply C49_finished in R; [|exact Hc|exact Hn]. destruct R as (evs & st' & Pr & L & ->).
    destruct (generated64 _ _ _ Pr B) as (_ & hs & F & D & ->). rewrite map_length in L.
    exists hs, (snd st'). split; [exact L|]. split; [exact F|]. split; [exact D|].
    intros e h N. apply C50_read_back; [exact Hc|lia|]. rewrite Nat2Z.id, nth_error_map, N. reflexivity.
  Qed.

  (** C92: otherwise it raised, some events short, for one of the three reasons. *)
  Theorem C92_failure n st d x : (0 <= n)%Z -> buffer_ok st ->
    run_kinematics_pipeline gen zs ms chunk n st = (d, Err x) ->
    exists hs g', (Z.of_nat (length hs) < n)%Z /\ Forall legitimate hs /\ in_a_row draw (snd st) (all_draws hs) g' /\ gives_up g' x.
  Proof using WF Hc.
    intros Hn B R. destruct (run_spec zs ms chunk Hc gen n st Hn) as [(evs & p' & Pr & L & K)|(evs & p' & y & p'' & Pr & L & Rn & K)]; rewrite K in R; [discriminate R|].
    assert (y = x) by congruence. subst y. destruct (generated64 _ _ _ Pr B) as (B1 & hs & F & D & ->). rewrite map_length in L.
    exists hs, (snd p'). split; [exact L|]. split; [exact F|]. split; [exact D|].
    destruct (gen_outcome p' B1) as (o & st1 & E1 & _ & C). rewrite Rn in E1. assert (o = Err x) by congruence. subst o. exact C.
  Qed.

  (** If no sample that can be drawn is thrown away or makes the calculation raise, every file is finished
      and every event uses one sample. *)
  Lemma certain n st : (0 <= n)%Z -> (1 <= limit)%Z -> buffer_ok st ->
    (forall g, exists s g', draw g = (Ok s, g') /\ exists rows, event_of s = Ok (Some rows)) ->
    exists d, run_kinematics_pipeline gen zs ms chunk n st = (d, Ok tt).
  Proof using WF Hc.
    intros Hn Hl B All. destruct (run_kinematics_pipeline gen zs ms chunk n st) as [d [[]|x]] eqn:E; [exists d; reflexivity|exfalso].
    destruct (C92_failure n st d x Hn B E) as (hs & g1 & _ & _ & _ & (rej & g2 & Ro & Fr & C)).
    assert (rej = []).
    { destruct rej as [|s rej]; [reflexivity|]. inversion Ro as [|? ? ? ? ? D _]; subst. inversion Fr as [|? ? Q _]; subst.
      destruct (All g1) as (s' & g' & D' & rows & Ev). assert (s' = s) by congruence. subst s'. unfold rejected in Q. congruence. }
    subst rej. inversion Ro; subst. cbn [length] in C. destruct C as [(_ & C)|(_ & [(g' & D)|(s & g' & D & Ev)])]; [lia| |];
      destruct (All g2) as (s' & g3 & D' & rows & Ev'); congruence.
  Qed.
End Run.

(** ** Settings for which nothing can go wrong *)
(** [a] is a value that [m] can draw. *)
Definition outcome {G A} (m : @rand G A) (a : A) : Prop := exists g g', m g = (Ok a, g').
Lemma gives_outcome {G A} (m : @rand G A) Q a : gives m Q -> outcome m a -> Q a.
Proof. intros H (g & g' & E). destruct (H g) as (b & g1 & E1 & Qb). assert (b = a) by congruence. now subst. Qed.
Lemma outcomes {G A} (m : @rand G A) Q : gives m Q -> gives m (outcome m).
Proof. intros H g. destruct (H g) as (a & g' & E & _). exists a, g'. split; [exact E|]. exists g, g'. exact E. Qed.

Lemma same_length {A B} (Q : A -> B -> Prop) l k : Forall2 Q l k -> length l = length k.
Proof. induction 1; cbn [length]; congruence. Qed.

Lemma ranges {G A B C} (m : A -> @rand G B) (Q : C -> B -> Prop) es vs xs :
  Forall2 (fun e v => gives (m e) (Q v)) es vs -> Forall2 (fun e x => outcome (m e) x) es xs -> Forall2 Q vs xs.
Proof.
  intros F. revert xs. induction F as [|e v es vs K F IH]; intros xs O; inversion O; subst; constructor; [|apply IH; assumption].
  eapply gives_outcome; eauto.
Qed.
Lemma all_outcomes {G A B} (m : A -> @rand G B) (P : B -> Prop) es xs :
  Forall (fun e => gives (m e) P) es -> Forall2 (fun e x => outcome (m e) x) es xs -> Forall P xs.
Proof.
  intros F. revert xs. induction F as [|e es K F IH]; intros xs O; inversion O; subst; constructor; [|apply IH; assumption].
  eapply gives_outcome; eauto.
Qed.
Lemma draws_exist {G A B C} (m : A -> @rand G B) (Q : C -> B -> Prop) es vs :
  Forall2 (fun e v => gives (m e) (Q v)) es vs -> Forall (fun e => exists P, gives (m e) P) es.
Proof. induction 1; constructor; eauto. Qed.

Section Draws.
  Context {G : Type} (unit_draw normal_draw : G -> f64 * G) (bw_draw : f64 -> f64 -> G -> f64 * G).
  Context (cos64 sin64 acos64 : f64 -> f64) (pi64 : f64) (sum_is_one : list f64 -> bool).
  Notation draw_vertex := (sample_vertex64 unit_draw normal_draw cos64 sin64 pi64).
  Notation draw_ex := (sample_excitation64 unit_draw normal_draw bw_draw).
  Notation draw_polar := (sample_polar64 unit_draw cos64 acos64 sum_is_one).
  Notation draw_phi := (uniform64 unit_draw (f_of_Z 0) (fmul pi64 (f_of_Z 2))).
  Notation sample_p := (sample_pipeline64 unit_draw normal_draw bw_draw cos64 sin64 acos64 pi64 sum_is_one).

  (** A sample is made of values that its distributions can draw, one for each. *)
  Lemma sample_outcomes beam t excitations polar_dists decays :
    (exists Q, gives (draw_vertex beam t) Q) -> excitations <> [] -> length polar_dists = length excitations ->
    Forall (fun e => exists Q, gives (draw_ex e) Q) excitations -> Forall (fun d => exists Q, gives (draw_polar d) Q) polar_dists ->
    (exists Q, gives draw_phi Q) ->
    gives (sample_p beam t excitations polar_dists decays) (fun s =>
      outcome (draw_vertex beam t) (s64_energy s, s64_vertex s) /\
      Forall2 (fun e => outcome (draw_ex e)) excitations (s64_ex s :: s64_decay_ex s) /\
      Forall2 (fun d => outcome (draw_polar d)) polar_dists (s64_theta s :: s64_decay_thetas s) /\
      Forall (outcome draw_phi) (s64_phi s :: s64_decay_phis s) /\ length (s64_decay_phis s) = decays).
  Proof.
    intros (Qv & Hv) Ne L Fe Fp (Qf & Hf). unfold sample_pipeline64.
    destruct excitations as [|e es]; [congruence|]. destruct polar_dists as [|d ds]; [discriminate L|]. clear Ne.
    assert (De : forall e, (exists Q, gives (draw_ex e) Q) -> gives (draw_ex e) (outcome (draw_ex e))) by (intros ? (Q & H); eapply outcomes; exact H).
    assert (Dp : forall e, (exists Q, gives (draw_polar e) Q) -> gives (draw_polar e) (outcome (draw_polar e))) by (intros ? (Q & H); eapply outcomes; exact H).
    apply outcomes in Hv. apply outcomes in Hf.
    eapply gives_bind; [exact Hv|]. intros ev Oev.
    apply gives_bind with (fun b => b = e); [exact (gives_index (e :: es) 0 e eq_refl)|]. intros ? ->.
    eapply gives_bind; [apply De; now inversion Fe|]. intros rex Hrex.
    apply gives_bind with (fun b => b = d); [exact (gives_index (d :: ds) 0 d eq_refl)|]. intros ? ->.
    eapply gives_bind; [apply Dp; now inversion Fp|]. intros rth Hrth. cbv zeta.
    eapply gives_bind; [exact Hf|]. intros rphi Hrphi.
    cbn [length] in *. replace (S (length es) - 1)%nat with (length es) by lia.
    eapply gives_bind.
    { apply (gives_rmap_index _ (fun e => exists Q, gives (draw_ex e) Q) (fun e => outcome (draw_ex e)) (e :: es)); [exact De|exact Fe|cbn [length]; lia]. }
    intros dex Hdex. cbn [skipn] in Hdex. rewrite firstn_all in Hdex.
    eapply gives_bind.
    { apply (gives_rmap_index _ (fun d => exists Q, gives (draw_polar d) Q) (fun d => outcome (draw_polar d)) (d :: ds)); [exact Dp|exact Fp|cbn [length]; lia]. }
    intros dth Hdth. cbn [skipn] in Hdth. assert (Ll : length es = length ds) by lia. rewrite Ll, firstn_all in Hdth.
    eapply gives_bind; [apply gives_rmap_same; exact Hf|].
    intros dph [Ldph Hdph]. apply gives_ret. cbn [s64_energy s64_vertex s64_ex s64_decay_ex s64_theta s64_decay_thetas s64_phi s64_decay_phis].
    split; [now destruct ev|]. split; [now constructor|]. split; [now constructor|]. split; [now constructor|exact Ldph].
  Qed.
End Draws.

(** Room for a break-up of a nucleus of mass at least [N] when the excitation energy lies in [lo, hi]. *)
Definition room (g E0 gap N : R) (m1 m2 : f64) (w : R * R) : Prop :=
  is_finite m1 = true /\ is_finite m2 = true /\ 1 <= R64 m1 /\ 1 <= R64 m2 + fst w /\ - E0 <= fst w /\ snd w <= E0 /\
  R64 m1 + (R64 m2 + snd w) + gap <= N /\ E0 <= g * (N - 1).
Fixpoint room_chain (g E0 gap N : R) (ds : list decay_masses) (ws : list (R * R)) : Prop :=
  match ds, ws with
  | [], [] => True
  | d :: ds', w :: ws' => room g E0 gap N (dm_res1 d) (dm_res2 d) w /\ room_chain g E0 gap (R64 (dm_res2 d) + fst w) ds' ws'
  | _, _ => False
  end.
(** The same for the reaction, when the beam energy is at least [T] at every vertex. *)
Definition room_reaction (g E0 gap : R) (r : reaction_masses) (T Tmax : R) (w : R * R) : Prop :=
  is_finite (rm_target r) = true /\ is_finite (rm_projectile r) = true /\ 1 <= R64 (rm_target r) /\ 1 <= R64 (rm_projectile r) /\
  / 2 ^ 12 <= T /\ R64 (rm_target r) + R64 (rm_projectile r) + Tmax + 1 <= E0 /\
  room g E0 (2 * gap) (cm_total (R64 (rm_target r)) (R64 (rm_projectile r)) T) (rm_ejectile r) (rm_residual r) w /\
  (let out := R64 (rm_ejectile r) + R64 (rm_residual r) in
   1 <= out - R64 (rm_projectile r) /\
   (out + snd w - (R64 (rm_target r) + R64 (rm_projectile r))) * out + gap <= T * (out - R64 (rm_projectile r))).

Lemma cm_total_mono mt mp T T' : 1 <= mt -> T <= T' -> cm_total mt mp T <= cm_total mt mp T'.
Proof.
  intros A B. unfold cm_total. apply sqrt_le_1_alt. apply Rplus_le_compat_l. apply Rmult_le_compat_l; lra.
Qed.
Definition angle_ok (x : f64) : Prop := is_finite x = true /\ Rabs (R64 x) <= 8.
Lemma room_open g E0 gap N N' m1 m2 w ex th ph : 1 <= g -> room g E0 gap N m1 m2 w -> N <= N' -> P_SamplingF64.within (fst w) (snd w) ex -> angle_ok th -> angle_ok ph ->
  open_ g E0 gap N' m1 m2 ex th ph.
Proof.
  intros Hg (F1 & F2 & A1 & A2 & B1 & B2 & Gp & Eg) L (Fx & X) (Ft & Bt) (Fp & Bp).
  assert (g * (N - 1) <= g * (N' - 1)) by (apply Rmult_le_compat_l; lra).
  unfold open_. repeat (split; [first [assumption|lra|apply Rabs_le; lra]|]). lra.
Qed.
Lemma room_chain_open g E0 gap ds : 1 <= g -> forall N N' ws exs ths phs, room_chain g E0 gap N ds ws -> N <= N' ->
  Forall2 (fun w ex => P_SamplingF64.within (fst w) (snd w) ex) ws exs -> Forall angle_ok ths -> Forall angle_ok phs ->
  length ths = length ds -> length phs = length ds ->
  open_chain g E0 gap N' ds (combine (combine exs ths) phs).
Proof.
  intros Hg. induction ds as [|d ds IH]; intros N N' ws exs ths phs Rc L F Ft Fp Lt Lp; [exact I|].
  destruct ws as [|w ws]; [destruct Rc|]. destruct Rc as (Ro & Rc).
  inversion F as [|? ex ? exs' W F']; subst. destruct ths as [|th ths]; [discriminate Lt|]. destruct phs as [|ph phs]; [discriminate Lp|].
  inversion Ft; subst. inversion Fp; subst. cbn [combine open_chain]. split.
  - eapply room_open; eauto.
  - eapply IH; [exact Rc| |exact F'|assumption|assumption|cbn in Lt; lia|cbn in Lp; lia]. destruct W as (_ & W). lra.
Qed.
Lemma room_reaction_open g E0 gap r T Tmax w e ex th ph : 1 <= g -> room_reaction g E0 gap r T Tmax w -> P_SamplingF64.within T Tmax e ->
  P_SamplingF64.within (fst w) (snd w) ex -> angle_ok th -> angle_ok ph ->
  start_ok E0 r e /\ above_threshold gap r e ex /\
  open_ g E0 (2 * gap) (cm_total (R64 (rm_target r)) (R64 (rm_projectile r)) (R64 e)) (rm_ejectile r) (rm_residual r) ex th ph.
Proof.
  intros Hg (Ft & Fp & Bt & Bp & BT & Se & Ro & Th) (Fe & We) W At Ap. cbv zeta in Th. destruct Th as (D1 & D2).
  pose proof W as (_ & We2). pose proof Ro as (_ & _ & A1 & A2 & _).
  split; [|split].
  - unfold start_ok. repeat (split; [first [assumption|lra]|]). lra.
  - unfold above_threshold. cbv zeta. split; [exact D1|].
    set (out := R64 (rm_ejectile r) + R64 (rm_residual r)) in *.
    assert (O1 : 0 <= out) by lra.
    assert (S1 : (out + R64 ex - (R64 (rm_target r) + R64 (rm_projectile r))) * out <= (out + snd w - (R64 (rm_target r) + R64 (rm_projectile r))) * out)
      by (apply Rmult_le_compat_r; lra).
    assert (S2 : T * (out - R64 (rm_projectile r)) <= R64 e * (out - R64 (rm_projectile r))) by (apply Rmult_le_compat_r; lra). lra.
  - eapply room_open; [exact Hg|exact Ro| |exact W|exact At|exact Ap]. apply cm_total_mono; lra.
Qed.

(** What every event of the file looks like: target at rest, projectile of the sampled energy along z, products
    of positive energy on their mass shells (excitations included), four-momentum conserved in every step. *)
Definition sound_event (t E0 : R) (r : reaction_masses) (ds : list decay_masses) (s : sample64) (rows : list v4) : Prop :=
  let k := R64 (s64_energy s) in let mp := R64 (rm_projectile r) in
  exists tv pv ev qv l, rows = tv :: pv :: ev :: qv :: l /\
    finite_row tv /\ real tv = mkP4 0 0 0 (R64 (rm_target r)) /\
    P_Shell.within (/ 2 ^ 50 * E0) (real pv) (mkP4 0 0 (sqrt (k * (k + 2 * mp))) (k + mp)) /\ product t pv mp /\
    product t ev (R64 (rm_ejectile r)) /\ product t qv (R64 (rm_residual r) + R64 (s64_ex s)) /\
    P_Shell.within (/ 2 ^ 50 * E0) (padd (real ev) (real qv)) (padd (real tv) (real pv)) /\
    chain_rows t E0 qv ds (params s) l.

Definition in_windows (ws : list (R * R)) (exs : list f64) : Prop := Forall2 (fun w ex => P_SamplingF64.within (fst w) (snd w) ex) ws exs.

(** The beam energy is at least [T] wherever the vertex is. *)
Definition beam_above (T : R) (beam : f64) (t : option target64) : Prop :=
  match t with
  | None => is_finite beam = true /\ T <= R64 beam
  | Some t => target_valid beam t /\ forall z, P_SamplingF64.within (R64 (t64_zmin t)) (R64 (t64_zmax t)) z -> T <= R64 (fsub beam (t64_loss t beam z))
  end.
Definition vertex_inside (t : option target64) (v : f64 * f64 * f64) : Prop :=
  match t with
  | None => v = (f_of_Z 0, f_of_Z 0, f_of_Z 0)
  | Some t => P_SamplingF64.within (R64 (t64_zmin t)) (R64 (t64_zmax t)) (snd v)
  end.

Section Certain.
  Context {G : Type} (unit_draw normal_draw : G -> f64 * G) (bw_draw : f64 -> f64 -> G -> f64 * G).
  Context (cos64 sin64 acos64 : f64 -> f64) (pi64 : f64) (sum_is_one : list f64 -> bool).
  Context (draws : forall g, draw_ok (fst (unit_draw g))).
  Context (cosine : forall x, is_finite x = true -> P_SamplingF64.within (-1) 1 (cos64 x)).
  Context (sine : forall x, is_finite x = true -> P_SamplingF64.within (-1) 1 (sin64 x)).
  Context (pi_finite : is_finite (fmul pi64 (f_of_Z 2)) = true /\ is_finite (fmul (f_of_Z 2) pi64) = true).
  Context (pi_range : 1 <= R64 (fmul pi64 (f_of_Z 2)) <= 8 /\ 1 <= R64 (fmul (f_of_Z 2) pi64)).

  Lemma vertex_energy T beam t : beam_above T beam t ->
    gives (sample_vertex64 unit_draw normal_draw cos64 sin64 pi64 beam t)
      (fun ev => P_SamplingF64.within T (R64 beam) (fst ev) /\ vertex_inside t (snd ev)).
  Proof using draws cosine sine pi_finite pi_range.
    destruct t as [t|]; cbn [beam_above vertex_inside].
    - intros (V & Hb).
      assert (K : gives (sample_vertex64 unit_draw normal_draw cos64 sin64 pi64 beam (Some t))
        (fun ev => P_SamplingF64.within (R64 (t64_zmin t)) (R64 (t64_zmax t)) (snd (snd ev)) /\ fst ev = fsub beam (t64_loss t beam (snd (snd ev))))).
      { destruct V as (Hs & Hz & Fb & Hl). unfold sample_vertex64.
        apply gives_bind with (fun _ => True).
        { intros g. unfold normal64. rewrite Hs. destruct (normal_draw g) as [n g1] eqn:En. eexists _, _. split; [reflexivity|exact I]. }
        intros rr _. cbv zeta.
        eapply gives_bind; [apply C80_azimuth; [exact draws|apply pi_finite|apply pi_range]|]. intros theta _.
        eapply gives_bind; [apply C80_uniform; [exact draws|exact Hz]|]. intros z Wz. apply gives_ret. cbn [fst snd]. split; [exact Wz|reflexivity]. }
      pose proof (C80_vertex unit_draw normal_draw cos64 sin64 pi64 draws cosine sine pi_finite ltac:(split; apply pi_range) beam t V) as K2.
      intros g. destruct (K g) as (a & g' & E & K1). exists a, g'. split; [exact E|].
      assert (K3 : vertex_in normal_draw beam t a) by (apply (gives_outcome _ _ _ K2); exists g, g'; exact E).
      destruct a as [e [[x y] z]]. cbn [fst snd] in *. destruct K1 as (Wz & Ee). destruct K3 as ((Fe & We) & _). split; [|exact Wz].
      split; [exact Fe|]. split; [rewrite Ee; apply Hb; exact Wz|apply We].
    - intros (F & L). apply gives_ret. cbn [fst snd]. split; [|reflexivity]. split; [exact F|lra].
  Qed.

  Context (sq : f64 -> f64) (Hok : pow_ok sq) (Hall : pow_all sq) (Htr : trig_ok sin64 cos64).
  Context (gm E0 : R) (G1 : 1 <= gm) (G2 : gm ^ 2 <= 2 ^ 23) (H0 : 2 <= E0 <= 2 ^ 20) (Ht : tau_v gm E0 <= / 2).
  Let t := tau_v gm E0.
  Context (r : reaction_masses) (ds : list decay_masses) (beam : f64) (target : option target64) (T : R).
  Context (excitations : list excitation64) (polar_dists : list polar64) (w : R * R) (ws : list (R * R)).
  Context (Hbeam : beam_above T beam target).
  Context (Hex : Forall2 (fun e w => gives (sample_excitation64 unit_draw normal_draw bw_draw e) (P_SamplingF64.within (fst w) (snd w))) excitations (w :: ws)).
  Context (Hpol : Forall (fun d => gives (sample_polar64 unit_draw cos64 acos64 sum_is_one d) angle_ok) polar_dists).
  Context (Hlen : length excitations = S (length ds)) (Hlen2 : length polar_dists = S (length ds)).
  Context (Hroom : room_reaction gm E0 t r T (R64 beam) w) (Hchain : room_chain gm E0 (2 * t) (R64 (rm_residual r) + fst w) ds ws).

  Notation sample_p := (sample_pipeline64 unit_draw normal_draw bw_draw cos64 sin64 acos64 pi64 sum_is_one beam target excitations polar_dists (length ds)).
  Notation lib := (event_of sq sin64 cos64 (boost_v sq) (rest_v sq) (mass_v sq) r ds).
  Notation gen limit := (generate64 sq sin64 cos64 (boost_v sq) (rest_v sq) (mass_v sq) sample_p r ds limit).

  (** Every sample that can be drawn is an event. *)
  Theorem C92_sample : gives sample_p (fun s => shaped (length ds) s /\ P_SamplingF64.within T (R64 beam) (s64_energy s) /\ vertex_inside target (s64_vertex s) /\
    in_windows (w :: ws) (s64_ex s :: s64_decay_ex s) /\ exists rows, lib s = Ok (Some rows) /\ sound_event t E0 r ds s rows).
  Proof using All.
    assert (Hphi : gives (uniform64 unit_draw (f_of_Z 0) (fmul pi64 (f_of_Z 2))) (fun x => is_finite x = true /\ 0 <= R64 x < R64 (fmul pi64 (f_of_Z 2))))
      by (apply C80_azimuth; [exact draws|apply pi_finite|apply pi_range]).
    eapply gives_weak; [|apply sample_outcomes].
    - intros s (Ov & Oe & Op & Of & Lp). pose proof (gives_outcome _ _ _ (vertex_energy T beam target Hbeam) Ov) as (We & Vi). cbn [fst snd] in We, Vi.
      assert (Fe : Forall2 (fun w ex => P_SamplingF64.within (fst w) (snd w) ex) (w :: ws) (s64_ex s :: s64_decay_ex s)).
      { exact (ranges _ (fun w ex => P_SamplingF64.within (fst w) (snd w) ex) _ _ _ Hex Oe). }
      assert (Fp : Forall angle_ok (s64_theta s :: s64_decay_thetas s)).
      { exact (all_outcomes _ _ _ _ Hpol Op). }
      assert (Ff : Forall angle_ok (s64_phi s :: s64_decay_phis s)).
      { eapply Forall_impl; [|exact Of]. intros x O. destruct (gives_outcome _ _ _ Hphi O) as (F & B). split; [exact F|]. rewrite Rabs_pos_eq; lra. }
      pose proof (same_length _ _ _ Oe) as Le. pose proof (same_length _ _ _ Op) as Lt. cbn [length] in Le, Lt. rewrite Hlen in Le. rewrite Hlen2 in Lt.
      pose proof Fe as Fe'. inversion Fe' as [|? ? ? ? W0 F0]; subst. inversion Fp as [|? ? A0 FA]; subst. inversion Ff as [|? ? P0 FP]; subst.
      split; [split; [lia|split; [lia|exact Lp]]|]. split; [exact We|]. split; [exact Vi|]. split; [exact Fe|].
      destruct (room_reaction_open gm E0 t r T (R64 beam) w (s64_energy s) (s64_ex s) (s64_theta s) (s64_phi s) G1 Hroom We W0 A0 P0) as (So & Ab & Op').
      assert (Oc : open_chain gm E0 (2 * t) (R64 (rm_residual r) + R64 (s64_ex s)) ds (params s)).
      { unfold params. eapply room_chain_open; [exact G1|exact Hchain| |exact F0|exact FA|exact FP|lia|exact Lp]. destruct W0 as (_ & W0). lra. }
      destruct (C86_event sq sin64 cos64 gm E0 Hok Hall Htr G1 G2 H0 Ht r ds (s64_energy s) (s64_theta s) (s64_phi s) (s64_ex s) (params s) So Ab Op' Oc)
        as (tv & pv & ev & qv & l & Ev & Q).
      exists (tv :: pv :: ev :: qv :: l). split; [exact Ev|]. unfold sound_event. cbv zeta. exists tv, pv, ev, qv, l. split; [reflexivity|exact Q].
    - eexists. apply (vertex_energy T beam target Hbeam).
    - intros C. rewrite C in Hlen. discriminate Hlen.
    - congruence.
    - exact (draws_exist _ (fun w => P_SamplingF64.within (fst w) (snd w)) _ _ Hex).
    - eapply Forall_impl; [|exact Hpol]. intros d K. eexists. exact K.
    - eexists. exact Hphi.
  Qed.

  (** C92: every file is finished, event by event from one sample each, and every event is sound. *)
  Theorem C92_certain zs ms chunk limit n st : (1 <= chunk)%Z -> (1 <= limit)%Z -> (0 <= n)%Z -> length (fst st) = (4 + 2 * length ds)%nat ->
    exists d samples g', run_kinematics_pipeline (gen limit) zs ms chunk n st = (d, Ok tt) /\
      in_a_row sample_p (snd st) samples g' /\ Z.of_nat (length samples) = n /\
      forall e s, nth_error samples e = Some s ->
        P_SamplingF64.within T (R64 beam) (s64_energy s) /\ vertex_inside target (s64_vertex s) /\
        in_windows (w :: ws) (s64_ex s :: s64_decay_ex s) /\
        exists rows, read_event d chunk (Z.of_nat e) = Ok (map as_read rows, s64_vertex s) /\ sound_event t E0 r ds s rows.
  Proof using All.
    intros Hc Hl Hn B.
    assert (WF : forall g s g', sample_p g = (Ok s, g') -> shaped (length ds) s).
    { intros g s g' E. apply (gives_outcome _ _ _ C92_sample). exists g, g'. exact E. }
    destruct (certain sq sin64 cos64 (boost_v sq) (rest_v sq) (mass_v sq) sample_p r ds limit WF zs ms chunk Hc n st Hn Hl B) as (d & E).
    { intros g. destruct (C92_sample g) as (s & g' & D & _ & _ & _ & _ & rows & Ev & _). exists s, g'. split; [exact D|]. exists rows. exact Ev. }
    destruct (C92_file sq sin64 cos64 (boost_v sq) (rest_v sq) (mass_v sq) sample_p r ds limit WF zs ms chunk Hc n st d Hn B E) as (hs & g' & L & F & D & Rd).
    exists d, (map h_sample hs), g'. split; [exact E|]. rewrite map_length. split; [|split; [exact L|]].
    - replace (map h_sample hs) with (all_draws hs); [exact D|].
      clear - F D Hok Hall Htr G1 G2 H0 Ht Hbeam Hex Hpol Hlen Hlen2 Hroom Hchain draws cosine sine pi_finite pi_range.
      assert (NR : forall s, In s (all_draws hs) -> lib s <> Ok None).
      { intros s I. destruct (in_a_row_in _ _ _ _ _ D I) as (ga & gb & Ds).
        destruct (gives_outcome _ _ _ C92_sample (ex_intro _ ga (ex_intro _ gb Ds))) as (_ & _ & _ & _ & rows & Ev & _). rewrite Ev. discriminate. }
      clear D. induction F as [|h hs (Fr & _ & _) F IH]; [reflexivity|]. cbn [all_draws flat_map map].
      destruct (h_rejected h) as [|s rest] eqn:Eh.
      + cbn [app]. f_equal. apply IH. intros s I. apply NR. cbn [all_draws flat_map]. apply in_or_app. right. exact I.
      + exfalso. inversion Fr as [|? ? Q _]; subst. apply (NR s); [|exact Q]. cbn [all_draws flat_map]. rewrite Eh. left. reflexivity.
    - intros e s N. rewrite nth_error_map in N. destruct (nth_error hs e) as [h|] eqn:Nh; [|discriminate N]. cbn [option_map] in N.
      assert (s = h_sample h) by congruence. subst s.
      assert (I : In (h_sample h) (all_draws hs)).
      { unfold all_draws. apply in_flat_map. exists h. split; [eapply nth_error_In; exact Nh|]. apply in_or_app. right. now left. }
      destruct (in_a_row_in _ _ _ _ _ D I) as (ga & gb & Ds).
      destruct (gives_outcome _ _ _ C92_sample (ex_intro _ ga (ex_intro _ gb Ds))) as (_ & We & Vi & Wi & rows & Ev & Q).
      split; [exact We|]. split; [exact Vi|]. split; [exact Wi|]. exists rows. split; [|exact Q].
      rewrite Forall_forall in F. destruct (F h (nth_error_In _ _ Nh)) as (_ & _ & Eh). unfold event_of in Ev, Eh.
      assert (rows = h_rows h) by congruence. subst rows. apply Rd. exact Nh.
  Qed.
End Certain.

(** ** Examples *)
(** An excitation of width 0 is its centroid, whatever is drawn. *)
Lemma sharp_state {G} (unit_draw normal_draw : G -> f64 * G) bw_draw (c : f64) : is_finite c = true ->
  (forall g, is_finite (fst (normal_draw g)) = true) ->
  gives (sample_excitation64 unit_draw normal_draw bw_draw (ExGaussian64 c (f_of_Z 0))) (P_SamplingF64.within (R64 c) (R64 c)).
Proof.
  intros Fc Hn g. cbn [sample_excitation64]. unfold normal64.
  assert (Q : fltb (fdiv (f_of_Z 0) (fdiv (f_of_Z 2355) (f_of_Z 1000))) (f_of_Z 0) = false) by (vm_compute; reflexivity). rewrite Q.
  assert (Ze : fdiv (f_of_Z 0) (fdiv (f_of_Z 2355) (f_of_Z 1000)) = f_of_Z 0) by (apply P_TransportF64.same64_eq; vm_compute; reflexivity). rewrite Ze.
  specialize (Hn g). destruct (normal_draw g) as [z g']. cbn [fst] in Hn. eexists _, _. split; [reflexivity|].
  assert (Z0 : R64 (f_of_Z 0) = 0) by (apply (f_of_Z_R 0); lia). assert (F0 : is_finite (f_of_Z 0) = true) by (apply f_of_Z_fin; lia).
  destruct (fmul_val (f_of_Z 0) z F0 Hn) as (Em & Fm).
  { rewrite Z0, Rmult_0_l, rnd64_0, Rabs_R0. apply bpow_gt_0. }
  rewrite Z0, Rmult_0_l, rnd64_0 in Em.
  destruct (fadd_val c (fmul (f_of_Z 0) z) Fc Fm) as (Es & Fs).
  { rewrite Em, Rplus_0_r, rnd64_fmt by apply fmt64_R. apply big64. }
  rewrite Em, Rplus_0_r, rnd64_fmt in Es by apply fmt64_R. split; [exact Fs|]. rewrite Es. lra.
Qed.

(** 12C on deuterons at 100 MeV (rounded masses) in a tank in which the beam loses 2.5 MeV: (d,p) to states between 0 and
    5 MeV, then the emission of a nucleon to the state at 1 MeV.  Every run makes all its events. *)
Definition rx_r : reaction_masses := mkRM (f_of_Z 1876) (f_of_Z 11178) (f_of_Z 938) (f_of_Z 12110).
Definition rx_ds : list decay_masses := [mkDM (f_of_Z 938) (f_of_Z 11170)].
Definition rx_ex : list excitation64 := [ExUniform64 (f_of_Z 0) (f_of_Z 5); ExGaussian64 (f_of_Z 1) (f_of_Z 0)].
Definition rx_polar : list polar64 := [PolarUniform64 (f_of_Z 0) (f_of_Z 1); table64].
Definition rx_sample : rand (G := nat) sample64 :=
  sample_pipeline64 fixed_draw (fun g => (f_of_Z 1, S g)) (fun _ _ g => (f_of_Z 0, S g)) cos_r sin_r acos_r pi_r (fun _ => true)
    (f_of_Z 100) (Some tank64) rx_ex rx_polar 1.
Definition rx_gen :=
  let sq := fun x : f64 => fmul x x in generate64 sq sin_r cos_r (boost_v sq) (rest_v sq) (mass_v sq) rx_sample rx_r rx_ds 1000.

(** The hypotheses of C92 for this reaction. *)
Lemma rx_setting :
  (1 <= R64 (fmul pi_r (f_of_Z 2)) <= 8 /\ 1 <= R64 (fmul (f_of_Z 2) pi_r)) /\
  beam_above 97 (f_of_Z 100) (Some tank64) /\
  Forall2 (fun e w => gives (sample_excitation64 fixed_draw (fun g => (f_of_Z 1, S g)) (fun _ _ g => (f_of_Z 0, S g)) e)
    (P_SamplingF64.within (fst w) (snd w))) rx_ex [(0, 5); (1, 1)] /\
  Forall (fun d => gives (sample_polar64 fixed_draw cos_r acos_r (fun _ => true) d) angle_ok) rx_polar /\
  room_reaction 2 16384 (tau_v 2 16384) rx_r 97 (R64 (f_of_Z 100)) (0, 5) /\
  room_chain 2 16384 (2 * tau_v 2 16384) (R64 (rm_residual rx_r) + fst (0, 5)) rx_ds [(1, 1)].
Proof.
  assert (RZ : forall n, (Z.abs n <= 2 ^ 53)%Z -> R64 (f_of_Z n) = IZR n) by (intros k N; apply f_of_Z_R; exact N).
  assert (FZ : forall n, (Z.abs n <= 2 ^ 53)%Z -> is_finite (f_of_Z n) = true) by (intros k N; apply f_of_Z_fin; exact N).
  assert (TV : 0 <= tau_v 2 16384 <= / 100) by (unfold tau_v; lra).
  assert (CM : 13060 <= cm_total 1876 11178 97).
  { unfold cm_total. rewrite <- (sqrt_square 13060) by lra. apply sqrt_le_1_alt. lra. }
  assert (H2 : R64 (fdiv (f_of_Z 5) (f_of_Z 2)) = 5 / 2).
  { rewrite (val_of (fdiv (f_of_Z 5) (f_of_Z 2)) 5629499534213120 (-51)) by (vm_compute; reflexivity).
    cbn [bpow]. change (Z.pow_pos radix2 51) with 2251799813685248%Z. lra. }
  assert (HB : R64 (fsub (f_of_Z 100) (fdiv (f_of_Z 5) (f_of_Z 2))) = 195 / 2).
  { rewrite (val_of (fsub (f_of_Z 100) (fdiv (f_of_Z 5) (f_of_Z 2))) 6860952557322240 (-46)) by (vm_compute; reflexivity).
    cbn [bpow]. change (Z.pow_pos radix2 46) with 70368744177664%Z. lra. }
  assert (IV : forall a b, is_finite (fsub (f_of_Z b) (f_of_Z a)) = true -> (a <= b)%Z -> (Z.abs a <= 2 ^ 53)%Z -> (Z.abs b <= 2 ^ 53)%Z ->
    interval (f_of_Z a) (f_of_Z b)).
  { intros a b F L A B. split; [now apply FZ|]. split; [now apply FZ|]. split; [exact F|]. rewrite !RZ by assumption. now apply IZR_le. }
  split; [|split; [|split; [|split; [|split]]]].
  - destruct two_pi_r as (_ & A & B). split; [split; [exact A|]|exact B]. destruct pi_r_val as (Fp & Bp).
    assert (M : 6 <= rnd64 (R64 pi_r * R64 (f_of_Z 2)) <= 8).
    { rewrite (RZ 2%Z) by lia. split; [apply rnd64_ge_fmt; [apply (fmt64_IZR 6); lia|lra]|apply (rnd64_le_IZR _ 8); [lia|lra]]. }
    destruct (fmul_val pi_r (f_of_Z 2) Fp (FZ 2%Z ltac:(lia))) as (-> & _); [|lra].
    rewrite Rabs_pos_eq by lra. apply Rle_lt_trans with (1 := proj2 M). change 8 with (bpow radix2 3). apply bpow_lt. reflexivity.
  - split.
    + split; [vm_compute; reflexivity|]. split; [apply (IV 0 1)%Z; [vm_compute; reflexivity|lia|lia|lia]|]. split; [apply FZ; lia|].
      intros z _. cbn [tank64 t64_loss]. split; [vm_compute; reflexivity|]. rewrite RZ by lia. rewrite H2. lra.
    + intros z _. cbn [tank64 t64_loss]. rewrite HB. lra.
  - unfold rx_ex. constructor; [|constructor; [|constructor]]; cbn [fst snd].
    + intros g0. destruct (C80_uniform fixed_draw fixed_draw_ok (f_of_Z 0) (f_of_Z 5) ltac:(apply (IV 0 5)%Z; [vm_compute; reflexivity|lia|lia|lia]) g0)
        as (x & g1 & E & W). exists x, g1. split; [exact E|]. rewrite !RZ in W by lia. exact W.
    + intros g0. destruct (sharp_state fixed_draw (fun g => (f_of_Z 1, S g)) (fun _ _ g => (f_of_Z 0, S g)) (f_of_Z 1) (FZ 1%Z ltac:(lia))
        (fun g => FZ 1%Z ltac:(lia)) g0) as (x & g1 & E & W). exists x, g1. split; [exact E|]. rewrite !RZ in W by lia. exact W.
  - assert (AF : forall c, P_SamplingF64.within (-1) 1 c -> is_finite (acos_r c) = true) by (intros c _; apply f_of_R_val, acos_small).
    assert (AA : forall c d, P_SamplingF64.within (-1) 1 c -> P_SamplingF64.within (-1) 1 d -> R64 c <= R64 d -> R64 (acos_r d) <= R64 (acos_r c)).
    { intros c d' (_ & C) (_ & D) L. unfold acos_r. destruct (f_of_R_val (acos (R64 d')) (acos_small _)) as [_ ->].
      destruct (f_of_R_val (acos (R64 c)) (acos_small _)) as [_ ->]. apply rnd64_le. now apply acos_antitone. }
    assert (AB : forall c, -4 <= R64 (acos_r c) <= 4).
    { intros c. unfold acos_r. pose proof (acos_small (R64 c)) as A. destruct (f_of_R_val (acos (R64 c)) A) as [_ ->]. apply Rabs_le_inv in A.
      split; [apply (rnd64_ge_fmt _ (-4)); [apply (fmt64_IZR (-4)); lia|lra]|apply (rnd64_le_IZR _ 4); [lia|lra]]. }
    unfold rx_polar. constructor; [|constructor; [|constructor]].
    + eapply gives_weak; [|apply (C80_polar fixed_draw cos_r acos_r (fun _ => true) fixed_draw_ok (fun x _ => unit_rounded _ (COS_bound _)) AF AA)].
      * intros x Px. cbn [polar_in] in Px. destruct Px as (Fx & Bx). split; [exact Fx|].
        pose proof (AB (cos_r (f_of_Z 0))). pose proof (AB (cos_r (f_of_Z 1))). apply Rabs_le. lra.
      * cbn [polar_valid]. split; [apply FZ; lia|]. split; [apply FZ; lia|]. unfold cos_r. rewrite !RZ by lia.
        destruct (f_of_R_val (cos 1)) as [_ ->]; [pose proof (COS_bound 1); apply Rabs_le; lra|].
        destruct (f_of_R_val (cos 0)) as [_ ->]; [pose proof (COS_bound 0); apply Rabs_le; lra|].
        apply rnd64_le. rewrite cos_0. apply COS_bound.
    + eapply gives_weak; [|apply (C80_polar fixed_draw cos_r acos_r (fun _ => true) fixed_draw_ok (fun x _ => unit_rounded _ (COS_bound _)) AF AA)].
      * intros x Px. cbn [polar_in table64] in Px. destruct Px as (k & a & p & Na & _ & _ & Fx & Bx). split; [exact Fx|].
        assert (P01 : fadd (f_of_Z 0) (f_of_Z 1) = f_of_Z 1) by (apply same64_eq; vm_compute; reflexivity).
        assert (P12 : fadd (f_of_Z 1) (f_of_Z 1) = f_of_Z 2) by (apply same64_eq; vm_compute; reflexivity).
        assert (P23 : fadd (f_of_Z 2) (f_of_Z 1) = f_of_Z 3) by (apply same64_eq; vm_compute; reflexivity).
        destruct k as [|[|[|k]]]; cbn [nth_error] in Na.
        -- assert (Ea : a = f_of_Z 0) by congruence. rewrite Ea, P01, !RZ in Bx by lia. apply Rabs_le. lra.
        -- assert (Ea : a = f_of_Z 1) by congruence. rewrite Ea, P12, !RZ in Bx by lia. apply Rabs_le. lra.
        -- assert (Ea : a = f_of_Z 2) by congruence. rewrite Ea, P23, !RZ in Bx by lia. apply Rabs_le. lra.
        -- destruct k; discriminate Na.
      * cbn [polar_valid table64]. assert (Q : R64 (f_of_Z 0) = 0) by (apply (RZ 0%Z); lia).
        pose proof (fixed_draw_ok 0) as (F3 & D3). cbn [fixed_draw fst] in F3, D3.
        assert (Y : 0 < / 2 ^ 53) by (apply Rinv_0_lt_compat, pow_lt; lra). destruct quarter_val as [F1 D1].
        split; [reflexivity|]. split.
        { split; [cbn; lia|]. split.
          - constructor; [split; [exact F1|lra]|]. constructor; [split; [apply FZ; lia|rewrite Q; lra]|].
            constructor; [split; [exact F3|lra]|constructor].
          - constructor. lra. }
        split; [reflexivity|]. split; [apply FZ; lia|]. split; [rewrite RZ by lia; lra|].
        constructor; [split; vm_compute; reflexivity|]. constructor; [split; vm_compute; reflexivity|].
        constructor; [split; vm_compute; reflexivity|constructor].
  - unfold room_reaction, room, rx_r. cbn [rm_target rm_projectile rm_ejectile rm_residual fst snd]. cbv zeta. rewrite !FZ, !RZ by lia. 
    repeat split; lra.
  - unfold rx_ds, rx_r. cbn [room_chain rm_residual dm_res1 dm_res2 fst snd]. split; [|exact I]. unfold room. cbn [fst snd]. rewrite !FZ, !RZ by lia. 
    repeat split; lra.
Qed.

Example C92_example : forall buf g n, length buf = 6%nat -> (0 <= n)%Z ->
  exists d, run_kinematics_pipeline rx_gen [1; 6; 1; 6; 1; 6]%Z [2; 12; 1; 13; 1; 12]%Z 50 n (buf, g) = (d, Ok tt) /\
  forall e, (0 <= e < n)%Z -> exists rows v, read_event d 50 e = Ok (map as_read rows, v) /\ length rows = 6%nat /\
    0 <= R64 (snd v) <= 1 /\
    Rabs (mdot (real (nth 5 rows vzero)) (real (nth 5 rows vzero)) - 11171 ^ 2) <= / 100.
Proof.
  intros buf g n Lb Hn. set (sq := fun x : f64 => fmul x x). set (E0 := 16384).
  assert (RZ : forall n, (Z.abs n <= 2 ^ 53)%Z -> R64 (f_of_Z n) = IZR n) by (intros k N; apply f_of_Z_R; exact N).
  assert (FZ : forall n, (Z.abs n <= 2 ^ 53)%Z -> is_finite (f_of_Z n) = true) by (intros k N; apply f_of_Z_fin; exact N).
  assert (TV : 0 <= tau_v 2 E0 <= / 100) by (unfold tau_v, E0; lra).
  destruct rx_setting as (S1 & S2 & S3 & S4 & S5 & S6).
  destruct (C92_certain fixed_draw (fun g => (f_of_Z 1, S g)) (fun _ _ g => (f_of_Z 0, S g)) cos_r sin_r acos_r pi_r (fun _ => true)
    fixed_draw_ok (fun x _ => unit_rounded _ (COS_bound _)) (fun x _ => unit_rounded _ (SIN_bound _)) ltac:(apply two_pi_r)) with
    (sq := sq) (gm := 2) (E0 := E0) (r := rx_r) (ds := rx_ds) (beam := f_of_Z 100) (target := Some tank64) (T := 97)
    (excitations := rx_ex) (polar_dists := rx_polar) (w := (0, 5)) (ws := [(1, 1)]) (zs := [1; 6; 1; 6; 1; 6]%Z) (ms := [2; 12; 1; 13; 1; 12]%Z)
    (chunk := 50%Z) (limit := 1000%Z) (n := n) (st := (buf, g)) as (d & samples & g' & Run & Row & Ls & Ev).
  all: try (first [exact S1|exact S2|exact S3|exact S4|exact S5|exact S6|exact mul_pow_ok|exact mul_pow_all|exact trig_rounded|reflexivity|lia|lra|exact Lb|unfold E0; lra]).
  - exists d. split; [exact Run|]. intros e He. destruct (nth_error samples (Z.to_nat e)) as [s|] eqn:Ns.
    2:{ apply nth_error_None in Ns. lia. }
    destruct (Ev _ _ Ns) as (_ & Vi & Wi & rows & Rd & tv & pv & ev & qv & l & -> & _ & _ & _ & _ & _ & _ & _ & Cl).
    rewrite Z2Nat.id in Rd by lia. exists (tv :: pv :: ev :: qv :: l), (s64_vertex s). split; [exact Rd|].
    cbn [vertex_inside tank64 t64_zmin t64_zmax] in Vi. destruct Vi as (_ & Vi). rewrite !RZ in Vi by lia.
    unfold params in Cl. inversion Wi as [|? ? ? ? W0 Wi']; subst. destruct (s64_decay_ex s) as [|x xs]; [inversion Wi'|].
    inversion Wi' as [|? ? ? ? W1 Wi2]; subst. destruct xs as [|x2 xs]; [|inversion Wi2].
    unfold rx_ds in Cl.
    destruct (s64_decay_thetas s) as [|th ths]; [cbn [combine chain_rows] in Cl; contradiction|].
    destruct (s64_decay_phis s) as [|ph phs]; [cbn [combine chain_rows] in Cl; contradiction|]. cbn [combine chain_rows] in Cl.
    destruct l as [|v [|q l]]; [destruct Cl|destruct Cl|]. destruct Cl as (_ & Pw & _ & Cl). destruct l as [|y l]; [|destruct (combine ths phs); destruct Cl].
    split; [reflexivity|]. split; [exact Vi|]. cbn [nth]. destruct Pw as (_ & _ & Pw). cbn [dm_res2] in Pw. rewrite !RZ in Pw by lia.
    destruct W1 as (_ & W1). cbn [fst snd] in W1. replace (R64 x) with 1 in Pw by lra. replace (11170 + 1) with 11171 in Pw by ring. lra.
Qed.

Print Assumptions C92_file.
Print Assumptions C92_failure.
Print Assumptions C92_sample.
Print Assumptions C92_certain.
Print Assumptions C92_example.
