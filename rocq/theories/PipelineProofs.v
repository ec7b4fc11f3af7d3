(** PipelineProofs.v -- lemmas about the chain model. *)
From Coq Require Import ZArith Reals Lra Lia String.
From Flocq Require Import Core.
From Verif Require Import Base Nucleus Reaction SpecReaction ReactionProofs Pipeline SpecPipeline.
Local Open Scope R_scope.

Lemma upd_app {A} (l r : list A) x v : upd (l ++ x :: r) (length l) v = l ++ v :: r.
Proof. induction l as [|a l IH]; cbn [upd app length]; [reflexivity|now rewrite IH]. Qed.
Lemma upd_app' {A} (l r : list A) x v i : length l = i -> upd (l ++ x :: r) i v = l ++ v :: r.
Proof. intros <-. apply upd_app. Qed.

(** ** Validation *)
Definition conn (n : nucleus) (ds : list decay) : Prop :=
  forall i d m, nth_error ds i = Some d -> nth_error (n :: map d_res2 ds) i = Some m ->
  n_symbol m = n_symbol (d_parent d).

Lemma conn_cons n d ds : conn n (d :: ds) <-> n_symbol n = n_symbol (d_parent d) /\ conn (d_res2 d) ds.
Proof.
  unfold conn. split.
  - intros H. split; [apply (H 0%nat); reflexivity|]. intros i e m A B. apply (H (S i)); auto.
  - intros [H1 H2] [|i] e m A B; cbn [nth_error map] in A, B.
    + injection A as <-. injection B as <-. exact H1.
    + eapply H2; eauto.
Qed.

Definition residual_of (s : step) : nucleus :=
  match s with SReaction r => r_residual r | SDecay d => d_res2 d end.

Lemma check_steps_iff rest : forall prev ds,
  check_steps prev rest = Ok ds <-> rest = map SDecay ds /\ conn (residual_of prev) ds.
Proof.
  induction rest as [|s rest IH]; intros prev ds; cbn [check_steps].
  - split.
    + intros [= <-]. split; [reflexivity|]. intros [|i] d m A; discriminate A.
    + intros [E _]. destruct ds; [reflexivity|discriminate].
  - destruct s as [r|cur].
    + split; [discriminate|]. intros [E _]. destruct ds; discriminate.
    + fold (residual_of prev).
      destruct (String.eqb_spec (n_symbol (residual_of prev)) (n_symbol (d_parent cur))) as [S|S]; cbn [negb].
      * specialize (IH (SDecay cur)).
        destruct (check_steps (SDecay cur) rest) as [ds'|x] eqn:C; cbn [bind].
        -- split.
           ++ intros [= <-]. destruct (proj1 (IH ds') eq_refl) as [-> H].
              split; [reflexivity|]. now apply conn_cons.
           ++ intros [E H]. destruct ds as [|d ds]; [discriminate|]. injection E as -> E.
              apply conn_cons in H. destruct H as [_ H].
              assert (Q : Ok ds' = Ok ds) by (apply IH; split; auto). injection Q as ->. reflexivity.
        -- split; [discriminate|]. intros [E H]. destruct ds as [|d ds]; [discriminate|].
           injection E as -> E. apply conn_cons in H. destruct H as [_ H].
           assert (Q : @Err (list decay) x = Ok ds) by (apply IH; split; auto). discriminate.
      * split; [discriminate|]. intros [E H]. destruct ds as [|d ds]; [discriminate|].
        injection E as -> E. apply conn_cons in H. now destruct H.
Qed.

Lemma check_steps_err rest : forall prev x, check_steps prev rest = Err x -> x = PipelineError.
Proof.
  induction rest as [|s rest IH]; intros prev x; cbn [check_steps]; [discriminate|].
  destruct s as [r|cur]; [congruence|].
  destruct (negb _); [congruence|].
  destruct (check_steps (SDecay cur) rest) as [ds|y] eqn:C; cbn [bind]; [discriminate|].
  intros [= <-]. eauto.
Qed.

(** ** Number arrays *)
Lemma fill_decays_eq f ds : forall idx pre rest,
  length pre = (idx * 2 + 4)%nat -> length rest = (2 * length ds)%nat ->
  fill_decays f idx ds (pre ++ rest) = pre ++ flat_map (fun d => [f (d_res1 d); f (d_res2 d)]) ds.
Proof.
  induction ds as [|d ds IH]; intros idx pre rest Hp Hr.
  - cbn [fill_decays flat_map]. destruct rest; [reflexivity|discriminate].
  - destruct rest as [|x [|y rest]]; [cbn [length] in Hr; lia..|].
    cbn [fill_decays flat_map]. rewrite (upd_app' _ _ _ _ _ Hp).
    replace (pre ++ f (d_res1 d) :: y :: rest) with ((pre ++ [f (d_res1 d)]) ++ y :: rest)
      by (rewrite <- app_assoc; reflexivity).
    rewrite upd_app' by (rewrite app_length; cbn [length]; lia).
    replace ((pre ++ [f (d_res1 d)]) ++ f (d_res2 d) :: rest)
      with ((pre ++ [f (d_res1 d); f (d_res2 d)]) ++ rest) by (rewrite <- !app_assoc; reflexivity).
    rewrite IH.
    + rewrite <- app_assoc. reflexivity.
    + rewrite app_length. cbn [length]. lia.
    + cbn [length] in Hr. lia.
Qed.

(** ** One attempt *)
Lemma py_index_app {A} (pre : list A) x l : py_index (pre ++ x :: l) (Z.of_nat (length pre)) = Ok x.
Proof.
  unfold py_index. rewrite app_length. cbn [length].
  destruct (Z.ltb_spec (Z.of_nat (length pre)) 0) as [H|_]; [lia|].
  destruct (Z.leb_spec 0 (Z.of_nat (length pre))) as [_|H]; [|lia].
  destruct (Z.ltb_spec (Z.of_nat (length pre)) (Z.of_nat (length pre + S (length l)))) as [_|H]; [|lia].
  cbn [andb]. rewrite Nat2Z.id, nth_error_app2, Nat.sub_diag by lia. reflexivity.
Qed.

Lemma decay_calculate_shape d P th ph ex l : decay_calculate_row d P th ph ex = Ok l ->
  exists a b, l = [P; a; b].
Proof.
  destruct P as [p|]; cbn [decay_calculate_row]; [|intros [= <-]; eauto].
  unfold decay_calculate. destruct (Rlt_bool _ 0); [discriminate|].
  match goal with |- Ok [_; ?a; ?b] = _ -> _ => set (A := a); set (B := b) end.
  intros E. apply (f_equal (fun x => match x with Ok y => y | Err _ => [] end)) in E. cbv beta iota in E.
  subst l. now exists A, B.
Qed.

Lemma decay_calculate_sum d P th ph ex Q a b :
  decay_calculate_row d P th ph ex = Ok [Q; Some a; Some b] -> P = Some (padd a b).
Proof.
  destruct P as [p|]; cbn [decay_calculate_row]; [|discriminate].
  unfold decay_calculate. destruct (Rlt_bool _ 0); [discriminate|].
  match goal with |- Ok [_; ?a; ?b] = _ -> _ => set (A := a) end.
  intros E. apply (f_equal (fun x => match x with Ok y => tl y | Err _ => [] end)) in E.
  cbv beta iota in E. cbn [tl] in E.
  pose proof (f_equal (hd None) E) as EA. cbn [hd] in EA.
  pose proof (f_equal (fun l => hd None (tl l)) E) as EB. cbn [hd tl] in EB.
  rewrite EA in EB. cbn [obind] in EB. apply (f_equal (fun o => match o with Some x => x | None => p end)) in EB.
  cbv beta iota in EB. subst b. f_equal. apply p4_eq; cbn [padd psub qx qy qz qE]; ring.
Qed.

Lemma reaction_calculate_shape r T th ph ex l : reaction_calculate r T th ph ex = Ok l ->
  exists t p e q, l = [Some t; p; e; q].
Proof.
  unfold reaction_calculate. destruct (pydivR _ _); cbn [bind]; [|discriminate].
  destruct (Rlt_bool _ _); [discriminate|].
  match goal with |- Ok [Some ?t; ?a; ?b; ?c] = _ -> _ => set (T' := t); set (A := a); set (B := b); set (C := c) end.
  intros E. apply (f_equal (fun x => match x with Ok y => y | Err _ => [] end)) in E. cbv beta iota in E.
  subst l. now exists T', A, B, C.
Qed.

Lemma reaction_calculate_sum r T th ph ex t p e q :
  reaction_calculate r T th ph ex = Ok [Some t; Some p; Some e; Some q] -> padd t p = padd e q.
Proof.
  unfold reaction_calculate. destruct (pydivR _ _); cbn [bind]; [|discriminate].
  destruct (Rlt_bool _ _); [discriminate|].
  match goal with |- Ok [Some ?t; ?a; _; _] = _ -> _ => set (T' := t) end.
  match goal with |- Ok [_; ?a; _; _] = _ -> _ => set (A := a) end.
  match goal with |- Ok [_; _; ?a; _] = _ -> _ => set (B := a) end.
  intros E. apply (f_equal (fun x => match x with Ok y => y | Err _ => [] end)) in E. cbv beta iota in E.
  pose proof (f_equal (hd None) E) as ET. cbn [hd] in ET.
  pose proof (f_equal (fun l => hd None (tl l)) E) as EA. cbn [hd tl] in EA.
  pose proof (f_equal (fun l => hd None (tl (tl l))) E) as EB. cbn [hd tl] in EB.
  pose proof (f_equal (fun l => hd None (tl (tl (tl l)))) E) as EC. cbn [hd tl] in EC.
  rewrite EA, EB in EC. cbn [obind] in EC.
  apply (f_equal (fun o => match o with Some x => x | None => t end)) in ET, EC.
  cbv beta iota in ET, EC. subst T' q. rewrite ET. apply p4_eq; cbn [padd psub qx qy qz qE]; ring.
Qed.

Definition verdict_res (v : verdict) : res bool :=
  match v with Accept _ => Ok true | Reject => Ok false | Raise x => Err x end.

Lemma decay_loop_verdict s ds : forall idx P pre rest e1 e2 t1 t2 f1 f2,
  s_decay_ex s = e1 ++ e2 -> s_decay_thetas s = t1 ++ t2 -> s_decay_phis s = f1 ++ f2 ->
  length e1 = idx -> length t1 = idx -> length f1 = idx ->
  length e2 = length ds -> length t2 = length ds -> length f2 = length ds ->
  length pre = (idx * 2 + 4)%nat -> length rest = (2 * length ds)%nat ->
  exists v out, decay_loop s idx ds P (pre ++ rest) = (pre ++ out, verdict_res v) /\
    length out = (2 * length ds)%nat /\
    decays_verdict ds (map (fun p => (fst (fst p), snd (fst p), snd p)) (combine (combine e2 t2) f2)) P v /\
    (forall rows, v = Accept rows -> out = rows).
Proof.
  induction ds as [|d ds IH]; intros idx P pre rest e1 e2 t1 t2 f1 f2 E T F Le Lt Lf Me Mt Mf Hp Hr.
  - destruct e2; [|discriminate]. cbn [decay_loop combine map]. exists (Accept []), rest.
    split; [reflexivity|]. split; [exact Hr|]. split; [constructor|]. intros rows [= <-].
    destruct rest; [reflexivity|discriminate].
  - destruct e2 as [|ex e2]; [discriminate|]. destruct t2 as [|th t2]; [discriminate|].
    destruct f2 as [|ph f2]; [discriminate|]. destruct rest as [|x [|y rest]]; [cbn [length] in Hr; lia..|].
    cbn [decay_loop combine map fst snd].
    assert (Ie : py_index (s_decay_ex s) (Z.of_nat idx) = Ok ex) by (rewrite E, <- Le; apply py_index_app).
    assert (It : py_index (s_decay_thetas s) (Z.of_nat idx) = Ok th) by (rewrite T, <- Lt; apply py_index_app).
    assert (If : py_index (s_decay_phis s) (Z.of_nat idx) = Ok ph) by (rewrite F, <- Lf; apply py_index_app).
    rewrite Ie, It, If. cbn [bind].
    destruct (decay_allowed_row d P ex) eqn:A; cbn [negb].
    + destruct (decay_calculate_row d P th ph ex) as [l|z] eqn:C.
      * destruct (decay_calculate_shape _ _ _ _ _ _ C) as (a & b & ->). cbn [nth].
        rewrite (upd_app' _ _ _ _ _ Hp).
        replace (pre ++ a :: y :: rest) with ((pre ++ [a]) ++ y :: rest) by (rewrite <- app_assoc; reflexivity).
        rewrite upd_app' by (rewrite app_length; cbn [length]; lia).
        replace ((pre ++ [a]) ++ b :: rest) with ((pre ++ [a; b]) ++ rest) by (rewrite <- !app_assoc; reflexivity).
        destruct (IH (S idx) b (pre ++ [a; b]) rest (e1 ++ [ex]) e2 (t1 ++ [th]) t2 (f1 ++ [ph]) f2)
          as (v & out & L & Lo & V & O).
        -- rewrite E, <- app_assoc. reflexivity.
        -- rewrite T, <- app_assoc. reflexivity.
        -- rewrite F, <- app_assoc. reflexivity.
        -- rewrite app_length. cbn [length]. lia.
        -- rewrite app_length. cbn [length]. lia.
        -- rewrite app_length. cbn [length]. lia.
        -- cbn [length] in Me. lia.
        -- cbn [length] in Mt. lia.
        -- cbn [length] in Mf. lia.
        -- rewrite app_length. cbn [length]. lia.
        -- cbn [length] in Hr. lia.
        -- exists (match v with Accept rows => Accept (a :: b :: rows) | _ => v end), (a :: b :: out).
           split. { rewrite L. f_equal; [rewrite <- app_assoc; reflexivity|now destruct v]. }
           split; [cbn [length]; lia|].
           split; [eapply DV_step; eauto|].
           intros rows Q. destruct v as [rs| |z]; try discriminate.
           assert (Er : a :: b :: rs = rows) by congruence. rewrite <- Er. f_equal. f_equal. now apply O.
      * exists (Raise z), (x :: y :: rest). split; [reflexivity|]. split; [exact Hr|].
        split; [now constructor|]. discriminate.
    + exists Reject, (x :: y :: rest). split; [reflexivity|]. split; [exact Hr|].
      split; [now constructor|]. discriminate.
Qed.

Lemma attempt_verdict pl s result : well_formed (pl_decays pl) s ->
  length result = (4 + 2 * length (pl_decays pl))%nat ->
  exists v result', attempt pl s result = (result', verdict_res v) /\
    length result' = length result /\
    sample_verdict (pl_reaction pl) (pl_decays pl) s v /\
    (forall rows, v = Accept rows -> result' = rows).
Proof.
  intros (We & Wt & Wf) L. unfold attempt.
  destruct (reaction_allowed (pl_reaction pl) (s_energy s) (s_ex s)) eqn:A; cbn [negb].
  - destruct (reaction_calculate _ _ _ _ _) as [l|z] eqn:C.
    + destruct (reaction_calculate_shape _ _ _ _ _ _ C) as (t & p & e & q & ->). cbn [nth].
      destruct result as [|r0 [|r1 [|r2 [|r3 rest]]]]; [cbn [length] in L; lia..|].
      cbn [upd].
      destruct (decay_loop_verdict s (pl_decays pl) 0 q [Some t; p; e; q] rest [] (s_decay_ex s) []
                  (s_decay_thetas s) [] (s_decay_phis s)) as (v & out & D & Lo & V & O);
        try reflexivity; try assumption; [cbn [length] in L; lia|].
      exists (match v with Accept rows => Accept (Some t :: p :: e :: q :: rows) | _ => v end),
             (Some t :: p :: e :: q :: out).
      split. { cbn [app] in D. rewrite D. f_equal. now destruct v. }
      split; [cbn [length] in *; lia|].
      split; [eapply SV_step; eauto|].
      intros rows Q. destruct v as [rs| |z]; try discriminate.
      assert (Er : Some t :: p :: e :: q :: rs = rows) by congruence. rewrite <- Er.
      repeat f_equal. now apply O.
    + exists (Raise z), result. split; [reflexivity|]. split; [reflexivity|].
      split; [now constructor|]. discriminate.
  - exists Reject, result. split; [reflexivity|]. split; [reflexivity|].
    split; [now constructor|]. discriminate.
Qed.

(** Verdicts are determined. *)
Lemma decays_verdict_fun ds ps P v : decays_verdict ds ps P v -> forall w, decays_verdict ds ps P w -> v = w.
Proof.
  induction 1 as [P|d ds ex th ph ps P A|d ds ex th ph ps P x A C|d ds ex th ph ps P P' a b v A C H IH];
    intros w W; inversion W; subst; try congruence.
  assert (E : [P'; a; b] = [P'0; a0; b0]) by congruence.
  assert (a = a0) by congruence. assert (b = b0) by congruence. subst.
  now rewrite (IH v0).
Qed.
Lemma sample_verdict_fun r ds s v w : sample_verdict r ds s v -> sample_verdict r ds s w -> v = w.
Proof.
  intros V W. inversion V as [A|x A C|t p e q v0 A C H]; inversion W as [B|y B D|t' p' e' q' v1 B D K]; subst;
    try congruence.
  assert (E : [t; p; e; q] = [t'; p'; e'; q']) by congruence.
  assert (t = t') by congruence. assert (p = p') by congruence. assert (e = e') by congruence.
  assert (q = q') by congruence. subst. now rewrite (decays_verdict_fun _ _ _ _ H _ K).
Qed.

(** ** The while loop *)
Section Loop.
  Context {G : Type} (draw : G -> res sample * G) (pl : pipeline).
  Notation verdict_of := (sample_verdict (pl_reaction pl) (pl_decays pl)).
  Context (WF : forall g s g', draw g = (Ok s, g') -> well_formed (pl_decays pl) s).

  (** What can happen, from [n] samples on. *)
  Definition outcome (n : Z) (g g' : G) (result' : list row) (out : res vertex3) : Prop :=
    exists l g1, drawn draw g l g1 /\ Forall (fun s => verdict_of s Reject) l /\
      ((n + Z.of_nat (length l) = Z.max n (pl_limit pl) /\ g' = g1 /\ out = Err PipelineError)%Z \/
       ((n + Z.of_nat (length l) < pl_limit pl)%Z /\
        ((exists x, draw g1 = (Err x, g') /\ out = Err x) \/
         (exists s x, draw g1 = (Ok s, g') /\ verdict_of s (Raise x) /\ out = Err x) \/
         (exists s rows, draw g1 = (Ok s, g') /\ verdict_of s (Accept rows) /\
            out = Ok (s_vertex s) /\ result' = rows)))).

  Lemma run_loop_outcome fuel : forall n result g,
    length result = (4 + 2 * length (pl_decays pl))%nat ->
    (pl_limit pl - n < Z.of_nat fuel)%Z -> (0 < Z.of_nat fuel)%Z ->
    exists result' g' out, run_loop draw fuel pl n result g = ((result', g'), out) /\
      length result' = length result /\ outcome n g g' result' out.
  Proof using WF.
    induction fuel as [|fuel IH]; intros n result g L Hf Hp; [lia|]. cbn [run_loop].
    destruct (Z.ltb_spec (pl_limit pl) (n + 1)) as [Hl|Hl].
    - exists result, g, (Err PipelineError). split; [reflexivity|]. split; [reflexivity|].
      exists [], g. split; [constructor|]. split; [constructor|]. left. cbn [length].
      split; [lia|]. split; reflexivity.
    - destruct (draw g) as [[s|x] g1] eqn:D.
      + destruct (attempt_verdict pl s result (WF _ _ _ D) L) as (v & r1 & A & L1 & V & O). rewrite A.
        destruct v as [rows| |x]; cbn [verdict_res].
        * exists r1, g1, (Ok (s_vertex s)). split; [reflexivity|]. split; [exact L1|].
          exists [], g. split; [constructor|]. split; [constructor|]. right. cbn [length].
          split; [lia|]. right. right. exists s, rows. repeat split; auto.
        * destruct (IH (n + 1)%Z r1 g1) as (r2 & g2 & out & R & L2 & (l & g3 & Dl & Fl & H)); [lia..|].
          exists r2, g2, out. split; [exact R|]. split; [lia|].
          exists (s :: l), g3. split; [econstructor; eauto|]. split; [now constructor|].
          cbn [length]. destruct H as [(H1 & H2 & H3)|(H1 & H2)].
          -- left. split; [lia|]. now split.
          -- right. split; [lia|exact H2].
        * exists r1, g1, (Err x). split; [reflexivity|]. split; [exact L1|].
          exists [], g. split; [constructor|]. split; [constructor|]. right. cbn [length].
          split; [lia|]. right. left. exists s, x. repeat split; auto.
      + exists result, g1, (Err x). split; [reflexivity|]. split; [reflexivity|].
        exists [], g. split; [constructor|]. split; [constructor|]. right. cbn [length].
        split; [lia|]. left. exists x. split; auto.
  Qed.
End Loop.
