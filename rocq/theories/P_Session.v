(** P_Session.v -- C98: which settings are fixed when, over whole scripts (Session.v). *)
From Coq Require Import ZArith Reals Lia Lra String List.
From Flocq Require Import Core BinarySingleNaN.
From Verif Require Import Base F64 F64Bounds Num Transporter Simulator Response KinFile Writer SpecWriter WriterProofs P_Writer Parameters
  ConfigObj P_Cloud P_Response P_GetResponse P_KinF64 P_ResponseF64 P_WriterFail P_OnTrack P_Complete P_SamplingF64 Session.
Import ListNotations.
Local Open Scope list_scope.
Local Open Scope Z_scope.

Lemma process_length fexp argsort resp c data labels rows labs :
  process fexp argsort resp c data labels = Ok (rows, labs) -> length rows = length labs.
Proof.
  intros E. unfold process in E. destruct (wc_centers c) as [cs|]; [|discriminate E].
  destruct (convert_to_spyral _ _ _ _ _ _ _ _) as [conv|]; [|discriminate E]. cbn [bind] in E.
  destruct (negb _); [discriminate E|].
  destruct (take (select _ conv) _) as [f2|] eqn:T1; [|discriminate E]. cbn [bind] in E.
  destruct (take (select _ labels) _) as [l2|] eqn:T2; [|discriminate E]. cbn [bind] in E.
  assert (f2 = rows) by congruence. assert (l2 = labs) by congruence. subst f2 l2.
  unfold take in T1, T2. apply P_Complete.mapM_forall2 in T1, T2.
  assert (K : forall (A B : Type) (R : A -> B -> Prop) x y, Forall2 R x y -> length x = length y) by (clear; induction 1; cbn; congruence).
  apply K in T1, T2. congruence.
Qed.

Section P.
  Context (fexp fsin fcube : f64 -> f64) (e_charge femto milli : f64).
  Context (to_float : string -> option f64) (files : string -> option text) (resource : string -> text)
          (load : string -> res (grid * edges (F64 fexp))) (packaged : res (grid * edges (F64 fexp)))
          (argsort : list f64 -> list nat).
  Notation objs := (objs fexp).
  Notation step := (Session.step fexp fsin fcube e_charge femto milli to_float files resource load packaged argsort).
  Notation exec := (Session.exec fexp fsin fcube e_charge femto milli to_float files resource load packaged argsort).

  (** ** Specification *)
  (** The settings of a Config at this moment, as far as a writer reads them. *)
  Definition current (s : objs) (c : conf fexp) : wconfig :=
    let e := o_elec fexp s (cf_elec fexp c) in
    mkWconfig (ep_windows_edge e) (ep_mm_edge e) (dp_length (o_det fexp s (cf_det fexp c))) (ep_threshold e)
      (Some (cf_centers fexp c)) (cf_sizes fexp c).
  (** The events handed to writer [j] in a script, each with the settings of that moment. *)
  Fixpoint handed (s : objs) (j : nat) (l : list stmt) : list wcall :=
    match l with
    | [] => []
    | t :: l' =>
        match t with
        | WriteEvent j' data labels i event =>
            match nth_error (o_configs fexp s) i with
            | Some c => if Nat.eqb j' j then [mkCall data labels (current s c) event] else []
            | None => []
            end
        | _ => []
        end ++ handed (step s t) j l'
    end.
  (** A stored row: amplitude and integral of a point of the event under the response [r], above the
      threshold of the settings. *)
  Definition row_under (r : list f64) (c : wcall) (row : srow) : Prop :=
    exists p, In p (cl_data c) /\ apply_response r (p_el p) = Ok (s_amp row, s_int row) /\
      fltb (f_of_Z (wc_threshold (cl_config c))) (s_amp row) = true /\
      z_of_tb (N := F64 fexp) (wc_windows_edge (cl_config c)) (wc_mm_edge (cl_config c)) (wc_length (cl_config c)) (p_tb p) = Ok (s_z row).

  (** ** Proofs *)
  Lemma exec_cons t l s : exec (t :: l) s = exec l (step s t).
  Proof. reflexivity. Qed.

  (** A writer follows the events handed to it. *)
  Lemma follows l : forall s j w, nth_error (o_writers fexp s) j = Some w -> ~ In (CloseWriter j) l ->
    nth_error (o_writers fexp (exec l s)) j = Some (fst (attempts fexp argsort w (handed s j l))).
  Proof.
    induction l as [|t l IH]; intros s j w E N; [exact E|].
    assert (N' : ~ In (CloseWriter j) l) by (intros I; apply N; now right).
    rewrite exec_cons.
    assert (Same : nth_error (o_writers fexp (step s t)) j = Some w ->
      nth_error (o_writers fexp (exec l (step s t))) j = Some (fst (attempts fexp argsort w (handed (step s t) j l)))) by (intros; now apply IH).
    destruct t as [d v|e ck g sh|e mm we th|p v|d e p|i|i m f|j' data labels i ev|j']; cbn [handed app]; try (apply Same; exact E).
    - apply Same. cbn [Session.step]. destruct (make_config _ _ _ _ _ _ _ _ _); exact E.
    - apply Same. cbn [Session.step]. destruct (nth_error _ i); [|exact E]. destruct (drift_velocity _ _ _); exact E.
    - apply Same. cbn [Session.step]. destruct (nth_error _ i); [|exact E]. destruct (response_of _ _ _ _ _ _ _); [|exact E].
      cbn [with_writers o_writers]. rewrite nth_error_app1; [exact E|]. apply nth_error_Some. rewrite E. discriminate.
    - destruct (nth_error (o_configs fexp s) i) as [c|] eqn:Ec.
      2: { cbn [app]. apply Same. cbn [Session.step]. rewrite Ec. destruct (nth_error _ j'); exact E. }
      destruct (Nat.eqb_spec j' j) as [->|Nj].
      + cbn [app attempts]. unfold cl_data, cl_labels, cl_config, cl_event.
        change (current s c) with (writer_config fexp (view fexp s c)).
        destruct (write fexp argsort w data labels (writer_config fexp (view fexp s c)) ev) as [w1 r1] eqn:Ew.
        rewrite (IH _ j w1); [|cbn [Session.step]; rewrite E, Ec, Ew; cbn [with_writers o_writers fst]; apply nth_error_upd_eq; apply nth_error_Some; rewrite E; discriminate|exact N'].
        destruct (attempts fexp argsort w1 _); reflexivity.
      + cbn [app]. apply Same. cbn [Session.step]. rewrite Ec. destruct (nth_error (o_writers fexp s) j') eqn:Ej; [|exact E].
        cbn [with_writers o_writers]. rewrite nth_error_upd_ne; [exact E|congruence].
    - apply Same. cbn [Session.step]. destruct (nth_error (o_writers fexp s) j') eqn:Ej; [|exact E].
      cbn [with_writers o_writers]. rewrite nth_error_upd_ne; [exact E|]. intros ->. apply N. now left.
  Qed.

  (** C98: the files of a writer hold the events handed to it, each under the response as it was when the
      writer was made and under the other settings as they were when the event was handed over. *)
  Theorem C98_files s i c r m f post :
    nth_error (o_configs fexp s) i = Some c -> response_of fexp fsin fcube e_charge femto milli (o_elec fexp s (cf_elec fexp c)) = Ok r ->
    1 <= m -> let j := length (o_writers fexp s) in ~ In (CloseWriter j) post ->
    exists w rs recs runs, nth_error (o_writers fexp (exec (MakeWriter i m f :: post) s)) j = Some w /\
      attempts fexp argsort (init r m f []) (handed (step s (MakeWriter i m f)) j post) = (w, rs) /\
      concat runs = recs /\ stored (w_disk w) f runs /\
      Forall2 (fun k rec => number rec = cl_event k /\ process fexp argsort r (cl_config k) (cl_data k) (cl_labels k) = Ok (snd rec) /\
                 forall row, In row (fst (snd rec)) -> row_under r k row) (succeeded rs) recs.
  Proof.
    intros Ec Er Hm j N. rewrite exec_cons.
    assert (E0 : nth_error (o_writers fexp (step s (MakeWriter i m f))) j = Some (init r m f [])).
    { cbn [Session.step]. rewrite Ec, Er. cbn [with_writers o_writers]. unfold j. rewrite nth_error_app2, Nat.sub_diag by lia. reflexivity. }
    pose proof (follows post _ _ _ E0 N) as E. set (calls := handed _ j post) in *.
    destruct (attempts fexp argsort (init r m f []) calls) as [w rs] eqn:EA.
    destruct (C64_failed_writes_lose_nothing fexp argsort r m f [] Hm calls w rs EA) as (M & recs & runs & P & C & _ & _ & _ & S & _).
    exists w, rs, recs, runs. split; [exact E|]. split; [reflexivity|].
    split; [exact C|]. split; [exact S|].
    assert (Cn : forall k, In k (succeeded rs) -> exists cs, wc_centers (cl_config k) = Some cs).
    { intros k I. unfold succeeded in I. apply in_map_iff in I as ([k' x] & <- & I). apply filter_In in I as [I _].
      apply (in_map fst) in I. rewrite M in I. cbn [fst] in *. revert I. unfold calls. clear.
      generalize (step s (MakeWriter i m f)). revert j. induction post as [|t l IH]; intros j0 s0 I; [destruct I|].
      cbn [handed] in I. apply in_app_or in I as [I|I]; [|exact (IH _ I)].
      destruct t; try destruct I. destruct (nth_error _ _); [|destruct I]. destruct (Nat.eqb _ _); [|destruct I].
      destruct I as [<-|[]]. cbn [cl_config current wc_centers]. eauto. }
    unfold processed in P. revert Cn P. clear. generalize (succeeded rs). intros ks0 Cn P.
    induction P as [|k rec ks recs' (Nm & Pr) _ IH']; [constructor|].
    constructor; [|apply IH'; intros k' I'; apply Cn; now right].
    split; [exact Nm|]. split; [exact Pr|]. intros row Ir. destruct (Cn k (or_introl eq_refl)) as (cs & Ecs).
    destruct (snd rec) as [rows labs] eqn:Es. cbn [fst] in Ir.
    assert (Il : exists l, In (row, l) (combine rows labs)).
    { pose proof (process_length _ _ _ _ _ _ _ _ Pr) as L. clear - Ir L. revert labs L. induction rows as [|x rows IH]; intros [|l labs] L; try destruct Ir; try discriminate L.
      - subst. exists l. now left.
      - destruct (IH H labs ltac:(cbn in L; lia)) as (l' & I'). exists l'. now right. }
    destruct Il as (l & Il). destruct (process_from _ _ _ _ _ _ _ _ cs Ecs Pr row l Il) as (p & Ip & Cv & Th).
    exists p. split; [eapply in_combine_l; exact Ip|].
    unfold convert_point in Cv. destruct (f_to_Z (p_pad p)); [|discriminate Cv]. cbn [bind] in Cv.
    destruct (nj_index cs z) as [c0|]; [|discriminate Cv]. cbn [bind] in Cv.
    destruct (apply_response r (p_el p)) as [[a b]|]; [|discriminate Cv]. cbn [bind] in Cv.
    destruct (z_of_tb _ _ _ _) as [z0|] eqn:Ez; [|discriminate Cv]. cbn [bind] in Cv.
    destruct (nj_index (wc_sizes _) z) as [sz|]; [|discriminate Cv]. cbn [bind] in Cv.
    assert (Q : row = mkSrow (fst c0) (snd c0) z0 a b (p_pad p) (p_tb p) sz) by congruence.
    rewrite Q in *. cbn [s_amp s_int s_z] in *. split; [reflexivity|]. split; [exact Th|reflexivity].
  Qed.

  (** Two sets of objects that differ at most in clock frequency, gain and shaping time. *)
  Definition same_but_shape (s s' : objs) : Prop :=
    o_det fexp s = o_det fexp s' /\ o_pads fexp s = o_pads fexp s' /\ o_configs fexp s = o_configs fexp s' /\ o_writers fexp s = o_writers fexp s' /\
    forall e, ep_mm_edge (o_elec fexp s e) = ep_mm_edge (o_elec fexp s' e) /\ ep_windows_edge (o_elec fexp s e) = ep_windows_edge (o_elec fexp s' e) /\
      ep_threshold (o_elec fexp s e) = ep_threshold (o_elec fexp s' e).
  Definition sets_shape (t : stmt) : bool := match t with AssignShape _ _ _ _ => true | _ => false end.
  Definition sets_paths (t : stmt) : bool := match t with AssignPads _ _ => true | _ => false end.
  Definition makes_writer (t : stmt) : bool := match t with MakeWriter _ _ _ => true | _ => false end.
  Definition makes_config (t : stmt) : bool := match t with MakeConfig _ _ _ => true | _ => false end.

  Lemma drop_shape s e ck g sh : same_but_shape (step s (AssignShape e ck g sh)) s.
  Proof.
    unfold same_but_shape. cbn [Session.step o_det o_pads o_configs o_writers o_elec]. do 4 (split; [reflexivity|]). intros e0. unfold set.
    destruct (Nat.eqb_spec e0 e) as [->|]; repeat split; reflexivity.
  Qed.
  Lemma same_trans s1 s2 s3 : same_but_shape s1 s2 -> same_but_shape s2 s3 -> same_but_shape s1 s3.
  Proof.
    intros (A & B & C & D & E) (A' & B' & C' & D' & E'). unfold same_but_shape. do 4 (split; [congruence|]).
    intros e. destruct (E e) as (? & ? & ?), (E' e) as (? & ? & ?). repeat split; congruence.
  Qed.
  Lemma step_same s s' t : makes_writer t = false -> same_but_shape s s' -> same_but_shape (step s t) (step s' t).
  Proof.
    intros M H. pose proof H as (A & B & C & D & E).
    destruct t as [d v|e ck g sh|e mm we th|p v|d e p|i|i m f|j data labels i ev|j]; cbn [Session.step]; try discriminate M.
    - unfold same_but_shape. cbn [o_det o_pads o_configs o_writers o_elec]. rewrite A. auto 6.
    - unfold same_but_shape. cbn [o_det o_pads o_configs o_writers o_elec]. do 4 (split; [assumption|]). intros e0. unfold set. destruct (E e) as (? & ? & ?).
      destruct (Nat.eqb e0 e); [cbn; auto|apply E].
    - unfold same_but_shape. cbn [o_det o_pads o_configs o_writers o_elec]. do 4 (split; [assumption|]). intros e0. unfold set.
      destruct (Nat.eqb e0 e); [cbn; auto|apply E].
    - unfold same_but_shape. cbn [o_det o_pads o_configs o_writers o_elec]. rewrite B. auto 6.
    - unfold make_config. destruct (E e) as (E1 & E2 & _). rewrite A, B, E1, E2.
      destruct (drift_velocity _ _ _) as [dv|]; cbn [bind]; [|exact H].
      destruct (load_pad_grid _ _ _ _) as [[g ed]|]; cbn [bind]; [|exact H].
      destruct (load_pad_centers _ _ _ _) as [cs|]; cbn [bind]; [|exact H].
      destruct (load_pad_sizes _ _ _ _) as [ss|]; cbn [bind]; [|exact H].
      unfold same_but_shape. cbn [with_configs o_det o_pads o_configs o_writers o_elec fc_drift fc_grid fc_edges fc_centers fc_sizes]. rewrite C. auto 6.
    - rewrite C. destruct (nth_error _ i) as [c|]; [|exact H]. destruct (E (cf_elec fexp c)) as (E1 & E2 & _). rewrite A, E1, E2.
      destruct (drift_velocity _ _ _) as [dv|]; [|exact H].
      unfold same_but_shape. cbn [with_configs o_det o_pads o_configs o_writers o_elec]. auto 6.
    - rewrite C, D. destruct (nth_error _ j) as [w|]; [|exact H]. destruct (nth_error _ i) as [c|]; [|exact H].
      destruct (E (cf_elec fexp c)) as (E1 & E2 & E3).
      assert (Q : writer_config fexp (view fexp s c) = writer_config fexp (view fexp s' c)).
      { unfold writer_config, view. cbn [fc_elec fc_det fc_centers fc_sizes]. now rewrite E1, E2, E3, A. }
      rewrite Q. unfold same_but_shape. cbn [with_writers o_det o_pads o_configs o_writers o_elec]. auto 6.
    - rewrite D. destruct (nth_error _ j) as [w|]; [|exact H].
      unfold same_but_shape. cbn [with_writers o_det o_pads o_configs o_writers o_elec]. auto 6.
  Qed.
  Lemma exec_same l : forall s s', existsb makes_writer l = false -> same_but_shape s s' ->
    same_but_shape (exec l s) (exec (filter (fun t => negb (sets_shape t)) l) s').
  Proof.
    induction l as [|t l IH]; intros s s' M H; [exact H|]. cbn [existsb] in M. apply orb_false_iff in M as [M1 M2]. cbn [filter].
    destruct t; cbn [sets_shape negb]; rewrite ?exec_cons; try (apply IH; [exact M2|now apply step_same]).
    apply IH; [exact M2|]. eapply same_trans; [apply drop_shape|exact H].
  Qed.

  (** C98: once the writers are made, assigning to clock frequency, gain or shaping time changes no file:
      without these statements the script leaves the same writers and the same files. *)
  Theorem C98_late_gain s l : existsb makes_writer l = false ->
    o_writers fexp (exec l s) = o_writers fexp (exec (filter (fun t => negb (sets_shape t)) l) s).
  Proof.
    intros M. assert (R : same_but_shape s s) by (unfold same_but_shape; do 4 (split; [reflexivity|]); intros e; repeat split; reflexivity).
    destruct (exec_same l s s M R) as (_ & _ & _ & D & _). exact D.
  Qed.

  (** C98: once the Configs are made, assigning to the paths of the pad files changes neither them nor a file. *)
  Theorem C98_late_paths l : forall s s', existsb makes_config l = false ->
    o_det fexp s = o_det fexp s' -> o_elec fexp s = o_elec fexp s' -> o_configs fexp s = o_configs fexp s' -> o_writers fexp s = o_writers fexp s' ->
    let a := exec l s in let b := exec (filter (fun t => negb (sets_paths t)) l) s' in
    o_configs fexp a = o_configs fexp b /\ o_writers fexp a = o_writers fexp b.
  Proof.
    induction l as [|t l IH]; intros s s' M A B C D; [auto|]. cbn [existsb] in M. apply orb_false_iff in M as [M1 M2]. cbn [filter].
    destruct t as [d v|e ck g sh|e mm we th|p v|d e p|i|i m f|j data labels i ev|j]; cbn [sets_paths negb]; rewrite ?exec_cons; try discriminate M1.
    all: try (apply IH; [exact M2| | | |]; cbn [Session.step o_det o_elec o_configs o_writers]; congruence).
    - cbn [Session.step]. rewrite <- A, <- B, <- C. destruct (nth_error _ i) as [c|]; [|now apply IH].
      destruct (drift_velocity _ _ _) as [dv|]; [|now apply IH]. apply IH; [exact M2|exact A|exact B| |exact D].
      cbn [with_configs o_configs]. congruence.
    - cbn [Session.step]. rewrite <- B, <- C. destruct (nth_error _ i) as [c|]; [|now apply IH].
      destruct (response_of _ _ _ _ _ _ _) as [r|]; [|now apply IH]. apply IH; [exact M2|exact A|exact B|exact C|].
      cbn [with_writers o_writers]. congruence.
    - cbn [Session.step]. rewrite <- C, <- D. destruct (nth_error _ j) as [w|]; [|now apply IH]. destruct (nth_error _ i) as [c|]; [|now apply IH].
      assert (Q : writer_config fexp (view fexp s c) = writer_config fexp (view fexp s' c)).
      { unfold writer_config, view. cbn [fc_elec fc_det fc_centers fc_sizes]. now rewrite A, B. }
      rewrite Q. apply IH; [exact M2|exact A|exact B|exact C|]. cbn [with_writers o_writers]. congruence.
    - cbn [Session.step]. rewrite <- D. destruct (nth_error _ j) as [w|]; [|now apply IH].
      apply IH; [exact M2|exact A|exact B|exact C|]. cbn [with_writers o_writers]. congruence.
  Qed.

  (** C98: the settings of an object are those of the last assignment to them, whatever else the script did. *)
  Definition elec_values (e : nat) (t : stmt) : list (Z * Z * Z) :=
    match t with AssignElec e' mm we threshold => if Nat.eqb e' e then [(mm, we, threshold)] else [] | _ => [] end.
  Definition shape_values (e : nat) (t : stmt) : list (f64 * Z * Z) :=
    match t with AssignShape e' clock gain shaping => if Nat.eqb e' e then [(clock, gain, shaping)] else [] | _ => [] end.
  Definition det_values (d : nat) (t : stmt) : list det_params :=
    match t with AssignDet d' v => if Nat.eqb d' d then [v] else [] | _ => [] end.
  Definition pad_values (p : nat) (t : stmt) : list pad_params :=
    match t with AssignPads p' v => if Nat.eqb p' p then [v] else [] | _ => [] end.
  Lemma step_objects s t :
    (forall e, let p := o_elec fexp (step s t) e in
       (ep_mm_edge p, ep_windows_edge p, ep_threshold p) = last (elec_values e t) (let q := o_elec fexp s e in (ep_mm_edge q, ep_windows_edge q, ep_threshold q)) /\
       (ep_clock p, ep_gain p, ep_shaping p) = last (shape_values e t) (let q := o_elec fexp s e in (ep_clock q, ep_gain q, ep_shaping q))) /\
    (forall d, o_det fexp (step s t) d = last (det_values d t) (o_det fexp s d)) /\
    (forall p, o_pads fexp (step s t) p = last (pad_values p t) (o_pads fexp s p)).
  Proof.
    destruct t as [d v|e ck g sh|e mm we th|p v|d e p|i|i m f|j data labels i ev|j]; cbn [Session.step elec_values shape_values det_values pad_values].
    all: try (destruct (make_config _ _ _ _ _ _ _ _ _)).
    all: try (destruct (nth_error _ j)).
    all: try (destruct (nth_error _ i)).
    all: try (destruct (drift_velocity _ _ _)).
    all: try (destruct (response_of _ _ _ _ _ _ _)).
    all: cbn [o_det o_elec o_pads with_configs with_writers]; unfold set.
    all: repeat split; cbn [last]; try reflexivity.
    all: intros; rewrite 1?Nat.eqb_sym; match goal with |- context [Nat.eqb ?a ?b] => destruct (Nat.eqb_spec a b) end; subst; cbn [last]; try reflexivity.
    all: try (rewrite Nat.eqb_refl; reflexivity).
    all: try (match goal with |- context [Nat.eqb ?a ?b] => destruct (Nat.eqb_spec a b) end; [congruence|reflexivity]).
  Qed.
  Lemma last_last {A} (l : list A) x d : last (l ++ [x]) d = x.
  Proof. apply last_last. Qed.
  Lemma last_app_last {A} (l k : list A) d : last (l ++ k) d = last k (last l d).
  Proof.
    destruct k as [|a k] using rev_ind; [now rewrite app_nil_r|]. now rewrite app_assoc, !last_last.
  Qed.
  Theorem C98_last_assignment l : forall s,
    (forall e, let p := o_elec fexp (exec l s) e in
       (ep_mm_edge p, ep_windows_edge p, ep_threshold p)
         = last (flat_map (elec_values e) l) (let q := o_elec fexp s e in (ep_mm_edge q, ep_windows_edge q, ep_threshold q)) /\
       (ep_clock p, ep_gain p, ep_shaping p)
         = last (flat_map (shape_values e) l) (let q := o_elec fexp s e in (ep_clock q, ep_gain q, ep_shaping q))) /\
    (forall d, o_det fexp (exec l s) d = last (flat_map (det_values d) l) (o_det fexp s d)) /\
    (forall p, o_pads fexp (exec l s) p = last (flat_map (pad_values p) l) (o_pads fexp s p)).
  Proof.
    induction l as [|t l IH]; intros s; [repeat split; reflexivity|]. rewrite exec_cons. destruct (IH (step s t)) as (A & B & C).
    destruct (step_objects s t) as (A' & B' & C'). cbn [flat_map]. repeat split; intros.
    - rewrite last_app_last. specialize (A e). specialize (A' e). cbv zeta in *. destruct A as [A _], A' as [A' _]. rewrite <- A'. exact A.
    - rewrite last_app_last. specialize (A e). specialize (A' e). cbv zeta in *. destruct A as [_ A], A' as [_ A']. rewrite <- A'. exact A.
    - rewrite last_app_last, <- B'. apply B.
    - rewrite last_app_last, <- C'. apply C.
  Qed.
  (** C98: a Config keeps referring to the objects it was made from, and keeps the pad arrays loaded then: what
      a writer reads of it, and the response of a writer made with it, are those of these objects at that moment. *)
  Lemma configs_kept l : forall s n cf, nth_error (o_configs fexp s) n = Some cf ->
    exists cf', nth_error (o_configs fexp (exec l s)) n = Some cf' /\ cf_det fexp cf' = cf_det fexp cf /\ cf_elec fexp cf' = cf_elec fexp cf /\
      cf_pads fexp cf' = cf_pads fexp cf /\ cf_centers fexp cf' = cf_centers fexp cf /\ cf_sizes fexp cf' = cf_sizes fexp cf /\
      cf_grid fexp cf' = cf_grid fexp cf /\ cf_edges fexp cf' = cf_edges fexp cf.
  Proof.
    induction l as [|t l IH]; intros s n cf E; [exists cf; auto 10|]. rewrite exec_cons.
    assert (S1 : exists cf1, nth_error (o_configs fexp (step s t)) n = Some cf1 /\ cf_det fexp cf1 = cf_det fexp cf /\ cf_elec fexp cf1 = cf_elec fexp cf /\
      cf_pads fexp cf1 = cf_pads fexp cf /\ cf_centers fexp cf1 = cf_centers fexp cf /\ cf_sizes fexp cf1 = cf_sizes fexp cf /\
      cf_grid fexp cf1 = cf_grid fexp cf /\ cf_edges fexp cf1 = cf_edges fexp cf).
    { destruct t as [d v|e ck g sh|e mm we th|p v|d e p|i|i m f|j data labels i ev|j]; cbn [Session.step]; try (exists cf; auto 10; fail).
      - destruct (make_config _ _ _ _ _ _ _ _ _); [|exists cf; auto 10]. exists cf. split; [|auto 10]. cbn [with_configs o_configs].
        rewrite nth_error_app1; [exact E|]. apply nth_error_Some. rewrite E. discriminate.
      - destruct (nth_error (o_configs fexp s) i) as [c|] eqn:Ec; [|exists cf; auto 10]. destruct (drift_velocity _ _ _) as [v|]; [|exists cf; auto 10].
        cbn [with_configs o_configs]. destruct (Nat.eq_dec i n) as [->|Ne].
        + assert (c = cf) by congruence. subst c. eexists. split; [apply nth_error_upd_eq; apply nth_error_Some; rewrite E; discriminate|]. cbn. auto 10.
        + exists cf. split; [|auto 10]. rewrite nth_error_upd_ne; [exact E|congruence].
      - destruct (nth_error _ i); [|exists cf; auto 10]. destruct (response_of _ _ _ _ _ _ _); exists cf; auto 10.
      - destruct (nth_error (o_writers fexp s) j); [|exists cf; auto 10]. destruct (nth_error (o_configs fexp s) i); exists cf; auto 10.
      - destruct (nth_error (o_writers fexp s) j); exists cf; auto 10. }
    destruct S1 as (cf1 & E1 & A & B & C & D & F & G & H). destruct (IH _ n cf1 E1) as (cf2 & E2 & A' & B' & C' & D' & F' & G' & H').
    exists cf2. split; [exact E2|]. repeat split; congruence.
  Qed.
  Theorem C98_config s d e p c post :
    make_config fexp to_float files resource load packaged (o_det fexp s d) (o_elec fexp s e) (o_pads fexp s p) = Ok c ->
    let s' := exec (MakeConfig d e p :: post) s in let el := o_elec fexp s' e in
    exists cf, nth_error (o_configs fexp s') (length (o_configs fexp s)) = Some cf /\
      current s' cf = mkWconfig (ep_windows_edge el) (ep_mm_edge el) (dp_length (o_det fexp s' d)) (ep_threshold el) (Some (fc_centers fexp c)) (fc_sizes fexp c) /\
      cf_grid fexp cf = fc_grid fexp c /\ cf_edges fexp cf = fc_edges fexp c /\
      (forall m f r, get_response (N := F64 fexp) fsin fcube e_charge femto milli (ep_gain el) (ep_shaping el) (ep_clock el) = Ok r ->
         nth_error (o_writers fexp (step s' (MakeWriter (length (o_configs fexp s)) m f))) (length (o_writers fexp s')) = Some (init r m f [])).
  Proof.
    intros M s' el.
    destruct (configs_kept post (step s (MakeConfig d e p)) (length (o_configs fexp s))
      (mkConf fexp d e p (fc_drift _ c) (fc_grid _ c) (fc_edges _ c) (fc_centers _ c) (fc_sizes _ c))) as (cf & E & A & B & _ & D & F & G & H).
    { cbn [Session.step]. rewrite M. cbn [with_configs o_configs]. rewrite nth_error_app2, Nat.sub_diag by lia. reflexivity. }
    cbn [cf_det cf_elec cf_centers cf_sizes cf_grid cf_edges] in *. exists cf. split; [exact E|].
    split; [unfold current; rewrite A, B, D, F; reflexivity|]. split; [exact G|]. split; [exact H|].
    intros m f r R. cbn [Session.step]. unfold s' at 1. rewrite exec_cons, E. rewrite B. fold s' el. unfold response_of. fold el in R. 
    change (exec post (step s (MakeConfig d e p))) with s'. fold el. rewrite R. cbn [with_writers o_writers].
    rewrite nth_error_app2, Nat.sub_diag by lia. reflexivity.
  Qed.
End P.

(** C98: what this means for a gain raised [k] times after the writer was made: below saturation the stored
    amplitude is [k] times the one that belongs to the gain now in the Config. *)
Theorem C98_factor fexp fsin fcube (e femto milli clock : f64) gain shaping k l l' n amp int amp' int' :
  libm_accurate fexp fsin fcube -> params_ok e femto milli clock gain shaping -> params_ok e femto milli clock (k * gain) shaping ->
  get_response (N := F64 fexp) fsin fcube e femto milli gain shaping clock = Ok l ->
  get_response (N := F64 fexp) fsin fcube e femto milli (k * gain) shaping clock = Ok l' ->
  is_finite n = true -> (1 <= R64 n)%R ->
  (forall i, (i < 512)%nat -> (R64 n * exact_sample e femto milli clock gain shaping i <= 4095)%R) ->
  apply_response l n = Ok (amp, int) -> apply_response l' n = Ok (amp', int') ->
  (Rabs (R64 amp - IZR k * R64 amp') <= R64 n * c1_of e femto gain / 2 ^ 46)%R.
Proof.
  intros LA O1 O2 E1 E2 Fn Hn Sat A1 A2. destruct O1 as (Oe & Of & Om & Oc & Og & Os & Ow). pose proof O2 as (_ & _ & _ & _ & Okg & _).
  assert (O1 : params_ok e femto milli clock gain shaping) by (unfold params_ok; auto 8).
  assert (Hk : 1 <= k) by nia.
  assert (G : (0 < IZR gain)%R) by (apply (IZR_lt 0); lia). assert (K : (1 <= IZR k)%R) by (apply (IZR_le 1); lia).
  assert (Fm : (0 < R64 femto)%R) by (destruct Of as (_ & Of & _); pose proof (bpow_gt_0 radix2 (-50)); lra).
  assert (C1 : c1_of e femto gain = (IZR k * c1_of e femto (k * gain))%R) by (unfold c1_of; rewrite mult_IZR; field; lra).
  assert (X : forall i, exact_sample e femto milli clock gain shaping i = (IZR k * exact_sample e femto milli clock (k * gain) shaping i)%R).
  { intros i. unfold exact_sample, formula. rewrite C1. set (t := (time i / _)%R). rewrite <- RmaxRmult by lra. f_equal; ring. }
  assert (PK : exists peak, (forall i, (i < 512)%nat -> (exact_sample e femto milli clock gain shaping i <= peak)%R) /\
                            (exists i, (i < 512)%nat /\ exact_sample e femto milli clock gain shaping i = peak)).
  { clear. generalize (exact_sample e femto milli clock gain shaping). intros f.
    enough (Q : forall k, exists p, (forall i, (i < S k)%nat -> (f i <= p)%R) /\ exists i, (i < S k)%nat /\ f i = p) by exact (Q 511%nat).
    induction k as [|k (p & H & j & Hj & Ej)].
    - exists (f 0%nat). split; [intros i Hi; replace i with 0%nat by lia; lra|exists 0%nat; split; [lia|reflexivity]].
    - exists (Rmax p (f (S k))). split.
      + intros i Hi. destruct (Nat.eq_dec i (S k)) as [->|]; [apply Rmax_r|]. eapply Rle_trans; [apply H; lia|apply Rmax_l].
      + unfold Rmax. destruct (Rle_dec p (f (S k))); [exists (S k)|exists j]; (split; [lia|]); auto. }
  destruct PK as (peak & P1 & i0 & I0 & P2).
  assert (Q2 : exact_sample e femto milli clock (k * gain) shaping i0 = (peak / IZR k)%R) by (rewrite <- P2, X; field; lra).
  destruct (C82_charge fexp fsin fcube e femto milli clock gain shaping l n peak LA O1 E1 Fn (or_intror Hn) P1 (ex_intro _ i0 (conj I0 P2)))
    as (a & b & Ea & _ & _ & Da & _).
  destruct (C82_charge fexp fsin fcube e femto milli clock (k * gain) shaping l' n (peak / IZR k) LA O2 E2 Fn (or_intror Hn)) as (a' & b' & Ea' & _ & _ & Da' & _).
  { intros i Hi. specialize (P1 i Hi). rewrite X in P1. apply (Rmult_le_reg_l (IZR k)); [lra|]. replace (IZR k * (peak / IZR k))%R with peak by (field; lra). exact P1. }
  { exists i0. split; [exact I0|exact Q2]. }
  assert (a = amp) by congruence. assert (a' = amp') by congruence. subst a a'.
  assert (S0 : (R64 n * peak <= 4095)%R) by (rewrite <- P2; apply Sat; exact I0).
  assert (Pp : (0 <= peak)%R) by (rewrite <- P2; unfold exact_sample, formula; apply Rmax_l).
  set (y := (peak / IZR k)%R) in *. assert (Y : (peak = IZR k * y)%R) by (unfold y; field; lra).
  assert (Y0 : (0 <= y)%R) by (unfold y; apply Rmult_le_pos; [lra|left; apply Rinv_0_lt_compat; lra]).
  assert (Yp : (y <= peak)%R) by (rewrite Y; rewrite <- (Rmult_1_l y) at 1; apply Rmult_le_compat_r; lra).
  assert (S1 : (R64 n * y <= 4095)%R) by (eapply Rle_trans; [apply Rmult_le_compat_l; [lra|exact Yp]|exact S0]).
  rewrite (Rmin_right 4095 (R64 n * peak)) in Da by exact S0. rewrite (Rmin_right 4095 (R64 n * y)) in Da' by exact S1.
  set (c' := c1_of e femto (k * gain)) in *.
  assert (D2 : (IZR k * Rabs (R64 amp' - R64 n * y) <= R64 n * c1_of e femto gain / 2 ^ 47)%R).
  { eapply Rle_trans; [apply Rmult_le_compat_l; [lra|exact Da']|]. rewrite C1. right. field. }
  replace (R64 amp - IZR k * R64 amp')%R with ((R64 amp - R64 n * peak) - IZR k * (R64 amp' - R64 n * y))%R by (rewrite Y; ring).
  eapply Rle_trans; [apply Rabs_triang|]. rewrite Rabs_Ropp, (Rabs_mult (IZR k)), (Rabs_pos_eq (IZR k)) by lra.
  replace (R64 n * c1_of e femto gain / 2 ^ 46)%R with (R64 n * c1_of e femto gain / 2 ^ 47 + R64 n * c1_of e femto gain / 2 ^ 47)%R by field. lra.
Qed.

(** ** Concrete scripts *)
(** The gain is raised and, before the second event, the threshold: the first event keeps the old amplitude
    and passes the old threshold, the second is cut by the new one. *)
Definition one (x : f64) : f64 := f_of_Z 1.
Definition ss_det : det_params := mkDet (f_of_Z 1) (f_of_Z 1) (f_of_Z 1) 1 (f_of_Z 0) (f_of_Z 0) (f_of_Z 1).
Definition ss_conf : conf one := mkConf one 0 0 0 (f_of_Z 1) (mkGrid 1 1 (fun _ _ => 0)) (@mkEdges (F64 one) (f_of_Z 0) (f_of_Z 2) (f_of_Z 1))
  [(f_of_Z 7, f_of_Z 8)] [f_of_Z 1].
Definition ss_objs : objs one := mkObjs one (fun _ => ss_det) (fun _ => mkElec (f_of_Z 1) 1 1 0 512 1) (fun _ => mkPadParams "" "" "") [ss_conf] [].
Definition ss_point : point := mkPoint (f_of_Z 0) (f_of_Z 256) (f_of_Z 2).
Definition ss_exec := Session.exec one one one (f_of_Z 1) (f_of_Z 4095) (f_of_Z 1) (fun _ => None) (fun _ => None) (fun _ => []) (fun _ => Err FileNotFoundError) (Err FileNotFoundError) ex_sort.
Definition ss_script : list stmt :=
  [AssignShape 0 (f_of_Z 1) 2 1; WriteEvent 0 [ss_point] [3] 0 0; AssignElec 0 0 512 5; WriteEvent 0 [ss_point] [3] 0 1].
Definition ss_amps (w : writer) : option (list (string * list (Z * Z))) :=
  match get_file (w_disk w) "run_0000.h5" with
  | Some h => Some (map (fun x => (fst x, match snd x with
      | WCloud rows _ => map (fun r => (match f_to_Z (s_amp r) with Some a => a | None => -1 end, match f_to_Z (s_int r) with Some a => a | None => -1 end)) rows
      | WLabels l => map (fun a => (a, 0)) l end)) (wf_sets h))
  | None => None
  end.
Example C98_files_example :
  option_map ss_amps (nth_error (o_writers one (ss_exec (MakeWriter 0 10 0 :: ss_script) ss_objs)) 0)
    = Some (Some [("cloud_0", [(2, 1024)]); ("labels_0", [(3, 0)]); ("cloud_1", []); ("labels_1", [])]%string) /\
  response_of one one one (f_of_Z 1) (f_of_Z 4095) (f_of_Z 1) (o_elec one ss_objs 0) = Ok (repeat (f_of_Z 1) 512) /\
  existsb makes_writer ss_script = false /\ existsb makes_config ss_script = false /\ ~ In (CloseWriter 0) ss_script.
Proof.
  split; [vm_compute; reflexivity|]. split; [|split; [reflexivity|]; split; [reflexivity|]].
  - assert (W : match response_of one one one (f_of_Z 1) (f_of_Z 4095) (f_of_Z 1) (o_elec one ss_objs 0) with
                | Ok l => (length l =? 512)%nat && forallb (fun x => P_TransportF64.same64 x (f_of_Z 1)) l | Err _ => false end = true) by (vm_compute; reflexivity).
    destruct (response_of _ _ _ _ _ _ _) as [l|]; [|discriminate W]. f_equal. apply andb_true_iff in W as [W1 W2]. apply Nat.eqb_eq in W1.
    rewrite <- W1. clear W1. induction l as [|x l IH]; [reflexivity|]. cbn [forallb] in W2. apply andb_true_iff in W2 as [W2 W3].
    cbn [length repeat]. f_equal; [now apply P_TransportF64.same64_eq|now apply IH].
  - intros [H|[H|[H|[H|[]]]]]; discriminate H.
Qed.
Example C98_factor_example : exists l l' amp int amp' int',
  get_response (N := F64 exp_r) sin_r cube_r e_r femto_r milli_r 900 1000 clock_r = Ok l /\
  get_response (N := F64 exp_r) sin_r cube_r e_r femto_r milli_r (2 * 900) 1000 clock_r = Ok l' /\
  apply_response l (f_of_Z 2000) = Ok (amp, int) /\ apply_response l' (f_of_Z 2000) = Ok (amp', int') /\
  (Rabs (R64 amp - 2 * R64 amp') <= / 10 ^ 10)%R.
Proof.
  assert (P2 : params_ok e_r femto_r milli_r clock_r (2 * 900) 1000).
  { destruct C82_params as (A & B & C & D & E & F & G). unfold params_ok. do 4 (split; [assumption|]). split; [lia|]. split; assumption. }
  destruct (C82_samples exp_r sin_r cube_r e_r femto_r milli_r clock_r 900 1000 C82_libm C82_params) as (l & E & L & RO & _).
  destruct (C82_samples exp_r sin_r cube_r e_r femto_r milli_r clock_r (2 * 900) 1000 C82_libm P2) as (l' & E' & L' & RO' & _).
  assert (N : is_finite (f_of_Z 2000) = true /\ (0 <= R64 (f_of_Z 2000) <= bpow radix2 900)%R).
  { split; [apply f_of_Z_fin; lia|]. rewrite f_of_Z_R by lia. split; [lra|]. apply Rle_trans with (bpow radix2 11); [cbn; lra|apply bpow_le; lia]. }
  assert (Ap : forall m, response_ok m -> length m = 512%nat -> exists a b, apply_response m (f_of_Z 2000) = Ok (a, b)).
  { intros m (NE & Ln & F) Lm. destruct (apply_R m (f_of_Z 2000) NE F) as (a & i & X & Fa & _).
    - split; [apply N|]. rewrite f_of_Z_R by lia. lra.
    - refine (eq_ind_r (fun k => (Z.of_nat k * 4095 <= 2 ^ 53)%Z) _ Lm). lia.
    - exists a, i. exact X. }
  destruct (Ap l RO L) as (a & b & A). destruct (Ap l' RO' L') as (a' & b' & A').
  exists l, l', a, b, a', b'. do 4 (split; [assumption|]).
  pose proof (c1_range e_r femto_r milli_r clock_r 900 1000 C82_params) as C.
  eapply Rle_trans; [apply (C98_factor exp_r sin_r cube_r e_r femto_r milli_r clock_r 900 1000 2 l l' (f_of_Z 2000) a b a' b' C82_libm C82_params P2 E E' (proj1 N))|].
  - rewrite f_of_Z_R by lia. lra.
  - intros i Hi. rewrite f_of_Z_R by lia. unfold exact_sample. pose proof (bpow_gt_0 radix2 (-150)).
    destruct (formula_bounds (c1_of e_r femto_r 900) (time i / width_of milli_r clock_r 1000)) as [_ B]; [lra| |].
    + destruct C82_params as (_ & _ & _ & _ & _ & _ & W). unfold width_of. pose proof (bpow_gt_0 radix2 (-19)).
      destruct (time_close i Hi) as (_ & _ & [T|T]); rewrite ?T; apply Rmult_le_pos; try lra; left; apply Rinv_0_lt_compat; lra.
    + pose proof exp_3. pose proof (exp_pos (-3)).
      assert (c1_of e_r femto_r 900 * exp (-3) <= 1 * (1 / 8))%R by (apply Rmult_le_compat; lra). lra.
  - exact A.
  - exact A'.
  - rewrite f_of_Z_R by lia. lra.
Qed.
Example C98_last_assignment_example :
  flat_map (elec_values 0) ss_script = [(0, 512, 5)] /\
  (let p := o_elec one (ss_exec ss_script ss_objs) 0 in (ep_mm_edge p, ep_windows_edge p, ep_threshold p, ep_gain p)) = (0, 512, 5, 2).
Proof. split; vm_compute; reflexivity. Qed.

(** A Config made from electronics 1 follows the later assignment to it, not the one to electronics 0. *)
Definition ss_objs2 : objs one := mkObjs one (fun _ => ss_det) (fun _ => mkElec (f_of_Z 1) 1 1 0 512 1) (fun _ => mkPadParams "Default" "Default" "Default") [ss_conf] [].
Definition ss_exec2 := Session.exec one one one (f_of_Z 1) (f_of_Z 4095) (f_of_Z 1) (fun _ => Some (f_of_Z 7)) (fun _ => None) (fun _ => []) (fun _ => Err FileNotFoundError)
  (Ok (mkGrid 1 1 (fun _ _ => 0), @mkEdges (F64 one) (f_of_Z 0) (f_of_Z 2) (f_of_Z 1))) ex_sort.
Example C98_config_example :
  let s := ss_exec2 [MakeConfig 0 1 0; AssignElec 1 10 410 70; AssignElec 0 20 420 80; AssignShape 1 (f_of_Z 1) 2 1; MakeWriter 1 10 0] ss_objs2 in
  length (o_configs one s) = 2%nat /\ length (o_writers one s) = 1%nat /\
  option_map (fun cf => let w := current one s cf in (wc_mm_edge w, wc_windows_edge w, wc_threshold w)) (nth_error (o_configs one s) 1) = Some (10, 410, 70).
Proof. vm_compute. auto. Qed.

Print Assumptions C98_files.
Print Assumptions C98_late_gain.
Print Assumptions C98_late_paths.
Print Assumptions C98_factor.
Print Assumptions C98_last_assignment.
Print Assumptions C98_config.
