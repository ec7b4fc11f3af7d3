(** TransportProofs.v -- [transport_track] realises exactly its ledger. *)
From Coq Require Import ZArith Permutation.
From Verif Require Import Base Num Pairing BeamPads Transporter SpecTransport.
Local Open Scope Z_scope.

Lemma is_beam_spec pad : is_beam pad = true <-> In pad BEAM_PADS.
Proof.
  unfold is_beam. rewrite existsb_exists. split.
  - intros (x & H & E). apply Z.eqb_eq in E. now subst.
  - intros H. exists pad. split; [exact H|apply Z.eqb_refl].
Qed.

Lemma active_pad_spec pad : active_pad pad = true <-> pad <> -1 /\ ~ In pad BEAM_PADS.
Proof.
  unfold active_pad. rewrite andb_true_iff, !negb_true_iff, Z.eqb_neq.
  rewrite <- is_beam_spec. rewrite <- not_true_iff_false. reflexivity.
Qed.

Lemma inactive_pad_spec pad : active_pad pad = false <-> pad = -1 \/ In pad BEAM_PADS.
Proof.
  unfold active_pad. rewrite andb_false_iff, !negb_false_iff, Z.eqb_eq, is_beam_spec. reflexivity.
Qed.

(** Applying a ledger to the dictionary. *)
Definition post (label : Z) (pts : points) (d : dep) : points :=
  deposit pts (pair (d_tb d) (d_pad d)) (d_el d) label.
Definition post_all (label : Z) (ds : list dep) (pts : points) : points :=
  fold_left (post label) ds pts.

Lemma post_all_app label a b pts : post_all label (a ++ b) pts = post_all label b (post_all label a pts).
Proof. apply fold_left_app. Qed.

Section Proofs.
  Context {N : Num} (g : grid) (ge : edges N).

  (** Common shape of point_transport and the pixel loop body. *)
  Definition at_pos (time : N) (amount : res Z) (label : Z) (p : N * N) (pts : points) : res points :=
    let* (ix, iy) := position_to_index ge p in
    if (ix =? -1) || (iy =? -1) then Ok pts
    else
      let* pad := grid_get g ix iy in
      if active_pad pad then
        let* tb := njint time in
        let* pe := amount in
        Ok (deposit pts (pair tb pad) pe label)
      else Ok pts.

  Lemma at_pos_iff time amount label p pts pts' :
    at_pos time amount label p pts = Ok pts' <->
    exists ds, pos_ledger g ge time (fun a => amount = Ok a) p ds /\ pts' = post_all label ds pts.
  Proof.
    unfold at_pos. split.
    - destruct (position_to_index ge p) as [[ix iy]|] eqn:Ep; [|discriminate]. simpl.
      destruct ((ix =? -1) || (iy =? -1)) eqn:Em.
      + intros [= <-]. exists []. split; [|reflexivity]. constructor.
        exists ix, iy. split; [exact Ep|]. lia.
      + destruct (grid_get g ix iy) as [pad|] eqn:Eg; [|discriminate]. simpl.
        destruct (active_pad pad) eqn:Ea.
        * unfold njint. destruct (ntoZ time) as [tb|] eqn:Et; [|discriminate]. simpl.
          destruct amount as [pe|] eqn:Ee; [|discriminate]. simpl.
          intros [= <-]. exists [mkDep tb pad pe]. split; [|reflexivity].
          constructor; auto. exists ix, iy. apply active_pad_spec in Ea.
          repeat split; auto; try lia; tauto.
        * intros [= <-]. exists []. split; [|reflexivity]. constructor.
          exists ix, iy. split; [exact Ep|]. right. right. split; [lia|]. split; [lia|].
          exists pad. split; [exact Eg|]. now apply inactive_pad_spec.
    - intros (ds & [(ix & iy & Ep & H) | pad tb a (ix & iy & Ep & H1 & H2 & Eg & Ha) Et He] & ->);
        rewrite Ep; simpl.
      + destruct H as [H|[H|(H1 & H2 & pad & Eg & H)]].
        * now replace ((ix =? -1) || (iy =? -1)) with true by lia.
        * now replace ((ix =? -1) || (iy =? -1)) with true by lia.
        * replace ((ix =? -1) || (iy =? -1)) with false by lia. rewrite Eg. simpl.
          apply inactive_pad_spec in H. now rewrite H.
      + replace ((ix =? -1) || (iy =? -1)) with false by lia. rewrite Eg. simpl.
        apply active_pad_spec in Ha. rewrite Ha. unfold njint. rewrite Et. simpl.
        rewrite He. reflexivity.
  Qed.

  Lemma point_transport_at_pos time center e pts label :
    point_transport g ge time center e pts label = at_pos time (Ok e) label center pts.
  Proof. reflexivity. Qed.

  Lemma foldM_ledger {A} (f : points -> A -> res points) (P : A -> list dep -> Prop) label l :
    (forall a pts pts', f pts a = Ok pts' <-> exists ds, P a ds /\ pts' = post_all label ds pts) ->
    forall pts pts', foldM f l pts = Ok pts' <->
      exists dss, Forall2 P l dss /\ pts' = post_all label (concat dss) pts.
  Proof.
    intros Hf. induction l as [|a l IH]; simpl; intros pts pts'; split.
    - intros [= <-]. exists []. split; [constructor|reflexivity].
    - intros (dss & H & ->). inversion H; subst. reflexivity.
    - destruct (f pts a) as [p1|] eqn:E; [|discriminate]. simpl. intros H.
      apply Hf in E as (ds & Hd & ->). apply IH in H as (dss & Hds & ->).
      exists (ds :: dss). split; [now constructor|]. simpl. now rewrite post_all_app.
    - intros (dss & H & ->). inversion H as [|? ds ? dss' Hd Hds]; subst.
      assert (E : f pts a = Ok (post_all label ds pts)) by (apply Hf; eauto).
      rewrite E. simpl. apply IH. exists dss'. split; [assumption|].
      now rewrite post_all_app.
  Qed.

  Lemma transverse_transport_iff time center e s pts label pts' :
    transverse_transport g ge time center e s pts label = Ok pts' <->
    exists dss, Forall2 (fun px ds => pos_ledger g ge time
                  (fun a => pixel_electrons px center s e = Ok a) px ds)
                  (diffusion_mesh center s) dss /\
      pts' = post_all label (concat dss) pts.
  Proof.
    unfold transverse_transport.
    apply (foldM_ledger _ (fun px ds => pos_ledger g ge time
              (fun a => pixel_electrons px center s e = Ok a) px ds)).
    intros px p p'. apply (at_pos_iff time (pixel_electrons px center s e) label px p p').
  Qed.

  Lemma transport_row_iff diffusion efield dv label re pts pts' :
    transport_row g ge diffusion efield dv label pts re = Ok pts' <->
    exists ds, row_ledger g ge diffusion efield dv re ds /\ pts' = post_all label ds pts.
  Proof.
    destruct re as [r e]. unfold transport_row. split.
    - destruct (sigma_of diffusion efield dv (r_time r)) as [s|] eqn:Es; [|discriminate]. simpl.
      destruct (neqb s (nofZ 0)) eqn:E0.
      + rewrite point_transport_at_pos, at_pos_iff. intros (ds & H & ->).
        exists ds. split; [|reflexivity]. eapply RL_point; eauto.
        inversion H; subst; econstructor; eauto. now injection H2.
      + rewrite transverse_transport_iff. intros (dss & H & ->).
        exists (concat dss). split; [|reflexivity]. eapply RL_mesh; eauto.
    - intros (ds & H & ->). inversion H as [r' e' s ds' Es E0 Hp|r' e' s dss Es E0 Hp]; subst;
        rewrite Es; simpl; rewrite E0.
      + rewrite point_transport_at_pos, at_pos_iff. exists ds. split; [|reflexivity].
        inversion Hp; subst; econstructor; eauto.
      + rewrite transverse_transport_iff. eauto.
  Qed.

  Lemma transport_track_foldM diffusion efield dv track el pts label :
    (length track <= length el)%nat ->
    transport_track g ge diffusion efield dv track el pts label =
    foldM (transport_row g ge diffusion efield dv label) (combine track el) pts.
  Proof.
    revert el pts. induction track as [|r track IH]; intros [|e el] pts H; simpl in *;
      try reflexivity; try lia.
    destruct (sigma_of diffusion efield dv (r_time r)) as [s|]; [|reflexivity]. simpl.
    destruct (if neqb s (nofZ 0) then _ else _); [|reflexivity]. simpl. apply IH. lia.
  Qed.

  Lemma transport_track_short diffusion efield dv track el pts label pts' :
    transport_track g ge diffusion efield dv track el pts label = Ok pts' ->
    (length track <= length el)%nat.
  Proof.
    revert el pts. induction track as [|r track IH]; intros [|e el] pts H; simpl in *;
      try lia; try discriminate.
    destruct (sigma_of diffusion efield dv (r_time r)) as [s|]; [|discriminate]. simpl in H.
    destruct (if neqb s (nofZ 0) then _ else _); [|discriminate]. simpl in H.
    apply IH in H. lia.
  Qed.

  Theorem transport_track_iff diffusion efield dv track el pts label pts' :
    transport_track g ge diffusion efield dv track el pts label = Ok pts' <->
    exists ds, track_ledger g ge diffusion efield dv track el ds /\
      pts' = post_all label ds pts.
  Proof.
    split.
    - intros H. pose proof (transport_track_short _ _ _ _ _ _ _ _ H) as HL.
      rewrite transport_track_foldM in H by exact HL.
      apply (foldM_ledger _ (row_ledger g ge diffusion efield dv) label) in H;
        [|intros; apply transport_row_iff].
      destruct H as (dss & H & ->). exists (concat dss). split; [|reflexivity].
      split; [exact HL|]. eauto.
    - intros (ds & (HL & dss & H & ->) & ->). rewrite transport_track_foldM by exact HL.
      apply (foldM_ledger _ (row_ledger g ge diffusion efield dv) label);
        [intros; apply transport_row_iff|]. eauto.
  Qed.

  (** The ledger is unique. *)
  Lemma lands_misses p pad : lands g ge p pad -> misses g ge p -> False.
  Proof.
    intros (ix & iy & E & H1 & H2 & Eg & H3 & H4) (ix' & iy' & E' & H).
    rewrite E in E'. injection E' as <- <-.
    destruct H as [H|[H|(_ & _ & pad' & Eg' & H)]]; try contradiction.
    rewrite Eg in Eg'. injection Eg' as <-. tauto.
  Qed.

  Lemma lands_fun p pad pad' : lands g ge p pad -> lands g ge p pad' -> pad = pad'.
  Proof.
    intros (ix & iy & E & H1 & H2 & Eg & _) (ix' & iy' & E' & H1' & H2' & Eg' & _).
    rewrite E in E'. injection E' as <- <-. congruence.
  Qed.

  Lemma pos_ledger_fun time (amount : Z -> Prop) p ds ds' :
    (forall a b, amount a -> amount b -> a = b) ->
    pos_ledger g ge time amount p ds -> pos_ledger g ge time amount p ds' -> ds = ds'.
  Proof.
    intros Ha [H|pad tb a H Ht Hm] [H'|pad' tb' a' H' Ht' Hm']; auto.
    - exfalso; eapply lands_misses; eauto.
    - exfalso; eapply lands_misses; eauto.
    - assert (pad = pad') by eauto using lands_fun. assert (a = a') by auto.
      rewrite Ht in Ht'. injection Ht' as <-. now subst.
  Qed.

  Lemma Forall2_fun {A B} (P : A -> B -> Prop) l m m' :
    (forall a b b', P a b -> P a b' -> b = b') ->
    Forall2 P l m -> Forall2 P l m' -> m = m'.
  Proof.
    intros Hf H. revert m'. induction H; intros m' H'; inversion H'; subst; auto.
    f_equal; eauto.
  Qed.

  Lemma row_ledger_fun diffusion efield dv re ds ds' :
    row_ledger g ge diffusion efield dv re ds -> row_ledger g ge diffusion efield dv re ds' ->
    ds = ds'.
  Proof.
    intros H H'. inversion H as [r e s d Es E0 Hp|r e s dss Es E0 Hp]; subst;
    inversion H' as [r' e' s' d' Es' E0' Hp'|r' e' s' dss' Es' E0' Hp']; subst;
      rewrite Es in Es'; injection Es' as <-; try congruence.
    - eapply pos_ledger_fun; [|exact Hp|exact Hp']. intros; congruence.
    - f_equal. eapply Forall2_fun; [|exact Hp|exact Hp'].
      intros px a b Ha Hb. eapply pos_ledger_fun; [|exact Ha|exact Hb]. cbv beta. intros; congruence.
  Qed.

  Theorem track_ledger_fun diffusion efield dv track el ds ds' :
    track_ledger g ge diffusion efield dv track el ds ->
    track_ledger g ge diffusion efield dv track el ds' -> ds = ds'.
  Proof.
    intros (_ & dss & H & ->) (_ & dss' & H' & ->). f_equal.
    eapply Forall2_fun; [|exact H|exact H']. intros; eapply row_ledger_fun; eauto.
  Qed.

  (** Every deposit of a ledger is on an active pad that is an entry of the grid. *)
  Definition grid_entry (pad : Z) : Prop :=
    exists i j, 0 <= i < gr_rows g /\ 0 <= j < gr_cols g /\ gr_cell g i j = pad.

  Lemma grid_get_entry ix iy pad : grid_get g ix iy = Ok pad -> grid_entry pad.
  Proof.
    unfold grid_get, axis_index.
    set (i := if ix <? 0 then ix + gr_rows g else ix).
    set (j := if iy <? 0 then iy + gr_cols g else iy).
    destruct ((0 <=? i) && (i <? gr_rows g)) eqn:Ei; [|discriminate]. simpl.
    destruct ((0 <=? j) && (j <? gr_cols g)) eqn:Ej; [|discriminate]. simpl.
    intros [= <-]. exists i, j. lia.
  Qed.

  Definition good_dep (d : dep) : Prop :=
    grid_entry (d_pad d) /\ d_pad d <> -1 /\ ~ In (d_pad d) BEAM_PADS.

  Lemma pos_ledger_good time amount p ds :
    pos_ledger g ge time amount p ds -> Forall good_dep ds.
  Proof.
    intros [H|pad tb a (ix & iy & E & H1 & H2 & Eg & H3 & H4) Ht Hm]; [constructor|].
    constructor; [|constructor]. split; [eapply grid_get_entry; eauto|]. auto.
  Qed.

  Lemma Forall_concat_Forall2 {A B} (P : A -> list B -> Prop) (Q : B -> Prop) l m :
    (forall a b, P a b -> Forall Q b) -> Forall2 P l m -> Forall Q (concat m).
  Proof. intros H. induction 1; simpl; [constructor|]. apply Forall_app; eauto. Qed.

  Lemma row_ledger_good diffusion efield dv re ds :
    row_ledger g ge diffusion efield dv re ds -> Forall good_dep ds.
  Proof.
    intros [r e s d Es E0 Hp|r e s dss Es E0 Hp]; [eapply pos_ledger_good; eauto|].
    eapply Forall_concat_Forall2; [|exact Hp]. intros a b Hab; eapply pos_ledger_good; exact Hab.
  Qed.

  Lemma track_ledger_good diffusion efield dv track el ds :
    track_ledger g ge diffusion efield dv track el ds -> Forall good_dep ds.
  Proof.
    intros (_ & dss & H & ->). eapply Forall_concat_Forall2; [|exact H].
    intros; eapply row_ledger_good; eauto.
  Qed.

  (** The time bucket of each deposit is the truncated time of a row. *)
  Lemma pos_ledger_tb time amount p ds :
    pos_ledger g ge time amount p ds -> Forall (fun d => ntoZ time = Some (d_tb d)) ds.
  Proof. intros [H|pad tb a H Ht Hm]; repeat constructor. exact Ht. Qed.

  Lemma row_ledger_tb diffusion efield dv re ds :
    row_ledger g ge diffusion efield dv re ds ->
    Forall (fun d => ntoZ (r_time (fst re)) = Some (d_tb d)) ds.
  Proof.
    intros [r e s d Es E0 Hp|r e s dss Es E0 Hp]; [eapply pos_ledger_tb; eauto|].
    eapply Forall_concat_Forall2; [|exact Hp]. intros a b Hab; eapply pos_ledger_tb; exact Hab.
  Qed.

  Lemma track_ledger_tb diffusion efield dv track el ds :
    track_ledger g ge diffusion efield dv track el ds ->
    Forall (fun d => exists r, In r track /\ ntoZ (r_time r) = Some (d_tb d)) ds.
  Proof.
    intros (_ & dss & H & ->).
    assert (Hi : forall re, In re (combine track el) -> In (fst re) track).
    { intros [r e] Hr. simpl. eapply in_combine_l; eauto. }
    induction H as [|re x l m Hr Hl IH]; simpl; [constructor|].
    apply Forall_app. split; [|apply IH; intros; apply Hi; now right].
    apply row_ledger_tb in Hr. eapply Forall_impl; [|exact Hr].
    intros d Hd. exists (fst re). split; [apply Hi; now left|exact Hd].
  Qed.
End Proofs.

(** ** Dictionary facts *)
Lemma Zeqb_spec a b : (a =? b) = true <-> a = b. Proof. apply Z.eqb_eq. Qed.

Lemma pget_deposit pts id e label k :
  pget (deposit pts id e label) k =
  if k =? id then Some (wrap64 (charge_at pts id + e), label) else pget pts k.
Proof.
  unfold deposit, pget, pset. fold (pget pts id). fold (charge_at pts id).
  destruct (Z.eqb_spec k id) as [->|Hn].
  - apply (dget_dset_eq Z.eqb Zeqb_spec).
  - now apply (dget_dset_ne Z.eqb Zeqb_spec).
Qed.

Lemma charge_at_deposit pts id e label k :
  charge_at (deposit pts id e label) k =
  if k =? id then wrap64 (charge_at pts id + e) else charge_at pts k.
Proof. unfold charge_at at 1. rewrite pget_deposit. now destruct (k =? id). Qed.

Lemma due_cons k d ds :
  due k (d :: ds) = (if pair (d_tb d) (d_pad d) =? k then d_el d else 0) + due k ds.
Proof. unfold due. simpl. now destruct (pair (d_tb d) (d_pad d) =? k). Qed.

Lemma due_app k a b : due k (a ++ b) = due k a + due k b.
Proof. induction a as [|d a IH]; [reflexivity|]. simpl. rewrite !due_cons, IH. lia. Qed.

Lemma touches_cons k d ds :
  touches k (d :: ds) <-> pair (d_tb d) (d_pad d) = k \/ touches k ds.
Proof.
  unfold touches. split.
  - intros (x & [->|Hx] & E); [now left|right; eauto].
  - intros [E|(x & Hx & E)]; [exists d; simpl; auto|exists x; simpl; auto].
Qed.

Lemma touches_dec k ds : {touches k ds} + {~ touches k ds}.
Proof.
  induction ds as [|d ds IH]; [right; intros (x & [] & _)|].
  destruct (Z.eq_dec (pair (d_tb d) (d_pad d)) k) as [E|E].
  - left. apply touches_cons; auto.
  - destruct IH as [H|H]; [left|right]; rewrite touches_cons; tauto.
Qed.

Lemma due_untouched k ds : ~ touches k ds -> due k ds = 0.
Proof.
  induction ds as [|d ds IH]; [reflexivity|]. rewrite touches_cons, due_cons. intros H.
  rewrite IH by tauto. destruct (Z.eqb_spec (pair (d_tb d) (d_pad d)) k); [tauto|reflexivity].
Qed.

Lemma post_all_get label ds pts k :
  (touches k ds -> pget (post_all label ds pts) k =
                   Some (wrap64 (charge_at pts k + due k ds), label)) /\
  (~ touches k ds -> pget (post_all label ds pts) k = pget pts k).
Proof.
  revert pts. induction ds as [|d ds IH]; intros pts.
  - split; [intros (x & [] & _)|reflexivity].
  - destruct (IH (post label pts d)) as [IH1 IH2]. rewrite touches_cons, due_cons.
    change (post_all label (d :: ds) pts) with (post_all label ds (post label pts d)).
    unfold post in *. rewrite charge_at_deposit, pget_deposit in *.
    rewrite (Z.eqb_sym k) in *.
    destruct (Z.eqb_spec (pair (d_tb d) (d_pad d)) k) as [<-|Hn].
    + split; [|tauto]. intros _. destruct (touches_dec (pair (d_tb d) (d_pad d)) ds) as [H|H].
      * rewrite (IH1 H). rewrite wrap64_add_l. do 3 f_equal. lia.
      * rewrite (IH2 H), due_untouched by exact H. do 3 f_equal. lia.
    + split; intros H; [rewrite IH1|rewrite IH2]; auto; tauto.
Qed.

Lemma post_all_keys label ds pts k :
  In k (map fst (post_all label ds pts)) <-> In k (map fst pts) \/ touches k ds.
Proof.
  revert pts. induction ds as [|d ds IH]; intros pts; simpl.
  - split; [auto|]. intros [H|(x & [] & _)]; exact H.
  - rewrite IH, touches_cons. unfold post, deposit, pset.
    rewrite (in_keys_dset Z.eqb Zeqb_spec). intuition.
Qed.

Lemma post_all_nodup label ds pts :
  NoDup (map fst pts) -> NoDup (map fst (post_all label ds pts)).
Proof.
  revert pts. induction ds as [|d ds IH]; intros pts H; simpl; [exact H|].
  apply IH. unfold post, deposit, pset. now apply (nodup_dset Z.eqb Zeqb_spec).
Qed.

(** Total charge. *)
Lemma total_charge_dset pts k c l :
  NoDup (map fst pts) ->
  total_charge (pset pts k (c, l)) = total_charge pts - charge_at pts k + c.
Proof.
  unfold pset, total_charge, charge_at, pget.
  induction pts as [|[k' [c' l']] pts IH]; simpl; intros H; [lia|].
  inversion H as [|? ? Hn Hd]; subst.
  destruct (Z.eqb_spec k k') as [->|Hne]; simpl.
  - lia.
  - rewrite IH by exact Hd. lia.
Qed.

Lemma total_post_all_le label ds pts :
  NoDup (map fst pts) ->
  (forall k, 0 <= charge_at pts k) ->
  (forall d, In d ds -> 0 <= d_el d) ->
  (forall k, charge_at pts k + due k ds < two63) ->
  total_charge (post_all label ds pts) = total_charge pts + sumZ (map d_el ds).
Proof.
  revert pts. induction ds as [|d ds IH]; intros pts Hn Hc Hd Hm; simpl; [lia|].
  set (k0 := pair (d_tb d) (d_pad d)).
  assert (H0 : 0 <= d_el d) by (apply Hd; now left).
  assert (Hdue : forall k, 0 <= due k ds).
  { intros k. unfold due.
    assert (forall l, (forall x, In x l -> 0 <= x) -> 0 <= sumZ l).
    { induction l as [|x l IHl]; simpl; intros Hx; [lia|].
      pose proof (Hx x (or_introl eq_refl)). pose proof (IHl (fun y Hy => Hx y (or_intror Hy))).
      unfold sumZ in *. lia. }
    apply H. intros x Hx. apply in_map_iff in Hx as (y & <- & Hy).
    apply filter_In in Hy as [Hy _]. apply Hd. now right. }
  assert (Hw : wrap64 (charge_at pts k0 + d_el d) = charge_at pts k0 + d_el d).
  { apply wrap64_id. specialize (Hm k0). rewrite due_cons in Hm. fold k0 in Hm.
    rewrite Z.eqb_refl in Hm. specialize (Hc k0). specialize (Hdue k0). unfold two63 in *. lia. }
  rewrite IH.
  - unfold post, deposit. fold k0. fold (charge_at pts k0).
    rewrite total_charge_dset by exact Hn. rewrite Hw. lia.
  - unfold post, deposit, pset. now apply (nodup_dset Z.eqb Zeqb_spec).
  - intros k. unfold post. fold k0. rewrite charge_at_deposit, Hw.
    destruct (k =? k0); [specialize (Hc k0); lia|apply Hc].
  - intros x Hx. apply Hd. now right.
  - intros k. unfold post. fold k0. rewrite charge_at_deposit, Hw.
    specialize (Hm k). rewrite due_cons in Hm. fold k0 in Hm. rewrite (Z.eqb_sym k0) in Hm.
    destruct (Z.eqb_spec k k0) as [->|]; lia.
Qed.

(** ** Labelled ledgers *)
Definition lpost (pts : points) (dl : ldep) : points := post (snd dl) pts (fst dl).
Definition lpost_all (lds : list ldep) (pts : points) : points := fold_left lpost lds pts.

Lemma lpost_all_app a b pts : lpost_all (a ++ b) pts = lpost_all b (lpost_all a pts).
Proof. apply fold_left_app. Qed.

Lemma lpost_all_same label ds pts :
  lpost_all (map (fun d => (d, label)) ds) pts = post_all label ds pts.
Proof. revert pts. induction ds as [|d ds IH]; intros pts; simpl; [reflexivity|]. apply IH. Qed.

Definition ltouches (k : Z) (lds : list ldep) : Prop := touches k (map fst lds).
Definition ldue (k : Z) (lds : list ldep) : Z := due k (map fst lds).

Lemma last_label_touch k lds : (exists l, last_label k lds = Some l) <-> ltouches k lds.
Proof.
  unfold ltouches. induction lds as [|[d l] lds IH]; simpl.
  - split; [intros (l & H); discriminate|intros (x & [] & _)].
  - rewrite touches_cons, <- IH. clear IH. destruct (last_label k lds) as [l'|].
    + split; [eauto|]. intros _. eauto.
    + destruct (Z.eqb_spec (pair (d_tb d) (d_pad d)) k) as [E|E].
      * split; eauto.
      * split; [intros (? & H); discriminate|]. intros [H|(? & H)]; [contradiction|discriminate].
Qed.

Lemma last_label_none k lds : last_label k lds = None <-> ~ ltouches k lds.
Proof.
  rewrite <- last_label_touch. destruct (last_label k lds); split; intros H; try discriminate.
  - exfalso. apply H. eauto.
  - intros (x & Hx). discriminate.
  - reflexivity.
Qed.

Lemma lpost_all_get lds pts k :
  pget (lpost_all lds pts) k =
  match last_label k lds with
  | Some l => Some (wrap64 (charge_at pts k + ldue k lds), l)
  | None => pget pts k
  end.
Proof.
  revert pts. induction lds as [|[d l] lds IH]; intros pts; [reflexivity|].
  change (lpost_all ((d, l) :: lds) pts) with (lpost_all lds (post l pts d)).
  rewrite IH. unfold post, ldue. rewrite charge_at_deposit, pget_deposit.
  simpl map. rewrite due_cons. simpl last_label. rewrite (Z.eqb_sym k).
  destruct (last_label k lds) as [l'|] eqn:E.
  - destruct (Z.eqb_spec (pair (d_tb d) (d_pad d)) k) as [<-|Hn].
    + rewrite wrap64_add_l. do 3 f_equal. lia.
    + do 3 f_equal.
  - destruct (Z.eqb_spec (pair (d_tb d) (d_pad d)) k) as [<-|Hn]; [|reflexivity].
    apply last_label_none in E. unfold ltouches in E. rewrite due_untouched by exact E.
    do 3 f_equal. lia.
Qed.

Lemma lpost_all_keys lds pts k :
  In k (map fst (lpost_all lds pts)) <-> In k (map fst pts) \/ ltouches k lds.
Proof.
  revert pts. induction lds as [|[d l] lds IH]; intros pts; simpl.
  - split; [auto|]. intros [H|(x & [] & _)]; exact H.
  - rewrite IH. unfold ltouches. simpl. rewrite touches_cons.
    unfold lpost, post, deposit, pset.
    rewrite (in_keys_dset Z.eqb Zeqb_spec). simpl. intuition.
Qed.

Lemma lpost_all_nodup lds pts :
  NoDup (map fst pts) -> NoDup (map fst (lpost_all lds pts)).
Proof.
  revert pts. induction lds as [|d ds IH]; intros pts H; simpl; [exact H|].
  apply IH. unfold lpost, post, deposit, pset. now apply (nodup_dset Z.eqb Zeqb_spec).
Qed.

Section AllProofs.
  Context {N : Num} (g : grid) (ge : edges N) (diffusion efield dv : N).

  Theorem transport_all_iff l pts pts' :
    transport_all g ge diffusion efield dv l pts = Ok pts' <->
    exists lds, event_ledger g ge diffusion efield dv l lds /\ pts' = lpost_all lds pts.
  Proof.
    unfold transport_all, event_ledger. revert pts.
    induction l as [|[[tr el] lab] l IH]; intros pts; simpl.
    - split.
      + intros [= <-]. exists []. split; [|reflexivity]. exists []. split; [constructor|reflexivity].
      + intros (lds & (dss & H & ->) & ->). inversion H; subst. reflexivity.
    - split.
      + destruct (transport_track g ge diffusion efield dv tr el pts lab) as [p1|] eqn:E;
          [|discriminate]. simpl. intros H.
        apply transport_track_iff in E as (ds & Hd & ->).
        apply IH in H as (lds & (dss & Hds & ->) & ->).
        eexists. split; [exists (ds :: dss); split; [constructor; [exact Hd|exact Hds]|reflexivity]|].
        simpl. now rewrite lpost_all_app, lpost_all_same.
      + intros (lds & (dss & H & ->) & ->). inversion H as [|? ds ? dss' Hd Hds]; subst.
        simpl in Hd.
        assert (E : transport_track g ge diffusion efield dv tr el pts lab
                    = Ok (post_all lab ds pts)) by (apply transport_track_iff; eauto).
        rewrite E. simpl. apply IH. eexists. split; [exists dss'; split; [exact Hds|reflexivity]|].
        simpl. now rewrite lpost_all_app, lpost_all_same.
  Qed.

  Lemma event_ledger_fun l lds lds' :
    event_ledger g ge diffusion efield dv l lds ->
    event_ledger g ge diffusion efield dv l lds' -> lds = lds'.
  Proof.
    intros (dss & H & ->) (dss' & H' & ->).
    replace dss' with dss; [reflexivity|]. eapply Forall2_fun; [|exact H|exact H'].
    cbv beta. intros; eapply track_ledger_fun; eauto.
  Qed.

  Lemma event_ledger_in l lds d lab :
    event_ledger g ge diffusion efield dv l lds -> In (d, lab) lds ->
    exists tr el ds, In (tr, el, lab) l /\ track_ledger g ge diffusion efield dv tr el ds /\ In d ds.
  Proof.
    intros (dss & H & ->). induction H as [|[[tr el] lb] ds l dss Hd Hl IH]; simpl; [intros []|].
    rewrite in_app_iff. intros [Hi|Hi].
    - apply in_map_iff in Hi as (d' & [= <- <-] & Hi). exists tr, el, ds. auto.
    - destruct (IH Hi) as (tr' & el' & ds' & H1 & H2). exists tr', el', ds'. auto.
  Qed.

  Lemma event_ledger_perm l l' lds :
    Permutation l l' -> event_ledger g ge diffusion efield dv l lds ->
    exists lds', event_ledger g ge diffusion efield dv l' lds' /\ Permutation lds lds'.
  Proof.
    intros P. revert lds. induction P as [|[[tr el] lab] l l' P IH|x y l|l l' l'' P1 IH1 P2 IH2];
      intros lds H.
    - eauto.
    - destruct H as (dss & H & ->). inversion H as [|? ds ? dss' Hd Hds]; subst. simpl.
      destruct (IH _ (ex_intro _ dss' (conj Hds eq_refl))) as (lds' & (dss2 & H2 & ->) & P').
      eexists. split; [exists (ds :: dss2); split; [constructor; [exact Hd|exact H2]|reflexivity]|].
      simpl. now apply Permutation_app_head.
    - destruct H as (dss & H & ->). inversion H as [|? d1 ? dss' H1 Ht]; subst.
      inversion Ht as [|? d2 ? dss'' H2 Hr]; subst. simpl.
      eexists. split; [exists (d2 :: d1 :: dss''); split;
                       [constructor; [exact H2|constructor; [exact H1|exact Hr]]|reflexivity]|].
      simpl. rewrite !app_assoc. apply Permutation_app_tail, Permutation_app_comm.
    - destruct (IH1 _ H) as (l1 & E1 & P1'). destruct (IH2 _ E1) as (l2 & E2 & P2').
      exists l2. split; [exact E2|]. etransitivity; eauto.
  Qed.
End AllProofs.

Lemma due_perm k ds ds' : Permutation ds ds' -> due k ds = due k ds'.
Proof. induction 1; rewrite ?due_cons; try reflexivity; try lia. Qed.

Lemma touches_perm k ds ds' : Permutation ds ds' -> touches k ds -> touches k ds'.
Proof. intros P (d & Hd & E). exists d. split; [eapply Permutation_in; eauto|exact E]. Qed.
