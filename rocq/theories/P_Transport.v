(** P_Transport.v -- properties C07-C10 and C15: charge bookkeeping of the transport, for
    every numeric instance (so for binary64 as executed). *)
From Coq Require Import ZArith Permutation.
From Flocq Require Import Core BinarySingleNaN.
From Verif Require Import Base F64 Num Pairing PairingProofs BeamPads Transporter SpecTransport TransportProofs
  PositionProofs PadGridData PadGrid PadGridProofs.
Local Open Scope Z_scope.

(** C07: a successful transport adds exactly the ledger of the track (which is unique), key by
    key, in int64 arithmetic; keys without a deposit keep charge and label. *)
Theorem C07_bookkeeping :
  forall (N : Num) (g : grid) (ge : edges N) (diffusion efield dv : N)
    (track : list (row N)) (el : list Z) (pts pts' : points) (label : Z),
  transport_track g ge diffusion efield dv track el pts label = Ok pts' ->
  exists ds, track_ledger g ge diffusion efield dv track el ds /\
    (forall ds', track_ledger g ge diffusion efield dv track el ds' -> ds' = ds) /\
    (forall k, touches k ds ->
       pget pts' k = Some (wrap64 (charge_at pts k + due k ds), label)) /\
    (forall k, ~ touches k ds -> pget pts' k = pget pts k).
Proof.
  intros N g ge diffusion efield dv track el pts pts' label H.
  apply transport_track_iff in H as (ds & H & ->). exists ds. split; [exact H|].
  split; [intros; eapply track_ledger_fun; eauto|].
  split; intros k Hk; now apply post_all_get.
Qed.

(** ... and conversely it succeeds exactly when the ledger exists. *)
Theorem C07_success :
  forall (N : Num) (g : grid) (ge : edges N) (diffusion efield dv : N)
    (track : list (row N)) (el : list Z) (pts : points) (label : Z),
  (exists pts', transport_track g ge diffusion efield dv track el pts label = Ok pts') <->
  (exists ds, track_ledger g ge diffusion efield dv track el ds).
Proof.
  intros. split.
  - intros (pts' & H). apply transport_track_iff in H as (ds & H & _). eauto.
  - intros (ds & H). exists (post_all label ds pts). apply transport_track_iff. eauto.
Qed.

(** Total charge: without int64 overflow the dictionary gains exactly the sum of the deposits. *)
Theorem C07_total_charge :
  forall (N : Num) (g : grid) (ge : edges N) (diffusion efield dv : N)
    (track : list (row N)) (el : list Z) (pts pts' : points) (label : Z) (ds : list dep),
  transport_track g ge diffusion efield dv track el pts label = Ok pts' ->
  track_ledger g ge diffusion efield dv track el ds ->
  NoDup (map fst pts) -> (forall k, 0 <= charge_at pts k) ->
  (forall d, In d ds -> 0 <= d_el d) ->
  (forall k, charge_at pts k + due k ds < two63) ->
  total_charge pts' = total_charge pts + sumZ (map d_el ds).
Proof.
  intros N g ge diffusion efield dv track el pts pts' label ds H L Hn Hc Hd Hm.
  apply transport_track_iff in H as (ds' & H & ->).
  assert (ds' = ds) by (eapply track_ledger_fun; eauto). subst ds'.
  now apply total_post_all_le.
Qed.

(** C08: every key that appears was there before, or is the key of a real, non-beam pad that is
    an entry of the grid and of the time bucket of a track row. *)
Theorem C08_no_beam_pads :
  forall (N : Num) (g : grid) (ge : edges N) (diffusion efield dv : N)
    (track : list (row N)) (el : list Z) (pts pts' : points) (label : Z),
  transport_track g ge diffusion efield dv track el pts label = Ok pts' ->
  forall k, In k (map fst pts') ->
    In k (map fst pts) \/
    exists tb pad r, k = pair tb pad /\ In r track /\ ntoZ (r_time r) = Some tb /\
      pad <> -1 /\ ~ In pad BEAM_PADS /\
      exists i j, 0 <= i < gr_rows g /\ 0 <= j < gr_cols g /\ gr_cell g i j = pad.
Proof.
  intros N g ge diffusion efield dv track el pts pts' label H k Hk.
  apply transport_track_iff in H as (ds & H & ->). apply post_all_keys in Hk as [Hk|(d & Hd & E)].
  - now left.
  - right. exists (d_tb d), (d_pad d).
    pose proof (track_ledger_good _ _ _ _ _ _ _ _ H) as G. rewrite Forall_forall in G.
    pose proof (track_ledger_tb _ _ _ _ _ _ _ _ H) as B. rewrite Forall_forall in B.
    destruct (G _ Hd) as (G1 & G2 & G3). destruct (B _ Hd) as (r & B1 & B2).
    exists r. repeat split; auto.
Qed.

(** Decoded: if no key of the dictionary decodes (by [unpair]) to a beam pad or a negative pad,
    then neither does any key afterwards, for times in [0, 2^26) and int16 grids whose only
    negative entry is -1 (as the packaged one). *)
Definition bad_key (k : Z) : Prop :=
  exists pad, f_to_Z (snd (unpair k)) = Some pad /\ (pad < 0 \/ In pad BEAM_PADS).

Theorem C08_no_beam_pads_decoded :
  forall (N : Num) (g : grid) (ge : edges N) (diffusion efield dv : N)
    (track : list (row N)) (el : list Z) (pts pts' : points) (label : Z),
  (forall i j, -1 <= gr_cell g i j < 32768) ->
  (forall r, In r track -> exists tb, ntoZ (r_time r) = Some tb /\ 0 <= tb < 2 ^ 26) ->
  (forall k, In k (map fst pts) -> ~ bad_key k) ->
  transport_track g ge diffusion efield dv track el pts label = Ok pts' ->
  forall k, In k (map fst pts') -> ~ bad_key k.
Proof.
  intros N g ge diffusion efield dv track el pts pts' label Hg Ht Hp H k Hk.
  destruct (C08_no_beam_pads _ _ _ _ _ _ _ _ _ _ _ H k Hk)
    as [Hk'|(tb & pad & r & -> & Hr & Et & N1 & N2 & i & j & _ & _ & Eg)]; [now apply Hp|].
  intros (pad' & E & Hb). specialize (Hg i j). rewrite Eg in Hg.
  destruct (Ht r Hr) as (tb' & Et' & Bt). rewrite Et in Et'. injection Et' as <-.
  rewrite unpair_pair in E by lia. cbn [snd] in E.
  rewrite f_to_Z_of_Z in E by lia. injection E as <-. destruct Hb; [lia|auto].
Qed.

(** Deposits at negative times are pooled under the key -1, which decodes to (-1, -1). *)
Theorem C08_negative_times : forall tb pad, tb < 0 ->
  pair tb pad = -1 /\ unpair (-1) = (f_of_Z (-1), f_of_Z (-1)).
Proof. intros tb pad H. split; [apply pair_negative; auto|reflexivity]. Qed.

(** The packaged table: 122 distinct pads in increasing order, all valid. *)
Fixpoint increasing (p : Z) (l : list Z) : bool :=
  match l with [] => true | q :: l' => (p <? q) && increasing q l' end.

Theorem C08_beam_pad_table :
  length BEAM_PADS = 122%nat /\ increasing (-1) BEAM_PADS = true /\ NoDup BEAM_PADS /\
  (forall p, In p BEAM_PADS -> 0 <= p < 10240).
Proof.
  assert (S : forall l p, increasing p l = true -> forall q, In q l -> p < q).
  { induction l as [|x l IH]; intros p H q Hq; [destruct Hq|].
    apply andb_prop in H as [H1 H2]. destruct Hq as [->|Hq]; [lia|].
    specialize (IH _ H2 _ Hq). lia. }
  assert (S' : forall l p, increasing p l = true -> NoDup l).
  { induction l as [|x l IH]; intros p H; [constructor|].
    apply andb_prop in H as [H1 H2]. constructor; [|eapply IH; exact H2].
    intros Hx. specialize (S _ _ H2 _ Hx). lia. }
  assert (I : increasing (-1) BEAM_PADS = true) by reflexivity.
  split; [reflexivity|]. split; [exact I|]. split; [eapply S'; exact I|].
  intros p Hp. assert (F : forallb (fun q => (0 <=? q) && (q <? 10240)) BEAM_PADS = true) by reflexivity.
  rewrite forallb_forall in F. apply F in Hp. lia.
Qed.

(** C09: after transporting any sequence of nuclei, the label of a key is the label of the last
    deposit on it, whatever the amounts. *)
Theorem C09_last_depositor :
  forall (N : Num) (g : grid) (ge : edges N) (diffusion efield dv : N)
    (l : list (@ionisation N)) (pts pts' : points),
  transport_all g ge diffusion efield dv l pts = Ok pts' ->
  exists lds, event_ledger g ge diffusion efield dv l lds /\
    forall k,
      (forall before after d lab, lds = before ++ (d, lab) :: after ->
         pair (d_tb d) (d_pad d) = k ->
         (forall d' lab', In (d', lab') after -> pair (d_tb d') (d_pad d') <> k) ->
         label_at pts' k = Some lab) /\
      ((forall d lab, In (d, lab) lds -> pair (d_tb d) (d_pad d) <> k) ->
         label_at pts' k = label_at pts k).
Proof.
  intros N g ge diffusion efield dv l pts pts' H.
  apply transport_all_iff in H as (lds & H & ->). exists lds. split; [exact H|].
  intros k. unfold label_at. rewrite !lpost_all_get. split.
  - intros before after d lab -> E Ha.
    assert (L : last_label k (before ++ (d, lab) :: after) = Some lab).
    { clear H. assert (La : last_label k after = None).
      { apply last_label_none. intros (x & Hx & Ex). apply in_map_iff in Hx as ([x' lx] & <- & Hx).
        now apply (Ha x' lx). }
      induction before as [|[b lb] before IH]; simpl.
      - rewrite La, E, Z.eqb_refl. reflexivity.
      - now rewrite IH. }
    now rewrite L.
  - intros Hn. assert (L : last_label k lds = None).
    { apply last_label_none. intros (x & Hx & Ex). apply in_map_iff in Hx as ([x' lx] & <- & Hx).
      now apply (Hn x' lx). }
    now rewrite L.
Qed.

(** C15: the electrons do not depend on the order of the nuclei. *)
Theorem C15_order_independence :
  forall (N : Num) (g : grid) (ge : edges N) (diffusion efield dv : N)
    (l l' : list (@ionisation N)) (pts pts' : points),
  Permutation l l' ->
  transport_all g ge diffusion efield dv l pts = Ok pts' ->
  exists pts'', transport_all g ge diffusion efield dv l' pts = Ok pts'' /\
    (forall k, charge_at pts'' k = charge_at pts' k) /\
    (forall k, In k (map fst pts'') <-> In k (map fst pts')).
Proof.
  intros N g ge diffusion efield dv l l' pts pts' P H.
  apply transport_all_iff in H as (lds & H & ->).
  destruct (event_ledger_perm _ _ _ _ _ _ _ _ P H) as (lds' & H' & P').
  exists (lpost_all lds' pts). split; [apply transport_all_iff; eauto|].
  assert (Pm : Permutation (map fst lds) (map fst lds')) by now apply Permutation_map.
  assert (Tt : forall k, ltouches k lds' <-> ltouches k lds).
  { intros k. unfold ltouches. split; apply touches_perm; [now symmetry|exact Pm]. }
  split; intros k.
  - unfold charge_at. rewrite !lpost_all_get.
    assert (D : ldue k lds' = ldue k lds) by (symmetry; now apply due_perm).
    rewrite D. pose proof (Tt k) as Tk. rewrite <- !last_label_touch in Tk.
    destruct (last_label k lds') as [a|], (last_label k lds) as [b|]; try reflexivity; exfalso.
    + destruct Tk as [Tk _]. destruct Tk as (x & Hx); [eauto|discriminate].
    + destruct Tk as [_ Tk]. destruct Tk as (x & Hx); [eauto|discriminate].
  - rewrite !lpost_all_keys, Tt. reflexivity.
Qed.

(** A concrete case for C07, C08, C09 and C15 (and, with zero diffusion, C10): two nuclei on the
    packaged grid; nucleus 2 has a row above pad 1654, a row above beam pad 166 and a row off the plane; nucleus 5 has a row above pad 1654. *)
Section Example.
  Context (fexp : f64 -> f64).
  Let row3 x y t : row (F64 fexp) :=
    @mkRow (F64 fexp) (fdiv (f_of_Z x) (f_of_Z 1000)) (fdiv (f_of_Z y) (f_of_Z 1000)) (f_of_Z t).
  Definition ex_track2 : list (row (F64 fexp)) := [row3 100 50 256; row3 18 4 256; row3 900 0 3].
  Definition ex_track5 : list (row (F64 fexp)) := [row3 100 50 256].
  Definition ex_run (l : list (@ionisation (F64 fexp))) : res points :=
    transport_all (N := F64 fexp) packaged_grid (packaged_edges fexp) (f_of_Z 0) (f_of_Z 1) (f_of_Z 1) l [].

  Example C07_example :
    transport_track (N := F64 fexp) packaged_grid (packaged_edges fexp) (f_of_Z 0) (f_of_Z 1) (f_of_Z 1)
      ex_track2 [1000; 20; 3] [(2735972, (7, 0)); (0, (1, 1))] 2
    = Ok [(2735972, (1007, 2)); (0, (1, 1))].
  Proof. vm_compute. reflexivity. Qed.

  Example C09_C15_example :
    ex_run [(ex_track2, [1000; 20; 3], 2); (ex_track5, [500], 5)] = Ok [(2735972, (1500, 5))] /\
    ex_run [(ex_track5, [500], 5); (ex_track2, [1000; 20; 3], 2)] = Ok [(2735972, (1500, 2))].
  Proof. split; vm_compute; reflexivity. Qed.

  Example C08_example :
    In 166 BEAM_PADS /\
    looked_up fexp (fdiv (f_of_Z 18) (f_of_Z 1000), fdiv (f_of_Z 4) (f_of_Z 1000)) = Ok 166 /\
    ~ bad_key 2735972.
  Proof.
    split; [|split].
    - apply is_beam_spec. reflexivity.
    - vm_compute. reflexivity.
    - intros (pad & E & H). change 2735972 with (pair 256 1654) in E.
      rewrite unpair_pair in E by lia. cbn [snd] in E. rewrite f_to_Z_of_Z in E by lia.
      injection E as <-. destruct H as [H|H]; [lia|].
      apply is_beam_spec in H. discriminate H.
  Qed.
End Example.

Print Assumptions C07_bookkeeping.
Print Assumptions C07_success.
Print Assumptions C07_total_charge.
Print Assumptions C08_no_beam_pads.
Print Assumptions C08_no_beam_pads_decoded.
Print Assumptions C08_negative_times.
Print Assumptions C08_beam_pad_table.
Print Assumptions C09_last_depositor.
Print Assumptions C15_order_independence.
