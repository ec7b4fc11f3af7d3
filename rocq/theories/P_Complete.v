(** P_Complete.v -- C70: nothing above the threshold is lost between the pads and the file. *)
From Coq Require Import ZArith Reals Lia Lra String Permutation.
From Flocq Require Import Core BinarySingleNaN.
From Verif Require Import Base F64 Num Pairing PairingProofs BeamPads Transporter SpecTransport TransportProofs
  Simulator SpecSim SimulatorProofs F64Bounds P_Simulator P_Parameters KinFile SpecRun P_RunSim Response P_Response Writer SpecWriter
  WriterProofs P_Writer P_Cloud Parameters P_Detect P_OnTrack.
Local Open Scope Z_scope.
Local Open Scope list_scope.

(** ** Lists *)
Lemma mapM_forall2 {A B} (f : A -> res B) l out : mapM f l = Ok out -> Forall2 (fun a b => f a = Ok b) l out.
Proof.
  revert out. induction l as [|a l IH]; cbn [mapM]; intros out E.
  - assert (out = []) by congruence. subst. constructor.
  - destruct (f a) as [x|] eqn:Ef; [|discriminate E]. cbn [bind] in E.
    destruct (mapM f l) as [o|]; [|discriminate E]. cbn [bind] in E.
    assert (out = x :: o) by congruence. subst. constructor; auto.
Qed.
Lemma forall2_combine_l {A B C} (P : A -> B -> Prop) (l : list A) (m : list B) (k : list C) :
  Forall2 P l m -> Forall2 (fun x y => P (fst x) (fst y) /\ snd x = snd y) (combine l k) (combine m k).
Proof.
  intros H. revert k. induction H as [|a b l m H1 H2 IH]; intros [|c k]; cbn [combine]; constructor; auto.
Qed.
Lemma forall2_comp {A B C} (P : A -> B -> Prop) (Q : B -> C -> Prop) l m k :
  Forall2 P l m -> Forall2 Q m k -> Forall2 (fun a c => exists b, P a b /\ Q b c) l k.
Proof.
  intros H. revert k. induction H as [|a b l m H1 H2 IH]; intros k Hk; inversion Hk; subst; constructor; eauto.
Qed.
(** The partners of the kept elements, and the partners of the others. *)
Lemma forall2_filter {A B} (P : A -> B -> Prop) (f : B -> bool) l m : Forall2 P l m ->
  exists kept, Forall2 P kept (filter f m) /\ (forall a, In a kept -> In a l) /\
    (forall a, In a l -> exists b, In b m /\ P a b /\ (f b = true -> In a kept)) /\
    (forall (C : Type) (k : A -> C), NoDup (map k l) -> NoDup (map k kept)).
Proof.
  induction 1 as [|a b l m H1 H2 (kept & K1 & K2 & K3 & K4)].
  - exists []. split; [constructor|]. split; [intros a []|]. split; [intros a []|]. auto.
  - cbn [filter]. destruct (f b) eqn:Fb.
    + exists (a :: kept). split; [constructor; auto|]. split; [intros x [->|H]; [now left|right; auto]|]. split.
      * intros x [<-|H]; [exists b; split; [now left|]; split; [exact H1|]; intros _; now left|].
        destruct (K3 x H) as (b' & I & J & K). exists b'. split; [now right|]. split; [exact J|]. intros F. right; auto.
      * intros C k H. cbn [map] in *. inversion H as [|? ? N1 N2]; subst. constructor; [|auto].
        intros I. apply N1. apply in_map_iff in I as (y & E & I). apply in_map_iff. exists y. split; [exact E|auto].
    + exists kept. split; [exact K1|]. split; [intros x H; right; auto|]. split.
      * intros x [<-|H]; [exists b; split; [now left|]; split; [exact H1|]; congruence|].
        destruct (K3 x H) as (b' & I & J & K). exists b'. split; [now right|]. split; [exact J|exact K].
      * intros C k H. cbn [map] in H. inversion H; subst. auto.
Qed.
Lemma forall2_perm {A B} (P : A -> B -> Prop) m m' : Permutation m m' ->
  forall l, Forall2 P l m -> exists l', Permutation l l' /\ Forall2 P l' m'.
Proof.
  induction 1 as [| x m m' H IH | x y m | m1 m2 m3 H1 IH1 H2 IH2]; intros l F.
  - exists l. split; [apply Permutation_refl|exact F].
  - inversion F as [|a ? l0 ? H1 H2]; subst. destruct (IH _ H2) as (l' & P1 & P2).
    exists (a :: l'). split; [now constructor|now constructor].
  - inversion F as [|a ? l0 ? H1 H2]; subst. inversion H2 as [|a' ? l1 ? H3 H4]; subst.
    exists (a' :: a :: l1). split; [constructor|repeat constructor; assumption].
  - destruct (IH1 _ F) as (l' & P1 & P2). destruct (IH2 _ P2) as (l'' & P3 & P4).
    exists l''. split; [eapply Permutation_trans; eassumption|exact P4].
Qed.
Lemma forall2_in_l {A B} (P : A -> B -> Prop) l m : Forall2 P l m -> forall a, In a l -> exists b, In b m /\ P a b.
Proof.
  induction 1 as [|a b l m H1 H2 IH]; intros x; [intros []|]. intros [<-|H]; [exists b; split; [now left|exact H1]|].
  destruct (IH x H) as (b' & I & J). exists b'. split; [now right|exact J].
Qed.
Lemma forall2_in_r {A B} (P : A -> B -> Prop) l m : Forall2 P l m -> forall b, In b m -> exists a, In a l /\ P a b.
Proof.
  induction 1 as [|a b l m H1 H2 IH]; intros x; [intros []|]. intros [<-|H]; [exists a; split; [now left|exact H1]|].
  destruct (IH x H) as (b' & I & J). exists b'. split; [now right|exact J].
Qed.

(** The amplitude of a row and its label is above the threshold. *)
Definition passes (thr : Z) (rl : srow * Z) : bool := fltb (f_of_Z thr) (s_amp (fst rl)).

(** The stored rows are, up to order, the converted points that pass. *)
Lemma process_all fexp argsort resp c centers data labels rows labs :
  argsort_ok argsort -> config_ok c -> wc_centers c = Some centers ->
  (forall p, In p data -> is_finite (p_tb p) = true /\ (Rabs (R64 (p_tb p)) <= bpow radix2 53)%R) ->
  process fexp argsort resp c data labels = Ok (rows, labs) ->
  exists conv, length labels = length data /\ length rows = length labs /\
    Forall2 (fun p r => convert_point fexp (wc_windows_edge c) (wc_mm_edge c) (wc_length c) resp centers (wc_sizes c) p = Ok r)
      data conv /\
    Permutation (combine rows labs) (filter (passes (wc_threshold c)) (combine conv labels)).
Proof.
  intros Ha Hc Ec Hd E. unfold process in E. rewrite Ec in E.
  destruct (convert_to_spyral _ _ _ _ _ _ _ _) as [conv|] eqn:Ef; [|discriminate E]. cbn [bind] in E.
  destruct (negb _) eqn:Eb in E; [discriminate E|]. apply negb_false_iff, Nat.eqb_eq in Eb.
  apply mapM_forall2 in Ef.
  assert (Lc : length conv = length data) by (clear - Ef; induction Ef; simpl; congruence).
  exists conv. split; [congruence|].
  assert (Fin : Forall (fun r => is_finite (s_z r) = true) conv).
  { apply Forall_forall. intros r Hr. destruct (forall2_in_r _ _ _ Ef _ Hr) as (p & Ip & Ep).
    destruct (Hd p Ip) as (Ft & Bt). destruct (z_finite fexp c p Hc Ft Bt) as (Ez & Fz).
    unfold convert_point in Ep. destruct (f_to_Z (p_pad p)) as [pad|]; [|discriminate Ep]. cbn [bind] in Ep.
    destruct (nj_index _ pad) as [cen|]; [|discriminate Ep]. cbn [bind] in Ep.
    destruct (apply_response _ _) as [[amp integral]|]; [|discriminate Ep]. cbn [bind] in Ep.
    rewrite Ez in Ep. cbn [bind] in Ep.
    destruct (nj_index (wc_sizes _) pad) as [sz|]; [|discriminate Ep]. cbn [bind] in Ep.
    apply (f_equal (fun r => match r with Ok a => s_z a | Err _ => f_of_Z 0 end)) in Ep. cbn beta iota in Ep.
    rewrite <- Ep. exact Fz. }
  set (mask := map (fun r => fltb (f_of_Z (wc_threshold c)) (s_amp r)) conv) in *.
  set (pairs := select mask (combine conv labels)).
  destruct (select_combine2 mask conv labels ltac:(congruence)) as (SC & SL). fold pairs in SC.
  assert (E1 : select mask conv = map fst pairs).
  { rewrite <- SC. symmetry. apply combine_fst. congruence. }
  assert (E2 : select mask labels = map snd pairs).
  { rewrite <- SC. symmetry. apply combine_snd. congruence. }
  rewrite E1, E2 in E.
  assert (EP : pairs = filter (passes (wc_threshold c)) (combine conv labels)).
  { unfold pairs. rewrite <- select_filter. f_equal. unfold mask.
    clear - Eb. revert labels Eb. induction conv as [|r l IH]; intros [|x k] H; try discriminate; [reflexivity|].
    cbn [combine map]. f_equal. apply IH. simpl in H. lia. }
  set (keys := map s_z (map fst pairs)) in *.
  destruct (Ha keys) as (Pm & _).
  { unfold keys. rewrite <- E1. apply Forall_forall. intros z Hz. apply in_map_iff in Hz.
    destruct Hz as (r & <- & Hr'). apply select_incl in Hr'. rewrite Forall_forall in Fin. now apply Fin. }
  assert (Lk : length keys = length pairs) by (unfold keys; now rewrite !map_length).
  set (idx := argsort keys) in *.
  assert (Bi : Forall (fun i => (i < length pairs)%nat) idx).
  { apply Forall_forall. intros i Hi. apply (Permutation_in _ Pm) in Hi. apply in_seq in Hi. rewrite <- Lk. exact (proj2 Hi). }
  rewrite <- EP. clear EP Lc Fin. destruct pairs as [|p0 ps] eqn:Eps.
  - assert (I0 : idx = []) by (destruct idx as [|i idx']; auto; inversion Bi; subst; simpl in *; lia).
    rewrite I0 in E. cbn [map take mapM bind] in E. unfold take in E. cbn [mapM bind] in E.
    assert (rows = [] /\ labs = []) as [-> ->] by (split; congruence). split; [reflexivity|]. split; [exact Ef|apply Permutation_refl].
  - rewrite <- Eps in *.
    pose proof (take_ok pairs p0 idx Bi) as T.
    pose proof (take_map fst _ _ _ T) as T1. pose proof (take_map snd _ _ _ T) as T2.
    rewrite T1 in E. cbn [bind] in E. rewrite T2 in E. cbn [bind] in E.
    set (out := map (fun i => nth i pairs p0) idx) in *.
    assert (rows = map fst out /\ labs = map snd out) as [-> ->] by (split; congruence).
    split; [now rewrite !map_length|]. split; [exact Ef|]. rewrite combine_split_map. unfold out.
    apply Permutation_trans with (map (fun i => nth i pairs p0) (seq 0 (length pairs)));
      [|rewrite seq_nth_all; apply Permutation_refl].
    apply Permutation_map. rewrite <- Lk. exact Pm.
Qed.

(** Row [r] with label [l] is what the file should hold for the pad and time bucket [cell] of an event with
    the deposits [lds]: the pad, a time in the bucket, the response to all electrons collected there
    and the label of the last nucleus that put some there. *)
Definition stored_cell (resp : list f64) (thr : Z) (lds : list ldep) (cell : Z * Z * f64) (r : srow) (l : Z) : Prop :=
  let '(tb, pad, u) := cell in
  unit_draw u /\ s_pad r = f_of_Z pad /\ s_tb r = fadd (f_of_Z tb) u /\
  apply_response resp (f_of_Z (wrap64 (collected tb pad lds))) = Ok (s_amp r, s_int r) /\
  last_on tb pad lds l /\ fltb (f_of_Z thr) (s_amp r) = true.

Section Complete.
  Context (fexp : f64 -> f64) {V G Nuc Vel : Type}.
  Notation config := (config fexp).
  Notation traj := (@traj Vel).
  Context (get_data : Z -> Z -> res Nuc)
    (generate_trajectory : @vertex V -> mom4 V -> Nuc -> config -> res (list traj))
    (generate_electrons : list traj -> Nuc -> config -> G -> list Z * G)
    (uniform : nat -> G -> list f64 * G) (argsort : list f64 -> list nat).
  Context (Hu : draws_ok uniform) (Ha : argsort_ok argsort).
  Context (to_float : string -> option f64) (files : string -> option text) (resource : string -> text)
    (load : string -> res (grid * edges (F64 fexp))) (packaged : res (grid * edges (F64 fexp)))
    (dp : det_params) (ep : elec_params) (pp : pad_params) (fc : full_config fexp).
  Context (Hfc : make_config fexp to_float files resource load packaged dp ep pp = Ok fc).
  Context (Hgrid : forall i j, -1 <= gr_cell (fc_grid fexp fc) i j < 10240).
  Context (Hs : sane dp ep) (Hth : Z.abs (ep_threshold ep) <= 2 ^ 53).
  Notation cfg := (sim_config fexp fc).

  (** C70: the stored rows of an event are in one-to-one correspondence with pads and time buckets
      that received electrons; each holds the response to all electrons of its pad and bucket; and
      a pad and bucket before the last one is missing exactly when the response to its electrons
      does not exceed the threshold. *)
  Theorem C70_exactly_what_passes resp rows v zs ms rng idx cloud labels rng' out labs :
    contained fexp generate_trajectory dp fc rows v ->
    sim fexp get_data generate_trajectory generate_electrons uniform fc rows v zs ms rng idx = Ok ((cloud, labels), rng') ->
    process fexp argsort resp (writer_config fexp fc) cloud labels = Ok (out, labs) ->
    exists l rng1 lds cells,
      tracks fexp get_data generate_trajectory generate_electrons rows v zs ms cfg idx rng l rng1 /\
      event_ledger (N := F64 fexp) (fc_grid fexp fc) (fc_edges fexp fc) (dp_diffusion dp) (dp_efield dp)
        (fc_drift fexp fc) l lds /\
      length out = length labs /\ NoDup (map fst cells) /\
      Forall2 (fun cell rl => stored_cell resp (ep_threshold ep) lds cell (fst rl) (snd rl)) cells (combine out labs) /\
      (forall tb pad u, In (tb, pad, u) cells -> 0 <= tb <= 511) /\
      (forall d lab, In (d, lab) lds -> 0 <= d_tb d <= 510 ->
         exists amp int,
           apply_response resp (f_of_Z (wrap64 (collected (d_tb d) (d_pad d) lds))) = Ok (amp, int) /\
           (In (d_tb d, d_pad d) (map fst cells) <-> fltb (f_of_Z (ep_threshold ep)) amp = true)).
  Proof using Hu Ha Hfc Hgrid Hs Hth.
    intros Hc S P.
    destruct (config_fine fexp generate_trajectory to_float files resource load packaged dp ep pp fc Hfc Hs Hth) as [Hcfg Hnear].
    pose proof (Hnear _ _ Hc) as Hn.
    assert (Hg26 : forall i j, -1 <= gr_cell (fc_grid fexp fc) i j < 2 ^ 26) by (intros i j; specialize (Hgrid i j); lia).
    destruct (C17_one_point_per_cell fexp get_data generate_trajectory generate_electrons uniform rows v zs ms
                cfg rng idx (fc_grid fexp fc) (fc_edges fexp fc) cloud labels rng' eq_refl eq_refl Hg26 Hn Hu S)
      as (il & rng1 & lds & cells & Ht & Hl & Len & ND & F & C3 & C4).
    destruct (C16_cloud_shape fexp get_data generate_trajectory generate_electrons uniform rows v zs ms
                cfg rng idx (fc_grid fexp fc) (fc_edges fexp fc) cloud labels rng' eq_refl eq_refl Hg26 Hn Hu S)
      as [_ Shape].
    assert (Parts : c_diffusion fexp cfg = dp_diffusion dp /\ c_efield fexp cfg = dp_efield dp /\ c_drift fexp cfg = fc_drift fexp fc /\
      wc_threshold (writer_config fexp fc) = ep_threshold ep).
    { clear - Hfc. unfold make_config in Hfc.
      destruct (drift_velocity _ _ _) as [dv|]; [|discriminate Hfc]. cbn [bind] in Hfc.
      destruct (load_pad_grid _ _ _ _) as [[g ed]|]; [|discriminate Hfc]. cbn [bind] in Hfc.
      destruct (load_pad_centers _ _ _ _) as [cs|]; [|discriminate Hfc]. cbn [bind] in Hfc.
      destruct (load_pad_sizes _ _ _ _) as [ss|]; [|discriminate Hfc]. cbn [bind] in Hfc.
      injection Hfc as <-. repeat split. }
    destruct Parts as (P1 & P2 & P3 & P4). rewrite P1, P2, P3 in Hl.
    destruct (process_all fexp argsort resp (writer_config fexp fc) (fc_centers fexp fc) cloud labels out labs Ha Hcfg eq_refl)
      as (conv & _ & Lo & Fc & Pm); [|exact P|].
    { intros p Hp. destruct (Shape p Hp) as (_ & Ft & Bt). split; [exact Ft|].
      rewrite Rabs_pos_eq by apply Bt. apply Rlt_le, Rlt_le_trans with 512%R; [apply Bt|].
      change 512%R with (bpow radix2 9). apply bpow_le. lia. }
    rewrite P4 in Pm.
    assert (F1 := forall2_comp _ _ _ _ _ F (forall2_combine_l _ _ _ labels Fc)).
    set (Q := fun (cell : Z * Z * f64) (rl : srow * Z) => let '(tb, pad, u) := cell in
       unit_draw u /\ s_pad (fst rl) = f_of_Z pad /\ s_tb (fst rl) = fadd (f_of_Z tb) u /\
       apply_response resp (f_of_Z (wrap64 (collected tb pad lds))) = Ok (s_amp (fst rl), s_int (fst rl)) /\
       last_on tb pad lds (snd rl)).
    assert (F2 : Forall2 Q cells (combine conv labels)).
    { clear - F1. induction F1 as [|[[tb pad] u] rl l m (pl & (Du & Ep & La) & Ec & Es) _ IH]; constructor; auto.
      unfold Q. unfold convert_point in Ec. rewrite Ep in Ec. cbn [p_pad p_tb p_el] in Ec.
      destruct (f_to_Z _) as [pd|]; [|discriminate Ec]. cbn [bind] in Ec.
      destruct (nj_index _ pd) as [cen|]; [|discriminate Ec]. cbn [bind] in Ec.
      destruct (apply_response _ _) as [[amp integral]|]; [|discriminate Ec]. cbn [bind] in Ec.
      destruct (z_of_tb _ _ _ _) as [zz|]; [|discriminate Ec]. cbn [bind] in Ec.
      destruct (nj_index (wc_sizes _) pd) as [sz|]; [|discriminate Ec]. cbn [bind] in Ec.
      assert (R1 : s_pad (fst rl) = f_of_Z pad) by (apply (f_equal (fun r => match r with Ok a => s_pad a | Err _ => f_of_Z 0 end)) in Ec; cbn beta iota in Ec; now rewrite <- Ec).
      assert (R2 : s_tb (fst rl) = fadd (f_of_Z tb) u) by (apply (f_equal (fun r => match r with Ok a => s_tb a | Err _ => f_of_Z 0 end)) in Ec; cbn beta iota in Ec; now rewrite <- Ec).
      assert (R3 : s_amp (fst rl) = amp) by (apply (f_equal (fun r => match r with Ok a => s_amp a | Err _ => f_of_Z 0 end)) in Ec; cbn beta iota in Ec; now rewrite <- Ec).
      assert (R4 : s_int (fst rl) = integral) by (apply (f_equal (fun r => match r with Ok a => s_int a | Err _ => f_of_Z 0 end)) in Ec; cbn beta iota in Ec; now rewrite <- Ec).
      rewrite R3, R4, <- Es. repeat split; assumption || reflexivity || apply Du. }
    destruct (forall2_filter Q (passes (ep_threshold ep)) _ _ F2) as (kept & K1 & K2 & K3 & K4).
    destruct (forall2_perm Q _ _ (Permutation_sym Pm) _ K1) as (kept' & Pk & Fk).
    exists il, rng1, lds, kept'. split; [exact Ht|]. split; [exact Hl|]. split; [exact Lo|]. split.
    { eapply Permutation_NoDup; [apply Permutation_map; exact Pk|]. now apply K4. }
    assert (Pass : forall rl, In rl (combine out labs) -> passes (ep_threshold ep) rl = true).
    { intros rl H. apply (Permutation_in _ Pm) in H. now apply filter_In in H. }
    split; [|split].
    - clear - Fk Pass. induction Fk as [|[[tb pad] u] rl l m H1 _ IH]; constructor; [|apply IH; intros; apply Pass; now right].
      unfold Q in H1. unfold stored_cell. destruct H1 as (A & B & C & D & E). repeat (split; [assumption|]).
      apply (Pass rl). now left.
    - intros tb pad u Hi. apply (Permutation_in _ (Permutation_sym Pk)) in Hi. apply K2 in Hi. now apply (C3 tb pad u).
    - intros d lab Hd Bd. destruct (C4 d lab Hd Bd) as (u & Hi). destruct (K3 _ Hi) as (rl & Irl & Qrl & Krl).
      cbn [Q] in Qrl. destruct Qrl as (_ & _ & _ & Er & _).
      exists (s_amp (fst rl)), (s_int (fst rl)). split; [exact Er|]. split.
      + intros Hm. apply in_map_iff in Hm as ([[tb pad] u'] & E & Hk). cbn [fst] in E.
        destruct (forall2_in_l _ _ _ Fk _ Hk) as (rl' & Ir & Qr). apply Pass in Ir.
        cbn [Q] in Qr. destruct Qr as (_ & _ & _ & Er' & _).
        assert (tb = d_tb d /\ pad = d_pad d) as [-> ->] by (split; congruence).
        unfold passes in Ir. rewrite Er in Er'. replace (s_amp (fst rl)) with (s_amp (fst rl')); [exact Ir|].
        apply (f_equal (fun r => match r with Ok a => fst a | Err _ => f_of_Z 0 end)) in Er'. cbn beta iota delta [fst] in Er'. now symmetry.
      + intros Hp. apply in_map_iff. exists (d_tb d, d_pad d, u). split; [reflexivity|].
        apply (Permutation_in _ Pk). apply Krl. exact Hp.
  Qed.
End Complete.

(** Two steps of one nucleus in different buckets, with 16 and 1 electrons, gain 10, response 1/4,
    threshold 5: amplitudes 40 and 2 1/2; the cloud has both, the file has the first. *)
Definition two_steps fexp (v : @vertex Z) (p : mom4 Z) (n : Z) (c : config fexp) : res (list (@traj unit)) :=
  Ok [mkTraj (f_of_Z 0) (f_of_Z 0) half tt; mkTraj (f_of_Z 0) (f_of_Z 0) (f_of_ZE 1 (-2)) tt].
Definition two_counts fexp (t : list (@traj unit)) (n : Z) (c : config fexp) (g : Z) : list Z * Z := ([16; 1], g + 1).
Example C70_example fexp :
  match e_make fexp with
  | Ok fc =>
      match sim fexp e_nuc (two_steps fexp) (two_counts fexp) ex_uniform fc [e_row 1] (1, 2, 3) [2] [4] 0 [0] with
      | Ok ((cloud, labels), _) =>
          (map (fun p => map f_to_Z [p_pad p; p_tb p; p_el p]) cloud,
           match process fexp the_sort [f_of_ZE 1 (-2)] (writer_config fexp fc) cloud labels with
           | Ok (out, labs) => (map (fun r => map f_to_Z [s_pad r; s_tb r; s_amp r]) out, labs)
           | Err _ => ([], [])
           end)
      | Err _ => ([], ([], []))
      end
  | Err _ => ([], ([], []))
  end = ([[Some 300; Some 256; Some 160]; [Some 300; Some 384; Some 10]], ([[Some 300; Some 256; Some 40]], [0])).
Proof. vm_compute. reflexivity. Qed.
Example C70_hypotheses fexp fc rows v : contained fexp (two_steps fexp) e_dp fc rows v.
Proof.
  intros p nuc track t _ E It. unfold two_steps in E.
  assert (Ez : t_z t = half \/ t_z t = f_of_ZE 1 (-2)).
  { apply (f_equal (fun r => match r with Ok x => x | _ => [] end)) in E. cbv beta match in E. rewrite <- E in It.
    destruct It as [<-|[<-|[]]]; auto. }
  unfold around. cbn [e_dp dp_length]. rewrite (f_of_Z_R 1) by lia. destruct Ez as [-> | ->].
  - destruct half_ok as (F & B). split; [exact F|]. apply Rabs_le. lra.
  - destruct (f_of_ZE_correct 1 (-2) ltac:(lia) ltac:(lia)) as (E1 & F1). split; [exact F1|]. rewrite E1.
    change (bpow radix2 (-2)) with (/ 4)%R. apply Rabs_le. lra.
Qed.
Print Assumptions C70_exactly_what_passes.
