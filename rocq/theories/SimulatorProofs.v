(** SimulatorProofs.v -- lemmas about [simulate]. *)
From Coq Require Import ZArith Reals Lia Lra.
From Flocq Require Import Core BinarySingleNaN Sterbenz.
From Verif Require Import Base F64 F64Bounds Num Pairing PairingProofs BeamPads Transporter
  SpecTransport TransportProofs Simulator SpecSim.
Local Open Scope Z_scope.

(** ** Masks *)
Lemma select_map_filter {X A} (f : X -> bool) (h : X -> A) (l : list X) :
  select (map f l) (map h l) = map h (filter f l).
Proof. induction l as [|x l IH]; simpl; [reflexivity|]. destruct (f x); simpl; now rewrite IH. Qed.

Lemma select_combine {A} (p : Z -> bool) (t : list A) (els : list Z) :
  length els = length t ->
  select (map p els) t = map fst (filter (fun te => p (snd te)) (combine t els)) /\
  select (map p els) els = map snd (filter (fun te => p (snd te)) (combine t els)).
Proof.
  revert t; induction els as [|e els IH]; intros [|a t] H; simpl in *; try discriminate; auto.
  destruct (IH t ltac:(lia)) as [I1 I2]. rewrite I1, I2. destruct (p e); auto.
Qed.

Lemma combine_map_fst {A B} (l : list A) (k : list B) :
  length l = length k -> map fst (combine l k) = l.
Proof. revert k; induction l as [|a l IH]; intros [|b k] H; simpl in *; try discriminate; auto.
  f_equal. apply IH. lia. Qed.
Lemma combine_map_snd {A B} (l : list A) (k : list B) :
  length l = length k -> map snd (combine l k) = k.
Proof. revert k; induction l as [|a l IH]; intros [|b k] H; simpl in *; try discriminate; auto.
  f_equal. apply IH. lia. Qed.

Lemma combine_map_l {A A' B} (f : A -> A') (l : list A) (k : list B) :
  combine (map f l) k = map (fun ab => (f (fst ab), snd ab)) (combine l k).
Proof. revert k; induction l as [|a l IH]; intros [|b k]; simpl; auto. now rewrite IH. Qed.

Lemma filter_map {A B} (f : A -> B) (p : B -> bool) (l : list A) :
  filter p (map f l) = map f (filter (fun a => p (f a)) l).
Proof. induction l as [|a l IH]; simpl; [reflexivity|]. destruct (p (f a)); simpl; now rewrite IH. Qed.

Section Sim.
  Context (fexp : f64 -> f64) {G Nuc Mom Vtx Vel : Type}.
  Notation config := (config fexp).
  Notation traj := (@traj Vel).
  Context (get_data : Z -> Z -> res Nuc)
    (generate_trajectory : Vtx -> Mom -> Nuc -> config -> res (list traj))
    (generate_electrons : list traj -> Nuc -> config -> G -> list Z * G)
    (uniform : nat -> G -> list f64 * G).
  Context (momenta : list Mom) (vertex : Vtx) (zs ms : list Z) (c : config).
  Context (g : grid) (ge : edges (F64 fexp)).
  Hypothesis (Hg : c_grid fexp c = Some g) (He : c_edges fexp c = Some ge).

  Let step := simulate_nucleus fexp get_data generate_trajectory generate_electrons
                momenta vertex zs ms c.
  Let trk := tracks fexp get_data generate_trajectory generate_electrons momenta vertex zs ms c.
  Let run := transport_all (N := F64 fexp) g ge (c_diffusion fexp c) (c_efield fexp c) (c_drift fexp c).

  (** The loop over the nuclei is: collect the tracks, transport them all. *)
  Lemma loop_iff indices pts rng pts' rng' :
    foldM step indices (pts, rng) = Ok (pts', rng') <->
    exists l, trk indices rng l rng' /\ run l pts = Ok pts'.
  Proof.
    revert pts rng. induction indices as [|i rest IH]; intros pts rng; cbn [foldM].
    { split.
      - intros [= <- <-]. exists []. split; [constructor|reflexivity].
      - intros (l & H & E). inversion H; subst. simpl in E. now injection E as <-. }
    change (step (pts, rng) i) with (simulate_nucleus fexp get_data generate_trajectory
      generate_electrons momenta vertex zs ms c (pts, rng) i).
    unfold simulate_nucleus at 1.
    destruct (py_index zs i) as [z|e] eqn:Ez; cbn [bind].
    2: { split; [discriminate|]. intros (l & H & _). inversion H; subst; congruence. }
    destruct (Z.eqb_spec z 0) as [->|Nz]; cbn [bind].
    { rewrite IH. split; intros (l & H & E).
      - exists l. split; [now apply T_neutral|exact E].
      - inversion H; subst; [|congruence]. eauto. }
    destruct (py_index ms i) as [a|e] eqn:Ea; cbn [bind].
    2: { split; [discriminate|]. intros (l & H & _). inversion H; subst; congruence. }
    destruct (get_data z a) as [nuc|e] eqn:En; cbn [bind].
    2: { split; [discriminate|]. intros (l & H & _). inversion H; subst; congruence. }
    destruct (py_index momenta i) as [p|e] eqn:Ep; cbn [bind].
    2: { split; [discriminate|]. intros (l & H & _). inversion H; subst; congruence. }
    unfold generate_point_cloud.
    destruct (generate_trajectory vertex p nuc c) as [track|e] eqn:Et; cbn [bind].
    2: { split; [discriminate|]. intros (l & H & _). inversion H; subst; congruence. }
    destruct (generate_electrons track nuc c rng) as [els g1] eqn:Ee. rewrite Hg, He.
    destruct (Nat.eqb_spec (length els) (length track)) as [El|El]; cbn [negb bind].
    2: { split; [discriminate|]. intros (l & H & _). inversion H; subst; congruence. }
    assert (Eq : forall pt,
      transport_track (N := F64 fexp) g ge (c_diffusion fexp c) (c_efield fexp c) (c_drift fexp c)
        (map (to_row fexp c) (select (map (fun e => 1 <=? e) els) track))
        (map (fun e => wrap64 (e * c_gain fexp c)) (select (map (fun e => 1 <=? e) els) els)) pt i =
      transport_track (N := F64 fexp) g ge (c_diffusion fexp c) (c_efield fexp c) (c_drift fexp c)
        (fst (fst (ionises fexp c i track els))) (snd (fst (ionises fexp c i track els))) pt
        (snd (ionises fexp c i track els))).
    { intros pt. cbn [ionises fst snd].
      destruct (select_combine (fun e => 1 <=? e) track els El) as (S1 & S2).
      unfold ionising. now rewrite S1, S2, !map_map. }
    rewrite Eq. clear Eq. set (t := ionises fexp c i track els).
    destruct (transport_track g ge _ _ _ (fst (fst t)) (snd (fst t)) pts (snd t)) as [pt1|e] eqn:Er;
      cbn [bind].
    - assert (R : forall l, run (t :: l) pts = run l pt1).
      { intros l. exact (f_equal (fun m => bind m (run l)) Er). }
      rewrite IH. split; intros (l & H & E).
      + exists (t :: l). split; [eapply T_charged; eauto|]. exact (eq_trans (R l) E).
      + inversion H; subst; [congruence|].
        replace z0 with z in * by congruence. replace a0 with a in * by congruence.
        replace nuc0 with nuc in * by congruence. replace p0 with p in * by congruence.
        replace track0 with track in * by congruence.
        assert (els0 = els /\ g2 = g1) as [-> ->] by (split; congruence).
        exists l0. split; [assumption|]. exact (eq_trans (eq_sym (R l0)) E).
    - split; [discriminate|]. intros (l & H & E). inversion H; subst; [congruence|].
      replace z0 with z in * by congruence. replace a0 with a in * by congruence.
      replace nuc0 with nuc in * by congruence. replace p0 with p in * by congruence.
      replace track0 with track in * by congruence.
      assert (els0 = els) as -> by congruence. fold t in E.
      pose proof (eq_trans (eq_sym (f_equal (fun m => bind m (run l0)) Er)) E) as X. discriminate X.
  Qed.
End Sim.

(** ** Smearing *)
Local Open Scope R_scope.

Lemma smear_bounds (tb : Z) (u : f64) :
  (0 <= tb < 2 ^ 52)%Z -> unit_draw u ->
  is_finite (fadd (f_of_Z tb) u) = true /\
  IZR tb <= R64 (fadd (f_of_Z tb) u) <= IZR (tb + 1).
Proof.
  intros Ht (Fu & Lu & Uu).
  destruct (f_of_Z_correct tb ltac:(lia)) as (Rt & Ft & _).
  assert (Bt : 0 <= IZR tb <= b2 52).
  { split; [apply (IZR_le 0); lia|]. rewrite <- IZR_pow2 by lia. apply IZR_le. lia. }
  destruct (fadd_fin (f_of_Z tb) u 53 Ft Fu ltac:(lia)) as (R & F).
  { rewrite Rt. rewrite Rabs_pos_eq by lra. change 53%Z with (52 + 1)%Z.
    rewrite bpow_plus_1. simpl (IZR radix2).
    assert (1 <= b2 52) by (change 1 with (bpow radix2 0); apply bpow_le; lia). lra. }
  split; [exact F|]. rewrite R, Rt. rewrite plus_IZR. split.
  - apply rnd64_ge_IZR; [lia|lra].
  - rewrite <- plus_IZR. apply rnd64_le_IZR; [lia|]. rewrite plus_IZR. lra.
Qed.

Lemma smear_minus_one (u : f64) : unit_draw u ->
  is_finite (fadd (f_of_Z (-1)) u) = true /\ R64 (fadd (f_of_Z (-1)) u) < 0.
Proof.
  intros (Fu & Lu & Uu).
  destruct (f_of_Z_correct (-1) ltac:(lia)) as (Rt & Ft & _).
  destruct (fadd_fin (f_of_Z (-1)) u 0 Ft Fu ltac:(lia)) as (R & F).
  { rewrite Rt. change (bpow radix2 0) with 1. apply Rabs_le. lra. }
  split; [exact F|]. rewrite R, Rt.
  destruct (Rle_or_lt (/2) (R64 u)) as [H|H].
  - replace (-1 + R64 u) with (R64 u - 1) by ring. rewrite rnd64_fmt; [lra|].
    apply sterbenz; auto with typeclass_instances.
    + apply fmt64_R.
    + apply (fmt64_IZR 1). lia.
    + lra.
  - apply Rle_lt_trans with (- b2 (-1)).
    + apply rnd64_le_fmt; [apply generic_format_opp, fmt64_bpow; lia|].
      change (b2 (-1)) with (/2). lra.
    + change (b2 (-1)) with (/2). lra.
Qed.

Lemma in_window_spec (p : point) : is_finite (p_tb p) = true ->
  in_window p = true <-> 0 <= R64 (p_tb p) < 512.
Proof.
  intros F. unfold in_window. rewrite andb_true_iff.
  rewrite fleb_R, fltb_R by (auto; apply f_of_Z_fin; unfold NUM_TB; lia).
  rewrite !f_of_Z_R by (unfold NUM_TB; lia). unfold NUM_TB.
  split; intros [A B]; split.
  - destruct (Rle_bool_spec 0 (R64 (p_tb p))); [assumption|discriminate].
  - destruct (Rlt_bool_spec (R64 (p_tb p)) 512); [assumption|discriminate].
  - now apply Rle_bool_true.
  - now apply Rlt_bool_true.
Qed.
Local Close Scope R_scope.

(** ** The point cloud, entry by entry *)
Definition pt_of (eu : (Z * (Z * Z)) * f64) : point :=
  mkPoint (snd (unpair (fst (fst eu)))) (fadd (fst (unpair (fst (fst eu)))) (snd eu))
          (f_of_Z (fst (snd (fst eu)))).
Definition lab_of (eu : (Z * (Z * Z)) * f64) : Z := snd (snd (fst eu)).
Definition kept (pts : points) (us : list f64) := filter (fun eu => in_window (pt_of eu)) (combine pts us).

Lemma cloud_kept (pts : points) (us : list f64) : length us = length pts ->
  let w := wiggle (fst (dict_to_points pts)) us in
  select (map in_window w) w = map pt_of (kept pts us) /\
  select (map in_window w) (snd (dict_to_points pts)) = map lab_of (kept pts us).
Proof.
  intros H. assert (W : wiggle (fst (dict_to_points pts)) us = map pt_of (combine pts us)).
  { unfold wiggle, dict_to_points. cbn [fst]. rewrite combine_map_l, map_map.
    apply map_ext. intros [[k [c l]] u]. cbn [fst snd].
    unfold pt_of. cbn [fst snd]. now destruct (unpair k). }
  cbv zeta. rewrite W, map_map. split.
  - apply select_map_filter.
  - unfold dict_to_points. cbn [snd].
    rewrite <- (combine_map_fst pts us (eq_sym H)) at 2. rewrite map_map.
    apply (select_map_filter (fun x => in_window (pt_of x)) lab_of).
Qed.

Lemma nodup_kept pts us : NoDup (map fst pts) -> length us = length pts ->
  NoDup (map (fun eu => fst (fst eu)) (kept pts us)).
Proof.
  intros H L. rewrite <- (combine_map_fst pts us (eq_sym L)), map_map in H.
  unfold kept. induction (combine pts us) as [|x l IH]; cbn [filter map]; [constructor|].
  cbn [map] in H. inversion H as [|? ? H1 H2]; subst.
  destruct (in_window (pt_of x)); cbn [map]; [|auto].
  constructor; [|auto]. intros Hi. apply H1. apply in_map_iff in Hi as (y & E & Hy).
  apply filter_In in Hy as [Hy _]. rewrite <- E. now apply (in_map (fun x => fst (fst x))).
Qed.

Lemma Forall_choose {A B} (P : A -> B -> Prop) l :
  (forall x, In x l -> exists y, P x y) -> exists ys, Forall2 P l ys.
Proof.
  induction l as [|x l IH]; intros H; [exists []; constructor|].
  destruct (H x) as (y & Hy); [now left|].
  destruct IH as (ys & Hys); [intros; apply H; now right|].
  exists (y :: ys). now constructor.
Qed.

Section Cloud.
  Context (lds : list ldep) (us : list f64).
  Hypothesis Hd : forall d l, In (d, l) lds -> d_tb d < 2 ^ 26 /\ 0 <= d_pad d < 2 ^ 26.
  Let pts := lpost_all lds [].
  Hypothesis Hl : length us = length pts.
  Hypothesis Hu : Forall unit_draw us.

  Lemma same_cell d l tb pad : In (d, l) lds -> 0 <= tb < 2 ^ 26 -> 0 <= pad < 2 ^ 26 ->
    (pair (d_tb d) (d_pad d) =? pair tb pad) = (d_tb d =? tb) && (d_pad d =? pad).
  Proof.
    intros Hi Ht Hp. destruct (Hd d l Hi) as (T & P).
    destruct (Z.ltb_spec (d_tb d) 0) as [Neg|Pos].
    - rewrite (pair_negative (d_tb d)) by auto. rewrite (pair_nowrap tb) by lia.
      replace (d_tb d =? tb) with false by lia. apply Z.eqb_neq.
      destruct (pad <=? tb); nia.
    - destruct (Z.eqb_spec (pair (d_tb d) (d_pad d)) (pair tb pad)) as [E|E].
      + apply pair_inj_nowrap in E as [-> ->]; lia.
      + destruct (Z.eqb_spec (d_tb d) tb) as [E1|], (Z.eqb_spec (d_pad d) pad) as [E2|]; try reflexivity.
        exfalso. apply E. congruence.
  Qed.

  Lemma ldue_collected tb pad : 0 <= tb < 2 ^ 26 -> 0 <= pad < 2 ^ 26 ->
    ldue (pair tb pad) lds = collected tb pad lds.
  Proof.
    intros Ht Hp. unfold ldue, due, collected. rewrite filter_map, map_map. f_equal. f_equal.
    apply filter_ext_in. intros [d l] Hi. cbn [fst]. now apply (same_cell d l).
  Qed.

  Lemma last_label_last_on tb pad l : 0 <= tb < 2 ^ 26 -> 0 <= pad < 2 ^ 26 ->
    last_label (pair tb pad) lds = Some l -> last_on tb pad lds l.
  Proof.
    intros Ht Hp.
    assert (S : forall d' l', In (d', l') lds ->
      (pair (d_tb d') (d_pad d') = pair tb pad <-> d_tb d' = tb /\ d_pad d' = pad)).
    { intros d' l' Hi. pose proof (same_cell d' l' tb pad Hi Ht Hp) as E.
      rewrite <- Z.eqb_eq, E, andb_true_iff, !Z.eqb_eq. reflexivity. }
    clear Hd pts Hl. induction lds as [|[d l1] rest IH]; cbn [last_label]; [discriminate|].
    destruct (last_label (pair tb pad) rest) as [l'|] eqn:E.
    - intros [= ->]. destruct IH as (b & d0 & a & -> & H); [|reflexivity|].
      { intros; eapply S; right; eauto. }
      exists ((d, l1) :: b), d0, a. split; [reflexivity|exact H].
    - destruct (Z.eqb_spec (pair (d_tb d) (d_pad d)) (pair tb pad)) as [E1|]; [|discriminate].
      intros [= ->]. exists [], d, rest. split; [reflexivity|].
      apply (S d l) in E1 as [-> ->]; [|now left]. repeat split; auto.
      intros d' l' Hi Hc. apply last_label_none in E. apply E.
      exists d'. split; [apply (in_map fst _ _ Hi)|]. apply (S d' l'); [now right|exact Hc].
  Qed.

  Lemma entry_cell k c l u : In ((k, (c, l)), u) (kept pts us) ->
    exists tb pad, 0 <= tb <= 511 /\ 0 <= pad < 2 ^ 26 /\ k = pair tb pad /\
      is_point_of lds (tb, pad, u) (pt_of ((k, (c, l)), u)) l /\
      is_finite (p_tb (pt_of ((k, (c, l)), u))) = true /\
      (0 <= R64 (p_tb (pt_of ((k, (c, l)), u))) < 512)%R.
  Proof.
    unfold kept. rewrite filter_In. intros [Hi Hw].
    pose proof (in_combine_l _ _ _ _ Hi) as Hk. pose proof (in_combine_r _ _ _ _ Hi) as Hu'.
    rewrite Forall_forall in Hu. specialize (Hu u Hu').
    assert (Hn : NoDup (map fst pts)) by (apply lpost_all_nodup; constructor).
    pose proof (in_dget Z.eqb Zeqb_spec pts k (c, l) Hn Hk) as Hg.
    fold (pget pts k) in Hg. unfold pts in Hg. rewrite lpost_all_get in Hg.
    destruct (last_label k lds) as [l'|] eqn:El; [|discriminate Hg].
    injection Hg as Ec0 ->. assert (Ec : wrap64 (ldue k lds) = c) by (rewrite <- Ec0; reflexivity). clear Ec0.
    assert (Ht : ltouches k lds) by (apply last_label_touch; eauto).
    destruct Ht as (d & Hd1 & Ek). apply in_map_iff in Hd1 as ([d' l'] & E & Hd1). cbn in E. subst d'.
    destruct (Hd d l' Hd1) as (T & P).
    unfold pt_of in *. cbn [fst snd p_tb] in *.
    destruct (Z.ltb_spec (d_tb d) 0) as [Neg|Pos].
    { exfalso. rewrite pair_negative in Ek by auto. subst k.
      destruct (smear_minus_one u Hu) as (F & L). change (unpair (-1)) with (f_of_Z (-1), f_of_Z (-1)) in Hw.
      cbn [fst snd] in Hw. apply in_window_spec in Hw; [|exact F]. cbn [p_tb] in Hw. lra. }
    exists (d_tb d), (d_pad d). subst k. rewrite unpair_pair in * by lia. cbn [fst snd] in *.
    destruct (smear_bounds (d_tb d) u ltac:(lia) Hu) as (F & L & U).
    apply in_window_spec in Hw; [|exact F]. cbn [p_tb] in Hw.
    split; [split; [exact Pos|]|].
    { apply Z.lt_succ_r. apply lt_IZR. apply Rle_lt_trans with (1 := L). exact (proj2 Hw). }
    split; [exact P|]. split; [reflexivity|]. split; [|split; [exact F|exact Hw]].
    cbn [is_point_of]. split; [exact Hu|]. split.
    - now rewrite <- Ec, ldue_collected by lia.
    - apply last_label_last_on; [lia|lia|exact El].
  Qed.

  Lemma cloud_cells : exists cells : list (Z * Z * f64),
    NoDup (map fst cells) /\
    Forall2 (fun cell eu => is_point_of lds cell (pt_of eu) (lab_of eu)) cells (kept pts us) /\
    (forall tb pad u, In (tb, pad, u) cells -> 0 <= tb <= 511 /\ 0 <= pad) /\
    (forall d l, In (d, l) lds -> 0 <= d_tb d <= 510 -> exists u, In (d_tb d, d_pad d, u) cells).
  Proof.
    destruct (Forall_choose (fun eu (cell : Z * Z * f64) =>
       let '(tb, pad, u) := cell in
       0 <= tb <= 511 /\ 0 <= pad < 2 ^ 26 /\ fst (fst eu) = pair tb pad /\ u = snd eu /\
       is_point_of lds cell (pt_of eu) (lab_of eu)) (kept pts us)) as (cells & Hc).
    { intros [[k [c l]] u] Hi. destruct (entry_cell k c l u Hi) as (tb & pad & A & B & C & D & _).
      exists (tb, pad, u). cbn [fst snd].
      split; [exact A|]. split; [exact B|]. split; [exact C|]. split; [reflexivity|exact D]. }
    exists cells. split; [|split; [|split]].
    - assert (Hn : NoDup (map (fun eu => fst (fst eu)) (kept pts us))).
      { apply nodup_kept; [apply lpost_all_nodup; constructor|exact Hl]. }
      clear - Hc Hn. induction Hc as [|eu [[tb pad] u] l m H Hr IH]; cbn [map]; [constructor|].
      cbn [map] in Hn. inversion Hn as [|? ? N1 N2]; subst. constructor; [|auto].
      intros Hi. apply N1. apply in_map_iff in Hi as ([[tb' pad'] u'] & E & Hi). cbn [fst] in E.
      injection E as -> ->. destruct H as (_ & _ & E & _). rewrite E.
      clear - Hr Hi. induction Hr as [|e1 [[t1 p1] u1] l m H Hr IH]; [destruct Hi|].
      destruct Hi as [[= -> -> ->]|Hi].
      + left. apply H.
      + right. now apply IH.
    - clear - Hc. induction Hc as [|eu [[tb pad] u] l m H Hr IH]; constructor; [apply H|exact IH].
    - clear - Hc. intros tb pad u Hi. induction Hc as [|eu [[tb' pad'] u'] l m H Hr IH]; [destruct Hi|].
      destruct Hi as [[= -> -> ->]|Hi]; [destruct H as (A & B & _); lia|now apply IH].
    - intros d l Hi Ht. destruct (Hd d l Hi) as (_ & P).
      set (k := pair (d_tb d) (d_pad d)).
      assert (Hk : In k (map fst pts)).
      { apply lpost_all_keys. right. exists d. split; [apply (in_map fst _ _ Hi)|reflexivity]. }
      rewrite <- (combine_map_fst pts us (eq_sym Hl)), map_map in Hk.
      apply in_map_iff in Hk as ([[k' [c l']] u] & E & Hin). cbn [fst] in E. subst k'.
      assert (Hku : unit_draw u).
      { rewrite Forall_forall in Hu. apply Hu. eapply in_combine_r; eauto. }
      assert (Hkept : In ((k, (c, l')), u) (kept pts us)).
      { apply filter_In. split; [exact Hin|]. unfold pt_of, k. cbn [fst snd].
        rewrite unpair_pair by lia. cbn [fst snd].
        destruct (smear_bounds (d_tb d) u ltac:(lia) Hku) as (F & L & U).
        apply in_window_spec; [exact F|]. cbn [p_tb]. split.
        - apply Rle_trans with (2 := L). apply (IZR_le 0). lia.
        - apply Rle_lt_trans with (1 := U). apply (IZR_lt _ 512). lia. }
      clear - Hc Hkept Ht P.
      induction Hc as [|eu [[tb' pad'] u'] l m H Hr IH]; [destruct Hkept|].
      destruct Hkept as [->|Hk].
      + exists u'. left. destruct H as (A & B & C & _). cbn [fst] in C.
        symmetry in C. unfold k in C. apply pair_inj_nowrap in C as [-> ->]; try lia. reflexivity.
      + destruct (IH Hk) as (u0 & Hu0). exists u0. now right.
  Qed.
End Cloud.

Lemma py_index_in {A} (l : list A) i a : py_index l i = Ok a -> In a l.
Proof.
  unfold py_index. destruct (_ && _); [|discriminate].
  destruct (nth_error l _) as [x|] eqn:E; [|discriminate]. intros [= <-].
  eapply nth_error_In; eauto.
Qed.

Section Final.
  Context (fexp : f64 -> f64) {G Nuc Mom Vtx Vel : Type}.
  Notation config := (config fexp).
  Notation traj := (@traj Vel).
  Context (get_data : Z -> Z -> res Nuc)
    (generate_trajectory : Vtx -> Mom -> Nuc -> config -> res (list traj))
    (generate_electrons : list traj -> Nuc -> config -> G -> list Z * G)
    (uniform : nat -> G -> list f64 * G).
  Context (momenta : list Mom) (vertex : Vtx) (zs ms : list Z) (c : config).

  Let trk := tracks fexp get_data generate_trajectory generate_electrons momenta vertex zs ms c.

  (** Every transported nucleus was requested and is charged; its rows are trajectory rows. *)
  Lemma tracks_in indices rng l rng' : trk indices rng l rng' ->
    forall tr el lab, In (tr, el, lab) l ->
      In lab indices /\ (exists z, py_index zs lab = Ok z /\ z <> 0) /\
      exists p nuc track, In p momenta /\ generate_trajectory vertex p nuc c = Ok track /\
        forall r, In r tr -> exists t, In t track /\ r = to_row fexp c t.
  Proof.
    induction 1 as [| i rest g l g' Hz H IH | i rest g z a nuc p track els g1 l g' Ez Nz Ea En Ep Et Ee El H IH];
      intros tr el lab Hi.
    - destruct Hi.
    - destruct (IH _ _ _ Hi) as (A & B). split; [now right|exact B].
    - destruct Hi as [E|Hi].
      + injection E as <- <- <-. split; [now left|]. split; [eauto|].
        exists p, nuc, track. split; [eapply py_index_in; eauto|]. split; [exact Et|].
        intros r Hr. apply in_map_iff in Hr as ([t e] & <- & Ht). exists t. split; [|reflexivity].
        unfold ionising in Ht. apply filter_In in Ht as [Ht _]. eapply in_combine_l; eauto.
      + destruct (IH _ _ _ Hi) as (A & B). split; [now right|exact B].
  Qed.

  Context (g : grid) (ge : edges (F64 fexp)).
  Hypothesis (Hg : c_grid fexp c = Some g) (He : c_edges fexp c = Some ge).

  Lemma simulate_iff rng indices cloud labels rng' :
    simulate fexp get_data generate_trajectory generate_electrons uniform
      momenta vertex zs ms c rng indices = Ok ((cloud, labels), rng') <->
    exists l rng1 lds us,
      trk indices rng l rng1 /\
      event_ledger (N := F64 fexp) g ge (c_diffusion fexp c) (c_efield fexp c) (c_drift fexp c) l lds /\
      uniform (length (lpost_all lds [])) rng1 = (us, rng') /\
      let w := wiggle (fst (dict_to_points (lpost_all lds []))) us in
      cloud = select (map in_window w) w /\
      labels = select (map in_window w) (snd (dict_to_points (lpost_all lds []))).
  Proof.
    unfold simulate.
    pose proof (loop_iff fexp get_data generate_trajectory generate_electrons momenta vertex zs ms c g ge
                  Hg He indices [] rng) as L. cbv zeta in L.
    assert (Len : forall pts : points, length (fst (dict_to_points pts)) = length pts)
      by (intros; unfold dict_to_points; cbn [fst]; apply map_length).
    split.
    - destruct (foldM (simulate_nucleus fexp get_data generate_trajectory generate_electrons
                        momenta vertex zs ms c) indices ([], rng)) as [[pts rng1]|e] eqn:E;
        [|discriminate]. cbn [bind].
      apply L in E as (l & Hl & E). apply transport_all_iff in E as (lds & Hlds & ->).
      specialize (Len (lpost_all lds [])).
      destruct (dict_to_points (lpost_all lds [])) as [pa la] eqn:Ed. cbn [fst snd] in *.
      destruct (uniform (length pa) rng1) as [us rng2] eqn:Eu. intros [= <- <- <-].
      exists l, rng1, lds, us. rewrite <- Len, Eu, Ed. repeat split; auto.
    - intros (l & rng1 & lds & us & Hl & Hlds & Eu & Ew).
      assert (E : transport_all (N := F64 fexp) g ge (c_diffusion fexp c) (c_efield fexp c) (c_drift fexp c)
                    l [] = Ok (lpost_all lds [])) by (apply transport_all_iff; eauto).
      pose proof (proj2 (L _ _) (ex_intro _ l (conj Hl E))) as F.
      match goal with |- bind ?m _ = _ => replace m with (Ok (lpost_all lds [], rng1)) by (symmetry; exact F) end.
      cbn [bind].
      specialize (Len (lpost_all lds [])).
      destruct (dict_to_points (lpost_all lds [])) as [pa la] eqn:Ed. cbn [fst snd] in *.
      rewrite Len, Eu. destruct Ew as [-> ->]. reflexivity.
  Qed.

  (** Deposits: near, on real non-beam pads of the grid, with labels of charged nuclei. *)
  Lemma deposits_ok indices rng l rng1 lds d lab :
    trk indices rng l rng1 ->
    event_ledger (N := F64 fexp) g ge (c_diffusion fexp c) (c_efield fexp c) (c_drift fexp c) l lds ->
    In (d, lab) lds ->
    (In lab indices /\ exists z, py_index zs lab = Ok z /\ z <> 0) /\
    (near fexp generate_trajectory momenta vertex c -> d_tb d < 2 ^ 26) /\
    d_pad d <> -1 /\ ~ In (d_pad d) BEAM_PADS /\
    exists i j, 0 <= i < gr_rows g /\ 0 <= j < gr_cols g /\ gr_cell g i j = d_pad d.
  Proof.
    intros Ht Hl Hi. destruct (event_ledger_in _ _ _ _ _ _ _ _ _ Hl Hi) as (tr & el & ds & H1 & H2 & H3).
    destruct (tracks_in _ _ _ _ Ht _ _ _ H1) as (A & B & p & nuc & track & P1 & P2 & P3).
    split; [split; [exact A|exact B]|].
    pose proof (track_ledger_good _ _ _ _ _ _ _ _ H2) as Gd. rewrite Forall_forall in Gd.
    pose proof (track_ledger_tb _ _ _ _ _ _ _ _ H2) as Bd. rewrite Forall_forall in Bd.
    destruct (Gd _ H3) as (G1 & G2 & G3). destruct (Bd _ H3) as (r & B1 & B2).
    split; [|tauto].
    intros Hn. destruct (P3 r B1) as (t & T1 & ->). exact (Hn p nuc track t (d_tb d) P1 P2 T1 B2).
  Qed.
End Final.
