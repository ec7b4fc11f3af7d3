(** P_Simulator.v -- properties C16-C19: the point cloud returned by [simulate]. *)
From Coq Require Import ZArith Reals Lia Lra.
From Flocq Require Import Core BinarySingleNaN.
From Verif Require Import Base F64 F64Bounds Num Pairing PairingProofs BeamPads Transporter
  SpecTransport TransportProofs Simulator SpecSim SimulatorProofs TransportF64 P_TransportF64.
Local Open Scope Z_scope.

Section Theorems.
  (** Everything the model leaves arbitrary: exp, nuclear data, trajectories, random numbers. *)
  Context (fexp : f64 -> f64) {G Nuc Mom Vtx Vel : Type}.
  Context (get_data : Z -> Z -> res Nuc)
    (generate_trajectory : Vtx -> Mom -> Nuc -> config fexp -> res (list (@traj Vel)))
    (generate_electrons : list (@traj Vel) -> Nuc -> config fexp -> G -> list Z * G)
    (uniform : nat -> G -> list f64 * G).

  Notation sim := (simulate fexp get_data generate_trajectory generate_electrons uniform).
  Notation tracks_of := (tracks fexp get_data generate_trajectory generate_electrons).

  (** C17: the cloud is exactly the collected charge, one point per pad and time bucket.
      The deposits are those of the tracks of the requested charged nuclei. *)
  Theorem C17_one_point_per_cell :
    forall momenta vertex zs ms (c : config fexp) rng indices g ge cloud labels rng',
    c_grid fexp c = Some g -> c_edges fexp c = Some ge ->
    (forall i j, -1 <= gr_cell g i j < 2 ^ 26) ->
    near fexp generate_trajectory momenta vertex c -> draws_ok uniform ->
    sim momenta vertex zs ms c rng indices = Ok ((cloud, labels), rng') ->
    exists l rng1 lds cells,
      tracks_of momenta vertex zs ms c indices rng l rng1 /\
      event_ledger (N := F64 fexp) g ge (c_diffusion fexp c) (c_efield fexp c) (c_drift fexp c) l lds /\
      length cloud = length labels /\
      NoDup (map fst cells) /\
      Forall2 (fun cell pl => is_point_of lds cell (fst pl) (snd pl)) cells (combine cloud labels) /\
      (forall tb pad u, In (tb, pad, u) cells -> 0 <= tb <= 511 /\ 0 <= pad) /\
      (forall d lab, In (d, lab) lds -> 0 <= d_tb d <= 510 -> exists u, In (d_tb d, d_pad d, u) cells).
  Proof.
    intros momenta vertex zs ms c rng indices g ge cloud labels rng' Hg He Hp Hn Hu H.
    apply (simulate_iff _ _ _ _ _ _ _ _ _ _ g ge Hg He) in H
      as (l & rng1 & lds & us & Ht & Hl & Eu & Ew).
    destruct (Hu (length (lpost_all lds [])) rng1) as (Lu & Fu). rewrite Eu in Lu, Fu. cbn [fst] in Lu, Fu.
    assert (Hd : forall d lab, In (d, lab) lds -> d_tb d < 2 ^ 26 /\ 0 <= d_pad d < 2 ^ 26).
    { intros d lab Hi.
      destruct (deposits_ok fexp get_data generate_trajectory generate_electrons momenta vertex zs ms c
                  g ge indices rng l rng1 lds d lab Ht Hl Hi)
        as (_ & T & N1 & _ & i & j & _ & _ & E).
      specialize (T Hn). specialize (Hp i j). rewrite E in Hp. lia. }
    destruct (cloud_cells lds us Hd Lu Fu) as (cells & C1 & C2 & C3 & C4).
    destruct (cloud_kept (lpost_all lds []) us Lu) as (K1 & K2). cbv zeta in *.
    destruct Ew as [Ec El]. rewrite K1 in Ec. rewrite K2 in El. clear K1 K2.
    exists l, rng1, lds, cells. split; [exact Ht|]. split; [exact Hl|].
    split; [subst; now rewrite !map_length|]. split; [exact C1|].
    split; [|split; [exact C3|exact C4]].
    subst cloud labels. clear - C2. induction C2 as [|x y l m H1 H2 IH]; constructor; auto.
  Qed.

  (** C16: shape of the cloud. *)
  Theorem C16_cloud_shape :
    forall momenta vertex zs ms (c : config fexp) rng indices g ge cloud labels rng',
    c_grid fexp c = Some g -> c_edges fexp c = Some ge ->
    (forall i j, -1 <= gr_cell g i j < 2 ^ 26) ->
    near fexp generate_trajectory momenta vertex c -> draws_ok uniform ->
    sim momenta vertex zs ms c rng indices = Ok ((cloud, labels), rng') ->
    length cloud = length labels /\
    forall p, In p cloud ->
      (exists pad i j, p_pad p = f_of_Z pad /\ 0 <= i < gr_rows g /\ 0 <= j < gr_cols g /\
         gr_cell g i j = pad /\ pad <> -1 /\ ~ In pad BEAM_PADS) /\
      is_finite (p_tb p) = true /\ (0 <= R64 (p_tb p) < 512)%R.
  Proof.
    intros momenta vertex zs ms c rng indices g ge cloud labels rng' Hg He Hp Hn Hu H.
    pose proof H as H'. apply (simulate_iff _ _ _ _ _ _ _ _ _ _ g ge Hg He) in H'
      as (_ & rng0 & lds0 & us0 & _ & _ & Eu & Ew & _).
    destruct (C17_one_point_per_cell _ _ _ _ _ _ _ _ _ _ _ _ Hg He Hp Hn Hu H)
      as (l & rng1 & lds & cells & Ht & Hl & Len & _ & F & C3 & _).
    split; [exact Len|]. intros p Hi.
    assert (Hex : exists cell lab, In cell cells /\ is_point_of lds cell p lab).
    { clear - F Hi Len. revert labels cells F Len. induction cloud as [|q cloud IH]; [destruct Hi|].
      intros [|b labels] cells F Len; [discriminate|]. cbn [combine] in F.
      inversion F as [|cell pl cs rest H1 H2]; subst. destruct Hi as [->|Hi].
      - exists cell, b. split; [now left|exact H1].
      - destruct (IH Hi labels cs H2 ltac:(cbn in Len; lia)) as (c1 & lb & A & B).
        exists c1, lb. split; [now right|exact B]. }
    destruct Hex as ([[tb pad] u] & lab & Hc & Hpt).
    cbn [is_point_of] in Hpt. destruct Hpt as (Hu1 & -> & b & d & a & E & Et & Epd & _).
    destruct (C3 _ _ _ Hc) as (Bt & Bp).
    assert (Hd : In (d, lab) lds) by (rewrite E; apply in_or_app; right; now left).
    destruct (deposits_ok fexp get_data generate_trajectory generate_electrons momenta vertex zs ms c
                g ge indices rng l rng1 lds d lab Ht Hl Hd)
      as (_ & _ & N1 & N2 & i & j & Hi1 & Hj1 & Eg).
    subst tb pad. split; [|cbn [p_tb]].
    - exists (d_pad d), i, j. cbn [p_pad]. repeat split; auto; lia.
    - destruct (smear_bounds (d_tb d) u ltac:(lia) Hu1) as (Fin & _ & _). split; [exact Fin|].
      rewrite Ew in Hi.
      assert (Hw : forall (w : list point) q, In q (select (map in_window w) w) -> in_window q = true).
      { intros w q Hq. rewrite <- (map_id w) in Hq at 2.
        rewrite select_map_filter, map_id in Hq. now apply filter_In in Hq. }
      apply Hw in Hi. apply in_window_spec in Hi; [exact Hi|exact Fin].
  Qed.

  (** The charge of a point is exact as long as it is at most 2^53 electrons. *)
  Theorem C17_exact_charge :
    forall lds tb pad u p lab, is_point_of lds (tb, pad, u) p lab ->
    Z.abs (collected tb pad lds) <= 2 ^ 53 -> R64 (p_el p) = IZR (collected tb pad lds).
  Proof.
    intros lds tb pad u p lab (_ & -> & _) H. cbn [p_el].
    rewrite wrap64_id by (unfold two63; lia). now apply f_of_Z_R.
  Qed.

  (** Without a loaded pad grid every request with a charged nucleus is refused, unless
      something raises earlier. *)
  Theorem C16_grid_required :
    forall momenta vertex zs ms (c : config fexp) rng indices,
    c_grid fexp c = None \/ c_edges fexp c = None ->
    (exists i z, In i indices /\ py_index zs i = Ok z /\ z <> 0) ->
    is_ok (sim momenta vertex zs ms c rng indices) = false.
  Proof.
    intros momenta vertex zs ms c rng indices Hc (i & z & Hi & Ez & Nz). unfold simulate.
    assert (L : forall s, is_ok (foldM (simulate_nucleus fexp get_data generate_trajectory
                  generate_electrons momenta vertex zs ms c) indices s) = false).
    { induction indices as [|j rest IH]; [destruct Hi|]. intros [pts g]. cbn [foldM].
      destruct (simulate_nucleus fexp get_data generate_trajectory generate_electrons momenta vertex
                  zs ms c (pts, g) j) as [s'|e] eqn:Es; cbn [bind]; [|reflexivity].
      destruct Hi as [->|Hi]; [|now apply IH]. exfalso.
      unfold simulate_nucleus in Es. rewrite Ez in Es. cbn [bind] in Es.
      destruct (Z.eqb_spec z 0); [contradiction|]. cbn [bind] in Es.
      destruct (py_index ms i); [|discriminate]. cbn [bind] in Es.
      destruct (get_data z a); [|discriminate]. cbn [bind] in Es.
      destruct (py_index momenta i); [|discriminate]. cbn [bind] in Es.
      unfold generate_point_cloud in Es.
      destruct (generate_trajectory vertex a1 a0 c); [|discriminate]. cbn [bind] in Es.
      destruct (generate_electrons a2 a0 c g) as [els g1].
      destruct (negb _); [discriminate|].
      destruct Hc as [Hc|Hc]; rewrite Hc in Es; destruct (c_edges fexp c) in Es; discriminate. }
    specialize (L ([], rng)).
    destruct (foldM (simulate_nucleus fexp get_data generate_trajectory
                  generate_electrons momenta vertex zs ms c) indices ([], rng)) as [[p r]|e];
      [discriminate|reflexivity].
  Qed.

  (** C18: labels are requested indices of nuclei with non-zero proton number. *)
  Theorem C18_labels_are_requested_charged_nuclei :
    forall momenta vertex zs ms (c : config fexp) rng indices g ge cloud labels rng',
    c_grid fexp c = Some g -> c_edges fexp c = Some ge -> draws_ok uniform ->
    sim momenta vertex zs ms c rng indices = Ok ((cloud, labels), rng') ->
    forall lab, In lab labels -> In lab indices /\ exists z, py_index zs lab = Ok z /\ z <> 0.
  Proof.
    intros momenta vertex zs ms c rng indices g ge cloud labels rng' Hg He Hu H lab Hi.
    apply (simulate_iff _ _ _ _ _ _ _ _ _ _ g ge Hg He) in H
      as (l & rng1 & lds & us & Ht & Hl & Eu & Ew).
    destruct (Hu (length (lpost_all lds [])) rng1) as (Lu & Fu). rewrite Eu in Lu. cbn [fst] in Lu.
    destruct (cloud_kept (lpost_all lds []) us Lu) as (_ & K2). cbv zeta in *.
    destruct Ew as [_ El]. rewrite K2 in El. subst labels.
    apply in_map_iff in Hi as ([[k [ch lb]] u] & <- & Hi). cbn [lab_of fst snd].
    apply filter_In in Hi as [Hi _]. apply in_combine_l in Hi.
    assert (Hn : NoDup (map fst (lpost_all lds []))) by (apply lpost_all_nodup; constructor).
    pose proof (in_dget Z.eqb Zeqb_spec _ k (ch, lb) Hn Hi) as Hd.
    fold (pget (lpost_all lds []) k) in Hd. rewrite lpost_all_get in Hd.
    destruct (last_label k lds) as [l'|] eqn:Ell; [|discriminate Hd]. injection Hd as _ ->.
    assert (Hd : exists d, In (d, lb) lds).
    { clear - Ell. induction lds as [|[d l1] rest IH]; [discriminate|]. cbn [last_label] in Ell.
      destruct (last_label k rest) as [l2|].
      - injection Ell as ->. destruct IH as (d' & Hd'); [reflexivity|]. exists d'. now right.
      - destruct (_ =? k) in Ell; [|discriminate]. injection Ell as ->. exists d. now left. }
    destruct Hd as (d & Hd).
    destruct (deposits_ok fexp get_data generate_trajectory generate_electrons momenta vertex zs ms c
                g ge indices rng l rng1 lds d lb Ht Hl Hd) as (A & _). exact A.
  Qed.

  (** Neutral nuclei in the request have no effect at all (result, exception, random state). *)
  Definition is_neutral (zs : list Z) (i : Z) : bool :=
    match py_index zs i with Ok 0 => true | _ => false end.

  Theorem C18_neutral_nuclei_have_no_effect :
    forall momenta vertex zs ms (c : config fexp) rng indices,
    sim momenta vertex zs ms c rng indices =
    sim momenta vertex zs ms c rng (filter (fun i => negb (is_neutral zs i)) indices).
  Proof.
    intros momenta vertex zs ms c rng indices. unfold simulate.
    set (f := simulate_nucleus fexp get_data generate_trajectory generate_electrons momenta vertex zs ms c).
    assert (E : forall l s, foldM f l s = foldM f (filter (fun i => negb (is_neutral zs i)) l) s).
    { induction l as [|i l IH]; intros [pts g]; [reflexivity|]. cbn [filter].
      unfold is_neutral at 1. destruct (py_index zs i) as [[|z|z]|e] eqn:Ez; cbn [negb].
      - cbn [foldM]. unfold f at 1, simulate_nucleus. rewrite Ez. cbn [bind Z.eqb].
        rewrite <- IH. reflexivity.
      - cbn [foldM]. destruct (f (pts, g) i); cbn [bind]; auto.
      - cbn [foldM]. destruct (f (pts, g) i); cbn [bind]; auto.
      - cbn [foldM]. destruct (f (pts, g) i); cbn [bind]; auto. }
    now rewrite (E indices).
  Qed.

  (** Only charged: a request of neutral nuclei (even repeated) gives an empty cloud. *)
  Theorem C18_all_neutral_is_empty :
    forall momenta vertex zs ms (c : config fexp) rng indices,
    (forall i, In i indices -> py_index zs i = Ok 0) ->
    sim momenta vertex zs ms c rng indices = Ok (([], []), snd (uniform 0 rng)).
  Proof.
    intros momenta vertex zs ms c rng indices H. rewrite C18_neutral_nuclei_have_no_effect.
    replace (filter _ indices) with (@nil Z).
    - unfold simulate. cbn. destruct (uniform 0 rng) as [us r]. reflexivity.
    - symmetry. induction indices as [|i l IH]; [reflexivity|]. cbn [filter].
      unfold is_neutral at 1. rewrite (H i) by now left. cbn [negb]. apply IH. intros; apply H; now right.
  Qed.
End Theorems.

(** C19: smearing in binary64. *)
Theorem C19_smearing :
  forall (tb : Z) (u : f64) (pad el : f64), 0 <= tb < 2 ^ 26 -> unit_draw u ->
  let t := fadd (f_of_Z tb) u in
  is_finite t = true /\ (IZR tb <= R64 t <= IZR (tb + 1))%R /\
  (512 <= tb -> in_window (mkPoint pad t el) = false) /\
  (tb <= 510 -> in_window (mkPoint pad t el) = true) /\
  (tb = 511 -> (R64 u <= 1 - bpow radix2 (-44))%R -> in_window (mkPoint pad t el) = true).
Proof.
  intros tb u pad el Ht Hu t. destruct (smear_bounds tb u ltac:(lia) Hu) as (F & L & U).
  fold t in F, L, U. split; [exact F|]. split; [now split|]. split; [|split].
  - intros H. destruct (in_window _) eqn:E; [|reflexivity]. exfalso.
    apply in_window_spec in E; [|exact F]. cbn [p_tb] in E.
    apply IZR_le in H. lra.
  - intros H. apply in_window_spec; [exact F|]. cbn [p_tb]. split.
    + apply Rle_trans with (2 := L). apply (IZR_le 0). lia.
    + apply Rle_lt_trans with (1 := U). apply (IZR_lt _ 512). lia.
  - intros -> Hub. apply in_window_spec; [exact F|]. cbn [p_tb]. split; [lra|].
    destruct Hu as (Fu & Lu & _). unfold t.
    destruct (f_of_Z_correct 511 ltac:(lia)) as (Rt & Ft & _).
    destruct (fadd_fin (f_of_Z 511) u 10 Ft Fu ltac:(lia)) as (R & _).
    { rewrite Rt. change (bpow radix2 10) with 1024%R.
      assert (0 < bpow radix2 (-44))%R by apply bpow_gt_0. apply Rabs_le. lra. }
    rewrite R, Rt. apply Rle_lt_trans with (512 - bpow radix2 (-44))%R.
    + apply rnd64_le_fmt; [|lra]. apply generic_format_FLT.
      exists (Float radix2 (2 ^ 53 - 1) (-44)).
      * unfold F2R. cbn [Fnum Fexp]. rewrite minus_IZR, IZR_pow2 by lia.
        rewrite Rmult_minus_distr_r. rewrite <- bpow_plus. cbn -[bpow]. ring_simplify.
        change (bpow radix2 9) with 512%R. reflexivity.
      * cbn. lia.
      * unfold SpecFloat.emin, emax64, prec64. cbn. lia.
    + pose proof (bpow_gt_0 radix2 (-44)). lra.
Qed.

(** ... pooled negative-time charge is always dropped ... *)
Theorem C19_negative_times_dropped :
  forall (u pad el : f64), unit_draw u -> in_window (mkPoint pad (fadd (fst (unpair (-1))) u) el) = false.
Proof.
  intros u pad el Hu. destruct (smear_minus_one u Hu) as (F & L).
  change (fst (unpair (-1))) with (f_of_Z (-1)).
  destruct (in_window _) eqn:E; [|reflexivity]. exfalso.
  apply in_window_spec in E; [|exact F]. cbn [p_tb] in E. lra.
Qed.

(** ... but the bucket itself is not always preserved: the largest draw below 1 moves bucket 1
    to 2 exactly, and drops a point of bucket 511. *)
Definition u_max : f64 := f_of_ZE (2 ^ 53 - 1) (-53).

Lemma f_of_ZE_correct (m e : Z) : Z.abs m < 2 ^ 53 -> -1074 <= e <= 0 ->
  R64 (f_of_ZE m e) = (IZR m * bpow radix2 e)%R /\ is_finite (f_of_ZE m e) = true.
Proof.
  intros Hm He. unfold f_of_ZE.
  pose proof (binary_normalize_correct prec64 emax64 _ _ mode_NE m e false) as C.
  cbv zeta in C. unfold F2R in C. cbn [Fnum Fexp] in C.
  assert (Fm : fmt64 (IZR m * bpow radix2 e)).
  { apply generic_format_FLT. exists (Float radix2 m e).
    - reflexivity.
    - cbn [Fnum]. change (radix2 ^ prec64)%Z with (2 ^ 53). lia.
    - unfold SpecFloat.emin, emax64, prec64. cbn [Fexp]. lia. }
  cbn [round_mode] in C. rewrite rnd64_fmt in C by exact Fm.
  rewrite Rlt_bool_true in C; [split; apply C|].
  apply Rlt_trans with (bpow radix2 53).
  - rewrite Rabs_mult, (Rabs_pos_eq (bpow radix2 e)) by apply bpow_ge_0.
    assert (B : (bpow radix2 e <= 1)%R) by (change 1%R with (bpow radix2 0); apply bpow_le; lia).
    assert (A : (Rabs (IZR m) < bpow radix2 53)%R).
    { rewrite <- abs_IZR, <- IZR_pow2 by lia. now apply IZR_lt. }
    pose proof (Rabs_pos (IZR m)). pose proof (bpow_ge_0 radix2 e). nra.
  - apply bpow_lt. reflexivity.
Qed.

Lemma u_max_ok : unit_draw u_max.
Proof.
  destruct (f_of_ZE_correct (2 ^ 53 - 1) (-53) ltac:(lia) ltac:(lia)) as (E & F).
  split; [exact F|]. unfold u_max. rewrite E.
  rewrite minus_IZR, IZR_pow2 by lia. rewrite Rmult_minus_distr_r, <- bpow_plus.
  change (53 + -53) with 0. change (bpow radix2 0) with 1%R.
  pose proof (bpow_gt_0 radix2 (-53)).
  assert (bpow radix2 (-53) < bpow radix2 0)%R by (apply bpow_lt; lia).
  change (bpow radix2 0) with 1%R in *. lra.
Qed.

Theorem C19_bucket_not_preserved_refuted :
  exists u, unit_draw u /\ R64 (fadd (f_of_Z 1) u) = 2%R /\
    forall pad el, in_window (mkPoint pad (fadd (f_of_Z 511) u) el) = false.
Proof.
  exists u_max. split; [exact u_max_ok|]. split.
  - replace (fadd (f_of_Z 1) u_max) with (f_of_Z 2); [now apply f_of_Z_R|].
    apply same64_eq. vm_compute. reflexivity.
  - intros pad el. vm_compute. reflexivity.
Qed.

(** A concrete event: nuclei 0..3 with proton numbers 1, 2, 2, 0; nuclei 2, 3 and 1 are
    requested; a one-pad grid (pad 300), no diffusion, gain 10; every nucleus leaves three rows,
    at z = 0.5 (time 256), z = -1 (time 1024, outside the window) and z = 0.5 without electrons. *)
Section Example.
  Context (fexp : f64 -> f64).
  Definition ex_grid (pad : Z) : grid := mkGrid 1 1 (fun _ _ => pad).
  Definition ex_edges : edges (F64 fexp) := @mkEdges (F64 fexp) (f_of_Z 0) (f_of_Z 2) (f_of_Z 1).
  Definition ex_config (len dv : f64) : config fexp :=
    mkConfig fexp len (f_of_Z 1) (f_of_Z 0) dv 10 0 (Some (ex_grid 300)) (Some ex_edges).
  Definition half : f64 := f_of_ZE 1 (-1).
  Definition ex_traj (v : unit) (m : Z) (n : Z) (c : config fexp) : res (list (@traj unit)) :=
    Ok [mkTraj (f_of_Z 0) (f_of_Z 0) half tt; mkTraj (f_of_Z 0) (f_of_Z 0) (f_of_Z (-1)) tt;
        mkTraj (f_of_Z 0) (f_of_Z 0) half tt].
  Definition ex_electrons (t : list (@traj unit)) (n : Z) (c : config fexp) (g : Z) : list Z * Z :=
    ([n; 7; 0], g + 1).
  Definition ex_uniform (n : nat) (g : Z) : list f64 * Z := (repeat half n, g + 1).
  Definition ex_sim := simulate fexp (fun z a => Ok (100 * z + a)) ex_traj ex_electrons ex_uniform.

  Lemma half_ok : unit_draw half.
  Proof.
    destruct (f_of_ZE_correct 1 (-1) ltac:(lia) ltac:(lia)) as (E & F).
    split; [exact F|]. unfold half. rewrite E. change (bpow radix2 (-1)) with (/ 2)%R. lra.
  Qed.

  (** Readable form of a result: (pad, 2 * time, electrons) of every point, labels, state. *)
  Definition view (r : res ((list point * list Z) * Z)) : option (list (option Z * option Z * option Z) * list Z * Z) :=
    match r with
    | Ok ((cloud, labels), g) =>
        Some (map (fun p => (f_to_Z (p_pad p), f_to_Z (fmul (f_of_Z 2) (p_tb p)), f_to_Z (p_el p))) cloud, labels, g)
    | Err _ => None
    end.

  Example C16_C17_C18_example :
    near fexp ex_traj [0; 0; 0; 0] tt (ex_config (f_of_Z 1) (f_of_ZE 1 (-9))) /\
    draws_ok ex_uniform /\
    view (ex_sim [0; 0; 0; 0] tt [1; 2; 2; 0] [1; 3; 4; 1] (ex_config (f_of_Z 1) (f_of_ZE 1 (-9))) 0 [2; 3; 1])
    = Some ([(Some 300, Some 513, Some (10 * (204 + 203)))], [1], 3).
  Proof.
    split; [|split].
    - intros p nuc track t tb _ E Ht Hb.
      assert (Hz : t_z t = half \/ t_z t = f_of_Z (-1)).
      { unfold ex_traj in E. apply (f_equal (fun r => match r with Ok x => x | _ => [] end)) in E.
        cbv beta match in E. rewrite <- E in Ht. destruct Ht as [<-|[<-|[<-|[]]]]; auto. }
      assert (A : f_to_Z (drift_time fexp (ex_config (f_of_Z 1) (f_of_ZE 1 (-9))) half) = Some 256)
        by (vm_compute; reflexivity).
      assert (B : f_to_Z (drift_time fexp (ex_config (f_of_Z 1) (f_of_ZE 1 (-9))) (f_of_Z (-1))) = Some 1024)
        by (vm_compute; reflexivity).
      destruct Hz as [Hz|Hz]; rewrite Hz in Hb; [rewrite A in Hb|rewrite B in Hb];
        injection Hb as <-; reflexivity.
    - intros n g. cbn [ex_uniform fst]. split; [apply repeat_length|].
      apply Forall_forall. intros u Hu. apply repeat_spec in Hu as ->. exact half_ok.
    - vm_compute. reflexivity.
  Qed.

  Example C16_grid_required_example :
    ex_sim [0] tt [1] [1] (mkConfig fexp (f_of_Z 1) (f_of_Z 1) (f_of_Z 0) half 10 0 None (Some ex_edges)) 0 [0]
    = Err ValueError.
  Proof. reflexivity. Qed.

  (** Without the bound on the drift times C16 and C17 are false: at 2^32 time buckets the key
      of (2^32, 300) wraps around int64 and is read back as pad 65536 in bucket 300. *)
  Theorem C16_far_times_refuted :
    exists cloud labels rng' p,
      ex_sim [0] tt [1] [1] (ex_config (fadd (f_of_Z (2 ^ 32)) half) (f_of_Z 1)) 0 [0] = Ok ((cloud, labels), rng') /\
      In p cloud /\ p_pad p = f_of_Z 65536 /\
      (forall i j, gr_cell (ex_grid 300) i j <> 65536).
  Proof.
    assert (Vs : match ex_sim [0] tt [1] [1] (ex_config (fadd (f_of_Z (2 ^ 32)) half) (f_of_Z 1)) 0 [0] with
                 | Ok ((p :: _, _), _) => same64 (p_pad p) (f_of_Z 65536) | _ => false end = true)
      by (vm_compute; reflexivity).
    destruct (ex_sim _ _ _ _ _ _ _) as [[[[|p cloud] labels] g]|e]; try discriminate.
    exists (p :: cloud), labels, g, p. split; [reflexivity|]. split; [now left|]. split.
    - now apply same64_eq.
    - intros i j. cbn. lia.
  Qed.
End Example.

Example C19_example : unit_draw half /\ R64 (fadd (f_of_Z 3) half) = (7 / 2)%R.
Proof.
  split; [exact half_ok|]. replace (fadd (f_of_Z 3) half) with (f_of_ZE 7 (-1)).
  - destruct (f_of_ZE_correct 7 (-1) ltac:(lia) ltac:(lia)) as (-> & _).
    change (bpow radix2 (-1)) with (/ 2)%R. lra.
  - apply same64_eq. vm_compute. reflexivity.
Qed.

Print Assumptions C16_cloud_shape.
Print Assumptions C16_grid_required.
Print Assumptions C16_far_times_refuted.
Print Assumptions C17_one_point_per_cell.
Print Assumptions C17_exact_charge.
Print Assumptions C18_labels_are_requested_charged_nuclei.
Print Assumptions C18_neutral_nuclei_have_no_effect.
Print Assumptions C18_all_neutral_is_empty.
Print Assumptions C19_smearing.
Print Assumptions C19_negative_times_dropped.
Print Assumptions C19_bucket_not_preserved_refuted.
