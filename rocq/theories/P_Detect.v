(** P_Detect.v -- C58: simulated clouds can always be stored, and what a complete simulation run
    leaves on disk. *)
From Coq Require Import ZArith Reals Lia Lra String Permutation Sorted.
From Flocq Require Import Core BinarySingleNaN.
From Verif Require Import Base F64 Num Pairing PairingProofs BeamPads Transporter SpecTransport Simulator SpecSim
  F64Bounds P_Simulator P_Parameters KinFile SpecRun P_RunSim Response Writer SpecWriter WriterProofs P_Writer P_Cloud Parameters.
Local Open Scope Z_scope.
Local Open Scope list_scope.

(** ** Loaded tables have one row per pad *)
Section Tables.
  Context (to_float : string -> option f64) (files : string -> option text) (resource : string -> text).

  Lemma set_row_length {A} (a : list A) i v b : set_row a i v = Ok b -> length b = length a.
  Proof. unfold set_row. destruct (_ <? _)%nat; [|discriminate]. intros [= <-]. apply upd_length. Qed.

  Lemma fill_centers_length lines : forall i a b, fill_centers to_float lines i a = Ok b -> length b = length a.
  Proof.
    induction lines as [|l rest IH]; intros i a b E; cbn [fill_centers] in E; [congruence|].
    destruct (entry to_float l 0) as [x|]; [|discriminate]. cbn [bind] in E.
    destruct (set_row a i _) as [a1|] eqn:E1; [|discriminate]. cbn [bind] in E.
    destruct (entry to_float l 1) as [y|]; [|discriminate]. cbn [bind] in E.
    destruct (set_row a1 i _) as [a2|] eqn:E2; [|discriminate]. cbn [bind] in E.
    apply set_row_length in E1, E2. apply IH in E. congruence.
  Qed.
  Lemma fill_sizes_length lines : forall i a b, fill_sizes to_float lines i a = Ok b -> length b = length a.
  Proof.
    induction lines as [|l rest IH]; intros i a b E; cbn [fill_sizes] in E; [congruence|].
    destruct (entry to_float l 0) as [x|]; [|discriminate]. cbn [bind] in E.
    destruct (set_row a i _) as [a1|] eqn:E1; [|discriminate]. cbn [bind] in E.
    apply set_row_length in E1. apply IH in E. congruence.
  Qed.
  Lemma centers_length p out : load_pad_centers to_float files resource p = Ok out -> length out = NUM_PADS.
  Proof.
    unfold load_pad_centers. destruct (String.eqb _ _); [|destruct (open_text files _); [|discriminate]; cbn [bind]];
      intros E; apply fill_centers_length in E; now rewrite repeat_length in E.
  Qed.
  Lemma sizes_length p out : load_pad_sizes to_float files resource p = Ok out -> length out = NUM_PADS.
  Proof.
    unfold load_pad_sizes. destruct (String.eqb _ _); [|destruct (open_text files _); [|discriminate]; cbn [bind]];
      intros E; apply fill_sizes_length in E; now rewrite repeat_length in E.
  Qed.
End Tables.

Lemma num_pads : Z.of_nat NUM_PADS = 10240.
Proof. Transparent NUM_PADS. unfold NUM_PADS. rewrite Z2Nat.id; lia. Opaque NUM_PADS. Qed.

(** ** The writer accepts every well-placed point *)
Section Accept.
  Context (fexp : f64 -> f64) (argsort : list f64 -> list nat).

  Definition placed (c : wconfig) (centers : list (f64 * f64)) (p : point) : Prop :=
    (exists pad : nat, f_to_Z (p_pad p) = Some (Z.of_nat pad) /\ (pad < length centers)%nat /\
       (pad < length (wc_sizes c))%nat) /\
    is_finite (p_tb p) = true /\ (Rabs (R64 (p_tb p)) <= bpow radix2 53)%R.

  Lemma placed_ok resp c centers p : resp <> [] -> config_ok c -> placed c centers p ->
    exists r, convert_point fexp (wc_windows_edge c) (wc_mm_edge c) (wc_length c) resp centers (wc_sizes c) p = Ok r /\
      is_finite (s_z r) = true.
  Proof.
    intros NE Hc ((pad & Ep & L1 & L2) & Ft & Bt).
    destruct (z_finite fexp c p Hc Ft Bt) as (Ez & Fz).
    destruct (nth_error centers pad) as [ctr|] eqn:C1; [|apply nth_error_None in C1; lia].
    destruct (nth_error (wc_sizes c) pad) as [sz|] eqn:C2; [|apply nth_error_None in C2; lia].
    assert (Ea : exists a, apply_response resp (p_el p) = Ok a).
    { unfold apply_response, signal. destruct resp as [|r0 resp]; [congruence|]. cbn [map array_max bind]. eauto. }
    destruct Ea as [[amp int] Ea].
    unfold convert_point. rewrite Ep. cbn [bind]. rewrite (nj_index_ok _ _ _ C1). cbn [bind].
    rewrite Ea. cbn [bind].
    match goal with |- context [bind ?m _] => replace m with (Ok (A := F64 fexp)
      (fmul (fmul (fdiv (fsub (f_of_Z (wc_windows_edge c)) (p_tb p))
                     (f_of_Z (wc_windows_edge c - wc_mm_edge c))) (wc_length c)) (f_of_Z 1000))) by (symmetry; exact Ez) end.
    cbn [bind]. rewrite (nj_index_ok _ _ _ C2). cbn [bind].
    eexists. split; [reflexivity|exact Fz].
  Qed.

  Lemma process_ok resp c centers data labels :
    argsort_ok argsort -> resp <> [] -> config_ok c -> wc_centers c = Some centers ->
    Forall (placed c centers) data -> length labels = length data ->
    exists out, process fexp argsort resp c data labels = Ok out.
  Proof.
    intros Ha Hr Hc Ec Hp Hl.
    destruct (mapM_ok (convert_point fexp (wc_windows_edge c) (wc_mm_edge c) (wc_length c) resp centers (wc_sizes c))
                (fun p r => is_finite (s_z r) = true) data) as (conv & E & F2).
    { eapply Forall_impl; [|exact Hp]. intros p H. now apply placed_ok. }
    assert (Fin : Forall (fun r => is_finite (s_z r) = true) conv) by (clear - F2; induction F2; constructor; tauto).
    assert (Lc : length conv = length data) by (clear - F2; induction F2; simpl; congruence).
    unfold process. rewrite Ec. unfold convert_to_spyral. rewrite E. cbn [bind].
    replace (length labels =? length conv)%nat with true by (symmetry; apply Nat.eqb_eq; congruence).
    cbn [negb].
    set (mask := map (fun r => fltb (f_of_Z (wc_threshold c)) (s_amp r)) conv).
    destruct (select_combine2 mask conv labels ltac:(congruence)) as (_ & SL).
    set (keys := map s_z (select mask conv)).
    destruct (Ha keys) as (Pm & _).
    { unfold keys. apply Forall_forall. intros z Hz. apply in_map_iff in Hz.
      destruct Hz as (r & <- & Hr'). apply select_incl in Hr'. rewrite Forall_forall in Fin. now apply Fin. }
    assert (Bi : Forall (fun i => (i < length (select mask conv))%nat) (argsort keys)).
    { apply Forall_forall. intros i Hi. apply (Permutation_in _ Pm) in Hi. apply in_seq in Hi.
      unfold keys in Hi. rewrite map_length in Hi. apply Hi. }
    assert (Tk : forall A (l : list A) idx, Forall (fun i => (i < length l)%nat) idx -> exists o, take l idx = Ok o).
    { clear. intros A l idx. unfold take. induction 1 as [|i idx H F [o IH]]; cbn [mapM]; [eauto|].
      destruct (nth_error l i) as [a|] eqn:N; [|apply nth_error_None in N; lia]. cbn [bind]. rewrite IH. cbn [bind]. eauto. }
    destruct (Tk _ _ _ Bi) as (o1 & ->). cbn [bind].
    rewrite SL in Bi. destruct (Tk _ _ _ Bi) as (o2 & ->). cbn [bind]. eauto.
  Qed.
End Accept.

(** ** Drift times of tracks in the detector *)
Lemma rnd64_half x : (bpow radix2 (-1000) <= x)%R -> (x / 2 <= rnd64 x <= 2 * x)%R.
Proof.
  intros H. assert (P : (0 < x)%R) by (pose proof (bpow_gt_0 radix2 (-1000)); lra).
  destruct (mag radix2 x) as [e He]. specialize (He ltac:(lra)). rewrite Rabs_pos_eq in He by lra.
  assert (Ee : -1000 < e). { apply lt_bpow with radix2. lra. }
  assert (Eb : (bpow radix2 e = 2 * bpow radix2 (e - 1))%R).
  { replace e with (1 + (e - 1)) at 1 by lia. rewrite bpow_plus. reflexivity. }
  split.
  - apply Rle_trans with (bpow radix2 (e - 1)); [lra|]. apply rnd64_ge_fmt; [apply fmt64_bpow; lia|lra].
  - apply Rle_trans with (bpow radix2 e); [|lra]. apply rnd64_le_fmt; [apply fmt64_bpow; lia|lra].
Qed.

(** A detector between 1 mm and 1 km, with electronics of at most a million time buckets. *)
Definition sane (dp : det_params) (ep : elec_params) : Prop :=
  is_finite (dp_length dp) = true /\ (bpow radix2 (-10) <= R64 (dp_length dp) <= bpow radix2 10)%R /\
  0 <= ep_mm_edge ep < ep_windows_edge ep /\ ep_windows_edge ep <= 2 ^ 20.

(** Inside the detector, up to one detector length beyond either end. *)
Definition around (len : f64) (z : f64) : Prop :=
  is_finite z = true /\ (Rabs (R64 z) <= R64 len)%R.

Lemma drift_time_bound fexp dp ep dv g ed z tb : sane dp ep ->
  drift_velocity (N := F64 fexp) (dp_length dp) (ep_windows_edge ep) (ep_mm_edge ep) = Ok dv ->
  around (dp_length dp) z ->
  f_to_Z (drift_time fexp (Simulator.mkConfig fexp (dp_length dp) (dp_efield dp) (dp_diffusion dp) dv
            (dp_gain dp) (ep_mm_edge ep) g ed) z) = Some tb -> tb < 2 ^ 26.
Proof.
  intros (Fl & Bl & Em & Ew) Ed (Fz & Bz) Et.
  destruct (C31_velocity_binary64 fexp (dp_length dp) (ep_windows_edge ep) (ep_mm_edge ep) ltac:(lia) ltac:(lia) Fl)
    as (v & Ev & Fv & Rv). assert (v = dv) by congruence. subst v. clear Ed Ev.
  set (n := (ep_windows_edge ep - ep_mm_edge ep)%Z) in *.
  assert (Bn : (1 <= IZR n <= bpow radix2 20)%R).
  { rewrite <- IZR_pow2 by lia. split; [apply (IZR_le 1); lia|apply IZR_le; lia]. }
  set (len := R64 (dp_length dp)) in *.
  assert (B10 : (bpow radix2 (-10) = / 1024)%R) by reflexivity.
  assert (B1 : (bpow radix2 10 = 1024)%R) by reflexivity.
  assert (B20 : (bpow radix2 20 = 1048576)%R) by reflexivity.
  rewrite B10, B1 in Bl. rewrite B20 in Bn.
  assert (Iv : (/ 1048576 <= / IZR n <= 1)%R).
  { split; [apply Rinv_le; lra|]. rewrite <- Rinv_1. apply Rinv_le; lra. }
  assert (Q : (/ 1024 * / 1048576 <= len / IZR n)%R) by (unfold Rdiv; apply Rmult_le_compat; lra).
  assert (Small : (bpow radix2 (-1000) <= / 1024 * / 1048576)%R).
  { replace (/ 1024 * / 1048576)%R with (bpow radix2 (-30)); [apply bpow_le; lia|].
    change (-30) with (-10 + -20). rewrite bpow_plus. reflexivity. }
  destruct (rnd64_half (len / IZR n) ltac:(lra)) as (V1 & V2). rewrite <- Rv in V1, V2.
  assert (Pv : (0 < R64 dv)%R) by lra.
  apply Rabs_le_inv in Bz.
  assert (Small' : (bpow radix2 (-1000) <= 2 * len)%R) by lra.
  destruct (rnd64_half (2 * len) Small') as (_ & W2).
  unfold drift_time, tb_of_z in Et.
  cbn [c_length c_drift c_mm_edge nadd ndiv nsub nofZ F64] in Et.
  destruct (fsub_fin (dp_length dp) z 12 Fl Fz ltac:(lia)) as (R1 & F1).
  { fold len. change (bpow radix2 12) with 4096%R. apply Rabs_le. lra. }
  fold len in R1.
  assert (A1 : (0 <= R64 (fsub (dp_length dp) z) <= 4 * len)%R).
  { rewrite R1. split.
    - apply (rnd64_ge_fmt _ 0); [apply generic_format_0|lra].
    - apply Rle_trans with (rnd64 (2 * len)); [apply rnd64_le; lra|lra]. }
  set (a := R64 (fsub (dp_length dp) z)) in *.
  assert (A2 : (0 <= a / R64 dv <= bpow radix2 23)%R).
  { split; [apply Rmult_le_pos; [lra|apply Rlt_le, Rinv_0_lt_compat, Pv]|].
    apply Rmult_le_reg_r with (R64 dv); [exact Pv|]. unfold Rdiv. rewrite Rmult_assoc, Rinv_l, Rmult_1_r by lra.
    apply Rle_trans with (4 * len)%R; [lra|].
    apply Rle_trans with (bpow radix2 23 * (len / IZR n / 2))%R.
    - change (bpow radix2 23) with 8388608%R.
      assert (len / 1048576 <= len / IZR n)%R by (unfold Rdiv; apply Rmult_le_compat_l; lra). lra.
    - apply Rmult_le_compat_l; [apply bpow_ge_0|lra]. }
  destruct (fdiv_fin (fsub (dp_length dp) z) dv 23 F1 ltac:(lra) ltac:(lia)) as (R2 & F2).
  { fold a. rewrite Rabs_pos_eq; lra. }
  fold a in R2.
  assert (A3 : (0 <= R64 (fdiv (fsub (dp_length dp) z) dv) <= bpow radix2 23)%R).
  { rewrite R2. split; [apply (rnd64_ge_fmt _ 0); [apply generic_format_0|lra]|].
    apply rnd64_le_fmt; [apply fmt64_bpow; lia|lra]. }
  set (q := fdiv (fsub (dp_length dp) z) dv) in *.
  assert (Rm : R64 (f_of_Z (ep_mm_edge ep)) = IZR (ep_mm_edge ep)) by (apply f_of_Z_R; lia).
  assert (Fm : is_finite (f_of_Z (ep_mm_edge ep)) = true) by (apply f_of_Z_fin; lia).
  assert (Bm : (0 <= IZR (ep_mm_edge ep) <= 1048576)%R) by (split; apply IZR_le; lia).
  change (bpow radix2 23) with 8388608%R in A3.
  destruct (fadd_fin q (f_of_Z (ep_mm_edge ep)) 24 F2 Fm ltac:(lia)) as (R3 & F3).
  { rewrite Rm. change (bpow radix2 24) with 16777216%R. rewrite Rabs_pos_eq; lra. }
  match type of Et with f_to_Z ?t = _ => change t with (fadd q (f_of_Z (ep_mm_edge ep))) in Et end.
  apply f_to_Z_inv in Et. destruct Et as (_ & -> & _).
  rewrite Ztrunc_floor.
  - apply lt_IZR. apply Rle_lt_trans with (1 := Zfloor_lb _). rewrite R3, Rm.
    apply Rle_lt_trans with 16777216%R; [|apply (IZR_lt 16777216); lia].
    apply (rnd64_le_IZR _ 16777216); [lia|]. lra.
  - rewrite R3, Rm. apply (rnd64_ge_fmt _ 0); [apply generic_format_0|lra].
Qed.

(** ** Detector simulation with a loaded configuration *)
Section Detect.
  Context (fexp : f64 -> f64) {V G Nuc Vel : Type}.
  Notation config := (config fexp).
  Notation traj := (@traj Vel).
  Context (get_data : Z -> Z -> res Nuc)
    (generate_trajectory : @vertex V -> mom4 V -> Nuc -> config -> res (list traj))
    (generate_electrons : list traj -> Nuc -> config -> G -> list Z * G)
    (uniform : nat -> G -> list f64 * G) (argsort : list f64 -> list nat).
  Context (Hu : draws_ok uniform) (Ha : argsort_ok argsort).

  (** A Config object, as the constructor delivers it, with pad numbers that the tables have. *)
  Context (to_float : string -> option f64) (files : string -> option text) (resource : string -> text)
    (load : string -> res (grid * edges (F64 fexp))) (packaged : res (grid * edges (F64 fexp)))
    (dp : det_params) (ep : elec_params) (pp : pad_params) (fc : full_config fexp).
  Context (Hfc : make_config fexp to_float files resource load packaged dp ep pp = Ok fc).
  Context (Hgrid : forall i j, -1 <= gr_cell (fc_grid fexp fc) i j < 10240).
  Context (Hs : sane dp ep) (Hth : Z.abs (ep_threshold ep) <= 2 ^ 53).
  (** No track row is further than one detector length outside the detector. *)
  Definition contained (rows : list (mom4 V)) (v : @vertex V) : Prop :=
    forall p nuc track t, In p rows -> generate_trajectory v p nuc (sim_config fexp fc) = Ok track ->
      In t track -> around (dp_length dp) (t_z t).

  Definition sim (rows : list (mom4 V)) (v : @vertex V) (zs ms : list Z) (rng : G) (idx : list Z) :=
    simulate fexp get_data generate_trajectory generate_electrons uniform rows v zs ms (sim_config fexp fc) rng idx.

  Lemma tables : length (fc_centers fexp fc) = NUM_PADS /\ length (fc_sizes fexp fc) = NUM_PADS.
  Proof using Hfc.
    clear Hgrid. unfold make_config in Hfc.
    destruct (drift_velocity _ _ _) as [dv|]; [|discriminate Hfc]. cbn [bind] in Hfc.
    destruct (load_pad_grid _ _ _ _) as [[g ed]|]; [|discriminate Hfc]. cbn [bind] in Hfc.
    destruct (load_pad_centers _ _ _ _) as [cs|] eqn:E1; [|discriminate Hfc]. cbn [bind] in Hfc.
    destruct (load_pad_sizes _ _ _ _) as [ss|] eqn:E2; [|discriminate Hfc]. cbn [bind] in Hfc.
    injection Hfc as <-. cbn [fc_centers fc_sizes]. split; [eapply centers_length|eapply sizes_length]; eauto.
  Qed.

  Lemma config_fine : config_ok (writer_config fexp fc) /\
    (forall rows v, contained rows v -> near fexp generate_trajectory rows v (sim_config fexp fc)).
  Proof using Hfc Hs Hth.
    clear Hgrid. unfold contained, make_config in *.
    destruct (drift_velocity _ _ _) as [dv|] eqn:Ed; [|discriminate Hfc]. cbn [bind] in Hfc.
    destruct (load_pad_grid _ _ _ _) as [[g ed]|]; [|discriminate Hfc]. cbn [bind] in Hfc.
    destruct (load_pad_centers _ _ _ _) as [cs|] eqn:E1; [|discriminate Hfc]. cbn [bind] in Hfc.
    destruct (load_pad_sizes _ _ _ _) as [ss|] eqn:E2; [|discriminate Hfc]. cbn [bind] in Hfc.
    injection Hfc as <-. split.
    - unfold config_ok, writer_config. cbn [wc_windows_edge wc_mm_edge wc_threshold wc_length fc_elec fc_det].
      destruct Hs as (Fl & Bl & Em & Ew). repeat (split; [lia|]). split; [exact Fl|].
      assert (0 <= R64 (dp_length dp))%R by (apply Rle_trans with (2 := proj1 Bl); apply bpow_ge_0).
      rewrite Rabs_pos_eq by assumption. apply Rle_trans with (1 := proj2 Bl). apply bpow_le. lia.
    - intros rows v C p nuc track t tb Ip E It. unfold sim_config in *. cbn [fc_det fc_elec fc_drift fc_grid fc_edges] in *.
      apply drift_time_bound; [exact Hs|exact Ed|]. eapply C; eauto.
  Qed.

  (** C58: a simulated cloud meets everything the writer relies on. *)
  Theorem C58_storable resp rows v zs ms rng idx cloud labels rng' : resp <> [] ->
    contained rows v ->
    sim rows v zs ms rng idx = Ok ((cloud, labels), rng') ->
    exists out, process fexp argsort resp (writer_config fexp fc) cloud labels = Ok out.
  Proof using Hu Ha Hfc Hgrid Hs Hth.
    intros NE Hn S. destruct tables as [Lc Ls]. destruct config_fine as [Hcfg Hnear]. apply Hnear in Hn.
    destruct (C16_cloud_shape fexp get_data generate_trajectory generate_electrons uniform rows v zs ms
                (sim_config fexp fc) rng idx (fc_grid fexp fc) (fc_edges fexp fc) cloud labels rng'
                eq_refl eq_refl ltac:(intros i j; specialize (Hgrid i j); lia) Hn Hu S) as [Ll Hp].
    apply (process_ok fexp argsort resp (writer_config fexp fc) (fc_centers fexp fc) cloud labels Ha NE Hcfg eq_refl).
    - apply Forall_forall. intros p Ip. destruct (Hp p Ip) as ((pad & i & j & Ep & _ & _ & Ec & Np & _) & Ft & Bt).
      specialize (Hgrid i j). rewrite Ec in Hgrid.
      split; [|split; [exact Ft|]].
      + exists (Z.to_nat pad). rewrite Z2Nat.id by lia. split; [rewrite Ep; apply f_to_Z_of_Z; lia|].
        cbn [writer_config wc_sizes]. rewrite Lc, Ls. pose proof num_pads. lia.
      + rewrite Rabs_pos_eq by apply Bt. apply Rlt_le, Rlt_le_trans with 512%R; [apply Bt|].
        change 512%R with (bpow radix2 9). apply bpow_le. lia.
    - congruence.
  Qed.
  
  (** What SpyralWriter.write does with this configuration. *)
  Definition spyral_write (w : writer) (cloud : list point) (labels : list Z) (e : Z) : writer * res unit :=
    write fexp argsort w cloud labels (writer_config fexp fc) e.

  Definition call_of (r : Z * list point * list Z) : wcall :=
    mkCall (snd (fst r)) (snd r) (writer_config fexp fc) (fst (fst r)).
  Definition non_empty (rs : list (Z * list point * list Z)) : list (Z * list point * list Z) :=
    filter (fun r => negb (length (snd (fst r)) =? 0)%nat) rs.

  Lemma perform_writes rs w :
    perform spyral_write close (writes rs) w = do_writes fexp argsort w (map call_of (non_empty rs)).
  Proof.
    unfold writes. fold (non_empty rs). revert w. induction (non_empty rs) as [|r l IH]; intros w; [reflexivity|].
    cbn [map perform do_writes call_of cl_data cl_labels cl_config cl_event]. unfold spyral_write at 1.
    destruct (write fexp argsort w _ _ _ _) as [w' [[]|x]]; [apply IH|reflexivity].
  Qed.

  Lemma simulated_clouds d zs ms cs idx es g rs g' : simulated sim d zs ms cs idx es g rs g' ->
    (forall e rows v, In e es -> read_event d cs e = Ok (rows, v) -> contained rows v) ->
    forall resp, resp <> [] -> Forall (fun r => exists out,
      process fexp argsort resp (writer_config fexp fc) (snd (fst r)) (snd r) = Ok out) rs.
  Proof using Hu Ha Hfc Hgrid Hs Hth.
    induction 1 as [g|e es g rows v cloud labels g1 rs g2 R S H IH]; intros N resp NE; constructor.
    - cbn [fst snd]. eapply C58_storable; [exact NE| |exact S]. eapply N; [now left|exact R].
    - apply IH; [|exact NE]. intros e' rows' v' I'. apply N. now right.
  Qed.

  (** C58: when every event of a file can be read and simulated, the run finishes, and the run
      files hold exactly the processed clouds of the events that left points, in order, [max] per
      file, with their ranges; no other file is touched. *)
  Theorem C58_run resp max r0 disk d indices rng zs ms n nc cs rs rng' :
    resp <> [] -> 1 <= max ->
    read_header d = Ok (zs, ms, n, nc, cs) ->
    simulated sim d zs ms cs (nuclei_to_sim indices zs) (zrange 0 n) rng rs rng' ->
    (forall e rows v, 0 <= e < n -> read_event d cs e = Ok (rows, v) -> contained rows v) ->
    exists w' fs lo hi,
      run_simulation sim spyral_write close d indices rng (init resp max r0 disk) = (w', Ok tt) /\
      Forall2 (fun r rec => number rec = fst (fst r) /\
                 process fexp argsort resp (writer_config fexp fc) (snd (fst r)) (snd r) = Ok (snd rec))
              (non_empty rs) (concat fs) /\
      (forall i f, nth_error fs i = Some f -> exists h,
         get_file (w_disk w') (run_name (r0 + Z.of_nat i)) = Some h /\ holds h (r0 + Z.of_nat i) f /\
         attr h "min_event" = Some (lo i) /\ attr h "max_event" = Some (hi i) /\
         (forall rec, In rec f -> lo i <= number rec <= hi i) /\
         Z.of_nat (length f) <= max /\ ((S i < length fs)%nat -> Z.of_nat (length f) = max)) /\
      (forall i j, (i < j < length fs)%nat -> hi i < lo j) /\
      (forall name, (forall r, r0 <= r < r0 + Z.of_nat (length fs) -> name <> run_name r) ->
         get_file (w_disk w') name = get_file disk name).
  Proof using Hu Ha Hfc Hgrid Hs Hth.
    intros NE M Hh S N.
    assert (P0 : Forall (fun r => exists out,
      process fexp argsort resp (writer_config fexp fc) (snd (fst r)) (snd r) = Ok out) (non_empty rs)).
    { apply Forall_forall. intros r I. apply filter_In in I. destruct I as [I _].
      assert (F : forall e rows v, In e (zrange 0 n) -> read_event d cs e = Ok (rows, v) -> contained rows v).
      { intros e rows v Ie. apply N. now apply in_zrange. }
      pose proof (simulated_clouds _ _ _ _ _ _ _ _ _ S F resp NE) as FF.
      rewrite Forall_forall in FF. now apply FF. }
    assert (P1 : exists recs, processed fexp argsort resp (map call_of (non_empty rs)) recs).
    { clear - P0. induction P0 as [|r l [out E] F [recs IH]]; [exists []; constructor|].
      exists ((fst (fst r), out) :: recs). constructor; [split; [reflexivity|exact E]|exact IH]. }
    destruct P1 as [recs P1].
    assert (EV : map cl_event (map call_of (non_empty rs)) = map event_of (writes rs)).
    { unfold writes. fold (non_empty rs). rewrite !map_map. reflexivity. }
    destruct (C21_increasing_events sim d zs ms cs (nuclei_to_sim indices zs) n rng rs rng' S) as (SS & RG & _).
    destruct (C23_event_ranges fexp argsort resp max r0 disk (map call_of (non_empty rs)) recs M) as
      (w & w' & fs & lo & hi & E1 & E2 & E3 & E4 & E5 & E6 & E7 & _).
    { now rewrite EV. }
    { rewrite EV. apply Forall_forall. intros e I. apply RG in I. lia. }
    { exact P1. }
    exists w', fs, lo, hi. split; [|split; [|split; [|split]]].
    - apply C21_each_nonempty_event_written_once. exists zs, ms, n, nc, cs, rs, rng'.
      split; [exact Hh|]. split; [exact S|]. rewrite perform_app, perform_writes, E1.
      cbn [perform]. now rewrite E2.
    - rewrite E3. unfold processed in P1. clear - P1.
      remember (map call_of (non_empty rs)) as cl eqn:Q. revert Q. generalize (non_empty rs) as l.
      induction P1 as [|c r cl recs [A B] F IH]; intros [|x l] Q; try discriminate; [constructor|].
      cbn [map] in Q. assert (c = call_of x) by congruence. assert (cl = map call_of l) by congruence. subst c.
      constructor; [|now apply IH]. split; [exact A|exact B].
    - intros i f Hf. destruct (E6 i f Hf) as (h & A & B & C & D & _ & _ & _ & L1 & L2).
      destruct (E4 i f Hf) as (h' & A' & B'). assert (h' = h) by congruence. subst h'.
      exists h. repeat (split; [assumption|]). assumption.
    - exact E7.
    - intros name Hname.
      assert (Q : w' = steps fexp argsort (init resp max r0 disk) (map OpWrite (map call_of (non_empty rs)) ++ [OpClose])).
      { unfold steps. rewrite fold_left_app. cbn [fold_left step].
        assert (W : forall cl w0 w1, do_writes fexp argsort w0 cl = (w1, Ok tt) ->
           fold_left (fun w o => fst (step fexp argsort w o)) (map OpWrite cl) w0 = w1).
        { clear. induction cl as [|c cl IH]; intros w0 w1 E; cbn [do_writes map fold_left] in *; [congruence|].
          cbn [step]. destruct (write fexp argsort w0 _ _ _ _) as [w2 [[]|x]]; [|discriminate]. now apply IH. }
        rewrite (W _ _ _ E1), E2. reflexivity. }
      rewrite Q. apply C27_only_own_run_files. rewrite <- Q. intros r Hr. apply Hname. rewrite E5 in Hr. lia.
  Qed.
End Detect.

(** A complete run: three events of which the second leaves no points, one event per file. *)
Section Example.
  Context (fexp : f64 -> f64).
  Local Open Scope string_scope.
  Local Open Scope Z_scope.
  Local Open Scope list_scope.
  Definition e_dp : det_params := mkDet (f_of_Z 1) (f_of_Z 1) (f_of_Z 1) 10 (f_of_Z 0) (f_of_Z 1) (f_of_Z 30).
  Definition e_ep : elec_params := mkElec (f_of_Z 6) 900 1000 0 512 5.
  Definition e_pp : pad_params := mkPadParams "Default" "Default" "Default".
  Definition e_make := make_config fexp (fun _ => Some (f_of_Z 7)) (fun _ => None) (fun _ => [])
    (fun _ => Err ValueError) (Ok (ex_grid 300, ex_edges fexp)) e_dp e_ep e_pp.
  Definition e_traj (v : @vertex Z) (p : mom4 Z) (n : Z) (c : config fexp) : res (list (@traj unit)) :=
    Ok (if m_E p =? 0 then [] else [mkTraj (f_of_Z 0) (f_of_Z 0) half tt; mkTraj (f_of_Z 0) (f_of_Z 0) (f_of_Z (-1)) tt]).
  Definition e_electrons (t : list (@traj unit)) (n : Z) (c : config fexp) (g : Z) : list Z * Z :=
    (map (fun _ => n) t, g + 1).
  Definition e_nuc (z a : Z) : res Z := Ok (10 * z + a).
  Definition e_row (e : Z) : mom4 Z := mkMom 0 0 0 e.
  Definition e_ds (n : Z) : dataset Z :=
    mkDs [e_row n; e_row n; e_row n; e_row n] [("vertex_x", AReal 1); ("vertex_y", AReal 2); ("vertex_z", AReal 3)].
  Definition e_file : data_group Z :=
    mkData [("n_events", AInt 3); ("proton_numbers", AInts [1; 2; 1; 2]); ("mass_numbers", AInts [1; 4; 1; 4]);
            ("chunk_size", AInt 2); ("n_chunks", AInt 2)]
      [("chunk_0", mkGrp [] [("event_0", e_ds 1); ("event_1", e_ds 0)]);
       ("chunk_1", mkGrp [] [("event_2", e_ds 1)])].

  Example C58_hypotheses : sane e_dp e_ep /\ (exists fc, e_make = Ok fc /\
    (forall i j, -1 <= gr_cell (fc_grid fexp fc) i j < 10240)) /\
    forall fc rows v, contained fexp e_traj e_dp fc rows v.
  Proof.
    split; [|split].
    - unfold sane, e_dp, e_ep. cbn [dp_length ep_mm_edge ep_windows_edge].
      rewrite f_of_Z_R by lia. split; [apply f_of_Z_fin; lia|].
      change (bpow radix2 (-10)) with (/ 1024)%R. change (bpow radix2 10) with 1024%R. lia || (split; [lra|lia]).
    - unfold e_make, make_config.
      destruct (C31_velocity_binary64 fexp (f_of_Z 1) 512 0 ltac:(lia) ltac:(lia)) as (v & Ev & _);
        [apply f_of_Z_fin; lia|].
      cbn [e_dp e_ep dp_length ep_windows_edge ep_mm_edge]. rewrite Ev.
      cbn [bind load_pad_grid e_pp pp_grid String.eqb DEFAULT Ascii.eqb Bool.eqb load_pad_centers load_pad_sizes
           pp_geometry pp_size tl fill_centers fill_sizes].
      eexists. split; [reflexivity|]. cbn. intros; lia.
    - intros fc rows v p nuc track t _ E It. unfold e_traj in E.
      assert (Ez : t_z t = half \/ t_z t = f_of_Z (-1)).
      { apply (f_equal (fun r => match r with Ok x => x | _ => [] end)) in E. cbv beta match in E. rewrite <- E in It.
        destruct (m_E p =? 0) in It; [destruct It|]. destruct It as [<-|[<-|[]]]; auto. }
      unfold around. cbn [e_dp dp_length]. rewrite (f_of_Z_R 1) by lia.
      destruct Ez as [-> | ->].
      + destruct half_ok as (F & B). split; [exact F|]. apply Rabs_le. lra.
      + rewrite f_of_Z_R by lia. split; [apply f_of_Z_fin; lia|]. apply Rabs_le. lra.
  Qed.

  (** Events 0 and 2 are in runs 7 and 8, one row each: pad 300, bucket 256 1/2 (z = 499 mm),
      all charge of the nuclei 2 and 3 (gain 10, 11 and 24 electrons). *)
  Definition e_view (h : wfile) : list (string * Z) * list (string * list (list (option Z))) :=
    (wf_attrs h, map (fun nd => (fst nd, match snd nd with
      | WCloud rows _ => map (fun r => map f_to_Z [s_x r; s_z r; s_pad r; fmul (f_of_Z 2) (s_tb r); s_int r]) rows
      | WLabels l => [map Some l] end)) (wf_sets h)).
  Example C58_example :
    match e_make with
    | Ok fc =>
        let r := run_simulation (sim fexp e_nuc e_traj e_electrons ex_uniform fc)
                   (spyral_write fexp the_sort fc) close e_file None 0 (init [f_of_Z 1] 1 7 []) in
        (snd r, map (fun nf => (fst nf, e_view (snd nf))) (w_disk (fst r)))
    | Err _ => (Err ValueError, [])
    end = (Ok tt,
      [("run_0007.h5", ([("min_event", 0); ("max_event", 0)],
         [("cloud_0", [[Some 0; Some 499; Some 300; Some 513; Some 350]]); ("labels_0", [[Some 3]])]));
       ("run_0008.h5", ([("min_event", 2); ("max_event", 2)],
         [("cloud_2", [[Some 0; Some 499; Some 300; Some 513; Some 350]]); ("labels_2", [[Some 3]])]))]).
  Proof. vm_compute. reflexivity. Qed.
End Example.

Print Assumptions C58_storable.
Print Assumptions C58_run.
