(** P_NeverFails.v -- C89: a simulation of ordinary input never raises (in binary64). *)
From Coq Require Import ZArith Reals Lia Lra List String.
From Flocq Require Import Core BinarySingleNaN.
From Verif Require Import Base F64 F64Bounds Num Pairing PairingProofs BeamPads Transporter
  SpecTransport TransportProofs PositionProofs TransportF64 P_TransportF64 Simulator SpecSim SimulatorProofs P_Simulator
  P_Parameters Parameters KinFile SpecRun P_RunSim Response Writer SpecWriter WriterProofs P_Writer P_Cloud P_Detect
  P_KinF64 ElectronsF64 P_ElectronsF64 P_Complete P_Calor.
Import ListNotations.
Local Open Scope Z_scope.
Local Open Scope list_scope.

(** Electric field, diffusion and drift velocity that the transport accepts (C13). *)
Notation transportable := P_TransportF64.sane.

Section Simulate.
  Context (fexp : f64 -> f64) {G Nuc Mom Vtx Vel : Type}.
  Context (get_data : Z -> Z -> res Nuc)
    (generate_trajectory : Vtx -> Mom -> Nuc -> config fexp -> res (list (@traj Vel)))
    (generate_electrons : list (@traj Vel) -> Nuc -> config fexp -> G -> list Z * G)
    (uniform : nat -> G -> list f64 * G).
  Notation sim := (simulate fexp get_data generate_trajectory generate_electrons uniform).

  (** A number of electrons per row, and after the gain at most 2^53 of them in a row. *)
  Definition countable (c : config fexp) (track : list (@traj Vel)) (nuc : Nuc) : Prop :=
    forall rng, length (fst (generate_electrons track nuc c rng)) = length track /\
      forall e, In e (fst (generate_electrons track nuc c rng)) -> 1 <= e -> Z.abs (wrap64 (e * c_gain fexp c)) <= 2 ^ 53.

  (** Nucleus [i] is neutral, or all its data are there and its track can be transported. *)
  Definition ready (momenta : list Mom) (vertex : Vtx) (zs ms : list Z) (c : config fexp) (i : Z) : Prop :=
    py_index zs i = Ok 0 \/
    exists z a nuc p track, py_index zs i = Ok z /\ py_index ms i = Ok a /\ get_data z a = Ok nuc /\
      py_index momenta i = Ok p /\ generate_trajectory vertex p nuc c = Ok track /\
      (forall t, In t track -> sane_row (to_row fexp c t)) /\ countable c track nuc.

  (** C89: with the packaged pad plane, if every nucleus is ready, [simulate] returns. *)
  Theorem C89_simulate momenta vertex zs ms c rng indices g :
    exp_ok fexp -> c_grid fexp c = Some g -> gr_rows g = 5600 -> gr_cols g = 5600 ->
    c_edges fexp c = Some (packaged_edges fexp) ->
    transportable (c_diffusion fexp c) (c_efield fexp c) (c_drift fexp c) ->
    (forall i, In i indices -> ready momenta vertex zs ms c i) ->
    exists cloud labels rng', sim momenta vertex zs ms c rng indices = Ok ((cloud, labels), rng').
  Proof.
    intros He Hg Gr Gc Hed Sa R.
    assert (L : forall s, exists s', foldM (simulate_nucleus fexp get_data generate_trajectory generate_electrons
       momenta vertex zs ms c) indices s = Ok s').
    { induction indices as [|i indices IH]; intros [pts g0]; [eexists; reflexivity|]. cbn [foldM].
      assert (Q : exists s1, simulate_nucleus fexp get_data generate_trajectory generate_electrons
                    momenta vertex zs ms c (pts, g0) i = Ok s1).
      { destruct (R i (or_introl eq_refl)) as [Z|(z & a & nuc & p & track & Ez & Ea & En & Ep & Et & Tr & Ct)]; unfold simulate_nucleus.
        - rewrite Z. cbn [bind]. eexists. reflexivity.
        - rewrite Ez. cbn [bind]. destruct (z =? 0); [eexists; reflexivity|]. rewrite Ea. cbn [bind]. rewrite En. cbn [bind].
          rewrite Ep. cbn [bind]. unfold generate_point_cloud. rewrite Et. cbn [bind].
          destruct (Ct g0) as (Le & Be). destruct (generate_electrons track nuc c g0) as [els g1]. cbn [fst] in Le, Be.
          rewrite Le, Nat.eqb_refl. cbn [negb]. rewrite Hed, Hg.
          destruct (C13_memory_safety fexp g (c_diffusion fexp c) (c_efield fexp c) (c_drift fexp c)
            (map (to_row fexp c) (select (map (fun e => 1 <=? e) els) track))
            (map (fun e => wrap64 (e * c_gain fexp c)) (select (map (fun e => 1 <=? e) els) els)) pts i He Gr Gc Sa) as (pts' & ->).
          + intros r I. apply in_map_iff in I as (t & <- & I). apply Tr. eapply select_incl; exact I.
          + rewrite !map_length. clear - Le. revert track Le. induction els as [|e els IH]; intros [|t track] L; try discriminate; [reflexivity|].
            cbn [map select]. specialize (IH track ltac:(cbn in L; lia)). destruct (1 <=? e); cbn [length]; lia.
          + intros e I. apply in_map_iff in I as (e0 & <- & I). apply Be; [eapply select_incl; exact I|].
            clear - I. induction els as [|e els IH]; [destruct I|]. cbn [map select] in I.
            destruct (1 <=? e) eqn:E; [destruct I as [<-|I]; [lia|]|]; now apply IH.
          + cbn [bind]. eexists. reflexivity. }
      destruct Q as (s1 & ->). cbn [bind]. apply IH. intros j I. apply R. now right. }
    unfold simulate. destruct (L ([], rng)) as ([pts g1] & ->). cbn [bind].
    destruct (dict_to_points pts) as [pa la]. destruct (uniform (length pa) g1) as [us g2].
    eexists. eexists. eexists. reflexivity.
  Qed.

  (** Which failures are possible: the contrapositive names them. A missing nucleus is one. *)
  Theorem C89_missing_data momenta vertex zs ms c rng indices before i after z a e :
    indices = before ++ i :: after -> py_index zs i = Ok z -> z <> 0 -> py_index ms i = Ok a -> get_data z a = Err e ->
    is_ok (sim momenta vertex zs ms c rng indices) = false.
  Proof.
    intros -> Ez Nz Ea En. unfold simulate. rewrite foldM_app.
    destruct (foldM _ before _) as [[pts g]|]; [|reflexivity]. cbn [bind foldM]. unfold simulate_nucleus at 1.
    rewrite Ez. cbn [bind]. replace (z =? 0) with false by lia. rewrite Ea. cbn [bind]. rewrite En. reflexivity.
  Qed.

  (** C89: a detector shorter than the fixed 1 m of the stopping conditions. If the track goes on so
      far behind the micromegas that a row that makes electrons has a negative drift time, the
      transport of the event is undefined behaviour, whatever else happens. *)
  Theorem C89_negative_time_refuted momenta vertex zs ms c rng i rest g z a nuc p before t after eb e ea rng1 :
    exp_ok fexp -> c_grid fexp c = Some g -> gr_rows g = 5600 -> gr_cols g = 5600 ->
    c_edges fexp c = Some (packaged_edges fexp) ->
    rg (c_diffusion fexp c) (-60) 60 -> rg (c_efield fexp c) (-60) 60 -> rg (c_drift fexp c) (-60) 60 ->
    py_index zs i = Ok z -> z <> 0 -> py_index ms i = Ok a -> get_data z a = Ok nuc -> py_index momenta i = Ok p ->
    generate_trajectory vertex p nuc c = Ok (before ++ t :: after) ->
    generate_electrons (before ++ t :: after) nuc c rng = (eb ++ e :: ea, rng1) ->
    length eb = length before -> length ea = length after ->
    (forall t, In t before -> sane_row (to_row fexp c t)) ->
    (forall e, In e eb -> 1 <= e -> Z.abs (wrap64 (e * c_gain fexp c)) <= 2 ^ 53) ->
    1 <= e -> rg (Bopp (drift_time fexp c (t_z t))) (-60) 60 ->
    sim momenta vertex zs ms c rng (i :: rest) = Err UB.
  Proof.
    intros He Hg Gr Gc Hed RD RE RV Ez Nz Ea En Ep Et Ee Lb La Sb Bb E1 Rt.
    unfold simulate. cbn [foldM]. unfold simulate_nucleus at 1. rewrite Ez. cbn [bind]. replace (z =? 0) with false by lia.
    rewrite Ea. cbn [bind]. rewrite En. cbn [bind]. rewrite Ep. cbn [bind]. unfold generate_point_cloud. rewrite Et. cbn [bind].
    rewrite Ee. replace (length (eb ++ e :: ea) =? length (before ++ t :: after))%nat with true
      by (symmetry; apply Nat.eqb_eq; rewrite !app_length; cbn [length]; lia).
    cbn [negb]. rewrite Hed, Hg.
    assert (SA : forall {A} (m1 m2 : list bool) (l1 l2 : list A), length m1 = length l1 ->
      select (m1 ++ m2) (l1 ++ l2) = select m1 l1 ++ select m2 l2).
    { clear. induction m1 as [|b m1 IH]; intros m2 [|x l1] l2 L; try discriminate; [reflexivity|].
      cbn [app select]. rewrite IH by (cbn in L; lia). destruct b; reflexivity. }
    assert (Hd : (1 <=? e) = true) by lia.
    rewrite !map_app. cbn [map]. rewrite Hd. rewrite !SA by (rewrite map_length; congruence). cbn [select].
    rewrite !map_app. cbn [map].
    assert (Ls : length (select (map (fun e => 1 <=? e) eb) before) = length (select (map (fun e => 1 <=? e) eb) eb)).
    { clear - Lb. revert before Lb. induction eb as [|x eb IH]; intros [|y before] L; try discriminate; [reflexivity|].
      cbn [map select]. specialize (IH before ltac:(cbn in L; lia)). destruct (1 <=? x); cbn [length]; lia. }
    rewrite C13_negative_time_refuted; try assumption.
    - reflexivity.
    - rewrite !map_length. exact Ls.
    - apply C13_memory_safety; try assumption.
      + split; [right; exact RD|]. split; assumption.
      + intros r I. apply in_map_iff in I as (t' & <- & I). apply Sb. eapply select_incl; exact I.
      + rewrite !map_length. lia.
      + intros e' I. apply in_map_iff in I as (e0 & <- & I). apply Bb; [eapply select_incl; exact I|].
        clear - I. induction eb as [|x eb IH]; [destruct I|]. cbn [map select] in I.
        destruct (1 <=? x) eqn:E; [destruct I as [<-|I]; [lia|]|]; now apply IH.
  Qed.
End Simulate.

(** ** Electrons as the code computes them *)
Lemma sqrt_bound x : (0 <= x <= 2 ^ 40)%R -> (sqrt (x + 1) <= 2 ^ 21)%R.
Proof.
  intros B. assert (P40 : (2 ^ 40 = 1099511627776)%R) by ring. assert (P21 : (2 ^ 21 = 2097152)%R) by ring. rewrite P21.
  replace 2097152%R with (sqrt (2097152 * 2097152)) by (apply sqrt_square; lra). apply sqrt_le_1_alt. lra.
Qed.

Lemma exact_le m w l x : usual m w l -> 1 <= w -> In x (exact_electrons (R64 m) w l) -> (0 <= x <= 2 ^ 40)%R.
Proof.
  intros (Fm & Bm & H) Hw I. split; [eapply Forall_forall in I; [exact I|now apply exact_nonneg]|].
  assert (W1 : (1 <= IZR w)%R) by (apply IZR_le; lia).
  assert (K0 : (0 < 10 ^ 6 / IZR w)%R) by (apply Rdiv_lt_0_compat; lra).
  destruct l as [|p l]; [destruct I|]. destruct I as [<-|I].
  { assert (0 < 2 ^ 40)%R by (apply pow_lt; lra). lra. }
  apply in_map_iff in I as (e & <- & I).
  assert (Q : forall q, In q (p :: l) -> (0 <= kinetic (R64 m) q * (10 ^ 6 / IZR w) <= 2 ^ 40)%R).
  { intros q Iq. destruct (H q Iq) as (_ & L). pose proof (lorentz_ge1 q) as G1. unfold kinetic.
    assert (R64 m * 1 <= R64 m * lorentz_factor q)%R by (apply Rmult_le_compat_l; lra).
    split; [apply Rmult_le_pos; lra|]. apply Rle_trans with (2 := L). apply Rmult_le_compat_r; lra. }
  clear H. revert p I Q. induction l as [|a l IH]; intros p I Q; [destruct I|].
  cbn [steps] in I. destruct I as [<-|I].
  - pose proof (Q p (or_introl eq_refl)). pose proof (Q a (or_intror (or_introl eq_refl))).
    rewrite <- (Rabs_pos_eq (10 ^ 6 / IZR w)) by lra. rewrite <- Rabs_mult, Rmult_minus_distr_r. apply Rabs_le. lra.
  - apply (IH a I). intros q Iq. apply Q. now right.
Qed.

(** C89: whatever the draws of the generator, up to 2^12 fold gain, a track within the bounds of C75
    makes numbers of electrons that the transport can carry. *)
Theorem C89_countable fexp {G Nuc} (mass : Nuc -> f64) (w : Z) (fano : f64) (normals : nat -> G -> list f64 * G)
  (c : config fexp) (track : list (@traj vec64)) (nuc : Nuc) :
  normals_ok normals -> 1 <= w <= 2 ^ 53 -> is_finite fano = true -> (0 <= R64 fano <= 1)%R ->
  0 <= c_gain fexp c <= 2 ^ 11 -> usual (mass nuc) w (map t_v track) ->
  countable fexp (electrons64 fexp mass w fano normals) c track nuc.
Proof.
  intros HN Hw Ff Bf Hg U rng. unfold electrons64.
  destruct (HN (length track) rng) as (Ln & Fn). destruct (normals (length track) rng) as [gs g']. cbn [fst] in *.
  destruct (counts_close (mass nuc) w (map t_v track) fano gs U Hw Ff Bf ltac:(now rewrite map_length) Fn) as (els & E & L & F).
  rewrite E, converted_some. rewrite map_length in L. split; [exact L|].
  intros e I P. destruct (forall2_in_l _ _ _ F e I) as ([x g] & Ixg & B). cbn [fst snd] in B.
  pose proof (in_combine_l _ _ _ _ Ixg) as Ix. pose proof (in_combine_r _ _ _ _ Ixg) as Ig.
  apply exact_le in Ix; [|exact U|lia]. rewrite Forall_forall in Fn. destruct (Fn g Ig) as (_ & Bg).
  pose proof (sqrt_bound x Ix) as S1.
  assert (S2 : (sqrt (R64 fano * (x + 1)) <= 2 ^ 21)%R).
  { apply Rle_trans with (2 := S1). apply sqrt_le_1_alt. apply Rle_trans with (1 * (x + 1))%R; [apply Rmult_le_compat_r; lra|lra]. }
  pose proof (sqrt_pos (R64 fano * (x + 1))) as S0. pose proof (Rabs_pos (R64 g)) as G0.
  assert (S3 : (sqrt (R64 fano * (x + 1)) * Rabs (R64 g) <= 2 ^ 21 * 32)%R) by (apply Rmult_le_compat; lra).
  unfold slack in B. apply Rabs_le_inv in B.
  assert (P40 : (2 ^ 40 = 1099511627776)%R) by ring. assert (P21 : (2 ^ 21 = 2097152)%R) by ring. rewrite P40 in Ix. rewrite P21 in S3.
  assert (E1 : e <= 2199023255552) by (apply le_IZR; lra).
  assert (E2 : 0 <= e * c_gain fexp c) by (apply Z.mul_nonneg_nonneg; lia).
  assert (E3 : e * c_gain fexp c <= 2199023255552 * 2048) by (apply Z.mul_le_mono_nonneg; lia).
  rewrite wrap64_id by (unfold two63; lia). lia.
Qed.

(** ** Drift times of rows in the detector *)
Lemma drift_in_range fexp dp ep dv g ed z : P_Detect.sane dp ep -> 1 <= ep_mm_edge ep ->
  drift_velocity (N := F64 fexp) (dp_length dp) (ep_windows_edge ep) (ep_mm_edge ep) = Ok dv ->
  around (dp_length dp) z ->
  rg dv (-60) 60 /\
  rg (drift_time fexp (Simulator.mkConfig fexp (dp_length dp) (dp_efield dp) (dp_diffusion dp) dv
            (dp_gain dp) (ep_mm_edge ep) g ed) z) (-60) 60.
Proof.
  intros (Fl & Bl & Em & Ew) M1 Ed (Fz & Bz).
  destruct (C31_velocity_binary64 fexp (dp_length dp) (ep_windows_edge ep) (ep_mm_edge ep) ltac:(lia) ltac:(lia) Fl)
    as (v & Ev & Fv & Rv). assert (v = dv) by congruence. subst v. clear Ed Ev.
  set (n := (ep_windows_edge ep - ep_mm_edge ep)%Z) in *.
  assert (Bn : (1 <= IZR n <= bpow radix2 20)%R).
  { rewrite <- IZR_pow2 by lia. split; [apply (IZR_le 1); lia|apply IZR_le; lia]. }
  set (len := R64 (dp_length dp)) in *.
  assert (B10 : (bpow radix2 (-10) = / 1024)%R) by reflexivity.
  assert (B1 : (bpow radix2 10 = 1024)%R) by reflexivity.
  assert (B20 : (bpow radix2 20 = 1048576)%R) by reflexivity.
  assert (B60 : (bpow radix2 60 = 1152921504606846976)%R) by reflexivity.
  assert (B60' : (bpow radix2 (-60) = / 1152921504606846976)%R) by reflexivity.
  rewrite B10, B1 in Bl. rewrite B20 in Bn.
  assert (Iv : (/ 1048576 <= / IZR n <= 1)%R).
  { split; [apply Rinv_le; lra|]. rewrite <- Rinv_1. apply Rinv_le; lra. }
  assert (Q : (/ 1024 * / 1048576 <= len / IZR n)%R) by (unfold Rdiv; apply Rmult_le_compat; lra).
  assert (Q' : (len / IZR n <= 1024 * 1)%R) by (unfold Rdiv; apply Rmult_le_compat; lra).
  assert (Small : (bpow radix2 (-1000) <= / 1024 * / 1048576)%R).
  { replace (/ 1024 * / 1048576)%R with (bpow radix2 (-30)); [apply bpow_le; lia|].
    change (-30) with (-10 + -20). rewrite bpow_plus. reflexivity. }
  destruct (rnd64_half (len / IZR n) ltac:(lra)) as (V1 & V2). rewrite <- Rv in V1, V2.
  assert (Pv : (0 < R64 dv)%R) by lra.
  split. { split; [exact Fv|]. rewrite B60, B60'. lra. }
  apply Rabs_le_inv in Bz. change (R64 (dp_length dp)) with len in Bz.
  destruct (fsub_fin (dp_length dp) z 12 Fl Fz ltac:(lia)) as (R1 & F1).
  { fold len. change (bpow radix2 12) with 4096%R. rewrite Rabs_pos_eq; lra. }
  fold len in R1.
  assert (A1 : (0 <= R64 (fsub (dp_length dp) z) <= 4 * len)%R).
  { rewrite R1. destruct (rnd64_half (2 * len) ltac:(lra)) as (_ & H2). split.
    - apply (rnd64_ge_fmt _ 0); [apply generic_format_0|lra].
    - apply Rle_trans with (rnd64 (2 * len)); [apply rnd64_le; lra|lra]. }
  set (a := R64 (fsub (dp_length dp) z)) in *.
  assert (A2 : (0 <= a / R64 dv <= bpow radix2 23)%R).
  { split; [apply Rmult_le_pos; [lra|apply Rlt_le, Rinv_0_lt_compat, Pv]|].
    apply Rmult_le_reg_r with (R64 dv); [exact Pv|]. unfold Rdiv. rewrite Rmult_assoc, Rinv_l, Rmult_1_r by lra.
    apply Rle_trans with (4 * len)%R; [lra|].
    apply Rle_trans with (bpow radix2 23 * (len / IZR n / 2))%R.
    - change (bpow radix2 23) with 8388608%R.
      assert (len / 1048576 <= len / IZR n)%R by (unfold Rdiv; apply Rmult_le_compat_l; lra). lra.
    - apply Rmult_le_compat_l; [apply bpow_ge_0|lra]. }
  destruct (fdiv_fin (fsub (dp_length dp) z) dv 23 F1 ltac:(lra) ltac:(lia)) as (R2 & F2).
  { fold a. rewrite Rabs_pos_eq; lra. }
  fold a in R2.
  assert (A3 : (0 <= R64 (fdiv (fsub (dp_length dp) z) dv) <= bpow radix2 23)%R).
  { rewrite R2. split; [apply (rnd64_ge_fmt _ 0); [apply generic_format_0|lra]|].
    apply rnd64_le_fmt; [apply fmt64_bpow; lia|lra]. }
  set (q := fdiv (fsub (dp_length dp) z) dv) in *.
  assert (Rm : R64 (f_of_Z (ep_mm_edge ep)) = IZR (ep_mm_edge ep)) by (apply f_of_Z_R; lia).
  assert (Fm : is_finite (f_of_Z (ep_mm_edge ep)) = true) by (apply f_of_Z_fin; lia).
  assert (Bm : (1 <= IZR (ep_mm_edge ep) <= 1048576)%R) by (split; apply IZR_le; lia).
  change (bpow radix2 23) with 8388608%R in A3.
  destruct (fadd_fin q (f_of_Z (ep_mm_edge ep)) 24 F2 Fm ltac:(lia)) as (R3 & F3).
  { rewrite Rm. change (bpow radix2 24) with 16777216%R. rewrite Rabs_pos_eq; lra. }
  match goal with |- rg ?t _ _ => change t with (fadd q (f_of_Z (ep_mm_edge ep))) end.
  split; [exact F3|]. rewrite R3, Rm. rewrite B60, B60'. split.
  - apply Rle_trans with 1%R; [lra|]. apply (rnd64_ge_fmt _ 1); [change 1%R with (bpow radix2 0); apply fmt64_bpow; lia|lra].
  - apply Rle_trans with 16777216%R; [|lra]. apply (rnd64_le_IZR _ 16777216); [lia|]. lra.
Qed.

(** ** With a Config *)
Section Config.
  Context (fexp : f64 -> f64) {V G Nuc : Type}.
  Notation config := (config fexp).
  Notation traj := (@traj vec64).
  Context (get_data : Z -> Z -> res Nuc)
    (generate_trajectory : @vertex V -> mom4 V -> Nuc -> config -> res (list traj))
    (mass : Nuc -> f64) (w : Z) (fano : f64)
    (normals : nat -> G -> list f64 * G)
    (uniform : nat -> G -> list f64 * G) (argsort : list f64 -> list nat).
  Context (Hu : draws_ok uniform) (Ha : argsort_ok argsort) (HN : normals_ok normals).
  Context (to_float : string -> option f64) (files : string -> option text) (resource : string -> text)
    (load : string -> res (grid * edges (F64 fexp))) (packaged : res (grid * edges (F64 fexp)))
    (dp : det_params) (ep : elec_params) (pp : pad_params) (fc : full_config fexp).
  Context (Hfc : make_config fexp to_float files resource load packaged dp ep pp = Ok fc).
  (** The packaged pad plane, or one of the same shape. *)
  Context (Hgrid : forall i j, -1 <= gr_cell (fc_grid fexp fc) i j < 10240)
    (Gr : gr_rows (fc_grid fexp fc) = 5600) (Gc : gr_cols (fc_grid fexp fc) = 5600)
    (Hed : fc_edges fexp fc = packaged_edges fexp).
  Context (Hs : P_Detect.sane dp ep) (Hmm : 1 <= ep_mm_edge ep) (Hth : Z.abs (ep_threshold ep) <= 2 ^ 53).
  (** Physical parameters: no diffusion, or 1e-18 to 1e18 V; field 1e-18 to 1e18 V/m; gain up to 2048. *)
  Context (Hexp : exp_ok fexp) (HD : fzero (dp_diffusion dp) \/ rg (dp_diffusion dp) (-60) 60)
    (HE : rg (dp_efield dp) (-60) 60) (Hgain : 0 <= dp_gain dp <= 2 ^ 11)
    (Hw : 1 <= w <= 2 ^ 53) (Hff : is_finite fano = true) (Hf : (0 <= R64 fano <= 1)%R).
  Notation electrons := (electrons64 fexp mass w fano normals).
  Notation sim := (sim fexp get_data generate_trajectory electrons uniform fc).

  (** The trajectory of nucleus [i] exists and stays in the detector, with momenta within the bounds of C75. *)
  Definition trackable (rows : list (mom4 V)) (v : @vertex V) (zs ms : list Z) (i : Z) : Prop :=
    py_index zs i = Ok 0 \/
    exists z a nuc p track, py_index zs i = Ok z /\ py_index ms i = Ok a /\ get_data z a = Ok nuc /\
      py_index rows i = Ok p /\ generate_trajectory v p nuc (sim_config fexp fc) = Ok track /\
      usual (mass nuc) w (map t_v track) /\
      forall t, In t track -> bnd (t_x t) 300 /\ bnd (t_y t) 300 /\ around (dp_length dp) (t_z t).

  Lemma config_fields : exists dv, drift_velocity (N := F64 fexp) (dp_length dp) (ep_windows_edge ep) (ep_mm_edge ep) = Ok dv /\
    sim_config fexp fc = Simulator.mkConfig fexp (dp_length dp) (dp_efield dp) (dp_diffusion dp) dv (dp_gain dp) (ep_mm_edge ep)
      (Some (fc_grid fexp fc)) (Some (packaged_edges fexp)).
  Proof using Hfc Hed.
    clear Hgrid Gr Gc. rewrite <- Hed. clear Hed. unfold make_config in Hfc.
    destruct (drift_velocity _ _ _) as [dv|] eqn:Ed; [|discriminate Hfc]. cbn [bind] in Hfc. exists dv. split; [reflexivity|].
    destruct (load_pad_grid _ _ _ _) as [[g ed]|]; [|discriminate Hfc]. cbn [bind] in Hfc.
    destruct (load_pad_centers _ _ _ _) as [cs|] eqn:E1; [|discriminate Hfc]. cbn [bind] in Hfc.
    destruct (load_pad_sizes _ _ _ _) as [ss|] eqn:E2; [|discriminate Hfc]. cbn [bind] in Hfc.
    assert (X : fc = mkFull fexp dp ep pp dv g ed cs ss) by congruence. rewrite X. reflexivity.
  Qed.

  (** C89: an event whose nuclei can be tracked is simulated without an exception or undefined behaviour. *)
  Theorem C89_event rows v zs ms rng idx : (forall i, In i idx -> trackable rows v zs ms i) ->
    exists cloud labels rng', sim rows v zs ms rng idx = Ok ((cloud, labels), rng').
  Proof using Hexp HD HE Hgain Hw Hff Hf HN Hfc Gr Gc Hed Hs Hmm.
    intros T. destruct config_fields as (dv & Ed & Ec). unfold P_Detect.sim.
    assert (Rg : forall z, around (dp_length dp) z -> rg dv (-60) 60 /\ rg (drift_time fexp (sim_config fexp fc) z) (-60) 60).
    { intros z A. rewrite Ec. apply (drift_in_range fexp dp ep dv (Some (fc_grid fexp fc)) (Some (packaged_edges fexp)) z Hs Hmm Ed A). }
    assert (Dv : rg dv (-60) 60).
    { apply (Rg (dp_length dp)). destruct Hs as (Fl & Bl & _). split; [exact Fl|]. rewrite Rabs_pos_eq; [lra|].
      apply Rle_trans with (2 := proj1 Bl). apply bpow_ge_0. }
    apply (C89_simulate fexp get_data generate_trajectory electrons uniform rows v zs ms (sim_config fexp fc) rng idx (fc_grid fexp fc) Hexp); try assumption.
    - rewrite Ec. reflexivity.
    - rewrite Ec. reflexivity.
    - rewrite Ec. cbn [c_diffusion c_efield c_drift]. split; [exact HD|]. split; assumption.
    - intros i I. destruct (T i I) as [Z|(z & a & nuc & p & track & Ez & Ea & En & Ep & Et & U & In)]; [left; exact Z|].
      right. exists z, a, nuc, p, track. repeat (split; [assumption|]). split.
      + intros t It. destruct (In t It) as (X & Y & A). split; [exact X|]. split; [exact Y|]. right. apply (Rg _ A).
      + apply C89_countable; try assumption. rewrite Ec. exact Hgain.
  Qed.

  (** C89: a run over a file whose events can be read and whose nuclei can be tracked runs to its end. *)
  Theorem C89_run resp max r0 disk d indices rng zs ms n nc cs :
    resp <> [] -> 1 <= max -> read_header d = Ok (zs, ms, n, nc, cs) ->
    (forall e, 0 <= e < n -> exists rows v, read_event d cs e = Ok (rows, v) /\
       P_Detect.contained fexp generate_trajectory dp fc rows v /\
       forall i, In i (nuclei_to_sim indices zs) -> trackable rows v zs ms i) ->
    exists w' rs rng',
      run_simulation sim (spyral_write fexp argsort fc) close d indices rng (init resp max r0 disk) = (w', Ok tt) /\
      simulated sim d zs ms cs (nuclei_to_sim indices zs) (zrange 0 n) rng rs rng' /\
      map (fun r => fst (fst r)) rs = zrange 0 n.
  Proof using All.
    intros NE M Hh Hev.
    assert (S : forall es g, (forall e, In e es -> 0 <= e < n) -> exists rs g',
      simulated sim d zs ms cs (nuclei_to_sim indices zs) es g rs g' /\ map (fun r => fst (fst r)) rs = es).
    { induction es as [|e es IH]; intros g He; [exists [], g; split; [constructor|reflexivity]|].
      destruct (Hev e (He e (or_introl eq_refl))) as (rows & v & Er & _ & Tr).
      destruct (C89_event rows v zs ms g (nuclei_to_sim indices zs) Tr) as (cloud & labels & g1 & E1).
      destruct (IH g1 (fun x I => He x (or_intror I))) as (rs & g2 & S & Q).
      exists ((e, cloud, labels) :: rs), g2. split; [econstructor; eassumption|]. cbn [map fst]. now rewrite Q. }
    destruct (S (zrange 0 n) rng) as (rs & g' & Sm & Q).
    { intros e I. apply in_zrange in I. lia. }
    destruct (C58_run fexp get_data generate_trajectory electrons uniform argsort Hu Ha to_float files resource load packaged dp ep pp fc Hfc Hgrid Hs Hth
      resp max r0 disk d indices rng zs ms n nc cs rs g' NE M Hh Sm) as (w' & _ & _ & _ & Er & _).
    { intros e rows v He Er. destruct (Hev e He) as (rows' & v' & Er' & C & _). assert (rows' = rows) by congruence. assert (v' = v) by congruence. subst rows' v'. exact C. }
    exists w', rs, g'. split; [exact Er|]. split; assumption.
  Qed.
End Config.

(** ** Examples *)
Section Example.
  Context (fexp : f64 -> f64) (Hexp : exp_ok fexp).
  Local Open Scope string_scope.
  Local Open Scope Z_scope.
  Local Open Scope list_scope.

  (** 1 m long, 45 kV/m, diffusion 1/4 V, gain 10, buckets 10 to 560; a plane of pads 300. *)
  Definition nf_dp (len : f64) : det_params := mkDet len (f_of_Z 45000) (f_of_Z 3) 10 (f_of_ZE 1 (-2)) (f_of_Z 0) (f_of_Z 34).
  Definition nf_ep : elec_params := mkElec (f_of_Z 6) 900 1000 10 560 5.
  Definition nf_grid : grid := mkGrid 5600 5600 (fun _ _ => 300).
  Definition nf_make (len : f64) := make_config fexp (fun _ => Some (f_of_Z 7)) (fun _ => None) (fun _ => [])
    (fun _ => Err ValueError) (Ok (nf_grid, packaged_edges fexp)) (nf_dp len) nf_ep e_pp.
  Definition nf_traj (v : @vertex Z) (p : mom4 Z) (n : Z) (c : config fexp) : res (list (@traj vec64)) := Ok al_track.

  Lemma nf_made len : is_finite len = true -> exists fc, nf_make len = Ok fc /\
    fc_grid fexp fc = nf_grid /\ fc_edges fexp fc = packaged_edges fexp.
  Proof.
    intros F. unfold nf_make, make_config.
    destruct (C31_velocity_binary64 fexp len 560 10 ltac:(lia) ltac:(lia) F) as (v & Ev & _).
    cbn [nf_dp nf_ep dp_length ep_windows_edge ep_mm_edge]. rewrite Ev.
    cbn [bind load_pad_grid e_pp pp_grid String.eqb DEFAULT Ascii.eqb Bool.eqb load_pad_centers load_pad_sizes
         pp_geometry pp_size tl fill_centers fill_sizes].
    eexists. split; [reflexivity|]. split; reflexivity.
  Qed.

  Lemma nf_rg x : is_finite x = true -> fleb (f_of_ZE 1 (-2)) x = true -> fleb x (f_of_Z 1000000) = true -> rg x (-60) 60.
  Proof.
    intros F A B. destruct (f_of_ZE_correct 1 (-2) ltac:(lia) ltac:(lia)) as (E & Fe).
    rewrite fleb_R in A, B by (assumption || (apply f_of_Z_fin; lia)). rewrite f_of_Z_R in B by lia. rewrite E in A.
    assert (LE : forall a b, Rle_bool a b = true -> (a <= b)%R) by (intros a b H; destruct (Rle_bool_spec a b); [assumption|discriminate H]).
    apply LE in A, B. change (bpow radix2 (-2)) with (/ 4)%R in A. split; [exact F|].
    change (bpow radix2 (-60)) with (/ 1152921504606846976)%R. change (bpow radix2 60) with 1152921504606846976%R. lra.
  Qed.

  (** The alpha particle of C76 in this detector, with a real Config. *)
  Example C89_example : exists fc, nf_make (f_of_Z 1) = Ok fc /\ forall rng, exists cloud labels rng',
    P_Detect.sim fexp (fun z a => Ok (100 * z + a)) nf_traj (electrons64 fexp al_mass 34 (f_of_Z 0) al_normals) ex_uniform fc
      [e_row 1] (0, 0, 0) [2] [4] rng [0] = Ok ((cloud, labels), rng').
  Proof using Hexp.
    destruct (nf_made (f_of_Z 1)) as (fc & Em & Eg & Ee); [apply f_of_Z_fin; lia|]. exists fc. split; [exact Em|]. intros rng.
    destruct al_moving as (U & _).
    assert (Z0 : R64 (f_of_Z 0) = 0%R) by (apply f_of_Z_R; lia).
    apply (C89_event fexp (fun z a => Ok (100 * z + a)) nf_traj al_mass 34 (f_of_Z 0) al_normals ex_uniform) with (2 := Em); try assumption.
    - intros n g. cbn [al_normals fst]. split; [apply repeat_length|].
      apply Forall_forall. intros u Hu. apply repeat_spec in Hu as ->.
      split; [apply f_of_Z_fin; lia|]. rewrite f_of_Z_R by lia. rewrite Rabs_pos_eq; lra.
    - rewrite Eg. reflexivity.
    - rewrite Eg. reflexivity.
    - unfold P_Detect.sane, nf_dp, nf_ep. cbn [dp_length ep_mm_edge ep_windows_edge].
      rewrite f_of_Z_R by lia. split; [apply f_of_Z_fin; lia|].
      change (bpow radix2 (-10)) with (/ 1024)%R. change (bpow radix2 10) with 1024%R. split; [lra|lia].
    - cbn. lia.
    - right. apply nf_rg; vm_compute; reflexivity.
    - apply nf_rg; vm_compute; reflexivity.
    - cbn. lia.
    - lia.
    - apply f_of_Z_fin; lia.
    - rewrite Z0. lra.
    - intros i [<-|[]]. right. exists 2, 4, 204, (e_row 1), al_track. repeat (split; [reflexivity|]). split; [exact U|].
      intros t It. assert (Tr : t_z t = half /\ t_x t = f_of_Z 0 /\ t_y t = f_of_Z 0) by (destruct It as [<-|[<-|[<-|[]]]]; repeat split).
      destruct Tr as (-> & -> & ->). destruct half_ok as (Fh & Bh).
      assert (B0 : bnd (f_of_Z 0) 300) by (split; [apply f_of_Z_fin; lia|rewrite Z0, Rabs_R0; apply bpow_ge_0]).
      split; [exact B0|]. split; [exact B0|]. split; [exact Fh|]. cbn [nf_dp dp_length]. rewrite f_of_Z_R by lia. apply Rabs_le. lra.
  Qed.

  (** The same detector half as long: the nucleus reaches z = 1 m, which the stopping conditions allow, and the run crashes. *)
  Definition nf_far : list (@traj vec64) := [al_row 3 0 0; mkTraj (f_of_Z 0) (f_of_Z 0) (f_of_Z 1) (mkVec64 (quarters 1) (quarters 1) (quarters 0))].
  Theorem C89_short_detector_refuted : exists fc, nf_make half = Ok fc /\ forall rng,
    P_Detect.sim fexp (fun z a => Ok (100 * z + a)) (fun (_ : @vertex Z) (_ : mom4 Z) (_ : Z) (_ : config fexp) => Ok nf_far)
      (electrons64 fexp al_mass 34 (f_of_Z 0) al_normals) ex_uniform fc
      [e_row 1] (0, 0, 0) [2] [4] rng [0] = Err UB.
  Proof using Hexp.
    destruct (nf_made half) as (fc & Em & Eg & Ee); [apply half_ok|]. exists fc. split; [exact Em|]. intros rng.
    destruct (config_fields fexp _ _ _ _ _ _ _ _ _ Em Ee) as (dv & Ed & Ec). unfold P_Detect.sim. rewrite Eg in Ec.
    assert (Dv : dv = fdiv half (f_of_Z 550)).
    { apply (f_equal (fun r => match r with Ok x => x | _ => f_of_Z 0 end)) in Ed. cbv beta match in Ed. rewrite <- Ed. apply same64_eq. vm_compute. reflexivity. }
    clear Ed. subst dv.
    assert (Rv : rg (fdiv half (f_of_Z 550)) (-60) 60).
    { assert (F : is_finite (fdiv half (f_of_Z 550)) = true) by (vm_compute; reflexivity). split; [exact F|].
      rewrite <- SF2R_B2SF. assert (E : B2SF (fdiv half (f_of_Z 550)) = SpecFloat.S754_finite false 8384883669867978 (-63)) by (vm_compute; reflexivity).
      rewrite E. unfold SF2R, F2R. cbn [Fnum Fexp cond_Zopp]. change (bpow radix2 (-63)) with (/ 9223372036854775808)%R.
      change (bpow radix2 (-60)) with (/ 1152921504606846976)%R. change (bpow radix2 60) with 1152921504606846976%R. lra. }
    assert (Z0 : R64 (f_of_Z 0) = 0%R) by (apply f_of_Z_R; lia).
    assert (El : forall c, electrons64 fexp al_mass 34 (f_of_Z 0) al_normals nf_far 204 c rng = ([0] ++ 20760555 :: [], rng + 1)).
    { intros c. unfold electrons64. cbn [al_normals]. apply pair_equal_spec. split; [|reflexivity].
      change (length nf_far) with 2%nat. unfold al_mass. cbn [nf_far map t_v al_row]. vm_compute. reflexivity. }
    assert (Ti : B2SF (Bopp (drift_time fexp (sim_config fexp fc) (f_of_Z 1))) = SpecFloat.S754_finite false 4749890231992320 (-43)).
    { rewrite Ec. vm_compute. reflexivity. }
    assert (Sb : sane_row (to_row fexp (sim_config fexp fc) (al_row 3 0 0))).
    { assert (B0 : bnd (f_of_Z 0) 300) by (split; [apply f_of_Z_fin; lia|rewrite Z0, Rabs_R0; apply bpow_ge_0]).
      split; [exact B0|]. split; [exact B0|]. right. rewrite Ec. apply nf_rg; vm_compute; reflexivity. }
    rewrite Ec in Ti, Sb |- *.
    match type of Ec with _ = ?c => refine (C89_negative_time_refuted fexp _ _ _ _ [e_row 1] (0, 0, 0) [2] [4] c rng 0 [] nf_grid 2 4 204 (e_row 1)
      [al_row 3 0 0] (mkTraj (f_of_Z 0) (f_of_Z 0) (f_of_Z 1) (mkVec64 (quarters 1) (quarters 1) (quarters 0))) [] [0] 20760555 [] (rng + 1)
      Hexp eq_refl eq_refl eq_refl eq_refl _ _ Rv eq_refl _ eq_refl eq_refl eq_refl eq_refl (El _) eq_refl eq_refl _ _ _ _) end.
    - apply nf_rg; vm_compute; reflexivity.
    - apply nf_rg; vm_compute; reflexivity.
    - lia.
    - intros t [<-|[]]. exact Sb.
    - intros e [<-|[]] H. lia.
    - lia.
    - split; [destruct (Bopp _); try discriminate Ti; reflexivity|]. cbn [t_z]. rewrite <- SF2R_B2SF, Ti.
      unfold SF2R, F2R. cbn [Fnum Fexp cond_Zopp]. change (bpow radix2 (-43)) with (/ 8796093022208)%R.
      change (bpow radix2 (-60)) with (/ 1152921504606846976)%R. change (bpow radix2 60) with 1152921504606846976%R. lra.
  Qed.
End Example.

Print Assumptions C89_simulate.
Print Assumptions C89_missing_data.
Print Assumptions C89_negative_time_refuted.
Print Assumptions C89_countable.
Print Assumptions C89_event.
Print Assumptions C89_run.
Print Assumptions C89_short_detector_refuted.
