(** P_Balance.v -- C95: from the beam energy to the numbers stored in the file, in binary64.
    C91 (kinematics to charge) and C90 (charge to stored integrals) on the same event. *)
From Coq Require Import ZArith Reals Lia Lra List.
From Flocq Require Import Core BinarySingleNaN.
From Verif Require Import MeshReal P_MeshF64.
From Verif Require Import PairingProofs P_Writer P_Detect P_NeverFails P_CalorDiff P_StoredCharge Base F64 F64Bounds Num Pairing BeamPads Transporter SpecTransport Simulator SpecSim
  Response Writer SpecWriter P_Response P_Cloud P_GetResponse P_Simulator P_Complete
  Reaction SpecReaction P_Reaction KinF64 P_KinF64 KinChain P_KinChain ElectronsF64 P_ElectronsF64 P_Allowed P_Shell P_EventF64 VectorF64 P_VectorF64
  KinFile SpecKinFile P_RunSim TransportF64 PositionProofs P_TransportF64 P_Calor P_SamplingF64 P_ResponseF64 P_StoredDiff StartF64 P_Budget.
Import ListNotations.
Local Open Scope R_scope.

Section Balance.
  (** The electronics (C90). *)
  Context (lexp lsin lcube : f64 -> f64) (e femto milli clock : f64) (again shaping : Z) (resp : list f64) (peak : R).
  Hypothesis (LA : libm_accurate lexp lsin lcube) (OK : params_ok e femto milli clock again shaping).
  Hypothesis (GR : get_response (N := F64 lexp) lsin lcube e femto milli again shaping clock = Ok resp).
  Hypothesis (HP : forall i, (i < 512)%nat -> exact_sample e femto milli clock again shaping i <= peak)
             (EP : exists i, (i < 512)%nat /\ exact_sample e femto milli clock again shaping i = peak).
  Notation c1 := (c1_of e femto again).
  (** The reaction (C91). *)
  Context (sq sn cs : f64 -> f64) (g E0 : R).
  Hypothesis (Hok : pow_ok sq) (Hall : pow_all sq) (Htr : trig_ok sn cs).
  Hypothesis (G1 : 1 <= g) (G2 : g ^ 2 <= 2 ^ 23) (H0 : 2 <= E0 <= 2 ^ 20) (Ht : tau_v g E0 <= / 2).
  Notation t := (tau_v g E0).
  Notation event := (event64 sq sn cs (boost_v sq) (rest_v sq) (mass_v sq)).
  Context (r : reaction_masses) (ds : list decay_masses) (T th ph ex : f64) (ps : list (f64 * f64 * f64)).
  Hypothesis (So : start_ok E0 r T) (Ab : above_threshold t r T ex)
    (Op : open_ g E0 (2 * t) (cm_total (R64 (rm_target r)) (R64 (rm_projectile r)) (R64 T)) (rm_ejectile r) (rm_residual r) ex th ph)
    (Oc : open_chain g E0 (2 * t) (R64 (rm_residual r) + R64 ex) ds ps) (Few : (length ds <= 1000)%nat).
  (** The detector. *)
  Context (fexp : f64 -> f64) (Hexp : P_MeshF64.exp_near fexp) {G Nuc : Type}.
  Context (get_data : Z -> Z -> res Nuc) (mass : Nuc -> f64)
    (ivp : (f64 * f64 * f64) * vec64 -> Nuc -> config fexp -> res (list (@traj vec64))) (w : Z) (fano : f64)
    (normals : nat -> G -> list f64 * G) (uniform : nat -> G -> list f64 * G) (argsort : list f64 -> list nat).
  Notation trajectory := (generate_trajectory64 fexp mass ivp).
  Notation sim := (simulate fexp get_data trajectory (electrons64 fexp mass w fano normals) uniform).
  Notation available := (available r ds T ex ps mass).
  Notation tolerance := (tolerance g E0 ds).

  (** C95: the integrals stored for an event are the area of the response times the electrons kept;
      kept and lost ones together are the gain times the available energy of the event over W. *)
  Theorem C95_stored : exists rows, event r ds T th ph ex ps = Ok (Some rows) /\
    forall vertex zs ms c rng gr ge cloud labels rng' wc centers stored_rows labs, length zs = length rows ->
    c_grid fexp c = Some gr -> c_edges fexp c = Some ge -> (forall i j, (-1 <= gr_cell gr i j < 2 ^ 26)%Z) ->
    near fexp trajectory rows vertex c -> draws_ok uniform -> normals_ok normals ->
    (1 <= w <= 2 ^ 53)%Z -> is_finite fano = true -> 0 <= R64 fano <= 1 -> (0 <= c_gain fexp c)%Z ->
    (forall p nuc track, In p rows -> trajectory vertex p nuc c = Ok track ->
       usual (mass nuc) w (map t_v track) /\
       forall t, In t track -> good_width (fexp := fexp) (c_diffusion fexp c) (c_efield fexp c) (c_drift fexp c) (to_row fexp c t)) ->
    slows_down fexp mass ivp c -> same_masses r ds ex ps get_data mass zs ms ->
    sim rows vertex zs ms c rng (nuclei_to_sim None zs) = Ok ((cloud, labels), rng') ->
    argsort_ok argsort -> config_ok wc -> wc_centers wc = Some centers ->
    process fexp argsort resp wc cloud labels = Ok (stored_rows, labs) ->
    exists hs, Forall2 (made fexp get_data trajectory rows vertex zs ms c) (filter (is_charged zs) (nuclei_to_sim None zs)) hs /\
      let gain := IZR (c_gain fexp c) in
      let per_mev := 10 ^ 6 / IZR w in
      let slack := P_Calor.total (h_slack mass w fano) hs in
      let stored := P_Calor.sumR (map (fun r => R64 (s_int r)) stored_rows) in
      gain * ((available rows zs hs + tolerance) * per_mev + slack) <= 2 ^ 53 ->
      (forall p, In p cloud -> R64 (p_el p) * peak <= 4095) ->
      exists kept lost,
        Rabs (stored - area e femto milli clock again shaping * kept) <= kept * c1 / 2 ^ 37 /\
        0 <= kept /\ 0 <= lost /\ kept + lost <= gain * ((available rows zs hs + tolerance) * per_mev + slack) /\
        (Forall (contained_diff fexp gr ge c) hs ->
           9978 / 10000 * (gain * ((available rows zs hs - tolerance) * per_mev - slack)) - 100 * P_Calor.total rows_of hs <= kept + lost) /\
        lost * (peak - c1 / 2 ^ 47) <= IZR (Z.of_nat (length cloud) - Z.of_nat (length stored_rows)) * IZR (wc_threshold wc).
  Proof using LA OK GR HP EP Hok Hall Htr G1 G2 H0 Ht So Ab Op Oc Few Hexp.
    destruct (event_rows sq sn cs g E0 Hok Hall Htr G1 G2 H0 Ht r ds T th ph ex ps So Ab Op Oc Few) as (rows & Ev & _). exists rows. split; [exact Ev|].
    intros vertex zs ms c rng gr ge cloud labels rng' wc centers srows labs Lz Hg He Hp Hn Hu HN Hw Ff Bf Gp Htk Sl Sm H Ha Hc Ec P.
    destruct (C90_energy lexp lsin lcube e femto milli clock again shaping resp peak LA OK GR HP EP fexp Hexp get_data trajectory mass w fano normals uniform argsort
      rows vertex zs ms c rng (nuclei_to_sim None zs) gr ge cloud labels rng' wc centers srows labs Hg He Hp Hn Hu HN Hw Ff Bf Gp Htk H Ha Hc Ec P) as (hs & A & B).
    exists hs. split; [exact A|]. cbv zeta in B |- *.
    pose proof (energy_near sq sn cs g E0 Hok Hall Htr G1 G2 H0 Ht r ds T th ph ex ps So Ab Op Oc Few fexp get_data mass ivp w
      rows vertex zs ms c hs Ev Lz ltac:(lia) Sl Sm A) as Near.
    intros Sm53 Un. assert (Gr : 0 <= IZR (c_gain fexp c)) by (apply (IZR_le 0); exact Gp). set (k := 10 ^ 6 / IZR w) in *.
    set (gn := IZR (c_gain fexp c)) in *. set (xx := P_Calor.total (h_exact mass w) hs) in *. set (sl := P_Calor.total (h_slack mass w fano) hs) in *.
    set (av := available rows zs hs) in *. set (tl := tolerance) in *. apply Rabs_le_inv in Near.
    assert (Up : gn * (xx + sl) <= gn * ((av + tl) * k + sl)) by (apply Rmult_le_compat_l; lra).
    assert (Lo : gn * ((av - tl) * k - sl) <= gn * (xx - sl)) by (apply Rmult_le_compat_l; lra).
    destruct B as (kept & lost & K1 & K2 & K3 & K4 & K5 & K6); [lra|exact Un|].
    exists kept, lost. split; [exact K1|]. split; [exact K2|]. split; [exact K3|]. split; [lra|]. split; [|exact K6].
    intros Cn. specialize (K5 Cn). lra.
  Qed.
End Balance.

(** ** Example: the event of C91_example (100 MeV on a target of mass 1876), W = 340 eV, gain 10 *)
Section Example.
  Notation fexp := ideal_exp.
  Local Open Scope Z_scope.

  Lemma sum_part (l : list point) p : (forall q, In q l -> (0 <= R64 (p_el q))%R) -> In p l -> (R64 (p_el p) <= P_Calor.sumR (map (fun p => R64 (p_el p)) l))%R.
  Proof.
    assert (X : forall l : list point, (forall q, In q l -> (0 <= R64 (p_el q))%R) -> (0 <= P_Calor.sumR (map (fun p => R64 (p_el p)) l))%R).
    { clear. induction l as [|q l IH]; intros N; [unfold P_Calor.sumR; simpl; lra|]. cbn [map]. rewrite P_Calor.sumR_cons.
      specialize (IH (fun q I => N q (or_intror I))). specialize (N q (or_introl eq_refl)). lra. }
    induction l as [|q l IH]; intros Nn Ip; [destruct Ip|]. cbn [map]. rewrite P_Calor.sumR_cons.
    assert (0 <= R64 (p_el q))%R by (apply Nn; now left). specialize (X l (fun q I => Nn q (or_intror I))).
    destruct Ip as [->|Ip]; [lra|]. specialize (IH (fun q I => Nn q (or_intror I)) Ip). lra.
  Qed.

  Example C95_example : exists resp peak rows cloud labels rng' stored_rows labs kept lost,
    get_response (N := F64 exp_r) sin_r cube_r e_r femto_r milli_r 900 1000 clock_r = Ok resp /\
    bu_event = Ok (Some rows) /\
    bu_sim 340 rows bu_vertex bu_zs bu_ms cd_config 0 (nuclei_to_sim None bu_zs) = Ok ((cloud, labels), rng') /\
    process fexp the_sort resp sd_wc cloud labels = Ok (stored_rows, labs) /\
    (Rabs (P_Calor.sumR (map (fun r => R64 (s_int r)) stored_rows) - area e_r femto_r milli_r clock_r 900 1000 * kept) <= kept * c1_of e_r femto_r 900 / 2 ^ 37 /\
     2440000 <= kept + lost <= 2500000 /\
     lost * (peak - c1_of e_r femto_r 900 / 2 ^ 47) <= IZR (Z.of_nat (length cloud) - Z.of_nat (length stored_rows)) * 5)%R.
  Proof.
    destruct bu_reaction as (Ht & So & Ab & Op & Oc & Few).
    destruct (bu_setting 340 ltac:(lia)) as (rows & cloud & labels & rng' & Ev & Lz & E & Gd & Nr & HU & HN & Gw & Sm & Facts).
    assert (Z0 : R64 (f_of_Z 0) = 0%R) by (apply f_of_Z_R; lia). assert (F0 : is_finite (f_of_Z 0) = true) by (apply f_of_Z_fin; lia).
    destruct (C16_cloud_shape fexp bu_data bu_traj _ ex_uniform rows bu_vertex bu_zs bu_ms cd_config 0 (nuclei_to_sim None bu_zs) nf_grid (packaged_edges fexp)
      cloud labels rng' eq_refl eq_refl Gd Nr HU E) as (Ll & Shape).
    destruct (C82_samples exp_r sin_r cube_r e_r femto_r milli_r clock_r 900 1000 C82_libm C82_params) as (resp & Gr & _ & RO & _).
    destruct (peak_exists (exact_sample e_r femto_r milli_r clock_r 900 1000) 511) as (pk & HP & EP).
    assert (Cfg : config_ok sd_wc).
    { unfold config_ok, sd_wc. cbn [wc_windows_edge wc_mm_edge wc_threshold wc_length].
      split; [lia|]. split; [lia|]. split; [lia|]. split; [lia|]. split; [apply f_of_Z_fin; lia|].
      rewrite f_of_Z_R by lia. rewrite Rabs_pos_eq by lra. change 1%R with (bpow radix2 0). apply bpow_le. lia. }
    destruct (P_Detect.process_ok fexp the_sort resp sd_wc (repeat (f_of_Z 0, f_of_Z 0) 301) cloud labels) as ([srows labs] & P).
    { apply argsort_exists. } { apply RO. } { exact Cfg. } { reflexivity. }
    { apply Forall_forall. intros p Ip. destruct (Shape p Ip) as ((pad & i & j & Ep & _ & _ & Ec & Np & _) & Ft & Bt).
      assert (pad = 300) by (rewrite <- Ec; reflexivity). subst pad. split; [|split; [exact Ft|]].
      - exists 300%nat. change (Z.of_nat 300) with 300. split; [rewrite Ep; apply f_to_Z_of_Z; lia|].
        cbn [sd_wc wc_sizes]. rewrite !repeat_length. lia.
      - rewrite Rabs_pos_eq by apply Bt. apply Rlt_le, Rlt_le_trans with 512%R; [apply Bt|].
        change 512%R with (bpow radix2 9). apply bpow_le. lia. }
    { congruence. }
    pose proof bu_tolerance as To. assert (P53 : (2 ^ 53 = 9007199254740992)%R) by ring.
    assert (Unsat : forall p, In p cloud -> (R64 (p_el p) * pk <= 4095)%R).
    { destruct (C88_charge fexp ideal_exp_near bu_data bu_traj bu_mass 340 (f_of_Z 0) al_normals ex_uniform
        rows bu_vertex bu_zs bu_ms cd_config 0 (nuclei_to_sim None bu_zs) nf_grid (packaged_edges fexp) cloud labels rng' eq_refl eq_refl Gd Nr HU HN ltac:(lia) F0 ltac:(lra) ltac:(cbn; lia) Gw E)
        as (hs & A & B). cbv zeta in B. change (IZR (c_gain fexp cd_config)) with 10%R in B. destruct (Facts hs A) as (S8 & R4 & Av & Cn). rewrite S8 in B.
      pose proof (energy_near bu_sq bu_sin bu_cos 2 16384 mul_pow_ok mul_pow_all bu_trig ltac:(lra) ltac:(lra) ltac:(lra) Ht
        bu_r bu_ds (f_of_Z 100) (f_of_Z 0) (f_of_Z 0) (f_of_Z 5) bu_ps So Ab Op Oc Few fexp bu_data bu_mass bu_ivp 340
        rows bu_vertex bu_zs bu_ms cd_config hs Ev Lz ltac:(lia) (bu_slows _) Sm A) as Near. apply Rabs_le_inv in Near.
      destruct B as (Wh & Up & _); [lra|]. intros p Ip.
      assert (Nn : forall q, In q cloud -> (0 <= R64 (p_el q))%R).
      { intros q Iq. destruct (Wh q Iq) as (z & Hz & ->). rewrite f_of_Z_R by lia. apply IZR_le. lia. }
      pose proof (sum_part cloud p Nn Ip) as Le. pose proof sd_c1 as C1.
      assert (Pk : (pk <= 112 / 100000)%R).
      { destruct EP as (i & Hi & <-). unfold exact_sample.
        assert (T0 : (0 <= time i / width_of milli_r clock_r 1000)%R).
        { destruct (width_close e_r femto_r milli_r clock_r 900 1000 C82_params) as (_ & _ & HW). pose proof (bpow_gt_0 radix2 (-19)) as P19.
          apply Rmult_le_pos; [unfold time; apply Rmult_le_pos; [apply pos_INR|lra]|left; apply Rinv_0_lt_compat; lra]. }
        destruct (formula_bounds (c1_of e_r femto_r 900) _ ltac:(lra) T0) as (_ & B2). eapply Rle_trans; [exact B2|].
        apply Rle_trans with (c1_of e_r femto_r 900 * 1)%R; [|lra]. apply Rmult_le_compat_l; [lra|].
        rewrite <- exp_0. left. apply exp_increasing. lra. }
      specialize (Nn p Ip). apply Rle_trans with (R64 (p_el p) * (112 / 100000))%R; [apply Rmult_le_compat_l; lra|].
      apply Rle_trans with (2640000 * (112 / 100000))%R; [apply Rmult_le_compat_r; lra|lra]. }
    destruct (C95_stored exp_r sin_r cube_r e_r femto_r milli_r clock_r 900 1000 resp pk C82_libm C82_params Gr HP EP
      bu_sq bu_sin bu_cos 2 16384 mul_pow_ok mul_pow_all bu_trig ltac:(lra) ltac:(lra) ltac:(lra) Ht
      bu_r bu_ds (f_of_Z 100) (f_of_Z 0) (f_of_Z 0) (f_of_Z 5) bu_ps So Ab Op Oc Few fexp ideal_exp_near bu_data bu_mass bu_ivp 340 (f_of_Z 0) al_normals ex_uniform the_sort) as (rows' & Ev' & Main).
    unfold bu_event in Ev. assert (rows' = rows) by congruence. subst rows'.
    destruct (Main bu_vertex bu_zs bu_ms cd_config 0 nf_grid (packaged_edges fexp) cloud labels rng' sd_wc _ srows labs Lz eq_refl eq_refl Gd Nr HU HN
        ltac:(lia) F0 ltac:(lra) ltac:(cbn; lia) Gw (bu_slows _) Sm E argsort_exists Cfg eq_refl P) as (hs & A & B).
    destruct (Facts hs A) as (S8 & R4 & Av & Cn). cbv zeta in B. change (IZR (c_gain fexp cd_config)) with 10%R in B. rewrite S8, R4 in B.
    destruct B as (kept & lost & K1 & K2 & K3 & K4 & K5 & K6); [lra|exact Unsat|]. specialize (K5 Cn).
    exists resp, pk, rows, cloud, labels, rng', srows, labs, kept, lost. split; [exact Gr|]. split; [exact Ev|]. split; [exact E|]. split; [exact P|]. split; [exact K1|].
    split; [|exact K6]. split; lra.
  Qed.
End Example.

Print Assumptions C95_stored.
