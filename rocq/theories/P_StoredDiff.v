(** P_StoredDiff.v -- C90: with diffusion, what is stored still measures the energy lost in the gas. *)
From Coq Require Import ZArith Reals Lia Lra List Permutation.
From Flocq Require Import Core BinarySingleNaN.
From Verif Require Import MeshReal P_MeshF64.
From Verif Require Import PairingProofs P_Writer P_Detect P_NeverFails P_CalorDiff P_StoredCharge Base F64 F64Bounds Num Pairing BeamPads Transporter SpecTransport Simulator SpecSim
  Response Writer SpecWriter P_Response P_Cloud P_GetResponse P_Simulator P_Complete P_KinF64 ElectronsF64 P_ElectronsF64
  TransportF64 PositionProofs P_TransportF64 P_Calor P_SamplingF64 P_ResponseF64.
Import ListNotations.
Local Open Scope R_scope.

Section EnergyDiff.
  Context (lexp lsin lcube : f64 -> f64) (e femto milli clock : f64) (again shaping : Z) (resp : list f64) (peak : R).
  Hypothesis (LA : libm_accurate lexp lsin lcube) (OK : params_ok e femto milli clock again shaping).
  Hypothesis (GR : get_response (N := F64 lexp) lsin lcube e femto milli again shaping clock = Ok resp).
  Hypothesis (HP : forall i, (i < 512)%nat -> exact_sample e femto milli clock again shaping i <= peak)
             (EP : exists i, (i < 512)%nat /\ exact_sample e femto milli clock again shaping i = peak).
  Notation c1 := (c1_of e femto again).
  Context (fexp : f64 -> f64) (Hexp : P_MeshF64.exp_near fexp) {G Nuc Mom Vtx : Type}.
  Context (get_data : Z -> Z -> res Nuc)
    (generate_trajectory : Vtx -> Mom -> Nuc -> config fexp -> res (list (@traj vec64)))
    (mass : Nuc -> f64) (w : Z) (fano : f64)
    (normals : nat -> G -> list f64 * G) (uniform : nat -> G -> list f64 * G) (argsort : list f64 -> list nat).
  Notation sim := (simulate fexp get_data generate_trajectory (electrons64 fexp mass w fano normals) uniform).

  (** C90: as C83_energy, with diffusion of resolvable width. *)
  Theorem C90_energy momenta vertex zs ms c rng indices g ge cloud labels rng' wc centers rows labs :
    c_grid fexp c = Some g -> c_edges fexp c = Some ge -> (forall i j, (-1 <= gr_cell g i j < 2 ^ 26)%Z) ->
    near fexp generate_trajectory momenta vertex c -> draws_ok uniform -> normals_ok normals ->
    (1 <= w <= 2 ^ 53)%Z -> is_finite fano = true -> 0 <= R64 fano <= 1 -> (0 <= c_gain fexp c)%Z ->
    (forall p nuc track, In p momenta -> generate_trajectory vertex p nuc c = Ok track ->
       usual (mass nuc) w (map t_v track) /\
       forall t, In t track -> good_width (fexp := fexp) (c_diffusion fexp c) (c_efield fexp c) (c_drift fexp c) (to_row fexp c t)) ->
    sim momenta vertex zs ms c rng indices = Ok ((cloud, labels), rng') ->
    argsort_ok argsort -> config_ok wc -> wc_centers wc = Some centers ->
    process fexp argsort resp wc cloud labels = Ok (rows, labs) ->
    exists hs, Forall2 (P_Calor.made fexp get_data generate_trajectory momenta vertex zs ms c) (filter (is_charged zs) indices) hs /\
      let gain := IZR (c_gain fexp c) in
      let made := P_Calor.total (h_exact mass w) hs in
      let unsure := P_Calor.total (h_slack mass w fano) hs in
      let stored := sumR (map (fun r => R64 (s_int r)) rows) in
      (gain * (made + unsure) <= 2 ^ 53 -> (forall p, In p cloud -> R64 (p_el p) * peak <= 4095) ->
       exists kept lost,
         Rabs (stored - area e femto milli clock again shaping * kept) <= kept * c1 / 2 ^ 37 /\
         0 <= kept /\ 0 <= lost /\ kept + lost <= gain * (made + unsure) /\
         (Forall (contained_diff fexp g ge c) hs ->
            9978 / 10000 * (gain * (made - unsure)) - 100 * P_Calor.total rows_of hs <= kept + lost) /\
         lost * (peak - c1 / 2 ^ 47) <= IZR (Z.of_nat (length cloud) - Z.of_nat (length rows)) * IZR (wc_threshold wc)).
  Proof using LA OK GR HP EP Hexp.
    intros Hg He Hp Hn Hu HN Hw Ff Bf Gp Ht S Ha Hc Ec P.
    destruct (C16_cloud_shape fexp get_data generate_trajectory _ uniform momenta vertex zs ms c rng indices g ge cloud labels rng' Hg He Hp Hn Hu S) as (_ & Shape).
    destruct (C88_charge fexp Hexp get_data generate_trajectory mass w fano normals uniform momenta vertex zs ms c rng indices g ge cloud labels rng'
                Hg He Hp Hn Hu HN Hw Ff Bf Gp Ht S) as (hs & A & B).
    exists hs. split; [exact A|]. cbv zeta in *. intros Small Unsat. destruct (B Small) as (Wh & Up & Lo).
    assert (Wl : forall p, In p cloud -> whole p /\ 0 <= R64 (p_el p)).
    { intros p I. destruct (Wh p I) as (z & Hz & E). unfold whole. rewrite E, f_of_Z_R by lia. split; [split; [apply f_of_Z_fin; lia|]|apply IZR_le; lia].
      destruct (Z.eq_dec z 0) as [->|N]; [now left|right; apply IZR_le; lia]. }
    destruct (C83_rows lexp lsin lcube e femto milli clock again shaping resp peak LA OK GR HP EP fexp argsort wc centers cloud labels rows labs Ha Hc Ec)
      as (kept & dropped & Pm & F & K & Dr); [|exact P|].
    { intros p I. destruct (Shape p I) as (_ & Ft & Bt). split; [apply (Wl p I)|]. split; [exact Ft|]. rewrite Rabs_pos_eq by lra.
      apply Rle_trans with (bpow radix2 9); [change (bpow radix2 9) with 512; lra|apply bpow_le; lia]. }
    assert (Ik : forall p, In p kept -> In p cloud) by (intros p I; eapply Permutation_in; [apply Permutation_sym, Pm|]; apply in_or_app; now left).
    assert (Id : forall p, In p dropped -> In p cloud) by (intros p I; eapply Permutation_in; [apply Permutation_sym, Pm|]; apply in_or_app; now right).
    assert (Ch : sumR (map (fun p => R64 (p_el p)) cloud) = charge kept + charge dropped).
    { unfold charge. rewrite <- sumR_app, <- map_app. apply sumR_perm. now apply Permutation_map. }
    assert (Pos : forall l, (forall p, In p l -> In p cloud) -> 0 <= charge l).
    { unfold charge. induction l as [|p l IH]; intros I; [unfold sumR; simpl; lra|]. cbn [map]. rewrite sumR_cons.
      destruct (Wl p (I p (or_introl eq_refl))) as (_ & Q). assert (0 <= sumR (map (fun p => R64 (p_el p)) l)) by (apply IH; intros p' I'; apply I; now right). lra. }
    exists (charge kept), (charge dropped). rewrite <- Ch.
    split; [|split; [apply Pos, Ik|split; [apply Pos, Id|split; [exact Up|split; [exact Lo|]]]]].
    - apply (C83_total e femto milli clock again shaping peak HP kept rows F). apply Forall_forall. intros p I. split; [apply (Wl p (Ik p I))|apply Unsat, Ik, I].
    - assert (Ln : (Z.of_nat (length cloud) - Z.of_nat (length rows) = Z.of_nat (length dropped))%Z).
      { apply Permutation_length in Pm. rewrite app_length in Pm. assert (length kept = length rows) by (clear - F; induction F; simpl; congruence). lia. }
      rewrite Ln. clear - Dr Unsat Id. unfold charge. induction Dr as [|p l H _ IH]; [unfold sumR; simpl; lra|].
      cbn [map length]. rewrite sumR_cons, Nat2Z.inj_succ, <- Z.add_1_l, plus_IZR.
      rewrite Rmin_right in H by (apply Unsat, Id; now left). specialize (IH (fun p' I => Id p' (or_intror I))).
      assert (R64 (p_el p) * (peak - c1 / 2 ^ 47) <= IZR (wc_threshold wc)) by (unfold Rdiv in *; lra). lra.
  Qed.
End EnergyDiff.


(** ** Example: an alpha particle that loses 8.7 MeV, with diffusion, through the whole chain. *)
Section Example.
  Notation fexp := ideal_exp.
  Local Open Scope Z_scope.
  Local Open Scope list_scope.
  Definition sd_slow : vec64 := mkVec64 (f_of_ZE 191 (-8)) (quarters 0) (quarters 0).
  Definition sd_track : list (@traj vec64) := [al_row 3 0 0; mkTraj (f_of_Z 0) (f_of_Z 0) half sd_slow].
  Definition sd_traj (v : unit) (m n : Z) (c : config fexp) : res (list (@traj vec64)) := Ok sd_track.
  Definition sd_sim := simulate fexp (fun z a => Ok (100 * z + a)) sd_traj
    (electrons64 fexp al_mass 34 (f_of_Z 0) al_normals) ex_uniform.
  Definition sd_wc : wconfig :=
    mkWconfig 560 1 (f_of_Z 1) 5 (Some (repeat (f_of_Z 0, f_of_Z 0) 301)) (repeat (f_of_Z 1) 301).

  Lemma sd_moving : usual (f_of_Z 3728) 34 (map t_v sd_track) /\ lorentz_factor (t_v (al_row 3 0 0)) = (5 / 4)%R /\
    (12476 / 10000 <= lorentz_factor sd_slow <= 12477 / 10000)%R.
  Proof.
    assert (Em : R64 (f_of_Z 3728) = 3728%R) by (apply f_of_Z_R; lia).
    destruct (quarters_R 0 ltac:(lia)) as (E0 & F0). destruct (quarters_R 3 ltac:(lia)) as (E3 & F3).
    destruct (f_of_ZE_correct 191 (-8) ltac:(lia) ltac:(lia)) as (Es & Fs). change (bpow radix2 (-8)) with (/ 256)%R in Es.
    assert (A1 : momentum2 (t_v (al_row 3 0 0)) = (9 / 16)%R) by (unfold momentum2; cbn [al_row t_v vx64 vy64 vz64]; rewrite E0, E3; lra).
    assert (A2 : momentum2 sd_slow = (36481 / 65536)%R) by (unfold momentum2; cbn [sd_slow vx64 vy64 vz64]; rewrite E0, Es; lra).
    pose proof (inv_pow_le 4 200 ltac:(lia)) as I4. assert (G4 : (1 <= 2 ^ 200)%R) by (apply pow_R1_Rle; lra).
    assert (SQ : sqrt (25 / 16) = (5 / 4)%R) by (replace (25 / 16)%R with (5 / 4 * (5 / 4))%R by lra; apply sqrt_square; lra).
    assert (L1 : lorentz_factor (t_v (al_row 3 0 0)) = (5 / 4)%R) by (unfold lorentz_factor; rewrite A1, <- SQ; f_equal; lra).
    assert (L2 : (12476 / 10000 <= lorentz_factor sd_slow <= 12477 / 10000)%R).
    { unfold lorentz_factor. rewrite A2. split.
      - replace (12476 / 10000)%R with (sqrt (12476 / 10000 * (12476 / 10000))) by (apply sqrt_square; lra). apply sqrt_le_1_alt. lra.
      - replace (12477 / 10000)%R with (sqrt (12477 / 10000 * (12477 / 10000))) by (apply sqrt_square; lra). apply sqrt_le_1_alt. lra. }
    split; [|auto]. split; [apply f_of_Z_fin; lia|]. rewrite Em.
    assert (P100 : (3728 <= 2 ^ 100)%R).
    { apply Rle_trans with (2 ^ 12)%R; [assert (2 ^ 12 = 4096)%R by ring; lra|apply Rle_pow; [lra|lia]]. }
    split; [lra|]. assert (P40 : (2 ^ 40 = 1099511627776)%R) by ring.
    intros p I. cbn [sd_track map] in I. destruct I as [<-|[<-|[]]].
    - split; [|rewrite L1; lra]. repeat split; first [exact F3 | exact F0 | rewrite A1; lra].
    - split; [|cbn [t_v]; lra]. cbn [t_v]. repeat split; first [exact Fs | exact F0 | rewrite A2; lra].
  Qed.

  Lemma sd_c1 : (0 <= c1_of e_r femto_r 900 <= 112 / 100000)%R.
  Proof.
    assert (P28 : (10 ^ 28 = 10000000000000000000000000000)%R) by (rewrite pow_IZR; reflexivity).
    destruct (rounded_range (1602176634 / 10 ^ 28) (-63) (-62)) as (F1 & H1); try lia.
    { rewrite P28. change (bpow radix2 (-63)) with (/ 9223372036854775808)%R. change (bpow radix2 (-62)) with (/ 4611686018427387904)%R. lra. }
    destruct (rounded_range (/ 10 ^ 15) (-50) (-49)) as (F2 & H2); try lia.
    { rewrite pow_IZR. change (bpow radix2 (-50)) with (/ 1125899906842624)%R. change (bpow radix2 (-49)) with (/ 562949953421312)%R. 
      change (10 ^ Z.of_nat 15)%Z with 1000000000000000%Z. lra. }
    fold e_r in F1, H1. fold femto_r in F2, H2.
    change (bpow radix2 (-63)) with (/ 9223372036854775808)%R in H1. change (bpow radix2 (-62)) with (/ 4611686018427387904)%R in H1.
    change (bpow radix2 (-50)) with (/ 1125899906842624)%R in H2. change (bpow radix2 (-49)) with (/ 562949953421312)%R in H2.
    unfold c1_of. assert (I2 : (/ R64 femto_r <= 1125899906842624)%R).
    { rewrite <- (Rinv_inv 1125899906842624). apply Rinv_le_contravar; lra. }
    assert (P2 : (0 < / R64 femto_r)%R) by (apply Rinv_0_lt_compat; lra).
    unfold Rdiv. split; [repeat apply Rmult_le_pos; lra|].
    apply Rle_trans with (4095 * / 4611686018427387904 * / 900 * 1125899906842624)%R; [|lra].
    apply Rmult_le_compat; try lra.
  Qed.

  Example C90_example : exists resp peak cloud labels rng' rows labs kept lost,
    get_response (N := F64 exp_r) sin_r cube_r e_r femto_r milli_r 900 1000 clock_r = Ok resp /\
    sd_sim [0] tt [2] [4] cd_config 0 [0] = Ok ((cloud, labels), rng') /\
    process fexp the_sort resp sd_wc cloud labels = Ok (rows, labs) /\
    (Rabs (sumR (map (fun r => R64 (s_int r)) rows) - area e_r femto_r milli_r clock_r 900 1000 * kept) <= kept * c1_of e_r femto_r 900 / 2 ^ 37 /\
     2500000 <= kept + lost <= 2640000 /\
     lost * (peak - c1_of e_r femto_r 900 / 2 ^ 47) <= IZR (Z.of_nat (length cloud) - Z.of_nat (length rows)) * 5)%R.
  Proof.
    destruct sd_moving as (U & L1 & L2).
    assert (Em : R64 (f_of_Z 3728) = 3728%R) by (apply f_of_Z_R; lia).
    assert (TB : f_to_Z (drift_time fexp cd_config half) = Some 257) by (vm_compute; reflexivity).
    assert (Z0 : R64 (f_of_Z 0) = 0%R) by (apply f_of_Z_R; lia). assert (F0 : is_finite (f_of_Z 0) = true) by (apply f_of_Z_fin; lia).
    assert (B0 : bnd (f_of_Z 0) 300) by (split; [exact F0|rewrite Z0, Rabs_R0; apply bpow_ge_0]).
    assert (Tr : forall t, In t sd_track -> to_row fexp cd_config t = @mkRow (F64 fexp) (f_of_Z 0) (f_of_Z 0) (drift_time fexp cd_config half) /\ t_z t = half).
    { intros t [<-|[<-|[]]]; split; reflexivity. }
    assert (HN : normals_ok al_normals).
    { intros n g. cbn [al_normals fst]. split; [apply repeat_length|].
      apply Forall_forall. intros u Hu. apply repeat_spec in Hu as ->.
      split; [apply f_of_Z_fin; lia|]. rewrite f_of_Z_R by lia. rewrite Rabs_pos_eq; lra. }
    assert (HU : draws_ok ex_uniform).
    { intros n g. cbn [ex_uniform fst]. split; [apply repeat_length|].
      apply Forall_forall. intros u Hu. apply repeat_spec in Hu as ->. exact half_ok. }
    assert (Rt : rg (drift_time fexp cd_config half) (-60) 60) by (apply nf_rg; vm_compute; reflexivity).
    destruct (C89_simulate fexp (fun z a => Ok (100 * z + a)) sd_traj (electrons64 fexp al_mass 34 (f_of_Z 0) al_normals) ex_uniform
      [0] tt [2] [4] cd_config 0 [0] nf_grid ideal_exp_ok eq_refl eq_refl eq_refl eq_refl) as (cloud & labels & rng' & E).
    { split; [right; apply nf_rg; vm_compute; reflexivity|]. split; [apply nf_rg; vm_compute; reflexivity|].
      destruct (f_of_ZE_correct 1 (-9) ltac:(lia) ltac:(lia)) as (E & Fe). cbn [cd_config c_drift]. split; [exact Fe|]. rewrite E.
      change (bpow radix2 (-9)) with (/ 512)%R. change (bpow radix2 (-60)) with (/ 1152921504606846976)%R. change (bpow radix2 60) with 1152921504606846976%R. lra. }
    { intros i [<-|[]]. right. exists 2, 4, 204, 0, sd_track. repeat (split; [reflexivity|]). split.
      - intros t It. rewrite (proj1 (Tr t It)). split; [exact B0|]. split; [exact B0|]. right. exact Rt.
      - apply C89_countable; try assumption; [lia|lra|]. change (0 <= 10 <= 2 ^ 11). lia. }
    assert (Gw : forall p nuc track, In p [0] -> sd_traj tt p nuc cd_config = Ok track -> usual (al_mass nuc) 34 (map t_v track) /\
      forall t, In t track -> good_width (fexp := fexp) (c_diffusion fexp cd_config) (c_efield fexp cd_config) (c_drift fexp cd_config) (to_row fexp cd_config t)).
    { intros p nuc track _ Et.
      apply (f_equal (fun r => match r with Ok x => x | _ => [] end)) in Et. cbv beta match delta [sd_traj] in Et. subst track.
      split; [exact U|]. intros t It. rewrite (proj1 (Tr t It)). intros s Es. right. cbn [r_x r_y r_time] in *. pose proof cd_sigma as S.
      assert (s = cd_width) by congruence. subst s. exact cd_resolved. }
    assert (Nr : near fexp sd_traj [0] tt cd_config).
    { intros p nuc track t tb _ Et It Hb.
      apply (f_equal (fun r => match r with Ok x => x | _ => [] end)) in Et. cbv beta match delta [sd_traj] in Et. subst track.
      rewrite (proj2 (Tr t It)), TB in Hb. assert (tb = 257) by congruence. subst. reflexivity. }
    assert (Gd : forall i j, -1 <= gr_cell nf_grid i j < 2 ^ 26) by (intros i j; cbn; lia).
    destruct (C16_cloud_shape fexp (fun z a => Ok (100 * z + a)) sd_traj _ ex_uniform [0] tt [2] [4] cd_config 0 [0] nf_grid (packaged_edges fexp)
      cloud labels rng' eq_refl eq_refl Gd Nr HU E) as (Ll & Shape).
    destruct (C82_samples exp_r sin_r cube_r e_r femto_r milli_r clock_r 900 1000 C82_libm C82_params) as (resp & Gr & _ & RO & _).
    destruct (peak_exists (exact_sample e_r femto_r milli_r clock_r 900 1000) 511) as (pk & HP & EP).
    assert (Cfg : config_ok sd_wc).
    { unfold config_ok, sd_wc. cbn [wc_windows_edge wc_mm_edge wc_threshold wc_length].
      split; [lia|]. split; [lia|]. split; [lia|]. split; [lia|]. split; [apply f_of_Z_fin; lia|].
      rewrite f_of_Z_R by lia. rewrite Rabs_pos_eq by lra. change 1%R with (bpow radix2 0). apply bpow_le. lia. }
    destruct (P_Detect.process_ok fexp the_sort resp sd_wc (repeat (f_of_Z 0, f_of_Z 0) 301) cloud labels) as ([rows labs] & P).
    { apply argsort_exists. } { apply RO. } { exact Cfg. } { reflexivity. }
    { apply Forall_forall. intros p Ip. destruct (Shape p Ip) as ((pad & i & j & Ep & _ & _ & Ec & Np & _) & Ft & Bt).
      assert (pad = 300) by (rewrite <- Ec; reflexivity). subst pad. split; [|split; [exact Ft|]].
      - exists 300%nat. change (Z.of_nat 300) with 300. split; [rewrite Ep; apply f_to_Z_of_Z; lia|].
        cbn [sd_wc wc_sizes]. rewrite !repeat_length. lia.
      - rewrite Rabs_pos_eq by apply Bt. apply Rlt_le, Rlt_le_trans with 512%R; [apply Bt|].
        change 512%R with (bpow radix2 9). apply bpow_le. lia. }
    { congruence. }
    assert (Sums : forall n gs, length gs = 2%nat ->
      P_Calor.total (h_slack al_mass 34 (f_of_Z 0)) [mkHist n sd_track gs] = 4%R /\ P_Calor.total rows_of [mkHist n sd_track gs] = 2%R /\
      P_Calor.total (h_exact al_mass 34) [mkHist n sd_track gs] = (3728 * (5 / 4 - lorentz_factor sd_slow) * (500000 / 17))%R).
    { intros n gs Lg. destruct gs as [|g1 [|g2 [|? ?]]]; try discriminate Lg. split; [|split].
      - unfold P_Calor.total, h_slack, slacks, exact_of, al_mass. cbn [h_nuc h_track h_gs sd_track map exact_electrons steps combine fst snd].
        unfold slack, sumR. cbn [fold_right]. rewrite Z0. rewrite !Rmult_0_l, sqrt_0. lra.
      - unfold P_Calor.total, rows_of, sumR. cbn [h_track sd_track map fold_right length INR]. lra.
      - unfold P_Calor.total, h_exact, exact_of, al_mass. cbn [h_nuc h_track map]. unfold sumR at 1. cbn [fold_right]. rewrite Em.
        cbn [sd_track map t_v].
        destruct (C76_energy 3728 34 (t_v (al_row 3 0 0)) [sd_slow] ltac:(lia)) as (_ & Q).
        cbn [t_v] in Q. rewrite Q.
        + cbn [last]. unfold kinetic. rewrite L1. simpl (10 ^ 6)%R. lra.
        + intros i x y Hx Hy. destruct i as [|[|i]]; cbn [nth_error] in Hx, Hy; try discriminate Hx; try discriminate Hy.
          assert (x = t_v (al_row 3 0 0)) by congruence. assert (y = sd_slow) by congruence. subst x y.
          unfold kinetic. rewrite L1. lra. }
    assert (One : forall hs, Forall2 (P_Calor.made fexp (fun z a => Ok (100 * z + a)) sd_traj [0] tt [2] [4] cd_config) (filter (is_charged [2]) [0]) hs ->
      exists n gs, hs = [mkHist n sd_track gs] /\ length gs = 2%nat).
    { intros hs A. change (filter (is_charged [2]) [0]) with [0] in A.
      inversion A as [|? h ? tl M A']; subst. inversion A'; subst. clear A A'.
      destruct M as (z & a & p & _ & _ & _ & _ & _ & Et & Lg & Fg).
      apply (f_equal (fun r => match r with Ok x => x | _ => [] end)) in Et. cbv beta match delta [sd_traj] in Et.
      destruct h as [n tr gs]. cbn [h_track h_gs h_nuc] in *. subst tr. exists n, gs. split; [reflexivity|exact Lg]. }
    assert (P53 : (2 ^ 53 = 9007199254740992)%R) by ring.
    assert (Small : forall hs, Forall2 (P_Calor.made fexp (fun z a => Ok (100 * z + a)) sd_traj [0] tt [2] [4] cd_config) (filter (is_charged [2]) [0]) hs ->
      (252000 <= P_Calor.total (h_exact al_mass 34) hs <= 263200 /\ P_Calor.total (h_slack al_mass 34 (f_of_Z 0)) hs = 4 /\ P_Calor.total rows_of hs = 2)%R).
    { intros hs A. destruct (One hs A) as (n & gs & -> & Lg). destruct (Sums n gs Lg) as (S1 & S2 & S3). rewrite S1, S2, S3.
      split; [|split; reflexivity]. lra. }
    assert (Unsat : forall p, In p cloud -> (R64 (p_el p) * pk <= 4095)%R).
    { destruct (C88_charge fexp ideal_exp_near (fun z a => Ok (100 * z + a)) sd_traj al_mass 34 (f_of_Z 0) al_normals ex_uniform
        [0] tt [2] [4] cd_config 0 [0] nf_grid (packaged_edges fexp) cloud labels rng' eq_refl eq_refl Gd Nr HU HN ltac:(lia) F0 ltac:(lra) ltac:(cbn; lia) Gw E)
        as (hs & A & B). cbv zeta in B. change (IZR (c_gain fexp cd_config)) with 10%R in B. destruct (Small hs A) as (S1 & S2 & S3). rewrite S2 in B.
      destruct B as (Wh & Up & _); [lra|]. intros p Ip.
      assert (Nn : forall q, In q cloud -> (0 <= R64 (p_el q))%R).
      { intros q Iq. destruct (Wh q Iq) as (z & Hz & ->). rewrite f_of_Z_R by lia. apply IZR_le. lia. }
      assert (Le : (R64 (p_el p) <= sumR (map (fun p => R64 (p_el p)) cloud))%R).
      { clear - Nn Ip. induction cloud as [|q l IH]; [destruct Ip|]. cbn [map]. rewrite sumR_cons.
        assert (0 <= R64 (p_el q))%R by (apply Nn; now left).
        assert (X : forall l : list point, (forall q, In q l -> (0 <= R64 (p_el q))%R) -> (0 <= sumR (map (fun p => R64 (p_el p)) l))%R).
        { clear. induction l as [|q l IH]; intros N; [unfold sumR; simpl; lra|]. cbn [map]. rewrite sumR_cons.
          specialize (IH (fun q I => N q (or_intror I))). specialize (N q (or_introl eq_refl)). lra. }
        specialize (X l (fun q I => Nn q (or_intror I))).
        destruct Ip as [->|Ip]; [lra|]. specialize (IH Ip (fun q I => Nn q (or_intror I))). lra. }
      pose proof sd_c1 as C1.
      assert (Pk : (pk <= 112 / 100000)%R).
      { destruct EP as (i & Hi & <-). unfold exact_sample.
        assert (T0 : (0 <= time i / width_of milli_r clock_r 1000)%R).
        { destruct (width_close e_r femto_r milli_r clock_r 900 1000 C82_params) as (_ & _ & HW). pose proof (bpow_gt_0 radix2 (-19)) as P19.
          apply Rmult_le_pos; [unfold time; apply Rmult_le_pos; [apply pos_INR|lra]|left; apply Rinv_0_lt_compat; lra]. }
        destruct (formula_bounds (c1_of e_r femto_r 900) _ ltac:(lra) T0) as (_ & B2). eapply Rle_trans; [exact B2|].
        apply Rle_trans with (c1_of e_r femto_r 900 * 1)%R; [|lra]. apply Rmult_le_compat_l; [lra|].
        rewrite <- exp_0. left. apply exp_increasing. lra. }
      specialize (Nn p Ip). apply Rle_trans with (R64 (p_el p) * (112 / 100000))%R; [apply Rmult_le_compat_l; lra|].
      apply Rle_trans with (2640000 * (112 / 100000))%R; [apply Rmult_le_compat_r; lra|lra]. }
    destruct (C90_energy exp_r sin_r cube_r e_r femto_r milli_r clock_r 900 1000 resp pk C82_libm C82_params Gr HP EP fexp ideal_exp_near
      (fun z a => Ok (100 * z + a)) sd_traj al_mass 34 (f_of_Z 0) al_normals ex_uniform the_sort
      [0] tt [2] [4] cd_config 0 [0] nf_grid (packaged_edges fexp) cloud labels rng' sd_wc _ rows labs eq_refl eq_refl Gd Nr HU HN ltac:(lia) F0 ltac:(lra) ltac:(cbn; lia) Gw E
      argsort_exists Cfg eq_refl P) as (hs & A & B).
    cbv zeta in B. change (IZR (c_gain fexp cd_config)) with 10%R in B. destruct (Small hs A) as (S1 & S2 & S3). rewrite S2, S3 in B.
    destruct B as (kept & lost & K1 & K2 & K3 & K4 & K5 & K6); [lra|exact Unsat|].
    exists resp, pk, cloud, labels, rng', rows, labs, kept, lost. split; [exact Gr|]. split; [exact E|]. split; [exact P|]. split; [exact K1|].
    split; [|exact K6]. split; [|lra].
    assert (Cn : Forall (contained_diff fexp nf_grid (packaged_edges fexp) cd_config) hs).
    { destruct (One hs A) as (n & gs & -> & _).
      constructor; [|constructor]. intros t It. cbn [h_track] in It. destruct (Tr t It) as (-> & Tz). rewrite Tz. split.
      - intros s Es. cbn [r_time r_x r_y] in *. pose proof cd_sigma as S. assert (s = cd_width) by congruence. subst s.
        replace (feqb cd_width (f_of_Z 0)) with false by (vm_compute; reflexivity).
        intros q Iq. apply lands_ok. now apply cd_pixels.
      - intros tb Hb. rewrite TB in Hb. assert (tb = 257) by congruence. lia. }
    specialize (K5 Cn). lra.
  Qed.
End Example.

Print Assumptions C90_energy.
