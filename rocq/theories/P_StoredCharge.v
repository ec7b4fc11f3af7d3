(** P_StoredCharge.v -- C83: what is stored measures the energy lost in the gas. *)
From Coq Require Import ZArith Reals Lia Lra List Permutation.
From Flocq Require Import Core BinarySingleNaN.
From Verif Require Import Base F64 F64Bounds Num Pairing BeamPads Transporter SpecTransport Simulator SpecSim
  Response Writer SpecWriter P_Response P_Cloud P_GetResponse P_Simulator P_Complete P_KinF64 ElectronsF64 P_ElectronsF64
  TransportF64 P_Calor P_SamplingF64 P_ResponseF64.
Import ListNotations.
Local Open Scope R_scope.

Lemma perm_forall2 {A B} (P : A -> B -> Prop) m m' : Permutation m m' -> forall l, Forall2 P l m ->
  exists l', Permutation l l' /\ Forall2 P l' m'.
Proof.
  induction 1 as [|b m m' _ IH|b c m|m m1 m2 _ IH1 _ IH2]; intros l F.
  - inversion F; subst. exists []. split; constructor.
  - inversion F as [|a ? t ? H F']; subst. destruct (IH t F') as (l' & Pm & G). exists (a :: l'). split; constructor; assumption.
  - inversion F as [|a ? t ? H F']; subst. inversion F' as [|a' ? t' ? H' F'']; subst.
    exists (a' :: a :: t'). split; [constructor|repeat constructor; assumption].
  - destruct (IH1 l F) as (l1 & P1 & F1). destruct (IH2 l1 F1) as (l2 & P2 & F2). exists l2. split; [now transitivity l1|exact F2].
Qed.
Lemma split_by {A B} (P : A -> B -> Prop) (q : B -> bool) l m : Forall2 P l m ->
  exists kept dropped, Permutation l (kept ++ dropped) /\ Forall2 P kept (filter q m) /\
    Forall (fun a => exists b, In b m /\ P a b /\ q b = false) dropped.
Proof.
  induction 1 as [|a b l m H _ (k & d & Pm & F & D)]; [exists [], []; repeat constructor|].
  assert (D' : Forall (fun a => exists b0, In b0 (b :: m) /\ P a b0 /\ q b0 = false) d).
  { eapply Forall_impl; [|exact D]. intros x (y & I & Py). exists y. split; [now right|exact Py]. }
  cbn [filter]. destruct (q b) eqn:E.
  - exists (a :: k), d. split; [now constructor|]. split; [now constructor|exact D'].
  - exists k, (a :: d). split; [now apply Permutation_cons_app|]. split; [exact F|]. constructor; [|exact D'].
    exists b. split; [now left|]. split; assumption.
Qed.
Lemma filter_fst {A B} (q : A -> bool) (l : list A) : forall m : list B, length m = length l ->
  map fst (filter (fun ab => q (fst ab)) (combine l m)) = filter q l.
Proof.
  induction l as [|a l IH]; intros [|b m] E; try discriminate; [reflexivity|]. cbn [combine filter fst].
  destruct (q a); cbn [map fst]; rewrite IH by (cbn in E; lia); reflexivity.
Qed.
Lemma fst_combine {A B} (l : list A) : forall m : list B, length l = length m -> map fst (combine l m) = l.
Proof. induction l as [|a l IH]; intros [|b m] E; try discriminate; [reflexivity|]. cbn. rewrite IH by (cbn in E; lia). reflexivity. Qed.
Lemma sumR_perm l l' : Permutation l l' -> sumR l = sumR l'.
Proof. induction 1; rewrite ?sumR_cons in *; try lra; reflexivity. Qed.

Section Stored.
  Context (lexp lsin lcube : f64 -> f64) (e femto milli clock : f64) (gain shaping : Z) (resp : list f64) (peak : R).
  Hypothesis (LA : libm_accurate lexp lsin lcube) (OK : params_ok e femto milli clock gain shaping).
  Hypothesis (GR : get_response (N := F64 lexp) lsin lcube e femto milli gain shaping clock = Ok resp).
  Notation f := (exact_sample e femto milli clock gain shaping).
  Notation c1 := (c1_of e femto gain).
  Hypothesis (HP : forall i, (i < 512)%nat -> f i <= peak) (EP : exists i, (i < 512)%nat /\ f i = peak).

  (** The sum of the 512 samples of the documented formula. *)
  Definition area : R := sumR (map f (seq 0 512)).
  (** Row [r] measures the charge of point [p]. *)
  Definition measures (p : point) (r : srow) : Prop :=
    s_pad r = p_pad p /\ s_tb r = p_tb p /\
    Rabs (R64 (s_amp r) - Rmin 4095 (R64 (p_el p) * peak)) <= R64 (p_el p) * c1 / 2 ^ 47 /\
    Rabs (R64 (s_int r) - sumR (map (fun i => Rmin 4095 (R64 (p_el p) * f i)) (seq 0 512))) <= R64 (p_el p) * c1 / 2 ^ 37.
  (** No electrons, or at least one. *)
  Definition whole (p : point) : Prop := is_finite (p_el p) = true /\ (R64 (p_el p) = 0 \/ 1 <= R64 (p_el p)).

  Context (fexp : f64 -> f64) (argsort : list f64 -> list nat).

  Lemma converted_measures c centers p r : whole p ->
    convert_point fexp (wc_windows_edge c) (wc_mm_edge c) (wc_length c) resp centers (wc_sizes c) p = Ok r ->
    measures p r /\ is_finite (s_amp r) = true.
  Proof using LA OK GR HP EP.
    intros (Fp & Wp) E.
    destruct (C82_charge lexp lsin lcube e femto milli clock gain shaping resp (p_el p) peak LA OK GR Fp Wp HP EP) as (amp & int & A & Fa & _ & Da & Di).
    unfold convert_point in E. destruct (f_to_Z (p_pad p)) as [pd|]; [|discriminate E]. cbn [bind] in E.
    destruct (nj_index centers pd) as [cen|]; [|discriminate E]. cbn [bind] in E. rewrite A in E. cbn [bind] in E.
    destruct (z_of_tb _ _ _ _) as [zz|]; [|discriminate E]. cbn [bind] in E.
    destruct (nj_index (wc_sizes _) pd) as [sz|]; [|discriminate E]. cbn [bind] in E.
    assert (R1 : s_pad r = p_pad p) by (apply (f_equal (fun r => match r with Ok a => s_pad a | Err _ => f_of_Z 0 end)) in E; cbn beta iota in E; now rewrite <- E).
    assert (R2 : s_tb r = p_tb p) by (apply (f_equal (fun r => match r with Ok a => s_tb a | Err _ => f_of_Z 0 end)) in E; cbn beta iota in E; now rewrite <- E).
    assert (R3 : s_amp r = amp) by (apply (f_equal (fun r => match r with Ok a => s_amp a | Err _ => f_of_Z 0 end)) in E; cbn beta iota in E; now rewrite <- E).
    assert (R4 : s_int r = int) by (apply (f_equal (fun r => match r with Ok a => s_int a | Err _ => f_of_Z 0 end)) in E; cbn beta iota in E; now rewrite <- E).
    unfold measures. rewrite R1, R2, R3, R4. repeat split; assumption.
  Qed.

  (** C83: the points of the cloud are the stored ones and the dropped ones. Each stored row, in the order of
      the file, measures the charge of its point; what is dropped is below the threshold, up to rounding. *)
  Theorem C83_rows c centers data labels rows labs :
    argsort_ok argsort -> config_ok c -> wc_centers c = Some centers ->
    (forall p, In p data -> whole p /\ is_finite (p_tb p) = true /\ Rabs (R64 (p_tb p)) <= bpow radix2 53) ->
    process fexp argsort resp c data labels = Ok (rows, labs) ->
    exists kept dropped, Permutation data (kept ++ dropped) /\ Forall2 measures kept rows /\
      Forall (fun p => IZR (wc_threshold c) - R64 (p_el p) * c1 / 2 ^ 47 <= Rmin 4095 (R64 (p_el p) * peak)) kept /\
      Forall (fun p => Rmin 4095 (R64 (p_el p) * peak) <= IZR (wc_threshold c) + R64 (p_el p) * c1 / 2 ^ 47) dropped.
  Proof using LA OK GR HP EP.
    intros Ha Hc Ec Hd E.
    destruct (process_all fexp argsort resp c centers data labels rows labs Ha Hc Ec (fun p I => proj2 (Hd p I)) E) as (conv & Ll & Lr & F & Pm).
    set (q := fun r : srow => fltb (f_of_Z (wc_threshold c)) (s_amp r)).
    assert (Lc : length labels = length conv) by (rewrite Ll; clear - F; induction F; simpl; congruence).
    assert (Pr : Permutation (filter q conv) rows).
    { apply Permutation_sym. rewrite <- (fst_combine rows labs Lr), <- (filter_fst q conv labels Lc). now apply Permutation_map. }
    assert (F' : Forall2 (fun p r => measures p r /\ is_finite (s_amp r) = true) data conv).
    { assert (Wh : forall p, In p data -> whole p) by (intros p I; apply (Hd p I)). clear - F Wh LA OK GR HP EP. induction F as [|p r data conv H _ IH]; constructor.
      - eapply converted_measures; [apply Wh; now left|exact H].
      - apply IH. intros p' I. apply Wh. now right. }
    destruct (split_by _ q _ _ F') as (kept0 & dropped & P0 & F0 & D0).
    assert (Th : (Z.abs (wc_threshold c) <= 2 ^ 53)%Z) by apply Hc.
    assert (Tf : is_finite (f_of_Z (wc_threshold c)) = true) by (apply f_of_Z_fin; lia).
    assert (Tr : R64 (f_of_Z (wc_threshold c)) = IZR (wc_threshold c)) by (apply f_of_Z_R; lia).
    assert (F1 : Forall2 (fun p r => measures p r /\ is_finite (s_amp r) = true /\ q r = true) kept0 (filter q conv)).
    { clear - F0. assert (Q : Forall (fun r => q r = true) (filter q conv)) by (apply Forall_forall; intros r I; apply filter_In in I; apply I).
      induction F0 as [|p r k m H _ IH]; constructor.
      - apply Forall_inv in Q. tauto.
      - apply IH. now apply Forall_inv_tail in Q. }
    destruct (perm_forall2 _ _ _ Pr _ F1) as (kept & Pk & Fk).
    exists kept, dropped. split; [rewrite P0; now apply Permutation_app_tail|]. split; [|split].
    - clear - Fk. induction Fk as [|p r k m H _ IH]; constructor; tauto.
    - clear - Fk Tf Tr. induction Fk as [|p r k m (M & Fa & Q) _ IH]; constructor; [|exact IH].
      unfold q in Q. rewrite fltb_R in Q by assumption. rewrite Tr in Q. destruct (Rlt_bool_spec (IZR (wc_threshold c)) (R64 (s_amp r))) as [L|L]; [|discriminate Q].
      destruct M as (_ & _ & Da & _). apply Rabs_le_inv in Da. lra.
    - eapply Forall_impl; [|exact D0]. intros p (r & _ & (M & Fa) & Q). unfold q in Q. rewrite fltb_R in Q by assumption. rewrite Tr in Q.
      destruct (Rlt_bool_spec (IZR (wc_threshold c)) (R64 (s_amp r))) as [L|L]; [discriminate Q|].
      destruct M as (_ & _ & Da & _). apply Rabs_le_inv in Da. lra.
  Qed.

  Definition charge (l : list point) : R := sumR (map (fun p => R64 (p_el p)) l).

  (** C83: without saturation the stored integrals add up to the stored charge times the area of the response. *)
  Theorem C83_total kept rows :
    Forall2 measures kept rows -> Forall (fun p => 0 <= R64 (p_el p) /\ R64 (p_el p) * peak <= 4095) kept ->
    Rabs (sumR (map (fun r => R64 (s_int r)) rows) - area * charge kept) <= charge kept * c1 / 2 ^ 37.
  Proof using HP.
    unfold charge. induction 1 as [|p r kept rows (_ & _ & _ & D) _ IH]; intros U.
    - cbn [map]. unfold sumR at 1 2 3. cbn [fold_right]. rewrite Rmult_0_r. unfold Rminus, Rdiv. rewrite Rplus_opp_r, Rabs_R0, !Rmult_0_l. lra.
    - apply Forall_inv in U as U1. apply Forall_inv_tail in U as U2. specialize (IH U2). cbn [map]. rewrite !sumR_cons.
      assert (S1 : sumR (map (fun i => Rmin 4095 (R64 (p_el p) * f i)) (seq 0 512)) = R64 (p_el p) * area).
      { unfold area. assert (X : forall L, (forall i, In i L -> (i < 512)%nat) -> sumR (map (fun i => Rmin 4095 (R64 (p_el p) * f i)) L) = R64 (p_el p) * sumR (map f L)).
        { induction L as [|i L IHL]; intros Hi; [unfold sumR; simpl; lra|]. cbn [map]. rewrite !sumR_cons, IHL by (intros; apply Hi; now right).
          assert (R64 (p_el p) * f i <= R64 (p_el p) * peak) by (apply Rmult_le_compat_l; [apply U1|apply HP, Hi; now left]).
          rewrite Rmin_right by lra. ring. }
        apply X. intros i I. apply in_seq in I. lia. }
      rewrite S1 in D. unfold Rdiv in *. apply Rabs_le_inv in D. apply Rabs_le_inv in IH. apply Rabs_le. lra.
  Qed.
End Stored.

Section Energy.
  Context (lexp lsin lcube : f64 -> f64) (e femto milli clock : f64) (again shaping : Z) (resp : list f64) (peak : R).
  Hypothesis (LA : libm_accurate lexp lsin lcube) (OK : params_ok e femto milli clock again shaping).
  Hypothesis (GR : get_response (N := F64 lexp) lsin lcube e femto milli again shaping clock = Ok resp).
  Hypothesis (HP : forall i, (i < 512)%nat -> exact_sample e femto milli clock again shaping i <= peak)
             (EP : exists i, (i < 512)%nat /\ exact_sample e femto milli clock again shaping i = peak).
  Notation c1 := (c1_of e femto again).
  Context (fexp : f64 -> f64) {G Nuc Mom Vtx : Type}.
  Context (get_data : Z -> Z -> res Nuc)
    (generate_trajectory : Vtx -> Mom -> Nuc -> config fexp -> res (list (@traj vec64)))
    (mass : Nuc -> f64) (w : Z) (fano : f64)
    (normals : nat -> G -> list f64 * G) (uniform : nat -> G -> list f64 * G) (argsort : list f64 -> list nat).
  Notation sim := (simulate fexp get_data generate_trajectory (electrons64 fexp mass w fano normals) uniform).

  (** C83: the stored integrals add up to the energy lost in the gas: over W, times the gas gain, times the
      area of the response -- less what is in points below the threshold.  Without diffusion and saturation. *)
  Theorem C83_energy momenta vertex zs ms c rng indices g ge cloud labels rng' wc centers rows labs :
    c_grid fexp c = Some g -> c_edges fexp c = Some ge -> (forall i j, (-1 <= gr_cell g i j < 2 ^ 26)%Z) ->
    near fexp generate_trajectory momenta vertex c -> draws_ok uniform -> normals_ok normals ->
    fzero (c_diffusion fexp c) -> is_finite (c_efield fexp c) = true -> R64 (c_efield fexp c) <> 0 ->
    is_finite (c_drift fexp c) = true ->
    (1 <= w <= 2 ^ 53)%Z -> is_finite fano = true -> 0 <= R64 fano <= 1 -> (0 <= c_gain fexp c)%Z ->
    (forall p nuc track, In p momenta -> generate_trajectory vertex p nuc c = Ok track ->
       usual (mass nuc) w (map t_v track) /\ forall t, In t track -> is_finite (drift_time fexp c (t_z t)) = true) ->
    sim momenta vertex zs ms c rng indices = Ok ((cloud, labels), rng') ->
    argsort_ok argsort -> config_ok wc -> wc_centers wc = Some centers ->
    process fexp argsort resp wc cloud labels = Ok (rows, labs) ->
    exists hs, Forall2 (P_Calor.made fexp get_data generate_trajectory momenta vertex zs ms c) (filter (is_charged zs) indices) hs /\
      let gain := IZR (c_gain fexp c) in
      let made := P_Calor.total (h_exact mass w) hs in
      let unsure := P_Calor.total (h_slack mass w fano) hs in
      let stored := sumR (map (fun r => R64 (s_int r)) rows) in
      (gain * (made + unsure) <= 2 ^ 53 -> (forall p, In p cloud -> R64 (p_el p) * peak <= 4095) ->
       exists kept lost,
         Rabs (stored - area e femto milli clock again shaping * kept) <= kept * c1 / 2 ^ 37 /\
         0 <= kept /\ 0 <= lost /\ kept + lost <= gain * (made + unsure) /\
         (Forall (P_Calor.contained fexp g ge c) hs -> gain * (made - unsure) <= kept + lost) /\
         lost * (peak - c1 / 2 ^ 47) <= IZR (Z.of_nat (length cloud) - Z.of_nat (length rows)) * IZR (wc_threshold wc)).
  Proof using LA OK GR HP EP.
    intros Hg He Hp Hn Hu HN D Fe Ne Fd Hw Ff Bf Gp Ht S Ha Hc Ec P.
    destruct (C16_cloud_shape fexp get_data generate_trajectory _ uniform momenta vertex zs ms c rng indices g ge cloud labels rng' Hg He Hp Hn Hu S) as (_ & Shape).
    destruct (C76_charge fexp get_data generate_trajectory mass w fano normals uniform momenta vertex zs ms c rng indices g ge cloud labels rng'
                Hg He Hp Hn Hu HN D Fe Ne Fd Hw Ff Bf Gp Ht S) as (hs & A & B).
    exists hs. split; [exact A|]. cbv zeta in *. intros Small Unsat. destruct (B Small) as (Wh & Up & Lo).
    assert (Wl : forall p, In p cloud -> whole p /\ 0 <= R64 (p_el p)).
    { intros p I. destruct (Wh p I) as (z & Hz & E). unfold whole. rewrite E, f_of_Z_R by lia. split; [split; [apply f_of_Z_fin; lia|]|apply IZR_le; lia].
      destruct (Z.eq_dec z 0) as [->|N]; [now left|right; apply IZR_le; lia]. }
    destruct (C83_rows lexp lsin lcube e femto milli clock again shaping resp peak LA OK GR HP EP fexp argsort wc centers cloud labels rows labs Ha Hc Ec)
      as (kept & dropped & Pm & F & K & Dr); [|exact P|].
    { intros p I. destruct (Shape p I) as (_ & Ft & Bt). split; [apply (Wl p I)|]. split; [exact Ft|]. rewrite Rabs_pos_eq by lra.
      apply Rle_trans with (bpow radix2 9); [change (bpow radix2 9) with 512; lra|apply bpow_le; lia]. }
    assert (Ik : forall p, In p kept -> In p cloud) by (intros p I; eapply Permutation_in; [apply Permutation_sym, Pm|]; apply in_or_app; now left).
    assert (Id : forall p, In p dropped -> In p cloud) by (intros p I; eapply Permutation_in; [apply Permutation_sym, Pm|]; apply in_or_app; now right).
    assert (Ch : sumR (map (fun p => R64 (p_el p)) cloud) = charge kept + charge dropped).
    { unfold charge. rewrite <- sumR_app, <- map_app. apply sumR_perm. now apply Permutation_map. }
    assert (Pos : forall l, (forall p, In p l -> In p cloud) -> 0 <= charge l).
    { unfold charge. induction l as [|p l IH]; intros I; [unfold sumR; simpl; lra|]. cbn [map]. rewrite sumR_cons.
      destruct (Wl p (I p (or_introl eq_refl))) as (_ & Q). assert (0 <= sumR (map (fun p => R64 (p_el p)) l)) by (apply IH; intros p' I'; apply I; now right). lra. }
    exists (charge kept), (charge dropped). rewrite <- Ch.
    split; [|split; [apply Pos, Ik|split; [apply Pos, Id|split; [exact Up|split; [exact Lo|]]]]].
    - apply (C83_total e femto milli clock again shaping peak HP kept rows F). apply Forall_forall. intros p I. split; [apply (Wl p (Ik p I))|apply Unsat, Ik, I].
    - assert (Ln : (Z.of_nat (length cloud) - Z.of_nat (length rows) = Z.of_nat (length dropped))%Z).
      { apply Permutation_length in Pm. rewrite app_length in Pm. assert (length kept = length rows) by (clear - F; induction F; simpl; congruence). lia. }
      rewrite Ln. clear - Dr Unsat Id. unfold charge. induction Dr as [|p l H _ IH]; [unfold sumR; simpl; lra|].
      cbn [map length]. rewrite sumR_cons, Nat2Z.inj_succ, <- Z.add_1_l, plus_IZR.
      rewrite Rmin_right in H by (apply Unsat, Id; now left). specialize (IH (fun p' I => Id p' (or_intror I))).
      assert (R64 (p_el p) * (peak - c1 / 2 ^ 47) <= IZR (wc_threshold wc)) by (unfold Rdiv in *; lra). lra.
  Qed.
End Energy.

Lemma peak_exists (f : nat -> R) n : exists peak, (forall i, (i < S n)%nat -> f i <= peak) /\ exists i, (i < S n)%nat /\ f i = peak.
Proof.
  induction n as [|n (pk & H & i & Hi & E)]; [exists (f 0%nat); split; [intros i L; replace i with 0%nat by lia; lra|exists 0%nat; split; [lia|reflexivity]]|].
  destruct (Rle_or_lt (f (S n)) pk) as [L|L].
  - exists pk. split; [intros j Lj; destruct (Nat.eq_dec j (S n)) as [->|N]; [exact L|apply H; lia]|exists i; split; [lia|exact E]].
  - exists (f (S n)). split; [intros j Lj; destruct (Nat.eq_dec j (S n)) as [->|N]; [lra|specialize (H j ltac:(lia)); lra]|exists (S n); split; [lia|reflexivity]].
Qed.
(** Example: the three points of the example of C25 through the response of gain 900 and shaping time 1000. *)
Example C83_example fexp : exists resp peak rows labs kept dropped,
  get_response (N := F64 exp_r) sin_r cube_r e_r femto_r milli_r 900 1000 clock_r = Ok resp /\
  process fexp the_sort resp ex_wc ex_data [7; 8; 9]%Z = Ok (rows, labs) /\ Permutation ex_data (kept ++ dropped) /\
  Forall2 (measures e_r femto_r milli_r clock_r 900 1000 peak) kept rows.
Proof.
  destruct (C82_samples exp_r sin_r cube_r e_r femto_r milli_r clock_r 900 1000 C82_libm C82_params) as (l & E & _ & RO & _).
  destruct (peak_exists (exact_sample e_r femto_r milli_r clock_r 900 1000) 511) as (pk & HP & EP).
  destruct C25_hypotheses as (A & _ & C & D).
  destruct (C25_stored_rows fexp the_sort l ex_wc _ ex_data [7; 8; 9]%Z A RO C eq_refl D eq_refl) as (conv & rows & labs & P & _).
  destruct (C83_rows exp_r sin_r cube_r e_r femto_r milli_r clock_r 900 1000 l pk C82_libm C82_params E HP EP fexp the_sort ex_wc _ ex_data [7; 8; 9]%Z rows labs A C eq_refl) as (k & d & Pm & F & _); [|exact P|].
  - intros p I. assert (B : bpow radix2 53 = 9007199254740992) by reflexivity.
    cbn [ex_data In] in I. destruct I as [<-|[<-|[<-|[]]]]; unfold whole; cbn [p_el p_tb]; rewrite !f_of_Z_R by lia; rewrite B;
      (split; [split; [apply f_of_Z_fin; lia|right; lra]|split; [apply f_of_Z_fin; lia|rewrite Rabs_pos_eq; lra]]).
  - exists l, pk, rows, labs, k, d. repeat split; assumption.
Qed.

Print Assumptions C83_rows.
Print Assumptions C83_total.
Print Assumptions C83_energy.
