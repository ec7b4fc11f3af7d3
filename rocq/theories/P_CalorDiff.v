(** P_CalorDiff.v -- C88: the charge of a cloud with diffusion measures the energy lost in the gas. *)
From Coq Require Import ZArith Reals Lia Lra List.
From Flocq Require Import Core BinarySingleNaN.
From Verif Require Import MeshReal P_MeshF64.
From Verif Require Import Base F64 F64Bounds Num Pairing PairingProofs BeamPads Transporter
  SpecTransport TransportProofs Simulator SpecSim SimulatorProofs TransportF64 P_TransportF64 P_Simulator
  P_KinF64 ElectronsF64 P_ElectronsF64 P_Complete P_Calor PositionProofs P_NeverFails.
Import ListNotations.
Local Open Scope Z_scope.

Lemma filter_shorter {A} (f : A -> bool) l : (length (filter f l) <= length l)%nat.
Proof. induction l as [|x l IH]; [apply le_n|]. cbn [filter]. destruct (f x); cbn [length]; lia. Qed.

Section Rows.
  Context (fexp : f64 -> f64) (Hexp : exp_near fexp).

  (** Every pixel among which the row's electrons are spread is above a pad that is read out. *)
  Definition covered (g : grid) (ge : edges (F64 fexp)) (diffusion efield dv : f64) (r : row (F64 fexp)) : Prop :=
    forall s : f64, sigma_of (N := F64 fexp) diffusion efield dv (r_time r) = Ok s ->
      if feqb s (f_of_Z 0) then exists pad, lands (N := F64 fexp) g ge (r_x r, r_y r) pad
      else forall p, In p (@diffusion_mesh (F64 fexp) (r_x r, r_y r) s) -> exists pad, lands (N := F64 fexp) g ge p pad.

  Lemma row_time g (ge : edges (F64 fexp)) D E dv r e ds d : row_ledger g ge D E dv (r, e) ds -> In d ds ->
    f_to_Z (r_time r) = Some (d_tb d).
  Proof.
    intros H. inversion H as [r' e' s ds' Es E0 P|r' e' s dss Es E0 P]; subst; intros I.
    - destruct P as [M|pad tb z L T A]; [destruct I|]. destruct I as [<-|[]]. exact T.
    - clear H. induction P as [|p ds px dss Hp P IH]; [destruct I|]. cbn [concat] in I. apply in_app_or in I as [I|I]; [|now apply IH].
      destruct Hp as [M|pad tb z L T A]; [destruct I|]. destruct I as [<-|[]]. exact T.
  Qed.

  Lemma row_charge g (ge : edges (F64 fexp)) (D E dv : F64 fexp) r e ds : 0 <= e <= 2 ^ 53 -> good_width D E dv r ->
    row_ledger g ge D E dv (r, e) ds ->
    (forall d, In d ds -> 0 <= d_el d) /\ sumZ (map d_el ds) <= e /\
    (covered g ge D E dv r -> (9978 / 10000 * IZR e - 100 <= IZR (sumZ (map d_el ds)))%R).
  Proof using Hexp.
    intros He Hw H. destruct (C87_row_no_creation fexp g ge D E dv r e ds Hexp He Hw H) as (A & B).
    split; [exact A|]. split; [exact B|]. intros C.
    assert (E0' : (0 <= IZR e)%R) by (apply IZR_le; lia).
    inversion H as [r' e' s ds' Es E0 P|r' e' s dss Es E0 P]; subst; specialize (C s Es); cbn [neqb nofZ F64] in E0; rewrite E0 in C.
    - destruct P as [M|pad tb z L T Q].
      + exfalso. destruct C as (pad & La). destruct M as (ix & iy & E1 & N). destruct La as (ix' & iy' & E' & N1 & N2 & Gp & N3 & N4).
        assert (Ei : (ix, iy) = (ix', iy')) by congruence. apply pair_equal_spec in Ei as [-> ->].
        destruct N as [->|[->|(_ & _ & pad' & Gp' & N)]]; [congruence..|]. assert (pad' = pad) by congruence. subst. tauto.
      + subst z. cbn [map d_el]. rewrite sumZ_cons. change (sumZ []) with 0. rewrite Z.add_0_r. lra.
    - destruct (Hw s Es) as [Z|R]; [congruence|].
      eapply C87_bounded_loss; eauto.
  Qed.

  Lemma ledger_sum_diff (g : grid) (ge : edges (F64 fexp)) (D E dv : F64 fexp) (rows : list (row (F64 fexp))) (el : list Z) (ds : list dep) :
    (forall r, In r rows -> good_width D E dv r) -> (forall e, In e el -> 0 <= e <= 2 ^ 53) -> length rows = length el ->
    track_ledger (N := F64 fexp) g ge D E dv rows el ds ->
    (forall d, In d ds -> 0 <= d_el d /\ exists r, In r rows /\ f_to_Z (r_time r) = Some (d_tb d)) /\
    sumZ (map d_el ds) <= sumZ el /\
    ((forall r, In r rows -> covered g ge D E dv r) ->
      (9978 / 10000 * IZR (sumZ el) - 100 * INR (length rows) <= IZR (sumZ (map d_el ds)))%R).
  Proof using Hexp.
    intros Hw P L (_ & dss & F & ->).
    revert el dss L P F. induction rows as [|r rows IH]; intros [|e el] dss L P F; try discriminate.
    - cbn [combine] in F. inversion F; subst. cbn [concat map]. split; [intros d []|]. split; [apply Z.le_refl|].
      intros _. change (sumZ []) with 0. cbn [length INR]. lra.
    - cbn [combine] in F. inversion F as [|? ds ? dss' H1 H2]; subst. cbn [concat]. rewrite map_app, sumZ_app, sumZ_cons.
      destruct (IH (fun x I => Hw x (or_intror I)) el dss' ltac:(cbn in L; lia) (fun x I => P x (or_intror I)) H2) as (I1 & I2 & I3).
      destruct (row_charge g ge D E dv r e ds (P e (or_introl eq_refl)) (Hw r (or_introl eq_refl)) H1) as (J1 & J2 & J3).
      split; [|split; [lia|]].
      + intros d Hd. apply in_app_or in Hd as [Hd|Hd].
        * split; [now apply J1|]. exists r. split; [now left|]. eapply row_time; eauto.
        * destruct (I1 d Hd) as (A & r' & B & C). split; [exact A|]. exists r'. split; [now right|exact C].
      + intros C. specialize (I3 (fun x I => C x (or_intror I))). specialize (J3 (C r (or_introl eq_refl))).
        change (length (r :: rows)) with (S (length rows)). rewrite S_INR, !plus_IZR. lra.
  Qed.

End Rows.

Section CalorDiff.
  Context (fexp : f64 -> f64) (Hexp : exp_near fexp) {G Nuc Mom Vtx : Type}.
  Context (get_data : Z -> Z -> res Nuc)
    (generate_trajectory : Vtx -> Mom -> Nuc -> config fexp -> res (list (@traj vec64)))
    (mass : Nuc -> f64) (w : Z) (fano : f64)
    (normals : nat -> G -> list f64 * G) (uniform : nat -> G -> list f64 * G).
  Notation electrons := (electrons64 fexp mass w fano normals).
  Notation sim := (simulate fexp get_data generate_trajectory electrons uniform).
  Notation history := (@history Nuc).
  Notation emitted := (emitted mass w fano).
  Notation els_of := (els_of mass w fano).

  (** All pixels of all rows above pads that are read out, in buckets 0 to 510. *)
  Definition contained_diff (g : grid) (ge : edges (F64 fexp)) (c : config fexp) (h : history) : Prop :=
    forall t, In t (h_track h) ->
      covered fexp g ge (c_diffusion fexp c) (c_efield fexp c) (c_drift fexp c) (to_row fexp c t) /\
      (forall tb, f_to_Z (drift_time fexp c (t_z t)) = Some tb -> 0 <= tb <= 510).
  Definition rows_of (h : history) : R := INR (length (h_track h)).

  Lemma event_sum_diff (g : grid) (ge : edges (F64 fexp)) (c : config fexp) (hs : list history) l dss :
    0 <= c_gain fexp c ->
    (forall h, In h hs -> (forall t, In t (h_track h) -> good_width (fexp := fexp) (c_diffusion fexp c) (c_efield fexp c) (c_drift fexp c) (to_row fexp c t)) /\
       length (els_of h) = length (h_track h)) ->
    c_gain fexp c * sumZ (map emitted hs) <= 2 ^ 53 ->
    Forall2 (fun h t => exists i, t = ionises fexp c i (h_track h) (els_of h)) hs l ->
    Forall2 (fun t ds => track_ledger (N := F64 fexp) g ge (c_diffusion fexp c) (c_efield fexp c) (c_drift fexp c) (fst (fst t)) (snd (fst t)) ds) l dss ->
    let lds := concat (map (fun p => map (fun d => (d, snd (fst p))) (snd p)) (combine l dss)) in
    (forall d lab, In (d, lab) lds -> 0 <= d_el d /\
       exists h t, In h hs /\ In t (h_track h) /\ f_to_Z (drift_time fexp c (t_z t)) = Some (d_tb d)) /\
    sumZ (map (fun dl => d_el (fst dl)) lds) <= c_gain fexp c * sumZ (map emitted hs) /\
    (Forall (contained_diff g ge c) hs ->
      (9978 / 10000 * IZR (c_gain fexp c * sumZ (map emitted hs)) - 100 * total rows_of hs <= IZR (sumZ (map (fun dl => d_el (fst dl)) lds)))%R).
  Proof using Hexp.
    intros Gp. revert l dss.
    induction hs as [|h hs IH]; intros l dss Per Small B F; cbv zeta.
    - inversion B; subst. inversion F; subst. cbn [combine map concat]. split; [intros d lab []|].
      change (sumZ []) with 0. split; [lia|]. intros _. unfold total. rewrite Z.mul_0_r. cbn. lra.
    - inversion B as [|? t ? l' (i & Ei) B']; subst. inversion F as [|? ds ? dss' F1 F']; subst.
      cbn [map] in Small. rewrite sumZ_cons in Small.
      assert (N1 : 0 <= emitted h) by apply emitted_nonneg.
      assert (N2 : 0 <= sumZ (map emitted hs)).
      { clear. induction hs as [|h hs IH]; [cbn; lia|]. cbn [map]. rewrite sumZ_cons. pose proof (emitted_nonneg mass w fano h). lia. }
      assert (Sm1 : c_gain fexp c * emitted h <= 2 ^ 53) by (pose proof (Z.mul_nonneg_nonneg _ _ Gp N2); lia).
      assert (Sm2 : c_gain fexp c * sumZ (map emitted hs) <= 2 ^ 53) by (pose proof (Z.mul_nonneg_nonneg _ _ Gp N1); lia).
      destruct (IH l' dss' (fun x I => Per x (or_intror I)) Sm2 B' F') as (I1 & I2 & I3). cbv zeta in I1, I2, I3.
      destruct (Per h (or_introl eq_refl)) as (Fin & Le).
      unfold ionises in F1. cbn [fst snd] in F1.
      set (ion := ionising (h_track h) (els_of h)) in *.
      assert (Kz : forall te, In te ion -> 1 <= snd te <= emitted h).
      { intros te I. unfold P_Calor.emitted. fold ion. assert (J : In (snd te) (map snd ion)) by now apply in_map.
        unfold ion in J |- *. rewrite emitted_filter in J |- * by exact Le. now apply kept_le. }
      assert (Kg : forall te, In te ion -> 0 <= snd te * c_gain fexp c <= 2 ^ 53).
      { intros te I. destruct (Kz te I) as [K1 K2].
        pose proof (Z.mul_nonneg_nonneg (snd te) (c_gain fexp c) ltac:(lia) Gp).
        pose proof (Z.mul_le_mono_nonneg_r (snd te) (emitted h) (c_gain fexp c) Gp K2). lia. }
      assert (Wr : map (fun te => wrap64 (snd te * c_gain fexp c)) ion = map (fun e => e * c_gain fexp c) (map snd ion)).
      { rewrite map_map. apply map_ext_in. intros te I. destruct (Kg te I). apply wrap64_id. unfold two63. lia. }
      rewrite Wr in F1.
      assert (It : forall te, In te ion -> In (fst te) (h_track h)).
      { intros te I. unfold ion, ionising in I. apply filter_In in I as [I _]. destruct te as [t e]. cbn [fst]. now apply in_combine_l in I. }
      edestruct (fun A1 A2 A3 => ledger_sum_diff fexp Hexp g ge (c_diffusion fexp c) (c_efield fexp c) (c_drift fexp c) (map (fun te => to_row fexp c (fst te)) ion) (map (fun e => e * c_gain fexp c) (map snd ion)) ds A1 A2 A3 F1) as (L1 & L2 & L3).
      { intros r I. apply in_map_iff in I as (te & <- & I). now apply Fin, It. }
      { intros e I. apply in_map_iff in I as (z & <- & I). apply in_map_iff in I as (te & <- & I). now apply Kg. }
      { now rewrite !map_length. }
      assert (SE : sumZ (map (fun e => e * c_gain fexp c) (map snd ion)) = c_gain fexp c * emitted h).
      { rewrite sum_scale. reflexivity. }
      rewrite SE in L2, L3.
      cbn [combine map concat fst snd]. rewrite map_app, sumZ_app, map_map. cbn [fst]. rewrite sumZ_cons.
      replace (map (fun x : dep => d_el x) ds) with (map d_el ds) by reflexivity.
      split; [|split].
      + intros d lab I. apply in_app_or in I as [I|I].
        * apply in_map_iff in I as (d' & E & I). assert (d' = d) by congruence. subst d'.
          destruct (L1 d I) as (P & r & Ir & Er). split; [exact P|].
          apply in_map_iff in Ir as (te & <- & Ir). exists h, (fst te). split; [now left|]. split; [now apply It|exact Er].
        * destruct (I1 d lab I) as (P & h' & t & A1 & A2 & A3). split; [exact P|]. exists h', t. split; [now right|]. split; assumption.
      + lia.
      + intros C. apply Forall_inv in C as C1. apply Forall_inv_tail in C as C2. specialize (I3 C2).
        assert (L3' := L3 ltac:(intros r Ir; apply in_map_iff in Ir as (te & <- & Ir); apply (C1 (fst te) (It te Ir)))).
        rewrite map_length in L3'.
        assert (Ln : (INR (length ion) <= rows_of h)%R).
        { unfold rows_of. apply le_INR. unfold ion, ionising. etransitivity; [apply filter_shorter|]. rewrite combine_length. lia. }
        unfold total in *. cbn [map]. rewrite P_Calor.sumR_cons.
        replace (c_gain fexp c * (emitted h + sumZ (map emitted hs))) with (c_gain fexp c * emitted h + c_gain fexp c * sumZ (map emitted hs)) by ring.
        rewrite !plus_IZR. lra.
  Qed.

  (** C88: with diffusion of resolvable width, the electrons of the cloud are at most the gain times the
      energy lost over W (plus two electrons per row and the Fano fluctuations), and if all pixels of the
      tracks are covered at least 99.78 % of it, less these allowances and 100 electrons per row. *)
  Theorem C88_charge momenta vertex zs ms c rng indices g ge cloud labels rng' :
    c_grid fexp c = Some g -> c_edges fexp c = Some ge -> (forall i j, -1 <= gr_cell g i j < 2 ^ 26) ->
    near fexp generate_trajectory momenta vertex c -> draws_ok uniform -> normals_ok normals ->
    1 <= w <= 2 ^ 53 -> is_finite fano = true -> (0 <= R64 fano <= 1)%R -> 0 <= c_gain fexp c ->
    (forall p nuc track, In p momenta -> generate_trajectory vertex p nuc c = Ok track ->
       usual (mass nuc) w (map t_v track) /\
       forall t, In t track -> good_width (fexp := fexp) (c_diffusion fexp c) (c_efield fexp c) (c_drift fexp c) (to_row fexp c t)) ->
    sim momenta vertex zs ms c rng indices = Ok ((cloud, labels), rng') ->
    exists hs, Forall2 (made fexp get_data generate_trajectory momenta vertex zs ms c) (filter (is_charged zs) indices) hs /\
      (let gain := IZR (c_gain fexp c) in
       let charge := sumR (map (fun p => R64 (p_el p)) cloud) in
       let exact := total (h_exact mass w) hs in let slack := total (h_slack mass w fano) hs in
       gain * (exact + slack) <= 2 ^ 53 ->
       (forall p, In p cloud -> exists z, (0 <= z <= 2 ^ 53)%Z /\ p_el p = f_of_Z z) /\
       charge <= gain * (exact + slack) /\
       (Forall (contained_diff g ge c) hs -> 9978 / 10000 * (gain * (exact - slack)) - 100 * total rows_of hs <= charge))%R.
  Proof using Hexp.
    intros Hg He Hp Hn Hu HN Hw Ff Bf Gp Ht H.
    destruct (C17_one_point_per_cell fexp get_data generate_trajectory electrons uniform momenta vertex zs ms c rng indices g ge cloud labels rng' Hg He Hp Hn Hu H)
      as (l & rng1 & lds & cells & T & EL & Len & ND & F & _ & Cov).
    destruct (tracks_hist _ _ _ _ _ _ _ _ _ _ _ _ _ _ _ _ HN T) as (hs & A & B).
    exists hs. split; [exact A|]. cbv zeta. intros Small.
    assert (Per : forall h, In h hs ->
      (usual (mass (h_nuc h)) w (map t_v (h_track h)) /\
       (forall t, In t (h_track h) -> good_width (fexp := fexp) (c_diffusion fexp c) (c_efield fexp c) (c_drift fexp c) (to_row fexp c t))) /\
      length (els_of h) = length (h_track h) /\ (Rabs (IZR (emitted h) - h_exact mass w h) <= h_slack mass w fano h)%R).
    { intros h I. destruct (forall2_in_r _ _ _ A h I) as (i & Ii & M).
      pose proof M as (z & a & p & _ & _ & _ & _ & Ep & Et & _).
      assert (Ip : In p momenta) by (eapply py_index_in; exact Ep).
      destruct (Ht p (h_nuc h) (h_track h) Ip Et) as (U & Fin).
      split; [split; assumption|]. eapply emitted_close; eauto. }
    assert (TE := total_emitted mass w fano hs (fun h I => proj2 (proj2 (Per h I)))). apply Rabs_le_inv in TE.
    assert (Gr : (0 <= IZR (c_gain fexp c))%R) by (apply (IZR_le 0); exact Gp).
    set (Em := sumZ (map emitted hs)) in *.
    assert (UB : (IZR (c_gain fexp c) * IZR Em <= IZR (c_gain fexp c) * (total (h_exact mass w) hs + total (h_slack mass w fano) hs))%R) by (apply Rmult_le_compat_l; lra).
    assert (LB : (IZR (c_gain fexp c) * (total (h_exact mass w) hs - total (h_slack mass w fano) hs) <= IZR (c_gain fexp c) * IZR Em)%R) by (apply Rmult_le_compat_l; lra).
    assert (Small' : c_gain fexp c * Em <= 2 ^ 53).
    { apply le_IZR. rewrite mult_IZR. replace (IZR (2 ^ 53)) with (2 ^ 53)%R by (rewrite pow_IZR; reflexivity). lra. }
    destruct EL as (dss & F2 & ->).
    edestruct (fun A1 => event_sum_diff g ge c hs l dss Gp A1 Small' B F2) as (S1 & S2 & S3).
    { intros h I. destruct (Per h I) as ((_ & X) & Y & _). split; assumption. }
    cbv zeta in S1, S2, S3. set (lds := concat _) in *.
    assert (Pos : forall d lab, In (d, lab) lds -> 0 <= d_el d) by (intros d lab I; apply (S1 d lab I)).
    set (tot := sumZ (map (fun dl => d_el (fst dl)) lds)) in *. fold Em in S2, S3.
    assert (Q : sumR (map (fun p => R64 (p_el p)) cloud) = IZR (sumZ (map (fun k => keyed k lds) (map fst cells)))).
    { clear - F Pos S2 Small' Len. revert labels cells F Len. induction cloud as [|p cloud IH]; intros [|b labels] cells F Len; try discriminate.
      - cbn [combine] in F. inversion F; subst. reflexivity.
      - cbn [combine] in F. inversion F as [|cell pl cs rest H1 H2]; subst.
        cbn [map]. rewrite sumR_cons, sumZ_cons, plus_IZR. rewrite (IH labels cs H2 ltac:(cbn in Len; lia)). f_equal.
        destruct cell as [[tb pad] u]. cbn [fst snd] in *. unfold keyed. cbn [fst snd].
        apply (C17_exact_charge lds tb pad u p b H1).
        pose proof (keyed_le (tb, pad) lds Pos) as K. unfold keyed in K. cbn [fst snd] in K. fold tot in K. lia. }
    destruct (sum_keys (map fst cells) lds ND Pos) as (K1 & K2). fold tot in K1, K2.
    split.
    { intros p Ip. destruct (In_nth _ _ p Ip) as (k & Lk & Ek).
      assert (Il : In (p, nth k labels 0) (combine cloud labels)).
      { rewrite <- Ek at 1. rewrite <- combine_nth by exact Len. apply nth_In. rewrite combine_length. lia. }
      destruct (forall2_in_r _ _ _ F _ Il) as ([[tb pad] u] & _ & (_ & Ep & _)). cbn [fst snd] in Ep.
      pose proof (keyed_le (tb, pad) lds Pos) as K. unfold keyed in K. cbn [fst snd] in K. fold tot in K.
      exists (wrap64 (collected tb pad lds)). rewrite Ep. cbn [p_el]. split; [|reflexivity]. rewrite wrap64_id by (unfold two63; lia). lia. }
    rewrite Q. split.
    - apply Rle_trans with (IZR (c_gain fexp c) * IZR Em)%R; [|exact UB]. rewrite <- mult_IZR. apply IZR_le. lia.
    - intros C. rewrite K2.
      + specialize (S3 C). rewrite mult_IZR in S3. lra.
      + intros d lab I. destruct (S1 d lab I) as (_ & h & t & Ih & It & Et). rewrite Forall_forall in C.
        destruct (C h Ih t It) as (_ & W). destruct (Cov d lab I (W _ Et)) as (u & Iu).
        apply in_map_iff. exists (d_tb d, d_pad d, u). split; [reflexivity|exact Iu].
  Qed.
End CalorDiff.

(** ** Example: the alpha particle of C76 with diffusion (about 2.4 mm), gain 10, above one large pad. *)
Lemma ideal_exp_ok : exp_ok ideal_exp.
Proof.
  intros x Hx. unfold ideal_exp, f_of_ZE.
  assert (B : (0 < exp (R64 x) <= 1)%R).
  { split; [apply exp_pos|]. assert (L : (R64 x <= 0)%R).
    { destruct x as [s|s| |s m e b]; try apply Rle_refl.
      rewrite fleb_R in Hx by (reflexivity || (apply f_of_Z_fin; lia)). rewrite f_of_Z_R in Hx by lia.
      destruct (Rle_bool_spec (R64 (B754_finite s m e b)) 0) as [A|A]; [exact A|discriminate Hx]. }
    rewrite <- exp_0. destruct L as [L|L]; [left; apply exp_increasing; exact L|right; now f_equal]. }
  set (A := exp (R64 x)) in *.
  assert (N : 0 <= Zfloor (A * 1208925819614629174706176) <= 1208925819614629174706176).
  { split; [apply Zfloor_lub; lra|]. apply le_IZR. apply Rle_trans with (1 := Zfloor_lb _). lra. }
  set (n := Zfloor (A * 1208925819614629174706176)) in *.
  pose proof (binary_normalize_correct prec64 emax64 _ _ mode_NE n (-80) false) as C.
  cbv zeta in C. unfold F2R in C. cbn [Fnum Fexp] in C. change (bpow radix2 (-80)) with (/ 1208925819614629174706176)%R in C. simpl round_mode in C.
  assert (V : (0 <= IZR n * / 1208925819614629174706176 <= 1)%R).
  { assert (0 <= IZR n <= 1208925819614629174706176)%R by (split; apply IZR_le; lia). split; [apply Rmult_le_pos; lra|lra]. }
  set (v := (IZR n * / 1208925819614629174706176)%R) in *.
  rewrite Rlt_bool_true in C.
  2:{ apply (small_lt_emax _ 1); [lia|]. change (bpow radix2 1) with 2%R. apply Rabs_le. lra. }
  destruct C as (C1 & C2 & _). split; [exact C2|].
  change (0 <= R64 (binary_normalize prec64 emax64 _ _ mode_NE n (-80) false) <= 1)%R. rewrite C1.
  split; [apply (rnd64_ge_fmt _ 0); [apply generic_format_0|lra]|].
  apply (rnd64_le_fmt _ 1); [change 1%R with (bpow radix2 0); apply fmt64_bpow; lia|lra].
Qed.

Section Example.
  Notation fexp := ideal_exp.
  Definition cd_config : config fexp :=
    mkConfig fexp (f_of_Z 1) (f_of_Z 45000) (f_of_ZE 1 (-2)) (f_of_ZE 1 (-9)) 10 1 (Some nf_grid) (Some (packaged_edges fexp)).
  Definition cd_sim := simulate fexp (fun z a => Ok (100 * z + a)) (al_traj fexp)
    (electrons64 fexp al_mass 34 (f_of_Z 0) al_normals) ex_uniform.
  (** The width of the row, and its pixels. *)
  Definition cd_width : f64 := fsqrt (fdiv (fmul (fmul (fmul (f_of_Z 2) (f_of_ZE 1 (-2))) (f_of_ZE 1 (-9))) (drift_time fexp cd_config half)) (f_of_Z 45000)).

  Lemma cd_sigma : sigma_of (N := F64 fexp) (c_diffusion fexp cd_config) (c_efield fexp cd_config) (c_drift fexp cd_config)
    (drift_time fexp cd_config half) = Ok cd_width.
  Proof.
    unfold sigma_of, njdiv. cbn [neqb nofZ F64 nsqrt ndiv nmul cd_config c_diffusion c_efield c_drift].
    rewrite (feqb_nonzero (f_of_Z 45000)) by (try (apply f_of_Z_fin; lia); rewrite f_of_Z_R by lia; lra). reflexivity.
  Qed.

  Lemma cd_resolved : resolved (f_of_Z 0) (f_of_Z 0) cd_width.
  Proof.
    assert (F : is_finite cd_width = true) by (vm_compute; reflexivity).
    assert (A : fleb (f_of_ZE 1 (-10)) cd_width = true) by (vm_compute; reflexivity).
    assert (B : fleb cd_width (f_of_Z 1) = true) by (vm_compute; reflexivity).
    destruct (f_of_ZE_correct 1 (-10) ltac:(lia) ltac:(lia)) as (E & Fe).
    rewrite fleb_R in A, B by (assumption || (apply f_of_Z_fin; lia)). rewrite f_of_Z_R in B by lia. rewrite E in A.
    assert (LE : forall a b, Rle_bool a b = true -> (a <= b)%R) by (intros a b H; destruct (Rle_bool_spec a b); [assumption|discriminate H]).
    apply LE in A, B. change (bpow radix2 (-10)) with (/ 1024)%R in A.
    assert (P : (2 ^ 30 = 1073741824)%R) by ring. assert (F0 : is_finite (f_of_Z 0) = true) by (apply f_of_Z_fin; lia).
    unfold resolved. rewrite P, f_of_Z_R by lia. rewrite Rabs_R0.
    repeat split; try assumption; lra.
  Qed.

  Definition lands_here (p : f64 * f64) : bool :=
    match position_to_index (N := F64 fexp) (packaged_edges fexp) p with
    | Ok (ix, iy) => (0 <=? ix) && (ix <? 5600) && (0 <=? iy) && (iy <? 5600)
    | Err _ => false
    end.
  Lemma lands_ok p : lands_here p = true -> exists pad, lands (N := F64 fexp) nf_grid (packaged_edges fexp) p pad.
  Proof.
    unfold lands_here. intros H. exists 300. destruct (position_to_index _ _) as [[ix iy]|] eqn:E; [|discriminate H].
    exists ix, iy. split; [exact E|]. apply andb_prop in H as [H H4]. apply andb_prop in H as [H H3]. apply andb_prop in H as [H1 H2].
    split; [lia|]. split; [lia|]. split.
    { unfold grid_get, axis_index, nf_grid. cbn [gr_rows gr_cols gr_cell].
      replace (ix <? 0) with false by lia. replace (iy <? 0) with false by lia.
      replace ((0 <=? ix) && (ix <? 5600)) with true by lia. replace ((0 <=? iy) && (iy <? 5600)) with true by lia. reflexivity. }
    split; [lia|]. intros I. apply (proj2 (Bool.not_true_iff_false (existsb (Z.eqb 300) BEAM_PADS))); [vm_compute; reflexivity|].
    apply existsb_exists. exists 300. split; [exact I|reflexivity].
  Qed.
  Lemma cd_pixels p : In p (@diffusion_mesh (F64 fexp) (f_of_Z 0, f_of_Z 0) cd_width) -> lands_here p = true.
  Proof.
    apply (proj1 (forallb_forall lands_here (@diffusion_mesh (F64 fexp) (f_of_Z 0, f_of_Z 0) cd_width))).
    vm_compute. reflexivity.
  Qed.

  Example C88_example : exists cloud labels rng',
    cd_sim [0] tt [2] [4] cd_config 0 [0] = Ok ((cloud, labels), rng') /\
    (190000000 <= sumR (map (fun p => R64 (p_el p)) cloud) <= 210000000)%R.
  Proof.
    destruct al_moving as (U & L1 & L2 & L3).
    assert (Em : R64 (f_of_Z 3728) = 3728%R) by (apply f_of_Z_R; lia).
    assert (TB : f_to_Z (drift_time fexp cd_config half) = Some 257) by (vm_compute; reflexivity).
    assert (Z0 : R64 (f_of_Z 0) = 0%R) by (apply f_of_Z_R; lia). assert (F0 : is_finite (f_of_Z 0) = true) by (apply f_of_Z_fin; lia).
    assert (B0 : bnd (f_of_Z 0) 300) by (split; [exact F0|rewrite Z0, Rabs_R0; apply bpow_ge_0]).
    assert (Tr : forall t, In t al_track -> to_row fexp cd_config t = @mkRow (F64 fexp) (f_of_Z 0) (f_of_Z 0) (drift_time fexp cd_config half) /\ t_z t = half).
    { intros t [<-|[<-|[<-|[]]]]; split; reflexivity. }
    assert (HN : normals_ok al_normals).
    { intros n g. cbn [al_normals fst]. split; [apply repeat_length|].
      apply Forall_forall. intros u Hu. apply repeat_spec in Hu as ->.
      split; [apply f_of_Z_fin; lia|]. rewrite f_of_Z_R by lia. rewrite Rabs_pos_eq; lra. }
    assert (Rt : rg (drift_time fexp cd_config half) (-60) 60) by (apply nf_rg; vm_compute; reflexivity).
    destruct (C89_simulate fexp (fun z a => Ok (100 * z + a)) (al_traj fexp) (electrons64 fexp al_mass 34 (f_of_Z 0) al_normals) ex_uniform
      [0] tt [2] [4] cd_config 0 [0] nf_grid ideal_exp_ok eq_refl eq_refl eq_refl eq_refl) as (cloud & labels & rng' & E).
    { split; [right; apply nf_rg; vm_compute; reflexivity|]. split; [apply nf_rg; vm_compute; reflexivity|].
      destruct (f_of_ZE_correct 1 (-9) ltac:(lia) ltac:(lia)) as (E & Fe). cbn [cd_config c_drift]. split; [exact Fe|]. rewrite E.
      change (bpow radix2 (-9)) with (/ 512)%R. change (bpow radix2 (-60)) with (/ 1152921504606846976)%R. change (bpow radix2 60) with 1152921504606846976%R. lra. }
    { intros i [<-|[]]. right. exists 2, 4, 204, 0, al_track. repeat (split; [reflexivity|]). split.
      - intros t It. rewrite (proj1 (Tr t It)). split; [exact B0|]. split; [exact B0|]. right. exact Rt.
      - apply C89_countable; try assumption; [lia|lra|]. change (0 <= 10 <= 2 ^ 11). lia. }
    exists cloud, labels, rng'. split; [exact E|].
    assert (Gw : forall t, In t al_track -> good_width (fexp := fexp) (c_diffusion fexp cd_config) (c_efield fexp cd_config) (c_drift fexp cd_config) (to_row fexp cd_config t)).
    { intros t It. rewrite (proj1 (Tr t It)). intros s Es. right. cbn [r_x r_y r_time] in *. pose proof cd_sigma as S.
      assert (s = cd_width) by congruence. subst s. exact cd_resolved. }
    destruct (C88_charge fexp ideal_exp_near (fun z a => Ok (100 * z + a)) (al_traj fexp) al_mass 34 (f_of_Z 0) al_normals ex_uniform
      [0] tt [2] [4] cd_config 0 [0] nf_grid (packaged_edges fexp) cloud labels rng')
      as (hs & A & B); try reflexivity; try assumption.
    - intros i j. cbn. lia.
    - intros p nuc track t tb _ Et It Hb.
      apply (f_equal (fun r => match r with Ok x => x | _ => [] end)) in Et. cbv beta match delta [al_traj] in Et. subst track.
      rewrite (proj2 (Tr t It)), TB in Hb. assert (tb = 257) by congruence. subst. reflexivity.
    - intros n g. cbn [ex_uniform fst]. split; [apply repeat_length|].
      apply Forall_forall. intros u Hu. apply repeat_spec in Hu as ->. exact half_ok.
    - lia.
    - lra.
    - cbn. lia.
    - intros p nuc track _ Et.
      apply (f_equal (fun r => match r with Ok x => x | _ => [] end)) in Et. cbv beta match delta [al_traj] in Et. subst track.
      split; [exact U|exact Gw].
    - change (filter (is_charged [2]) [0]) with [0] in A.
      inversion A as [|? h ? tl M A']; subst. inversion A'; subst. clear A A'.
      destruct M as (z & a & p & _ & _ & _ & _ & _ & Et & Lg & Fg).
      apply (f_equal (fun r => match r with Ok x => x | _ => [] end)) in Et. cbv beta match delta [al_traj] in Et.
      destruct h as [n tr gs]. cbn [h_track h_gs h_nuc] in *. subst tr.
      clear E. destruct gs as [|g1 [|g2 [|g3 [|? ?]]]]; try discriminate Lg. clear Lg.
      assert (HS : total (h_slack al_mass 34 (f_of_Z 0)) [mkHist n al_track [g1; g2; g3]] = 6%R).
      { unfold total, h_slack, slacks, exact_of, al_mass. cbn [h_nuc h_track h_gs al_track map exact_electrons steps combine fst snd].
        unfold slack, sumR. cbn [fold_right]. rewrite Z0. rewrite !Rmult_0_l, sqrt_0. lra. }
      assert (HR : total rows_of [mkHist n al_track [g1; g2; g3]] = 3%R).
      { unfold total, rows_of, sumR. cbn [h_track al_track map fold_right length INR]. lra. }
      assert (HE : total (h_exact al_mass 34) [mkHist n al_track [g1; g2; g3]] = (3728 * (5 / 4 - lorentz_factor (t_v (al_row 1 1 0))) * (10 ^ 6 / 34))%R).
      { unfold total, h_exact, exact_of, al_mass. cbn [h_nuc h_track map]. unfold sumR at 1. cbn [fold_right]. rewrite Em.
        cbn [al_track map].
        destruct (C76_energy 3728 34 (t_v (al_row 3 0 0)) [t_v (al_row 0 3 0); t_v (al_row 1 1 0)] ltac:(lia)) as (_ & Q).
        rewrite Q.
        - cbn [last]. unfold kinetic. rewrite L1. ring.
        - intros i x y Hx Hy. destruct i as [|[|[|i]]]; cbn [nth_error] in Hx, Hy; try discriminate Hx; try discriminate Hy.
          + assert (x = t_v (al_row 3 0 0)) by congruence. assert (y = t_v (al_row 0 3 0)) by congruence. subst x y.
            unfold kinetic. rewrite L1, L2. lra.
          + assert (x = t_v (al_row 0 3 0)) by congruence. assert (y = t_v (al_row 1 1 0)) by congruence. subst x y.
            unfold kinetic. rewrite L2. lra. }
      cbv zeta in B. rewrite HS, HE, HR in B. change (IZR (c_gain fexp cd_config)) with 10%R in B.
      assert (P53 : (2 ^ 53 = 9007199254740992)%R) by ring.
      set (L := lorentz_factor (t_v (al_row 1 1 0))) in *. clearbody L.
      replace (10 ^ 6 / 34)%R with (500000 / 17)%R in B by (simpl; lra).
      replace (3728 * (5 / 4 - L) * (500000 / 17))%R with (5 / 4 * (1864000000 / 17) - L * (1864000000 / 17))%R in B by lra.
      destruct B as (_ & B1 & B2); [lra|]. split; [|lra].
      assert (Cn : Forall (contained_diff fexp nf_grid (packaged_edges fexp) cd_config) [mkHist n al_track [g1; g2; g3]]).
      { constructor; [|constructor]. intros t It. cbn [h_track] in It. destruct (Tr t It) as (-> & Tz). rewrite Tz. split.
        - intros s Es. cbn [r_time r_x r_y] in *. pose proof cd_sigma as S. assert (s = cd_width) by congruence. subst s.
          replace (feqb cd_width (f_of_Z 0)) with false by (vm_compute; reflexivity).
          intros q Iq. apply lands_ok. now apply cd_pixels.
        - intros tb Hb. rewrite TB in Hb. assert (tb = 257) by congruence. lia. }
      specialize (B2 Cn). lra.
  Qed.
End Example.

Print Assumptions C88_charge.
