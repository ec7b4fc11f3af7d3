(** P_TransportF64.v -- properties C09 (witness), C10, C12, C13: the transport in binary64. *)
From Coq Require Import ZArith Reals Lia Lra.
From Flocq Require Import Core BinarySingleNaN.
From Verif Require Import Base F64 F64Bounds Num Pairing BeamPads Transporter SpecTransport
  TransportProofs PositionProofs PadGridData PadGrid PadGridProofs TransportF64.
Local Open Scope Z_scope.
Local Opaque grid_rows.

(** ** C10: zero diffusion *)

(** Every row makes at most one deposit, of all its electrons, on the pad above it. *)
Definition straight_down {N : Num} (g : grid) (ge : edges N) (re : row N * Z) (ds : list dep) : Prop :=
  (misses g ge (r_x (fst re), r_y (fst re)) /\ ds = []) \/
  (exists pad tb, lands g ge (r_x (fst re), r_y (fst re)) pad /\ ntoZ (r_time (fst re)) = Some tb /\
     ds = [mkDep tb pad (snd re)]).

Theorem C10_single_pad :
  forall (fexp : f64 -> f64) (g : grid) (ge : edges (F64 fexp)) (diffusion efield dv : f64)
    (track : list (row (F64 fexp))) (el : list Z) (ds : list dep),
  fzero diffusion -> is_finite efield = true -> R64 efield <> 0%R -> is_finite dv = true ->
  (forall r, In r track -> @is_finite prec64 emax64 (r_time r) = true) ->
  track_ledger (N := F64 fexp) g ge diffusion efield dv track el ds ->
  exists dss, Forall2 (straight_down g ge) (combine track el) dss /\ ds = concat dss.
Proof.
  intros fexp g ge diffusion efield dv track el ds D Fe He Fd Ft (_ & dss & F & ->).
  exists dss. split; [|reflexivity].
  assert (Ht : forall re, In re (combine track el) -> @is_finite prec64 emax64 (r_time (fst re)) = true).
  { intros [r e] H. apply in_combine_l in H. now apply Ft. }
  clear Ft. induction F as [|re ds rest dss H F IH]; constructor.
  - specialize (Ht re (or_introl eq_refl)).
    destruct re as [r e]. cbn [fst] in Ht.
    destruct (sigma_zero fexp diffusion efield dv (r_time r) D Fe He Fd Ht) as (s & Es & E0).
    inversion H as [r' e' s' ds' Es' E0' P|r' e' s' dss' Es' E0' P]; subst.
    + unfold straight_down. cbn [fst snd].
      destruct P as [M|pad tb a L T A]; [left; auto|right]. exists pad, tb. subst a. auto.
    + assert (s' = s) by congruence. subst s'. cbn [neqb nofZ F64] in E0'. congruence.
  - apply IH. intros re' H'. apply Ht. now right.
Qed.

(** Total charge: exactly the electrons of the rows that are above active pads. *)
Theorem C10_total_charge :
  forall (fexp : f64 -> f64) (g : grid) (ge : edges (F64 fexp)) (diffusion efield dv : f64)
    (track : list (row (F64 fexp))) (el : list Z) (pts pts' : points) (label : Z),
  fzero diffusion -> is_finite efield = true -> R64 efield <> 0%R -> is_finite dv = true ->
  (forall r, In r track -> @is_finite prec64 emax64 (r_time r) = true) ->
  transport_track (N := F64 fexp) g ge diffusion efield dv track el pts label = Ok pts' ->
  NoDup (map fst pts) -> (forall k, 0 <= charge_at pts k) -> (forall e, In e el -> 0 <= e) ->
  (forall k, charge_at pts k + sumZ el < two63) ->
  exists landed : list bool,
    Forall2 (fun re (b : bool) =>
               if b then exists pad, lands g ge (r_x (fst re), r_y (fst re)) pad
               else misses g ge (r_x (fst re), r_y (fst re)))
            (combine track el) landed /\
    total_charge pts' = total_charge pts +
      sumZ (map (fun p : Z * bool => if snd p then fst p else 0)
                (combine (map snd (combine track el)) landed)).
Proof.
  intros fexp g ge diffusion efield dv track el pts pts' label D Fe He Fd Ft H Hn Hc Hel Hm.
  apply transport_track_iff in H as (ds & L & ->).
  destruct (C10_single_pad _ _ _ _ _ _ _ _ _ D Fe He Fd Ft L) as (dss & F & ->).
  assert (Hl : exists landed : list bool,
    Forall2 (fun re (b : bool) =>
               if b then exists pad, lands g ge (r_x (fst re), r_y (fst re)) pad
               else misses g ge (r_x (fst re), r_y (fst re)))
            (combine track el) landed /\
    sumZ (map d_el (concat dss)) =
      sumZ (map (fun p : Z * bool => if snd p then fst p else 0)
                (combine (map snd (combine track el)) landed)) /\
    (forall d, In d (concat dss) -> 0 <= d_el d)).
  { assert (Hs : forall re, In re (combine track el) -> 0 <= snd re).
    { intros [r e] I. apply in_combine_r in I. now apply Hel. }
    clear L Hm. induction F as [|re ds rest dss Hr F IH].
    - exists []. split; [constructor|]. split; [reflexivity|]. intros d [].
    - destruct IH as (bs & B1 & B2 & B3); [intros; apply Hs; now right|].
      pose proof (Hs re (or_introl eq_refl)) as S0.
      destruct Hr as [(M & ->)|(pad & tb & La & T & ->)].
      + exists (false :: bs). cbn [concat app]. split; [constructor; assumption|].
        cbn [map combine fst snd]. rewrite ?sumZ_cons. split; [lia|exact B3].
      + exists (true :: bs). cbn [concat app]. split; [constructor; [exists pad; exact La|assumption]|].
        cbn [map combine fst snd d_el]. rewrite ?sumZ_cons. split; [lia|].
        intros d [<-|I]; [exact S0|now apply B3]. }
  destruct Hl as (landed & L1 & L2 & L3). exists landed. split; [exact L1|].
  rewrite <- L2. apply total_post_all_le; auto.
  intros k. specialize (Hm k).
  assert (G1 : due k (concat dss) <= sumZ (map d_el (concat dss))).
  { clear - L3. induction (concat dss) as [|d l IH]; [unfold due; simpl; lia|].
    rewrite due_cons. cbn [map]. rewrite sumZ_cons. specialize (IH ltac:(intros; apply L3; now right)).
    specialize (L3 d (or_introl eq_refl)). destruct (_ =? _); lia. }
  assert (G2 : sumZ (map d_el (concat dss)) <= sumZ el).
  { rewrite L2. clear - Hel. revert el landed Hel.
    induction track as [|r track IH]; intros el landed Hel.
    - cbn [combine map]. change (sumZ []) with 0. clear - Hel.
      induction el as [|e el IH]; [apply Z.le_refl|]. rewrite sumZ_cons.
      specialize (IH ltac:(intros; apply Hel; now right)). specialize (Hel e (or_introl eq_refl)). lia.
    - destruct el as [|e el]; [simpl; lia|]. destruct landed as [|b landed].
      + cbn [combine map]. rewrite sumZ_cons. change (sumZ []) with 0. specialize (IH el [] ltac:(intros; apply Hel; now right)).
        assert (Z0 : sumZ (map (fun p : Z * bool => if snd p then fst p else 0)
                     (combine (map snd (combine track el)) [])) = 0).
        { destruct (map snd (combine track el)); reflexivity. }
        rewrite Z0 in IH. specialize (Hel e (or_introl eq_refl)). lia.
      + cbn [combine map fst snd]. rewrite !sumZ_cons. cbn [fst snd]. specialize (IH el landed ltac:(intros; apply Hel; now right)).
        specialize (Hel e (or_introl eq_refl)). destruct b; lia. }
  lia.
Qed.

(** ** C13: memory safety *)

(** Finite with value in [2^a, 2^b]. *)
Definition rg (x : f64) (a b : Z) : Prop :=
  is_finite x = true /\ (b2 a <= R64 x <= b2 b)%R.

Lemma rg_mul x y a b a' b' : rg x a b -> rg y a' b' -> -1074 <= a + a' -> a + a' <= b + b' < 1024 ->
  rg (fmul x y) (a + a') (b + b').
Proof.
  intros (Fx & Bx) (Fy & By) L U.
  pose proof (bpow_gt_0 radix2 a). pose proof (bpow_gt_0 radix2 a').
  assert (P : (b2 (a + a') <= R64 x * R64 y <= b2 (b + b'))%R).
  { rewrite !bpow_plus. split; apply Rmult_le_compat; lra. }
  pose proof (bpow_gt_0 radix2 (a + a')).
  destruct (fmul_fin x y (b + b') Fx Fy ltac:(lia)) as (E & F); [rewrite Rabs_pos_eq; lra|].
  split; [exact F|]. rewrite E.
  split; [apply rnd64_ge_fmt|apply rnd64_le_fmt]; try apply fmt64_bpow; try lia; lra.
Qed.

Lemma rg_div x y a b a' b' : rg x a b -> rg y a' b' -> -1074 <= a - b' -> a - b' <= b - a' < 1024 ->
  rg (fdiv x y) (a - b') (b - a').
Proof.
  intros (Fx & Bx) (Fy & By) L U.
  pose proof (bpow_gt_0 radix2 a). pose proof (bpow_gt_0 radix2 a').
  assert (P : (b2 (a - b') <= R64 x / R64 y <= b2 (b - a'))%R).
  { unfold Z.sub, Rdiv. rewrite !bpow_plus, !bpow_opp.
    assert (0 < / b2 b')%R by apply Rinv_0_lt_compat, bpow_gt_0.
    assert (0 < / R64 y)%R by (apply Rinv_0_lt_compat; lra).
    split; apply Rmult_le_compat; try lra; apply Rinv_le; lra. }
  pose proof (bpow_gt_0 radix2 (a - b')).
  destruct (fdiv_fin x y (b - a') Fx ltac:(lra) ltac:(lia)) as (E & F); [rewrite Rabs_pos_eq; lra|].
  split; [exact F|]. rewrite E.
  split; [apply rnd64_ge_fmt|apply rnd64_le_fmt]; try apply fmt64_bpow; try lia; lra.
Qed.

Lemma sqrt_b2 a : sqrt (b2 (2 * a)) = b2 a.
Proof.
  replace (2 * a) with (a + a) by lia. rewrite bpow_plus. apply sqrt_square, bpow_ge_0.
Qed.

Lemma rg_sqrt x a b : rg x (2 * a) (2 * b) -> -1074 <= a -> -1074 <= b -> rg (fsqrt x) a b.
Proof.
  intros (Fx & Bx) L U. pose proof (bpow_gt_0 radix2 (2 * a)).
  destruct (Bsqrt_correct prec64 emax64 _ _ mode_NE x) as (E & F & _).
  fold (fsqrt x) in E, F. simpl round_mode in E.
  split.
  - rewrite F. assert (Sg : Bsign x = false) by (apply Bsign_pos; lra).
    destruct x as [?|?| |[] ? ? ?]; try discriminate; reflexivity.
  - rewrite E. split; [apply rnd64_ge_fmt|apply rnd64_le_fmt]; try (apply fmt64_bpow; lia).
    + rewrite <- (sqrt_b2 a). apply sqrt_le_1_alt. lra.
    + rewrite <- (sqrt_b2 b). apply sqrt_le_1_alt. lra.
Qed.

Lemma rg_nonzero x a b : rg x a b -> is_finite x = true /\ R64 x <> 0%R.
Proof. intros (F & B). pose proof (bpow_gt_0 radix2 a). split; [exact F|lra]. Qed.

(** The range of physical inputs (2^-60 is about 1e-18, 2^60 about 1e18). *)
Definition sane (diffusion efield dv : f64) : Prop :=
  (fzero diffusion \/ rg diffusion (-60) 60) /\ rg efield (-60) 60 /\ rg dv (-60) 60.
Definition sane_row {fexp} (r : row (F64 fexp)) : Prop :=
  bnd (r_x r) 300 /\ bnd (r_y r) 300 /\ (fzero (r_time r) \/ rg (r_time r) (-60) 60).

Lemma sane_time_fin {fexp} (r : row (F64 fexp)) : sane_row r ->
  @is_finite prec64 emax64 (r_time r) = true.
Proof. intros (_ & _ & [(s & ->)|(F & _)]); [reflexivity|exact F]. Qed.

Lemma sane_time_int {fexp} (r : row (F64 fexp)) : sane_row r ->
  exists tb, f_to_Z (r_time r) = Some tb /\ 0 <= tb.
Proof.
  intros S. pose proof (sane_time_fin r S) as F. destruct S as (_ & _ & [(s & E)|(_ & B)]).
  - rewrite E. exists 0. split; [destruct s; reflexivity|lia].
  - pose proof (bpow_gt_0 radix2 (-60)).
    assert (T : 0 <= Ztrunc (R64 (r_time r)) <= 2 ^ 60).
    { rewrite Ztrunc_floor by lra. split.
      - apply Zfloor_lub. lra.
      - apply le_IZR. rewrite IZR_pow2 by lia. apply Rle_trans with (2 := proj2 B). apply Zfloor_lb. }
    exists (Ztrunc (R64 (r_time r))). split; [|lia].
    apply f_to_Z_some; [exact F|]. unfold two63. lia.
Qed.

Lemma sane_sigma fexp diffusion efield dv (r : row (F64 fexp)) :
  sane diffusion efield dv -> sane_row r ->
  exists s, @sigma_of (F64 fexp) diffusion efield dv (r_time r) = Ok s /\
    (feqb s (f_of_Z 0) = true \/ rg s (-300) 300).
Proof.
  intros (D & E & V) S. pose proof (sane_time_fin r S) as Ft.
  destruct (rg_nonzero _ _ _ E) as (Fe & He). destruct (rg_nonzero _ _ _ V) as (Fv & Hv).
  destruct D as [D|D].
  { destruct (sigma_zero fexp diffusion efield dv (r_time r) D Fe He Fv Ft) as (s & A & B).
    eauto. }
  unfold sigma_of, njdiv. cbn [neqb nmul nofZ ndiv nsqrt F64].
  rewrite feqb_nonzero by assumption. cbn [bind]. eexists. split; [reflexivity|].
  assert (R2 : rg (f_of_Z 2) 1 1).
  { split; [reflexivity|]. rewrite f_of_Z_R by lia. change (b2 1) with 2%R. lra. }
  pose proof (rg_mul _ _ _ _ _ _ R2 D ltac:(lia) ltac:(lia)) as A1.
  pose proof (rg_mul _ _ _ _ _ _ A1 V ltac:(lia) ltac:(lia)) as A2.
  destruct S as (_ & _ & [Z0|T]).
  - left. apply feqb_zero; [|apply f_of_Z_0]. apply fsqrt_zero, fdiv_zero_l; auto.
    apply fmul_zero_r; [apply A2|exact Z0].
  - right. pose proof (rg_mul _ _ _ _ _ _ A2 T ltac:(lia) ltac:(lia)) as A3.
    pose proof (rg_div _ _ _ _ _ _ A3 E ltac:(lia) ltac:(lia)) as A4.
    apply rg_sqrt; try lia. destruct A4 as (F4 & B4). split; [exact F4|].
    split; [apply Rle_trans with (2 := proj1 B4)|apply Rle_trans with (1 := proj2 B4)];
      apply bpow_le; lia.
Qed.

Lemma bnd_not_nan x e : bnd x e -> is_nan64 x = false.
Proof. intros (F & _). destruct x; try discriminate; reflexivity. Qed.

Lemma lookup_safe fexp (g : grid) (p : f64 * f64) e :
  gr_rows g = 5600 -> gr_cols g = 5600 -> bnd (fst p) e -> bnd (snd p) e ->
  exists ix iy, @position_to_index (F64 fexp) (packaged_edges fexp) p = Ok (ix, iy) /\
    (((ix =? -1) || (iy =? -1)) = true \/
     ((ix =? -1) || (iy =? -1)) = false /\ exists pad, grid_get g ix iy = Ok pad).
Proof.
  intros Gr Gc Bx By. destruct p as [x y]. cbn [fst snd] in *.
  rewrite position_to_index_packaged by (eapply bnd_not_nan; eassumption).
  destruct (mm x) as [kx|]; [destruct (mm y) as [ky|]|];
    try (exists (-1), (-1); split; [reflexivity|now left]).
  destruct (in_plane (Some kx) && in_plane (Some ky)) eqn:E;
    [|exists (-1), (-1); split; [reflexivity|now left]].
  exists (10 * (kx + 280)), (10 * (ky + 280)). split; [reflexivity|]. right.
  unfold in_plane in E. split; [lia|].
  unfold grid_get, axis_index. rewrite Gr, Gc.
  replace (10 * (kx + 280) <? 0) with false by lia.
  replace (10 * (ky + 280) <? 0) with false by lia.
  replace ((0 <=? 10 * (kx + 280)) && (10 * (kx + 280) <? 5600)) with true by lia.
  replace ((0 <=? 10 * (ky + 280)) && (10 * (ky + 280) <? 5600)) with true by lia.
  cbn [bind]. eauto.
Qed.

(** On the packaged grid (any 5600 x 5600 grid) the transport of any track with sane inputs
    returns normally: no undefined behaviour and no exception. *)
Theorem C13_memory_safety :
  forall (fexp : f64 -> f64) (g : grid) (diffusion efield dv : f64)
    (track : list (row (F64 fexp))) (el : list Z) (pts : points) (label : Z),
  exp_ok fexp -> gr_rows g = 5600 -> gr_cols g = 5600 ->
  sane diffusion efield dv -> (forall r, In r track -> sane_row r) ->
  (length track <= length el)%nat -> (forall e, In e el -> Z.abs e <= 2 ^ 53) ->
  exists pts', transport_track (N := F64 fexp) g (packaged_edges fexp) diffusion efield dv
                 track el pts label = Ok pts'.
Proof.
  intros fexp g diffusion efield dv track el pts label Hexp Gr Gc Sa Sr Hl He.
  revert el pts Hl He. induction track as [|r track IH]; intros el pts Hl He.
  { exists pts. destruct el; reflexivity. }
  destruct el as [|e el]; [simpl in Hl; lia|]. cbn [transport_track].
  assert (Sr0 : sane_row r) by (apply Sr; now left).
  assert (He0 : Z.abs e <= 2 ^ 53) by (apply He; now left).
  assert (Hrow : exists p', @transport_row (F64 fexp) g (packaged_edges fexp) diffusion efield dv
                              label pts (r, e) = Ok p').
  { unfold transport_row.
    destruct (sane_sigma fexp diffusion efield dv r Sa Sr0) as (s & -> & Hs). cbn [bind].
    destruct (sane_time_int r Sr0) as (tb & Etb & _).
    destruct Sr0 as (Bx & By & _). cbn [neqb nofZ F64].
    destruct (feqb s (f_of_Z 0)) eqn:Es.
    - unfold point_transport.
      destruct (lookup_safe fexp g (r_x r, r_y r) 300 Gr Gc Bx By) as (ix & iy & -> & Hp).
      cbn [bind]. destruct Hp as [->|(-> & pad & ->)]; [eauto|]. cbn [bind].
      destruct (active_pad pad); [|eauto]. unfold njint. cbn [ntoZ F64]. rewrite Etb. cbn [bind]. eauto.
    - destruct Hs as [Hs|Hs]; [discriminate|].
      assert (Bs : bnd s 300).
      { destruct Hs as (F & B). pose proof (bpow_gt_0 radix2 (-300)). split; [exact F|].
        rewrite Rabs_pos_eq; lra. }
      unfold transverse_transport.
      assert (Hm : forall px, In px (@diffusion_mesh (F64 fexp) (r_x r, r_y r) s) ->
                bnd (fst px) 320 /\ bnd (snd px) 320).
      { intros px. now apply mesh_bnd. }
      revert pts. induction (@diffusion_mesh (F64 fexp) (r_x r, r_y r) s) as [|px l IHl];
        intros pts; [eexists; reflexivity|]. cbn [foldM].
      destruct (Hm px (or_introl eq_refl)) as (Px & Py).
      assert (Hpx : exists p', @pixel_transport (F64 fexp) g (packaged_edges fexp) (r_time r)
                   (r_x r, r_y r) e s label pts px = Ok p').
      { unfold pixel_transport.
        destruct (lookup_safe fexp g px 320 Gr Gc Px Py) as (ix & iy & -> & Hp).
        cbn [bind]. destruct Hp as [->|(-> & pad & ->)]; [eauto|]. cbn [bind].
        destruct (active_pad pad); [|eauto]. unfold njint. cbn [ntoZ F64]. rewrite Etb. cbn [bind].
        destruct (pixel_electrons_safe fexp px (r_x r, r_y r) s e Hexp Px Py) as (z & -> & _).
        - eapply bnd_mono; [exact Bx|lia].
        - eapply bnd_mono; [exact By|lia].
        - exact Bs.
        - apply Hs.
        - exact He0.
        - cbn [bind]. eauto. }
      destruct Hpx as (p' & ->). cbn [bind]. apply IHl. intros q Hq. apply Hm. now right. }
  destruct Hrow as (p' & ->). cbn [bind]. apply IH.
  - intros r' Hr'. apply Sr. now right.
  - simpl in Hl. lia.
  - intros e' He'. apply He. now right.
Qed.

(** ... and it never lowers a stored charge below zero when there is no overflow: every
    deposit of such a track is non-negative. *)
Theorem C13_deposits_nonnegative :
  forall (fexp : f64 -> f64) (g : grid) (diffusion efield dv : f64)
    (track : list (row (F64 fexp))) (el : list Z) (ds : list dep),
  exp_ok fexp -> gr_rows g = 5600 -> gr_cols g = 5600 ->
  sane diffusion efield dv -> (forall r, In r track -> sane_row r) ->
  (forall e, In e el -> 0 <= e <= 2 ^ 53) ->
  track_ledger (N := F64 fexp) g (packaged_edges fexp) diffusion efield dv track el ds ->
  forall d, In d ds -> 0 <= d_el d <= 2 ^ 54 /\ 0 <= d_tb d.
Proof.
  intros fexp g diffusion efield dv track el ds Hexp Gr Gc Sa Sr He (Hl & dss & F & ->) d Hd.
  assert (Hc : forall re, In re (combine track el) -> sane_row (fst re) /\ 0 <= snd re <= 2 ^ 53).
  { intros [r e] H. split; [apply Sr; eapply in_combine_l; eauto|apply He; eapply in_combine_r; eauto]. }
  clear Hl Sr He. induction F as [|re ds rest dss H F IH]; [destruct Hd|].
  apply in_app_iff in Hd as [Hd|Hd]; [|apply IH; [exact Hd|intros; apply Hc; now right]].
  destruct (Hc re (or_introl eq_refl)) as (S0 & E0). clear IH F Hc. destruct re as [r e].
  cbn [fst snd] in *.
  destruct (sane_sigma fexp diffusion efield dv r Sa S0) as (s & Es & Hs).
  destruct (sane_time_int r S0) as (tb & Etb & Htb). destruct S0 as (Bx & By & _).
  inversion H as [r' e' s' ds' Es' N0 P|r' e' s' dss' Es' N0 P]; subst.
  - destruct P as [|pad tb' a L T A]; [destruct Hd|]. destruct Hd as [<-|[]]. cbn [d_el d_tb]. subst a.
    cbn [ntoZ F64] in T. assert (tb' = tb) by congruence. lia.
  - assert (s' = s) by congruence. subst s'. cbn [neqb nofZ F64] in N0.
    destruct Hs as [Hs|Hs]; [congruence|].
    assert (Bs : bnd s 300).
    { destruct Hs as (Fs & B). pose proof (bpow_gt_0 radix2 (-300)). split; [exact Fs|].
      rewrite Rabs_pos_eq; lra. }
    assert (Hm : forall px, In px (@diffusion_mesh (F64 fexp) (r_x r, r_y r) s) ->
              bnd (fst px) 320 /\ bnd (snd px) 320).
    { intros px. now apply mesh_bnd. }
    clear H. revert Hd. induction P as [|px ds l dss' Q P IHP]; [intros []|]. intros Hd.
    apply in_app_iff in Hd as [Hd|Hd].
    + destruct Q as [|pad tb' a L T A]; [destruct Hd|]. destruct Hd as [<-|[]]. cbn [d_el d_tb].
      destruct (Hm px (or_introl eq_refl)) as (Px & Py).
      destruct (pixel_electrons_safe fexp px (r_x r, r_y r) s e Hexp Px Py) as (z & Ez & Bz & Nz);
        [eapply bnd_mono; [exact Bx|lia]|eapply bnd_mono; [exact By|lia]|exact Bs|apply Hs|lia|].
      assert (a = z) by congruence. subst a. cbn [ntoZ F64] in T. assert (tb' = tb) by congruence. lia.
    + apply IHP; [intros q Hq; apply Hm; now right|exact Hd].
Qed.

(** A negative drift time with positive diffusion is undefined behaviour. *)
Theorem C13_negative_time_refuted :
  forall (fexp : f64 -> f64) (g : grid) (diffusion efield dv : f64)
    (before after : list (row (F64 fexp))) (r : row (F64 fexp)) (el_before el_after : list Z) (e : Z)
    (pts : points) (label : Z),
  rg diffusion (-60) 60 -> rg efield (-60) 60 -> rg dv (-60) 60 ->
  rg (Bopp (r_time r : f64)) (-60) 60 ->
  length before = length el_before ->
  (exists p, transport_track (N := F64 fexp) g (packaged_edges fexp) diffusion efield dv
               before el_before pts label = Ok p) ->
  transport_track (N := F64 fexp) g (packaged_edges fexp) diffusion efield dv
    (before ++ r :: after) (el_before ++ e :: el_after) pts label = Err UB.
Proof.
  intros fexp g diffusion efield dv before after r elb ela e pts label D E V T Hl Hb.
  revert elb pts Hl Hb. induction before as [|b before IH]; intros elb pts Hl (p & Hb).
  - destruct elb; [|discriminate]. cbn [app transport_track].
    rewrite transport_row_nan; [reflexivity|apply f01| |].
    + destruct (rg_nonzero _ _ _ E). now apply feqb_nonzero.
    + assert (R2 : rg (f_of_Z 2) 1 1).
      { split; [reflexivity|]. rewrite f_of_Z_R by lia. change (b2 1) with 2%R. lra. }
      pose proof (rg_mul _ _ _ _ _ _ R2 D ltac:(lia) ltac:(lia)) as A1.
      pose proof (rg_mul _ _ _ _ _ _ A1 V ltac:(lia) ltac:(lia)) as A2.
      destruct T as (Ft & Bt). rewrite is_finite_Bopp in Ft. rewrite B2R_Bopp in Bt.
      destruct A2 as (F2 & B2). destruct (rg_nonzero _ _ _ E) as (Fe & He). destruct E as (_ & Be).
      set (a := fmul (fmul (f_of_Z 2) diffusion) dv) in *. clearbody a.
      set (t := r_time r : f64) in *.
      pose proof (bpow_gt_0 radix2 (-60)). pose proof (bpow_gt_0 radix2 (1 + -60 + -60)).
      assert (P1 : (b2 (-179) <= - (R64 a * R64 t) <= b2 181)%R).
      { replace (- (R64 a * R64 t))%R with (R64 a * - R64 t)%R by ring.
        change (-179) with ((1 + -60 + -60) + -60). change 181 with (1 + 60 + 60 + 60).
        rewrite (bpow_plus radix2 (1 + -60 + -60)), (bpow_plus radix2 (1 + 60 + 60)).
        split; apply Rmult_le_compat; lra. }
      pose proof (bpow_gt_0 radix2 (-179)).
      destruct (fmul_fin a t 181 F2 Ft ltac:(lia)) as (E3 & F3).
      { rewrite <- Rabs_Ropp, Rabs_pos_eq; lra. }
      assert (P2 : (b2 (-179) <= - R64 (fmul a t) <= b2 181)%R).
      { rewrite E3, <- (round_NE_opp radix2 fexp64).
        split; [apply rnd64_ge_fmt|apply rnd64_le_fmt]; try (apply fmt64_bpow; lia); lra. }
      assert (P3 : (b2 (-239) <= - (R64 (fmul a t) / R64 efield) <= b2 241)%R).
      { replace (- (R64 (fmul a t) / R64 efield))%R with (- R64 (fmul a t) * / R64 efield)%R
          by (unfold Rdiv; ring).
        change (-239) with (-179 + Z.opp 60). change 241 with (181 + Z.opp (-60)).
        rewrite !bpow_plus, !bpow_opp.
        assert (0 < / b2 60)%R by apply Rinv_0_lt_compat, bpow_gt_0.
        assert (0 < / R64 efield)%R by (apply Rinv_0_lt_compat; lra).
        split; apply Rmult_le_compat; try lra; apply Rinv_le; lra. }
      pose proof (bpow_gt_0 radix2 (-239)).
      destruct (fdiv_fin (fmul a t) efield 241 F3 He ltac:(lia)) as (E4 & F4).
      { rewrite <- Rabs_Ropp, Rabs_pos_eq; lra. }
      rewrite fltb_R; [|exact F4|reflexivity]. rewrite f_of_Z_R by lia. apply Rlt_bool_true.
      rewrite E4. apply Rle_lt_trans with (- b2 (-239))%R; [|lra].
      apply rnd64_le_fmt; [apply generic_format_opp, fmt64_bpow; lia|lra].
  - destruct elb as [|x elb]; [discriminate|]. cbn [app transport_track] in *.
    destruct (@transport_row (F64 fexp) g (packaged_edges fexp) diffusion efield dv label pts (b, x))
      as [p1|] eqn:Er; [|discriminate]. cbn [bind] in *. apply IH; [now injection Hl|eauto].
Qed.

Print Assumptions C10_single_pad.
Print Assumptions C10_total_charge.
Print Assumptions C13_memory_safety.
Print Assumptions C13_deposits_nonnegative.
Print Assumptions C13_negative_time_refuted.

(** ** C12 and C09: a width below the resolution of the coordinates *)

(** Centre (0.1, 0.05) m (above pad 1654), time bucket 256, sigma = 2^-60 m: what the code
    computes from diffusion 2^-129, field 1, drift velocity 1. *)
Definition w_x : f64 := fdiv (f_of_Z 1) (f_of_Z 10).
Definition w_y : f64 := fdiv (f_of_Z 1) (f_of_Z 20).
Definition w_diffusion : f64 := f_of_ZE 1 (-129).
Definition w_sigma : f64 := f_of_ZE 1 (-60).
Definition w_row (fexp : f64 -> f64) : row (F64 fexp) := @mkRow (F64 fexp) w_x w_y (f_of_Z 256).

Definition same64 (a b : f64) : bool :=
  match B2SF a, B2SF b with
  | SpecFloat.S754_zero s, SpecFloat.S754_zero t => Bool.eqb s t
  | SpecFloat.S754_finite s m e, SpecFloat.S754_finite t n f => Bool.eqb s t && Pos.eqb m n && Z.eqb e f
  | _, _ => false
  end.
Lemma same64_eq a b : same64 a b = true -> a = b.
Proof.
  unfold same64. intros H. apply B2SF_inj. destruct (B2SF a), (B2SF b); try discriminate.
  - apply Bool.eqb_prop in H. now subst.
  - apply andb_prop in H as (H & H3). apply andb_prop in H as (H1 & H2).
    apply Bool.eqb_prop in H1. apply Pos.eqb_eq in H2. apply Z.eqb_eq in H3. now subst.
Qed.

Lemma w_sigma_eq fexp :
  @sigma_of (F64 fexp) w_diffusion (f_of_Z 1) (f_of_Z 1) (r_time (w_row fexp)) = Ok w_sigma.
Proof.
  unfold sigma_of, njdiv. cbn [neqb nmul nofZ ndiv nsqrt F64 r_time w_row].
  replace (feqb (f_of_Z 1) (f_of_Z 0)) with false by reflexivity. cbn [bind]. f_equal.
  apply same64_eq. vm_compute. reflexivity.
Qed.

Lemma w_mesh fexp : @diffusion_mesh (F64 fexp) (w_x, w_y) w_sigma = repeat (w_x, w_y) 100.
Proof.
  assert (H : forall l : list (f64 * f64),
    forallb (fun p => same64 (fst p) w_x && same64 (snd p) w_y) l = true ->
    l = repeat (w_x, w_y) (length l)).
  { induction l as [|[a b] l IH]; cbn [forallb length repeat]; intros Hl; [reflexivity|].
    apply andb_prop in Hl as (H1 & H2). apply andb_prop in H1 as (Ha & Hb).
    cbn [fst snd] in *. apply same64_eq in Ha, Hb. subst. f_equal. now apply IH. }
  rewrite (H (@diffusion_mesh (F64 fexp) (w_x, w_y) w_sigma)) at 1.
  - f_equal.
  - vm_compute. reflexivity.
Qed.

(** Every one of the 100 pixels receives int(electrons * 0.0707...). *)
Lemma w_pixel fexp e n : fexp (B754_zero true) = f_of_Z 1 ->
  (let k := fdiv (fdiv (fdiv (f_of_Z 1) (f_of_Z 2)) (f_of_ZE 7074237752028440 (-51))) (fmul w_sigma w_sigma) in
   let st := fdiv (fmul (f_of_Z 6) w_sigma) (f_of_Z 9) in
   f_to_Z (fmul (fmul (fmul k (f_of_Z 1)) (fmul st st)) (f_of_Z e))) = Some n ->
  @pixel_electrons (F64 fexp) (w_x, w_y) (w_x, w_y) w_sigma e = Ok n.
Proof.
  intros Hexp H. rewrite pixel_electrons_eq. cbv zeta in *.
  replace (feqb (fmul w_sigma w_sigma) (f_of_Z 0)) with false by (vm_compute; reflexivity).
  cbn [fst snd].
  replace (fmul (fdiv (fdiv (f_of_Z (-1)) (f_of_Z 2)) (fmul w_sigma w_sigma))
     (fadd (fmul (fsub w_x w_x) (fsub w_x w_x)) (fmul (fsub w_y w_y) (fsub w_y w_y))))
    with (@B754_zero prec64 emax64 true) by (apply same64_eq; vm_compute; reflexivity).
  rewrite Hexp, H. reflexivity.
Qed.

Lemma w_lookup fexp : @position_to_index (F64 fexp) (packaged_edges fexp) (w_x, w_y) = Ok (3800, 3300).
Proof. vm_compute. reflexivity. Qed.

Transparent grid_rows.
Lemma w_pad : grid_get packaged_grid 3800 3300 = Ok 1654.
Proof. vm_compute. reflexivity. Qed.
Opaque grid_rows.

Lemma w_key : pair 256 1654 = 2735972. Proof. reflexivity. Qed.

Lemma w_row_transport fexp e n label pts : fexp (B754_zero true) = f_of_Z 1 ->
  @pixel_electrons (F64 fexp) (w_x, w_y) (w_x, w_y) w_sigma e = Ok n ->
  @transport_row (F64 fexp) packaged_grid (packaged_edges fexp) w_diffusion (f_of_Z 1) (f_of_Z 1)
    label pts (w_row fexp, e) =
  Ok (post_all label (repeat (mkDep 256 1654 n) 100) pts).
Proof.
  intros Hexp Hp. unfold transport_row. rewrite w_sigma_eq. cbn [bind].
  change (@neqb (F64 fexp) w_sigma (@nofZ (F64 fexp) 0)) with (feqb w_sigma (f_of_Z 0)).
  replace (feqb w_sigma (f_of_Z 0)) with false by (vm_compute; reflexivity).
  unfold transverse_transport. cbn [r_x r_y w_row]. rewrite w_mesh.
  generalize 100%nat. intros c. revert pts. induction c as [|c IH]; intros pts; [reflexivity|].
  cbn [repeat foldM].
  assert (E : @pixel_transport (F64 fexp) packaged_grid (packaged_edges fexp) (r_time (w_row fexp))
     (w_x, w_y) e w_sigma label pts (w_x, w_y) = Ok (post label pts (mkDep 256 1654 n))).
  { unfold pixel_transport. rewrite w_lookup. cbn [bind]. change ((3800 =? -1) || (3300 =? -1)) with false.
    cbv iota. rewrite w_pad. cbn [bind]. replace (active_pad 1654) with true by reflexivity.
    unfold njint. cbn [ntoZ F64 r_time w_row].
    replace (f_to_Z (f_of_Z 256)) with (Some 256) by reflexivity. cbn [bind]. rewrite Hp. reflexivity. }
  match goal with |- bind ?m _ = _ =>
    replace m with (Ok (post label pts (mkDep 256 1654 n))) by (symmetry; exact E) end.
  cbn [bind]. apply IH.
Qed.

Lemma w_million : forall fexp, fexp (B754_zero true) = f_of_Z 1 ->
  @pixel_electrons (F64 fexp) (w_x, w_y) (w_x, w_y) w_sigma 1000000 = Ok 70735.
Proof. intros fexp H. apply w_pixel; [exact H|]. vm_compute. reflexivity. Qed.

Lemma w_one : forall fexp, fexp (B754_zero true) = f_of_Z 1 ->
  @pixel_electrons (F64 fexp) (w_x, w_y) (w_x, w_y) w_sigma 1 = Ok 0.
Proof. intros fexp H. apply w_pixel; [exact H|]. vm_compute. reflexivity. Qed.

(** C12: the charge bound of C11 fails in binary64: a million electrons become seven million. *)
Theorem C12_refuted_in_binary64 :
  forall fexp : f64 -> f64, fexp (B754_zero true) = f_of_Z 1 ->
  exists (diffusion efield dv : f64) (r : row (F64 fexp)) (e : Z) (pts' : points),
    (0 < R64 diffusion)%R /\
    sane_row r /\ e = 1000000 /\
    transport_track (N := F64 fexp) packaged_grid (packaged_edges fexp) diffusion efield dv
      [r] [e] [] 0 = Ok pts' /\
    total_charge pts' = 7073500.
Proof.
  intros fexp Hexp.
  exists w_diffusion, (f_of_Z 1), (f_of_Z 1), (w_row fexp), 1000000, [(2735972, (7073500, 0))].
  split.
  { assert (F : is_finite w_diffusion = true) by (vm_compute; reflexivity).
    assert (L : fltb (f_of_Z 0) w_diffusion = true) by (vm_compute; reflexivity).
    rewrite fltb_R in L; [|reflexivity|exact F]. rewrite f_of_Z_R in L by lia.
    destruct (Rlt_bool_spec 0 (R64 w_diffusion)) as [?|?]; [assumption|discriminate]. }
  split.
  { assert (B : forall x, is_finite x = true -> fleb (f_of_Z 0) x = true -> fleb x (f_of_Z 1) = true ->
              bnd x 300).
    { intros x F A C. split; [exact F|].
      rewrite fleb_R in A; [|reflexivity|exact F]. rewrite f_of_Z_R in A by lia.
      rewrite fleb_R in C; [|exact F|reflexivity]. rewrite f_of_Z_R in C by lia.
      destruct (Rle_bool_spec 0 (R64 x)) as [A'|?]; [|discriminate].
      destruct (Rle_bool_spec (R64 x) 1) as [C'|?]; [|discriminate].
      rewrite Rabs_pos_eq by exact A'. apply Rle_trans with (b2 0); [exact C'|].
      apply bpow_le. lia. }
    split; [|split]; [apply B; vm_compute; reflexivity..|]. right.
    cbn [r_time w_row]. split; [reflexivity|]. rewrite f_of_Z_R by lia.
    change 256%R with (IZR (2 ^ 8)). rewrite IZR_pow2 by lia. split; apply bpow_le; lia. }
  split; [reflexivity|]. split; [|reflexivity].
  cbn [transport_track]. rewrite (w_row_transport fexp 1000000 70735 0 [] Hexp (w_million fexp Hexp)).
  cbn [bind]. f_equal.
Qed.

(** C09: a nucleus that deposits 0 electrons takes over the label of the charge of another. *)
Theorem C09_zero_takeover :
  forall fexp : f64 -> f64, fexp (B754_zero true) = f_of_Z 1 ->
  exists (diffusion efield dv : f64) (r : row (F64 fexp)) (pts' : points) (ds : list dep) (k : Z),
    transport_all (N := F64 fexp) packaged_grid (packaged_edges fexp) diffusion efield dv
      [([r], [1000000], 2); ([r], [1], 7)] [] = Ok pts' /\
    track_ledger (N := F64 fexp) packaged_grid (packaged_edges fexp) diffusion efield dv [r] [1] ds /\
    (forall d, In d ds -> d_el d = 0) /\
    charge_at pts' k = 7073500 /\ label_at pts' k = Some 7.
Proof.
  intros fexp Hexp.
  exists w_diffusion, (f_of_Z 1), (f_of_Z 1), (w_row fexp), [(2735972, (7073500, 7))],
    (repeat (mkDep 256 1654 0) 100), 2735972.
  assert (T : forall e n label pts, @pixel_electrons (F64 fexp) (w_x, w_y) (w_x, w_y) w_sigma e = Ok n ->
    transport_track (N := F64 fexp) packaged_grid (packaged_edges fexp) w_diffusion (f_of_Z 1) (f_of_Z 1)
      [w_row fexp] [e] pts label = Ok (post_all label (repeat (mkDep 256 1654 n) 100) pts)).
  { intros e n label pts H. cbn [transport_track]. rewrite (w_row_transport fexp e n label pts Hexp H).
    reflexivity. }
  split.
  { unfold transport_all. cbn [foldM fst snd].
    rewrite (T 1000000 70735 2 [] (w_million fexp Hexp)). cbn [bind].
    rewrite (T 1 0 7 _ (w_one fexp Hexp)). cbn [bind]. f_equal. }
  split.
  { pose proof (T 1 0 7 [] (w_one fexp Hexp)) as H.
    split; [simpl; lia|]. exists [repeat (mkDep 256 1654 0) 100].
    split; [|cbn [concat]; now rewrite app_nil_r].
    cbn [combine]. constructor; [|constructor].
    replace (repeat (mkDep 256 1654 0) 100)
      with (concat (repeat [mkDep 256 1654 0] 100)) by reflexivity.
    apply (RL_mesh packaged_grid (packaged_edges fexp) w_diffusion (f_of_Z 1) (f_of_Z 1)
             (w_row fexp) 1 w_sigma).
    - apply w_sigma_eq.
    - vm_compute; reflexivity.
    - cbn [r_x r_y w_row]. rewrite w_mesh. generalize 100%nat. induction n as [|n IH]; cbn [repeat]; constructor; [|exact IH].
      constructor.
      + exists 3800, 3300. split; [apply w_lookup|]. split; [lia|]. split; [lia|].
        split; [apply w_pad|]. split; [lia|]. intros Hb. apply is_beam_spec in Hb. discriminate Hb.
      + reflexivity.
      + apply w_one. exact Hexp. }
  split; [intros d Hd; apply repeat_spec in Hd; now subst|]. split; reflexivity.
Qed.

Print Assumptions C12_refuted_in_binary64.
Print Assumptions C09_zero_takeover.

(** Concrete inputs meeting the hypotheses of C10 and C13. *)
Example C10_example : forall fexp,
  fzero (f_of_Z 0) /\
  transport_track (N := F64 fexp) packaged_grid (packaged_edges fexp) (f_of_Z 0) (f_of_Z 1) (f_of_Z 1)
    [w_row fexp; @mkRow (F64 fexp) (f_of_Z 1) w_y (f_of_Z 3)] [1000; 5] [] 4
  = Ok [(2735972, (1000, 4))].
Proof. intros fexp. split; [apply f_of_Z_0|vm_compute; reflexivity]. Qed.

Lemma rg_int n : 1 <= n <= 2 ^ 53 -> rg (f_of_Z n) (-60) 60.
Proof.
  intros H. split; [apply f_of_Z_fin; lia|]. rewrite f_of_Z_R by lia. split.
  - apply Rle_trans with (b2 0); [apply bpow_le; lia|]. change (b2 0) with (IZR 1). now apply IZR_le.
  - apply Rle_trans with (b2 53); [|apply bpow_le; lia]. rewrite <- IZR_pow2 by lia. now apply IZR_le.
Qed.

Example C13_example : forall fexp,
  exp_ok (fun _ => f_of_Z 1) /\
  sane (f_of_Z 1) (f_of_Z 60000) (f_of_Z 2) /\
  @sane_row fexp (@mkRow (F64 fexp) (f_of_Z 0) (f_of_Z (-1)) (f_of_Z 300)) /\
  rg (Bopp (f_of_Z (-5))) (-60) 60.
Proof.
  intros fexp. split; [|split; [|split]].
  - intros x _. split; [reflexivity|]. rewrite f_of_Z_R by lia. lra.
  - split; [right|split]; apply rg_int; lia.
  - split; [|split].
    + apply bnd_mono with 0; [apply bnd_of_Z; lia|lia].
    + apply bnd_mono with 0; [apply bnd_of_Z; lia|lia].
    + right. apply rg_int. lia.
  - assert (E : Bopp (f_of_Z (-5)) = f_of_Z 5) by (apply same64_eq; vm_compute; reflexivity).
    rewrite E. apply rg_int. lia.
Qed.
