(** P_Gain.v -- C71: a higher threshold only removes rows; a higher gain never removes one. *)
From Coq Require Import ZArith Reals Lia Lra String Permutation.
From Flocq Require Import Core BinarySingleNaN.
From Verif Require Import Base F64 Num Pairing PairingProofs BeamPads Transporter SpecTransport TransportProofs
  Simulator SpecSim SimulatorProofs F64Bounds P_Simulator Response P_Response Writer SpecWriter
  WriterProofs P_Cloud Parameters P_Parameters KinFile P_Detect P_Complete.
Local Open Scope Z_scope.
Local Open Scope list_scope.

(** ** Threshold *)
Lemma fltb_lower a b x : Z.abs a <= 2 ^ 53 -> Z.abs b <= 2 ^ 53 -> a <= b ->
  fltb (f_of_Z b) x = true -> fltb (f_of_Z a) x = true.
Proof.
  intros Ba Bb L H. assert (Fa := f_of_Z_fin a Ba). assert (Fb := f_of_Z_fin b Bb).
  destruct (is_finite x) eqn:Fx.
  - rewrite fltb_R in * by assumption. rewrite f_of_Z_R in * by assumption.
    apply Rlt_bool_true. destruct (Rlt_bool_spec (IZR b) (R64 x)); [|discriminate].
    apply Rle_lt_trans with (2 := H0). now apply IZR_le.
  - unfold fltb, Bltb in *. destruct (f_of_Z a); try discriminate Fa; destruct (f_of_Z b); try discriminate Fb;
      destruct x; try discriminate Fx; try discriminate H; destruct s; try discriminate H;
      repeat match goal with s : bool |- _ => destruct s end; try reflexivity; try discriminate H.
Qed.

(** The same settings with another threshold. *)
Definition with_threshold (c : wconfig) (t : Z) : wconfig :=
  mkWconfig (wc_windows_edge c) (wc_mm_edge c) (wc_length c) t (wc_centers c) (wc_sizes c).

Lemma filter_filter {A} (f g : A -> bool) l : (forall x, g x = true -> f x = true) ->
  filter g (filter f l) = filter g l.
Proof.
  intros H. induction l as [|a l IH]; [reflexivity|]. cbn [filter].
  destruct (f a) eqn:Fa; cbn [filter]; destruct (g a) eqn:Ga; try congruence.
  apply H in Ga. congruence.
Qed.
Lemma perm_filter {A} (f : A -> bool) l m : Permutation l m -> Permutation (filter f l) (filter f m).
Proof.
  induction 1 as [|x l m H IH|x y l|l m k H IH H0 IH0]; cbn [filter].
  - constructor.
  - destruct (f x); [now constructor|exact IH].
  - destruct (f x), (f y); try apply Permutation_refl. constructor.
  - eapply Permutation_trans; eassumption.
Qed.
Lemma forall2_unique {A B} (P : A -> B -> Prop) l m m' : (forall a b b', P a b -> P a b' -> b = b') ->
  Forall2 P l m -> Forall2 P l m' -> m = m'.
Proof.
  intros U H. revert m'. induction H as [|a b l m H1 H2 IH]; intros m' H'; inversion H'; subst; [reflexivity|].
  f_equal; [eapply U; eassumption|auto].
Qed.

(** C71: storing the same cloud with a higher threshold stores exactly those rows of the lower
    threshold whose amplitude exceeds the higher one, with the same labels. *)
Theorem C71_threshold fexp argsort resp c centers data labels t t' out labs out' labs' :
  argsort_ok argsort -> config_ok (with_threshold c t) -> config_ok (with_threshold c t') -> wc_centers c = Some centers ->
  (forall p, In p data -> is_finite (p_tb p) = true /\ (Rabs (R64 (p_tb p)) <= bpow radix2 53)%R) ->
  t <= t' ->
  process fexp argsort resp (with_threshold c t) data labels = Ok (out, labs) ->
  process fexp argsort resp (with_threshold c t') data labels = Ok (out', labs') ->
  Permutation (combine out' labs') (filter (fun rl => fltb (f_of_Z t') (s_amp (fst rl))) (combine out labs)).
Proof.
  intros Ha Hc Hc' Ec Hd L E E'.
  destruct (process_all _ _ _ _ _ _ _ _ _ Ha Hc Ec Hd E) as (conv & _ & _ & F & P).
  destruct (process_all _ _ _ _ _ _ _ _ _ Ha Hc' Ec Hd E') as (conv' & _ & _ & F' & P').
  assert (conv' = conv).
  { eapply forall2_unique; [|exact F'|exact F]. cbn beta. intros a b b' H1 H2. congruence. }
  subst conv'. cbn [with_threshold wc_threshold] in P, P'.
  apply Permutation_trans with (1 := P').
  apply (perm_filter (passes t')) in P. rewrite filter_filter in P.
  - apply Permutation_sym. exact P.
  - intros x. unfold passes. apply fltb_lower; [|  |exact L].
    + destruct Hc as (_ & _ & _ & H & _). exact H.
    + destruct Hc' as (_ & _ & _ & H & _). exact H.
Qed.

(** ** Numbers *)
Lemma fmul_finite_inv x y : is_finite (fmul x y) = true ->
  is_finite x = true /\ is_finite y = true /\ R64 (fmul x y) = rnd64 (R64 x * R64 y).
Proof.
  intros H. assert (F : is_finite x = true /\ is_finite y = true).
  { unfold fmul in H. destruct x, y; cbn in H; try discriminate H; split; reflexivity. }
  destruct F as [Fx Fy]. split; [exact Fx|]. split; [exact Fy|].
  pose proof (Bmult_correct prec64 emax64 _ _ mode_NE x y) as C. cbn [round_mode] in C.
  destruct (Rlt_bool _ _) in C; [apply C|].
  exfalso. unfold fmul in H. rewrite <- is_finite_SF_B2SF in H. rewrite C in H. cbn in H. discriminate H.
Qed.

Definition not_negative (x : f64) : Prop := is_finite x = true -> (0 <= R64 x)%R.

Lemma rnd64_pos x : (0 <= x)%R -> (0 <= rnd64 x)%R.
Proof. intros H. apply (rnd64_ge_fmt _ 0); [apply generic_format_0|exact H]. Qed.

Lemma not_negative_mul x y : not_negative x -> not_negative y -> not_negative (fmul x y).
Proof.
  intros Hx Hy F. destruct (fmul_finite_inv x y F) as (Fx & Fy & ->).
  apply rnd64_pos, Rmult_le_pos; auto.
Qed.
Lemma not_negative_square x : not_negative (fmul x x).
Proof. intros F. destruct (fmul_finite_inv x x F) as (Fx & _ & ->). apply rnd64_pos. apply Rle_0_sqr. Qed.
Lemma not_negative_div x y : is_finite x = true -> (0 <= R64 x)%R -> not_negative y -> feqb y (f_of_Z 0) = false ->
  not_negative (fdiv x y).
Proof.
  intros Fx Px Hy Ne F.
  destruct (is_finite y) eqn:Fy.
  - assert (Ny : R64 y <> 0%R).
    { rewrite feqb_R in Ne by (exact Fy || reflexivity). rewrite f_of_Z_R in Ne by lia.
      destruct (Req_bool_spec (R64 y) 0); [discriminate|assumption]. }
    pose proof (Bdiv_correct prec64 emax64 _ _ mode_NE x y Ny) as C. cbn [round_mode] in C.
    destruct (Rlt_bool _ _) in C.
    + destruct C as (C & _). unfold fdiv. rewrite C. apply rnd64_pos.
      specialize (Hy Fy). apply Rmult_le_pos; [exact Px|]. apply Rlt_le, Rinv_0_lt_compat. lra.
    + exfalso. unfold fdiv in F. rewrite <- is_finite_SF_B2SF in F. rewrite C in F. cbn in F. discriminate F.
  - unfold fdiv in *. destruct x; try discriminate Fx; destruct y; try discriminate Fy; cbn; try lra; cbn in F; discriminate F.
Qed.

Lemma f_of_Z_rnd z : Z.abs z <= two63 -> R64 (f_of_Z z) = rnd64 (IZR z) /\ is_finite (f_of_Z z) = true.
Proof.
  intros H. unfold f_of_Z.
  pose proof (binary_normalize_correct prec64 emax64 _ _ mode_NE z 0 false) as C.
  cbv zeta in C. unfold F2R in C. cbn [Fnum Fexp] in C.
  change (bpow radix2 0) with 1%R in C. rewrite Rmult_1_r in C. cbn [round_mode] in C.
  rewrite Rlt_bool_true in C; [split; apply C|].
  apply Rle_lt_trans with (bpow radix2 63); [|apply bpow_lt; reflexivity].
  rewrite <- (Rabs_pos_eq (bpow radix2 63)) by apply bpow_ge_0. rewrite (Rabs_pos_eq (bpow radix2 63)) by apply bpow_ge_0.
  apply abs_round_le_generic; [apply fexp64_valid|apply valid_rnd_N|apply fmt64_bpow; lia|].
  rewrite <- abs_IZR, <- IZR_pow2 by lia. apply IZR_le. exact H.
Qed.

(** More electrons never give a pixel fewer. *)
Lemma pixel_mono fexp (Hexp : forall x, not_negative (fexp x)) px ctr s e e' a a' :
  0 <= e <= e' -> e' <= two63 ->
  pixel_electrons (N := F64 fexp) px ctr s e = Ok a -> pixel_electrons (N := F64 fexp) px ctr s e' = Ok a' ->
  0 <= a <= a'.
Proof.
  intros Be Be' E E'. unfold pixel_electrons in *.
  destruct (bivariate_normal_pdf px ctr s) as [p|] eqn:Ep; [|discriminate E]. cbn [bind] in E, E'.
  assert (Np : not_negative p).
  { unfold bivariate_normal_pdf in Ep.
    destruct (njdiv _ _) as [c1|] eqn:E1 in Ep; [|discriminate Ep]. cbn [bind] in Ep.
    destruct (njdiv _ _) as [c2|] eqn:E2 in Ep; [|discriminate Ep]. cbn [bind] in Ep.
    match type of Ep with Ok ?t = _ => assert (Q : p = t) by congruence end. rewrite Q. clear Q Ep E2 E E'.
    apply not_negative_mul; [|apply Hexp].
    unfold njdiv in E1. cbn [neqb F64 nofZ ndiv nmul npi] in E1.
    destruct (feqb _ _) eqn:Ne in E1; [discriminate E1|].
    match type of E1 with Ok ?t = _ => assert (Q : c1 = t) by congruence end. rewrite Q. clear Q E1.
    set (h := fdiv (fdiv (f_of_Z 1) (f_of_Z 2)) (f_of_ZE 7074237752028440 (-51))).
    assert (H0 : is_finite h = true /\ fleb (f_of_Z 0) h = true) by (split; vm_compute; reflexivity).
    destruct H0 as (Fh & Lh). rewrite fleb_R in Lh by (reflexivity || exact Fh). rewrite f_of_Z_R in Lh by lia.
    apply not_negative_div; [exact Fh| |apply not_negative_square|exact Ne].
    destruct (Rle_bool_spec 0 (R64 h)); [assumption|discriminate]. }
  set (k := nmul p (nmul (step_size s) (step_size s))) in *.
  assert (Nk : not_negative k) by (apply not_negative_mul; [exact Np|apply not_negative_square]).
  unfold njint in E, E'. cbn [ntoZ nmul nofZ F64] in E, E'.
  destruct (f_to_Z (fmul k (f_of_Z e))) as [z|] eqn:Z1; [|discriminate E].
  destruct (f_to_Z (fmul k (f_of_Z e'))) as [z'|] eqn:Z2; [|discriminate E'].
  assert (z = a) by congruence. assert (z' = a') by congruence. subst z z'.
  apply f_to_Z_inv in Z1. destruct Z1 as (F1 & -> & _). apply f_to_Z_inv in Z2. destruct Z2 as (F2 & -> & _).
  destruct (fmul_finite_inv _ _ F1) as (Fk & _ & ->). destruct (fmul_finite_inv _ _ F2) as (_ & _ & ->).
  specialize (Nk Fk).
  destruct (f_of_Z_rnd e ltac:(lia)) as (-> & _). destruct (f_of_Z_rnd e' ltac:(lia)) as (-> & _).
  assert (A0 : (0 <= rnd64 (IZR e))%R) by (apply rnd64_pos, (IZR_le 0); lia).
  assert (A1 : (rnd64 (IZR e) <= rnd64 (IZR e'))%R) by (apply rnd64_le, IZR_le; lia).
  split.
  - rewrite <- (Ztrunc_IZR 0). apply Ztrunc_le. apply rnd64_pos, Rmult_le_pos; assumption.
  - apply Ztrunc_le, rnd64_le, Rmult_le_compat_l; assumption.
Qed.

(** ** Deposits *)
(** The same pad and bucket, and at least as many electrons. *)
Definition grows (d d' : dep) : Prop := d_tb d' = d_tb d /\ d_pad d' = d_pad d /\ 0 <= d_el d <= d_el d'.
Definition lgrows (x y : ldep) : Prop := grows (fst x) (fst y) /\ snd y = snd x.
Definition grows_ion {fexp} (t t' : @ionisation (F64 fexp)) : Prop :=
  fst (fst t') = fst (fst t) /\ snd t' = snd t /\
  Forall2 (fun e e' => 0 <= e <= e' /\ e' <= two63) (snd (fst t)) (snd (fst t')).

Section Ledgers.
  Context (fexp : f64 -> f64) (Hexp : forall x, not_negative (fexp x)).
  Context (g : grid) (ge : edges (F64 fexp)) (diffusion efield dv : F64 fexp).

  Lemma pos_grows time (A A' : Z -> Prop) p ds ds' :
    (forall a a', A a -> A' a' -> 0 <= a <= a') ->
    pos_ledger g ge time A p ds -> pos_ledger g ge time A' p ds' -> Forall2 grows ds ds'.
  Proof.
    intros Ha [H|pad tb a H Ht Hm] [H'|pad' tb' a' H' Ht' Hm'].
    - constructor.
    - exfalso; eapply lands_misses; eauto.
    - exfalso; eapply lands_misses; eauto.
    - assert (pad = pad') by (eapply lands_fun; eauto). assert (tb' = tb) by congruence. subst.
      constructor; [|constructor]. split; [reflexivity|]. split; [reflexivity|]. cbn [d_el]. now apply Ha.
  Qed.

  Lemma row_grows r e e' ds ds' : 0 <= e <= e' -> e' <= two63 ->
    row_ledger g ge diffusion efield dv (r, e) ds -> row_ledger g ge diffusion efield dv (r, e') ds' ->
    Forall2 grows ds ds'.
  Proof using Hexp.
    intros Be Be' H H'.
    inversion H as [r0 e0 s ds0 Es Ez Hp E1 E2|r0 e0 s dss Es Ez Hp E1 E2]; subst;
    inversion H' as [r1 e1 s' ds1 Es' Ez' Hp' E1' E2'|r1 e1 s' dss' Es' Ez' Hp' E1' E2']; subst;
      assert (s' = s) by congruence; subst s'; try congruence.
    - eapply pos_grows; [|exact Hp|exact Hp']. intros a a' <- <-. exact Be.
    - clear - Hexp Be Be' Hp Hp'. revert dss' Hp'. induction Hp as [|px d l m H1 H2 IH]; intros dss' Hp'; inversion Hp'; subst; [constructor|].
      cbn [concat]. apply Forall2_app; [|now apply IH].
      eapply pos_grows; [|exact H1|eassumption]. intros a a' Q Q'.
      exact (pixel_mono fexp Hexp _ _ _ _ _ _ _ Be Be' Q Q').
  Qed.

  Lemma track_grows tr el el' ds ds' :
    Forall2 (fun e e' => 0 <= e <= e' /\ e' <= two63) el el' ->
    track_ledger g ge diffusion efield dv tr el ds -> track_ledger g ge diffusion efield dv tr el' ds' ->
    Forall2 grows ds ds'.
  Proof using Hexp.
    intros F (_ & dss & H & ->) (_ & dss' & H' & ->). revert tr dss dss' H H'.
    induction F as [|e e' el el' [Be Be'] F IH]; intros [|r tr] dss dss' H H'; cbn [combine] in *;
      inversion H; inversion H'; subst; try constructor.
    cbn [concat]. apply Forall2_app; [|eapply IH; eassumption]. eapply row_grows; eassumption.
  Qed.

  Lemma event_grows l l' lds lds' : Forall2 grows_ion l l' ->
    event_ledger g ge diffusion efield dv l lds -> event_ledger g ge diffusion efield dv l' lds' ->
    Forall2 lgrows lds lds'.
  Proof using Hexp.
    intros F (dss & H & ->) (dss' & H' & ->). revert dss dss' H H'.
    induction F as [|t t' l l' (E1 & E2 & Fe) F IH]; intros dss dss' H H'; inversion H; inversion H'; subst; [constructor|].
    cbn [combine map concat]. apply Forall2_app; [|now apply IH]. cbn [fst snd]. rewrite E2.
    match goal with A : track_ledger _ _ _ _ _ _ (snd (fst t)) _, B : track_ledger _ _ _ _ _ _ (snd (fst t')) _ |- _ =>
      rewrite E1 in B; pose proof (track_grows _ _ _ _ _ Fe A B) as Q end.
    clear - Q. induction Q; constructor; auto. now split.
  Qed.
End Ledgers.

(** ** The dictionary *)
Definition shape (pts : points) : list (Z * Z) := map (fun kv => (fst kv, snd (snd kv))) pts.
Lemma shape_dset pts k v : shape (dset Z.eqb pts k v) = dset Z.eqb (shape pts) k (snd v).
Proof.
  unfold shape. induction pts as [|[k' v'] pts IH]; cbn [dset map fst snd]; [reflexivity|].
  destruct (k =? k'); cbn [map fst snd]; [reflexivity|]. now rewrite IH.
Qed.
Lemma shape_same lds lds' pts pts' : Forall2 lgrows lds lds' -> shape pts = shape pts' ->
  shape (lpost_all lds pts) = shape (lpost_all lds' pts').
Proof.
  intros F. revert pts pts'. induction F as [|[d l] [d' l'] lds lds' ((E1 & E2 & _) & E3) F IH]; intros pts pts' E; [exact E|].
  cbn [fst snd] in E1, E2, E3. subst l'.
  change (shape (lpost_all lds (post l pts d)) = shape (lpost_all lds' (post l pts' d'))). apply IH.
  unfold post, deposit, pset. rewrite E1, E2, !shape_dset, E. reflexivity.
Qed.
Lemma due_grows ds ds' k : Forall2 grows ds ds' -> 0 <= due k ds <= due k ds' /\ due k ds' <= sumZ (map d_el ds').
Proof.
  unfold due. induction 1 as [|d d' l m (E1 & E2 & B) F IH]; cbn [filter map sumZ fold_right] in *; [cbn; lia|].
  rewrite E1, E2. destruct (_ =? k); cbn [map sumZ fold_right] in *; unfold sumZ in *; cbn [fold_right map] in *; lia.
Qed.
Lemma forall2_of_map {A B} (f : A -> B) (R : A -> A -> Prop) l l' : map f l = map f l' ->
  (forall x y, In x l -> In y l' -> f x = f y -> R x y) -> Forall2 R l l'.
Proof.
  revert l'. induction l as [|a l IH]; intros [|b l'] E H; try discriminate E; constructor.
  - apply H; [now left|now left|]. now inversion E.
  - apply IH; [now inversion E|]. intros x y Hx Hy. apply H; now right.
Qed.

Lemma dget_in (pts : points) k v : NoDup (map fst pts) -> In (k, v) pts -> pget pts k = Some v.
Proof.
  unfold pget. induction pts as [|[k' v'] pts IH]; intros N H0; [destruct H0|]; destruct H0 as [E|H]; cbn [map fst] in N; inversion N as [|? ? N1 N2]; subst; cbn [dget].
  - replace k' with k by congruence. rewrite Z.eqb_refl. congruence.
  - destruct (Z.eqb_spec k k') as [->|Ne]; [|now apply IH].
    exfalso. apply N1. apply (in_map fst) in H. exact H.
Qed.

(** Two points on the same pad at the same time, the second with at least as much charge. *)
Definition louder (p p' : point) : Prop :=
  p_pad p' = p_pad p /\ p_tb p' = p_tb p /\ nonneg (p_el p) /\ nonneg (p_el p') /\ (R64 (p_el p) <= R64 (p_el p'))%R.

Lemma f_of_Z_le a b : 0 <= a <= b -> b <= two63 ->
  nonneg (f_of_Z a) /\ nonneg (f_of_Z b) /\ (R64 (f_of_Z a) <= R64 (f_of_Z b))%R.
Proof.
  intros H H'. destruct (f_of_Z_rnd a ltac:(lia)) as (Ra & Fa). destruct (f_of_Z_rnd b ltac:(lia)) as (Rb & Fb).
  unfold nonneg. rewrite Ra, Rb. split; [split; [exact Fa|apply rnd64_pos, (IZR_le 0); lia]|].
  split; [split; [exact Fb|apply rnd64_pos, (IZR_le 0); lia]|]. apply rnd64_le, IZR_le. lia.
Qed.

Lemma clouds_grow lds lds' us : Forall2 lgrows lds lds' -> sumZ (map (fun x => d_el (fst x)) lds') < two63 ->
  let w := wiggle (fst (dict_to_points (lpost_all lds []))) us in
  let w' := wiggle (fst (dict_to_points (lpost_all lds' []))) us in
  length (lpost_all lds []) = length (lpost_all lds' []) /\
  Forall2 louder (select (map in_window w) w) (select (map in_window w') w') /\
  select (map in_window w) (snd (dict_to_points (lpost_all lds []))) =
    select (map in_window w') (snd (dict_to_points (lpost_all lds' []))).
Proof.
  intros F B. cbv zeta.
  assert (Sh := shape_same lds lds' [] [] F eq_refl).
  assert (Fd : Forall2 grows (map fst lds) (map fst lds')).
  { clear - F. induction F as [|x y l m [H _] F IH]; constructor; auto. }
  assert (N : NoDup (map fst (lpost_all lds []))) by (apply lpost_all_nodup; constructor).
  assert (N' : NoDup (map fst (lpost_all lds' []))) by (apply lpost_all_nodup; constructor).
  assert (Q : Forall2 (fun kv kv' => fst kv' = fst kv /\ snd (snd kv') = snd (snd kv) /\
                 0 <= fst (snd kv) <= fst (snd kv') /\ fst (snd kv') < two63) (lpost_all lds []) (lpost_all lds' [])).
  { apply (forall2_of_map (fun kv => (fst kv, snd (snd kv)))); [exact Sh|].
    intros [k [q l]] [k' [q' l']] Hx Hy E. cbn [fst snd] in *. split; [congruence|]. split; [congruence|].
    assert (k' = k) by congruence. subst k'.
    apply (dget_in _ _ _ N) in Hx. apply (dget_in _ _ _ N') in Hy. rewrite lpost_all_get in Hx, Hy.
    destruct (last_label k lds) as [a|]; [|discriminate Hx]. destruct (last_label k lds') as [b|]; [|discriminate Hy].
    unfold charge_at, ldue in Hx, Hy. cbn [pget dget] in Hx, Hy.
    destruct (due_grows _ _ k Fd) as (D1 & D2). rewrite map_map in D2.
    assert (Q1 : wrap64 (0 + due k (map fst lds)) = q) by congruence.
    assert (Q2 : wrap64 (0 + due k (map fst lds')) = q') by congruence.
    rewrite wrap64_id in Q1, Q2 by (unfold two63 in *; lia). lia. }
  split; [clear - Q; induction Q; cbn; congruence|].
  generalize dependent (lpost_all lds []). generalize dependent (lpost_all lds' []). intros pts' N' pts Sh N Q. clear - Q.
  revert us. induction Q as [|[k [q l]] [k' [q' l']] pts pts' (E1 & E2 & B1 & B2) Q IH]; intros us.
  - cbn. split; [constructor|reflexivity].
  - cbn [fst snd] in E1, E2, B1, B2. subst k' l'. destruct us as [|u us].
    + cbn. split; [constructor|reflexivity].
    + specialize (IH us). unfold dict_to_points in *. cbn [fst snd map] in *.
      destruct (unpair k) as [tb pad]. unfold wiggle in *. cbn [combine map fst snd p_pad p_tb p_el] in *.
      change (in_window (mkPoint pad (fadd tb u) (f_of_Z q'))) with (in_window (mkPoint pad (fadd tb u) (f_of_Z q))).
      destruct (in_window (mkPoint pad (fadd tb u) (f_of_Z q))); cbn [select]; [|exact IH].
      destruct IH as [I1 I2]. split; [|f_equal; exact I2]. constructor; [|exact I1].
      destruct (f_of_Z_le q q' B1 ltac:(lia)) as (A1 & A2 & A3). repeat split; try apply A1; try apply A2; exact A3.
Qed.

(** ** Simulation *)
Section Gain.
  Context (fexp : f64 -> f64) {G Nuc Mom Vtx Vel : Type} (Hexp : forall x, not_negative (fexp x)).
  Notation config := (config fexp).
  Notation traj := (@traj Vel).
  Context (get_data : Z -> Z -> res Nuc)
    (generate_trajectory : Vtx -> Mom -> Nuc -> config -> res (list traj))
    (generate_electrons : list traj -> Nuc -> config -> G -> list Z * G)
    (uniform : nat -> G -> list f64 * G).

  (** The same settings with another gain. *)
  Definition with_gain (c : config) (k : Z) : config :=
    mkConfig fexp (c_length fexp c) (c_efield fexp c) (c_diffusion fexp c) (c_drift fexp c) k (c_mm_edge fexp c)
      (c_grid fexp c) (c_edges fexp c).

  Context (c : config) (k k' : Z) (Hk : 0 <= k <= k').
  Notation cl := (with_gain c k).
  Notation ch := (with_gain c k').
  (** Equation of motion and primary ionisation do not look at the gain. *)
  Context (Ht : forall v p nuc, generate_trajectory v p nuc ch = generate_trajectory v p nuc cl)
    (He : forall tr nuc g, generate_electrons tr nuc ch g = generate_electrons tr nuc cl g).
  (** The electrons of a step times the gain are an int64. *)
  Context (Hov : forall tr nuc g e, In e (fst (generate_electrons tr nuc cl g)) -> e * k' < two63).

  Lemma tracks_gain mom v zs ms idx g l g1 l' g1' :
    tracks fexp get_data generate_trajectory generate_electrons mom v zs ms cl idx g l g1 ->
    tracks fexp get_data generate_trajectory generate_electrons mom v zs ms ch idx g l' g1' ->
    g1' = g1 /\ Forall2 grows_ion l l'.
  Proof using Hk Ht He Hov.
    intros H. revert l' g1'.
    induction H as [g | i rest g l g' Hz H IH | i rest g z a nuc p track els g1 l g' Ez Nz Ea En Ep Et Ee El H IH];
      intros l' g1' H'; inversion H'; subst; try congruence.
    - split; [reflexivity|constructor].
    - now apply IH.
    - assert (z0 = z) by congruence. assert (a0 = a) by congruence. subst z0 a0.
      assert (nuc0 = nuc) by congruence. assert (p0 = p) by congruence. subst nuc0 p0.
      match goal with A : generate_trajectory _ _ _ ch = _ |- _ => rewrite Ht, Et in A end.
      assert (track0 = track) by congruence. subst track0.
      match goal with A : generate_electrons _ _ ch _ = (?e, ?x) |- _ => rewrite He, Ee in A;
        assert (Q : e = els /\ x = g1) by (split; congruence); clear A; destruct Q as [-> ->] end.
      match goal with A : tracks _ _ _ _ _ _ _ _ ch _ _ _ _ |- _ => destruct (IH _ _ A) as [E F] end.
      split; [exact E|]. constructor; [|exact F]. unfold grows_ion, ionises. cbn [fst snd].
      split; [reflexivity|]. split; [reflexivity|].
      cbn [c_gain with_gain].
      assert (Q : forall te, In te (ionising track els) -> 1 <= snd te /\ snd te * k' < two63).
      { intros te I. apply filter_In in I as [I L]. apply Z.leb_le in L. split; [exact L|].
        apply (Hov track nuc g). rewrite Ee. destruct te as [t e]. now apply in_combine_r in I. }
      clear - Q Hk. induction (ionising track els) as [|te l0 IH]; cbn [map]; constructor; [|apply IH; intros; apply Q; now right].
      destruct (Q te (or_introl eq_refl)) as (Q1 & Q2).
      assert (0 <= snd te * k <= snd te * k') by nia.
      rewrite !wrap64_id by (unfold two63 in *; lia). lia.
  Qed.

  (** C71: with the same random draws a higher gain yields the same points - pads, times, labels,
      order - each with at least the charge. *)
  Theorem C71_gain mom v zs ms rng idx grd ge cloud labels r1 cloud' labels' r1' :
    c_grid fexp c = Some grd -> c_edges fexp c = Some ge ->
    (forall l g1 lds, tracks fexp get_data generate_trajectory generate_electrons mom v zs ms ch idx rng l g1 ->
       event_ledger (N := F64 fexp) grd ge (c_diffusion fexp c) (c_efield fexp c) (c_drift fexp c) l lds ->
       sumZ (map (fun x => d_el (fst x)) lds) < two63) ->
    simulate fexp get_data generate_trajectory generate_electrons uniform mom v zs ms cl rng idx = Ok ((cloud, labels), r1) ->
    simulate fexp get_data generate_trajectory generate_electrons uniform mom v zs ms ch rng idx = Ok ((cloud', labels'), r1') ->
    r1' = r1 /\ labels' = labels /\ Forall2 louder cloud cloud'.
  Proof using Hexp Hk Ht He Hov.
    intros Eg Ee B S S'.
    apply (simulate_iff _ _ _ _ _ _ _ _ _ cl grd ge Eg Ee) in S as (l & g1 & lds & us & T & L & U & E1 & E2).
    apply (simulate_iff _ _ _ _ _ _ _ _ _ ch grd ge Eg Ee) in S' as (l' & g1' & lds' & us' & T' & L' & U' & E1' & E2').
    destruct (tracks_gain _ _ _ _ _ _ _ _ _ _ T T') as [-> F].
    assert (F2 := event_grows fexp Hexp grd ge _ _ _ l l' lds lds' F L L').
    destruct (clouds_grow lds lds' us F2 (B _ _ _ T' L')) as (Len & FF & EE).
    rewrite <- Len, U in U'. assert (us' = us /\ r1' = r1) as [-> ->] by (split; congruence).
    split; [reflexivity|]. subst. split; [now symmetry|exact FF].
  Qed.
End Gain.

(** C71: ... and when both clouds are stored with the same settings, every row stored at the lower
    gain is stored at the higher gain, at the same place with the same label and at least the
    amplitude and integral. *)
Theorem C71_gain_stored fexp argsort resp c centers data data' labels out labs out' labs' :
  argsort_ok argsort -> config_ok c -> wc_centers c = Some centers -> response_ok resp ->
  (forall p, In p data -> is_finite (p_tb p) = true /\ (Rabs (R64 (p_tb p)) <= bpow radix2 53)%R) ->
  Forall2 louder data data' ->
  process fexp argsort resp c data labels = Ok (out, labs) ->
  process fexp argsort resp c data' labels = Ok (out', labs') ->
  forall r l, In (r, l) (combine out labs) ->
  exists r', In (r', l) (combine out' labs') /\
    (s_x r', s_y r', s_z r', s_size r') = (s_x r, s_y r, s_z r, s_size r) /\ s_pad r' = s_pad r /\ s_tb r' = s_tb r /\
    (R64 (s_amp r) <= R64 (s_amp r'))%R /\ (R64 (s_int r) <= R64 (s_int r'))%R.
Proof.
  intros Ha Hc Ec (NE & Rl & Rn) Hd F E E'.
  assert (Hd' : forall p, In p data' -> is_finite (p_tb p) = true /\ (Rabs (R64 (p_tb p)) <= bpow radix2 53)%R).
  { intros p' I. destruct (forall2_in_r _ _ _ F _ I) as (p & Ip & _ & -> & _). now apply Hd. }
  destruct (process_all _ _ _ _ _ _ _ _ _ Ha Hc Ec Hd E) as (conv & Ld & _ & C & P).
  destruct (process_all _ _ _ _ _ _ _ _ _ Ha Hc Ec Hd' E') as (conv' & Ld' & _ & C' & P').
  set (cv := convert_point fexp (wc_windows_edge c) (wc_mm_edge c) (wc_length c) resp centers (wc_sizes c)) in *.
  assert (Q : Forall2 (fun r r' => (s_x r', s_y r', s_z r', s_size r') = (s_x r, s_y r, s_z r, s_size r) /\ s_pad r' = s_pad r /\ s_tb r' = s_tb r /\
    (R64 (s_amp r) <= R64 (s_amp r'))%R /\ (R64 (s_int r) <= R64 (s_int r'))%R /\ is_finite (s_amp r) = true /\ is_finite (s_amp r') = true) conv conv').
  { clear - F C C' NE Rl Rn. revert conv conv' C C'.
    induction F as [|p p' data data' (E1 & E2 & N1 & N2 & LE) F IH]; intros conv conv' C C'; inversion C; inversion C'; subst; constructor;
      [|now apply IH].
    match goal with A : cv p = _, B : cv p' = _ |- _ => rename A into A1; rename B into B1 end. clear - E1 E2 N1 N2 LE A1 B1 NE Rl Rn.
    unfold cv, convert_point in A1, B1. rewrite E1, E2 in B1.
    destruct (f_to_Z (p_pad p)) as [pad|]; [|discriminate A1]. cbn [bind] in A1, B1.
    destruct (nj_index centers pad) as [cen|]; [|discriminate A1]. cbn [bind] in A1, B1.
    destruct (apply_response resp (p_el p)) as [[amp int]|] eqn:R1; [|discriminate A1]. cbn [bind] in A1.
    destruct (apply_response resp (p_el p')) as [[amp' int']|] eqn:R2; [|discriminate B1]. cbn [bind] in B1.
    destruct (z_of_tb _ _ _ _) as [zz|]; [|discriminate A1]. cbn [bind] in A1, B1.
    destruct (nj_index (wc_sizes c) pad) as [sz|]; [|discriminate A1]. cbn [bind] in A1, B1.
    destruct (C26_monotone resp _ _ _ _ _ _ ltac:(lia) Rn N1 N2 LE R1 R2) as (M1 & M2).
    destruct (apply_R resp (p_el p) NE Rn N1 ltac:(lia)) as (a & i & X1 & X2 & _).
    destruct (apply_R resp (p_el p') NE Rn N2 ltac:(lia)) as (a' & i' & X1' & X2' & _).
    assert (Ea : amp = a) by (rewrite R1 in X1; apply (f_equal (fun r => match r with Ok a => fst a | Err _ => f_of_Z 0 end)) in X1; exact X1).
    assert (Ea' : amp' = a') by (rewrite R2 in X1'; apply (f_equal (fun r => match r with Ok a => fst a | Err _ => f_of_Z 0 end)) in X1'; exact X1').
    match type of A1 with Ok ?t = Ok ?y => assert (Y1 : y = t) by congruence end.
    match type of B1 with Ok ?t = Ok ?y => assert (Y2 : y = t) by congruence end.
    rewrite Y1, Y2. cbn [s_x s_y s_z s_size s_pad s_tb s_amp s_int].
    repeat (split; [assumption || reflexivity|]). rewrite Ea, Ea'. split; [exact X2|exact X2']. }
  intros r l I. apply (Permutation_in _ P) in I. apply filter_In in I as [I Hp].
  assert (FF := forall2_combine_l _ _ _ labels Q).
  destruct (forall2_in_l _ _ _ FF _ I) as ([r' l'] & I' & (A & B & D & M1 & M2 & F1 & F2) & El). cbn [fst snd] in *. subst l'.
  exists r'. split; [|repeat (split; [assumption|]); exact M2].
  apply (Permutation_in _ (Permutation_sym P')). apply filter_In. split; [exact I'|].
  unfold passes in *. cbn [fst] in *. destruct Hc as (_ & _ & _ & Bt & _).
  rewrite fltb_R in * by (try assumption; apply f_of_Z_fin, Bt).
  apply Rlt_bool_true. destruct (Rlt_bool_spec (R64 (f_of_Z (wc_threshold c))) (R64 (s_amp r))) as [L|L]; [|discriminate Hp].
  apply Rlt_le_trans with (1 := L). exact M1.
Qed.

(** The steps of C70_example at gains 10 and 30 and thresholds 5 and 50: one row at gain 10, two at
    gain 30, of which the higher threshold removes one. *)
Definition rows_at fexp (gain threshold : Z) : list (list (option Z)) * list Z :=
  match e_make fexp with
  | Ok fc =>
      match simulate fexp e_nuc (two_steps fexp) (two_counts fexp) ex_uniform [e_row 1] (1, 2, 3) [2] [4]
              (with_gain fexp (sim_config fexp fc) gain) 0 [0] with
      | Ok ((cloud, labels), _) =>
          match process fexp the_sort [f_of_ZE 1 (-2)] (with_threshold (writer_config fexp fc) threshold) cloud labels with
          | Ok (out, labs) => (map (fun r => map f_to_Z [s_pad r; s_tb r; s_amp r]) out, labs)
          | Err _ => ([], [])
          end
      | Err _ => ([], [])
      end
  | Err _ => ([], [])
  end.
Example C71_example fexp :
  rows_at fexp 10 5 = ([[Some 300; Some 256; Some 40]], [0]) /\
  rows_at fexp 30 5 = ([[Some 300; Some 384; Some 7]; [Some 300; Some 256; Some 120]], [0; 0]) /\
  rows_at fexp 30 50 = ([[Some 300; Some 256; Some 120]], [0]).
Proof. vm_compute. repeat split. Qed.

(** C71: the bound on the electron counts is needed: [electrons *= mpgd_gain] (solver.py 392) wraps around, so that
    a higher gain can turn a charge negative without an exception, and its row is no longer stored. *)
Theorem C71_overflow_refuted fexp : exists gain gain' fc cloud labels cloud' labels' g out labs out' labs',
  let sim k := simulate fexp e_nuc (two_steps fexp) (two_counts fexp) ex_uniform [e_row 1] (1, 2, 3) [2] [4] (with_gain fexp (sim_config fexp fc) k) 0 [0] in
  let store := process fexp the_sort [f_of_ZE 1 (-2)] (with_threshold (writer_config fexp fc) 5) in
  1 <= gain < gain' /\ gain' < two63 /\ e_make fexp = Ok fc /\
  sim gain = Ok ((cloud, labels), g) /\ sim gain' = Ok ((cloud', labels'), g) /\
  (forall p, In p cloud -> fltb (f_of_Z 0) (p_el p) = true) /\ (exists p, In p cloud' /\ fltb (p_el p) (f_of_Z 0) = true) /\
  store cloud labels = Ok (out, labs) /\ store cloud' labels' = Ok (out', labs') /\ length out = 2%nat /\ length out' = 1%nat.
Proof.
  destruct (e_make fexp) as [fc|] eqn:E.
  2: { exfalso. assert (K : is_ok (e_make fexp) = true) by (vm_compute; reflexivity). rewrite E in K. discriminate K. }
  set (sim := fun k => simulate fexp e_nuc (two_steps fexp) (two_counts fexp) ex_uniform [e_row 1] (1, 2, 3) [2] [4] (with_gain fexp (sim_config fexp fc) k) 0 [0]).
  set (store := process fexp the_sort [f_of_ZE 1 (-2)] (with_threshold (writer_config fexp fc) 5)).
  assert (S : forall k n q, (k, n, q) = (30, 2%nat, fun p => fltb (f_of_Z 0) (p_el p)) \/ (k, n, q) = (2 ^ 59, 1%nat, fun p => fltb (p_el p) (f_of_Z 0)) ->
    exists cloud labels out labs, sim k = Ok ((cloud, labels), 2) /\ (if k =? 30 then forallb q cloud else existsb q cloud) = true /\
      store cloud labels = Ok (out, labs) /\ length out = n).
  { intros k n q H.
    assert (K : match e_make fexp with
      | Ok fc =>
          match simulate fexp e_nuc (two_steps fexp) (two_counts fexp) ex_uniform [e_row 1] (1, 2, 3) [2] [4] (with_gain fexp (sim_config fexp fc) k) 0 [0] with
          | Ok ((cloud, labels), g) =>
              match process fexp the_sort [f_of_ZE 1 (-2)] (with_threshold (writer_config fexp fc) 5) cloud labels with
              | Ok (out, labs) => (g =? 2) && (if k =? 30 then forallb q cloud else existsb q cloud) && (length out =? n)%nat
              | Err _ => false
              end
          | Err _ => false
          end
      | Err _ => false
      end = true).
    { destruct H as [H|H]; apply pair_equal_spec in H as [H ->]; apply pair_equal_spec in H as [-> ->]; vm_compute; reflexivity. }
    rewrite E in K. fold store in K. change (match sim k with Ok ((cloud, labels), g) => match store cloud labels with
      | Ok (out, labs) => (g =? 2) && (if k =? 30 then forallb q cloud else existsb q cloud) && (length out =? n)%nat | Err _ => false end | Err _ => false end = true) in K.
    destruct (sim k) as [[[cloud labels] g]|]; [|discriminate K].
    destruct (store cloud labels) as [[out labs]|] eqn:St; [|discriminate K].
    apply andb_prop in K as [K K3]. apply andb_prop in K as [K1 K2]. apply Z.eqb_eq in K1. apply Nat.eqb_eq in K3. subst g.
    exists cloud, labels, out, labs. repeat split; assumption. }
  destruct (S _ _ _ (or_introl eq_refl)) as (cloud & labels & out & labs & E1 & Q1 & P1 & L1).
  destruct (S _ _ _ (or_intror eq_refl)) as (cloud' & labels' & out' & labs' & E2 & Q2 & P2 & L2).
  exists 30, (2 ^ 59), fc, cloud, labels, cloud', labels', 2, out, labs, out', labs'. cbv zeta. fold store.
  change (30 =? 30) with true in Q1. change (2 ^ 59 =? 30) with false in Q2. cbv iota in Q1, Q2.
  split; [lia|]. split; [unfold two63; lia|]. split; [reflexivity|]. split; [exact E1|]. split; [exact E2|].
  split; [intros p I; rewrite forallb_forall in Q1; exact (Q1 p I)|].
  split; [apply existsb_exists in Q2 as (p & I & Q); exists p; split; assumption|]. repeat split; assumption.
Qed.

Lemma point_total fexp grd ge df ef dv tr el ds :
  (forall r, In r tr -> exists s, sigma_of (N := F64 fexp) df ef dv (r_time r) = Ok s /\ feqb s (f_of_Z 0) = true) ->
  Forall (Z.le 0) el -> track_ledger (N := F64 fexp) grd ge df ef dv tr el ds -> sumZ (map d_el ds) <= sumZ el.
Proof.
  intros Hz Hp (_ & dss & H & ->). revert tr dss Hz H.
  induction Hp as [|e el He Hp IH]; intros [|r tr] dss Hz H; cbn [combine] in H; inversion H as [|x ds l m H1 H2]; subst; cbn [concat map];
    try (unfold sumZ; cbn [fold_right]; lia).
  - unfold sumZ. cbn [fold_right]. assert (0 <= fold_right Z.add 0 el) by (clear - Hp; induction Hp; cbn [fold_right]; lia). lia.
  - specialize (IH tr m ltac:(intros; apply Hz; now right) H2).
    assert (Q : sumZ (map d_el ds) <= e).
    { destruct (Hz r (or_introl eq_refl)) as (s & Es & Ezero).
      inversion H1 as [r0 e0 s0 ds0 Es0 Ez0 Hp0|r0 e0 s0 dss0 Es0 Ez0 Hp0]; subst; assert (s0 = s) by congruence; subst s0;
        [|cbn [neqb F64 nofZ] in Ez0; congruence].
      inversion Hp0; subst; cbn; lia. }
    rewrite map_app. unfold sumZ in *. cbn [fold_right]. rewrite fold_right_app.
    assert (A : forall (l : list Z) b, fold_right Z.add b l = fold_right Z.add 0 l + b).
    { clear. induction l as [|a l IH]; intros b; cbn [fold_right]; [lia|]. rewrite IH. lia. }
    rewrite A. lia.
Qed.
Example C71_hypotheses fexp fc : e_make fexp = Ok fc -> let c := sim_config fexp fc in
  (forall v p nuc, two_steps fexp v p nuc (with_gain fexp c 30) = two_steps fexp v p nuc (with_gain fexp c 10)) /\
  (forall tr nuc g, two_counts fexp tr nuc (with_gain fexp c 30) g = two_counts fexp tr nuc (with_gain fexp c 10) g) /\
  (forall tr nuc g e, In e (fst (two_counts fexp tr nuc (with_gain fexp c 10) g)) -> e * 30 < two63) /\
  forall l g1 lds, tracks fexp e_nuc (two_steps fexp) (two_counts fexp) [e_row 1] (1, 2, 3) [2] [4] (with_gain fexp c 30) [0] 0 l g1 ->
    event_ledger (N := F64 fexp) (fc_grid fexp fc) (fc_edges fexp fc) (c_diffusion fexp c) (c_efield fexp c) (c_drift fexp c) l lds ->
    sumZ (map (fun x => d_el (fst x)) lds) < two63.
Proof.
  intros E c. split; [reflexivity|]. split; [reflexivity|]. split.
  { intros tr nuc g e [<-|[<-|[]]]; unfold two63; lia. }
  intros l g1 lds T L. inversion T as [|? ? ? ? ? Q T'|? ? ? z a nuc p track els g2 l0 g3 _ _ _ _ _ Et Ee _ T']; subst; [discriminate Q|].
  inversion T'; subst. clear T T'.
  assert (Ek : track = [mkTraj (f_of_Z 0) (f_of_Z 0) half tt; mkTraj (f_of_Z 0) (f_of_Z 0) (f_of_ZE 1 (-2)) tt]) by (unfold two_steps in Et; congruence).
  assert (El : els = [16; 1]) by (unfold two_counts in Ee; congruence). clear Et Ee.
  destruct L as (dss & F & ->). inversion F as [|? ds ? m H1 H2]; subst. inversion H2; subst. clear F H2.
  cbn [combine map concat fst snd]. rewrite app_nil_r, map_map. cbn [fst].
  change (map (fun x => d_el x) ds) with (map d_el ds).
  cbn [fst snd ionises] in H1.
  apply Z.le_lt_trans with (sumZ [480; 30]); [|unfold sumZ, two63; cbn; lia].
  eapply point_total; [| |exact H1].
  - assert (Z0 : forall z, z = half \/ z = f_of_ZE 1 (-2) ->
      match e_make fexp with
      | Ok fc => match sigma_of (N := F64 fexp) (c_diffusion fexp (sim_config fexp fc)) (c_efield fexp (sim_config fexp fc))
                         (c_drift fexp (sim_config fexp fc)) (drift_time fexp (sim_config fexp fc) z) with
                 | Ok s => feqb s (f_of_Z 0) | Err _ => false end
      | Err _ => false end = true) by (intros zz [-> | ->]; vm_compute; reflexivity).
    rewrite E in Z0. fold c in Z0.
    intros r Hr. apply in_map_iff in Hr as ([t n] & <- & I). apply filter_In in I as [I _]. apply in_combine_l in I.
    assert (Ez : t_z t = half \/ t_z t = f_of_ZE 1 (-2)) by (destruct I as [<-|[<-|[]]]; auto).
    specialize (Z0 _ Ez). cbn [fst to_row r_time].
    change (drift_time fexp (with_gain fexp c 30) (t_z t)) with (drift_time fexp c (t_z t)).
    destruct (sigma_of _ _ _ _) as [s|]; [|discriminate Z0]. exists s. now split.
  - repeat constructor; discriminate.
Qed.
Print Assumptions C71_threshold.
Print Assumptions C71_gain.
Print Assumptions C71_gain_stored.
Print Assumptions C71_overflow_refuted.
