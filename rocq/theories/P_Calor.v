(** P_Calor.v -- C76: the charge of a cloud measures the energy lost in the gas. *)
From Coq Require Import ZArith Reals Lia Lra List.
From Flocq Require Import Core BinarySingleNaN.
From Verif Require Import Base F64 F64Bounds Num Pairing PairingProofs BeamPads Transporter
  SpecTransport TransportProofs Simulator SpecSim SimulatorProofs TransportF64 P_TransportF64 P_Simulator
  P_KinF64 ElectronsF64 P_ElectronsF64 P_Complete.
Import ListNotations.
Local Open Scope R_scope.

Definition sumR (l : list R) : R := fold_right Rplus 0 l.
Lemma sumR_app a b : sumR (a ++ b) = sumR a + sumR b.
Proof. induction a as [|x a IH]; cbn [app]; unfold sumR in *; cbn [fold_right]; [lra|rewrite IH; lra]. Qed.
Lemma sumR_cons x l : sumR (x :: l) = x + sumR l. Proof. reflexivity. Qed.

(** Exact numbers of electrons of the rows of a track: energy lost since the row before, over W. *)
Fixpoint steps (m : R) (p : vec64) (l : list vec64) : list R :=
  match l with [] => [] | p' :: l' => Rabs (kinetic m p' - kinetic m p) :: steps m p' l' end.
Definition exact_electrons (m : R) (w : Z) (l : list vec64) : list R :=
  match l with [] => [] | p :: l' => 0 :: map (fun e => e * (10 ^ 6 / IZR w)) (steps m p l') end.
(** What truncation, rounding and the Fano fluctuation (a draw [g]) can change. *)
Definition slack (fano : f64) (m : R) (g : f64) : R := 2 + sqrt (R64 fano * (m + 1)) * Rabs (R64 g).
Definition slacks (fano : f64) (ms : list R) (gs : list f64) : R :=
  sumR (map (fun mg => slack fano (fst mg) (snd mg)) (combine ms gs)).

Lemma steps_nth m : forall l p i q q', nth_error (p :: l) i = Some q -> nth_error l i = Some q' ->
  nth_error (steps m p l) i = Some (Rabs (kinetic m q' - kinetic m q)).
Proof.
  induction l as [|a l IH]; intros p i q q' H H'; [destruct i; discriminate|].
  destruct i as [|i]; cbn [nth_error steps] in *.
  - assert (p = q) by congruence. assert (a = q') by congruence. now subst.
  - now apply IH.
Qed.
Lemma exact_length m w l : length (exact_electrons m w l) = length l.
Proof.
  destruct l as [|p l]; [reflexivity|]. cbn [exact_electrons length]. rewrite map_length. f_equal.
  revert p. induction l as [|a l IH]; intros p; cbn [steps length]; [reflexivity|now rewrite IH].
Qed.
Lemma exact_nonneg m w l : (1 <= w)%Z -> Forall (fun x => 0 <= x) (exact_electrons m w l).
Proof.
  intros Hw. destruct l as [|p l]; constructor; [lra|]. apply Forall_forall. intros x H.
  apply in_map_iff in H as (e & <- & H). assert (0 <= e).
  { revert p H. induction l as [|a l IH]; intros p; cbn [steps]; [intros []|]. intros [<-|H]; [apply Rabs_pos|eauto]. }
  assert (1 <= IZR w) by (apply IZR_le; lia). apply Rmult_le_pos; [assumption|]. apply Rle_mult_inv_pos; lra.
Qed.
Lemma means_length m w l : length (means64 m w l) = length l.
Proof.
  unfold means64. rewrite map_length. destruct l as [|p l]; [reflexivity|]. cbn [map length]. rewrite map_length. f_equal.
  generalize (row_energy64 m p). induction l as [|a l IH]; intros e; [reflexivity|].
  change (diff64 (e :: map (row_energy64 m) (a :: l))) with (fsub (row_energy64 m a) e :: diff64 (row_energy64 m a :: map (row_energy64 m) l)).
  cbn [length]. now rewrite IH.
Qed.

(** A nucleus and a track within the bounds of C75. *)
Definition usual (m : f64) (w : Z) (l : list vec64) : Prop :=
  is_finite m = true /\ 1 <= R64 m <= 2 ^ 100 /\
  forall p, In p l -> moving p /\ R64 m * lorentz_factor p * (10 ^ 6 / IZR w) <= 2 ^ 40.

Lemma trunc_close y : Rabs (IZR (Ztrunc y) - y) <= 1.
Proof.
  unfold Ztrunc. destruct (Rlt_bool_spec y 0).
  - pose proof (Zceil_ub y). pose proof (Zceil_lb y). apply Rabs_le. lra.
  - pose proof (Zfloor_lb y). pose proof (Zfloor_ub y). apply Rabs_le. lra.
Qed.

Lemma count_close m w l fano g i e x : usual m w l -> (1 <= w <= 2 ^ 53)%Z ->
  is_finite fano = true -> 0 <= R64 fano <= 1 -> is_finite g = true -> Rabs (R64 g) <= 32 ->
  nth_error (means64 m w l) i = Some e -> nth_error (exact_electrons (R64 m) w l) i = Some x ->
  exists z, count64 fano e g = Some z /\ Rabs (IZR z - x) <= slack fano x g.
Proof.
  intros (Fm & Bm & H) Hw Ff Bf Fg Bg He Hx.
  assert (W1 : 1 <= IZR w) by (apply IZR_le; lia).
  assert (K0 : 0 < 10 ^ 6 / IZR w) by (apply Rdiv_lt_0_compat; lra).
  set (T := 2 ^ 40 * (IZR w / 10 ^ 6)).
  assert (TK : T * (10 ^ 6 / IZR w) = 2 ^ 40) by (unfold T; field; lra).
  assert (HT : forall p, In p l -> moving p /\ R64 m * lorentz_factor p <= T).
  { intros p I. destruct (H p I) as (M & L). split; [exact M|].
    apply Rmult_le_reg_r with (10 ^ 6 / IZR w); [exact K0|]. rewrite TK. exact L. }
  assert (W2 : IZR w <= 2 ^ 53). { replace (2 ^ 53) with (IZR (2 ^ 53)) by (rewrite pow_IZR; reflexivity). apply IZR_le. lia. }
  assert (TB : T <= 2 ^ 250).
  { apply Rle_trans with (2 ^ 40 * 2 ^ 53).
    - unfold T. apply Rmult_le_compat_l; [lra|]. lra.
    - rewrite <- pow_add. apply Rle_pow; [lra|lia]. }
  assert (Hm : is_finite e = true /\ 0 <= R64 e /\ Rabs (R64 e - x) <= / 2 ^ 7 /\ 0 <= x <= 2 ^ 40).
  { destruct i as [|i].
    - destruct l as [|p l]; [discriminate|].
      destruct (C75_means m w (p :: l) T 0%nat Fm Bm Hw HT TB ltac:(congruence)) as (e' & E & F & Z).
      assert (e' = e) by congruence. subst e'. cbn [exact_electrons nth_error] in Hx. assert (x = 0) by congruence. subst x.
      rewrite Z. split; [exact F|]. split; [lra|]. split; [|lra]. rewrite Rminus_0_r, Rabs_R0. lra.
    - assert (Li : (S i < length l)%nat).
      { rewrite <- (exact_length (R64 m) w l). apply nth_error_Some. congruence. }
      destruct (nth_error l i) as [p|] eqn:Ep; [|apply nth_error_None in Ep; lia].
      destruct (nth_error l (S i)) as [p'|] eqn:Ep'; [|apply nth_error_None in Ep'; lia].
      destruct (C75_means m w l T (S i) Fm Bm Hw HT TB p p' Ep Ep') as (e' & E & F & P & B).
      assert (e' = e) by congruence. subst e'.
      assert (Ex : x = Rabs (kinetic (R64 m) p' - kinetic (R64 m) p) * (10 ^ 6 / IZR w)).
      { destruct l as [|p0 l]; [discriminate|]. cbn [exact_electrons nth_error] in Hx, Ep'. rewrite nth_error_map in Hx.
        rewrite (steps_nth (R64 m) l p0 i p p' Ep Ep') in Hx. cbn [option_map] in Hx. congruence. }
      split; [exact F|]. split; [exact P|]. rewrite <- Ex, TK in B. split; [lra|].
      destruct (HT p (nth_error_In _ _ Ep)) as (_ & T1). destruct (HT p' (nth_error_In _ _ Ep')) as (_ & T2).
      pose proof (lorentz_ge1 p) as G1. pose proof (lorentz_ge1 p') as G2.
      assert (KE : Rabs (kinetic (R64 m) p' - kinetic (R64 m) p) <= T).
      { unfold kinetic. apply Rabs_le. assert (1 * 1 <= R64 m * lorentz_factor p) by (apply Rmult_le_compat; lra).
        assert (R64 m * 1 <= R64 m * lorentz_factor p) by (apply Rmult_le_compat_l; lra).
        assert (R64 m * 1 <= R64 m * lorentz_factor p') by (apply Rmult_le_compat_l; lra). lra. }
      rewrite Ex. split; [apply Rmult_le_pos; [apply Rabs_pos|lra]|]. rewrite <- TK. apply Rmult_le_compat_r; lra. }
  destruct Hm as (Fe & Pe & Be & Bx). apply Rabs_le_inv in Be.
  assert (P40 : 2 ^ 40 = 1099511627776) by ring. assert (P50 : 2 ^ 50 = 1125899906842624) by ring.
  destruct (C75_counts fano e g Ff Fe Fg Bf ltac:(lra) Bg) as (y & Y & By).
  exists (Ztrunc y). split; [exact Y|].
  pose proof (trunc_close y) as Ty. apply Rabs_le_inv in Ty. apply Rabs_le_inv in By.
  set (sq := sqrt (R64 fano * R64 e)) in *.
  assert (S0 : 0 <= sq) by apply sqrt_pos.
  assert (S1 : sq <= sqrt (R64 fano * (x + 1))).
  { apply sqrt_le_1_alt. apply Rmult_le_compat_l; lra. }
  assert (S2 : sq <= 2097152).
  { unfold sq. replace 2097152 with (sqrt (2097152 * 2097152)) by (apply sqrt_square; lra). apply sqrt_le_1_alt.
    assert (R64 fano * R64 e <= 1 * R64 e) by (apply Rmult_le_compat_r; lra). lra. }
  pose proof (Rabs_pos (R64 g)) as G0.
  assert (S3 : sq * Rabs (R64 g) <= 2097152 * 32) by (apply Rmult_le_compat; lra).
  assert (S4 : sq * Rabs (R64 g) <= sqrt (R64 fano * (x + 1)) * Rabs (R64 g)) by (apply Rmult_le_compat_r; lra).
  assert (S5 : Rabs (sq * R64 g) <= sq * Rabs (R64 g)) by (rewrite Rabs_mult, (Rabs_pos_eq sq) by lra; lra).
  apply Rabs_le_inv in S5.
  assert (E50 : / 2 ^ 50 * (R64 e + sq * Rabs (R64 g)) <= / 10).
  { apply Rle_trans with (/ 2 ^ 50 * 2000000000000); [apply Rmult_le_compat_l; lra|lra]. }
  pose proof (inv_pow_le 10 400 ltac:(lia)) as I400.
  assert (E7 : / 2 ^ 7 <= / 10) by lra. assert (E10 : / 2 ^ 10 <= / 10) by lra.
  unfold slack. apply Rabs_le. lra.
Qed.

(** The whole track. *)
Lemma pair_counts fano : forall ms xs gs, length xs = length ms -> length gs = length ms ->
  (forall i e x, nth_error ms i = Some e -> nth_error xs i = Some x ->
     forall g, is_finite g = true -> Rabs (R64 g) <= 32 ->
     exists z, count64 fano e g = Some z /\ Rabs (IZR z - x) <= slack fano x g) ->
  Forall (fun g => is_finite g = true /\ Rabs (R64 g) <= 32) gs ->
  exists els, counts64 fano ms gs = map Some els /\ length els = length ms /\
    Forall2 (fun z xg => Rabs (IZR z - fst xg) <= slack fano (fst xg) (snd xg)) els (combine xs gs).
Proof.
  induction ms as [|e ms IH]; intros xs gs Lx Lg H F; destruct xs as [|x xs]; try discriminate; destruct gs as [|g gs]; try discriminate.
  - exists []. repeat split. constructor.
  - apply Forall_inv in F as F1. apply Forall_inv_tail in F as F2.
    destruct (IH xs gs ltac:(cbn in Lx; lia) ltac:(cbn in Lg; lia) (fun i => H (S i)) F2) as (els & E & L & A).
    destruct (H 0%nat e x eq_refl eq_refl g (proj1 F1) (proj2 F1)) as (z & Z & B).
    exists (z :: els). split; [|split; [cbn [length]; lia|]].
    + unfold counts64 in *. cbn [combine map fst snd]. rewrite Z, E. reflexivity.
    + cbn [combine]. constructor; assumption.
Qed.
Lemma counts_close m w l fano gs : usual m w l -> (1 <= w <= 2 ^ 53)%Z ->
  is_finite fano = true -> 0 <= R64 fano <= 1 ->
  length gs = length l -> Forall (fun g => is_finite g = true /\ Rabs (R64 g) <= 32) gs ->
  exists els, counts64 fano (means64 m w l) gs = map Some els /\ length els = length l /\
    Forall2 (fun z xg => Rabs (IZR z - fst xg) <= slack fano (fst xg) (snd xg)) els
            (combine (exact_electrons (R64 m) w l) gs).
Proof.
  intros U Hw Ff Bf Lg Fg. rewrite <- (means_length m w l).
  apply pair_counts; [rewrite exact_length, means_length; reflexivity|rewrite means_length; exact Lg| |exact Fg].
  intros i e x E X g F B. eapply count_close; eauto.
Qed.

(** Rows with less than one electron are dropped: that does not take the numbers further away. *)
Lemma kept_close fano (els : list Z) : forall xgs,
  Forall2 (fun z xg => Rabs (IZR z - fst xg) <= slack fano (fst xg) (snd xg)) els xgs ->
  Forall (fun xg => 0 <= fst xg) xgs ->
  Rabs (IZR (sumZ (filter (fun z => 1 <=? z)%Z els)) - sumR (map fst xgs))
  <= sumR (map (fun xg => slack fano (fst xg) (snd xg)) xgs).
Proof.
  intros xgs F. induction F as [|z xg els xgs H F IH]; intros P.
  - cbn. rewrite Rminus_0_r, Rabs_R0. lra.
  - apply Forall_inv in P as P1. apply Forall_inv_tail in P as P2. specialize (IH P2).
    cbn [map filter]. rewrite !sumR_cons.
    apply Rabs_le_inv in H. apply Rabs_le_inv in IH.
    destruct (1 <=? z)%Z eqn:E.
    + rewrite sumZ_cons, plus_IZR. apply Rabs_le. lra.
    + apply Z.leb_gt in E. assert (IZR z <= 0) by (apply (IZR_le z 0); lia). apply Rabs_le. lra.
Qed.

(** The conversion to int64 of solver.py 342-346: it raises if one entry cannot be converted. Here
    that is the empty array, at which [simulate] also raises (an IndexError instead of the
    ValueError), as it does not fit the track. *)
Fixpoint converted_all (l : list (option Z)) : option (list Z) :=
  match l with
  | [] => Some []
  | None :: _ => None
  | Some z :: l' => match converted_all l' with Some k => Some (z :: k) | None => None end
  end.
Definition converted (l : list (option Z)) : list Z :=
  match converted_all l with Some k => k | None => [] end.

Lemma converted_some els : converted (map Some els) = els.
Proof.
  unfold converted. replace (converted_all (map Some els)) with (Some els); [reflexivity|].
  induction els as [|e els IH]; [reflexivity|]. cbn [map converted_all]. now rewrite <- IH.
Qed.

Lemma converted_none l i : nth_error l i = Some None -> converted l = [].
Proof.
  intros H. unfold converted. replace (converted_all l) with (@None (list Z)); [reflexivity|].
  revert i H. induction l as [|[z|] l IH]; intros [|i] H; try discriminate; [|reflexivity|reflexivity].
  cbn [converted_all]. now rewrite <- (IH i H).
Qed.

Section Calor.
  Context (fexp : f64 -> f64) {G Nuc Mom Vtx : Type}.
  Context (get_data : Z -> Z -> res Nuc)
    (generate_trajectory : Vtx -> Mom -> Nuc -> config fexp -> res (list (@traj vec64)))
    (mass : Nuc -> f64) (w : Z) (fano : f64)
    (normals : nat -> G -> list f64 * G) (uniform : nat -> G -> list f64 * G).

  (** [generate_electrons] on a track (solver.py 308-347): the momenta are the columns 3-5. *)
  Definition electrons64 (track : list (@traj vec64)) (nuc : Nuc) (c : config fexp) (g : G) : list Z * G :=
    let '(gs, g') := normals (length track) g in
    (converted (counts64 fano (means64 (mass nuc) w (map t_v track)) gs), g').

  Definition normals_ok : Prop := forall n g, length (fst (normals n g)) = n /\
    Forall (fun x => is_finite x = true /\ Rabs (R64 x) <= 32) (fst (normals n g)).

  Notation sim := (simulate fexp get_data generate_trajectory electrons64 uniform).

  (** A simulated nucleus: which one, its track and its draws. *)
  Record history := mkHist { h_nuc : Nuc; h_track : list (@traj vec64); h_gs : list f64 }.
  Definition exact_of (h : history) : list R := exact_electrons (R64 (mass (h_nuc h))) w (map t_v (h_track h)).
  (** Electrons: exact number, and the slack. *)
  Definition h_exact (h : history) : R := sumR (exact_of h).
  Definition h_slack (h : history) : R := slacks fano (exact_of h) (h_gs h).
  Definition total (f : history -> R) (hs : list history) : R := sumR (map f hs).

  Definition made (momenta : list Mom) (vertex : Vtx) (zs ms : list Z) (c : config fexp) (i : Z) (h : history) : Prop :=
    exists z a p, py_index zs i = Ok z /\ z <> 0%Z /\ py_index ms i = Ok a /\ get_data z a = Ok (h_nuc h) /\
      py_index momenta i = Ok p /\ generate_trajectory vertex p (h_nuc h) c = Ok (h_track h) /\
      length (h_gs h) = length (h_track h) /\ Forall (fun x => is_finite x = true /\ Rabs (R64 x) <= 32) (h_gs h).
  Definition is_charged (zs : list Z) (i : Z) : bool :=
    match py_index zs i with Ok z => negb (z =? 0)%Z | Err _ => false end.

  Definition els_of (h : history) : list Z :=
    converted (counts64 fano (means64 (mass (h_nuc h)) w (map t_v (h_track h))) (h_gs h)).
  Definition emitted (h : history) : Z := sumZ (map snd (ionising (h_track h) (els_of h))).

  Lemma tracks_hist momenta vertex zs ms c indices rng l rng1 : normals_ok ->
    tracks fexp get_data generate_trajectory electrons64 momenta vertex zs ms c indices rng l rng1 ->
    exists hs, Forall2 (made momenta vertex zs ms c) (filter (is_charged zs) indices) hs /\
      Forall2 (fun h t => exists i, t = ionises fexp c i (h_track h) (els_of h)) hs l.
  Proof.
    intros N T. induction T as [g|i rest g l g' Z T IH|i rest g z a nuc p track els g1 l g' Ez Nz Ea En Ep Et Ee Le T IH].
    - exists []. split; constructor.
    - destruct IH as (hs & A & B). exists hs. split; [|exact B]. cbn [filter].
      unfold is_charged at 1. rewrite Z. exact A.
    - destruct IH as (hs & A & B). unfold electrons64 in Ee.
      destruct (normals (length track) g) as [gs g2] eqn:E.
      destruct (N (length track) g) as (Lg & Fg). rewrite E in Lg, Fg. cbn [fst] in Lg, Fg.
      apply (f_equal fst) in Ee. cbn [fst] in Ee.
      exists (mkHist nuc track gs :: hs). split.
      + cbn [filter]. unfold is_charged at 1. rewrite Ez. replace (negb (z =? 0)%Z) with true by (symmetry; apply Bool.negb_true_iff; lia).
        constructor; [|exact A]. exists z, a, p. cbn [h_nuc h_track h_gs]. repeat split; assumption.
      + constructor; [|exact B]. exists i. unfold els_of. cbn [h_nuc h_track h_gs]. now rewrite Ee.
  Qed.

  Lemma emitted_filter (track : list (@traj vec64)) els : length els = length track ->
    map snd (ionising track els) = filter (fun z => 1 <=? z)%Z els.
  Proof.
    unfold ionising. revert els. induction track as [|t track IH]; intros [|e els] L; try discriminate; [reflexivity|].
    cbn [combine filter snd]. cbn in L. destruct (1 <=? e)%Z; cbn [map snd]; rewrite IH by lia; reflexivity.
  Qed.

  Lemma emitted_close momenta vertex zs ms c i h :
    (1 <= w <= 2 ^ 53)%Z -> is_finite fano = true -> 0 <= R64 fano <= 1 ->
    usual (mass (h_nuc h)) w (map t_v (h_track h)) -> made momenta vertex zs ms c i h ->
    length (els_of h) = length (h_track h) /\ Rabs (IZR (emitted h) - h_exact h) <= h_slack h.
  Proof.
    intros Hw Ff Bf U (z & a & p & _ & _ & _ & _ & _ & _ & Lg & Fg).
    destruct (counts_close (mass (h_nuc h)) w (map t_v (h_track h)) fano (h_gs h) U Hw Ff Bf ltac:(now rewrite map_length) Fg) as (els & E & L & F).
    assert (Ee : els_of h = els).
    { unfold els_of. rewrite E. apply converted_some. }
    rewrite map_length in L. rewrite Ee. split; [exact L|].
    unfold emitted. rewrite Ee, emitted_filter by exact L.
    unfold h_exact, h_slack, slacks. fold (exact_of h) in F.
    assert (P : Forall (fun xg : R * f64 => 0 <= fst xg) (combine (exact_of h) (h_gs h))).
    { apply Forall_forall. intros [x g] I. apply in_combine_l in I. unfold exact_of in I.
      pose proof (exact_nonneg (R64 (mass (h_nuc h))) w (map t_v (h_track h)) ltac:(lia)) as Q. rewrite Forall_forall in Q. now apply Q. }
    pose proof (kept_close fano els _ F P) as K.
    assert (Q : map fst (combine (exact_of h) (h_gs h)) = exact_of h).
    { assert (Lx : length (exact_of h) = length (h_gs h)) by (unfold exact_of; rewrite exact_length, map_length; congruence).
      revert Lx. generalize (exact_of h) (h_gs h). induction l as [|x l IH]; intros [|y k] Lx; try discriminate; [reflexivity|].
      cbn [combine map fst]. rewrite IH; [reflexivity|cbn in Lx; lia]. }
    exact (eq_ind _ (fun t => Rabs (IZR (sumZ (filter (fun z => 1 <=? z)%Z els)) - sumR t) <= _) K _ Q).
  Qed.

  (** ** From electrons to points *)
  Local Open Scope Z_scope.

  Lemma ledger_sum (g : grid) (ge : edges (F64 fexp)) (diffusion efield dv : f64) (rows : list (row (F64 fexp))) (el : list Z) (ds : list dep) :
    fzero diffusion -> is_finite efield = true -> R64 efield <> 0%R -> is_finite dv = true ->
    (forall r, In r rows -> @is_finite prec64 emax64 (r_time r) = true) ->
    length rows = length el -> (forall e, In e el -> 0 <= e) ->
    track_ledger (N := F64 fexp) g ge diffusion efield dv rows el ds ->
    (forall d, In d ds -> 0 <= d_el d /\ exists r, In r rows /\ f_to_Z (r_time r) = Some (d_tb d)) /\
    sumZ (map d_el ds) <= sumZ el /\
    ((forall r, In r rows -> exists pad, lands g ge (r_x r, r_y r) pad) -> sumZ (map d_el ds) = sumZ el).
  Proof.
    intros D Fe He Fd Ft L P H.
    destruct (C10_single_pad fexp g ge diffusion efield dv rows el ds D Fe He Fd Ft H) as (dss & F & ->). clear H Ft.
    revert el dss L P F. induction rows as [|r rows IH]; intros [|e el] dss L P F; try discriminate.
    - cbn [combine] in F. inversion F; subst. cbn [concat map]. split; [intros d []|]. split; [apply Z.le_refl|reflexivity].
    - cbn [combine] in F. inversion F as [|? ds ? dss' H1 H2]; subst. cbn [concat]. rewrite map_app, sumZ_app, sumZ_cons.
      destruct (IH el dss' ltac:(cbn in L; lia) (fun x I => P x (or_intror I)) H2) as (I1 & I2 & I3).
      pose proof (P e (or_introl eq_refl)) as Pe. cbn [fst snd] in H1.
      destruct H1 as [(M & ->)|(pad & tb & La & T & ->)]; cbn [fst snd] in *.
      + split; [|split].
        * cbn [app]. intros d Hd. destruct (I1 d Hd) as (A & r' & B & C). split; [exact A|]. exists r'. split; [now right|exact C].
        * cbn [map]. change (sumZ []) with 0. lia.
        * intros Q. exfalso. destruct (Q r (or_introl eq_refl)) as (pad & La).
          destruct M as (ix & iy & E & N). destruct La as (ix' & iy' & E' & N1 & N2 & Gp & N3 & N4).
          assert (Ei : (ix, iy) = (ix', iy')) by congruence. apply pair_equal_spec in Ei as [-> ->].
          destruct N as [->|[->|(_ & _ & pad' & Gp' & N)]]; [congruence..|].
          assert (pad' = pad) by congruence. subst. tauto.
      + split; [|split].
        * cbn [app]. intros d [<-|Hd]; [cbn [d_el d_tb]; split; [exact Pe|exists r; split; [now left|exact T]]|].
          destruct (I1 d Hd) as (A & r' & B & C). split; [exact A|]. exists r'. split; [now right|exact C].
        * cbn [map d_el]. rewrite sumZ_cons. change (sumZ []) with 0. lia.
        * intros Q. rewrite (I3 (fun x I => Q x (or_intror I))). cbn [map d_el]. rewrite sumZ_cons. change (sumZ []) with 0. lia.
  Qed.

  Definition keyed (k : Z * Z) (lds : list ldep) : Z := collected (fst k) (snd k) lds.
  Lemma keyed_cons k d lab lds : keyed k ((d, lab) :: lds) =
    (if (d_tb d =? fst k) && (d_pad d =? snd k) then d_el d else 0) + keyed k lds.
  Proof.
    unfold keyed, collected. cbn [filter fst]. destruct (_ && _)%bool; cbn [map fst]; [rewrite sumZ_cons; lia|lia].
  Qed.
  Lemma sum_keys ks lds : NoDup ks -> (forall d lab, In (d, lab) lds -> 0 <= d_el d) ->
    sumZ (map (fun k => keyed k lds) ks) <= sumZ (map (fun dl => d_el (fst dl)) lds) /\
    ((forall d lab, In (d, lab) lds -> In (d_tb d, d_pad d) ks) ->
       sumZ (map (fun k => keyed k lds) ks) = sumZ (map (fun dl => d_el (fst dl)) lds)).
  Proof.
    intros ND. induction lds as [|[d lab] lds IH]; intros P.
    - assert (E : sumZ (map (fun k => keyed k []) ks) = 0).
      { clear. induction ks as [|k ks IH]; [reflexivity|]. cbn [map]. rewrite sumZ_cons, IH. reflexivity. }
      split; [apply Z.eq_le_incl; exact E|intros _; exact E].
    - destruct (IH (fun d' l' I => P d' l' (or_intror I))) as (I1 & I2). pose proof (P d lab (or_introl eq_refl)) as Pd.
      assert (E : sumZ (map (fun k => keyed k ((d, lab) :: lds)) ks) =
                  sumZ (map (fun k : Z * Z => if (d_tb d =? fst k) && (d_pad d =? snd k) then d_el d else 0) ks) + sumZ (map (fun k => keyed k lds) ks)).
      { clear. induction ks as [|k ks IH]; [reflexivity|]. cbn [map]. rewrite !sumZ_cons, IH, keyed_cons. lia. }
      assert (O : 0 <= sumZ (map (fun k : Z * Z => if (d_tb d =? fst k) && (d_pad d =? snd k) then d_el d else 0) ks) <= d_el d /\
                  (In (d_tb d, d_pad d) ks -> sumZ (map (fun k : Z * Z => if (d_tb d =? fst k) && (d_pad d =? snd k) then d_el d else 0) ks) = d_el d) /\
                  (~ In (d_tb d, d_pad d) ks -> sumZ (map (fun k : Z * Z => if (d_tb d =? fst k) && (d_pad d =? snd k) then d_el d else 0) ks) = 0)).
      { clear - ND Pd. induction ks as [|k ks IH]; [cbn; repeat split; try lia; intros []|].
        inversion ND as [|? ? N1 N2]; subst. destruct (IH N2) as (A & B & C). cbn [map]. rewrite sumZ_cons.
        destruct ((d_tb d =? fst k) && (d_pad d =? snd k))%bool eqn:K.
        - apply andb_prop in K as [K1 K2]. apply Z.eqb_eq in K1, K2. assert (Ek : (d_tb d, d_pad d) = k) by (destruct k; cbn in *; congruence).
          rewrite Ek in *. rewrite (C N1). repeat split; try lia. intros X. exfalso. apply X. now left.
        - assert (Nk : k <> (d_tb d, d_pad d)) by (intros ->; cbn in K; rewrite !Z.eqb_refl in K; discriminate).
          split; [lia|]. split.
          + intros [->|I]; [congruence|]. rewrite (B I). lia.
          + intros N. rewrite C; [lia|]. intros I. apply N. now right. }
      destruct O as (O1 & O2 & O3). rewrite E. cbn [map fst]. rewrite sumZ_cons. split; [lia|].
      intros Q. rewrite (O2 (Q d lab (or_introl eq_refl))), I2; [reflexivity|]. intros d' l' I. apply (Q d' l'). now right.
  Qed.
  Lemma keyed_le k lds : (forall d lab, In (d, lab) lds -> 0 <= d_el d) ->
    0 <= keyed k lds <= sumZ (map (fun dl => d_el (fst dl)) lds).
  Proof.
    induction lds as [|[d lab] lds IH]; intros P; [cbn; lia|]. rewrite keyed_cons. cbn [map fst]. rewrite sumZ_cons.
    pose proof (P d lab (or_introl eq_refl)). specialize (IH (fun d' l' I => P d' l' (or_intror I))). destruct (_ && _)%bool; lia.
  Qed.

  Lemma kept_le els z : In z (filter (fun z => 1 <=? z) els) -> 1 <= z <= sumZ (filter (fun z => 1 <=? z) els).
  Proof.
    induction els as [|e els IH]; cbn [filter]; [intros []|].
    assert (P : 0 <= sumZ (filter (fun z => 1 <=? z) els)).
    { clear. induction els as [|e els IH]; [cbn; lia|]. cbn [filter]. destruct (1 <=? e) eqn:E; [rewrite sumZ_cons; lia|exact IH]. }
    destruct (1 <=? e) eqn:E; [|exact IH]. rewrite sumZ_cons. intros [<-|I]; [lia|]. specialize (IH I). lia.
  Qed.
  Lemma emitted_nonneg h : 0 <= emitted h.
  Proof.
    unfold emitted. unfold ionising. generalize (combine (h_track h) (els_of h)). intros l.
    induction l as [|[t e] l IH]; [cbn; lia|]. cbn [filter snd]. destruct (1 <=? e) eqn:E; [|exact IH].
    cbn [map snd]. rewrite sumZ_cons. lia.
  Qed.
  Lemma total_emitted hs : (forall h, In h hs -> Rabs (IZR (emitted h) - h_exact h) <= h_slack h)%R ->
    (Rabs (IZR (sumZ (map emitted hs)) - total h_exact hs) <= total h_slack hs)%R.
  Proof.
    intros P. unfold total. induction hs as [|h hs IH]; [cbn; rewrite Rminus_0_r, Rabs_R0; lra|].
    specialize (IH (fun x I => P x (or_intror I))). specialize (P h (or_introl eq_refl)).
    cbn [map]. rewrite sumZ_cons, plus_IZR, !sumR_cons. apply Rabs_le_inv in IH. apply Rabs_le_inv in P. apply Rabs_le. lra.
  Qed.
  Lemma sum_scale (k : Z) l : sumZ (map (fun e => e * k) l) = k * sumZ l.
  Proof. induction l as [|e l IH]; [cbn; lia|]. cbn [map]. rewrite !sumZ_cons, IH. lia. Qed.

  (** All rows above pads that are read out, in buckets 0 to 510. *)
  Definition contained (g : grid) (ge : edges (F64 fexp)) (c : config fexp) (h : history) : Prop :=
    forall t, In t (h_track h) ->
      (exists pad, lands (N := F64 fexp) g ge (t_x t, t_y t) pad) /\
      (forall tb, f_to_Z (drift_time fexp c (t_z t)) = Some tb -> 0 <= tb <= 510).

  Lemma event_sum (g : grid) (ge : edges (F64 fexp)) (c : config fexp) (hs : list history) l dss :
    fzero (c_diffusion fexp c) -> is_finite (c_efield fexp c) = true -> R64 (c_efield fexp c) <> 0%R ->
    is_finite (c_drift fexp c) = true -> 0 <= c_gain fexp c ->
    (forall h, In h hs -> (forall t, In t (h_track h) -> is_finite (drift_time fexp c (t_z t)) = true) /\
       length (els_of h) = length (h_track h)) ->
    c_gain fexp c * sumZ (map emitted hs) <= 2 ^ 53 ->
    Forall2 (fun h t => exists i, t = ionises fexp c i (h_track h) (els_of h)) hs l ->
    Forall2 (fun t ds => track_ledger (N := F64 fexp) g ge (c_diffusion fexp c) (c_efield fexp c) (c_drift fexp c) (fst (fst t)) (snd (fst t)) ds) l dss ->
    let lds := concat (map (fun p => map (fun d => (d, snd (fst p))) (snd p)) (combine l dss)) in
    (forall d lab, In (d, lab) lds -> 0 <= d_el d /\
       exists h t, In h hs /\ In t (h_track h) /\ f_to_Z (drift_time fexp c (t_z t)) = Some (d_tb d)) /\
    sumZ (map (fun dl => d_el (fst dl)) lds) <= c_gain fexp c * sumZ (map emitted hs) /\
    (Forall (contained g ge c) hs -> sumZ (map (fun dl => d_el (fst dl)) lds) = c_gain fexp c * sumZ (map emitted hs)).
  Proof.
    intros D Fe Ne Fd Gp. revert l dss.
    induction hs as [|h hs IH]; intros l dss Per Small B F; cbv zeta.
    - inversion B; subst. inversion F; subst. cbn [combine map concat]. split; [intros d lab []|].
      change (sumZ []) with 0. split; [lia|lia].
    - inversion B as [|? t ? l' (i & Ei) B']; subst. inversion F as [|? ds ? dss' F1 F']; subst.
      cbn [map] in Small. rewrite sumZ_cons in Small.
      assert (N1 : 0 <= emitted h) by apply emitted_nonneg.
      assert (N2 : 0 <= sumZ (map emitted hs)).
      { clear. induction hs as [|h hs IH]; [cbn; lia|]. cbn [map]. rewrite sumZ_cons. pose proof (emitted_nonneg h). lia. }
      assert (Sm1 : c_gain fexp c * emitted h <= 2 ^ 53) by (pose proof (Z.mul_nonneg_nonneg _ _ Gp N2); lia).
      assert (Sm2 : c_gain fexp c * sumZ (map emitted hs) <= 2 ^ 53) by (pose proof (Z.mul_nonneg_nonneg _ _ Gp N1); lia).
      destruct (IH l' dss' (fun x I => Per x (or_intror I)) Sm2 B' F') as (I1 & I2 & I3). cbv zeta in I1, I2, I3.
      destruct (Per h (or_introl eq_refl)) as (Fin & Le).
      unfold ionises in F1. cbn [fst snd] in F1.
      set (ion := ionising (h_track h) (els_of h)) in *.
      assert (Kz : forall te, In te ion -> 1 <= snd te <= emitted h).
      { intros te I. unfold emitted. fold ion. assert (J : In (snd te) (map snd ion)) by now apply in_map.
        unfold ion in J |- *. rewrite emitted_filter in J |- * by exact Le. now apply kept_le. }
      assert (Wr : map (fun te => wrap64 (snd te * c_gain fexp c)) ion = map (fun e => e * c_gain fexp c) (map snd ion)).
      { rewrite map_map. apply map_ext_in. intros te I. destruct (Kz te I) as [K1 K2]. apply wrap64_id.
        pose proof (Z.mul_nonneg_nonneg (snd te) (c_gain fexp c) ltac:(lia) Gp).
        pose proof (Z.mul_le_mono_nonneg_r (snd te) (emitted h) (c_gain fexp c) Gp K2). unfold two63. lia. }
      rewrite Wr in F1.
      edestruct (fun A1 A2 A3 => ledger_sum g ge (c_diffusion fexp c) (c_efield fexp c) (c_drift fexp c) (map (fun te => to_row fexp c (fst te)) ion) (map (fun e => e * c_gain fexp c) (map snd ion)) ds D Fe Ne Fd A1 A2 A3 F1) as (L1 & L2 & L3).
      { intros r I. apply in_map_iff in I as (te & <- & I). cbn [to_row r_time]. apply Fin.
        unfold ion, ionising in I. apply filter_In in I as [I _]. destruct te as [t e]. cbn [fst]. now apply in_combine_l in I. }
      { now rewrite !map_length. }
      { intros e I. apply in_map_iff in I as (z & <- & I). apply in_map_iff in I as (te & <- & I).
        destruct (Kz te I). apply Z.mul_nonneg_nonneg; lia. }
      assert (SE : sumZ (map (fun e => e * c_gain fexp c) (map snd ion)) = c_gain fexp c * emitted h).
      { rewrite sum_scale. reflexivity. }
      rewrite SE in L2, L3.
      cbn [combine map concat fst snd]. rewrite map_app, sumZ_app, map_map. cbn [fst]. rewrite sumZ_cons.
      replace (map (fun x : dep => d_el x) ds) with (map d_el ds) by reflexivity.
      split; [|split].
      + intros d lab I. apply in_app_or in I as [I|I].
        * apply in_map_iff in I as (d' & E & I). assert (d' = d) by congruence. subst d'.
          destruct (L1 d I) as (P & r & Ir & Er). split; [exact P|].
          apply in_map_iff in Ir as (te & <- & Ir). exists h, (fst te). split; [now left|]. split; [|exact Er].
          unfold ion, ionising in Ir. apply filter_In in Ir as [Ir _]. destruct te as [t e]. cbn [fst]. now apply in_combine_l in Ir.
        * destruct (I1 d lab I) as (P & h' & t & A1 & A2 & A3). split; [exact P|]. exists h', t. split; [now right|]. split; assumption.
      + lia.
      + intros C. apply Forall_inv in C as C1. apply Forall_inv_tail in C as C2. rewrite (I3 C2), L3; [lia|].
        intros r Ir. apply in_map_iff in Ir as (te & <- & Ir). cbn [to_row r_x r_y].
        unfold ion, ionising in Ir. apply filter_In in Ir as [Ir _]. destruct te as [t e]. cbn [fst]. apply in_combine_l in Ir.
        apply (C1 t Ir).
  Qed.

  (** C76: without diffusion the electrons of the cloud are the energy lost by the simulated nuclei over W
      times the gain -- at most, and not less either if the tracks are contained --, up to two electrons per
      row and the Fano fluctuations; each point holds a whole number of electrons.  Binary64 throughout. *)
  Theorem C76_charge momenta vertex zs ms c rng indices g ge cloud labels rng' :
    c_grid fexp c = Some g -> c_edges fexp c = Some ge -> (forall i j, -1 <= gr_cell g i j < 2 ^ 26) ->
    near fexp generate_trajectory momenta vertex c -> draws_ok uniform -> normals_ok ->
    fzero (c_diffusion fexp c) -> is_finite (c_efield fexp c) = true -> R64 (c_efield fexp c) <> 0%R ->
    is_finite (c_drift fexp c) = true ->
    1 <= w <= 2 ^ 53 -> is_finite fano = true -> (0 <= R64 fano <= 1)%R -> 0 <= c_gain fexp c ->
    (forall p nuc track, In p momenta -> generate_trajectory vertex p nuc c = Ok track ->
       usual (mass nuc) w (map t_v track) /\ forall t, In t track -> is_finite (drift_time fexp c (t_z t)) = true) ->
    sim momenta vertex zs ms c rng indices = Ok ((cloud, labels), rng') ->
    exists hs, Forall2 (made momenta vertex zs ms c) (filter (is_charged zs) indices) hs /\
      (let gain := IZR (c_gain fexp c) in
       let charge := sumR (map (fun p => R64 (p_el p)) cloud) in
       gain * (total h_exact hs + total h_slack hs) <= 2 ^ 53 ->
       (forall p, In p cloud -> exists z, (0 <= z <= 2 ^ 53)%Z /\ p_el p = f_of_Z z) /\
       charge <= gain * (total h_exact hs + total h_slack hs) /\
       (Forall (contained g ge c) hs -> gain * (total h_exact hs - total h_slack hs) <= charge))%R.
  Proof.
    intros Hg He Hp Hn Hu HN D Fe Ne Fd Hw Ff Bf Gp Ht H.
    destruct (C17_one_point_per_cell fexp get_data generate_trajectory electrons64 uniform momenta vertex zs ms c rng indices g ge cloud labels rng' Hg He Hp Hn Hu H)
      as (l & rng1 & lds & cells & T & EL & Len & ND & F & _ & Cov).
    destruct (tracks_hist _ _ _ _ _ _ _ _ _ HN T) as (hs & A & B).
    exists hs. split; [exact A|]. cbv zeta. intros Small.
    (* per nucleus *)
    assert (Per : forall h, In h hs ->
      (usual (mass (h_nuc h)) w (map t_v (h_track h)) /\ (forall t, In t (h_track h) -> is_finite (drift_time fexp c (t_z t)) = true)) /\
      length (els_of h) = length (h_track h) /\ (Rabs (IZR (emitted h) - h_exact h) <= h_slack h)%R).
    { intros h I. destruct (forall2_in_r _ _ _ A h I) as (i & Ii & M). 
      pose proof M as (z & a & p & _ & _ & _ & _ & Ep & Et & _).
      assert (Ip : In p momenta) by (eapply py_index_in; exact Ep).
      destruct (Ht p (h_nuc h) (h_track h) Ip Et) as (U & Fin).
      split; [split; assumption|]. eapply emitted_close; eauto. }
    assert (TE := total_emitted hs (fun h I => proj2 (proj2 (Per h I)))). apply Rabs_le_inv in TE.
    assert (Gr : (0 <= IZR (c_gain fexp c))%R) by (apply (IZR_le 0); exact Gp).
    set (Em := sumZ (map emitted hs)) in *.
    assert (UB : (IZR (c_gain fexp c) * IZR Em <= IZR (c_gain fexp c) * (total h_exact hs + total h_slack hs))%R) by (apply Rmult_le_compat_l; lra).
    assert (Small' : c_gain fexp c * Em <= 2 ^ 53).
    { apply le_IZR. rewrite mult_IZR. replace (IZR (2 ^ 53)) with (2 ^ 53)%R by (rewrite pow_IZR; reflexivity). lra. }
    destruct EL as (dss & F2 & ->).
    edestruct (fun A1 => event_sum g ge c hs l dss D Fe Ne Fd Gp A1 Small' B F2) as (S1 & S2 & S3).
    { intros h I. destruct (Per h I) as ((_ & X) & Y & _). split; assumption. }
    cbv zeta in S1, S2, S3. set (lds := concat _) in *.
    assert (Pos : forall d lab, In (d, lab) lds -> 0 <= d_el d) by (intros d lab I; apply (S1 d lab I)).
    set (tot := sumZ (map (fun dl => d_el (fst dl)) lds)) in *. fold Em in S2, S3.
    (* charge of the cloud *)
    assert (Q : sumR (map (fun p => R64 (p_el p)) cloud) = IZR (sumZ (map (fun k => keyed k lds) (map fst cells)))).
    { clear - F Pos S2 Small' Len. revert labels cells F Len. induction cloud as [|p cloud IH]; intros [|b labels] cells F Len; try discriminate.
      - cbn [combine] in F. inversion F; subst. reflexivity.
      - cbn [combine] in F. inversion F as [|cell pl cs rest H1 H2]; subst.
        cbn [map]. rewrite sumR_cons, sumZ_cons, plus_IZR. rewrite (IH labels cs H2 ltac:(cbn in Len; lia)). f_equal.
        destruct cell as [[tb pad] u]. cbn [fst snd] in *. unfold keyed. cbn [fst snd].
        apply (C17_exact_charge lds tb pad u p b H1).
        pose proof (keyed_le (tb, pad) lds Pos) as K. unfold keyed in K. cbn [fst snd] in K. fold tot in K. lia. }
    destruct (sum_keys (map fst cells) lds ND Pos) as (K1 & K2). fold tot in K1, K2.
    split.
    { intros p Ip. destruct (In_nth _ _ p Ip) as (k & Lk & Ek).
      assert (Il : In (p, nth k labels 0) (combine cloud labels)).
      { rewrite <- Ek at 1. rewrite <- combine_nth by exact Len. apply nth_In. rewrite combine_length. lia. }
      destruct (forall2_in_r _ _ _ F _ Il) as ([[tb pad] u] & _ & (_ & Ep & _)). cbn [fst snd] in Ep.
      pose proof (keyed_le (tb, pad) lds Pos) as K. unfold keyed in K. cbn [fst snd] in K. fold tot in K.
      exists (wrap64 (collected tb pad lds)). rewrite Ep. cbn [p_el]. split; [|reflexivity]. rewrite wrap64_id by (unfold two63; lia). lia. }
    rewrite Q. split.
    - apply Rle_trans with (IZR (c_gain fexp c) * IZR Em)%R; [|exact UB]. rewrite <- mult_IZR. apply IZR_le. lia.
    - intros C. rewrite K2.
      + rewrite (S3 C), mult_IZR. apply Rmult_le_compat_l; lra.
      + intros d lab I. destruct (S1 d lab I) as (_ & h & t & Ih & It & Et). rewrite Forall_forall in C.
        destruct (C h Ih t It) as (_ & W). destruct (Cov d lab I (W _ Et)) as (u & Iu).
        apply in_map_iff. exists (d_tb d, d_pad d, u). split; [reflexivity|exact Iu].
  Qed.
End Calor.

(** Telescoping: a nucleus that never gains energy makes, exactly, its whole energy loss over W; otherwise
    at least that. *)
Theorem C76_energy : forall m w p l, (1 <= w)%Z ->
  let lost := (kinetic m p - kinetic m (last l p)) * (10 ^ 6 / IZR w) in
  lost <= sumR (exact_electrons m w (p :: l)) /\
  ((forall i a b, nth_error (p :: l) i = Some a -> nth_error l i = Some b -> kinetic m b <= kinetic m a) ->
     sumR (exact_electrons m w (p :: l)) = lost).
Proof.
  intros m w p l Hw lost. assert (W1 : 1 <= IZR w) by (apply IZR_le; lia).
  assert (K0 : 0 < 10 ^ 6 / IZR w) by (apply Rdiv_lt_0_compat; lra).
  unfold lost, exact_electrons. rewrite sumR_cons.
  set (k := 10 ^ 6 / IZR w) in *. clearbody k.
  assert (A : (kinetic m p - kinetic m (last l p)) * k <= sumR (map (fun e => e * k) (steps m p l)) /\
    ((forall i a b, nth_error (p :: l) i = Some a -> nth_error l i = Some b -> kinetic m b <= kinetic m a) ->
     sumR (map (fun e => e * k) (steps m p l)) = (kinetic m p - kinetic m (last l p)) * k)).
  { clear lost. revert p. induction l as [|a l IH]; intros p; cbn [steps map].
    - cbn. split; [lra|intros _; lra].
    - rewrite sumR_cons. destruct (IH a) as (I1 & I2).
      assert (El : last (a :: l) p = last l a).
      { clear. revert a p. induction l as [|b l IH]; intros a p; [reflexivity|].
        change (last (a :: b :: l) p) with (last (b :: l) p). rewrite !IH. reflexivity. }
      rewrite El. split.
      + assert ((kinetic m p - kinetic m a) * k <= Rabs (kinetic m a - kinetic m p) * k).
        { apply Rmult_le_compat_r; [lra|]. rewrite Rabs_minus_sym. apply Rle_abs. }
        lra.
      + intros D. rewrite I2 by (intros i x y Hx Hy; exact (D (S i) x y Hx Hy)).
        pose proof (D 0%nat p a eq_refl eq_refl). rewrite Rabs_left1 by lra. ring. }
  destruct A as (A1 & A2). split; [lra|]. intros D. rewrite (A2 D). ring.
Qed.

(** ** Example: an alpha particle that turns and slows down above one pad, gain 10, no diffusion. *)
Section Example.
  Context (fexp : f64 -> f64).
  Definition al_row (a b c : Z) : @traj vec64 := mkTraj (f_of_Z 0) (f_of_Z 0) half (mkVec64 (quarters a) (quarters b) (quarters c)).
  Definition al_track : list (@traj vec64) := [al_row 3 0 0; al_row 0 3 0; al_row 1 1 0]%Z.
  Definition al_traj (v : unit) (m n : Z) (c : config fexp) : res (list (@traj vec64)) := Ok al_track.
  Definition al_normals (n : nat) (g : Z) : list f64 * Z := (repeat (f_of_Z 1) n, (g + 1)%Z).
  Definition al_mass (n : Z) : f64 := f_of_Z 3728.
  Definition al_config : config fexp := ex_config fexp (f_of_Z 1) (f_of_ZE 1 (-9)).
  Definition al_sim := simulate fexp (fun z a => Ok (100 * z + a)%Z) al_traj
    (electrons64 fexp al_mass 34 (f_of_Z 0) al_normals) ex_uniform.

  Lemma al_moving : usual (f_of_Z 3728) 34 (map t_v al_track) /\
    lorentz_factor (t_v (al_row 3 0 0)) = 5 / 4 /\ lorentz_factor (t_v (al_row 0 3 0)) = 5 / 4 /\
    106 / 100 <= lorentz_factor (t_v (al_row 1 1 0)) <= 107 / 100.
  Proof.
    assert (Em : R64 (f_of_Z 3728) = 3728) by (apply f_of_Z_R; lia).
    destruct (quarters_R 0 ltac:(lia)) as (E0 & F0). destruct (quarters_R 1 ltac:(lia)) as (E1 & F1).
    destruct (quarters_R 3 ltac:(lia)) as (E3 & F3).
    assert (A1 : momentum2 (t_v (al_row 3 0 0)) = 9 / 16) by (unfold momentum2; cbn [al_row t_v vx64 vy64 vz64]; rewrite E0, E3; lra).
    assert (A2 : momentum2 (t_v (al_row 0 3 0)) = 9 / 16) by (unfold momentum2; cbn [al_row t_v vx64 vy64 vz64]; rewrite E0, E3; lra).
    assert (A3 : momentum2 (t_v (al_row 1 1 0)) = 1 / 8) by (unfold momentum2; cbn [al_row t_v vx64 vy64 vz64]; rewrite E0, E1; lra).
    pose proof (inv_pow_le 4 200 ltac:(lia)) as I4. assert (G4 : 1 <= 2 ^ 200) by (apply pow_R1_Rle; lra).
    assert (SQ : sqrt (25 / 16) = 5 / 4) by (replace (25 / 16) with (5 / 4 * (5 / 4)) by lra; apply sqrt_square; lra).
    assert (L1 : lorentz_factor (t_v (al_row 3 0 0)) = 5 / 4) by (unfold lorentz_factor; rewrite A1, <- SQ; f_equal; lra).
    assert (L2 : lorentz_factor (t_v (al_row 0 3 0)) = 5 / 4) by (unfold lorentz_factor; rewrite A2, <- SQ; f_equal; lra).
    assert (L3 : 106 / 100 <= lorentz_factor (t_v (al_row 1 1 0)) <= 107 / 100).
    { unfold lorentz_factor. rewrite A3. split.
      - replace (106 / 100) with (sqrt (106 / 100 * (106 / 100))) by (apply sqrt_square; lra). apply sqrt_le_1_alt. lra.
      - replace (107 / 100) with (sqrt (107 / 100 * (107 / 100))) by (apply sqrt_square; lra). apply sqrt_le_1_alt. lra. }
    split; [|auto]. split; [apply f_of_Z_fin; lia|]. rewrite Em.
    assert (P100 : 3728 <= 2 ^ 100).
    { apply Rle_trans with (2 ^ 12); [assert (2 ^ 12 = 4096) by ring; lra|apply Rle_pow; [lra|lia]]. }
    split; [lra|]. assert (P40 : 2 ^ 40 = 1099511627776) by ring.
    intros p I. cbn [al_track map] in I. destruct I as [<-|[<-|[<-|[]]]].
    - split; [|rewrite L1; lra]. repeat split; first [exact F3 | exact F0 | rewrite A1; lra].
    - split; [|rewrite L2; lra]. repeat split; first [exact F0 | exact F3 | rewrite A2; lra].
    - split; [|lra]. repeat split; first [exact F1 | exact F0 | rewrite A3; lra].
  Qed.

  Example C76_example : exists cloud labels rng',
    al_sim [0]%Z tt [2]%Z [4]%Z al_config 0%Z [0]%Z = Ok ((cloud, labels), rng') /\
    190000000 <= sumR (map (fun p => R64 (p_el p)) cloud) <= 210000000.
  Proof.
    assert (V : is_ok (al_sim [0]%Z tt [2]%Z [4]%Z al_config 0%Z [0]%Z) = true) by (vm_compute; reflexivity).
    destruct (al_sim [0]%Z tt [2]%Z [4]%Z al_config 0%Z [0]%Z) as [[[cloud labels] rng']|] eqn:E; [|discriminate].
    exists cloud, labels, rng'. split; [reflexivity|].
    destruct al_moving as (U & L1 & L2 & L3).
    assert (Em : R64 (f_of_Z 3728) = 3728) by (apply f_of_Z_R; lia).
    assert (TB : f_to_Z (drift_time fexp al_config half) = Some 256%Z) by (vm_compute; reflexivity).
    destruct (f_to_Z_inv _ _ TB) as (Fin & _).
    assert (Z0 : R64 (f_of_Z 0) = 0) by (apply f_of_Z_R; lia).
    assert (Fe : is_finite (f_of_ZE 1 (-9)) = true) by (apply (f_of_ZE_correct 1 (-9)); lia).
    assert (Tr : forall t, In t al_track -> t_z t = half /\ t_x t = f_of_Z 0 /\ t_y t = f_of_Z 0).
    { intros t [<-|[<-|[<-|[]]]]; repeat split. }
    destruct (C76_charge fexp (fun z a => Ok (100 * z + a)%Z) al_traj al_mass 34 (f_of_Z 0) al_normals ex_uniform
      [0]%Z tt [2]%Z [4]%Z al_config 0%Z [0]%Z (ex_grid 300) (ex_edges fexp) cloud labels rng')
      as (hs & A & B); try reflexivity; try assumption.
    - intros i j. cbn. lia.
    - intros p nuc track t tb _ Et It Hb.
      apply (f_equal (fun r => match r with Ok x => x | _ => [] end)) in Et. cbv beta match delta [al_traj] in Et. subst track.
      rewrite (proj1 (Tr t It)), TB in Hb. assert (tb = 256%Z) by congruence. subst. reflexivity.
    - intros n g. cbn [ex_uniform fst]. split; [apply repeat_length|].
      apply Forall_forall. intros u Hu. apply repeat_spec in Hu as ->. exact half_ok.
    - intros n g. cbn [al_normals fst]. split; [apply repeat_length|].
      apply Forall_forall. intros u Hu. apply repeat_spec in Hu as ->.
      split; [apply f_of_Z_fin; lia|]. rewrite f_of_Z_R by lia. rewrite Rabs_pos_eq; lra.
    - apply f_of_Z_0.
    - change (R64 (f_of_Z 1) <> 0). rewrite f_of_Z_R by lia; lra.
    - lia.
    - rewrite Z0. lra.
    - cbn. lia.
    - intros p nuc track _ Et.
      apply (f_equal (fun r => match r with Ok x => x | _ => [] end)) in Et. cbv beta match delta [al_traj] in Et. subst track.
      split; [exact U|]. intros t It. rewrite (proj1 (Tr t It)). exact Fin.
    - cbn [filter is_charged py_index] in A. 
      change (filter (is_charged [2]%Z) [0]%Z) with [0]%Z in A.
      inversion A as [|? h ? tl M A']; subst. inversion A'; subst. clear A A'.
      destruct M as (z & a & p & _ & _ & _ & _ & _ & Et & Lg & Fg).
      apply (f_equal (fun r => match r with Ok x => x | _ => [] end)) in Et. cbv beta match delta [al_traj] in Et.
      destruct h as [n tr gs]. cbn [h_track h_gs h_nuc] in *. subst tr.
      clear E V. destruct gs as [|g1 [|g2 [|g3 [|? ?]]]]; try discriminate Lg. clear Lg.
      assert (HS : total (h_slack al_mass 34 (f_of_Z 0)) [mkHist n al_track [g1; g2; g3]] = 6).
      { unfold total, h_slack, slacks, exact_of, al_mass. cbn [h_nuc h_track h_gs al_track map exact_electrons steps combine fst snd].
        unfold slack, sumR. cbn [fold_right]. rewrite Z0. rewrite !Rmult_0_l, sqrt_0. lra. }
      assert (HE : total (h_exact al_mass 34) [mkHist n al_track [g1; g2; g3]] = 3728 * (5 / 4 - lorentz_factor (t_v (al_row 1 1 0))) * (10 ^ 6 / 34)).
      { unfold total, h_exact, exact_of, al_mass. cbn [h_nuc h_track map]. unfold sumR at 1. cbn [fold_right]. rewrite Em.
        cbn [al_track map].
        destruct (C76_energy 3728 34 (t_v (al_row 3 0 0)) [t_v (al_row 0 3 0); t_v (al_row 1 1 0)] ltac:(lia)) as (_ & Q).
        rewrite Q.
        - cbn [last]. unfold kinetic. rewrite L1. ring.
        - intros i x y Hx Hy. destruct i as [|[|[|i]]]; cbn [nth_error] in Hx, Hy; try discriminate.
          + assert (x = t_v (al_row 3 0 0)) by congruence. assert (y = t_v (al_row 0 3 0)) by congruence. subst x y.
            unfold kinetic. rewrite L1, L2. lra.
          + assert (x = t_v (al_row 0 3 0)) by congruence. assert (y = t_v (al_row 1 1 0)) by congruence. subst x y.
            unfold kinetic. rewrite L2. lra. }
      cbv zeta in B. rewrite HS, HE in B. change (IZR (c_gain fexp al_config)) with 10 in B.
      assert (P53 : 2 ^ 53 = 9007199254740992) by ring.
      set (L := lorentz_factor (t_v (al_row 1 1 0))) in *. clearbody L.
      replace (10 ^ 6 / 34) with (500000 / 17) in B by (simpl; lra).
      replace (3728 * (5 / 4 - L) * (500000 / 17)) with (5 / 4 * (1864000000 / 17) - L * (1864000000 / 17)) in B by lra.
      destruct B as (_ & B1 & B2); [lra|]. split; [|lra].
      assert (Cn : Forall (contained fexp (ex_grid 300) (ex_edges fexp) al_config) [mkHist n al_track [g1; g2; g3]]).
      { constructor; [|constructor]. intros t It. cbn [h_track] in It. destruct (Tr t It) as (Tz & Tx & Ty). rewrite Tz, Tx, Ty. split.
        - exists 300%Z. exists 0%Z, 0%Z. split; [vm_compute; reflexivity|]. split; [lia|]. split; [lia|]. split; [reflexivity|]. split; [lia|].
          intros I. apply (proj2 (Bool.not_true_iff_false (existsb (Z.eqb 300) BEAM_PADS))); [vm_compute; reflexivity|].
          apply existsb_exists. exists 300%Z. split; [exact I|reflexivity].
        - intros tb Hb. rewrite TB in Hb. assert (tb = 256%Z) by congruence. lia. }
      specialize (B2 Cn). lra.
  Qed.
End Example.

Print Assumptions C76_charge.
Print Assumptions C76_energy.
