(** P_Bias.v -- C102: the number of electrons of a track, averaged over the draws of the generator. *)
From Coq Require Import ZArith Reals Lia Lra List Permutation.
From Flocq Require Import Core BinarySingleNaN.
From Verif Require Import Base F64 F64Bounds Num Pairing PairingProofs BeamPads Transporter
  SpecTransport TransportProofs Simulator SpecSim SimulatorProofs TransportF64 P_TransportF64 P_Simulator
  P_KinF64 ElectronsF64 P_ElectronsF64 P_Complete P_Calor P_Rejection.
Import ListNotations.
Local Open Scope R_scope.

(** ** Specification *)
(** Electrons of a track that go into the gas transport (solver.py 342-345, 387-389): rows with at least one. *)
Definition track_electrons (m : f64) (w : Z) (fano : f64) (track : list vec64) (gs : list f64) : Z :=
  sumZ (filter (fun e => (1 <=? e)%Z) (converted (counts64 fano (means64 m w track) gs))).
(** A finite set of draws (repeated entries: larger weights) that is the same with all signs changed. *)
Definition neg (g : f64) : f64 := @Bopp prec64 emax64 g.
Definition symmetric (draws : list f64) : Prop := Permutation draws (map neg draws).
Definition average {A} (f : A -> R) (l : list A) : R := sumR (map f l) / INR (length l).
(** Nucleus, W and track with at most 2^36 electrons' worth of total energy. *)
Definition ordinary (m : f64) (w : Z) (l : list vec64) : Prop :=
  is_finite m = true /\ 1 <= R64 m <= 2 ^ 100 /\ (1 <= w <= 2 ^ 53)%Z /\
  forall p, In p l -> moving p /\ R64 m * lorentz_factor p * (10 ^ 6 / IZR w) <= 2 ^ 36.
Definition drawn (g : f64) : Prop := is_finite g = true /\ Rabs (R64 g) <= 16.

(** ** One row *)
Lemma mean_close m w l i e x : ordinary m w l ->
  nth_error (means64 m w l) i = Some e -> nth_error (exact_electrons (R64 m) w l) i = Some x ->
  is_finite e = true /\ 0 <= R64 e /\ Rabs (R64 e - x) <= / 2 ^ 11 /\ 0 <= x <= 2 ^ 36.
Proof.
  intros (Fm & Bm & Hw & H) He Hx.
  assert (W1 : 1 <= IZR w) by (apply IZR_le; lia).
  assert (K0 : 0 < 10 ^ 6 / IZR w) by (apply Rdiv_lt_0_compat; lra).
  set (T := 2 ^ 36 * (IZR w / 10 ^ 6)).
  assert (TK : T * (10 ^ 6 / IZR w) = 2 ^ 36) by (unfold T; field; lra).
  assert (HT : forall p, In p l -> moving p /\ R64 m * lorentz_factor p <= T).
  { intros p I. destruct (H p I) as (M & L). split; [exact M|].
    apply Rmult_le_reg_r with (10 ^ 6 / IZR w); [exact K0|]. rewrite TK. exact L. }
  assert (W2 : IZR w <= 2 ^ 53). { replace (2 ^ 53) with (IZR (2 ^ 53)) by (rewrite pow_IZR; reflexivity). apply IZR_le. lia. }
  assert (TB : T <= 2 ^ 250).
  { apply Rle_trans with (2 ^ 36 * 2 ^ 53).
    - unfold T. apply Rmult_le_compat_l; [lra|]. lra.
    - rewrite <- pow_add. apply Rle_pow; [lra|lia]. }
  destruct i as [|i].
  - destruct l as [|p l]; [discriminate|].
    destruct (C75_means m w (p :: l) T 0%nat Fm Bm Hw HT TB ltac:(congruence)) as (e' & E & F & Z).
    assert (e' = e) by congruence. subst e'. cbn [exact_electrons nth_error] in Hx. assert (x = 0) by congruence. subst x.
    rewrite Z. split; [exact F|]. split; [lra|]. split; [|lra]. rewrite Rminus_0_r, Rabs_R0. pose proof (ip 11). lra.
  - assert (Li : (S i < length l)%nat).
    { rewrite <- (exact_length (R64 m) w l). apply nth_error_Some. congruence. }
    destruct (nth_error l i) as [p|] eqn:Ep; [|apply nth_error_None in Ep; lia].
    destruct (nth_error l (S i)) as [p'|] eqn:Ep'; [|apply nth_error_None in Ep'; lia].
    destruct (C75_means m w l T (S i) Fm Bm Hw HT TB p p' Ep Ep') as (e' & E & F & P & B).
    assert (e' = e) by congruence. subst e'.
    assert (Ex : x = Rabs (kinetic (R64 m) p' - kinetic (R64 m) p) * (10 ^ 6 / IZR w)).
    { destruct l as [|p0 l]; [discriminate|]. cbn [exact_electrons nth_error] in Hx, Ep'. rewrite nth_error_map in Hx.
      rewrite (steps_nth (R64 m) l p0 i p p' Ep Ep') in Hx. cbn [option_map] in Hx. congruence. }
    split; [exact F|]. split; [exact P|]. rewrite <- Ex, TK in B. split.
    { replace (/ 2 ^ 47 * 2 ^ 36) with (/ 2 ^ 11) in B; [exact B|].
      replace (2 ^ 47) with (2 ^ 11 * 2 ^ 36) by (rewrite <- pow_add; reflexivity).
      assert (2 ^ 36 <> 0) by (apply pow_nonzero; lra). assert (2 ^ 11 <> 0) by (apply pow_nonzero; lra). field; auto. }
    destruct (HT p (nth_error_In _ _ Ep)) as (_ & T1). destruct (HT p' (nth_error_In _ _ Ep')) as (_ & T2).
    pose proof (lorentz_ge1 p) as G1. pose proof (lorentz_ge1 p') as G2.
    assert (KE : Rabs (kinetic (R64 m) p' - kinetic (R64 m) p) <= T).
    { unfold kinetic. apply Rabs_le. assert (1 * 1 <= R64 m * lorentz_factor p) by (apply Rmult_le_compat; lra).
      assert (R64 m * 1 <= R64 m * lorentz_factor p) by (apply Rmult_le_compat_l; lra).
      assert (R64 m * 1 <= R64 m * lorentz_factor p') by (apply Rmult_le_compat_l; lra). lra. }
    rewrite Ex. split; [apply Rmult_le_pos; [apply Rabs_pos|lra]|]. rewrite <- TK. apply Rmult_le_compat_r; lra.
Qed.

Lemma trunc_near y d : 0 <= d < 1 -> - d <= y -> (0 <= Ztrunc y)%Z /\ y - 1 < IZR (Ztrunc y) <= y + d.
Proof.
  intros Hd Hy. unfold Ztrunc. destruct (Rlt_bool_spec y 0) as [H|H].
  - replace (Zceil y) with 0%Z; [split; [lia|lra]|]. symmetry. apply Zceil_imp. cbn [Z.sub Z.add Z.opp]. lra.
  - pose proof (Zfloor_lb y). pose proof (Zfloor_ub y). split; [|lra].
    apply Zfloor_lub. exact H.
Qed.
Lemma trunc_small y : -1 < y < 1 -> Ztrunc y = 0%Z.
Proof.
  intros H. unfold Ztrunc. destruct (Rlt_bool_spec y 0).
  - apply Zceil_imp. cbn [Z.sub Z.add Z.opp]. lra.
  - apply Zfloor_imp. cbn [Z.add]. lra.
Qed.

Section Row.
  Context (fano : f64) (Ff : is_finite fano = true) (Bf : 0 <= R64 fano <= 1).

  (** Enough electrons for the draw [g]: the fluctuation cannot take away more than there are. *)
  Lemma row_above e x g : is_finite e = true -> 0 <= R64 e -> Rabs (R64 e - x) <= / 2 ^ 11 -> 0 <= x <= 2 ^ 36 -> drawn g ->
    R64 fano * (R64 g * R64 g) + 1 <= x ->
    exists z y, count64 fano e g = Some z /\ (0 <= z)%Z /\ y - 1 <= IZR z <= y + / 2 ^ 12 /\
      Rabs (y - (R64 e + sqrt (R64 fano * R64 e) * R64 g)) <= / 2 ^ 12.
  Proof using Ff Bf.
    intros Fe Pe Be Bx (Fg & Bg) A. apply Rabs_le_inv in Be.
    assert (P36 : 2 ^ 36 = 68719476736) by ring. assert (P50 : 2 ^ 50 = 1125899906842624) by ring.
    assert (P11 : / 2 ^ 11 = / 2048) by (f_equal; ring). assert (P12 : / 2 ^ 12 = / 4096) by (f_equal; ring). rewrite P11 in Be. rewrite P12.
    destruct (C75_counts fano e g Ff Fe Fg Bf ltac:(lra) ltac:(lra)) as (y & Y & By).
    exists (Ztrunc y), y. split; [exact Y|].
    set (sq := sqrt (R64 fano * R64 e)) in *.
    assert (S0 : 0 <= sq) by apply sqrt_pos.
    assert (Q0 : 0 <= R64 fano * R64 e) by (apply Rmult_le_pos; lra).
    assert (S1 : sq * Rabs (R64 g) <= R64 e).
    { apply Rsqr_incr_0_var; [|exact Pe]. unfold Rsqr.
      replace (sq * Rabs (R64 g) * (sq * Rabs (R64 g))) with ((sq * sq) * (Rabs (R64 g) * Rabs (R64 g))) by ring.
      unfold sq. rewrite sqrt_sqrt by exact Q0. rewrite <- Rabs_mult, (Rabs_pos_eq (R64 g * R64 g)) by nra.
      assert (R64 fano * (R64 g * R64 g) * R64 e <= R64 e * R64 e) by (apply Rmult_le_compat_r; lra). lra. }
    pose proof (Rabs_pos (R64 g)) as G0.
    assert (S5 : Rabs (sq * R64 g) <= sq * Rabs (R64 g)) by (rewrite Rabs_mult, (Rabs_pos_eq sq) by lra; lra).
    apply Rabs_le_inv in S5.
    assert (E50 : / 2 ^ 50 * (R64 e + sq * Rabs (R64 g)) <= / 2 ^ 50 * 140000000000).
    { apply Rmult_le_compat_l; [pose proof (ip 50); lra|lra]. }
    rewrite P50 in E50. rewrite P50 in By.
    pose proof (inv_pow_le 20 400 ltac:(lia)) as I400. assert (P20 : / 2 ^ 20 = / 1048576) by (f_equal; ring). rewrite P20 in I400.
    assert (B2 : Rabs (y - (R64 e + sq * R64 g)) <= / 4096) by lra.
    pose proof (Rabs_le_inv _ _ B2) as B3.
    destruct (trunc_near y (/ 4096) ltac:(lra) ltac:(lra)) as (Z0 & Z1). split; [exact Z0|]. split; [lra|exact B2].
  Qed.

  (** A row with (exactly) no loss makes no electrons. *)
  Lemma row_silent e x g : is_finite e = true -> 0 <= R64 e -> Rabs (R64 e - x) <= / 2 ^ 11 -> 0 <= x -> drawn g ->
    x + sqrt (R64 fano * (x + / 2 ^ 11)) * Rabs (R64 g) <= 1 - / 2 ^ 10 -> count64 fano e g = Some 0%Z.
  Proof using Ff Bf.
    intros Fe Pe Be Bx (Fg & Bg) A. apply Rabs_le_inv in Be.
    assert (P50 : 2 ^ 50 = 1125899906842624) by ring.
    assert (P11 : / 2 ^ 11 = / 2048) by (f_equal; ring). assert (P10 : / 2 ^ 10 = / 1024) by (f_equal; ring). rewrite P11 in *. rewrite P10 in A.
    pose proof (Rabs_pos (R64 g)) as G0.
    assert (T0 : 0 <= sqrt (R64 fano * (x + / 2048)) * Rabs (R64 g)) by (apply Rmult_le_pos; [apply sqrt_pos|exact G0]).
    destruct (C75_counts fano e g Ff Fe Fg Bf ltac:(lra) ltac:(lra)) as (y & Y & By). rewrite Y. f_equal. apply trunc_small.
    set (sq := sqrt (R64 fano * R64 e)) in *.
    assert (S0 : 0 <= sq) by apply sqrt_pos.
    assert (S1 : sq * Rabs (R64 g) <= sqrt (R64 fano * (x + / 2048)) * Rabs (R64 g)).
    { apply Rmult_le_compat_r; [exact G0|]. apply sqrt_le_1_alt. apply Rmult_le_compat_l; lra. }
    assert (S5 : Rabs (sq * R64 g) <= sq * Rabs (R64 g)) by (rewrite Rabs_mult, (Rabs_pos_eq sq) by lra; lra).
    apply Rabs_le_inv in S5.
    assert (E50 : / 2 ^ 50 * (R64 e + sq * Rabs (R64 g)) <= / 2 ^ 50 * 2) by (apply Rmult_le_compat_l; [pose proof (ip 50); lra|lra]).
    rewrite P50 in E50, By.
    pose proof (inv_pow_le 20 400 ltac:(lia)) as I400. assert (P20 : / 2 ^ 20 = / 1048576) by (f_equal; ring). rewrite P20 in I400.
    apply Rabs_le_inv in By. lra.
  Qed.
  Lemma row_zero e g : is_finite e = true -> 0 <= R64 e -> Rabs (R64 e) <= / 2 ^ 11 -> drawn g -> count64 fano e g = Some 0%Z.
  Proof using Ff Bf.
    intros Fe Pe Be Dg. apply (row_silent e 0 g Fe Pe); [now rewrite Rminus_0_r|lra|exact Dg|].
    destruct Dg as (_ & Bg). pose proof (Rabs_pos (R64 g)) as G0.
    assert (S : sqrt (R64 fano * (0 + / 2 ^ 11)) <= / 2 ^ 5).
    { rewrite <- (sqrt_inv_pow 5). apply sqrt_le_1_alt. cbn [Nat.add]. pose proof (inv_pow_le 10 11 ltac:(lia)). pose proof (ip 11).
      assert (R64 fano * (0 + / 2 ^ 11) <= 1 * / 2 ^ 11) by (apply Rmult_le_compat; lra). lra. }
    pose proof (sqrt_pos (R64 fano * (0 + / 2 ^ 11))).
    assert (sqrt (R64 fano * (0 + / 2 ^ 11)) * Rabs (R64 g) <= / 2 ^ 5 * 16) by (apply Rmult_le_compat; lra).
    assert (/ 2 ^ 5 = / 32) by (f_equal; ring). assert (/ 2 ^ 10 = / 1024) by (f_equal; ring). lra.
  Qed.
End Row.

(** ** Sums over the draws *)
Lemma sumR_perm l l' : Permutation l l' -> sumR l = sumR l'.
Proof. induction 1; cbn [sumR fold_right] in *; unfold sumR in *; cbn [fold_right] in *; lra. Qed.
Lemma sumR_plus {A} (f g : A -> R) l : sumR (map (fun a => f a + g a) l) = sumR (map f l) + sumR (map g l).
Proof. induction l as [|a l IH]; cbn [map]; [cbn; lra|]. rewrite !sumR_cons, IH. lra. Qed.
Lemma sumR_bounds {A} (f : A -> R) lo hi l : (forall a, In a l -> lo <= f a <= hi) ->
  INR (length l) * lo <= sumR (map f l) <= INR (length l) * hi.
Proof.
  induction l as [|a l IH]; intros H; [cbn; lra|]. cbn [map]. rewrite sumR_cons. change (length (a :: l)) with (S (length l)). rewrite S_INR.
  pose proof (H a (or_introl eq_refl)). assert (forall b, In b l -> lo <= f b <= hi) as H' by (intros b I; apply H; now right). apply IH in H'. lra.
Qed.
Lemma sumR_pairs (f : f64 -> R) lo hi draws : symmetric draws -> (forall g, In g draws -> 2 * lo <= f g + f (neg g) <= 2 * hi) ->
  INR (length draws) * lo <= sumR (map f draws) <= INR (length draws) * hi.
Proof.
  intros S H.
  assert (B : INR (length draws) * (2 * lo) <= sumR (map f draws) + sumR (map (fun g => f (neg g)) draws) <= INR (length draws) * (2 * hi)).
  { pose proof (sumR_plus f (fun g => f (neg g)) draws) as P. rewrite <- P. apply sumR_bounds. exact H. }
  assert (Q : sumR (map (fun g => f (neg g)) draws) = sumR (map f draws)).
  { rewrite <- (map_map neg f). symmetry. apply sumR_perm, Permutation_map, S. }
  rewrite Q in B. lra.
Qed.

Lemma words_cons_sum (draws : list f64) (f : list f64 -> R) n :
  sumR (map f (words draws (S n))) = sumR (map (fun g => sumR (map (fun gs => f (g :: gs)) (words draws n))) draws).
Proof.
  cbn [words]. generalize (words draws n) as ws. intros ws. induction draws as [|g draws IH]; [reflexivity|].
  cbn [flat_map map]. rewrite map_app, P_Calor.sumR_app, IH, map_map, sumR_cons. reflexivity.
Qed.
Lemma sumR_const {A} (c : R) (l : list A) : sumR (map (fun _ => c) l) = INR (length l) * c.
Proof. induction l as [|a l IH]; [cbn; lra|]. cbn [map]. rewrite sumR_cons, IH. change (length (a :: l)) with (S (length l)). rewrite S_INR. lra. Qed.
Lemma sumR_scale {A} (c : R) (f : A -> R) l : sumR (map (fun a => c * f a) l) = c * sumR (map f l).
Proof. induction l as [|a l IH]; [cbn; lra|]. cbn [map]. rewrite !sumR_cons, IH. lra. Qed.
Lemma words_count (draws : list f64) n : INR (length (words draws n)) = INR (length draws) ^ n.
Proof.
  induction n as [|n IH]; [cbn; lra|]. cbn [words pow]. rewrite <- IH. generalize (words draws n) as ws. intros ws. clear IH.
  induction draws as [|g draws IH]; [cbn; lra|]. cbn [flat_map]. rewrite app_length, map_length, plus_INR, IH.
  change (length (g :: draws)) with (S (length draws)). rewrite S_INR. lra.
Qed.

(** One function of the draw per row; its average over the draws bounded row by row. *)
Lemma rows_sum (draws : list f64) eps : forall (xs : list R) (cs : list (f64 -> R)),
  Forall2 (fun x c => INR (length draws) * (x - 1 - eps) <= sumR (map c draws) <= INR (length draws) * (x + eps)) xs cs ->
  let n := length cs in
  let S := sumR (map (fun gs => sumR (map (fun cg => fst cg (snd cg)) (combine cs gs))) (words draws n)) in
  INR (length draws) ^ n * (sumR xs - INR n * (1 + eps)) <= S <= INR (length draws) ^ n * (sumR xs + INR n * eps).
Proof.
  intros xs cs F. induction F as [|x c xs cs H F IH]; cbv zeta in *.
  - cbn. lra.
  - change (length (c :: cs)) with (S (length cs)). rewrite words_cons_sum.
    rewrite (map_ext _ (fun g => INR (length (words draws (length cs))) * c g +
       sumR (map (fun gs => sumR (map (fun cg => fst cg (snd cg)) (combine cs gs))) (words draws (length cs))))).
    + rewrite sumR_plus, sumR_scale, sumR_const, words_count. rewrite sumR_cons, S_INR.
      set (D := INR (length draws)) in *. assert (D0 : 0 <= D) by apply pos_INR. cbn [pow].
      set (n := length cs) in *. set (SS := sumR (map _ (words draws n))) in *. set (C := sumR (map c draws)) in *.
      assert (P0 : 0 <= D ^ n) by (apply pow_le; exact D0).
      assert (A1 : D ^ n * (D * (x - 1 - eps)) <= D ^ n * C) by (apply Rmult_le_compat_l; [exact P0|apply H]).
      assert (A2 : D ^ n * C <= D ^ n * (D * (x + eps))) by (apply Rmult_le_compat_l; [exact P0|apply H]).
      assert (B1 : D * (D ^ n * (sumR xs - INR n * (1 + eps))) <= D * SS) by (apply Rmult_le_compat_l; [exact D0|apply IH]).
      assert (B2 : D * SS <= D * (D ^ n * (sumR xs + INR n * eps))) by (apply Rmult_le_compat_l; [exact D0|apply IH]). lra.
    + intros g. cbn [combine map fst snd].
      rewrite (map_ext _ (fun gs => c g + sumR (map (fun cg => fst cg (snd cg)) (combine cs gs)))) by (intros; apply sumR_cons).
      rewrite sumR_plus, sumR_const. lra.
Qed.

(** ** The theorems *)
Section Track.
  Context (m : f64) (w : Z) (fano : f64) (l : list vec64).
  Context (Or : ordinary m w l) (Ff : is_finite fano = true) (Bf : 0 <= R64 fano <= 1).
  Notation exact := (exact_electrons (R64 m) w l).

  Definition entry (e g : f64) : R := match count64 fano e g with Some z => IZR z | None => 0 end.

  (** All entries are whole, none is negative: the electrons are the sum of the entries. *)
  Lemma electrons_sum gs : length gs = length l ->
    (forall e g, In (e, g) (combine (means64 m w l) gs) -> exists z, count64 fano e g = Some z /\ (0 <= z)%Z) ->
    IZR (track_electrons m w fano l gs) = sumR (map (fun cg => fst cg (snd cg)) (combine (map entry (means64 m w l)) gs)).
  Proof using Type.
    intros L H. unfold track_electrons, counts64. rewrite <- (means_length m w l) in L. revert gs L H. generalize (means64 m w l) as ms.
    intros ms gs L H.
    assert (G : exists zs, map (fun mg => count64 fano (fst mg) (snd mg)) (combine ms gs) = map Some zs /\
       IZR (sumZ (filter (fun e => (1 <=? e)%Z) zs)) = sumR (map (fun cg => fst cg (snd cg)) (combine (map entry ms) gs))).
    { revert gs L H. induction ms as [|e ms IH]; intros [|g gs] L H; try discriminate L.
      - exists []. split; reflexivity.
      - destruct (IH gs ltac:(cbn in L; lia) (fun e' g' I => H e' g' (or_intror I))) as (zs & E & S).
        destruct (H e g (or_introl eq_refl)) as (z & Ez & Z0). exists (z :: zs). cbn [combine map fst snd]. rewrite Ez, E. split; [reflexivity|].
        rewrite sumR_cons, <- S. replace (entry e g) with (IZR z) by (unfold entry; now rewrite Ez). rewrite <- plus_IZR. f_equal. cbn [filter].
        destruct (Z.leb_spec 1 z); [now rewrite sumZ_cons|lia]. }
    destruct G as (zs & E & S). rewrite E, converted_some. exact S.
  Qed.

  (** C102: averaged over symmetric draws, a track makes between the energy lost over W less one electron per
      row, and that number itself: truncation takes electrons away and the fluctuations do not restore them. *)
  Theorem C102_average draws : draws <> [] -> symmetric draws -> Forall drawn draws ->
    (forall x g, In x exact -> In g draws -> x = 0 \/ R64 fano * (R64 g * R64 g) + 1 <= x) ->
    let mean := average (fun gs => IZR (track_electrons m w fano l gs)) (words draws (length l)) in
    sumR exact - INR (length l) * (1 + / 2 ^ 10) <= mean <= sumR exact + INR (length l) * / 2 ^ 10.
  Proof using Or Ff Bf.
    intros ND Sy Fd H mean. rewrite Forall_forall in Fd.
    assert (Row : forall i e x g, nth_error (means64 m w l) i = Some e -> nth_error exact i = Some x -> In g draws ->
      exists z, count64 fano e g = Some z /\ (0 <= z)%Z /\
        exists z', count64 fano e (neg g) = Some z' /\ 2 * (x - 1 - / 2 ^ 10) <= IZR z + IZR z' <= 2 * (x + / 2 ^ 10)).
    { intros i e x g He Hx Ig. destruct (mean_close m w l i e x Or He Hx) as (Fe & Pe & Be & Bx).
      assert (Ig' : In (neg g) draws) by (eapply Permutation_in; [apply Permutation_sym, Sy|apply in_map, Ig]).
      assert (P10 : / 2 ^ 10 = / 1024) by (f_equal; ring). assert (P11 : / 2 ^ 11 = / 2048) by (f_equal; ring). assert (P12 : / 2 ^ 12 = / 4096) by (f_equal; ring).
      destruct (H x g (nth_error_In _ _ Hx) Ig) as [->|A].
      - rewrite Rminus_0_r in Be. exists 0%Z. split; [now apply row_zero; [..|apply Fd]|]. split; [lia|].
        exists 0%Z. split; [now apply row_zero; [..|apply Fd]|]. rewrite P10. lra.
      - destruct (row_above fano Ff Bf e x g Fe Pe Be Bx (Fd g Ig) A) as (z & y & Z & Z0 & Zy & Y).
        assert (A' : R64 fano * (R64 (neg g) * R64 (neg g)) + 1 <= x) by (unfold neg; rewrite B2R_Bopp; lra).
        destruct (row_above fano Ff Bf e x _ Fe Pe Be Bx (Fd _ Ig') A') as (z' & y' & Z' & Z0' & Zy' & Y'). unfold neg in Y'; rewrite B2R_Bopp in Y'.
        exists z. split; [exact Z|]. split; [exact Z0|]. exists z'. split; [exact Z'|].
        apply Rabs_le_inv in Y. apply Rabs_le_inv in Y'. apply Rabs_le_inv in Be. rewrite P12 in *. rewrite P11 in Be. rewrite P10. lra. }
    assert (LM : length (means64 m w l) = length exact) by (rewrite means_length, exact_length; reflexivity).
    assert (F2 : Forall2 (fun x c => INR (length draws) * (x - 1 - / 2 ^ 10) <= sumR (map c draws) <= INR (length draws) * (x + / 2 ^ 10))
                   exact (map entry (means64 m w l))).
    { clear - Row LM Sy. revert Row LM. generalize exact as xs. generalize (means64 m w l) as ms.
      induction ms as [|e ms IH]; intros [|x xs] Row LM; try discriminate LM; cbn [map]; constructor.
      - apply sumR_pairs; [exact Sy|]. intros g Ig. destruct (Row 0%nat e x g eq_refl eq_refl Ig) as (z & Z & _ & z' & Z' & B).
        unfold entry. rewrite Z, Z'. exact B.
      - apply IH; [intros i; exact (Row (S i))|]. cbn [length] in LM. lia. }
    apply rows_sum in F2. cbv zeta in F2. rewrite map_length, means_length in F2.
    assert (Q : map (fun gs => IZR (track_electrons m w fano l gs)) (words draws (length l)) =
                map (fun gs => sumR (map (fun cg => fst cg (snd cg)) (combine (map entry (means64 m w l)) gs))) (words draws (length l))).
    { apply map_ext_in. intros gs I. apply electrons_sum; [now apply (words_length draws)|].
      intros e g Ieg. apply (In_nth_error) in Ieg as (i & Ei).
      assert (Ee : nth_error (means64 m w l) i = Some e /\ nth_error gs i = Some g).
      { clear - Ei. revert gs i Ei. generalize (means64 m w l) as ms. induction ms as [|a ms IH]; intros [|b gs] [|i] Ei; try discriminate Ei.
        - cbn [combine nth_error] in Ei. split; cbn [nth_error]; congruence.
        - exact (IH gs i Ei). }
      destruct Ee as [Ee Eg]. destruct (nth_error exact i) as [x|] eqn:Ex.
      - assert (Ig : In g draws).
        { apply nth_error_In in Eg. clear - I Eg. revert gs I Eg. generalize (length l) as n. induction n as [|n IH]; intros gs I Eg; cbn [words] in I.
          - destruct I as [<-|[]]. destruct Eg.
          - apply in_flat_map in I as (a & Ia & I). apply in_map_iff in I as (gs' & <- & I). destruct Eg as [<-|Eg]; [exact Ia|exact (IH gs' I Eg)]. }
        destruct (Row i e x g Ee Ex Ig) as (z & Z & Z0 & _). eauto.
      - exfalso. apply nth_error_None in Ex. assert (i < length (means64 m w l))%nat by (apply nth_error_Some; congruence). lia. }
    unfold mean, average. rewrite Q, words_count.
    assert (D0 : 0 < INR (length draws) ^ length l).
    { apply pow_lt. apply lt_0_INR. destruct draws; [congruence|cbn; lia]. }
    set (N := INR (length draws) ^ length l) in *. set (S := sumR (map _ _)) in *.
    split; apply Rmult_le_reg_l with N; try exact D0; replace (N * (S / N)) with S by (field; lra); apply F2.
  Qed.

  (** C102: rows that lose too little make no electrons at all, whatever is lost in all of them together. *)
  Theorem C102_silent gs : length gs = length l -> Forall drawn gs ->
    (forall x g, In x exact -> In g gs -> x + sqrt (R64 fano * (x + / 2 ^ 11)) * Rabs (R64 g) <= 1 - / 2 ^ 10) ->
    track_electrons m w fano l gs = 0%Z.
  Proof using Or Ff Bf.
    intros L F H. rewrite Forall_forall in F. apply eq_IZR.
    assert (Z0 : forall e g, In (e, g) (combine (means64 m w l) gs) -> count64 fano e g = Some 0%Z).
    { intros e g I. pose proof (in_combine_r _ _ _ _ I) as Ig. apply in_combine_l in I. apply In_nth_error in I as (i & Ei).
      assert (Li : (i < length exact)%nat) by (rewrite exact_length, <- (means_length m w l); apply nth_error_Some; congruence).
      destruct (nth_error exact i) as [x|] eqn:Ex; [|apply nth_error_None in Ex; lia].
      destruct (mean_close m w l i e x Or Ei Ex) as (Fe & Pe & Be & Bx).
      apply (row_silent fano Ff Bf e x g Fe Pe Be (proj1 Bx) (F g Ig)). exact (H x g (nth_error_In _ _ Ex) Ig). }
    rewrite electrons_sum; [|exact L|intros e g I; exists 0%Z; split; [now apply Z0|lia]].
    clear - Z0. revert gs Z0. generalize (means64 m w l) as ms. induction ms as [|e ms IH]; intros [|g gs] Z0; try reflexivity.
    cbn [map combine fst snd]. rewrite sumR_cons, IH by (intros; apply Z0; now right).
    unfold entry. rewrite (Z0 e g (or_introl eq_refl)). lra.
  Qed.
End Track.

(** ** In the cloud *)
Section Cloud.
  Local Open Scope Z_scope.
  Context (fexp : f64 -> f64) {G Nuc Mom Vtx : Type}.
  Context (get_data : Z -> Z -> res Nuc)
    (generate_trajectory : Vtx -> Mom -> Nuc -> config fexp -> res (list (@traj vec64)))
    (mass : Nuc -> f64) (w : Z) (fano : f64)
    (normals : nat -> G -> list f64 * G) (uniform : nat -> G -> list f64 * G).
  Notation sim := (simulate fexp get_data generate_trajectory (electrons64 fexp mass w fano normals) uniform).
  Definition h_electrons (h : history) : Z := track_electrons (mass (h_nuc h)) w fano (map t_v (h_track h)) (h_gs h).

  Lemma h_electrons_emitted (h : history) : length (els_of mass w fano h) = length (h_track h) ->
    h_electrons h = emitted mass w fano h.
  Proof using Type. intros L. unfold h_electrons, track_electrons, emitted. rewrite emitted_filter by exact L. reflexivity. Qed.

  (** The standard normal numbers drawn for arrays of the given lengths, one array after the other. *)
  Fixpoint blocks (ns : list nat) (rng : G) : list (list f64) :=
    match ns with [] => [] | n :: ns' => let '(gs, rng') := normals n rng in gs :: blocks ns' rng' end.
  Lemma tracks_blocks momenta vertex zs ms c indices rng l rng1 : normals_ok normals ->
    tracks fexp get_data generate_trajectory (electrons64 fexp mass w fano normals) momenta vertex zs ms c indices rng l rng1 ->
    exists hs, Forall2 (made fexp get_data generate_trajectory momenta vertex zs ms c) (filter (is_charged zs) indices) hs /\
      Forall2 (fun h t => exists i, t = ionises fexp c i (h_track h) (els_of mass w fano h)) hs l /\
      map h_gs hs = blocks (map (fun h => length (h_track h)) hs) rng.
  Proof using Type.
    intros N T. induction T as [g|i rest g l g' Z T IH|i rest g z a nuc p track els g1 l g' Ez Nz Ea En Ep Et Ee Le T IH].
    - exists []. repeat split; constructor.
    - destruct IH as (hs & A & B). exists hs. split; [|exact B]. cbn [filter].
      unfold is_charged at 1. rewrite Z. exact A.
    - destruct IH as (hs & A & B & C). unfold electrons64 in Ee.
      destruct (normals (length track) g) as [gs g2] eqn:E.
      destruct (N (length track) g) as (Lg & Fg). rewrite E in Lg, Fg. cbn [fst] in Lg, Fg.
      pose proof (f_equal snd Ee) as Es. cbn [snd] in Es. subst g1. apply (f_equal fst) in Ee. cbn [fst] in Ee.
      exists (mkHist nuc track gs :: hs). split; [|split].
      + cbn [filter]. unfold is_charged at 1. rewrite Ez. replace (negb (z =? 0)%Z) with true by (symmetry; apply Bool.negb_true_iff; lia).
        constructor; [|exact A]. exists z, a, p. cbn [h_nuc h_track h_gs]. repeat split; assumption.
      + constructor; [|exact B]. exists i. unfold els_of. cbn [h_nuc h_track h_gs]. now rewrite Ee.
      + cbn [map h_gs h_track blocks]. rewrite E. now rewrite C.
  Qed.

  (** C102: without diffusion the cloud holds exactly the gain times these electrons if the tracks are
      contained, and never more; the draws are those of the generator, track after track. *)
  Theorem C102_cloud momenta vertex zs ms c rng indices g ge cloud labels rng' :
    c_grid fexp c = Some g -> c_edges fexp c = Some ge -> (forall i j, -1 <= gr_cell g i j < 2 ^ 26) ->
    near fexp generate_trajectory momenta vertex c -> draws_ok uniform -> normals_ok normals ->
    fzero (c_diffusion fexp c) -> is_finite (c_efield fexp c) = true -> R64 (c_efield fexp c) <> 0%R ->
    is_finite (c_drift fexp c) = true ->
    1 <= w <= 2 ^ 53 -> is_finite fano = true -> (0 <= R64 fano <= 1)%R -> 0 <= c_gain fexp c ->
    (forall p nuc track, In p momenta -> generate_trajectory vertex p nuc c = Ok track ->
       usual (mass nuc) w (map t_v track) /\ forall t, In t track -> is_finite (drift_time fexp c (t_z t)) = true) ->
    sim momenta vertex zs ms c rng indices = Ok ((cloud, labels), rng') ->
    exists hs, Forall2 (made fexp get_data generate_trajectory momenta vertex zs ms c) (filter (is_charged zs) indices) hs /\
      map h_gs hs = blocks (map (fun h => length (h_track h)) hs) rng /\
      (let charge := sumR (map (fun p => R64 (p_el p)) cloud) in
       let electrons := sumZ (map h_electrons hs) in
       c_gain fexp c * electrons <= 2 ^ 53 ->
       (charge <= IZR (c_gain fexp c * electrons))%R /\
       (Forall (contained fexp g ge c) hs -> charge = IZR (c_gain fexp c * electrons))).
  Proof using Type.
    intros Hg He Hp Hn Hu HN D Fe Ne Fd Hw Ff Bf Gp Ht H.
    destruct (C17_one_point_per_cell fexp get_data generate_trajectory (electrons64 fexp mass w fano normals) uniform momenta vertex zs ms c rng indices g ge cloud labels rng' Hg He Hp Hn Hu H)
      as (l & rng1 & lds & cells & T & EL & Len & ND & F & _ & Cov).
    destruct (tracks_blocks _ _ _ _ _ _ _ _ _ HN T) as (hs & A & B & Bl).
    exists hs. split; [exact A|]. split; [exact Bl|]. cbv zeta.
    assert (Per : forall h, In h hs ->
      (forall t, In t (h_track h) -> is_finite (drift_time fexp c (t_z t)) = true) /\
      length (els_of mass w fano h) = length (h_track h)).
    { intros h I. destruct (forall2_in_r _ _ _ A h I) as (i & Ii & M).
      pose proof M as (z & a & p & _ & _ & _ & _ & Ep & Et & _).
      assert (Ip : In p momenta) by (eapply py_index_in; exact Ep).
      destruct (Ht p (h_nuc h) (h_track h) Ip Et) as (U & Fin). split; [exact Fin|].
      exact (proj1 (emitted_close fexp get_data generate_trajectory mass w fano momenta vertex zs ms c i h Hw Ff Bf U M)). }
    assert (EE : map h_electrons hs = map (emitted mass w fano) hs).
    { apply map_ext_in. intros h I. apply h_electrons_emitted, (Per h I). }
    rewrite EE. intros Small. set (Em := sumZ (map (emitted mass w fano) hs)) in *.
    destruct EL as (dss & F2 & ->).
    destruct (event_sum fexp get_data mass w fano g ge c hs l dss D Fe Ne Fd Gp Per Small B F2) as (S1 & S2 & S3).
    cbv zeta in S1, S2, S3. set (lds := concat _) in *.
    assert (Pos : forall d lab, In (d, lab) lds -> 0 <= d_el d) by (intros d lab I; apply (S1 d lab I)).
    set (tot := sumZ (map (fun dl => d_el (fst dl)) lds)) in *. fold Em in S2, S3.
    assert (Q : sumR (map (fun p => R64 (p_el p)) cloud) = IZR (sumZ (map (fun k => keyed k lds) (map fst cells)))).
    { clear - F Pos S2 Small Len. revert labels cells F Len. induction cloud as [|p cloud IH]; intros [|b labels] cells F Len; try discriminate.
      - cbn [combine] in F. inversion F; subst. reflexivity.
      - cbn [combine] in F. inversion F as [|cell pl cs rest H1 H2]; subst.
        cbn [map]. rewrite sumR_cons, sumZ_cons, plus_IZR. rewrite (IH labels cs H2 ltac:(cbn in Len; lia)). f_equal.
        destruct cell as [[tb pad] u]. cbn [fst snd] in *. unfold keyed. cbn [fst snd].
        apply (C17_exact_charge lds tb pad u p b H1).
        pose proof (keyed_le (tb, pad) lds Pos) as K. unfold keyed in K. cbn [fst snd] in K. fold tot in K. lia. }
    destruct (sum_keys (map fst cells) lds ND Pos) as (K1 & K2). fold tot in K1, K2.
    rewrite Q. split.
    - apply IZR_le. lia.
    - intros C. f_equal. rewrite K2.
      + exact (S3 C).
      + intros d lab I. destruct (S1 d lab I) as (_ & h & t & Ih & It & Et). rewrite Forall_forall in C.
        destruct (C h Ih t It) as (_ & W). destruct (Cov d lab I (W _ Et)) as (u & Iu).
        apply in_map_iff. exists (d_tb d, d_pad d, u). split; [reflexivity|exact Iu].
  Qed.
End Cloud.

(** ** Examples *)
(** The alpha particle of C76, W = 34 eV, Fano factor 1/4, draws +1 and -1: it loses 20.7 million electrons'
    worth of energy, and the eight runs make on average at most that, and less than 3.003 electrons fewer. *)
Definition al_vecs : list vec64 := map t_v al_track.
Definition pm1 : list f64 := [f_of_Z 1; neg (f_of_Z 1)].
Lemma al_ordinary : ordinary (f_of_Z 3728) 34 al_vecs.
Proof.
  destruct al_moving as ((F & B & U) & L1 & L2 & L3). split; [exact F|]. split; [exact B|]. split; [lia|].
  assert (Em : R64 (f_of_Z 3728) = 3728) by (apply f_of_Z_R; lia).
  assert (P36 : 2 ^ 36 = 68719476736) by ring.
  intros p I. destruct (U p I) as (M & _). split; [exact M|]. rewrite Em.
  cbn [al_vecs al_track map] in I. destruct I as [<-|[<-|[<-|[]]]]; [rewrite L1|rewrite L2|]; lra.
Qed.
Lemma pm1_symmetric : symmetric pm1.
Proof.
  unfold symmetric, pm1. cbn [map]. replace (neg (neg (f_of_Z 1))) with (f_of_Z 1) by (unfold neg; symmetry; apply Bopp_involutive).
  apply perm_swap.
Qed.
Lemma pm1_drawn : Forall drawn pm1.
Proof.
  assert (F : is_finite (f_of_Z 1) = true) by (apply f_of_Z_fin; lia). assert (E : R64 (f_of_Z 1) = 1) by (apply f_of_Z_R; lia).
  repeat constructor; unfold neg; rewrite ?is_finite_Bopp, ?B2R_Bopp, ?Rabs_Ropp, ?E, ?Rabs_R1; try exact F; lra.
Qed.
Lemma al_exact : exists x, exact_electrons (R64 (f_of_Z 3728)) 34 al_vecs = [0; 0; x] /\ 19000000 <= x <= 21000000.
Proof.
  destruct al_moving as (_ & L1 & L2 & L3). assert (Em : R64 (f_of_Z 3728) = 3728) by (apply f_of_Z_R; lia).
  unfold al_vecs, al_track. cbn [map exact_electrons steps]. unfold kinetic. rewrite L1, L2, Em.
  set (g := lorentz_factor (t_v (al_row 1 1 0))) in *. clearbody g.
  eexists. split; [|].
  - f_equal. f_equal. replace (3728 * (5 / 4 - 1) - 3728 * (5 / 4 - 1)) with 0 by ring. rewrite Rabs_R0. ring.
  - rewrite Rabs_left1 by lra. split; lra.
Qed.
Example C102_average_example :
  let mean := average (fun gs => IZR (track_electrons (f_of_Z 3728) 34 (f_of_ZE 1 (-2)) al_vecs gs)) (words pm1 3) in
  let lost := sumR (exact_electrons (R64 (f_of_Z 3728)) 34 al_vecs) in
  19000000 <= lost <= 21000000 /\ lost - 3003 / 1000 <= mean <= lost + 3 / 1000.
Proof.
  cbv zeta. destruct al_exact as (x & E & B).
  assert (L : sumR (exact_electrons (R64 (f_of_Z 3728)) 34 al_vecs) = x) by (rewrite E; cbn; lra).
  split; [rewrite L; exact B|].
  destruct (f_of_ZE_correct 1 (-2) ltac:(lia) ltac:(lia)) as (Ef & Ff). unfold F2R in Ef. cbn [Fnum Fexp] in Ef. change (bpow radix2 (-2)) with (/ 4) in Ef.
  assert (P10 : / 2 ^ 10 = / 1024) by (f_equal; ring).
  assert (E1 : R64 (f_of_Z 1) = 1) by (apply f_of_Z_R; lia).
  pose proof (C102_average (f_of_Z 3728) 34 (f_of_ZE 1 (-2)) al_vecs al_ordinary Ff ltac:(rewrite Ef; lra) pm1 ltac:(intros C; discriminate C)
    pm1_symmetric pm1_drawn) as A. cbv zeta in A. change (length al_vecs) with 3%nat in A.
  replace (INR 3) with 3 in A by (cbn; lra). rewrite P10 in A. match type of A with ?P -> _ => assert (H : P) end; [|specialize (A H); lra].
  rewrite E. intros y g [<-|[<-|[<-|[]]]] Ig; [now left|now left|right].
  assert (G : R64 g * R64 g = 1).
  { cbn [pm1 In] in Ig. destruct Ig as [<-|[<-|[]]]; unfold neg; rewrite ?B2R_Bopp, E1; lra. }
  rewrite G, Ef. lra.
Qed.
(** One row in isolation: a mean of 1.99 electrons without fluctuation is one electron. *)
Example C102_truncation_example : count64 (f_of_Z 0) (fdiv (f_of_Z 199) (f_of_Z 100)) (f_of_Z 1) = Some 1%Z.
Proof. vm_compute. reflexivity. Qed.
(** The alpha particle while it turns without loss makes no electrons. *)
Example C102_silent_example :
  track_electrons (f_of_Z 3728) 34 (f_of_ZE 1 (-2)) (firstn 2 al_vecs) [f_of_Z 1; neg (f_of_Z 1)] = 0%Z.
Proof.
  destruct (f_of_ZE_correct 1 (-2) ltac:(lia) ltac:(lia)) as (Ef & Ff). unfold F2R in Ef. cbn [Fnum Fexp] in Ef. change (bpow radix2 (-2)) with (/ 4) in Ef.
  apply C102_silent; [|exact Ff|rewrite Ef; lra|reflexivity|exact pm1_drawn|].
  - destruct al_ordinary as (A & B & C & D). split; [exact A|]. split; [exact B|]. split; [exact C|]. intros p I. apply D. cbn [al_vecs al_track map firstn In] in *. tauto.
  - destruct al_exact as (x & E & B).
    assert (E2 : forall y, In y (exact_electrons (R64 (f_of_Z 3728)) 34 (firstn 2 al_vecs)) -> y = 0).
    { change (exact_electrons (R64 (f_of_Z 3728)) 34 (firstn 2 al_vecs)) with (firstn 2 (exact_electrons (R64 (f_of_Z 3728)) 34 al_vecs)).
      rewrite E. cbn [firstn In]. intros y [<-|[<-|[]]]; reflexivity. }
    intros y g Iy Ig. rewrite (E2 y Iy).
    assert (G : Rabs (R64 g) <= 16) by (pose proof pm1_drawn as F; rewrite Forall_forall in F; apply (F g Ig)).
    assert (S : sqrt (R64 (f_of_ZE 1 (-2)) * (0 + / 2 ^ 11)) <= / 2 ^ 5).
    { rewrite <- (sqrt_inv_pow 5). apply sqrt_le_1_alt. cbn [Nat.add]. pose proof (inv_pow_le 10 11 ltac:(lia)). pose proof (ip 11). rewrite Ef. lra. }
    pose proof (sqrt_pos (R64 (f_of_ZE 1 (-2)) * (0 + / 2 ^ 11))). pose proof (Rabs_pos (R64 g)).
    assert (sqrt (R64 (f_of_ZE 1 (-2)) * (0 + / 2 ^ 11)) * Rabs (R64 g) <= / 2 ^ 5 * 16) by (apply Rmult_le_compat; lra).
    assert (/ 2 ^ 5 = / 32) by (f_equal; ring). assert (/ 2 ^ 10 = / 1024) by (f_equal; ring). lra.
Qed.

(** The alpha particle of P_Calor: its whole track lies above one pad, so the charge is the gain times its electrons. *)
Example C102_cloud_example (fexp : f64 -> f64) : exists cloud labels rng' gs,
  al_sim fexp [0]%Z tt [2]%Z [4]%Z (al_config fexp) 0%Z [0]%Z = Ok ((cloud, labels), rng') /\ length gs = 3%nat /\
  sumR (map (fun p => R64 (p_el p)) cloud) = IZR (10 * track_electrons (f_of_Z 3728) 34 (f_of_Z 0) (map t_v al_track) gs).
Proof.
  assert (V : is_ok (al_sim fexp [0]%Z tt [2]%Z [4]%Z (al_config fexp) 0%Z [0]%Z) = true) by (vm_compute; reflexivity).
  destruct (al_sim fexp [0]%Z tt [2]%Z [4]%Z (al_config fexp) 0%Z [0]%Z) as [[[cloud labels] rng']|] eqn:E; [|discriminate].
  destruct al_moving as (U & _).
  assert (TB : f_to_Z (drift_time fexp (al_config fexp) half) = Some 256%Z) by (vm_compute; reflexivity).
  destruct (f_to_Z_inv _ _ TB) as (Fin & _).
  assert (Z0 : R64 (f_of_Z 0) = 0) by (apply f_of_Z_R; lia).
  assert (Fe : is_finite (f_of_ZE 1 (-9)) = true) by (apply (f_of_ZE_correct 1 (-9)); lia).
  assert (Tr : forall t, In t al_track -> t_z t = half /\ t_x t = f_of_Z 0 /\ t_y t = f_of_Z 0).
  { intros t [<-|[<-|[<-|[]]]]; repeat split. }
  destruct (C102_cloud fexp (fun z a => Ok (100 * z + a)%Z) (al_traj fexp) al_mass 34 (f_of_Z 0) al_normals ex_uniform
    [0]%Z tt [2]%Z [4]%Z (al_config fexp) 0%Z [0]%Z (ex_grid 300) (ex_edges fexp) cloud labels rng')
    as (hs & A & _ & B); try reflexivity; try assumption.
  - intros i j. cbn. lia.
  - intros p nuc track t tb _ Et It Hb.
    apply (f_equal (fun r => match r with Ok x => x | _ => [] end)) in Et. cbv beta match delta [al_traj] in Et. subst track.
    rewrite (proj1 (Tr t It)), TB in Hb. assert (tb = 256%Z) by congruence. subst. reflexivity.
  - intros n g. cbn [ex_uniform fst]. split; [apply repeat_length|].
    apply Forall_forall. intros u Hu. apply repeat_spec in Hu as ->. exact half_ok.
  - intros n g. cbn [al_normals fst]. split; [apply repeat_length|].
    apply Forall_forall. intros u Hu. apply repeat_spec in Hu as ->.
    split; [apply f_of_Z_fin; lia|]. rewrite f_of_Z_R by lia. rewrite Rabs_pos_eq; lra.
  - apply f_of_Z_0.
  - change (R64 (f_of_Z 1) <> 0). rewrite f_of_Z_R by lia; lra.
  - lia.
  - rewrite Z0. lra.
  - cbn. lia.
  - intros p nuc track _ Et.
    apply (f_equal (fun r => match r with Ok x => x | _ => [] end)) in Et. cbv beta match delta [al_traj] in Et. subst track.
    split; [exact U|]. intros t It. rewrite (proj1 (Tr t It)). exact Fin.
  - change (filter (is_charged [2]%Z) [0]%Z) with [0]%Z in A.
    inversion A as [|? h ? tl M A']; subst. inversion A'; subst. clear A A'.
    pose proof M as (z & a & p & _ & _ & _ & _ & _ & Et & Lg & Fg).
    apply (f_equal (fun r => match r with Ok x => x | _ => [] end)) in Et. cbv beta match delta [al_traj] in Et.
    destruct h as [n tr gs]. cbn [h_track h_gs h_nuc] in *. subst tr.
    assert (Small : (10 * track_electrons (f_of_Z 3728) 34 (f_of_Z 0) (map t_v al_track) gs <= 2 ^ 53)%Z).
    { destruct (emitted_close fexp (fun z a => Ok (100 * z + a)%Z) (al_traj fexp) al_mass 34 (f_of_Z 0) [0]%Z tt [2]%Z [4]%Z (al_config fexp) 0%Z (mkHist n al_track gs)
        ltac:(lia) ltac:(apply f_of_Z_fin; lia) ltac:(rewrite Z0; lra) U M) as (L & C).
      rewrite <- (h_electrons_emitted al_mass 34 (f_of_Z 0) _ L) in C.
      clear L B E V U Tr Fin TB. change (track_electrons (f_of_Z 3728) 34 (f_of_Z 0) (map t_v al_track) gs) with (h_electrons al_mass 34 (f_of_Z 0) (mkHist n al_track gs)).
      revert C. generalize (h_electrons al_mass 34 (f_of_Z 0) (mkHist n al_track gs)). intros k C.
      destruct gs as [|g1 [|g2 [|g3 [|? ?]]]]; try discriminate Lg.
      assert (HS : h_slack al_mass 34 (f_of_Z 0) (mkHist n al_track [g1; g2; g3]) = 6).
      { unfold h_slack, slacks, exact_of, al_mass. cbn [h_nuc h_track h_gs al_track map exact_electrons steps combine fst snd].
        unfold slack, sumR. cbn [fold_right]. rewrite Z0. rewrite !Rmult_0_l, sqrt_0. lra. }
      destruct al_moving as (_ & L1 & L2 & L3).
      assert (HE : h_exact al_mass 34 (mkHist n al_track [g1; g2; g3]) = 3728 * (5 / 4 - lorentz_factor (t_v (al_row 1 1 0))) * (10 ^ 6 / 34)).
      { unfold h_exact, exact_of, al_mass. cbn [h_nuc h_track]. replace (R64 (f_of_Z 3728)) with 3728 by (symmetry; apply f_of_Z_R; lia).
        cbn [al_track map].
        destruct (C76_energy 3728 34 (t_v (al_row 3 0 0)) [t_v (al_row 0 3 0); t_v (al_row 1 1 0)] ltac:(lia)) as (_ & Q).
        rewrite Q.
        - cbn [last]. unfold kinetic. rewrite L1. ring.
        - intros i x y Hx Hy. destruct i as [|[|[|i]]]; cbn [nth_error] in Hx, Hy; try discriminate.
          + assert (x = t_v (al_row 3 0 0)) by congruence. assert (y = t_v (al_row 0 3 0)) by congruence. subst x y.
            unfold kinetic. rewrite L1, L2. lra.
          + assert (x = t_v (al_row 0 3 0)) by congruence. assert (y = t_v (al_row 1 1 0)) by congruence. subst x y.
            unfold kinetic. rewrite L2. lra. }
      rewrite HS, HE in C. apply Rabs_le_inv in C.
      set (l := lorentz_factor (t_v (al_row 1 1 0))) in *. clearbody l.
      replace (10 ^ 6 / 34) with (500000 / 17) in C by (simpl; lra).
      clear HS HE Lg M. assert (H : IZR k <= IZR 200000000) by lra. apply le_IZR in H. clear - H. lia. }
    exists cloud, labels, rng', gs. split; [reflexivity|]. split; [exact Lg|].
    clear E V. cbv zeta in B. cbn [map] in B.
    change (h_electrons al_mass 34 (f_of_Z 0) (mkHist n al_track gs)) with
      (track_electrons (f_of_Z 3728) 34 (f_of_Z 0) (map t_v al_track) gs) in B.
    revert Small B. generalize (track_electrons (f_of_Z 3728) 34 (f_of_Z 0) (map t_v al_track) gs). intros k Hk B.
    rewrite sumZ_cons in B. change (sumZ []) with 0%Z in B. rewrite Z.add_0_r in B.
    change (c_gain fexp (al_config fexp)) with 10%Z in B.
    destruct (B Hk) as (_ & B2). apply B2. constructor; [|constructor].
    intros t It. cbn [h_track] in It. destruct (Tr t It) as (Tz & Tx & Ty). rewrite Tz, Tx, Ty. split.
    + exists 300%Z. exists 0%Z, 0%Z. split; [vm_compute; reflexivity|]. split; [lia|]. split; [lia|]. split; [reflexivity|]. split; [lia|].
      intros I. apply (proj2 (Bool.not_true_iff_false (existsb (Z.eqb 300) BEAM_PADS))); [vm_compute; reflexivity|].
      apply existsb_exists. exists 300%Z. split; [exact I|reflexivity].
    + intros tb Hb. rewrite TB in Hb. assert (tb = 256%Z) by congruence. lia.
Qed.

Print Assumptions C102_average.
Print Assumptions C102_silent.
Print Assumptions C102_cloud.
