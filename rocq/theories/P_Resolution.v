(** P_Resolution.v -- C105: how much the number of electrons of a track fluctuates: the Fano factor. *)
From Coq Require Import ZArith Reals Lia Lra List Permutation.
From Flocq Require Import Core BinarySingleNaN.
From Verif Require Import Base F64 F64Bounds Num Pairing PairingProofs BeamPads Transporter
  SpecTransport TransportProofs Simulator SpecSim SimulatorProofs TransportF64 P_TransportF64 P_Simulator
  P_KinF64 ElectronsF64 P_ElectronsF64 P_Complete P_Calor P_Rejection P_Bias.
Import ListNotations.
Local Open Scope R_scope.

(** ** Specification *)
(** Mean and standard deviation over a finite set of equally likely cases. *)
Definition spread {A} (f : A -> R) (l : list A) : R := sqrt (average (fun a => (f a - average f l) ^ 2) l).

(** ** Averages *)
Section Averages.
  Context {A : Type} (l : list A) (NE : l <> []).
  Lemma size_pos : 0 < INR (length l).
  Proof using NE. apply lt_0_INR. destruct l; [congruence|cbn; lia]. Qed.
  Lemma average_lin (f g : A -> R) a b : average (fun x => a * f x + b * g x) l = a * average f l + b * average g l.
  Proof using NE. unfold average. rewrite (sumR_plus (fun x => a * f x) (fun x => b * g x)), !sumR_scale. field. pose proof size_pos. lra. Qed.
  Lemma average_const c : average (fun _ : A => c) l = c.
  Proof using NE. unfold average. rewrite sumR_const. field. pose proof size_pos. lra. Qed.
  Lemma average_ext (f g : A -> R) : (forall x, In x l -> f x = g x) -> average f l = average g l.
  Proof using Type. intros H. unfold average. now rewrite (map_ext_in f g l H). Qed.
  Lemma average_le (f : A -> R) c : (forall x, In x l -> f x <= c) -> average f l <= c.
  Proof using NE.
    intros H. unfold average. pose proof size_pos as P. apply Rmult_le_reg_r with (INR (length l)); [exact P|]. unfold Rdiv. rewrite Rmult_assoc, Rinv_l, Rmult_1_r by lra.
    clear P NE. induction l as [|a k IH]; [cbn; lra|]. cbn [map]. rewrite sumR_cons. change (length (a :: k)) with (S (length k)). rewrite S_INR.
    pose proof (H a (or_introl eq_refl)). specialize (IH (fun x I => H x (or_intror I))). lra.
  Qed.
  Lemma average_pos (f : A -> R) : (forall x, In x l -> 0 <= f x) -> 0 <= average f l.
  Proof using NE.
    intros H. pose proof (average_le (fun x => - f x) 0 ltac:(intros x I; specialize (H x I); lra)) as Q.
    rewrite (average_ext _ (fun x => -1 * f x + 0 * 0)) in Q by (intros; ring). rewrite (average_lin f (fun _ => 0)), average_const in Q. lra.
  Qed.
  (** Cauchy-Schwarz. *)
  Lemma schwarz (f g : A -> R) : average (fun x => f x * g x) l <= sqrt (average (fun x => f x ^ 2) l) * sqrt (average (fun x => g x ^ 2) l).
  Proof using NE.
    set (F := average (fun x => f x ^ 2) l). set (G := average (fun x => g x ^ 2) l). set (C := average (fun x => f x * g x) l).
    assert (F0 : 0 <= F) by (apply average_pos; intros; apply pow2_ge_0). assert (G0 : 0 <= G) by (apply average_pos; intros; apply pow2_ge_0).
    assert (Q : forall s t, 0 <= s ^ 2 * F - 2 * s * t * C + t ^ 2 * G).
    { intros s t. assert (E : average (fun x => (s * f x - t * g x) ^ 2) l = s ^ 2 * F - 2 * s * t * C + t ^ 2 * G).
      { rewrite (average_ext _ (fun x => 1 * (s ^ 2 * f x ^ 2 + (- (2 * s * t)) * (f x * g x)) + t ^ 2 * g x ^ 2)) by (intros; ring).
        rewrite (average_lin (fun x => s ^ 2 * f x ^ 2 + (- (2 * s * t)) * (f x * g x)) (fun x => g x ^ 2)), (average_lin (fun x => f x ^ 2) (fun x => f x * g x)). fold F G C. ring. }
      rewrite <- E. apply average_pos. intros; apply pow2_ge_0. }
    pose proof (sqrt_pos F) as SF. pose proof (sqrt_pos G) as SG. pose proof (sqrt_sqrt F F0) as QF. pose proof (sqrt_sqrt G G0) as QG.
    set (a := sqrt F) in *. set (b := sqrt G) in *.
    destruct (Rle_lt_dec C (a * b)) as [K|K]; [exact K|exfalso].
    pose proof (Rmult_le_pos a b SF SG) as AB.
    destruct (Req_dec a 0) as [A0|A0].
    - rewrite A0, Rmult_0_l in K. assert (F = 0) by (rewrite <- QF, A0; ring).
      (* 0 <= - 2 s t C + t^2 G for all s: take t = C, s large *)
      specialize (Q (G + 1) C). nra.
    - destruct (Req_dec b 0) as [B0|B0].
      + rewrite B0, Rmult_0_r in K. assert (G = 0) by (rewrite <- QG, B0; ring). specialize (Q C (F + 1)). nra.
      + assert (P : 0 < a * b) by (apply Rmult_lt_0_compat; lra). specialize (Q b a). replace F with (a * a) in Q by lra. replace G with (b * b) in Q by lra. nra.
  Qed.
  (** Minkowski. *)
  Lemma minkowski (f g : A -> R) : sqrt (average (fun x => (f x + g x) ^ 2) l) <= sqrt (average (fun x => f x ^ 2) l) + sqrt (average (fun x => g x ^ 2) l).
  Proof using NE.
    pose proof (schwarz f g) as S.
    set (F := average (fun x => f x ^ 2) l) in *. set (G := average (fun x => g x ^ 2) l) in *. set (C := average (fun x => f x * g x) l) in *.
    assert (F0 : 0 <= F) by (apply average_pos; intros; apply pow2_ge_0). assert (G0 : 0 <= G) by (apply average_pos; intros; apply pow2_ge_0).
    assert (E : average (fun x => (f x + g x) ^ 2) l = F + 2 * C + G).
    { rewrite (average_ext _ (fun x => 1 * (1 * f x ^ 2 + 2 * (f x * g x)) + 1 * g x ^ 2)) by (intros; ring).
      rewrite (average_lin (fun x => 1 * f x ^ 2 + 2 * (f x * g x)) (fun x => g x ^ 2)), (average_lin (fun x => f x ^ 2) (fun x => f x * g x)). fold F G C. ring. }
    rewrite E. pose proof (sqrt_pos F) as SF. pose proof (sqrt_pos G) as SG. pose proof (sqrt_sqrt F F0) as QF. pose proof (sqrt_sqrt G G0) as QG.
    set (a := sqrt F) in *. set (b := sqrt G) in *. apply Rle_trans with (sqrt ((a + b) ^ 2)); [apply sqrt_le_1_alt; nra|]. rewrite sqrt_pow2; lra.
  Qed.
  Lemma spread_bounded (f : A -> R) lo hi : (forall x, In x l -> lo <= f x <= hi) -> average (fun x => (f x - average f l) ^ 2) l <= ((hi - lo) / 2) ^ 2.
  Proof using NE.
    intros H. set (m := average f l). set (c := (lo + hi) / 2). assert (E : average (fun x => (f x - c) ^ 2) l = average (fun x => (f x - m) ^ 2) l + (m - c) ^ 2).
    { rewrite (average_ext _ (fun x => 1 * (1 * (f x - m) ^ 2 + 2 * (m - c) * f x) + ((m - c) ^ 2 - 2 * (m - c) * m) * 1)) by (intros; ring).
      rewrite (average_lin (fun x => 1 * (f x - m) ^ 2 + 2 * (m - c) * f x) (fun _ => 1)), (average_lin (fun x => (f x - m) ^ 2) f), average_const. fold m. ring. }
    assert (B : average (fun x => (f x - c) ^ 2) l <= ((hi - lo) / 2) ^ 2) by (apply average_le; intros x I; specialize (H x I); unfold c; nra).
    pose proof (pow2_ge_0 (m - c)). lra.
  Qed.
End Averages.

(** ** Independent draws *)
Definition total_of (cs : list (f64 -> R)) (gs : list f64) : R := sumR (map (fun cg => fst cg (snd cg)) (combine cs gs)).
Section Words.
  Context (draws : list f64) (ND : draws <> []).
  Lemma words_ne n : words draws n <> [].
  Proof using ND.
    intros C. assert (P : 0 < INR (length draws) ^ n) by (apply pow_lt, size_pos, ND). rewrite <- words_count, C in P. cbn in P. lra.
  Qed.
  Lemma average_cons n (f : list f64 -> R) : average f (words draws (S n)) = average (fun g => average (fun gs => f (g :: gs)) (words draws n)) draws.
  Proof using ND.
    unfold average at 1. rewrite words_cons_sum, words_count. unfold average at 1.
    rewrite (map_ext (fun g => average (fun gs => f (g :: gs)) (words draws n)) (fun g => / INR (length draws) ^ n * sumR (map (fun gs => f (g :: gs)) (words draws n))))
      by (intros g; unfold average; rewrite words_count; unfold Rdiv; ring).
    rewrite sumR_scale. cbn [pow]. assert (P : 0 < INR (length draws)) by (apply size_pos, ND). assert (P' : 0 < INR (length draws) ^ n) by (apply pow_lt, P). field. lra.
  Qed.
  Lemma total_cons c cs g gs : total_of (c :: cs) (g :: gs) = c g + total_of cs gs.
  Proof using Type. unfold total_of. cbn [combine map fst snd]. apply sumR_cons. Qed.
  (** Rows without a mean: the total has none, and the mean squares add up. *)
  Lemma independent (cs : list (f64 -> R)) : (forall c, In c cs -> average c draws = 0) ->
    average (total_of cs) (words draws (length cs)) = 0 /\
    average (fun gs => total_of cs gs ^ 2) (words draws (length cs)) = sumR (map (fun c => average (fun g => c g ^ 2) draws) cs).
  Proof using ND.
    induction cs as [|c cs IH]; intros H.
    - cbn [length words]. unfold average, total_of. cbn. split; field.
    - destruct (IH (fun x I => H x (or_intror I))) as (I1 & I2). specialize (H c (or_introl eq_refl)).
      change (length (c :: cs)) with (S (length cs)). pose proof (words_ne (length cs)) as NW. rewrite !average_cons. split.
      + rewrite (average_ext _ _ (fun g => 1 * c g + 0 * 0)); [rewrite (average_lin draws ND c (fun _ => 0)), average_const, H by exact ND; ring|].
        intros g _. rewrite (average_ext _ _ (fun gs => c g * 1 + 1 * total_of cs gs)) by (intros gs _; rewrite total_cons; ring).
        rewrite (average_lin _ NW (fun _ => 1) (total_of cs)), average_const, I1 by exact NW. ring.
      + cbn [map]. rewrite sumR_cons, <- I2.
        rewrite (average_ext _ _ (fun g => 1 * c g ^ 2 + average (fun gs => total_of cs gs ^ 2) (words draws (length cs)) * 1)).
        * rewrite (average_lin draws ND (fun g => c g ^ 2) (fun _ => 1)), average_const by exact ND. ring.
        * intros g _. rewrite (average_ext _ _ (fun gs => 1 * (c g ^ 2 * 1 + 2 * c g * total_of cs gs) + 1 * total_of cs gs ^ 2)) by (intros gs _; rewrite total_cons; ring).
          rewrite (average_lin _ NW (fun gs => c g ^ 2 * 1 + 2 * c g * total_of cs gs) (fun gs => total_of cs gs ^ 2)), (average_lin _ NW (fun _ => 1) (total_of cs)), average_const, I1 by exact NW. ring.
  Qed.
  Lemma total_split {X} (rows : list X) (a b c : X -> f64 -> R) (k : X -> R) : (forall r g, In r rows -> In g draws -> a r g = k r + b r g + c r g) ->
    forall gs, In gs (words draws (length rows)) -> total_of (map a rows) gs = sumR (map k rows) + total_of (map b rows) gs + total_of (map c rows) gs.
  Proof using Type.
    induction rows as [|r rows IH]; intros H gs I; cbn [length words] in I.
    - destruct I as [<-|[]]. cbn. ring.
    - apply in_flat_map in I as (g & Ig & I). apply in_map_iff in I as (gs' & <- & I). cbn [map]. rewrite !total_cons, sumR_cons.
      rewrite (IH (fun x y Ix Iy => H x y (or_intror Ix) Iy) gs' I), (H r g (or_introl eq_refl) Ig). ring.
  Qed.
  Lemma mean_symmetric : symmetric draws -> average R64 draws = 0.
  Proof using ND.
    intros S. pose proof (sumR_pairs R64 0 0 draws S) as P. assert (E : sumR (map R64 draws) = 0).
    { destruct P as (P1 & P2); [intros g _; unfold neg; rewrite B2R_Bopp; lra|rewrite Rmult_0_r in P1, P2; apply Rle_antisym; assumption]. }
    unfold average. rewrite E. unfold Rdiv. ring.
  Qed.
End Words.

(** ** Rows *)
(** A row with mean [fst r] and exact mean [snd r]: every draw makes a whole number of electrons, the exact mean
    with its fluctuation up to truncation. *)
Definition el (fano : f64) (r : f64 * R) (g : f64) : R := entry fano (fst r) g.
Definition row_ok (fano : f64) (draws : list f64) (r : f64 * R) : Prop :=
  0 <= snd r /\ forall g, In g draws -> exists z, count64 fano (fst r) g = Some z /\ (0 <= z)%Z /\
    -1 - / 2 ^ 6 <= IZR z - snd r - sqrt (R64 fano * snd r) * R64 g <= / 2 ^ 6 /\ IZR z <= 3 * snd r.

Lemma rows_spread fano draws (rows : list (f64 * R)) : 0 <= R64 fano -> draws <> [] -> symmetric draws ->
  (forall r, In r rows -> row_ok fano draws r) ->
  Rabs (spread (total_of (map (el fano) rows)) (words draws (length rows)) -
        sqrt (R64 fano * average (fun g => R64 g ^ 2) draws * sumR (map snd rows))) <= sqrt (INR (length rows)) * (1 / 2 + / 2 ^ 6) /\
  sumR (map snd rows) - INR (length rows) * (1 + / 2 ^ 6) <= average (total_of (map (el fano) rows)) (words draws (length rows)) <= sumR (map snd rows) + INR (length rows) * / 2 ^ 6.
Proof.
  intros Bf ND Sy Row. set (v := average (fun g => R64 g ^ 2) draws). set (W := words draws (length rows)). assert (NW : W <> []) by (apply words_ne; exact ND).
  set (fl := fun (r : f64 * R) g => sqrt (R64 fano * snd r) * R64 g).
  set (de := fun (r : f64 * R) g => el fano r g - snd r - fl r g). set (dc := fun r g => de r g - average (de r) draws).
  assert (De : forall r g, In r rows -> In g draws -> -1 - / 2 ^ 6 <= de r g <= / 2 ^ 6).
  { intros r g Ir Ig. destruct (proj2 (Row r Ir) g Ig) as (z & Z & _ & B & _). unfold de, el, entry, fl. rewrite Z. exact B. }
  set (K := sumR (map (fun r => snd r + average (de r) draws) rows)).
  assert (Split : forall gs, In gs W -> total_of (map (el fano) rows) gs = K + total_of (map fl rows) gs + total_of (map dc rows) gs).
  { intros gs I. unfold K. apply (total_split draws); [intros r g Ir Ig; unfold dc, de; ring|exact I]. }
  assert (M0 : average R64 draws = 0) by (apply mean_symmetric; assumption).
  assert (Pf : average (total_of (map fl rows)) W = 0 /\ average (fun gs => total_of (map fl rows) gs ^ 2) W = R64 fano * v * sumR (map snd rows)).
  { destruct (independent draws ND (map fl rows)) as (I1 & I2).
    - intros c Ic. apply in_map_iff in Ic as (r & <- & _). unfold fl. rewrite (average_ext _ _ (fun g => sqrt (R64 fano * snd r) * R64 g + 0 * 0)) by (intros; ring).
      rewrite (average_lin draws ND R64 (fun _ => 0)), average_const by exact ND.
      match goal with |- _ * ?a + _ = _ => replace a with 0 by (symmetry; exact M0) end. ring.
    - rewrite map_length in I1, I2. fold W in I1, I2. split; [exact I1|]. rewrite I2, map_map.
      rewrite (map_ext_in _ (fun r : f64 * R => R64 fano * v * snd r)); [apply sumR_scale|].
      intros r Ir. unfold fl. pose proof (proj1 (Row r Ir)) as X0.
      rewrite (average_ext _ _ (fun g => (R64 fano * snd r) * R64 g ^ 2 + 0 * 0)).
      + rewrite (average_lin draws ND (fun g => R64 g ^ 2) (fun _ => 0)), average_const by exact ND.
        match goal with |- _ * ?a + _ = _ => change a with v end. ring.
      + intros g _. rewrite Rpow_mult_distr. assert (Q : sqrt (R64 fano * snd r) ^ 2 = R64 fano * snd r) by (apply pow2_sqrt, Rmult_le_pos; lra). rewrite Q. ring. }
  assert (Pd : average (total_of (map dc rows)) W = 0 /\ average (fun gs => total_of (map dc rows) gs ^ 2) W <= INR (length rows) * (1 / 2 + / 2 ^ 6) ^ 2).
  { destruct (independent draws ND (map dc rows)) as (I1 & I2).
    - intros c Ic. apply in_map_iff in Ic as (r & <- & _). unfold dc. rewrite (average_ext _ _ (fun g => 1 * de r g + (- average (de r) draws) * 1)) by (intros; ring).
      rewrite (average_lin draws ND (de r) (fun _ => 1)), average_const by exact ND. ring.
    - rewrite map_length in I1, I2. fold W in I1, I2. split; [exact I1|]. rewrite I2, map_map.
      apply (sumR_bounds (fun r => average (fun g => dc r g ^ 2) draws) 0). intros r Ir. split; [apply average_pos; [exact ND|intros; apply pow2_ge_0]|].
      unfold dc. eapply Rle_trans; [apply (spread_bounded draws ND (de r) (-1 - / 2 ^ 6) (/ 2 ^ 6)); intros g Ig; now apply De|].
      apply Req_le. f_equal. lra. }
  destruct Pf as (F1 & F2). destruct Pd as (D1 & D2). set (TF := total_of (map fl rows)) in *. set (TD := total_of (map dc rows)) in *.
  assert (Mean : average (total_of (map (el fano) rows)) W = K).
  { rewrite (average_ext _ _ (fun gs => K * 1 + 1 * (1 * TF gs + 1 * TD gs))) by (intros gs I; rewrite (Split gs I); ring).
    rewrite (average_lin W NW (fun _ => 1) (fun gs => 1 * TF gs + 1 * TD gs)), (average_lin W NW TF TD), average_const, F1, D1 by exact NW. ring. }
  assert (Sig : spread (total_of (map (el fano) rows)) W = sqrt (average (fun gs => (TF gs + TD gs) ^ 2) W)).
  { unfold spread. rewrite Mean. f_equal. apply average_ext. intros gs I. rewrite (Split gs I). f_equal. ring. }
  pose proof (minkowski W NW TF TD) as U. pose proof (minkowski W NW (fun gs => TF gs + TD gs) (fun gs => - TD gs)) as Lo. cbv beta in Lo.
  rewrite (average_ext W (fun gs => (TF gs + TD gs + - TD gs) ^ 2) (fun gs => TF gs ^ 2)) in Lo by (intros; f_equal; ring).
  rewrite (average_ext W (fun gs => (- TD gs) ^ 2) (fun gs => TD gs ^ 2)) in Lo by (intros; ring).
  rewrite F2 in U, Lo. rewrite <- Sig in U, Lo.
  assert (B : sqrt (average (fun gs => TD gs ^ 2) W) <= sqrt (INR (length rows)) * (1 / 2 + / 2 ^ 6)).
  { assert (Q : 0 <= 1 / 2 + / 2 ^ 6) by (pose proof (ip 6); lra). rewrite <- (sqrt_pow2 (1 / 2 + / 2 ^ 6)) by exact Q. rewrite <- sqrt_mult by (try apply pos_INR; apply pow2_ge_0). apply sqrt_le_1_alt, D2. }
  split; [apply Rabs_le; lra|].
  rewrite Mean. unfold K. rewrite (sumR_plus snd (fun r => average (de r) draws)).
  pose proof (sumR_bounds (fun r => average (de r) draws) (-1 - / 2 ^ 6) (/ 2 ^ 6) rows) as Bd. destruct Bd as (Bd1 & Bd2); [|lra].
  intros r Ir. split; [|apply average_le; [exact ND|intros g Ig; apply (De r g Ir Ig)]].
  assert (Q : average (fun g => -1 * de r g + 0 * 0) draws <= 1 + / 2 ^ 6) by (apply average_le; [exact ND|intros g Ig; pose proof (De r g Ir Ig); lra]).
  rewrite (average_lin draws ND (de r) (fun _ => 0)), average_const in Q by exact ND. lra.
Qed.

Lemma spread_ext {A} (f g : A -> R) l : (forall x, In x l -> f x = g x) -> spread f l = spread g l.
Proof. intros H. unfold spread. rewrite (average_ext l f g H). f_equal. apply average_ext. intros x I. now rewrite (H x I). Qed.
Lemma spread_scale {A} (f : A -> R) l k : l <> [] -> 0 <= k -> spread (fun x => k * f x) l = k * spread f l.
Proof.
  intros NE Hk. unfold spread. assert (E : average (fun x => k * f x) l = k * average f l).
  { rewrite (average_ext _ _ (fun x => k * f x + 0 * 0)) by (intros; ring). rewrite (average_lin l NE f (fun _ => 0)), average_const by exact NE. ring. }
  rewrite E. rewrite (average_ext _ _ (fun x => k ^ 2 * (f x - average f l) ^ 2 + 0 * 0)) by (intros; ring).
  rewrite (average_lin l NE (fun x => (f x - average f l) ^ 2) (fun _ => 0)), average_const, Rmult_0_r, Rplus_0_r by exact NE.
  rewrite sqrt_mult; [|apply pow2_ge_0|apply average_pos; [exact NE|intros; apply pow2_ge_0]]. now rewrite sqrt_pow2.
Qed.
(** Chebyshev: how often a value is far from the mean. *)
Definition share_of {A} (f : A -> bool) (l : list A) : R := average (fun a => if f a then 1 else 0) l.
Lemma chebyshev {A} (f : A -> R) l c : l <> [] -> 0 <= c -> share_of (fun a => Rle_bool c (Rabs (f a - average f l))) l * c ^ 2 <= spread f l ^ 2.
Proof.
  intros NE C. unfold spread, share_of. set (m := average f l). assert (V0 : 0 <= average (fun a => (f a - m) ^ 2) l) by (apply average_pos; [exact NE|intros; apply pow2_ge_0]).
  rewrite pow2_sqrt by exact V0. set (i := fun a => if Rle_bool c (Rabs (f a - m)) then 1 else 0).
  assert (Q : average (fun a => c ^ 2 * i a + -1 * (f a - m) ^ 2) l <= 0).
  { apply average_le; [exact NE|]. intros a _. unfold i. destruct (Rle_bool_spec c (Rabs (f a - m))) as [K|K].
    - rewrite <- (pow2_abs (f a - m)). assert (c ^ 2 <= Rabs (f a - m) ^ 2) by (apply pow_incr; lra). lra.
    - pose proof (pow2_ge_0 (f a - m)). lra. }
  rewrite (average_lin l NE i (fun a => (f a - m) ^ 2)) in Q. lra.
Qed.
Lemma share_le {A} (f g : A -> bool) l : l <> [] -> (forall a, In a l -> f a = true -> g a = true) -> share_of f l <= share_of g l.
Proof.
  intros NE H. unfold share_of. assert (Q : average (fun a => 1 * (if f a then 1 else 0) + -1 * (if g a then 1 else 0)) l <= 0).
  { apply average_le; [exact NE|]. intros a I. specialize (H a I). destruct (f a); [rewrite H by reflexivity; lra|destruct (g a); lra]. }
  rewrite (average_lin l NE (fun a => if f a then 1 else 0) (fun a => if g a then 1 else 0)) in Q. lra.
Qed.
Lemma words_in (draws : list f64) : forall n gs, In gs (words draws n) -> forall g, In g gs -> In g draws.
Proof.
  induction n as [|n IH]; intros gs I g Ig; cbn [words] in I.
  - destruct I as [<-|[]]. destruct Ig.
  - apply in_flat_map in I as (a & Ia & I). apply in_map_iff in I as (gs' & <- & I). destruct Ig as [<-|Ig]; [exact Ia|exact (IH gs' I g Ig)].
Qed.

(** ** A track *)
Definition track_rows (w : Z) (t : f64 * list vec64) : list (f64 * R) := combine (means64 (fst t) w (snd t)) (exact_electrons (R64 (fst t)) w (snd t)).
Lemma rows_length w t : length (track_rows w t) = length (snd t).
Proof. unfold track_rows. now rewrite combine_length, means_length, exact_length, Nat.min_id. Qed.
Lemma rows_exact w t : map snd (track_rows w t) = exact_electrons (R64 (fst t)) w (snd t).
Proof.
  unfold track_rows. assert (LM : length (means64 (fst t) w (snd t)) = length (exact_electrons (R64 (fst t)) w (snd t))) by (rewrite means_length, exact_length; reflexivity).
  revert LM. generalize (exact_electrons (R64 (fst t)) w (snd t)) as xs. generalize (means64 (fst t) w (snd t)) as ms.
  induction ms as [|a ms IH]; intros [|b xs] LM; try discriminate LM; [reflexivity|]. cbn [combine map snd]. f_equal. apply IH. cbn [length] in LM. lia.
Qed.
Lemma rows_entry w fano t : map (el fano) (track_rows w t) = map (entry fano) (means64 (fst t) w (snd t)).
Proof.
  unfold track_rows. assert (LM : length (means64 (fst t) w (snd t)) = length (exact_electrons (R64 (fst t)) w (snd t))) by (rewrite means_length, exact_length; reflexivity).
  revert LM. generalize (exact_electrons (R64 (fst t)) w (snd t)) as xs. generalize (means64 (fst t) w (snd t)) as ms.
  induction ms as [|a ms IH]; intros [|b xs] LM; try discriminate LM; [reflexivity|]. cbn [combine map]. f_equal. apply IH. cbn [length] in LM. lia.
Qed.
Lemma combine_nth {A B} : forall i (xs : list A) (ys : list B) p, nth_error (combine xs ys) i = Some p -> nth_error xs i = Some (fst p) /\ nth_error ys i = Some (snd p).
Proof.
  induction i as [|i IH]; intros [|a xs] [|b ys] p E; try discriminate E; [|exact (IH xs ys p E)].
  cbn [combine nth_error] in *. assert (Q : p = (a, b)) by congruence. rewrite Q. split; reflexivity.
Qed.
Lemma nth_combine {A B} : forall i (xs : list A) (ys : list B) a b, nth_error xs i = Some a -> nth_error ys i = Some b -> In (a, b) (combine xs ys).
Proof.
  induction i as [|i IH]; intros [|a xs] [|b ys] a' b' E F; try discriminate E; try discriminate F; cbn [combine nth_error] in *; [left; congruence|right; exact (IH xs ys a' b' E F)].
Qed.

(** A track as in C102: no row loses less than fano g^2 + 1 electrons' worth, unless it loses nothing. *)
Definition resolved (w : Z) (fano : f64) (draws : list f64) (t : f64 * list vec64) : Prop :=
  ordinary (fst t) w (snd t) /\
  forall x g, In x (exact_electrons (R64 (fst t)) w (snd t)) -> In g draws -> x = 0 \/ R64 fano * (R64 g * R64 g) + 1 <= x.

(** A nucleus that never gains energy from one row to the next. *)
Definition slowing (m : R) (p : vec64) (l : list vec64) : Prop :=
  forall i a b, nth_error (p :: l) i = Some a -> nth_error l i = Some b -> kinetic m b <= kinetic m a.

Section Track.
  Context (w : Z) (fano : f64) (Ff : is_finite fano = true) (Bf : 0 <= R64 fano <= 1).

  Lemma track_ok draws t : Forall drawn draws -> resolved w fano draws t -> forall r, In r (track_rows w t) -> row_ok fano draws r.
  Proof using Ff Bf.
    destruct t as (m & l). intros Fd (Or & H) (e & x) Ir. cbn [fst snd] in *. rewrite Forall_forall in Fd.
    apply In_nth_error in Ir as (i & Ei). unfold track_rows in Ei. cbn [fst snd] in Ei. apply combine_nth in Ei as (He & Hx). cbn [fst snd] in He, Hx.
    destruct (mean_close m w l i e x Or He Hx) as (Fe & Pe & Be & Bx). split; [apply Bx|]. intros g Ig. cbn [fst snd].
    assert (P6 : / 2 ^ 6 = / 64) by (f_equal; ring). assert (P11 : / 2 ^ 11 = / 2048) by (f_equal; ring). assert (P12 : / 2 ^ 12 = / 4096) by (f_equal; ring).
    destruct (H x g (nth_error_In _ _ Hx) Ig) as [->|A].
    - rewrite Rminus_0_r in Be. exists 0%Z. split; [now apply row_zero; [..|apply Fd]|]. split; [lia|]. split; [rewrite Rmult_0_r, sqrt_0, P6; lra|lra].
    - destruct (row_above fano Ff Bf e x g Fe Pe Be Bx (Fd g Ig) A) as (z & y & Z & Z0 & Zy & Y). exists z. split; [exact Z|]. split; [exact Z0|].
      destruct (Fd g Ig) as (_ & Bg). rewrite P11 in Be. rewrite P12 in Zy, Y. rewrite P6.
      assert (X1 : 1 <= x) by (pose proof (Rle_0_sqr (R64 g)) as G2; unfold Rsqr in G2; assert (0 <= R64 fano * (R64 g * R64 g)) by (apply Rmult_le_pos; lra); lra).
      assert (Sd : Rabs (sqrt (R64 fano * R64 e) - sqrt (R64 fano * x)) <= / 2048).
      { rewrite !sqrt_mult by lra. rewrite <- Rmult_minus_distr_l, Rabs_mult, (Rabs_pos_eq (sqrt (R64 fano))) by apply sqrt_pos.
        assert (S1 : 0 <= sqrt (R64 fano) <= 1) by (split; [apply sqrt_pos|rewrite <- sqrt_1; apply sqrt_le_1_alt; lra]).
        assert (S2 : 1 <= sqrt x) by (rewrite <- sqrt_1; apply sqrt_le_1_alt; lra). pose proof (sqrt_pos (R64 e)) as S3.
        assert (D : Rabs (sqrt (R64 e) - sqrt x) <= / 2048).
        { assert (E : (sqrt (R64 e) - sqrt x) * (sqrt (R64 e) + sqrt x) = R64 e - x) by (pose proof (sqrt_sqrt (R64 e) Pe); pose proof (sqrt_sqrt x ltac:(lra)); lra).
          rewrite <- E, Rabs_mult, (Rabs_pos_eq (sqrt (R64 e) + sqrt x)) in Be by lra. pose proof (Rabs_pos (sqrt (R64 e) - sqrt x)).
          apply Rle_trans with (Rabs (sqrt (R64 e) - sqrt x) * (sqrt (R64 e) + sqrt x)); [|exact Be].
          rewrite <- (Rmult_1_r (Rabs (sqrt (R64 e) - sqrt x))) at 1. apply Rmult_le_compat_l; lra. }
        pose proof (Rabs_pos (sqrt (R64 e) - sqrt x)). apply Rle_trans with (1 * Rabs (sqrt (R64 e) - sqrt x)); [apply Rmult_le_compat_r; lra|lra]. }
      assert (Sg : Rabs ((sqrt (R64 fano * R64 e) - sqrt (R64 fano * x)) * R64 g) <= / 2048 * 16) by (rewrite Rabs_mult; apply Rmult_le_compat; try apply Rabs_pos; assumption).
      assert (Sx : Rabs (sqrt (R64 fano * x) * R64 g) <= x).
      { apply Rsqr_incr_0_var; [|lra]. rewrite <- Rsqr_abs. unfold Rsqr. pose proof (sqrt_sqrt (R64 fano * x) ltac:(apply Rmult_le_pos; lra)) as Q.
        replace (sqrt (R64 fano * x) * R64 g * (sqrt (R64 fano * x) * R64 g)) with (R64 fano * x * (R64 g * R64 g)) by (rewrite <- Q at 1; ring).
        replace (R64 fano * x * (R64 g * R64 g)) with (R64 fano * (R64 g * R64 g) * x) by ring. apply Rmult_le_compat_r; lra. }
      apply Rabs_le_inv in Sg. apply Rabs_le_inv in Be. apply Rabs_le_inv in Y. apply Rabs_le_inv in Sx. split; lra.
  Qed.

  Lemma track_total draws t gs : Forall drawn draws -> resolved w fano draws t -> length gs = length (snd t) -> (forall g, In g gs -> In g draws) ->
    IZR (track_electrons (fst t) w fano (snd t) gs) = total_of (map (el fano) (track_rows w t)) gs.
  Proof using Ff Bf.
    intros Fd Rt L Hg. rewrite electrons_sum, rows_entry; [reflexivity|exact L|].
    intros e g Ieg. pose proof (in_combine_r _ _ _ _ Ieg) as Ig. apply in_combine_l in Ieg. apply In_nth_error in Ieg as (i & Ei).
    destruct (nth_error (exact_electrons (R64 (fst t)) w (snd t)) i) as [x|] eqn:Ex.
    - destruct (track_ok draws t Fd Rt (e, x) (nth_combine i _ _ e x Ei Ex)) as (_ & Ok). destruct (Ok g (Hg g Ig)) as (z & Z & Z0 & _). exists z. split; assumption.
    - apply nth_error_None in Ex. assert (i < length (means64 (fst t) w (snd t)))%nat by (apply nth_error_Some; congruence). rewrite exact_length in Ex. rewrite means_length in *. lia.
  Qed.

  (** C105: over independent symmetric draws of mean square [v] (1 for a standard normal generator), the number
      of electrons has the standard deviation sqrt(F v E/W) of the Fano factor; truncation to whole numbers
      changes it by at most half an electron per row, added in quadrature. *)
  Theorem C105_resolution m l draws : ordinary m w l -> draws <> [] -> symmetric draws -> Forall drawn draws ->
    (forall x g, In x (exact_electrons (R64 m) w l) -> In g draws -> x = 0 \/ R64 fano * (R64 g * R64 g) + 1 <= x) ->
    let v := average (fun g => R64 g ^ 2) draws in
    let sigma := spread (fun gs => IZR (track_electrons m w fano l gs)) (words draws (length l)) in
    Rabs (sigma - sqrt (R64 fano * v * sumR (exact_electrons (R64 m) w l))) <= sqrt (INR (length l)) * (1 / 2 + / 2 ^ 6).
  Proof using Ff Bf.
    intros Or ND Sy Fd H v sigma. assert (Rt : resolved w fano draws (m, l)) by (split; assumption).
    pose proof (proj1 (rows_spread fano draws (track_rows w (m, l)) (proj1 Bf) ND Sy (track_ok draws (m, l) Fd Rt))) as S.
    rewrite rows_exact, rows_length in S. cbn [fst snd] in S.
    unfold sigma. rewrite (spread_ext _ (total_of (map (el fano) (track_rows w (m, l))))); [exact S|].
    intros gs I. apply (track_total draws (m, l)); [exact Fd|exact Rt|exact (words_length draws _ gs I)|exact (words_in draws _ gs I)].
  Qed.

  (** C105: two tracks of a nucleus that slows down from the same momentum to the same momentum, cut into different
      numbers of rows: the standard deviations of their electrons agree. *)
  Theorem C105_steps m p l l' draws : ordinary m w (p :: l) -> ordinary m w (p :: l') -> last l p = last l' p ->
    slowing (R64 m) p l -> slowing (R64 m) p l' -> draws <> [] -> symmetric draws -> Forall drawn draws ->
    (forall x g, In x (exact_electrons (R64 m) w (p :: l) ++ exact_electrons (R64 m) w (p :: l')) -> In g draws -> x = 0 \/ R64 fano * (R64 g * R64 g) + 1 <= x) ->
    let sigma k := spread (fun gs => IZR (track_electrons m w fano (p :: k) gs)) (words draws (length (p :: k))) in
    Rabs (sigma l - sigma l') <= (sqrt (INR (length (p :: l))) + sqrt (INR (length (p :: l')))) * (1 / 2 + / 2 ^ 6).
  Proof using Ff Bf.
    intros O1 O2 El S1 S2 ND Sy Fd H sigma.
    pose proof (C105_resolution m (p :: l) draws O1 ND Sy Fd ltac:(intros x g I; apply H, in_or_app; now left)) as R1.
    pose proof (C105_resolution m (p :: l') draws O2 ND Sy Fd ltac:(intros x g I; apply H, in_or_app; now right)) as R2.
    cbv zeta in R1, R2. assert (W1 : (1 <= w)%Z) by apply O1.
    rewrite (proj2 (C76_energy (R64 m) w p l W1) S1) in R1. rewrite (proj2 (C76_energy (R64 m) w p l' W1) S2) in R2. rewrite <- El in R2.
    change (spread (fun gs => IZR (track_electrons m w fano (p :: l) gs)) (words draws (length (p :: l)))) with (sigma l) in R1.
    change (spread (fun gs => IZR (track_electrons m w fano (p :: l') gs)) (words draws (length (p :: l')))) with (sigma l') in R2.
    apply Rabs_le_inv in R1, R2. rewrite Rmult_plus_distr_r. apply Rabs_le. lra.
  Qed.

  (** ** Several tracks, one after the other *)
  Definition event_rows (ts : list (f64 * list vec64)) : list (f64 * R) := concat (map (track_rows w) ts).
  Definition event_electrons (ts : list (f64 * list vec64)) (bs : list (list f64)) : Z :=
    sumZ (map (fun tb => track_electrons (fst (fst tb)) w fano (snd (fst tb)) (snd tb)) (combine ts bs)).
  Definition event_exact (ts : list (f64 * list vec64)) : R := sumR (map (fun t => sumR (exact_electrons (R64 (fst t)) w (snd t))) ts).
  Lemma total_app (cs cs' : list (f64 -> R)) gs gs' : length cs = length gs -> total_of (cs ++ cs') (gs ++ gs') = total_of cs gs + total_of cs' gs'.
  Proof using Type.
    revert gs. induction cs as [|c cs IH]; intros [|g gs] L; try discriminate L.
    - cbn [app]. change (total_of [] []) with 0. ring.
    - cbn [app]. rewrite !total_cons, IH by (cbn [length] in L; lia). ring.
  Qed.
  Lemma sumR_app xs ys : sumR (xs ++ ys) = sumR xs + sumR ys.
  Proof using Type. induction xs as [|x xs IH]; cbn [app]; [cbn; ring|]. rewrite !sumR_cons, IH. ring. Qed.
  Lemma event_total draws ts bs : Forall drawn draws -> Forall (resolved w fano draws) ts -> Forall2 (fun t b => length b = length (snd t)) ts bs ->
    (forall g, In g (concat bs) -> In g draws) ->
    IZR (event_electrons ts bs) = total_of (map (el fano) (event_rows ts)) (concat bs).
  Proof using Ff Bf.
    intros Fd Ft F2. revert Ft. induction F2 as [|t b ts bs L F2 IH]; intros Ft Hg; [reflexivity|].
    inversion Ft as [|? ? R1 R2]; subst. unfold event_electrons, event_rows in *. cbn [combine map concat fst snd] in *. rewrite sumZ_cons, plus_IZR, map_app, total_app by (rewrite map_length, rows_length; symmetry; exact L).
    rewrite (track_total draws t b Fd R1 L) by (intros g I; apply Hg, in_or_app; now left). rewrite IH; [reflexivity|exact R2|intros g I; apply Hg, in_or_app; now right].
  Qed.
  Lemma event_rows_length ts : length (event_rows ts) = list_sum (map (fun t => length (snd t)) ts).
  Proof using Type. unfold event_rows. induction ts as [|t ts IH]; [reflexivity|]. cbn [map concat]. rewrite app_length, rows_length, IH. reflexivity. Qed.
  Lemma event_rows_exact ts : sumR (map snd (event_rows ts)) = event_exact ts.
  Proof using Type.
    unfold event_rows, event_exact. induction ts as [|t ts IH]; [reflexivity|]. cbn [map concat]. rewrite map_app, sumR_app, rows_exact, IH, sumR_cons. reflexivity.
  Qed.

  (** The electrons of all tracks of an event, made from the draws of one word cut into blocks. *)
  Lemma event_spread draws ts (cut : list f64 -> list (list f64)) : draws <> [] -> symmetric draws -> Forall drawn draws -> Forall (resolved w fano draws) ts ->
    (forall gs, In gs (words draws (list_sum (map (fun t => length (snd t)) ts))) -> concat (cut gs) = gs /\ Forall2 (fun t b => length b = length (snd t)) ts (cut gs)) ->
    let n := list_sum (map (fun t => length (snd t)) ts) in
    Rabs (spread (fun gs => IZR (event_electrons ts (cut gs))) (words draws n) - sqrt (R64 fano * average (fun g => R64 g ^ 2) draws * event_exact ts))
      <= sqrt (INR n) * (1 / 2 + / 2 ^ 6) /\
    event_exact ts - INR n * (1 + / 2 ^ 6) <= average (fun gs => IZR (event_electrons ts (cut gs))) (words draws n) <= event_exact ts + INR n * / 2 ^ 6.
  Proof using Ff Bf.
    intros ND Sy Fd Ft Hc n.
    assert (Ok : forall r, In r (event_rows ts) -> row_ok fano draws r).
    { intros r Ir. unfold event_rows in Ir. apply in_concat in Ir as (rs & Irs & Ir). apply in_map_iff in Irs as (t & <- & It). rewrite Forall_forall in Ft. exact (track_ok draws t Fd (Ft t It) r Ir). }
    pose proof (rows_spread fano draws (event_rows ts) (proj1 Bf) ND Sy Ok) as S. rewrite event_rows_exact, event_rows_length in S.
    assert (Same : forall gs, In gs (words draws n) -> IZR (event_electrons ts (cut gs)) = total_of (map (el fano) (event_rows ts)) gs);
      [|rewrite (spread_ext _ (total_of (map (el fano) (event_rows ts))) _ Same), (average_ext _ _ (total_of (map (el fano) (event_rows ts))) Same); exact S].
    intros gs I. destruct (Hc gs I) as (C & F2). rewrite (event_total draws ts (cut gs) Fd Ft F2), C; [reflexivity|rewrite C; exact (words_in draws n gs I)].
  Qed.
End Track.

(** ** In the cloud *)
Section Cloud.
  Context (fexp : f64 -> f64) {G Nuc Mom Vtx : Type}.
  Context (get_data : Z -> Z -> res Nuc)
    (generate_trajectory : Vtx -> Mom -> Nuc -> config fexp -> res (list (@traj vec64)))
    (mass : Nuc -> f64) (w : Z) (fano : f64)
    (normals : nat -> G -> list f64 * G) (uniform : nat -> G -> list f64 * G).
  Notation sim := (simulate fexp get_data generate_trajectory (electrons64 fexp mass w fano normals) uniform).

  (** Specification: the tracks of the charged nuclei of an event, and the charge of its cloud. *)
  Definition has_track (momenta : list Mom) (vertex : Vtx) (zs ms : list Z) (c : config fexp) (i : Z) (nt : Nuc * list (@traj vec64)) : Prop :=
    exists z a p, py_index zs i = Ok z /\ py_index ms i = Ok a /\ get_data z a = Ok (fst nt) /\
      py_index momenta i = Ok p /\ generate_trajectory vertex p (fst nt) c = Ok (snd nt).
  Definition cloud_charge (r : res ((list point * list Z) * G)) : R :=
    match r with Ok ((cloud, _), _) => sumR (map (fun p => R64 (p_el p)) cloud) | Err _ => 0 end.
  Definition motion (nt : Nuc * list (@traj vec64)) : f64 * list vec64 := (mass (fst nt), map t_v (snd nt)).

  Lemma blocks_lengths ns : forall rng, normals_ok normals -> Forall2 (fun n b => length b = n) ns (blocks normals ns rng).
  Proof using Type.
    induction ns as [|n ns IH]; intros rng N; cbn [blocks]; [constructor|]. destruct (normals n rng) as [b rng'] eqn:E.
    constructor; [|apply IH, N]. destruct (N n rng) as (L & _). rewrite E in L. exact L.
  Qed.
  Lemma electrons_bound draws ts bs : is_finite fano = true -> 0 <= R64 fano <= 1 -> Forall drawn draws -> Forall (resolved w fano draws) ts ->
    Forall2 (fun t b => length b = length (snd t)) ts bs -> (forall g, In g (concat bs) -> In g draws) ->
    IZR (event_electrons w fano ts bs) <= 3 * event_exact w ts.
  Proof using Type.
    intros Ff Bf Fd Ft F2 Hg. rewrite (event_total w fano Ff Bf draws ts bs Fd Ft F2 Hg), <- event_rows_exact.
    assert (Ok : forall r, In r (event_rows w ts) -> row_ok fano draws r).
    { intros r Ir. unfold event_rows in Ir. apply in_concat in Ir as (rs & Irs & Ir). apply in_map_iff in Irs as (t & <- & It). rewrite Forall_forall in Ft. exact (track_ok w fano Ff Bf draws t Fd (Ft t It) r Ir). }
    revert Ok Hg. generalize (concat bs) as gs. generalize (event_rows w ts) as rows. clear. induction rows as [|r rows IH]; intros gs Ok Hg; [cbn; lra|].
    cbn [map]. rewrite sumR_cons. destruct (Ok r (or_introl eq_refl)) as (X0 & Rg).
    destruct gs as [|g gs].
    - assert (0 <= sumR (map snd rows)). { clear - Ok. assert (Ok' : forall r, In r rows -> 0 <= snd r) by (intros r' I; apply (Ok r'); now right). clear Ok.
        induction rows as [|a rows IH]; [cbn; lra|]. cbn [map]. rewrite sumR_cons. pose proof (Ok' a (or_introl eq_refl)). specialize (IH (fun x I => Ok' x (or_intror I))). lra. }
      unfold total_of. destruct rows; cbn; cbn in H; lra.
    - rewrite total_cons. specialize (IH gs (fun x I => Ok x (or_intror I)) (fun x I => Hg x (or_intror I))).
      destruct (Rg g (Hg g (or_introl eq_refl))) as (z & Z & _ & _ & B). unfold el at 1, entry. rewrite Z. lra.
  Qed.

  (** C105: the charge of the cloud of an event whose tracks are contained, without diffusion, over all words of
      draws its generator can deliver for the tracks, has the gain times this standard deviation; its mean is the
      gain times the energy lost over W less at most about one electron per row, and it is farther off than s times
      that width for at most one in s^2 of the words. *)
  Theorem C105_cloud momenta vertex zs ms c indices g ge tracks draws (rng : list f64 -> G) :
    c_grid fexp c = Some g -> c_edges fexp c = Some ge -> (forall i j, (-1 <= gr_cell g i j < 2 ^ 26)%Z) ->
    near fexp generate_trajectory momenta vertex c -> draws_ok uniform -> normals_ok normals ->
    fzero (c_diffusion fexp c) -> is_finite (c_efield fexp c) = true -> R64 (c_efield fexp c) <> 0 ->
    is_finite (c_drift fexp c) = true ->
    (1 <= w <= 2 ^ 53)%Z -> is_finite fano = true -> 0 <= R64 fano <= 1 -> (0 <= c_gain fexp c)%Z ->
    (forall p nuc track, In p momenta -> generate_trajectory vertex p nuc c = Ok track ->
       usual (mass nuc) w (map t_v track) /\ forall t, In t track -> is_finite (drift_time fexp c (t_z t)) = true) ->
    Forall2 (has_track momenta vertex zs ms c) (filter (is_charged zs) indices) tracks ->
    (forall nt t, In nt tracks -> In t (snd nt) -> (exists pad, lands (N := F64 fexp) g ge (t_x t, t_y t) pad) /\
       forall tb, f_to_Z (drift_time fexp c (t_z t)) = Some tb -> (0 <= tb <= 510)%Z) ->
    draws <> [] -> symmetric draws -> Forall drawn draws -> Forall (resolved w fano draws) (map motion tracks) ->
    IZR (c_gain fexp c) * (3 * event_exact w (map motion tracks)) <= 2 ^ 53 ->
    let lens := map (fun nt : Nuc * list (@traj vec64) => length (snd nt)) tracks in
    (forall gs, In gs (words draws (list_sum lens)) -> concat (blocks normals lens (rng gs)) = gs /\
       exists r, sim momenta vertex zs ms c (rng gs) indices = Ok r) ->
    let v := average (fun g => R64 g ^ 2) draws in
    let sigma := spread (fun gs => cloud_charge (sim momenta vertex zs ms c (rng gs) indices)) (words draws (list_sum lens)) in
    let mean := average (fun gs => cloud_charge (sim momenta vertex zs ms c (rng gs) indices)) (words draws (list_sum lens)) in
    let gain := IZR (c_gain fexp c) in
    let exact := event_exact w (map motion tracks) in
    let n := INR (list_sum lens) in
    let width := sqrt (R64 fano * v * exact) + sqrt n * (1 / 2 + / 2 ^ 6) in
    Rabs (sigma - gain * sqrt (R64 fano * v * exact)) <= gain * (sqrt n * (1 / 2 + / 2 ^ 6)) /\
    gain * (exact - n * (1 + / 2 ^ 6)) <= mean <= gain * (exact + n * / 2 ^ 6) /\
    forall s, 0 < s -> 0 < gain * width ->
      share_of (fun gs => Rle_bool (gain * (n * (1 + / 2 ^ 6) + s * width)) (Rabs (cloud_charge (sim momenta vertex zs ms c (rng gs) indices) - gain * exact)))
        (words draws (list_sum lens)) <= / s ^ 2.
  Proof using Type.
    intros Hg He Hp Hn Hu HN D Fe Ne Fd Hw Ff Bf Gp Ht Tr Ct ND Sy Fr Rs Small lens Run v sigma mean gain exact n width.
    set (ts := map motion tracks) in *.
    assert (Ln : list_sum (map (fun t => length (snd t)) ts) = list_sum lens).
    { unfold ts, lens. rewrite map_map. f_equal. apply map_ext. intros nt. unfold motion. cbn [snd]. apply map_length. }
    assert (F2 : forall r, Forall2 (fun t b => length b = length (snd t)) ts (blocks normals lens r)).
    { intros r. pose proof (blocks_lengths lens r HN) as B. revert B. generalize (blocks normals lens r) as bs. unfold ts, lens. clear.
      induction tracks as [|nt tracks IH]; intros bs B; cbn [map] in *; inversion B; subst; constructor; [unfold motion; cbn [snd]; rewrite map_length; assumption|apply IH; assumption]. }
    assert (G0 : 0 <= gain) by (apply IZR_le; exact Gp).
    assert (Ch : forall gs, In gs (words draws (list_sum lens)) ->
      cloud_charge (sim momenta vertex zs ms c (rng gs) indices) = gain * IZR (event_electrons w fano ts (blocks normals lens (rng gs)))).
    { intros gs I. destruct (Run gs I) as (Cc & (((cloud & labels) & rng') & E)). rewrite E. cbn [cloud_charge].
      destruct (C102_cloud fexp get_data generate_trajectory mass w fano normals uniform momenta vertex zs ms c (rng gs) indices g ge cloud labels rng'
        Hg He Hp Hn Hu HN D Fe Ne Fd Hw Ff Bf Gp Ht E) as (hs & A & Bl & Q).
      assert (Same : map (fun h => (h_nuc h, h_track h)) hs = tracks).
      { clear - A Tr. revert hs A. induction Tr as [|i nt is tracks T Tr IH]; intros hs A; inversion A as [|? h ? hs' M A']; subst; [reflexivity|]. cbn [map]. f_equal; [|apply IH, A'].
        destruct T as (z & a & p & T1 & T2 & T3 & T4 & T5). destruct M as (z' & a' & p' & M1 & _ & M2 & M3 & M4 & M5 & _). destruct nt as (n & tr). cbn [fst snd] in *.
        assert (z' = z) by congruence. subst z'. assert (a' = a) by congruence. subst a'. assert (p' = p) by congruence. subst p'.
        assert (En : h_nuc h = n) by congruence. rewrite En in *. f_equal. congruence. }
      assert (Le : map (fun h => length (h_track h)) hs = lens) by (unfold lens; rewrite <- Same, map_map; reflexivity). rewrite Le in Bl.
      assert (El : sumZ (map (h_electrons mass w fano) hs) = event_electrons w fano ts (blocks normals lens (rng gs))).
      { rewrite <- Bl. unfold event_electrons, ts. rewrite <- Same. clear. induction hs as [|h hs IH]; [reflexivity|]. cbn [map combine]. rewrite !sumZ_cons, IH. reflexivity. }
      cbv zeta in Q. rewrite El in Q. destruct Q as (_ & Q).
      - apply le_IZR. rewrite mult_IZR. eapply Rle_trans; [apply Rmult_le_compat_l; [exact G0|]|].
        + apply (electrons_bound draws ts _ Ff Bf Fr Rs (F2 (rng gs))). rewrite Cc. exact (words_in draws _ gs I).
        + assert (P53 : IZR (2 ^ 53) = 2 ^ 53) by (rewrite (pow_IZR 2 53); reflexivity). rewrite P53. exact Small.
      - rewrite Q, mult_IZR; [reflexivity|]. apply Forall_forall. intros h Ih t It.
        apply (Ct (h_nuc h, h_track h) t); [rewrite <- Same; apply in_map_iff; exists h; split; [reflexivity|exact Ih]|exact It]. }
    assert (NW : words draws (list_sum lens) <> []) by (apply words_ne; exact ND).
    set (q := fun gs => cloud_charge (sim momenta vertex zs ms c (rng gs) indices)) in *.
    set (ne := fun gs => IZR (event_electrons w fano ts (blocks normals lens (rng gs)))).
    destruct (event_spread w fano Ff Bf draws ts (fun gs => blocks normals lens (rng gs)) ND Sy Fr Rs) as (Sp & Mn).
    { intros gs I. rewrite Ln in I. split; [apply (Run gs I)|apply F2]. }
    cbv zeta in Sp, Mn. rewrite Ln in Sp, Mn. fold n v exact ne in Sp, Mn.
    assert (Es : sigma = gain * spread ne (words draws (list_sum lens))) by (unfold sigma; rewrite (spread_ext q _ _ Ch); exact (spread_scale ne _ gain NW G0)).
    assert (Em : mean = gain * average ne (words draws (list_sum lens))).
    { unfold mean. rewrite (average_ext _ q (fun gs => gain * ne gs + 0 * 0)) by (intros gs I; etransitivity; [exact (Ch gs I)|unfold ne; ring]).
      rewrite (average_lin _ NW ne (fun _ => 0)), average_const by exact NW. ring. }
    assert (One : Rabs (sigma - gain * sqrt (R64 fano * v * exact)) <= gain * (sqrt n * (1 / 2 + / 2 ^ 6))).
    { rewrite Es, <- Rmult_minus_distr_l, Rabs_mult, (Rabs_pos_eq gain G0). apply Rmult_le_compat_l; [exact G0|exact Sp]. }
    assert (Two : gain * (exact - n * (1 + / 2 ^ 6)) <= mean <= gain * (exact + n * / 2 ^ 6)).
    { rewrite Em. split; apply Rmult_le_compat_l; try exact G0; apply Mn. }
    split; [exact One|]. split; [exact Two|].
    intros s Hs Hw'. assert (N0 : 0 <= n) by apply pos_INR. pose proof (ip 6) as I6.
    assert (Sg : sigma <= gain * width) by (apply Rabs_le_inv in One; unfold width; lra).
    assert (S0 : 0 <= sigma) by apply sqrt_pos.
    set (c0 := s * (gain * width)). assert (C0 : 0 < c0) by (apply Rmult_lt_0_compat; assumption).
    pose proof (chebyshev q (words draws (list_sum lens)) c0 NW ltac:(lra)) as Cb. change (spread q (words draws (list_sum lens))) with sigma in Cb.
    change (average q (words draws (list_sum lens))) with mean in Cb.
    set (far := share_of (fun a => Rle_bool c0 (Rabs (q a - mean))) (words draws (list_sum lens))) in *.
    assert (Le : far <= / s ^ 2).
    { assert (Q1 : far * c0 ^ 2 <= (gain * width) ^ 2) by (eapply Rle_trans; [exact Cb|apply pow_incr; lra]).
      apply Rmult_le_reg_r with (c0 ^ 2); [apply pow_lt, C0|]. eapply Rle_trans; [exact Q1|]. apply Req_le. unfold c0. field. lra. }
    eapply Rle_trans; [|exact Le]. apply share_le; [exact NW|]. intros gs I Hq.
    destruct (Rle_bool_spec (gain * (n * (1 + / 2 ^ 6) + s * width)) (Rabs (cloud_charge (sim momenta vertex zs ms c (rng gs) indices) - gain * exact))) as [K|K]; [|discriminate Hq].
    apply Rle_bool_true. change (cloud_charge (sim momenta vertex zs ms c (rng gs) indices)) with (q gs) in K.
    assert (Bm : Rabs (mean - gain * exact) <= gain * (n * (1 + / 2 ^ 6))).
    { assert (gain * (n * / 2 ^ 6) <= gain * (n * (1 + / 2 ^ 6))) by (apply Rmult_le_compat_l; [exact G0|apply Rmult_le_compat_l; lra]). apply Rabs_le. lra. }
    pose proof (Rabs_triang (q gs - mean) (mean - gain * exact)) as Tri. replace (q gs - mean + (mean - gain * exact)) with (q gs - gain * exact) in Tri by ring.
    assert (c0 = gain * (s * width)) by (unfold c0; ring). lra.
  Qed.
End Cloud.

(** ** Example: the alpha particle of P_Bias, about twenty million electrons, draws of plus or minus one *)
Example C105_resolution_example :
  let sigma := spread (fun gs => IZR (track_electrons (f_of_Z 3728) 34 (f_of_ZE 1 (-2)) al_vecs gs)) (words pm1 3) in
  2170 <= sigma <= 2300.
Proof.
  cbv zeta. destruct al_exact as (x & E & B).
  assert (L : sumR (exact_electrons (R64 (f_of_Z 3728)) 34 al_vecs) = x) by (rewrite E; cbn; lra).
  destruct (f_of_ZE_correct 1 (-2) ltac:(lia) ltac:(lia)) as (Ef & Ff). unfold F2R in Ef. cbn [Fnum Fexp] in Ef. change (bpow radix2 (-2)) with (/ 4) in Ef.
  assert (P6 : / 2 ^ 6 = / 64) by (f_equal; ring).
  assert (E1 : R64 (f_of_Z 1) = 1) by (apply f_of_Z_R; lia).
  pose proof (C105_resolution 34 (f_of_ZE 1 (-2)) Ff ltac:(rewrite Ef; lra) (f_of_Z 3728) al_vecs pm1 al_ordinary ltac:(intros C; discriminate C)
    pm1_symmetric pm1_drawn) as A. cbv zeta in A. change (length al_vecs) with 3%nat in A.
  assert (V : average (fun g => R64 g ^ 2) pm1 = 1).
  { unfold average, pm1. cbn [map length]. unfold neg. rewrite B2R_Bopp, E1. cbn. lra. }
  replace (INR 3) with 3 in A by (cbn; lra). rewrite P6, L, V, Ef in A. match type of A with ?P -> _ => assert (H : P) end.
  - rewrite E. intros y g [<-|[<-|[<-|[]]]] Ig; [now left|now left|right].
    assert (G : R64 g * R64 g = 1) by (cbn [pm1 In] in Ig; destruct Ig as [<-|[<-|[]]]; unfold neg; rewrite ?B2R_Bopp, E1; lra).
    rewrite G. lra.
  - specialize (A H). apply Rabs_le_inv in A.
    assert (S3 : sqrt 3 <= 2) by (rewrite <- (sqrt_pow2 2) by lra; apply sqrt_le_1_alt; lra). pose proof (sqrt_pos 3).
    assert (U : sqrt (1 * / 4 * 1 * x) <= 2292) by (rewrite <- (sqrt_pow2 2292) by lra; apply sqrt_le_1_alt; lra).
    assert (Lo : 2179 <= sqrt (1 * / 4 * 1 * x)) by (rewrite <- (sqrt_pow2 2179) by lra; apply sqrt_le_1_alt; lra).
    lra.
Qed.

(** The same alpha particle with and without the row in between. *)
Example C105_steps_example :
  let p := t_v (al_row 3 0 0) in let q := t_v (al_row 0 3 0) in let r := t_v (al_row 1 1 0) in
  let sigma k := spread (fun gs => IZR (track_electrons (f_of_Z 3728) 34 (f_of_ZE 1 (-2)) (p :: k) gs)) (words pm1 (length (p :: k))) in
  Rabs (sigma [q; r] - sigma [r]) <= 2.
Proof.
  intros p q r. cbv zeta. destruct al_exact as (x & E & B). destruct al_moving as (_ & L1 & L2 & L3). fold p in L1. fold q in L2. fold r in L3.
  destruct (f_of_ZE_correct 1 (-2) ltac:(lia) ltac:(lia)) as (Ef & Ff). unfold F2R in Ef. cbn [Fnum Fexp] in Ef. change (bpow radix2 (-2)) with (/ 4) in Ef.
  assert (P6 : / 2 ^ 6 = / 64) by (f_equal; ring). assert (E1 : R64 (f_of_Z 1) = 1) by (apply f_of_Z_R; lia).
  assert (Em : R64 (f_of_Z 3728) = 3728) by (apply f_of_Z_R; lia).
  assert (O2 : ordinary (f_of_Z 3728) 34 [p; r]).
  { destruct al_ordinary as (A1 & A2 & A3 & A4). split; [exact A1|]. split; [exact A2|]. split; [exact A3|].
    intros t [<-|[<-|[]]]; apply A4; [now left|right; right; now left]. }
  assert (G : forall g, In g pm1 -> R64 g * R64 g = 1).
  { intros g Ig. cbn [pm1 In] in Ig. destruct Ig as [<-|[<-|[]]]; unfold neg; rewrite ?B2R_Bopp, E1; lra. }
  pose proof (C105_steps 34 (f_of_ZE 1 (-2)) Ff ltac:(rewrite Ef; lra) (f_of_Z 3728) p [q; r] [r] pm1 al_ordinary O2 eq_refl) as A.
  cbv zeta in A. change (length [p; q; r]) with 3%nat in *. change (length [p; r]) with 2%nat in *.
  match type of A with _ -> _ -> _ -> _ -> _ -> _ -> ?c => assert (K : c) end.
  { apply A; clear A.
    - intros [|[|[|i]]] a b Ha Hb; cbn [nth_error] in Ha, Hb; try (destruct i; discriminate Hb); try discriminate Hb; apply (f_equal (fun o => match o with Some v => v | None => p end)) in Ha, Hb;
        cbv beta iota in Ha, Hb; rewrite <- Ha, <- Hb; unfold kinetic; rewrite Em, ?L1, ?L2; lra.
    - intros [|[|i]] a b Ha Hb; cbn [nth_error] in Ha, Hb; try (destruct i; discriminate Hb); try discriminate Hb; apply (f_equal (fun o => match o with Some v => v | None => p end)) in Ha, Hb;
        cbv beta iota in Ha, Hb; rewrite <- Ha, <- Hb; unfold kinetic; rewrite Em, ?L1, ?L2; lra.
    - intros C; discriminate C.
    - exact pm1_symmetric.
    - exact pm1_drawn.
    - change [p; q; r] with al_vecs. rewrite E. cbn [exact_electrons steps map app]. unfold kinetic. rewrite Em, L1.
      intros y g I Ig. rewrite (G g Ig), Ef. destruct I as [<-|[<-|[<-|[<-|[<-|[]]]]]]; [now left|now left|right; lra|now left|right].
      rewrite Rabs_left1 by lra. lra. }
  rewrite P6 in K. eapply Rle_trans; [exact K|].
  assert (S3 : sqrt (INR 3) <= 19 / 10) by (rewrite <- (sqrt_pow2 (19 / 10)) by lra; apply sqrt_le_1_alt; cbn; lra).
  assert (S2 : sqrt (INR 2) <= 15 / 10) by (rewrite <- (sqrt_pow2 (15 / 10)) by lra; apply sqrt_le_1_alt; cbn; lra).
  lra.
Qed.

(** The same alpha particle in the whole simulation: a generator that delivers a list of signs, gain 10. *)
Definition sign_of (b : bool) : f64 := if b then neg (f_of_Z 1) else f_of_Z 1.
Definition sign_normals (n : nat) (g : list bool) : list f64 * list bool := (map (fun i => sign_of (nth i g false)) (seq 0 n), skipn n g).
Definition sign_uniform (n : nat) (g : list bool) : list f64 * list bool := (repeat half n, g).
Definition sign_sim (fexp : f64 -> f64) := simulate fexp (fun z a => Ok (100 * z + a)%Z) (al_traj fexp)
  (electrons64 fexp al_mass 34 (f_of_ZE 1 (-2)) sign_normals) sign_uniform.
Example C105_cloud_example (fexp : f64 -> f64) :
  let charge (gs : list f64) := cloud_charge (sign_sim fexp [0]%Z tt [2]%Z [4]%Z (al_config fexp) (map (@Bsign prec64 emax64) gs) [0]%Z) in
  21700 <= spread charge (words pm1 3) <= 23000 /\
  exists x, Rabs (average charge (words pm1 3) - 10 * x) <= 31 /\ share_of (fun gs => Rle_bool 230000 (Rabs (charge gs - 10 * x))) (words pm1 3) <= / 81.
Proof.
  cbv zeta. destruct al_exact as (x & E & B).
  destruct (f_of_ZE_correct 1 (-2) ltac:(lia) ltac:(lia)) as (Ef & Ff). unfold F2R in Ef. cbn [Fnum Fexp] in Ef. change (bpow radix2 (-2)) with (/ 4) in Ef.
  assert (P6 : / 2 ^ 6 = / 64) by (f_equal; ring). assert (P53 : 2 ^ 53 = 9007199254740992) by ring.
  assert (E1 : R64 (f_of_Z 1) = 1) by (apply f_of_Z_R; lia).
  assert (F1 : is_finite (f_of_Z 1) = true) by (apply f_of_Z_fin; lia).
  assert (TB : f_to_Z (drift_time fexp (al_config fexp) half) = Some 256%Z) by (vm_compute; reflexivity).
  destruct (f_to_Z_inv _ _ TB) as (Fin & _).
  assert (Fe : is_finite (f_of_ZE 1 (-9)) = true) by (apply (f_of_ZE_correct 1 (-9)); lia).
  assert (Tr : forall t, In t al_track -> t_z t = half /\ t_x t = f_of_Z 0 /\ t_y t = f_of_Z 0).
  { intros t [<-|[<-|[<-|[]]]]; repeat split. }
  assert (Sg : forall b, is_finite (sign_of b) = true /\ Rabs (R64 (sign_of b)) <= 32).
  { intros [|]; unfold sign_of, neg; rewrite ?is_finite_Bopp, ?B2R_Bopp, ?Rabs_Ropp, E1, Rabs_R1; split; try exact F1; lra. }
  assert (V : average (fun g => R64 g ^ 2) pm1 = 1).
  { unfold average, pm1. cbn [map length]. unfold neg. rewrite B2R_Bopp, E1. cbn. lra. }
  assert (Ex : event_exact 34 (map (motion al_mass) [(204%Z, al_track)]) = x).
  { unfold event_exact, motion, al_mass. cbn [map fst snd]. change (map t_v al_track) with al_vecs. rewrite E. cbn. lra. }
  destruct al_moving as (U & _).
  pose proof (C105_cloud fexp (fun z a => Ok (100 * z + a)%Z) (al_traj fexp) al_mass 34 (f_of_ZE 1 (-2)) sign_normals sign_uniform
    [0]%Z tt [2]%Z [4]%Z (al_config fexp) [0]%Z (ex_grid 300) (ex_edges fexp) [(204%Z, al_track)] pm1 (map (@Bsign prec64 emax64))) as C.
  cbv zeta in C. rewrite Ex, V in C. change (list_sum (map (fun nt : Z * list (@traj vec64) => length (snd nt)) [(204%Z, al_track)])) with 3%nat in C.
  change (IZR (c_gain fexp (al_config fexp))) with 10 in C. replace (INR 3) with 3 in C by (cbn; lra). rewrite P6, Ef in C.
  change (simulate fexp (fun z a => Ok (100 * z + a)%Z) (al_traj fexp) (electrons64 fexp al_mass 34 (f_of_ZE 1 (-2)) sign_normals) sign_uniform) with (sign_sim fexp) in C.
  match type of C with context [Rabs ?d <= ?b /\ ?e /\ ?f] => assert (K : Rabs d <= b /\ e /\ f) end.
  { apply C; clear C; try reflexivity; try assumption.
    - intros i j. cbn. lia.
    - intros p nuc track t tb _ Et It Hb.
      apply (f_equal (fun r => match r with Ok x => x | _ => [] end)) in Et. cbv beta match delta [al_traj] in Et. subst track.
      rewrite (proj1 (Tr t It)), TB in Hb. assert (tb = 256%Z) by congruence. subst. reflexivity.
    - intros n g. cbn [sign_uniform fst]. split; [apply repeat_length|].
      apply Forall_forall. intros u Hu. apply repeat_spec in Hu as ->. exact half_ok.
    - intros n g. cbn [sign_normals fst]. split; [now rewrite map_length, seq_length|].
      apply Forall_forall. intros u Hu. apply in_map_iff in Hu as (i & <- & _). apply Sg.
    - apply f_of_Z_0.
    - change (R64 (f_of_Z 1) <> 0). rewrite E1; lra.
    - lia.
    - lra.
    - cbn. lia.
    - intros p nuc track _ Et.
      apply (f_equal (fun r => match r with Ok x => x | _ => [] end)) in Et. cbv beta match delta [al_traj] in Et. subst track.
      split; [exact U|]. intros t It. rewrite (proj1 (Tr t It)). exact Fin.
    - change (filter (is_charged [2]%Z) [0]%Z) with [0]%Z. constructor; [|constructor].
      exists 2%Z, 4%Z, 0%Z. repeat split.
    - intros nt t [<-|[]] It. cbn [snd] in It. destruct (Tr t It) as (Tz & Tx & Ty). rewrite Tz, Tx, Ty. split.
      + exists 300%Z. exists 0%Z, 0%Z. split; [vm_compute; reflexivity|]. split; [lia|]. split; [lia|]. split; [reflexivity|]. split; [lia|].
        intros I. apply (proj2 (Bool.not_true_iff_false (existsb (Z.eqb 300) BEAM_PADS))); [vm_compute; reflexivity|].
        apply existsb_exists. exists 300%Z. split; [exact I|apply Z.eqb_refl].
      + intros tb Et. rewrite TB in Et. assert (tb = 256%Z) by congruence. lia.
    - intros C; discriminate C.
    - exact pm1_symmetric.
    - exact pm1_drawn.
    - cbn [map]. constructor; [|constructor]. split; [exact al_ordinary|]. unfold motion. cbn [fst snd]. change (map t_v al_track) with al_vecs. unfold al_mass. rewrite E.
      intros y g [<-|[<-|[<-|[]]]] Ig; [now left|now left|right].
      assert (G : R64 g * R64 g = 1) by (cbn [pm1 In] in Ig; destruct Ig as [<-|[<-|[]]]; unfold neg; rewrite ?B2R_Bopp, E1; lra).
      rewrite G, Ef. lra.
    - lra.
    - assert (S0 : Bsign (f_of_Z 1) = false) by (vm_compute; reflexivity).
      assert (S1 : Bsign (neg (f_of_Z 1)) = true) by (vm_compute; reflexivity).
      intros gs I. split.
      + cbn [map snd length al_track blocks sign_normals seq nth]. cbn [concat]. rewrite app_nil_r.
        cbn [words pm1 flat_map map app In] in I. repeat destruct I as [<-|I]; try destruct I; cbn [map nth]; rewrite ?S0, ?S1; reflexivity.
      + assert (Al : forallb (fun gs => is_ok (sign_sim fexp [0]%Z tt [2]%Z [4]%Z (al_config fexp) (map (@Bsign prec64 emax64) gs) [0]%Z)) (words pm1 3) = true) by (vm_compute; reflexivity).
        rewrite forallb_forall in Al. specialize (Al gs I). destruct (sign_sim fexp [0]%Z tt [2]%Z [4]%Z (al_config fexp) (map (@Bsign prec64 emax64) gs) [0]%Z) as [r|]; [exists r; reflexivity|discriminate Al]. }
  clear C. destruct K as (K & Mn & Ch). apply Rabs_le_inv in K.
  assert (S3 : sqrt 3 <= 2) by (rewrite <- (sqrt_pow2 2) by lra; apply sqrt_le_1_alt; lra). pose proof (sqrt_pos 3).
  assert (Up : sqrt (1 * / 4 * 1 * x) <= 2292) by (rewrite <- (sqrt_pow2 2292) by lra; apply sqrt_le_1_alt; lra).
  assert (Lo : 2179 <= sqrt (1 * / 4 * 1 * x)) by (rewrite <- (sqrt_pow2 2179) by lra; apply sqrt_le_1_alt; lra).
  split; [lra|]. exists x. split; [apply Rabs_le; lra|].
  replace (/ 81) with (/ 9 ^ 2) by (f_equal; ring). eapply Rle_trans; [|apply (Ch 9)]; [|lra|lra].
  apply share_le; [intros C; discriminate C|]. intros gs _ Hq.
  match type of Hq with Rle_bool ?a ?b = true => destruct (Rle_bool_spec a b) as [L|L]; [|discriminate Hq] end.
  apply Rle_bool_true. eapply Rle_trans; [|exact L]. lra.
Qed.

Print Assumptions C105_resolution.
Print Assumptions C105_cloud.
Print Assumptions C105_steps.
