(** P_Response.v -- C26: amplitude and integral of a signal in binary64. *)
From Coq Require Import ZArith Reals Lia Lra.
From Flocq Require Import Core BinarySingleNaN.
From Verif Require Import Base F64 F64Bounds Response.
Local Open Scope R_scope.

(** Finite and not negative. *)
Definition nonneg (x : f64) : Prop := is_finite x = true /\ 0 <= R64 x.

Lemma fin_4095 : is_finite (f_of_Z 4095) = true. Proof. apply f_of_Z_fin. lia. Qed.
Lemma R_4095 : R64 (f_of_Z 4095) = 4095. Proof. apply f_of_Z_R. lia. Qed.

(** One sample: the rounded product, cut at 4095, also when the product overflows. *)
Lemma clip_mul r e : nonneg r -> nonneg e ->
  is_finite (clip (fmul r e)) = true /\
  R64 (clip (fmul r e)) = Rmin 4095 (rnd64 (R64 r * R64 e)).
Proof.
  intros [Fr Hr] [Fe He].
  assert (P : 0 <= R64 r * R64 e) by (now apply Rmult_le_pos).
  assert (Q : 0 <= rnd64 (R64 r * R64 e)).
  { apply rnd64_ge_fmt; [apply generic_format_0|exact P]. }
  pose proof (Bmult_correct prec64 emax64 _ _ mode_NE r e) as C. cbn [round_mode] in C.
  destruct (Rlt_bool_spec (Rabs (rnd64 (R64 r * R64 e))) (bpow radix2 emax64)) as [L|L].
  - destruct C as (CR & CF & _). fold (fmul r e) in CR, CF. rewrite Fr, Fe in CF.
    unfold clip. rewrite fltb_R by (auto using fin_4095). rewrite R_4095, CR.
    destruct (Rlt_bool_spec 4095 (rnd64 (R64 r * R64 e))) as [G|G].
    + split; [apply fin_4095|]. rewrite R_4095, Rmin_left; lra.
    + split; [exact CF|]. rewrite CR, Rmin_right; lra.
  - fold (fmul r e) in C.
    assert (B4 : 4095 < bpow radix2 emax64).
    { apply Rlt_trans with (2 := bpow1024_big). rewrite <- IZR_pow2 by lia. apply IZR_lt. lia. }
    rewrite Rabs_pos_eq in L by exact Q.
    assert (NZ : R64 r * R64 e <> 0).
    { intros Z0. rewrite Z0, rnd64_0 in L. lra. }
    assert (Pr : 0 < R64 r) by (destruct Hr as [?|Z0]; [auto|rewrite <- Z0, Rmult_0_l in NZ; lra]).
    assert (Pe : 0 < R64 e) by (destruct He as [?|Z0]; [auto|rewrite <- Z0, Rmult_0_r in NZ; lra]).
    rewrite (Bsign_pos _ Pr), (Bsign_pos _ Pe) in C. cbn [xorb] in C.
    assert (E : fmul r e = B754_infinity false).
    { destruct (fmul r e) as [s|s| |s m ex Hm]; cbn in C; try discriminate. now injection C as ->. }
    rewrite E. unfold clip.
    assert (LT : fltb (f_of_Z 4095) (B754_infinity false) = true).
    { pose proof fin_4095 as F. destruct (f_of_Z 4095) as [s|s| |s m ex Hm]; try discriminate; now destruct s. }
    rewrite LT. split; [apply fin_4095|]. rewrite R_4095, Rmin_left; lra.
Qed.

Definition cut (r e : R) : R := Rmin 4095 (rnd64 (r * e)).

Lemma cut_range r e : 0 <= r -> 0 <= e -> 0 <= cut r e <= 4095.
Proof.
  intros Hr He. unfold cut. split; [|apply Rmin_l].
  apply Rmin_glb; [lra|]. apply rnd64_ge_fmt; [apply generic_format_0|now apply Rmult_le_pos].
Qed.

Lemma cut_mono r e e' : 0 <= r -> e <= e' -> cut r e <= cut r e'.
Proof.
  intros Hr He. unfold cut. apply Rle_min_compat_l. apply rnd64_le. now apply Rmult_le_compat_l.
Qed.

Lemma signal_ok response e : Forall nonneg response -> nonneg e ->
  Forall (fun x => is_finite x = true /\ 0 <= R64 x <= 4095) (signal response e) /\
  map R64 (signal response e) = map (fun r => cut (R64 r) (R64 e)) response.
Proof.
  intros F He. unfold signal. induction F as [|r l Hr F [IH1 IH2]]; simpl; [split; constructor|].
  destruct (clip_mul r e Hr He) as (C1 & C2).
  split.
  - constructor; auto. split; auto. rewrite C2. apply cut_range; [apply Hr|apply He].
  - f_equal; [exact C2|exact IH2].
Qed.

(** The maximum. *)
Fixpoint rmax (m : R) (l : list R) : R := match l with [] => m | x :: l' => rmax (Rmax m x) l' end.

Lemma max_from_R l : forall m, is_finite m = true -> Forall (fun x => is_finite x = true) l ->
  is_finite (max_from m l) = true /\ R64 (max_from m l) = rmax (R64 m) (map R64 l).
Proof.
  assert (NN : forall x : f64, is_finite x = true -> is_nan x = false) by (intros []; auto; discriminate).
  induction l as [|x l IH]; intros m Fm F; cbn [max_from map rmax]; rewrite (NN _ Fm); [auto|].
  inversion F as [|? ? Fx F']; subst. rewrite (NN _ Fx), fltb_R by auto.
  destruct (Rlt_bool_spec (R64 m) (R64 x)) as [L|L].
  - rewrite Rmax_right by lra. now apply IH.
  - rewrite Rmax_left by lra. now apply IH.
Qed.

Lemma rmax_ge l : forall m, m <= rmax m l /\ forall x, In x l -> x <= rmax m l.
Proof.
  induction l as [|y l IH]; intros m; simpl; [split; [lra|tauto]|].
  destruct (IH (Rmax m y)) as [A B]. pose proof (Rmax_l m y). pose proof (Rmax_r m y).
  split; [lra|]. intros x [->|Hx]; [lra|auto].
Qed.
Lemma rmax_in l : forall m, rmax m l = m \/ In (rmax m l) l.
Proof.
  induction l as [|y l IH]; intros m; simpl; [auto|].
  destruct (IH (Rmax m y)) as [A|A]; [|auto]. rewrite A. unfold Rmax. destruct (Rle_dec m y); auto.
Qed.
Lemma rmax_mono l : forall l' m m', m <= m' -> Forall2 Rle l l' -> rmax m l <= rmax m' l'.
Proof.
  induction l as [|x l IH]; intros l' m m' H F; inversion F; subst; simpl; [auto|].
  apply IH; auto. apply Rmax_lub; [apply Rle_trans with m'; [auto|apply Rmax_l]|apply Rle_trans with y; [auto|apply Rmax_r]].
Qed.

(** The rounded running sum. *)
Definition rsum (l : list R) (s : R) : R := fold_left (fun s x => rnd64 (s + x)) l s.

Lemma bound_fin n : (Z.abs n <= 2 ^ 53)%Z -> IZR n <= bpow radix2 53.
Proof. intros H. rewrite <- IZR_pow2 by lia. apply IZR_le. lia. Qed.

Lemma sum_R l : forall s k, is_finite s = true -> (0 <= k)%Z -> 0 <= R64 s <= IZR (k * 4095) ->
  ((k + Z.of_nat (length l)) * 4095 <= 2 ^ 53)%Z ->
  Forall (fun x => is_finite x = true /\ 0 <= R64 x <= 4095) l ->
  is_finite (fold_left fadd l s) = true /\ R64 (fold_left fadd l s) = rsum (map R64 l) (R64 s) /\
  R64 s <= R64 (fold_left fadd l s) <= IZR ((k + Z.of_nat (length l)) * 4095).
Proof.
  induction l as [|x l IH]; intros s k Fs Hk Hs Hn F.
  - simpl. rewrite Z.add_0_r. repeat split; auto; lra.
  - inversion F as [|? ? [Fx Hx] F']; subst. cbn [length fold_left map rsum].
    assert (B : R64 s + R64 x <= IZR ((k + 1) * 4095)).
    { rewrite mult_IZR, plus_IZR in *. lra. }
    assert (N1 : ((k + 1 + Z.of_nat (length l)) * 4095 <= 2 ^ 53)%Z) by (cbn [length] in Hn; lia).
    destruct (fadd_fin s x 53 Fs Fx ltac:(lia)) as [E1 E2].
    { rewrite Rabs_pos_eq by lra. apply Rle_trans with (1 := B). apply bound_fin. lia. }
    assert (LO : R64 s <= R64 (fadd s x)).
    { rewrite E1. apply rnd64_ge_fmt; [apply fmt64_R|lra]. }
    assert (HI : R64 (fadd s x) <= IZR ((k + 1) * 4095)).
    { rewrite E1. apply rnd64_le_IZR; [lia|exact B]. }
    destruct (IH (fadd s x) (k + 1)%Z E2 ltac:(lia) ltac:(lra) N1 F') as (A1 & A2 & A3).
    split; [exact A1|]. split.
    + rewrite A2. now rewrite E1.
    + rewrite Nat2Z.inj_succ. replace (k + Z.succ (Z.of_nat (length l)))%Z with (k + 1 + Z.of_nat (length l))%Z by lia.
      lra.
Qed.

Lemma rsum_ge l : forall s, fmt64 s -> (forall x, In x l -> fmt64 x /\ 0 <= x) -> 0 <= s ->
  s <= rsum l s /\ forall x, In x l -> x <= rsum l s.
Proof.
  unfold rsum. induction l as [|y l IH]; intros s Fs F Hs; cbn [fold_left]; [split; [lra|simpl; tauto]|].
  destruct (F y (or_introl eq_refl)) as [Fy Hy].
  assert (A : s <= rnd64 (s + y)) by (apply rnd64_ge_fmt; [auto|lra]).
  assert (B : y <= rnd64 (s + y)) by (apply rnd64_ge_fmt; [auto|lra]).
  destruct (IH (rnd64 (s + y))) as [C D].
  - apply generic_format_round; [apply fexp64_valid|apply valid_rnd_N].
  - intros x Hx. apply F. now right.
  - lra.
  - split; [lra|]. intros x [->|Hx]; [lra|auto].
Qed.

Lemma rsum_mono l : forall l' s s', s <= s' -> Forall2 Rle l l' -> rsum l s <= rsum l' s'.
Proof.
  unfold rsum. induction l as [|x l IH]; intros l' s s' H F; inversion F; subst; cbn [fold_left]; [auto|].
  apply IH; auto. apply rnd64_le. lra.
Qed.

Lemma apply_R response e : response <> [] -> Forall nonneg response -> nonneg e ->
  (Z.of_nat (length response) * 4095 <= 2 ^ 53)%Z ->
  exists amp int, apply_response response e = Ok (amp, int) /\
    is_finite amp = true /\ is_finite int = true /\
    (exists h t, map (fun r => cut (R64 r) (R64 e)) response = h :: t /\ R64 amp = rmax h t) /\
    R64 int = rsum (map (fun r => cut (R64 r) (R64 e)) response) 0 /\
    R64 int <= IZR (Z.of_nat (length response) * 4095).
Proof.
  intros NE F He Hn. destruct (signal_ok response e F He) as (S1 & S2).
  unfold apply_response.
  assert (L : length (signal response e) = length response) by apply map_length.
  destruct (signal response e) as [|h t] eqn:Es.
  { destruct response; [congruence|discriminate]. }
  inversion S1 as [|? ? [Fh Hh] S1']; subst.
  destruct (max_from_R t h Fh) as (M1 & M2).
  { eapply Forall_impl; [|exact S1']. intros a [? _]. auto. }
  assert (Z0 : R64 (f_of_Z 0) = 0) by (apply f_of_Z_R; lia).
  destruct (sum_R (h :: t) (f_of_Z 0) 0) as (A1 & A2 & A3).
  - apply f_of_Z_fin; lia.
  - lia.
  - rewrite Z0. simpl. lra.
  - cbn [length] in L |- *. change (@length (binary_float prec64 emax64) t) with (@length f64 t). lia.
  - constructor; auto.
  - exists (max_from h t), (array_sum (h :: t)). cbn [array_max bind].
    split; [reflexivity|]. split; [exact M1|]. split; [exact A1|].
    split. { exists (R64 h), (map R64 t). split; [now rewrite <- S2|exact M2]. }
    split. { unfold array_sum. now rewrite A2, Z0, S2. }
    unfold array_sum. apply Rle_trans with (1 := proj2 A3). apply IZR_le.
    cbn [length] in L |- *. change (@length (binary_float prec64 emax64) t) with (@length f64 t). lia.
Qed.

(** C26: range of amplitude and integral (up to 2^41 samples). *)
Theorem C26_adc_range :
  forall response e,
  response <> [] -> (Z.of_nat (length response) <= 2 ^ 41)%Z -> Forall nonneg response -> nonneg e ->
  exists amp int, apply_response response e = Ok (amp, int) /\
    is_finite amp = true /\ is_finite int = true /\
    0 <= R64 amp <= 4095 /\
    R64 amp <= R64 int <= IZR (Z.of_nat (length response)) * 4095.
Proof.
  intros response e NE Hn F He.
  destruct (apply_R response e NE F He ltac:(lia)) as (amp & int & E & Fa & Fi & (h & t & El & Ra) & Ri & Hi).
  exists amp, int. split; [exact E|]. split; [exact Fa|]. split; [exact Fi|].
  assert (Hin : In (R64 amp) (h :: t)).
  { rewrite Ra. destruct (rmax_in t h) as [->|X]; [now left|now right]. }
  assert (All : forall x, In x (h :: t) -> 0 <= x <= 4095 /\ fmt64 x).
  { rewrite <- El. intros x Hx. apply in_map_iff in Hx. destruct Hx as (r & <- & Hr).
    rewrite Forall_forall in F. specialize (F r Hr).
    split; [apply cut_range; [apply F|apply He]|].
    unfold cut. apply (Rmin_case _ _ (fun z => fmt64 z)).
    - apply fmt64_IZR. lia.
    - apply generic_format_round; [apply fexp64_valid|apply valid_rnd_N]. }
  split; [now apply All|].
  rewrite mult_IZR in Hi. split; [|exact Hi].
  rewrite Ri, El. apply rsum_ge; auto; try lra; [apply generic_format_0|].
  intros x Hx. destruct (All x Hx) as [[? _] ?]. auto.
Qed.

(** C26: more electrons never give a smaller amplitude or integral. *)
Theorem C26_monotone :
  forall response e e' amp int amp' int',
  (Z.of_nat (length response) <= 2 ^ 41)%Z -> Forall nonneg response -> nonneg e -> nonneg e' ->
  R64 e <= R64 e' ->
  apply_response response e = Ok (amp, int) -> apply_response response e' = Ok (amp', int') ->
  R64 amp <= R64 amp' /\ R64 int <= R64 int'.
Proof.
  intros response e e' amp int amp' int' Hn F He He' Le E E'.
  assert (NE : response <> []) by (intros ->; discriminate).
  destruct (apply_R response e NE F He ltac:(lia)) as (a & i & E1 & _ & _ & (h & t & El & Ra) & Ri & _).
  destruct (apply_R response e' NE F He' ltac:(lia)) as (a' & i' & E2 & _ & _ & (h' & t' & El' & Ra') & Ri' & _).
  assert (a = amp /\ i = int) as [-> ->] by (split; congruence).
  assert (a' = amp' /\ i' = int') as [-> ->] by (split; congruence).
  assert (M : Forall2 Rle (map (fun r => cut (R64 r) (R64 e)) response)
                          (map (fun r => cut (R64 r) (R64 e')) response)).
  { clear - F Le. induction F as [|r l [_ Hr] F IH]; simpl; constructor; auto. now apply cut_mono. }
  split.
  - rewrite Ra, Ra'. rewrite El, El' in M. inversion M; subst. now apply rmax_mono.
  - rewrite Ri, Ri'. apply rsum_mono; [lra|exact M].
Qed.

(** C26: an unsaturated amplitude is the rounded product of one sample and the electrons, and no
    sample gives more; it is 4095 exactly if some sample reaches 4095. *)
Theorem C26_amplitude_is_peak :
  forall response e amp int,
  (Z.of_nat (length response) <= 2 ^ 41)%Z -> Forall nonneg response -> nonneg e ->
  apply_response response e = Ok (amp, int) ->
  (exists r, In r response /\ R64 amp = Rmin 4095 (rnd64 (R64 r * R64 e))) /\
  (forall r, In r response -> Rmin 4095 (rnd64 (R64 r * R64 e)) <= R64 amp) /\
  (R64 amp = 4095 <-> exists r, In r response /\ 4095 <= rnd64 (R64 r * R64 e)).
Proof.
  intros response e amp int Hn F He E.
  assert (NE : response <> []) by (intros ->; discriminate).
  destruct (apply_R response e NE F He ltac:(lia)) as (a & i & E1 & _ & _ & (h & t & El & Ra) & Ri & _).
  assert (a = amp) as -> by congruence.
  assert (P1 : exists r, In r response /\ R64 amp = cut (R64 r) (R64 e)).
  { assert (Hin : In (R64 amp) (h :: t)).
    { rewrite Ra. destruct (rmax_in t h) as [->|X]; [now left|now right]. }
    rewrite <- El in Hin. apply in_map_iff in Hin. destruct Hin as (r & X & Y). eauto. }
  assert (P2 : forall r, In r response -> cut (R64 r) (R64 e) <= R64 amp).
  { intros r Hr. assert (Hin : In (cut (R64 r) (R64 e)) (h :: t)).
    { rewrite <- El. apply in_map_iff. eauto. }
    rewrite Ra. destruct (rmax_ge t h) as [A B]. destruct Hin as [<-|Hin]; auto. }
  split; [exact P1|]. split; [exact P2|]. split.
  - intros X. destruct P1 as (r & Hr & Y). exists r. split; auto. rewrite X in Y. unfold cut in Y.
    rewrite Y. apply Rmin_r.
  - intros (r & Hr & Hc). apply Rle_antisym.
    + destruct P1 as (r' & _ & ->). apply Rmin_l.
    + specialize (P2 r Hr). unfold cut in P2. rewrite Rmin_left in P2; auto.
Qed.

(** Example: samples 0, 2, 1 with 1000 and with 3000 electrons (saturated). *)
Lemma nonneg_Z z : (0 <= z <= 2 ^ 53)%Z -> nonneg (f_of_Z z).
Proof.
  intros H. split; [apply f_of_Z_fin; lia|]. rewrite f_of_Z_R by lia. apply IZR_le. lia.
Qed.
Definition ex_resp := [f_of_Z 0; f_of_Z 2; f_of_Z 1].
Example C26_hypotheses : ex_resp <> [] /\ Forall nonneg ex_resp /\ nonneg (f_of_Z 1000) /\
  nonneg (f_of_Z 3000) /\ R64 (f_of_Z 1000) <= R64 (f_of_Z 3000).
Proof.
  split; [discriminate|]. split; [|split; [|split]]; try (apply nonneg_Z; lia).
  - unfold ex_resp. apply Forall_cons; [|apply Forall_cons; [|apply Forall_cons; [|apply Forall_nil]]]; apply nonneg_Z; lia.
  - rewrite !f_of_Z_R by lia. lra.
Qed.
Definition viewZ (r : res (f64 * f64)) : res (option Z * option Z) :=
  match r with Ok (a, b) => Ok (f_to_Z a, f_to_Z b) | Err x => Err x end.
Example C26_example :
  viewZ (apply_response ex_resp (f_of_Z 1000)) = Ok (Some 2000%Z, Some 3000%Z) /\
  viewZ (apply_response ex_resp (f_of_Z 3000)) = Ok (Some 4095%Z, Some 7095%Z).
Proof. split; vm_compute; reflexivity. Qed.

Print Assumptions C26_adc_range.
Print Assumptions C26_monotone.
Print Assumptions C26_amplitude_is_peak.
