(** P_ExcitF64.v -- C80, continued: what the sampled excitation energies are, rounding included. *)
From Coq Require Import ZArith Reals Lra Lia List.
From Flocq Require Import Core BinarySingleNaN Sterbenz.
From Verif Require Import Base F64 F64Bounds Sampling SamplingF64 P_KinF64 P_SamplingF64.
Import ListNotations.
Local Open Scope R_scope.

(** Gaussian: the width is a full width at half maximum, the standard deviation 1/2.355 of it. *)
Theorem C80_gaussian {G} (unit_draw normal_draw : G -> f64 * G) bw_draw (c w : f64) (K : R) :
  is_finite c = true -> is_finite w = true -> Rabs (R64 c) <= 2 ^ 20 -> 0 <= R64 w <= 2 ^ 20 -> 0 <= K <= 2 ^ 10 ->
  (forall g, within (- K) K (fst (normal_draw g))) ->
  forall g, exists x, sample_excitation64 unit_draw normal_draw bw_draw (ExGaussian64 c w) g = (Ok x, snd (normal_draw g)) /\
    is_finite x = true /\
    let z := R64 (fst (normal_draw g)) in
    Rabs (R64 x - (R64 c + R64 w * (1000 / 2355) * z)) <= / 2 ^ 50 * (Rabs (R64 c) + R64 w * Rabs z + 1).
Proof.
  intros Fc Fw Bc Bw HK Hn g. cbv zeta. cbn [sample_excitation64]. unfold normal64. specialize (Hn g). destruct (normal_draw g) as [z g'] eqn:En. cbn [fst snd] in *.
  destruct Hn as (Fz & Hz). set (d := fdiv (f_of_Z 2355) (f_of_Z 1000)) in *.
  destruct small_facts as (U0 & U1 & N0 & N1).
  assert (Ed : R64 d = rnd64 (2355 / 1000)).
  { unfold d. destruct (fdiv_fin (f_of_Z 2355) (f_of_Z 1000) 2) as (-> & _); [apply f_of_Z_fin; lia| |lia| |].
    all: rewrite ?(f_of_Z_R 2355), ?(f_of_Z_R 1000) by lia; try reflexivity.
    - apply Rgt_not_eq. lra.
    - change (b2 2) with 4. rewrite Rabs_pos_eq; lra. }
  pose proof (rnd_bound (2355 / 1000) 3 ltac:(rewrite Rabs_pos_eq; lra)) as Dd. rewrite <- Ed in Dd. clearbody d. clear Ed.
  apply Rabs_le_inv in Dd. set (D := R64 d) in *.
  assert (D1 : 23 / 10 <= D <= 24 / 10) by lra.
  set (W := R64 w) in *. set (Z := R64 z) in *. set (C := R64 c) in *.
  assert (I0 : 0 <= / D <= 10 / 23).
  { split; [left; apply Rinv_0_lt_compat; lra|]. replace (10 / 23) with (/ (23 / 10)) by field. apply Rinv_le; lra. }
  assert (WD : 0 <= W / D <= W * (10 / 23)).
  { unfold Rdiv. split; [apply Rmult_le_pos; lra|apply Rmult_le_compat_l; lra]. }
  destruct (fdiv_fin w d 21) as (Es & Fs); [exact Fw|fold D; apply Rgt_not_eq; lra|lia| |].
  { fold W D. change (b2 21) with 2097152. rewrite Rabs_pos_eq by lra. lra. }
  fold W D in Es. set (s := fdiv w d) in *.
  assert (Ns : fltb s (f_of_Z 0) = false).
  { rewrite fltb_R by (try exact Fs; apply f_of_Z_fin; lia). apply Rlt_bool_false. rewrite (f_of_Z_R 0), Es by lia.
    rewrite <- rnd64_0. apply rnd64_le. lra. }
  rewrite Ns. cbv beta. rewrite En. eexists. split; [reflexivity|].
  pose proof (rnd_bound (W / D) (W * (10 / 23)) ltac:(rewrite Rabs_pos_eq; lra)) as Ds. rewrite <- Es in Ds. apply Rabs_le_inv in Ds. set (S := R64 s) in *. clearbody s.
  (* W / D against W / 2.355 *)
  assert (WE : Rabs (W / D - W * (1000 / 2355)) <= u * W * (6 / 10)).
  { replace (W / D - W * (1000 / 2355)) with (W * / D * ((2355 / 1000 - D) * (1000 / 2355))) by (field; lra).
    rewrite Rabs_mult, (Rabs_pos_eq (W * / D)) by (unfold Rdiv in WD; lra).
    replace (u * W * (6 / 10)) with (W * (10 / 23) * (u * (138 / 100))) by field.
    apply Rmult_le_compat; [unfold Rdiv in WD; lra|apply Rabs_pos|unfold Rdiv in WD; lra|]. apply Rabs_le. lra. }
  apply Rabs_le_inv in WE.
  assert (UW : 0 <= u * W <= / 100) by (split; [apply Rmult_le_pos; lra|]; apply Rle_trans with (u * 2 ^ 20); [apply Rmult_le_compat_l; lra|lra]).
  assert (SE : Rabs (S - W * (1000 / 2355)) <= u * W * (11 / 10) + eta) by (apply Rabs_le; lra).
  assert (AZ : Rabs Z <= K) by (apply Rabs_le; lra). pose proof (Rabs_pos Z) as AZ0.
  (* the product *)
  set (P := W * Rabs Z). assert (P0 : 0 <= P) by (apply Rmult_le_pos; lra).
  assert (PB : P <= 2 ^ 30).
  { replace (2 ^ 30) with (2 ^ 20 * 2 ^ 10) by ring. apply Rmult_le_compat; lra. }
  assert (Q1 : Rabs (S * Z - W * (1000 / 2355) * Z) <= u * P * (11 / 10) + eta * 2 ^ 10).
  { replace (S * Z - W * (1000 / 2355) * Z) with ((S - W * (1000 / 2355)) * Z) by ring. rewrite Rabs_mult.
    apply Rle_trans with ((u * W * (11 / 10) + eta) * Rabs Z); [apply Rmult_le_compat_r; lra|].
    replace ((u * W * (11 / 10) + eta) * Rabs Z) with (u * P * (11 / 10) + eta * Rabs Z) by (unfold P; ring).
    apply Rplus_le_compat_l. apply Rmult_le_compat_l; lra. }
  assert (Q2 : Rabs (W * (1000 / 2355) * Z) <= P * (1 / 2)).
  { rewrite Rabs_mult, Rabs_pos_eq by lra. replace (W * (1000 / 2355) * Rabs Z) with (P * (1000 / 2355)) by (unfold P; ring). apply Rmult_le_compat_l; lra. }
  assert (UP : 0 <= u * P <= / 100000) by (split; [apply Rmult_le_pos; lra|]; apply Rle_trans with (u * 2 ^ 30); [apply Rmult_le_compat_l; lra|lra]).
  assert (T10 : eta * 2 ^ 10 <= u / 100) by lra.
  assert (Q3 : Rabs (S * Z) <= P * (1 / 2) + / 1000).
  { apply Rabs_le. apply Rabs_le_inv in Q1. apply Rabs_le_inv in Q2. lra. }
  destruct (fmul_fin s z 31) as (Em & Fm); [exact Fs|exact Fz|lia| |].
  { fold S Z. change (b2 31) with 2147483648. lra. }
  fold S Z in Em. set (m := fmul s z) in *.
  pose proof (rnd_bound (S * Z) _ Q3) as Q4. rewrite <- Em in Q4. set (M := R64 m) in *. clearbody m.
  apply Rabs_le_inv in Q1. apply Rabs_le_inv in Q2. apply Rabs_le_inv in Q4. apply Rabs_le_inv in Bc.
  assert (BC : Rabs C <= 2 ^ 20) by (apply Rabs_le; lra). pose proof (Rabs_pos C) as C0.
  assert (Q5 : Rabs (C + M) <= Rabs C + P + / 100).
  { apply Rle_trans with (1 := Rabs_triang C M). assert (Rabs M <= P + / 100) by (apply Rabs_le; lra). lra. }
  destruct (fadd_fin c m 31) as (Ex & Fx); [exact Fc|exact Fm|lia| |].
  { fold C M. change (b2 31) with 2147483648. lra. }
  fold C M in Ex. split; [exact Fx|].
  pose proof (rnd_bound (C + M) _ Q5) as Q6. rewrite <- Ex in Q6. apply Rabs_le_inv in Q6. rewrite eight_u.
  replace (W * Rabs Z) with P by reflexivity. set (X := R64 (fadd c m)) in *.
  assert (UC : 0 <= u * Rabs C) by (apply Rmult_le_pos; lra).
  apply Rabs_le. lra.
Qed.

(** Breit-Wigner: scipy is asked for a distribution around the mass of the state, in units of the width; the excitation
    energy is the mass drawn less the rest mass, without any rounding (the two are within a factor 2). *)
Theorem C80_breit_wigner {G} (unit_draw normal_draw : G -> f64 * G) bw_draw (m c w : f64) :
  is_finite m = true -> is_finite c = true -> is_finite w = true -> 1 <= R64 m <= 2 ^ 20 -> 0 <= R64 c <= 2 ^ 20 -> / 2 ^ 20 <= R64 w <= 2 ^ 20 ->
  (forall rho g, is_finite (fst (bw_draw rho w g)) = true /\ R64 m / 2 <= R64 (fst (bw_draw rho w g)) <= 2 * R64 m) ->
  exists rho, is_finite rho = true /\ Rabs (R64 rho * R64 w - (R64 m + R64 c)) <= / 2 ^ 51 * (R64 m + R64 c) /\
  forall g, exists x, sample_excitation64 unit_draw normal_draw bw_draw (ExBreitWigner64 m c w) g = (Ok x, snd (bw_draw rho w g)) /\
    is_finite x = true /\ R64 m + R64 x = R64 (fst (bw_draw rho w g)).
Proof.
  intros Fm Fc Fw Bm Bc Bw Hd. destruct small_facts as (U0 & U1 & N0 & N1). pose proof eta_tiny as N2.
  set (M := R64 m) in *. set (C := R64 c) in *. set (W := R64 w) in *.
  destruct (fadd_fin m c 21) as (Es & Fs); [exact Fm|exact Fc|lia| |].
  { fold M C. change (b2 21) with 2097152. rewrite Rabs_pos_eq; lra. }
  fold M C in Es. pose proof (rnd_bound (M + C) (M + C) ltac:(rewrite Rabs_pos_eq; lra)) as E1. rewrite <- Es in E1. apply Rabs_le_inv in E1.
  set (s := fadd m c) in *. set (S := R64 s) in *.
  assert (UM : u * (M + C) <= / 1000) by (apply Rle_trans with (u * 2 ^ 21); [apply Rmult_le_compat_l; lra|lra]).
  assert (S0 : 1 / 2 <= S <= 2 ^ 22) by lra.
  assert (W0 : 0 < W) by (apply Rlt_le_trans with (2 := proj1 Bw); apply Rinv_0_lt_compat, pow_lt; lra).
  assert (I0 : 0 < / W <= 2 ^ 20).
  { split; [apply Rinv_0_lt_compat; lra|]. rewrite <- (Rinv_inv (2 ^ 20)). apply Rinv_le; [apply Rinv_0_lt_compat, pow_lt; lra|apply Bw]. }
  assert (Q0 : 0 <= S / W <= 2 ^ 42).
  { unfold Rdiv. split; [apply Rmult_le_pos; lra|]. replace (2 ^ 42) with (2 ^ 22 * 2 ^ 20) by ring. apply Rmult_le_compat; lra. }
  destruct (fdiv_fin s w 42) as (Er & Fr); [exact Fs|fold W; apply Rgt_not_eq; lra|lia| |].
  { fold S W. change (b2 42) with 4398046511104. rewrite Rabs_pos_eq; lra. }
  fold S W in Er. pose proof (rnd_bound (S / W) (S / W) ltac:(rewrite Rabs_pos_eq; lra)) as E2. rewrite <- Er in E2. apply Rabs_le_inv in E2.
  exists (fdiv s w). split; [exact Fr|]. split.
  - set (X := R64 (fdiv s w)) in *.
    assert (E3 : Rabs (X * W - S) <= u * S + eta * W).
    { replace (X * W - S) with ((X - S / W) * W) by (field; lra). rewrite Rabs_mult, (Rabs_pos_eq W) by lra.
      replace (u * S + eta * W) with ((u * (S / W) + eta) * W) by (field; lra). apply Rmult_le_compat_r; [lra|]. apply Rabs_le. lra. }
    apply Rabs_le_inv in E3.
    assert (E4 : eta * W <= u / 1000).
    { apply Rle_trans with (u / 2 ^ 40 * 2 ^ 20); [|lra]. apply Rmult_le_compat; lra. }
    replace (/ 2 ^ 51) with (4 * u) by (pose proof two_u; pose proof eight_u; lra).
    assert (u * S <= u * (M + C) + u / 100).
    { replace (u * (M + C) + u / 100) with (u * (M + C + / 100)) by field. apply Rmult_le_compat_l; lra. }
    assert (u * 1 <= u * (M + C)) by (apply Rmult_le_compat_l; lra).
    apply Rabs_le. lra.
  - intros g. cbn [sample_excitation64]. fold s. destruct (Hd (fdiv s w) g) as (Ft & Ht). destruct (bw_draw (fdiv s w) w g) as [t g'] eqn:En. cbn [fst snd] in *.
    assert (Nw : feqb w (f_of_Z 0) = false).
    { rewrite feqb_R by (try exact Fw; apply f_of_Z_fin; lia). apply Req_bool_false. rewrite (f_of_Z_R 0) by lia. apply Rgt_not_eq. exact W0. }
    rewrite Nw. cbv beta. rewrite En. eexists. split; [reflexivity|].
    destruct (fsub_fin t m 22) as (Ex & Fx); [exact Ft|exact Fm|lia| |].
    { fold M. change (b2 22) with 4194304. apply Rabs_le. lra. }
    split; [exact Fx|]. fold M in Ex. rewrite Ex. rewrite rnd64_fmt; [lra|].
    apply sterbenz; auto with typeclass_instances; apply fmt64_R.
Qed.

(** A resonance at 5 MeV, 1/8 MeV wide, of a nucleus of 11178 MeV, and a Gaussian state. *)
Example C80_excitation_example :
  (exists rho, forall g : nat, exists x,
     sample_excitation64 fixed_draw (fun g => (f_of_Z 2, S g)) (fun rho w g => (fadd (f_of_Z 11183) w, S g)) (ExBreitWigner64 (f_of_Z 11178) (f_of_Z 5) (fdiv (f_of_Z 1) (f_of_Z 8))) g
       = (Ok x, S g) /\ R64 x = 5 + / 8 /\ Rabs (R64 rho * / 8 - 11183) <= / 2 ^ 20) /\
  (forall g : nat, exists x,
     sample_excitation64 fixed_draw (fun g => (f_of_Z 2, S g)) (fun rho w g => (f_of_Z 11183, S g)) (ExGaussian64 (f_of_Z 5) (f_of_Z 1)) g = (Ok x, S g) /\
     Rabs (R64 x - (5 + 2000 / 2355)) <= / 2 ^ 40).
Proof.
  assert (RZ : forall n, (Z.abs n <= 2 ^ 53)%Z -> R64 (f_of_Z n) = IZR n) by (intros k N; apply f_of_Z_R; exact N).
  assert (FZ : forall n, (Z.abs n <= 2 ^ 53)%Z -> is_finite (f_of_Z n) = true) by (intros k N; apply f_of_Z_fin; exact N).
  assert (H8 : R64 (fdiv (f_of_Z 1) (f_of_Z 8)) = / 8).
  { rewrite (val_of (fdiv (f_of_Z 1) (f_of_Z 8)) 4503599627370496 (-55)) by (vm_compute; reflexivity).
    cbn [bpow]. change (Z.pow_pos radix2 55) with 36028797018963968%Z. lra. }
  assert (F8 : is_finite (fdiv (f_of_Z 1) (f_of_Z 8)) = true) by (vm_compute; reflexivity).
  assert (HT : R64 (fadd (f_of_Z 11183) (fdiv (f_of_Z 1) (f_of_Z 8))) = 11183 + / 8).
  { destruct (fadd_fin (f_of_Z 11183) (fdiv (f_of_Z 1) (f_of_Z 8)) 14) as (-> & _); [apply FZ; lia|exact F8|lia| |].
    - rewrite RZ, H8 by lia. change (b2 14) with 16384. rewrite Rabs_pos_eq; lra.
    - rewrite RZ, H8 by lia. apply rnd64_fmt. replace (11183 + / 8) with (F2R (Float radix2 89465 (-3))) by (unfold F2R; cbn; lra).
      apply generic_format_FLT. exists (Float radix2 89465 (-3)); [reflexivity|cbn; lia|cbn; lia]. }
  assert (FT : is_finite (fadd (f_of_Z 11183) (fdiv (f_of_Z 1) (f_of_Z 8))) = true) by (vm_compute; reflexivity).
  split.
  - destruct (C80_breit_wigner fixed_draw (fun g => (f_of_Z 2, S g)) (fun rho w g => (fadd (f_of_Z 11183) w, S g)) (f_of_Z 11178) (f_of_Z 5) (fdiv (f_of_Z 1) (f_of_Z 8)))
      as (rho & Fr & Er & Ev).
    + apply FZ; lia.
    + apply FZ; lia.
    + exact F8.
    + rewrite RZ by lia. lra.
    + rewrite RZ by lia. lra.
    + rewrite H8. lra.
    + intros r g. cbn [fst]. split; [exact FT|]. rewrite HT, RZ by lia. lra.
    + exists rho. intros g. destruct (Ev g) as (x & Sx & _ & Vx). exists x. split; [exact Sx|]. cbn [fst] in Vx. rewrite HT, RZ in Vx by lia.
      split; [lra|]. rewrite H8, !RZ in Er by lia. apply Rabs_le_inv in Er. apply Rabs_le. lra.
  - intros g. destruct (C80_gaussian fixed_draw (fun g => (f_of_Z 2, S g)) (fun rho w g => (f_of_Z 11183, S g)) (f_of_Z 5) (f_of_Z 1) 2) with (g := g) as (x & Sx & _ & Vx).
    all: rewrite ?RZ by lia; try (apply FZ; lia); try lra.
    + rewrite Rabs_pos_eq; lra.
    + intros k. cbn [fst]. split; [apply FZ; lia|]. rewrite RZ by lia. lra.
    + exists x. split; [exact Sx|]. cbv zeta in Vx. cbn [fst] in Vx. rewrite !RZ in Vx by lia. rewrite (Rabs_pos_eq 5), (Rabs_pos_eq 2) in Vx by lra. revert Vx.
      replace (5 + 1 * (1000 / 2355) * 2) with (5 + 2000 / 2355) by field. lra.
Qed.

Print Assumptions C80_gaussian.
Print Assumptions C80_breit_wigner.
Print Assumptions C80_excitation_example.
