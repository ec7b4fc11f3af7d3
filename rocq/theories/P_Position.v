(** P_Position.v -- properties C04-C06 of the pad look-up. *)
From Coq Require Import ZArith Reals.
From Flocq Require Import Core BinarySingleNaN.
From Verif Require Import Base F64 Num Transporter PositionProofs PadGridData PadCentersData
  PadGrid PadGridProofs.
Local Open Scope Z_scope.

(** C04: for every non-NaN position the look-up returns, and what it returns is (-1,-1) or a
    cell of the 5600 x 5600 grid, so the grid read is in bounds. *)
Theorem C04_lookup_in_bounds : forall (fexp : f64 -> f64) (x y : f64),
  is_nan64 x = false -> is_nan64 y = false ->
  exists ix iy, @position_to_index (F64 fexp) (packaged_edges fexp) (x, y) = Ok (ix, iy) /\
    ((ix = -1 /\ iy = -1) \/
     (0 <= ix < 5600 /\ 0 <= iy < 5600 /\
      exists pad, grid_get packaged_grid ix iy = Ok pad /\ -1 <= pad <= 10239)).
Proof.
  intros fexp x y Hx Hy. rewrite position_to_index_packaged by assumption.
  destruct (mm x) as [kx|]; [destruct (mm y) as [ky|]|];
    try (exists (-1), (-1); split; [reflexivity|now left]).
  destruct (in_plane (Some kx) && in_plane (Some ky)) eqn:E;
    [|exists (-1), (-1); split; [reflexivity|now left]].
  exists (10 * (kx + 280)), (10 * (ky + 280)). split; [reflexivity|]. right.
  unfold in_plane in E.
  assert (0 <= 10 * (kx + 280) < 5600) by lia. assert (0 <= 10 * (ky + 280) < 5600) by lia.
  split; [assumption|]. split; [assumption|].
  exists (gr_cell packaged_grid (10 * (kx + 280)) (10 * (ky + 280))).
  split; [|apply packaged_cell_range].
  unfold grid_get, axis_index. change (gr_rows packaged_grid) with 5600.
  change (gr_cols packaged_grid) with 5600.
  replace (10 * (kx + 280) <? 0) with false by lia.
  replace (10 * (ky + 280) <? 0) with false by lia.
  replace ((0 <=? 10 * (kx + 280)) && (10 * (kx + 280) <? 5600)) with true by lia.
  replace ((0 <=? 10 * (ky + 280)) && (10 * (ky + 280) <? 5600)) with true by lia.
  reflexivity.
Qed.

Example C04_example : forall fexp,
  @position_to_index (F64 fexp) (packaged_edges fexp) (B754_infinity false, f_of_Z 0) = Ok (-1, -1) /\
  @position_to_index (F64 fexp) (packaged_edges fexp)
    (fdiv (f_of_Z 1) (f_of_Z 10), fdiv (f_of_Z 1) (f_of_Z 20)) = Ok (3800, 3300).
Proof. intros fexp. split; vm_compute; reflexivity. Qed.

(** C05: exact acceptance region.  [floor_mm x k]: k is the floor of the binary64 product
    1000 x (stated without the model's [mm]). *)
Definition floor_mm (x : f64) (k : Z) : Prop :=
  is_finite x = true /\ (IZR k <= rnd64 (R64 x * 1000) < IZR k + 1)%R.

Lemma floor_mm_mm x k : floor_mm x k <-> mm x = Some k.
Proof.
  unfold floor_mm, mm. destruct (is_finite x).
  - split.
    + intros (_ & H). f_equal. apply Zfloor_imp. now rewrite plus_IZR.
    + intros [= <-]. split; [reflexivity|]. split; [apply Zfloor_lb|apply Zfloor_ub].
  - split; [intros (H & _)|intros H]; discriminate.
Qed.

Theorem C05_acceptance : forall (fexp : f64 -> f64) (x y : f64),
  is_nan64 x = false -> is_nan64 y = false ->
  (@position_to_index (F64 fexp) (packaged_edges fexp) (x, y) <> Ok (-1, -1) <->
   exists kx ky, floor_mm x kx /\ floor_mm y ky /\ -280 <= kx <= 278 /\ -280 <= ky <= 278).
Proof.
  intros fexp x y Hx Hy. rewrite position_to_index_packaged by assumption. split.
  - intros H. destruct (mm x) as [kx|] eqn:Ex; [destruct (mm y) as [ky|] eqn:Ey|]; try congruence.
    destruct (in_plane (Some kx) && in_plane (Some ky)) eqn:E; [|congruence].
    exists kx, ky. rewrite !floor_mm_mm. unfold in_plane in E. repeat split; auto; lia.
  - intros (kx & ky & Ex & Ey & Bx & By). apply floor_mm_mm in Ex, Ey. rewrite Ex, Ey.
    replace (in_plane (Some kx) && in_plane (Some ky)) with true by (unfold in_plane; lia).
    intros H. assert (10 * (kx + 280) = -1) by congruence. lia.
Qed.

(** The last millimetre is rejected although its row is part of the grid. *)
Theorem C05_last_mm_rejected : forall (fexp : f64 -> f64) (x y : f64),
  is_nan64 y = false -> floor_mm x 279 ->
  @position_to_index (F64 fexp) (packaged_edges fexp) (x, y) = Ok (-1, -1) /\
  0 <= 10 * (279 + 280) < gr_rows packaged_grid.
Proof.
  intros fexp x y Hy H. pose proof H as H'. apply floor_mm_mm in H'.
  rewrite position_to_index_packaged; [|eapply not_nan_of_mm; eassumption|exact Hy].
  rewrite H'. split; [|easy]. destruct (mm y); reflexivity.
Qed.

Example C05_example : forall fexp,
  floor_mm (fdiv (f_of_Z 2795) (f_of_Z 10000)) 279 /\
  @position_to_index (F64 fexp) (packaged_edges fexp)
     (fdiv (f_of_Z 2789) (f_of_Z 10000), f_of_Z 0) = Ok (5580, 2800).
Proof.
  intros fexp. split; [|vm_compute; reflexivity].
  apply floor_mm_mm. unfold mm.
  replace (fdiv (f_of_Z 2795) (f_of_Z 10000))
    with (fdiv (f_of_Z 2795000000) (f_of_Z 10000000000)).
  - apply (mm_decimal 2795000000); [lia|discriminate].
  - apply (B2R_Bsign_inj prec64 emax64); try (vm_compute; reflexivity).
Qed.

(** C06: the index is the first 0.1 mm bin of the millimetre. *)
Theorem C06_resolution : forall (fexp : f64 -> f64) (x y : f64) (kx ky : Z),
  floor_mm x kx -> floor_mm y ky -> -280 <= kx <= 278 -> -280 <= ky <= 278 ->
  @position_to_index (F64 fexp) (packaged_edges fexp) (x, y)
    = Ok (10 * (kx + 280), 10 * (ky + 280)).
Proof.
  intros fexp x y kx ky Ex Ey Bx By. apply floor_mm_mm in Ex, Ey.
  rewrite position_to_index_packaged by (eapply not_nan_of_mm; eassumption).
  rewrite Ex, Ey.
  now replace (in_plane (Some kx) && in_plane (Some ky)) with true by (unfold in_plane; lia).
Qed.

(** Example: 10.75 mm and -0.25 mm lie in bins 2907 and 2797 of 0.1 mm; the look-up uses 2900 and 2790. *)
Example C06_example : forall fexp,
  floor_mm (fdiv (f_of_Z 1075) (f_of_Z 100000)) 10 /\ floor_mm (fdiv (f_of_Z (-25)) (f_of_Z 100000)) (-1) /\
  @position_to_index (F64 fexp) (packaged_edges fexp)
     (fdiv (f_of_Z 1075) (f_of_Z 100000), fdiv (f_of_Z (-25)) (f_of_Z 100000)) = Ok (2900, 2790).
Proof.
  intros fexp.
  assert (A : floor_mm (fdiv (f_of_Z 1075) (f_of_Z 100000)) 10).
  { apply floor_mm_mm. unfold mm.
    replace (fdiv (f_of_Z 1075) (f_of_Z 100000)) with (fdiv (f_of_Z 107500000) (f_of_Z 10000000000)).
    - apply (mm_decimal 107500000); [lia|discriminate].
    - apply (B2R_Bsign_inj prec64 emax64); try (vm_compute; reflexivity). }
  assert (B : floor_mm (fdiv (f_of_Z (-25)) (f_of_Z 100000)) (-1)).
  { apply floor_mm_mm. unfold mm.
    replace (fdiv (f_of_Z (-25)) (f_of_Z 100000)) with (fdiv (f_of_Z (-2500000)) (f_of_Z 10000000000)).
    - apply (mm_decimal (-2500000)); [lia|discriminate].
    - apply (B2R_Bsign_inj prec64 emax64); try (vm_compute; reflexivity). }
  split; [exact A|]. split; [exact B|]. apply (C06_resolution fexp _ _ 10 (-1) A B); lia.
Qed.

(** For (at least) 428 of the 10240 packaged pads the centre listed in padxy.csv is attributed
    to another pad or to none; pads 172 and 340 are named. *)
Theorem C06_centres_refuted : forall fexp : f64 -> f64,
  exists wrong : list (Z * Z),
    length wrong = 428%nat /\ NoDup (map fst wrong) /\
    In (172, -1) wrong /\ In (340, 338) wrong /\
    forall pad found, In (pad, found) wrong ->
      found <> pad /\
      exists c, nth_error pad_centers_e7 (Z.to_nat pad) = Some c /\
        looked_up fexp (center_m c) = Ok found.
Proof.
  intros fexp. exists wrong_centers.
  destruct wrong_centers_count as (A & B & C & D).
  repeat (split; [assumption|]). intros pad found H.
  destruct (wrong_center fexp pad found H) as (c & E & F & G). split; [exact G|]. eauto.
Qed.

Print Assumptions C04_lookup_in_bounds.
Print Assumptions C05_acceptance.
Print Assumptions C05_last_mm_rejected.
Print Assumptions C06_resolution.
Print Assumptions C06_centres_refuted.
