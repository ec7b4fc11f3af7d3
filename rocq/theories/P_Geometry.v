(** P_Geometry.v -- C99: the packaged pad plane.  The pad the look-up finds is the pad at the position; the
    beam pads are the hole in the middle; stored rows are where the tracks are. *)
From Coq Require Import ZArith Reals Lia Lra String.
From Flocq Require Import Core BinarySingleNaN.
From Verif Require Import Base F64 Num BeamPads Transporter SpecTransport PositionProofs PadGridData PadCentersData
  PadGrid PadGridProofs P_Position PadGeometry Simulator SpecSim KinFile SpecRun P_RunSim F64Bounds P_Simulator P_Parameters Response Writer SpecWriter
  Parameters P_Detect P_KinF64 P_OnTrack P_MeshF64 TransportProofs P_Cloud P_Complete.
Local Open Scope Z_scope.
Local Open Scope list_scope.
Local Opaque grid_rows pad_centers_e7 BEAM_PADS.

(** ** Positions *)

(** Distance of a position in metres from the axis, in millimetres. *)
Definition radius_mm (p : f64 * f64) : R := sqrt ((1000 * R64 (fst p)) ^ 2 + (1000 * R64 (snd p)) ^ 2).

(** Pad [pad] is listed in padxy.csv with its centre at (cx, cy) mm. *)
Definition listed (pad : Z) (cx cy : R) : Prop :=
  exists nx ny, nth_error pad_centers_e7 (Z.to_nat pad) = Some (nx, ny) /\ cx = (IZR nx / 10000000)%R /\ cy = (IZR ny / 10000000)%R.

Lemma rounding_mm x k : floor_mm x k -> -280 <= k <= 278 ->
  (IZR k - / 1000000000 <= 1000 * R64 x <= IZR k + 1 + / 1000000000)%R.
Proof.
  intros (_ & A) Hk. pose proof (rnd_err (R64 x * 1000)) as E. destruct small_facts as (U0 & U1 & T0 & T1).
  assert (K : (-280 <= IZR k <= 278)%R) by (split; [apply (IZR_le (-280))|apply (IZR_le _ 278)]; lia).
  set (y := (R64 x * 1000)%R) in *. set (r := rnd64 y) in *. rewrite (Rmult_comm 1000). fold y. clearbody y r.
  assert (Uy : (u * Rabs y <= / 10000000000000 * Rabs y)%R) by (apply Rmult_le_compat_r; [apply Rabs_pos|]; lra).
  unfold Rabs in E, Uy. destruct (Rcase_abs (r - y)), (Rcase_abs y); lra.
Qed.

Lemma not_nan_index fexp (x y : f64) ix iy :
  @position_to_index (F64 fexp) (packaged_edges fexp) (x, y) = Ok (ix, iy) -> ix <> -1 ->
  is_nan64 x = false /\ is_nan64 y = false.
Proof.
  intros E N. unfold position_to_index in E. cbn [fst snd nfloor nleb nltb nmul nofZ nsub ndiv F64] in E.
  destruct (_ || _) in E; [congruence|]. destruct (_ || _) in E; [congruence|].
  split.
  - destruct x as [| | |]; try reflexivity. exfalso. revert E.
    change (fmul B754_nan (f_of_Z 1000)) with (B754_nan : f64). unfold njdiv.
    destruct (neqb _ _); [discriminate|]. cbn [bind]. discriminate.
  - destruct y as [| | |]; try reflexivity. exfalso. revert E. unfold njdiv.
    destruct (neqb _ _); [discriminate|]. cbn [bind]. destruct (njint _); [|discriminate]. discriminate.
Qed.

(** What a successful look-up says. *)
Lemma found fexp (p : f64 * f64) ix iy pad :
  @position_to_index (F64 fexp) (packaged_edges fexp) p = Ok (ix, iy) -> ix <> -1 ->
  grid_get packaged_grid ix iy = Ok pad ->
  exists kx ky, floor_mm (fst p) kx /\ floor_mm (snd p) ky /\ -280 <= kx <= 278 /\ -280 <= ky <= 278 /\ pad = pad_at kx ky.
Proof.
  destruct p as [x y]. cbn [fst snd]. intros E N G. destruct (not_nan_index _ _ _ _ _ E N) as (Nx & Ny).
  rewrite position_to_index_packaged in E by assumption.
  destruct (mm x) as [kx|] eqn:Ex; [destruct (mm y) as [ky|] eqn:Ey|]; try (exfalso; congruence).
  destruct (in_plane (Some kx) && in_plane (Some ky)) eqn:I; [|exfalso; congruence].
  exists kx, ky. rewrite !floor_mm_mm. split; [exact Ex|]. split; [exact Ey|]. unfold in_plane in I.
  split; [lia|]. split; [lia|].
  assert (ix = 10 * (kx + 280) /\ iy = 10 * (ky + 280)) as [-> ->] by (split; congruence).
  unfold grid_get, axis_index in G. change (gr_rows packaged_grid) with 5600 in G. change (gr_cols packaged_grid) with 5600 in G.
  replace (10 * (kx + 280) <? 0) with false in G by lia.
  replace (10 * (ky + 280) <? 0) with false in G by lia.
  replace ((0 <=? 10 * (kx + 280)) && (10 * (kx + 280) <? 5600)) with true in G by lia.
  replace ((0 <=? 10 * (ky + 280)) && (10 * (ky + 280) <? 5600)) with true in G by lia.
  cbn [bind] in G. unfold pad_at. congruence.
Qed.

Lemma near_centre fexp (p : f64 * f64) ix iy pad :
  @position_to_index (F64 fexp) (packaged_edges fexp) p = Ok (ix, iy) -> ix <> -1 ->
  grid_get packaged_grid ix iy = Ok pad -> pad <> -1 ->
  exists nx ny, nth_error pad_centers_e7 (Z.to_nat pad) = Some (nx, ny) /\
    (Rabs (1000 * R64 (fst p) - IZR nx / 10000000) <= 5.5696)%R /\ (Rabs (1000 * R64 (snd p) - IZR ny / 10000000) <= 4.7916)%R /\
    (Rabs (IZR nx / 10000000) <= 300)%R /\ (Rabs (IZR ny / 10000000) <= 300)%R.
Proof.
  intros Ei Ni G N. destruct (found _ _ _ _ _ Ei Ni G) as (kx & ky & Fx & Fy & Bx & By & Ep).
  pose proof (packaged_cell_range (10 * (kx + 280)) (10 * (ky + 280))) as R. fold (pad_at kx ky) in R.
  destruct (cell_in_box kx ky ltac:(lia) ltac:(lia) ltac:(lia)) as (nx & ny & En & A1 & A2 & A3 & A4). rewrite <- Ep in En.
  exists nx, ny. split; [exact En|].
  apply rounding_mm in Fx; [|lia]. apply rounding_mm in Fy; [|lia].
  destruct Bx as [Bx1 Bx2]. destruct By as [By1 By2].
  apply IZR_le in A1, A2, A3, A4, Bx1, Bx2, By1, By2. rewrite ?minus_IZR, ?mult_IZR, ?plus_IZR in *.
  repeat split; apply Rabs_le; lra.
Qed.

(** C99: the pad that is looked up for a position is, up to the extent of a pad, the one at that position. *)
Theorem C99_pad_at_position : forall (fexp : f64 -> f64) (p : f64 * f64) (pad : Z),
  looked_up fexp p = Ok pad -> pad <> -1 ->
  exists cx cy, listed pad cx cy /\ (Rabs (1000 * R64 (fst p) - cx) <= 5.57)%R /\ (Rabs (1000 * R64 (snd p) - cy) <= 4.80)%R.
Proof.
  intros fexp p pad E N. unfold looked_up in E.
  destruct (position_to_index (N := F64 fexp) (packaged_edges fexp) p) as [[ix iy]|] eqn:Ei; [|discriminate E]. cbn [bind] in E.
  destruct ((ix =? -1) || (iy =? -1)) eqn:B; [exfalso; congruence|].
  destruct (near_centre _ _ _ _ _ Ei ltac:(lia) E N) as (nx & ny & En & A & B0 & _).
  exists (IZR nx / 10000000)%R, (IZR ny / 10000000)%R. split; [exists nx, ny; auto|]. lra.
Qed.

(** C99: the beam pads are the pads whose centre is nearer than 20 mm to the axis. *)
Theorem C99_beam_pads : forall (pad : Z) (cx cy : R), 0 <= pad -> listed pad cx cy ->
  (In pad BEAM_PADS <-> (sqrt (cx ^ 2 + cy ^ 2) < 20)%R).
Proof.
  intros pad cx cy Hp (nx & ny & E & -> & ->). destruct (beam_centres pad nx ny Hp E) as (A & B).
  assert (Q : ((IZR nx / 10000000) ^ 2 + (IZR ny / 10000000) ^ 2 = IZR (nx * nx + ny * ny) / 100000000000000)%R)
    by (rewrite plus_IZR, !mult_IZR; field).
  rewrite Q. set (m := nx * nx + ny * ny) in *.
  assert (E20 : (20 = sqrt (20 * 20))%R) by (symmetry; apply sqrt_square; lra).
  split; intros H.
  - apply A in H. apply IZR_lt in H. rewrite E20. apply sqrt_lt_1_alt. split.
    + unfold m. rewrite plus_IZR, !mult_IZR. pose proof (Rle_0_sqr (IZR nx)). pose proof (Rle_0_sqr (IZR ny)). unfold Rsqr in *. lra.
    + change (197500000 ^ 2) with 39006250000000000 in H. lra.
  - destruct (in_dec Z.eq_dec pad BEAM_PADS) as [I|I]; [exact I|]. apply B in I. apply IZR_lt in I.
    change (201900000 ^ 2) with 40763610000000000 in I. exfalso. rewrite E20 in H. apply sqrt_lt_0_alt in H. lra.
Qed.

(** C99: a position that is given to a pad (not a beam pad) is at least 16.97 mm from the axis. *)
Theorem C99_hole : forall (fexp : f64 -> f64) (p : f64 * f64) (pad : Z),
  lands (N := F64 fexp) packaged_grid (packaged_edges fexp) p pad -> (16.97 <= radius_mm p)%R.
Proof.
  intros fexp p pad (ix & iy & E & Nx & Ny & G & Np & NB).
  destruct (found _ _ _ _ _ E Nx G) as (kx & ky & Fx & Fy & Bx & By & Ep).
  pose proof (packaged_cell_range (10 * (kx + 280)) (10 * (ky + 280))) as R. fold (pad_at kx ky) in R.
  destruct (cell_ring kx ky ltac:(lia) ltac:(lia) ltac:(lia)) as (_ & A). rewrite <- Ep in A. specialize (A NB).
  apply rounding_mm in Fx; [|lia]. apply rounding_mm in Fy; [|lia]. unfold radius_mm.
  set (X := (1000 * R64 (fst p))%R) in *. set (Y := (1000 * R64 (snd p))%R) in *. clearbody X Y. clear - A Fx Fy Bx By.
  assert (Low : forall k Z0, (IZR k - / 1000000000 <= Z0 <= IZR k + 1 + / 1000000000)%R -> -280 <= k <= 278 ->
    (IZR (nearest k * nearest k) - / 1000000 <= Z0 ^ 2)%R).
  { clear. intros k z H Hk. rewrite mult_IZR.
    assert (N : (0 <= IZR (nearest k) <= 280)%R) by (split; [apply (IZR_le 0)|apply (IZR_le _ 280)]; unfold nearest; lia).
    assert (D : (IZR (nearest k) - / 1000000000 <= Rabs z)%R).
    { destruct (Z_le_gt_dec 0 k) as [K|K].
      - replace (nearest k) with k by (unfold nearest; lia). pose proof (Rle_abs z). lra.
      - replace (nearest k) with (- (k + 1)) by (unfold nearest; lia). rewrite opp_IZR, plus_IZR.
        pose proof (Rle_abs (- z)) as P. rewrite Rabs_Ropp in P. lra. }
    rewrite <- (pow2_abs z). pose proof (Rabs_pos z) as Pz. set (w := Rabs z) in *. set (n := IZR (nearest k)) in *. clearbody w n.
    destruct (Rle_lt_dec n (/ 1000000000)) as [S|S].
    - assert (n * n <= / 1000000)%R by (apply Rle_trans with (/ 1000000000 * / 1000000000)%R; [apply Rmult_le_compat; lra|lra]).
      pose proof (pow2_ge_0 w). lra.
    - assert (Q : ((n - / 1000000000) * (n - / 1000000000) <= w * w)%R) by (apply Rmult_le_compat; lra).
      replace ((n - / 1000000000) * (n - / 1000000000))%R with (n * n - 2 * / 1000000000 * n + / 1000000000000000000)%R in Q by field.
      replace (w ^ 2)%R with (w * w)%R by ring. lra. }
  pose proof (Low kx X Fx Bx) as LX. pose proof (Low ky Y Fy By) as LY.
  apply IZR_le in A. rewrite plus_IZR in A.
  replace 16.97%R with (sqrt (16.97 * 16.97)) by (apply sqrt_square; lra). apply sqrt_le_1_alt. lra.
Qed.

(** C99: and the beam pads reach no farther than 23.41 mm. *)
Theorem C99_beam_extent : forall (fexp : f64 -> f64) (p : f64 * f64) (pad : Z),
  looked_up fexp p = Ok pad -> In pad BEAM_PADS -> (radius_mm p <= 23.41)%R.
Proof.
  intros fexp p pad E IB. unfold looked_up in E.
  destruct (position_to_index (N := F64 fexp) (packaged_edges fexp) p) as [[ix iy]|] eqn:Ei; [|discriminate E]. cbn [bind] in E.
  pose proof (beam_nonneg _ IB) as P0.
  destruct ((ix =? -1) || (iy =? -1)) eqn:B; [exfalso; assert (pad = -1) by congruence; lia|].
  destruct (found _ _ _ _ _ Ei ltac:(lia) E) as (kx & ky & Fx & Fy & Bx & By & Ep).
  destruct (cell_ring kx ky ltac:(lia) ltac:(lia) ltac:(lia)) as (A & _). rewrite <- Ep in A. specialize (A IB).
  apply rounding_mm in Fx; [|lia]. apply rounding_mm in Fy; [|lia]. unfold radius_mm.
  set (X := (1000 * R64 (fst p))%R) in *. set (Y := (1000 * R64 (snd p))%R) in *. clearbody X Y. clear - A Fx Fy Bx By.
  assert (Up : forall k Z0, (IZR k - / 1000000000 <= Z0 <= IZR k + 1 + / 1000000000)%R -> -280 <= k <= 278 ->
    (Z0 ^ 2 <= IZR (farthest k * farthest k) + / 1000000)%R).
  { clear. intros k z H Hk. rewrite mult_IZR.
    assert (N : (0 <= IZR (farthest k) <= 280)%R) by (split; [apply (IZR_le 0)|apply (IZR_le _ 280)]; unfold farthest; lia).
    assert (F1 : (IZR k + 1 <= IZR (farthest k))%R) by (rewrite <- plus_IZR; apply IZR_le; unfold farthest; lia).
    assert (F2 : (- IZR k <= IZR (farthest k))%R) by (rewrite <- opp_IZR; apply IZR_le; unfold farthest; lia).
    assert (D : (Rabs z <= IZR (farthest k) + / 1000000000)%R) by (apply Rabs_le; lra).
    rewrite <- (pow2_abs z). pose proof (Rabs_pos z) as Pz. set (w := Rabs z) in *. set (n := IZR (farthest k)) in *. clearbody w n.
    assert (Q : (w * w <= (n + / 1000000000) * (n + / 1000000000))%R) by (apply Rmult_le_compat; lra).
    replace ((n + / 1000000000) * (n + / 1000000000))%R with (n * n + 2 * / 1000000000 * n + / 1000000000000000000)%R in Q by field.
    replace (w ^ 2)%R with (w * w)%R by ring. lra. }
  pose proof (Up kx X Fx Bx) as LX. pose proof (Up ky Y Fy By) as LY.
  apply IZR_le in A. rewrite plus_IZR in A.
  replace 23.41%R with (sqrt (23.41 * 23.41)) by (apply sqrt_square; lra). apply sqrt_le_1_alt. lra.
Qed.

(** ** Stored rows *)

(** The data lines are those of padxy.csv: line k gives centre k (mm), each number correctly rounded. *)
Definition reads_padxy (to_float : string -> option f64) (lines : text) : Prop :=
  Forall2 (fun l (c : Z * Z) => exists x y, value to_float l 0 = Some x /\ value to_float l 1 = Some y /\
    R64 x = rnd64 (IZR (fst c) / 10000000) /\ R64 y = rnd64 (IZR (snd c) / 10000000)) lines pad_centers_e7.

Lemma forall2_len {A B} (P : A -> B -> Prop) l m : Forall2 P l m -> length l = length m.
Proof. induction 1; cbn [length]; congruence. Qed.
Lemma centers_count : length pad_centers_e7 = NUM_PADS.
Proof. vm_compute. reflexivity. Qed.

Lemma reads_nth to_float lines l : Forall2 (fun l (c : Z * Z) => exists x y, value to_float l 0 = Some x /\ value to_float l 1 = Some y /\
    R64 x = rnd64 (IZR (fst c) / 10000000) /\ R64 y = rnd64 (IZR (snd c) / 10000000)) lines l ->
  exists cs, Forall2 (centre_line to_float) lines cs /\ forall pad nx ny, nth_error l pad = Some (nx, ny) ->
    exists c, nth_error cs pad = Some c /\ R64 (fst c) = rnd64 (IZR nx / 10000000) /\ R64 (snd c) = rnd64 (IZR ny / 10000000).
Proof.
  induction 1 as [|ln [mx my] lines l (x & y & V0 & V1 & Rx & Ry) _ (cs & F & N)].
  - exists []. split; [constructor|]. intros [|pad] nx ny E; discriminate E.
  - exists ((x, y) :: cs). split; [constructor; [now split|exact F]|]. intros [|pad] nx ny E; [|now apply N].
    cbn [nth_error] in E. exists (x, y). split; [reflexivity|]. assert (mx = nx /\ my = ny) as [-> ->] by (split; congruence). now split.
Qed.
Section Stored.
  Context (fexp : f64 -> f64) {V G Nuc Vel : Type}.
  Notation config := (config fexp).
  Notation traj := (@traj Vel).
  Context (get_data : Z -> Z -> res Nuc)
    (generate_trajectory : @vertex V -> mom4 V -> Nuc -> config -> res (list traj))
    (generate_electrons : list traj -> Nuc -> config -> G -> list Z * G)
    (uniform : nat -> G -> list f64 * G) (argsort : list f64 -> list nat).
  Context (Hu : draws_ok uniform).
  Context (to_float : string -> option f64) (files : string -> option text) (resource : string -> text)
    (load : string -> res (grid * edges (F64 fexp))) (packaged : res (grid * edges (F64 fexp)))
    (dp : det_params) (ep : elec_params) (pp : pad_params) (fc : full_config fexp).
  Context (Hfc : make_config fexp to_float files resource load packaged dp ep pp = Ok fc).
  Context (Hs : sane dp ep) (Hth : Z.abs (ep_threshold ep) <= 2 ^ 53).
  (** The packaged map, and a geometry file whose data lines [float] reads as the numbers of padxy.csv, correctly rounded. *)
  Context (Hgr : fc_grid fexp fc = packaged_grid) (Hed : fc_edges fexp fc = packaged_edges fexp).
  Context (header : line) (lines : text) (Hgeo : geometry files resource pp header lines) (Hread : reads_padxy to_float lines).
  Notation cfg := (sim_config fexp fc).
  Notation ionised := (ionised fexp get_data generate_trajectory generate_electrons fc).
  Notation sigma t s := (sigma_of (N := F64 fexp) (dp_diffusion dp) (dp_efield dp) (fc_drift fexp fc)
                     (drift_time fexp cfg (t_z t)) = Ok s).

  Lemma grid_range : forall i j, -1 <= gr_cell (fc_grid fexp fc) i j < 10240.
  Proof using Hgr. clear - Hgr. intros i j. rewrite Hgr. pose proof (packaged_cell_range i j). lia. Qed.

  Lemma centres_read pad c nx ny : nth_error (fc_centers fexp fc) pad = Some c -> nth_error pad_centers_e7 pad = Some (nx, ny) ->
    R64 (fst c) = rnd64 (IZR nx / 10000000) /\ R64 (snd c) = rnd64 (IZR ny / 10000000).
  Proof using Hfc Hgeo Hread.
    intros E1 E2. destruct (reads_nth _ _ _ Hread) as (cs & F & N).
    assert (Ll : length lines = NUM_PADS).
    { rewrite <- centers_count. exact (forall2_len _ _ _ Hread). }
    destruct (C33_centres to_float files resource pp header lines cs Hgeo F ltac:(rewrite Ll; constructor)) as (out & El & _ & Hc & _).
    assert (Ec : fc_centers fexp fc = out).
    { clear - Hfc El. unfold make_config in Hfc.
      destruct (drift_velocity _ _ _) as [dv|]; [|discriminate Hfc]. cbn [bind] in Hfc.
      destruct (load_pad_grid _ _ _ _) as [[g ed]|]; [|discriminate Hfc]. cbn [bind] in Hfc.
      rewrite El in Hfc. cbn [bind] in Hfc.
      destruct (load_pad_sizes _ _ _ _) as [ss|]; [|discriminate Hfc]. cbn [bind] in Hfc.
      apply (f_equal (fun r => match r with Ok a => fc_centers fexp a | Err _ => [] end)) in Hfc. cbn [fc_centers] in Hfc. congruence. }
    destruct (N _ _ _ E2) as (c' & E3 & R1 & R2). apply Hc in E3. rewrite <- Ec in E3. assert (c' = c) as -> by congruence. now split.
  Qed.

  Lemma stored_at_pad resp rows v zs ms rng idx cloud labels rng' out labs :
    P_Detect.contained fexp generate_trajectory dp fc rows v ->
    sim fexp get_data generate_trajectory generate_electrons uniform fc rows v zs ms rng idx = Ok ((cloud, labels), rng') ->
    process fexp argsort resp (writer_config fexp fc) cloud labels = Ok (out, labs) ->
    forall r l, In (r, l) (combine out labs) ->
      In l idx /\ exists t k (pos : f64 * f64) pad, ionised rows v zs ms l t k /\
        (pos = (t_x t, t_y t) \/ exists s, sigma t s /\ feqb s (f_of_Z 0) = false /\
           In pos (diffusion_mesh (N := F64 fexp) (t_x t, t_y t) s)) /\
        lands (N := F64 fexp) packaged_grid (packaged_edges fexp) pos pad /\
        (Rabs (1000 * R64 (fst pos) - R64 (s_x r)) <= 5.57)%R /\ (Rabs (1000 * R64 (snd pos) - R64 (s_y r)) <= 4.80)%R.
  Proof using Hu Hfc Hs Hth Hgr Hed Hgeo Hread.
    intros Hc S P r l Hrl.
    destruct (C66_rows_lie_on_the_track fexp get_data generate_trajectory generate_electrons uniform argsort Hu
      to_float files resource load packaged dp ep pp fc Hfc grid_range Hs Hth resp rows v zs ms rng idx cloud labels rng' out labs Hc S P r l Hrl)
      as (Il & t & k & pos & pad & Io & _ & Hp & Hl & Hce & _).
    split; [exact Il|]. rewrite Hgr, Hed in Hl. exists t, k, pos, (Z.of_nat pad). split; [exact Io|]. split; [exact Hp|]. split; [exact Hl|].
    destruct Hl as (ix & iy & E & Nx & Ny & Gg & Np & NB).
    destruct (near_centre _ _ _ _ _ E Nx Gg Np) as (nx & ny & En & A1 & A2 & A3 & A4). rewrite Nat2Z.id in En.
    destruct (centres_read _ _ _ _ Hce En) as (R1 & R2). cbn [fst snd] in R1, R2. rewrite R1, R2.
    pose proof (rnd_bound _ _ A3) as E1. pose proof (rnd_bound _ _ A4) as E2. destruct small_facts as (U0 & U1 & T0 & T1).
    apply Rabs_le_inv in A1, A2, E1, E2. split; apply Rabs_le; lra.
  Qed.

  (** C99: with the packaged map every stored row lies, in x and y, within the half-width of a pad (and 3 widths of
      the diffusion) of a point of the track whose label it carries, where that nucleus made electrons. *)
  Theorem C99_stored_near_track resp rows v zs ms rng idx cloud labels rng' out labs :
    P_Detect.contained fexp generate_trajectory dp fc rows v ->
    (forall l t k s, ionised rows v zs ms l t k -> sigma t s -> feqb s (f_of_Z 0) = true \/ resolved (t_x t) (t_y t) s) ->
    sim fexp get_data generate_trajectory generate_electrons uniform fc rows v zs ms rng idx = Ok ((cloud, labels), rng') ->
    process fexp argsort resp (writer_config fexp fc) cloud labels = Ok (out, labs) ->
    forall r l, In (r, l) (combine out labs) ->
      In l idx /\ exists t k w, ionised rows v zs ms l t k /\ (w = 0%R \/ exists s, sigma t s /\ w = R64 s) /\
        (Rabs (R64 (s_x r) - 1000 * R64 (t_x t)) <= 5.57 + 3001 * w)%R /\
        (Rabs (R64 (s_y r) - 1000 * R64 (t_y t)) <= 4.80 + 3001 * w)%R.
  Proof using Hu Hfc Hs Hth Hgr Hed Hgeo Hread.
    intros Hc Hw S P r l Hrl.
    destruct (stored_at_pad _ _ _ _ _ _ _ _ _ _ _ _ Hc S P r l Hrl) as (Il & t & k & pos & pad & Io & Hp & _ & Dx & Dy).
    split; [exact Il|]. exists t, k. destruct Hp as [->|(s & Es & E0 & Hm)].
    - exists 0%R. split; [exact Io|]. split; [now left|]. cbn [fst snd] in Dx, Dy. apply Rabs_le_inv in Dx, Dy. split; apply Rabs_le; lra.
    - exists (R64 s). split; [exact Io|]. split; [right; now exists s|].
      destruct (Hw _ _ _ _ Io Es) as [C|(Fx & Fy & Fs & Bs & Bx & By)]; [exfalso; congruence|].
      rewrite mesh_F64 in Hm. apply in_map_iff in Hm as ([i j] & <- & Hij). apply cells_range in Hij as (Hi & Hj).
      cbn [fst snd] in Dx, Dy.
      destruct (axis_close (t_x t) s Fx Fs Bs Bx i Hi) as (_ & Cx & _). destruct (axis_close (t_y t) s Fy Fs Bs By j Hj) as (_ & Cy & _).
      assert (M : forall n, (n < 10)%nat -> (Rabs (tick n * R64 s) <= 3 * R64 s)%R).
      { intros n Hn. rewrite Rabs_mult, (Rabs_pos_eq (R64 s)) by lra. apply Rmult_le_compat_r; [lra|]. apply (tick_range n Hn). }
      pose proof (M i Hi) as Mi. pose proof (M j Hj) as Mj. clear M.
      apply Rabs_le_inv in Dx, Dy, Cx, Cy, Mi, Mj. split; apply Rabs_le; lra.
  Qed.

  (** C99: an event whose ionisation stays within 16.97 mm of the axis (there are only beam pads and gaps)
      leaves no row, when diffusion is off. *)
  Theorem C99_beam_region_silent resp rows v zs ms rng idx cloud labels rng' out labs :
    P_Detect.contained fexp generate_trajectory dp fc rows v ->
    (forall l t k, In l idx -> ionised rows v zs ms l t k -> (radius_mm (t_x t, t_y t) < 16.97)%R /\
       forall s, sigma t s -> feqb s (f_of_Z 0) = true) ->
    sim fexp get_data generate_trajectory generate_electrons uniform fc rows v zs ms rng idx = Ok ((cloud, labels), rng') ->
    process fexp argsort resp (writer_config fexp fc) cloud labels = Ok (out, labs) -> combine out labs = [].
  Proof using Hu Hfc Hs Hth Hgr Hed Hgeo Hread.
    intros Hc Hw S P. destruct (combine out labs) as [|[r l] rest] eqn:E; [reflexivity|]. exfalso.
    destruct (stored_at_pad _ _ _ _ _ _ _ _ _ _ _ _ Hc S P r l ltac:(rewrite E; now left)) as (Il & t & k & pos & pad & Io & Hp & Hl & _).
    destruct (Hw _ _ _ Il Io) as (Hr & H0). apply C99_hole in Hl. destruct Hp as [->|(s & Es & E0 & _)]; [lra|].
    rewrite (H0 _ Es) in E0. discriminate E0.
  Qed.
End Stored.

(** ** Examples *)
Section Examples.
  Context (fexp : f64 -> f64).
  Local Open Scope string_scope.
  Local Open Scope Z_scope.
  Local Open Scope list_scope.

  (** A reader of numbers written as bits, in units of 10^-7 mm. *)
  Fixpoint enc_pos (p : positive) : string := match p with xH => "" | xO q => String "0" (enc_pos q) | xI q => String "1" (enc_pos q) end.
  Fixpoint dec_pos (s : string) : positive :=
    match s with EmptyString => xH | String c s' => if Ascii.eqb c "0" then xO (dec_pos s') else xI (dec_pos s') end.
  Definition enc (z : Z) : string := match z with Z0 => "" | Zpos p => String "+" (enc_pos p) | Zneg p => String "-" (enc_pos p) end.
  Definition dec (s : string) : Z :=
    match s with EmptyString => 0 | String c s' => if Ascii.eqb c "+" then Zpos (dec_pos s') else Zneg (dec_pos s') end.
  Lemma dec_enc z : dec (enc z) = z.
  Proof.
    assert (P : forall p, dec_pos (enc_pos p) = p) by (induction p as [p IH|p IH|]; cbn [enc_pos dec_pos Ascii.eqb Bool.eqb]; congruence).
    destruct z as [|p|p]; cbn [enc dec Ascii.eqb Bool.eqb]; now rewrite ?P.
  Qed.
  Definition g_float (s : string) : option f64 := Some (fdiv (f_of_Z (dec s)) (f_of_Z 10000000)).
  Definition g_lines : text := map (fun c : Z * Z => [enc (fst c); enc (snd c)]) pad_centers_e7.
  Definition g_resource (name : string) : text := if String.eqb name "padxy.csv" then ["x"; "y"] :: g_lines else [].

  Lemma decimal_read n : Z.abs n <= 3000000000 -> R64 (fdiv (f_of_Z n) (f_of_Z 10000000)) = rnd64 (IZR n / 10000000).
  Proof.
    intros H. destruct (fdiv_fin (f_of_Z n) (f_of_Z 10000000) 40 (f_of_Z_fin n ltac:(lia))) as (R & _).
    - rewrite f_of_Z_R by lia. lra.
    - lia.
    - rewrite !f_of_Z_R by lia. change (b2 40) with 1099511627776%R.
      assert (Q : (Rabs (IZR n) <= 3000000000)%R) by (rewrite <- abs_IZR; now apply IZR_le).
      unfold Rdiv. rewrite Rabs_mult, (Rabs_pos_eq (/ _)) by lra. lra.
    - rewrite R, !f_of_Z_R by lia. reflexivity.
  Qed.
  Lemma centres_small : forallb (fun c : Z * Z => (Z.abs (fst c) <=? 3000000000) && (Z.abs (snd c) <=? 3000000000)) pad_centers_e7 = true.
  Proof. vm_compute. reflexivity. Qed.
  Lemma g_reads : reads_padxy g_float g_lines.
  Proof.
    pose proof centres_small as H. unfold reads_padxy, g_lines. revert H. generalize pad_centers_e7.
    induction l as [|[nx ny] l IH]; cbn [map forallb]; intros H; [constructor|]. apply andb_prop in H as [H1 H2].
    constructor; [|now apply IH]. cbn [fst snd] in *. exists (fdiv (f_of_Z nx) (f_of_Z 10000000)), (fdiv (f_of_Z ny) (f_of_Z 10000000)).
    unfold value, g_float. cbn [nth_error]. rewrite !dec_enc. split; [reflexivity|]. split; [reflexivity|].
    split; apply decimal_read; lia.
  Qed.

  (** Position (125, 62.5) mm is on pad 2195, centred at (127.61411, 63.759846) mm; (15.625, 3.90625) mm on the beam pad 161. *)
  Definition g_out : f64 * f64 := (f_of_ZE 1 (-3), f_of_ZE 1 (-4)).
  Definition g_in : f64 * f64 := (f_of_ZE 1 (-6), f_of_ZE 1 (-8)).
  Example C99_example :
    looked_up fexp g_out = Ok 2195 /\ looked_up fexp g_in = Ok 161 /\ In 161 BEAM_PADS /\ ~ In 2195 BEAM_PADS /\
    lands (N := F64 fexp) packaged_grid (packaged_edges fexp) g_out 2195 /\
    nth_error pad_centers_e7 2195 = Some (1276141100, 637598460).
  Proof.
    assert (A : ~ In 2195 BEAM_PADS).
    { intros I. apply (proj2 (Bool.not_true_iff_false (existsb (Z.eqb 2195) BEAM_PADS))); [vm_compute; reflexivity|].
      apply existsb_exists. exists 2195. split; [exact I|reflexivity]. }
    split; [vm_compute; reflexivity|]. split; [vm_compute; reflexivity|].
    split; [apply is_beam_spec; vm_compute; reflexivity|]. split; [exact A|].
    split; [|vm_compute; reflexivity].
    exists (10 * (125 + 280)), (10 * (62 + 280)). split; [vm_compute; reflexivity|]. split; [lia|]. split; [lia|].
    split; [vm_compute; reflexivity|]. split; [lia|exact A].
  Qed.

  (** A track with one point at half the length, there or near the axis, in a detector without diffusion. *)
  Definition g_traj (v : @vertex Z) (p : mom4 Z) (n : Z) (c : config fexp) : res (list (@traj unit)) :=
    Ok [if m_E p =? 0 then mkTraj (fst g_in) (snd g_in) half tt else mkTraj (fst g_out) (snd g_out) half tt].
  Definition g_make := make_config fexp g_float (fun _ => None) g_resource
    (fun _ => Err ValueError) (Ok (packaged_grid, packaged_edges fexp)) e_dp e_ep e_pp.
  Definition g_drift : f64 := match drift_velocity (N := F64 fexp) (f_of_Z 1) 512 0 with Ok v => v | Err _ => f_of_Z 0 end.
  Definition g_config : config fexp := Simulator.mkConfig fexp (f_of_Z 1) (f_of_Z 1) (f_of_Z 0) g_drift 10 0 (Some packaged_grid) (Some (packaged_edges fexp)).

  Lemma g_made : exists fc, g_make = Ok fc /\ fc_grid fexp fc = packaged_grid /\ fc_edges fexp fc = packaged_edges fexp /\
    sim_config fexp fc = g_config /\ fc_drift fexp fc = g_drift /\ fc_elec fexp fc = e_ep.
  Proof.
    unfold g_make, make_config. cbn [e_dp e_ep dp_length ep_windows_edge ep_mm_edge].
    destruct (C31_velocity_binary64 fexp (f_of_Z 1) 512 0 ltac:(lia) ltac:(lia)) as (dv & Ev & _); [apply f_of_Z_fin; lia|].
    assert (Eg : g_drift = dv) by (unfold g_drift; now rewrite Ev). rewrite Ev.
    destruct (reads_nth _ _ _ g_reads) as (cs & F & _).
    assert (Ll : length g_lines = NUM_PADS) by (unfold g_lines; rewrite map_length; exact centers_count).
    destruct (C33_centres g_float (fun _ => None) g_resource e_pp ["x"; "y"] g_lines cs eq_refl F ltac:(rewrite Ll; constructor)) as (out & El & _).
    cbn [bind load_pad_grid e_pp pp_grid String.eqb DEFAULT Ascii.eqb Bool.eqb]. rewrite El. cbn [bind].
    unfold load_pad_sizes. cbn [e_pp pp_size String.eqb DEFAULT Ascii.eqb Bool.eqb].
    unfold g_resource. cbn [String.eqb Ascii.eqb Bool.eqb tl fill_sizes bind].
    eexists. split; [reflexivity|]. unfold sim_config, g_config.
    cbn [fc_grid fc_edges fc_det fc_elec fc_drift dp_length dp_efield dp_diffusion dp_gain ep_mm_edge e_dp e_ep]. rewrite Eg. auto 6.
  Qed.

  Notation g_simulate e := (simulate fexp e_nuc g_traj (e_electrons fexp) ex_uniform [e_row e] (0, 0, 0) [2] [4] g_config 0 [0]).
  Lemma g_run : match g_simulate 1 with
    | Ok (([p], [l]), _) => (f_to_Z (p_pad p), f_to_Z (p_el p), l,
        match apply_response [f_of_Z 1] (p_el p) with Ok (amp, _) => fltb (f_of_Z 5) amp | Err _ => false end)
    | _ => (None, None, 0, false) end = (Some 2195, Some 240, 0, true).
  Proof. vm_compute. reflexivity. Qed.
  Lemma g_run0 : match g_simulate 0 with Ok (([], []), _) => true | _ => false end = true.
  Proof. vm_compute. reflexivity. Qed.

  Lemma g_width (t : @traj unit) : t_z t = half -> forall s, sigma_of (N := F64 fexp) (dp_diffusion e_dp) (dp_efield e_dp) g_drift
                     (drift_time fexp g_config (t_z t)) = Ok s -> feqb s (f_of_Z 0) = true.
  Proof.
    intros -> s E.
    assert (K : match sigma_of (N := F64 fexp) (dp_diffusion e_dp) (dp_efield e_dp) g_drift (drift_time fexp g_config half) with
                | Ok s => feqb s (f_of_Z 0) | Err _ => false end = true) by (vm_compute; reflexivity).
    rewrite E in K. exact K.
  Qed.

  Lemma g_near_axis : (radius_mm g_in < 16.97)%R.
  Proof.
    unfold radius_mm, g_in. cbn [fst snd].
    destruct (f_of_ZE_correct 1 (-6) ltac:(lia) ltac:(lia)) as (E1 & _). destruct (f_of_ZE_correct 1 (-8) ltac:(lia) ltac:(lia)) as (E2 & _).
    rewrite E1, E2. change (bpow radix2 (-6)) with (/ 64)%R. change (bpow radix2 (-8)) with (/ 256)%R.
    replace 16.97%R with (sqrt (16.97 * 16.97)) by (apply sqrt_square; lra). apply sqrt_lt_1_alt. lra.
  Qed.

  (** The hypotheses of the theorems about stored rows are met by this detector: one row is stored for the outer
      track, none for the track near the axis. *)
  Example C99_stored_example : exists fc, g_make = Ok fc /\ sane e_dp e_ep /\ draws_ok ex_uniform /\
    fc_grid fexp fc = packaged_grid /\ fc_edges fexp fc = packaged_edges fexp /\
    geometry (fun _ => None) g_resource e_pp ["x"; "y"] g_lines /\ reads_padxy g_float g_lines /\
    (forall rows v, P_Detect.contained fexp g_traj e_dp fc rows v) /\
    (forall v p n c track t s, g_traj v p n c = Ok track -> In t track ->
       sigma_of (N := F64 fexp) (dp_diffusion e_dp) (dp_efield e_dp) (fc_drift fexp fc) (drift_time fexp (sim_config fexp fc) (t_z t)) = Ok s ->
       feqb s (f_of_Z 0) = true) /\ (radius_mm g_in < 16.97)%R /\
    (exists cloud labels rng' out labs,
      P_Detect.sim fexp e_nuc g_traj (e_electrons fexp) ex_uniform fc [e_row 1] (0, 0, 0) [2] [4] 0 [0] = Ok ((cloud, labels), rng') /\
      process fexp the_sort [f_of_Z 1] (writer_config fexp fc) cloud labels = Ok (out, labs) /\ exists r, combine out labs = [(r, 0)]) /\
    (exists rng', P_Detect.sim fexp e_nuc g_traj (e_electrons fexp) ex_uniform fc [e_row 0] (0, 0, 0) [2] [4] 0 [0] = Ok (([], []), rng')).
  Proof.
    destruct g_made as (fc & M & Gr & Ed & Cf & Dr & El). exists fc.
    destruct (C58_hypotheses fexp) as (Sa & _).
    assert (HU : draws_ok ex_uniform).
    { intros n g. cbn [ex_uniform fst]. split; [apply repeat_length|].
      apply Forall_forall. intros u Hu. apply repeat_spec in Hu as ->. exact half_ok. }
    assert (Tz : forall v p n c track t, g_traj v p n c = Ok track -> In t track -> t_z t = half).
    { intros v p n c track t E It. unfold g_traj in E.
      apply (f_equal (fun r => match r with Ok x => x | _ => [] end)) in E. cbv beta match in E. rewrite <- E in It.
      destruct It as [<-|[]]. now destruct (m_E p =? 0). }
    assert (Co : forall rows v, P_Detect.contained fexp g_traj e_dp fc rows v).
    { intros rows v p nuc track t _ E It. apply (Tz _ _ _ _ _ _ E) in It. unfold around. rewrite It. cbn [e_dp dp_length]. rewrite (f_of_Z_R 1) by lia.
      destruct half_ok as (F & B). split; [exact F|]. apply Rabs_le. lra. }
    split; [exact M|]. split; [exact Sa|]. split; [exact HU|]. split; [exact Gr|]. split; [exact Ed|]. split; [reflexivity|].
    split; [exact g_reads|]. split; [exact Co|].
    split; [intros v p n c track t s E It; rewrite Cf, Dr; apply g_width; eapply Tz; eassumption|].
    split; [exact g_near_axis|]. unfold P_Detect.sim. rewrite Cf. split.
    - pose proof g_run as R. destruct (g_simulate 1) as [[[cloud labels] rng']|] eqn:S; [|discriminate R].
      destruct cloud as [|p [|p2 cloud]]; [discriminate R| |discriminate R].
      destruct labels as [|l [|l2 labels]]; [discriminate R| |discriminate R].
      assert (R3 : l = 0) by (apply (f_equal (fun q => snd (fst q))) in R; exact R). subst l.
      assert (R4 := f_equal snd R). cbn [snd] in R4. clear R.
      assert (S' : P_Detect.sim fexp e_nuc g_traj (e_electrons fexp) ex_uniform fc [e_row 1] (0, 0, 0) [2] [4] 0 [0] = Ok (([p], [0]), rng'))
        by (unfold P_Detect.sim; rewrite Cf; exact S).
      assert (Gd : forall i j, -1 <= gr_cell (fc_grid fexp fc) i j < 10240)
        by (intros i j; rewrite Gr; pose proof (packaged_cell_range i j); lia).
      destruct (C58_storable fexp e_nuc g_traj (e_electrons fexp) ex_uniform the_sort HU argsort_exists g_float (fun _ => None) g_resource
        (fun _ => Err ValueError) (Ok (packaged_grid, packaged_edges fexp)) e_dp e_ep e_pp fc M Gd Sa ltac:(cbn; lia) [f_of_Z 1] [e_row 1] (0, 0, 0) [2] [4] 0 [0] [p] [0] rng'
        ltac:(discriminate) (Co _ _) S') as ([out labs] & P).
      exists [p], [0], rng', out, labs. split; [reflexivity|]. split; [exact P|].
      destruct (config_fine fexp g_traj g_float (fun _ => None) g_resource (fun _ => Err ValueError) (Ok (packaged_grid, packaged_edges fexp)) e_dp e_ep e_pp fc M Sa ltac:(cbn; lia)) as [Hcfg Hnear].
      destruct (C16_cloud_shape fexp e_nuc g_traj (e_electrons fexp) ex_uniform [e_row 1] (0, 0, 0) [2] [4]
                (sim_config fexp fc) 0 [0] (fc_grid fexp fc) (fc_edges fexp fc) [p] [0] rng'
                eq_refl eq_refl ltac:(intros i j; specialize (Gd i j); lia) (Hnear _ _ (Co _ _)) HU S') as [_ Shape].
      destruct (process_all fexp the_sort [f_of_Z 1] (writer_config fexp fc) (fc_centers fexp fc) [p] [0] out labs argsort_exists Hcfg eq_refl)
        as (conv & _ & Lo & Fc & Pm); [|exact P|].
      { intros q Hq. destruct (Shape q Hq) as (_ & Ft & Bt). split; [exact Ft|].
        rewrite Rabs_pos_eq by apply Bt. apply Rlt_le, Rlt_le_trans with 512%R; [apply Bt|].
        change 512%R with (bpow radix2 9). apply bpow_le. lia. }
      inversion Fc as [|q r ql rl Ec Fn]; subst. inversion Fn; subst. cbn [combine filter] in Pm.
      assert (Pa : passes (wc_threshold (writer_config fexp fc)) (r, 0) = true).
      { unfold writer_config. cbn [wc_threshold]. rewrite El. cbn [e_ep ep_threshold]. unfold passes. cbn [fst].
        unfold convert_point in Ec. destruct (f_to_Z (p_pad p)) as [pd|]; [|discriminate Ec]. cbn [bind] in Ec.
        destruct (nj_index _ pd) as [cen|]; [|discriminate Ec]. cbn [bind] in Ec.
        destruct (apply_response _ _) as [[amp integral]|]; [|discriminate Ec]. cbn [bind] in Ec.
        match type of Ec with context [bind ?a _] => destruct a; [|discriminate Ec] end. cbn [bind] in Ec.
        match type of Ec with context [bind ?a _] => destruct a; [|discriminate Ec] end. cbn [bind] in Ec.
        apply (f_equal (fun r => match r with Ok a => s_amp a | Err _ => f_of_Z 0 end)) in Ec. cbn beta iota in Ec.
        rewrite <- Ec. exact R4. }
      rewrite Pa in Pm. exists r. apply Permutation.Permutation_length_1_inv. apply Permutation.Permutation_sym. exact Pm.
    - pose proof g_run0 as R. destruct (g_simulate 0) as [[[[|p cloud] [|l labels]] rng']|]; try discriminate R. exists rng'. reflexivity.
  Qed.
End Examples.

Print Assumptions C99_pad_at_position.
Print Assumptions C99_beam_pads.
Print Assumptions C99_hole.
Print Assumptions C99_beam_extent.
Print Assumptions C99_stored_near_track.
Print Assumptions C99_beam_region_silent.
