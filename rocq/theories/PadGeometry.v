(** PadGeometry.v -- where the pads of the packaged grid are, by computation over the data of
    /repo/src/attpc_engine/detector/data (padxy.csv, pad_grid.npz) and beam_pads.py. *)
From Coq Require Import ZArith List Lia FMapPositive.
From Verif Require Import Base F64 Num Transporter PositionProofs PadGridData PadCentersData PadGrid BeamPads.
Import ListNotations.
Local Open Scope Z_scope.
Local Opaque grid_rows pad_centers_e7 BEAM_PADS.

(** The centres as a tree, for the computation. *)
Fixpoint build {A} (l : list A) (k : positive) (m : PositiveMap.t A) : PositiveMap.t A :=
  match l with [] => m | c :: l' => build l' (Pos.succ k) (PositiveMap.add k c m) end.
Lemma build_spec A (l : list A) : forall k m n c, PositiveMap.find (Pos.of_succ_nat n) (build l (Pos.of_succ_nat k) m) = Some c ->
  ((k <= n)%nat /\ nth_error l (n - k) = Some c) \/ PositiveMap.find (Pos.of_succ_nat n) m = Some c.
Proof.
  induction l as [|x l IH]; intros k m n c E; [now right|]. cbn [build] in E.
  change (Pos.succ (Pos.of_succ_nat k)) with (Pos.of_succ_nat (S k)) in E.
  destruct (IH _ _ _ _ E) as [(A1 & B)|B].
  - left. split; [lia|]. replace (n - k)%nat with (S (n - S k)) by lia. exact B.
  - destruct (Nat.eq_dec n k) as [->|N].
    + rewrite PositiveMap.gss in B. left. split; [lia|]. rewrite Nat.sub_diag. exact B.
    + rewrite PositiveMap.gso in B by lia. now right.
Qed.
Lemma tree_spec A (l : list A) p c : 0 < p -> PositiveMap.find (Z.to_pos p) (build l 1 (PositiveMap.empty _)) = Some c ->
  nth_error l (Z.to_nat (p - 1)) = Some c.
Proof.
  intros P E. replace (Z.to_pos p) with (Pos.of_succ_nat (Z.to_nat (p - 1))) in E.
  - destruct (build_spec A l 0 _ _ _ E) as [(_ & A1)|A1]; [now rewrite Nat.sub_0_r in A1|].
    rewrite PositiveMap.gempty in A1. discriminate A1.
  - apply Pos2Z.inj. rewrite Zpos_P_of_succ_nat, Z2Pos.id by lia. lia.
Qed.

(** Per pad, the box of half-widths 5.5695 mm and 4.7915 mm about its centre. *)
Definition box (c : Z * Z) : Z * Z * Z * Z :=
  (fst c - 55695000, fst c + 55695000, snd c - 47915000, snd c + 47915000).
Definition boxes := build (map box pad_centers_e7) 1 (PositiveMap.empty _).

(** Every run of a row ([n] cells of the pad [p - 1], packed as 1024 p + n) lies in its pad's box. *)
Fixpoint check_row (t : PositiveMap.t (Z * Z * Z * Z)) (x x' : Z) (l : list Z) (y : Z) : bool :=
  match l with
  | [] => true
  | c :: l' =>
      let y' := y + Z.land c 1023 * 10000000 in
      if match Z.shiftr c 10 with
         | Zpos p => match PositiveMap.find p t with
                     | Some (x0, x1, y0, y1) =>
                         if x0 <=? x then if x' <=? x1 then if y0 <=? y then y' <=? y1 else false else false else false
                     | None => false
                     end
         | _ => true
         end then check_row t x x' l' y' else false
  end.
Fixpoint check_rows (t : PositiveMap.t (Z * Z * Z * Z)) (rows : list (list Z)) (x : Z) : bool :=
  match rows with
  | [] => true
  | l :: rows' => let x' := x + 10000000 in if check_row t x x' l (-2800000000) then check_rows t rows' x' else false
  end.

Lemma check_rows_ok : check_rows boxes grid_rows (-2800000000) = true.
Proof. vm_compute. reflexivity. Qed.

Lemma unpack c : Z.land c 1023 = c mod 1024 /\ Z.shiftr c 10 = c / 1024.
Proof. split; [apply (Z.land_ones c 10); lia|apply (Z.shiftr_div_pow2 c 10); lia]. Qed.

Lemma check_row_spec t x x' l : forall y, check_row t x x' l y = true ->
  forall j pad, 0 <= j -> rle_get l j = pad -> 0 <= pad ->
  exists x0 x1 y0 y1, PositiveMap.find (Z.to_pos (pad + 1)) t = Some (x0, x1, y0, y1) /\
    x0 <= x /\ x' <= x1 /\ y0 <= y + j * 10000000 /\ y + (j + 1) * 10000000 <= y1.
Proof.
  induction l as [|c l IH]; intros y H j pad Hj E Hp; [cbn in E; lia|].
  cbn [check_row] in H. cbn [rle_get] in E. cbv zeta in H, E. destruct (unpack c) as (U1 & U2). rewrite U1, U2 in H. clear U1 U2.
  pose proof (Z.mod_pos_bound c 1024 ltac:(lia)) as M. set (n := c mod 1024) in *. set (p := c / 1024) in *.
  destruct (Z.ltb_spec j n) as [L|L].
  - assert (Ep : p = pad + 1) by lia. rewrite Ep in H. rewrite <- (Z2Pos.id (pad + 1)) in H by lia.
    destruct (PositiveMap.find (Z.to_pos (pad + 1)) t) as [[[[x0 x1] y0] y1]|]; [|discriminate H].
    exists x0, x1, y0, y1. split; [reflexivity|].
    destruct (Z.leb_spec x0 x); [|discriminate H]. destruct (Z.leb_spec x' x1); [|discriminate H].
    destruct (Z.leb_spec y0 y); [|discriminate H]. destruct (Z.leb_spec (y + n * 10000000) y1); [|discriminate H]. lia.
  - match type of H with (if ?b then _ else _) = _ => destruct b; [|discriminate H] end.
    destruct (IH _ H (j - n) pad ltac:(lia) E Hp) as (x0 & x1 & y0 & y1 & A & B & C & D & F).
    exists x0, x1, y0, y1. repeat (split; [assumption|]). lia.
Qed.

Lemma check_rows_spec t rows : forall x, check_rows t rows x = true ->
  forall i, check_row t (x + Z.of_nat i * 10000000) (x + (Z.of_nat i + 1) * 10000000) (nth i rows []) (-2800000000) = true.
Proof.
  induction rows as [|l rows IH]; intros x H i; [destruct i; reflexivity|].
  cbn [check_rows] in H. cbv zeta in H. destruct (check_row t x (x + 10000000) l (-2800000000)) eqn:E; [|discriminate H].
  destruct i as [|i].
  - cbn [nth]. change (Z.of_nat 0) with 0. rewrite Z.mul_0_l, Z.add_0_r, Z.add_0_l, Z.mul_1_l. exact E.
  - cbn [nth]. specialize (IH _ H i). rewrite Nat2Z.inj_succ.
    replace (x + Z.succ (Z.of_nat i) * 10000000) with (x + 10000000 + Z.of_nat i * 10000000) by lia.
    replace (x + (Z.succ (Z.of_nat i) + 1) * 10000000) with (x + 10000000 + (Z.of_nat i + 1) * 10000000) by lia. exact IH.
Qed.

(** The pad of millimetre cell (kx, ky). *)
Definition pad_at (kx ky : Z) : Z := gr_cell packaged_grid (10 * (kx + 280)) (10 * (ky + 280)).
Lemma pad_at_rle kx ky : pad_at kx ky = rle_get (nth (Z.to_nat (kx + 280)) grid_rows []) (ky + 280).
Proof.
  unfold pad_at, packaged_grid. cbn [gr_cell]. f_equal; [f_equal; f_equal|]; rewrite Z.mul_comm; apply Z.div_mul; lia.
Qed.

Lemma cell_in_box kx ky : -280 <= kx -> -280 <= ky -> 0 <= pad_at kx ky ->
  exists cx cy, nth_error pad_centers_e7 (Z.to_nat (pad_at kx ky)) = Some (cx, cy) /\
    cx - 55695000 <= kx * 10000000 /\ (kx + 1) * 10000000 <= cx + 55695000 /\
    cy - 47915000 <= ky * 10000000 /\ (ky + 1) * 10000000 <= cy + 47915000.
Proof.
  rewrite pad_at_rle. intros Hx Hy Hp.
  pose proof (check_rows_spec _ _ _ check_rows_ok (Z.to_nat (kx + 280))) as R. rewrite Z2Nat.id in R by lia.
  set (pad := rle_get _ _) in *.
  destruct (check_row_spec _ _ _ _ _ R (ky + 280) pad ltac:(lia) eq_refl Hp) as (x0 & x1 & y0 & y1 & F & A & B & C & D).
  unfold boxes in F. apply tree_spec in F; [|lia]. replace (pad + 1 - 1) with pad in F by lia.
  rewrite nth_error_map in F. destruct (nth_error pad_centers_e7 (Z.to_nat pad)) as [[cx cy]|]; [|discriminate F].
  exists cx, cy. split; [reflexivity|]. unfold option_map, box in F. injection F as <- <- <- <-. cbn [fst snd] in *. lia.
Qed.

(** The beam pads as a tree. *)
Definition beam_tree : PositiveMap.t unit :=
  fold_right (fun p m => PositiveMap.add (Z.to_pos (p + 1)) tt m) (PositiveMap.empty _) BEAM_PADS.
Lemma fold_tree_spec l p : (forall q, In q l -> 0 <= q) -> 0 <= p ->
  (PositiveMap.find (Z.to_pos (p + 1)) (fold_right (fun p m => PositiveMap.add (Z.to_pos (p + 1)) tt m) (PositiveMap.empty _) l) = Some tt
   <-> In p l).
Proof.
  intros Hl Hp. induction l as [|q l IH]; cbn [fold_right In].
  - rewrite PositiveMap.gempty. split; [discriminate|intros []].
  - specialize (IH ltac:(intros; apply Hl; now right)). specialize (Hl q ltac:(now left)).
    destruct (Z.eq_dec q p) as [->|N].
    + rewrite PositiveMap.gss. tauto.
    + rewrite PositiveMap.gso by (intros E; apply Z2Pos.inj in E; lia). rewrite IH. tauto.
Qed.
Lemma beam_nonneg q : In q BEAM_PADS -> 0 <= q.
Proof.
  assert (F : forallb (fun q => 0 <=? q) BEAM_PADS = true) by (vm_compute; reflexivity).
  rewrite forallb_forall in F. intros I. apply F in I. lia.
Qed.
Lemma beam_tree_spec p : 0 <= p -> (PositiveMap.find (Z.to_pos (p + 1)) beam_tree = Some tt <-> In p BEAM_PADS).
Proof. apply fold_tree_spec. exact beam_nonneg. Qed.

(** Beam pads are those with their centre nearer than 20 mm to the axis; none has it between 19.75 and 20.19 mm. *)
Fixpoint check_beam (t : PositiveMap.t unit) (l : list (Z * Z)) (k : positive) : bool :=
  match l with
  | [] => true
  | (cx, cy) :: l' =>
      (let r2 := cx * cx + cy * cy in
       match PositiveMap.find k t with Some _ => r2 <? 197500000 ^ 2 | None => 201900000 ^ 2 <? r2 end)
      && check_beam t l' (Pos.succ k)
  end.
Lemma check_beam_ok : check_beam beam_tree pad_centers_e7 1 = true.
Proof. vm_compute. reflexivity. Qed.
Lemma check_beam_spec t l : forall k, check_beam t l (Pos.of_succ_nat k) = true ->
  forall n cx cy, nth_error l n = Some (cx, cy) ->
  match PositiveMap.find (Pos.of_succ_nat (k + n)) t with
  | Some _ => cx * cx + cy * cy < 197500000 ^ 2
  | None => 201900000 ^ 2 < cx * cx + cy * cy
  end.
Proof.
  induction l as [|[x y] l IH]; intros k H n cx cy E; [now destruct n|].
  cbn [check_beam] in H. cbv zeta in H. apply andb_prop in H as [H1 H2].
  change (Pos.succ (Pos.of_succ_nat k)) with (Pos.of_succ_nat (S k)) in H2. destruct n as [|n].
  - cbn [nth_error] in E. assert (x = cx /\ y = cy) as [-> ->] by (split; congruence). rewrite Nat.add_0_r.
    destruct (PositiveMap.find _ t); apply Z.ltb_lt; exact H1.
  - cbn [nth_error] in E. specialize (IH _ H2 n cx cy E). replace (k + S n)%nat with (S k + n)%nat by lia. exact IH.
Qed.
Lemma beam_centres p cx cy : 0 <= p -> nth_error pad_centers_e7 (Z.to_nat p) = Some (cx, cy) ->
  (In p BEAM_PADS -> cx * cx + cy * cy < 197500000 ^ 2) /\ (~ In p BEAM_PADS -> 201900000 ^ 2 < cx * cx + cy * cy).
Proof.
  intros Hp E. pose proof (check_beam_spec _ _ 0 check_beam_ok _ _ _ E) as H. rewrite Nat.add_0_l in H.
  rewrite <- (beam_tree_spec p Hp).
  replace (Pos.of_succ_nat (Z.to_nat p)) with (Z.to_pos (p + 1)) in H.
  2:{ apply Pos2Z.inj. rewrite Zpos_P_of_succ_nat, Z2Pos.id by lia. lia. }
  destruct (PositiveMap.find (Z.to_pos (p + 1)) beam_tree) as [[]|]; split; intros I; try exact H; congruence.
Qed.

(** Nearest and farthest distance from 0 in millimetre [k, k+1]. *)
Definition nearest (k : Z) : Z := Z.max 0 (Z.max k (- (k + 1))).
Definition farthest (k : Z) : Z := Z.max (Z.abs k) (Z.abs (k + 1)).

(** Beam pads lie inside radius sqrt 548 mm, other pads outside sqrt 288 mm, run by run. *)
Fixpoint ring_row (t : PositiveMap.t unit) (near2 far2 : Z) (l : list Z) (j : Z) : bool :=
  match l with
  | [] => true
  | c :: l' =>
      let j' := j + Z.land c 1023 in
      if match Z.shiftr c 10 with
         | Zpos p => match PositiveMap.find p t with
                     | Some _ => if far2 + j * j <=? 548 then far2 + j' * j' <=? 548 else false
                     | None => if 288 <=? near2 then true
                               else 288 <=? near2 + (if j' <=? 0 then j' * j' else if 0 <=? j then j * j else 0)
                     end
         | _ => true
         end then ring_row t near2 far2 l' j' else false
  end.
Fixpoint ring_rows (t : PositiveMap.t unit) (rows : list (list Z)) (i : Z) : bool :=
  match rows with
  | [] => true
  | l :: rows' => if ring_row t (nearest i * nearest i) (farthest i * farthest i) l (-280) then ring_rows t rows' (i + 1) else false
  end.
Lemma ring_rows_ok : ring_rows beam_tree grid_rows (-280) = true.
Proof. vm_compute. reflexivity. Qed.

Lemma ring_row_spec t n2 f2 l : forall y, ring_row t n2 f2 l y = true ->
  forall j pad, 0 <= j -> rle_get l j = pad -> 0 <= pad ->
  match PositiveMap.find (Z.to_pos (pad + 1)) t with
  | Some _ => f2 + farthest (y + j) * farthest (y + j) <= 548
  | None => 288 <= n2 + nearest (y + j) * nearest (y + j)
  end.
Proof.
  induction l as [|c l IH]; intros y H j pad Hj E Hp; [cbn in E; lia|].
  cbn [ring_row] in H. cbn [rle_get] in E. cbv zeta in H, E. destruct (unpack c) as (U1 & U2). rewrite U1, U2 in H. clear U1 U2.
  pose proof (Z.mod_pos_bound c 1024 ltac:(lia)) as M. set (n := c mod 1024) in *. set (p := c / 1024) in *.
  destruct (Z.ltb_spec j n) as [L|L].
  - assert (Ep : p = pad + 1) by lia. rewrite Ep in H. rewrite <- (Z2Pos.id (pad + 1)) in H by lia.
    destruct (PositiveMap.find (Z.to_pos (pad + 1)) t) as [u|].
    + destruct (Z.leb_spec (f2 + y * y) 548); [|discriminate H]. destruct (Z.leb_spec (f2 + (y + n) * (y + n)) 548); [|discriminate H].
      assert (F : farthest (y + j) <= Z.abs y \/ farthest (y + j) <= Z.abs (y + n)) by (unfold farthest; lia).
      assert (F0 : 0 <= farthest (y + j)) by (unfold farthest; lia). set (f := farthest (y + j)) in *. clearbody f.
      rewrite <- (Z.abs_square y) in *. rewrite <- (Z.abs_square (y + n)) in *.
      destruct F; nia.
    + destruct (Z.leb_spec 288 n2).
      { assert (0 <= nearest (y + j) * nearest (y + j)) by apply Z.square_nonneg. lia. }
      destruct (Z.leb_spec 288 (n2 + (if y + n <=? 0 then (y + n) * (y + n) else if 0 <=? y then y * y else 0))) as [G|]; [|discriminate H].
      assert (N0 : 0 <= nearest (y + j)) by (unfold nearest; lia).
      destruct (Z.leb_spec (y + n) 0).
      { assert (- (y + n) <= nearest (y + j)) by (unfold nearest; lia). set (f := nearest (y + j)) in *. clearbody f. nia. }
      destruct (Z.leb_spec 0 y); [|nia].
      assert (y <= nearest (y + j)) by (unfold nearest; lia). set (f := nearest (y + j)) in *. clearbody f. nia.
  - match type of H with (if ?b then _ else _) = _ => destruct b; [|discriminate H] end.
    specialize (IH _ H (j - n) pad ltac:(lia) E Hp). replace (y + n + (j - n)) with (y + j) in IH by lia. exact IH.
Qed.
Lemma ring_rows_spec t rows : forall x, ring_rows t rows x = true ->
  forall i, ring_row t (nearest (x + Z.of_nat i) * nearest (x + Z.of_nat i)) (farthest (x + Z.of_nat i) * farthest (x + Z.of_nat i)) (nth i rows []) (-280) = true.
Proof.
  induction rows as [|l rows IH]; intros x H i; [destruct i; reflexivity|].
  cbn [ring_rows] in H. destruct (ring_row _ _ _ l (-280)) eqn:E; [|discriminate H].
  destruct i as [|i].
  - cbn [nth]. change (Z.of_nat 0) with 0. rewrite Z.add_0_r. exact E.
  - cbn [nth]. specialize (IH _ H i). rewrite Nat2Z.inj_succ. replace (x + Z.succ (Z.of_nat i)) with (x + 1 + Z.of_nat i) by lia. exact IH.
Qed.
Lemma cell_ring kx ky : -280 <= kx -> -280 <= ky -> 0 <= pad_at kx ky ->
  (In (pad_at kx ky) BEAM_PADS -> farthest kx * farthest kx + farthest ky * farthest ky <= 548) /\
  (~ In (pad_at kx ky) BEAM_PADS -> 288 <= nearest kx * nearest kx + nearest ky * nearest ky).
Proof.
  rewrite pad_at_rle. intros Hx Hy Hp.
  pose proof (ring_rows_spec _ _ _ ring_rows_ok (Z.to_nat (kx + 280))) as R. rewrite Z2Nat.id in R by lia.
  replace (-280 + (kx + 280)) with kx in R by lia. set (pad := rle_get _ _) in *.
  pose proof (ring_row_spec _ _ _ _ _ R (ky + 280) pad ltac:(lia) eq_refl Hp) as S.
  replace (-280 + (ky + 280)) with ky in S by lia. rewrite <- (beam_tree_spec pad Hp).
  destruct (PositiveMap.find (Z.to_pos (pad + 1)) beam_tree) as [[]|]; split; intros I; try exact S; congruence.
Qed.
