(** PadGrid.v -- the packaged pad grid and pad centres (data of /repo/src/attpc_engine/detector/data). *)
From Coq Require Import ZArith.
From Verif Require Import Base F64 Num Transporter PositionProofs PadGridData PadCentersData.
Local Open Scope Z_scope.

(** The [j]-th element of a run-length encoded row. *)
Fixpoint rle_get (l : list Z) (j : Z) : Z :=
  match l with
  | [] => -1
  | c :: l' => let n := c mod 1024 in if j <? n then c / 1024 - 1 else rle_get l' (j - n)
  end.

(** pad_grid.npz [grid]: 5600 x 5600.  Only cells whose indices are multiples of 10 are
    embedded; any other cell reads as the cell at the next lower multiples of 10 (with the
    packaged edges no other cell is ever read, [position_to_index_packaged]). *)
Definition packaged_grid : grid :=
  mkGrid 5600 5600
    (fun i j => rle_get (nth (Z.to_nat (i / 10)) grid_rows []) (j / 10)).

(** Centre of a packaged pad in metres (binary64 nearest to the decimal in padxy.csv / 1000). *)
Definition center_m (c : Z * Z) : f64 * f64 :=
  (fdiv (f_of_Z (fst c)) (f_of_Z 10000000000), fdiv (f_of_Z (snd c)) (f_of_Z 10000000000)).

(** The pad the code looks up for a position (-1 also for positions off the map). *)
Definition looked_up (fexp : f64 -> f64) (p : f64 * f64) : res Z :=
  let* (ix, iy) := @position_to_index (F64 fexp) (packaged_edges fexp) p in
  if (ix =? -1) || (iy =? -1) then Ok (-1) else grid_get packaged_grid ix iy.
