(** Pairing.v -- model of /repo/src/attpc_engine/detector/pairing.py. *)
From Coq Require Import ZArith.
From Verif Require Import Base F64.
Local Open Scope Z_scope.

(** pairing.py 5-27 [pair]: numba int64 arithmetic (wrap-around on overflow). *)
Definition pair (tb pad : Z) : Z :=
  if (tb <? 0) || (pad <? 0) then -1
  else if tb =? Z.max tb pad then wrap64 (wrap64 (wrap64 (tb * tb) + tb) + pad)
  else wrap64 (wrap64 (pad * pad) + tb).

(** pairing.py 30-55 [unpair]: [id] is an int64, every intermediate value and both
    results are float64 ([np.sqrt] of an int64 converts it to float64 first;
    [sqrt_id**2] compiles to a multiplication; [id - float] converts [id]). *)
Definition unpair (id : Z) : f64 * f64 :=
  if id <? 0 then (f_of_Z (-1), f_of_Z (-1))
  else
    let fid := f_of_Z id in
    let sqrt_id := ffloor (fsqrt fid) in
    if fltb (fsub fid (fmul sqrt_id sqrt_id)) sqrt_id
    then (fsub fid (fmul sqrt_id sqrt_id), sqrt_id)
    else (sqrt_id, fsub (fsub fid (fmul sqrt_id sqrt_id)) sqrt_id).
