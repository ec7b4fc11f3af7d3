(** ElectronsF64.v -- [generate_electrons] in binary64 (detector/solver.py 308-347).
    Solver.v has the same function over the reals. Here every numpy operation is the IEEE one.
    Simplified: np.linalg.norm(..., axis=1) adds the three squares from left to right, [gv**2.0] is
    numpy's fast path [gv*gv], rng.normal(loc, scale) is [loc + scale*g] for the standard normal
    draw [g], without a fused multiply-add. *)
From Coq Require Import ZArith List.
From Flocq Require Import Core BinarySingleNaN.
From Verif Require Import Base F64.
Import ListNotations.

(** A momentum of a row of the track, p/(mc): solver.py 331 [track[:, 3:]]. *)
Record vec64 := mkVec64 { vx64 : f64; vy64 : f64; vz64 : f64 }.

Definition fone : f64 := f_of_Z 1.
Definition fmega : f64 := f_of_Z 1000000.

(** solver.py 331: np.linalg.norm. *)
Definition gv64 (p : vec64) : f64 :=
  fsqrt (fadd (fadd (fmul (vx64 p) (vx64 p)) (fmul (vy64 p) (vy64 p))) (fmul (vz64 p) (vz64 p))).
(** solver.py 332. *)
Definition beta64 (gv : f64) : f64 :=
  fsqrt (fdiv (fmul gv gv) (fadd fone (fmul gv gv))).
(** solver.py 331-334: kinetic energy of a row in MeV. *)
Definition row_energy64 (mass : f64) (p : vec64) : f64 :=
  let gv := gv64 p in
  let gamma := fdiv gv (beta64 gv) in
  fmul mass (fsub gamma fone).

(** np.diff. *)
Fixpoint diff64 (l : list f64) : list f64 :=
  match l with
  | a :: (b :: _) as l' => fsub b a :: diff64 l'
  | _ => []
  end.

(** solver.py 337-339: [electrons]: zero, then |diff(energy)|, all times 1e6/w (w is an int). *)
Definition means64 (mass : f64) (w : Z) (track : list vec64) : list f64 :=
  let energy := map (row_energy64 mass) track in
  let electrons := match energy with [] => [] | _ => f_of_Z 0 :: map (@Babs prec64 emax64) (diff64 energy) end in
  let k := fdiv fmega (f_of_Z w) in
  map (fun e => fmul e k) electrons.

(** solver.py 342-345: one entry: rng.normal(point, sqrt(fano*point)) converted to int64
    (None: int() of a NaN, an infinity or of a number outside int64 raises). *)
Definition count64 (fano point g : f64) : option Z :=
  f_to_Z (fadd point (fmul (fsqrt (fmul fano point)) g)).

(** solver.py 342-347: all entries, for the standard normal draws [gs]. *)
Definition counts64 (fano : f64) (means gs : list f64) : list (option Z) :=
  map (fun mg => count64 fano (fst mg) (snd mg)) (combine means gs).
