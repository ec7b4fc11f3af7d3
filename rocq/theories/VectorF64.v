(** VectorF64.v -- the operations of the vector library that reaction.py calls (lines 156, 174, 247,
    279, 285, 301), in binary64.

    The library is not part of /repo and its source is not at hand: the formulas are those of its
    to_beta3, boost_beta3, transform4D and tau for Cartesian components.  [sq] is [x**2]. *)
From Coq Require Import ZArith Bool.
From Flocq Require Import BinarySingleNaN.
From Verif Require Import Base F64 KinF64 KinChain.

Section Vector.
  Context (sq : f64 -> f64).

  (** boost_beta3: the boost with velocity (bx, b_y, bz), as a symmetric matrix. *)
  Definition boost_beta64 (bx b_y bz : f64) (a : v4) : v4 :=
    let one := f_of_Z 1 in
    let bp2 := fadd (fadd (sq bx) (sq b_y)) (sq bz) in
    let gam := fdiv one (fsqrt (fsub one bp2)) in
    let bgam := fdiv (fmul gam gam) (fadd one gam) in
    let xx := fadd one (fmul (fmul bgam bx) bx) in
    let yy := fadd one (fmul (fmul bgam b_y) b_y) in
    let zz := fadd one (fmul (fmul bgam bz) bz) in
    let xy := fmul (fmul bgam bx) b_y in
    let xz := fmul (fmul bgam bx) bz in
    let yz := fmul (fmul bgam b_y) bz in
    let xt := fmul gam bx in
    let yt := fmul gam b_y in
    let zt := fmul gam bz in
    let row m1 m2 m3 m4 := fadd (fadd (fadd (fmul m1 (vx a)) (fmul m2 (vy a))) (fmul m3 (vz a))) (fmul m4 (vE a)) in
    mkV4 (row xx xy xz xt) (row xy yy yz yt) (row xz yz zz zt) (row xt yt zt gam).

  (** a.boost(p): boost_p4. *)
  Definition boost_v (p a : v4) : v4 :=
    boost_beta64 (fdiv (vx p) (vE p)) (fdiv (vy p) (vE p)) (fdiv (vz p) (vE p)) a.
  (** p.boostCM_of(p).E: the boost by the opposite of the velocity. *)
  Definition rest_v (p : v4) : f64 :=
    vE (boost_beta64 (fdiv (Bopp (vx p)) (vE p)) (fdiv (Bopp (vy p)) (vE p)) (fdiv (Bopp (vz p)) (vE p)) p).
  (** p.M: tau, the root of |m^2| with the sign of m^2. *)
  Definition tau2_v (p : v4) : f64 := fsub (sq (vE p)) (fadd (fadd (sq (vx p)) (sq (vy p))) (sq (vz p))).
  Definition mass_v (p : v4) : f64 :=
    let m := fsqrt (Babs (tau2_v p)) in if Bsign (tau2_v p) then Bopp m else m.
End Vector.
