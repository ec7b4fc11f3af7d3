(** MotionF64.v -- equation_of_motion and the terminal conditions of detector/solver.py 19-240 in
    binary64 (Solver.v has them over the reals).
    [pw] is the power [x**2.0] (libm); [dedx] is the gas target's get_dedx for the nucleus at hand, a
    function of the kinetic energy. Simplified: np.linalg.norm of two entries is sqrt(x*x + y*y);
    OverflowError of [gv**2.0] (a Python float) is left out. *)
From Coq Require Import ZArith.
From Verif Require Import Base F64 ElectronsF64.

(** Python's [/] on floats. *)
Definition pydiv64 (x y : f64) : res f64 :=
  if feqb y (f_of_Z 0) then Err ZeroDivisionError else Ok (fdiv x y).

Section Eom.
  Context (pw : f64 -> f64).
  (** constants.py: C, E_CHARGE, MEV_2_KG, MEV_2_JOULE. *)
  Context (c e_charge mev_kg mev_joule : f64).
  Context (dedx : f64 -> f64) (density : f64).

  (** solver.py 51, 111. *)
  Definition gv_pw (p : vec64) : f64 := fsqrt (fadd (fadd (pw (vx64 p)) (pw (vy64 p))) (pw (vz64 p))).
  (** solver.py 52, 112. *)
  Definition beta_pw (gv : f64) : f64 := fsqrt (fdiv (pw gv) (fadd fone (pw gv))).

  (** solver.py 51-76: velocity and force of a state with momentum [p]. *)
  Definition eom64 (bfield efield : f64) (z : Z) (mass : f64) (p : vec64) : res (vec64 * vec64) :=
    let gv := gv_pw p in
    let beta := beta_pw gv in
    let* gamma := pydiv64 gv beta in
    let ux := fdiv (vx64 p) gv in
    let uy := fdiv (vy64 p) gv in
    let uz := fdiv (vz64 p) gv in
    let velx := fmul (fmul ux beta) c in
    let vely := fmul (fmul uy beta) c in
    let velz := fmul (fmul uz beta) c in
    let kinetic_energy := fmul mass (fsub gamma fone) in
    let charge_c := fmul (f_of_Z z) e_charge in
    let mass_kg := fmul mass mev_kg in
    let* q_m := pydiv64 charge_c mass_kg in
    let* deceleration :=
      pydiv64 (fmul (fmul (fmul (dedx kinetic_energy) mev_joule) density) (f_of_Z 100)) mass_kg in
    Ok (mkVec64 velx vely velz,
        mkVec64 (fdiv (fsub (fmul (fmul q_m vely) bfield) (fmul deceleration ux)) c)
                (fdiv (fsub (fmul q_m (fmul (fmul (f_of_Z (-1)) velx) bfield)) (fmul deceleration uy)) c)
                (fdiv (fsub (fmul q_m efield) (fmul deceleration uz)) c)).

  (** solver.py 14: 1e-6 (the double nearest to it). *)
  Definition ke_limit : f64 := f_of_ZE 4722366482869645 (-72).

  (** solver.py 111-116 [stop_condition]. *)
  Definition stop64 (mass : f64) (p : vec64) : res f64 :=
    let gv := gv_pw p in
    let beta := beta_pw gv in
    let* gamma := pydiv64 gv beta in
    Ok (fsub (fmul mass (fsub gamma fone)) ke_limit).
End Eom.

(** solver.py 160. *)
Definition forward_z64 (z : f64) : f64 := fsub z fone.
(** solver.py 200. *)
Definition backward_z64 (z : f64) : f64 := z.
(** solver.py 240; 0.292 (the double nearest to it). *)
Definition max_rho : f64 := f_of_ZE 5260204364768739 (-54).
Definition rho64 (x y : f64) : f64 := fsub (fsqrt (fadd (fmul x x) (fmul y y))) max_rho.
