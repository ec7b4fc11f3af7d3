(** Solver.v -- model of /repo/src/attpc_engine/detector/solver.py 14-347: equation of motion,
    stopping conditions, [generate_trajectory] and [generate_electrons], in exact arithmetic.

    Simplified: reals instead of binary64; numpy's and scipy's [solve_ivp] is a parameter;
    a standard normal draw [g] makes rng.normal(loc, scale) = loc + scale * g; the conversion to
    int64 truncates and is not range checked. *)
From Coq Require Import ZArith Reals.
From Flocq Require Import Core.
From Verif Require Import Base Nucleus.
Local Open Scope R_scope.

(** Three-vectors and rows (x, y, z, gvx, gvy, gvz) of a track, solver.py 29-30. *)
Record vec := mkVec { vx : R; vy : R; vz : R }.
Record state := mkState { pos : vec; mom : vec }.

(** solver.py 14, 16: KE_LIMIT = 1e-6, TIME_STEPS = linspace(0, 10e-7, 10001). *)
Definition KE_LIMIT : R := / 10 ^ 6.
Definition TIME_STEPS : list R := map (fun i => INR i * (10 / 10 ^ 7 / 10000)) (seq 0 (Z.to_nat 10001)).

(** solver.py 51, 111, 331: sqrt(gvx^2 + gvy^2 + gvz^2). *)
Definition gv_of (m : vec) : R := sqrt (vx m ^ 2 + vy m ^ 2 + vz m ^ 2).
(** solver.py 52, 112, 332. *)
Definition beta_of (gv : R) : R := sqrt (gv ^ 2 / (1 + gv ^ 2)).

Section Eom.
  (** constants.py: C, E_CHARGE, MEV_2_KG, MEV_2_JOULE. *)
  Context (c e_charge mev_kg mev_joule : R).
  (** GasTarget: get_dedx and density. *)
  Context (dedx : nucleus -> R -> R) (density : R).

  (** solver.py 19-76 [equation_of_motion]. *)
  Definition equation_of_motion (bfield efield : R) (nuc : nucleus) (s : state) : res state :=
    let gv := gv_of (mom s) in
    let beta := beta_of gv in
    let* gamma := pydivR gv beta in
    let ux := vx (mom s) / gv in
    let uy := vy (mom s) / gv in
    let uz := vz (mom s) / gv in
    let velx := ux * beta * c in
    let vely := uy * beta * c in
    let velz := uz * beta * c in
    let kinetic_energy := n_mass nuc * (gamma - 1) in
    let charge_c := IZR (n_Z nuc) * e_charge in
    let mass_kg := n_mass nuc * mev_kg in
    let* q_m := pydivR charge_c mass_kg in
    let* deceleration :=
      pydivR (dedx nuc kinetic_energy * mev_joule * density * 100) mass_kg in
    Ok (mkState (mkVec velx vely velz)
                (mkVec ((q_m * vely * bfield - deceleration * ux) / c)
                       ((q_m * (-1 * velx * bfield) - deceleration * uy) / c)
                       ((q_m * efield - deceleration * uz) / c))).

  (** solver.py 80-121 [stop_condition]. *)
  Definition stop_condition (nuc : nucleus) (s : state) : res R :=
    let gv := gv_of (mom s) in
    let beta := beta_of gv in
    let* gamma := pydivR gv beta in
    let kinetic_energy := n_mass nuc * (gamma - 1) in
    Ok (kinetic_energy - KE_LIMIT).

  (** solver.py 124-160 [forward_z_bound_condition]. *)
  Definition forward_z_bound_condition (s : state) : res R := Ok (vz (pos s) - 1).
  (** solver.py 164-200 [backward_z_bound_condition]. *)
  Definition backward_z_bound_condition (s : state) : res R := Ok (vz (pos s)).
  (** solver.py 204-240 [rho_bound_condition]. *)
  Definition rho_bound_condition (s : state) : res R :=
    Ok (sqrt (vx (pos s) ^ 2 + vy (pos s) ^ 2) - 292 / 1000).

  (** A terminal event of solve_ivp; [true]: direction +1, [false]: direction -1. *)
  Definition event : Type := ((state -> res R) * bool)%type.

  (** scipy solve_ivp(fun, (0, 1), y0, events, t_eval): rows at the times of t_eval. *)
  Context (solve_ivp : (state -> res state) -> state -> list event -> list R -> res (list state)).

  (** parameters.py 41-48, the fields used here. *)
  Record dparams := mkDparams { d_efield : R; d_bfield : R; d_fano : R; d_w : R }.

  (** solver.py 275-291: the terminal events. *)
  Definition events (nuc : nucleus) : list event :=
    [(stop_condition nuc, false); (forward_z_bound_condition, true);
     (backward_z_bound_condition, false); (rho_bound_condition, true)].

  (** solver.py 268-270. *)
  Definition initial_state (vertex momentum : vec) (nuc : nucleus) : state :=
    mkState vertex (mkVec (vx momentum / n_mass nuc) (vy momentum / n_mass nuc)
                          (vz momentum / n_mass nuc)).

  (** solver.py 243-305 [generate_trajectory]. *)
  Definition generate_trajectory (vertex momentum : vec) (nuc : nucleus) (p : dparams)
      : res (list state) :=
    solve_ivp (equation_of_motion (d_bfield p * -1) (d_efield p * -1) nuc)
              (initial_state vertex momentum nuc) (events nuc) TIME_STEPS.
End Eom.

(** solver.py 331-334: the kinetic energy of a row (numpy). *)
Definition row_energy (nuc : nucleus) (s : state) : R :=
  let gv := gv_of (mom s) in
  let gamma := gv / beta_of gv in
  n_mass nuc * (gamma - 1).

(** np.diff. *)
Fixpoint diff (l : list R) : list R :=
  match l with
  | a :: (b :: _) as l' => (b - a) :: diff l'
  | _ => []
  end.

(** solver.py 331-339: mean number of electrons at each row. *)
Definition mean_electrons (nuc : nucleus) (p : dparams) (track : list state) : res (list R) :=
  let energy := map (row_energy nuc) track in
  let electrons := match energy with [] => [] | _ => 0 :: map Rabs (diff energy) end in
  let* k := pydivR (10 ^ 6) (d_w p) in
  Ok (map (fun e => e * k) electrons).

(** solver.py 308-347 [generate_electrons]; [gs]: the standard normal draws, one per row. *)
Definition generate_electrons (track : list state) (nuc : nucleus) (p : dparams) (gs : list R)
    : res (list Z) :=
  let* means := mean_electrons nuc p track in
  Ok (map (fun mg => Ztrunc (fst mg + sqrt (d_fano p * fst mg) * snd mg)) (combine means gs)).
