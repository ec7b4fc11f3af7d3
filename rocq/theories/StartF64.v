(** StartF64.v -- binary64 version of the initial state in generate_trajectory (solver.py 276-281)
    and of generate_trajectory around the solver (solver.py 245-311). *)
From Coq Require Import ZArith List.
From Flocq Require Import BinarySingleNaN.
From Verif Require Import Base F64 KinChain ElectronsF64 Simulator.

(** solver.py 281: momentum[:3] / nucleus.mass, one division per entry. *)
Definition initial64 (momentum : v4) (mass : f64) : vec64 :=
  mkVec64 (fdiv (vx momentum) mass) (fdiv (vy momentum) mass) (fdiv (vz momentum) mass).

Section Trajectory.
  Context (fexp : f64 -> f64) {Nuc : Type} (mass : Nuc -> f64).
  (** [ivp s nuc c]: solve_ivp of the equation of motion from the state [s] (position, momentum over
      mass), rows at TIME_STEPS up to the first terminal event (solver.py 293-309). *)
  Context (ivp : (f64 * f64 * f64) * vec64 -> Nuc -> config fexp -> res (list (@traj vec64))).

  (** solver.py 245-311. *)
  Definition generate_trajectory64 (vertex : f64 * f64 * f64) (momentum : v4) (nuc : Nuc) (c : config fexp)
    : res (list (@traj vec64)) :=
    ivp (vertex, initial64 momentum (mass nuc)) nuc c.
End Trajectory.
