(** SpecSolver.v -- vocabulary for the trajectory properties: vectors, kinetic energy, exact
    solutions of a differential equation, and what an ideal solve_ivp returns. *)
From Coq Require Import ZArith Reals.
From Flocq Require Import Core.
From Verif Require Import Base Nucleus Solver.
Local Open Scope R_scope.

Definition dot (a b : vec) : R := vx a * vx b + vy a * vy b + vz a * vz b.
Definition norm (a : vec) : R := sqrt (dot a a).
Definition vadd (a b : vec) : vec := mkVec (vx a + vx b) (vy a + vy b) (vz a + vz b).
Definition vscale (k : R) (a : vec) : vec := mkVec (k * vx a) (k * vy a) (k * vz a).
Definition cross (a b : vec) : vec :=
  mkVec (vy a * vz b - vz a * vy b) (vz a * vx b - vx a * vz b) (vx a * vy b - vy a * vx b).
Definition along_z (k : R) : vec := mkVec 0 0 k.
Definition vzero : vec := mkVec 0 0 0.

(** Lorentz factor of a velocity. *)
Definition lorentz (c : R) (v : vec) : R := / sqrt (1 - (norm v / c) ^ 2).

(** Kinetic energy from the momentum p/(mc): m (sqrt(1 + u^2) - 1). *)
Definition ke (nuc : nucleus) (s : state) : R :=
  n_mass nuc * (sqrt (1 + dot (mom s) (mom s)) - 1).

(** A vector-valued function has derivative [d] at [t]. *)
Definition vderiv (f : R -> vec) (t : R) (d : vec) : Prop :=
  derivable_pt_lim (fun t => vx (f t)) t (vx d) /\
  derivable_pt_lim (fun t => vy (f t)) t (vy d) /\
  derivable_pt_lim (fun t => vz (f t)) t (vz d).

(** [sol] solves state' = f state on [0, T] (an arc on [0, T] can always be continued
    differentiably beyond its ends, so the two-sided derivative is no restriction). *)
Definition solves (f : state -> res state) (sol : R -> state) (T : R) : Prop :=
  forall t, 0 <= t <= T -> exists d, f (sol t) = Ok d /\
    vderiv (fun t => pos (sol t)) t (pos d) /\ vderiv (fun t => mom (sol t)) t (mom d).

(** No terminal event before T: an event function watched upwards does not become positive, one
    watched downwards does not become negative. *)
Definition unfired (sol : R -> state) (T : R) (ev : event) : Prop :=
  let '(g, up) := ev in
  forall t g0 gt, 0 <= t <= T -> g (sol 0) = Ok g0 -> g (sol t) = Ok gt ->
  if up then g0 <= 0 -> gt <= 0 else 0 <= g0 -> 0 <= gt.

(** What solve_ivp with time span (0, 1) would return without numerical error. *)
Definition ideal_track (f : state -> res state) (s0 : state) (evs : list event)
    (ts : list R) (track : list state) : Prop :=
  exists sol T, 0 <= T <= 1 /\ sol 0 = s0 /\ solves f sol T /\
    Forall (unfired sol T) evs /\
    (T = 1 \/ exists g up, In (g, up) evs /\ g (sol T) = Ok 0) /\
    track = map sol (filter (fun t => Rle_bool t T) ts).

(** An exception of the right-hand side at the initial state passes through solve_ivp. *)
Definition passes_exceptions
    (solve : (state -> res state) -> state -> list event -> list R -> res (list state)) : Prop :=
  forall f s0 evs ts e, f s0 = Err e -> solve f s0 evs ts = Err e.

Definition ideal_solver
    (solve : (state -> res state) -> state -> list event -> list R -> res (list state)) : Prop :=
  passes_exceptions solve /\
  forall f s0 evs ts track, solve f s0 evs ts = Ok track -> ideal_track f s0 evs ts track.

Definition sumR (l : list R) : R := fold_right Rplus 0 l.

(** Never increasing along the list. *)
Fixpoint decreasing (l : list R) : Prop :=
  match l with
  | a :: ((b :: _) as l') => b <= a /\ decreasing l'
  | _ => True
  end.
