(** ConfigObj.v -- model of Config objects as Python objects that refer to parameter objects.

    /repo/src/attpc_engine/detector/parameters.py 10-94 (dataclasses, whose attributes may be assigned
    to) and 145-174 (the constructor of Config keeps references to them and computes the drift
    velocity once; calculate_drift_velocity may be called again).  Only the attributes that tie z
    positions to time buckets are kept: length, windows_edge, micromegas_edge, drift_velocity.  Numbers
    are exact (or NaN). *)
From Coq Require Import ZArith Reals List.
From Flocq Require Import Core.
From Verif Require Import Base Num Parameters Simulator Writer.
Import ListNotations.
Local Open Scope R_scope.

(** A Config: references to its two parameter objects (parameters.py 151-152), and the drift velocity. *)
Record cobj := mkCobj { co_det : nat; co_elec : nat; co_drift : T XR }.

(** The objects in memory: length of each DetectorParams, windows_edge and micromegas_edge of each
    ElectronicsParams, and the Config objects in the order of their construction. *)
Record heap := mkHeap { h_length : nat -> R; h_we : nat -> Z; h_mm : nat -> Z; h_configs : list cobj }.

(** Statements of a script that works with these objects. *)
Inductive stmt :=
| SetLength (d : nat) (x : R)        (* params.length = x *)
| SetWindows (e : nat) (n : Z)       (* params.windows_edge = n *)
| SetMicromegas (e : nat) (n : Z)    (* params.micromegas_edge = n *)
| NewConfig (d e : nat)              (* Config(params, params, ...) *)
| Recalculate (i : nat).             (* config.calculate_drift_velocity() *)

Definition set {A} (f : nat -> A) (k : nat) (v : A) : nat -> A := fun j => if Nat.eqb j k then v else f j.

(** parameters.py 172-174. *)
Definition velocity_now (h : heap) (d e : nat) : res (T XR) :=
  drift_velocity (N := XR) (Some (h_length h d)) (h_we h e) (h_mm h e).

(** A statement; an exception (ZeroDivisionError, or an unknown Config) leaves the objects as they
    are and is passed on to the caller, who may go on. *)
Definition step (h : heap) (s : stmt) : heap :=
  match s with
  | SetLength d x => mkHeap (set (h_length h) d x) (h_we h) (h_mm h) (h_configs h)
  | SetWindows e n => mkHeap (h_length h) (set (h_we h) e n) (h_mm h) (h_configs h)
  | SetMicromegas e n => mkHeap (h_length h) (h_we h) (set (h_mm h) e n) (h_configs h)
  | NewConfig d e =>
      match velocity_now h d e with
      | Ok v => mkHeap (h_length h) (h_we h) (h_mm h) (h_configs h ++ [mkCobj d e v])
      | Err _ => h
      end
  | Recalculate i =>
      match nth_error (h_configs h) i with
      | Some c =>
          match velocity_now h (co_det c) (co_elec c) with
          | Ok v => mkHeap (h_length h) (h_we h) (h_mm h) (upd (h_configs h) i (mkCobj (co_det c) (co_elec c) v))
          | Err _ => h
          end
      | None => h
      end
  end.
Definition exec (l : list stmt) (h : heap) : heap := fold_left step l h.

(** Where the writer puts an electron that is set free at [z] (in mm): solver.py 395-398 with the
    Config as it is now, then writer.py 101-104 with the exact bucket. *)
Definition stored_z (h : heap) (c : cobj) (z : R) : res (T XR) :=
  let length := Some (h_length h (co_det c)) in
  let we := h_we h (co_elec c) in
  let mm := h_mm h (co_elec c) in
  z_of_tb (N := XR) we mm length (tb_of_z (N := XR) length (co_drift c) mm (Some z)).
