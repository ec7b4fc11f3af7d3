(** Nucleus.v -- the fields of spyral_utils NucleusData that the modelled code uses, and Python
    float division, in exact arithmetic. *)
From Coq Require Import ZArith Reals String.
From Flocq Require Import Core.
From Verif Require Import Base.
Local Open Scope R_scope.

(** Z, A, mass in MeV, isotopic_symbol. *)
Record nucleus := mkNucleus { n_Z : Z; n_A : Z; n_mass : R; n_symbol : string }.

(** Python float division. *)
Definition pydivR (a b : R) : res R :=
  if Req_bool b 0 then Err ZeroDivisionError else Ok (a / b).
