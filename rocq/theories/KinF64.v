(** KinF64.v -- binary64 version of the two-body break-up in reaction.py: energy and momentum of
    the first product in the rest frame of the parent.

    [sq] is the float power [x**2.0] (libm); the parent's rest-frame energy comes out of the vector
    library and is an argument. *)
From Coq Require Import ZArith.
From Verif Require Import Base F64.

Section Pow.
  Context (sq : f64 -> f64).
  (** reaction.py 159-163 ([m1] ejectile, [m2] residual mass plus excitation, [e] parent_cm.E) and
      reaction.py 287-291 ([m1] residual_1, [m2] residual_2 mass plus excitation). *)
  Definition cm_energy (m1 m2 e : f64) : f64 :=
    fdiv (fadd (fsub (sq m1) (sq m2)) (sq e)) (fmul (f_of_Z 2) e).
  (** reaction.py 164, 292. *)
  Definition cm_momentum (m1 m2 e : f64) : f64 :=
    fsqrt (fsub (sq (cm_energy m1 m2 e)) (sq m1)).
End Pow.
(** reaction.py 247-250 [Decay.is_excitation_allowed]; [mass] is parent_vector.M. *)
Definition decay_allowed (mass m1 m2 excitation : f64) : bool :=
  fltb (f_of_Z 0) (fsub mass (fadd (fadd m1 m2) excitation)).
