(** SpecReaction.v -- vocabulary for two-body kinematics. *)
From Coq Require Import ZArith Reals.
From Verif Require Import Base Nucleus Reaction.
Local Open Scope R_scope.

(** Minkowski product. *)
Definition mdot (a b : p4) : R := qE a * qE b - (qx a * qx b + qy a * qy b + qz a * qz b).

(** A particle of mass [m] (energy not negative). *)
Definition on_shell (m : R) (a : p4) : Prop := mdot a a = m ^ 2 /\ 0 <= qE a.

(** A massive particle. *)
Definition timelike (a : p4) : Prop := 0 < mdot a a /\ 0 < qE a.

(** Unit vector of polar and azimuthal angle. *)
Definition direction (k polar azimuth e : R) : p4 :=
  mkP4 (k * (sin polar * cos azimuth)) (k * (sin polar * sin azimuth)) (k * cos polar) e.

(** [b] is [a] seen in the rest frame of [p]: the Lorentz transformation without rotation that
    brings p to rest.  Its components: along p the Lorentz formula, across p unchanged. *)
Definition in_rest_frame (p a b : p4) : Prop :=
  let m := sqrt (mdot p p) in
  (* energy in the rest frame *)
  m * qE b = mdot p a /\
  (* momentum change is along p *)
  let k := (qE a + qE b) / (qE p + m) in
  qx b = qx a - k * qx p /\ qy b = qy a - k * qy p /\ qz b = qz a - k * qz p.
