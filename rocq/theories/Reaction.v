(** Reaction.v -- model of /repo/src/attpc_engine/kinematics/reaction.py in exact arithmetic.

    Simplified: reals instead of binary64.  [None] stands for a value or four-vector with NaN
    (numpy square root of a negative number, boost with a vector that is not timelike).  The
    four-vectors of the [vector] library are modelled by the formulas of its boost_p4, boostCM_of
    and M; nuclear_map.get_data is a parameter. *)
From Coq Require Import ZArith Reals.
From Flocq Require Import Core.
From Verif Require Import Base Nucleus.
Local Open Scope R_scope.

(** vector.obj(px, py, pz, E). *)
Record p4 := mkP4 { qx : R; qy : R; qz : R; qE : R }.
Definition padd (a b : p4) : p4 := mkP4 (qx a + qx b) (qy a + qy b) (qz a + qz b) (qE a + qE b).
Definition psub (a b : p4) : p4 := mkP4 (qx a - qx b) (qy a - qy b) (qz a - qz b) (qE a - qE b).

(** numpy sqrt. *)
Definition osqrt (x : R) : option R := if Rlt_bool x 0 then None else Some (sqrt x).

Definition obind {A B} (m : option A) (f : A -> option B) : option B :=
  match m with Some a => f a | None => None end.
Notation "'let?' x := m 'in' k" := (obind m (fun x => k))
  (at level 200, x pattern, m at level 100, k at level 200, right associativity).

(** vector: the boost with velocity (bx, by, bz) (boost_beta3). *)
Definition boost_beta (bx b_y bz : R) (a : p4) : option p4 :=
  let bp2 := bx ^ 2 + b_y ^ 2 + bz ^ 2 in
  if Rle_bool 1 bp2 then None else
  let gam := / sqrt (1 - bp2) in
  let bgam := gam ^ 2 / (1 + gam) in
  let s := bx * qx a + b_y * qy a + bz * qz a in
  let k := bgam * s + gam * qE a in
  Some (mkP4 (qx a + k * bx) (qy a + k * b_y) (qz a + k * bz) (gam * (qE a + s))).

(** vector: a.boost(p) (boost_p4) and a.boostCM_of(p). *)
Definition boost (p a : p4) : option p4 :=
  if Req_bool (qE p) 0 then None else
  boost_beta (qx p / qE p) (qy p / qE p) (qz p / qE p) a.
Definition boostCM_of (p a : p4) : option p4 :=
  if Req_bool (qE p) 0 then None else
  boost_beta (- qx p / qE p) (- qy p / qE p) (- qz p / qE p) a.

(** vector: the rest mass property M (tau): sqrt|m^2| with the sign of m^2. *)
Definition M2 (a : p4) : R := qE a ^ 2 - (qx a ^ 2 + qy a ^ 2 + qz a ^ 2).
Definition M (a : p4) : R := if Rlt_bool (M2 a) 0 then - sqrt (- M2 a) else sqrt (M2 a).

Section Construct.
  (** nuclear_map.get_data. *)
  Context (get_data : Z -> Z -> res nucleus).

  Record reaction := mkReaction { r_target : nucleus; r_projectile : nucleus;
                                  r_ejectile : nucleus; r_residual : nucleus }.
  (** reaction.py 35-58 [Reaction.__init__]. *)
  Definition make_reaction (target projectile ejectile : nucleus) : res reaction :=
    let resid_z := (n_Z projectile + n_Z target - n_Z ejectile)%Z in
    let resid_a := (n_A projectile + n_A target - n_A ejectile)%Z in
    if (resid_z <? 0)%Z then Err ValueError
    else if (resid_a <? 0)%Z then Err ValueError
    else let* residual := get_data resid_z resid_a in
         Ok (mkReaction target projectile ejectile residual).

  Record decay := mkDecay { d_parent : nucleus; d_res1 : nucleus; d_res2 : nucleus }.
  (** reaction.py 203-218 [Decay.__init__]. *)
  Definition make_decay (parent residual_1 : nucleus) : res decay :=
    let resid_2_z := (n_Z parent - n_Z residual_1)%Z in
    let resid_2_a := (n_A parent - n_A residual_1)%Z in
    if (resid_2_z <? 0)%Z then Err ValueError
    else if (resid_2_a <? 0)%Z then Err ValueError
    else let* residual_2 := get_data resid_2_z resid_2_a in
         Ok (mkDecay parent residual_1 residual_2).
End Construct.

(** reaction.py 70-101 [Reaction.is_excitation_allowed]. *)
Definition reaction_allowed (r : reaction) (projectile_energy residual_excitation : R) : bool :=
  match (let? pz := osqrt (projectile_energy * (projectile_energy + 2 * n_mass (r_projectile r))) in
         osqrt ((n_mass (r_target r) + projectile_energy + n_mass (r_projectile r)) ^ 2 - pz ^ 2)) with
  | Some e_cm =>
      Rlt_bool (n_mass (r_ejectile r) + n_mass (r_residual r) + residual_excitation) e_cm
  | None => false
  end.

(** reaction.py 103-178 [Reaction.calculate]: target, projectile, ejectile, residual. *)
Definition reaction_calculate (r : reaction) (projectile_energy ejectile_polar ejectile_azimuthal
    residual_excitation : R) : res (list (option p4)) :=
  let mt := n_mass (r_target r) in
  let mp := n_mass (r_projectile r) in
  let me := n_mass (r_ejectile r) in
  let mr := n_mass (r_residual r) in
  let q_value := mt + mp - (me + mr + residual_excitation) in
  let* e_threshold := pydivR (- q_value * (me + mr)) (me + mr - mp) in
  if Rlt_bool projectile_energy e_threshold then Err ValueError else
  let target_vec := mkP4 0 0 0 mt in
  let proj_vec :=
    let? pz := osqrt (projectile_energy * (projectile_energy + 2 * mp)) in
    Some (mkP4 0 0 pz (projectile_energy + mp)) in
  let parent := let? p := proj_vec in Some (padd target_vec p) in
  let eject_vec :=
    let? par := parent in
    let? parent_cm := boostCM_of par par in
    let eject_e_cm := (me ^ 2 - (mr + residual_excitation) ^ 2 + qE parent_cm ^ 2) / (2 * qE parent_cm) in
    let? eject_p := osqrt (eject_e_cm ^ 2 - me ^ 2) in
    boost par (mkP4 (eject_p * sin ejectile_polar * cos ejectile_azimuthal)
                    (eject_p * sin ejectile_polar * sin ejectile_azimuthal)
                    (eject_p * cos ejectile_polar) eject_e_cm) in
  let resid_vec := let? par := parent in let? e := eject_vec in Some (psub par e) in
  Ok [Some target_vec; proj_vec; eject_vec; resid_vec].

(** reaction.py 230-250 [Decay.is_excitation_allowed]. *)
Definition decay_allowed (d : decay) (parent_vector : p4) (residual_2_excitation : R) : bool :=
  let q_value := M parent_vector
                 - (n_mass (d_res1 d) + n_mass (d_res2 d) + residual_2_excitation) in
  Rlt_bool 0 q_value.

(** reaction.py 252-303 [Decay.calculate]: parent, residual_1, residual_2. *)
Definition decay_calculate (d : decay) (parent_vector : p4) (residual_1_polar residual_1_azimuthal
    residual_2_excitation : R) : res (list (option p4)) :=
  let m1 := n_mass (d_res1 d) in
  let m2 := n_mass (d_res2 d) in
  let q_value := M parent_vector - (m1 + m2 + residual_2_excitation) in
  if Rlt_bool q_value 0 then Err ValueError else
  let resid_1_vec :=
    let? parent_vec_cm := boostCM_of parent_vector parent_vector in
    let e_resid_1_cm :=
      (m1 ^ 2 - (m2 + residual_2_excitation) ^ 2 + qE parent_vec_cm ^ 2) / (2 * qE parent_vec_cm) in
    let? p_resid_1_cm := osqrt (e_resid_1_cm ^ 2 - m1 ^ 2) in
    boost parent_vector
          (mkP4 (p_resid_1_cm * sin residual_1_polar * cos residual_1_azimuthal)
                (p_resid_1_cm * sin residual_1_polar * sin residual_1_azimuthal)
                (p_resid_1_cm * cos residual_1_polar) e_resid_1_cm) in
  let resid_2_vec := let? r1 := resid_1_vec in Some (psub parent_vector r1) in
  Ok [Some parent_vector; resid_1_vec; resid_2_vec].
