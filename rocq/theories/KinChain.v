(** KinChain.v -- binary64 version of Reaction.calculate, Decay.calculate and of one event of
    KinematicsPipeline.run.

    Parameters: [sq] the float power [x**2.0], [sn], [cs] numpy's sin and cos, and three operations
    of the vector library: [boost p a] is a.boost(p), [rest_energy p] is p.boostCM_of(p).E, [mass p]
    is p.M.  The event buffer is left out here (it is in Pipeline.v): an event is the list of its rows. *)
From Coq Require Import ZArith.
From Flocq Require Import BinarySingleNaN.
From Verif Require Import Base F64 KinF64.

(** vector.obj(px, py, pz, E) with Python floats; + and - of the vector library. *)
Record v4 := mkV4 { vx : f64; vy : f64; vz : f64; vE : f64 }.
Definition vadd (a b : v4) : v4 :=
  mkV4 (fadd (vx a) (vx b)) (fadd (vy a) (vy b)) (fadd (vz a) (vz b)) (fadd (vE a) (vE b)).
Definition vsub (a b : v4) : v4 :=
  mkV4 (fsub (vx a) (vx b)) (fsub (vy a) (vy b)) (fsub (vz a) (vz b)) (fsub (vE a) (vE b)).

(** Rest masses of a Reaction and of a Decay. *)
Record reaction_masses := mkRM { rm_target : f64; rm_projectile : f64; rm_ejectile : f64; rm_residual : f64 }.
Record decay_masses := mkDM { dm_res1 : f64; dm_res2 : f64 }.

Section Library.
  Context (sq sn cs : f64 -> f64) (boost : v4 -> v4 -> v4) (rest_energy mass : v4 -> f64).

  (** reaction.py 159-176 and 287-302: the two products of a parent. *)
  Definition two_body (parent : v4) (m1 m2 polar azimuthal : f64) : v4 * v4 :=
    let e := rest_energy parent in
    let p := cm_momentum sq m1 m2 e in
    let v := boost parent (mkV4 (fmul (fmul p (sn polar)) (cs azimuthal))
                                (fmul (fmul p (sn polar)) (sn azimuthal))
                                (fmul p (cs polar)) (cm_energy sq m1 m2 e)) in
    (v, vsub parent v).

  (** reaction.py 92-101. *)
  Definition reaction_allowed64 (r : reaction_masses) (projectile_energy excitation : f64) : bool :=
    let pz := fsqrt (fmul projectile_energy (fadd projectile_energy (fmul (f_of_Z 2) (rm_projectile r)))) in
    let e_cm := fsqrt (fsub (sq (fadd (fadd (rm_target r) projectile_energy) (rm_projectile r))) (sq pz)) in
    fltb (fadd (fadd (rm_ejectile r) (rm_residual r)) excitation) e_cm.

  (** reaction.py 128-178: target, projectile, ejectile, residual. *)
  Definition reaction_calculate64 (r : reaction_masses) (projectile_energy polar azimuthal excitation : f64)
    : res (v4 * v4 * v4 * v4) :=
    let out := fadd (rm_ejectile r) (rm_residual r) in
    let q_value := fsub (fadd (rm_target r) (rm_projectile r)) (fadd out excitation) in
    let den := fsub out (rm_projectile r) in
    if feqb den (f_of_Z 0) then Err ZeroDivisionError else
    let e_threshold := fdiv (fmul (Bopp q_value) out) den in
    if fltb projectile_energy e_threshold then Err ValueError else
    let target_vec := mkV4 (f_of_Z 0) (f_of_Z 0) (f_of_Z 0) (rm_target r) in
    let proj_vec := mkV4 (f_of_Z 0) (f_of_Z 0)
      (fsqrt (fmul projectile_energy (fadd projectile_energy (fmul (f_of_Z 2) (rm_projectile r)))))
      (fadd projectile_energy (rm_projectile r)) in
    let parent := vadd target_vec proj_vec in
    let (eject_vec, resid_vec) :=
      two_body parent (rm_ejectile r) (fadd (rm_residual r) excitation) polar azimuthal in
    Ok (target_vec, proj_vec, eject_vec, resid_vec).

  (** reaction.py 247-250. *)
  Definition decay_allowed64 (d : decay_masses) (parent : v4) (excitation : f64) : bool :=
    decay_allowed (mass parent) (dm_res1 d) (dm_res2 d) excitation.

  (** reaction.py 279-303: residual_1, residual_2. *)
  Definition decay_calculate64 (d : decay_masses) (parent : v4) (polar azimuthal excitation : f64) : res (v4 * v4) :=
    let q_value := fsub (mass parent) (fadd (fadd (dm_res1 d) (dm_res2 d)) excitation) in
    if fltb q_value (f_of_Z 0) then Err ValueError else
    Ok (two_body parent (dm_res1 d) (fadd (dm_res2 d) excitation) polar azimuthal).

  (** pipeline.py 346-379: the rows of the decay products; [None]: not allowed, sample again. *)
  Fixpoint decays64 (ds : list decay_masses) (params : list (f64 * f64 * f64)) (prev_resid : v4)
    : res (option (list v4)) :=
    match ds with
    | [] => Ok (Some [])
    | d :: ds' =>
        match params with
        | [] => Err IndexError
        | (ex, th, ph) :: params' =>
            if negb (decay_allowed64 d prev_resid ex) then Ok None else
            let* ab := decay_calculate64 d prev_resid th ph ex in
            let* more := decays64 ds' params' (snd ab) in
            Ok (match more with Some l => Some (fst ab :: snd ab :: l) | None => None end)
        end
    end.

  (** pipeline.py 318-383: one sample. *)
  Definition event64 (r : reaction_masses) (ds : list decay_masses)
      (projectile_energy polar azimuthal excitation : f64) (params : list (f64 * f64 * f64))
    : res (option (list v4)) :=
    if negb (reaction_allowed64 r projectile_energy excitation) then Ok None else
    let* v := reaction_calculate64 r projectile_energy polar azimuthal excitation in
    let '(t, p, e, q) := v in
    let* more := decays64 ds params q in
    Ok (match more with Some l => Some (t :: p :: e :: q :: l) | None => None end).
End Library.
