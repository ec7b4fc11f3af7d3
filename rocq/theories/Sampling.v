(** Sampling.v -- model of the sampled distributions (kinematics/excitation.py, kinematics/angle.py)
    and of KinematicsPipeline.sample (kinematics/pipeline.py 232-283), in exact arithmetic.

    Simplified: a numpy Generator is a state with three primitive draws: a number in [0, 1), a
    standard normal number, and a relativistic Breit-Wigner number; numpy's uniform, normal and
    choice are defined from them as documented.  GasTarget.get_energy_loss is a parameter. *)
From Coq Require Import ZArith Reals.
From Flocq Require Import Core.
From Verif Require Import Base Num Nucleus Reaction Pipeline.
Local Open Scope R_scope.

(** angle.py 128-131: the test of PolarArbitrary.__init__, over any number type.  Simplified:
    np.sum adds left to right (numpy does so for fewer than 8 elements). *)
Definition probabilities_refused {N : Num} (probabilities : list N) : bool :=
  nltb (nofZ 1) (fold_left nadd probabilities (nofZ 0)).

(** numpy cumsum. *)
Fixpoint cumsum (acc : R) (p : list R) : list R :=
  match p with [] => [] | x :: p' => (acc + x) :: cumsum (acc + x) p' end.

Section Sampling.
  Context {G : Type}.
  Context (unit_draw : G -> R * G) (normal_draw : G -> R * G) (bw_draw : R -> G -> R * G).

  Definition rand (A : Type) := G -> res A * G.
  Definition ret {A} (a : A) : rand A := fun g => (Ok a, g).
  Definition fail {A} (x : exn) : rand A := fun g => (Err x, g).
  Definition rbind {A B} (m : rand A) (f : A -> rand B) : rand B :=
    fun g => match m g with (Ok a, g') => f a g' | (Err x, g') => (Err x, g') end.
  Fixpoint rmap {A B} (f : A -> rand B) (l : list A) : rand (list B) :=
    match l with
    | [] => ret []
    | a :: l' => rbind (f a) (fun b => rbind (rmap f l') (fun bs => ret (b :: bs)))
    end.
  Definition lift {A} (r : res A) : rand A := fun g => (r, g).

  (** numpy Generator.random, uniform(low, high), normal(loc, scale). *)
  Definition random : rand R := fun g => let '(u, g') := unit_draw g in (Ok u, g').
  Definition uniform (low high : R) : rand R :=
    if Rlt_bool high low then fail ValueError
    else rbind random (fun u => ret (low + (high - low) * u)).
  Definition normal (loc scale : R) : rand R :=
    if Rlt_bool scale 0 then fail ValueError
    else fun g => let '(z, g') := normal_draw g in (Ok (loc + scale * z), g').

  (** numpy Generator.choice(a, p=p): inversion of the cumulative sum.  Simplified: the binary
      search (side="right") is the number of entries <= u. *)
  Definition choice_index (p : list R) (u : R) : nat :=
    length (filter (fun c => Rle_bool (c / last (cumsum 0 p) 0) u) (cumsum 0 p)).
  Definition choice (a : list R) (p : list R) : rand R :=
    if (length a =? 0)%nat then fail ValueError
    else if negb (length p =? length a)%nat then fail ValueError
    else if existsb (fun x => Rlt_bool x 0) p then fail ValueError
    else if Rlt_bool (/ 2 ^ 26) (Rabs (fold_left Rplus p 0 - 1)) then fail ValueError
    else rbind random (fun u =>
         match nth_error a (choice_index p u) with Some x => ret x | None => fail IndexError end).

  (** excitation.py 58-80, 107-128, 162-188. *)
  Inductive excitation :=
  | ExGaussian (centroid width : R)
  | ExUniform (min_value max_value : R)
  | ExBreitWigner (rest_mass centroid width : R).
  Definition sample_excitation (e : excitation) : rand R :=
    match e with
    | ExGaussian centroid width => normal centroid (width / 2.355)
    | ExUniform a b => uniform a b
    | ExBreitWigner rest_mass centroid width =>
        rbind (lift (pydivR (rest_mass + centroid) width)) (fun rho =>
        if Rle_bool rho 0 || Rlt_bool width 0 then fail ValueError
        else fun g => let '(t, g') := bw_draw rho g in (Ok (width * t - rest_mass), g'))
    end.

  (** angle.py 62-80, 122-152. *)
  Inductive polar :=
  | PolarUniform (angle_min angle_max : R)
  | PolarArbitrary (angles probs : list R) (angle_width : R).
  Definition make_arbitrary (angles probs : list R) (angle_width : R) : res polar :=
    if @probabilities_refused XR (map Some probs) then Err ValueError
    else Ok (PolarArbitrary angles probs angle_width).
  Definition sample_polar (d : polar) : rand R :=
    match d with
    | PolarUniform angle_min angle_max =>
        rbind (uniform (cos angle_max) (cos angle_min)) (fun c => ret (acos c))
    | PolarArbitrary angles probs angle_width =>
        rbind (choice angles probs) (fun a =>
        rbind (uniform 0 1) (fun u => ret (a + u * angle_width)))
    end.

  (** pipeline.py 16-36 [KinematicsTargetMaterial]; [t_loss e z]: the energy a projectile of energy
      e loses up to z. *)
  Record target := mkTarget { t_loss : R -> R -> R; t_zmin : R; t_zmax : R; t_rho_sigma : R }.

  (** pipeline.py 242-264: beam energy and vertex. *)
  Definition sample_vertex (beam_energy : R) (t : option target) : rand (R * vertex3) :=
    match t with
    | None => ret (beam_energy, (0, 0, 0))
    | Some t =>
        rbind (normal 0 (t_rho_sigma t)) (fun n =>
        let rho := Rabs n in
        rbind (uniform 0 (2 * PI)) (fun theta =>
        rbind (uniform (t_zmin t) (t_zmax t)) (fun z =>
        ret (beam_energy - t_loss t beam_energy z, (rho * cos theta, rho * sin theta, z)))))
    end.

  (** pipeline.py 232-283 [sample]. *)
  Definition sample_pipeline (beam_energy : R) (t : option target) (excitations : list excitation)
      (polar_dists : list polar) (decays : list decay) : rand sample :=
    rbind (sample_vertex beam_energy t) (fun ev =>
    rbind (lift (py_index excitations 0)) (fun e0 =>
    rbind (sample_excitation e0) (fun reaction_excitation =>
    rbind (lift (py_index polar_dists 0)) (fun p0 =>
    rbind (sample_polar p0) (fun reaction_theta =>
    rbind (uniform 0 (PI * 2)) (fun reaction_phi =>
    let idx := map (fun i => Z.of_nat i) (seq 1 (length excitations - 1)) in
    rbind (rmap (fun i => rbind (lift (py_index excitations i)) sample_excitation) idx) (fun decay_ex =>
    rbind (rmap (fun i => rbind (lift (py_index polar_dists i)) sample_polar) idx) (fun decay_thetas =>
    rbind (rmap (fun _ => uniform 0 (PI * 2)) decays) (fun decay_phis =>
    ret (mkSample (fst ev) reaction_excitation reaction_theta reaction_phi (snd ev)
                  decay_ex decay_thetas decay_phis)))))))))).
End Sampling.
