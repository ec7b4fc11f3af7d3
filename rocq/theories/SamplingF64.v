(** SamplingF64.v -- KinematicsPipeline.sample (kinematics/pipeline.py 232-283) with its distributions
    (kinematics/excitation.py, kinematics/angle.py) in binary64, operation by operation.

    Beside the exact model in Sampling.v.  A numpy Generator is a state with three primitive draws: a
    binary64 number of [0, 1), a standard normal number, a relativistic Breit-Wigner number.  numpy's
    uniform(low, high) is low + (high - low) * u and normal(loc, scale) is loc + scale * n (no fused
    multiply-add); an infinite range is a ValueError here (OverflowError in numpy).  choice adds the
    probabilities up from left to right, divides by the last sum and counts the entries <= u (binary
    search in a sorted array); its test of the sum is a parameter.  np.cos, np.sin, np.arccos and
    GasTarget.get_energy_loss are parameters. *)
From Coq Require Import ZArith List.
From Flocq Require Import BinarySingleNaN.
From Verif Require Import Base F64 Sampling.
Import ListNotations.

(** numpy cumsum. *)
Fixpoint cumsum64 (acc : f64) (p : list f64) : list f64 :=
  match p with [] => [] | x :: p' => fadd acc x :: cumsum64 (fadd acc x) p' end.
Definition cdf64 (p : list f64) : list f64 :=
  match p with
  | [] => []
  | x :: p' => let c := x :: cumsum64 x p' in map (fun y => fdiv y (last c x)) c
  end.

Section SamplingF64.
  Context {G : Type} (unit_draw normal_draw : G -> f64 * G) (bw_draw : f64 -> f64 -> G -> f64 * G).
  Context (cos64 sin64 acos64 : f64 -> f64) (pi64 : f64).
  Context (sum_is_one : list f64 -> bool).

  Definition random64 : rand (G := G) f64 := fun g => let '(u, g') := unit_draw g in (Ok u, g').
  Definition uniform64 (low high : f64) : rand (G := G) f64 :=
    let range := fsub high low in
    if negb (is_finite range) || fltb high low then fail ValueError
    else rbind random64 (fun u => ret (fadd low (fmul range u))).
  Definition normal64 (loc scale : f64) : rand (G := G) f64 :=
    if fltb scale (f_of_Z 0) then fail ValueError
    else fun g => let '(z, g') := normal_draw g in (Ok (fadd loc (fmul scale z)), g').
  Definition choice64 (a p : list f64) : rand (G := G) f64 :=
    if (length a =? 0)%nat then fail ValueError
    else if negb (length p =? length a)%nat then fail ValueError
    else if existsb (fun x => fltb x (f_of_Z 0)) p then fail ValueError
    else if negb (sum_is_one p) then fail ValueError
    else rbind random64 (fun u =>
         match nth_error a (length (filter (fun c => fleb c u) (cdf64 p))) with Some x => ret x | None => fail IndexError end).

  (** excitation.py 46-80 (2.355 is the nearest binary64 number), 101-128, 153-188. *)
  Inductive excitation64 :=
  | ExGaussian64 (centroid width : f64)
  | ExUniform64 (min_value max_value : f64)
  | ExBreitWigner64 (rest_mass centroid width : f64).
  Definition sample_excitation64 (e : excitation64) : rand (G := G) f64 :=
    match e with
    | ExGaussian64 centroid width => normal64 centroid (fdiv width (fdiv (f_of_Z 2355) (f_of_Z 1000)))
    | ExUniform64 a b => uniform64 a b
    | ExBreitWigner64 rest_mass centroid width =>
        if feqb width (f_of_Z 0) then fail ZeroDivisionError
        else fun g => let '(t, g') := bw_draw (fdiv (fadd rest_mass centroid) width) width g in (Ok (fsub t rest_mass), g')
    end.

  (** angle.py 62-80, 122-152. *)
  Inductive polar64 :=
  | PolarUniform64 (angle_min angle_max : f64)
  | PolarArbitrary64 (angles probs : list f64) (angle_width : f64).
  Definition sample_polar64 (d : polar64) : rand (G := G) f64 :=
    match d with
    | PolarUniform64 angle_min angle_max =>
        rbind (uniform64 (cos64 angle_max) (cos64 angle_min)) (fun c => ret (acos64 c))
    | PolarArbitrary64 angles probs angle_width =>
        rbind (choice64 angles probs) (fun a =>
        rbind (uniform64 (f_of_Z 0) (f_of_Z 1)) (fun u => ret (fadd a (fmul u angle_width))))
    end.

  (** pipeline.py 16-36. *)
  Record target64 := mkTarget64 { t64_loss : f64 -> f64 -> f64; t64_zmin : f64; t64_zmax : f64; t64_rho_sigma : f64 }.
  (** pipeline.py 242-264. *)
  Definition sample_vertex64 (beam : f64) (t : option target64) : rand (G := G) (f64 * (f64 * f64 * f64)) :=
    match t with
    | None => ret (beam, (f_of_Z 0, f_of_Z 0, f_of_Z 0))
    | Some t =>
        rbind (normal64 (f_of_Z 0) (t64_rho_sigma t)) (fun n =>
        let rho := @Babs prec64 emax64 n in
        rbind (uniform64 (f_of_Z 0) (fmul (f_of_Z 2) pi64)) (fun theta =>
        rbind (uniform64 (t64_zmin t) (t64_zmax t)) (fun z =>
        ret (fsub beam (t64_loss t beam z), (fmul rho (cos64 theta), fmul rho (sin64 theta), z)))))
    end.

  Record sample64 := mkSample64 { s64_energy : f64; s64_ex : f64; s64_theta : f64; s64_phi : f64;
    s64_vertex : f64 * f64 * f64; s64_decay_ex : list f64; s64_decay_thetas : list f64; s64_decay_phis : list f64 }.

  (** pipeline.py 232-283 [sample]; [decays] is the number of decays. *)
  Definition sample_pipeline64 (beam : f64) (t : option target64) (excitations : list excitation64)
      (polar_dists : list polar64) (decays : nat) : rand (G := G) sample64 :=
    rbind (sample_vertex64 beam t) (fun ev =>
    rbind (lift (py_index excitations 0)) (fun e0 =>
    rbind (sample_excitation64 e0) (fun reaction_excitation =>
    rbind (lift (py_index polar_dists 0)) (fun p0 =>
    rbind (sample_polar64 p0) (fun reaction_theta =>
    let pi2 := fmul pi64 (f_of_Z 2) in
    rbind (uniform64 (f_of_Z 0) pi2) (fun reaction_phi =>
    let idx := map Z.of_nat (seq 1 (length excitations - 1)) in
    rbind (rmap (fun i => rbind (lift (py_index excitations i)) sample_excitation64) idx) (fun decay_ex =>
    rbind (rmap (fun i => rbind (lift (py_index polar_dists i)) sample_polar64) idx) (fun decay_thetas =>
    rbind (rmap (fun _ => uniform64 (f_of_Z 0) pi2) (repeat tt decays)) (fun decay_phis =>
    ret (mkSample64 (fst ev) reaction_excitation reaction_theta reaction_phi (snd ev)
                    decay_ex decay_thetas decay_phis)))))))))).
End SamplingF64.
