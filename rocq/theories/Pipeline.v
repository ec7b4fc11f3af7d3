(** Pipeline.v -- model of KinematicsPipeline (/repo/src/attpc_engine/kinematics/pipeline.py), in
    exact arithmetic on top of Reaction.v.

    Simplified: a row of the result array is [option p4]: [None] is a row of NaN.  numpy arrays
    made by np.empty hold arbitrary values, given as the parameter [junk].  What self.sample()
    draws is a parameter here; it is modelled in Sampling.v. *)
From Coq Require Import ZArith Reals String.
From Flocq Require Import Core.
From Verif Require Import Base Nucleus Reaction.
Local Open Scope R_scope.

Definition row := option p4.
Definition vertex3 := (R * R * R)%type.

(** pipeline.py 125-127: a step is a Reaction or a Decay. *)
Inductive step := SReaction (r : reaction) | SDecay (d : decay).

(** pipeline.py 151-152, 183: the attributes that the methods below read. *)
Record pipeline := mkPipeline { pl_reaction : reaction; pl_decays : list decay;
                                pl_limit : Z; pl_result : list row }.

(** pipeline.py 159-179: the loop over idx >= 1, with prev_step. *)
Fixpoint check_steps (prev_step : step) (rest : list step) : res (list decay) :=
  match rest with
  | [] => Ok []
  | cur_step :: rest' =>
      match cur_step with
      | SReaction _ => Err PipelineError
      | SDecay cur =>
          let residual := match prev_step with
                          | SReaction r => r_residual r
                          | SDecay d => d_res2 d
                          end in
          if negb (n_symbol residual =? n_symbol (d_parent cur))%string then Err PipelineError
          else let* ds := check_steps cur_step rest' in Ok (cur :: ds)
      end
  end.

(** pipeline.py 125-185 [KinematicsPipeline.__init__]; of the excitations and polar distributions
    only the number matters here.  [junk n]: the contents of np.empty((n, 4)). *)
Definition make_pipeline {X D} (junk : nat -> list row) (steps : list step) (excitations : list X)
    (polar_dists : list D) (event_sample_limit : Z) : res pipeline :=
  if (length steps =? 0)%nat then Err PipelineError
  else if negb (length steps =? length excitations)%nat then Err PipelineError
  else if negb (length steps =? length polar_dists)%nat then Err PipelineError
  else match steps with
  | SReaction r :: rest =>
      let* ds := check_steps (SReaction r) rest in
      Ok (mkPipeline r ds event_sample_limit (junk (4 + (length steps - 1) * 2)%nat))
  | _ => Err PipelineError
  end.

(** pipeline.py 200-230 [check_excitations_allowed]: the sum, idx being the position in self.decays. *)
Fixpoint subtract_decays (idx : Z) (decays : list decay) (excitations : list R) (q_value : R) : res R :=
  match decays with
  | [] => Ok q_value
  | d :: decays' =>
      let* ex := py_index excitations (idx + 1) in
      subtract_decays (idx + 1) decays' excitations
        (q_value + -1 * (n_mass (d_res1 d) + n_mass (d_res2 d) + ex))
  end.
Definition check_excitations_allowed (pl : pipeline) (projectile_energy : R) (excitations : list R) : res bool :=
  let r := pl_reaction pl in
  let* ex0 := py_index excitations 0 in
  let q0 := (n_mass (r_projectile r) + projectile_energy) + n_mass (r_target r)
            - (n_mass (r_ejectile r) + n_mass (r_residual r) + ex0) in
  let* q_value := subtract_decays 0 (pl_decays pl) excitations q0 in
  Ok (Rle_bool 0 q_value).

(** pipeline.py 390-407, 409-426 [get_proton_numbers], [get_mass_numbers]: [f] is Z or A. *)
Fixpoint fill_decays (f : nucleus -> Z) (idx : nat) (decays : list decay) (z : list Z) : list Z :=
  match decays with
  | [] => z
  | d :: decays' =>
      let offset := (idx * 2 + 4)%nat in
      fill_decays f (S idx) decays'
        (upd (upd z offset (f (d_res1 d))) (offset + 1) (f (d_res2 d)))
  end.
Definition get_numbers (f : nucleus -> Z) (junk : nat -> list Z) (pl : pipeline) : list Z :=
  let r := pl_reaction pl in
  let z := junk (length (pl_result pl)) in
  let z := upd z 0 (f (r_target r)) in
  let z := upd z 1 (f (r_projectile r)) in
  let z := upd z 2 (f (r_ejectile r)) in
  let z := upd z 3 (f (r_residual r)) in
  fill_decays f 0 (pl_decays pl) z.
Definition get_proton_numbers := get_numbers n_Z.
Definition get_mass_numbers := get_numbers n_A.

(** pipeline.py 39-70 [Sample]. *)
Record sample := mkSample { s_energy : R; s_ex : R; s_theta : R; s_phi : R; s_vertex : vertex3;
                            s_decay_ex : list R; s_decay_thetas : list R; s_decay_phis : list R }.

(** Comparing with NaN is False. *)
Definition decay_allowed_row (d : decay) (parent : row) (ex : R) : bool :=
  match parent with Some p => decay_allowed d p ex | None => false end.
Definition decay_calculate_row (d : decay) (parent : row) (th ph ex : R) : res (list row) :=
  match parent with Some p => decay_calculate d p th ph ex | None => Ok [None; None; None] end.

(** pipeline.py 348-383: the decay loop; the buffer and either [allowed] or an exception. *)
Fixpoint decay_loop (s : sample) (idx : nat) (decays : list decay) (prev_resid : row) (result : list row)
  : list row * res bool :=
  match decays with
  | [] => (result, Ok true)
  | d :: decays' =>
      let i := Z.of_nat idx in
      match py_index (s_decay_ex s) i with
      | Err x => (result, Err x)
      | Ok ex =>
          if negb (decay_allowed_row d prev_resid ex) then (result, Ok false) else
          match (let* th := py_index (s_decay_thetas s) i in
                 let* ph := py_index (s_decay_phis s) i in
                 decay_calculate_row d prev_resid th ph ex) with
          | Err x => (result, Err x)
          | Ok decay_result =>
              let result_pos := (idx * 2 + 4)%nat in
              let result1 := upd result result_pos (nth 1 decay_result None) in
              let result2 := upd result1 (result_pos + 1) (nth 2 decay_result None) in
              decay_loop s (S idx) decays' (nth 2 decay_result None) result2
          end
      end
  end.

(** pipeline.py 318-383: one pass of the while loop with a given sample. *)
Definition attempt (pl : pipeline) (s : sample) (result : list row) : list row * res bool :=
  if negb (reaction_allowed (pl_reaction pl) (s_energy s) (s_ex s)) then (result, Ok false) else
  match reaction_calculate (pl_reaction pl) (s_energy s) (s_theta s) (s_phi s) (s_ex s) with
  | Err x => (result, Err x)
  | Ok rxn_result =>
      let result := upd result 0 (nth 0 rxn_result None) in
      let result := upd result 1 (nth 1 rxn_result None) in
      let result := upd result 2 (nth 2 rxn_result None) in
      let result := upd result 3 (nth 3 rxn_result None) in
      decay_loop s 0 (pl_decays pl) (nth 3 rxn_result None) result
  end.

Section Run.
  Context {G : Type} (draw : G -> res sample * G).        (** self.sample() *)

  (** pipeline.py 308-386: the while loop; returns the buffer, the generator and the vertex or an
      exception.  [fuel] bounds the recursion only; it is never exhausted (P_Pipeline.v). *)
  Fixpoint run_loop (fuel : nat) (pl : pipeline) (sample_count : Z) (result : list row) (g : G)
    : (list row * G) * res vertex3 :=
    match fuel with
    | O => ((result, g), Err UB)
    | S fuel' =>
        let sample_count := (sample_count + 1)%Z in
        if (pl_limit pl <? sample_count)%Z then ((result, g), Err PipelineError) else
        match draw g with
        | (Err x, g') => ((result, g'), Err x)
        | (Ok s, g') =>
            match attempt pl s result with
            | (result', Err x) => ((result', g'), Err x)
            | (result', Ok true) => ((result', g'), Ok (s_vertex s))
            | (result', Ok false) => run_loop fuel' pl sample_count result' g'
            end
        end
    end.

  (** pipeline.py 285-388 [run].  The array returned is the buffer itself: memory is a map from
      addresses to arrays, [loc] the address of self.result, and the value returned the vertex and
      that address. *)
  Definition memory := nat -> list row.
  Definition mem_set (m : memory) (loc : nat) (a : list row) : memory :=
    fun l => if (l =? loc)%nat then a else m l.
  Definition run (pl : pipeline) (loc : nat) (m : memory) (g : G) : (memory * G) * res (vertex3 * nat) :=
    match run_loop (S (Z.to_nat (pl_limit pl))) pl 0 (m loc) g with
    | ((result, g'), Err x) => ((mem_set m loc result, g'), Err x)
    | ((result, g'), Ok v) => ((mem_set m loc result, g'), Ok (v, loc))
    end.
End Run.
