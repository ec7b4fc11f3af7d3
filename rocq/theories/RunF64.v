(** RunF64.v -- KinematicsPipeline.run (kinematics/pipeline.py 285-388) and one pass of the loop of
    run_kinematics_pipeline (480-484), in binary64 with its re-used buffer.

    On top of SamplingF64.v (self.sample()) and KinChain.v (reactions and decays).  The buffer
    self.result is a list of rows that starts with arbitrary contents (np.empty). *)
From Coq Require Import ZArith List.
From Verif Require Import Base F64 KinF64 KinChain Sampling SamplingF64 Simulator KinFile.
Import ListNotations.

Section Run.
  Context (sq sn cs : f64 -> f64) (boost : v4 -> v4 -> v4) (rest_energy mass : v4 -> f64).

  (** pipeline.py 346-379: the decay loop; the buffer and either [allowed] or an exception. *)
  Fixpoint decay_loop64 (s : sample64) (idx : nat) (decays : list decay_masses) (prev_resid : v4) (result : list v4)
    : list v4 * res bool :=
    match decays with
    | [] => (result, Ok true)
    | d :: decays' =>
        let i := Z.of_nat idx in
        match py_index (s64_decay_ex s) i with
        | Err x => (result, Err x)
        | Ok ex =>
            if negb (decay_allowed64 mass d prev_resid ex) then (result, Ok false) else
            match (let* th := py_index (s64_decay_thetas s) i in
                   let* ph := py_index (s64_decay_phis s) i in
                   decay_calculate64 sq sn cs boost rest_energy mass d prev_resid th ph ex) with
            | Err x => (result, Err x)
            | Ok (a, b) =>
                let result_pos := (idx * 2 + 4)%nat in
                decay_loop64 s (S idx) decays' b (upd (upd result result_pos a) (result_pos + 1) b)
            end
        end
    end.

  (** pipeline.py 318-383: one pass of the while loop with a given sample. *)
  Definition attempt64 (r : reaction_masses) (ds : list decay_masses) (s : sample64) (result : list v4)
    : list v4 * res bool :=
    if negb (reaction_allowed64 sq r (s64_energy s) (s64_ex s)) then (result, Ok false) else
    match reaction_calculate64 sq sn cs boost rest_energy r (s64_energy s) (s64_theta s) (s64_phi s) (s64_ex s) with
    | Err x => (result, Err x)
    | Ok (t, p, e, q) =>
        let result := upd result 0 t in
        let result := upd result 1 p in
        let result := upd result 2 e in
        let result := upd result 3 q in
        decay_loop64 s 0 ds q result
    end.

  Context {G : Type} (draw : rand (G := G) sample64).        (** self.sample() *)

  (** pipeline.py 308-386: the while loop.  [fuel] bounds the recursion only. *)
  Fixpoint run_loop64 (fuel : nat) (r : reaction_masses) (ds : list decay_masses) (event_sample_limit sample_count : Z)
      (result : list v4) (g : G) : (list v4 * G) * res (f64 * f64 * f64) :=
    match fuel with
    | O => ((result, g), Err UB)
    | S fuel' =>
        let sample_count := (sample_count + 1)%Z in
        if (event_sample_limit <? sample_count)%Z then ((result, g), Err PipelineError) else
        match draw g with
        | (Err x, g') => ((result, g'), Err x)
        | (Ok s, g') =>
            match attempt64 r ds s result with
            | (result', Err x) => ((result', g'), Err x)
            | (result', Ok true) => ((result', g'), Ok (s64_vertex s))
            | (result', Ok false) => run_loop64 fuel' r ds event_sample_limit sample_count result' g'
            end
        end
    end.

  (** A row of the data set. *)
  Definition file_row64 (v : v4) : mom4 f64 := mkMom (vx v) (vy v) (vz v) (vE v).
  (** pipeline.py 285-388 [run], then 480-484: create_dataset copies the rows of the buffer. *)
  Definition generate64 (r : reaction_masses) (ds : list decay_masses) (limit : Z) (st : list v4 * G)
    : res (@vertex f64 * list (mom4 f64)) * (list v4 * G) :=
    match run_loop64 (S (Z.to_nat limit)) r ds limit 0 (fst st) (snd st) with
    | (st', Err x) => (Err x, st')
    | (st', Ok v) => (Ok (v, map file_row64 (fst st')), st')
    end.
End Run.
