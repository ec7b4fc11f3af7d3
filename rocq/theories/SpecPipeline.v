(** SpecPipeline.v -- specification vocabulary for reaction chains. *)
From Coq Require Import ZArith Reals String.
From Verif Require Import Base Nucleus Reaction SpecReaction Pipeline.
Local Open Scope R_scope.

(** The nucleus left over after step 0 (the reaction) and after each decay. *)
Definition left_over (r : reaction) (ds : list decay) : list nucleus := r_residual r :: map d_res2 ds.

(** A chain in which each decaying nucleus is the one left over by the step before. *)
Definition connected (r : reaction) (ds : list decay) : Prop :=
  forall i d n, nth_error ds i = Some d -> nth_error (left_over r ds) i = Some n ->
  n_symbol n = n_symbol (d_parent d).

(** The nuclei of an event, in row order. *)
Definition row_nuclei (r : reaction) (ds : list decay) : list nucleus :=
  [r_target r; r_projectile r; r_ejectile r; r_residual r]
  ++ flat_map (fun d => [d_res1 d; d_res2 d]) ds.

(** Nuclei that reach the detector: ejectile, first product of each decay, last left-over nucleus. *)
Definition final_nuclei (r : reaction) (ds : list decay) : list nucleus :=
  r_ejectile r :: map d_res1 ds ++ [last (map d_res2 ds) (r_residual r)].

(** Verdict on a sample. *)
Inductive verdict := Accept (rows : list row) | Reject | Raise (x : exn).

(** The decays of a chain for given excitations and angles: verdict with the rows of the products. *)
Inductive decays_verdict : list decay -> list (R * R * R) -> row -> verdict -> Prop :=
| DV_done P : decays_verdict [] [] P (Accept [])
| DV_reject d ds ex th ph ps P :
    decay_allowed_row d P ex = false ->
    decays_verdict (d :: ds) ((ex, th, ph) :: ps) P Reject
| DV_raise d ds ex th ph ps P x :
    decay_allowed_row d P ex = true -> decay_calculate_row d P th ph ex = Err x ->
    decays_verdict (d :: ds) ((ex, th, ph) :: ps) P (Raise x)
| DV_step d ds ex th ph ps P P' a b v :
    decay_allowed_row d P ex = true -> decay_calculate_row d P th ph ex = Ok [P'; a; b] ->
    decays_verdict ds ps b v ->
    decays_verdict (d :: ds) ((ex, th, ph) :: ps) P
      (match v with Accept rows => Accept (a :: b :: rows) | _ => v end).

(** A sample has one excitation and one pair of angles per decay. *)
Definition well_formed (ds : list decay) (s : sample) : Prop :=
  length (s_decay_ex s) = length ds /\ length (s_decay_thetas s) = length ds /\
  length (s_decay_phis s) = length ds.
Definition decay_params (s : sample) : list (R * R * R) :=
  map (fun p => (fst (fst p), snd (fst p), snd p))
      (combine (combine (s_decay_ex s) (s_decay_thetas s)) (s_decay_phis s)).

Inductive sample_verdict (r : reaction) (ds : list decay) (s : sample) : verdict -> Prop :=
| SV_reject : reaction_allowed r (s_energy s) (s_ex s) = false -> sample_verdict r ds s Reject
| SV_raise x : reaction_allowed r (s_energy s) (s_ex s) = true ->
    reaction_calculate r (s_energy s) (s_theta s) (s_phi s) (s_ex s) = Err x ->
    sample_verdict r ds s (Raise x)
| SV_step t p e q v : reaction_allowed r (s_energy s) (s_ex s) = true ->
    reaction_calculate r (s_energy s) (s_theta s) (s_phi s) (s_ex s) = Ok [t; p; e; q] ->
    decays_verdict ds (decay_params s) q v ->
    sample_verdict r ds s (match v with Accept rows => Accept (t :: p :: e :: q :: rows) | _ => v end).

Section Draws.
  Context {G : Type} (draw : G -> res sample * G).
  (** [drawn g n l g']: n draws in a row from g succeed with the samples l. *)
  Inductive drawn : G -> list sample -> G -> Prop :=
  | D_nil g : drawn g [] g
  | D_cons g s g1 l g2 : draw g = (Ok s, g1) -> drawn g1 l g2 -> drawn g (s :: l) g2.
End Draws.

(** Sum of four-momenta. *)
Definition pzero : p4 := mkP4 0 0 0 0.
Definition psum (l : list p4) : p4 := fold_right padd pzero l.

(** Rest masses, excitation included, of the products of the decays, in row order. *)
Definition decay_masses (ds : list decay) (ps : list (R * R * R)) : list R :=
  flat_map (fun x => [n_mass (d_res1 (fst x)); n_mass (d_res2 (fst x)) + fst (fst (snd x))]) (combine ds ps).

(** Every decay of the chain is exothermic; [m] is the mass of the first decaying nucleus. *)
Fixpoint exothermic (m : R) (ds : list decay) (ps : list (R * R * R)) : Prop :=
  match ds, ps with
  | d :: ds', (ex, _, _) :: ps' =>
      n_mass (d_res1 d) + n_mass (d_res2 d) + ex < m /\ exothermic (n_mass (d_res2 d) + ex) ds' ps'
  | _, _ => True
  end.

(** No negative masses: excitations stay above minus the rest mass. *)
Definition massive_decays (ds : list decay) (ps : list (R * R * R)) : Prop :=
  Forall (fun x => 0 <= n_mass (d_res1 (fst x)) /\ 0 < n_mass (d_res2 (fst x)) + fst (fst (snd x)))
         (combine ds ps).
Definition massive (r : reaction) (ds : list decay) (s : sample) : Prop :=
  0 < n_mass (r_target r) /\ 0 <= n_mass (r_projectile r) /\ 0 <= n_mass (r_ejectile r) /\
  0 < n_mass (r_residual r) + s_ex s /\ 0 <= s_energy s /\ massive_decays ds (decay_params s).

Definition sum_R (l : list R) : R := fold_right Rplus 0 l.
(** Masses, excitation included, of the left-over nuclei of all steps. *)
Definition left_over_masses (r : reaction) (ds : list decay) (exs : list R) : list R :=
  map (fun x => n_mass (fst x) + snd x) (combine (left_over r ds) exs).
