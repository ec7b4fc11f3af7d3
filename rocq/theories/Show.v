(** Show.v -- the strings that stand for reactions, decays and pipelines.

    str() of a spyral_utils NucleusData is its isotopic_symbol (the source is not in /repo). *)
From Coq Require Import String List.
From Verif Require Import Base Nucleus Reaction Pipeline.
Import ListNotations.
Local Open Scope string_scope.

(** reaction.py 56-68 [Reaction.__str__]. *)
Definition reaction_str (r : reaction) : string :=
  n_symbol (r_target r) ++ "(" ++ n_symbol (r_projectile r) ++ "," ++ n_symbol (r_ejectile r) ++ ")" ++ n_symbol (r_residual r).
(** reaction.py 218-228 [Decay.__str__]. *)
Definition decay_str (d : decay) : string := n_symbol (d_parent d) ++ "->" ++ n_symbol (d_res1 d) ++ "+" ++ n_symbol (d_res2 d).
(** pipeline.py 196-197: the loop. *)
Fixpoint add_decays (chain : string) (decays : list decay) : string :=
  match decays with [] => chain | d :: decays' => add_decays (chain ++ ", " ++ decay_str d) decays' end.
(** pipeline.py 187-198 [KinematicsPipeline.__str__]. *)
Definition pipeline_str (pl : pipeline) : string := add_decays (reaction_str (pl_reaction pl)) (pl_decays pl).
