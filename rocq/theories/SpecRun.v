(** SpecRun.v -- specification vocabulary for [run_simulation]: writer calls and event results. *)
From Coq Require Import ZArith String.
From Verif Require Import Base Simulator KinFile.
Local Open Scope Z_scope.

(** The calls a writer receives. *)
Inductive call := Write (cloud : list point) (labels : list Z) (event : Z) | Close.

Section Spec.
  Context {V G W : Type}.
  Context (simulate : list (mom4 V) -> @vertex V -> list Z -> list Z -> G -> list Z ->
                      res ((list point * list Z) * G)).
  Context (write : W -> list point -> list Z -> Z -> W * res unit) (close : W -> W * res unit).

  (** Perform calls in order, stopping at the first that raises. *)
  Fixpoint perform (calls : list call) (w : W) : W * res unit :=
    match calls with
    | [] => (w, Ok tt)
    | c :: calls' =>
        match (match c with Write cl lb e => write w cl lb e | Close => close w end) with
        | (w', Ok _) => perform calls' w'
        | (w', Err x) => (w', Err x)
        end
    end.

  (** [results] are what simulating [events] in order yields, the generator state being passed
      from event to event. *)
  Inductive simulated (d : data_group V) (zs ms : list Z) (chunk_size : Z) (idx : list Z) :
      list Z -> G -> list (Z * list point * list Z) -> G -> Prop :=
  | S_nil g : simulated d zs ms chunk_size idx [] g [] g
  | S_cons e es g rows v cloud labels g1 rs g2 :
      read_event d chunk_size e = Ok (rows, v) ->
      simulate rows v zs ms g idx = Ok ((cloud, labels), g1) ->
      simulated d zs ms chunk_size idx es g1 rs g2 ->
      simulated d zs ms chunk_size idx (e :: es) g ((e, cloud, labels) :: rs) g2.

  (** One write per non-empty cloud, in order. *)
  Definition writes (rs : list (Z * list point * list Z)) : list call :=
    map (fun r => Write (snd (fst r)) (snd r) (fst (fst r)))
        (filter (fun r => negb (length (snd (fst r)) =? 0)%nat) rs).
End Spec.
