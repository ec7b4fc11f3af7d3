(** SpecWriter.v -- specification vocabulary for the Spyral writer. *)
From Coq Require Import ZArith String Permutation Sorted Reals.
From Flocq Require Import BinarySingleNaN.
From Verif Require Import Base F64 Simulator Response Writer.
Local Open Scope Z_scope.

(** One call of [write]. *)
Record wcall := mkCall { cl_data : list point; cl_labels : list Z; cl_config : wconfig; cl_event : Z }.

(** What is stored for one event: its number, rows and labels. *)
Definition event_record := (Z * (list srow * list Z))%type.
Definition number (r : event_record) : Z := fst r.

(** The attributes that identify a cloud; the ion chamber values are all "absent". *)
Definition marks (run event : Z) : list (string * wattr) :=
  [("orig_run", WInt run); ("orig_event", WInt event)]%string ++
  map (fun k => (append "ic_" k, WFloat (f_of_Z (-1)))) ["amplitude"; "multiplicity"; "integral"; "centroid"]%string.

(** A file of run [run] that holds exactly the events [evs]: for every event its cloud, marked
    with the run and event number, and its labels; nothing else. *)
Definition holds (f : wfile) (run : Z) (evs : list event_record) : Prop :=
  wf_sets f = flat_map (fun r => [(append "cloud_" (string_of_Z (number r)), WCloud (fst (snd r)) (marks run (number r)));
                                  (append "labels_" (string_of_Z (number r)), WLabels (snd (snd r)))]) evs.

Section Calls.
  Context (fexp : f64 -> f64) (argsort : list f64 -> list nat).

  (** Calls in order, stopping at the first that raises. *)
  Fixpoint do_writes (w : writer) (calls : list wcall) : writer * res unit :=
    match calls with
    | [] => (w, Ok tt)
    | c :: calls' =>
        match write fexp argsort w (cl_data c) (cl_labels c) (cl_config c) (cl_event c) with
        | (w', Ok _) => do_writes w' calls'
        | (w', Err x) => (w', Err x)
        end
    end.

  (** [recs] are the records of the calls: the processed clouds. *)
  Definition processed (response : list f64) (calls : list wcall) (recs : list event_record) : Prop :=
    Forall2 (fun c r => number r = cl_event c /\
                        process fexp argsort response (cl_config c) (cl_data c) (cl_labels c) = Ok (snd r))
            calls recs.

  (** Any operation; exceptions are caught by the caller, who may go on using the writer. *)
  Inductive op := OpWrite (c : wcall) | OpClose.
  Definition step (w : writer) (o : op) : writer * res unit :=
    match o with
    | OpWrite c => write fexp argsort w (cl_data c) (cl_labels c) (cl_config c) (cl_event c)
    | OpClose => close w
    end.
  Definition steps (w : writer) (os : list op) : writer := fold_left (fun w o => fst (step w o)) os w.
End Calls.

(** The contract of np.argsort: a permutation of the indices that sorts the keys (in any order
    of ties). *)
Definition argsort_ok (argsort : list f64 -> list nat) : Prop :=
  forall l, Forall (fun x => is_finite x = true) l ->
    Permutation (argsort l) (seq 0 (length l)) /\
    StronglySorted (fun i j => (B2R (nth i l (f_of_Z 0)) <= B2R (nth j l (f_of_Z 0)))%R) (argsort l).
