(** SpecKinFile.v -- specification of the kinematics file: which event is where. *)
From Coq Require Import ZArith String.
From Verif Require Import Base Simulator KinFile SpecRun.
Local Open Scope string_scope.
Local Open Scope Z_scope.
Local Open Scope list_scope.

Section Spec.
  Context {V : Type}.
  Notation event := (@vertex V * list (mom4 V))%type.

  Section Run.
    Context {P : Type} (run : P -> res event * P).
    (** Successive runs of the pipeline that succeed. *)
    Inductive produced : P -> list event -> P -> Prop :=
    | Pr_nil p : produced p [] p
    | Pr_cons p ev p1 evs p2 : run p = (Ok ev, p1) -> produced p1 evs p2 -> produced p (ev :: evs) p2.
  End Run.

  (** Event numbers and events. *)
  Definition indexed (evs : list event) : list (Z * event) := combine (zrange 0 (Z.of_nat (length evs))) evs.
  Definition event_ds (ev : event) : dataset V :=
    let '((vx, vy, vz), rows) := ev in
    mkDs rows [("vertex_x", AReal vx); ("vertex_y", AReal vy); ("vertex_z", AReal vz)].

  Context (zs ms : list Z) (cs : Z).

  (** Chunk c holds the events e with e / cs = c. *)
  Definition chunk_sets (evs : list event) (c : Z) : list (string * dataset V) :=
    map (fun x => (event_name (fst x), event_ds (snd x))) (filter (fun x => fst x / cs =? c) (indexed evs)).
  Definition header (n : Z) : @attrs V :=
    [("n_events", AInt n); ("proton_numbers", AInts zs); ("mass_numbers", AInts ms); ("chunk_size", AInt cs)].

  (** Number of chunks of n events: one, even for no event, else n / cs rounded up. *)
  Definition chunks (n : Z) : Z := Z.max 1 ((n + cs - 1) / cs).

  Definition finished_file (evs : list event) : data_group V :=
    let n := Z.of_nat (length evs) in
    mkData (header n ++ [("n_chunks", AInt (chunks n))])%list
      (map (fun c => (chunk_name c, mkGrp [("min_event", AInt (c * cs)); ("max_event", AInt (Z.min ((c + 1) * cs) n - 1))]
                                          (chunk_sets evs c)))
           (zrange 0 (chunks n))).

  (** The file of n events whose generation failed after the events [evs]. *)
  Definition interrupted_file (n : Z) (evs : list event) : data_group V :=
    let k := Z.of_nat (length evs) in
    mkData (header n)
      (map (fun c => (chunk_name c, mkGrp ([("min_event", AInt (c * cs))] ++
                                           (if c <? k / cs then [("max_event", AInt ((c + 1) * cs - 1))] else []))%list
                                          (chunk_sets evs c)))
           (zrange 0 (k / cs + 1))).

  (** Simulating generated events without a file in between. *)
  Section Direct.
    Context {G W : Type}.
    Context (simulate : list (mom4 V) -> @vertex V -> list Z -> list Z -> G -> list Z ->
                        res ((list point * list Z) * G)).
    Context (write : W -> list point -> list Z -> Z -> W * res unit) (close : W -> W * res unit).
    Fixpoint direct (idx : list Z) (evs : list (Z * event)) (rng : G) (w : W) : W * res unit :=
      match evs with
      | [] => close w
      | (e, (v, rows)) :: evs' =>
          match simulate rows v zs ms rng idx with
          | Err x => (w, Err x)
          | Ok ((cloud, labels), rng') =>
              if (length cloud =? 0)%nat then direct idx evs' rng' w
              else match write w cloud labels e with
                   | (w', Ok _) => direct idx evs' rng' w'
                   | (w', Err x) => (w', Err x)
                   end
          end
      end.
  End Direct.

  (** The data frame: one row per event and nucleus, event by event. *)
  Definition frame (symbols : list string) (evs : list event) : list (@frow V) :=
    flat_map (fun x =>
      map (fun y => let '(z, a, s, m) := y in
                    mkFrow (fst x) z a s (m_E m) (m_px m) (m_py m) (m_pz m) (fst (snd x)))
          (combine (combine (combine zs ms) symbols) (snd (snd x)))) (indexed evs).
End Spec.
