(** KinFile.v -- the kinematics HDF5 file, its producer [run_kinematics_pipeline] and its two
    readers [run_simulation] and [convert_kinematics_hdf5_to_polars].

    Simplified: an HDF5 file is a tree of named groups, data sets and attributes with the exact
    names the code uses; creating a name that exists raises ValueError, reading one that does
    not raises KeyError; floating-point values are copied unchanged (type [V]).  A file left
    open by an exception is taken to hold what was written so far.  Progress bars and prints
    are omitted. *)
From Coq Require Import ZArith String.
From Verif Require Import Base Simulator.
Local Open Scope string_scope.
Local Open Scope Z_scope.

(** Python [range(a, b)]. *)
Definition zrange (a b : Z) : list Z := map (fun i => a + Z.of_nat i) (seq 0 (Z.to_nat (b - a))).

(** Python [range(a, b, 2)]. *)
Definition zrange2 (a b : Z) : list Z :=
  map (fun i => a + 2 * Z.of_nat i) (seq 0 (Z.to_nat ((b - a + 1) / 2))).

Section File.
  Context {V : Type}.

  (** Rows of an event: px, py, pz, E. *)
  Record mom4 := mkMom { m_px : V; m_py : V; m_pz : V; m_E : V }.
  Definition vertex := (V * V * V)%type.

  Inductive aval := AInt (z : Z) | AInts (l : list Z) | AReal (v : V).
  Definition attrs := list (string * aval).
  Record dataset := mkDs { ds_rows : list mom4; ds_attrs : attrs }.
  Record group := mkGrp { gp_attrs : attrs; gp_sets : list (string * dataset) }.
  (** The file: the group "data", if created. *)
  Record data_group := mkData { dg_attrs : attrs; dg_groups : list (string * group) }.

  Definition lookup {A} (d : list (string * A)) (k : string) : res A :=
    match dget String.eqb d k with Some a => Ok a | None => Err KeyError end.
  Definition store {A} (d : list (string * A)) (k : string) (a : A) : list (string * A) :=
    dset String.eqb d k a.
  (** create_group / create_dataset: the name must be free. *)
  Definition create {A} (d : list (string * A)) (k : string) (a : A) : res (list (string * A)) :=
    match dget String.eqb d k with Some _ => Err ValueError | None => Ok (d ++ [(k, a)])%list end.

  Definition get_int (a : attrs) (k : string) : res Z :=
    let* v := lookup a k in match v with AInt z => Ok z | _ => Err TypeError end.
  Definition get_ints (a : attrs) (k : string) : res (list Z) :=
    let* v := lookup a k in match v with AInts z => Ok z | _ => Err TypeError end.
  Definition get_real (a : attrs) (k : string) : res V :=
    let* v := lookup a k in match v with AReal z => Ok z | _ => Err TypeError end.

  Definition chunk_name (c : Z) : string := append "chunk_" (string_of_Z c).
  Definition event_name (e : Z) : string := append "event_" (string_of_Z e).

  (** *** pipeline.py 429-495 [run_kinematics_pipeline] *)
  Section Produce.
    Context {P : Type}.                                   (** pipeline state *)
    Context (run : P -> res (vertex * list mom4) * P).    (** pipeline.run() *)
    Context (zs ms : list Z).                             (** get_proton_numbers / get_mass_numbers *)
    Context (CHUNK_SIZE : Z).                             (** pipeline.py 13 *)

    (** Local variables of the loop; [k_group] is the open chunk group. *)
    Record kstate := mkK { k_chunk : Z; k_count : Z; k_name : string; k_data : data_group; k_pipe : P }.

    Definition set_group_attr (d : data_group) (name key : string) (v : aval) : data_group :=
      match dget String.eqb (dg_groups d) name with
      | None => d
      | Some g => mkData (dg_attrs d)
                    (store (dg_groups d) name (mkGrp (store (gp_attrs g) key v) (gp_sets g)))
      end.
    Definition set_data_attr (d : data_group) (key : string) (v : aval) : data_group :=
      mkData (store (dg_attrs d) key v) (dg_groups d).
    Definition create_group (d : data_group) (name : string) : res data_group :=
      let* gs := create (dg_groups d) name (mkGrp [] []) in Ok (mkData (dg_attrs d) gs).
    (** create_dataset in the group [name], then set the attributes. *)
    Definition create_event (d : data_group) (name : string) (event : Z) (ds : dataset) : res data_group :=
      match dget String.eqb (dg_groups d) name with
      | None => Err KeyError
      | Some g =>
          let* sets := create (gp_sets g) (event_name event) ds in
          Ok (mkData (dg_attrs d) (store (dg_groups d) name (mkGrp (gp_attrs g) sets)))
      end.

    (** pipeline.py 475-480. *)
    Definition next_chunk (s : kstate) (event : Z) : res kstate :=
      if k_count s =? CHUNK_SIZE then
        let d1 := set_group_attr (k_data s) (k_name s) "max_event" (AInt (event - 1)) in
        let chunk := k_chunk s + 1 in
        let* d2 := create_group d1 (chunk_name chunk) in
        Ok (mkK chunk 0 (chunk_name chunk)
                (set_group_attr d2 (chunk_name chunk) "min_event" (AInt event)) (k_pipe s))
      else Ok s.

    (** pipeline.py 475-487: the loop body; state and exception, if any. *)
    Definition kin_event (s : kstate) (event : Z) : kstate * res unit :=
      match next_chunk s event with
      | Err x => (s, Err x)
      | Ok s1 =>
          let '(r, p) := run (k_pipe s1) in
          let s2 := mkK (k_chunk s1) (k_count s1) (k_name s1) (k_data s1) p in
          match r with
          | Err x => (s2, Err x)
          | Ok ((vx, vy, vz), rows) =>
              let ds := mkDs rows [("vertex_x", AReal vx); ("vertex_y", AReal vy); ("vertex_z", AReal vz)] in
              match create_event (k_data s2) (k_name s2) event ds with
              | Err x => (s2, Err x)
              | Ok d => (mkK (k_chunk s2) (k_count s2 + 1) (k_name s2) d (k_pipe s2), Ok tt)
              end
          end
      end.

    Fixpoint kin_loop (events : list Z) (s : kstate) : kstate * res unit :=
      match events with
      | [] => (s, Ok tt)
      | e :: events' =>
          match kin_event s e with
          | (s', Ok _) => kin_loop events' s'
          | (s', Err x) => (s', Err x)
          end
      end.

    Definition kin_start (n_events : Z) (p : P) : kstate :=
      let d0 := mkData [("n_events", AInt n_events); ("proton_numbers", AInts zs);
                        ("mass_numbers", AInts ms); ("chunk_size", AInt CHUNK_SIZE)]
                  [("chunk_0", mkGrp [("min_event", AInt 0)] [])] in
      mkK 0 0 "chunk_0" d0 p.

    (** The resulting file and whether the call raised. *)
    Definition run_kinematics_pipeline (n_events : Z) (p : P) : data_group * res unit :=
      match kin_loop (zrange 0 n_events) (kin_start n_events p) with
      | (s, Err x) => (k_data s, Err x)
      | (s, Ok _) =>
          let d1 := set_group_attr (k_data s) (k_name s) "max_event" (AInt (n_events - 1)) in
          (set_data_attr d1 "n_chunks" (AInt (k_chunk s + 1)), Ok tt)
      end.
  End Produce.

  (** Reading one event: simulator.py 187-199, convert_kinematics.py 45-50. *)
  Definition read_event (d : data_group) (chunk_size e : Z) : res (list mom4 * vertex) :=
    let* g := lookup (dg_groups d) (chunk_name (e / chunk_size)) in
    let* ds := lookup (gp_sets g) (event_name e) in
    let* vx := get_real (ds_attrs ds) "vertex_x" in
    let* vy := get_real (ds_attrs ds) "vertex_y" in
    let* vz := get_real (ds_attrs ds) "vertex_z" in
    Ok (ds_rows ds, (vx, vy, vz)).

  (** simulator.py 151-158. *)
  Definition nuclei_to_sim (indices : option (list Z)) (zs : list Z) : list Z :=
    match indices with
    | Some l => l
    | None => let n := Z.of_nat (length zs) in (zrange2 2 n ++ [n - 1])%list
    end.

  (** *** simulator.py 118-210 [run_simulation], for any [simulate] and any writer *)
  Section Run.
    Context {G W : Type}.
    Context (simulate : list mom4 -> vertex -> list Z -> list Z -> G -> list Z ->
                        res ((list point * list Z) * G)).
    (** Writer methods: state after the call, and the exception it raised, if any. *)
    Context (write : W -> list point -> list Z -> Z -> W * res unit) (close : W -> W * res unit).

    (** simulator.py 185-206. *)
    Fixpoint sim_loop (d : data_group) (zs ms : list Z) (chunk_size : Z) (idx : list Z)
        (events : list Z) (rng : G) (w : W) : W * res unit :=
      match events with
      | [] => (w, Ok tt)
      | e :: events' =>
          match read_event d chunk_size e with
          | Err x => (w, Err x)
          | Ok (rows, v) =>
              match simulate rows v zs ms rng idx with
              | Err x => (w, Err x)
              | Ok ((cloud, labels), rng') =>
                  match cloud with
                  | [] => sim_loop d zs ms chunk_size idx events' rng' w
                  | _ :: _ =>
                      match write w cloud labels e with
                      | (w', Ok _) => sim_loop d zs ms chunk_size idx events' rng' w'
                      | (w', Err x) => (w', Err x)
                      end
                  end
              end
          end
      end.

    (** Attributes read first, simulator.py 147-166. *)
    Definition read_header (d : data_group) : res (list Z * list Z * Z * Z * Z) :=
      let* zs := get_ints (dg_attrs d) "proton_numbers" in
      let* ms := get_ints (dg_attrs d) "mass_numbers" in
      let* n_events := get_int (dg_attrs d) "n_events" in
      let* n_chunks := get_int (dg_attrs d) "n_chunks" in
      let* chunk_size := get_int (dg_attrs d) "chunk_size" in
      Ok (zs, ms, n_events, n_chunks, chunk_size).

    Definition run_simulation (d : data_group) (indices : option (list Z)) (rng : G) (w : W) : W * res unit :=
      match read_header d with
      | Err x => (w, Err x)
      | Ok (zs, ms, n_events, _, chunk_size) =>
          match sim_loop d zs ms chunk_size (nuclei_to_sim indices zs) (zrange 0 n_events) rng w with
          | (w', Ok _) => close w'
          | (w', Err x) => (w', Err x)
          end
      end.
  End Run.

  (** *** convert_kinematics.py 11-63 [convert_kinematics_hdf5_to_polars]: the rows of the data
      frame (event, Z, A, isotope, energy, px, py, pz, vertex) written to parquet. *)
  Section Convert.
    Context {Nuc : Type} (get_data : Z -> Z -> res Nuc) (symbol : Nuc -> string).

    Record frow := mkFrow { f_event : Z; f_Z : Z; f_A : Z; f_isotope : string;
                            f_energy : V; f_px : V; f_py : V; f_pz : V; f_vertex : vertex }.

    (** Python list comprehension whose body may raise. *)
    Fixpoint mapM {A B} (f : A -> res B) (l : list A) : res (list B) :=
      match l with
      | [] => Ok []
      | a :: l' => let* b := f a in let* bs := mapM f l' in Ok (b :: bs)
      end.

    Definition convert_row (zs ms : list Z) (nuclei : list Nuc) (e : Z) (rows : list mom4) (v : vertex)
        (i : Z) : res frow :=
      let* z := py_index zs i in
      let* a := py_index ms i in
      let* nuc := py_index nuclei i in
      let* m := py_index rows i in
      Ok (mkFrow e z a (symbol nuc) (m_E m) (m_px m) (m_py m) (m_pz m) v).

    Definition convert_kinematics (d : data_group) : res (list frow) :=
      let* zs := get_ints (dg_attrs d) "proton_numbers" in
      let* ms := get_ints (dg_attrs d) "mass_numbers" in
      let* n_events := get_int (dg_attrs d) "n_events" in
      let* chunk_size := get_int (dg_attrs d) "chunk_size" in
      let idx := zrange 0 (Z.of_nat (length zs)) in
      let* nuclei := mapM (fun i => let* z := py_index zs i in let* a := py_index ms i in get_data z a) idx in
      let* rss := mapM (fun e => let* (rows, v) := read_event d chunk_size e in
                                 mapM (convert_row zs ms nuclei e rows v) idx) (zrange 0 n_events) in
      Ok (concat rss).
  End Convert.
End File.
Arguments mom4 V : clear implicits.
Arguments aval V : clear implicits.
Arguments data_group V : clear implicits.
Arguments group V : clear implicits.
Arguments dataset V : clear implicits.
