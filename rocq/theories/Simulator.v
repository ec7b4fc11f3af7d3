(** Simulator.v -- model of /repo/src/attpc_engine/detector/simulator.py [dict_to_points] and
    [simulate], and of solver.py [generate_point_cloud], in binary64.

    Not modelled, but arbitrary: the nuclear data table, the ODE solution, the random numbers
    and the exponential.  They are parameters of the section below, so every theorem holds for
    all of them. *)
From Coq Require Import ZArith.
From Verif Require Import Base F64 Num Pairing BeamPads Transporter.
Local Open Scope Z_scope.

(** constants.py 23 [NUM_TB]. *)
Definition NUM_TB : Z := 512.

(** Boolean mask indexing [a[mask]] of numpy (same length). *)
Fixpoint select {A} (mask : list bool) (l : list A) : list A :=
  match mask, l with
  | b :: mask', a :: l' => if b then a :: select mask' l' else select mask' l'
  | _, _ => []
  end.

(** A point of a cloud: pad, time bucket, electrons (one row of the Nx3 array). *)
Record point := mkPoint { p_pad : f64; p_tb : f64; p_el : f64 }.

(** simulator.py 19-49 [dict_to_points]. *)
Definition dict_to_points (pts : points) : list point * list Z :=
  (map (fun kv => let '(tb, pad) := unpair (fst kv) in
                  mkPoint pad tb (f_of_Z (fst (snd kv)))) pts,
   map (fun kv => snd (snd kv)) pts).

(** simulator.py 106: [point_array[:, 1] += rng.uniform(...)] for the drawn numbers [us]. *)
Definition wiggle (cloud : list point) (us : list f64) : list point :=
  map (fun pu => mkPoint (p_pad (fst pu)) (fadd (p_tb (fst pu)) (snd pu)) (p_el (fst pu)))
      (combine cloud us).

(** simulator.py 109: [0 <= tb and tb < NUM_TB]. *)
Definition in_window (p : point) : bool :=
  fleb (f_of_Z 0) (p_tb p) && fltb (p_tb p) (f_of_Z NUM_TB).

(** solver.py 396-398: exact time bucket of a z position, over any numbers. *)
Definition tb_of_z {N : Num} (length drift : N) (mm_edge : Z) (z : N) : N :=
  nadd (ndiv (nsub length z) drift) (nofZ mm_edge).

Section Simulate.
  (** exp of binary64; random generator states; nuclei; four momenta; vertices; the columns 3-5
      of a trajectory row. *)
  Context (fexp : f64 -> f64) {G Nuc Mom Vtx Vel : Type}.

  (** A trajectory row: x, y, z and the velocity columns (solver.py 243-305). *)
  Record traj := mkTraj { t_x : f64; t_y : f64; t_z : f64; t_v : Vel }.

  (** The parts of Config used here (parameters.py 97-174). *)
  Record config := mkConfig {
    c_length : f64; c_efield : f64; c_diffusion : f64; c_drift : f64;
    c_gain : Z; c_mm_edge : Z;
    c_grid : option grid; c_edges : option (edges (F64 fexp)) }.

  (** [nuclear_map.get_data]. *)
  Context (get_data : Z -> Z -> res Nuc).
  (** solver.py 243-305 [generate_trajectory]: any list of rows, or an exception. *)
  Context (generate_trajectory : Vtx -> Mom -> Nuc -> config -> res (list traj)).
  (** solver.py 308-347 [generate_electrons]: int64 numbers (masking a track with an array of
      another length is an IndexError of numpy, see below). *)
  Context (generate_electrons : list traj -> Nuc -> config -> G -> list Z * G).
  (** [rng.uniform(low=0, high=1, size=n)]. *)
  Context (uniform : nat -> G -> list f64 * G).

  (** solver.py 396-398: exact time bucket of a z position (numpy float64 arithmetic). *)
  Definition drift_time (c : config) (z : f64) : f64 :=
    tb_of_z (N := F64 fexp) (c_length c) (c_drift c) (c_mm_edge c) z.

  (** solver.py 387-389, 396-398: rows with at least one electron, z replaced by time. *)
  Definition to_row (c : config) (t : traj) : row (F64 fexp) :=
    @mkRow (F64 fexp) (t_x t) (t_y t) (drift_time c (t_z t)).

  (** solver.py 350-413 [generate_point_cloud]. *)
  Definition generate_point_cloud (momentum : Mom) (vertex : Vtx) (nucleus : Nuc) (c : config)
      (rng : G) (pts : points) (label : Z) : res (points * G) :=
    let* track := generate_trajectory vertex momentum nucleus c in
    let '(electrons, rng') := generate_electrons track nucleus c rng in
    if negb (length electrons =? length track)%nat then Err IndexError else
    let mask := map (fun e => 1 <=? e) electrons in
    let track' := select mask track in
    let electrons' := map (fun e => wrap64 (e * c_gain c)) (select mask electrons) in
    let rows := map (to_row c) track' in
    match c_edges c, c_grid c with
    | Some ge, Some g =>
        let* pts' := transport_track (N := F64 fexp) g ge (c_diffusion c) (c_efield c) (c_drift c)
                       rows electrons' pts label in
        Ok (pts', rng')
    | _, _ => Err ValueError
    end.

  (** simulator.py 96-101: the body of the loop over the nuclei. *)
  Definition simulate_nucleus (momenta : list Mom) (vertex : Vtx) (zs ms : list Z) (c : config)
      (s : points * G) (idx : Z) : res (points * G) :=
    let '(pts, rng) := s in
    let* z := py_index zs idx in
    if z =? 0 then Ok (pts, rng)
    else
      let* z' := py_index zs idx in
      let* a := py_index ms idx in
      let* nucleus := get_data z' a in
      let* momentum := py_index momenta idx in
      generate_point_cloud momentum vertex nucleus c rng pts idx.

  (** simulator.py 52-115 [simulate]. *)
  Definition simulate (momenta : list Mom) (vertex : Vtx) (zs ms : list Z) (c : config)
      (rng : G) (indices : list Z) : res ((list point * list Z) * G) :=
    let* (pts, rng1) := foldM (simulate_nucleus momenta vertex zs ms c) indices ([], rng) in
    let '(point_array, label_array) := dict_to_points pts in
    let '(us, rng2) := uniform (length point_array) rng1 in
    let point_array := wiggle point_array us in
    let mask := map in_window point_array in
    Ok ((select mask point_array, select mask label_array), rng2).
End Simulate.
