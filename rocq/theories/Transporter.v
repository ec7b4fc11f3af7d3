(** Transporter.v -- model of /repo/src/attpc_engine/detector/transporter.py, over any
    [Num] (binary64 or exact reals).  [res] carries exceptions and [UB]. *)
From Coq Require Import ZArith.
From Verif Require Import Base Num Pairing BeamPads.
Local Open Scope Z_scope.

(** The point dictionary: key -> (electrons, label), insertion ordered
    (numba typed dict, simulator.py 93-95). *)
Definition points := list (Z * (Z * Z)).
Definition pget (d : points) (k : Z) : option (Z * Z) := dget Z.eqb d k.
Definition pset (d : points) (k : Z) (v : Z * Z) : points := dset Z.eqb d k v.

(** A pad grid: two-dimensional int16 array of shape [(gr_rows, gr_cols)]. *)
Record grid := mkGrid { gr_rows : Z; gr_cols : Z; gr_cell : Z -> Z -> Z }.

(** numba indexing of one axis: negative indices wrap once, no bounds check
    (out of range = [UB]). *)
Definition axis_index (n i : Z) : res Z :=
  let j := if i <? 0 then i + n else i in
  if (0 <=? j) && (j <? n) then Ok j else Err UB.

(** [pad_grid[index_x, index_y]], transporter.py 161 and 234. *)
Definition grid_get (g : grid) (ix iy : Z) : res Z :=
  let* i := axis_index (gr_rows g) ix in
  let* j := axis_index (gr_cols g) iy in
  Ok (gr_cell g i j).

(** transporter.py 8 [STEPS]. *)
Definition STEPS : Z := 10.

(** [pad != -1 and pad not in BEAM_PADS_ARRAY], transporter.py 164 and 237. *)
Definition is_beam (pad : Z) : bool := existsb (Z.eqb pad) BEAM_PADS.
Definition active_pad (pad : Z) : bool := negb (pad =? -1) && negb (is_beam pad).

Section Transporter.
  Context {N : Num}.

  (** [grid_edges]: low edge, high edge, bin size (3-element array). *)
  Record edges := mkEdges { low_edge : N; high_edge : N; bin_size : N }.

  (** transporter.py 11-41 [bivariate_normal_pdf]. *)
  Definition bivariate_normal_pdf (point mu : N * N) (sigma : N) : res N :=
    let s2 := nmul sigma sigma in
    let half := ndiv (nofZ 1) (nofZ 2) in
    let* c1 := njdiv (ndiv half npi) s2 in
    let* c2' := njdiv (ndiv (nofZ (-1)) (nofZ 2)) s2 in
    let dx := nsub (fst point) (fst mu) in
    let dy := nsub (snd point) (snd mu) in
    let c2 := nmul c2' (nadd (nmul dx dx) (nmul dy dy)) in
    Ok (nmul c1 (nexp c2)).

  (** transporter.py 44-75 [meshgrid]: x outer, y inner. *)
  Definition meshgrid (xarr yarr : list N) : list (N * N) :=
    flat_map (fun x => map (fun y => (x, y)) yarr) xarr.

  (** numba's [np.linspace] with num = STEPS: element i is start + i*step with
      step = (stop - start)/(num-1), and the last element is set to stop. *)
  Definition linspace (start stop : N) (num : Z) : list N :=
    let step := ndiv (nsub stop start) (nofZ (num - 1)) in
    map (fun i => if Z.of_nat i =? num - 1 then stop
                  else nadd start (nmul (nofZ (Z.of_nat i)) step))
        (seq 0 (Z.to_nat num)).

  (** transporter.py 78-120 [position_to_index]. *)
  Definition position_to_index (ge : edges) (position : N * N) : res (Z * Z) :=
    let x := nmul (fst position) (nofZ 1000) in
    let y := nmul (snd position) (nofZ 1000) in
    if nleb (high_edge ge) (nfloor x) || nleb (high_edge ge) (nfloor y) then Ok (-1, -1)
    else if nltb (nfloor x) (low_edge ge) || nltb (nfloor y) (low_edge ge) then Ok (-1, -1)
    else
      let* qx := njdiv (nsub (nfloor x) (low_edge ge)) (bin_size ge) in
      let* x_idx := njint qx in
      let* qy := njdiv (nsub (nfloor y) (low_edge ge)) (bin_size ge) in
      let* y_idx := njint qy in
      Ok (x_idx, y_idx).

  (** [charge, _ = points.get(id, (0, 0)); charge += e; points[id] = (charge, label)],
      transporter.py 167-169 and 247-249 (int64 addition). *)
  Definition deposit (pts : points) (id e label : Z) : points :=
    let charge := match pget pts id with Some (c, _) => c | None => 0 end in
    pset pts id (wrap64 (charge + e), label).

  (** transporter.py 123-169 [point_transport]. *)
  Definition point_transport (g : grid) (ge : edges) (time : N) (center : N * N)
      (electrons : Z) (pts : points) (label : Z) : res points :=
    let* (ix, iy) := position_to_index ge center in
    if (ix =? -1) || (iy =? -1) then Ok pts
    else
      let* pad := grid_get g ix iy in
      if active_pad pad then
        let* tb := njint time in
        Ok (deposit pts (pair tb pad) electrons label)
      else Ok pts.

  (** transporter.py 221-227: the mesh of [transverse_transport]. *)
  Definition diffusion_mesh (center : N * N) (sigma_t : N) : list (N * N) :=
    let s3 := nmul (nofZ 3) sigma_t in
    let xsteps := linspace (nsub (fst center) s3) (nadd (fst center) s3) STEPS in
    let ysteps := linspace (nsub (snd center) s3) (nadd (snd center) s3) STEPS in
    meshgrid xsteps ysteps.

  (** transporter.py 224, 226: [2 * 3 * sigma_t / (STEPS - 1)]. *)
  Definition step_size (sigma_t : N) : N :=
    ndiv (nmul (nofZ (2 * 3)) sigma_t) (nofZ (STEPS - 1)).

  (** transporter.py 240-246. *)
  Definition pixel_electrons (pixel center : N * N) (sigma_t : N) (electrons : Z) : res Z :=
    let* p := bivariate_normal_pdf pixel center sigma_t in
    njint (nmul (nmul p (nmul (step_size sigma_t) (step_size sigma_t))) (nofZ electrons)).

  (** transporter.py 229-249: the body of the pixel loop. *)
  Definition pixel_transport (g : grid) (ge : edges) (time : N) (center : N * N)
      (electrons : Z) (sigma_t : N) (label : Z) (pts : points) (pixel : N * N) : res points :=
    let* (ix, iy) := position_to_index ge pixel in
    if (ix =? -1) || (iy =? -1) then Ok pts
    else
      let* pad := grid_get g ix iy in
      if active_pad pad then
        let* tb := njint time in
        let* pe := pixel_electrons pixel center sigma_t electrons in
        Ok (deposit pts (pair tb pad) pe label)
      else Ok pts.

  (** transporter.py 172-249 [transverse_transport]. *)
  Definition transverse_transport (g : grid) (ge : edges) (time : N) (center : N * N)
      (electrons : Z) (sigma_t : N) (pts : points) (label : Z) : res points :=
    foldM (pixel_transport g ge time center electrons sigma_t label)
          (diffusion_mesh center sigma_t) pts.

  (** A track row restricted to the columns the transport uses: x, y and the time bucket
      stored in column 2 (solver.py 396-398). *)
  Record row := mkRow { r_x : N; r_y : N; r_time : N }.

  (** transporter.py 301. *)
  Definition sigma_of (diffusion efield dv time : N) : res N :=
    let* q := njdiv (nmul (nmul (nmul (nofZ 2) diffusion) dv) time) efield in
    Ok (nsqrt q).

  (** transporter.py 298-317: the body of the loop for one track row. *)
  Definition transport_row (g : grid) (ge : edges) (diffusion efield dv : N) (label : Z)
      (pts : points) (re : row * Z) : res points :=
    let '(r, point_electrons) := re in
    let* sigma_t := sigma_of diffusion efield dv (r_time r) in
    if neqb sigma_t (nofZ 0)
    then point_transport g ge (r_time r) (r_x r, r_y r) point_electrons pts label
    else transverse_transport g ge (r_time r) (r_x r, r_y r) point_electrons sigma_t pts label.

  (** transporter.py 252-317 [transport_track].  Row idx uses [electrons[idx]], an
      unchecked access ([UB] when the electron array is shorter than the track). *)
  Fixpoint transport_track (g : grid) (ge : edges) (diffusion efield dv : N)
      (track : list row) (electrons : list Z) (pts : points) (label : Z) : res points :=
    match track, electrons with
    | [], _ => Ok pts
    | _ :: _, [] => Err UB
    | r :: track', e :: electrons' =>
        let* pts' := transport_row g ge diffusion efield dv label pts (r, e) in
        transport_track g ge diffusion efield dv track' electrons' pts' label
    end.
End Transporter.
Arguments edges N : clear implicits.
Arguments row N : clear implicits.
