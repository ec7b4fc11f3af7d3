(** Parameters.v -- model of /repo/src/attpc_engine/detector/parameters.py, class Config.

    Simplified: a text file is the list of its lines, each already split at the commas; [float]
    on a string is a parameter (None: ValueError); np.load is a parameter; paths are strings
    (the attribute may also be a pathlib.Path, which never equals "Default"). *)
From Coq Require Import ZArith String.
From Flocq Require Import BinarySingleNaN.
From Verif Require Import Base F64 Num Transporter Simulator Response Writer.
Local Open Scope string_scope.
Local Open Scope Z_scope.

(** parameters.py 10-94. *)
Record det_params := mkDet {
  dp_length : f64; dp_efield : f64; dp_bfield : f64; dp_gain : Z; dp_diffusion : f64;
  dp_fano : f64; dp_w : f64 }.
Record elec_params := mkElec {
  ep_clock : f64; ep_gain : Z; ep_shaping : Z; ep_mm_edge : Z; ep_windows_edge : Z; ep_threshold : Z }.
Record pad_params := mkPadParams { pp_grid : string; pp_geometry : string; pp_size : string }.

(** parameters.py 7. *)
Definition DEFAULT : string := "Default".
(** parameters.py 212, 241: number of pads. *)
Definition NUM_PADS : nat := Z.to_nat 10240.
#[global] Opaque NUM_PADS.

(** parameters.py 164-174 [calculate_drift_velocity]. *)
Definition drift_velocity {N : Num} (length : N) (windows_edge mm_edge : Z) : res N :=
  pydiv length (nofZ (windows_edge - mm_edge)).

Definition line := list string.
Definition text := list line.

Section Config.
  Context (fexp : f64 -> f64).
  (** [float(s)]. *)
  Context (to_float : string -> option f64).
  (** Files by path; the packaged resources; np.load. *)
  Context (files : string -> option text) (resource : string -> text)
          (load : string -> res (grid * edges (F64 fexp))) (packaged_grid : res (grid * edges (F64 fexp))).

  (** [float(entries[k])]. *)
  Definition entry (l : line) (k : nat) : res f64 :=
    match nth_error l k with
    | None => Err IndexError
    | Some s => match to_float s with Some x => Ok x | None => Err ValueError end
    end.

  (** [a[i] = v] on an array of NUM_PADS rows. *)
  Definition set_row {A} (a : list A) (i : nat) (v : A) : res (list A) :=
    if (i <? length a)%nat then Ok (upd a i v) else Err IndexError.

  (** parameters.py 221-224 and 230-233. *)
  Fixpoint fill_centers (lines : text) (i : nat) (a : list (f64 * f64)) : res (list (f64 * f64)) :=
    match lines with
    | [] => Ok a
    | l :: rest =>
        let* x := entry l 0 in
        let* a1 := set_row a i (x, snd (nth i a (f_of_Z 0, f_of_Z 0))) in
        let* y := entry l 1 in
        let* a2 := set_row a1 i (x, y) in
        fill_centers rest (S i) a2
    end.

  (** parameters.py 250-252 and 258-260. *)
  Fixpoint fill_sizes (lines : text) (i : nat) (a : list f64) : res (list f64) :=
    match lines with
    | [] => Ok a
    | l :: rest =>
        let* x := entry l 0 in
        let* a1 := set_row a i x in
        fill_sizes rest (S i) a1
    end.

  (** [open(path)], then skip the header line. *)
  Definition open_text (path : string) : res text :=
    match files path with Some t => Ok (tl t) | None => Err FileNotFoundError end.

  (** parameters.py 176-205. *)
  Definition load_pad_grid (p : pad_params) : res (grid * edges (F64 fexp)) :=
    if String.eqb (pp_grid p) DEFAULT then packaged_grid else load (pp_grid p).

  (** parameters.py 207-234. *)
  Definition load_pad_centers (p : pad_params) : res (list (f64 * f64)) :=
    let init := repeat (f_of_Z 0, f_of_Z 0) NUM_PADS in
    if String.eqb (pp_geometry p) DEFAULT then fill_centers (tl (resource "padxy.csv")) 0 init
    else let* lines := open_text (pp_geometry p) in fill_centers lines 0 init.

  (** parameters.py 236-261: for a non-default path the *geometry* file is opened (line 255). *)
  Definition load_pad_sizes (p : pad_params) : res (list f64) :=
    let init := repeat (f_of_Z 0) NUM_PADS in
    if String.eqb (pp_size p) DEFAULT then fill_sizes (tl (resource "pad_scale.csv")) 0 init
    else let* lines := open_text (pp_geometry p) in fill_sizes lines 0 init.

  (** The finished Config object. *)
  Record full_config := mkFull {
    fc_det : det_params; fc_elec : elec_params; fc_pads : pad_params; fc_drift : f64;
    fc_grid : grid; fc_edges : edges (F64 fexp); fc_centers : list (f64 * f64); fc_sizes : list f64 }.

  (** parameters.py 145-162 [__init__]. *)
  Definition make_config (d : det_params) (e : elec_params) (p : pad_params) : res full_config :=
    let* dv := drift_velocity (N := F64 fexp) (dp_length d) (ep_windows_edge e) (ep_mm_edge e) in
    let* (g, ed) := load_pad_grid p in
    let* cs := load_pad_centers p in
    let* ss := load_pad_sizes p in
    Ok (mkFull d e p dv g ed cs ss).

  (** What [simulate] and the writer read of it. *)
  Definition sim_config (c : full_config) : config fexp :=
    Simulator.mkConfig fexp (dp_length (fc_det c)) (dp_efield (fc_det c)) (dp_diffusion (fc_det c)) (fc_drift c)
      (dp_gain (fc_det c)) (ep_mm_edge (fc_elec c)) (Some (fc_grid c)) (Some (fc_edges c)).
  Definition writer_config (c : full_config) : wconfig :=
    mkWconfig (ep_windows_edge (fc_elec c)) (ep_mm_edge (fc_elec c)) (dp_length (fc_det c))
      (ep_threshold (fc_elec c)) (Some (fc_centers c)) (fc_sizes c).
End Config.
