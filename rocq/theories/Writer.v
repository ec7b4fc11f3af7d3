(** Writer.v -- model of /repo/src/attpc_engine/detector/writer.py.

    Simplified: the disk is a map from file name to file; a file holds the attributes of its
    group "cloud" and the data sets of that group with their names; using a closed file raises
    ([ClosedFileError]); opening with mode "w" creates or truncates and never fails. *)
From Coq Require Import ZArith String.
From Flocq Require Import BinarySingleNaN.
From Verif Require Import Base F64 Num Transporter Simulator Response KinFile.
Local Open Scope string_scope.
Local Open Scope Z_scope.

(** ** Conversion, writer.py 61-112 *)

(** writer.py 101-103: z in mm of a time bucket; the divisor is an int64. *)
Definition z_of_tb {N : Num} (window_edge mm_edge : Z) (length tb : N) : res N :=
  let* q := njdiv (nsub (nofZ window_edge) tb) (nofZ (wrap64 (window_edge - mm_edge))) in
  Ok (nmul (nmul q length) (nofZ 1000)).

(** A row of the Spyral point cloud. *)
Record srow := mkSrow { s_x : f64; s_y : f64; s_z : f64; s_amp : f64; s_int : f64;
                        s_pad : f64; s_tb : f64; s_size : f64 }.

(** The parts of Config the writer reads. *)
Record wconfig := mkWconfig {
  wc_windows_edge : Z; wc_mm_edge : Z; wc_length : f64; wc_threshold : Z;
  wc_centers : option (list (f64 * f64)); wc_sizes : list f64 }.

(** Unchecked numba access [a[i]]: negative indices wrap, out of range is [UB]. *)
Definition nj_index {A} (l : list A) (i : Z) : res A :=
  match py_index l i with Ok a => Ok a | Err _ => Err UB end.

Section Writer.
  Context (fexp : f64 -> f64).

  (** writer.py 97-110: one point. *)
  Definition convert_point (we mm : Z) (length : f64) (response : list f64)
      (centers : list (f64 * f64)) (sizes : list f64) (p : point) : res srow :=
    let* pad := (match f_to_Z (p_pad p) with Some z => Ok z | None => Err UB end) in
    let* c := nj_index centers pad in
    let* (amp, integral) := apply_response response (p_el p) in
    let* z := z_of_tb (N := F64 fexp) we mm length (p_tb p) in
    let* sz := nj_index sizes pad in
    Ok (mkSrow (fst c) (snd c) z amp integral (p_pad p) (p_tb p) sz).

  (** writer.py 61-112 [convert_to_spyral]. *)
  Definition convert_to_spyral (points : list point) (we mm : Z) (length : f64)
      (response : list f64) (centers : list (f64 * f64)) (sizes : list f64) : res (list srow) :=
    mapM (convert_point we mm length response centers sizes) points.

  (** np.argsort (any algorithm): see the contract [argsort_ok] in SpecWriter.v. *)
  Context (argsort : list f64 -> list nat).

  (** [a[indices]] for integer indices. *)
  Definition take {A} (l : list A) (idx : list nat) : res (list A) :=
    mapM (fun i => match nth_error l i with Some a => Ok a | None => Err IndexError end) idx.

  (** writer.py 221-240: convert, threshold, sort. *)
  Definition process (response : list f64) (c : wconfig) (data : list point) (labels : list Z)
      : res (list srow * list Z) :=
    match wc_centers c with
    | None => Err ValueError
    | Some centers =>
        let* fmt := convert_to_spyral data (wc_windows_edge c) (wc_mm_edge c) (wc_length c)
                      response centers (wc_sizes c) in
        let mask := map (fun r => fltb (f_of_Z (wc_threshold c)) (s_amp r)) fmt in
        if negb (length labels =? length fmt)%nat then Err IndexError else
        let fmt' := select mask fmt in
        let labels' := select mask labels in
        let idx := argsort (map s_z fmt') in
        let* fmt'' := take fmt' idx in
        let* labels'' := take labels' idx in
        Ok (fmt'', labels'')
    end.

  (** ** Files *)
  (** Data sets: a cloud with its attributes, or labels. *)
  Inductive wattr := WInt (z : Z) | WFloat (x : f64).
  Inductive wdset := WCloud (rows : list srow) (attrs : list (string * wattr)) | WLabels (labels : list Z).
  (** writer.py 245-251: the attributes of a cloud. *)
  Definition cloud_attrs (run event : Z) : list (string * wattr) :=
    [("orig_run", WInt run); ("orig_event", WInt event);
     ("ic_amplitude", WFloat (f_of_Z (-1))); ("ic_multiplicity", WFloat (f_of_Z (-1)));
     ("ic_integral", WFloat (f_of_Z (-1))); ("ic_centroid", WFloat (f_of_Z (-1)))].
  Record wfile := mkWfile { wf_attrs : list (string * Z); wf_sets : list (string * wdset) }.
  Definition disk := list (string * wfile).

  (** [f"{n:04d}"]: at least four characters, zeros inserted after the sign. *)
  Fixpoint pad_zero (k : nat) (s : string) : string :=
    match k with O => s | S k' => if (String.length s <? k)%nat then String "0" (pad_zero k' s) else s end.
  Definition format04 (n : Z) : string :=
    if n <? 0 then String "-" (pad_zero 3 (string_of_Z (- n))) else pad_zero 4 (string_of_Z n).
  (** [f"run_{self.run_number:04d}.h5"], writer.py 179 and 190. *)
  Definition run_name (n : Z) : string := append "run_" (append (format04 n) ".h5").

  Definition cloud_name (e : Z) : string := append "cloud_" (string_of_Z e).
  Definition labels_name (e : Z) : string := append "labels_" (string_of_Z e).

  (** The SpyralWriter object together with the disk. *)
  Record writer := mkWriter {
    w_response : list f64; w_max : Z; w_run : Z; w_start : Z; w_last : Z; w_written : Z;
    w_open : bool; w_disk : disk }.

  Definition new_file : wfile := mkWfile [] [].
  Definition put_file (d : disk) (name : string) (f : wfile) : disk := dset String.eqb d name f.
  Definition get_file (d : disk) (name : string) : option wfile := dget String.eqb d name.

  (** writer.py 164-181 [__init__]. *)
  Definition init (response : list f64) (max_events first_run : Z) (d : disk) : writer :=
    mkWriter response max_events first_run 0 0 0 true (put_file d (run_name first_run) new_file).

  (** writer.py 257-263, 275-281 [set_number_of_events] and [close]. *)
  Definition close (w : writer) : writer * res unit :=
    if w_open w then
      match get_file (w_disk w) (run_name (w_run w)) with
      | None => (w, Err ClosedFileError)
      | Some f =>
          let f' := mkWfile (dset String.eqb (dset String.eqb (wf_attrs f) "min_event" (w_start w))
                               "max_event" (w_last w)) (wf_sets f) in
          (mkWriter (w_response w) (w_max w) (w_run w) (w_start w) (w_last w) (w_written w) false
             (put_file (w_disk w) (run_name (w_run w)) f'), Ok tt)
      end
    else (w, Err ClosedFileError).

  (** writer.py 183-192 [create_next_file]. *)
  Definition create_next_file (w : writer) : writer :=
    mkWriter (w_response w) (w_max w) (w_run w + 1) (w_start w) (w_last w) (w_written w) true
      (put_file (w_disk w) (run_name (w_run w + 1)) new_file).

  (** writer.py 215-219: start a new file if the limit is reached. *)
  Definition roll (w : writer) (event : Z) : writer * res unit :=
    if w_written w =? w_max w then
      match close w with
      | (w1, Err x) => (w1, Err x)
      | (w1, Ok _) =>
          let w2 := create_next_file w1 in
          (mkWriter (w_response w2) (w_max w2) (w_run w2) event (w_last w2) 0 (w_open w2) (w_disk w2), Ok tt)
      end
    else (w, Ok tt).

  (** writer.py 242-255: store the event. *)
  Definition store_event (w : writer) (rows : list srow) (labels : list Z) (event : Z) : writer * res unit :=
    if w_open w then
      match get_file (w_disk w) (run_name (w_run w)) with
      | None => (w, Err ClosedFileError)
      | Some f =>
          match create (wf_sets f) (cloud_name event) (WCloud rows (cloud_attrs (w_run w) event)) with
          | Err x => (w, Err x)
          | Ok sets1 =>
              let d1 := put_file (w_disk w) (run_name (w_run w)) (mkWfile (wf_attrs f) sets1) in
              match create sets1 (labels_name event) (WLabels labels) with
              | Err x => (mkWriter (w_response w) (w_max w) (w_run w) (w_start w) (w_last w)
                            (w_written w) (w_open w) d1, Err x)
              | Ok sets2 =>
                  (mkWriter (w_response w) (w_max w) (w_run w) (w_start w) event (w_written w + 1)
                     (w_open w) (put_file d1 (run_name (w_run w)) (mkWfile (wf_attrs f) sets2)), Ok tt)
              end
          end
      end
    else (w, Err ClosedFileError).

  (** writer.py 194-255 [write]. *)
  Definition write (w : writer) (data : list point) (labels : list Z) (c : wconfig) (event : Z)
      : writer * res unit :=
    match roll w event with
    | (w1, Err x) => (w1, Err x)
    | (w1, Ok _) =>
        match process (w_response w1) c data labels with
        | Err x => (w1, Err x)
        | Ok (rows, labels') => store_event w1 rows labels' event
        end
    end.
End Writer.
