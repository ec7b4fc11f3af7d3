(** Session.v -- model of a script that makes parameter objects, Configs and SpyralWriters, assigns to
    attributes in between, and writes events.

    parameters.py 10-94 (dataclasses: attributes may be assigned to at any time), 145-174 (a Config keeps
    references to its parameter objects, but its own drift velocity and pad arrays), writer.py 164-181 (a
    writer keeps a copy of the response made at its construction and no reference to the Config), 194-255
    ([write] reads the Config it is given).  Simplified: attributes of the same object that are read at the
    same moments are assigned to together; every writer has a directory of its own; arrays of a Config are
    not written to by the script. *)
From Coq Require Import ZArith String List.
From Flocq Require Import BinarySingleNaN.
From Verif Require Import Base F64 Num Transporter Simulator Response Writer Parameters ConfigObj.
Import ListNotations.
Local Open Scope Z_scope.

Section Session.
  Context (fexp fsin fcube : f64 -> f64) (e_charge femto milli : f64).
  Context (to_float : string -> option f64) (files : string -> option text) (resource : string -> text)
          (load : string -> res (grid * edges (F64 fexp))) (packaged : res (grid * edges (F64 fexp)))
          (argsort : list f64 -> list nat).

  (** A Config object (parameters.py 151-162): references, and what it owns. *)
  Record conf := mkConf { cf_det : nat; cf_elec : nat; cf_pads : nat; cf_drift : f64;
    cf_grid : grid; cf_edges : edges (F64 fexp); cf_centers : list (f64 * f64); cf_sizes : list f64 }.
  (** The objects of the script, writers together with their directories. *)
  Record objs := mkObjs { o_det : nat -> det_params; o_elec : nat -> elec_params; o_pads : nat -> pad_params;
    o_configs : list conf; o_writers : list writer }.

  Inductive stmt :=
  | AssignDet (d : nat) (v : det_params)                       (* detector.length = ..., and so on *)
  | AssignShape (e : nat) (clock : f64) (gain shaping : Z)     (* electronics.clock_freq, amp_gain, shaping_time *)
  | AssignElec (e : nat) (mm we threshold : Z)                 (* micromegas_edge, windows_edge, adc_threshold *)
  | AssignPads (p : nat) (v : pad_params)                      (* pads.grid_path, ... *)
  | MakeConfig (d e p : nat)                                   (* Config(detector, electronics, pads) *)
  | Drift (i : nat)                                            (* config.calculate_drift_velocity() *)
  | MakeWriter (i : nat) (max_events first_run : Z)            (* SpyralWriter(path, config, ...) *)
  | WriteEvent (j : nat) (data : list point) (labels : list Z) (i : nat) (event : Z)
                                                               (* writer.write(data, labels, config, event) *)
  | CloseWriter (j : nat).                                     (* writer.close() *)

  (** The Config with its references followed. *)
  Definition view (s : objs) (c : conf) : full_config fexp :=
    mkFull fexp (o_det s (cf_det c)) (o_elec s (cf_elec c)) (o_pads s (cf_pads c)) (cf_drift c)
      (cf_grid c) (cf_edges c) (cf_centers c) (cf_sizes c).
  (** writer.py 172: [get_response(config)]. *)
  Definition response_of (e : elec_params) : res (list f64) :=
    get_response (N := F64 fexp) fsin fcube e_charge femto milli (ep_gain e) (ep_shaping e) (ep_clock e).

  Definition with_configs (s : objs) (l : list conf) : objs := mkObjs (o_det s) (o_elec s) (o_pads s) l (o_writers s).
  Definition with_writers (s : objs) (l : list writer) : objs := mkObjs (o_det s) (o_elec s) (o_pads s) (o_configs s) l.

  (** One statement; an exception leaves the objects as they are then, and the script goes on. *)
  Definition step (s : objs) (t : stmt) : objs :=
    match t with
    | AssignDet d v => mkObjs (set (o_det s) d v) (o_elec s) (o_pads s) (o_configs s) (o_writers s)
    | AssignShape e clock gain shaping =>
        let p := o_elec s e in
        mkObjs (o_det s) (set (o_elec s) e (mkElec clock gain shaping (ep_mm_edge p) (ep_windows_edge p) (ep_threshold p)))
          (o_pads s) (o_configs s) (o_writers s)
    | AssignElec e mm we threshold =>
        let p := o_elec s e in
        mkObjs (o_det s) (set (o_elec s) e (mkElec (ep_clock p) (ep_gain p) (ep_shaping p) mm we threshold))
          (o_pads s) (o_configs s) (o_writers s)
    | AssignPads p v => mkObjs (o_det s) (o_elec s) (set (o_pads s) p v) (o_configs s) (o_writers s)
    | MakeConfig d e p =>
        match make_config fexp to_float files resource load packaged (o_det s d) (o_elec s e) (o_pads s p) with
        | Ok c => with_configs s (o_configs s ++
                    [mkConf d e p (fc_drift _ c) (fc_grid _ c) (fc_edges _ c) (fc_centers _ c) (fc_sizes _ c)])
        | Err _ => s
        end
    | Drift i =>
        match nth_error (o_configs s) i with
        | Some c =>
            match drift_velocity (N := F64 fexp) (dp_length (o_det s (cf_det c)))
                    (ep_windows_edge (o_elec s (cf_elec c))) (ep_mm_edge (o_elec s (cf_elec c))) with
            | Ok v => with_configs s (upd (o_configs s) i
                        (mkConf (cf_det c) (cf_elec c) (cf_pads c) v (cf_grid c) (cf_edges c) (cf_centers c) (cf_sizes c)))
            | Err _ => s
            end
        | None => s
        end
    | MakeWriter i max_events first_run =>
        match nth_error (o_configs s) i with
        | Some c =>
            match response_of (o_elec s (cf_elec c)) with
            | Ok r => with_writers s (o_writers s ++ [init r max_events first_run []])
            | Err _ => s
            end
        | None => s
        end
    | WriteEvent j data labels i event =>
        match nth_error (o_writers s) j, nth_error (o_configs s) i with
        | Some w, Some c =>
            with_writers s (upd (o_writers s) j (fst (write fexp argsort w data labels (writer_config fexp (view s c)) event)))
        | _, _ => s
        end
    | CloseWriter j =>
        match nth_error (o_writers s) j with
        | Some w => with_writers s (upd (o_writers s) j (fst (close w)))
        | None => s
        end
    end.
  Definition exec (l : list stmt) (s : objs) : objs := fold_left step l s.
End Session.
