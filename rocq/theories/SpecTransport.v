(** SpecTransport.v -- specification vocabulary for the charge transport: the *ledger* of a
    track, i.e. the list of (time bucket, pad, electrons) deposits it should make, defined
    relationally and without the point dictionary. *)
From Coq Require Import ZArith.
From Verif Require Import Base Num Pairing BeamPads Transporter.
Local Open Scope Z_scope.

(** A deposit: time bucket, pad, electrons. *)
Record dep := mkDep { d_tb : Z; d_pad : Z; d_el : Z }.

Section Ledger.
  Context {N : Num} (g : grid) (ge : edges N).

  (** Position [p] is above pad [pad], which is a real pad outside the beam region. *)
  Definition lands (p : N * N) (pad : Z) : Prop :=
    exists ix iy, position_to_index ge p = Ok (ix, iy) /\ ix <> -1 /\ iy <> -1 /\
      grid_get g ix iy = Ok pad /\ pad <> -1 /\ ~ In pad BEAM_PADS.

  (** Position [p] is outside the pad map, above no pad or above a beam pad. *)
  Definition misses (p : N * N) : Prop :=
    exists ix iy, position_to_index ge p = Ok (ix, iy) /\
      (ix = -1 \/ iy = -1 \/
       (ix <> -1 /\ iy <> -1 /\
        exists pad, grid_get g ix iy = Ok pad /\ (pad = -1 \/ In pad BEAM_PADS))).

  (** What one position receives at drift time [time] if [amount a] is what it is due. *)
  Inductive pos_ledger (time : N) (amount : Z -> Prop) (p : N * N) : list dep -> Prop :=
  | PL_miss : misses p -> pos_ledger time amount p []
  | PL_hit pad tb a : lands p pad -> ntoZ time = Some tb -> amount a ->
      pos_ledger time amount p [mkDep tb pad a].

  (** One track row with [e] electrons. *)
  Inductive row_ledger (diffusion efield dv : N) : row N * Z -> list dep -> Prop :=
  | RL_point r e s ds :
      sigma_of diffusion efield dv (r_time r) = Ok s -> neqb s (nofZ 0) = true ->
      pos_ledger (r_time r) (eq e) (r_x r, r_y r) ds ->
      row_ledger diffusion efield dv (r, e) ds
  | RL_mesh r e s dss :
      sigma_of diffusion efield dv (r_time r) = Ok s -> neqb s (nofZ 0) = false ->
      Forall2 (fun px ds => pos_ledger (r_time r)
                 (fun a => pixel_electrons px (r_x r, r_y r) s e = Ok a) px ds)
              (diffusion_mesh (r_x r, r_y r) s) dss ->
      row_ledger diffusion efield dv (r, e) (concat dss).

  (** A whole track: one electron number per row (a longer electron array is allowed). *)
  Definition track_ledger (diffusion efield dv : N) (track : list (row N)) (el : list Z)
      (ds : list dep) : Prop :=
    (length track <= length el)%nat /\
    exists dss, Forall2 (row_ledger diffusion efield dv) (combine track el) dss /\
      ds = concat dss.
End Ledger.

(** Electrons of a ledger that belong to key [k]. *)
Definition due (k : Z) (ds : list dep) : Z :=
  sumZ (map d_el (filter (fun d => pair (d_tb d) (d_pad d) =? k) ds)).

(** Some deposit of the ledger goes to key [k]. *)
Definition touches (k : Z) (ds : list dep) : Prop :=
  exists d, In d ds /\ pair (d_tb d) (d_pad d) = k.

(** Stored electrons / label under a key. *)
Definition charge_at (pts : points) (k : Z) : Z :=
  match pget pts k with Some (c, _) => c | None => 0 end.
Definition label_at (pts : points) (k : Z) : option Z :=
  match pget pts k with Some (_, l) => Some l | None => None end.
Definition total_charge (pts : points) : Z := sumZ (map (fun kv => fst (snd kv)) pts).

(** ** Several nuclei, one after the other (simulator.py 96-101) *)

(** A labelled deposit: the label is the index of the depositing nucleus. *)
Definition ldep := (dep * Z)%type.

(** The label of the last labelled deposit on key [k], [None] if there is none. *)
Fixpoint last_label (k : Z) (lds : list ldep) : option Z :=
  match lds with
  | [] => None
  | (d, l) :: lds' =>
      match last_label k lds' with
      | Some l' => Some l'
      | None => if pair (d_tb d) (d_pad d) =? k then Some l else None
      end
  end.

Section All.
  Context {N : Num} (g : grid) (ge : edges N) (diffusion efield dv : N).

  (** Tracks with their electrons and labels. *)
  Definition ionisation := (list (row N) * list Z * Z)%type.

  (** Transport the nuclei of an event in order into one dictionary. *)
  Definition transport_all (l : list ionisation) (pts : points) : res points :=
    foldM (fun p t => transport_track g ge diffusion efield dv (fst (fst t)) (snd (fst t)) p (snd t))
          l pts.

  (** The labelled ledger of an event: concatenation of the ledgers of its nuclei. *)
  Definition event_ledger (l : list ionisation) (lds : list ldep) : Prop :=
    exists dss, Forall2 (fun t ds => track_ledger g ge diffusion efield dv
                                       (fst (fst t)) (snd (fst t)) ds) l dss /\
      lds = concat (map (fun p => map (fun d => (d, snd (fst p))) (snd p)) (combine l dss)).
End All.
