(** SpecSim.v -- specification vocabulary for [simulate]: which nuclei are transported with
    which electrons, what a pad collects, and what a random draw is. *)
From Coq Require Import ZArith Reals.
From Flocq Require Import Core BinarySingleNaN.
From Verif Require Import Base F64 Num Transporter SpecTransport Simulator.
Local Open Scope Z_scope.

(** Electrons deposited on pad [pad] in time bucket [tb]. *)
Definition collected (tb pad : Z) (lds : list ldep) : Z :=
  sumZ (map (fun dl => d_el (fst dl))
            (filter (fun dl => (d_tb (fst dl) =? tb) && (d_pad (fst dl) =? pad)) lds)).

(** [l] is the label of the last deposit on that pad and bucket. *)
Definition last_on (tb pad : Z) (lds : list ldep) (l : Z) : Prop :=
  exists before d after, lds = before ++ (d, l) :: after /\ d_tb d = tb /\ d_pad d = pad /\
    forall d' l', In (d', l') after -> ~ (d_tb d' = tb /\ d_pad d' = pad).

(** A number in [0, 1). *)
Definition unit_draw (u : f64) : Prop := is_finite u = true /\ (0 <= R64 u < 1)%R.

Section Spec.
  Context (fexp : f64 -> f64) {G Nuc Mom Vtx Vel : Type}.
  Notation config := (config fexp).
  Notation traj := (@traj Vel).
  Context (get_data : Z -> Z -> res Nuc)
    (generate_trajectory : Vtx -> Mom -> Nuc -> config -> res (list traj))
    (generate_electrons : list traj -> Nuc -> config -> G -> list Z * G).
  Context (momenta : list Mom) (vertex : Vtx) (zs ms : list Z) (c : config).

  (** Track rows that made at least one electron, with that number. *)
  Definition ionising (track : list traj) (els : list Z) : list (traj * Z) :=
    filter (fun te => 1 <=? snd te) (combine track els).

  (** What a nucleus with this track sends to the pads: position and drift time of every
      ionising row, and its electrons times the gas gain (int64). *)
  Definition ionises (label : Z) (track : list traj) (els : list Z) : @ionisation (F64 fexp) :=
    (map (fun te => to_row fexp c (fst te)) (ionising track els),
     map (fun te => wrap64 (snd te * c_gain fexp c)) (ionising track els), label).

  (** The nuclei [indices] of an event, in order, starting with generator state [g]: those with
      proton number zero are passed over, the others have a table entry, a trajectory and
      drawn electrons. *)
  Inductive tracks : list Z -> G -> list (@ionisation (F64 fexp)) -> G -> Prop :=
  | T_nil g : tracks [] g [] g
  | T_neutral i rest g l g' : py_index zs i = Ok 0 ->
      tracks rest g l g' -> tracks (i :: rest) g l g'
  | T_charged i rest g z a nuc p track els g1 l g' :
      py_index zs i = Ok z -> z <> 0 -> py_index ms i = Ok a -> get_data z a = Ok nuc ->
      py_index momenta i = Ok p -> generate_trajectory vertex p nuc c = Ok track ->
      generate_electrons track nuc c g = (els, g1) -> length els = length track ->
      tracks rest g1 l g' -> tracks (i :: rest) g (ionises i track els :: l) g'.
End Spec.

(** What a point of the cloud must be: cell (tb, pad) was hit, the point carries the pad, the
    bucket plus a draw in [0,1), all charge of the cell, and the label of the last deposit. *)
Definition is_point_of (lds : list ldep) (cell : Z * Z * f64) (p : point) (l : Z) : Prop :=
  let '(tb, pad, u) := cell in
  unit_draw u /\
  p = mkPoint (f_of_Z pad) (fadd (f_of_Z tb) u) (f_of_Z (wrap64 (collected tb pad lds))) /\
  last_on tb pad lds l.

(** [rng.uniform(low=0, high=1, size=n)] delivers n numbers in [0,1). *)
Definition draws_ok {G} (uniform : nat -> G -> list f64 * G) : Prop :=
  forall n g, length (fst (uniform n g)) = n /\ Forall unit_draw (fst (uniform n g)).

(** All drift times below 2^26 buckets (they are, by a factor of a million, unless the drift
    velocity is absurd); negative and non-finite times are allowed. *)
Definition near {Nuc Mom Vtx Vel : Type} (fexp : f64 -> f64)
    (generate_trajectory : Vtx -> Mom -> Nuc -> config fexp -> res (list (@traj Vel)))
    (momenta : list Mom) (vertex : Vtx) (c : config fexp) : Prop :=
  forall p nuc track t tb, In p momenta -> generate_trajectory vertex p nuc c = Ok track ->
    In t track -> f_to_Z (drift_time fexp c (t_z t)) = Some tb -> tb < 2 ^ 26.
