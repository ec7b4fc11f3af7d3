(** Base.v -- exceptions as values, small list helpers, int64 wrap-around,
    insertion-ordered dictionaries, decimal rendering of integers.
    Stdlib only. *)
From Coq Require Export String Ascii ZArith Bool Lia List.
From Coq Require Import DecimalString DecimalZ Decimal.
Export ListNotations.
Local Open Scope Z_scope.

(** Python exceptions the modelled code can raise, plus [UB]: native undefined
    behaviour of [@njit] code (float-to-int conversion of NaN / out of range,
    unchecked array access out of bounds). *)
Inductive exn :=
| PipelineError | ValueError | KeyError | IndexError | ZeroDivisionError
| FileNotFoundError | ClosedFileError | TypeError | UB.

(** Result of a call: a value or a raised exception. *)
Inductive res (A : Type) := Ok (a : A) | Err (e : exn).
Arguments Ok {A} _. Arguments Err {A} _.

Definition bind {A B} (m : res A) (f : A -> res B) : res B :=
  match m with Ok a => f a | Err e => Err e end.
Notation "'let*' x := m 'in' k" := (bind m (fun x => k))
  (at level 200, x pattern, m at level 100, k at level 200, right associativity).

Definition is_ok {A} (m : res A) : bool := match m with Ok _ => true | Err _ => false end.

(** int64 two's complement wrap-around (numba int64 arithmetic). *)
Definition two63 : Z := 9223372036854775808.
Definition two64 : Z := 18446744073709551616.
Definition wrap64 (z : Z) : Z := (z + two63) mod two64 - two63.
Definition in_int64 (z : Z) : bool := (- two63 <=? z) && (z <? two63).

Lemma wrap64_id z : - two63 <= z < two63 -> wrap64 z = z.
Proof. unfold wrap64, two63, two64. intros H. rewrite Z.mod_small; lia. Qed.

Lemma wrap64_add_l a b : wrap64 (wrap64 a + b) = wrap64 (a + b).
Proof.
  unfold wrap64. f_equal.
  replace ((a + two63) mod two64 - two63 + b + two63)
    with ((a + two63) mod two64 + b) by lia.
  rewrite Zplus_mod_idemp_l. f_equal. lia.
Qed.

Lemma wrap64_range z : - two63 <= wrap64 z < two63.
Proof.
  unfold wrap64. pose proof (Z.mod_pos_bound (z + two63) two64 ltac:(reflexivity)).
  unfold two63, two64 in *. lia.
Qed.

Lemma wrap64_idem z : wrap64 (wrap64 z) = wrap64 z.
Proof. apply wrap64_id, wrap64_range. Qed.

Definition sumZ (l : list Z) : Z := fold_right Z.add 0 l.

Lemma sumZ_app l1 l2 : sumZ (l1 ++ l2) = sumZ l1 + sumZ l2.
Proof. induction l1 as [|x l1 IH]; simpl; [reflexivity|]. unfold sumZ in *. lia. Qed.

Lemma sumZ_cons x l : sumZ (x :: l) = x + sumZ l.
Proof. reflexivity. Qed.

(** A monadic left fold: a Python [for] loop whose body may raise. *)
Fixpoint foldM {A S} (f : S -> A -> res S) (l : list A) (s : S) : res S :=
  match l with
  | [] => Ok s
  | a :: l' => let* s' := f s a in foldM f l' s'
  end.

Lemma foldM_app {A S} (f : S -> A -> res S) l1 l2 s :
  foldM f (l1 ++ l2) s = (let* s' := foldM f l1 s in foldM f l2 s').
Proof.
  revert s; induction l1 as [|a l1 IH]; simpl; intros s; [reflexivity|].
  destruct (f s a) as [s'|e]; simpl; auto.
Qed.

(** Python list/array index [l[i]] with negative wrap and bounds check. *)
Definition py_index {A} (l : list A) (i : Z) : res A :=
  let n := Z.of_nat (length l) in
  let j := if i <? 0 then i + n else i in
  if (0 <=? j) && (j <? n)
  then match nth_error l (Z.to_nat j) with Some a => Ok a | None => Err IndexError end
  else Err IndexError.

(** [l[i] = v] for an index known to be in range (identity otherwise). *)
Fixpoint upd {A} (l : list A) (i : nat) (v : A) : list A :=
  match l, i with
  | [], _ => []
  | _ :: l', O => v :: l'
  | a :: l', S i' => a :: upd l' i' v
  end.

Lemma upd_length {A} (l : list A) i v : length (upd l i v) = length l.
Proof. revert i; induction l as [|a l IH]; intros [|i]; simpl; auto. Qed.

Lemma nth_error_upd_eq {A} (l : list A) i v :
  (i < length l)%nat -> nth_error (upd l i v) i = Some v.
Proof.
  revert i; induction l as [|a l IH]; intros [|i]; simpl; intros H;
    [inversion H|inversion H|reflexivity|apply IH; lia].
Qed.

Lemma nth_error_upd_ne {A} (l : list A) i j v :
  i <> j -> nth_error (upd l i v) j = nth_error l j.
Proof.
  revert i j; induction l as [|a l IH]; intros [|i] [|j]; simpl; intros H; auto; congruence.
Qed.

(** ** Insertion-ordered dictionaries (Python / numba typed dict). *)
Section Dict.
  Context {K V : Type} (eqb : K -> K -> bool).

  Fixpoint dget (d : list (K * V)) (k : K) : option V :=
    match d with
    | [] => None
    | (k', v) :: d' => if eqb k k' then Some v else dget d' k
    end.

  (** Assignment: overwrite in place if present, append otherwise. *)
  Fixpoint dset (d : list (K * V)) (k : K) (v : V) : list (K * V) :=
    match d with
    | [] => [(k, v)]
    | (k', v') :: d' => if eqb k k' then (k', v) :: d' else (k', v') :: dset d' k v
    end.

  Hypothesis eqb_spec : forall a b, eqb a b = true <-> a = b.

  Lemma eqb_refl' a : eqb a a = true. Proof. now apply eqb_spec. Qed.
  Lemma eqb_neq' a b : a <> b -> eqb a b = false.
  Proof. intros H. destruct (eqb a b) eqn:E; [apply eqb_spec in E; congruence|reflexivity]. Qed.

  Lemma dget_dset_eq d k v : dget (dset d k v) k = Some v.
  Proof.
    induction d as [|[k' v'] d IH]; simpl; [now rewrite eqb_refl'|].
    destruct (eqb k k') eqn:E; simpl; rewrite E; auto.
  Qed.

  Lemma dget_dset_ne d k k0 v : k0 <> k -> dget (dset d k v) k0 = dget d k0.
  Proof.
    intros H. induction d as [|[k' v'] d IH]; simpl; [now rewrite eqb_neq'|].
    destruct (eqb k k') eqn:E; simpl.
    - apply eqb_spec in E; subst k'. now rewrite eqb_neq'.
    - destruct (eqb k0 k'); auto.
  Qed.

  Lemma in_keys_dset d k v k0 :
    In k0 (map fst (dset d k v)) <-> k0 = k \/ In k0 (map fst d).
  Proof.
    induction d as [|[k' v'] d IH]; simpl; [intuition|].
    destruct (eqb k k') eqn:E; simpl.
    - apply eqb_spec in E; subst k'. intuition.
    - rewrite IH. intuition.
  Qed.

  Lemma nodup_dset d k v : NoDup (map fst d) -> NoDup (map fst (dset d k v)).
  Proof.
    induction d as [|[k' v'] d IH]; simpl; intros H; [repeat constructor; auto|].
    inversion H as [|? ? Hn Hd]; subst.
    destruct (eqb k k') eqn:E; simpl; [constructor; auto|].
    constructor; [|auto]. rewrite in_keys_dset. intros [->|Hi]; [|auto].
    now rewrite eqb_refl' in E.
  Qed.

  Lemma dget_none d k : dget d k = None <-> ~ In k (map fst d).
  Proof.
    induction d as [|[k' v'] d IH]; simpl; [intuition|].
    destruct (eqb k k') eqn:E.
    - apply eqb_spec in E; subst. intuition discriminate.
    - rewrite IH. split; [|intuition].
      intros H [->|Hi]; [now rewrite eqb_refl' in E|auto].
  Qed.

  Lemma dget_in d k v : dget d k = Some v -> In (k, v) d.
  Proof.
    induction d as [|[k' v'] d IH]; simpl; [discriminate|].
    destruct (eqb k k') eqn:E; [|auto].
    apply eqb_spec in E; subst. intros [= ->]; auto.
  Qed.

  Lemma in_dget d k v : NoDup (map fst d) -> In (k, v) d -> dget d k = Some v.
  Proof.
    induction d as [|[k' v'] d IH]; simpl; intros Hn; [intuition|].
    inversion Hn as [|? ? Hk Hd]; subst.
    intros [[= -> ->]|Hi]; [now rewrite eqb_refl'|].
    rewrite eqb_neq'; auto. intros ->. apply Hk, (in_map fst _ _ Hi).
  Qed.
End Dict.

(** ** Decimal rendering of integers, as in Python's [f"{n}"]. *)
Definition string_of_Z (z : Z) : string := NilZero.string_of_int (Z.to_int z).

Lemma string_of_Z_inj a b : string_of_Z a = string_of_Z b -> a = b.
Proof.
  unfold string_of_Z. intros H.
  assert (Hx : forall z, NilZero.int_of_string (NilZero.string_of_int (Z.to_int z))
                         = Some (Z.to_int z)).
  { intros z. apply NilZero.isi; intros E; destruct z; simpl in E;
      try discriminate; injection E as E;
      now apply DecimalPos.Unsigned.to_uint_nonnil in E. }
  apply (f_equal NilZero.int_of_string) in H. rewrite !Hx in H.
  injection H as H. apply (f_equal Z.of_int) in H.
  now rewrite !DecimalZ.of_to in H.
Qed.

Lemma append_inj_l (p a b : string) : append p a = append p b -> a = b.
Proof. induction p as [|c p IH]; simpl; intros H; [exact H|]. injection H as H; auto. Qed.
