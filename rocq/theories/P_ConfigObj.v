(** P_ConfigObj.v -- C79: a Config after assignments to the parameters it was made of. *)
From Coq Require Import ZArith Reals Lra Lia List Arith.
From Flocq Require Import Core.
From Verif Require Import Base F64 Num Parameters Transporter Simulator Response Writer P_Parameters ConfigObj.
Import ListNotations.
Local Open Scope R_scope.

(** ** Specification *)
(** Statement [s], executed with the objects [h], computes the drift velocity of Config number [i]. *)
Definition calculates (h : heap) (s : stmt) (i : nat) (d e : nat) : Prop :=
  h_we h e <> h_mm h e /\
  ((s = NewConfig d e /\ i = length (h_configs h)) \/
   (s = Recalculate i /\ exists v, nth_error (h_configs h) i = Some (mkCobj d e v))).
(** Statement [s] leaves the parameter objects [d] and [e] alone. *)
Definition leaves (d e : nat) (s : stmt) : Prop :=
  match s with
  | SetLength d' _ => d' <> d
  | SetWindows e' _ | SetMicromegas e' _ => e' <> e
  | _ => True
  end.
(** Length of one time bucket, and the z of an electron as the user finds it, in mm. *)
Definition bucket (h : heap) (d e : nat) : R := h_length h d / IZR (h_we h e - h_mm h e).

(** ** Proofs *)
Lemma velocity_ok h d e : h_we h e <> h_mm h e -> velocity_now h d e = Ok (Some (bucket h d e)).
Proof.
  intros N. assert (M : IZR (h_we h e - h_mm h e) <> 0) by (apply IZR_neq; lia).
  unfold velocity_now, bucket, drift_velocity, pydiv. cbn [neqb nofZ XR cmp2 ndiv xdiv].
  now rewrite (Req_bool_false _ _ M).
Qed.
Lemma calculated h s i d e : calculates h s i d e ->
  nth_error (h_configs (step h s)) i = Some (mkCobj d e (Some (bucket h d e))) /\
  h_length (step h s) = h_length h /\ h_we (step h s) = h_we h /\ h_mm (step h s) = h_mm h.
Proof.
  intros (N & [[-> ->]|[-> (v & E)]]); cbn [step].
  - rewrite velocity_ok by exact N. cbn [h_configs h_length h_we h_mm]. rewrite nth_error_app2, Nat.sub_diag by lia.
    repeat split; reflexivity.
  - rewrite E. cbn [co_det co_elec]. rewrite velocity_ok by exact N. cbn [h_configs h_length h_we h_mm].
    rewrite nth_error_upd_eq by (apply nth_error_Some; now rewrite E). repeat split; reflexivity.
Qed.
(** Other statements keep a Config. *)
Lemma kept s h i c : s <> Recalculate i -> nth_error (h_configs h) i = Some c -> nth_error (h_configs (step h s)) i = Some c.
Proof.
  intros N E. destruct s as [d x|e n|e n|d e|j]; cbn [step]; try exact E.
  - destruct (velocity_now h d e); [|exact E]. cbn [h_configs].
    rewrite nth_error_app1; [exact E|apply nth_error_Some; now rewrite E].
  - destruct (nth_error (h_configs h) j) as [c'|]; [|exact E].
    destruct (velocity_now h _ _); [|exact E]. cbn [h_configs]. rewrite nth_error_upd_ne; [exact E|congruence].
Qed.
Lemma kept_all l : forall h i c, ~ In (Recalculate i) l -> nth_error (h_configs h) i = Some c ->
  nth_error (h_configs (exec l h)) i = Some c.
Proof.
  induction l as [|s l IH]; intros h i c N E; [exact E|]. cbn [exec fold_left]. apply IH.
  - intros I. apply N. now right.
  - apply kept; [|exact E]. intros ->. apply N. now left.
Qed.
(** What the writer stores with a velocity that need not belong to the parameters. *)
Lemma stored_formula h d e v z : v <> 0 -> (Z.abs (h_we h e - h_mm h e) < 2 ^ 63)%Z -> h_we h e <> h_mm h e ->
  stored_z h (mkCobj d e (Some v)) z
    = Ok (Some (1000 * (h_length h d - (h_length h d - z) * (bucket h d e / v)))).
Proof.
  intros V B N. assert (M : IZR (h_we h e - h_mm h e) <> 0) by (apply IZR_neq; lia).
  unfold stored_z, tb_of_z, z_of_tb, njdiv. cbn [co_det co_elec co_drift].
  rewrite wrap64_id by (unfold two63; lia).
  cbn [nadd nmul ndiv nsub nofZ neqb XR lift2 xdiv cmp2]. rewrite (Req_bool_false _ _ V), (Req_bool_false _ _ M).
  cbn [lift2 bind]. do 2 f_equal. cbn [lift2 xdiv]. rewrite ?(Req_bool_false _ _ M). cbn [lift2]. f_equal. unfold bucket. rewrite minus_IZR in *. field. split; assumption.
Qed.

Section Stale.
  Context (pre post : list stmt) (s : stmt) (h0 : heap) (i d e : nat).
  Let h1 := exec pre h0.
  Let h2 := exec (pre ++ s :: post) h0.
  Context (Calc : calculates h1 s i d e) (Length : h_length h1 d <> 0).
  Context (Now : h_we h2 e <> h_mm h2 e) (Range : (Z.abs (h_we h2 e - h_mm h2 e) < 2 ^ 63)%Z).

  Lemma h2_eq : h2 = exec post (step h1 s).
  Proof. unfold h2, exec. rewrite fold_left_app. reflexivity. Qed.
  Lemma bucket1 : bucket h1 d e <> 0.
  Proof using Calc Length.
    destruct Calc as [N _]. assert (M : IZR (h_we h1 e - h_mm h1 e) <> 0) by (apply IZR_neq; clear - N; lia).
    unfold bucket, Rdiv. apply Rmult_integral_contrapositive. split; [exact Length|now apply Rinv_neq_0_compat].
  Qed.

  (** C79: when the velocity of a Config was last calculated before some further statements, an
      electron set free at z is stored at L - (L - z) * b / b1, where L and b are the length and the
      bucket length now, and b1 is the bucket length at the time of that calculation. *)
  Theorem C79_stored : ~ In (Recalculate i) post ->
    exists c, nth_error (h_configs h2) i = Some c /\ co_det c = d /\ co_elec c = e /\
      forall z, stored_z h2 c z = Ok (Some (1000 * (h_length h2 d - (h_length h2 d - z) * (bucket h2 d e / bucket h1 d e)))).
  Proof using Calc Length Now Range.
    intros N. destruct (calculated _ _ _ _ _ Calc) as (E & _).
    exists (mkCobj d e (Some (bucket h1 d e))). split; [rewrite h2_eq; now apply kept_all|]. split; [reflexivity|]. split; [reflexivity|].
    intros z. apply stored_formula; [exact bucket1|exact Range|exact Now].
  Qed.

  (** C79: so positions come out right if and only if the bucket length is what it was. *)
  Theorem C79_right_iff : ~ In (Recalculate i) post ->
    exists c, nth_error (h_configs h2) i = Some c /\
      ((forall z, stored_z h2 c z = Ok (Some (1000 * z))) <-> bucket h2 d e = bucket h1 d e).
  Proof using Calc Length Now Range.
    intros N. destruct (C79_stored N) as (c & E & _ & _ & S). exists c. split; [exact E|].
    pose proof bucket1 as B. split.
    - intros A. specialize (A (h_length h2 d - 1)). rewrite S in A.
      assert (Q : 1000 * (h_length h2 d - (h_length h2 d - (h_length h2 d - 1)) * (bucket h2 d e / bucket h1 d e))
                  = 1000 * (h_length h2 d - 1)) by (injection A; auto).
      assert (K : bucket h2 d e / bucket h1 d e = 1) by lra.
      apply (f_equal (fun x => x * bucket h1 d e)) in K. unfold Rdiv in K.
      rewrite Rmult_assoc, Rinv_l in K by exact B. lra.
    - intros Q z. rewrite S, Q. do 2 f_equal. field. exact B.
  Qed.

  (** C79: in particular as long as nobody assigns to the parameters of the Config after the last
      calculation, whatever else is done, repeated calculations included. *)
  Theorem C79_untouched : Forall (leaves d e) post ->
    exists c, nth_error (h_configs h2) i = Some c /\ forall z, stored_z h2 c z = Ok (Some (1000 * z)).
  Proof using Calc Length Range.
    clear Now. intros F. destruct (calculated _ _ _ _ _ Calc) as (E & EL & EW & EM). destruct Calc as [N _].
    assert (K : forall l h, Forall (leaves d e) l -> h_length h d = h_length h1 d -> h_we h e = h_we h1 e -> h_mm h e = h_mm h1 e ->
      nth_error (h_configs h) i = Some (mkCobj d e (Some (bucket h1 d e))) ->
      let h' := exec l h in
      h_length h' d = h_length h1 d /\ h_we h' e = h_we h1 e /\ h_mm h' e = h_mm h1 e /\
      nth_error (h_configs h') i = Some (mkCobj d e (Some (bucket h1 d e)))).
    { clear - N. induction l as [|x l IH]; intros h F A B C D; [now repeat split|].
      inversion F as [|? ? Fx Fl]; subst. cbn [exec fold_left]. apply IH; [exact Fl| | | |].
      - destruct x as [d' y|e' n|e' n|d' e'|j]; cbn [step leaves] in *; try exact A.
        + cbn [h_length]. unfold set. destruct (Nat.eqb_spec d d'); [congruence|exact A].
        + destruct (velocity_now h d' e'); exact A.
        + destruct (nth_error (h_configs h) j); [|exact A]. destruct (velocity_now h _ _); exact A.
      - destruct x as [d' y|e' n|e' n|d' e'|j]; cbn [step leaves] in *; try exact B.
        + cbn [h_we]. unfold set. destruct (Nat.eqb_spec e e'); [congruence|exact B].
        + destruct (velocity_now h d' e'); exact B.
        + destruct (nth_error (h_configs h) j); [|exact B]. destruct (velocity_now h _ _); exact B.
      - destruct x as [d' y|e' n|e' n|d' e'|j]; cbn [step leaves] in *; try exact C.
        + cbn [h_mm]. unfold set. destruct (Nat.eqb_spec e e'); [congruence|exact C].
        + destruct (velocity_now h d' e'); exact C.
        + destruct (nth_error (h_configs h) j); [|exact C]. destruct (velocity_now h _ _); exact C.
      - destruct (Nat.eq_dec (match x with Recalculate j => j | _ => S i end) i) as [Q|Q].
        + destruct x as [d' y|e' n|e' n|d' e'|j]; try (exfalso; lia). subst j. cbn [step]. rewrite D. cbn [co_det co_elec].
          assert (VN : velocity_now h d e = Ok (Some (bucket h1 d e))).
          { rewrite velocity_ok by congruence. unfold bucket. now rewrite A, B, C. }
          rewrite VN. cbn [h_configs]. apply nth_error_upd_eq. apply nth_error_Some. now rewrite D.
        + apply kept; [|exact D]. intros ->. now apply Q. }
    destruct (K post (step h1 s) F) as (A & B & C & D); [now rewrite EL|now rewrite EW|now rewrite EM|exact E|].
    rewrite <- h2_eq in A, B, C, D. exists (mkCobj d e (Some (bucket h1 d e))). split; [exact D|]. intros z.
    rewrite stored_formula; [|exact bucket1|exact Range|congruence].
    assert (Q : bucket h2 d e = bucket h1 d e) by (unfold bucket; now rewrite A, B, C).
    rewrite Q. do 2 f_equal. field. exact bucket1.
  Qed.
End Stale.

(** ** Witnesses: a detector of 1 m between buckets 60 and 560. *)
Definition fresh : heap := mkHeap (fun _ => 1) (fun _ => 560%Z) (fun _ => 60%Z) [].
Lemma fresh_calc : calculates fresh (NewConfig 0 0) 0 0 0.
Proof. split; [cbn; lia|left; split; reflexivity]. Qed.

Ltac edges := destruct (calculated _ _ _ _ _ fresh_calc) as (_ & EL & EW & EM); cbn [app exec fold_left];
  remember (step fresh (NewConfig 0 0)) as k; cbn [step h_we h_mm h_length]; unfold set; cbn [Nat.eqb];
  rewrite ?EW, ?EM; cbn [fresh h_we h_mm h_length]; lia.

(** C79: "a Config describes the parameters it refers to" is false: after params.length = 0.5 the
    window (z = 0) is stored at 250 mm; calculate_drift_velocity puts that right. *)
Theorem C79_stale_refuted : exists script c,
  nth_error (h_configs (exec script fresh)) 0 = Some c /\
  stored_z (exec script fresh) c 0 = Ok (Some 250) /\
  exists c', nth_error (h_configs (exec (script ++ [Recalculate 0]) fresh)) 0 = Some c' /\
    stored_z (exec (script ++ [Recalculate 0]) fresh) c' 0 = Ok (Some 0).
Proof.
  exists [NewConfig 0 0; SetLength 0 (1 / 2)].
  destruct (C79_stored [] [SetLength 0 (1 / 2)] (NewConfig 0 0) fresh 0 0 0 fresh_calc) as (c & E & _ & _ & S);
    [cbn; lra|edges|edges|intros [Q|[]]; discriminate Q|].
  exists c. split; [exact E|]. split.
  - etransitivity; [exact (S 0)|]. unfold bucket.
    assert (Q : exec ([] ++ NewConfig 0 0 :: [SetLength 0 (1 / 2)]) fresh = exec [SetLength 0 (1 / 2)] (step fresh (NewConfig 0 0))) by reflexivity.
    rewrite Q. destruct (calculated _ _ _ _ _ fresh_calc) as (_ & EL & EW & EM).
    cbn [exec fold_left]. cbn [step h_length h_we h_mm set Nat.eqb] in *. rewrite EW, EM. unfold set. cbn [Nat.eqb fresh h_we h_mm h_length].
    change (560 - 60)%Z with 500%Z. do 2 f_equal. field.
  - destruct (C79_untouched [NewConfig 0 0; SetLength 0 (1 / 2)] [] (Recalculate 0) fresh 0 0 0) as (c' & E' & S').
    + assert (W : h_we (exec [NewConfig 0 0; SetLength 0 (1 / 2)] fresh) 0 <> h_mm (exec [NewConfig 0 0; SetLength 0 (1 / 2)] fresh) 0).
      { destruct (calculated _ _ _ _ _ fresh_calc) as (_ & EL & EW & EM). cbn [exec fold_left].
        remember (step fresh (NewConfig 0 0)) as k eqn:Ek. cbn [step h_we h_mm]. rewrite EW, EM. cbn. lia. }
      split; [exact W|]. right. split; [reflexivity|].
      exists (Some (bucket fresh 0 0)). apply (kept_all [SetLength 0 (1 / 2)] (step fresh (NewConfig 0 0))).
      * intros [Q|[]]; discriminate Q.
      * apply (calculated _ _ _ _ _ fresh_calc).
    + cbn [exec fold_left]. remember (step fresh (NewConfig 0 0)) as k. cbn [step h_length]. unfold set. cbn [Nat.eqb]. lra.
    + destruct (calculated _ _ _ _ _ fresh_calc) as (_ & EL & EW & EM).
      cbn [app exec fold_left]. remember (step fresh (NewConfig 0 0)) as k. cbn [step h_length h_we h_mm h_configs].
      match goal with |- context [nth_error ?l ?i] => destruct (nth_error l i) as [c'|] end;
        [match goal with |- context [velocity_now ?a ?b ?c] => destruct (velocity_now a b c) end|]; cbn [h_we h_mm]; rewrite EW, EM; cbn; lia.
    + constructor.
    + exists c'. split; [exact E'|]. specialize (S' 0). rewrite Rmult_0_r in S'. exact S'.
Qed.

(** C79: two Configs made of the same parameter object share it: an assignment and a calculation
    meant for the first leave the second with wrong positions. *)
Theorem C79_shared_refuted : exists c0 c1,
  let h := exec [NewConfig 0 0; NewConfig 0 0; SetLength 0 (1 / 2); Recalculate 0] fresh in
  nth_error (h_configs h) 0 = Some c0 /\ nth_error (h_configs h) 1 = Some c1 /\
  stored_z h c0 0 = Ok (Some 0) /\ stored_z h c1 0 = Ok (Some 250).
Proof.
  cbv zeta.
  set (h := exec [NewConfig 0 0; NewConfig 0 0; SetLength 0 (1 / 2); Recalculate 0] fresh).
  assert (V1 : velocity_now fresh 0 0 = Ok (Some (1 / 500))).
  { rewrite velocity_ok by (cbn; lia). unfold bucket, fresh. cbn [h_length h_we h_mm]. change (560 - 60)%Z with 500%Z. reflexivity. }
  set (k1 := mkHeap (fun _ => 1) (fun _ => 560%Z) (fun _ => 60%Z) [mkCobj 0 0 (Some (1 / 500))]).
  set (k2 := mkHeap (fun _ => 1) (fun _ => 560%Z) (fun _ => 60%Z) [mkCobj 0 0 (Some (1 / 500)); mkCobj 0 0 (Some (1 / 500))]).
  set (k3 := mkHeap (set (fun _ => 1) 0%nat (1 / 2)) (fun _ => 560%Z) (fun _ => 60%Z) [mkCobj 0 0 (Some (1 / 500)); mkCobj 0 0 (Some (1 / 500))]).
  set (k4 := mkHeap (set (fun _ => 1) 0%nat (1 / 2)) (fun _ => 560%Z) (fun _ => 60%Z) [mkCobj 0 0 (Some (1 / 2 / 500)); mkCobj 0 0 (Some (1 / 500))]).
  assert (V3 : velocity_now k3 0 0 = Ok (Some (1 / 2 / 500))).
  { rewrite velocity_ok by (cbn; lia). unfold bucket, k3. cbn [h_length h_we h_mm]. unfold set. cbn [Nat.eqb].
    change (560 - 60)%Z with 500%Z. reflexivity. }
  assert (E : h = k4).
  { unfold h. cbn [exec fold_left].
    assert (E1 : step fresh (NewConfig 0 0) = k1) by (cbn [step]; rewrite V1; reflexivity).
    assert (E2 : step k1 (NewConfig 0 0) = k2) by (cbn [step]; change (velocity_now k1 0 0) with (velocity_now fresh 0 0); rewrite V1; reflexivity).
    assert (E3 : step k2 (SetLength 0 (1 / 2)) = k3) by reflexivity.
    rewrite E1, E2, E3. cbn [step k3 h_configs nth_error co_det co_elec]. fold k3. rewrite V3. reflexivity. }
  rewrite E. exists (mkCobj 0 0 (Some (1 / 2 / 500))), (mkCobj 0 0 (Some (1 / 500))).
  split; [reflexivity|]. split; [reflexivity|].
  split; (rewrite stored_formula; [|lra|cbn; lia|cbn; lia]; unfold bucket, k4; cbn [h_length h_we h_mm]; unfold set; cbn [Nat.eqb];
    change (560 - 60)%Z with 500%Z; do 2 f_equal; field).
Qed.

(** Example: moving both edges by the same number of buckets keeps positions right. *)
Example C79_example : exists c,
  let h := exec [NewConfig 0 0; SetWindows 0 570; SetMicromegas 0 70] fresh in
  nth_error (h_configs h) 0 = Some c /\ forall z, stored_z h c z = Ok (Some (1000 * z)).
Proof.
  cbv zeta.
  destruct (C79_right_iff [] [SetWindows 0 570; SetMicromegas 0 70] (NewConfig 0 0) fresh 0 0 0 fresh_calc) as (c & E & I);
    [cbn; lra|edges|edges|intros [Q|[Q|[]]]; discriminate Q|].
  exists c. split; [exact E|]. apply I. unfold bucket. destruct (calculated _ _ _ _ _ fresh_calc) as (_ & EL & EW & EM).
  cbn [app exec fold_left]. remember (step fresh (NewConfig 0 0)) as k. cbn [step h_we h_mm h_length]. unfold set. cbn [Nat.eqb].
  rewrite EL. cbn [fresh h_length h_we h_mm]. reflexivity.
Qed.

Print Assumptions C79_stored.
Print Assumptions C79_right_iff.
Print Assumptions C79_untouched.
Print Assumptions C79_stale_refuted.
Print Assumptions C79_shared_refuted.
