(** P_Parameters.v -- C29 (z and time buckets), C31 (drift velocity), C32 (pad sizes),
    C33 (pad centres). *)
From Coq Require Import ZArith Reals Lia Lra String.
From Flocq Require Import Core BinarySingleNaN.
From Verif Require Import Base F64 F64Bounds Num Transporter Simulator Response Writer Parameters.
Local Open Scope R_scope.

(** ** C31 *)
(** Binary64: the constructor raises exactly for equal edges. *)
Theorem C31_zero_division :
  forall fexp (length : f64) we mm,
  (Z.abs (we - mm) <= 2 ^ 53)%Z ->
  drift_velocity (N := F64 fexp) length we mm = Err ZeroDivisionError <-> we = mm.
Proof.
  intros fexp len we mm H. unfold drift_velocity, pydiv. cbn [neqb nofZ F64].
  rewrite feqb_R by (apply f_of_Z_fin; lia). rewrite !f_of_Z_R by lia.
  destruct (Req_bool_spec (IZR (we - mm)) 0) as [E|E].
  - apply eq_IZR in E. split; [lia|reflexivity].
  - split; [discriminate|]. intros ->. rewrite Z.sub_diag in E. now contradiction E.
Qed.

(** The whole constructor raises ZeroDivisionError whenever the edges are equal, whatever files
    there are. *)
Theorem C31_constructor_zero_division :
  forall fexp tf files res load pg d e p,
  ep_windows_edge e = ep_mm_edge e ->
  make_config fexp tf files res load pg d e p = Err ZeroDivisionError.
Proof.
  intros fexp tf files res load pg d e p H. unfold make_config.
  destruct (C31_zero_division fexp (dp_length d) (ep_windows_edge e) (ep_mm_edge e)) as [_ X].
  - rewrite H, Z.sub_diag. simpl. lia.
  - match goal with |- bind ?m _ = _ => replace m with (@Err (F64 fexp) ZeroDivisionError) by (symmetry; exact (X H)) end.
    reflexivity.
Qed.

(** Exact arithmetic: velocity times the number of buckets is the length. *)
Theorem C31_velocity :
  forall length we mm,
  we <> mm -> exists v, drift_velocity (N := XR) (Some length) we mm = Ok (Some v) /\
    v * IZR (we - mm) = length /\ (0 < length -> (mm < we)%Z -> 0 < v).
Proof.
  intros len we mm H. exists (len / IZR (we - mm)).
  assert (N : IZR (we - mm) <> 0) by (apply IZR_neq; lia).
  unfold drift_velocity, pydiv. cbn [neqb nofZ XR cmp2 ndiv xdiv].
  rewrite (Req_bool_false _ _ N). split; [reflexivity|]. split; [field; exact N|].
  intros L W. apply Rdiv_lt_0_compat; [exact L|]. apply IZR_lt. lia.
Qed.

(** Binary64: the computed velocity is the exact one up to one rounding. *)
Theorem C31_velocity_binary64 :
  forall fexp (length : f64) we mm,
  we <> mm -> (Z.abs (we - mm) <= 2 ^ 53)%Z -> is_finite length = true ->
  exists v : f64, drift_velocity (N := F64 fexp) length we mm = Ok v /\ is_finite v = true /\
    R64 v = rnd64 (R64 length / IZR (we - mm)).
Proof.
  intros fexp len we mm H B F. unfold drift_velocity, pydiv. cbn [neqb nofZ F64 ndiv].
  assert (N : IZR (we - mm) <> 0) by (apply IZR_neq; lia).
  rewrite feqb_R by (apply f_of_Z_fin; lia). rewrite !f_of_Z_R by lia.
  rewrite (Req_bool_false _ _ N). exists (fdiv len (f_of_Z (we - mm))). split; [reflexivity|].
  assert (D : 1 <= Rabs (IZR (we - mm))) by (rewrite <- abs_IZR; apply IZR_le; lia).
  pose proof (Bdiv_correct prec64 emax64 _ _ mode_NE len (f_of_Z (we - mm))) as C. cbn [round_mode] in C.
  rewrite f_of_Z_R in C by lia. specialize (C N).
  assert (LE : Rabs (R64 len / IZR (we - mm)) <= Rabs (R64 len)).
  { unfold Rdiv. rewrite Rabs_mult, Rabs_inv. rewrite <- (Rmult_1_r (Rabs (R64 len))) at 2.
    apply Rmult_le_compat_l; [apply Rabs_pos|]. rewrite <- Rinv_1. apply Rinv_le; lra. }
  assert (LT : Rabs (rnd64 (R64 len / IZR (we - mm))) < bpow radix2 emax64).
  { apply Rle_lt_trans with (Rabs (R64 len)); [|apply abs_B2R_lt_emax].
    rewrite <- round_NE_abs; [|apply fexp64_valid]. apply rnd64_le_fmt; [|exact LE].
    apply generic_format_abs. apply fmt64_R. }
  rewrite Rlt_bool_true in C by exact LT. destruct C as (C1 & C2 & _).
  split; [rewrite <- F; exact C2|exact C1].
Qed.

Example C31_example : drift_velocity (N := XR) (Some 1) 560 60 = Ok (Some (1 / IZR 500)) /\
  560%Z <> 60%Z /\ (Z.abs (560 - 60) <= 2 ^ 53)%Z.
Proof.
  split; [|lia]. unfold drift_velocity, pydiv. cbn [neqb nofZ XR cmp2 ndiv xdiv Z.sub].
  change (560 - 60)%Z with 500%Z. rewrite !Req_bool_false by lra. reflexivity.
Qed.

(** ** C29 (exact arithmetic) *)
Section Times.
  Context (length : R) (we mm : Z).
  Context (Hl : length <> 0) (Hw : we <> mm).
  Notation width := (length / IZR (we - mm)).

  (** The drift velocity the constructor computes. *)
  Lemma dv_ok : drift_velocity (N := XR) (Some length) we mm = Ok (Some width) /\ width <> 0 /\ IZR (we - mm) <> 0.
  Proof.
    assert (N : IZR (we - mm) <> 0) by (apply IZR_neq; lia).
    split; [|split; [|exact N]].
    - unfold drift_velocity, pydiv. cbn [neqb nofZ XR cmp2 ndiv xdiv]. now rewrite (Req_bool_false _ _ N).
    - unfold Rdiv. apply Rmult_integral_contrapositive. split; [exact Hl|now apply Rinv_neq_0_compat].
  Qed.

  Lemma tb_val z : tb_of_z (N := XR) (Some length) (Some width) mm (Some z) =
    Some ((length - z) / width + IZR mm).
  Proof.
    destruct dv_ok as (_ & N & _). unfold tb_of_z. cbn [nadd ndiv nsub nofZ XR lift2 xdiv].
    now rewrite (Req_bool_false _ _ N).
  Qed.

  Lemma z_val tb : (Z.abs (we - mm) < 2 ^ 63)%Z ->
    z_of_tb (N := XR) we mm (Some length) (Some tb) =
    Ok (Some ((IZR we - tb) / IZR (we - mm) * length * 1000)).
  Proof.
    intros B. destruct dv_ok as (_ & _ & N). unfold z_of_tb, njdiv.
    rewrite wrap64_id by (unfold two63; lia).
    cbn [nadd nmul ndiv nsub nofZ neqb XR lift2 xdiv cmp2]. rewrite !(Req_bool_false _ _ N). reflexivity.
  Qed.
End Times.

(** C29: writing back the exact time bucket of z gives z (in mm). *)
Theorem C29_round_trip :
  forall length we mm z dv,
  length <> 0 -> (Z.abs (we - mm) < 2 ^ 63)%Z ->
  drift_velocity (N := XR) (Some length) we mm = Ok dv ->
  z_of_tb (N := XR) we mm (Some length) (tb_of_z (N := XR) (Some length) dv mm (Some z)) =
    Ok (Some (1000 * z)).
Proof.
  intros len we mm z dv Hl B E.
  assert (Hw : we <> mm).
  { intros ->. unfold drift_velocity, pydiv in E. cbn [neqb nofZ XR cmp2] in E.
    rewrite Z.sub_diag, Req_bool_true in E by reflexivity. discriminate. }
  destruct (dv_ok len we mm Hl Hw) as (E' & N1 & N2). rewrite E in E'. injection E' as ->.
  rewrite tb_val, z_val by assumption. do 2 f_equal.
  rewrite minus_IZR in *. field. split; [exact N2|exact Hl].
Qed.

(** C29: the detector corresponds to the buckets between the edges. *)
Theorem C29_range :
  forall length we mm z dv,
  0 < length -> (mm < we)%Z ->
  drift_velocity (N := XR) (Some length) we mm = Ok dv ->
  exists t, tb_of_z (N := XR) (Some length) dv mm (Some z) = Some t /\
    (0 <= z <= length <-> IZR mm <= t <= IZR we) /\
    (forall z' t', tb_of_z (N := XR) (Some length) dv mm (Some z') = Some t' -> z < z' -> t' < t).
Proof.
  intros len we mm z dv Hl Hw E.
  assert (Hl' : len <> 0) by lra. assert (Hw' : we <> mm) by lia.
  destruct (dv_ok len we mm Hl' Hw') as (E' & N1 & N2). rewrite E in E'. injection E' as ->.
  assert (D : 0 < IZR (we - mm)) by (apply IZR_lt; lia).
  assert (W : 0 < len / IZR (we - mm)) by (now apply Rdiv_lt_0_compat).
  rewrite tb_val by assumption. eexists. split; [reflexivity|].
  assert (K : forall y, (len - y) / (len / IZR (we - mm)) = (len - y) * (IZR (we - mm) / len)).
  { intros y. field. split; lra. }
  assert (P : 0 < IZR (we - mm) / len) by (now apply Rdiv_lt_0_compat).
  assert (F : len * (IZR (we - mm) / len) = IZR (we - mm)) by (field; lra).
  split.
  - rewrite K. set (k := IZR (we - mm) / len) in *. rewrite minus_IZR in *. split; intros [A B]; split.
    + assert (0 <= (len - z) * k) by (apply Rmult_le_pos; lra). lra.
    + assert (0 <= z * k) by (apply Rmult_le_pos; lra). lra.
    + destruct (Rle_lt_dec 0 z) as [|L]; auto. assert (0 < - z * k) by (apply Rmult_lt_0_compat; lra). lra.
    + destruct (Rle_lt_dec z len) as [|L]; auto. assert (0 < (z - len) * k) by (apply Rmult_lt_0_compat; lra). lra.
  - intros z' t' E2 L. rewrite tb_val in E2 by assumption. injection E2 as <-.
    rewrite !K. assert (0 < (z' - z) * (IZR (we - mm) / len)) by (apply Rmult_lt_0_compat; lra). lra.
Qed.

(** C29: with the time cut to an integer and smeared by [u] in [0, 1), the written z is off by
    less than one bucket of drift. *)
Theorem C29_truncation_error :
  forall length we mm z dv t u,
  0 < length -> (mm < we)%Z -> (Z.abs (we - mm) < 2 ^ 63)%Z -> (0 <= mm)%Z -> z <= length -> 0 <= u < 1 ->
  drift_velocity (N := XR) (Some length) we mm = Ok dv ->
  tb_of_z (N := XR) (Some length) dv mm (Some z) = Some t ->
  exists zw, z_of_tb (N := XR) we mm (Some length) (Some (IZR (Ztrunc t) + u)) = Ok (Some zw) /\
    Rabs (zw - 1000 * z) < 1000 * (length / IZR (we - mm)).
Proof.
  intros len we mm z dv t u Hl Hw B Hm Hz Hu E Et.
  assert (Hl' : len <> 0) by lra. assert (Hw' : we <> mm) by lia.
  destruct (dv_ok len we mm Hl' Hw') as (E' & N1 & N2). rewrite E in E'. injection E' as ->.
  assert (D : 0 < IZR (we - mm)) by (apply IZR_lt; lia).
  assert (W : 0 < len / IZR (we - mm)) by (now apply Rdiv_lt_0_compat).
  rewrite tb_val in Et by assumption. injection Et as Et.
  rewrite z_val by assumption. eexists. split; [reflexivity|].
  assert (T0 : 0 <= t).
  { rewrite <- Et. assert (0 <= (len - z) / (len / IZR (we - mm))).
    { unfold Rdiv at 1. apply Rmult_le_pos; [lra|]. apply Rlt_le. now apply Rinv_0_lt_compat. }
    apply IZR_le in Hm. lra. }
  assert (TR : IZR (Ztrunc t) <= t < IZR (Ztrunc t) + 1).
  { rewrite Ztrunc_floor by exact T0. split; [apply Zfloor_lb|apply Zfloor_ub]. }
  assert (Q : (IZR we - (IZR (Ztrunc t) + u)) / IZR (we - mm) * len * 1000 - 1000 * z
              = (t - (IZR (Ztrunc t) + u)) * (1000 * (len / IZR (we - mm)))).
  { rewrite <- Et at 2. rewrite minus_IZR in *. field. split; [exact N2|exact Hl']. }
  rewrite Q, Rabs_mult. rewrite (Rabs_pos_eq (1000 * _)) by lra.
  rewrite <- (Rmult_1_l (1000 * (len / IZR (we - mm)))) at 2.
  apply Rmult_lt_compat_r; [lra|]. apply Rabs_def1; lra.
Qed.

(** Example: a detector of 1 m between buckets 60 and 560; z = 0.25 m is bucket 435. *)
Example C29_example : exists dv,
  drift_velocity (N := XR) (Some 1) 560 60 = Ok dv /\
  tb_of_z (N := XR) (Some 1) dv 60 (Some (/ 4)) = Some 435 /\
  z_of_tb (N := XR) 560 60 (Some 1) (Some 435) = Ok (Some 250).
Proof.
  destruct (dv_ok 1 560 60 ltac:(lra) ltac:(lia)) as (E & _ & _). eexists. split; [exact E|]. split.
  - rewrite tb_val by (lra || lia). f_equal. change (560 - 60)%Z with 500%Z. field.
  - rewrite z_val by (lra || lia). do 2 f_equal. change (560 - 60)%Z with 500%Z. field.
Qed.

(** ** C33, C32 *)
Section Files.
  Context (fexp : f64 -> f64) (to_float : string -> option f64).

  (** [float] of entry [k] of a line. *)
  Definition value (l : line) (k : nat) : option f64 :=
    match nth_error l k with Some s => to_float s | None => None end.

  Definition centre_line (l : line) (c : f64 * f64) : Prop :=
    value l 0 = Some (fst c) /\ value l 1 = Some (snd c).

  Lemma entry_value l k x : value l k = Some x -> entry to_float l k = Ok x.
  Proof. unfold value, entry. destruct (nth_error l k); [|discriminate]. now intros ->. Qed.
  Lemma entry_inv l k x : entry to_float l k = Ok x -> value l k = Some x.
  Proof.
    unfold value, entry. destruct (nth_error l k); [|discriminate]. destruct (to_float s); congruence.
  Qed.

  Lemma upd_app {A} (a : list A) x b v : upd (a ++ x :: b) (length a) v = (a ++ v :: b)%list.
  Proof. induction a as [|y a IH]; simpl; [reflexivity|]. now rewrite IH. Qed.

  Lemma fill_centers_ok lines : forall cs a z rest,
    Forall2 centre_line lines cs -> length rest = length lines ->
    fill_centers to_float lines (length a) (a ++ rest ++ z) = Ok (a ++ cs ++ z)%list.
  Proof.
    induction lines as [|l lines IH]; intros cs a z rest F L; inversion F as [|? c ? cs' [V0 V1] F']; subst.
    - destruct rest; [reflexivity|discriminate].
    - destruct rest as [|r rest]; [discriminate|]. simpl app. cbn [fill_centers].
      rewrite (entry_value _ _ _ V0), (entry_value _ _ _ V1). cbn [bind]. unfold set_row.
      assert (LT : forall x, (length a <? length (a ++ x :: rest ++ z))%nat = true).
      { intros x. apply Nat.ltb_lt. rewrite app_length. simpl. lia. }
      rewrite LT. cbn [bind]. rewrite upd_app, LT. cbn [bind]. rewrite upd_app.
      rewrite <- surjective_pairing.
      change (a ++ c :: rest ++ z)%list with (a ++ [c] ++ (rest ++ z))%list. rewrite (app_assoc a).
      replace (S (length a)) with (length (a ++ [c])) by (rewrite app_length; simpl; lia).
      rewrite (IH cs' (a ++ [c])%list z rest) by (auto; simpl in L; lia).
      now rewrite <- app_assoc.
  Qed.

  Lemma fill_centers_long lines : forall i (a : list (f64 * f64)),
    (forall l, In l lines -> exists c, centre_line l c) ->
    (length a < i + length lines)%nat -> (i <= length a)%nat -> fill_centers to_float lines i a = Err IndexError.
  Proof.
    induction lines as [|l lines IH]; intros i a H L Li; [simpl in L; lia|].
    cbn [fill_centers]. destruct (H l (or_introl eq_refl)) as (c & V0 & V1).
    rewrite (entry_value _ _ _ V0), (entry_value _ _ _ V1). cbn [bind]. unfold set_row.
    destruct (i <? length a)%nat eqn:E; [|reflexivity]. apply Nat.ltb_lt in E. cbn [bind].
    rewrite upd_length. apply Nat.ltb_lt in E as E'. rewrite E'. cbn [bind].
    apply IH; rewrite ?upd_length; [intros; apply H; now right|simpl in L; lia|lia].
  Qed.

  Context (files : string -> option text) (resource : string -> text).

  Lemma repeat_split {A} (x : A) n m : (m <= n)%nat -> repeat x n = (repeat x m ++ repeat x (n - m))%list.
  Proof. intros H. rewrite <- repeat_app. f_equal. lia. Qed.

  (** The geometry file the constructor reads: its header and data lines. *)
  Definition geometry (p : pad_params) (header : line) (lines : text) : Prop :=
    if String.eqb (pp_geometry p) DEFAULT then resource "padxy.csv" = header :: lines
    else files (pp_geometry p) = Some (header :: lines).

  (** C33: centre i is data row i; the rest is (0, 0). *)
  Theorem C33_centres :
    forall p header lines cs,
    geometry p header lines -> Forall2 centre_line lines cs -> (length lines <= NUM_PADS)%nat ->
    exists out, load_pad_centers to_float files resource p = Ok out /\ length out = NUM_PADS /\
      (forall i c, nth_error cs i = Some c -> nth_error out i = Some c) /\
      (forall i, (length lines <= i < NUM_PADS)%nat -> nth_error out i = Some (f_of_Z 0, f_of_Z 0)).
  Proof.
    intros p h lines cs G F L.
    assert (Lc : length cs = length lines) by (clear - F; induction F; simpl; congruence).
    pose proof (fill_centers_ok lines cs [] (repeat (f_of_Z 0, f_of_Z 0) (NUM_PADS - length lines))
                  (repeat (f_of_Z 0, f_of_Z 0) (length lines)) F (repeat_length _ _)) as E.
    simpl app in E. rewrite <- repeat_split in E by exact L. cbn [length] in E.
    exists (cs ++ repeat (f_of_Z 0, f_of_Z 0) (NUM_PADS - length lines))%list.
    split; [|split; [|split]].
    - unfold load_pad_centers, geometry, open_text in *. destruct (String.eqb _ _); rewrite G; cbn [tl bind]; exact E.
    - rewrite app_length, repeat_length. lia.
    - intros i c H. rewrite nth_error_app1; auto. apply nth_error_Some. congruence.
    - intros i Hi. rewrite nth_error_app2 by lia. rewrite Lc.
      assert (K : (i - length lines < NUM_PADS - length lines)%nat) by lia.
      revert K. generalize (i - length lines)%nat, (NUM_PADS - length lines)%nat.
      clear. intros i n. revert i. induction n; intros [|i] K; simpl; try lia; auto. apply IHn. lia.
  Qed.

  (** C33: more than 10240 rows raise IndexError. *)
  Theorem C33_too_many_rows :
    forall p header lines,
    geometry p header lines -> (forall l, In l lines -> exists c, centre_line l c) ->
    (NUM_PADS < length lines)%nat ->
    load_pad_centers to_float files resource p = Err IndexError.
  Proof.
    intros p h lines G H L.
    unfold load_pad_centers, geometry, open_text in *.
    destruct (String.eqb _ _); rewrite G; cbn [tl bind]; apply fill_centers_long; auto;
      rewrite repeat_length; lia.
  Qed.

  Lemma fill_sizes_ok lines : forall ss a z rest,
    Forall2 (fun l s => value l 0 = Some s) lines ss -> length rest = length lines ->
    fill_sizes to_float lines (length a) (a ++ rest ++ z) = Ok (a ++ ss ++ z)%list.
  Proof.
    induction lines as [|l lines IH]; intros cs a z rest F L; inversion F as [|? c ? cs' V0 F']; subst.
    - destruct rest; [reflexivity|discriminate].
    - destruct rest as [|r rest]; [discriminate|]. simpl app. cbn [fill_sizes].
      rewrite (entry_value _ _ _ V0). cbn [bind]. unfold set_row.
      assert (LT : forall x, (length a <? length (a ++ x :: rest ++ z))%nat = true).
      { intros x. apply Nat.ltb_lt. rewrite app_length. simpl. lia. }
      rewrite LT. cbn [bind]. rewrite upd_app.
      change (a ++ c :: rest ++ z)%list with (a ++ [c] ++ (rest ++ z))%list. rewrite (app_assoc a).
      replace (S (length a)) with (length (a ++ [c])) by (rewrite app_length; simpl; lia).
      rewrite (IH cs' (a ++ [c])%list z rest) by (auto; simpl in L; lia).
      now rewrite <- app_assoc.
  Qed.

  Lemma sizes_from lines ss : Forall2 (fun l s => value l 0 = Some s) lines ss -> (length lines <= NUM_PADS)%nat ->
    fill_sizes to_float lines 0 (repeat (f_of_Z 0) NUM_PADS) =
      Ok (ss ++ repeat (f_of_Z 0) (NUM_PADS - length lines))%list.
  Proof.
    intros F L.
    pose proof (fill_sizes_ok lines ss [] (repeat (f_of_Z 0) (NUM_PADS - length lines))
                  (repeat (f_of_Z 0) (length lines)) F (repeat_length _ _)) as E.
    simpl app in E. rewrite <- repeat_split in E by exact L. exact E.
  Qed.

  (** C32: with the default path, size i is row i of the packaged pad_scale.csv. *)
  Theorem C32_default_sizes :
    forall p header lines ss,
    pp_size p = DEFAULT -> resource "pad_scale.csv" = header :: lines ->
    Forall2 (fun l s => value l 0 = Some s) lines ss -> (length lines <= NUM_PADS)%nat ->
    exists out, load_pad_sizes to_float files resource p = Ok out /\ length out = NUM_PADS /\
      forall i s, nth_error ss i = Some s -> nth_error out i = Some s.
  Proof.
    intros p h lines ss D R F L. eexists. split; [|split].
    - unfold load_pad_sizes. rewrite D, String.eqb_refl, R. cbn [tl]. exact (sizes_from lines ss F L).
    - assert (Lc : length ss = length lines) by (clear - F; induction F; simpl; congruence).
      rewrite app_length, repeat_length. lia.
    - intros i s H. rewrite nth_error_app1; auto. apply nth_error_Some. congruence.
  Qed.

  (** C32: with a user's path the "sizes" are the first column (x) of the geometry file. *)
  Theorem C32_custom_sizes_are_pad_positions :
    forall p header lines cs,
    pp_size p <> DEFAULT -> pp_geometry p <> DEFAULT ->
    files (pp_geometry p) = Some (header :: lines) ->
    Forall2 centre_line lines cs -> (length lines <= NUM_PADS)%nat ->
    exists sizes centers,
      load_pad_sizes to_float files resource p = Ok sizes /\
      load_pad_centers to_float files resource p = Ok centers /\
      forall i c, nth_error cs i = Some c ->
        nth_error sizes i = Some (fst c) /\ nth_error centers i = Some c.
  Proof.
    intros p h lines cs DS DG Hf F L.
    destruct (C33_centres p h lines cs) as (out & E & _ & G & _); auto.
    { unfold geometry. apply String.eqb_neq in DG. now rewrite DG. }
    eexists _, out. split; [|split; [exact E|]].
    - unfold load_pad_sizes, open_text. apply String.eqb_neq in DS. rewrite DS, Hf. cbn [tl bind].
      apply (sizes_from lines (map fst cs)); [|exact L].
      clear - F. induction F as [|l c lines cs [V _] F IH]; simpl; constructor; auto.
    - intros i c H. split; [|now apply G]. rewrite nth_error_app1.
      + now apply map_nth_error.
      + rewrite map_length. apply nth_error_Some. congruence.
  Qed.

  (** C32: with a user's size path and the default geometry, a file called "Default" is opened. *)
  Theorem C32_custom_sizes_default_geometry :
    forall p, pp_size p <> DEFAULT -> pp_geometry p = DEFAULT -> files DEFAULT = None ->
    load_pad_sizes to_float files resource p = Err FileNotFoundError.
  Proof.
    intros p DS DG Hf. unfold load_pad_sizes, open_text. apply String.eqb_neq in DS. now rewrite DS, DG, Hf.
  Qed.
End Files.

(** C32: the content (or absence) of the user's pad size file has no effect on the configuration. *)
Theorem C32_size_file_is_never_read :
  forall fexp tf files files' res load pg d e p,
  pp_size p <> pp_geometry p -> pp_size p <> DEFAULT ->
  (forall path, path <> pp_size p -> files path = files' path) ->
  make_config fexp tf files res load pg d e p = make_config fexp tf files' res load pg d e p.
Proof.
  intros fexp tf files files' res load pg d e p N D A. unfold make_config, load_pad_centers, load_pad_sizes, open_text.
  now rewrite !(A (pp_geometry p)) by congruence.
Qed.

(** C32: so the promise "size i is row i of the pad size file" fails. *)
Theorem C32_size_file_refuted :
  exists (to_float : string -> option f64) files resource p header l s sizes,
    pp_size p <> DEFAULT /\ files (pp_size p) = Some [header; l] /\ value to_float l 0 = Some s /\
    load_pad_sizes to_float files resource p = Ok sizes /\
    exists s', nth_error sizes 0 = Some s' /\ R64 s' <> R64 s.
Proof.
  set (tf := fun s => if String.eqb s "2.0" then Some (f_of_Z 2) else if String.eqb s "-5.5" then Some (f_of_ZE (-11) (-1)) else None).
  set (fs := fun s => if String.eqb s "sizes.csv" then Some [["scale"]; ["2.0"]]%string
                      else if String.eqb s "geometry.csv" then Some [["x"; "y"]; ["-5.5"; "2.0"]]%string else None).
  set (p := mkPadParams "Default" "geometry.csv" "sizes.csv").
  assert (NP : (1 <= NUM_PADS)%nat).
  { Transparent NUM_PADS. unfold NUM_PADS. apply Nat2Z.inj_le. rewrite Z2Nat.id by lia. simpl. lia. Opaque NUM_PADS. }
  destruct (C32_custom_sizes_are_pad_positions tf fs (fun _ => []) p ["x"; "y"]%string [["-5.5"; "2.0"]%string]
              [(f_of_ZE (-11) (-1), f_of_Z 2)]) as (sizes & cs & E & _ & G).
  - discriminate.
  - discriminate.
  - reflexivity.
  - constructor; [|constructor]. split; reflexivity.
  - simpl. lia.
  - exists tf, fs, (fun _ => []), p, ["scale"]%string, ["2.0"]%string, (f_of_Z 2), sizes.
    split; [discriminate|]. split; [reflexivity|]. split; [reflexivity|]. split; [exact E|].
    exists (f_of_ZE (-11) (-1)). split; [now apply (G 0%nat (f_of_ZE (-11) (-1), f_of_Z 2))|].
    rewrite (f_of_Z_R 2) by lia.
    assert (Sg : Bsign (f_of_ZE (-11) (-1)) = true) by (vm_compute; reflexivity).
    intros X. rewrite Bsign_pos in Sg by lra. discriminate.
Qed.

Example C33_example : exists (to_float : string -> option f64) files resource p header lines cs,
  geometry files resource p header lines /\ Forall2 (centre_line to_float) lines cs /\
  length lines = 2%nat /\ nth_error cs 1 <> nth_error cs 0.
Proof.
  exists (fun s => Some (f_of_Z (Z.of_nat (String.length s)))), (fun _ => None),
    (fun _ => [["x"; "y"]; ["1"; "22"]; ["333"; "4444"]]%string), (mkPadParams "Default" "Default" "Default"),
    ["x"; "y"]%string, [["1"; "22"]; ["333"; "4444"]]%string, [(f_of_Z 1, f_of_Z 2); (f_of_Z 3, f_of_Z 4)].
  split; [reflexivity|]. split; [|split; [reflexivity|]].
  - constructor; [|constructor; [|constructor]]; split; reflexivity.
  - cbn [nth_error]. intros H. apply (f_equal (fun o => match o with Some c => R64 (fst c) | None => 0 end)) in H.
    cbn [fst] in H. rewrite !f_of_Z_R in H by lia. lra.
Qed.

Print Assumptions C29_round_trip.
Print Assumptions C29_range.
Print Assumptions C29_truncation_error.
Print Assumptions C31_zero_division.
Print Assumptions C31_constructor_zero_division.
Print Assumptions C31_velocity.
Print Assumptions C31_velocity_binary64.
Print Assumptions C32_default_sizes.
Print Assumptions C32_custom_sizes_are_pad_positions.
Print Assumptions C32_custom_sizes_default_geometry.
Print Assumptions C32_size_file_is_never_read.
Print Assumptions C32_size_file_refuted.
Print Assumptions C33_centres.
Print Assumptions C33_too_many_rows.

(** C33: the grid is that of the configured file. *)
Theorem C33_grid : forall fexp tf files res load pg d e p c,
  make_config fexp tf files res load pg d e p = Ok c ->
  (pp_grid p = "Default"%string -> pg = Ok (fc_grid fexp c, fc_edges fexp c)) /\
  (pp_grid p <> "Default"%string -> load (pp_grid p) = Ok (fc_grid fexp c, fc_edges fexp c)).
Proof.
  intros fexp tf files res load pg d e p c H. unfold make_config in H.
  destruct (drift_velocity _ _ _) as [dv|]; [|discriminate H]. cbn [bind] in H.
  destruct (load_pad_grid _ _ _ _) as [[g ed]|] eqn:E; [|discriminate H]. cbn [bind] in H.
  destruct (load_pad_centers _ _ _ _) as [cs|]; [|discriminate H]. cbn [bind] in H.
  destruct (load_pad_sizes _ _ _ _) as [ss|]; [|discriminate H]. cbn [bind] in H.
  injection H as <-. cbn [fc_grid fc_edges]. unfold load_pad_grid in E.
  split; intros D.
  - rewrite D in E. exact E.
  - destruct (String.eqb_spec (pp_grid p) DEFAULT) as [Q|_]; [now destruct D|exact E].
Qed.

(** C31: simulation and writer read the user's own settings, and the same edges and length. *)
Theorem C31_settings : forall fexp tf files res load pg d e p c,
  make_config fexp tf files res load pg d e p = Ok c ->
  let s := sim_config fexp c in let w := writer_config fexp c in
  (c_length fexp s, c_efield fexp s, c_diffusion fexp s) = (dp_length d, dp_efield d, dp_diffusion d) /\
  drift_velocity (N := F64 fexp) (dp_length d) (ep_windows_edge e) (ep_mm_edge e) = Ok (c_drift fexp s) /\
  (c_gain fexp s, c_mm_edge fexp s) = (dp_gain d, ep_mm_edge e) /\
  (wc_length w, wc_windows_edge w, wc_mm_edge w, wc_threshold w) =
    (dp_length d, ep_windows_edge e, ep_mm_edge e, ep_threshold e) /\
  load_pad_centers tf files res p = Ok (match wc_centers w with Some l => l | None => [] end) /\
  load_pad_sizes tf files res p = Ok (wc_sizes w).
Proof.
  intros fexp tf files res load pg d e p c H. unfold make_config in H.
  destruct (drift_velocity _ _ _) as [dv|]; [|discriminate H]. cbn [bind] in H.
  destruct (load_pad_grid _ _ _ _) as [[g ed]|]; [|discriminate H]. cbn [bind] in H.
  destruct (load_pad_centers _ _ _ _) as [cs|]; [|discriminate H]. cbn [bind] in H.
  destruct (load_pad_sizes _ _ _ _) as [ss|]; [|discriminate H]. cbn [bind] in H.
  injection H as <-. repeat split.
Qed.
