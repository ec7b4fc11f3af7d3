(** P_Names.v -- C22 and C49: the literal names under which a user finds the data. *)
From Coq Require Import ZArith String Lia.
From Verif Require Import Base F64 Simulator KinFile SpecRun SpecKinFile P_KinFile Writer SpecWriter WriterProofs P_Writer.
Local Open Scope string_scope.
Local Open Scope Z_scope.
Local Open Scope list_scope.

Lemma substring_all s : substring 0 (String.length s) s = s.
Proof. induction s as [|a s IH]; [reflexivity|]. cbn [String.length substring]. now rewrite IH. Qed.
Lemma append_length' a b : String.length (append a b) = (String.length a + String.length b)%nat.
Proof. induction a as [|x a IH]; [reflexivity|]. cbn [append String.length]. now rewrite IH. Qed.

Lemma pad_zero_spec s :
  pad_zero 4 s = append (substring 0 (4 - String.length s) "0000") s.
Proof.
  now destruct s as [|a [|b [|c [|d s]]]].
Qed.

(** C22: run n (not negative) is in the file run_nnnn.h5: at least four digits, filled with zeros. *)
Theorem C22_run_file_names : forall n, 0 <= n ->
  let digits := string_of_Z n in
  run_name n = append "run_" (append (append (substring 0 (4 - String.length digits) "0000") digits) ".h5").
Proof.
  intros n H digits. unfold run_name, format04. destruct (Z.ltb_spec n 0); [lia|].
  rewrite pad_zero_spec. reflexivity.
Qed.

Example C22_run_file_examples :
  map run_name [0; 7; 45; 999; 12345] =
  ["run_0000.h5"; "run_0007.h5"; "run_0045.h5"; "run_0999.h5"; "run_12345.h5"]%string.
Proof. reflexivity. Qed.

Section Kinematics.
  Context {V P : Type} (run : P -> res (@vertex V * list (mom4 V)) * P) (zs ms : list Z) (cs : Z).

  (** C49: where a user of the file finds event e: in the data set event_e of the group chunk_c with
      c = e // chunk_size, one row (px, py, pz, E) per nucleus, the vertex in three attributes. *)
  Theorem C49_paths n p d e : 1 <= cs -> 0 <= e < n ->
    run_kinematics_pipeline run zs ms cs n p = (d, Ok tt) ->
    exists evs p' x y z rows g ds,
      produced run p evs p' /\ nth_error evs (Z.to_nat e) = Some ((x, y, z), rows) /\
      dget String.eqb (dg_groups d) (append "chunk_" (string_of_Z (e / cs))) = Some g /\
      dget String.eqb (gp_sets g) (append "event_" (string_of_Z e)) = Some ds /\
      ds_rows ds = rows /\
      dget String.eqb (ds_attrs ds) "vertex_x" = Some (AReal x) /\
      dget String.eqb (ds_attrs ds) "vertex_y" = Some (AReal y) /\
      dget String.eqb (ds_attrs ds) "vertex_z" = Some (AReal z) /\
      dget String.eqb (dg_attrs d) "n_events" = Some (AInt n) /\
      dget String.eqb (dg_attrs d) "chunk_size" = Some (AInt cs) /\
      dget String.eqb (dg_attrs d) "proton_numbers" = Some (AInts zs) /\
      dget String.eqb (dg_attrs d) "mass_numbers" = Some (AInts ms).
  Proof.
    intros Hcs He R. apply C49_finished in R; [|exact Hcs|lia]. destruct R as (evs & p' & Pr & L & ->).
    destruct (nth_error evs (Z.to_nat e)) as [[[[x y] z] rows]|] eqn:N; [|apply nth_error_None in N; lia].
    assert (RE := N). apply (C50_read_back zs ms cs Hcs evs e (x, y, z) rows) in RE; [|lia].
    unfold read_event, lookup in RE.
    destruct (dget String.eqb (dg_groups (finished_file zs ms cs evs)) (chunk_name (e / cs))) as [g|] eqn:G; [|discriminate].
    cbn [bind] in RE.
    destruct (dget String.eqb (gp_sets g) (event_name e)) as [ds|] eqn:D; [|discriminate]. cbn [bind] in RE.
    unfold get_real, lookup in RE.
    destruct (dget String.eqb (ds_attrs ds) "vertex_x") as [[| |vx]|] eqn:X; try discriminate. cbn [bind] in RE.
    destruct (dget String.eqb (ds_attrs ds) "vertex_y") as [[| |vy]|] eqn:Y; try discriminate. cbn [bind] in RE.
    destruct (dget String.eqb (ds_attrs ds) "vertex_z") as [[| |vz]|] eqn:Z; try discriminate. cbn [bind] in RE.
    exists evs, p', x, y, z, rows, g, ds. split; [exact Pr|]. split; [exact N|]. split; [exact G|]. split; [exact D|].
    assert (ds_rows ds = rows /\ vx = x /\ vy = y /\ vz = z) as (-> & -> & -> & ->) by (repeat split; congruence).
    unfold finished_file. rewrite L. cbn [dg_attrs header app].
    repeat (split; [first [assumption|reflexivity]|]). reflexivity.
  Qed.
End Kinematics.

(** C22: the user guide says that the labels of event e are called label_e; they are not. *)
Theorem C22_documented_label_name_refuted : forall fexp, exists calls w h,
  do_writes fexp ex_sort (init [] 2 7 []) calls = (w, Ok tt) /\
  get_file (w_disk w) "run_0007.h5" = Some h /\
  dget String.eqb (wf_sets h) "cloud_3" <> None /\
  dget String.eqb (wf_sets h) "labels_3" = Some (WLabels []) /\
  dget String.eqb (wf_sets h) "label_3" = None.
Proof.
  intros fexp. exists [ex_call 3]. do 2 eexists. split; [reflexivity|]. split; [reflexivity|].
  split; [discriminate|]. split; reflexivity.
Qed.

Print Assumptions C22_run_file_names.
Print Assumptions C22_documented_label_name_refuted.
Print Assumptions C49_paths.
