(** PositionProofs.v -- [position_to_index] in binary64 with the packaged grid edges. *)
From Coq Require Import ZArith Reals Lia Lra.
From Flocq Require Import Core BinarySingleNaN.
From Verif Require Import Base F64 Num Transporter.
Local Open Scope Z_scope.

(** The [edges] array of the packaged /repo/src/attpc_engine/detector/data/pad_grid.npz:
    [-280.0, 279.0, 0.1] (binary64; 0.1 is the correctly rounded quotient 1/10). *)
Definition packaged_edges (fexp : f64 -> f64) : edges (F64 fexp) :=
  @mkEdges (F64 fexp) (f_of_Z (-280)) (f_of_Z 279) (fdiv (f_of_Z 1) (f_of_Z 10)).

(** The millimetre of a coordinate given in metres, as computed in binary64:
    [None] for infinities (and NaN). *)
Definition mm (x : f64) : option Z :=
  if is_finite x then Some (Zfloor (rnd64 (R64 x * 1000))) else None.

Definition is_nan64 (x : f64) : bool := @is_nan prec64 emax64 x.

Lemma f1000 : R64 (f_of_Z 1000) = 1000%R /\ is_finite (f_of_Z 1000) = true.
Proof. destruct (f_of_Z_correct 1000 ltac:(lia)) as (A & B & _). now rewrite A. Qed.

(** floor(1000 x): a finite float with the expected integer value, or an infinity. *)
Lemma mm_floor (x : f64) : is_nan64 x = false ->
  let F := ffloor (fmul x (f_of_Z 1000)) in
  (exists k, mm x = Some k /\ is_finite F = true /\ R64 F = IZR k) \/
  (exists s, F = B754_infinity s /\
     match mm x with Some k => if s then k < -280 else 279 <= k | None => True end).
Proof.
  intros Hn. cbv zeta. unfold mm. destruct f1000 as (R1 & F1).
  destruct (is_finite x) eqn:Fx.
  - pose proof (Bmult_correct prec64 emax64 _ _ mode_NE x (f_of_Z 1000)) as C.
    fold (fmul x (f_of_Z 1000)) in C. simpl round_mode in C. rewrite R1 in C.
    destruct (Rlt_bool_spec (Rabs (rnd64 (R64 x * 1000))) (bpow radix2 emax64)) as [L|L].
    + destruct C as (C1 & C2 & _). left. exists (Zfloor (rnd64 (R64 x * 1000))).
      split; [reflexivity|]. destruct (ffloor_R (fmul x (f_of_Z 1000))) as (D1 & D2).
      rewrite D2, D1, C1, C2, Fx, F1. split; reflexivity.
    + right. exists (xorb (Bsign x) (Bsign (f_of_Z 1000))).
      assert (E : fmul x (f_of_Z 1000) = B754_infinity (xorb (Bsign x) (Bsign (f_of_Z 1000)))).
      { destruct (fmul x (f_of_Z 1000)) as [s|s| |s m e H]; simpl in C; try discriminate.
        injection C as ->. reflexivity. }
      rewrite E. split; [reflexivity|].
      destruct (f_of_Z_correct 1000 ltac:(lia)) as (_ & _ & S1). rewrite S1.
      change (1000 <? 0) with false. rewrite Bool.xorb_false_r.
      assert (Big : (IZR 1000 < bpow radix2 emax64)%R).
      { apply (Rle_lt_trans _ (bpow radix2 53)); [|apply bpow1024_big].
        rewrite <- IZR_pow2 by lia. apply IZR_le. lia. }
      set (q := rnd64 (R64 x * 1000)) in *.
      assert (Sg : if Bsign x then (q <= 0)%R else (0 <= q)%R).
      { destruct (Bsign x) eqn:Sx.
        - apply (rnd64_le_IZR _ 0); [lia|]. assert (R64 x <= 0)%R; [|simpl; lra].
          destruct x as [s|s| |s m e H]; try discriminate; simpl in Sx; subst s; simpl; try lra.
          apply Rlt_le. now apply F2R_lt_0.
        - apply (rnd64_ge_IZR _ 0); [lia|]. assert (0 <= R64 x)%R; [|simpl; lra].
          destruct x as [s|s| |s m e H]; try discriminate; simpl in Sx; subst s; simpl; try lra.
          apply Rlt_le. now apply F2R_gt_0. }
      destruct (Bsign x).
      * rewrite Rabs_left1 in L by exact Sg.
        apply lt_IZR. apply (Rle_lt_trans _ q); [apply Zfloor_lb|].
        apply (Rle_lt_trans _ (- IZR 1000)); [lra|]. rewrite <- opp_IZR. apply IZR_lt. lia.
      * rewrite Rabs_pos_eq in L by exact Sg. apply Zfloor_lub.
        apply (Rle_trans _ (IZR 1000)); [apply IZR_le; lia|]. lra.
  - destruct x as [s|s| |s m e H]; try discriminate.
    right. exists s. split; [|trivial].
    assert (E : fmul (B754_infinity s) (f_of_Z 1000) = B754_infinity s).
    { assert (F : forall y, is_finite y = true -> Bsign y = false -> R64 y <> 0%R ->
                  fmul (B754_infinity s) y = B754_infinity s).
      { intros y Fy Sy Ry. destruct y as [t|t| |t m e H]; simpl in *; try discriminate.
        - now elim Ry. - subst t. now destruct s. }
      apply F; [exact F1| |rewrite R1; lra].
      destruct (f_of_Z_correct 1000 ltac:(lia)) as (_ & _ & S1). exact S1. }
    rewrite E. reflexivity.
Qed.

(** int(x / y) depends on the values only. *)
Lemma f_to_Z_fdiv_cong (x x' y : f64) :
  is_finite x = true -> is_finite x' = true -> is_finite y = true ->
  R64 x = R64 x' -> R64 y <> 0%R -> f_to_Z (fdiv x y) = f_to_Z (fdiv x' y).
Proof.
  intros F F' Fy E Hy.
  pose proof (Bdiv_correct prec64 emax64 _ _ mode_NE x y Hy) as C.
  pose proof (Bdiv_correct prec64 emax64 _ _ mode_NE x' y Hy) as C'.
  fold (fdiv x y) in C. fold (fdiv x' y) in C'. rewrite <- E in C'.
  destruct (Rlt_bool (Rabs (round radix2 fexp64 (round_mode mode_NE) (R64 x / R64 y)))
                     (bpow radix2 emax64)).
  - destruct C as (C1 & C2 & _). destruct C' as (C1' & C2' & _).
    unfold f_to_Z. rewrite C2, C2', F, F', !Btrunc_R, C1, C1'. reflexivity.
  - unfold f_to_Z.
    destruct (fdiv x y) as [s|s| |s m e H]; simpl in C; try discriminate;
    destruct (fdiv x' y) as [s'|s'| |s' m' e' H']; simpl in C'; try discriminate; reflexivity.
Qed.

Lemma f01 : is_finite (fdiv (f_of_Z 1) (f_of_Z 10)) = true /\
            R64 (fdiv (f_of_Z 1) (f_of_Z 10)) <> 0%R /\
            feqb (fdiv (f_of_Z 1) (f_of_Z 10)) (f_of_Z 0) = false.
Proof.
  assert (F : is_finite (fdiv (f_of_Z 1) (f_of_Z 10)) = true) by (vm_compute; reflexivity).
  assert (E : feqb (fdiv (f_of_Z 1) (f_of_Z 10)) (f_of_Z 0) = false) by (vm_compute; reflexivity).
  split; [exact F|]. split; [|exact E].
  rewrite feqb_R in E; [|exact F|reflexivity]. intros H. rewrite H in E.
  destruct (f_of_Z_correct 0 ltac:(lia)) as (R0 & _). rewrite R0 in E.
  rewrite Req_bool_true in E by reflexivity. discriminate E.
Qed.

(** Finite sweep: n / 0.1 truncates to 10 n for n = 0..558. *)
Lemma tenths_sweep :
  forallb (fun i => match f_to_Z (fdiv (f_of_Z (Z.of_nat i)) (fdiv (f_of_Z 1) (f_of_Z 10))) with
                    | Some z => z =? 10 * Z.of_nat i | None => false end) (seq 0 559) = true.
Proof. vm_compute. reflexivity. Qed.

Lemma tenths n : 0 <= n <= 558 ->
  f_to_Z (fdiv (f_of_Z n) (fdiv (f_of_Z 1) (f_of_Z 10))) = Some (10 * n).
Proof.
  intros H. pose proof tenths_sweep as S. rewrite forallb_forall in S.
  specialize (S (Z.to_nat n)). rewrite Z2Nat.id in S by lia.
  assert (I : In (Z.to_nat n) (seq 0 559)) by (apply in_seq; lia). apply S in I.
  destruct (f_to_Z _) as [z|]; [|discriminate]. apply Z.eqb_eq in I. now subst.
Qed.

(** Millimetres covered by the look-up. *)
Definition in_plane (k : option Z) : bool :=
  match k with Some z => (-280 <=? z) && (z <=? 278) | None => false end.

Section Packaged.
  Context (fexp : f64 -> f64).
  Let ge := packaged_edges fexp.

  Lemma outside (mx my : option Z) :
    in_plane mx && in_plane my = false ->
    (match mx, my with
     | Some kx, Some ky =>
         if in_plane (Some kx) && in_plane (Some ky)
         then (10 * (kx + 280), 10 * (ky + 280)) else (-1, -1)
     | _, _ => (-1, -1)
     end) = (-1, -1).
  Proof. destruct mx as [kx|]; [destruct my as [ky|]|]; auto. now intros ->. Qed.


  Lemma edge_tests (x : f64) : is_nan64 x = false ->
    let F := ffloor (fmul x (f_of_Z 1000)) in
    (negb (fleb (f_of_Z 279) F) && negb (fltb F (f_of_Z (-280))))%bool = in_plane (mm x) /\
    (in_plane (mm x) = true -> exists k, mm x = Some k /\ is_finite F = true /\ R64 F = IZR k).
  Proof.
    intros Hn. cbv zeta. destruct (mm_floor x Hn) as [(k & E & Ff & Rf)|(s & Ef & Hk)].
    - split; [|eauto]. rewrite E. cbn [in_plane].
      destruct (f_of_Z_correct 279 ltac:(lia)) as (R1 & F1 & _).
      destruct (f_of_Z_correct (-280) ltac:(lia)) as (R2 & F2 & _).
      rewrite fleb_R, fltb_R by assumption. rewrite R1, R2, Rf.
      rewrite Bool.andb_comm. f_equal.
      + destruct (Rlt_bool_spec (IZR k) (IZR (-280))) as [L|L].
        * apply lt_IZR in L. simpl. lia.
        * apply le_IZR in L. simpl. lia.
      + destruct (Rle_bool_spec (IZR 279) (IZR k)) as [L|L].
        * apply le_IZR in L. simpl. lia.
        * apply lt_IZR in L. simpl. lia.
    - rewrite Ef. split.
      + destruct s.
        * replace (fltb (B754_infinity true) (f_of_Z (-280))) with true by (vm_compute; reflexivity).
          rewrite Bool.andb_false_r. symmetry. destruct (mm x) as [k|]; simpl; [lia|reflexivity].
        * replace (fleb (f_of_Z 279) (B754_infinity false)) with true by (vm_compute; reflexivity).
          symmetry. destruct (mm x) as [k|]; simpl; [lia|reflexivity].
      + intros H. exfalso. destruct (mm x) as [k|]; simpl in H; [destruct s; lia|discriminate].
  Qed.

  Lemma index_of (x : f64) k : mm x = Some k -> -280 <= k <= 278 ->
    is_finite (ffloor (fmul x (f_of_Z 1000))) = true ->
    R64 (ffloor (fmul x (f_of_Z 1000))) = IZR k ->
    f_to_Z (fdiv (fsub (ffloor (fmul x (f_of_Z 1000))) (f_of_Z (-280)))
                 (fdiv (f_of_Z 1) (f_of_Z 10))) = Some (10 * (k + 280)).
  Proof.
    intros _ Hk Ff Rf.
    destruct (f_of_Z_correct (-280) ltac:(lia)) as (R2 & F2 & _).
    destruct (fsub_IZR _ _ _ _ Ff F2 Rf R2 ltac:(lia)) as (Rd & Fd & _).
    destruct (f_of_Z_correct (k + 280) ltac:(lia)) as (R3 & F3 & _).
    destruct f01 as (Fb & Rb & _).
    rewrite (f_to_Z_fdiv_cong _ (f_of_Z (k + 280)) _ Fd F3 Fb); [|rewrite Rd, R3; f_equal; lia|exact Rb].
    apply tenths. lia.
  Qed.

  (** Complete behaviour on all non-NaN positions. *)
  Theorem position_to_index_packaged (x y : f64) :
    is_nan64 x = false -> is_nan64 y = false ->
    position_to_index ge (x, y) =
    Ok (match mm x, mm y with
        | Some kx, Some ky =>
            if in_plane (Some kx) && in_plane (Some ky)
            then (10 * (kx + 280), 10 * (ky + 280)) else (-1, -1)
        | _, _ => (-1, -1)
        end).
  Proof.
    intros Hx Hy. unfold position_to_index, ge, packaged_edges.
    cbn [fst snd low_edge high_edge bin_size nmul nofZ nfloor nleb nltb nsub F64 njdiv njint T].
    destruct (edge_tests x Hx) as (Ex & Px). destruct (edge_tests y Hy) as (Ey & Py).
    cbv zeta in Ex, Px, Ey, Py.
    set (Fx := ffloor (fmul x (f_of_Z 1000))) in *.
    set (Fy := ffloor (fmul y (f_of_Z 1000))) in *.
    destruct f01 as (Fb & Rb & Zb).
    destruct (in_plane (mm x) && in_plane (mm y)) eqn:Ixy.
    2:{ rewrite outside by exact Ixy.
        destruct (fleb (f_of_Z 279) Fx || fleb (f_of_Z 279) Fy)%bool eqn:E1; [reflexivity|].
        destruct (fltb Fx (f_of_Z (-280)) || fltb Fy (f_of_Z (-280)))%bool eqn:E2; [reflexivity|].
        exfalso. apply orb_false_elim in E1 as (A1 & A2). apply orb_false_elim in E2 as (B1 & B2).
        rewrite A1, B1 in Ex. rewrite A2, B2 in Ey. cbn [negb andb] in Ex, Ey.
        rewrite <- Ex, <- Ey in Ixy. discriminate Ixy. }
    apply andb_prop in Ixy as (Ix & Iy). rewrite Ix in Ex, Px. rewrite Iy in Ey, Py.
    destruct (Px eq_refl) as (kx & Mx & Ffx & Rfx). destruct (Py eq_refl) as (ky & My & Ffy & Rfy).
    apply andb_prop in Ex as (X1 & X2). apply andb_prop in Ey as (Y1 & Y2).
    rewrite negb_true_iff in X1, X2, Y1, Y2. rewrite X1, X2, Y1, Y2. cbn [orb].
    unfold njdiv. cbn [neqb nofZ ndiv F64]. rewrite Zb. cbn [bind]. unfold njint. cbn [ntoZ F64].
    rewrite Mx, My in *. rewrite Ix, Iy. cbn [andb]. simpl in Ix, Iy.
    unfold Fx at 1. rewrite (index_of x kx) by (assumption || lia). cbn [bind].
    unfold Fy at 1. rewrite (index_of y ky) by (assumption || lia). reflexivity.
  Qed.
End Packaged.
