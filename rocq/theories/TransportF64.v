(** TransportF64.v -- the transport in binary64: zero diffusion, NaN widths, memory safety. *)
From Coq Require Import ZArith Reals Lia Lra.
From Flocq Require Import Core BinarySingleNaN Mult_error.
From Verif Require Import Base F64 F64Bounds Num Pairing BeamPads Transporter SpecTransport
  TransportProofs PositionProofs.
Local Open Scope Z_scope.

Definition fzero (x : f64) : Prop := exists s, x = B754_zero s.

Lemma fzero_R (x : f64) : is_finite x = true -> R64 x = 0%R -> fzero x.
Proof.
  destruct x as [s|s| |s m e H]; try discriminate; intros _ E; [now exists s|].
  exfalso. simpl in E. destruct s.
  - assert (F2R (Float radix2 (cond_Zopp true (Zpos m)) e) < 0)%R by now apply F2R_lt_0. lra.
  - assert (0 < F2R (Float radix2 (cond_Zopp false (Zpos m)) e))%R by now apply F2R_gt_0. lra.
Qed.

Lemma fmul_zero_r (x y : f64) : is_finite x = true -> fzero y -> fzero (fmul x y).
Proof. intros F (s & ->). destruct x; try discriminate; eexists; reflexivity. Qed.
Lemma fmul_zero_l (x y : f64) : fzero x -> is_finite y = true -> fzero (fmul x y).
Proof. intros (s & ->) F. destruct y; try discriminate; eexists; reflexivity. Qed.
Lemma fdiv_zero_l (x y : f64) : fzero x -> is_finite y = true -> R64 y <> 0%R -> fzero (fdiv x y).
Proof.
  intros (s & ->) F H. destruct y; try discriminate; [now elim H|]. eexists; reflexivity.
Qed.
Lemma fsqrt_zero x : fzero x -> fzero (fsqrt x).
Proof. intros (s & ->). eexists; reflexivity. Qed.
Lemma feqb_zero x z : fzero x -> fzero z -> feqb x z = true.
Proof. intros (s & ->) (t & ->). now destruct s, t. Qed.
Lemma f_of_Z_0 : fzero (f_of_Z 0).
Proof. now exists false. Qed.

Lemma feqb_nonzero (x : f64) : is_finite x = true -> R64 x <> 0%R -> feqb x (f_of_Z 0) = false.
Proof.
  intros F H. rewrite feqb_R; [|exact F|reflexivity]. rewrite f_of_Z_R by lia.
  now apply Req_bool_false.
Qed.

Section WithExp.
  Context (fexp : f64 -> f64).
  Notation NF := (F64 fexp).

  (** sigma is zero when the diffusion coefficient is zero. *)
  Lemma sigma_zero (diffusion efield dv time : f64) :
    fzero diffusion -> is_finite efield = true -> R64 efield <> 0%R ->
    is_finite dv = true -> is_finite time = true ->
    exists s, @sigma_of NF diffusion efield dv time = Ok s /\ feqb s (f_of_Z 0) = true.
  Proof.
    intros D Fe He Fd Ft. unfold sigma_of, njdiv. cbn [neqb nmul nofZ ndiv nsqrt F64].
    rewrite feqb_nonzero by assumption. cbn [bind].
    eexists. split; [reflexivity|].
    apply feqb_zero; [|apply f_of_Z_0].
    apply fsqrt_zero, fdiv_zero_l; [|assumption..].
    apply fmul_zero_l; [|assumption]. apply fmul_zero_l; [|assumption].
    apply fmul_zero_r; [apply f_of_Z_fin; lia|exact D].
  Qed.

  Lemma transport_row_no_diffusion g (ge : edges NF) (diffusion efield dv : f64) label pts
      (r : row NF) e :
    fzero diffusion -> is_finite efield = true -> R64 efield <> 0%R ->
    is_finite dv = true -> @is_finite prec64 emax64 (r_time r) = true ->
    @transport_row NF g ge diffusion efield dv label pts (r, e) =
    @point_transport NF g ge (r_time r) (r_x r, r_y r) e pts label.
  Proof.
    intros D Fe He Fd Ft. unfold transport_row.
    destruct (sigma_zero diffusion efield dv (r_time r) D Fe He Fd Ft) as (s & -> & E).
    cbn [bind]. cbn [neqb nofZ F64]. now rewrite E.
  Qed.

  (** NaN positions are undefined behaviour: both range tests are false. *)
  Lemma fleb_nan_r x : fleb x B754_nan = false. Proof. now destruct x as [?|[]| |[] ? ? ?]. Qed.
  Lemma fltb_nan_l x : fltb B754_nan x = false. Proof. now destruct x. Qed.
  Lemma fsub_nan_l x : fsub B754_nan x = B754_nan. Proof. now destruct x. Qed.
  Lemma fsub_nan_r x : fsub x B754_nan = B754_nan. Proof. now destruct x. Qed.
  Lemma fadd_nan_l x : fadd B754_nan x = B754_nan. Proof. now destruct x. Qed.
  Lemma fadd_nan_r x : fadd x B754_nan = B754_nan. Proof. now destruct x. Qed.
  Lemma fmul_nan_l x : fmul B754_nan x = B754_nan. Proof. now destruct x. Qed.
  Lemma fmul_nan_r x : fmul x B754_nan = B754_nan. Proof. now destruct x. Qed.
  Lemma fdiv_nan_l x : fdiv B754_nan x = B754_nan. Proof. now destruct x. Qed.

  Lemma position_nan (ge : edges NF) : feqb (bin_size ge) (f_of_Z 0) = false ->
    @position_to_index NF ge (B754_nan, B754_nan) = Err UB.
  Proof.
    intros Hb. unfold position_to_index.
    cbn [fst snd nmul nofZ nfloor nleb nltb nsub F64].
    rewrite fmul_nan_l. change (ffloor B754_nan) with (@B754_nan prec64 emax64).
    rewrite fleb_nan_r, fltb_nan_l. cbn [orb].
    unfold njdiv. cbn [neqb ndiv nofZ F64]. rewrite Hb. cbn [bind].
    rewrite fsub_nan_l, fdiv_nan_l. reflexivity.
  Qed.

  Lemma sigma_nan (diffusion efield dv time : f64) :
    let q := fdiv (fmul (fmul (fmul (f_of_Z 2) diffusion) dv) time) efield in
    feqb efield (f_of_Z 0) = false -> fltb q (f_of_Z 0) = true ->
    @sigma_of NF diffusion efield dv time = Ok B754_nan.
  Proof.
    cbv zeta. intros He Hq. unfold sigma_of, njdiv. cbn [neqb nmul nofZ ndiv nsqrt F64].
    rewrite He. cbn [bind]. f_equal.
    set (q := fdiv _ _) in *. clearbody q.
    assert (Hs : forall x, fltb x (B754_zero false) = true -> fsqrt x = B754_nan).
    { intros [s|[]| |[] m e H]; simpl; try reflexivity; try discriminate. }
    apply Hs. exact Hq.
  Qed.

  Lemma linspace_nan : exists l, @linspace NF B754_nan B754_nan STEPS = B754_nan :: l.
  Proof.
    unfold linspace, STEPS. change (Z.to_nat 10) with 10%nat. cbn [seq map].
    change (Z.of_nat 0 =? 10 - 1) with false. cbv iota.
    eexists. f_equal.
  Qed.

  Lemma mesh_nan (c : f64 * f64) : exists l,
    @diffusion_mesh NF c B754_nan = (B754_nan, B754_nan) :: l.
  Proof.
    unfold diffusion_mesh. cbn [nmul nofZ nsub nadd F64].
    rewrite fmul_nan_r, !fsub_nan_r, !fadd_nan_r.
    destruct linspace_nan as (l & ->). eexists. unfold meshgrid. cbn [flat_map map app].
    reflexivity.
  Qed.

  Lemma transport_row_nan g (ge : edges NF) (diffusion efield dv : f64) label pts (r : row NF) e :
    feqb (bin_size ge) (f_of_Z 0) = false ->
    feqb efield (f_of_Z 0) = false ->
    fltb (fdiv (fmul (fmul (fmul (f_of_Z 2) diffusion) dv) (r_time r)) efield) (f_of_Z 0) = true ->
    @transport_row NF g ge diffusion efield dv label pts (r, e) = Err UB.
  Proof.
    intros Hb He Hq. unfold transport_row.
    rewrite (sigma_nan diffusion efield dv (r_time r) He Hq). cbn [bind].
    change (@neqb NF B754_nan (@nofZ NF 0)) with false. cbv iota.
    unfold transverse_transport. destruct (mesh_nan (r_x r, r_y r)) as (l & ->).
    cbn [foldM]. unfold pixel_transport at 1. rewrite position_nan by exact Hb. reflexivity.
  Qed.

  (** ** Memory safety *)

  (** libm exp on non-positive arguments (not NaN). *)
  Definition exp_ok : Prop := forall x : f64,
    fleb x (f_of_Z 0) = true -> is_finite (fexp x) = true /\ (0 <= R64 (fexp x) <= 1)%R.

  Lemma Rabs_mult_le a b ea eb :
    (Rabs a <= b2 ea)%R -> (Rabs b <= b2 eb)%R -> (Rabs (a * b) <= b2 (ea + eb))%R.
  Proof.
    intros A B. rewrite Rabs_mult, bpow_plus.
    apply Rmult_le_compat; auto using Rabs_pos.
  Qed.

  Lemma b2_double e : (b2 (e + 1) = b2 e + b2 e)%R.
  Proof. rewrite bpow_plus. change (b2 1) with 2%R. ring. Qed.

  Lemma Rabs_add_le a b e :
    (Rabs a <= b2 e)%R -> (Rabs b <= b2 e)%R -> (Rabs (a + b) <= b2 (e + 1))%R.
  Proof. intros A B. rewrite b2_double. pose proof (Rabs_triang a b). lra. Qed.

  Lemma Rabs_sub_le a b e :
    (Rabs a <= b2 e)%R -> (Rabs b <= b2 e)%R -> (Rabs (a - b) <= b2 (e + 1))%R.
  Proof. intros A B. apply Rabs_add_le; [exact A|]. now rewrite Rabs_Ropp. Qed.

  Lemma b2_mono a b : a <= b -> (b2 a <= b2 b)%R. Proof. apply bpow_le. Qed.

  (** A float together with a finiteness and magnitude bound. *)
  Definition bnd (x : f64) (e : Z) : Prop := is_finite x = true /\ (Rabs (R64 x) <= b2 e)%R.

  Lemma bnd_mono x e e' : bnd x e -> e <= e' -> bnd x e'.
  Proof. intros (F & B) L. split; [exact F|]. apply Rle_trans with (1 := B). now apply b2_mono. Qed.

  Lemma bnd_mul x y ex ey : bnd x ex -> bnd y ey -> -1074 <= ex + ey < 1024 ->
    bnd (fmul x y) (ex + ey).
  Proof.
    intros (Fx & Bx) (Fy & By) L.
    pose proof (Rabs_mult_le _ _ _ _ Bx By) as B.
    destruct (fmul_fin x y (ex + ey) Fx Fy L B) as (E & F). split; [exact F|].
    rewrite E. apply rnd64_abs_le; [lia|exact B].
  Qed.

  Lemma bnd_add x y e : bnd x e -> bnd y e -> -1074 <= e < 1023 -> bnd (fadd x y) (e + 1).
  Proof.
    intros (Fx & Bx) (Fy & By) L. pose proof (Rabs_add_le _ _ _ Bx By) as B.
    destruct (fadd_fin x y (e + 1) Fx Fy ltac:(lia) B) as (E & F). split; [exact F|].
    rewrite E. apply rnd64_abs_le; [lia|exact B].
  Qed.

  Lemma bnd_sub x y e : bnd x e -> bnd y e -> -1074 <= e < 1023 -> bnd (fsub x y) (e + 1).
  Proof.
    intros (Fx & Bx) (Fy & By) L. pose proof (Rabs_sub_le _ _ _ Bx By) as B.
    destruct (fsub_fin x y (e + 1) Fx Fy ltac:(lia) B) as (E & F). split; [exact F|].
    rewrite E. apply rnd64_abs_le; [lia|exact B].
  Qed.

  (** Division by a number of magnitude at least 2^d. *)
  Lemma bnd_div x y ex d : bnd x ex -> (b2 d <= Rabs (R64 y))%R -> -1074 <= ex - d < 1024 ->
    bnd (fdiv x y) (ex - d).
  Proof.
    intros (Fx & Bx) By L.
    assert (Hy : R64 y <> 0%R).
    { intros E. rewrite E, Rabs_R0 in By. pose proof (bpow_gt_0 radix2 d). lra. }
    assert (B : (Rabs (R64 x / R64 y) <= b2 (ex - d))%R).
    { unfold Rdiv. rewrite Rabs_mult, Rabs_inv. unfold Z.sub.
      rewrite bpow_plus, bpow_opp. apply Rmult_le_compat; auto using Rabs_pos.
      - apply Rlt_le, Rinv_0_lt_compat, Rabs_pos_lt, Hy.
      - apply Rinv_le; [apply bpow_gt_0|exact By]. }
    destruct (fdiv_fin x y (ex - d) Fx Hy L B) as (E & F). split; [exact F|].
    rewrite E. apply rnd64_abs_le; [lia|exact B].
  Qed.

  Lemma bnd_of_Z z e : 0 <= e <= 53 -> Z.abs z <= 2 ^ e -> bnd (f_of_Z z) e.
  Proof.
    intros He H. assert (2 ^ e <= 2 ^ 53) by (apply Z.pow_le_mono_r; lia).
    split; [apply f_of_Z_fin; lia|]. rewrite f_of_Z_R by lia.
    rewrite <- abs_IZR, <- IZR_pow2 by lia. now apply IZR_le.
  Qed.

  Lemma linspace_bnd (start stop : f64) x : bnd start 304 -> bnd stop 304 ->
    In x (@linspace NF start stop STEPS) -> bnd x 320.
  Proof.
    intros Hs He Hx. unfold linspace, STEPS in Hx.
    apply in_map_iff in Hx as (i & <- & Hi). apply in_seq in Hi.
    destruct (Z.of_nat i =? 10 - 1); [eapply bnd_mono; [exact He|lia]|].
    cbn [nadd nmul nofZ ndiv nsub F64].
    assert (H9 : (b2 3 <= Rabs (R64 (f_of_Z (10 - 1))))%R).
    { rewrite f_of_Z_R by lia. rewrite Rabs_pos_eq by (apply IZR_le; lia).
      rewrite <- IZR_pow2 by lia. apply IZR_le. lia. }
    pose proof (bnd_sub _ _ 304 He Hs ltac:(lia)) as B1.
    pose proof (bnd_div _ _ _ 3 B1 H9 ltac:(lia)) as B2.
    assert (B3 : bnd (f_of_Z (Z.of_nat i)) 4) by (apply bnd_of_Z; lia).
    pose proof (bnd_mul _ _ _ _ B3 B2 ltac:(lia)) as B4.
    apply bnd_mono with (318 + 1); [|lia].
    apply bnd_add; [eapply bnd_mono; [exact Hs|lia]|eapply bnd_mono; [exact B4|lia]|lia].
  Qed.

  Lemma mesh_bnd (c : f64 * f64) (s : f64) px : bnd (fst c) 300 -> bnd (snd c) 300 -> bnd s 300 ->
    In px (@diffusion_mesh NF c s) -> bnd (fst px) 320 /\ bnd (snd px) 320.
  Proof.
    intros H1 H2 Hs Hp. unfold diffusion_mesh, meshgrid in Hp.
    apply in_flat_map in Hp as (x & Hx & Hp). apply in_map_iff in Hp as (y & <- & Hy).
    cbn [fst snd nmul nofZ nsub nadd F64] in *.
    assert (B3 : bnd (fmul (f_of_Z 3) s) 302).
    { change 302 with (2 + 300). apply bnd_mul; [apply bnd_of_Z; lia|exact Hs|lia]. }
    assert (A1 : bnd (fst c) 302) by (eapply bnd_mono; [exact H1|lia]).
    assert (A2 : bnd (snd c) 302) by (eapply bnd_mono; [exact H2|lia]).
    split; (eapply linspace_bnd; [| |eassumption]);
      (eapply bnd_mono; [apply bnd_sub || apply bnd_add; eassumption || lia|lia]).
  Qed.

  (** [pixel_electrons] written out. *)
  Lemma pixel_electrons_eq (px c : f64 * f64) (s : f64) (e : Z) :
    @pixel_electrons NF px c s e =
    let s2 := fmul s s in
    if feqb s2 (f_of_Z 0) then Err ZeroDivisionError
    else
      let dx := fsub (fst px) (fst c) in
      let dy := fsub (snd px) (snd c) in
      let c1 := fdiv (fdiv (fdiv (f_of_Z 1) (f_of_Z 2)) (f_of_ZE 7074237752028440 (-51))) s2 in
      let c2 := fmul (fdiv (fdiv (f_of_Z (-1)) (f_of_Z 2)) s2) (fadd (fmul dx dx) (fmul dy dy)) in
      let p := fmul c1 (fexp c2) in
      let st := fdiv (fmul (f_of_Z 6) s) (f_of_Z 9) in
      match f_to_Z (fmul (fmul p (fmul st st)) (f_of_Z e)) with
      | Some z => Ok z
      | None => Err UB
      end.
  Proof.
    unfold pixel_electrons, bivariate_normal_pdf, njdiv, njint, step_size.
    cbn [nmul ndiv nofZ npi nsub nadd nexp ntoZ neqb F64].
    change (2 * 3) with 6. change (STEPS - 1) with 9.
    destruct (feqb (fmul s s) (f_of_Z 0)); reflexivity.
  Qed.

  (** The pixel charge stays in int64. *)
  Lemma pixel_electrons_safe (px c : f64 * f64) (s : f64) (e : Z) :
    exp_ok ->
    bnd (fst px) 320 -> bnd (snd px) 320 -> bnd (fst c) 320 -> bnd (snd c) 320 ->
    bnd s 300 -> (b2 (-300) <= R64 s)%R -> Z.abs e <= 2 ^ 53 ->
    exists z, @pixel_electrons NF px c s e = Ok z /\ Z.abs z <= 2 ^ 54 /\
              (0 <= e -> 0 <= z).
  Proof.
    intros Hexp P1 P2 C1 C2 Bs Ls He.
    pose proof (bpow_gt_0 radix2 (-300)) as Pos300.
    assert (Ss : (0 < R64 s)%R) by lra.
    destruct Bs as (Fs & Us). rewrite Rabs_pos_eq in Us by lra.
    (* s2 *)
    assert (Bs2 : (Rabs (R64 s * R64 s) <= b2 600)%R).
    { change 600 with (300 + 300). apply Rabs_mult_le; rewrite Rabs_pos_eq by lra; assumption. }
    destruct (fmul_fin s s 600 Fs Fs ltac:(lia) Bs2) as (E2 & F2).
    set (s2 := fmul s s) in *.
    assert (L2 : (b2 (-600) <= R64 s2)%R).
    { rewrite E2. apply rnd64_ge_fmt; [apply fmt64_bpow; lia|].
      change (-600) with (-300 + -300). rewrite bpow_plus.
      apply Rmult_le_compat; lra. }
    pose proof (bpow_gt_0 radix2 (-600)) as Pos600.
    assert (U2 : (R64 s2 <= b2 600)%R).
    { rewrite E2. apply rnd64_le_fmt; [apply fmt64_bpow; lia|].
      rewrite Rabs_pos_eq in Bs2; [exact Bs2|]. nra. }
    assert (N2 : R64 s2 <> 0%R) by lra.
    rewrite pixel_electrons_eq. cbv zeta. fold s2.
    rewrite (feqb_nonzero s2 F2 N2).
    set (k1 := fdiv (fdiv (f_of_Z 1) (f_of_Z 2)) (f_of_ZE 7074237752028440 (-51))).
    assert (K1 : is_finite k1 = true /\ (0 <= R64 k1 <= 1)%R).
    { assert (Fk : is_finite k1 = true) by (vm_compute; reflexivity).
      assert (A : fleb (f_of_Z 0) k1 = true) by (vm_compute; reflexivity).
      assert (B : fleb k1 (f_of_Z 1) = true) by (vm_compute; reflexivity).
      rewrite fleb_R in A by (try apply f_of_Z_fin; auto; lia).
      rewrite fleb_R in B by (try apply f_of_Z_fin; auto; lia).
      rewrite f_of_Z_R in A by lia. rewrite f_of_Z_R in B by lia.
      split; [exact Fk|]. split.
      - destruct (Rle_bool_spec 0 (R64 k1)); [assumption|discriminate].
      - destruct (Rle_bool_spec (R64 k1) 1); [assumption|discriminate]. }
    destruct K1 as (Fk & Bk).
    set (k2 := fdiv (f_of_Z (-1)) (f_of_Z 2)).
    assert (K2 : is_finite k2 = true /\ (R64 k2 = - / 2)%R).
    { assert (Q : (R64 (f_of_Z (-1)) / R64 (f_of_Z 2) = - b2 (-1))%R).
      { rewrite !f_of_Z_R by lia. change (b2 (-1)) with (/ 2)%R. lra. }
      destruct (fdiv_fin (f_of_Z (-1)) (f_of_Z 2) 0) as (A & B).
      - apply f_of_Z_fin; lia.
      - rewrite f_of_Z_R by lia. lra.
      - lia.
      - rewrite Q. change (b2 (-1)) with (/ 2)%R. change (b2 0) with 1%R.
        rewrite Rabs_Ropp, Rabs_pos_eq; lra.
      - split; [exact B|]. unfold k2. rewrite A, Q, rnd64_fmt.
        + change (b2 (-1)) with (/ 2)%R. reflexivity.
        + apply generic_format_opp, fmt64_bpow. lia. }
    destruct K2 as (Fk2 & Rk2). clearbody k1. clearbody k2.
    (* c1 in [0, b2 601] with c1 * s2 <= 2 *)
    assert (Hinv : exists q, -601 <= q <= 600 /\ (/ R64 s2 <= b2 q)%R /\ (b2 q * R64 s2 <= 2)%R).
    { pose proof (mag radix2 (/ R64 s2)) as mg. destruct mg as (q & Hq).
      assert (Ip : (0 < / R64 s2)%R) by (apply Rinv_0_lt_compat; lra).
      specialize (Hq ltac:(lra)). rewrite Rabs_pos_eq in Hq by lra. destruct Hq as (Q1 & Q2).
      assert (Iu : (/ R64 s2 <= b2 600)%R).
      { change 600 with (Z.opp (-600)). rewrite bpow_opp. apply Rinv_le; lra. }
      assert (Il : (b2 (-600) <= / R64 s2)%R).
      { change (-600) with (Z.opp 600). rewrite bpow_opp. apply Rinv_le; lra. }
      assert (q - 1 <= 600) by (apply (le_bpow radix2); lra).
      assert (-600 < q) by (apply (lt_bpow radix2); lra).
      destruct (Z.eq_dec q 601) as [->|Nq].
      - (* then /s2 = 2^600 *)
        exists 600. split; [lia|]. split; [exact Iu|].
        change (601 - 1) with 600 in Q1.
        assert (E : (/ R64 s2 = b2 600)%R) by lra. rewrite <- E.
        rewrite Rinv_l by lra. lra.
      - exists q. split; [lia|]. split; [lra|].
        replace q with (q - 1 + 1) by lia. rewrite bpow_plus. change (b2 1) with 2%R.
        assert (b2 (q - 1) * R64 s2 <= 1)%R; [|lra].
        apply Rmult_le_reg_r with (/ R64 s2)%R; [exact Ip|].
        rewrite Rmult_assoc, Rinv_r by lra. lra. }
    destruct Hinv as (q & Hq & Hq1 & Hq2).
    assert (D1 : (0 <= R64 k1 / R64 s2 <= b2 q)%R).
    { unfold Rdiv. assert (0 < / R64 s2)%R by (apply Rinv_0_lt_compat; lra).
      split; [nra|]. apply Rle_trans with (1 * / R64 s2)%R; [nra|lra]. }
    destruct (fdiv_fin k1 s2 q Fk N2 ltac:(lia)) as (Ec1 & Fc1).
    { rewrite Rabs_pos_eq; lra. }
    set (c1 := fdiv k1 s2) in *.
    assert (Bc1 : (0 <= R64 c1 <= b2 q)%R).
    { rewrite Ec1. split; [apply (rnd64_ge_IZR _ 0); [lia|lra]|].
      apply rnd64_le_fmt; [apply fmt64_bpow; lia|lra]. }
    clearbody c1.
    (* c2 *)
    assert (Dk2 : (Rabs (R64 k2 / R64 s2) <= b2 600)%R).
    { rewrite Rk2. unfold Rdiv. rewrite Rabs_mult, Rabs_Ropp.
      rewrite (Rabs_pos_eq (/ 2)) by lra.
      rewrite Rabs_pos_eq by (apply Rlt_le, Rinv_0_lt_compat; lra).
      assert (/ R64 s2 <= b2 600)%R.
      { change 600 with (Z.opp (-600)). rewrite bpow_opp. apply Rinv_le; lra. }
      assert (0 < / R64 s2)%R by (apply Rinv_0_lt_compat; lra). lra. }
    destruct (fdiv_fin k2 s2 600 Fk2 N2 ltac:(lia) Dk2) as (Ec2 & Fc2).
    set (c2' := fdiv k2 s2) in *.
    assert (Bc2 : (R64 c2' < 0)%R).
    { rewrite Ec2. apply Rle_lt_trans with (- b2 (-601))%R.
      - apply rnd64_le_fmt; [apply generic_format_opp, fmt64_bpow; lia|].
        rewrite Rk2. unfold Rdiv. change (-601) with (-1 + -600). rewrite bpow_plus.
        change (b2 (-1)) with (/ 2)%R.
        assert (b2 (-600) <= / R64 s2)%R by (change (-600) with (Z.opp 600); rewrite bpow_opp; apply Rinv_le; lra). lra.
      - pose proof (bpow_gt_0 radix2 (-601)). lra. }
    assert (Uc2 : bnd c2' 600) by (split; [exact Fc2|rewrite Ec2; apply rnd64_abs_le; [lia|exact Dk2]]).
    clearbody c2'.
    pose proof (bnd_sub _ _ 320 P1 C1 ltac:(lia)) as Bdx.
    pose proof (bnd_sub _ _ 320 P2 C2 ltac:(lia)) as Bdy.
    set (dx := fsub (fst px) (fst c)) in *. set (dy := fsub (snd px) (snd c)) in *.
    clearbody dx dy.
    assert (Bdx2 : bnd (fmul dx dx) 642) by (apply (bnd_mul _ _ 321 321); auto; lia).
    assert (Bdy2 : bnd (fmul dy dy) 642) by (apply (bnd_mul _ _ 321 321); auto; lia).
    assert (Ndx2 : (0 <= R64 (fmul dx dx))%R).
    { destruct Bdx as (Fx & Bx).
      destruct (fmul_fin dx dx 642 Fx Fx ltac:(lia)) as (E & _).
      { change 642 with (321 + 321). now apply Rabs_mult_le. }
      rewrite E. apply (rnd64_ge_IZR _ 0); [lia|]. change (IZR 0) with 0%R. nra. }
    assert (Ndy2 : (0 <= R64 (fmul dy dy))%R).
    { destruct Bdy as (Fy & By).
      destruct (fmul_fin dy dy 642 Fy Fy ltac:(lia)) as (E & _).
      { change 642 with (321 + 321). now apply Rabs_mult_le. }
      rewrite E. apply (rnd64_ge_IZR _ 0); [lia|]. change (IZR 0) with 0%R. nra. }
    set (dx2 := fmul dx dx) in *. set (dy2 := fmul dy dy) in *. clearbody dx2 dy2.
    pose proof (bnd_add _ _ _ Bdx2 Bdy2 ltac:(lia)) as Br.
    assert (Nr : (0 <= R64 (fadd dx2 dy2))%R).
    { destruct Bdx2 as (Fx & Bx). destruct Bdy2 as (Fy & By).
      destruct (fadd_fin dx2 dy2 643 Fx Fy ltac:(lia)) as (E & _).
      { change 643 with (642 + 1). now apply Rabs_add_le. }
      rewrite E. apply (rnd64_ge_IZR _ 0); [lia|]. change (IZR 0) with 0%R. lra. }
    set (r2 := fadd dx2 dy2) in *. clearbody r2.
    (* 643 + 600 may overflow: handle *)
    assert (Hc2 : fleb (fmul c2' r2) (f_of_Z 0) = true).
    { destruct Uc2 as (_ & _). destruct Br as (Fr & _).
      pose proof (Bmult_correct prec64 emax64 _ _ mode_NE c2' r2) as M.
      fold (fmul c2' r2) in M. simpl round_mode in M.
      destruct (Rlt_bool (Rabs (rnd64 (R64 c2' * R64 r2))) (bpow radix2 emax64)).
      - destruct M as (M1 & M2 & _). rewrite Fc2, Fr in M2.
        rewrite fleb_R by (auto using f_of_Z_fin; apply f_of_Z_fin; lia).
        rewrite M1, f_of_Z_R by lia. apply Rle_bool_true.
        apply (rnd64_le_IZR _ 0); [lia|]. change (IZR 0) with 0%R. nra.
      - assert (Sg : (Bsign c2' = true)) by now apply Bsign_neg.
        assert (Sr : Bsign r2 = false \/ R64 r2 = 0%R).
        { destruct (Rle_lt_or_eq_dec _ _ Nr) as [L|L]; [left; now apply Bsign_pos|right; now symmetry]. }
        destruct Sr as [Sr|Sr].
        + rewrite Sg, Sr in M. destruct (fmul c2' r2) as [t|t| |t m ee H]; simpl in M; try discriminate.
          injection M as ->. reflexivity.
        + (* r2 = 0: product is zero, contradiction with overflow *)
          destruct (fmul_zero_r c2' r2 Fc2 (fzero_R _ Fr Sr)) as (t & ->). now destruct t. }
    destruct (Hexp _ Hc2) as (Fe & Be). set (E := fexp (fmul c2' r2)) in *. clearbody E.
    (* p = c1 * E *)
    assert (Rp : (0 <= R64 c1 * R64 E <= b2 q)%R).
    { split; [nra|]. apply Rle_trans with (R64 c1 * 1)%R; [|lra].
      apply Rmult_le_compat_l; lra. }
    destruct (fmul_fin c1 E q Fc1 Fe ltac:(lia)) as (Ep & Fp).
    { rewrite Rabs_pos_eq; lra. }
    set (p := fmul c1 E) in *.
    assert (Bp : (0 <= R64 p <= b2 q)%R).
    { rewrite Ep. split; [apply (rnd64_ge_IZR _ 0); [lia|lra]|].
      apply rnd64_le_fmt; [apply fmt64_bpow; lia|lra]. }
    clearbody p.
    (* step *)
    assert (F8 : fmt64 (8 * R64 s)%R).
    { replace (8 * R64 s)%R with (R64 s * b2 3)%R by (change (b2 3) with 8%R; ring).
      apply (mult_bpow_pos_exact_FLT radix2 (-1074) 53); [apply fmt64_R|lia]. }
    assert (R6 : (0 <= R64 (f_of_Z 6) * R64 s <= 8 * R64 s)%R).
    { rewrite f_of_Z_R by lia. lra. }
    destruct (fmul_fin (f_of_Z 6) s 303 ltac:(apply f_of_Z_fin; lia) Fs ltac:(lia)) as (E6 & F6).
    { rewrite Rabs_pos_eq by lra. change 303 with (3 + 300). rewrite bpow_plus.
      change (b2 3) with 8%R. lra. }
    set (s6 := fmul (f_of_Z 6) s) in *.
    assert (B6 : (0 <= R64 s6 <= 8 * R64 s)%R).
    { rewrite E6. split; [apply (rnd64_ge_IZR _ 0); [lia|lra]|]. apply rnd64_le_fmt; [exact F8|lra]. }
    clearbody s6.
    assert (R9 : R64 (f_of_Z 9) = 9%R) by (rewrite f_of_Z_R by lia; reflexivity).
    destruct (fdiv_fin s6 (f_of_Z 9) 300 F6 ltac:(rewrite R9; lra) ltac:(lia)) as (Est & Fst).
    { rewrite R9. rewrite Rabs_pos_eq; unfold Rdiv; lra. }
    set (st := fdiv s6 (f_of_Z 9)) in *. rewrite R9 in Est.
    assert (Bst : (0 <= R64 st <= R64 s)%R).
    { rewrite Est. split; [apply (rnd64_ge_IZR _ 0); [lia|unfold Rdiv; lra]|].
      apply rnd64_le_fmt; [apply fmt64_R|unfold Rdiv; lra]. }
    clearbody st.
    destruct (fmul_fin st st 600 Fst Fst ltac:(lia)) as (Ess & Fss).
    { change 600 with (300 + 300). apply Rabs_mult_le; rewrite Rabs_pos_eq; lra. }
    set (ss := fmul st st) in *.
    assert (Bss : (0 <= R64 ss <= R64 s2)%R).
    { rewrite Ess, E2. split; [apply (rnd64_ge_IZR _ 0); [lia|change (IZR 0) with 0%R; nra]|].
      apply rnd64_le. nra. }
    clearbody ss.
    (* w = p * ss <= 2 *)
    assert (Rw : (0 <= R64 p * R64 ss <= 2)%R).
    { split; [nra|]. apply Rle_trans with (b2 q * R64 s2)%R; [|exact Hq2].
      apply Rmult_le_compat; lra. }
    destruct (fmul_fin p ss 1 Fp Fss ltac:(lia)) as (Ew & Fw).
    { rewrite Rabs_pos_eq by lra. change (b2 1) with 2%R. lra. }
    set (w := fmul p ss) in *.
    assert (Bw : (0 <= R64 w <= 2)%R).
    { rewrite Ew. split; [apply (rnd64_ge_IZR _ 0); [lia|lra]|].
      apply (rnd64_le_IZR _ 2); [lia|lra]. }
    clearbody w.
    destruct (f_of_Z_correct e He) as (Re & Fze & _).
    assert (Rt : (Rabs (R64 w * R64 (f_of_Z e)) <= b2 54)%R).
    { change 54 with (1 + 53). apply Rabs_mult_le.
      - rewrite Rabs_pos_eq by lra. change (b2 1) with 2%R. lra.
      - rewrite Re, <- abs_IZR, <- IZR_pow2 by lia. now apply IZR_le. }
    destruct (fmul_fin w (f_of_Z e) 54 Fw Fze ltac:(lia) Rt) as (Et & Ft).
    assert (Bt : (Rabs (R64 (fmul w (f_of_Z e))) <= b2 54)%R).
    { rewrite Et. apply rnd64_abs_le; [lia|exact Rt]. }
    assert (Zt : Z.abs (Ztrunc (R64 (fmul w (f_of_Z e)))) <= 2 ^ 54).
    { apply le_IZR. rewrite abs_IZR, IZR_pow2 by lia.
      apply Rle_trans with (2 := Bt).
      set (v := R64 (fmul w (f_of_Z e))). clear. unfold Ztrunc.
      destruct (Rlt_bool_spec v 0) as [L|L].
      - rewrite (Rabs_left v) by exact L.
        assert (IZR (Zceil v) <= 0)%R.
        { change 0%R with (IZR 0). apply IZR_le. apply Zceil_glb. simpl. lra. }
        rewrite Rabs_left1 by assumption. pose proof (Zceil_ub v). lra.
      - rewrite (Rabs_pos_eq v) by exact L.
        assert (0 <= IZR (Zfloor v))%R.
        { change 0%R with (IZR 0). apply IZR_le. now apply Zfloor_lub. }
        rewrite Rabs_pos_eq by assumption. apply Zfloor_lb. }
    exists (Ztrunc (R64 (fmul w (f_of_Z e)))). split; [|split; [exact Zt|]].
    - rewrite f_to_Z_some; [reflexivity|exact Ft|].
      unfold two63. lia.
    - intros He0. assert (P : (0 <= R64 (fmul w (f_of_Z e)))%R).
      { rewrite Et. apply (rnd64_ge_IZR _ 0); [lia|]. change (IZR 0) with 0%R.
        rewrite Re. apply IZR_le in He0. nra. }
      rewrite Ztrunc_floor by exact P. apply Zfloor_lub. exact P.
  Qed.
End WithExp.
