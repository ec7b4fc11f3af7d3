(** P_KinChain.v -- C67: four-momentum conservation of generated events in binary64. *)
From Coq Require Import ZArith Reals Lia Lra.
From Flocq Require Import Core BinarySingleNaN Relative Plus_error.
From Verif Require Import Base F64 F64Bounds KinF64 KinChain KinFile.
Local Open Scope R_scope.
Local Open Scope list_scope.

(** Specification: the four components of a row; finite rows. *)
Definition components : list (v4 -> f64) := [vx; vy; vz; vE].
Definition finite_row (v : v4) : Prop := forall c, In c components -> is_finite (c v) = true.
Definition vzero : v4 := mkV4 (f_of_Z 0) (f_of_Z 0) (f_of_Z 0) (f_of_Z 0).
Definition total (l : list R) : R := fold_right Rplus 0 l.

Lemma total_app l k : total (l ++ k) = total l + total k.
Proof.
  induction l as [|a l IH]; [unfold total; cbn [app fold_right]; lra|].
  change (total ((a :: l) ++ k)) with (a + total (l ++ k)). change (total (a :: l)) with (a + total l). lra.
Qed.

Lemma last_cons {A} (l : list A) : forall x d, last (x :: l) d = last l x.
Proof. induction l as [|y l IH]; intros x d; [reflexivity|]. change (last (x :: y :: l) d) with (last (y :: l) d). now rewrite !IH. Qed.

Lemma fadd_finite_inv (x y : f64) : is_finite (fadd x y) = true ->
  is_finite x = true /\ is_finite y = true /\ R64 (fadd x y) = rnd64 (R64 x + R64 y).
Proof.
  intros F. assert (Fx : is_finite x = true) by (destruct x, y; try reflexivity; cbn in F; try discriminate; destruct s, s0; discriminate).
  assert (Fy : is_finite y = true) by (destruct x, y; try reflexivity; cbn in F; discriminate).
  split; [exact Fx|]. split; [exact Fy|].
  pose proof (Bplus_correct prec64 emax64 _ _ mode_NE x y Fx Fy) as C. fold (fadd x y) in C. simpl round_mode in C.
  destruct (Rlt_bool _ _) in C; [exact (proj1 C)|].
  exfalso. destruct C as [C _]. unfold binary_overflow in C. cbn in C.
  destruct (fadd x y); try discriminate.
Qed.
Lemma fsub_finite_inv (x y : f64) : is_finite (fsub x y) = true ->
  is_finite x = true /\ is_finite y = true /\ R64 (fsub x y) = rnd64 (R64 x - R64 y).
Proof.
  intros F. assert (Fx : is_finite x = true) by (destruct x, y; try reflexivity; cbn in F; try discriminate; destruct s, s0; discriminate).
  assert (Fy : is_finite y = true) by (destruct x, y; try reflexivity; cbn in F; discriminate).
  split; [exact Fx|]. split; [exact Fy|].
  pose proof (Bminus_correct prec64 emax64 _ _ mode_NE x y Fx Fy) as C. fold (fsub x y) in C. simpl round_mode in C.
  destruct (Rlt_bool _ _) in C; [exact (proj1 C)|].
  exfalso. destruct C as [C _]. unfold binary_overflow in C. cbn in C.
  destruct (fsub x y); try discriminate.
Qed.

Lemma u_ro_val : u_ro radix2 prec64 = / 2 ^ 53.
Proof. unfold u_ro, prec64. cbn. lra. Qed.
Lemma format_R64 (x : f64) : generic_format radix2 fexp64 (R64 x).
Proof. apply generic_format_B2R. Qed.

(** Rounding of a sum is relative to the result (no underflow in sums). *)
Lemma sum_err (x y : f64) (z : R) : z = rnd64 (R64 x + R64 y) ->
  Rabs (R64 x + R64 y - z) <= / 2 ^ 53 * Rabs z /\ Rabs (R64 x + R64 y - z) <= / 2 ^ 53 * Rabs (R64 x + R64 y).
Proof.
  intros ->. split.
  - destruct (FLT_plus_error_N_round_ex radix2 (SpecFloat.emin prec64 emax64) prec64 (fun n => negb (Z.even n)) (R64 x) (R64 y)
      (format_R64 x) (format_R64 y)) as (eps & He & E). rewrite u_ro_val in He.
    change (round radix2 (FLT_exp (SpecFloat.emin prec64 emax64) prec64) ZnearestE (R64 x + R64 y)) with (rnd64 (R64 x + R64 y)) in E.
    set (z := rnd64 (R64 x + R64 y)) in *. rewrite E. replace (z * (1 + eps) - z) with (eps * z) by ring.
    rewrite Rabs_mult. apply Rmult_le_compat_r; [apply Rabs_pos|exact He].
  - destruct (FLT_plus_error_N_ex radix2 (SpecFloat.emin prec64 emax64) prec64 (fun n => negb (Z.even n)) (R64 x) (R64 y)
      (format_R64 x) (format_R64 y)) as (eps & He & E). rewrite u_ro_val in He.
    change (round radix2 (FLT_exp (SpecFloat.emin prec64 emax64) prec64) ZnearestE (R64 x + R64 y)) with (rnd64 (R64 x + R64 y)) in E.
    rewrite E. set (s := R64 x + R64 y). replace (s - s * (1 + eps)) with (- eps * s) by ring.
    rewrite Rabs_mult, Rabs_Ropp. apply Rmult_le_compat_r; [apply Rabs_pos|].
    eapply Rle_trans; [exact He|]. lra.
Qed.
Lemma diff_err (x y : f64) (z : R) : z = rnd64 (R64 x - R64 y) -> Rabs (R64 x - R64 y - z) <= / 2 ^ 53 * Rabs z.
Proof.
  intros E. assert (Ey : - R64 y = R64 (Bopp y)) by (symmetry; apply B2R_Bopp).
  unfold Rminus in E |- *. rewrite Ey in E |- *. exact (proj1 (sum_err x (Bopp y) z E)).
Qed.

(** One row minus another, one row plus another. *)
Lemma vsub_row a b : finite_row (vsub a b) -> finite_row a /\ finite_row b /\
  forall c, In c components -> Rabs (R64 (c a) - R64 (c b) - R64 (c (vsub a b))) <= / 2 ^ 53 * Rabs (R64 (c (vsub a b))).
Proof.
  intros F. assert (Q : forall c, In c components -> is_finite (c a) = true /\ is_finite (c b) = true /\
    R64 (c (vsub a b)) = rnd64 (R64 (c a) - R64 (c b))).
  { intros c Hc. pose proof (F c Hc) as Fc.
    destruct Hc as [<-|[<-|[<-|[<-|[]]]]]; cbn [vsub vx vy vz vE] in *; now apply fsub_finite_inv. }
  repeat split; try (intros c Hc; apply (Q c Hc)). intros c Hc. apply diff_err. apply (Q c Hc).
Qed.
Lemma vadd_row a b : finite_row (vadd a b) -> finite_row a /\ finite_row b /\
  forall c, In c components -> Rabs (R64 (c a) + R64 (c b) - R64 (c (vadd a b))) <= / 2 ^ 53 * Rabs (R64 (c a) + R64 (c b)).
Proof.
  intros F. assert (Q : forall c, In c components -> is_finite (c a) = true /\ is_finite (c b) = true /\
    R64 (c (vadd a b)) = rnd64 (R64 (c a) + R64 (c b))).
  { intros c Hc. pose proof (F c Hc) as Fc.
    destruct Hc as [<-|[<-|[<-|[<-|[]]]]]; cbn [vadd vx vy vz vE] in *; now apply fadd_finite_inv. }
  repeat split; try (intros c Hc; apply (Q c Hc)). intros c Hc. apply sum_err. apply (Q c Hc).
Qed.

Section Chain.
  Context (sq sn cs : f64 -> f64) (boost : v4 -> v4 -> v4) (rest_energy mass : v4 -> f64).

  (** Rows of a chain of decays: each pair of products is split off the row left over before. *)
  Inductive splits : v4 -> list v4 -> nat -> Prop :=
  | splits_nil q : splits q [] 0
  | splits_cons q a l n : splits (vsub q a) l n -> splits q (a :: vsub q a :: l) (S n).

  Lemma decays_splits ds : forall ps q l,
    decays64 sq sn cs boost rest_energy mass ds ps q = Ok (Some l) -> splits q l (length ds).
  Proof.
    induction ds as [|d ds IH]; intros ps q l E; cbn [decays64] in E.
    - assert (l = []) by congruence. subst l. constructor.
    - destruct ps as [|[[ex th] ph] ps]; [discriminate E|].
      destruct (negb _); [discriminate E|]. unfold decay_calculate64 in E. cbv zeta in E.
      destruct (fltb _ _); [discriminate E|]. cbn [bind] in E. unfold two_body in E. cbv zeta in E. cbn [fst snd] in E.
      match type of E with context [vsub q ?x] => set (a := x) in * end.
      destruct (decays64 _ _ _ _ _ _ ds ps (vsub q a)) as [[l'|]|x] eqn:D; cbn [bind] in E; try discriminate E.
      assert (l = a :: vsub q a :: l') by congruence. subst l. cbn [length]. constructor. now apply IH with ps.
  Qed.

  Lemma splits_finite q l n : splits q l n -> finite_row (last l q) -> finite_row q /\ Forall finite_row l.
  Proof.
    induction 1 as [q|q a l n Sp IH]; intros F.
    - now split.
    - assert (El : last (a :: vsub q a :: l) q = last l (vsub q a)).
      { now rewrite !last_cons. }
      rewrite El in F. destruct (IH F) as [Fq Fl].
      destruct (vsub_row q a Fq) as (Q1 & Q2 & _). split; [exact Q1|]. now constructor; [|constructor].
  Qed.

  Lemma splits_step q l n : splits q l n -> finite_row (last l q) -> length l = (2 * n)%nat /\
    forall j, (j < n)%nat -> forall c, In c components ->
      Rabs (R64 (c (nth (2 * j) (q :: l) vzero)) - R64 (c (nth (2 * j) l vzero)) - R64 (c (nth (2 * j + 1) l vzero)))
      <= / 2 ^ 53 * Rabs (R64 (c (nth (2 * j + 1) l vzero))).
  Proof.
    intros Sp F. pose proof (splits_finite q l n Sp F) as [_ Fa]. clear F. revert Fa.
    induction Sp as [q|q a l n Sp IH]; intros Fa.
    - split; [reflexivity|]. intros j Hj. lia.
    - inversion Fa as [|? ? F1 Fa']. subst. inversion Fa' as [|? ? F2 Fa'']. subst.
      destruct (IH Fa'') as [L St]. split; [cbn [length]; lia|].
      intros [|j] Hj c Hc.
      + cbn [Nat.mul Nat.add nth]. now apply (vsub_row q a F2).
      + replace (2 * S j)%nat with (S (S (2 * j))) by lia. replace (S (S (2 * j)) + 1)%nat with (S (S (2 * j + 1))) by lia.
        change (nth (S (S (2 * j))) (q :: a :: vsub q a :: l) vzero) with (nth (2 * j) (vsub q a :: l) vzero).
        change (nth (S (S (2 * j))) (a :: vsub q a :: l) vzero) with (nth (2 * j) l vzero).
        change (nth (S (S (2 * j + 1))) (a :: vsub q a :: l) vzero) with (nth (2 * j + 1) l vzero).
        apply St; [lia|exact Hc].
  Qed.

  (** C67: if the last row of an accepted event is finite then all rows are, and every component
      of the four-momentum is conserved to relative 2^-53 in each step; the final products (the
      default nuclei of the simulation) carry the initial four-momentum up to the sum of these. *)
  Theorem C67_conservation_binary64 r ds T th ph ex ps rows (zs : list Z) :
    event64 sq sn cs boost rest_energy mass r ds T th ph ex ps = Ok (Some rows) ->
    finite_row (last rows vzero) -> length zs = length rows ->
    let row i := nth i rows vzero in
    length rows = (4 + 2 * length ds)%nat /\ Forall finite_row rows /\
    forall c, In c components ->
      let val i := R64 (c (row i)) in
      Rabs (val 0%nat + val 1%nat - (val 2%nat + val 3%nat))
        <= / 2 ^ 53 * (Rabs (val 0%nat + val 1%nat) + Rabs (val 3%nat)) /\
      (forall j, (j < length ds)%nat ->
         Rabs (val (3 + 2 * j)%nat - val (4 + 2 * j)%nat - val (5 + 2 * j)%nat) <= / 2 ^ 53 * Rabs (val (5 + 2 * j)%nat)) /\
      Rabs (val 0%nat + val 1%nat - total (map (fun i => val (Z.to_nat i)) (nuclei_to_sim None zs)))
        <= / 2 ^ 53 * (Rabs (val 0%nat + val 1%nat) +
                       total (map (fun j => Rabs (val (3 + 2 * j)%nat)) (seq 0 (S (length ds))))).
  Proof.
    intros E F Lz row. unfold event64 in E. destruct (negb _); [discriminate E|].
    destruct (reaction_calculate64 _ _ _ _ _ r T th ph ex) as [[[[t p] e] q]|x] eqn:C; [|discriminate E].
    cbn [bind] in E. destruct (decays64 _ _ _ _ _ _ ds ps q) as [[l|]|x] eqn:D; try discriminate E. cbn [bind] in E.
    assert (Er : rows = t :: p :: e :: q :: l) by congruence. clear E.
    assert (Q : q = vsub (vadd t p) e).
    { unfold reaction_calculate64 in C. cbv zeta in C. destruct (feqb _ _); [discriminate C|].
      destruct (fltb _ _); [discriminate C|]. unfold two_body in C. cbv zeta in C.
      apply (f_equal (fun r => match r with Ok a => a | Err _ => (vzero, vzero, vzero, vzero) end)) in C.
      pose proof (f_equal (fun x => snd x) C) as C4. pose proof (f_equal (fun x => snd (fst x)) C) as C3.
      pose proof (f_equal (fun x => snd (fst (fst x))) C) as C2. pose proof (f_equal (fun x => fst (fst (fst x))) C) as C1.
      cbn [fst snd] in C1, C2, C3, C4. rewrite <- C1, <- C2, <- C4, <- C3. reflexivity. }
    pose proof (decays_splits ds ps q l D) as Sp.
    assert (El : last rows vzero = last l q).
    { now rewrite Er, !last_cons. }
    rewrite El in F. destruct (splits_finite q l _ Sp F) as [Fq Fl].
    destruct (splits_step q l _ Sp F) as [L St].
    rewrite Q in Fq. destruct (vsub_row _ _ Fq) as (F0 & Fe & R1). destruct (vadd_row _ _ F0) as (Ft & Fp & R0).
    rewrite <- Q in *.
    split; [rewrite Er; cbn [length]; lia|].
    split. { rewrite Er. repeat (constructor; [assumption|]). exact Fl. }
    intros c Hc val.
    assert (V0 : val 0%nat = R64 (c t)) by (unfold val, row; rewrite Er; reflexivity).
    assert (V1 : val 1%nat = R64 (c p)) by (unfold val, row; rewrite Er; reflexivity).
    assert (V2 : val 2%nat = R64 (c e)) by (unfold val, row; rewrite Er; reflexivity).
    assert (V3 : val 3%nat = R64 (c q)) by (unfold val, row; rewrite Er; reflexivity).
    assert (First : Rabs (val 0%nat + val 1%nat - (val 2%nat + val 3%nat))
        <= / 2 ^ 53 * (Rabs (val 0%nat + val 1%nat) + Rabs (val 3%nat))).
    { rewrite V0, V1, V2, V3. pose proof (R0 c Hc) as A0. pose proof (R1 c Hc) as A1.
      replace (R64 (c t) + R64 (c p) - (R64 (c e) + R64 (c q))) with
        ((R64 (c t) + R64 (c p) - R64 (c (vadd t p))) + (R64 (c (vadd t p)) - R64 (c e) - R64 (c q))) by ring.
      eapply Rle_trans; [apply Rabs_triang|]. lra. }
    assert (Steps : forall j, (j < length ds)%nat ->
         Rabs (val (3 + 2 * j)%nat - val (4 + 2 * j)%nat - val (5 + 2 * j)%nat) <= / 2 ^ 53 * Rabs (val (5 + 2 * j)%nat)).
    { intros j Hj. specialize (St j Hj c Hc).
      assert (W1 : val (3 + 2 * j)%nat = R64 (c (nth (2 * j) (q :: l) vzero))) by (unfold val, row; rewrite Er; reflexivity).
      assert (W2 : val (4 + 2 * j)%nat = R64 (c (nth (2 * j) l vzero))) by (unfold val, row; rewrite Er; reflexivity).
      assert (W3 : val (5 + 2 * j)%nat = R64 (c (nth (2 * j + 1) l vzero))).
      { unfold val, row. rewrite Er. replace (5 + 2 * j)%nat with (4 + (2 * j + 1))%nat by lia. reflexivity. }
      rewrite W1, W2, W3. exact St. }
    split; [exact First|]. split; [exact Steps|].
    assert (Ln : Z.of_nat (length zs) = (4 + 2 * Z.of_nat (length ds))%Z).
    { rewrite Lz, Er. cbn [length]. lia. }
    unfold nuclei_to_sim, zrange2. rewrite Ln, map_app, total_app.
    replace (Z.to_nat ((4 + 2 * Z.of_nat (length ds) - 2 + 1) / 2)) with (Datatypes.S (length ds)).
    2:{ replace (4 + 2 * Z.of_nat (length ds) - 2 + 1)%Z with (1 + (Z.of_nat (length ds) + 1) * 2)%Z by lia.
        rewrite Z.div_add by lia. change (1 / 2)%Z with 0%Z. lia. }
    rewrite map_map. cbn [map total fold_right].
    replace (Z.to_nat (4 + 2 * Z.of_nat (length ds) - 1)) with (3 + 2 * length ds)%nat by lia.
    rewrite (map_ext _ (fun i => val (2 + 2 * i)%nat)) by (intros i; f_equal; lia).
    fold (total (map (fun i => val (2 + 2 * i)%nat) (seq 0 (Datatypes.S (length ds))))).
    clear -First Steps. revert Steps. generalize (length ds). intros n Steps.
    assert (Tel : forall m, (m <= n)%nat ->
      Rabs (val 0%nat + val 1%nat - (total (map (fun i => val (2 + 2 * i)%nat) (seq 0 (Datatypes.S m))) + val (3 + 2 * m)%nat))
      <= / 2 ^ 53 * (Rabs (val 0%nat + val 1%nat) + total (map (fun j => Rabs (val (3 + 2 * j)%nat)) (seq 0 (Datatypes.S m))))).
    { induction m as [|m IH]; intros Hm.
      - cbn [seq map total fold_right Nat.mul Nat.add]. rewrite !Rplus_0_r. exact First.
      - rewrite (seq_S (Datatypes.S m) 0), !map_app, !total_app. cbn [map total fold_right]. rewrite !Rplus_0_r, !Nat.add_0_l.
        fold (total (map (fun i => val (2 + 2 * i)%nat) (seq 0 (Datatypes.S m)))).
        fold (total (map (fun i => Rabs (val (3 + 2 * i)%nat)) (seq 0 (Datatypes.S m)))).
        set (A := total (map (fun i => val (2 + 2 * i)%nat) (seq 0 (Datatypes.S m)))) in *.
        set (B := total (map (fun i => Rabs (val (3 + 2 * i)%nat)) (seq 0 (Datatypes.S m)))) in *.
        specialize (IH ltac:(lia)). specialize (Steps m ltac:(lia)).
        replace (3 + 2 * Datatypes.S m)%nat with (5 + 2 * m)%nat by lia.
        replace (2 + 2 * Datatypes.S m)%nat with (4 + 2 * m)%nat by lia.
        replace (val 0%nat + val 1%nat - (A + val (4 + 2 * m)%nat + val (5 + 2 * m)%nat)) with
          ((val 0%nat + val 1%nat - (A + val (3 + 2 * m)%nat)) + (val (3 + 2 * m)%nat - val (4 + 2 * m)%nat - val (5 + 2 * m)%nat)) by ring.
        eapply Rle_trans; [apply Rabs_triang|]. lra. }
    specialize (Tel n (Nat.le_refl n)). rewrite Rplus_0_r. exact Tel.
  Qed.
End Chain.

(** A library in binary64: the boost formula of the vector library for timelike vectors, squares by
    multiplication, sin and cos replaced by 4/5 and 3/5. *)
Definition ex_mass (p : v4) : f64 :=
  fsqrt (fsub (fmul (vE p) (vE p)) (fadd (fadd (fmul (vx p) (vx p)) (fmul (vy p) (vy p))) (fmul (vz p) (vz p)))).
Definition ex_boost (p a : v4) : v4 :=
  let bx := fdiv (vx p) (vE p) in let b_y := fdiv (vy p) (vE p) in let bz := fdiv (vz p) (vE p) in
  let one := f_of_Z 1 in
  let gam := fdiv one (fsqrt (fsub one (fadd (fadd (fmul bx bx) (fmul b_y b_y)) (fmul bz bz)))) in
  let bgam := fdiv (fmul gam gam) (fadd one gam) in
  let s := fadd (fadd (fmul bx (vx a)) (fmul b_y (vy a))) (fmul bz (vz a)) in
  let k := fadd (fmul bgam s) (fmul gam (vE a)) in
  mkV4 (fadd (vx a) (fmul k bx)) (fadd (vy a) (fmul k b_y)) (fadd (vz a) (fmul k bz)) (fmul gam (fadd (vE a) s)).
Definition ex_event : res (option (list v4)) :=
  event64 (fun x => fmul x x) (fun _ => fdiv (f_of_Z 4) (f_of_Z 5)) (fun _ => fdiv (f_of_Z 3) (f_of_Z 5))
    ex_boost ex_mass ex_mass (mkRM (f_of_Z 20) (f_of_Z 3) (f_of_Z 2) (f_of_Z 18)) [mkDM (f_of_Z 1) (f_of_Z 3)]
    (f_of_Z 11) (f_of_Z 1) (f_of_Z 1) (f_of_Z 0) [(f_of_Z 0, f_of_Z 1, f_of_Z 1)].
Definition all_finite (v : v4) : bool := is_finite (vx v) && is_finite (vy v) && is_finite (vz v) && is_finite (vE v).
Example C67_example : exists rows, ex_event = Ok (Some rows) /\ finite_row (last rows vzero) /\ length rows = 6%nat.
Proof.
  assert (H : match ex_event with Ok (Some rows) => all_finite (last rows vzero) && (length rows =? 6)%nat | _ => false end = true)
    by (vm_compute; reflexivity).
  destruct ex_event as [[rows|]|x]; try discriminate H. exists rows. split; [reflexivity|].
  apply andb_prop in H. destruct H as [H L]. split; [|now apply Nat.eqb_eq].
  unfold all_finite in H. apply andb_prop in H. destruct H as [H H4]. apply andb_prop in H. destruct H as [H H3].
  apply andb_prop in H. destruct H as [H1 H2]. intros c [<-|[<-|[<-|[<-|[]]]]]; assumption.
Qed.

(** A float in units of 2^-200. *)
Definition scaled (x : f64) : option Z :=
  match x with
  | B754_zero _ => Some 0%Z
  | B754_finite s m e _ =>
      if (-200 <=? e)%Z then Some (cond_Zopp s (Zpos m) * 2 ^ (e + 200))%Z else None
  | _ => None
  end.
Lemma scaled_R x z : scaled x = Some z -> R64 x * IZR (2 ^ 200) = IZR z.
Proof.
  destruct x as [s|s| |s m e B]; cbn [scaled]; intros E; try discriminate E.
  - assert (z = 0%Z) by congruence. subst z. cbn [B2R]. apply Rmult_0_l.
  - destruct (Z.leb_spec (-200) e) as [H|H]; [|discriminate E].
    assert (Ez : (cond_Zopp s (Zpos m) * 2 ^ (e + 200))%Z = z) by congruence. rewrite <- Ez. clear Ez E.
    cbn [B2R]. unfold F2R. cbn [Fnum Fexp]. rewrite mult_IZR, (IZR_pow2 (e + 200)), (IZR_pow2 200) by lia.
    rewrite Rmult_assoc, <- bpow_plus. reflexivity.
Qed.

(** C67: the conservation is not exact -- an event of a reaction whose products do not add up to
    the energy that went in. *)
Theorem C67_exact_refuted : exists sq sn cs boost rest_energy mass r ds T th ph ex ps rows,
  event64 sq sn cs boost rest_energy mass r ds T th ph ex ps = Ok (Some rows) /\ Forall finite_row rows /\
  R64 (vE (nth 0 rows vzero)) + R64 (vE (nth 1 rows vzero)) <> R64 (vE (nth 2 rows vzero)) + R64 (vE (nth 3 rows vzero)).
Proof.
  destruct C67_example as (rows & E & F & _).
  do 13 eexists. exists rows. split; [exact E|].
  split. { refine (proj1 (proj2 (C67_conservation_binary64 _ _ _ _ _ _ _ _ _ _ _ _ _ rows (repeat 0%Z (length rows)) E F _))).
           apply repeat_length. }
  clear F. fold ex_event in E.
  assert (H : match ex_event with
    | Ok (Some rows) => match scaled (vE (nth 0 rows vzero)), scaled (vE (nth 1 rows vzero)),
                              scaled (vE (nth 2 rows vzero)), scaled (vE (nth 3 rows vzero)) with
                        | Some a, Some b, Some c, Some d => negb (a + b =? c + d)%Z
                        | _, _, _, _ => false end
    | _ => false end = true) by (vm_compute; reflexivity).
  rewrite E in H. destruct (scaled (vE (nth 0 rows vzero))) as [a|] eqn:A; [|discriminate H].
  destruct (scaled (vE (nth 1 rows vzero))) as [b|] eqn:B; [|discriminate H].
  destruct (scaled (vE (nth 2 rows vzero))) as [c|] eqn:C; [|discriminate H].
  destruct (scaled (vE (nth 3 rows vzero))) as [d|] eqn:D; [|discriminate H].
  apply scaled_R in A, B, C, D. intros Q.
  assert (K : IZR (a + b) = IZR (c + d)) by (rewrite !plus_IZR, <- A, <- B, <- C, <- D, <- !Rmult_plus_distr_r, Q; reflexivity).
  apply eq_IZR in K. rewrite K, Z.eqb_refl in H. discriminate H.
Qed.
Print Assumptions C67_conservation_binary64.
Print Assumptions C67_exact_refuted.
