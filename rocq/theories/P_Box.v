(** P_Box.v -- C104: energy spectra in the laboratory.  For an isotropic (PolarUniform) angular distribution
    the laboratory energy of the ejectile and of the residual is uniform between its two ends. *)
From Coq Require Import ZArith Reals Lia Lra List.
From Flocq Require Import Core BinarySingleNaN.
From Verif Require Import Base F64 F64Bounds Num Nucleus Reaction SpecReaction ReactionProofs P_Reaction P_Curve P_KinF64 KinChain P_KinChain P_Shell Sampling SamplingF64 KinFile P_SamplingF64 P_Frequency P_Isotropy P_ElectronsF64 P_Spot.
Import ListNotations.
Local Open Scope R_scope.

(** ** Counting *)
Lemma tally_le P Q N : (0 <= N)%Z -> (forall k, (0 <= k < N)%Z -> P k = true -> Q k = true) -> (tally N P <= tally N Q)%Z.
Proof.
  intros HN. pattern N. apply natlike_ind; [intros _; rewrite !tally_0; lia|clear N HN; intros N HN IH|exact HN].
  intros I. rewrite <- Z.add_1_r, !tally_step by exact HN. specialize (IH ltac:(intros k K; apply I; lia)).
  specialize (I N ltac:(lia)). destruct (P N), (Q N); try lia; discriminate (I eq_refl).
Qed.

Section Box.
  Context (cos64 acos64 : f64 -> f64) (sum_is_one : list f64 -> bool) (amin amax : f64) (ea : R) (rest : list Z).
  Hypothesis Wa : P_SamplingF64.within (-1) 1 (cos64 amin).
  Hypothesis Wb : P_SamplingF64.within (-1) 1 (cos64 amax).
  (** numpy's arccos is accurate to [ea] and stays in [0, pi]. *)
  Hypothesis Hac : forall c, P_SamplingF64.within (-1) 1 c -> is_finite (acos64 c) = true /\ 0 <= R64 (acos64 c) <= PI /\ Rabs (R64 (acos64 c) - acos (R64 c)) <= ea.
  Notation ca := (R64 (cos64 amin)).
  Notation cb := (R64 (cos64 amax)).
  Hypothesis Hd : / 2 ^ 900 <= ca - cb.
  Notation theta := (sample_polar64 stream cos64 acos64 sum_is_one (PolarUniform64 amin amax)).
  Notation rounding := ((ea + / 2 ^ 49) / (ca - cb) + / 2 ^ 53).

  Lemma gap_pos : 0 < ca - cb.
  Proof using Hd. assert (0 < / 2 ^ 900) by (apply Rinv_0_lt_compat, pow_lt; lra). lra. Qed.
  Lemma theta_value k : (0 <= k < 2 ^ 53)%Z -> exists c, P_SamplingF64.within (-1) 1 c /\ fst (theta (k :: rest)) = Ok (acos64 c).
  Proof using Wa Wb Hd.
    intros K. pose proof gap_pos as G. destruct Wa as (Fa & Ba), Wb as (Fb & Bb).
    assert (Fr : is_finite (fsub (cos64 amin) (cos64 amax)) = true).
    { destruct (fsub_fin (cos64 amin) (cos64 amax) 1) as (_ & Q); auto; [lia|]. change (b2 1) with 2. apply Rabs_le. lra. }
    assert (N : fltb (cos64 amin) (cos64 amax) = false) by (rewrite fltb_R by assumption; apply Rlt_bool_false; lra).
    exists (fadd (cos64 amax) (fmul (fsub (cos64 amin) (cos64 amax)) (unit_of k))).
    destruct (uniform_value (cos64 amax) (cos64 amin) (unit_of k) Fb Fa Fr ltac:(lra) (unit_draw_ok k K)) as (Fx & Bx).
    split; [split; [exact Fx|lra]|].
    cbn [sample_polar64]. unfold rbind at 1. unfold uniform64, rbind, random64. rewrite Fr, N. cbn [negb orb stream ret fst]. reflexivity.
  Qed.

  Lemma share_le P Q : (forall a, is_finite a = true -> 0 <= R64 a <= PI -> P a = true -> Q a = true) -> probability theta rest P <= probability theta rest Q.
  Proof using Wa Wb Hac Hd.
    intros H. unfold probability. rewrite !tally_53. apply Rmult_le_compat_r; [left; apply Rinv_0_lt_compat, pow_lt; lra|]. apply IZR_le.
    apply tally_le; [lia|]. intros k K. destruct (theta_value k K) as (c & Wc & ->). destruct (Hac c Wc) as (F & B & _). now apply H.
  Qed.
  Lemma share_01 P : 0 <= probability theta rest P <= 1.
  Proof using Type. unfold probability. rewrite tally_53. apply tally_share. Qed.

  (** A quantity that is [A + B cos theta] up to [tol]. *)
  Lemma box A B tol x P : 0 < B -> 0 <= tol -> A + B * cb <= x <= A + B * ca ->
    (forall a, is_finite a = true -> 0 <= R64 a <= PI -> x + tol < A + B * cos (R64 a) -> P a = true) ->
    (forall a, is_finite a = true -> 0 <= R64 a <= PI -> A + B * cos (R64 a) <= x - tol -> P a = false) ->
    Rabs (probability theta rest P - (A + B * ca - x) / (B * (ca - cb))) <= rounding + tol / (B * (ca - cb)).
  Proof using Wa Wb Hac Hd.
    intros HB Ht Hx H1 H2. pose proof gap_pos as G. pose proof (proj2 Wa) as Ba. pose proof (proj2 Wb) as Bb.
    set (D := B * (ca - cb)). assert (Dp : 0 < D) by (apply Rmult_lt_0_compat; lra). assert (Di : 0 < / D) by (apply Rinv_0_lt_compat; lra).
    assert (Rp : 0 <= rounding).
    { assert (0 <= ea) by (destruct (Hac _ Wa) as (_ & _ & Q); pose proof (Rabs_pos (R64 (acos64 (cos64 amin)) - acos ca)); lra).
      assert (0 < / 2 ^ 49) by (apply Rinv_0_lt_compat, pow_lt; lra). assert (0 < / 2 ^ 53) by (apply Rinv_0_lt_compat, pow_lt; lra).
      assert (0 < / (ca - cb)) by (apply Rinv_0_lt_compat; lra). assert (0 <= (ea + / 2 ^ 49) / (ca - cb)) by (apply Rmult_le_pos; lra). lra. }
    (* how often the quantity exceeds y *)
    assert (Th : forall y, A + B * cb <= y <= A + B * ca -> exists t, 0 <= t <= PI /\
      (forall a, 0 <= R64 a <= PI -> Rlt_bool (R64 a) t = Rlt_bool y (A + B * cos (R64 a))) /\
      Rabs (probability theta rest (fun th => Rlt_bool (R64 th) t) - (A + B * ca - y) / D) <= rounding).
    { intros y Hy. set (c0 := (y - A) / B). assert (Ec : B * c0 = y - A) by (unfold c0; field; lra).
      assert (C0 : cb <= c0 <= ca) by (split; apply Rmult_le_reg_l with B; lra).
      pose proof (acos_bound c0) as Ab. assert (Ca : cos (acos c0) = c0) by (apply cos_acos; lra).
      exists (acos c0). split; [exact Ab|]. split.
      - intros a Ra. destruct (Rlt_bool_spec y (A + B * cos (R64 a))) as [K|K].
        + apply Rlt_bool_true. destruct (Rlt_or_le (R64 a) (acos c0)) as [Q|Q]; [exact Q|exfalso].
          assert (X : cos (R64 a) <= cos (acos c0)) by (apply cos_decr_1; lra). rewrite Ca in X. apply Rmult_le_compat_l with (r := B) in X; lra.
        + apply Rlt_bool_false. destruct (Rle_or_lt (acos c0) (R64 a)) as [Q|Q]; [exact Q|exfalso].
          assert (X : cos (acos c0) < cos (R64 a)) by (apply cos_decreasing_1; lra). rewrite Ca in X. apply Rmult_lt_compat_l with (r := B) in X; lra.
      - assert (E : (A + B * ca - y) / D = (ca - cos (acos c0)) / (ca - cb)) by (rewrite Ca; unfold D, c0; field; lra). rewrite E.
        apply C94_polar; try assumption; [intros c Wc; apply (Hac c Wc)|rewrite Ca; exact C0]. }
    assert (Up : probability theta rest P <= (A + B * ca - x) / D + tol / D + rounding).
    { destruct (Rle_or_lt (A + B * cb) (x - tol)) as [K|K].
      - destruct (Th (x - tol) ltac:(lra)) as (t & Bt & Et & Pt). apply Rabs_le_inv in Pt.
        apply Rle_trans with (probability theta rest (fun th => Rlt_bool (R64 th) t)).
        + apply share_le. intros a Fa Ra Pa. rewrite Et by exact Ra. destruct (Rlt_bool_spec (x - tol) (A + B * cos (R64 a))) as [Q|Q]; [reflexivity|].
          rewrite (H2 a Fa Ra Q) in Pa. discriminate Pa.
        + replace ((A + B * ca - (x - tol)) / D) with ((A + B * ca - x) / D + tol / D) in Pt by (field; lra). lra.
      - pose proof (share_01 P) as S. assert (1 <= (A + B * ca - x) / D + tol / D); [|lra].
        replace ((A + B * ca - x) / D + tol / D) with ((A + B * ca - x + tol) / D) by (field; lra).
        apply Rmult_le_reg_r with D; [exact Dp|]. unfold Rdiv. rewrite Rmult_assoc, Rinv_l by lra. unfold D. lra. }
    assert (Lo : (A + B * ca - x) / D - tol / D - rounding <= probability theta rest P).
    { destruct (Rle_or_lt (x + tol) (A + B * ca)) as [K|K].
      - destruct (Th (x + tol) ltac:(lra)) as (t & Bt & Et & Pt). apply Rabs_le_inv in Pt.
        apply Rle_trans with (probability theta rest (fun th => Rlt_bool (R64 th) t)).
        + replace ((A + B * ca - (x + tol)) / D) with ((A + B * ca - x) / D - tol / D) in Pt by (field; lra). lra.
        + apply share_le. intros a Fa Ra. rewrite Et by exact Ra. destruct (Rlt_bool_spec (x + tol) (A + B * cos (R64 a))) as [Q|Q]; [|discriminate].
          intros _. now apply H1.
      - pose proof (share_01 P) as S. assert ((A + B * ca - x) / D - tol / D <= 0); [|lra].
        replace ((A + B * ca - x) / D - tol / D) with (- ((x + tol - (A + B * ca)) * / D)) by (field; lra).
        assert (0 <= (x + tol - (A + B * ca)) * / D) by (apply Rmult_le_pos; lra). lra. }
    apply Rabs_le. lra.
  Qed.

  (** ** Exact kinematics at the sampled angle *)
  (** The energy of row [i] of the reaction (2: ejectile, 3: residual) satisfies [f]. *)
  Definition with_energy (r : reaction) (T ex ph : R) (i : nat) (f : R -> bool) (th : f64) : bool :=
    match reaction_calculate r T (R64 th) ph ex with
    | Ok vs => match nth i vs None with Some a => f (qE a) | None => false end
    | Err _ => false
    end.
  (** Laboratory energy of the ejectile emitted at the cosine [c]. *)
  Definition lab_energy (r : reaction) (T ex c : R) : R :=
    (total_energy r T * ejectile_energy_cm r T ex + beam_momentum r T * (ejectile_momentum_cm r T ex * c)) / invariant_mass r T.

  Lemma any_angle r T ex th ph th' ph' vs : reaction_calculate r T th ph ex = Ok vs -> exists vs', reaction_calculate r T th' ph' ex = Ok vs'.
  Proof using Type.
    unfold reaction_calculate. cbv zeta. destruct (pydivR _ _); cbn [bind]; [|intros C; discriminate C].
    destruct (Rlt_bool _ _); [intros C; discriminate C|]. intros _. eexists. reflexivity.
  Qed.

  (** C104: the ejectile's energy is uniform between the energies at the two limiting angles; so is the
      residual's. *)
  Theorem C104_box r T ex ph x vs : possible r T ex -> 0 < T -> reaction_calculate r T 0 0 ex = Ok vs ->
    let hi := lab_energy r T ex ca in let lo := lab_energy r T ex cb in
    lo < hi /\
    (lo <= x <= hi -> Rabs (probability theta rest (with_energy r T ex ph 2 (Rlt_bool x)) - (hi - x) / (hi - lo)) <= rounding) /\
    (total_energy r T - hi <= x <= total_energy r T - lo ->
       Rabs (probability theta rest (with_energy r T ex ph 3 (fun y => Rlt_bool y x)) - (x - (total_energy r T - hi)) / (hi - lo)) <= rounding).
  Proof using Wa Wb Hac Hd.
    intros Ps HT C hi lo. pose proof gap_pos as G. destruct (textbook_facts r T ex Ps) as (M1 & _ & _ & _ & K1 & _ & _ & P1). specialize (P1 HT).
    set (E := total_energy r T) in *. set (p := beam_momentum r T) in *. set (m := invariant_mass r T) in *.
    set (e := ejectile_energy_cm r T ex) in *. set (k := ejectile_momentum_cm r T ex) in *.
    set (A := E * e / m). set (B := p * k / m).
    assert (Bp : 0 < B) by (apply Rdiv_lt_0_compat; [now apply Rmult_lt_0_compat|exact M1]).
    assert (LE : forall c, lab_energy r T ex c = A + B * c) by (intros c; unfold lab_energy, A, B; fold E p m e k; field; lra).
    assert (Eh : hi = A + B * ca) by apply LE. assert (El : lo = A + B * cb) by apply LE.
    assert (Ed : hi - lo = B * (ca - cb)) by (rewrite Eh, El; ring).
    assert (Row : forall th, exists a b, (forall f, with_energy r T ex ph 2 f th = f (qE a)) /\ (forall f, with_energy r T ex ph 3 f th = f (qE b)) /\
              qE a = A + B * cos (R64 th) /\ qE b = E - qE a).
    { intros th. destruct (any_angle r T ex 0 0 (R64 th) ph vs C) as (ws & Cw).
      destruct (C69_laboratory r T (R64 th) ph ex ws Ps Cw) as (a & b & Na & Nb & Ea & _ & _ & _ & Eb & _).
      fold E p m e k in Ea, Eb. exists a, b. unfold with_energy. rewrite Cw, Na, Nb. split; [reflexivity|]. split; [reflexivity|]. split; [|exact Eb].
      rewrite Ea. unfold A, B. field. lra. }
    assert (Z0 : 0 / (B * (ca - cb)) = 0) by (unfold Rdiv; ring).
    split; [assert (0 < B * (ca - cb)) by (now apply Rmult_lt_0_compat); lra|]. rewrite Ed, Eh, El. split.
    - intros Hx. eapply Rle_trans; [apply (box A B 0 x); try lra|rewrite Z0; lra].
      + intros a _ _ K. destruct (Row a) as (y & z & -> & _ & Ey & _). apply Rlt_bool_true. lra.
      + intros a _ _ K. destruct (Row a) as (y & z & -> & _ & Ey & _). apply Rlt_bool_false. lra.
    - intros Hx. replace (x - (E - (A + B * ca))) with (A + B * ca - (E - x)) by ring.
      eapply Rle_trans; [apply (box A B 0 (E - x)); try lra|rewrite Z0; lra].
      + intros a _ _ K. destruct (Row a) as (y & z & _ & -> & Ey & Ez). apply Rlt_bool_true. lra.
      + intros a _ _ K. destruct (Row a) as (y & z & _ & -> & Ey & Ez). apply Rlt_bool_false. lra.
  Qed.

  (** ** In binary64 *)
  Section Rounded.
    Context (sq sn cs : f64 -> f64) (boost : v4 -> v4 -> v4) (rest_energy : v4 -> f64).
    Hypothesis Hsq : pow_ok sq.
    Hypothesis Htr : trig_ok sn cs.
    Definition with_energy64 (r : reaction_masses) (T ph ex : f64) (f : v4 -> v4 -> bool) (th : f64) : bool :=
      match reaction_calculate64 sq sn cs boost rest_energy r T th ph ex with Ok (_, _, v, w) => f v w | Err _ => false end.

    (** C104: the same for the rows that are calculated, up to the rounding of the calculation: between them
        target [t] and projectile [p] make the parent; [tol] as in C84_exact. *)
    Theorem C104_box64 delta eps r T ph ex t p v0 w0 x :
      reaction_calculate64 sq sn cs boost rest_energy r T (f_of_Z 0) ph ex = Ok (t, p, v0, w0) ->
      step_ok boost rest_energy delta eps (vadd t p) (rm_ejectile r) (rm_residual r) ex (f_of_Z 0) ph -> 0 < R64 (vz (vadd t p)) ->
      let P := real (vadd t p) in let M := rest_mass P in let e := breakup_energy M (R64 (rm_ejectile r)) (R64 (rm_residual r) + R64 ex) in
      let k := sqrt (e ^ 2 - R64 (rm_ejectile r) ^ 2) in
      let lab c := (qE P * e + qz P * (k * c)) / M in
      let hi := lab ca in let lo := lab cb in
      let tol := (eps + 2 * delta + 4 * sqrt (5 * delta + / 2 ^ 47) + / 2 ^ 47) * qE P in
      lo < hi /\
      (lo <= x <= hi -> Rabs (probability theta rest (with_energy64 r T ph ex (fun v _ => Rlt_bool x (R64 (vE v)))) - (hi - x) / (hi - lo)) <= rounding + tol / (hi - lo)) /\
      (qE P - hi <= x <= qE P - lo ->
         Rabs (probability theta rest (with_energy64 r T ph ex (fun _ w => Rlt_bool (R64 (vE w)) x)) - (x - (qE P - hi)) / (hi - lo)) <= rounding + tol / (hi - lo)).
    Proof using Wa Wb Hac Hd Hsq Htr.
      intros C O Pz P M e k lab hi lo tol. pose proof gap_pos as G.
      pose proof (second_mass _ _ _ _ _ _ _ _ _ _ O) as (Fs & Ps & Ds & Lt & HC).
      pose proof O as (L & Hdl & He & HM & HE & F1 & F2 & F3 & P1 & P2 & _ & _ & Fp & Bp & _).
      assert (P20 : 2 ^ 20 = 1048576) by ring. assert (P30 : 2 ^ 30 = 1073741824) by ring.
      pose proof L as (FR & TL & _). fold P in TL. pose proof (sqrt_m P TL) as (Mp & Mq). fold (rest_mass P) in Mp, Mq. fold M in Mp, Mq. change (rest_mass (real (vadd t p))) with M in HC, Lt, HM.
      assert (X0 : qx P = 0 /\ qy P = 0).
      { unfold reaction_calculate64 in C. destruct (feqb _ _); [discriminate C|]. destruct (fltb _ _); [discriminate C|].
        destruct (two_body _ _ _ _ _ _ _ _ _ _) as (v' & w').
        pose proof (f_equal (fun r => match r with Ok (a, b, c, d) => a | Err _ => t end) C) as Ct.
        pose proof (f_equal (fun r => match r with Ok (a, b, c, d) => b | Err _ => t end) C) as Cp. cbv beta iota in Ct, Cp.
        unfold P. rewrite <- Ct, <- Cp. split; reflexivity. }
      rewrite P20 in HM. rewrite P30 in HE.
      set (m1 := R64 (rm_ejectile r)) in *. set (y := R64 (rm_residual r) + R64 ex) in *.
      assert (Kp : 0 < k).
      { unfold k. apply sqrt_lt_R0. replace (e ^ 2 - m1 ^ 2) with ((e - m1) * (e + m1)) by ring.
        assert (Q : e - m1 = (M - m1 - y) * (M - m1 + y) / (2 * M)) by (unfold e, breakup_energy; field; lra).
        assert (0 < e - m1) by (rewrite Q; apply Rdiv_lt_0_compat; [apply Rmult_lt_0_compat|]; lra). apply Rmult_lt_0_compat; lra. }
      set (A := qE P * e / M). set (B := qz P * k / M).
      assert (Bpos : 0 < B) by (apply Rdiv_lt_0_compat; [now apply Rmult_lt_0_compat|exact Mp]).
      assert (LE : forall c, lab c = A + B * c) by (intros c; unfold lab, A, B; field; lra).
      assert (Ed : hi - lo = B * (ca - cb)) by (unfold hi, lo; rewrite !LE; ring).
      assert (Row : forall th, is_finite th = true -> 0 <= R64 th <= PI -> exists v w, (forall f, with_energy64 r T ph ex f th = f v w) /\
                Rabs (R64 (vE v) - (A + B * cos (R64 th))) <= tol /\ Rabs (R64 (vE w) - (qE P - (A + B * cos (R64 th)))) <= tol).
      { intros th Fth Bth. pose proof PI_4 as P4. assert (B8 : Rabs (R64 th) <= 8) by (rewrite Rabs_pos_eq; lra).
        pose proof (body_exact sq sn cs boost rest_energy Hsq Htr (vadd t p) (rm_ejectile r) (fadd (rm_residual r) ex) th ph delta eps F1 Fs P1 Ps Fth B8 Fp Bp Hdl He HM HE HC L _ Ds P2 Lt) as (Q1 & Q2).
        assert (Ct : exists v w, reaction_calculate64 sq sn cs boost rest_energy r T th ph ex = Ok (t, p, v, w) /\
                       (v, w) = two_body sq sn cs boost rest_energy (vadd t p) (rm_ejectile r) (fadd (rm_residual r) ex) th ph).
        { clear Q1 Q2. unfold reaction_calculate64 in C |- *. destruct (feqb _ _); [discriminate C|]. destruct (fltb _ _); [discriminate C|].
          destruct (two_body sq sn cs boost rest_energy _ _ _ (f_of_Z 0) _) as (v' & w').
          pose proof (f_equal (fun r => match r with Ok (a, b, c, d) => a | Err _ => t end) C) as Ct.
          pose proof (f_equal (fun r => match r with Ok (a, b, c, d) => b | Err _ => t end) C) as Cp. cbv beta iota in Ct, Cp. rewrite Ct, Cp.
          destruct (two_body sq sn cs boost rest_energy _ _ _ th _) as (v & w). exists v, w. split; reflexivity. }
        destruct Ct as (v & w & Cv & Cw). exists v, w. split; [intros f; unfold with_energy64; rewrite Cv; reflexivity|].
        unfold two_body in Cw. cbv zeta in Cw. pose proof (f_equal fst Cw) as C1. pose proof (f_equal snd Cw) as C2. cbn [fst snd] in C1, C2.
        rewrite <- C1 in Q1, Q2, C2. rewrite <- C2 in Q2. destruct Q1 as (_ & _ & _ & Q1). destruct Q2 as (_ & _ & _ & Q2).
        destruct X0 as (X0 & Y0). 
        assert (EA : (qE P * e + 1 * (qx P * (k * sin (R64 th) * cos (R64 ph)) + qy P * (k * sin (R64 th) * sin (R64 ph)) + qz P * (k * cos (R64 th)))) / M = A + B * cos (R64 th)).
        { rewrite X0, Y0. unfold A, B. field. lra. }
        rewrite <- EA. split; [exact Q1|exact Q2]. }
      assert (Tp : 0 <= tol).
      { destruct (Hac _ Wa) as (F & Bq & _). destruct (Row _ F Bq) as (v & w & _ & Q & _). pose proof (Rabs_pos (R64 (vE v) - (A + B * cos (R64 (acos64 (cos64 amin)))))). lra. }
      split; [assert (0 < B * (ca - cb)) by (now apply Rmult_lt_0_compat); lra|]. rewrite Ed. unfold hi, lo. rewrite !LE. split.
      - intros Hx. apply box; try lra.
        + intros a Fa Ra K. destruct (Row a Fa Ra) as (v & w & -> & Q & _). apply Rabs_le_inv in Q. apply Rlt_bool_true. lra.
        + intros a Fa Ra K. destruct (Row a Fa Ra) as (v & w & -> & Q & _). apply Rabs_le_inv in Q. apply Rlt_bool_false. lra.
      - intros Hx. replace (x - (qE P - (A + B * ca))) with (A + B * ca - (qE P - x)) by ring. apply box; try lra.
        + intros a Fa Ra K. destruct (Row a Fa Ra) as (v & w & -> & _ & Q). apply Rabs_le_inv in Q. apply Rlt_bool_true. lra.
        + intros a Fa Ra K. destruct (Row a Fa Ra) as (v & w & -> & _ & Q). apply Rabs_le_inv in Q. apply Rlt_bool_false. lra.
    Qed.
  End Rounded.
End Box.

(** ** Averages over all directions *)
Lemma sum_to_index N : (0 <= N)%Z -> sum_to N (fun k => IZR k) = IZR N * (IZR N - 1) / 2.
Proof.
  intros HN. revert N HN. apply natlike_ind; [rewrite sum_to_0; cbn; lra|]. intros N HN IH. rewrite <- Z.add_1_r, sum_to_step by exact HN. rewrite IH, plus_IZR. field.
Qed.
(** A quantity [A + bx sin th cos ph + by sin th sin ph + bz cos th]: its average over directions that are
    equally spaced in [ph] and in [cos th] from -1 to 1. *)
Lemma average N (f : Z -> Z -> R) (s c C S : Z -> R) A bx b_y bz d1 d2 : (0 < N)%Z -> 0 <= d1 -> 0 <= d2 ->
  (forall k l, (0 <= k < N)%Z -> (0 <= l < N)%Z -> Rabs (f k l - (A + bz * c k + s k * (bx * C l + b_y * S l))) <= d1) ->
  sum_to N C = 0 -> sum_to N S = 0 -> (forall k, (0 <= k < N)%Z -> Rabs (c k - (-1 + 2 * (IZR k / IZR N))) <= d2) ->
  Rabs (sum_to N (fun k => sum_to N (f k)) / (IZR N * IZR N) - A) <= d1 + Rabs bz * (d2 + / IZR N).
Proof.
  intros HN H1 H2 F SC SS Cc. assert (Np : 0 < IZR N) by (apply (IZR_lt 0); exact HN). assert (N0 : (0 <= N)%Z) by lia.
  assert (Ip : 0 < / IZR N) by (apply Rinv_0_lt_compat; exact Np).
  assert (In1 : forall k, (0 <= k < N)%Z -> Rabs (sum_to N (f k) - IZR N * (A + bz * (-1 + 2 * (IZR k / IZR N)))) <= IZR N * (d1 + Rabs bz * d2)).
  { intros k K.
    assert (T : sum_to N (fun l => (A + bz * c k) * 1 + s k * (bx * C l + b_y * S l)) = IZR N * (A + bz * c k)).
    { rewrite (sum_to_lin N (fun _ => 1) (fun l => bx * C l + b_y * S l)), sum_to_lin, sum_to_const, SC, SS by exact N0. ring. }
    pose proof (sum_to_close N (f k) (fun l => (A + bz * c k) * 1 + s k * (bx * C l + b_y * S l)) d1 N0 ltac:(intros l L; rewrite Rmult_1_r; apply F; assumption)) as B.
    rewrite T in B. specialize (Cc k K).
    replace (sum_to N (f k) - IZR N * (A + bz * (-1 + 2 * (IZR k / IZR N)))) with
      ((sum_to N (f k) - IZR N * (A + bz * c k)) + IZR N * (bz * (c k - (-1 + 2 * (IZR k / IZR N))))) by ring.
    eapply Rle_trans; [apply Rabs_triang|]. rewrite !Rabs_mult, (Rabs_pos_eq (IZR N)) by lra.
    assert (Rabs bz * Rabs (c k - (-1 + 2 * (IZR k / IZR N))) <= Rabs bz * d2) by (apply Rmult_le_compat_l; [apply Rabs_pos|exact Cc]).
    assert (IZR N * (Rabs bz * Rabs (c k - (-1 + 2 * (IZR k / IZR N)))) <= IZR N * (Rabs bz * d2)) by (apply Rmult_le_compat_l; lra). lra. }
  pose proof (sum_to_close N (fun k => sum_to N (f k)) (fun k => (IZR N * (A - bz)) * 1 + (2 * bz) * IZR k) (IZR N * (d1 + Rabs bz * d2)) N0
    ltac:(intros k K; cbv beta; replace (IZR N * (A - bz) * 1 + 2 * bz * IZR k) with (IZR N * (A + bz * (-1 + 2 * (IZR k / IZR N)))) by (field; lra); exact (In1 k K))) as B.
  rewrite (sum_to_lin N (fun _ => 1) (fun k => IZR k)), sum_to_const, sum_to_index in B by exact N0.
  set (X := sum_to N (fun k => sum_to N (f k))) in *. clearbody X. set (n := IZR N) in *. clearbody n. clear - B Np Ip.
  replace (n * (A - bz) * (n * 1) + 2 * bz * (n * (n - 1) / 2)) with (n * n * A - n * bz) in B by field.
  replace (X / (n * n) - A) with ((X - (n * n * A - n * bz)) * / (n * n) + - (bz * / n)) by (field; lra).
  eapply Rle_trans; [apply Rabs_triang|]. rewrite Rabs_Ropp, !Rabs_mult, (Rabs_pos_eq (/ n)) by lra.
  assert (Nn : 0 < / (n * n)) by (apply Rinv_0_lt_compat, Rmult_lt_0_compat; lra). rewrite (Rabs_pos_eq (/ (n * n))) by lra.
  apply Rmult_le_compat_r with (r := / (n * n)) in B; [|lra].
  replace (n * (n * (d1 + Rabs bz * d2)) * / (n * n)) with (d1 + Rabs bz * d2) in B by (field; lra). lra.
Qed.

(** ** The products of a decay as functions of the direction *)
Definition nx (th ph : R) : R := sin th * cos ph.
Definition ny (th ph : R) : R := sin th * sin ph.
(** Energy and momentum of the first product in the rest frame. *)
Definition first_energy (d : decay) (P : p4) (ex : R) : R := breakup_energy (rest_mass P) (n_mass (d_res1 d)) (n_mass (d_res2 d) + ex).
Definition first_momentum (d : decay) (P : p4) (ex : R) : R := sqrt (first_energy d P ex ^ 2 - n_mass (d_res1 d) ^ 2).
Lemma decay_rows d P th ph ex : timelike P -> 0 <= n_mass (d_res1 d) -> 0 <= n_mass (d_res2 d) + ex -> decay_allowed d P ex = true ->
  let M := rest_mass P in let e := first_energy d P ex in let k := first_momentum d P ex in
  let s := k * (qx P * nx th ph + qy P * ny th ph + qz P * cos th) in
  exists a b, decay_calculate d P th ph ex = Ok [Some P; Some a; Some b] /\
    qE a = (qE P * e + s) / M /\ qx a = k * nx th ph + (s / (qE P + M) + e) / M * qx P /\
    qy a = k * ny th ph + (s / (qE P + M) + e) / M * qy P /\ qz a = k * cos th + (s / (qE P + M) + e) / M * qz P /\
    b = psub P a.
Proof.
  intros TL H1 H2 A M e k s. unfold decay_allowed, decay_calculate in *. rewrite M_timelike in * by auto.
  set (m1 := n_mass (d_res1 d)) in *. set (m2 := n_mass (d_res2 d)) in *.
  destruct (Rlt_bool_spec 0 (sqrt (mdot P P) - (m1 + m2 + ex))) as [L|]; [|discriminate].
  rewrite Rlt_bool_false by lra.
  rewrite boostCM_eq by auto. cbn [obind]. rewrite lboost_self by auto. cbn [qE].
  assert (HL : m1 + (m2 + ex) < sqrt (mdot P P)) by lra.
  destruct (e_range P m1 (m2 + ex) TL H1 H2 HL) as (E1 & E2 & E3).
  rewrite (osqrt_some _ E3). cbn [obind]. rewrite boost_eq by auto. cbn [obind].
  fold (rest_mass P). fold M.
  assert (Ee : (m1 ^ 2 - (m2 + ex) ^ 2 + M ^ 2) / (2 * M) = e) by (unfold e, first_energy, breakup_energy; fold M m1 m2; unfold Rdiv; ring).
  rewrite Ee. eexists _, _. split; [reflexivity|]. unfold lboost. cbn [qx qy qz qE]. fold (rest_mass P). fold M.
  assert (Ek : sqrt (e ^ 2 - m1 ^ 2) = k) by reflexivity. rewrite Ek.
  assert (Es : 1 * (qx P * (k * sin th * cos ph) + qy P * (k * sin th * sin ph) + qz P * (k * cos th)) = s) by (unfold s, nx, ny; ring).
  rewrite Es. unfold nx, ny. rewrite !Rmult_1_l, !Rmult_assoc. repeat split; try reflexivity.
Qed.

Lemma abs_prod a b c : Rabs a <= b -> Rabs c <= 1 -> Rabs (a * c) <= b.
Proof. intros A C. rewrite Rabs_mult. pose proof (Rabs_pos a). pose proof (Rabs_pos c). apply Rle_trans with (Rabs a * 1); [apply Rmult_le_compat_l; lra|lra]. Qed.

Section Mean.
  Context {H : Type} (nrm : H -> f64 * H) (bw : f64 -> f64 -> H -> f64 * H).
  Context (cos64 sin64 acos64 : f64 -> f64) (pi64 : f64) (sum_is_one : list f64 -> bool) (ea : R).
  Hypothesis cosine : forall x, is_finite x = true -> P_SamplingF64.within (-1) 1 (cos64 x).
  Hypothesis pi_finite : is_finite (fmul pi64 (f_of_Z 2)) = true /\ is_finite (fmul (f_of_Z 2) pi64) = true.
  Hypothesis pi_positive : 1 <= R64 (fmul pi64 (f_of_Z 2)) /\ 1 <= R64 (fmul (f_of_Z 2) pi64).
  Notation pi2 := (fmul pi64 (f_of_Z 2)).
  Hypothesis pi_close : Rabs (R64 pi2 - 2 * PI) <= / 2 ^ 48.
  Hypothesis arccosine : forall c, P_SamplingF64.within (-1) 1 c -> Rabs (R64 (acos64 c) - acos (R64 c)) <= ea.
  Context (beam : f64) (t : option target64) (e : excitation64) (es : list excitation64) (q : polar64) (qs : list polar64) (decays : nat).
  Hypothesis Ht : match t with Some t => target_valid beam t | None => True end.
  Hypothesis (L : length qs = length es) (Fe : Forall excitation_valid (e :: es)) (Fq : Forall (polar_valid cos64 sum_is_one) (q :: qs)).
  Notation made := (made_from nrm bw cos64 sin64 acos64 pi64 sum_is_one beam t e es q qs decays).

  (** The average of [f] over all values of the two draws that make direction [i] of a sample; all other
      draws are those of [d]. *)
  Definition mean (f : sample64 -> R) (i : nat) (d : nat -> Z) (h : H) : R :=
    sum_to (2 ^ 53) (fun k => sum_to (2 ^ 53) (fun l =>
      match made h (set2 d (theta_at t e es q qs i) k (phi_at t e es q qs i) l) with Ok s => f s | Err _ => 0 end)) / (2 ^ 53 * 2 ^ 53).
  (** A component of row [row] of the decay of [P] (1, 2: the products), emitted in direction [i]. *)
  Definition component (comp : p4 -> R) (row : nat) (vs : res (list (option p4))) : R :=
    match vs with Ok vs => match nth row vs None with Some v => comp v | None => 0 end | Err _ => 0 end.
  Definition of_decay (comp : p4 -> R) (row : nat) (dc : decay) (P : p4) (ex : R) (i : nat) (s : sample64) : R :=
    match direction i s with Some (a, b) => component comp row (decay_calculate dc P (R64 a) (R64 b) ex) | None => 0 end.
  (** The same for the reaction (2: ejectile, 3: residual). *)
  Definition of_reaction (comp : p4 -> R) (row : nat) (r : reaction) (T ex : R) (s : sample64) : R :=
    match direction 0 s with Some (a, b) => component comp row (reaction_calculate r T (R64 a) (R64 b) ex) | None => 0 end.

  Lemma azimuth_close l : (0 <= l < 2 ^ 53)%Z -> Rabs (R64 (uval (f_of_Z 0) pi2 l) - direction_of l) <= 13 * / 2 ^ 50.
  Proof using pi_finite pi_positive pi_close.
    clear L. intros K. pose proof (interval_0 pi2 (proj1 pi_finite) (proj1 pi_positive)) as (A1 & A2 & A3 & A4). pose proof (proj1 pi_positive) as P1.
    assert (Z0 : R64 (f_of_Z 0) = 0) by (apply (f_of_Z_R 0); lia). destruct (unit_val _ K) as (_ & Uv). pose proof PI_4 as P4. pose proof pi_close as C. apply Rabs_le_inv in C.
    assert (I9 : / 2 ^ 900 <= 1) by (rewrite <- Rinv_1; apply Rinv_le_contravar; [lra|apply pow_R1_Rle; lra]).
    pose proof (uniform_close (f_of_Z 0) pi2 (unit_of l) A1 A2 A3 ltac:(rewrite Z0; lra) (unit_draw_ok _ K)) as U.
    change (fadd (f_of_Z 0) (fmul (fsub pi2 (f_of_Z 0)) (unit_of l))) with (uval (f_of_Z 0) pi2 l) in U.
    rewrite Z0, Rminus_0_r, Rplus_0_l, Rabs_R0, Rplus_0_l, (Rabs_pos_eq (R64 pi2)), Uv in U by lra.
    unfold direction_of. assert (B : 0 <= IZR l / 2 ^ 53 <= 1).
    { destruct (unit_draw_ok _ K) as (_ & B). rewrite Uv in B. assert (0 < / 2 ^ 53) by (apply Rinv_0_lt_compat, pow_lt; lra). lra. }
    set (v := IZR l / 2 ^ 53) in *. set (p2 := R64 pi2) in *. set (th := R64 (uval (f_of_Z 0) pi2 l)) in *.
    replace (th - 2 * PI * v) with ((th - p2 * v) + (p2 - 2 * PI) * v) by ring. eapply Rle_trans; [apply Rabs_triang|].
    rewrite Rabs_mult, (Rabs_pos_eq v) by lra.
    assert (X : Rabs (p2 - 2 * PI) * v <= / 2 ^ 48 * 1) by (apply Rmult_le_compat; [apply Rabs_pos|lra|exact pi_close|lra]).
    assert (Y : / 2 ^ 50 * p2 <= / 2 ^ 50 * 9) by (apply Rmult_le_compat_l; lra).
    lra.
  Qed.

  (** The average of a quantity that is linear in the unit vector of the direction. *)
  Lemma mean_linear f i d h amin amax A wx wy wz W : valid d -> nth_error (q :: qs) i = Some (PolarUniform64 amin amax) -> (i <= decays)%nat ->
    2 - / 2 ^ 49 <= R64 (cos64 amin) - R64 (cos64 amax) -> 0 <= W -> Rabs wx <= W -> Rabs wy <= W -> Rabs wz <= W ->
    (forall s a b, direction i s = Some (a, b) -> f s = A + wx * nx (R64 a) (R64 b) + wy * ny (R64 a) (R64 b) + wz * cos (R64 a)) ->
    Rabs (mean f i d h - A) <= W * (ea + / 2 ^ 45).
  Proof using cosine pi_finite pi_positive pi_close arccosine Ht L Fe Fq.
    intros Vd Ni Hi Hc HW Hx Hy Hz Hf.
    assert (Pv : polar_valid cos64 sum_is_one (PolarUniform64 amin amax)) by (rewrite Forall_forall in Fq; apply Fq; eapply nth_error_In; eassumption).
    cbn [polar_valid] in Pv. destruct Pv as (F1 & F2 & Lc). pose proof (cosine _ F1) as C1. pose proof (cosine _ F2) as C2.
    destruct C1 as (Fc1 & B1). destruct C2 as (Fc2 & B2). set (ca := R64 (cos64 amin)) in *. set (cb := R64 (cos64 amax)) in *.
    assert (Fr : is_finite (fsub (cos64 amin) (cos64 amax)) = true).
    { destruct (fsub_fin (cos64 amin) (cos64 amax) 1) as (_ & Q); auto; [lia|]. fold ca cb. change (b2 1) with 2. apply Rabs_le. lra. }
    assert (E0 : 0 <= ea).
    { pose proof (arccosine (cos64 amin) (conj Fc1 B1)). pose proof (Rabs_pos (R64 (acos64 (cos64 amin)) - acos (R64 (cos64 amin)))). lra. }
    pose proof (places_apart t e es q qs i _ Ni) as Ap. pose proof (proj1 turn_sums) as SC. pose proof (proj1 (proj2 turn_sums)) as SS. cbv zeta in SC, SS.
    set (T := fun k => R64 (acos64 (uval (cos64 amax) (cos64 amin) k))). set (F := fun l => R64 (uval (f_of_Z 0) pi2 l)).
    assert (I53 : / 2 ^ 53 = / IZR (2 ^ 53)) by (now rewrite dirs).
    (* the cosines of the polar angles *)
    assert (Pol : forall k, (0 <= k < 2 ^ 53)%Z -> Rabs (cos (T k) - (-1 + 2 * (IZR k / IZR (2 ^ 53)))) <= ea + 4 * / 2 ^ 50).
    { intros k K. destruct (uniform_value (cos64 amax) (cos64 amin) (unit_of k) Fc2 Fc1 Fr ltac:(fold ca cb; lra) (unit_draw_ok k K)) as (Fx & Bx).
      assert (I9 : / 2 ^ 900 <= 1) by (rewrite <- Rinv_1; apply Rinv_le_contravar; [lra|apply pow_R1_Rle; lra]).
      pose proof (uniform_close (cos64 amax) (cos64 amin) (unit_of k) Fc2 Fc1 Fr ltac:(fold ca cb; lra) (unit_draw_ok k K)) as U. fold ca cb in U, Bx.
      change (fadd (cos64 amax) (fmul (fsub (cos64 amin) (cos64 amax)) (unit_of k))) with (uval (cos64 amax) (cos64 amin) k) in U, Fx, Bx.
      rewrite (proj2 (unit_val k K)) in U. unfold T. set (c := uval (cos64 amax) (cos64 amin) k) in *.
      assert (Bc : -1 <= R64 c <= 1) by lra. pose proof (arccosine c (conj Fx Bc)) as Ac. pose proof (cos_lipschitz (R64 (acos64 c)) (acos (R64 c))) as Lp. rewrite cos_acos in Lp by lra.
      assert (V : 0 <= IZR k / 2 ^ 53 <= 1).
      { destruct (unit_draw_ok _ K) as (_ & B). rewrite (proj2 (unit_val k K)) in B. assert (0 < / 2 ^ 53) by (apply Rinv_0_lt_compat, pow_lt; lra). lra. }
      rewrite dirs. set (v := IZR k / 2 ^ 53) in *.
      assert (Rabs cb <= 1) by (apply Rabs_le; lra). assert (Ra : Rabs (ca - cb) <= 2) by (apply Rabs_le; lra).
      assert (Q : Rabs (R64 c - (cb + (ca - cb) * v)) <= 2 * / 2 ^ 50).
      { apply Rle_trans with (1 := U). rewrite (Rmult_comm 2). apply Rmult_le_compat_l; [left; apply Rinv_0_lt_compat, pow_lt; lra|].
        assert (Rabs ca <= 1) by (apply Rabs_le; lra). lra. }
      assert (Z : Rabs ((cb + (ca - cb) * v) - (-1 + 2 * v)) <= 2 * / 2 ^ 50).
      { replace ((cb + (ca - cb) * v) - (-1 + 2 * v)) with ((cb + 1) * (1 - v) - (1 - ca) * v) by ring.
        assert (0 <= (cb + 1) * (1 - v) <= (cb + 1) * 1) by (split; [apply Rmult_le_pos|apply Rmult_le_compat_l]; lra).
        assert (0 <= (1 - ca) * v <= (1 - ca) * 1) by (split; [apply Rmult_le_pos|apply Rmult_le_compat_l]; lra).
        apply Rabs_le. lra. }
      apply Rabs_le_inv in Ac. apply Rabs_le_inv in Q. apply Rabs_le_inv in Z. assert (Lp' := Rle_trans _ _ _ Lp (arccosine c (conj Fx Bc))). apply Rabs_le_inv in Lp'.
      apply Rabs_le. lra. }
    assert (I50 : 0 < / 2 ^ 50) by (apply Rinv_0_lt_compat, pow_lt; lra).
    assert (I2 : / 2 ^ 53 <= / 2 ^ 50) by (apply Rinv_le_contravar; [apply pow_lt; lra|apply Rle_pow; [lra|lia]]).
    eapply Rle_trans.
    - unfold mean. rewrite <- !dirs.
      apply (average (2 ^ 53) _ (fun k => sin (T k)) (fun k => cos (T k)) (fun l => cos (direction_of l)) (fun l => sin (direction_of l)) A wx wy wz (W * (26 * / 2 ^ 50)) (ea + 4 * / 2 ^ 50));
        [lia|apply Rmult_le_pos; lra|lra| |exact SC|exact SS|exact Pol].
      intros k l K Kl. set (d' := set2 _ _ _ _ _). pose proof (set2_valid d (theta_at t e es q qs i) k (phi_at t e es q qs i) l Vd K Kl) as Vd'. fold d' in Vd'.
      unfold made_from.
      destruct (C96_draws nrm bw cos64 sin64 acos64 pi64 sum_is_one cosine pi_finite pi_positive d' Vd' beam t e es q qs decays Ht L Fe Fq h) as (s & p & h' & E & _ & _ & Pt & Pp & L1 & L2 & L3).
      rewrite E. cbn [fst].
      assert (Li : (i < S (length qs))%nat) by (apply (proj1 (nth_error_Some (q :: qs) i)); rewrite Ni; discriminate).
      specialize (Hf s). unfold direction in Hf.
      destruct (nth_error (s64_theta s :: s64_decay_thetas s) i) as [a|] eqn:Na; [|apply nth_error_None in Na; cbn [length] in Na; lia].
      destruct (nth_error (s64_phi s :: s64_decay_phis s) i) as [b|] eqn:Nb; [|apply nth_error_None in Nb; cbn [length] in Nb; lia].
      rewrite (Hf a b eq_refl). specialize (Pt i _ a Ni Na). cbn [polar_made] in Pt. specialize (Pp i b Nb). rewrite Pt, Pp. unfold d'. rewrite set2_fst, set2_snd by lia.
      fold (T k) (F l). unfold nx, ny. pose proof (azimuth_close l Kl) as Az. fold (F l) in Az.
      pose proof (cos_lipschitz (F l) (direction_of l)) as Lc'. pose proof (sin_lipschitz (F l) (direction_of l)) as Ls'. pose proof (SIN_bound (T k)) as Sb.
      assert (Sa : Rabs (sin (T k)) <= 1) by (apply Rabs_le; lra).
      match goal with |- Rabs ?x <= _ => replace x with ((wx * (cos (F l) - cos (direction_of l))) * sin (T k) + (wy * (sin (F l) - sin (direction_of l))) * sin (T k)) by ring end.
      eapply Rle_trans; [apply Rabs_triang|].
      assert (X : forall w z, Rabs w <= W -> Rabs z <= 13 * / 2 ^ 50 -> Rabs (w * z * sin (T k)) <= W * (13 * / 2 ^ 50)).
      { intros w z Hw Hz'. apply abs_prod; [|exact Sa]. rewrite Rabs_mult. apply Rmult_le_compat; try apply Rabs_pos; assumption. }
      pose proof (X wx (cos (F l) - cos (direction_of l)) Hx ltac:(lra)). pose proof (X wy (sin (F l) - sin (direction_of l)) Hy ltac:(lra)). lra.
    - rewrite <- I53.
      assert (X : Rabs wz * (ea + 4 * / 2 ^ 50 + / 2 ^ 53) <= W * (ea + 5 * / 2 ^ 50)) by (apply Rmult_le_compat; [apply Rabs_pos|pose proof (Rinv_0_lt_compat (2 ^ 53) ltac:(apply pow_lt; lra)); lra|exact Hz|lra]).
      assert (I45 : / 2 ^ 45 = 32 * / 2 ^ 50) by lra. rewrite I45.
      assert (Y : 0 <= W * / 2 ^ 50) by (apply Rmult_le_pos; lra). lra.
  Qed.

  (** C104: averaged over the directions of an isotropic decay, the first product carries the share
      e/M of the four-momentum of the nucleus that decays (e the energy of the product where the nucleus
      is at rest) and the second one the rest: nothing is emitted preferentially along or across the flight. *)
  Theorem C104_mean i d h amin amax dc P ex : valid d -> nth_error (q :: qs) i = Some (PolarUniform64 amin amax) -> (i <= decays)%nat ->
    2 - / 2 ^ 49 <= R64 (cos64 amin) - R64 (cos64 amax) ->
    timelike P -> 0 <= n_mass (d_res1 dc) -> 0 <= n_mass (d_res2 dc) + ex -> decay_allowed dc P ex = true ->
    let M := rest_mass P in let e := breakup_energy M (n_mass (d_res1 dc)) (n_mass (d_res2 dc) + ex) in
    let tol := sqrt (e ^ 2 - n_mass (d_res1 dc) ^ 2) * (qE P / M) * (ea + / 2 ^ 45) in
    forall comp, In comp [qx; qy; qz; qE] ->
      Rabs (mean (of_decay comp 1 dc P ex i) i d h - e / M * comp P) <= tol /\
      Rabs (mean (of_decay comp 2 dc P ex i) i d h - (1 - e / M) * comp P) <= tol.
  Proof using cosine pi_finite pi_positive pi_close arccosine Ht L Fe Fq.
    intros Vd Ni Hi Hc TL H1 H2 Al M e0 tol comp Ic. unfold tol.
    change (sqrt (e0 ^ 2 - n_mass (d_res1 dc) ^ 2)) with (first_momentum dc P ex). set (k := first_momentum dc P ex).
    assert (K0 : 0 <= k) by apply sqrt_pos. pose proof (sqrt_m P TL) as (Mp & Mq). fold (rest_mass P) in Mp, Mq. fold M in Mp, Mq.
    pose proof TL as (Tl & E0).
    unfold mdot in Mq. cbn [qx qy qz qE] in Mq.
    assert (EM : M <= qE P) by (apply Rsqr_incr_0_var; [unfold Rsqr; nra|lra]).
    assert (Sq : qx P * qx P + qy P * qy P + qz P * qz P = (qE P - M) * (qE P + M)) by nra.
    assert (Ip : 0 < / M) by (apply Rinv_0_lt_compat; lra). assert (Is : 0 < / (qE P + M)) by (apply Rinv_0_lt_compat; lra).
    set (g := / (M * (qE P + M))). assert (Gp : 0 < g) by (apply Rinv_0_lt_compat, Rmult_lt_0_compat; lra).
    assert (Gm : (qE P - M) * (qE P + M) * g = qE P / M - 1) by (unfold g; field; lra).
    (* the coefficients stay below E/M *)
    assert (B1 : forall a b, a * a + b * b <= (qE P - M) * (qE P + M) -> Rabs (k * (a * b * g)) <= k * (qE P / M)).
    { intros a b Q. rewrite Rabs_mult, (Rabs_pos_eq k) by exact K0. apply Rmult_le_compat_l; [exact K0|].
      assert (Rabs (a * b) <= (qE P - M) * (qE P + M)) by (apply Rabs_le; nra).
      rewrite Rabs_mult, (Rabs_pos_eq g) by lra. apply Rle_trans with ((qE P - M) * (qE P + M) * g); [apply Rmult_le_compat_r; lra|lra]. }
    assert (B2 : forall a, a * a <= (qE P - M) * (qE P + M) -> Rabs (k * (1 + a * a * g)) <= k * (qE P / M)).
    { intros a Q. assert (0 <= a * a * g) by (apply Rmult_le_pos; [nra|lra]). assert (a * a * g <= (qE P - M) * (qE P + M) * g) by (apply Rmult_le_compat_r; lra).
      rewrite Rabs_pos_eq by (apply Rmult_le_pos; lra). apply Rmult_le_compat_l; lra. }
    assert (B3 : forall a, a * a <= (qE P - M) * (qE P + M) -> Rabs (k * (a / M)) <= k * (qE P / M)).
    { intros a Q. rewrite Rabs_mult, (Rabs_pos_eq k) by exact K0. apply Rmult_le_compat_l; [exact K0|]. unfold Rdiv. rewrite Rabs_mult, (Rabs_pos_eq (/ M)) by lra.
      apply Rmult_le_compat_r; [lra|]. apply Rabs_le. split; nra. }
    assert (W0 : 0 <= k * (qE P / M)) by (apply Rmult_le_pos; [exact K0|apply Rmult_le_pos; lra]).
    assert (Row : forall a b, exists x y, decay_calculate dc P a b ex = Ok [Some P; Some x; Some y] /\ y = psub P x /\
      qE x = e0 / M * qE P + k * (qx P / M) * nx a b + k * (qy P / M) * ny a b + k * (qz P / M) * cos a /\
      qx x = e0 / M * qx P + k * (1 + qx P * qx P * g) * nx a b + k * (qx P * qy P * g) * ny a b + k * (qx P * qz P * g) * cos a /\
      qy x = e0 / M * qy P + k * (qy P * qx P * g) * nx a b + k * (1 + qy P * qy P * g) * ny a b + k * (qy P * qz P * g) * cos a /\
      qz x = e0 / M * qz P + k * (qz P * qx P * g) * nx a b + k * (qz P * qy P * g) * ny a b + k * (1 + qz P * qz P * g) * cos a).
    { intros a b. destruct (decay_rows dc P a b ex TL H1 H2 Al) as (x & y & D & D1 & D2 & D3 & D4 & Dy). exists x, y.
      fold M in D1, D2, D3, D4. change (first_energy dc P ex) with e0 in D1, D2, D3, D4. fold k in D1, D2, D3, D4.
      split; [exact D|]. split; [exact Dy|]. rewrite D1, D2, D3, D4. unfold g. repeat split; field; lra. }
    assert (Fin : forall (c : p4 -> R) A wx wy wz, (forall x y, c (psub x y) = c x - c y) -> Rabs wx <= k * (qE P / M) -> Rabs wy <= k * (qE P / M) -> Rabs wz <= k * (qE P / M) ->
      (forall a b x y, decay_calculate dc P a b ex = Ok [Some P; Some x; Some y] -> c x = A * c P + wx * nx a b + wy * ny a b + wz * cos a) ->
      Rabs (mean (of_decay c 1 dc P ex i) i d h - A * c P) <= k * (qE P / M) * (ea + / 2 ^ 45) /\
      Rabs (mean (of_decay c 2 dc P ex i) i d h - (1 - A) * c P) <= k * (qE P / M) * (ea + / 2 ^ 45)).
    { intros c A wx wy wz Lc X Y Z Q. split; [apply (mean_linear _ i d h amin amax _ wx wy wz); try assumption|
        apply (mean_linear _ i d h amin amax _ (- wx) (- wy) (- wz)); try assumption; try (rewrite Rabs_Ropp; assumption)];
      intros s a b Ds; unfold of_decay; rewrite Ds; destruct (Row (R64 a) (R64 b)) as (x & y & D & Dy & _); rewrite D; cbn [component nth].
      - now apply Q with y.
      - rewrite Dy, Lc, (Q _ _ _ _ D). ring. }
    assert (Same : forall a b x y x' y', decay_calculate dc P a b ex = Ok [Some P; Some x; Some y] -> decay_calculate dc P a b ex = Ok [Some P; Some x'; Some y'] -> x = x').
    { intros a b x y x' y' D D'. rewrite D in D'. congruence. }
    assert (S1 : qx P * qx P <= (qE P - M) * (qE P + M)) by nra. assert (S2 : qy P * qy P <= (qE P - M) * (qE P + M)) by nra. assert (S3 : qz P * qz P <= (qE P - M) * (qE P + M)) by nra.
    destruct Ic as [<-|[<-|[<-|[<-|[]]]]].
    - apply (Fin qx _ (k * (1 + qx P * qx P * g)) (k * (qx P * qy P * g)) (k * (qx P * qz P * g))); [reflexivity|apply B2|apply B1|apply B1|]; try nra.
      intros a b x y D. destruct (Row a b) as (x' & y' & D' & _ & _ & V & _ & _). rewrite (Same _ _ _ _ _ _ D D'). exact V.
    - apply (Fin qy _ (k * (qy P * qx P * g)) (k * (1 + qy P * qy P * g)) (k * (qy P * qz P * g))); [reflexivity|apply B1|apply B2|apply B1|]; try nra.
      intros a b x y D. destruct (Row a b) as (x' & y' & D' & _ & _ & _ & V & _). rewrite (Same _ _ _ _ _ _ D D'). exact V.
    - apply (Fin qz _ (k * (qz P * qx P * g)) (k * (qz P * qy P * g)) (k * (1 + qz P * qz P * g))); [reflexivity|apply B1|apply B1|apply B2|]; try nra.
      intros a b x y D. destruct (Row a b) as (x' & y' & D' & _ & _ & _ & _ & V). rewrite (Same _ _ _ _ _ _ D D'). exact V.
    - apply (Fin qE _ (k * (qx P / M)) (k * (qy P / M)) (k * (qz P / M))); [reflexivity|apply B3|apply B3|apply B3|]; try nra.
      intros a b x y D. destruct (Row a b) as (x' & y' & D' & _ & V & _ & _ & _). rewrite (Same _ _ _ _ _ _ D D'). exact V.
  Qed.

  (** C104: the same for the reaction, whose parent is target and projectile together. *)
  Theorem C104_mean_reaction d h amin amax r T ex vs : valid d -> q = PolarUniform64 amin amax ->
    2 - / 2 ^ 49 <= R64 (cos64 amin) - R64 (cos64 amax) -> possible r T ex -> reaction_calculate r T 0 0 ex = Ok vs ->
    let P := mkP4 0 0 (beam_momentum r T) (total_energy r T) in let m := invariant_mass r T in let e := ejectile_energy_cm r T ex in
    let tol := ejectile_momentum_cm r T ex * (total_energy r T / m) * (ea + / 2 ^ 45) in
    forall comp, In comp [qx; qy; qz; qE] ->
      Rabs (mean (of_reaction comp 2 r T ex) 0 d h - e / m * comp P) <= tol /\
      Rabs (mean (of_reaction comp 3 r T ex) 0 d h - (1 - e / m) * comp P) <= tol.
  Proof using cosine pi_finite pi_positive pi_close arccosine Ht L Fe Fq.
    intros Vd Eq Hc Ps C P m e0 tol comp Ic. unfold tol. destruct (textbook_facts r T ex Ps) as (M1 & E1 & E2 & P0 & K1 & _).
    fold m in M1, E2. set (E := total_energy r T) in *. set (p := beam_momentum r T) in *. set (k := ejectile_momentum_cm r T ex) in *.
    assert (Ni : nth_error (q :: qs) 0 = Some (PolarUniform64 amin amax)) by (cbn [nth_error]; congruence).
    assert (Row : forall a b, exists vs x y, reaction_calculate r T a b ex = Ok vs /\ nth 2 vs None = Some x /\ nth 3 vs None = Some y /\
      qE x = e0 / m * E + 0 * nx a b + 0 * ny a b + k * (p / m) * cos a /\ qz x = e0 / m * p + 0 * nx a b + 0 * ny a b + k * (E / m) * cos a /\
      qx x = e0 / m * 0 + k * nx a b + 0 * ny a b + 0 * cos a /\ qy x = e0 / m * 0 + 0 * nx a b + k * ny a b + 0 * cos a /\
      qE y = E - qE x /\ qz y = p - qz x /\ qx y = 0 - qx x /\ qy y = 0 - qy x).
    { intros a b. destruct (any_angle r T ex 0 0 a b vs C) as (ws & Cw). destruct (C69_laboratory r T a b ex ws Ps Cw) as (x & y & Nx & Ny & X1 & X2 & X3 & X4 & Y1 & Y2 & Y3 & Y4).
      fold E p m e0 k in X1, X2, X3, X4, Y1, Y2. exists ws, x, y. split; [exact Cw|]. split; [exact Nx|]. split; [exact Ny|]. rewrite Y1, Y2, Y3, Y4, X1, X2, X3, X4. unfold nx, ny.
      repeat split; try (field; lra). }
    assert (EM : m <= E /\ p <= E) by (split; nra). assert (Ip : 0 < / m) by (apply Rinv_0_lt_compat; lra).
    assert (Em : 1 <= E / m) by (apply Rmult_le_reg_r with m; [lra|]; unfold Rdiv; rewrite Rmult_assoc, Rinv_l by lra; lra).
    assert (W0 : 0 <= k * (E / m)) by (apply Rmult_le_pos; lra).
    assert (Z0 : Rabs 0 <= k * (E / m)) by (rewrite Rabs_R0; exact W0).
    assert (Wk : Rabs k <= k * (E / m)) by (rewrite Rabs_pos_eq by lra; rewrite <- (Rmult_1_r k) at 1; apply Rmult_le_compat_l; lra).
    assert (Wp : Rabs (k * (p / m)) <= k * (E / m)).
    { assert (0 <= p / m) by (apply Rmult_le_pos; lra). rewrite Rabs_pos_eq by (apply Rmult_le_pos; lra). apply Rmult_le_compat_l; [lra|]. apply Rmult_le_compat_r; lra. }
    assert (We : Rabs (k * (E / m)) <= k * (E / m)) by (rewrite Rabs_pos_eq; lra).
    assert (Fin : forall (c : p4 -> R) v wx wy wz, Rabs wx <= k * (E / m) -> Rabs wy <= k * (E / m) -> Rabs wz <= k * (E / m) ->
      (forall a b, exists vs x y, reaction_calculate r T a b ex = Ok vs /\ nth 2 vs None = Some x /\ nth 3 vs None = Some y /\
         c x = e0 / m * v + wx * nx a b + wy * ny a b + wz * cos a /\ c y = v - c x) ->
      Rabs (mean (of_reaction c 2 r T ex) 0 d h - e0 / m * v) <= k * (E / m) * (ea + / 2 ^ 45) /\
      Rabs (mean (of_reaction c 3 r T ex) 0 d h - (1 - e0 / m) * v) <= k * (E / m) * (ea + / 2 ^ 45)).
    { intros c v wx wy wz X Y Z Q. split; [apply (mean_linear _ 0 d h amin amax _ wx wy wz); try assumption; try lia|
        apply (mean_linear _ 0 d h amin amax _ (- wx) (- wy) (- wz)); try assumption; try lia; try (rewrite Rabs_Ropp; assumption)];
      intros s a b Ds; unfold of_reaction; rewrite Ds; destruct (Q (R64 a) (R64 b)) as (ws & x & y & D & N2 & N3 & V2 & V3); rewrite D; cbn [component].
      - rewrite N2. exact V2.
      - rewrite N3, V3, V2. ring. }
    destruct Ic as [<-|[<-|[<-|[<-|[]]]]]; cbn [P qx qy qz qE].
    - apply (Fin qx 0 k 0 0); try assumption. intros a b. destruct (Row a b) as (ws & x & y & D & N2 & N3 & _ & _ & V & _ & _ & _ & V' & _). exists ws, x, y. repeat split; assumption.
    - apply (Fin qy 0 0 k 0); try assumption. intros a b. destruct (Row a b) as (ws & x & y & D & N2 & N3 & _ & _ & _ & V & _ & _ & _ & V'). exists ws, x, y. repeat split; assumption.
    - apply (Fin qz p 0 0 (k * (E / m))); try assumption. intros a b. destruct (Row a b) as (ws & x & y & D & N2 & N3 & _ & V & _ & _ & _ & V' & _). exists ws, x, y. repeat split; assumption.
    - apply (Fin qE E 0 0 (k * (p / m))); try assumption. intros a b. destruct (Row a b) as (ws & x & y & D & N2 & N3 & V & _ & _ & _ & V' & _). exists ws, x, y. repeat split; assumption.
  Qed.
End Mean.

(** ** Cases meeting the hypotheses *)
Section Example.
  (** A correctly rounded arccos that does not exceed pi, as that of numpy. *)
  Definition acos_c (c : f64) : f64 := if Rle_bool (R64 (acos_r c)) PI then acos_r c else f_of_R (PI - / 2 ^ 50).
  Lemma acos_c_ok c : P_SamplingF64.within (-1) 1 c -> is_finite (acos_c c) = true /\ 0 <= R64 (acos_c c) <= PI /\ Rabs (R64 (acos_c c) - acos (R64 c)) <= / 2 ^ 49.
  Proof.
    intros W. pose proof (acos_r_near c W) as N. pose proof PI_4 as P4. pose proof PI2_3_2 as P3. unfold PI2 in P3. pose proof (acos_bound (R64 c)) as B.
    assert (V : is_finite (acos_r c) = true /\ 0 <= R64 (acos_r c)).
    { unfold acos_r. destruct (f_of_R_val _ (acos_small (R64 c))) as (F & E). split; [exact F|]. rewrite E. apply rnd64_ge_fmt; [apply generic_format_0|lra]. }
    destruct V as (F & V). unfold acos_c. destruct (Rle_bool_spec (R64 (acos_r c)) PI) as [K|K]; [split; [exact F|]; split; [lra|]; lra|].
    apply Rabs_le_inv in N.
    assert (S : Rabs (PI - / 2 ^ 50) <= 4) by (rewrite Rabs_pos_eq; lra). destruct (f_of_R_val _ S) as (F' & E').
    pose proof (rnd_bound (PI - / 2 ^ 50) 4 S) as Q. rewrite <- E' in Q. Transparent u eta. unfold u, eta in Q. Opaque u eta.
    pose proof (P_ElectronsF64.inv_pow_le 55 1000 ltac:(lia)) as I5. apply Rabs_le_inv in Q. split; [exact F'|]. split; [lra|]. apply Rabs_le. lra.
  Qed.
  Lemma ones_lab c : lab_energy ones 1 0 c = 3 / 2 + c / 2.
  Proof.
    assert (I : invariant_mass ones 1 = sqrt 6) by (unfold invariant_mass, ones, nuc; cbn; f_equal; ring).
    assert (S6 : 0 < sqrt 6) by (apply sqrt_lt_R0; lra). assert (Q6 : sqrt 6 * sqrt 6 = 6) by (apply sqrt_sqrt; lra).
    assert (Ee : ejectile_energy_cm ones 1 0 = sqrt 6 / 2).
    { unfold ejectile_energy_cm. rewrite I. unfold ones, nuc. cbn [r_target r_projectile r_ejectile r_residual n_mass]. field. lra. }
    assert (Pk : beam_momentum ones 1 * ejectile_momentum_cm ones 1 0 = sqrt 6 / 2).
    { unfold ejectile_momentum_cm. rewrite Ee. unfold beam_momentum, ones, nuc. cbn [r_ejectile r_projectile n_mass].
      replace ((sqrt 6 / 2) ^ 2 - 1 ^ 2) with (/ 2) by (replace ((sqrt 6 / 2) ^ 2) with (sqrt 6 * sqrt 6 / 4) by field; rewrite Q6; field).
      rewrite <- sqrt_mult by lra. replace (1 * (1 + 2 * 1) * / 2) with (6 / 2 ^ 2) by field. rewrite sqrt_div_alt by lra. rewrite sqrt_pow2 by lra. reflexivity. }
    unfold lab_energy. rewrite Ee, I, <- !Rmult_assoc, Pk. unfold total_energy, ones, nuc. cbn [r_projectile r_target n_mass]. field. lra.
  Qed.
  Notation iso3 := (sample_polar64 stream cos_r acos_c (fun _ => true) (PolarUniform64 (f_of_Z 0) (f_of_Z 3))).
  Lemma bounds_3 : P_SamplingF64.within (-1) 1 (cos_r (f_of_Z 0)) /\ P_SamplingF64.within (-1) 1 (cos_r (f_of_Z 3)) /\ R64 (cos_r (f_of_Z 0)) = 1 /\ -1 <= R64 (cos_r (f_of_Z 3)) <= 0 /\
    / 2 ^ 900 <= R64 (cos_r (f_of_Z 0)) - R64 (cos_r (f_of_Z 3)).
  Proof.
    destruct iso_cos_3 as (C3 & B3). assert (I9 : / 2 ^ 900 <= 1) by (rewrite <- Rinv_1; apply Rinv_le_contravar; [lra|apply pow_R1_Rle; lra]).
    split; [apply cos_r_unit, f_of_Z_fin; lia|]. split; [apply cos_r_unit, f_of_Z_fin; lia|]. rewrite iso_cos_0, C3. split; [reflexivity|]. split; [exact B3|lra].
  Qed.
  Lemma rounding_small D x : 1 <= D -> x <= / 2 ^ 20 -> (/ 2 ^ 49 + / 2 ^ 49) / D + / 2 ^ 53 + x <= / 1000.
  Proof.
    intros H X. assert ((/ 2 ^ 49 + / 2 ^ 49) / D <= / 2 ^ 49 + / 2 ^ 49); [|lra].
    apply Rle_trans with ((/ 2 ^ 49 + / 2 ^ 49) * / 1); [|lra]. apply Rmult_le_compat_l; [lra|]. apply Rinv_le_contravar; lra.
  Qed.

  (** Equal masses, a beam of the energy 1: the ejectile has an energy of 3/2 + cos/2. *)
  Example C104_box_example rest :
    Rabs (probability iso3 rest (with_energy ones 1 0 1 2 (Rlt_bool (3 / 2))) - 1 / (1 - R64 (cos_r (f_of_Z 3)))) <= / 1000.
  Proof.
    destruct C69_example as (Ps & _). destruct C39_example as (vs' & _ & C). destruct (any_angle ones 1 0 _ _ 0 0 vs' C) as (vs & C0).
    destruct bounds_3 as (Wa & Wb & E1 & B3 & Hd).
    destruct (C104_box cos_r acos_c (fun _ => true) (f_of_Z 0) (f_of_Z 3) (/ 2 ^ 49) rest Wa Wb acos_c_ok Hd ones 1 0 1 (3 / 2) vs Ps ltac:(lra) C0) as (_ & Q & _).
    rewrite !ones_lab, E1 in Q. specialize (Q ltac:(lra)). set (cb := R64 (cos_r (f_of_Z 3))) in *.
    replace ((3 / 2 + 1 / 2 - 3 / 2) / (3 / 2 + 1 / 2 - (3 / 2 + cb / 2))) with (1 / (1 - cb)) in Q by (field; lra).
    eapply Rle_trans; [exact Q|]. pose proof (rounding_small (1 - cb) 0 ltac:(lra) ltac:(lra)). lra.
  Qed.

  (** In binary64: 150 MeV on 250 MeV at 100 MeV makes 150 MeV and 200 MeV + 50 MeV; the parent is (0, 0, 200, 500). *)
  Definition rm_box : reaction_masses := mkRM (f_of_Z 250) (f_of_Z 150) (f_of_Z 150) (f_of_Z 200).
  Example C104_box64_example rest : exists mid, 170 <= mid <= 500 /\
    Rabs (probability iso3 rest (with_energy64 (fun x => fmul x x) sin_r cos_r boost_r rest_r rm_box (f_of_Z 100) (f_of_Z 1) (f_of_Z 50) (fun v _ => Rlt_bool mid (R64 (vE v))))
          - 1 / (1 - R64 (cos_r (f_of_Z 3)))) <= / 1000.
  Proof.
    assert (RZ : forall n, (Z.abs n <= 2 ^ 53)%Z -> R64 (f_of_Z n) = IZR n) by (intros n N; apply f_of_Z_R; exact N).
    assert (FZ : forall n, (Z.abs n <= 2 ^ 53)%Z -> is_finite (f_of_Z n) = true) by (intros n N; apply f_of_Z_fin; exact N).
    set (t := mkV4 (f_of_Z 0) (f_of_Z 0) (f_of_Z 0) (f_of_Z 250)).
    set (p := mkV4 (f_of_Z 0) (f_of_Z 0) (fsqrt (fmul (f_of_Z 100) (fadd (f_of_Z 100) (fmul (f_of_Z 2) (f_of_Z 150))))) (fadd (f_of_Z 100) (f_of_Z 150))).
    assert (C : exists v w, reaction_calculate64 (fun x => fmul x x) sin_r cos_r boost_r rest_r rm_box (f_of_Z 100) (f_of_Z 0) (f_of_Z 1) (f_of_Z 50) = Ok (t, p, v, w)).
    { unfold reaction_calculate64. cbn [rm_box rm_target rm_projectile rm_ejectile rm_residual].
      assert (D1 : feqb (fsub (fadd (f_of_Z 150) (f_of_Z 200)) (f_of_Z 150)) (f_of_Z 0) = false) by (vm_compute; reflexivity).
      assert (D2 : fltb (f_of_Z 100) (fdiv (fmul (Bopp (fsub (fadd (f_of_Z 250) (f_of_Z 150)) (fadd (fadd (f_of_Z 150) (f_of_Z 200)) (f_of_Z 50)))) (fadd (f_of_Z 150) (f_of_Z 200))) (fsub (fadd (f_of_Z 150) (f_of_Z 200)) (f_of_Z 150))) = false) by (vm_compute; reflexivity).
      rewrite D1, D2. destruct (two_body _ _ _ _ _ _ _ _ _ _) as (v & w). exists v, w. reflexivity. }
    destruct C as (v & w & C).
    assert (VP : vadd t p = mkV4 (f_of_Z 0) (f_of_Z 0) (f_of_Z 200) (f_of_Z 500)).
    { unfold vadd, t, p. cbn [vx vy vz vE]. f_equal; apply P_TransportF64.same64_eq; vm_compute; reflexivity. }
    assert (RP : real (vadd t p) = mkP4 0 0 200 500) by (rewrite VP; unfold real; cbn [vx vy vz vE]; rewrite !RZ by lia; reflexivity).
    set (M := rest_mass (real (vadd t p))).
    assert (Mq : M * M = 210000) by (unfold M, rest_mass; rewrite RP; unfold mdot; cbn [qx qy qz qE]; rewrite sqrt_sqrt; lra).
    assert (M0 : 0 <= M) by apply sqrt_pos. assert (MB : 450 <= M <= 500) by nra.
    assert (FP : finite_row (vadd t p)) by (rewrite VP; intros c [<-|[<-|[<-|[<-|[]]]]]; apply FZ; lia).
    assert (TP : timelike (real (vadd t p))) by (rewrite RP; unfold timelike, mdot; cbn [qx qy qz qE]; lra).
    assert (EP : R64 (vE (vadd t p)) = 500) by (rewrite VP; cbn [vE]; rewrite RZ by lia; reflexivity).
    assert (ZP : R64 (vz (vadd t p)) = 200) by (rewrite VP; cbn [vz]; rewrite RZ by lia; reflexivity).
    assert (LP : library_at boost_r rest_r (/ 2 ^ 50) (/ 2 ^ 49) (vadd t p)) by (apply C84_library; [exact FP|exact TP|fold M; lra|rewrite EP; lra]).
    assert (SO : step_ok boost_r rest_r (/ 2 ^ 50) (/ 2 ^ 49) (vadd t p) (rm_ejectile rm_box) (rm_residual rm_box) (f_of_Z 50) (f_of_Z 0) (f_of_Z 1)).
    { unfold step_ok. cbv zeta. fold M. rewrite EP. cbn [rm_box rm_ejectile rm_residual]. rewrite !RZ, !FZ by lia. destruct small_facts as (U0 & U1 & T0 & T1).
      split; [exact LP|]. rewrite eight_u, u_49. repeat split; try lra; try (rewrite Rabs_pos_eq; lra). replace (M ^ 2) with (M * M) by ring. rewrite Mq. lra. }
    destruct bounds_3 as (Wa & Wb & E1 & B3 & Hd).
    set (e := breakup_energy M 150 250). set (k := sqrt (e ^ 2 - 150 ^ 2)).
    assert (Ee : e = 85000 / M) by (unfold e, breakup_energy; replace (M ^ 2) with (M * M) by ring; rewrite Mq; field; lra).
    assert (Eb : 170 <= e <= 190) by (rewrite Ee; split; (apply Rmult_le_reg_r with M; [lra|]; unfold Rdiv; rewrite Rmult_assoc, Rinv_l by lra; lra)).
    assert (Kb : 80 <= k).
    { unfold k. rewrite <- (sqrt_pow2 80) by lra. apply sqrt_le_1_alt. nra. }
    set (mid := (500 * e + 200 * (k * 0)) / M).
    pose proof (C104_box64 cos_r acos_c (fun _ => true) (f_of_Z 0) (f_of_Z 3) (/ 2 ^ 49) rest Wa Wb acos_c_ok Hd _ sin_r cos_r boost_r rest_r mul_pow_ok trig_rounded
      (/ 2 ^ 50) (/ 2 ^ 49) rm_box (f_of_Z 100) (f_of_Z 1) (f_of_Z 50) t p v w mid C SO ltac:(rewrite ZP; lra)) as Q. cbv zeta in Q.
    destruct Q as (_ & Q & _). fold M in Q. rewrite RP in Q. cbn [qE qz] in Q. cbn [rm_box rm_ejectile rm_residual] in Q. rewrite (RZ 150%Z), (RZ 200%Z), (RZ 50%Z), E1 in Q by lia.
    replace (200 + 50) with 250 in Q by ring. fold e in Q. fold k in Q. fold rm_box in Q.
    set (cb := R64 (cos_r (f_of_Z 3))) in *. set (B := 200 * k / M).
    assert (Bb : 32 <= B).
    { unfold B. apply Rmult_le_reg_r with M; [lra|]. unfold Rdiv. rewrite Rmult_assoc, Rinv_l by lra. nra. }
    assert (LE : forall c, (500 * e + 200 * (k * c)) / M = mid + B * c) by (intros c; unfold mid, B; field; lra). rewrite !LE in Q.
    exists mid. split.
    { unfold mid. rewrite Rmult_0_r, Rmult_0_r, Rplus_0_r. split; (apply Rmult_le_reg_r with M; [lra|]; unfold Rdiv; rewrite Rmult_assoc, Rinv_l by lra; nra). }
    assert (Bc : B * cb <= 0) by nra. specialize (Q ltac:(lra)).
    replace ((mid + B * 1 - mid) / (mid + B * 1 - (mid + B * cb))) with (1 / (1 - cb)) in Q by (field; nra).
    eapply Rle_trans; [exact Q|].
    assert (Sq : sqrt (5 * / 2 ^ 50 + / 2 ^ 47) <= / 2 ^ 23) by (rewrite <- (sqrt_pow2 (/ 2 ^ 23)) by lra; apply sqrt_le_1_alt; lra).
    assert (Tl : (/ 2 ^ 49 + 2 * / 2 ^ 50 + 4 * sqrt (5 * / 2 ^ 50 + / 2 ^ 47) + / 2 ^ 47) * 500 <= / 2 ^ 11) by lra.
    set (tol := (/ 2 ^ 49 + 2 * / 2 ^ 50 + 4 * sqrt (5 * / 2 ^ 50 + / 2 ^ 47) + / 2 ^ 47) * 500) in *.
    assert (T0 : 0 <= tol) by (unfold tol; pose proof (sqrt_pos (5 * / 2 ^ 50 + / 2 ^ 47)); lra).
    assert (Tx : tol / (mid + B * 1 - (mid + B * cb)) <= / 2 ^ 15).
    { replace (/ 2 ^ 15) with (/ 2 ^ 10 * / 32) by lra. apply Rmult_le_compat; [exact T0| |lra|apply Rinv_le_contravar; nra].
      apply Rlt_le, Rinv_0_lt_compat. nra. }
    assert (Rs : (/ 2 ^ 49 + / 2 ^ 49) / (1 - cb) <= / 2 ^ 49 + / 2 ^ 49).
    { apply Rle_trans with ((/ 2 ^ 49 + / 2 ^ 49) * / 1); [|lra]. apply Rmult_le_compat_l; [lra|]. apply Rinv_le_contravar; lra. }
    lra.
  Qed.

  (** The decay of the nucleus (0, 0, 3, 5) into masses 1 and 1 + 1, all directions: 13/32 of everything. *)
  Definition sphere : polar64 := PolarUniform64 (f_of_Z 0) pi_r.
  Lemma sphere_ends : R64 (cos_r (f_of_Z 0)) = 1 /\ R64 (cos_r pi_r) <= -1 + / 2 ^ 49.
  Proof.
    split; [exact iso_cos_0|]. pose proof PI_4 as P4. pose proof PI_RGT_0 as P0. destruct (cos_r_close pi_r (proj1 pi_r_val)) as (_ & A). pose proof (cos_lipschitz (R64 pi_r) PI) as B.
    rewrite cos_PI in B. assert (Q : R64 pi_r = rnd64 PI) by (unfold pi_r; apply f_of_R_val; rewrite Rabs_pos_eq; lra).
    assert (D : Rabs (R64 pi_r - PI) <= u * 4 + eta) by (rewrite Q; apply rnd_bound; rewrite Rabs_pos_eq; lra).
    Transparent u eta. unfold u, eta in D. Opaque u eta. pose proof (P_ElectronsF64.inv_pow_le 53 1000 ltac:(lia)).
    pose proof (Rle_trans _ _ _ B D) as E. apply Rabs_le_inv in A. apply Rabs_le_inv in E. lra.
  Qed.
  Example C104_mean_example d : valid d -> forall comp, In comp [qx; qy; qz; qE] ->
    Rabs (mean iso_nrm iso_bw cos_r sin_r acos_r pi_r (fun _ => true) (f_of_Z 10) (Some tank64) iso_ex [iso_decay] iso_polar [sphere] 1
            (of_decay comp 1 (mkDecay (nuc 4) (nuc 1) (nuc 1)) (mkP4 0 0 3 5) 1 1) 1 d tt - 13 / 32 * comp (mkP4 0 0 3 5)) <= / 2 ^ 40.
  Proof.
    intros Vd comp Ic. destruct C41_example as (T & A & _). destruct sphere_ends as (E0 & E1). pose proof (proj2 (cos_r_unit pi_r (proj1 pi_r_val))) as Bp.
    assert (Fq : Forall (polar_valid cos_r (fun _ => true)) [iso_polar; sphere]).
    { pose proof iso_polars as Fp. inversion Fp as [|? ? V _]. constructor; [exact V|]. constructor; [|constructor]. cbn [sphere polar_valid].
      split; [apply f_of_Z_fin; lia|]. split; [apply pi_r_val|]. rewrite E0. lra. }
    pose proof (C104_mean iso_nrm iso_bw cos_r sin_r acos_r pi_r (fun _ => true) (/ 2 ^ 50) cos_r_unit (proj1 two_pi_r) (proj2 two_pi_r) (proj1 two_pi_close) acos_r_near
      (f_of_Z 10) (Some tank64) iso_ex [iso_decay] iso_polar [sphere] 1 iso_target eq_refl iso_excitations Fq
      1 d tt (f_of_Z 0) pi_r (mkDecay (nuc 4) (nuc 1) (nuc 1)) (mkP4 0 0 3 5) 1 Vd eq_refl (le_n 1) ltac:(rewrite E0; lra) T
      ltac:(unfold nuc; cbn [d_res1 n_mass]; lra) ltac:(unfold nuc; cbn [d_res2 n_mass]; lra) A) as Q. cbv zeta in Q. specialize (Q comp Ic). apply proj1 in Q.
    assert (RM : rest_mass (mkP4 0 0 3 5) = 4).
    { unfold rest_mass, mdot. cbn [qx qy qz qE]. replace (_ - _) with (4 ^ 2) by ring. apply sqrt_pow2. lra. }
    rewrite RM in Q. unfold nuc in Q. cbn [d_res1 d_res2 n_mass] in Q. assert (Eb : breakup_energy 4 1 (1 + 1) = 13 / 8) by (unfold breakup_energy; field). rewrite Eb in Q.
    replace (13 / 8 / 4) with (13 / 32) in Q by field. cbn [qE] in Q. eapply Rle_trans; [exact Q|].
    assert (S : 0 <= sqrt ((13 / 8) ^ 2 - 1 ^ 2) <= 2) by (split; [apply sqrt_pos|rewrite <- (sqrt_pow2 2) by lra; apply sqrt_le_1_alt; lra]).
    set (k := sqrt _) in *. clearbody k. nra.
  Qed.
  (** Equal masses, a beam of the energy 1, all directions: each of the two carries half. *)
  Example C104_mean_reaction_example d : valid d -> forall comp, In comp [qx; qy; qz; qE] ->
    Rabs (mean iso_nrm iso_bw cos_r sin_r acos_r pi_r (fun _ => true) (f_of_Z 10) (Some tank64) iso_ex [iso_decay] sphere [sphere] 1
            (of_reaction comp 2 ones 1 0) 0 d tt - 1 / 2 * comp (mkP4 0 0 (sqrt 3) 3)) <= / 2 ^ 40.
  Proof.
    intros Vd comp Ic. destruct C69_example as (Ps & _). destruct C39_example as (vs' & _ & C). destruct (any_angle ones 1 0 _ _ 0 0 vs' C) as (vs & C0).
    destruct sphere_ends as (E0 & E1). pose proof (proj2 (cos_r_unit pi_r (proj1 pi_r_val))) as Bp.
    assert (V : polar_valid cos_r (fun _ => true) sphere) by (cbn [sphere polar_valid]; split; [apply f_of_Z_fin; lia|]; split; [apply pi_r_val|]; rewrite E0; lra).
    pose proof (C104_mean_reaction iso_nrm iso_bw cos_r sin_r acos_r pi_r (fun _ => true) (/ 2 ^ 50) cos_r_unit (proj1 two_pi_r) (proj2 two_pi_r) (proj1 two_pi_close) acos_r_near
      (f_of_Z 10) (Some tank64) iso_ex [iso_decay] sphere [sphere] 1 iso_target eq_refl iso_excitations (Forall_cons _ V (Forall_cons _ V (Forall_nil _)))
      d tt (f_of_Z 0) pi_r ones 1 0 vs Vd eq_refl ltac:(rewrite E0; lra) Ps C0) as Q. cbv zeta in Q. specialize (Q comp Ic). apply proj1 in Q.
    assert (I : invariant_mass ones 1 = sqrt 6) by (unfold invariant_mass, ones, nuc; cbn; f_equal; ring).
    assert (S6 : 2 <= sqrt 6) by (rewrite <- (sqrt_pow2 2) by lra; apply sqrt_le_1_alt; lra). assert (Q6 : sqrt 6 * sqrt 6 = 6) by (apply sqrt_sqrt; lra).
    assert (Ee : ejectile_energy_cm ones 1 0 = sqrt 6 / 2).
    { unfold ejectile_energy_cm. rewrite I. unfold ones, nuc. cbn [r_target r_projectile r_ejectile r_residual n_mass]. field. lra. }
    assert (Ek : 0 <= ejectile_momentum_cm ones 1 0 <= 1).
    { split; [apply sqrt_pos|]. unfold ejectile_momentum_cm. rewrite Ee. unfold ones, nuc. cbn [r_ejectile n_mass]. rewrite <- (sqrt_pow2 1) at 2 by lra. apply sqrt_le_1_alt.
      replace ((sqrt 6 / 2) ^ 2) with (sqrt 6 * sqrt 6 / 4) by field. rewrite Q6. lra. }
    assert (Et : total_energy ones 1 = 3) by (unfold total_energy, ones, nuc; cbn [r_projectile r_target n_mass]; ring).
    assert (Eb : beam_momentum ones 1 = sqrt 3) by (unfold beam_momentum, ones, nuc; cbn [r_projectile n_mass]; f_equal; ring).
    rewrite Ee, I, Et, Eb in Q. replace (sqrt 6 / 2 / sqrt 6) with (1 / 2) in Q by (field; lra). eapply Rle_trans; [exact Q|].
    assert (S3 : 0 <= 3 / sqrt 6 <= 2).
    { split; [apply Rmult_le_pos; [lra|apply Rlt_le, Rinv_0_lt_compat; lra]|]. apply Rmult_le_reg_r with (sqrt 6); [lra|]. unfold Rdiv. rewrite Rmult_assoc, Rinv_l by lra. lra. }
    set (k := ejectile_momentum_cm ones 1 0) in *. set (g := 3 / sqrt 6) in *. clearbody k g. assert (0 <= k * g <= 1 * 2) by (split; [apply Rmult_le_pos|apply Rmult_le_compat]; lra). nra.
  Qed.
End Example.

(** ** Polar angles beyond pi *)
(** C54: calculate does not fold the angles it is given: one beyond pi (the last bin of a PolarArbitrary) is
    the mirrored angle on the opposite side, a negative one likewise. *)
Theorem C54_folded th ph :
  (forall r T ex, reaction_calculate r T (2 * PI - th) (ph + PI) ex = reaction_calculate r T th ph ex /\
                  reaction_calculate r T (- th) (ph + PI) ex = reaction_calculate r T th ph ex) /\
  (forall d P ex, decay_calculate d P (2 * PI - th) (ph + PI) ex = decay_calculate d P th ph ex /\
                  decay_calculate d P (- th) (ph + PI) ex = decay_calculate d P th ph ex).
Proof.
  assert (S : forall s k, s = sin (2 * PI - th) \/ s = sin (- th) -> k * s * cos (ph + PI) = k * sin th * cos ph /\ k * s * sin (ph + PI) = k * sin th * sin ph).
  { intros s k Hs. assert (s = - sin th) as ->.
    { destruct Hs as [->| ->]; [|apply sin_neg]. replace (2 * PI - th) with (- th + 2 * INR 1 * PI) by (cbn; ring). rewrite sin_period. apply sin_neg. }
    rewrite neg_cos, neg_sin. split; ring. }
  assert (C : cos (2 * PI - th) = cos th) by (replace (2 * PI - th) with (- th + 2 * INR 1 * PI) by (cbn; ring); rewrite cos_period; apply cos_neg).
  assert (Vec : forall k e, mkP4 (k * sin (2 * PI - th) * cos (ph + PI)) (k * sin (2 * PI - th) * sin (ph + PI)) (k * cos (2 * PI - th)) e = mkP4 (k * sin th * cos ph) (k * sin th * sin ph) (k * cos th) e /\
                            mkP4 (k * sin (- th) * cos (ph + PI)) (k * sin (- th) * sin (ph + PI)) (k * cos (- th)) e = mkP4 (k * sin th * cos ph) (k * sin th * sin ph) (k * cos th) e).
  { intros k e. destruct (S _ k (or_introl eq_refl)) as (A1 & A2). destruct (S _ k (or_intror eq_refl)) as (B1 & B2). rewrite A1, A2, B1, B2, C, cos_neg. split; reflexivity. }
  split; [intros r T ex|intros d P ex]; split; unfold reaction_calculate, decay_calculate; cbv zeta.
  1, 2: destruct (pydivR _ _) as [thr|]; [|reflexivity]; cbn [bind]; destruct (Rlt_bool T thr); [reflexivity|];
    destruct (osqrt _) as [pz|]; [|reflexivity]; cbn [obind]; destruct (boostCM_of _ _) as [c|]; [|reflexivity]; cbn [obind];
    destruct (osqrt _) as [k|]; [|reflexivity]; cbn [obind]; rewrite ?(proj1 (Vec _ _)), ?(proj2 (Vec _ _)); reflexivity.
  1, 2: destruct (Rlt_bool _ _); [reflexivity|]; destruct (boostCM_of _ _) as [c|]; [|reflexivity]; cbn [obind];
    destruct (osqrt _) as [k|]; [|reflexivity]; cbn [obind]; rewrite ?(proj1 (Vec _ _)), ?(proj2 (Vec _ _)); reflexivity.
Qed.
(** A bin ending at 4 (beyond pi): the ejectile goes to the same place as at 2 pi - 4. *)
Example C54_folded_example : exists vs, reaction_calculate ones 1 4 (1 + PI) 0 = Ok vs /\ reaction_calculate ones 1 (2 * PI - 4) 1 0 = Ok vs.
Proof.
  destruct C39_example as (vs' & _ & C). destruct (any_angle ones 1 0 _ _ (2 * PI - 4) 1 vs' C) as (vs & C0). exists vs. split; [|exact C0].
  rewrite <- C0, <- (proj1 (proj1 (C54_folded (2 * PI - 4) 1) ones 1 0)). f_equal. ring.
Qed.

Print Assumptions C54_folded.
Print Assumptions C104_box.
Print Assumptions C104_box64.
Print Assumptions C104_mean.
Print Assumptions C104_mean_reaction.
