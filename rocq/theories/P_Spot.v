(** P_Spot.v -- C103: the beam spot.  The vertex is drawn at the distance |normal(0, rho_sigma)| from the
    axis in a uniform direction (pipeline.py 246-251): not as two normal coordinates of that width. *)
From Coq Require Import ZArith Reals Lia Lra List.
From Flocq Require Import Core BinarySingleNaN.
From Verif Require Import Base F64 F64Bounds Num P_KinF64 Sampling SamplingF64 KinFile P_KinFile P_SamplingF64 P_Frequency P_Isotropy P_ElectronsF64.
From Verif Require P_Calor.
Import ListNotations.
Local Open Scope R_scope.
Notation sumR := P_Calor.sumR.

(** ** Sums over equally spaced directions *)
Definition sum_to (N : Z) (f : Z -> R) : R := sumR (map f (zrange 0 N)).
Lemma sum_to_0 f : sum_to 0 f = 0. Proof. reflexivity. Qed.
Lemma sum_to_step N f : (0 <= N)%Z -> sum_to (N + 1) f = sum_to N f + f N.
Proof.
  intros H. unfold sum_to. rewrite zrange_snoc by lia. rewrite map_app, P_Calor.sumR_app. cbn [map].
  rewrite P_Calor.sumR_cons. change (sumR []) with 0. lra.
Qed.
Lemma sum_to_close N f g D : (0 <= N)%Z -> (forall k, (0 <= k < N)%Z -> Rabs (f k - g k) <= D) -> Rabs (sum_to N f - sum_to N g) <= IZR N * D.
Proof.
  intros HN. revert N HN. apply (natlike_ind (fun N => (forall k, (0 <= k < N)%Z -> Rabs (f k - g k) <= D) -> Rabs (sum_to N f - sum_to N g) <= IZR N * D)).
  - intros _. rewrite !sum_to_0, Rminus_0_r, Rabs_R0. lra.
  - intros N HN IH H. rewrite <- Z.add_1_r, !sum_to_step by exact HN. rewrite plus_IZR.
    specialize (IH ltac:(intros k K; apply H; lia)). specialize (H N ltac:(lia)).
    replace (sum_to N f + f N - (sum_to N g + g N)) with ((sum_to N f - sum_to N g) + (f N - g N)) by ring.
    eapply Rle_trans; [apply Rabs_triang|]. lra.
Qed.
Lemma sum_to_lin N f g a b : (0 <= N)%Z -> sum_to N (fun k => a * f k + b * g k) = a * sum_to N f + b * sum_to N g.
Proof.
  intros HN. revert N HN. apply natlike_ind; [rewrite !sum_to_0; ring|]. intros N HN IH. rewrite <- Z.add_1_r, !sum_to_step by exact HN. rewrite IH. ring.
Qed.
Lemma sum_to_const N c : (0 <= N)%Z -> sum_to N (fun _ => c) = IZR N * c.
Proof.
  intros HN. revert N HN. apply natlike_ind; [rewrite sum_to_0; ring|]. intros N HN IH. rewrite <- Z.add_1_r, sum_to_step by exact HN. rewrite IH, plus_IZR. ring.
Qed.
Lemma sum_to_ext N f g : (0 <= N)%Z -> (forall k, (0 <= k < N)%Z -> f k = g k) -> sum_to N f = sum_to N g.
Proof.
  intros HN H. assert (A : Rabs (sum_to N f - sum_to N g) <= IZR N * 0) by (apply sum_to_close; [exact HN|intros k K; rewrite H by exact K; rewrite Rminus_eq_0, Rabs_R0; lra]).
  rewrite Rmult_0_r in A. pose proof (Rabs_pos (sum_to N f - sum_to N g)). assert (Z : Rabs (sum_to N f - sum_to N g) = 0) by lra.
  destruct (Req_dec (sum_to N f - sum_to N g) 0) as [E|E]; [lra|]. now apply Rabs_no_R0 in E.
Qed.

Lemma sum_to_scale N r f : (0 <= N)%Z -> sum_to N (fun k => r * f k) = r * sum_to N f.
Proof.
  intros HN. revert N HN. apply natlike_ind; [rewrite !sum_to_0; ring|]. intros N HN IH. rewrite <- Z.add_1_r, !sum_to_step by exact HN. rewrite IH. ring.
Qed.

Lemma dirichlet a N : (0 <= N)%Z ->
  2 * sin (a / 2) * sum_to N (fun k => cos (IZR k * a)) = sin (IZR N * a - a / 2) + sin (a / 2) /\
  2 * sin (a / 2) * sum_to N (fun k => sin (IZR k * a)) = cos (a / 2) - cos (IZR N * a - a / 2).
Proof.
  intros HN. revert N HN. apply natlike_ind.
  - rewrite !sum_to_0, !Rmult_0_r, Rmult_0_l. replace (0 - a / 2) with (- (a / 2)) by ring. rewrite sin_neg, cos_neg. lra.
  - intros N HN (I1 & I2). rewrite <- Z.add_1_r, !sum_to_step by exact HN. rewrite !Rmult_plus_distr_l, I1, I2, plus_IZR.
    replace ((IZR N + 1) * a - a / 2) with (IZR N * a + a / 2) by field.
    rewrite sin_plus, cos_plus, sin_minus, cos_minus. split; ring.
Qed.

(** Whole turns: [m] of them in [N] steps. *)
Lemma turns m N : (0 < m < N)%Z -> sum_to N (fun k => cos (IZR k * (2 * PI * IZR m / IZR N))) = 0 /\ sum_to N (fun k => sin (IZR k * (2 * PI * IZR m / IZR N))) = 0.
Proof.
  intros Hm. pose proof PI_RGT_0 as P. assert (N0 : 0 < IZR N) by (apply (IZR_lt 0); lia). assert (M0 : 0 < IZR m) by (apply (IZR_lt 0); lia).
  assert (MN : IZR m < IZR N) by (apply IZR_lt; lia).
  set (a := 2 * PI * IZR m / IZR N). assert (Ha : a / 2 = PI * (IZR m / IZR N)) by (unfold a; field; lra).
  assert (Q : 0 < IZR m / IZR N < 1).
  { split; [apply Rdiv_lt_0_compat; lra|]. apply Rmult_lt_reg_r with (IZR N); [lra|]. unfold Rdiv. rewrite Rmult_assoc, Rinv_l by lra. lra. }
  assert (S : 0 < sin (a / 2)).
  { rewrite Ha. apply sin_gt_0; [apply Rmult_lt_0_compat; lra|]. rewrite <- (Rmult_1_r PI) at 2. apply Rmult_lt_compat_l; lra. }
  destruct (dirichlet a N ltac:(lia)) as (D1 & D2).
  assert (T : IZR N * a - a / 2 = - (a / 2) + 2 * INR (Z.to_nat m) * PI).
  { rewrite INR_IZR_INZ, Z2Nat.id by lia. unfold a. field. lra. }
  rewrite T, sin_period, sin_neg in D1. rewrite T, cos_period, cos_neg in D2.
  split; [apply Rmult_eq_reg_l with (2 * sin (a / 2)); lra|apply Rmult_eq_reg_l with (2 * sin (a / 2)); lra].
Qed.

Lemma mean_of_sums {H} (N : Z) (A T : H -> Z -> R) (V D : H -> R) hs : (0 < N)%Z -> hs <> [] ->
  (forall h k, In h hs -> (0 <= k < N)%Z -> Rabs (A h k - T h k) <= D h) -> (forall h, sum_to N (T h) = IZR N * V h) ->
  Rabs (sumR (map (fun h => sum_to N (A h)) hs) / (IZR N * INR (length hs)) - sumR (map V hs) / INR (length hs)) <= sumR (map D hs) / INR (length hs).
Proof.
  intros HN Ne C S. assert (Np : 0 < IZR N) by (apply (IZR_lt 0); exact HN).
  assert (Lp : 0 < INR (length hs)) by (apply lt_0_INR; destruct hs; [congruence|cbn; lia]).
  assert (Q : Rabs (sumR (map (fun h => sum_to N (A h)) hs) - IZR N * sumR (map V hs)) <= IZR N * sumR (map D hs)).
  { clear Ne Lp. induction hs as [|h hs IH]; cbn [map].
    - change (sumR []) with 0. rewrite !Rmult_0_r, Rminus_0_r, Rabs_R0. lra.
    - rewrite !P_Calor.sumR_cons. specialize (IH ltac:(intros h' k I; apply C; right; exact I)).
      pose proof (sum_to_close N (A h) (T h) (D h) ltac:(lia) ltac:(intros k K; apply C; [left; reflexivity|exact K])) as B.
      rewrite S in B. clear - IH B. set (X := sum_to _ _) in *. set (Y := sumR (map (fun h => sum_to _ _) hs)) in *. clearbody X Y.
      replace (X + Y - IZR N * (V h + sumR (map V hs))) with ((X - IZR N * V h) + (Y - IZR N * sumR (map V hs))) by ring.
      eapply Rle_trans; [apply Rabs_triang|]. lra. }
  set (X := sumR (map (fun h => sum_to _ _) hs)) in *. set (l := INR (length hs)) in *. clearbody X l.
  replace (X / (IZR N * l) - sumR (map V hs) / l) with ((X - IZR N * sumR (map V hs)) * / (IZR N * l)) by (field; lra).
  rewrite Rabs_mult, (Rabs_pos_eq (/ (IZR N * l))) by (apply Rlt_le, Rinv_0_lt_compat, Rmult_lt_0_compat; lra).
  replace (sumR (map D hs) / l) with (IZR N * sumR (map D hs) * / (IZR N * l)) by (field; lra).
  apply Rmult_le_compat_r; [apply Rlt_le, Rinv_0_lt_compat, Rmult_lt_0_compat; lra|exact Q].
Qed.

Lemma dirs : IZR (2 ^ 53) = 2 ^ 53.
Proof. rewrite pow_IZR. reflexivity. Qed.

(** Direction number [k] of 2^53. *)
Definition direction_of (k : Z) : R := 2 * PI * (IZR k / 2 ^ 53).
Lemma turn_sums : let N := (2 ^ 53)%Z in
  sum_to N (fun k => cos (direction_of k)) = 0 /\ sum_to N (fun k => sin (direction_of k)) = 0 /\
  sum_to N (fun k => cos (direction_of k) * cos (direction_of k)) = 2 ^ 53 / 2 /\
  sum_to N (fun k => sin (direction_of k) * sin (direction_of k)) = 2 ^ 53 / 2 /\
  sum_to N (fun k => cos (direction_of k) * sin (direction_of k)) = 0.
Proof.
  intros N. assert (EN : IZR N = 2 ^ 53) by (unfold N; rewrite pow_IZR; reflexivity).
  assert (N0 : (0 <= N)%Z) by (unfold N; lia). assert (Np : 0 < 2 ^ 53) by (apply pow_lt; lra).
  assert (D : forall m k, IZR k * (2 * PI * IZR m / IZR N) = IZR m * direction_of k) by (intros m k; rewrite EN; unfold direction_of; field; lra).
  destruct (turns 1 N) as (A1 & A2); [unfold N; lia|]. destruct (turns 2 N) as (B1 & B2); [unfold N; lia|].
  rewrite (sum_to_ext N _ (fun k => cos (direction_of k))) in A1 by (try exact N0; intros k _; rewrite D; f_equal; lra).
  rewrite (sum_to_ext N _ (fun k => sin (direction_of k))) in A2 by (try exact N0; intros k _; rewrite D; f_equal; lra).
  rewrite (sum_to_ext N _ (fun k => cos (2 * direction_of k))) in B1 by (try exact N0; intros k _; rewrite D; f_equal; lra).
  rewrite (sum_to_ext N _ (fun k => sin (2 * direction_of k))) in B2 by (try exact N0; intros k _; rewrite D; f_equal; lra).
  split; [exact A1|]. split; [exact A2|].
  assert (C : forall x, cos x * cos x = 1 / 2 * 1 + 1 / 2 * cos (2 * x)) by (intros x; rewrite cos_2a_cos; lra).
  assert (S : forall x, sin x * sin x = 1 / 2 * 1 + - (1 / 2) * cos (2 * x)) by (intros x; rewrite cos_2a_sin; lra).
  assert (M : forall x, cos x * sin x = 1 / 2 * sin (2 * x) + 0 * 0) by (intros x; rewrite sin_2a; lra).
  clearbody N. split; [|split].
  - rewrite (sum_to_ext N _ (fun k => 1 / 2 * (fun _ => 1) k + 1 / 2 * (fun k => cos (2 * direction_of k)) k)) by (try exact N0; intros k _; apply C).
    rewrite sum_to_lin, sum_to_const, B1, EN by exact N0. lra.
  - rewrite (sum_to_ext N _ (fun k => 1 / 2 * (fun _ => 1) k + - (1 / 2) * (fun k => cos (2 * direction_of k)) k)) by (try exact N0; intros k _; apply S).
    rewrite sum_to_lin, sum_to_const, B1, EN by exact N0. lra.
  - rewrite (sum_to_ext N _ (fun k => 1 / 2 * (fun k => sin (2 * direction_of k)) k + 0 * (fun _ => 0) k)) by (try exact N0; intros k _; apply M).
    rewrite sum_to_lin, sum_to_const, B2 by exact N0. lra.
Qed.

Lemma rbind_ok {G A B} (m : @rand G A) (f : A -> rand B) g b g' : rbind m f g = (Ok b, g') -> exists a g1, m g = (Ok a, g1) /\ f a g1 = (Ok b, g').
Proof.
  unfold rbind. destruct (m g) as [[a|x] g1]; intros E; [|discriminate E]. exists a, g1. split; [reflexivity|exact E].
Qed.

Lemma sin_lipschitz a b : Rabs (sin a - sin b) <= Rabs (a - b).
Proof.
  rewrite <- !cos_shift. eapply Rle_trans; [apply cos_lipschitz|]. replace (PI / 2 - a - (PI / 2 - b)) with (- (a - b)) by ring. rewrite Rabs_Ropp. lra.
Qed.

Section Spot.
  Context {H : Type} (nrm : H -> f64 * H) (bw : f64 -> f64 -> H -> f64 * H).
  Context (cos64 sin64 acos64 : f64 -> f64) (pi64 : f64) (sum_is_one : list f64 -> bool).
  Hypothesis cosine : forall x, is_finite x = true -> within (-1) 1 (cos64 x) /\ Rabs (R64 (cos64 x) - cos (R64 x)) <= / 2 ^ 50.
  Hypothesis sine : forall x, is_finite x = true -> within (-1) 1 (sin64 x) /\ Rabs (R64 (sin64 x) - sin (R64 x)) <= / 2 ^ 50.
  Hypothesis pi_finite : is_finite (fmul pi64 (f_of_Z 2)) = true /\ is_finite (fmul (f_of_Z 2) pi64) = true.
  Hypothesis pi_close : Rabs (R64 (fmul pi64 (f_of_Z 2)) - 2 * PI) <= / 2 ^ 48 /\ Rabs (R64 (fmul (f_of_Z 2) pi64) - 2 * PI) <= / 2 ^ 48.
  Context (beam : f64) (tg : target64) (e : excitation64) (es : list excitation64) (q : polar64) (qs : list polar64) (decays : nat).
  Hypothesis Ht : target_valid beam tg.
  Hypothesis (L : length qs = length es) (Fe : Forall excitation_valid (e :: es)) (Fq : Forall (polar_valid cos64 sum_is_one) (q :: qs)).
  Notation made := (made_from nrm bw cos64 sin64 acos64 pi64 sum_is_one beam (Some tg) e es q qs decays).

  (** ** Specification *)
  (** normal(0, rho_sigma) as the generator's normal source in state [h] makes it. *)
  Definition drawn_normal (h : H) : f64 := fadd (f_of_Z 0) (fmul (t64_rho_sigma tg) (fst (nrm h))).
  Definition radius (h : H) : R := Rabs (R64 (drawn_normal h)).
  (** The draws [d] with the first, that of the direction, replaced. *)
  Definition set0 (d : nat -> Z) (k : Z) : nat -> Z := fun p => match p with O => k | S _ => d p end.
  Definition at_vertex (F : R -> R -> R) (r : res sample64) : R :=
    match r with Ok s => F (R64 (fst (fst (s64_vertex s)))) (R64 (snd (fst (s64_vertex s)))) | Err _ => 0 end.
  (** The average of [F x y] over all directions and the states [hs] of the normal source. *)
  Definition spot (F : R -> R -> R) (d : nat -> Z) (hs : list H) : R :=
    sumR (map (fun h => sum_to (2 ^ 53) (fun k => at_vertex F (made h (set0 d k)))) hs) / (2 ^ 53 * INR (length hs)).
  Definition mean (F : R -> R) (hs : list H) : R := sumR (map (fun h => F (radius h)) hs) / INR (length hs).
  (** What rounding and underflow do to a distance [r]. *)
  Definition blur (r : R) : R := (r + / 2 ^ 900) / 2 ^ 46.

  Lemma vertex_at d h : valid d -> is_finite (drawn_normal h) = true -> exists s x y z, made h d = Ok s /\ s64_vertex s = (x, y, z) /\
    Rabs (R64 x - radius h * cos (direction_of (d 0%nat))) <= blur (radius h) /\
    Rabs (R64 y - radius h * sin (direction_of (d 0%nat))) <= blur (radius h).
  Proof using cosine sine pi_finite pi_close Ht L Fe Fq.
    intros Vd Fw. pose proof PI_4 as P4. pose proof PI2_3_2 as P3. unfold PI2 in P3.
    assert (I50 : 0 < / 2 ^ 50 <= / 2) by (split; [apply Rinv_0_lt_compat, pow_lt; lra|apply Rinv_le_contravar; [lra|]; rewrite <- (pow_1 2) at 1; apply Rle_pow; [lra|lia]]).
    destruct pi_close as (C1 & C2). apply Rabs_le_inv in C1. pose proof C2 as C2'. apply Rabs_le_inv in C2.
    assert (pi_positive : 1 <= R64 (fmul pi64 (f_of_Z 2)) /\ 1 <= R64 (fmul (f_of_Z 2) pi64)) by (clear - C1 C2 P3 P4 I50; lra).
    destruct (C96_draws nrm bw cos64 sin64 acos64 pi64 sum_is_one (fun x F => proj1 (cosine x F)) pi_finite pi_positive d Vd beam (Some tg) e es q qs decays Ht L Fe Fq h)
      as (s & p & h' & E & _).
    set (th := uval (f_of_Z 0) (fmul (f_of_Z 2) pi64) (d 0%nat)).
    set (z := uval (t64_zmin tg) (t64_zmax tg) (d 1%nat)).
    exists s, (fmul (Babs (drawn_normal h)) (cos64 th)), (fmul (Babs (drawn_normal h)) (sin64 th)), z.
    assert (I0 : interval (f_of_Z 0) (fmul (f_of_Z 2) pi64)) by (apply interval_0; [apply pi_finite|apply pi_positive]).
    split; [unfold made_from; rewrite E; reflexivity|]. split.
    { unfold sample_pipeline64 in E. apply rbind_ok in E as (ev & g1 & E0 & E).
      assert (Ev : snd ev = (fmul (Babs (drawn_normal h)) (cos64 th), fmul (Babs (drawn_normal h)) (sin64 th), z)).
      { destruct Ht as (Hs & Hz & _). cbn [sample_vertex64] in E0. unfold normal64 in E0. rewrite Hs in E0.
        unfold rbind at 1 in E0. unfold normal_at in E0. cbn [fst snd] in E0. unfold drawn_normal. destruct (nrm h) as [n h1]. cbn [fst] in *. cbv zeta in E0.
        destruct (takes_uniform d (f_of_Z 0) (fmul (f_of_Z 2) pi64) 0 I0 h1) as (a & h2 & Ea & ->). unfold rbind at 1 in E0. rewrite Ea in E0.
        destruct (takes_uniform d (t64_zmin tg) (t64_zmax tg) (0 + 1) Hz h2) as (b & h3 & Eb & ->). unfold rbind at 1 in E0. rewrite Eb in E0.
        unfold ret in E0. apply (f_equal (fun x => match fst x with Ok v => snd v | Err _ => snd ev end)) in E0. cbn [fst snd] in E0. symmetry. exact E0. }
      rewrite <- Ev. clear Ev E0.
      apply rbind_ok in E as (e0 & g2 & _ & E). apply rbind_ok in E as (ex & g3 & _ & E). apply rbind_ok in E as (p0 & g4 & _ & E).
      apply rbind_ok in E as (t0 & g5 & _ & E). cbv zeta in E. apply rbind_ok in E as (f0 & g6 & _ & E). apply rbind_ok in E as (dx & g7 & _ & E).
      apply rbind_ok in E as (dt & g8 & _ & E). apply rbind_ok in E as (df & g9 & _ & E). unfold ret in E.
      apply (f_equal (fun x => match fst x with Ok v => s64_vertex v | Err _ => snd ev end)) in E. cbn [fst s64_vertex] in E. symmetry. exact E. }
    assert (Ft : is_finite th = true).
    { destruct I0 as (A1 & A2 & A3 & A4). apply (uniform_value (f_of_Z 0) (fmul (f_of_Z 2) pi64) (unit_of (d 0%nat)) A1 A2 A3 A4 (unit_draw_ok _ (Vd 0%nat))). }
    assert (Z0 : R64 (f_of_Z 0) = 0) by (apply (f_of_Z_R 0); lia).
    assert (Tc : Rabs (R64 th - direction_of (d 0%nat)) <= 13 * / 2 ^ 50).
    { destruct I0 as (A1 & A2 & A3 & A4). destruct (unit_val _ (Vd 0%nat)) as (_ & Uv).
      assert (I9 : / 2 ^ 900 <= 1) by (rewrite <- Rinv_1; apply Rinv_le_contravar; [lra|apply pow_R1_Rle; lra]).
      pose proof (uniform_close (f_of_Z 0) (fmul (f_of_Z 2) pi64) (unit_of (d 0%nat)) A1 A2 A3 ltac:(rewrite Z0; lra) (unit_draw_ok _ (Vd 0%nat))) as U.
      change (fadd (f_of_Z 0) (fmul (fsub (fmul (f_of_Z 2) pi64) (f_of_Z 0)) (unit_of (d 0%nat)))) with th in U.
      rewrite Z0, Rminus_0_r, Rplus_0_l, Rabs_R0, Rplus_0_l, (Rabs_pos_eq (R64 (fmul (f_of_Z 2) pi64))), Uv in U by lra.
      unfold direction_of. assert (K : 0 <= IZR (d 0%nat) / 2 ^ 53 <= 1).
      { destruct (unit_draw_ok _ (Vd 0%nat)) as (_ & B). rewrite Uv in B. assert (0 < / 2 ^ 53) by (apply Rinv_0_lt_compat, pow_lt; lra). lra. }
      set (v := IZR (d 0%nat) / 2 ^ 53) in *. set (p2 := R64 (fmul (f_of_Z 2) pi64)) in *.
      replace (R64 th - 2 * PI * v) with ((R64 th - p2 * v) + (p2 - 2 * PI) * v) by ring. eapply Rle_trans; [apply Rabs_triang|].
      rewrite Rabs_mult, (Rabs_pos_eq v) by lra.
      assert (X : Rabs (p2 - 2 * PI) * v <= / 2 ^ 48 * 1) by (apply Rmult_le_compat; [apply Rabs_pos|lra|exact C2'|lra]).
      assert (Y : / 2 ^ 50 * p2 <= / 2 ^ 50 * 9) by (apply Rmult_le_compat_l; lra).
      lra. }
    assert (Fa : is_finite (@Babs prec64 emax64 (drawn_normal h)) = true) by now rewrite is_finite_Babs.
    assert (Ea : R64 (@Babs prec64 emax64 (drawn_normal h)) = radius h) by apply B2R_Babs.
    assert (Main : forall c v, within (-1) 1 c -> Rabs (R64 c - v) <= 14 * / 2 ^ 50 -> Rabs (R64 (fmul (Babs (drawn_normal h)) c) - radius h * v) <= blur (radius h)).
    { intros c v (Fc & Bc) Av. pose proof (Rabs_pos (R64 (drawn_normal h))) as P. pose proof (big64 (drawn_normal h)) as B. fold (radius h) in P, B. set (r := radius h) in *.
      assert (M : - r <= r * R64 c <= r).
      { split; [replace (- r) with (r * (-1)) by ring; apply Rmult_le_compat_l; lra|]. apply Rle_trans with (r * 1); [apply Rmult_le_compat_l|]; lra. }
      assert (RM : Rabs (rnd64 (r * R64 c)) <= r).
      { assert (Fmt : fmt64 r) by (rewrite <- Ea; apply fmt64_R). apply Rabs_le. split.
        - apply rnd64_ge_fmt; [apply generic_format_opp; exact Fmt|apply M].
        - apply Rle_trans with (rnd64 r); [apply rnd64_le, M|rewrite rnd64_fmt by exact Fmt; lra]. }
      destruct (fmul_val (Babs (drawn_normal h)) c Fa Fc) as (Em & _); [rewrite Ea; lra|]. rewrite Em, Ea.
      pose proof (rnd_bound (r * R64 c) r ltac:(apply Rabs_le; lra)) as Er.
      replace (rnd64 (r * R64 c) - r * v) with ((rnd64 (r * R64 c) - r * R64 c) + r * (R64 c - v)) by ring.
      eapply Rle_trans; [apply Rabs_triang|]. rewrite Rabs_mult, (Rabs_pos_eq r) by lra.
      assert (X : r * Rabs (R64 c - v) <= r * (14 * / 2 ^ 50)) by (apply Rmult_le_compat_l; lra).
      Transparent u eta. unfold u, eta in Er. Opaque u eta. 
      assert (N : / 2 ^ 1000 <= / 2 ^ 900 * / 2 ^ 46).
      { rewrite <- Rinv_mult. rewrite <- pow_add. apply inv_pow_le. lia. }
      unfold blur.
      assert (R1 : r * / 2 ^ 53 + r * (14 * / 2 ^ 50) <= r * / 2 ^ 46).
      { rewrite <- Rmult_plus_distr_l. apply Rmult_le_compat_l; [exact P|]. lra. }
      clear - X Er N R1. unfold Rdiv. rewrite Rmult_plus_distr_r. lra. }
    destruct (cosine th Ft) as (W1 & A1). destruct (sine th Ft) as (W2 & A2).
    split; apply Main; try assumption.
    - replace (R64 (cos64 th) - cos (direction_of (d 0%nat))) with ((R64 (cos64 th) - cos (R64 th)) + (cos (R64 th) - cos (direction_of (d 0%nat)))) by ring.
      eapply Rle_trans; [apply Rabs_triang|]. replace (14 * / 2 ^ 50) with (/ 2 ^ 50 + 13 * / 2 ^ 50) by ring. apply Rplus_le_compat; [exact A1|]. eapply Rle_trans; [apply cos_lipschitz|exact Tc].
    - replace (R64 (sin64 th) - sin (direction_of (d 0%nat))) with ((R64 (sin64 th) - sin (R64 th)) + (sin (R64 th) - sin (direction_of (d 0%nat)))) by ring.
      eapply Rle_trans; [apply Rabs_triang|]. replace (14 * / 2 ^ 50) with (/ 2 ^ 50 + 13 * / 2 ^ 50) by ring. apply Rplus_le_compat; [exact A2|]. eapply Rle_trans; [apply sin_lipschitz|exact Tc].
  Qed.

  Lemma set0_valid d k : valid d -> (0 <= k < 2 ^ 53)%Z -> valid (set0 d k).
  Proof using. intros Vd K [|p]; cbn [set0]; [exact K|apply Vd]. Qed.

  Lemma spot_close F (T : H -> Z -> R) (V D : H -> R) d hs : hs <> [] ->
    (forall h k, In h hs -> (0 <= k < 2 ^ 53)%Z -> Rabs (at_vertex F (made h (set0 d k)) - T h k) <= D h) ->
    (forall h, sum_to (2 ^ 53) (T h) = 2 ^ 53 * V h) ->
    Rabs (spot F d hs - sumR (map V hs) / INR (length hs)) <= sumR (map D hs) / INR (length hs).
  Proof using.
    intros Ne C S. unfold spot. rewrite <- dirs in S |- *.
    apply (mean_of_sums (2 ^ 53) (fun h k => at_vertex F (made h (set0 d k))) T V D hs); [reflexivity|exact Ne|exact C|exact S].
  Qed.

  Lemma vertex_moment (F : R -> R -> R) (E : R -> R) d hs : valid d -> (forall h, In h hs -> is_finite (drawn_normal h) = true) ->
    (forall r c s x y b, 0 <= r -> Rabs c <= 1 -> Rabs s <= 1 -> 0 <= b <= r + / 2 ^ 900 -> Rabs (x - r * c) <= b -> Rabs (y - r * s) <= b ->
       Rabs (F x y - F (r * c) (r * s)) <= E r * b) ->
    forall h k, In h hs -> (0 <= k < 2 ^ 53)%Z ->
      Rabs (at_vertex F (made h (set0 d k)) - F (radius h * cos (direction_of k)) (radius h * sin (direction_of k))) <= E (radius h) * blur (radius h).
  Proof using cosine sine pi_finite pi_close Ht L Fe Fq.
    intros Vd Fin HF h k I K. destruct (vertex_at (set0 d k) h (set0_valid d k Vd K) (Fin h I)) as (s & x & y & z & Em & Ev & Hx & Hy).
    rewrite Em. cbn [at_vertex]. rewrite Ev. cbn [fst snd]. cbn [set0] in Hx, Hy.
    pose proof (Rabs_pos (R64 (drawn_normal h))) as P. fold (radius h) in P.
    apply HF; try assumption; [apply Rabs_le, COS_bound|apply Rabs_le, SIN_bound|].
    unfold blur. assert (T : 0 < / 2 ^ 900) by (apply Rinv_0_lt_compat, pow_lt; lra).
    assert (Q : 0 < / 2 ^ 46 <= 1) by (split; [apply Rinv_0_lt_compat, pow_lt; lra|rewrite <- Rinv_1; apply Rinv_le_contravar; [lra|apply pow_R1_Rle; lra]]).
    unfold Rdiv. split; [apply Rmult_le_pos; lra|]. rewrite <- (Rmult_1_r (radius h + / 2 ^ 900)) at 2. apply Rmult_le_compat_l; lra.
  Qed.

  (** C103: averaged over the directions, the spot is centred and round; its mean square extension along each
      axis is half the mean square of the normal number, not all of it. *)
  Theorem C103_spot d hs : valid d -> hs <> [] -> (forall h, In h hs -> is_finite (drawn_normal h) = true) ->
    let tol := mean (fun r => 3 * (r + / 2 ^ 900) * blur r) hs in
    Rabs (spot (fun x y => x) d hs) <= mean blur hs /\
    Rabs (spot (fun x y => y) d hs) <= mean blur hs /\
    Rabs (spot (fun x y => x * x) d hs - mean (fun r => r * r) hs / 2) <= tol /\
    Rabs (spot (fun x y => y * y) d hs - mean (fun r => r * r) hs / 2) <= tol /\
    Rabs (spot (fun x y => x * y) d hs) <= tol.
  Proof using cosine sine pi_finite pi_close Ht L Fe Fq.
    intros Vd Ne Fin tol. destruct turn_sums as (S1 & S2 & S3 & S4 & S5).
    assert (Lp : 0 < INR (length hs)) by (apply lt_0_INR; destruct hs; [congruence|cbn; lia]).
    assert (T : 0 < / 2 ^ 900) by (apply Rinv_0_lt_compat, pow_lt; lra). assert (N0 : (0 <= 2 ^ 53)%Z) by lia.
    assert (Sc : forall (r : R) f, sum_to (2 ^ 53) (fun k => r * f k) = r * sum_to (2 ^ 53) f).
    { intros r f. now apply sum_to_scale. }
    assert (Z0 : sumR (map (fun _ : H => 0) hs) = 0) by (clear; induction hs as [|a l IH]; cbn [map]; [reflexivity|rewrite P_Calor.sumR_cons, IH; lra]).
    assert (Half : sumR (map (fun h => radius h * radius h / 2) hs) / INR (length hs) = mean (fun r => r * r) hs / 2).
    { unfold mean. replace (sumR (map (fun h => radius h * radius h / 2) hs)) with (sumR (map (fun h => radius h * radius h) hs) / 2); [field; lra|].
      clear. induction hs as [|a l IH]; cbn [map]; [change (sumR []) with 0; lra|]. rewrite !P_Calor.sumR_cons, <- IH. lra. }
    assert (Prod : forall r c s x y b, 0 <= r -> Rabs c <= 1 -> Rabs s <= 1 -> 0 <= b <= r + / 2 ^ 900 -> Rabs (x - r * c) <= b -> Rabs (y - r * s) <= b ->
      Rabs (x * y - r * c * (r * s)) <= 3 * (r + / 2 ^ 900) * b).
    { intros r c s x y b R0 C1 S1' B X Y. replace (x * y - r * c * (r * s)) with ((x - r * c) * (y - r * s) + (r * s) * (x - r * c) + (r * c) * (y - r * s)) by ring.
      eapply Rle_trans; [apply Rabs_triang|]. eapply Rle_trans; [apply Rplus_le_compat_r, Rabs_triang|]. rewrite !Rabs_mult, (Rabs_pos_eq r) by exact R0.
      assert (A1 : Rabs (x - r * c) * Rabs (y - r * s) <= (r + / 2 ^ 900) * b) by (apply Rmult_le_compat; try apply Rabs_pos; lra).
      assert (A2 : r * Rabs s * Rabs (x - r * c) <= (r + / 2 ^ 900) * b).
      { apply Rmult_le_compat; [apply Rmult_le_pos; [lra|apply Rabs_pos]|apply Rabs_pos| |exact X]. apply Rle_trans with (r * 1); [apply Rmult_le_compat_l|]; lra. }
      assert (A3 : r * Rabs c * Rabs (y - r * s) <= (r + / 2 ^ 900) * b).
      { apply Rmult_le_compat; [apply Rmult_le_pos; [lra|apply Rabs_pos]|apply Rabs_pos| |exact Y]. apply Rle_trans with (r * 1); [apply Rmult_le_compat_l|]; lra. }
      lra. }
    split; [|split; [|split; [|split]]].
    - pose proof (spot_close (fun x y => x) (fun h k => radius h * cos (direction_of k)) (fun _ => 0) (fun h => 1 * blur (radius h)) d hs Ne) as Q.
      rewrite Z0 in Q. replace (0 / INR (length hs)) with 0 in Q by (field; lra). rewrite Rminus_0_r in Q.
      unfold mean. rewrite (map_ext (fun h => blur (radius h)) (fun h => 1 * blur (radius h))) by (intros; ring). apply Q.
      + apply (vertex_moment (fun x y => x) (fun _ => 1) d hs Vd Fin). intros; lra.
      + intros h. rewrite Sc, S1. ring.
    - pose proof (spot_close (fun x y => y) (fun h k => radius h * sin (direction_of k)) (fun _ => 0) (fun h => 1 * blur (radius h)) d hs Ne) as Q.
      rewrite Z0 in Q. replace (0 / INR (length hs)) with 0 in Q by (field; lra). rewrite Rminus_0_r in Q.
      unfold mean. rewrite (map_ext (fun h => blur (radius h)) (fun h => 1 * blur (radius h))) by (intros; ring). apply Q.
      + apply (vertex_moment (fun x y => y) (fun _ => 1) d hs Vd Fin). intros; lra.
      + intros h. rewrite Sc, S2. ring.
    - rewrite <- Half. apply (spot_close (fun x y => x * x) (fun h k => radius h * cos (direction_of k) * (radius h * cos (direction_of k)))
        (fun h => radius h * radius h / 2) (fun h => 3 * (radius h + / 2 ^ 900) * blur (radius h)) d hs Ne).
      + apply (vertex_moment (fun x y => x * x) (fun r => 3 * (r + / 2 ^ 900)) d hs Vd Fin). intros r c s x y b H0 H1 H2 H3 H4 H5. apply (Prod r c c x x b); assumption.
      + intros h. rewrite (sum_to_ext (2 ^ 53) _ (fun k => (radius h * radius h) * (cos (direction_of k) * cos (direction_of k)))) by (try exact N0; intros; ring).
        rewrite Sc, S3. field.
    - rewrite <- Half. apply (spot_close (fun x y => y * y) (fun h k => radius h * sin (direction_of k) * (radius h * sin (direction_of k)))
        (fun h => radius h * radius h / 2) (fun h => 3 * (radius h + / 2 ^ 900) * blur (radius h)) d hs Ne).
      + apply (vertex_moment (fun x y => y * y) (fun r => 3 * (r + / 2 ^ 900)) d hs Vd Fin). intros r c s x y b H0 H1 H2 H3 H4 H5. apply (Prod r s s y y b); assumption.
      + intros h. rewrite (sum_to_ext (2 ^ 53) _ (fun k => (radius h * radius h) * (sin (direction_of k) * sin (direction_of k)))) by (try exact N0; intros; ring).
        rewrite Sc, S4. field.
    - pose proof (spot_close (fun x y => x * y) (fun h k => radius h * cos (direction_of k) * (radius h * sin (direction_of k)))
        (fun h => 0) (fun h => 3 * (radius h + / 2 ^ 900) * blur (radius h)) d hs Ne) as Q.
      rewrite Z0 in Q. replace (0 / INR (length hs)) with 0 in Q by (field; lra). rewrite Rminus_0_r in Q. apply Q.
      + apply (vertex_moment (fun x y => x * y) (fun r => 3 * (r + / 2 ^ 900)) d hs Vd Fin). intros r c s x y b H0 H1 H2 H3 H4 H5. apply (Prod r c s x y b); assumption.
      + intros h. rewrite (sum_to_ext (2 ^ 53) _ (fun k => (radius h * radius h) * (cos (direction_of k) * sin (direction_of k)))) by (try exact N0; intros; ring).
        rewrite Sc, S5. ring.
  Qed.

  (** C103: the distance from the axis is that of the one normal number, whatever the other draws are. *)
  Theorem C103_radius d h : valid d -> is_finite (drawn_normal h) = true -> exists s x y z, made h d = Ok s /\ s64_vertex s = (x, y, z) /\
    Rabs (sqrt (R64 x * R64 x + R64 y * R64 y) - radius h) <= 2 * blur (radius h).
  Proof using cosine sine pi_finite pi_close Ht L Fe Fq.
    intros Vd Fw. destruct (vertex_at d h Vd Fw) as (s & x & y & z & Em & Ev & Hx & Hy). exists s, x, y, z. split; [exact Em|]. split; [exact Ev|].
    pose proof (Rabs_pos (R64 (drawn_normal h))) as P. fold (radius h) in P.
    set (r := radius h) in *. set (b := blur r) in *. set (f := direction_of (d 0%nat)) in *. pose proof (COS_bound f) as Cb. pose proof (SIN_bound f) as Sb.
    pose proof (sin2_cos2 f) as One. unfold Rsqr in One. set (c := cos f) in *. set (sn := sin f) in *.
    set (X := R64 x) in *. set (Y := R64 y) in *. assert (B0 : 0 <= b) by (pose proof (Rabs_pos (X - r * c)); lra). clearbody b c sn X Y r.
    clear - Hx Hy Cb Sb One P B0. apply Rabs_le_inv in Hx. apply Rabs_le_inv in Hy.
    set (dx := X - r * c) in *. set (dy := Y - r * sn) in *.
    assert (EX : X = r * c + dx) by (unfold dx; ring). assert (EY : Y = r * sn + dy) by (unfold dy; ring). clearbody dx dy. subst X Y.
    assert (D : - (2 * b) <= c * dx + sn * dy <= 2 * b).
    { assert (A : Rabs (c * dx) <= 1 * b) by (rewrite Rabs_mult; apply Rmult_le_compat; try apply Rabs_pos; apply Rabs_le; lra).
      assert (A' : Rabs (sn * dy) <= 1 * b) by (rewrite Rabs_mult; apply Rmult_le_compat; try apply Rabs_pos; apply Rabs_le; lra).
      apply Rabs_le_inv in A. apply Rabs_le_inv in A'. lra. }
    assert (Q : (r * c + dx) * (r * c + dx) + (r * sn + dy) * (r * sn + dy) = r * r + 2 * r * (c * dx + sn * dy) + (dx * dx + dy * dy)).
    { replace (r * r) with (r * r * (sn * sn + c * c)) by (rewrite One; ring). ring. }
    rewrite Q. assert (CS : (c * dx + sn * dy) * (c * dx + sn * dy) <= dx * dx + dy * dy).
    { replace (dx * dx + dy * dy) with ((sn * sn + c * c) * (dx * dx + dy * dy)) by (rewrite One; ring).
      pose proof (Rle_0_sqr (c * dy - sn * dx)) as W. unfold Rsqr in W. lra. }
    set (m := c * dx + sn * dy) in *. clearbody m.
    assert (Dx : dx * dx <= b * b) by nra. assert (Dy : dy * dy <= b * b) by nra.
    apply Rabs_le. split.
    - assert (W : r - 2 * b <= sqrt (r * r + 2 * r * m + (dx * dx + dy * dy))); [|lra].
      destruct (Rle_dec r (2 * b)) as [K|K]; [pose proof (sqrt_pos (r * r + 2 * r * m + (dx * dx + dy * dy))); lra|].
      rewrite <- (sqrt_square (r - 2 * b)) by lra. apply sqrt_le_1_alt.
      assert (Z1 : (r - 2 * b) * (r - 2 * b) <= (r + m) * (r + m)) by (apply Rmult_le_compat; lra). lra.
    - assert (W : sqrt (r * r + 2 * r * m + (dx * dx + dy * dy)) <= r + 2 * b); [|lra].
      rewrite <- (sqrt_square (r + 2 * b)) by lra. apply sqrt_le_1_alt.
      assert (r * m <= r * (2 * b)) by (apply Rmult_le_compat_l; lra). nra.
  Qed.
End Spot.

(** ** A target of 1 m with rho_sigma 1/8; the normal source has made 1, -1, 3/2, -3/2. *)
Section Example.
  Definition spot_nrm (h : f64) : f64 * f64 := (h, h).
  Definition spot_bw (a b h : f64) : f64 * f64 := (f_of_Z 1, h).
  Definition three_halves : f64 := fdiv (f_of_Z 3) (f_of_Z 2).
  Definition spot_hs : list f64 := [f_of_Z 1; f_of_Z (-1); three_halves; Bopp three_halves].

  Lemma near_unit x : Rabs x <= 1 -> Rabs (rnd64 x - x) <= / 2 ^ 50.
  Proof.
    intros Hx. eapply Rle_trans; [apply (rnd_bound x 1 Hx)|]. Transparent u eta. unfold u, eta. Opaque u eta.
    pose proof (inv_pow_le 53 1000 ltac:(lia)). lra.
  Qed.
  Lemma cos_r_close x : is_finite x = true -> within (-1) 1 (cos_r x) /\ Rabs (R64 (cos_r x) - cos (R64 x)) <= / 2 ^ 50.
  Proof.
    intros F. split; [now apply cos_r_unit|]. unfold cos_r. rewrite (proj2 (f_of_R_val _ (cos_small _))). apply near_unit, Rabs_le, COS_bound.
  Qed.
  Lemma sin_r_close x : is_finite x = true -> within (-1) 1 (sin_r x) /\ Rabs (R64 (sin_r x) - sin (R64 x)) <= / 2 ^ 50.
  Proof.
    assert (S : forall x, Rabs (sin x) <= 4) by (intros y; pose proof (SIN_bound y); apply Rabs_le; lra).
    intros F. split; [apply unit_rounded, SIN_bound|]. unfold sin_r. rewrite (proj2 (f_of_R_val _ (S _))). apply near_unit, Rabs_le, SIN_bound.
  Qed.
  Lemma two_pi_close : Rabs (R64 (fmul pi_r (f_of_Z 2)) - 2 * PI) <= / 2 ^ 48 /\ Rabs (R64 (fmul (f_of_Z 2) pi_r) - 2 * PI) <= / 2 ^ 48.
  Proof.
    pose proof PI_4 as P4. pose proof PI_RGT_0 as P0. destruct pi_r_val as [F B]. assert (F2 : is_finite (f_of_Z 2) = true) by (apply f_of_Z_fin; lia).
    assert (E2 : R64 (f_of_Z 2) = 2) by (apply (f_of_Z_R 2); lia).
    assert (P : R64 pi_r = rnd64 PI) by (unfold pi_r; apply f_of_R_val; rewrite Rabs_pos_eq; lra).
    assert (C : Rabs (R64 pi_r - PI) <= u * 4 + eta) by (rewrite P; apply rnd_bound; rewrite Rabs_pos_eq; lra).
    assert (D : forall v, v = 2 * R64 pi_r -> Rabs (rnd64 v) < bpow radix2 emax64 /\ Rabs (rnd64 v - 2 * PI) <= / 2 ^ 48).
    { intros v ->. split.
      - assert (M : 6 <= rnd64 (2 * R64 pi_r) <= 8) by (split; [apply rnd64_ge_fmt; [apply (fmt64_IZR 6); lia|lra]|apply (rnd64_le_IZR _ 8); [lia|lra]]).
        rewrite Rabs_pos_eq by lra. apply Rle_lt_trans with (bpow radix2 3); [change (bpow radix2 3) with 8; lra|apply bpow_lt; reflexivity].
      - pose proof (rnd_bound (2 * R64 pi_r) 8 ltac:(rewrite Rabs_pos_eq; lra)) as Q.
        Transparent u eta. unfold u, eta in C, Q. Opaque u eta. pose proof (inv_pow_le 53 1000 ltac:(lia)).
        apply Rabs_le_inv in C. apply Rabs_le_inv in Q. apply Rabs_le. lra. }
    destruct (D (R64 pi_r * R64 (f_of_Z 2)) ltac:(rewrite E2; ring)) as (D1 & D2). destruct (D (R64 (f_of_Z 2) * R64 pi_r) ltac:(rewrite E2; ring)) as (D3 & D4).
    destruct (fmul_val pi_r (f_of_Z 2) F F2 D1) as (E & _). destruct (fmul_val (f_of_Z 2) pi_r F2 F D3) as (E' & _). rewrite E, E'. split; assumption.
  Qed.

  Lemma spot_radii : map (radius spot_nrm tank64) spot_hs = [1 / 8; 1 / 8; 3 / 16; 3 / 16] /\ forall h, In h spot_hs -> is_finite (drawn_normal spot_nrm tank64 h) = true.
  Proof.
    split.
    - unfold spot_hs. cbn [map].
      assert (A : forall h m ex, R64 (@Babs prec64 emax64 (drawn_normal spot_nrm tank64 h)) = IZR m * bpow radix2 ex -> radius spot_nrm tank64 h = IZR m * bpow radix2 ex) by (intros h m ex E; rewrite <- E; symmetry; apply B2R_Babs).
      rewrite (A (f_of_Z 1) (Z.pos 4503599627370496) (-55)%Z) by (apply val_of; vm_compute; reflexivity).
      rewrite (A (f_of_Z (-1)) (Z.pos 4503599627370496) (-55)%Z) by (apply val_of; vm_compute; reflexivity).
      rewrite (A three_halves (Z.pos 6755399441055744) (-55)%Z) by (apply val_of; vm_compute; reflexivity).
      rewrite (A (Bopp three_halves) (Z.pos 6755399441055744) (-55)%Z) by (apply val_of; vm_compute; reflexivity).
      cbn [bpow]. change (Z.pow_pos radix2 55) with 36028797018963968%Z. replace (4503599627370496 * / 36028797018963968) with (1 / 8) by lra. replace (6755399441055744 * / 36028797018963968) with (3 / 16) by lra. reflexivity.
    - intros h I. unfold spot_hs in I. destruct I as [<-|[<-|[<-|[<-|[]]]]]; vm_compute; reflexivity.
  Qed.

  (** Mean square of the normal numbers 13/512; along x and along y, half of it. *)
  Example C103_example d : valid d ->
    let sp F := spot spot_nrm spot_bw cos_r sin_r acos_r pi_r (fun _ => true) (f_of_Z 10) tank64 iso_ex [iso_decay] iso_polar [iso_polar] 1 F d spot_hs in
    Rabs (sp (fun x y => x)) <= / 2 ^ 40 /\ Rabs (sp (fun x y => x * x) - 13 / 1024) <= / 2 ^ 40 /\ Rabs (sp (fun x y => x * y)) <= / 2 ^ 40.
  Proof.
    intros Vd sp. destruct spot_radii as (R & Fin).
    destruct (C103_spot spot_nrm spot_bw cos_r sin_r acos_r pi_r (fun _ => true) cos_r_close sin_r_close (proj1 two_pi_r) two_pi_close
      (f_of_Z 10) tank64 iso_ex [iso_decay] iso_polar [iso_polar] 1 iso_target eq_refl iso_excitations iso_polars d spot_hs Vd ltac:(intros C; discriminate C) Fin)
      as (Q1 & _ & Q2 & _ & Q3). cbv zeta in Q1, Q2, Q3.
    assert (M : forall F, mean spot_nrm tank64 F spot_hs = (F (1 / 8) + F (1 / 8) + F (3 / 16) + F (3 / 16)) / 4).
    { intros F. unfold mean. rewrite <- (map_map (radius spot_nrm tank64) F), R. cbn [map length spot_hs]. unfold P_Calor.sumR. cbn [fold_right].
      replace (INR 4) with 4 by (cbn; lra). lra. }
    rewrite M in Q1, Q3. rewrite (M (fun r => r * r)), M in Q2. unfold blur in Q1, Q2, Q3. cbv beta in Q1, Q2, Q3. pose proof (inv_pow_le 20 900 ltac:(lia)) as T. assert (T0 : 0 < / 2 ^ 900) by (apply Rinv_0_lt_compat, pow_lt; lra).
    set (t := / 2 ^ 900) in *. clearbody t. replace (2 ^ 46) with 70368744177664 in Q1, Q2, Q3 by ring. replace (2 ^ 40) with 1099511627776 by ring. replace (2 ^ 20) with 1048576 in T by ring.
    assert (T2 : t * t <= t * 1) by (apply Rmult_le_compat_l; lra).
    replace ((1 / 8 * (1 / 8) + 1 / 8 * (1 / 8) + 3 / 16 * (3 / 16) + 3 / 16 * (3 / 16)) / 4 / 2) with (13 / 1024) in Q2 by lra.
    split; [eapply Rle_trans; [exact Q1|lra]|].
    match type of Q3 with _ <= ?b => assert (Bd : b <= / 1099511627776) end; [|split; [eapply Rle_trans; [exact Q2|exact Bd]|eapply Rle_trans; [exact Q3|exact Bd]]].
    lra.
  Qed.
End Example.

Print Assumptions C103_spot.
Print Assumptions C103_radius.
