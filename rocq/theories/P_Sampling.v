(** P_Sampling.v -- C52 to C55: what is sampled. *)
From Coq Require Import ZArith Reals Lra Lia.
From Flocq Require Import Core.
From Verif Require Import Base F64 Num Nucleus Reaction SpecReaction P_Reaction Pipeline SpecPipeline
  PipelineProofs P_Pipeline P_Simulator Sampling.
Local Open Scope R_scope.

Lemma rbind_ok {G A B} (m : @rand G A) (f : A -> rand B) g b g' : rbind m f g = (Ok b, g') ->
  exists a g1, m g = (Ok a, g1) /\ f a g1 = (Ok b, g').
Proof. unfold rbind. destruct (m g) as [[a|x] g1]; [eauto|discriminate]. Qed.

Lemma ret_ok {G A} (a b : A) (g g' : G) : ret a g = (Ok b, g') -> a = b /\ g = g'.
Proof. unfold ret. intros E. split; congruence. Qed.

(** exp (- 2.355^2 / 8) by its alternating series. *)
Lemma exp_half : Rabs (exp (- (2.355 ^ 2 / 8)) - 1 / 2) <= 1 / 10000.
Proof.
  set (a := 2.355 ^ 2 / 8). assert (Ha : a = 693253125 / 1000000000) by (unfold a; lra). clearbody a.
  set (Un := fun i => a ^ i / INR (fact i)).
  assert (Dec : Un_decreasing Un).
  { intros n. unfold Un. rewrite fact_simpl, mult_INR. cbn [pow].
    pose proof (INR_fact_lt_0 n) as F. pose proof (pow_lt a n ltac:(lra)) as Pa.
    assert (1 <= INR (S n)) by (rewrite S_INR; pose proof (pos_INR n); lra).
    replace (a * a ^ n / (INR (S n) * INR (fact n))) with (a ^ n / INR (fact n) * (a / INR (S n))) by (field; lra).
    rewrite <- (Rmult_1_r (a ^ n / INR (fact n))) at 2. apply Rmult_le_compat_l.
    - apply Rlt_le, Rdiv_lt_0_compat; lra.
    - apply Rmult_le_reg_r with (INR (S n)); [lra|]. unfold Rdiv. rewrite Rmult_assoc, Rinv_l by lra. lra. }
  assert (Lim : Un_cv (fun N => sum_f_R0 (tg_alt Un) N) (exp (- a))).
  { unfold exp. destruct (exist_exp (- a)) as [l H]. cbn [proj1_sig]. unfold exp_in, infinite_sum in H.
    intros eps He. destruct (H eps He) as [N HN]. exists N. intros n Hn. specialize (HN n Hn).
    replace (sum_f_R0 (tg_alt Un) n) with (sum_f_R0 (fun i => / INR (fact i) * (- a) ^ i) n); [exact HN|].
    apply sum_eq. intros i _. unfold tg_alt, Un. replace (- a) with ((-1) * a) by ring. rewrite Rpow_mult_distr.
    field. apply INR_fact_neq_0. }
  destruct (alternated_series_ineq Un (exp (- a)) 4 Dec (cv_speed_pow_fact a) Lim) as [L H].
  change (S (2 * 4)) with 9%nat in L. change (2 * 4)%nat with 8%nat in H.
  unfold Un, tg_alt in L, H. cbn [sum_f_R0] in L, H.
  rewrite Ha in L, H. cbn [pow] in L, H.
  assert (FS : forall n k, INR (fact n) = IZR k -> INR (fact (S n)) = IZR (Z.of_nat (S n) * k)).
  { intros n k E. rewrite fact_simpl, mult_INR, E, INR_IZR_INZ, mult_IZR. reflexivity. }
  assert (F0 : INR (fact 0) = IZR 1) by reflexivity.
  assert (F1 : INR (fact 1) = IZR 1) by exact (FS _ _ F0).
  assert (F2 : INR (fact 2) = IZR 2) by exact (FS _ _ F1).
  assert (F3 : INR (fact 3) = IZR 6) by exact (FS _ _ F2).
  assert (F4 : INR (fact 4) = IZR 24) by exact (FS _ _ F3).
  assert (F5 : INR (fact 5) = IZR 120) by exact (FS _ _ F4).
  assert (F6 : INR (fact 6) = IZR 720) by exact (FS _ _ F5).
  assert (F7 : INR (fact 7) = IZR 5040) by exact (FS _ _ F6).
  assert (F8 : INR (fact 8) = IZR 40320) by exact (FS _ _ F7).
  assert (F9 : INR (fact 9) = IZR 362880) by exact (FS _ _ F8).
  rewrite F0, F1, F2, F3, F4, F5, F6, F7, F8, F9 in L. rewrite F0, F1, F2, F3, F4, F5, F6, F7, F8 in H.
  rewrite Ha. clear - L H. revert L H. generalize (exp (- (693253125 / 1000000000))). intros e L H.
  apply Rabs_le. unfold Rdiv in *. split; lra.
Qed.

Section Draws.
  Context {G : Type} (unit_draw : G -> R * G) (normal_draw : G -> R * G) (bw_draw : R -> G -> R * G).
  (** numpy's random() is in [0, 1). *)
  Context (U : forall g, 0 <= fst (unit_draw g) < 1).

  Lemma random_ok g u g' : random unit_draw g = (Ok u, g') -> 0 <= u < 1 /\ unit_draw g = (u, g').
  Proof using U.
    unfold random. specialize (U g). destruct (unit_draw g) as [v g1]. cbn [fst] in U.
    intros E. assert (v = u) by congruence. assert (g1 = g') by congruence. subst. now split.
  Qed.

  Lemma uniform_ok a b g x g' : uniform unit_draw a b g = (Ok x, g') ->
    a <= b /\ exists u, 0 <= u < 1 /\ unit_draw g = (u, g') /\ x = a + (b - a) * u.
  Proof using U.
    unfold uniform. destruct (Rlt_bool_spec b a) as [L|L]; [discriminate|]. intros E.
    split; [exact L|]. apply rbind_ok in E. destruct E as (u & g1 & E1 & E2).
    apply random_ok in E1. destruct E1 as [H1 H2]. apply ret_ok in E2. destruct E2 as [<- <-].
    now exists u.
  Qed.

  Lemma uniform_range a b g x g' : uniform unit_draw a b g = (Ok x, g') -> a <= x <= b /\ (a < b -> x < b).
  Proof using U.
    intros E. apply uniform_ok in E. destruct E as (L & u & H & _ & ->). split; nra.
  Qed.

  (** ** C52 *)
  Theorem C52_no_material e g : sample_vertex unit_draw normal_draw e None g = (Ok (e, (0, 0, 0)), g).
  Proof. reflexivity. Qed.

  Theorem C52_vertex e t g ex v g' :
    sample_vertex unit_draw normal_draw e (Some t) g = (Ok (ex, v), g') ->
    exists x y z n gn, v = (x, y, z) /\
      normal_draw g = (n, gn) /\
      sqrt (x ^ 2 + y ^ 2) = t_rho_sigma t * Rabs n /\
      t_zmin t <= z <= t_zmax t /\
      ex = e - t_loss t e z.
  Proof using U.
    unfold sample_vertex. intros E.
    apply rbind_ok in E. destruct E as (n & g1 & E1 & E).
    apply rbind_ok in E. destruct E as (th & g2 & E2 & E).
    apply rbind_ok in E. destruct E as (z & g3 & E3 & E). apply ret_ok in E. destruct E as [E _].
    apply uniform_range in E3. destruct E3 as [E3 _].
    unfold normal in E1. destruct (Rlt_bool_spec (t_rho_sigma t) 0) as [L|L]; [discriminate|].
    destruct (normal_draw g) as [n0 gn] eqn:N.
    assert (En : n = 0 + t_rho_sigma t * n0) by congruence. rewrite Rplus_0_l in En.
    exists (Rabs n * cos th), (Rabs n * sin th), z, n0, gn.
    split; [congruence|]. split; [reflexivity|]. split; [|split; [exact E3|congruence]].
    replace ((Rabs n * cos th) ^ 2 + (Rabs n * sin th) ^ 2)
      with (Rabs n ^ 2 * (sin th * sin th + cos th * cos th)) by ring.
    pose proof (sin2_cos2 th) as S. unfold Rsqr in S. rewrite S, Rmult_1_r, sqrt_pow2 by apply Rabs_pos.
    rewrite En, Rabs_mult, (Rabs_pos_eq (t_rho_sigma t)) by lra. reflexivity.
  Qed.

  Lemma rmap_length {A B} (f : A -> @rand G B) l : forall g bs g', rmap f l g = (Ok bs, g') -> length bs = length l.
  Proof.
    induction l as [|a l IH]; intros g bs g' E; cbn [rmap] in E.
    - apply ret_ok in E. destruct E as [<- _]. reflexivity.
    - apply rbind_ok in E. destruct E as (b & g1 & _ & E).
      apply rbind_ok in E. destruct E as (bs' & g2 & E2 & E). apply ret_ok in E. destruct E as [<- _].
      cbn [length]. f_equal. eauto.
  Qed.
  Lemma rmap_forall {A B} (f : A -> @rand G B) (Q : B -> Prop) l :
    (forall a g b g', In a l -> f a g = (Ok b, g') -> Q b) ->
    forall g bs g', rmap f l g = (Ok bs, g') -> Forall Q bs.
  Proof.
    induction l as [|a l IH]; intros H g bs g' E; cbn [rmap] in E.
    - apply ret_ok in E. destruct E as [<- _]. constructor.
    - apply rbind_ok in E. destruct E as (b & g1 & E1 & E).
      apply rbind_ok in E. destruct E as (bs' & g2 & E2 & E). apply ret_ok in E. destruct E as [<- _].
      constructor; [eapply H; [left; reflexivity|eauto]|]. eapply IH; [|eauto].
      intros a' h b' h' I. apply H. now right.
  Qed.

  (** Every sample has one excitation and one direction per decay, the azimuthal angles are in
      [0, 2 pi), and beam energy and vertex are as above: the sample is fit for run (C44, C45). *)
  Theorem C52_sample_is_complete e t exs pols ds g s g' :
    length exs = S (length ds) ->
    sample_pipeline unit_draw normal_draw bw_draw e t exs pols ds g = (Ok s, g') ->
    well_formed ds s /\ Forall (fun a => 0 <= a < 2 * PI) (s_phi s :: s_decay_phis s) /\
    (exists g1, sample_vertex unit_draw normal_draw e t g = (Ok (s_energy s, s_vertex s), g1)).
  Proof using U.
    intros L E. unfold sample_pipeline in E.
    apply rbind_ok in E. destruct E as ([en v] & g1 & E1 & E).
    apply rbind_ok in E. destruct E as (e0 & g2 & E2 & E).
    apply rbind_ok in E. destruct E as (rex & g3 & E3 & E).
    apply rbind_ok in E. destruct E as (p0 & g4 & E4 & E).
    apply rbind_ok in E. destruct E as (rth & g5 & E5 & E).
    apply rbind_ok in E. destruct E as (rph & g6 & E6 & E). cbv zeta in E.
    apply rbind_ok in E. destruct E as (dex & g7 & E7 & E).
    apply rbind_ok in E. destruct E as (dth & g8 & E8 & E).
    apply rbind_ok in E. destruct E as (dph & g9 & E9 & E). apply ret_ok in E. destruct E as [<- _].
    cbn [fst snd s_energy s_vertex s_phi s_decay_phis].
    assert (P : forall g x g', uniform unit_draw 0 (PI * 2) g = (Ok x, g') -> 0 <= x < 2 * PI).
    { intros h x h' H. apply uniform_range in H. pose proof PI_RGT_0. destruct H as [H1 H2].
      assert (x < PI * 2) by (apply H2; lra). lra. }
    split; [|split; [|exists g1; exact E1]].
    - pose proof (rmap_length _ _ _ _ _ E7) as L7. pose proof (rmap_length _ _ _ _ _ E8) as L8.
      pose proof (rmap_length _ _ _ _ _ E9) as L9. rewrite map_length, seq_length, L in L7, L8.
      unfold well_formed. cbn [s_decay_ex s_decay_thetas s_decay_phis]. lia.
    - constructor; [eapply P; eauto|]. eapply rmap_forall; [|exact E9]. intros a h b h' _ H. eapply P; eauto.
  Qed.

  (** Draws one after the other: every element of [l] gives one value, each draw starts from the
      generator state that the previous one left. *)
  Inductive drawn_each {A B} (f : A -> @rand G B) : list A -> G -> list B -> G -> Prop :=
  | each_nil g : drawn_each f [] g [] g
  | each_cons a l g b g1 bs g' : f a g = (Ok b, g1) -> drawn_each f l g1 bs g' -> drawn_each f (a :: l) g (b :: bs) g'.

  Lemma rmap_each {A B} (f : A -> @rand G B) l : forall g bs g', rmap f l g = (Ok bs, g') -> drawn_each f l g bs g'.
  Proof using.
    induction l as [|a l IH]; intros g bs g' E; cbn [rmap] in E.
    - apply ret_ok in E. destruct E as [<- <-]. constructor.
    - apply rbind_ok in E. destruct E as (b & g1 & E1 & E).
      apply rbind_ok in E. destruct E as (bs' & g2 & E2 & E). apply ret_ok in E. destruct E as [<- <-].
      econstructor; [exact E1|]. now apply IH.
  Qed.
  Lemma rmap_indexed {A B} (f : A -> @rand G B) (l : list A) n : forall k g bs g',
    rmap (fun i => rbind (lift (py_index l i)) f) (map Z.of_nat (seq k n)) g = (Ok bs, g') ->
    exists m, firstn n (skipn k l) = m /\ length m = n /\ drawn_each f m g bs g'.
  Proof using.
    induction n as [|n IH]; intros k g bs g' E; cbn [seq map rmap] in E.
    - apply ret_ok in E. destruct E as [<- <-]. exists []. repeat split. constructor.
    - apply rbind_ok in E. destruct E as (b & g1 & E1 & E).
      apply rbind_ok in E. destruct E as (bs' & g2 & E2 & E). apply ret_ok in E. destruct E as [<- <-].
      apply rbind_ok in E1. destruct E1 as (a & g0 & Ea & E1). unfold lift in Ea.
      assert (Ea1 : py_index l (Z.of_nat k) = Ok a) by congruence. assert (g0 = g) by congruence. subst g0.
      destruct (IH (S k) _ _ _ E2) as (m & M1 & M2 & M3).
      assert (N : nth_error l k = Some a).
      { unfold py_index in Ea1. destruct (Z.ltb_spec (Z.of_nat k) 0); [lia|].
        destruct (_ && _) in Ea1; [|discriminate Ea1]. rewrite Nat2Z.id in Ea1.
        destruct (nth_error l k); [congruence|discriminate Ea1]. }
      exists (a :: m). split; [|split; [cbn [length]; congruence|now econstructor; [exact E1|]]].
      rewrite <- M1. clear - N. revert l N. induction k as [|k IH]; intros [|x l] N; try discriminate N.
      + cbn in N. injection N as ->. reflexivity.
      + cbn [nth_error] in N. exact (IH l N).
  Qed.

  (** C52: the reaction uses the first distributions, decay number i the distributions number
      i + 1, every value is drawn_each afresh, in this order. *)
  Theorem C52_own_distributions e t exs pols ds g s g' :
    length exs = S (length ds) ->
    sample_pipeline unit_draw normal_draw bw_draw e t exs pols ds g = (Ok s, g') ->
    exists e0 es p0 ps more g1 g2 g3 g4 g5 g6,
      exs = e0 :: es /\ pols = p0 :: ps ++ more /\ length ps = length ds /\
      sample_vertex unit_draw normal_draw e t g = (Ok (s_energy s, s_vertex s), g1) /\
      sample_excitation unit_draw normal_draw bw_draw e0 g1 = (Ok (s_ex s), g2) /\
      sample_polar unit_draw p0 g2 = (Ok (s_theta s), g3) /\
      uniform unit_draw 0 (2 * PI) g3 = (Ok (s_phi s), g4) /\
      drawn_each (sample_excitation unit_draw normal_draw bw_draw) es g4 (s_decay_ex s) g5 /\
      drawn_each (sample_polar unit_draw) ps g5 (s_decay_thetas s) g6 /\
      drawn_each (fun _ => uniform unit_draw 0 (2 * PI)) ds g6 (s_decay_phis s) g'.
  Proof using.
    intros L E. unfold sample_pipeline in E.
    apply rbind_ok in E. destruct E as ([en v] & g1 & E1 & E).
    apply rbind_ok in E. destruct E as (e0 & g2 & E2 & E).
    apply rbind_ok in E. destruct E as (rex & g3 & E3 & E).
    apply rbind_ok in E. destruct E as (p0 & g4 & E4 & E).
    apply rbind_ok in E. destruct E as (rth & g5 & E5 & E).
    apply rbind_ok in E. destruct E as (rph & g6 & E6 & E). cbv zeta in E.
    apply rbind_ok in E. destruct E as (dex & g7 & E7 & E).
    apply rbind_ok in E. destruct E as (dth & g8 & E8 & E).
    apply rbind_ok in E. destruct E as (dph & g9 & E9 & E). apply ret_ok in E. destruct E as [<- <-].
    cbn [fst snd s_energy s_vertex s_ex s_theta s_phi s_decay_ex s_decay_thetas s_decay_phis].
    unfold lift in E2, E4. rewrite (Rmult_comm PI 2) in E6, E9.
    assert (Q2 : py_index exs 0 = Ok e0 /\ g2 = g1) by (split; congruence). destruct Q2 as (Q2 & ->).
    assert (Q4 : py_index pols 0 = Ok p0 /\ g4 = g3) by (split; congruence). destruct Q4 as (Q4 & ->).
    apply rmap_indexed in E7, E8. destruct E7 as (m & M1 & M2 & M3). destruct E8 as (m' & M1' & M2' & M3').
    destruct exs as [|x exs]; [discriminate Q2|]. destruct pols as [|y pols]; [discriminate Q4|].
    cbn in Q2, Q4. assert (x = e0) by congruence. assert (y = p0) by congruence. subst x y.
    cbn [length] in *. rewrite Nat.sub_succ, Nat.sub_0_r in *. cbn [skipn] in *.
    assert (Lx : length exs = length ds) by lia. rewrite firstn_all in M1. subst m.
    exists e0, exs, p0, m', (skipn (length exs) pols), g1, g3, g5, g6, g7, g8.
    split; [reflexivity|]. split; [rewrite <- M1', firstn_skipn; reflexivity|]. split; [congruence|].
    repeat (split; [assumption|]). now apply rmap_each.
  Qed.

  (** ** C53 *)
  Theorem C53_in_range a b g x g' : 0 <= a -> b <= PI ->
    sample_polar unit_draw (PolarUniform a b) g = (Ok x, g') -> a <= b ->
    a <= x <= b /\ (a < b -> a < x).
  Proof using U.
    intros Ha Hb E Hab. cbn [sample_polar] in E. apply rbind_ok in E. destruct E as (c & g1 & E1 & E).
    apply ret_ok in E. destruct E as [<- _]. apply uniform_range in E1. destruct E1 as [E1 E2].
    pose proof (COS_bound a) as Ba. pose proof (COS_bound b) as Bb.
    assert (C : cos (acos c) = c) by (apply cos_acos; lra).
    pose proof (acos_bound c) as B. split; [split; apply Rnot_lt_le; intros L|].
    - assert (cos a < cos (acos c)) by (apply cos_decreasing_1; lra). lra.
    - assert (cos (acos c) < cos b) by (apply cos_decreasing_1; lra). lra.
    - intros L. assert (D : cos b < cos a) by (apply cos_decreasing_1; lra). specialize (E2 D).
      apply Rnot_le_lt. intros K. destruct (Rle_lt_or_eq_dec _ _ K) as [K1|K1].
      + assert (cos a < cos (acos c)) by (apply cos_decreasing_1; lra). lra.
      + rewrite K1 in C. lra.
  Qed.

  (** Uniform in cos(polar): cumulative distribution in terms of the underlying draw. *)
  Theorem C53_uniform_in_cos a b g x g' t : 0 <= a -> a < b -> b <= PI -> a <= t <= b ->
    sample_polar unit_draw (PolarUniform a b) g = (Ok x, g') ->
    x <= t <-> (cos t - cos b) / (cos a - cos b) <= fst (unit_draw g).
  Proof using U.
    intros Ha Hab Hb Ht E. cbn [sample_polar] in E. apply rbind_ok in E. destruct E as (c & g1 & E1 & E).
    apply ret_ok in E. destruct E as [<- _]. pose proof E1 as E0. apply uniform_range in E0. destruct E0 as [E0 _].
    apply uniform_ok in E1. destruct E1 as (_ & u & Hu & Eu & Ec). rewrite Eu. cbn [fst].
    pose proof (COS_bound a) as Ba. pose proof (COS_bound b) as Bb.
    assert (C : cos (acos c) = c) by (apply cos_acos; lra).
    pose proof (acos_bound c) as B.
    assert (D : cos b < cos a) by (apply cos_decreasing_1; lra).
    assert (X : acos c <= t <-> cos t <= c).
    { rewrite <- C at 2. split; intros H.
      - destruct H as [H|H]; [left; apply cos_decreasing_1; lra|rewrite H; lra].
      - apply Rnot_lt_le. intros L. assert (cos (acos c) < cos t) by (apply cos_decreasing_1; lra). lra. }
    rewrite X, Ec. split; intros H.
    - apply Rmult_le_reg_r with (cos a - cos b); [lra|]. unfold Rdiv. rewrite Rmult_assoc, Rinv_l by lra. lra.
    - apply Rmult_le_compat_r with (r := cos a - cos b) in H; [|lra].
      unfold Rdiv in H. rewrite Rmult_assoc, Rinv_l in H by lra. lra.
  Qed.

  (** Every angle above the lower limit is the sample for some draw; the lower limit is not. *)
  Theorem C53_attained a b t : 0 <= a -> a < b -> b <= PI -> a < t <= b ->
    0 <= (cos t - cos b) / (cos a - cos b) < 1 /\
    forall g, fst (unit_draw g) = (cos t - cos b) / (cos a - cos b) ->
    exists g', sample_polar unit_draw (PolarUniform a b) g = (Ok t, g').
  Proof.
    intros Ha Hab Hb Ht.
    assert (D : cos b < cos a) by (apply cos_decreasing_1; lra).
    assert (D1 : cos t < cos a) by (apply cos_decreasing_1; lra).
    assert (D2 : cos b <= cos t).
    { destruct (Req_dec t b) as [->|N]; [lra|]. left. apply cos_decreasing_1; lra. }
    split.
    - split; [apply Rmult_le_pos; [lra|left; apply Rinv_0_lt_compat; lra]|].
      apply Rmult_lt_reg_r with (cos a - cos b); [lra|]. unfold Rdiv. rewrite Rmult_assoc, Rinv_l by lra. lra.
    - intros g E. cbn [sample_polar]. unfold uniform. rewrite Rlt_bool_false by lra.
      unfold rbind, random. destruct (unit_draw g) as [u g']. cbn [fst] in E. exists g'.
      unfold ret. f_equal. f_equal. rewrite E.
      replace (cos b + (cos a - cos b) * ((cos t - cos b) / (cos a - cos b))) with (cos t) by (field; lra).
      apply acos_cos. lra.
  Qed.

  Theorem C53_reversed_limits_fail a b g : 0 <= b -> b < a -> a <= PI ->
    sample_polar unit_draw (PolarUniform a b) g = (Err ValueError, g).
  Proof.
    intros Hb Hab Ha. cbn [sample_polar]. unfold uniform.
    rewrite Rlt_bool_true; [reflexivity|]. apply cos_decreasing_1; lra.
  Qed.

  (** ** C54 *)
  Lemma count_cumsum t p : forall acc, Forall (fun x => 0 <= x) p -> acc <= t -> t < acc + sum_R p ->
    let n := length (filter (fun c => Rle_bool c t) (cumsum acc p)) in
    (n < length p)%nat /\ acc + sum_R (firstn n p) <= t < acc + sum_R (firstn (S n) p).
  Proof.
    induction p as [|x p IH]; intros acc F La Lt; [cbn in Lt; lra|].
    inversion F as [|? ? Fx Fp]; subst. cbn [cumsum filter]. rewrite sum_R_cons in Lt.
    destruct (Rle_bool_spec (acc + x) t) as [L|L].
    - destruct (IH (acc + x) Fp L ltac:(lra)) as (I1 & I2). cbn [length].
      set (n := length (filter _ _)) in *. split; [lia|].
      cbn [firstn]. rewrite !sum_R_cons. cbn [firstn] in I2. lra.
    - assert (Z : forall q a, Forall (fun x => 0 <= x) q -> t < a ->
        filter (fun c => Rle_bool c t) (cumsum a q) = []).
      { induction q as [|y q IHq]; intros a Fq Lq; [reflexivity|]. inversion Fq; subst. cbn [cumsum filter].
        rewrite Rle_bool_false by lra. apply IHq; [assumption|lra]. }
      rewrite (Z p (acc + x) Fp L). cbn [length firstn]. split; [lia|]. rewrite sum_R_cons.
      change (sum_R (@nil R)) with 0. lra.
  Qed.

  Lemma last_cumsum p : forall acc, p <> [] -> last (cumsum acc p) 0 = acc + sum_R p.
  Proof.
    induction p as [|x p IH]; intros acc N; [easy|]. cbn [cumsum]. rewrite sum_R_cons.
    destruct p as [|y p]; [cbn; ring|]. rewrite <- Rplus_assoc, <- IH by easy. reflexivity.
  Qed.

  Lemma fold_left_sum p : forall acc, fold_left Rplus p acc = acc + sum_R p.
  Proof.
    induction p as [|x p IH]; intros acc; cbn [fold_left]; [cbn; ring|]. rewrite IH, sum_R_cons. ring.
  Qed.

  (** The angle chosen is the i-th when the draw is in the i-th interval of the cumulative
      distribution (so with probability p_i / sum p); the sample lies in the bin of that angle. *)
  Theorem C54_sample angles probs w g x g' : 0 <= w ->
    sample_polar unit_draw (PolarArbitrary angles probs w) g = (Ok x, g') ->
    length angles = length probs /\ Forall (fun p => 0 <= p) probs /\
    exists i a p, nth_error angles i = Some a /\ nth_error probs i = Some p /\
      0 < p /\ a <= x <= a + w /\ (0 < w -> x < a + w) /\
      sum_R (firstn i probs) <= fst (unit_draw g) * sum_R probs < sum_R (firstn (S i) probs).
  Proof using U.
    intros Hw E. cbn [sample_polar] in E. apply rbind_ok in E. destruct E as (a & g1 & E1 & E).
    apply rbind_ok in E. destruct E as (v & g2 & E2 & E). apply ret_ok in E. destruct E as [<- _].
    apply uniform_range in E2. destruct E2 as [E2 E3].
    unfold choice in E1. destruct (length angles =? 0)%nat eqn:N; [discriminate|].
    destruct (Nat.eqb_spec (length probs) (length angles)) as [Le|Le]; cbn [negb] in E1; [|discriminate].
    destruct (existsb (fun x => Rlt_bool x 0) probs) eqn:Ex; [discriminate|].
    destruct (Rlt_bool_spec (/ 2 ^ 26) (Rabs (fold_left Rplus probs 0 - 1))) as [L|L]; [discriminate|].
    rewrite fold_left_sum, Rplus_0_l in L.
    apply rbind_ok in E1. destruct E1 as (u & g3 & R1 & E1). apply random_ok in R1. destruct R1 as [Hu Eu].
    assert (F : Forall (fun p => 0 <= p) probs).
    { apply Forall_forall. intros p Hp. apply Rnot_lt_le. intros Hn.
      assert (T : existsb (fun x => Rlt_bool x 0) probs = true).
      { apply existsb_exists. exists p. split; [exact Hp|]. now apply Rlt_bool_true. }
      congruence. }
    split; [congruence|]. split; [exact F|].
    assert (S : 0 < sum_R probs).
    { unfold Rabs in L. destruct (Rcase_abs _) in L; lra. }
    assert (Np : probs <> []) by (intros ->; change (sum_R (@nil R)) with 0 in S; lra).
    assert (CI : choice_index probs u = length (filter (fun c => Rle_bool c (u * sum_R probs)) (cumsum 0 probs))).
    { unfold choice_index. rewrite last_cumsum, Rplus_0_l by exact Np. f_equal. apply filter_ext. intros c.
      destruct (Rle_bool_spec (c / sum_R probs) u) as [H|H]; destruct (Rle_bool_spec c (u * sum_R probs)) as [K|K];
        try reflexivity; exfalso.
      - apply Rmult_le_compat_r with (r := sum_R probs) in H; [|lra].
        unfold Rdiv in H. rewrite Rmult_assoc, Rinv_l in H by lra. lra.
      - apply Rmult_lt_compat_r with (r := sum_R probs) in H; [|lra].
        unfold Rdiv in H. rewrite Rmult_assoc, Rinv_l in H by lra. lra. }
    destruct (count_cumsum (u * sum_R probs) probs 0 F) as (I1 & I2); [nra|nra|].
    rewrite <- CI in I1, I2. set (i := choice_index probs u) in *.
    destruct (nth_error angles i) as [a0|] eqn:Na; [|discriminate].
    apply ret_ok in E1. destruct E1 as [<- _].
    destruct (nth_error probs i) as [p|] eqn:Npi; [|apply nth_error_None in Npi; lia].
    assert (Sf : sum_R (firstn (Datatypes.S i) probs) = sum_R (firstn i probs) + p).
    { clear -Npi. clearbody i. revert i Npi. induction probs as [|y l IH]; intros [|i] H; try discriminate.
      - cbn [nth_error] in H. assert (y = p) by congruence. subst. cbn. ring.
      - cbn [nth_error] in H. specialize (IH _ H).
        change (firstn (Datatypes.S (Datatypes.S i)) (y :: l)) with (y :: firstn (Datatypes.S i) l).
        change (firstn (Datatypes.S i) (y :: l)) with (y :: firstn i l). rewrite !sum_R_cons, IH. ring. }
    exists i, a0, p. rewrite Eu. cbn [fst].
    split; [exact Na|]. split; [exact Npi|].
    split; [lra|]. split; [nra|]. split; [|lra].
    intros Pw. assert (v < 1) by (apply E3; lra). nra.
  Qed.

  Theorem C54_accepted_iff angles probs w :
    (exists d, make_arbitrary angles probs w = Ok d) <-> sum_R probs <= 1.
  Proof.
    unfold make_arbitrary, probabilities_refused.
    assert (S : forall l acc, fold_left (@nadd XR) (map Some l) (Some acc) = Some (acc + sum_R l)).
    { induction l as [|y l IH]; intros acc; cbn [map fold_left]; [cbn [sum_R fold_right]; f_equal; ring|].
      change (@nadd XR (Some acc) (Some y)) with (Some (acc + y)). rewrite IH, sum_R_cons. f_equal. ring. }
    change (@nofZ XR 0) with (Some 0). rewrite S, Rplus_0_l.
    change (@nltb XR (@nofZ XR 1) (Some (sum_R probs))) with (Rlt_bool 1 (sum_R probs)).
    destruct (Rlt_bool_spec 1 (sum_R probs)) as [L|L].
    - split; [intros [d Q]; discriminate|lra].
    - split; [intros _; lra|eauto].
  Qed.

  (** Accepted arrays that do not sum to one (to within 2^-26) fail at every sample. *)
  Theorem C54_deficient_fails_late angles probs w g : sum_R probs < 1 - / 2 ^ 26 ->
    make_arbitrary angles probs w = Ok (PolarArbitrary angles probs w) /\
    sample_polar unit_draw (PolarArbitrary angles probs w) g = (Err ValueError, g).
  Proof.
    intros L. assert (P : 0 < / 2 ^ 26) by (apply Rinv_0_lt_compat, pow_lt; lra).
    split.
    - destruct (proj2 (C54_accepted_iff angles probs w) ltac:(lra)) as [d D]. rewrite D.
      unfold make_arbitrary in D. destruct (probabilities_refused _); [discriminate|congruence].
    - cbn [sample_polar]. unfold rbind at 1. unfold choice.
      destruct (length angles =? 0)%nat; [reflexivity|]. destruct (negb _); [reflexivity|].
      destruct (existsb _ _); [reflexivity|].
      rewrite Rlt_bool_true; [reflexivity|]. rewrite fold_left_sum, Rplus_0_l.
      rewrite Rabs_left by lra. lra.
  Qed.

  (** ** C55 *)
  Theorem C55_uniform a b g x g' :
    sample_excitation unit_draw normal_draw bw_draw (ExUniform a b) g = (Ok x, g') -> a <= x <= b.
  Proof using U. cbn [sample_excitation]. intros E. now apply uniform_range in E. Qed.

  Theorem C55_gaussian_zero_width c g :
    exists g', sample_excitation unit_draw normal_draw bw_draw (ExGaussian c 0) g = (Ok c, g').
  Proof.
    cbn [sample_excitation]. unfold normal.
    replace (0 / 2.355) with 0 by (unfold Rdiv; ring). rewrite Rlt_bool_false by lra.
    destruct (normal_draw g) as [z g']. exists g'. do 2 f_equal. ring.
  Qed.

  (** The standard deviation in use makes [width] the full width at half maximum of the normal
      density: at centroid +- width / 2 the density is half its maximum (to 1e-4). *)
  Theorem C55_gaussian_fwhm c w : 0 < w -> exists sigma,
    (forall g, sample_excitation unit_draw normal_draw bw_draw (ExGaussian c w) g =
       (Ok (c + sigma * fst (normal_draw g)), snd (normal_draw g))) /\
    0 < sigma /\
    Rabs (exp (- (w / 2) ^ 2 / (2 * sigma ^ 2)) - 1 / 2) <= 1 / 10000.
  Proof.
    intros P. exists (w / 2.355). assert (S : 0 < w / 2.355) by lra. split; [|split; [exact S|]].
    - intros g. cbn [sample_excitation]. unfold normal. rewrite Rlt_bool_false by lra.
      destruct (normal_draw g). reflexivity.
    - replace (- (w / 2) ^ 2 / (2 * (w / 2.355) ^ 2)) with (- (2.355 ^ 2 / 8)) by (field; lra).
      apply exp_half.
  Qed.

  (** Negative excitations are drawn (and used) whenever the draw is low enough. *)
  Theorem C55_negative_excitation c w g : 0 < w -> fst (normal_draw g) * w < - 2.355 * c ->
    exists x g', sample_excitation unit_draw normal_draw bw_draw (ExGaussian c w) g = (Ok x, g') /\ x < 0.
  Proof.
    intros P L. cbn [sample_excitation]. unfold normal.
    rewrite Rlt_bool_false by (apply Rlt_le; lra).
    destruct (normal_draw g) as [z g1]. cbn [fst] in L. do 2 eexists. split; [reflexivity|].
    lra.
  Qed.

  (** The mass of the excited nucleus is the energy drawn, when rest_mass is the nucleus's mass. *)
  Theorem C55_breit_wigner m c w g x g' :
    sample_excitation unit_draw normal_draw bw_draw (ExBreitWigner m c w) g = (Ok x, g') ->
    0 < w /\ 0 < m + c /\ m + x = w * fst (bw_draw ((m + c) / w) g).
  Proof.
    cbn [sample_excitation]. intros E. apply rbind_ok in E. destruct E as (rho & g1 & E1 & E).
    unfold lift, pydivR in E1. destruct (Req_bool_spec w 0) as [Z|Z]; [discriminate|].
    assert (rho = (m + c) / w) by congruence. assert (g = g1) by congruence. subst rho g1.
    destruct (Rle_bool_spec ((m + c) / w) 0) as [L|L]; [discriminate|].
    destruct (Rlt_bool_spec w 0) as [K|K]; [discriminate|]. cbn [orb] in E.
    destruct (bw_draw _ g) as [t g2]. assert (Pw : 0 < w) by lra. cbn [fst].
    split; [exact Pw|]. split.
    - apply Rmult_lt_compat_r with (r := w) in L; [|exact Pw].
      unfold Rdiv in L. rewrite Rmult_assoc, Rinv_l in L by lra. lra.
    - assert (width : w * t - m = x) by congruence. lra.
  Qed.
End Draws.

(** Probabilities whose exact sum is 1 (in decimal and as binary64 numbers) but whose binary64 sum
    exceeds 1 are refused; 0.1, 0.2, 0.3, 0.05, 0.3, 0.05.  numpy may also add the first element to
    the sum of the others: refused too. *)
Definition decimal_probs : list f64 :=
  [f_of_ZE 7205759403792794 (-56); f_of_ZE 7205759403792794 (-55); f_of_ZE 5404319552844595 (-54);
   f_of_ZE 7205759403792794 (-57); f_of_ZE 5404319552844595 (-54); f_of_ZE 7205759403792794 (-57)].

Theorem C54_exact_sum_refused fexp :
  Forall (fun p => BinarySingleNaN.is_finite p = true /\ 0 < R64 p) decimal_probs /\
  sum_R (map R64 decimal_probs) = 1 /\
  @probabilities_refused (F64 fexp) decimal_probs = true /\
  fltb (f_of_Z 1) (fadd (hd fnan decimal_probs) (fold_left fadd (tl decimal_probs) (f_of_Z 0))) = true.
Proof.
  assert (C : forall m e, (0 < m < 2 ^ 53)%Z -> (-1074 <= e <= 0)%Z ->
     BinarySingleNaN.is_finite (f_of_ZE m e) = true /\ R64 (f_of_ZE m e) = IZR m * bpow radix2 e).
  { intros m e H1 H2. destruct (f_of_ZE_correct m e ltac:(lia) H2). split; assumption. }
  split; [|split; [|split]].
  - unfold decimal_probs. repeat apply Forall_cons; try apply Forall_nil;
      (match goal with |- context [f_of_ZE ?m ?e] => destruct (C m e ltac:(lia) ltac:(lia)) as [F ->] end;
       split; [exact F|]; apply Rmult_lt_0_compat; [lra|apply bpow_gt_0]).
  - unfold decimal_probs. cbn [map]. rewrite !sum_R_cons. change (sum_R (@nil R)) with 0.
    repeat match goal with |- context [f_of_ZE ?m ?e] =>
      rewrite (proj2 (C m e ltac:(lia) ltac:(lia))) end.
    change (bpow radix2 (-56)) with (/ IZR (2 ^ 56)). change (bpow radix2 (-55)) with (/ IZR (2 ^ 55)).
    change (bpow radix2 (-54)) with (/ IZR (2 ^ 54)). change (bpow radix2 (-57)) with (/ IZR (2 ^ 57)).
    lra.
  - unfold probabilities_refused. cbn [F64 nltb nofZ nadd]. vm_compute. reflexivity.
  - vm_compute. reflexivity.
Qed.

(** ** A whole chain: 1 + 1 -> 1 + 1 sampled and calculated with a Gaussian excitation. *)
Definition half_draw (g : nat) : R * nat := (1 / 2, S g).
Definition low_draw (g : nat) : R * nat := (-1, S g).
Definition sample_ones (t : option target) : nat -> res sample * nat :=
  sample_pipeline half_draw low_draw (fun _ => half_draw) 2 t [ExGaussian 0 (2.355 / 2)]
    [PolarUniform 0 PI] [].

Lemma half_draw_ok g : 0 <= fst (half_draw g) < 1.
Proof. cbn [half_draw fst]. lra. Qed.

Definition tank : target := mkTarget (fun e z => z / 2) 0 2 3.

Lemma sample_ones_tank : exists s, sample_ones (Some tank) 0%nat = (Ok s, 6%nat) /\
  s_energy s = 3 / 2 /\ s_ex s = - (1 / 2) /\ s_theta s = PI / 2 /\ s_vertex s = (-3, 0, 1) /\ s_decay_ex s = [].
Proof.
  pose proof PI_RGT_0 as P.
  unfold sample_ones, sample_pipeline, sample_vertex. cbn [py_index length Nat.sub seq map rmap].
  unfold rbind, uniform, normal, random, ret, lift, fail, sample_excitation, sample_polar, uniform, normal, rbind, random, ret.
  cbn [tank t_rho_sigma t_zmin t_zmax t_loss]. rewrite !Rlt_bool_false; try lra.
  cbn [half_draw low_draw fst snd].
  change (py_index [ExGaussian 0 (2.355 / 2)] 0) with (Ok (ExGaussian 0 (2.355 / 2))).
  change (py_index [PolarUniform 0 PI] 0) with (Ok (PolarUniform 0 PI)).
  cbn [half_draw low_draw fst snd]. rewrite !Rlt_bool_false; try lra; try (rewrite cos_0, cos_PI; lra).
  cbn [half_draw low_draw fst snd].
  eexists. split; [reflexivity|]. cbn [s_energy s_ex s_theta s_vertex s_decay_ex].
  rewrite cos_0, cos_PI. repeat split; try lra.
  - replace (-1 + (1 - -1) * (1 / 2)) with 0 by lra. apply acos_0.
  - replace (0 + (2 * PI - 0) * (1 / 2)) with PI by lra. rewrite cos_PI, sin_PI.
    replace (0 + 3 * -1) with (-3) by ring. rewrite Rabs_left by lra. f_equal; [f_equal|]; lra.
Qed.

(** run accepts the negative excitation: the residual is lighter than its ground state. *)
Theorem C55_light_residual : exists m' q,
  run (sample_ones (Some tank)) (mkPipeline ones [] 10 []) 0 (fun _ => repeat None 4) 0%nat
    = ((m', 6%nat), Ok ((-3, 0, 1), 0%nat)) /\
  nth 3 (m' 0%nat) None = Some q /\ mdot q q < n_mass (r_residual ones) ^ 2.
Proof.
  destruct sample_ones_tank as (s & D & Se & Sx & St & Sv & Sd).
  set (pl := mkPipeline ones [] 10 []).
  assert (WF : forall g s g', sample_ones (Some tank) g = (Ok s, g') -> well_formed (pl_decays pl) s).
  { intros g s1 g' E. unfold sample_ones in E. apply C52_sample_is_complete in E; [apply E|apply half_draw_ok|reflexivity]. }
  pose proof (WF _ _ _ D) as W.
  destruct (verdict_exists pl s W) as [v V]. cbn [pl pl_reaction pl_decays] in V.
  assert (M : massive ones [] s).
  { unfold massive, massive_decays, ones, nuc. cbn [r_target r_projectile r_ejectile r_residual n_mass combine].
    rewrite Se, Sx. repeat split; try lra. constructor. }
  destruct (C47_accepted_iff _ _ _ _ M V) as [[_ I] _].
  destruct I as [rows ->].
  { assert (EX : exact_threshold ones (s_ex s) < s_energy s).
    { rewrite Se, Sx. unfold exact_threshold, ones, nuc. cbn [r_target r_projectile r_ejectile r_residual n_mass]. lra. }
    split; [exact EX|]. split; [|exact I].
    apply C40_allowed_is_calculated; rewrite ?Se, ?Sx; unfold deficit, ones, nuc;
      cbn [r_target r_projectile r_ejectile r_residual n_mass]; try lra.
    apply C40_allowed_is_exact; cbn [r_target r_projectile r_ejectile r_residual n_mass]; try lra.
    rewrite Se, Sx in EX. exact EX. }
  destruct (C47_on_shell _ _ _ _ M V) as (ps & E & F).
  destruct (C44_first_allowed (sample_ones (Some tank)) pl 0 WF (fun _ => repeat None 4) 0%nat [] 0%nat s 6%nat rows)
    as (m' & R & Em & _); try assumption; try reflexivity; [constructor|constructor|].
  rewrite Sv in R. cbn [app decay_masses combine flat_map] in F.
  destruct ps as [|a [|b [|c [|q l]]]];
    repeat (match goal with H : Forall2 _ _ _ |- _ => inversion H; clear H; subst end).
  match goal with H : on_shell (_ + _) ?q |- _ => exists m', q; rename H into O end.
  split; [exact R|]. split; [rewrite Em; reflexivity|].
  unfold on_shell in O. unfold ones, nuc in *. cbn [r_residual n_mass] in *. rewrite Sx in O. nra.
Qed.

(** A vertex 3 off the axis at depth 1, where the beam has lost 1/2 of its energy 2. *)
Example C52_example : exists s g1 x y z,
  sample_ones (Some tank) 0%nat = (Ok s, 6%nat) /\
  sample_vertex half_draw low_draw 2 (Some tank) 0%nat = (Ok (s_energy s, s_vertex s), g1) /\
  s_vertex s = (x, y, z) /\ sqrt (x ^ 2 + y ^ 2) = 3 /\ t_zmin tank <= z <= t_zmax tank /\
  s_energy s = 2 - t_loss tank 2 z /\ s_energy s = 3 / 2.
Proof.
  destruct sample_ones_tank as (s & D & Se & Sx & St & Sv & Sd). pose proof D as D0. unfold sample_ones in D.
  apply C52_sample_is_complete in D; [|apply half_draw_ok|reflexivity]. destruct D as (_ & _ & g1 & V).
  exists s, g1, (-3), 0, 1. split; [exact D0|]. split; [exact V|]. split; [exact Sv|].
  apply C52_vertex in V; [|apply half_draw_ok]. destruct V as (x & y & z & n & gn & Ev & En & Rxy & Rz & Ee).
  rewrite Sv in Ev. assert (x = -3) by congruence. assert (y = 0) by congruence. assert (z = 1) by congruence. subst x y z.
  split; [|split; [exact Rz|split; [exact Ee|exact Se]]].
  replace ((-3) ^ 2 + 0 ^ 2) with (3 ^ 2) by ring. apply sqrt_pow2. lra.
Qed.

(** Uniform polar angles over the sphere: the draw 1/2 is 90 degrees. *)
Example C53_example : exists g', sample_polar half_draw (PolarUniform 0 PI) 0%nat = (Ok (PI / 2), g').
Proof.
  pose proof PI_RGT_0 as P. apply C53_attained; try lra.
  cbn [half_draw fst]. rewrite cos_PI2, cos_0, cos_PI. lra.
Qed.

(** Angles 0.1 and 0.2 with probabilities 1/4 and 3/4: the draw 1/2 chooses the second bin. *)
Example C54_example : exists x g',
  sample_polar half_draw (PolarArbitrary [0.1; 0.2] [1 / 4; 3 / 4] 0.1) 0%nat = (Ok x, g') /\ x = 0.25.
Proof.
  assert (I : choice_index [1 / 4; 3 / 4] (1 / 2) = 1%nat).
  { unfold choice_index. cbn [cumsum last filter].
    rewrite (Rle_bool_true ((0 + 1 / 4) / (0 + 1 / 4 + 3 / 4))) by lra.
    rewrite (Rle_bool_false ((0 + 1 / 4 + 3 / 4) / (0 + 1 / 4 + 3 / 4))) by lra. reflexivity. }
  cbn [sample_polar]. unfold rbind, choice, uniform. cbn [length Nat.eqb negb existsb fold_left].
  rewrite !(Rlt_bool_false _ 0) by lra. cbn [orb].
  replace (0 + 1 / 4 + 3 / 4 - 1) with 0 by lra. rewrite Rabs_R0.
  rewrite Rlt_bool_false by (left; apply Rinv_0_lt_compat, pow_lt; lra).
  unfold rbind, random, half_draw. rewrite I. cbn [nth_error ret].
  unfold ret. do 2 eexists. split; [reflexivity|]. lra.
Qed.

Example C54_deficient_example g :
  sample_polar half_draw (PolarArbitrary [0.1; 0.2] [1 / 4; 1 / 4] 0.1) g = (Err ValueError, g).
Proof.
  apply C54_deficient_fails_late. cbn [sum_R fold_right].
  assert (/ 2 ^ 26 < / 2 ^ 1) by (apply Rinv_lt_contravar; [apply Rmult_lt_0_compat; apply pow_lt; lra|apply Rlt_pow; [lra|lia]]).
  lra.
Qed.

Example C55_example : exists x g',
  sample_excitation half_draw low_draw (fun _ => half_draw) (ExBreitWigner 10 2 4) 0%nat = (Ok x, g') /\ 10 + x = 2.
Proof.
  cbn [sample_excitation]. unfold rbind, lift, pydivR. rewrite Req_bool_false by lra.
  rewrite Rle_bool_false, Rlt_bool_false by lra. cbn [orb half_draw]. do 2 eexists. split; [reflexivity|]. lra.
Qed.

Print Assumptions C52_vertex.
Print Assumptions C52_sample_is_complete.
Print Assumptions C53_uniform_in_cos.
Print Assumptions C54_sample.
Print Assumptions C54_exact_sum_refused.
Print Assumptions C55_gaussian_fwhm.
Print Assumptions C55_light_residual.
