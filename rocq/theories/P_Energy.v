(** P_Energy.v -- C73: the energies with which the nuclei of an event enter the detector. *)
From Coq Require Import ZArith Reals Lra Lia List.
From Verif Require Import Base Nucleus Reaction SpecReaction Pipeline SpecPipeline PipelineProofs P_Reaction P_Pipeline
  Simulator KinFile SpecRun P_RunSim P_Generate Solver SpecSolver.
Local Open Scope R_scope.
Local Open Scope list_scope.

(** The momentum of a row, simulator.py 101 and solver.py 268-270: the energy is not used. *)
Definition three (q : p4) : vec := mkVec (qx q) (qy q) (qz q).

(** Kinetic energy of the nucleus at the start of its track. *)
Definition start_energy (nuc : nucleus) (v : vec) (q : p4) : R := ke nuc (initial_state v (three q) nuc).

(** Square of the momentum. *)
Definition p2 (q : p4) : R := qx q * qx q + qy q * qy q + qz q * qz q.
Lemma p2_pos q : 0 <= p2 q.
Proof. unfold p2. nra. Qed.

Lemma start_value nuc v q : 0 < n_mass nuc -> start_energy nuc v q = sqrt (n_mass nuc ^ 2 + p2 q) - n_mass nuc.
Proof.
  intros Hm. unfold start_energy, ke, initial_state, three, dot. cbn [mom vx vy vz].
  replace (n_mass nuc ^ 2 + p2 q) with (n_mass nuc ^ 2 * (1 + (qx q / n_mass nuc * (qx q / n_mass nuc) +
    qy q / n_mass nuc * (qy q / n_mass nuc) + qz q / n_mass nuc * (qz q / n_mass nuc)))) by (unfold p2; field; lra).
  rewrite sqrt_mult_alt by nra. rewrite sqrt_pow2 by lra. ring.
Qed.

Lemma shell_energy m q : on_shell m q -> qE q = sqrt (m ^ 2 + p2 q).
Proof.
  intros [H P]. unfold mdot in H. replace (m ^ 2 + p2 q) with (qE q * qE q) by (unfold p2; lra).
  now rewrite sqrt_square.
Qed.

(** C73: a nucleus of ground-state mass [m] whose row has the mass [m + ex] starts with the momentum
    of the row but the mass of the ground state.  Without excitation the kinetic energy is that of
    the row; with excitation it is too large, by a factor of at most 1 + ex / m. *)
Theorem C73_start nuc v ex q :
  0 < n_mass nuc -> 0 <= ex -> on_shell (n_mass nuc + ex) q ->
  let t := qE q - (n_mass nuc + ex) in
  t <= start_energy nuc v q <= t * (1 + ex / n_mass nuc) /\
  (ex = 0 -> start_energy nuc v q = t) /\
  (0 < ex -> p2 q <> 0 -> t < start_energy nuc v q).
Proof.
  intros Hm Hx S t. rewrite start_value by exact Hm. unfold t. rewrite (shell_energy _ _ S).
  set (m := n_mass nuc) in *. set (P := p2 q). pose proof (p2_pos q : 0 <= P) as HP.
  set (A := sqrt (m ^ 2 + P)). set (B := sqrt ((m + ex) ^ 2 + P)).
  assert (A2 : A * A = m ^ 2 + P) by (apply sqrt_sqrt; nra).
  assert (B2 : B * B = (m + ex) ^ 2 + P) by (apply sqrt_sqrt; nra).
  assert (A0 : 0 <= A) by apply sqrt_pos. assert (B0 : 0 <= B) by apply sqrt_pos.
  assert (Am : m <= A) by nra. assert (Bm : m + ex <= B) by nra.
  assert (E1 : (A - m) * (A + m) = P) by (replace P with (A * A - m ^ 2) by lra; ring).
  assert (E2 : (B - (m + ex)) * (B + (m + ex)) = P) by (replace P with (B * B - (m + ex) ^ 2) by lra; ring).
  assert (AB : A <= B) by nra.
  assert (L : B - (m + ex) <= A - m).
  { destruct (Rle_lt_dec (B - (m + ex)) (A - m)) as [|G]; [assumption|].
    assert ((A - m) * (A + m) < (B - (m + ex)) * (B + (m + ex))) by (apply Rmult_le_0_lt_compat; lra). lra. }
  split; [split; [exact L|]|split].
  - (* m (A - m) (B + m + ex) <= (m + ex) (A - m) (A + m) since m B <= (m + ex) A *)
    assert (MB : m * B <= (m + ex) * A).
    { apply Rsqr_incr_0; [unfold Rsqr|apply Rmult_le_pos; lra|apply Rmult_le_pos; lra].
      replace (m * B * (m * B)) with (m ^ 2 * (B * B)) by ring.
      replace ((m + ex) * A * ((m + ex) * A)) with ((m + ex) ^ 2 * (A * A)) by ring. rewrite A2, B2.
      assert (m ^ 2 * P <= (m + ex) ^ 2 * P) by (apply Rmult_le_compat_r; [exact HP|nra]). nra. }
    apply Rmult_le_reg_l with (m * (B + (m + ex))); [apply Rmult_lt_0_compat; lra|].
    replace (m * (B + (m + ex)) * ((B - (m + ex)) * (1 + ex / m))) with ((m + ex) * ((B - (m + ex)) * (B + (m + ex)))) by (field; lra).
    rewrite E2, <- E1. replace (m * (B + (m + ex)) * (A - m)) with ((A - m) * (m * B + m * (m + ex))) by ring.
    replace ((m + ex) * ((A - m) * (A + m))) with ((A - m) * ((m + ex) * A + m * (m + ex))) by ring.
    apply Rmult_le_compat_l; lra.
  - intros ->. assert (A = B) by (unfold A, B; now rewrite Rplus_0_r). lra.
  - intros Px NP. assert (0 < P) by lra.
    destruct (Req_dec (B - (m + ex)) (A - m)) as [G|]; [exfalso|lra].
    rewrite G in E2. assert (0 < A - m) by nra. assert ((A - m) * (A + m) < (A - m) * (B + (m + ex))) by (apply Rmult_lt_compat_l; lra). lra.
Qed.

(** ** Whole events *)
Definition excitations_of (s : sample) : list R := s_ex s :: s_decay_ex s.

Lemma decay_masses_at : forall ds (ps : list (R * R * R)) j d0 p0 (n0 : nucleus), length ps = length ds -> (j < length ds)%nat ->
  let l := flat_map (fun d => [d_res1 d; d_res2 d]) ds in
  nth (2 * j) (decay_masses ds ps) 0 = n_mass (nth (2 * j) l n0) /\
  nth (2 * j + 1) (decay_masses ds ps) 0 = n_mass (nth (2 * j + 1) l n0) + fst (fst (nth j ps p0)) /\
  nth (2 * j) l n0 = d_res1 (nth j ds d0) /\ nth (2 * j + 1) l n0 = d_res2 (nth j ds d0).
Proof.
  induction ds as [|d ds IH]; intros ps j d0 p0 n0 L Lj; [inversion Lj|].
  destruct ps as [|p ps]; [discriminate L|]. cbn [length] in L, Lj. destruct j as [|j].
  - cbn. repeat split.
  - destruct (IH ps j d0 p0 n0 ltac:(lia) ltac:(lia)) as (E1 & E2 & E3 & E4). cbv zeta in *.
    replace (2 * S j)%nat with (S (S (2 * j))) by lia. replace (S (S (2 * j)) + 1)%nat with (S (S (2 * j + 1))) by lia.
    unfold decay_masses in *. cbn [combine flat_map app nth]. auto.
Qed.

Lemma rows_length l d : length (flat_map (fun d : decay => [d_res1 d; d_res2 d]) l) = (2 * d)%nat <-> length l = d.
Proof.
  assert (E : length (flat_map (fun d : decay => [d_res1 d; d_res2 d]) l) = (2 * length l)%nat).
  { induction l as [|x l IH]; [reflexivity|]. cbn [flat_map app length]. rewrite IH. lia. }
  lia.
Qed.

Lemma params_ex s ds : well_formed ds s ->
  length (decay_params s) = length ds /\ forall j, fst (fst (nth j (decay_params s) (0, 0, 0))) = nth j (s_decay_ex s) 0.
Proof.
  intros (L1 & L2 & L3). unfold decay_params. split.
  - rewrite map_length, !combine_length. lia.
  - intros j. rewrite <- L2 in L1. rewrite <- L3 in L2. clear L3. revert L1 L2. generalize (s_decay_ex s), (s_decay_thetas s), (s_decay_phis s).
    induction j as [|j IH]; intros [|a la] [|b lb] [|c lc]; cbn; intros; try discriminate; auto.
Qed.

Lemma forall2_nth {A B} (R : A -> B -> Prop) a0 b0 : forall l l', Forall2 R l l' -> forall i, (i < length l)%nat -> R (nth i l a0) (nth i l' b0).
Proof.
  induction 1 as [|a b l l' H F IH]; intros i L; [inversion L|]. destruct i as [|i]; [exact H|]. cbn. apply IH. cbn in L. lia.
Qed.

Lemma last_nth_R : forall (l : list R) d, last l d = nth (length l - 1) l d.
Proof.
  induction l as [|a l IH]; intros d; [reflexivity|]. destruct l as [|b l]; [reflexivity|].
  change (last (a :: b :: l) d) with (last (b :: l) d). rewrite IH. cbn [length]. replace (S (S (length l)) - 1)%nat with (S (length l)) by lia.
  replace (S (length l) - 1)%nat with (length l) by lia. reflexivity.
Qed.

Lemma sum_fold (f g : Z -> R) l : (forall i, In i l -> f i = g i) -> sum_R (map f l) = sum_R (map g l).
Proof. intros H. f_equal. now apply map_ext_in. Qed.
Lemma sum_app a b : sum_R (a ++ b) = sum_R a + sum_R b.
Proof. unfold sum_R. induction a as [|x a IH]; cbn [app fold_right]; [ring|rewrite IH; ring]. Qed.
Lemma psum_E (f : Z -> p4) l : qE (psum (map f l)) = sum_R (map (fun i => qE (f i)) l).
Proof. induction l as [|a l IH]; [reflexivity|]. cbn. unfold psum, sum_R in *. cbn in *. now rewrite IH. Qed.

(** C73: in an accepted event every nucleus that is simulated by default starts with the kinetic
    energy of its row, except the last left-over nucleus, which starts with too much if it is left
    excited.  Rest masses and starting energies add up to the energy of the entrance channel minus
    the last excitation, plus that excess. *)
Theorem C73_event r ds s rows ps (zs : list Z) v :
  massive r ds s -> well_formed ds s -> sample_verdict r ds s (Accept rows) -> rows = map Some ps -> length zs = length rows ->
  (forall nuc, In nuc (final_nuclei r ds) -> 0 < n_mass nuc) ->
  let nuc i := nth (Z.to_nat i) (row_nuclei r ds) (r_target r) in
  let row i := nth (Z.to_nat i) ps pzero in
  let start i := start_energy (nuc i) v (row i) in
  let idx := nuclei_to_sim None zs in
  let final := (Z.of_nat (length zs) - 1)%Z in
  let ex := last (excitations_of s) 0 in
  (forall i, In i idx -> i <> final -> start i = qE (row i) - n_mass (nuc i)) /\
  In final idx /\ on_shell (n_mass (nuc final) + ex) (row final) /\
  sum_R (map (fun i => n_mass (nuc i) + start i) idx)
  = s_energy s + n_mass (r_projectile r) + n_mass (r_target r)
    - ex + (start final - (qE (row final) - (n_mass (nuc final) + ex))).
Proof.
  intros Ms WF V Er Lz Hpos nuc row start idx final ex.
  destruct (C47_conservation r ds s rows ps zs V Er Lz) as (Lp & _ & Cons).
  destruct (C47_on_shell r ds s rows Ms V) as (ps' & Er' & F).
  assert (ps' = ps). { clear - Er Er'. rewrite Er in Er'. clear Er. revert ps' Er'. induction ps as [|a l IH]; intros [|b l']; cbn; intros E; try discriminate; [reflexivity|].
    assert (a = b) by congruence. f_equal; [easy|]. apply IH. congruence. }
  subst ps'. assert (Lrows : length rows = (4 + 2 * length ds)%nat) by (rewrite Er, map_length; exact Lp).
  destruct (params_ex s ds WF) as (Lpp & Pex).
  set (masses := [n_mass (r_target r); n_mass (r_projectile r); n_mass (r_ejectile r); n_mass (r_residual r) + s_ex s] ++ decay_masses ds (decay_params s)) in *.
  assert (Lm : length masses = (4 + 2 * length ds)%nat).
  { rewrite <- Lp. clear - F. induction F; cbn; lia. }
  assert (Hn : Z.of_nat (length zs) = (4 + 2 * Z.of_nat (length ds))%Z) by (rewrite Lz, Lrows; lia).
  destruct (C20_default_nuclei (Z.of_nat (length ds)) zs ltac:(lia) Hn) as (FP & ND & _).
  assert (EI : idx = (zrange2 2 (4 + 2 * Z.of_nat (length ds)) ++ [final])%list).
  { unfold idx, nuclei_to_sim, final. now rewrite Hn. }
  assert (Hi : forall i, In i (zrange2 2 (4 + 2 * Z.of_nat (length ds))) ->
     on_shell (n_mass (nuc i)) (row i) /\ 0 < n_mass (nuc i)).
  { intros i I. apply in_zrange2 in I. destruct I as (B & P).
    assert (EO : exists j, i = (2 * Z.of_nat j + 2)%Z).
    { exists (Z.to_nat ((i - 2) / 2)). rewrite Z2Nat.id by (apply Z.div_pos; lia).
      pose proof (Z.div_mod (i - 2) 2 ltac:(lia)). lia. }
    destruct EO as (j & ->).
    pose proof (forall2_nth on_shell 0 pzero _ _ F (Z.to_nat (2 * Z.of_nat j + 2)) ltac:(fold masses; lia)) as Sh. fold masses in Sh.
    unfold nuc, row. destruct j as [|j].
    - cbn in Sh |- *. split; [exact Sh|]. apply Hpos. left. reflexivity.
    - replace (Z.to_nat (2 * Z.of_nat (S j) + 2)) with (4 + 2 * j)%nat in * by lia.
      assert (Lj : (j < length ds)%nat) by lia.
      destruct (decay_masses_at ds (decay_params s) j (mkDecay (r_target r) (r_target r) (r_target r)) (0, 0, 0) (r_target r) Lpp Lj) as (E1 & _ & E3 & _). cbv zeta in *.
      assert (EM : nth (4 + 2 * j) masses 0 = nth (2 * j) (decay_masses ds (decay_params s)) 0) by reflexivity.
      assert (EN : nth (4 + 2 * j) (row_nuclei r ds) (r_target r) = nth (2 * j) (flat_map (fun d => [d_res1 d; d_res2 d]) ds) (r_target r)) by reflexivity.
      rewrite EM, E1, <- EN in Sh. split; [exact Sh|]. rewrite EN, E3. apply Hpos. right. apply in_or_app. left.
      apply in_map. now apply nth_In. }
  assert (Hf : on_shell (n_mass (nuc final) + ex) (row final)).
  { pose proof (forall2_nth on_shell 0 pzero _ _ F (Z.to_nat final) ltac:(fold masses; unfold final; lia)) as Sh. fold masses in Sh.
    unfold nuc, row, ex, excitations_of. rewrite last_nth_R. cbn [length].
    destruct WF as (W1 & _). rewrite W1. unfold final in *. rewrite Hn in *.
    destruct (length ds) as [|k] eqn:Ek.
    - assert (s_decay_ex s = []) as -> by (destruct (s_decay_ex s); [reflexivity|discriminate]). exact Sh.
    - replace (Z.to_nat (4 + 2 * Z.of_nat (S k) - 1)) with (4 + (2 * k + 1))%nat in * by lia.
      destruct (decay_masses_at ds (decay_params s) k (mkDecay (r_target r) (r_target r) (r_target r)) (0, 0, 0) (r_target r) ltac:(congruence) ltac:(lia)) as (_ & E2 & _). cbv zeta in *.
      change (nth (4 + (2 * k + 1)) masses 0) with (nth (2 * k + 1) (decay_masses ds (decay_params s)) 0) in Sh.
      rewrite E2, Pex in Sh. replace (S (S k) - 1)%nat with (S k) by lia. exact Sh. }
  assert (Hs : forall i, In i (zrange2 2 (4 + 2 * Z.of_nat (length ds))) -> start i = qE (row i) - n_mass (nuc i)).
  { intros i I. destruct (Hi i I) as [Sh P]. rewrite <- (Rplus_0_r (n_mass (nuc i))) in Sh.
    destruct (C73_start (nuc i) v 0 (row i) P ltac:(lra) Sh) as (_ & E & _). unfold start. rewrite (E eq_refl). ring. }
  split; [|split; [|split]].
  - intros i I Ne. rewrite EI in I. apply in_app_or in I. destruct I as [I|[<-|[]]]; [now apply Hs|easy].
  - rewrite EI. apply in_or_app. right. now left.
  - exact Hf.
  - assert (ET : qE (psum (map row idx)) = s_energy s + n_mass (r_projectile r) + n_mass (r_target r)).
    { unfold row, idx. rewrite Cons. cbn [padd qE].
      inversion V as [| |t p e q w A C D EV]. destruct w as [rs| |x]; try discriminate EV.
      destruct Ms as (Ht & Hp & He & Hr & HT & _).
      destruct (C39_reaction r (s_energy s) (s_theta s) (s_phi s) (s_ex s) [t; p; e; q] Ht Hp He ltac:(lra) HT A C)
        as (t' & p' & e' & q' & k' & ec & E & Et & _ & Ep & _).
      assert (t = Some t') by congruence. assert (p = Some p') by congruence.
      assert (Eps : rows = t :: p :: e :: q :: rs) by congruence. rewrite Er in Eps.
      assert (E0 : nth 0 ps pzero = t' /\ nth 1 ps pzero = p').
      { subst t p. destruct ps as [|a [|b l]]; try discriminate Eps. cbn in Eps |- *. split; congruence. }
      destruct E0 as [-> ->]. rewrite Ep, Et. cbn [qE]. lra. }
    rewrite psum_E in ET. rewrite EI in ET |- *. rewrite !map_app, !sum_app in *. cbn [map] in *.
    rewrite (sum_fold (fun i => n_mass (nuc i) + start i) (fun i => qE (row i))) by (intros i I; rewrite (Hs i I); ring).
    unfold sum_R in *. cbn [fold_right] in *. lra.
Qed.

(** C73: so the kinetic energies of an event do not add up: 1 + 1 -> 1 + 1* at beam energy 2 with
    the residual left at excitation 1/2.  The nuclei that enter the detector have more energy than
    the reaction sets free. *)
Definition excited : sample := mkSample 2 (1 / 2) (PI / 2) 0 (0, 0, 0) [] [] [].
Theorem C73_excess_refuted : exists rows ps,
  sample_verdict ones [] excited (Accept rows) /\ rows = map Some ps /\
  forall v, s_energy excited + n_mass (r_projectile ones) + n_mass (r_target ones) - s_ex excited
    < sum_R (map (fun i => n_mass (nth (Z.to_nat i) (row_nuclei ones []) (r_target ones))
                  + start_energy (nth (Z.to_nat i) (row_nuclei ones []) (r_target ones)) v (nth (Z.to_nat i) ps pzero))
                 (nuclei_to_sim None [1; 1; 1; 1]%Z)).
Proof.
  assert (M : massive ones [] excited).
  { unfold massive, massive_decays, ones, nuc, excited. cbn. repeat split; try lra. constructor. }
  assert (W : well_formed [] excited) by (repeat split).
  destruct (verdict_exists (mkPipeline ones [] 1 []) excited W) as [w V]. cbn [pl_reaction pl_decays] in V.
  destruct (C47_accepted_iff _ _ _ _ M V) as [[_ I] _]. destruct I as [rows ->].
  { assert (EX : exact_threshold ones (s_ex excited) < s_energy excited).
    { unfold exact_threshold, ones, nuc, excited. cbn [r_target r_projectile r_ejectile r_residual n_mass s_ex s_energy]. lra. }
    split; [exact EX|]. split; [|exact I].
    apply C40_allowed_is_calculated; unfold deficit, ones, nuc, excited;
      cbn [r_target r_projectile r_ejectile r_residual n_mass s_ex s_energy]; try lra.
    apply C40_allowed_is_exact; cbn [r_target r_projectile r_ejectile r_residual n_mass]; try lra. exact EX. }
  destruct (C47_on_shell _ _ _ _ M V) as (ps & E & F).
  exists rows, ps. split; [exact V|]. split; [exact E|]. intros v.
  assert (Lr : length [1; 1; 1; 1]%Z = length rows).
  { rewrite E, map_length. assert (F0 := F); apply (fun H => Forall2_same_length on_shell _ _ H) in F0. cbn in F0 |- *. lia. }
  destruct (C73_event ones [] excited rows ps [1; 1; 1; 1]%Z v M W V E Lr) as (_ & _ & Sh & Q).
  { intros n [<-|[<-|[]]]; cbn; lra. }
  rewrite Q. clear Q. change (last (excitations_of excited) 0) with (1 / 2) in *. change (s_ex excited) with (1 / 2).
  change (Z.to_nat (Z.of_nat (length [1; 1; 1; 1]%Z) - 1)) with 3%nat in *. change (nth 3 (row_nuclei ones []) (r_target ones)) with (nuc 1) in *.
  set (q := nth 3 ps pzero) in *.
  assert (NP : p2 q <> 0).
  { intros Z0. pose proof (shell_energy _ _ Sh) as Eq. rewrite Z0 in Eq. cbn [n_mass nuc] in Eq.
    replace ((1 + 1 / 2) ^ 2 + 0) with ((3 / 2) ^ 2) in Eq by field. rewrite sqrt_pow2 in Eq by lra.
    inversion V as [| |t p e q' w A C D EV]. destruct w as [rs| |x]; try discriminate EV.
    destruct M as (Ht & Hp & He & Hr & HT & _).
    destruct (C39_reaction ones 2 (PI / 2) 0 (1 / 2) [t; p; e; q'] Ht Hp He ltac:(cbn; lra) ltac:(lra) A C)
      as (t' & p' & e' & s' & k' & ec & E' & Et & Sp & Ep & Px & Py & _ & Co & Se & _).
    assert (Es : q = s').
    { assert (Eps : rows = t :: p :: e :: q' :: rs) by congruence. rewrite E in Eps. assert (q' = Some s') by congruence. subst q'.
      unfold q. destruct ps as [|a [|b [|c' [|d l]]]]; try discriminate Eps. cbn in Eps |- *. congruence. }
    subst s'. assert (X0 : qx q = 0 /\ qy q = 0 /\ qz q = 0) by (unfold p2 in Z0; nra). destruct X0 as (X1 & X2 & X3).
    pose proof (f_equal qx Co) as Cx. pose proof (f_equal qy Co) as Cy. pose proof (f_equal qz Co) as Cz. pose proof (f_equal qE Co) as CE.
    rewrite Et in Cx, Cy, Cz, CE. cbn [padd qx qy qz qE r_target ones n_mass nuc] in Cx, Cy, Cz, CE. cbn [ones r_projectile n_mass nuc] in Ep, Sp.
    destruct Sp as [Sp _]. destruct Se as [Se _]. unfold mdot in Sp, Se. cbn [ones r_ejectile nuc n_mass] in Se.
    rewrite X1, X2, X3, Eq in *. rewrite Px, Py, Ep in *.
    assert (qE e' = 5 / 2) by lra. assert (qx e' = 0) by lra. assert (qy e' = 0) by lra. assert (qz e' = qz p') by lra.
    rewrite H, H0, H1, H2 in Se. lra. }
  destruct (C73_start (nuc 1) v (1 / 2) q ltac:(cbn; lra) ltac:(lra) Sh) as (_ & _ & St). specialize (St ltac:(lra) NP).
  lra.
Qed.

(** The excess of a nucleus of mass 3 and excitation 1 with momentum 3: kinetic energy 1 in the
    file, sqrt 18 - 3 = 1.24 in the detector, at most 4/3. *)
Example C73_example v : on_shell (n_mass (nuc 3) + 1) (mkP4 0 0 3 5) /\ start_energy (nuc 3) v (mkP4 0 0 3 5) = sqrt 18 - 3 /\ 1 < sqrt 18 - 3 <= 4 / 3.
Proof.
  assert (S0 : on_shell (n_mass (nuc 3) + 1) (mkP4 0 0 3 5)) by (unfold on_shell, mdot; cbn; lra).
  assert (E : start_energy (nuc 3) v (mkP4 0 0 3 5) = sqrt 18 - 3).
  { rewrite start_value by (cbn; lra). unfold p2. cbn [qx qy qz n_mass nuc]. f_equal. f_equal. ring. }
  split; [exact S0|]. split; [exact E|]. rewrite <- E.
  destruct (C73_start (nuc 3) v 1 _ ltac:(cbn; lra) ltac:(lra) S0) as ((_ & U) & _ & L). cbn [n_mass nuc qE] in U, L.
  specialize (L ltac:(lra) ltac:(unfold p2; cbn; lra)). lra.
Qed.
Print Assumptions C73_start.
Print Assumptions C73_event.
Print Assumptions C73_excess_refuted.
