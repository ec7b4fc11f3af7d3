(** P_Isotropy.v -- C96: which draws of the generator make which number of a sample, and what follows
    for the directions of the emitted nuclei.

    The generator is an unending list of whole numbers k of [0, 2^53), read in order; a uniform draw is
    k * 2^-53 (P_Frequency.v).  Normal and Breit-Wigner numbers come from a source of their own.
    Simplified: numpy makes them from the same bits, by rejection; the draws of [0, 1) in between are
    still independent and equally likely. *)
From Coq Require Import ZArith Reals Lia Lra List.
From Flocq Require Import Core BinarySingleNaN.
From Verif Require Import Base F64 F64Bounds Num P_KinF64 Sampling SamplingF64 KinFile P_KinFile P_SamplingF64 P_Frequency.
Import ListNotations.
Local Open Scope R_scope.

(** ** Specification *)

(** uniform(low, high) for the draw [k]. *)
Definition uval (low high : f64) (k : Z) : f64 := fadd low (fmul (fsub high low) (unit_of k)).
(** How many uniform draws the parts of a sample take. *)
Definition vertex_draws (t : option target64) : nat := match t with Some _ => 2 | None => 0 end.
Definition ex_draws (e : excitation64) : nat := match e with ExUniform64 _ _ => 1 | _ => 0 end.
Definition polar_draws (q : polar64) : nat := match q with PolarUniform64 _ _ => 1 | PolarArbitrary64 _ _ _ => 2 end.
Definition many {A} (n : A -> nat) (l : list A) : nat := fold_right (fun a m => (n a + m)%nat) 0%nat l.

(** Where the draws of excitation, polar and azimuthal angle number [i] begin: those of the reaction are
    made together, then all excitations of the decays, all their polar, all their azimuthal angles. *)
Section Places.
  Context (t : option target64) (e : excitation64) (es : list excitation64) (q : polar64) (qs : list polar64).
  Definition after_reaction : nat := (vertex_draws t + ex_draws e + polar_draws q + 1)%nat.
  Definition ex_at (i : nat) : nat :=
    match i with O => vertex_draws t | S j => after_reaction + many ex_draws (firstn j es) end.
  Definition theta_at (i : nat) : nat :=
    match i with O => vertex_draws t + ex_draws e | S j => after_reaction + many ex_draws es + many polar_draws (firstn j qs) end.
  Definition phi_at (i : nat) : nat :=
    match i with O => vertex_draws t + ex_draws e + polar_draws q | S j => after_reaction + many ex_draws es + many polar_draws qs + j end.
End Places.

(** The draws with two of them replaced. *)
Definition set2 (d : nat -> Z) (i : nat) (k : Z) (j : nat) (l : Z) : nat -> Z :=
  fun p => if (p =? i)%nat then k else if (p =? j)%nat then l else d p.
(** Out of all values of draws [i] and [j], the share that makes the result one of [P]; the other draws
    are those of [d]. *)
Definition share {A} (m : (nat -> Z) -> res A) (d : nat -> Z) (i j : nat) (P : A -> bool) : R :=
  IZR (Z.of_nat (length (filter (fun kl => match m (set2 d i (fst kl) j (snd kl)) with Ok a => P a | Err _ => false end)
                           (list_prod (zrange 0 (2 ^ 53)) (zrange 0 (2 ^ 53)))))) / (2 ^ 53 * 2 ^ 53).

(** ** Programs that take a known number of draws *)
Definition takes {H A} (m : @rand (nat * H) A) (p n : nat) (Q : A -> Prop) : Prop :=
  forall h, exists a h', m (p, h) = (Ok a, ((p + n)%nat, h')) /\ Q a.

Lemma takes_ret {H A} (a : A) p (Q : A -> Prop) : Q a -> takes (H := H) (ret a) p 0 Q.
Proof. intros Qa h. exists a, h. rewrite Nat.add_0_r. split; [reflexivity|exact Qa]. Qed.
Lemma takes_bind {H A B} (m : @rand (nat * H) A) (f : A -> rand B) p n k Q (P : B -> Prop) :
  takes m p n Q -> (forall a, Q a -> takes (f a) (p + n) k P) -> takes (rbind m f) p (n + k) P.
Proof.
  intros M F h. destruct (M h) as (a & h1 & E & Qa). destruct (F a Qa h1) as (b & h2 & E2 & Pb).
  exists b, h2. split; [|exact Pb]. unfold rbind. rewrite E, E2, Nat.add_assoc. reflexivity.
Qed.
Lemma takes_eq {H A} (m : @rand (nat * H) A) p n k (Q : A -> Prop) : n = k -> takes m p n Q -> takes m p k Q.
Proof. now intros ->. Qed.
Lemma takes_index {H A} (l : list A) k a p : nth_error l k = Some a -> takes (H := H) (lift (py_index l (Z.of_nat k))) p 0 (fun b => b = a).
Proof.
  intros N h. destruct (gives_index (G := nat * H) l k a N (p, h)) as (b & g & E & ->). exists a, h.
  split; [|reflexivity]. unfold lift in *. rewrite Nat.add_0_r. congruence.
Qed.

(** A list of results, each with its own draws. *)
Fixpoint placed {A B} (n : A -> nat) (Q : nat -> A -> B -> Prop) (p : nat) (l : list A) (bs : list B) : Prop :=
  match l, bs with
  | [], [] => True
  | a :: l', b :: bs' => Q p a b /\ placed n Q (p + n a) l' bs'
  | _, _ => False
  end.
Lemma takes_rmap_index {H A B} (f : A -> @rand (nat * H) B) (V : A -> Prop) (n : A -> nat) (Q : nat -> A -> B -> Prop) (l : list A) :
  (forall p a, V a -> takes (f a) p (n a) (Q p a)) -> Forall V l ->
  forall m k p, (k + m <= length l)%nat ->
  takes (rmap (fun i => rbind (lift (py_index l i)) f) (map Z.of_nat (seq k m))) p (many n (firstn m (skipn k l)))
    (fun bs => placed n Q p (firstn m (skipn k l)) bs).
Proof.
  intros F Vl. induction m as [|m IH]; intros k p L; cbn [seq map rmap].
  - apply takes_ret. cbn [firstn placed]. exact I.
  - destruct (nth_error l k) as [a|] eqn:N; [|apply nth_error_None in N; lia].
    assert (Sk : skipn k l = a :: skipn (S k) l).
    { clear - N. revert l N. induction k as [|k IH]; intros [|x l] N; try discriminate N.
      - cbn [nth_error] in N. assert (x = a) by congruence. subst. reflexivity.
      - cbn [nth_error] in N. exact (IH l N). }
    assert (Va : V a) by (rewrite Forall_forall in Vl; eapply Vl, nth_error_In, N).
    rewrite Sk. cbn [firstn many fold_right]. fold (many n (firstn m (skipn (S k) l))).
    apply takes_bind with (Q p a).
    + change (n a) with (0 + n a)%nat. apply takes_bind with (fun b => b = a); [now apply takes_index|]. intros b ->. rewrite Nat.add_0_r. now apply F.
    + intros b Qb. rewrite <- (Nat.add_0_r (many n (firstn m (skipn (S k) l)))).
      apply takes_bind with (fun bs => placed n Q (p + n a) (firstn m (skipn (S k) l)) bs); [apply IH; lia|].
      intros bs Pb. apply takes_ret. cbn [placed]. auto.
Qed.
Lemma takes_rmap_same {H B} (m : @rand (nat * H) B) (Q : nat -> B -> Prop) : (forall p, takes m p 1 (Q p)) -> forall n p,
  takes (rmap (fun _ : unit => m) (repeat tt n)) p n (fun bs => length bs = n /\ forall i b, nth_error bs i = Some b -> Q (p + i)%nat b).
Proof.
  intros M. induction n as [|n IH]; intros p; cbn [repeat rmap].
  - apply takes_ret. split; [reflexivity|]. intros [|i] b N; discriminate N.
  - change (S n) with (1 + n)%nat. apply takes_bind with (Q p); [apply M|]. intros b Qb. apply takes_eq with (n + 0)%nat; [lia|].
    eapply takes_bind; [apply IH|]. intros bs (L & F). apply takes_ret. split; [cbn [length]; now rewrite L|].
    intros [|i] c N; cbn [nth_error] in N; [assert (c = b) by congruence; subst; now rewrite Nat.add_0_r|]. specialize (F i c N).
    replace (p + S i)%nat with (p + 1 + i)%nat by lia. exact F.
Qed.
Lemma placed_nth {A B} (n : A -> nat) (Q : nat -> A -> B -> Prop) : forall l bs p, placed n Q p l bs -> length bs = length l /\
  forall i a b, nth_error l i = Some a -> nth_error bs i = Some b -> Q (p + many n (firstn i l))%nat a b.
Proof.
  induction l as [|x l IH]; intros [|y bs] p P; cbn [placed] in P; try contradiction.
  - split; [reflexivity|]. intros [|i] a b N; discriminate N.
  - destruct P as (P0 & P). destruct (IH _ _ P) as (L & F). split; [cbn [length]; now rewrite L|].
    intros [|i] a b Na Nb; cbn [nth_error] in Na, Nb.
    + assert (a = x) by congruence. assert (b = y) by congruence. subst. cbn [firstn many fold_right]. now rewrite Nat.add_0_r.
    + specialize (F i a b Na Nb). cbn [firstn many fold_right]. fold (many n (firstn i l)). now rewrite Nat.add_assoc.
Qed.

Section Draws.
  Context {H : Type} (nrm : H -> f64 * H) (bw : f64 -> f64 -> H -> f64 * H).
  Context (cos64 sin64 acos64 : f64 -> f64) (pi64 : f64) (sum_is_one : list f64 -> bool).
  Hypothesis cosine : forall x, is_finite x = true -> within (-1) 1 (cos64 x).
  Hypothesis pi_finite : is_finite (fmul pi64 (f_of_Z 2)) = true /\ is_finite (fmul (f_of_Z 2) pi64) = true.
  Hypothesis pi_positive : 1 <= R64 (fmul pi64 (f_of_Z 2)) /\ 1 <= R64 (fmul (f_of_Z 2) pi64).
  Notation pi2 := (fmul pi64 (f_of_Z 2)).

  (** The generator at its draw number [fst s]. *)
  Definition unit_at (d : nat -> Z) (s : nat * H) : f64 * (nat * H) := (unit_of (d (fst s)), (S (fst s), snd s)).
  Definition normal_at (s : nat * H) : f64 * (nat * H) := let '(v, h) := nrm (snd s) in (v, (fst s, h)).
  Definition bw_at (rho scale : f64) (s : nat * H) : f64 * (nat * H) := let '(v, h) := bw rho scale (snd s) in (v, (fst s, h)).
  Definition valid (d : nat -> Z) : Prop := forall p, (0 <= d p < 2 ^ 53)%Z.

  Section One.
  Context (d : nat -> Z) (Hd : valid d).

  Lemma takes_uniform low high p : interval low high -> takes (uniform64 (unit_at d) low high) p 1 (fun x => x = uval low high (d p)).
  Proof using.
    intros (Fl & Fh & Fr & L) h. exists (uval low high (d p)), h. split; [|reflexivity].
    assert (N : fltb high low = false) by (rewrite fltb_R by assumption; now apply Rlt_bool_false).
    unfold uniform64, rbind, random64. rewrite Fr, N. cbn [negb orb unit_at fst snd ret]. rewrite Nat.add_1_r. reflexivity.
  Qed.
  Lemma interval_0 high : is_finite high = true -> 1 <= R64 high -> interval (f_of_Z 0) high.
  Proof using.
    intros F L. assert (Z0 : R64 (f_of_Z 0) = 0) by (apply (f_of_Z_R 0); lia). assert (F0 : is_finite (f_of_Z 0) = true) by (apply f_of_Z_fin; lia).
    split; [exact F0|]. split; [exact F|]. split; [|lra].
    assert (B : Rabs (rnd64 (R64 high - R64 (f_of_Z 0))) < bpow radix2 emax64).
    { rewrite Z0, Rminus_0_r. rewrite rnd64_fmt by apply fmt64_R. apply big64. }
    pose proof (Bminus_correct prec64 emax64 _ _ mode_NE high (f_of_Z 0) F F0) as C.
    change (round_mode mode_NE) with ZnearestE in C. rewrite Rlt_bool_true in C by exact B. apply C.
  Qed.
  Lemma takes_azimuth high p : is_finite high = true -> 1 <= R64 high -> takes (uniform64 (unit_at d) (f_of_Z 0) high) p 1 (fun x => x = uval (f_of_Z 0) high (d p)).
  Proof using. intros F L. now apply takes_uniform, interval_0. Qed.

  (** An excitation, with its draw. *)
  Definition ex_made (p : nat) (e : excitation64) (x : f64) : Prop :=
    match e with ExUniform64 a b => x = uval a b (d p) | _ => True end.
  Lemma takes_excitation p e : excitation_valid e -> takes (sample_excitation64 (unit_at d) normal_at bw_at e) p (ex_draws e) (ex_made p e).
  Proof using.
    destruct e as [c w|a b|m c w]; cbn [excitation_valid ex_made sample_excitation64 ex_draws].
    - intros V h. unfold normal64. rewrite V. unfold normal_at. cbn [fst snd]. destruct (nrm h) as [z h']. eexists _, h'. rewrite Nat.add_0_r. split; [reflexivity|exact I].
    - apply takes_uniform.
    - intros V h. rewrite V. unfold bw_at. cbn [fst snd]. destruct (bw _ _ h) as [z h']. eexists _, h'. rewrite Nat.add_0_r. split; [reflexivity|exact I].
  Qed.

  (** A polar angle, with its draws. *)
  Definition polar_made (p : nat) (q : polar64) (x : f64) : Prop :=
    match q with
    | PolarUniform64 amin amax => x = acos64 (uval (cos64 amax) (cos64 amin) (d p))
    | PolarArbitrary64 angles probs w => exists a,
        nth_error angles (length (filter (fun c => fleb c (unit_of (d p))) (cdf64 probs))) = Some a /\
        x = fadd a (fmul (uval (f_of_Z 0) (f_of_Z 1) (d (S p))) w)
    end.
  Lemma takes_polar p q : polar_valid cos64 sum_is_one q -> takes (sample_polar64 (unit_at d) cos64 acos64 sum_is_one q) p (polar_draws q) (polar_made p q).
  Proof using Hd cosine.
    destruct q as [amin amax|angles probs w]; cbn [polar_valid polar_made sample_polar64 polar_draws].
    - intros (F1 & F2 & L). destruct (cosine _ F1) as (Fc1 & C1). destruct (cosine _ F2) as (Fc2 & C2).
      change 1%nat with (1 + 0)%nat. apply takes_bind with (fun x => x = uval (cos64 amax) (cos64 amin) (d p)).
      + apply takes_uniform. split; [exact Fc2|]. split; [exact Fc1|]. split; [|exact L].
        destruct (fsub_fin (cos64 amin) (cos64 amax) 1) as (_ & Q); auto; [lia|]. change (b2 1) with 2. apply Rabs_le. lra.
      + intros c ->. apply takes_ret. reflexivity.
    - intros (L & W & O & _). change 2%nat with (1 + (1 + 0))%nat.
      apply takes_bind with (fun a => nth_error angles (length (filter (fun c => fleb c (unit_of (d p))) (cdf64 probs))) = Some a).
      + intros h. pose proof W as (_ & Wp & Ex). unfold choice64.
        assert (Ne : length probs <> 0%nat) by (destruct probs; [inversion Ex|discriminate]).
        rewrite L. destruct (Nat.eqb_spec (length probs) 0); [contradiction|]. rewrite Nat.eqb_refl. cbn [negb].
        assert (Ng : existsb (fun x => fltb x (f_of_Z 0)) probs = false).
        { assert (Z0 : R64 (f_of_Z 0) = 0) by (apply (f_of_Z_R 0); lia).
          assert (F0 : is_finite (f_of_Z 0) = true) by (apply f_of_Z_fin; lia).
          clear - Wp Z0 F0. induction Wp as [|x l [Fx Hx] _ IH]; [reflexivity|]. cbn [existsb]. rewrite IH, fltb_R by assumption.
          rewrite Rlt_bool_false by (rewrite Z0; lra). reflexivity. }
        rewrite Ng, O. cbn [negb]. unfold rbind, random64. cbn [unit_at fst snd].
        destruct (choice_place probs (unit_of (d p)) W (unit_draw_ok _ (Hd p))) as (x & Nx & _).
        set (k := length (filter (fun c => fleb c (unit_of (d p))) (cdf64 probs))) in *.
        assert (Hk : (k < length probs)%nat) by (apply (proj1 (nth_error_Some probs k)); rewrite Nx; discriminate).
        destruct (nth_error angles k) as [a|] eqn:Na; [|apply nth_error_None in Na; lia].
        exists a, h. rewrite Nat.add_1_r. split; reflexivity.
      + intros a Na. apply takes_bind with (fun x => x = uval (f_of_Z 0) (f_of_Z 1) (d (S p))).
        * rewrite Nat.add_1_r. apply takes_azimuth; [apply f_of_Z_fin; lia|]. rewrite (f_of_Z_R 1) by lia. lra.
        * intros u ->. apply takes_ret. exists a. auto.
  Qed.

  (** The vertex and the beam energy there: [r] is the distance from the axis, made from one normal number. *)
  Definition vertex_made (beam : f64) (t : option target64) (p : nat) (energy : f64) (v : f64 * f64 * f64) : Prop :=
    match t with
    | None => energy = beam /\ v = (f_of_Z 0, f_of_Z 0, f_of_Z 0)
    | Some t => exists g, let n := fst (nrm g) in let r := Babs (fadd (f_of_Z 0) (fmul (t64_rho_sigma t) n)) in
        let theta := uval (f_of_Z 0) (fmul (f_of_Z 2) pi64) (d p) in
        let z := uval (t64_zmin t) (t64_zmax t) (d (S p)) in
        v = (fmul r (cos64 theta), fmul r (sin64 theta), z) /\ energy = fsub beam (t64_loss t beam z)
    end.
  Lemma takes_vertex beam t p : match t with Some t => target_valid beam t | None => True end ->
    takes (sample_vertex64 (unit_at d) normal_at cos64 sin64 pi64 beam t) p (vertex_draws t) (fun ev => vertex_made beam t p (fst ev) (snd ev)).
  Proof using pi_finite pi_positive.
    destruct t as [t|]; cbn [vertex_draws vertex_made sample_vertex64].
    - intros (Hs & Hz & _). change 2%nat with (0 + (1 + (1 + 0)))%nat.
      apply takes_bind with (fun x => exists g, x = fadd (f_of_Z 0) (fmul (t64_rho_sigma t) (fst (nrm g)))).
      + intros h. unfold normal64. rewrite Hs. unfold normal_at. cbn [fst snd]. destruct (nrm h) as [n h'] eqn:En. eexists _, h'. rewrite Nat.add_0_r. split; [reflexivity|]. exists h. now rewrite En.
      + intros x (g & ->). rewrite Nat.add_0_r. cbv zeta. eapply takes_bind; [apply takes_azimuth; [apply pi_finite|apply pi_positive]|]. intros th ->.
        eapply takes_bind; [apply takes_uniform, Hz|]. intros z ->. apply takes_ret. exists g. rewrite Nat.add_1_r. cbn [fst snd]. split; reflexivity.
    - intros _. apply takes_ret. split; reflexivity.
  Qed.

  (** C96: every number of a sample is made from draws of its own. *)
  Theorem C96_draws beam t e es q qs decays :
    match t with Some t => target_valid beam t | None => True end -> length qs = length es ->
    Forall excitation_valid (e :: es) -> Forall (polar_valid cos64 sum_is_one) (q :: qs) ->
    forall h, exists s p h', sample_pipeline64 (unit_at d) normal_at bw_at cos64 sin64 acos64 pi64 sum_is_one beam t (e :: es) (q :: qs) decays (0%nat, h) = (Ok s, (p, h')) /\
      vertex_made beam t 0 (s64_energy s) (s64_vertex s) /\
      (forall i x a, nth_error (e :: es) i = Some x -> nth_error (s64_ex s :: s64_decay_ex s) i = Some a -> ex_made (ex_at t e es q i) x a) /\
      (forall i x a, nth_error (q :: qs) i = Some x -> nth_error (s64_theta s :: s64_decay_thetas s) i = Some a -> polar_made (theta_at t e es q qs i) x a) /\
      (forall i a, nth_error (s64_phi s :: s64_decay_phis s) i = Some a -> a = uval (f_of_Z 0) pi2 (d (phi_at t e es q qs i))) /\
      length (s64_decay_ex s) = length es /\ length (s64_decay_thetas s) = length qs /\ length (s64_decay_phis s) = decays.
  Proof using Hd cosine pi_finite pi_positive.
    intros Ht L Fe Fq.
    set (Q := fun s : sample64 => vertex_made beam t 0 (s64_energy s) (s64_vertex s) /\
      (forall i x a, nth_error (e :: es) i = Some x -> nth_error (s64_ex s :: s64_decay_ex s) i = Some a -> ex_made (ex_at t e es q i) x a) /\
      (forall i x a, nth_error (q :: qs) i = Some x -> nth_error (s64_theta s :: s64_decay_thetas s) i = Some a -> polar_made (theta_at t e es q qs i) x a) /\
      (forall i a, nth_error (s64_phi s :: s64_decay_phis s) i = Some a -> a = uval (f_of_Z 0) pi2 (d (phi_at t e es q qs i))) /\
      length (s64_decay_ex s) = length es /\ length (s64_decay_thetas s) = length qs /\ length (s64_decay_phis s) = decays).
    assert (M : takes (sample_pipeline64 (unit_at d) normal_at bw_at cos64 sin64 acos64 pi64 sum_is_one beam t (e :: es) (q :: qs) decays) 0
      (vertex_draws t + (0 + (ex_draws e + (0 + (polar_draws q + (1 + (many ex_draws es + (many polar_draws qs + (decays + 0))))))))) Q).
    { unfold sample_pipeline64. eapply takes_bind; [apply takes_vertex, Ht|]. intros ev Vv. rewrite Nat.add_0_l.
      eapply takes_bind; [apply (takes_index (e :: es) 0 e); reflexivity|]. intros ? ->. rewrite Nat.add_0_r.
      eapply takes_bind; [apply takes_excitation; now inversion Fe|]. intros rex Mx.
      eapply takes_bind; [apply (takes_index (q :: qs) 0 q); reflexivity|]. intros ? ->. rewrite Nat.add_0_r.
      eapply takes_bind; [apply takes_polar; now inversion Fq|]. intros rth Mt. cbv zeta.
      eapply takes_bind; [apply takes_azimuth; [apply pi_finite|apply pi_positive]|]. intros rph ->.
      cbn [length]. replace (S (length es) - 1)%nat with (length es) by lia. fold (after_reaction t e q).
      eapply takes_bind.
      { apply takes_eq with (many ex_draws (firstn (length es) (skipn 1 (e :: es)))); [cbn [skipn]; now rewrite firstn_all|].
        apply (takes_rmap_index _ excitation_valid ex_draws ex_made (e :: es)); [apply takes_excitation|exact Fe|cbn [length]; lia]. }
      intros dex Pex. cbn [skipn] in Pex. rewrite firstn_all in Pex.
      eapply takes_bind.
      { apply takes_eq with (many polar_draws (firstn (length es) (skipn 1 (q :: qs)))); [cbn [skipn]; now rewrite <- L, firstn_all|].
        apply (takes_rmap_index _ (polar_valid cos64 sum_is_one) polar_draws polar_made (q :: qs)); [apply takes_polar|exact Fq|cbn [length]; lia]. }
      intros dth Pth. cbn [skipn] in Pth. rewrite <- L, firstn_all in Pth.
      eapply takes_bind; [apply takes_rmap_same; intros p; apply takes_azimuth; [apply pi_finite|apply pi_positive]|].
      intros dph (Ld & Pph). apply takes_ret. unfold Q. cbn [s64_energy s64_vertex s64_ex s64_decay_ex s64_theta s64_decay_thetas s64_phi s64_decay_phis].
      destruct (placed_nth _ _ _ _ _ Pex) as (Lx & Px). destruct (placed_nth _ _ _ _ _ Pth) as (Lt & Pt).
      split; [exact Vv|]. split; [|split; [|split; [|auto]]].
      - intros [|i] x a Nx Na; cbn [nth_error] in Nx, Na; [|exact (Px i x a Nx Na)].
        assert (x = e) by congruence. assert (a = rex) by congruence. subst. exact Mx.
      - intros [|i] x a Nx Na; cbn [nth_error] in Nx, Na; [|exact (Pt i x a Nx Na)].
        assert (x = q) by congruence. assert (a = rth) by congruence. subst. exact Mt.
      - intros [|i] a Na; cbn [nth_error] in Na; [|exact (Pph i a Na)]. cbn [phi_at]. congruence. }
    intros h. destruct (M h) as (s & h' & E & Qs). exists s, (0 + (vertex_draws t + (0 + (ex_draws e + (0 + (polar_draws q + (1 + (many ex_draws es + (many polar_draws qs + (decays + 0))))))))))%nat, h'.
    split; [exact E|exact Qs].
  Qed.
  End One.
End Draws.

(** ** Counting pairs of draws *)
Lemma pairs_product {A B} (P : A -> bool) (Q : B -> bool) l k :
  length (filter (fun ab => P (fst ab) && Q (snd ab)) (list_prod l k)) = (length (filter P l) * length (filter Q k))%nat.
Proof.
  induction l as [|a l IH]; cbn [list_prod filter]; [reflexivity|]. rewrite filter_app, app_length, IH.
  assert (X : length (filter (fun ab => P (fst ab) && Q (snd ab)) (map (fun y => (a, y)) k)) = if P a then length (filter Q k) else 0%nat).
  { clear. induction k as [|b k IH]; cbn [map filter length fst snd]; [now destruct (P a)|].
    destruct (P a); cbn [andb]; [|exact IH]. destruct (Q b); cbn [length]; now rewrite IH. }
  rewrite X. destruct (P a); cbn [length]; lia.
Qed.

Lemma pairs_tally N (F : Z * Z -> bool) (U V : Z -> bool) :
  (forall k l, (0 <= k < N)%Z -> (0 <= l < N)%Z -> F (k, l) = U k && V l) ->
  Z.of_nat (length (filter F (list_prod (zrange 0 N) (zrange 0 N)))) = (tally N U * tally N V)%Z.
Proof.
  intros E. rewrite (filter_ext_in F (fun kl => U (fst kl) && V (snd kl))).
  - rewrite pairs_product, Nat2Z.inj_mul. reflexivity.
  - intros [k l] I. apply in_prod_iff in I as (Ik & Il). cbn [fst snd].
    assert (R : forall x, In x (zrange 0 N) -> (0 <= x < N)%Z).
    { intros x Ix. unfold zrange in Ix. apply in_map_iff in Ix as (y & <- & Iy). apply in_seq in Iy. lia. }
    apply E; now apply R.
Qed.
Lemma pairs_share N c (F : Z * Z -> bool) (U V : Z -> bool) : c <> 0 ->
  (forall k l, (0 <= k < N)%Z -> (0 <= l < N)%Z -> F (k, l) = U k && V l) ->
  IZR (Z.of_nat (length (filter F (list_prod (zrange 0 N) (zrange 0 N))))) / (c * c) = (IZR (tally N U) / c) * (IZR (tally N V) / c).
Proof. intros C E. rewrite (pairs_tally N F U V E), mult_IZR. field. exact C. Qed.
Lemma share_product {A} (m : (nat -> Z) -> res A) d i j P (U V : Z -> bool) :
  (forall k l, (0 <= k < 2 ^ 53)%Z -> (0 <= l < 2 ^ 53)%Z ->
     match m (set2 d i k j l) with Ok a => P a | Err _ => false end = U k && V l) ->
  share m d i j P = (IZR (tally (2 ^ 53) U) / 2 ^ 53) * (IZR (tally (2 ^ 53) V) / 2 ^ 53).
Proof.
  intros E.
  exact (pairs_share (2 ^ 53) (2 ^ 53) (fun kl => match m (set2 d i (fst kl) j (snd kl)) with Ok a => P a | Err _ => false end) U V
           (pow_nonzero 2 53 ltac:(lra)) E).
Qed.

Lemma many_place {A} (n : A -> nat) l : forall i a, nth_error l i = Some a -> (many n (firstn i l) + n a <= many n l)%nat.
Proof.
  induction l as [|x l IH]; intros [|i] a N; cbn [nth_error] in N; try discriminate N.
  - assert (x = a) by congruence. subst. cbn [firstn many fold_right]. lia.
  - specialize (IH i a N). cbn [firstn many fold_right]. fold (many n (firstn i l)) (many n l). lia.
Qed.
Lemma set2_fst d i k j l : set2 d i k j l i = k.
Proof. unfold set2. now rewrite Nat.eqb_refl. Qed.
Lemma set2_snd d i k j l : i <> j -> set2 d i k j l j = l.
Proof. intros N. unfold set2. rewrite Nat.eqb_refl. destruct (Nat.eqb_spec j i); [congruence|reflexivity]. Qed.
Lemma set2_valid d i k j l : valid d -> (0 <= k < 2 ^ 53)%Z -> (0 <= l < 2 ^ 53)%Z -> valid (set2 d i k j l).
Proof. intros V K L p. unfold set2. destruct (p =? i)%nat; [exact K|]. destruct (p =? j)%nat; [exact L|apply V]. Qed.

(** The counts of C94, for values of draws. *)
Lemma count_uniform low high (P : f64 -> bool) : interval low high ->
  probability (uniform64 stream low high) [] P = IZR (tally (2 ^ 53) (fun k => P (uval low high k))) / 2 ^ 53.
Proof.
  intros (Fl & Fh & Fr & L). unfold probability. rewrite tally_53. f_equal. f_equal. apply tally_ext; [lia|]. intros k K.
  assert (N : fltb high low = false) by (rewrite fltb_R by assumption; now apply Rlt_bool_false).
  unfold uniform64, rbind, random64. rewrite Fr, N. cbn [negb orb stream ret fst]. reflexivity.
Qed.
Lemma count_polar cos64 acos64 sum_is_one amin amax (P : f64 -> bool) : interval (cos64 amax) (cos64 amin) ->
  probability (sample_polar64 stream cos64 acos64 sum_is_one (PolarUniform64 amin amax)) [] P =
  IZR (tally (2 ^ 53) (fun k => P (acos64 (uval (cos64 amax) (cos64 amin) k)))) / 2 ^ 53.
Proof.
  intros (Fl & Fh & Fr & L). unfold probability. rewrite tally_53. f_equal. f_equal. apply tally_ext; [lia|]. intros k K.
  assert (N : fltb (cos64 amin) (cos64 amax) = false) by (rewrite fltb_R by assumption; now apply Rlt_bool_false).
  cbn [sample_polar64]. unfold rbind at 1. unfold uniform64, rbind, random64. rewrite Fr, N. cbn [negb orb stream ret fst]. reflexivity.
Qed.
Lemma tally_share P : 0 <= IZR (tally (2 ^ 53) P) / 2 ^ 53 <= 1.
Proof.
  assert (B : forall N, (0 <= N)%Z -> (0 <= tally N P <= N)%Z).
  { intros N HN. pattern N. apply natlike_ind; [rewrite tally_0; lia|clear N HN; intros N HN IH|exact HN].
    rewrite <- Z.add_1_r, tally_step by exact HN. destruct (P N); lia. }
  specialize (B (2 ^ 53)%Z ltac:(lia)). destruct B as (B1 & B2). apply IZR_le in B1, B2. revert B1 B2. generalize (IZR (tally (2 ^ 53) P)).
  replace (IZR (2 ^ 53)) with (2 ^ 53) by (change (2 ^ 53)%Z with 9007199254740992%Z; ring). intros x B1 B2.
  assert (P0 : 0 < 2 ^ 53) by (apply pow_lt; lra). assert (I0 : 0 < / 2 ^ 53) by (apply Rinv_0_lt_compat; exact P0). split.
  - apply Rmult_le_pos; lra.
  - apply Rmult_le_reg_r with (2 ^ 53); [exact P0|]. unfold Rdiv. rewrite Rmult_assoc, Rinv_l by lra. lra.
Qed.

(** ** Angles from a table *)
Lemma tally_minus P Q N : (0 <= N)%Z -> (forall k, (0 <= k < N)%Z -> Q k = true -> P k = true) ->
  tally N (fun k => P k && negb (Q k)) = (tally N P - tally N Q)%Z.
Proof.
  intros HN. pattern N. apply natlike_ind; [reflexivity|clear N HN; intros N HN IH|exact HN].
  intros I. rewrite <- Z.add_1_r, !tally_step by exact HN. rewrite IH by (intros k K; apply I; lia).
  specialize (I N ltac:(lia)). destruct (P N), (Q N); cbn [andb negb]; try lia; discriminate (I eq_refl).
Qed.

(** The angle made from the lower edge [a] of a bin of width [w] and the draw [l]. *)
Definition in_bin (a w : f64) (l : Z) : f64 := fadd a (fmul (uval (f_of_Z 0) (f_of_Z 1) l) w).
Lemma uval_01 l : (0 <= l < 2 ^ 53)%Z -> is_finite (uval (f_of_Z 0) (f_of_Z 1) l) = true /\ R64 (uval (f_of_Z 0) (f_of_Z 1) l) = IZR l / 2 ^ 53.
Proof.
  intros K. destruct (unit_val l K) as [Fu Vu]. destruct (unit_draw_ok l K) as [_ Du].
  assert (F0 : is_finite (f_of_Z 0) = true) by (apply f_of_Z_fin; lia). assert (F1 : is_finite (f_of_Z 1) = true) by (apply f_of_Z_fin; lia).
  assert (Z0 : R64 (f_of_Z 0) = 0) by (apply (f_of_Z_R 0); lia). assert (Z1 : R64 (f_of_Z 1) = 1) by (apply (f_of_Z_R 1); lia).
  assert (Y : 0 < / 2 ^ 53) by (apply Rinv_0_lt_compat, pow_lt; lra).
  assert (B4 : 4 < bpow radix2 emax64) by (change 4 with (bpow radix2 2); apply bpow_lt; reflexivity).
  destruct (fsub_fin (f_of_Z 1) (f_of_Z 0) 1 F1 F0 ltac:(lia)) as [Es Fs]; [rewrite Z0, Z1; change (b2 1) with 2; apply Rabs_le; lra|].
  rewrite Z0, Z1, Rminus_0_r, (rnd64_fmt 1) in Es by (apply (fmt64_IZR 1); lia).
  unfold uval. set (g := fsub (f_of_Z 1) (f_of_Z 0)) in *.
  assert (Fm : rnd64 (R64 (unit_of l)) = R64 (unit_of l)) by (apply rnd64_fmt, fmt64_R).
  assert (Bu : Rabs (R64 (unit_of l)) < bpow radix2 emax64) by (rewrite Rabs_pos_eq by lra; lra).
  destruct (fmul_val g (unit_of l) Fs Fu) as [Em Fm']; [rewrite Es, Rmult_1_l, Fm; exact Bu|]. rewrite Es, Rmult_1_l, Fm in Em.
  destruct (fadd_val (f_of_Z 0) (fmul g (unit_of l)) F0 Fm') as [Ea Fa]; [rewrite Z0, Em, Rplus_0_l, Fm; exact Bu|].
  rewrite Z0, Em, Rplus_0_l, Fm in Ea. split; [exact Fa|now rewrite Ea].
Qed.
Lemma in_bin_value a w l : is_finite a = true -> is_finite w = true -> is_finite (fadd a w) = true -> 0 <= R64 w -> (0 <= l < 2 ^ 53)%Z ->
  exists m, 0 <= m <= R64 w /\ Rabs (m - IZR l / 2 ^ 53 * R64 w) <= u * R64 w + eta /\ R64 (in_bin a w l) = rnd64 (R64 a + m).
Proof.
  intros Fa Fw Fs Hw K. destruct (uval_01 l K) as [Fv Ev]. destruct (unit_draw_ok l K) as [_ Du]. rewrite (proj2 (unit_val l K)) in Du.
  assert (Y : 0 < / 2 ^ 53) by (apply Rinv_0_lt_compat, pow_lt; lra).
  unfold in_bin. set (v := uval (f_of_Z 0) (f_of_Z 1) l) in *. set (y := IZR l / 2 ^ 53) in *.
  assert (P : 0 <= y * R64 w <= R64 w).
  { split; [apply Rmult_le_pos; lra|]. rewrite <- (Rmult_1_l (R64 w)) at 2. apply Rmult_le_compat_r; lra. }
  assert (M : 0 <= rnd64 (y * R64 w) <= R64 w).
  { split; [rewrite <- (round_0 radix2 fexp64 ZnearestE); apply rnd64_le; lra|]. apply Rle_trans with (rnd64 (R64 w)); [apply rnd64_le; lra|rewrite rnd64_fmt by apply fmt64_R; lra]. }
  destruct (fmul_val v w Fv Fw) as [Em Fm].
  { rewrite Ev, Rabs_pos_eq by lra. pose proof (big64 w) as Bw. rewrite Rabs_pos_eq in Bw by lra. lra. }
  rewrite Ev in Em. exists (rnd64 (y * R64 w)). split; [exact M|]. split; [apply (rnd_bound _ (R64 w)); rewrite Rabs_pos_eq; lra|].
  destruct (fadd_val a (fmul v w) Fa Fm) as [Ea _]; [|rewrite Ea, Em; reflexivity].
  rewrite Em. set (m := rnd64 (y * R64 w)) in *.
  pose proof (big64 a) as Ba. pose proof (big64 (fadd a w)) as Bs. rewrite (fadd_fin_val a w Fa Fw Fs) in Bs.
  assert (L1 : R64 a <= rnd64 (R64 a + m)) by (apply rnd64_ge_fmt; [apply fmt64_R|lra]).
  assert (L2 : rnd64 (R64 a + m) <= rnd64 (R64 a + R64 w)) by (apply rnd64_le; lra).
  apply Rabs_lt_inv in Ba. apply Rabs_lt_inv in Bs. apply Rabs_lt. lra.
Qed.
Lemma in_bin_close a w l : is_finite a = true -> is_finite w = true -> is_finite (fadd a w) = true -> / 2 ^ 900 <= R64 w -> (0 <= l < 2 ^ 53)%Z ->
  Rabs (R64 (in_bin a w l) - (R64 a + IZR l / 2 ^ 53 * R64 w)) <= / 2 ^ 51 * (Rabs (R64 a) + R64 w).
Proof.
  intros Fa Fw Fs Hw K. assert (P9 : 0 < / 2 ^ 900) by (apply Rinv_0_lt_compat, pow_lt; lra).
  destruct (in_bin_value a w l Fa Fw Fs ltac:(lra) K) as (m & M & Em & ->).
  pose proof (rnd_bound (R64 a + m) (Rabs (R64 a) + R64 w)) as B. set (y := IZR l / 2 ^ 53) in *.
  assert (Ba : Rabs (R64 a + m) <= Rabs (R64 a) + R64 w) by (eapply Rle_trans; [apply Rabs_triang|]; rewrite (Rabs_pos_eq m); lra).
  specialize (B Ba). pose proof (Rabs_pos (R64 a)) as Pa.
  assert (Et : eta <= / 2 ^ 60 * R64 w).
  { apply Rle_trans with (/ 2 ^ 60 * / 2 ^ 900); [|apply Rmult_le_compat_l; [left; apply Rinv_0_lt_compat, pow_lt|]; lra].
    Transparent eta. unfold eta. Opaque eta. rewrite <- Rinv_mult, <- pow_add. apply Rinv_le_contravar; [apply pow_lt; lra|apply Rle_pow; [lra|lia]]. }
  replace (rnd64 (R64 a + m) - (R64 a + y * R64 w)) with ((rnd64 (R64 a + m) - (R64 a + m)) + (m - y * R64 w)) by ring.
  eapply Rle_trans; [apply Rabs_triang|]. Transparent u. unfold u in *. Opaque u. set (A := Rabs (R64 a)) in *. set (W := R64 w) in *.
  assert (X : / 2 ^ 53 * (A + W) = / 2 ^ 53 * A + / 2 ^ 53 * W) by ring. rewrite X in B.
  assert (X' : / 2 ^ 51 * (A + W) = / 2 ^ 51 * A + / 2 ^ 51 * W) by ring. rewrite X'. clear X X'.
  assert (Y1 : / 2 ^ 51 = 4 * / 2 ^ 53) by lra. assert (Y2 : / 2 ^ 60 <= / 2 ^ 53) by lra. rewrite Y1.
  assert (Q : / 2 ^ 60 * W <= / 2 ^ 53 * W) by (apply Rmult_le_compat_r; lra). set (q := / 2 ^ 53) in *.
  assert (0 <= q * A) by (apply Rmult_le_pos; [left; apply Rinv_0_lt_compat, pow_lt|]; lra). lra.
Qed.

(** Share of the draws that put the angle strictly between the edge and [x]. *)
Lemma in_bin_share a w x : is_finite a = true -> is_finite w = true -> is_finite (fadd a w) = true -> / 2 ^ 900 <= R64 w -> R64 a < x <= R64 a + R64 w ->
  Rabs (IZR (tally (2 ^ 53) (fun l => Rlt_bool (R64 a) (R64 (in_bin a w l)) && Rlt_bool (R64 (in_bin a w l)) x)) / 2 ^ 53 - (x - R64 a) / R64 w)
  <= / 2 ^ 49 * ((Rabs (R64 a) + R64 w) / R64 w) + / 2 ^ 52.
Proof.
  intros Fa Fw Fs Hw Hx. assert (P9 : 0 < / 2 ^ 900) by (apply Rinv_0_lt_compat, pow_lt; lra).
  assert (P53 : IZR (2 ^ 53) = 2 ^ 53) by (change (2 ^ 53)%Z with 9007199254740992%Z; ring).
  set (W := R64 w) in *. set (M := Rabs (R64 a) + W). pose proof (Rabs_pos (R64 a)) as Pa.
  assert (Wi : 0 < / W) by (apply Rinv_0_lt_compat; lra). set (e := / 2 ^ 50 * (M / W)).
  assert (Pe : 0 < e). { unfold e. apply Rmult_lt_0_compat; [apply Rinv_0_lt_compat, pow_lt; lra|]. unfold Rdiv. apply Rmult_lt_0_compat; unfold M; lra. }
  assert (EM : forall y, W * (y - e) = W * y - / 2 ^ 50 * M /\ W * (y + e) = W * y + / 2 ^ 50 * M) by (intros y; unfold e; split; field; lra).
  assert (C : forall l, (0 <= l < 2 ^ 53)%Z -> Rabs (R64 (in_bin a w l) - (R64 a + IZR l / IZR (2 ^ 53) * W)) <= / 2 ^ 51 * M)
    by (intros l K; rewrite P53; apply (in_bin_close a w l Fa Fw Fs Hw K)).
  assert (PM : 0 < M) by (unfold M; lra). assert (Hh : / 2 ^ 51 * M < / 2 ^ 50 * M) by (apply Rmult_lt_compat_r; lra).
  assert (T1 : Rabs (IZR (tally (2 ^ 53) (fun l => Rlt_bool (R64 (in_bin a w l)) x)) / IZR (2 ^ 53) - (x - R64 a) / W) <= e + / IZR (2 ^ 53)).
  { assert (Wx : W * ((x - R64 a) / W) = x - R64 a) by (field; lra). apply tally_band; [lia| |lra| |].
    - split; [apply Rmult_le_pos; lra|]. apply Rmult_le_reg_l with W; [lra|]. rewrite Wx. lra.
    - intros k K Hk. apply Rlt_bool_true. specialize (C k K). apply Rabs_le_inv in C. apply (Rmult_le_compat_l W) in Hk; [|lra].
      rewrite (proj1 (EM _)), Wx in Hk. lra.
    - intros k K Hk. apply Rlt_bool_false. specialize (C k K). apply Rabs_le_inv in C. apply (Rmult_lt_compat_l W) in Hk; [|lra].
      rewrite (proj2 (EM _)), Wx in Hk. lra. }
  assert (T0 : Rabs (IZR (tally (2 ^ 53) (fun l => Rle_bool (R64 (in_bin a w l)) (R64 a))) / IZR (2 ^ 53) - 0) <= e + / IZR (2 ^ 53)).
  { apply tally_band; [lia|lra|lra| |].
    - intros k K Hk. exfalso. assert (0 <= IZR k) by (apply IZR_le; lia). assert (0 < IZR (2 ^ 53)) by (apply IZR_lt; lia).
      assert (0 <= IZR k / IZR (2 ^ 53)) by (apply Rmult_le_pos; [lra|left; now apply Rinv_0_lt_compat]). lra.
    - intros k K Hk. apply Rle_bool_false. specialize (C k K). apply Rabs_le_inv in C. apply (Rmult_lt_compat_l W) in Hk; [|lra].
      rewrite (proj2 (EM _)), Rmult_0_r in Hk. lra. }
  assert (D : tally (2 ^ 53) (fun l => Rlt_bool (R64 a) (R64 (in_bin a w l)) && Rlt_bool (R64 (in_bin a w l)) x)
    = (tally (2 ^ 53) (fun l => Rlt_bool (R64 (in_bin a w l)) x) - tally (2 ^ 53) (fun l => Rle_bool (R64 (in_bin a w l)) (R64 a)))%Z).
  { rewrite <- tally_minus.
    - apply tally_ext; [lia|]. intros l _. rewrite <- (negb_Rlt_bool (R64 (in_bin a w l)) (R64 a)). apply Bool.andb_comm.
    - lia.
    - intros l _ H. apply Rlt_bool_true. destruct (Rle_bool_spec (R64 (in_bin a w l)) (R64 a)) as [Q|Q]; [lra|discriminate H]. }
  assert (G : forall t1 t0 n A E, 0 < n -> Rabs (t0 / n - 0) <= E + / n -> Rabs (t1 / n - A) <= E + / n -> Rabs ((t1 - t0) / n - A) <= 2 * E + 2 * / n).
  { clear. intros t1 t0 n A E N H0 H1. apply Rabs_le_inv in H0, H1. apply Rabs_le. replace ((t1 - t0) / n) with (t1 / n - t0 / n) by (field; lra). lra. }
  rewrite D, minus_IZR, <- P53.
  replace (/ 2 ^ 49 * (M / W) + / 2 ^ 52) with (2 * e + 2 * / IZR (2 ^ 53)).
  - apply G; [apply IZR_lt; lia|exact T0|exact T1].
  - rewrite P53. unfold e. generalize (M / W). intros c. replace (/ 2 ^ 49) with (2 * / 2 ^ 50) by lra. lra.
Qed.
Lemma count_choice sum_is_one (values probs : list f64) i a : length values = length probs -> weights probs -> sum_is_one probs = true ->
  Forall (fun x : f64 => is_finite x = true) values -> nth_error values i = Some a ->
  (forall j b, nth_error values j = Some b -> R64 b = R64 a -> j = i) ->
  probability (choice64 stream sum_is_one values probs) [] (fun x => feqb x a) =
  IZR (tally (2 ^ 53) (fun k => (length (filter (fun c => fleb c (unit_of k)) (cdf64 probs)) =? i)%nat)) / 2 ^ 53.
Proof.
  intros L W O Fv Na Di. unfold probability. rewrite tally_53. f_equal. f_equal. apply tally_ext; [lia|]. intros k K.
  pose proof W as (_ & Wp & Ex). unfold choice64.
  assert (Ne : length probs <> 0%nat) by (destruct probs; [inversion Ex|discriminate]).
  rewrite L. destruct (Nat.eqb_spec (length probs) 0); [contradiction|]. rewrite Nat.eqb_refl. cbn [negb].
  assert (Ng : existsb (fun x => fltb x (f_of_Z 0)) probs = false).
  { assert (Z0 : R64 (f_of_Z 0) = 0) by (apply (f_of_Z_R 0); lia).
    assert (F0 : is_finite (f_of_Z 0) = true) by (apply f_of_Z_fin; lia).
    clear - Wp Z0 F0. induction Wp as [|x l [Fx Hx] _ IH]; [reflexivity|]. cbn [existsb]. rewrite IH, fltb_R by assumption.
    rewrite Rlt_bool_false by (rewrite Z0; lra). reflexivity. }
  rewrite Ng, O. cbn [negb]. unfold rbind, random64. cbn [stream].
  destruct (choice_place probs (unit_of k) W (unit_draw_ok k K)) as (pk & Npk & _).
  set (j := length (filter (fun c => fleb c (unit_of k)) (cdf64 probs))) in *.
  assert (Lj : (j < length values)%nat) by (rewrite L; apply nth_error_Some; congruence).
  destruct (nth_error values j) as [x|] eqn:Nx; [|apply nth_error_None in Nx; lia]. cbn [ret fst].
  rewrite Forall_forall in Fv. rewrite feqb_R by (apply Fv; eapply nth_error_In; eassumption).
  destruct (Nat.eqb_spec j i) as [E|E].
  - apply Req_bool_true. congruence.
  - apply Req_bool_false. intros X. apply E. now apply (Di j x).
Qed.

Section Isotropy.
  Context {H : Type} (nrm : H -> f64 * H) (bw : f64 -> f64 -> H -> f64 * H).
  Context (cos64 sin64 acos64 : f64 -> f64) (pi64 : f64) (sum_is_one : list f64 -> bool) (ea : R).
  Hypothesis cosine : forall x, is_finite x = true -> within (-1) 1 (cos64 x).
  Hypothesis pi_finite : is_finite (fmul pi64 (f_of_Z 2)) = true /\ is_finite (fmul (f_of_Z 2) pi64) = true.
  Hypothesis pi_positive : 1 <= R64 (fmul pi64 (f_of_Z 2)) /\ 1 <= R64 (fmul (f_of_Z 2) pi64).
  Hypothesis arccosine : forall c, within (-1) 1 c -> Rabs (R64 (acos64 c) - acos (R64 c)) <= ea.
  Notation pi2 := (fmul pi64 (f_of_Z 2)).
  Context (beam : f64) (t : option target64) (e : excitation64) (es : list excitation64) (q : polar64) (qs : list polar64) (decays : nat).
  Hypothesis Ht : match t with Some t => target_valid beam t | None => True end.
  Hypothesis (L : length qs = length es) (Fe : Forall excitation_valid (e :: es)) (Fq : Forall (polar_valid cos64 sum_is_one) (q :: qs)).

  (** The sample made from the draws [d]. *)
  Definition made_from (h : H) (d : nat -> Z) : res sample64 :=
    fst (sample_pipeline64 (unit_at d) (normal_at nrm) (bw_at bw) cos64 sin64 acos64 pi64 sum_is_one beam t (e :: es) (q :: qs) decays (0%nat, h)).
  (** Direction of emission number [i]: of the reaction, or of decay [i - 1]. *)
  Definition direction (i : nat) (s : sample64) : option (f64 * f64) :=
    match nth_error (s64_theta s :: s64_decay_thetas s) i, nth_error (s64_phi s :: s64_decay_phis s) i with
    | Some a, Some b => Some (a, b)
    | _, _ => None
    end.
  Definition below (x f : R) (i : nat) (s : sample64) : bool :=
    match direction i s with Some (a, b) => Rlt_bool (R64 a) x && Rle_bool (R64 b) f | None => false end.

  Lemma places_apart i x : nth_error (q :: qs) i = Some x -> (theta_at t e es q qs i < phi_at t e es q qs i)%nat.
  Proof using.
    clear L. assert (P1 : forall y, (1 <= polar_draws y)%nat) by (intros [? ?|? ? ?]; cbn; lia).
    destruct i as [|i]; cbn [nth_error theta_at phi_at]; intros N.
    - specialize (P1 q). lia.
    - pose proof (many_place polar_draws qs i x N). specialize (P1 x). lia.
  Qed.

  (** C96: an emission with PolarUniform goes into the cone below [x] and the sector up to [f] with the
      probability of its solid angle, whatever all other draws of the sample are. *)
  Theorem C96_isotropic d h i amin amax x f : valid d -> nth_error (q :: qs) i = Some (PolarUniform64 amin amax) -> (i <= decays)%nat ->
    let ca := R64 (cos64 amin) in let cb := R64 (cos64 amax) in
    / 2 ^ 900 <= ca - cb -> 0 <= x <= PI -> cb <= cos x <= ca -> 0 <= f <= R64 pi2 ->
    Rabs (share (made_from h) d (theta_at t e es q qs i) (phi_at t e es q qs i) (below x f i) - (ca - cos x) / (ca - cb) * (f / R64 pi2))
    <= (ea + / 2 ^ 49) / (ca - cb) + / 2 ^ 49.
  Proof using cosine pi_finite pi_positive arccosine Ht L Fe Fq.
    intros Vd Ni Hi ca cb Hd Hx Hc Hf.
    assert (Pv : polar_valid cos64 sum_is_one (PolarUniform64 amin amax)) by (rewrite Forall_forall in Fq; apply Fq; eapply nth_error_In; eassumption).
    cbn [polar_valid] in Pv. destruct Pv as (F1 & F2 & Lc). fold ca cb in Lc. pose proof (cosine _ F1) as C1. pose proof (cosine _ F2) as C2.
    assert (Iv : interval (cos64 amax) (cos64 amin)).
    { destruct C1 as (Fc1 & B1). destruct C2 as (Fc2 & B2). split; [exact Fc2|]. split; [exact Fc1|]. split; [|exact Lc].
      destruct (fsub_fin (cos64 amin) (cos64 amax) 1) as (_ & Q); auto; [lia|]. change (b2 1) with 2. apply Rabs_le. lra. }
    assert (I0 : interval (f_of_Z 0) pi2) by (apply interval_0; [apply pi_finite|apply pi_positive]).
    pose proof (places_apart i _ Ni) as Ap.
    rewrite (share_product _ _ _ _ _ (fun k => Rlt_bool (R64 (acos64 (uval (cos64 amax) (cos64 amin) k))) x) (fun l => Rle_bool (R64 (uval (f_of_Z 0) pi2 l)) f)).
    2:{ intros k l K Kl. set (d' := set2 _ _ _ _ _). pose proof (set2_valid d (theta_at t e es q qs i) k (phi_at t e es q qs i) l Vd K Kl) as Vd'. fold d' in Vd'.
      unfold made_from.
      destruct (C96_draws nrm bw cos64 sin64 acos64 pi64 sum_is_one cosine pi_finite pi_positive d' Vd' beam t e es q qs decays Ht L Fe Fq h) as (s & p & h' & E & _ & _ & Pt & Pp & L1 & L2 & L3).
      rewrite E. cbn [fst]. unfold below, direction.
      assert (Li : (i < S (length qs))%nat) by (apply (proj1 (nth_error_Some (q :: qs) i)); rewrite Ni; discriminate).
      destruct (nth_error (s64_theta s :: s64_decay_thetas s) i) as [a|] eqn:Na; [|apply nth_error_None in Na; cbn [length] in Na; lia].
      destruct (nth_error (s64_phi s :: s64_decay_phis s) i) as [b|] eqn:Nb; [|apply nth_error_None in Nb; cbn [length] in Nb; lia].
      specialize (Pt i _ a Ni Na). cbn [polar_made] in Pt. specialize (Pp i b Nb). rewrite Pt, Pp. unfold d'. rewrite set2_fst, set2_snd by lia. reflexivity. }
    pose proof (C94_polar cos64 acos64 sum_is_one amin amax ea x [] C1 C2 arccosine Hd Hx Hc) as A. cbv zeta in A. fold ca cb in A. rewrite count_polar in A by exact Iv.
    assert (Z0 : R64 (f_of_Z 0) = 0) by (apply (f_of_Z_R 0); lia). assert (P1 : 1 <= R64 pi2) by apply pi_positive.
    assert (I9 : / 2 ^ 900 <= 1) by (rewrite <- Rinv_1; apply Rinv_le_contravar; [lra|apply pow_R1_Rle; lra]).
    pose proof (C94_uniform (f_of_Z 0) pi2 f [] I0) as B. rewrite count_uniform in B by exact I0. rewrite Z0, !Rminus_0_r, Rabs_R0, Rplus_0_l, (Rabs_pos_eq (R64 pi2)) in B by lra.
    specialize (B ltac:(lra) ltac:(lra)). replace (R64 pi2 / R64 pi2) with 1 in B by (field; lra).
    pose proof (tally_share (fun k => Rlt_bool (R64 (acos64 (uval (cos64 amax) (cos64 amin) k))) x)) as T1.
    pose proof (tally_share (fun l => Rle_bool (R64 (uval (f_of_Z 0) pi2 l)) f)) as T2.
    set (u1 := IZR (tally (2 ^ 53) (fun k => Rlt_bool (R64 (acos64 (uval (cos64 amax) (cos64 amin) k))) x)) / 2 ^ 53) in *.
    set (u2 := IZR (tally (2 ^ 53) (fun l => Rle_bool (R64 (uval (f_of_Z 0) pi2 l)) f)) / 2 ^ 53) in *.
    assert (P9 : 0 < / 2 ^ 900) by (apply Rinv_0_lt_compat, pow_lt; lra).
    set (v1 := (ca - cos x) / (ca - cb)) in *. set (v2 := f / R64 pi2) in *. set (w := (ea + / 2 ^ 49) / (ca - cb)) in *.
    assert (V1 : 0 <= v1 <= 1).
    { assert (0 < / (ca - cb)) by (apply Rinv_0_lt_compat; lra). unfold v1. split; [apply Rmult_le_pos; lra|].
      apply Rmult_le_reg_r with (ca - cb); [lra|]. unfold Rdiv. rewrite Rmult_assoc, Rinv_l by lra. lra. }
    clearbody u1 u2 v1 v2 w. clear - A B T1 T2 V1.
    replace (u1 * u2 - v1 * v2) with ((u1 - v1) * u2 + v1 * (u2 - v2)) by ring. eapply Rle_trans; [apply Rabs_triang|]. rewrite !Rabs_mult.
    rewrite (Rabs_pos_eq u2), (Rabs_pos_eq v1) by lra.
    assert (X1 : Rabs (u1 - v1) * u2 <= Rabs (u1 - v1) * 1) by (apply Rmult_le_compat_l; [apply Rabs_pos|lra]).
    assert (X2 : v1 * Rabs (u2 - v2) <= 1 * Rabs (u2 - v2)) by (apply Rmult_le_compat_r; [apply Rabs_pos|lra]). lra.
  Qed.

  (** C96: the vertex lies at the distance [r] from the axis, in the direction [theta] of draw 0, and the
      depth of draw 1, and the beam has lost what it loses up to that depth. *)
  Theorem C96_vertex d h tg ec : valid d -> t = Some tg ->
    (forall x, is_finite x = true -> Rabs (R64 (cos64 x) - cos (R64 x)) <= ec /\ within (-1) 1 (sin64 x) /\ Rabs (R64 (sin64 x) - sin (R64 x)) <= ec) ->
    exists s g x y, made_from h d = Ok s /\ let n := fst (nrm g) in let r := Rabs (R64 (fadd (f_of_Z 0) (fmul (t64_rho_sigma tg) n))) in
      let theta := uval (f_of_Z 0) (fmul (f_of_Z 2) pi64) (d 0%nat) in let z := uval (t64_zmin tg) (t64_zmax tg) (d 1%nat) in
      s64_vertex s = (x, y, z) /\ s64_energy s = fsub beam (t64_loss tg beam z) /\
      (is_finite (fadd (f_of_Z 0) (fmul (t64_rho_sigma tg) n)) = true ->
         Rabs (R64 x - r * cos (R64 theta)) <= r * (ec + u) + eta /\ Rabs (R64 y - r * sin (R64 theta)) <= r * (ec + u) + eta).
  Proof using cosine pi_finite pi_positive Ht L Fe Fq.
    intros Vd Et Hec.
    destruct (C96_draws nrm bw cos64 sin64 acos64 pi64 sum_is_one cosine pi_finite pi_positive d Vd beam t e es q qs decays Ht L Fe Fq h) as (s & p & h' & E & V & _).
    rewrite Et in V. cbn [vertex_made] in V. destruct V as (g & Ev & Ee). cbv zeta in Ev, Ee. set (n := fst (nrm g)) in *.
    set (w := fadd (f_of_Z 0) (fmul (t64_rho_sigma tg) n)) in *. set (th := uval (f_of_Z 0) (fmul (f_of_Z 2) pi64) (d 0%nat)) in *.
    exists s, g, (fmul (Babs w) (cos64 th)), (fmul (Babs w) (sin64 th)).
    split; [unfold made_from; rewrite E; reflexivity|]. cbv zeta. fold n w th. split; [exact Ev|]. split; [exact Ee|]. intros Fw.
    assert (Ft : is_finite th = true).
    { assert (I0 : interval (f_of_Z 0) (fmul (f_of_Z 2) pi64)) by (apply interval_0; [apply pi_finite|apply pi_positive]).
      destruct I0 as (A1 & A2 & A3 & A4). apply (uniform_value (f_of_Z 0) (fmul (f_of_Z 2) pi64) (unit_of (d 0%nat)) A1 A2 A3 A4 (unit_draw_ok _ (Vd 0%nat))). }
    destruct (Hec th Ft) as (Ac & Ws & As). pose proof (cosine th Ft) as Wc.
    assert (Fa : is_finite (@Babs prec64 emax64 w) = true) by now rewrite is_finite_Babs.
    assert (Ea : R64 (@Babs prec64 emax64 w) = Rabs (R64 w)) by apply B2R_Babs.
    assert (Main : forall c v, within (-1) 1 c -> Rabs (R64 c - v) <= ec -> Rabs (R64 (fmul (Babs w) c) - Rabs (R64 w) * v) <= Rabs (R64 w) * (ec + u) + eta).
    { intros c v (Fc & Bc) Av. pose proof (Rabs_pos (R64 w)) as P. pose proof (big64 w) as B. set (r := Rabs (R64 w)) in *.
      assert (M : - r <= r * R64 c <= r).
      { split; [replace (- r) with (r * (-1)) by ring; apply Rmult_le_compat_l; lra|]. apply Rle_trans with (r * 1); [apply Rmult_le_compat_l|]; lra. }
      assert (RM : Rabs (rnd64 (r * R64 c)) <= r).
      { assert (Fmt : fmt64 r) by (rewrite <- Ea; apply fmt64_R). apply Rabs_le. split.
        - apply rnd64_ge_fmt; [apply generic_format_opp; exact Fmt|apply M].
        - apply Rle_trans with (rnd64 r); [apply rnd64_le, M|rewrite rnd64_fmt by exact Fmt; lra]. }
      destruct (fmul_val (Babs w) c Fa Fc) as (Em & _); [rewrite Ea; fold r; lra|]. rewrite Em, Ea. fold r.
      pose proof (rnd_bound (r * R64 c) r ltac:(apply Rabs_le; lra)) as Er.
      replace (rnd64 (r * R64 c) - r * v) with ((rnd64 (r * R64 c) - r * R64 c) + r * (R64 c - v)) by ring.
      eapply Rle_trans; [apply Rabs_triang|]. rewrite Rabs_mult, (Rabs_pos_eq r) by lra.
      assert (r * Rabs (R64 c - v) <= r * ec) by (apply Rmult_le_compat_l; lra). lra. }
    split; apply Main; assumption.
  Qed.

  (** C96: the depth of the vertex is uniform in the target, whatever the other draws are. *)
  Theorem C96_depth d h tg f x : valid d -> t = Some tg -> / 2 ^ 900 <= R64 (t64_zmax tg) - R64 (t64_zmin tg) ->
    R64 (t64_zmin tg) <= x <= R64 (t64_zmax tg) ->
    Rabs (share (made_from h) d 1 f (fun s => Rle_bool (R64 (snd (s64_vertex s))) x) - (x - R64 (t64_zmin tg)) / (R64 (t64_zmax tg) - R64 (t64_zmin tg)))
    <= / 2 ^ 50 * ((Rabs (R64 (t64_zmin tg)) + Rabs (R64 (t64_zmax tg))) / (R64 (t64_zmax tg) - R64 (t64_zmin tg))) + / 2 ^ 53.
  Proof using cosine pi_finite pi_positive Ht L Fe Fq.
    intros Vd Et Hd Hx. assert (Iz : interval (t64_zmin tg) (t64_zmax tg)) by (rewrite Et in Ht; destruct Ht as (_ & Hz & _); exact Hz).
    pose proof (C94_uniform (t64_zmin tg) (t64_zmax tg) x [] Iz Hd Hx) as B. rewrite count_uniform in B by exact Iz.
    rewrite (share_product _ _ _ _ _ (fun k => Rle_bool (R64 (uval (t64_zmin tg) (t64_zmax tg) k)) x) (fun _ => true)).
    - assert (N : tally (2 ^ 53) (fun _ => true) = (2 ^ 53)%Z).
      { rewrite <- (Z.sub_0_r (2 ^ 53)) at 2. rewrite <- (tally_range 0 (2 ^ 53) (2 ^ 53)) by lia. apply tally_ext; [lia|]. intros k K.
        symmetry. apply andb_true_intro. split; [apply Z.leb_le|apply Z.ltb_lt]; lia. }
      rewrite N. replace (IZR (2 ^ 53) / 2 ^ 53) with 1; [rewrite Rmult_1_r; exact B|].
      replace (IZR (2 ^ 53)) with (2 ^ 53) by (change (2 ^ 53)%Z with 9007199254740992%Z; ring). field.
    - intros k l K Kl. set (d' := set2 _ _ _ _ _). pose proof (set2_valid d 1 k f l Vd K Kl) as Vd'. fold d' in Vd'. unfold made_from.
      destruct (C96_draws nrm bw cos64 sin64 acos64 pi64 sum_is_one cosine pi_finite pi_positive d' Vd' beam t e es q qs decays Ht L Fe Fq h) as (s & p & h' & E & V & _).
      rewrite Et in V, E. cbn [vertex_made] in V. destruct V as (g & Ev & _). cbv zeta in Ev. rewrite Et, E. cbn [fst]. rewrite Ev. cbn [snd].
      unfold d'. rewrite set2_fst, Bool.andb_true_r. reflexivity.
  Qed.

  (** C96: excitations drawn from a range are uniform, whatever the other draws are. *)
  Theorem C96_excitation d h i j a b x : valid d -> nth_error (e :: es) i = Some (ExUniform64 a b) -> / 2 ^ 900 <= R64 b - R64 a -> R64 a <= x <= R64 b ->
    Rabs (share (made_from h) d (ex_at t e es q i) j (fun s => match nth_error (s64_ex s :: s64_decay_ex s) i with Some y => Rle_bool (R64 y) x | None => false end)
          - (x - R64 a) / (R64 b - R64 a))
    <= / 2 ^ 50 * ((Rabs (R64 a) + Rabs (R64 b)) / (R64 b - R64 a)) + / 2 ^ 53.
  Proof using cosine pi_finite pi_positive Ht L Fe Fq.
    intros Vd Ni Hd Hx. assert (Iz : interval a b).
    { rewrite Forall_forall in Fe. apply (Fe (ExUniform64 a b)). eapply nth_error_In; eassumption. }
    pose proof (C94_uniform a b x [] Iz Hd Hx) as B. rewrite count_uniform in B by exact Iz.
    rewrite (share_product _ _ _ _ _ (fun k => Rle_bool (R64 (uval a b k)) x) (fun _ => true)).
    - assert (N : tally (2 ^ 53) (fun _ => true) = (2 ^ 53)%Z).
      { rewrite <- (Z.sub_0_r (2 ^ 53)) at 2. rewrite <- (tally_range 0 (2 ^ 53) (2 ^ 53)) by lia. apply tally_ext; [lia|]. intros k K.
        symmetry. apply andb_true_intro. split; [apply Z.leb_le|apply Z.ltb_lt]; lia. }
      rewrite N. replace (IZR (2 ^ 53) / 2 ^ 53) with 1; [rewrite Rmult_1_r; exact B|].
      replace (IZR (2 ^ 53)) with (2 ^ 53) by (change (2 ^ 53)%Z with 9007199254740992%Z; ring). field.
    - intros k l K Kl. set (d' := set2 _ _ _ _ _). pose proof (set2_valid d (ex_at t e es q i) k j l Vd K Kl) as Vd'. fold d' in Vd'. unfold made_from.
      destruct (C96_draws nrm bw cos64 sin64 acos64 pi64 sum_is_one cosine pi_finite pi_positive d' Vd' beam t e es q qs decays Ht L Fe Fq h) as (s & p & h' & E & _ & Px & _ & _ & L1 & _).
      rewrite E. cbn [fst]. assert (Li : (i < S (length es))%nat) by (apply (proj1 (nth_error_Some (e :: es) i)); rewrite Ni; discriminate).
      destruct (nth_error (s64_ex s :: s64_decay_ex s) i) as [y|] eqn:Ny; [|apply nth_error_None in Ny; cbn [length] in Ny; lia].
      specialize (Px i _ y Ni Ny). cbn [ex_made] in Px. rewrite Px. unfold d'. rewrite set2_fst, Bool.andb_true_r. reflexivity.
  Qed.
  (** C96: with PolarArbitrary, the polar angle lies between the lower edge [a] of bin [i] and [x] with the
      probability of the bin times the part of the bin up to [x], whatever the other draws are. *)
  Definition between (a x : R) (j : nat) (s : sample64) : bool :=
    match nth_error (s64_theta s :: s64_decay_thetas s) j with Some y => Rlt_bool a (R64 y) && Rlt_bool (R64 y) x | None => false end.
  Theorem C96_table d h j angles probs w i a p x : valid d -> nth_error (q :: qs) j = Some (PolarArbitrary64 angles probs w) ->
    (Z.of_nat (length probs) <= 2 ^ 40)%Z -> 9 / 10 <= sum64 probs <= 11 / 10 -> / 2 ^ 900 <= R64 w ->
    nth_error angles i = Some a -> nth_error probs i = Some p ->
    (forall k b, nth_error angles k = Some b -> k <> i -> R64 b + R64 w <= R64 a \/ R64 a + R64 w <= R64 b) ->
    R64 a < x <= R64 a + R64 w ->
    Rabs (share (made_from h) d (theta_at t e es q qs j) (S (theta_at t e es q qs j)) (between (R64 a) x j) - R64 p / sum64 probs * ((x - R64 a) / R64 w))
    <= (26 * INR (length probs) + 5) / 2 ^ 53 + (/ 2 ^ 49 * ((Rabs (R64 a) + R64 w) / R64 w) + / 2 ^ 52).
  Proof using cosine pi_finite pi_positive Ht L Fe Fq.
    intros Vd Nj Ln Hs Hw Na Np Apart Hx.
    assert (P9 : 0 < / 2 ^ 900) by (apply Rinv_0_lt_compat, pow_lt; lra).
    assert (Pv : polar_valid cos64 sum_is_one (PolarArbitrary64 angles probs w)) by (rewrite Forall_forall in Fq; apply Fq; eapply nth_error_In; eassumption).
    cbn [polar_valid] in Pv. destruct Pv as (Lp & Wp & One & Fw & Hw0 & Fa).
    assert (Fa' : forall k b, nth_error angles k = Some b -> is_finite b = true /\ is_finite (fadd b w) = true).
    { intros k b Nb. rewrite Forall_forall in Fa. apply Fa. eapply nth_error_In; eassumption. }
    destruct (Fa' i a Na) as (Fai & Fsi).
    assert (Di : forall k b, nth_error angles k = Some b -> R64 b = R64 a -> k = i).
    { intros k b Nb Eb. destruct (Nat.eq_dec k i) as [|Nk]; [assumption|]. destruct (Apart k b Nb Nk); lra. }
    assert (Fv : Forall (fun x : f64 => is_finite x = true) angles) by (eapply Forall_impl; [|exact Fa]; cbv beta; intros ? [? _]; assumption).
    rewrite (share_product _ _ _ _ _ (fun k => (length (filter (fun c => fleb c (unit_of k)) (cdf64 probs)) =? i)%nat)
               (fun l => Rlt_bool (R64 a) (R64 (in_bin a w l)) && Rlt_bool (R64 (in_bin a w l)) x)).
    2:{ intros k l K Kl. set (d' := set2 _ _ _ _ _).
      pose proof (set2_valid d (theta_at t e es q qs j) k (S (theta_at t e es q qs j)) l Vd K Kl) as Vd'. fold d' in Vd'. unfold made_from.
      destruct (C96_draws nrm bw cos64 sin64 acos64 pi64 sum_is_one cosine pi_finite pi_positive d' Vd' beam t e es q qs decays Ht L Fe Fq h) as (s & p' & h' & E & _ & _ & Pt & _ & _ & L2 & _).
      rewrite E. cbn [fst]. unfold between.
      assert (Lj : (j < S (length qs))%nat) by (apply (proj1 (nth_error_Some (q :: qs) j)); rewrite Nj; discriminate).
      destruct (nth_error (s64_theta s :: s64_decay_thetas s) j) as [y|] eqn:Ny; [|apply nth_error_None in Ny; cbn [length] in Ny; lia].
      specialize (Pt j _ y Nj Ny). cbn [polar_made] in Pt. destruct Pt as (b & Nb & Ey). unfold d' in Nb, Ey. rewrite set2_fst in Nb. rewrite set2_snd in Ey by lia.
      set (n := length (filter (fun c => fleb c (unit_of k)) (cdf64 probs))) in *. fold (in_bin b w l) in Ey. rewrite Ey. destruct (Nat.eqb_spec n i) as [En|En]; cbn [andb].
      - assert (Eb : b = a) by congruence. rewrite Eb. reflexivity.
      - destruct (Fa' n b Nb) as (Fb & Fsb). destruct (in_bin_value b w l Fb Fw Fsb Hw0 Kl) as (m & Hm & _ & ->).
        destruct (Apart n b Nb En) as [Q|Q].
        + rewrite Rlt_bool_false; [reflexivity|]. apply Rle_trans with (rnd64 (R64 a)); [apply rnd64_le; lra|rewrite rnd64_fmt by apply fmt64_R; lra].
        + rewrite (Rlt_bool_false (rnd64 _)); [apply Bool.andb_false_r|]. apply Rle_trans with (R64 b); [lra|]. apply rnd64_ge_fmt; [apply fmt64_R|lra]. }
    pose proof (C94_table sum_is_one angles probs i a p [] Lp Wp One Ln Hs Fv Na Np Di) as A. rewrite (count_choice _ _ _ _ _ Lp Wp One Fv Na Di) in A.
    pose proof (in_bin_share a w x Fai Fw Fsi Hw Hx) as B.
    pose proof (tally_share (fun k => (length (filter (fun c => fleb c (unit_of k)) (cdf64 probs)) =? i)%nat)) as T1.
    pose proof (tally_share (fun l => Rlt_bool (R64 a) (R64 (in_bin a w l)) && Rlt_bool (R64 (in_bin a w l)) x)) as T2.
    set (u1 := IZR _ / 2 ^ 53) in A. set (u2 := IZR _ / 2 ^ 53) in B. fold u1 in T1. fold u2 in T2. fold u1 u2.
    set (e1 := _ / 2 ^ 53) in A |- *. set (e2 := _ + / 2 ^ 52) in B |- *.
    destruct Wp as (_ & Wq & _). pose proof (sum64_split probs i p Np) as Sp. pose proof (sum64_part probs (S i) Wq) as S1. pose proof (sum64_part probs i Wq) as S0.
    assert (Pp : 0 <= R64 p) by (rewrite Forall_forall in Wq; apply (Wq p (nth_error_In _ _ Np))).
    assert (V1 : 0 <= R64 p / sum64 probs <= 1).
    { assert (0 < / sum64 probs) by (apply Rinv_0_lt_compat; lra). split; [apply Rmult_le_pos; lra|].
      apply Rmult_le_reg_r with (sum64 probs); [lra|]. unfold Rdiv. rewrite Rmult_assoc, Rinv_l by lra. lra. }
    set (v1 := R64 p / sum64 probs) in *. set (v2 := (x - R64 a) / R64 w) in *.
    clearbody u1 u2 v1 v2 e1 e2. clear - A B T1 T2 V1.
    replace (u1 * u2 - v1 * v2) with ((u1 - v1) * u2 + v1 * (u2 - v2)) by ring. eapply Rle_trans; [apply Rabs_triang|]. rewrite !Rabs_mult.
    rewrite (Rabs_pos_eq u2), (Rabs_pos_eq v1) by lra.
    assert (X1 : Rabs (u1 - v1) * u2 <= Rabs (u1 - v1) * 1) by (apply Rmult_le_compat_l; [apply Rabs_pos|lra]).
    assert (X2 : v1 * Rabs (u2 - v2) <= 1 * Rabs (u2 - v2)) by (apply Rmult_le_compat_r; [apply Rabs_pos|lra]). lra.
  Qed.
End Isotropy.

(** ** A run meeting the hypotheses: a target, a reaction and one decay, angles of [0, 3]. *)
Section Example.
  Definition iso_d : nat -> Z := fun _ => 0%Z.
  Definition iso_nrm (h : unit) : f64 * unit := (f_of_Z 1, h).
  Definition iso_bw (a b : f64) (h : unit) : f64 * unit := (f_of_Z 1, h).
  Definition iso_ex := ExUniform64 (f_of_Z 0) (f_of_Z 5).
  Definition iso_decay := ExGaussian64 (f_of_Z 4) (f_of_Z 0).
  Definition iso_polar := PolarUniform64 (f_of_Z 0) (f_of_Z 3).
  Definition iso_made := made_from iso_nrm iso_bw cos_r sin_r acos_r pi_r (fun _ => true) (f_of_Z 10) (Some tank64) iso_ex [iso_decay] iso_polar [iso_polar] 1 tt.

  Lemma iso_valid : valid iso_d.
  Proof. intros k. unfold iso_d. lia. Qed.
  Lemma iso_RZ z : (Z.abs z <= 2 ^ 53)%Z -> R64 (f_of_Z z) = IZR z.
  Proof. apply f_of_Z_R. Qed.
  Lemma iso_interval a b : is_finite (fsub (f_of_Z b) (f_of_Z a)) = true -> (Z.abs a <= 100)%Z -> (Z.abs b <= 100)%Z -> (a <= b)%Z -> interval (f_of_Z a) (f_of_Z b).
  Proof.
    intros F A B Q. split; [apply f_of_Z_fin; lia|]. split; [apply f_of_Z_fin; lia|]. split; [exact F|].
    rewrite !iso_RZ by lia. now apply IZR_le.
  Qed.
  Lemma iso_target : target_valid (f_of_Z 10) tank64.
  Proof.
    split; [vm_compute; reflexivity|]. split; [apply (iso_interval 0 1); [vm_compute; reflexivity|lia|lia|lia]|]. split; [apply f_of_Z_fin; lia|].
    intros z _. cbn [tank64 t64_loss]. split; [vm_compute; reflexivity|]. rewrite iso_RZ by lia.
    assert (E : R64 (fdiv (f_of_Z 5) (f_of_Z 2)) = IZR (Z.pos 5629499534213120) * bpow radix2 (-51)) by (apply val_of; vm_compute; reflexivity).
    rewrite E. cbn [bpow]. change (Z.pow_pos radix2 51) with 2251799813685248%Z. lra.
  Qed.
  Lemma iso_excitations : Forall excitation_valid [iso_ex; iso_decay].
  Proof.
    constructor; [|constructor; [|constructor]]; cbn [excitation_valid iso_ex iso_decay].
    - apply (iso_interval 0 5); [vm_compute; reflexivity|lia|lia|lia].
    - vm_compute. reflexivity.
  Qed.
  Lemma cos_small x : Rabs (cos x) <= 4.
  Proof. pose proof (COS_bound x). apply Rabs_le; lra. Qed.
  Lemma iso_cos_0 : R64 (cos_r (f_of_Z 0)) = 1.
  Proof.
    unfold cos_r. rewrite (proj2 (f_of_R_val _ (cos_small _))), (iso_RZ 0), cos_0 by lia. apply rnd64_fmt. apply (fmt64_IZR 1). lia.
  Qed.
  Lemma iso_cos_3 : R64 (cos_r (f_of_Z 3)) = rnd64 (cos 3) /\ -1 <= rnd64 (cos 3) <= 0.
  Proof.
    split; [unfold cos_r; rewrite (proj2 (f_of_R_val _ (cos_small _))), (iso_RZ 3) by lia; reflexivity|].
    pose proof PI2_3_2. pose proof PI_4. unfold PI2 in *. assert (C3 : cos 3 < 0) by (apply cos_lt_0; lra). pose proof (COS_bound 3).
    split; [apply rnd64_ge_fmt; [apply (fmt64_IZR (-1)); lia|lra]|].
    rewrite <- (round_0 radix2 fexp64 ZnearestE). apply rnd64_le. lra.
  Qed.
  Lemma iso_polars : Forall (polar_valid cos_r (fun _ => true)) [iso_polar; iso_polar].
  Proof.
    assert (V : polar_valid cos_r (fun _ => true) iso_polar).
    { cbn [polar_valid iso_polar]. split; [apply f_of_Z_fin; lia|]. split; [apply f_of_Z_fin; lia|].
      rewrite iso_cos_0, (proj1 iso_cos_3). destruct iso_cos_3 as [_ B]. lra. }
    constructor; [exact V|constructor; [exact V|constructor]].
  Qed.
  Lemma cos_r_unit x : is_finite x = true -> within (-1) 1 (cos_r x).
  Proof. intros _. apply unit_rounded, COS_bound. Qed.
  Lemma acos_r_near c : within (-1) 1 c -> Rabs (R64 (acos_r c) - acos (R64 c)) <= / 2 ^ 50.
  Proof.
    intros _. unfold acos_r. rewrite (proj2 (f_of_R_val _ (acos_small _))). eapply Rle_trans; [apply rnd_bound, acos_small|].
    Transparent u eta. unfold u, eta. Opaque u eta.
    destruct small_facts as (U0 & U1 & N0 & N1). pose proof eta_tiny. lra.
  Qed.

  (** The decay is emitted forward and within the azimuths up to [pi] with half the probability of the
      forward cone: draws 5 and 6 settle it, and draws 0 to 4 (vertex, excitation, reaction) do not matter. *)
  Example C96_isotropic_example d : valid d ->
    Rabs (share iso_made d 5 6 (below (PI / 2) PI 1) - 1 / (1 - rnd64 (cos 3)) * (PI / R64 (fmul pi_r (f_of_Z 2)))) <= / 2 ^ 47.
  Proof.
    intros Vd. pose proof iso_cos_3 as [C3 B3]. pose proof PI2_3_2. pose proof PI_4. unfold PI2 in *.
    assert (I9 : / 2 ^ 900 <= 1) by (rewrite <- Rinv_1; apply Rinv_le_contravar; [lra|apply pow_R1_Rle; lra]).
    pose proof (C96_isotropic iso_nrm iso_bw cos_r sin_r acos_r pi_r (fun _ => true) (/ 2 ^ 50) cos_r_unit (proj1 two_pi_r) (proj2 two_pi_r) acos_r_near
      (f_of_Z 10) (Some tank64) iso_ex [iso_decay] iso_polar [iso_polar] 1 iso_target eq_refl iso_excitations iso_polars
      d tt 1 (f_of_Z 0) (f_of_Z 3) (PI / 2) PI Vd eq_refl (le_n 1)) as Q.
    cbv zeta in Q. rewrite iso_cos_0, C3, cos_PI2, Rminus_0_r in Q.
    change (theta_at (Some tank64) iso_ex [iso_decay] iso_polar [iso_polar] 1) with 5%nat in Q.
    change (phi_at (Some tank64) iso_ex [iso_decay] iso_polar [iso_polar] 1) with 6%nat in Q.
    eapply Rle_trans; [apply Q; try lra|].
    - assert (P8 : 6 <= R64 (fmul pi_r (f_of_Z 2))).
      { destruct pi_r_val as [F B]. assert (F2 : is_finite (f_of_Z 2) = true) by (apply f_of_Z_fin; lia).
        assert (M : 6 <= rnd64 (R64 pi_r * R64 (f_of_Z 2)) <= 8).
        { rewrite (iso_RZ 2) by lia. split; [apply rnd64_ge_fmt; [apply (fmt64_IZR 6); lia|lra]|apply (rnd64_le_IZR _ 8); [lia|lra]]. }
        destruct (fmul_val pi_r (f_of_Z 2) F F2) as (E1 & G1); [|rewrite E1; apply M].
        rewrite Rabs_pos_eq by lra. apply Rle_lt_trans with (bpow radix2 3); [change (bpow radix2 3) with 8; lra|apply bpow_lt; reflexivity]. }
      lra.
    - clear Q. apply Rle_trans with ((/ 2 ^ 50 + / 2 ^ 49) / 1 + / 2 ^ 49); [|lra]. apply Rplus_le_compat_r. unfold Rdiv. apply Rmult_le_compat_l; [lra|].
      apply Rinv_le_contravar; lra.
  Qed.

  (** The vertex lies in the first half of the target half of the time, and the excitation below 2 in two fifths. *)
  Example C96_uniform_example d : valid d ->
    Rabs (share iso_made d 1 0 (fun s => Rle_bool (R64 (snd (s64_vertex s))) (1 / 2)) - 1 / 2) <= / 2 ^ 49 /\
    Rabs (share iso_made d 2 0 (fun s => Rle_bool (R64 (s64_ex s)) 2) - 2 / 5) <= / 2 ^ 49.
  Proof.
    intros Vd. assert (I9 : / 2 ^ 900 <= 1) by (rewrite <- Rinv_1; apply Rinv_le_contravar; [lra|apply pow_R1_Rle; lra]).
    assert (R0 := iso_RZ 0 ltac:(lia)). assert (R1 := iso_RZ 1 ltac:(lia)). assert (R5 := iso_RZ 5 ltac:(lia)).
    split.
    - pose proof (C96_depth iso_nrm iso_bw cos_r sin_r acos_r pi_r (fun _ => true) cos_r_unit (proj1 two_pi_r) (proj2 two_pi_r)
        (f_of_Z 10) (Some tank64) iso_ex [iso_decay] iso_polar [iso_polar] 1 iso_target eq_refl iso_excitations iso_polars
        d tt tank64 0 (1 / 2) Vd eq_refl) as Q.
      cbn [tank64 t64_zmin t64_zmax] in Q. rewrite R0, R1, !Rminus_0_r, Rabs_R0, Rabs_R1 in Q.
      replace (1 / 2 / 1) with (1 / 2) in Q by lra. eapply Rle_trans; [apply Q; lra|]. lra.
    - pose proof (C96_excitation iso_nrm iso_bw cos_r sin_r acos_r pi_r (fun _ => true) cos_r_unit (proj1 two_pi_r) (proj2 two_pi_r)
        (f_of_Z 10) (Some tank64) iso_ex [iso_decay] iso_polar [iso_polar] 1 iso_target eq_refl iso_excitations iso_polars
        d tt 0 0 (f_of_Z 0) (f_of_Z 5) 2 Vd eq_refl) as Q.
      rewrite R0, R5, !Rminus_0_r, Rabs_R0, (Rabs_pos_eq 5) in Q by lra. cbn [nth_error] in Q.
      change (ex_at (Some tank64) iso_ex [iso_decay] iso_polar 0) with 2%nat in Q.
      eapply Rle_trans; [apply Q; lra|]. lra.
  Qed.

  (** The vertex of the draws 0 is on the x axis, at the distance of 1/8. *)
  Example C96_vertex_example : exists s x y, iso_made iso_d = Ok s /\ s64_vertex s = (x, y, uval (f_of_Z 0) (f_of_Z 1) 0) /\
    Rabs (R64 x - 1 / 8) <= / 2 ^ 50 /\ Rabs (R64 y) <= / 2 ^ 50.
  Proof.
    assert (S : forall x, Rabs (sin x) <= 4) by (intros x; pose proof (SIN_bound x); apply Rabs_le; lra).
    assert (A : forall v, Rabs v <= 1 -> Rabs (rnd64 v - v) <= / 2 ^ 52).
    { intros v Hv. eapply Rle_trans; [apply (rnd_bound v 1 Hv)|]. Transparent u eta. unfold u, eta. Opaque u eta.
      destruct small_facts as (U0 & U1 & N0 & N1). pose proof eta_tiny. lra. }
    destruct (C96_vertex iso_nrm iso_bw cos_r sin_r acos_r pi_r (fun _ => true) cos_r_unit (proj1 two_pi_r) (proj2 two_pi_r)
        (f_of_Z 10) (Some tank64) iso_ex [iso_decay] iso_polar [iso_polar] 1 iso_target eq_refl iso_excitations iso_polars
        iso_d tt tank64 (/ 2 ^ 52) iso_valid eq_refl) as (s & g & x & y & E & V & _ & Q).
    { intros x _. unfold cos_r, sin_r. rewrite (proj2 (f_of_R_val _ (cos_small _))), (proj2 (f_of_R_val _ (S _))).
      split; [apply A, Rabs_le; apply COS_bound|]. split; [apply unit_rounded, SIN_bound|apply A, Rabs_le; apply SIN_bound]. }
    exists s, x, y. split; [exact E|]. split; [exact V|].
    cbv zeta in Q. cbn [iso_nrm fst tank64 t64_rho_sigma] in Q. set (w := fadd _ _) in Q.
    assert (W : R64 w = 1 / 8).
    { assert (Ew : R64 w = IZR (Z.pos 4503599627370496) * bpow radix2 (-55)) by (apply val_of; vm_compute; reflexivity).
      rewrite Ew. cbn [bpow]. change (Z.pow_pos radix2 55) with 36028797018963968%Z. lra. }
    assert (T : R64 (uval (f_of_Z 0) (fmul (f_of_Z 2) pi_r) (iso_d 0%nat)) = 0).
    { destruct (unit_val 0 ltac:(lia)) as [F0 V0]. unfold uval, iso_d. destruct two_pi_r as [[_ Fp] [_ Lp]].
      destruct (interval_0 (fmul (f_of_Z 2) pi_r) Fp Lp) as (Fz & _ & Fs & _). set (g2 := fsub _ _) in *.
      assert (Zu : R64 (unit_of 0) = 0) by (rewrite V0; unfold Rdiv; apply Rmult_0_l).
      assert (N0 : rnd64 0 = 0) by (apply round_0; apply _).
      destruct (fmul_val g2 (unit_of 0) Fs F0) as (Em & Fm); [rewrite Zu, Rmult_0_r, N0, Rabs_R0; apply bpow_gt_0|].
      rewrite Zu, Rmult_0_r, N0 in Em. assert (Z0 := iso_RZ 0 ltac:(lia)).
      destruct (fadd_val (f_of_Z 0) (fmul g2 (unit_of 0)) Fz Fm) as (Ea & _); rewrite Em, Z0, Rplus_0_l, N0 in *; [rewrite Rabs_R0; apply bpow_gt_0|exact Ea]. }
    destruct (Q ltac:(vm_compute; reflexivity)) as [X Y]. rewrite T, W in X, Y. rewrite (Rabs_pos_eq (1 / 8)) in X, Y by lra.
    Transparent u eta. unfold u, eta in X, Y. Opaque u eta. destruct small_facts as (U0 & U1 & N0 & N1). pose proof eta_tiny.
    rewrite cos_0, Rmult_1_r in X. rewrite sin_0, Rmult_0_r, Rminus_0_r in Y. split; [eapply Rle_trans; [exact X|]|eapply Rle_trans; [exact Y|]]; lra.
  Qed.
  (** With the table 1/4, 0, 3/4 over [0, 1), [1, 2), [2, 3): the decay between 2 and 5/2 three times out of eight. *)
  Example C96_table_example d : valid d ->
    Rabs (share (made_from iso_nrm iso_bw cos_r sin_r acos_r pi_r (fun _ => true) (f_of_Z 10) (Some tank64) iso_ex [iso_decay] iso_polar [table64] 1 tt)
            d 5 6 (between 2 (5 / 2) 1) - 3 / 8) <= / 2 ^ 45.
  Proof.
    intros Vd.
    assert (R0 := iso_RZ 0 ltac:(lia)). assert (R1 := iso_RZ 1 ltac:(lia)). assert (R2 := iso_RZ 2 ltac:(lia)).
    pose proof (fixed_draw_ok 0) as (F3 & D3). cbn [fixed_draw fst] in F3, D3. destruct quarter_val as [F1 D1].
    assert (Y : 0 < / 2 ^ 53) by (apply Rinv_0_lt_compat, pow_lt; lra).
    assert (Q1 : R64 (fdiv (f_of_Z 1) (f_of_Z 4)) = 1 / 4).
    { assert (E : R64 (fdiv (f_of_Z 1) (f_of_Z 4)) = IZR (Z.pos 4503599627370496) * bpow radix2 (-54)) by (apply val_of; vm_compute; reflexivity).
      rewrite E. cbn [bpow]. change (Z.pow_pos radix2 54) with 18014398509481984%Z. lra. }
    assert (Q3 : R64 (fdiv (f_of_Z 3) (f_of_Z 4)) = 3 / 4).
    { assert (E : R64 (fdiv (f_of_Z 3) (f_of_Z 4)) = IZR (Z.pos 6755399441055744) * bpow radix2 (-53)) by (apply val_of; vm_compute; reflexivity).
      rewrite E. cbn [bpow]. change (Z.pow_pos radix2 53) with 9007199254740992%Z. lra. }
    assert (Tv : polar_valid cos_r (fun _ => true) table64).
    { cbn [polar_valid table64]. split; [reflexivity|]. split.
      { split; [cbn; lia|]. split.
        - constructor; [split; [exact F1|lra]|]. constructor; [split; [apply f_of_Z_fin; lia|rewrite R0; lra]|].
          constructor; [split; [exact F3|lra]|constructor].
        - constructor. lra. }
      split; [reflexivity|]. split; [apply f_of_Z_fin; lia|]. split; [rewrite R1; lra|].
      constructor; [split; vm_compute; reflexivity|]. constructor; [split; vm_compute; reflexivity|].
      constructor; [split; vm_compute; reflexivity|constructor]. }
    assert (Fp : Forall (polar_valid cos_r (fun _ => true)) [iso_polar; table64]).
    { pose proof iso_polars as P. apply Forall_inv in P. constructor; [exact P|constructor; [exact Tv|constructor]]. }
    pose proof (C96_table iso_nrm iso_bw cos_r sin_r acos_r pi_r (fun _ => true) cos_r_unit (proj1 two_pi_r) (proj2 two_pi_r)
      (f_of_Z 10) (Some tank64) iso_ex [iso_decay] iso_polar [table64] 1 iso_target eq_refl iso_excitations Fp
      d tt 1 [f_of_Z 0; f_of_Z 1; f_of_Z 2] [fdiv (f_of_Z 1) (f_of_Z 4); f_of_Z 0; fdiv (f_of_Z 3) (f_of_Z 4)] (f_of_Z 1) 2
      (f_of_Z 2) (fdiv (f_of_Z 3) (f_of_Z 4)) (5 / 2) Vd eq_refl) as Q.
    change (theta_at (Some tank64) iso_ex [iso_decay] iso_polar [table64] 1) with 5%nat in Q.
    cbn [length sum64 fold_right] in Q. rewrite R0, R1, R2, Q1, Q3, (Rabs_pos_eq 2) in Q by lra.
    replace (3 / 4 / (1 / 4 + (0 + (3 / 4 + 0))) * ((5 / 2 - 2) / 1)) with (3 / 8) in Q by lra.
    eapply Rle_trans; [apply Q; clear Q|].
    - cbn. lia.
    - lra.
    - rewrite <- Rinv_1. apply Rinv_le_contravar; [lra|apply pow_R1_Rle; lra].
    - reflexivity.
    - reflexivity.
    - intros k b Nb Nk. left. destruct k as [|[|[|k]]]; cbn [nth_error] in Nb.
      + assert (Eb : b = f_of_Z 0) by congruence. rewrite Eb, R0. lra.
      + assert (Eb : b = f_of_Z 1) by congruence. rewrite Eb, R1. lra.
      + congruence.
      + destruct k; discriminate Nb.
    - lra.
    - clear Q. cbn [INR]. lra.
  Qed.
End Example.

Print Assumptions C96_table.

Print Assumptions C96_draws.
Print Assumptions C96_isotropic.
Print Assumptions C96_vertex.
Print Assumptions C96_depth.
Print Assumptions C96_excitation.
