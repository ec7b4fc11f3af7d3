(** P_Rejection.v -- C100: throwing samples away and sampling again leaves the shape of the distributions:
    the events of a file are independent, and each is distributed like a single sample that is allowed. *)
From Coq Require Import ZArith Reals Lia Lra List Bool.
From Flocq Require Import Core BinarySingleNaN.
From Verif Require Import Base F64 F64Bounds Nucleus Reaction SpecReaction ReactionProofs P_Reaction PipelineProofs KinF64 P_KinF64 KinChain P_KinChain P_TransportF64
  P_ElectronsF64 P_Allowed Sampling SamplingF64 P_SamplingF64 P_Shell P_EventF64 VectorF64 P_VectorF64 Simulator KinFile SpecKinFile P_KinFile RunF64 P_RunF64
  P_Frequency P_Isotropy.
Import ListNotations.
Local Open Scope Z_scope.

(** ** Specification *)
(** How many elements of a list meet a condition. *)
Definition count {A} (f : A -> bool) (l : list A) : Z := Z.of_nat (length (filter f l)).
(** All sequences of [n] letters.  A letter that is listed twice is twice as likely. *)
Fixpoint words {L} (letters : list L) (n : nat) : list (list L) :=
  match n with O => [[]] | S n => flat_map (fun l => map (cons l) (words letters n)) letters end.
Definition product (l : list Z) : Z := fold_right Z.mul 1 l.

(** ** Counting over sequences *)
Section Words.
  Context {L : Type} (letters : list L).
  Notation words := (words letters).

  Lemma count_app {A} f (l k : list A) : count f (l ++ k) = count f l + count f k.
  Proof using. unfold count. rewrite filter_app, app_length. lia. Qed.
  Lemma count_map {A B} f (h : A -> B) l : count f (map h l) = count (fun a => f (h a)) l.
  Proof using.
    unfold count. induction l as [|a l IH]; [reflexivity|]. cbn [map filter]. destruct (f (h a)); cbn [length]; lia.
  Qed.
  Lemma count_ext {A} f g (l : list A) : (forall a, In a l -> f a = g a) -> count f l = count g l.
  Proof using. intros E. unfold count. now rewrite (filter_ext_in _ _ _ E). Qed.
  Lemma count_cons {A} f (a : A) l : count f (a :: l) = (if f a then 1 else 0) + count f l.
  Proof using. unfold count. cbn [filter]. destruct (f a); cbn [length]; lia. Qed.
  Lemma count_none {A} (l : list A) : count (fun _ => false) l = 0.
  Proof using. induction l as [|a l IH]; [reflexivity|]. now rewrite count_cons, IH. Qed.

  (** The sum of a quantity over the elements of a list. *)
  Definition sum_over {A} (f : A -> Z) (l : list A) : Z := fold_right (fun a s => f a + s) 0 l.
  Lemma count_flat_map {A B} f (h : A -> list B) l : count f (flat_map h l) = sum_over (fun a => count f (h a)) l.
  Proof using. induction l as [|a l IH]; [reflexivity|]. cbn [flat_map sum_over fold_right]. rewrite count_app, IH. reflexivity. Qed.
  Lemma sum_over_ext {A} f g (l : list A) : (forall a, In a l -> f a = g a) -> sum_over f l = sum_over g l.
  Proof using.
    induction l as [|a l IH]; intros E; [reflexivity|]. cbn [sum_over fold_right]. rewrite (E a) by now left.
    f_equal. apply IH. intros b I. apply E. now right.
  Qed.
  Lemma sum_over_flat_map {A B} f (h : A -> list B) l : sum_over f (flat_map h l) = sum_over (fun a => sum_over f (h a)) l.
  Proof using.
    assert (Ap : forall x y, sum_over f (x ++ y) = sum_over f x + sum_over f y).
    { induction x as [|a x IH]; intros y; [reflexivity|]. cbn [app sum_over fold_right]. fold (sum_over f (x ++ y)) (sum_over f x). rewrite IH. lia. }
    induction l as [|a l IH]; [reflexivity|]. cbn [flat_map]. rewrite Ap. cbn [sum_over fold_right]. f_equal. exact IH.
  Qed.
  Lemma sum_over_map {A B} f (h : A -> B) l : sum_over f (map h l) = sum_over (fun a => f (h a)) l.
  Proof using. induction l as [|a l IH]; [reflexivity|]. cbn [map sum_over fold_right]. f_equal. exact IH. Qed.
  (** Three kinds of elements. *)
  Lemma sum_over_kinds {A} (f : A -> Z) (p q : A -> bool) x y l :
    (forall a, In a l -> f a = (if p a then x else 0) + (if q a then y else 0)) -> sum_over f l = count p l * x + count q l * y.
  Proof using.
    induction l as [|a l IH]; intros E; [reflexivity|]. cbn [sum_over fold_right]. fold (sum_over f l). rewrite (E a) by now left.
    rewrite IH by (intros b I; apply E; now right). rewrite !count_cons. destruct (p a), (q a); lia.
  Qed.

  Lemma words_length n : forall w, In w (words n) -> length w = n.
  Proof using.
    induction n as [|n IH]; intros w I; cbn [P_Rejection.words] in I.
    - destruct I as [<-|[]]. reflexivity.
    - apply in_flat_map in I. destruct I as (l & _ & I). apply in_map_iff in I. destruct I as (v & <- & I). cbn [length]. now rewrite (IH v I).
  Qed.
  (** A sequence of n + m letters is one of n letters followed by one of m letters. *)
  Lemma count_words f n m : count f (words (n + m)) = sum_over (fun b => count (fun g => f (b ++ g)) (words m)) (words n).
  Proof using.
    revert f. induction n as [|n IH]; intros f.
    - cbn [Nat.add P_Rejection.words sum_over fold_right]. rewrite Z.add_0_r. now apply count_ext.
    - cbn [Nat.add P_Rejection.words]. rewrite count_flat_map, sum_over_flat_map. apply sum_over_ext. intros l _.
      rewrite count_map, IH, sum_over_map. apply sum_over_ext. reflexivity.
  Qed.
End Words.

(** ** Runs of samples *)
Section Rejection.
  Context (sq sn cs : f64 -> f64) (boost : v4 -> v4 -> v4) (rest_energy mass : v4 -> f64).
  Context {L : Type} (letters : list L) (draw : rand (G := list L) sample64) (r : reaction_masses) (ds : list decay_masses) (n : nat).
  (** A sample is made from [n] letters. *)
  Context (block : forall b, length b = n -> exists s, shaped (length ds) s /\ forall rest, draw (b ++ rest) = (Ok s, rest)).
  Context (zs ms : list Z) (chunk : Z) (Hc : 1 <= chunk).
  Notation event := (@vertex f64 * list (mom4 f64))%type.
  Notation gen N := (generate64 sq sn cs boost rest_energy mass draw r ds (Z.of_nat N)).
  Notation words := (words letters).

  (** With at most [N] samples per event, the letters [g] make a file whose events meet the conditions [Ps] one by one. *)
  Definition file_with (N : nat) (buf : list v4) (Ps : list (event -> bool)) (g : list L) : bool :=
    match run_kinematics_pipeline (gen N) zs ms chunk (Z.of_nat (length Ps)) (buf, g) with
    | (d, Ok _) => forallb (fun eP => match read_event d chunk (Z.of_nat (fst eP)) with Ok (rows, v) => snd eP (v, rows) | Err _ => false end)
                           (combine (seq 0 (length Ps)) Ps)
    | (_, Err _) => false
    end.
  (** ... or make the run of [k] events raise the error about the limit. *)
  Definition file_raises (N : nat) (buf : list v4) (k : nat) (g : list L) : bool :=
    match run_kinematics_pipeline (gen N) zs ms chunk (Z.of_nat k) (buf, g) with (_, Err PipelineError) => true | _ => false end.
  Definition anything (_ : event) : bool := true.

  (** What a block of letters amounts to. *)
  Definition verdict (b : list L) : res (option event) :=
    match fst (draw b) with
    | Err x => Err x
    | Ok s => match event_of sq sn cs boost rest_energy mass r ds s with
              | Err x => Err x
              | Ok None => Ok None
              | Ok (Some rows) => Ok (Some (s64_vertex s, map as_read rows))
              end
    end.
  Fixpoint first (N : nat) (g : list L) : res event * list L :=
    match N with
    | O => (Err PipelineError, g)
    | S N => match verdict (firstn n g) with
             | Err x => (Err x, skipn n g)
             | Ok (Some ev) => (Ok ev, skipn n g)
             | Ok None => first N (skipn n g)
             end
    end.
  Fixpoint good (N : nat) (Ps : list (event -> bool)) (g : list L) : bool :=
    match Ps with
    | [] => true
    | P :: Ps => match first N g with (Ok ev, g') => P ev && good N Ps g' | (Err _, _) => false end
    end.

  Lemma as_read_row : forall rows, map file_row64 rows = map as_read rows.
  Proof using. intros rows. apply map_ext. reflexivity. Qed.

  Lemma loop_first fuel : forall N c limit result g, (limit - c = Z.of_nat N) -> (N < fuel)%nat -> (N * n <= length g)%nat -> length result = (4 + 2 * length ds)%nat ->
    exists result' o, run_loop64 sq sn cs boost rest_energy mass draw fuel r ds limit c result g = ((result', snd (first N g)), o) /\
      length result' = (4 + 2 * length ds)%nat /\
      fst (first N g) = match o with Ok v => Ok (v, map as_read result') | Err x => Err x end.
  Proof using block.
    induction fuel as [|fuel IH]; intros N c limit result g E F Lg Lr; [lia|]. cbn [run_loop64]. destruct N as [|N].
    { rewrite (proj2 (Z.ltb_lt _ _)) by lia. eexists _, _. split; [reflexivity|]. split; [exact Lr|reflexivity]. }
    rewrite (proj2 (Z.ltb_ge _ _)) by lia. cbn [first]. cbn [Nat.mul] in Lg.
    assert (Lb : length (firstn n g) = n) by (rewrite firstn_length; lia).
    destruct (block _ Lb) as (s & Sh & D). pose proof (D (skipn n g)) as D1. rewrite firstn_skipn in D1. pose proof (D []) as D2. rewrite app_nil_r in D2.
    rewrite D1. unfold verdict. rewrite D2. cbn [fst].
    destruct (attempt_rows sq sn cs boost rest_energy mass r ds s result Sh Lr) as (res1 & o & A & L1 & V). rewrite A.
    destruct (event_of sq sn cs boost rest_energy mass r ds s) as [[rows|]|x].
    - destruct V as (-> & ->). eexists _, _. split; [reflexivity|]. split; [exact L1|reflexivity].
    - subst o. apply IH; [lia|lia|rewrite skipn_length; lia|exact L1].
    - subst o. eexists _, _. split; [reflexivity|]. split; [exact L1|reflexivity].
  Qed.
  Lemma gen_first N buf g : (N * n <= length g)%nat -> length buf = (4 + 2 * length ds)%nat ->
    exists buf', gen N (buf, g) = (fst (first N g), (buf', snd (first N g))) /\ length buf' = (4 + 2 * length ds)%nat.
  Proof using block.
    intros Lg Lb. unfold generate64. cbn [fst snd].
    destruct (loop_first (S (Z.to_nat (Z.of_nat N))) N 0 (Z.of_nat N) buf g ltac:(lia) ltac:(lia) Lg Lb) as (res & o & R & Lr & V).
    exists res. split; [|exact Lr]. rewrite R, V. destruct o as [v|x]; [|reflexivity]. cbn [fst]. now rewrite as_read_row.
  Qed.
  Lemma first_rest N : forall g, (length g - N * n <= length (snd (first N g)))%nat.
  Proof using.
    induction N as [|N IH]; intros g; cbn [first Nat.mul].
    - cbn [snd]. lia.
    - destruct (verdict (firstn n g)) as [[ev|]|x]; cbn [snd]; [rewrite skipn_length; lia| |rewrite skipn_length; lia].
      eapply Nat.le_trans; [|apply IH]. rewrite skipn_length. lia.
  Qed.

  Lemma good_finished N : forall Ps buf g evs p', (length Ps * (N * n) <= length g)%nat -> length buf = (4 + 2 * length ds)%nat ->
    produced (gen N) (buf, g) evs p' -> length evs = length Ps ->
    good N Ps g = forallb (fun Pe => fst Pe (snd Pe)) (combine Ps evs).
  Proof using block.
    induction Ps as [|P Ps IH]; intros buf g evs p' Lg Lb Pr Le; [reflexivity|]. cbn [good]. cbn [length Nat.mul] in Lg.
    destruct evs as [|ev evs]; [discriminate Le|]. inversion Pr as [|? ? p1 ? ? R Pr1]; subst.
    destruct (gen_first N buf g ltac:(lia) Lb) as (buf' & G & Lb'). rewrite G in R.
    destruct (first N g) as [o g1] eqn:E1. cbn [fst snd] in R. assert (o = Ok ev) by congruence. assert (p1 = (buf', g1)) by congruence. subst.
    cbn [combine forallb fst snd]. f_equal. eapply IH; [|exact Lb'|exact Pr1|].
    - pose proof (first_rest N g) as F. rewrite E1 in F. cbn [snd] in F. lia.
    - cbn [length] in Le. lia.
  Qed.
  Lemma good_short N : forall Ps buf g evs p' x p'', (length Ps * (N * n) <= length g)%nat -> length buf = (4 + 2 * length ds)%nat ->
    produced (gen N) (buf, g) evs p' -> (length evs < length Ps)%nat -> gen N p' = (Err x, p'') ->
    good N Ps g = false.
  Proof using block.
    induction Ps as [|P Ps IH]; intros buf g evs p' x p'' Lg Lb Pr Le R; [cbn [length] in Le; lia|]. cbn [good]. cbn [length Nat.mul] in Lg.
    destruct (gen_first N buf g ltac:(lia) Lb) as (buf' & G & Lb').
    destruct (first N g) as [o g1] eqn:E1. cbn [fst snd] in G.
    inversion Pr as [|? ev p1 evs1 ? R1 Pr1]; subst.
    - rewrite R in G. assert (o = Err x) by congruence. now subst.
    - rewrite R1 in G. assert (o = Ok ev) by congruence. assert (p1 = (buf', g1)) by congruence. subst.
      rewrite (IH buf' g1 evs1 p' x p''); [apply andb_false_r| |exact Lb'|exact Pr1| |exact R].
      + pose proof (first_rest N g) as F. rewrite E1 in F. cbn [snd] in F. lia.
      + cbn [length] in Le. lia.
  Qed.
  Lemma checks_read : forall Ps (evs all : list event) k, length evs = length Ps ->
    (forall i ev, nth_error evs i = Some ev -> nth_error all (k + i) = Some ev) ->
    forallb (fun eP => match read_event (finished_file zs ms chunk all) chunk (Z.of_nat (fst eP)) with Ok (rows, v) => snd eP (v, rows) | Err _ => false end)
      (combine (seq k (length Ps)) Ps) = forallb (fun Pe : (event -> bool) * event => fst Pe (snd Pe)) (combine Ps evs).
  Proof using Hc.
    induction Ps as [|P Ps IH]; intros evs all k Le Sub; [reflexivity|]. destruct evs as [|[v rows] evs]; [discriminate Le|].
    cbn [length seq combine forallb fst snd].
    assert (R : read_event (finished_file zs ms chunk all) chunk (Z.of_nat k) = Ok (rows, v)).
    { apply C50_read_back; [exact Hc|lia|]. rewrite Nat2Z.id. specialize (Sub 0%nat _ eq_refl). now rewrite Nat.add_0_r in Sub. }
    rewrite R. f_equal. apply IH; [cbn [length] in Le; lia|]. intros i ev Ni. specialize (Sub (S i) ev Ni).
    replace (S k + i)%nat with (k + S i)%nat by lia. exact Sub.
  Qed.
  Lemma file_good N buf Ps g : (length Ps * (N * n) <= length g)%nat -> length buf = (4 + 2 * length ds)%nat ->
    file_with N buf Ps g = good N Ps g.
  Proof using block Hc.
    intros Lg Lb. unfold file_with.
    destruct (run_spec zs ms chunk Hc (gen N) (Z.of_nat (length Ps)) (buf, g) ltac:(lia)) as [(evs & p' & Pr & Le & K)|(evs & p' & x & p'' & Pr & Le & R & K)]; rewrite K.
    - rewrite (good_finished N Ps buf g evs p' Lg Lb Pr ltac:(lia)). apply checks_read; [lia|]. intros i ev Ni. exact Ni.
    - symmetry. eapply good_short; [exact Lg|exact Lb|exact Pr|lia|exact R].
  Qed.
  Lemma no_pipeline_error s x : event_of sq sn cs boost rest_energy mass r ds s = Err x -> x <> PipelineError.
  Proof using.
    unfold event_of, event64. destruct (reaction_allowed64 _ _ _ _); cbn [negb]; [|intros C; discriminate C].
    destruct (reaction_calculate64 _ _ _ _ _ _ _ _ _ _) as [[[[t p] e] q]|y] eqn:Er; cbn [bind].
    2:{ intros [= <-]. unfold reaction_calculate64 in Er. cbv zeta in Er. destruct (feqb _ _); [congruence|]. destruct (fltb _ _); [congruence|]. destruct (two_body _ _ _ _ _ _ _ _ _ _) in Er. discriminate Er. }
    assert (Dn : forall ds' ps P y, decays64 sq sn cs boost rest_energy mass ds' ps P = Err y -> y <> PipelineError).
    { clear. induction ds' as [|d ds' IH]; intros ps P y; cbn [decays64]; [intros C; discriminate C|]. destruct ps as [|[[ex th] ph] ps]; [intros C; congruence|].
      destruct (decay_allowed64 mass d P ex); cbn [negb]; [|intros C; discriminate C].
      destruct (decay_calculate64 sq sn cs boost rest_energy mass d P th ph ex) as [[a b]|z] eqn:Ed; cbn [bind fst snd].
      2:{ intros [= <-]. unfold decay_calculate64 in Ed. cbv zeta in Ed. destruct (fltb _ _); [congruence|discriminate Ed]. }
      destruct (decays64 sq sn cs boost rest_energy mass ds' ps b) as [[l|]|z] eqn:Ec; cbn [bind]; [intros C; discriminate C|intros C; discriminate C|].
      intros [= <-]. eapply IH. exact Ec. }
    destruct (decays64 sq sn cs boost rest_energy mass ds (params s) q) as [[l|]|z] eqn:Ec; cbn [bind]; [intros C; discriminate C|intros C; discriminate C|].
    intros [= <-]. eapply Dn. exact Ec.
  Qed.

  (** Samples by what they amount to. *)
  Definition accept (P : event -> bool) (b : list L) : bool := match verdict b with Ok (Some ev) => P ev | _ => false end.
  Definition reject (b : list L) : bool := match verdict b with Ok None => true | _ => false end.
  Definition then_good (N' N : nat) (P : event -> bool) (Ps : list (event -> bool)) (g : list L) : bool :=
    match first N' g with (Ok ev, g') => P ev && good N Ps g' | (Err _, _) => false end.

  Lemma first_step N b g : length b = n ->
    first (S N) (b ++ g) = match verdict b with Err x => (Err x, g) | Ok (Some ev) => (Ok ev, g) | Ok None => first N g end.
  Proof using.
    intros Lb. cbn [first]. rewrite firstn_app, skipn_app, Lb, Nat.sub_diag. cbn [firstn skipn].
    rewrite <- Lb at 1. rewrite firstn_all, app_nil_r. rewrite skipn_all2 by lia. reflexivity.
  Qed.
  Lemma then_good_step N' N P Ps M :
    count (then_good (S N') N P Ps) (words (S M * n)) =
      count (accept P) (words n) * count (good N Ps) (words (M * n)) + count reject (words n) * count (then_good N' N P Ps) (words (M * n)).
  Proof using.
    cbn [Nat.mul]. rewrite count_words. apply sum_over_kinds. intros b I. apply words_length in I.
    rewrite (count_ext _ (fun g => match verdict b with Err _ => false | Ok (Some ev) => P ev && good N Ps g | Ok None => then_good N' N P Ps g end)).
    2:{ intros g _. unfold then_good at 1. rewrite first_step by exact I. destruct (verdict b) as [[ev|]|x]; reflexivity. }
    unfold accept, reject. destruct (verdict b) as [[ev|]|x].
    - destruct (P ev); cbn [andb]; [change (fun g => good N Ps g) with (good N Ps); lia|]. rewrite count_none. lia.
    - change (fun g => then_good N' N P Ps g) with (then_good N' N P Ps). lia.
    - rewrite count_none. lia.
  Qed.
  Lemma good_then N P Ps M : count (good N (P :: Ps)) (words (M * n)) = count (then_good N N P Ps) (words (M * n)).
  Proof using. reflexivity. Qed.

  Definition some_of (Ps : list (event -> bool)) : list (event -> bool) := map (fun _ => anything) Ps.
  Definition chances (Ps : list (event -> bool)) : Z := product (map (fun P => count (accept P) (words n)) Ps).
  Lemma shape N : forall Ps M, (length Ps * N <= M)%nat ->
    count (good N Ps) (words (M * n)) * count (accept anything) (words n) ^ Z.of_nat (length Ps) =
    count (good N (some_of Ps)) (words (M * n)) * chances Ps.
  Proof using.
    induction Ps as [|P Ps IH]; intros M H; [cbn [length some_of map chances product fold_right]; change (Z.of_nat 0) with 0; rewrite Z.pow_0_r; reflexivity|].
    cbn [some_of map]. rewrite !good_then. fold (some_of Ps).
    assert (S1 : forall N' M, (N' + length Ps * N <= M)%nat ->
      count (then_good N' N P Ps) (words (M * n)) * count (accept anything) (words n) ^ Z.of_nat (length (P :: Ps)) =
      count (then_good N' N anything (some_of Ps)) (words (M * n)) * chances (P :: Ps)).
    { clear M H. induction N' as [|N' IHN]; intros M H.
      - unfold then_good. cbn [first]. now rewrite !count_none.
      - destruct M as [|M]; [lia|]. rewrite !then_good_step. specialize (IHN M ltac:(lia)). specialize (IH M ltac:(lia)).
        cbn [length] in *. rewrite Nat2Z.inj_succ, Z.pow_succ_r in * by lia.
        change (chances (P :: Ps)) with (count (accept P) (words n) * chances Ps) in *.
        set (X := count (accept anything) (words n)) in *. set (XK := X ^ Z.of_nat (length Ps)) in *.
        set (gp := count (good N Ps) (words (M * n))) in *. set (gt := count (good N (some_of Ps)) (words (M * n))) in *.
        set (a := count (accept P) (words n)) in *. set (rj := count reject (words n)). 
        set (t1 := count (then_good N' N P Ps) (words (M * n))) in *. set (t2 := count (then_good N' N anything (some_of Ps)) (words (M * n))) in *.
        replace ((a * gp + rj * t1) * (X * XK)) with (a * X * (gp * XK) + rj * (t1 * (X * XK))) by ring.
        rewrite IH, IHN. ring. }
    apply S1. cbn [length Nat.mul] in H. lia.
  Qed.
  Lemma good_one P b : length b = n -> good 1 [P] b = accept P b.
  Proof using.
    intros Lb. cbn [good]. rewrite <- (app_nil_r b) at 1. rewrite first_step by exact Lb. unfold accept.
    destruct (verdict b) as [[ev|]|x]; [apply andb_true_r|reflexivity|reflexivity].
  Qed.

  (** Out of all sequences of letters, the part that makes a file whose first event meets the first condition, whose
      second event meets the second, ..., compared with the part that makes a file at all, is the product of the parts for
      single samples: those that are allowed and meet the condition, compared with those that are allowed. *)
  Theorem shape_file N buf buf' Ps M : (length Ps * N <= M)%nat ->
    length buf = (4 + 2 * length ds)%nat -> length buf' = (4 + 2 * length ds)%nat ->
    count (file_with N buf Ps) (words (M * n)) * count (file_with 1 buf' [anything]) (words n) ^ Z.of_nat (length Ps) =
    count (file_with N buf (some_of Ps)) (words (M * n)) * product (map (fun P => count (file_with 1 buf' [P]) (words n)) Ps).
  Proof using block Hc.
    intros H Lb Lb'.
    assert (One : forall P, count (file_with 1 buf' [P]) (words n) = count (accept P) (words n)).
    { intros P. apply count_ext. intros b I. apply words_length in I. rewrite file_good; [now apply good_one| |exact Lb'].
      cbn [length]. lia. }
    assert (All : forall Qs, length Qs = length Ps -> count (file_with N buf Qs) (words (M * n)) = count (good N Qs) (words (M * n))).
    { intros Qs LQ. apply count_ext. intros g I. apply words_length in I. apply file_good; [|exact Lb]. rewrite I, LQ, Nat.mul_assoc. now apply Nat.mul_le_mono_r. }
    rewrite One, (All Ps eq_refl), (All (some_of Ps)) by (unfold some_of; apply map_length). rewrite shape by exact H. f_equal. unfold chances. f_equal.
    apply map_ext. intros P. symmetry. apply One.
  Qed.

  (** The chance that the limit is used up. *)
  Lemma raises_first N buf g : (N * n <= length g)%nat -> length buf = (4 + 2 * length ds)%nat ->
    file_raises N buf 1 g = match fst (first N g) with Err PipelineError => true | _ => false end.
  Proof using block Hc.
    intros Lg Lb. unfold file_raises. destruct (gen_first N buf g Lg Lb) as (buf' & G & _).
    destruct (run_spec zs ms chunk Hc (gen N) (Z.of_nat 1) (buf, g) ltac:(lia)) as [(evs & p' & Pr & Le & K)|(evs & p' & x & p'' & Pr & Le & R & K)]; rewrite K.
    - inversion Pr as [|? ev p1 evs1 ? R1 Pr1]; subst; [cbn [length] in Le; lia|].
      rewrite G in R1. assert (fst (first N g) = Ok ev) as -> by congruence. reflexivity.
    - inversion Pr as [|? ev p1 evs1 ? R1 Pr1]; subst; [|cbn [length] in Le; lia].
      rewrite G in R. assert (fst (first N g) = Err x) as -> by congruence. reflexivity.
  Qed.
  Theorem limit_file N buf buf' : length buf = (4 + 2 * length ds)%nat -> length buf' = (4 + 2 * length ds)%nat ->
    count (file_raises N buf 1) (words (N * n)) = count (file_raises 1 buf' 1) (words n) ^ Z.of_nat N.
  Proof using block Hc.
    intros Lb Lb'.
    assert (One : count (file_raises 1 buf' 1) (words n) = count reject (words n)).
    { apply count_ext. intros b I. apply words_length in I. rewrite raises_first by (try exact Lb'; lia).
      rewrite <- (app_nil_r b) at 1. rewrite first_step by exact I. unfold reject. destruct (verdict b) as [[ev|]|x] eqn:V; [reflexivity|reflexivity|].
      cbn [fst]. unfold verdict in V. destruct (block b I) as (s & _ & D). specialize (D []). rewrite app_nil_r in D. rewrite D in V. cbn [fst] in V.
      destruct (event_of sq sn cs boost rest_energy mass r ds s) as [[rows|]|y] eqn:Ev; [discriminate V|discriminate V|].
      pose proof (no_pipeline_error _ _ Ev). assert (x = y) by congruence. subst. destruct y; congruence. }
    rewrite One.
    rewrite (count_ext _ (fun g => match fst (first N g) with Err PipelineError => true | _ => false end)).
    2:{ intros g I. apply words_length in I. apply raises_first; [lia|exact Lb]. }
    clear One. induction N as [|N IH]; [reflexivity|]. rewrite Nat2Z.inj_succ, Z.pow_succ_r by lia. rewrite <- IH. cbn [Nat.mul]. rewrite count_words.
    rewrite (sum_over_kinds _ reject (fun _ => false) (count (fun g => match fst (first N g) with Err PipelineError => true | _ => false end) (words (N * n))) 0).
    { lia. }
    intros b I. apply words_length in I. unfold reject.
    rewrite (count_ext _ (fun g => match verdict b with Ok None => match fst (first N g) with Err PipelineError => true | _ => false end | _ => false end)).
    - destruct (verdict b) as [[ev|]|x]; rewrite ?count_none; lia.
    - intros g _. rewrite first_step by exact I. destruct (verdict b) as [[ev|]|x] eqn:V; [reflexivity|reflexivity|].
      cbn [fst]. unfold verdict in V. destruct (block b I) as (s & _ & D). specialize (D []). rewrite app_nil_r in D. rewrite D in V. cbn [fst] in V.
      destruct (event_of sq sn cs boost rest_energy mass r ds s) as [[rows|]|y] eqn:Ev; [discriminate V|discriminate V|].
      pose proof (no_pipeline_error _ _ Ev). assert (x = y) by congruence. subst. destruct y; congruence.
  Qed.

  (** If a single sample can be allowed, files can be made. *)
  Lemma count_nonneg {A} f (l : list A) : 0 <= count f l.
  Proof using. unfold count. lia. Qed.
  Lemma count_some {A} f (l : list A) : 0 < count f l -> 0 < count (fun _ => true) l.
  Proof using.
    unfold count. intros H. destruct l as [|a l]; [cbn in H; lia|]. cbn [filter length]. lia.
  Qed.
  Lemma words_exist m M : 0 < count (fun _ => true) (words m) -> 0 < count (fun _ => true) (words (M * m)).
  Proof using.
    clear Hc. intros P. induction M as [|M IH]; [cbn; lia|]. cbn [Nat.mul]. rewrite count_words.
    rewrite (sum_over_kinds _ (fun _ => true) (fun _ => false) (count (fun _ => true) (words (M * m))) 0) by (intros; lia). nia.
  Qed.
  Theorem made_file N buf buf' Ps M : (length Ps * N <= M)%nat -> (1 <= N)%nat ->
    length buf = (4 + 2 * length ds)%nat -> length buf' = (4 + 2 * length ds)%nat ->
    0 < count (file_with 1 buf' [anything]) (words n) -> 0 < count (file_with N buf (some_of Ps)) (words (M * n)).
  Proof using block Hc.
    intros H HN Lb Lb' A.
    assert (One : count (file_with 1 buf' [anything]) (words n) = count (accept anything) (words n)).
    { apply count_ext. intros b I. apply words_length in I. rewrite file_good; [now apply good_one| |exact Lb']. cbn [length]. lia. }
    rewrite One in A.
    assert (All : count (file_with N buf (some_of Ps)) (words (M * n)) = count (good N (some_of Ps)) (words (M * n))).
    { apply count_ext. intros g I. apply words_length in I. apply file_good; [|exact Lb]. unfold some_of. rewrite I, map_length, Nat.mul_assoc.
      now apply Nat.mul_le_mono_r. }
    rewrite All. clear All One. revert M H. induction Ps as [|P Ps IH]; intros M H.
    - cbn [some_of map]. apply (words_exist n M). eapply count_some. exact A.
    - cbn [some_of map]. rewrite good_then. cbn [length Nat.mul] in H. destruct N as [|N]; [lia|]. destruct M as [|M]; [lia|].
      rewrite then_good_step. specialize (IH M ltac:(lia)). fold (some_of Ps).
      pose proof (count_nonneg reject (words n)). pose proof (count_nonneg (then_good N (S N) anything (some_of Ps)) (words (M * n))). nia.
  Qed.
End Rejection.

(** ** The sampler of the pipeline *)
Local Open Scope R_scope.
(** Programs that read a known number of letters. *)
Definition reads {L A} (m : @rand (list L) A) (k : nat) (Q : A -> Prop) : Prop :=
  forall b, length b = k -> exists a, (forall rest, m (b ++ rest) = (Ok a, rest)) /\ Q a.
Section Reads.
  Context {L : Type}.
  Lemma reads_ret {A} (a : A) (Q : A -> Prop) : Q a -> reads (L := L) (ret a) 0 Q.
  Proof using. intros Qa b Lb. destruct b; [|discriminate Lb]. exists a. split; [reflexivity|exact Qa]. Qed.
  Lemma reads_bind {A B} (m : @rand (list L) A) (f : A -> rand B) k j Q (P : B -> Prop) :
    reads m k Q -> (forall a, Q a -> reads (f a) j P) -> reads (rbind m f) (k + j) P.
  Proof using.
    intros M F b Lb. destruct (M (firstn k b)) as (a & Ea & Qa); [rewrite firstn_length; lia|].
    destruct (F a Qa (skipn k b)) as (c & Ec & Pc); [rewrite skipn_length; lia|]. exists c. split; [|exact Pc].
    intros rest. unfold rbind. rewrite <- (firstn_skipn k b) at 1. rewrite <- app_assoc, Ea, Ec. reflexivity.
  Qed.
  Lemma reads_eq {A} (m : @rand (list L) A) k j (Q : A -> Prop) : k = j -> reads m k Q -> reads m j Q.
  Proof using. now intros ->. Qed.
  Lemma reads_weak {A} (m : @rand (list L) A) k (Q P : A -> Prop) : (forall a, Q a -> P a) -> reads m k Q -> reads m k P.
  Proof using. intros W M b Lb. destruct (M b Lb) as (a & E & Qa). exists a. auto. Qed.
  Lemma reads_index {A} (l : list A) i a : nth_error l i = Some a -> reads (L := L) (lift (py_index l (Z.of_nat i))) 0 (fun b => b = a).
  Proof using.
    intros N b Lb. destruct b; [|discriminate Lb]. exists a. split; [|reflexivity]. intros rest. cbn [app].
    destruct (gives_index (G := list L) l i a N rest) as (c & g & E & ->). rewrite E. f_equal.
    unfold lift in E. congruence.
  Qed.
  Lemma reads_rmap_index {A B} (f : A -> @rand (list L) B) (V : A -> Prop) (k : A -> nat) (l : list A) :
    (forall a, V a -> reads (f a) (k a) (fun _ => True)) -> Forall V l ->
    forall m i, (i + m <= length l)%nat ->
    reads (rmap (fun i => rbind (lift (py_index l i)) f) (map Z.of_nat (seq i m))) (many k (firstn m (skipn i l))) (fun bs => length bs = m).
  Proof using.
    intros F V' m. induction m as [|m IH]; intros i H; cbn [seq map rmap].
    - apply reads_ret. reflexivity.
    - destruct (skipn i l) as [|a l'] eqn:E.
      { apply (f_equal (@length A)) in E. rewrite skipn_length in E. cbn [length] in E. lia. }
      assert (N : nth_error l i = Some a) by (rewrite <- (firstn_skipn i l), nth_error_app2; rewrite firstn_length, Nat.min_l by lia; [rewrite Nat.sub_diag, E; reflexivity|lia]).
      assert (E' : skipn (S i) l = l').
      { clear - E. revert l E. induction i as [|i IHi]; intros l E; [cbn [skipn] in E; subst; reflexivity|]. destruct l as [|x l]; [discriminate E|]. exact (IHi l E). }
      cbn [firstn many fold_right]. fold (many k (firstn m l')). rewrite <- E'.
      apply reads_bind with (fun _ => True).
      + change (k a) with (0 + k a)%nat. eapply reads_bind; [apply (reads_index _ _ _ N)|]. intros b ->. apply F.
        eapply Forall_forall; [exact V'|]. eapply nth_error_In. exact N.
      + intros b _. rewrite <- (Nat.add_0_r (many k _)). eapply reads_bind; [apply IH; lia|]. intros bs Lbs. apply reads_ret. cbn [length]. now rewrite Lbs.
  Qed.
  Lemma reads_rmap_same {B} (m : @rand (list L) B) : reads m 1 (fun _ => True) -> forall k,
    reads (rmap (fun _ : unit => m) (repeat tt k)) k (fun bs => length bs = k).
  Proof using.
    intros M k. induction k as [|k IH]; cbn [repeat rmap]; [apply reads_ret; reflexivity|].
    change (S k) with (1 + k)%nat. eapply reads_bind; [exact M|]. intros b _. apply reads_eq with (k + 0)%nat; [lia|].
    eapply reads_bind; [exact IH|]. intros bs Lb. apply reads_ret. cbn [length]. now rewrite Lb.
  Qed.
End Reads.

Section Sampler.
  (** A generator hands out one number per letter: of [0, 1), normal, or Breit-Wigner. *)
  Context {L : Type} (unit_of_letter normal_of_letter : L -> f64) (bw_of_letter : f64 -> f64 -> L -> f64).
  Context (cos64 sin64 acos64 : f64 -> f64) (pi64 : f64) (sum_is_one : list f64 -> bool).
  Hypothesis draws : forall l, draw_ok (unit_of_letter l).
  Hypothesis cosine : forall x : f64, is_finite x = true -> P_SamplingF64.within (-1) 1 (cos64 x).
  Hypothesis pi_finite : is_finite (fmul pi64 (f_of_Z 2)) = true /\ is_finite (fmul (f_of_Z 2) pi64) = true.
  Hypothesis pi_positive : 1 <= R64 (fmul pi64 (f_of_Z 2)) /\ 1 <= R64 (fmul (f_of_Z 2) pi64).
  Definition next (f : L -> f64) (g : list L) : f64 * list L := match g with [] => (f_of_Z 0, []) | l :: g => (f l, g) end.
  Notation unit_next := (next unit_of_letter).
  Notation normal_next := (next normal_of_letter).
  Definition bw_next (rho scale : f64) := next (bw_of_letter rho scale).

  Lemma reads_uniform low high : interval low high -> reads (uniform64 unit_next low high) 1 (fun _ => True).
  Proof using.
    intros (Fl & Fh & Fr & H) b Lb. destruct b as [|l [|? ?]]; [discriminate Lb| |discriminate Lb].
    assert (N : fltb high low = false) by (rewrite fltb_R by assumption; now apply Rlt_bool_false).
    eexists. split; [|exact I]. intros rest. unfold uniform64, rbind, random64. rewrite Fr, N. cbn [negb orb app next ret]. reflexivity.
  Qed.
  Lemma reads_excitation e : excitation_valid e -> reads (sample_excitation64 unit_next normal_next bw_next e) 1 (fun _ => True).
  Proof using.
    destruct e as [c w|x y|m c w]; cbn [excitation_valid sample_excitation64].
    - intros V b Lb. destruct b as [|l [|? ?]]; [discriminate Lb| |discriminate Lb]. unfold normal64. rewrite V. eexists. split; [|exact I].
      intros rest. cbn [app next]. reflexivity.
    - apply reads_uniform.
    - intros V b Lb. destruct b as [|l [|? ?]]; [discriminate Lb| |discriminate Lb]. rewrite V. eexists. split; [|exact I].
      intros rest. unfold bw_next. cbn [app next]. reflexivity.
  Qed.
  Lemma reads_polar q : polar_valid cos64 sum_is_one q -> reads (sample_polar64 unit_next cos64 acos64 sum_is_one q) (polar_draws q) (fun _ => True).
  Proof using draws cosine.
    destruct q as [amin amax|angles probs w]; cbn [polar_valid sample_polar64 polar_draws].
    - intros (F1 & F2 & H). destruct (cosine _ F1) as (Fc1 & C1). destruct (cosine _ F2) as (Fc2 & C2).
      change 1%nat with (1 + 0)%nat. eapply reads_bind.
      + apply reads_uniform. split; [exact Fc2|]. split; [exact Fc1|]. split; [|exact H].
        destruct (fsub_fin (cos64 amin) (cos64 amax) 1) as (_ & Q); auto; [lia|]. change (b2 1) with 2. apply Rabs_le. lra.
      + intros c _. now apply reads_ret.
    - intros (Le & W & O & _). change 2%nat with (1 + (1 + 0))%nat. apply reads_bind with (fun _ => True).
      + intros b Lb. destruct b as [|l [|? ?]]; [discriminate Lb| |discriminate Lb]. 
        pose proof W as (_ & Wp & Ex). unfold choice64.
        assert (Ne : length probs <> 0%nat) by (destruct probs; [inversion Ex|discriminate]).
        rewrite Le. destruct (Nat.eqb_spec (length probs) 0); [contradiction|]. rewrite Nat.eqb_refl. cbn [negb].
        assert (Ng : existsb (fun x => fltb x (f_of_Z 0)) probs = false).
        { assert (Z0 : R64 (f_of_Z 0) = 0) by (apply (f_of_Z_R 0); lia).
          assert (F0 : is_finite (f_of_Z 0) = true) by (apply f_of_Z_fin; lia).
          clear - Wp Z0 F0. induction Wp as [|x k [Fx Hx] _ IH]; [reflexivity|]. cbn [existsb]. rewrite IH, fltb_R by assumption.
          rewrite Rlt_bool_false by (rewrite Z0; lra). reflexivity. }
        rewrite Ng, O. cbn [negb]. unfold rbind, random64. cbn [app next].
        destruct (choice_place probs (unit_of_letter l) W (draws l)) as (x & Nx & _).
        set (k := length (filter (fun c => fleb c (unit_of_letter l)) (cdf64 probs))) in *.
        assert (Hk : (k < length probs)%nat) by (apply (proj1 (nth_error_Some probs k)); rewrite Nx; discriminate).
        destruct (nth_error angles k) as [a|] eqn:Na; [|apply nth_error_None in Na; lia].
        exists a. split; [reflexivity|exact I].
      + intros a _. eapply reads_bind.
        * apply reads_uniform. apply (interval_0 (f_of_Z 1)); [apply f_of_Z_fin; lia|]. rewrite (f_of_Z_R 1) by lia. lra.
        * intros u _. now apply reads_ret.
  Qed.
  Definition vertex_letters (t : option target64) : nat := match t with Some _ => 3%nat | None => 0%nat end.
  Lemma reads_vertex beam t : match t with Some t => target_valid beam t | None => True end ->
    reads (sample_vertex64 unit_next normal_next cos64 sin64 pi64 beam t) (vertex_letters t) (fun _ => True).
  Proof using pi_finite pi_positive.
    destruct t as [t|]; cbn [vertex_letters sample_vertex64].
    - intros (Hs & Hz & _). change 3%nat with (1 + (1 + (1 + 0)))%nat. apply reads_bind with (fun _ => True).
      + intros b Lb. destruct b as [|l [|? ?]]; [discriminate Lb| |discriminate Lb]. unfold normal64. rewrite Hs. eexists. split; [|exact I].
        intros rest. cbn [app next]. reflexivity.
      + intros x _. cbv zeta. eapply reads_bind; [apply reads_uniform, interval_0; [apply pi_finite|apply pi_positive]|]. intros th _.
        eapply reads_bind; [apply reads_uniform, Hz|]. intros z _. now apply reads_ret.
    - intros _. now apply reads_ret.
  Qed.
  (** The numbers that one sample is made from. *)
  Definition sample_letters (t : option target64) (es : list excitation64) (qs : list polar64) (decays : nat) : nat :=
    (vertex_letters t + length es + many polar_draws qs + S decays)%nat.
  Lemma many_one {A} (l : list A) : many (fun _ => 1%nat) l = length l.
  Proof using. induction l as [|a l IH]; [reflexivity|]. cbn [many fold_right length]. fold (many (fun _ : A => 1%nat) l). now rewrite IH. Qed.
  Lemma reads_sample beam t e es q qs decays :
    match t with Some t => target_valid beam t | None => True end -> length qs = length es -> decays = length es ->
    Forall excitation_valid (e :: es) -> Forall (polar_valid cos64 sum_is_one) (q :: qs) ->
    reads (sample_pipeline64 unit_next normal_next bw_next cos64 sin64 acos64 pi64 sum_is_one beam t (e :: es) (q :: qs) decays)
      (sample_letters t (e :: es) (q :: qs) decays) (shaped decays).
  Proof using draws cosine pi_finite pi_positive.
    intros Ht Lq Ld Fe Fq. unfold sample_pipeline64.
    assert (U : reads (uniform64 unit_next (f_of_Z 0) (fmul pi64 (f_of_Z 2))) 1 (fun _ => True))
      by (apply reads_uniform, interval_0; [apply pi_finite|apply pi_positive]).
    apply reads_eq with (vertex_letters t + (0 + (1 + (0 + (polar_draws q + (1 + (length es + (many polar_draws qs + (decays + 0)))))))))%nat.
    { unfold sample_letters. cbn [length many fold_right]. fold (many polar_draws qs). lia. }
    eapply reads_bind; [apply reads_vertex, Ht|]. intros ev _.
    eapply reads_bind; [apply (reads_index (e :: es) 0 e); reflexivity|]. intros ? ->.
    eapply reads_bind; [apply reads_excitation; now inversion Fe|]. intros rex _.
    eapply reads_bind; [apply (reads_index (q :: qs) 0 q); reflexivity|]. intros ? ->.
    eapply reads_bind; [apply reads_polar; now inversion Fq|]. intros rth _. cbv zeta.
    eapply reads_bind; [exact U|]. intros rph _. cbn [length]. rewrite Nat.sub_succ, Nat.sub_0_r.
    eapply reads_bind.
    { apply reads_eq with (many (fun _ => 1%nat) (firstn (length es) (skipn 1 (e :: es)))); [cbn [skipn]; now rewrite firstn_all, many_one|].
      apply (reads_rmap_index _ excitation_valid (fun _ => 1%nat) (e :: es)); [apply reads_excitation|exact Fe|cbn [length]; lia]. }
    intros dex Le. eapply reads_bind.
    { apply reads_eq with (many polar_draws (firstn (length es) (skipn 1 (q :: qs)))); [cbn [skipn]; now rewrite <- Lq, firstn_all|].
      apply (reads_rmap_index _ (polar_valid cos64 sum_is_one) polar_draws (q :: qs)); [apply reads_polar|exact Fq|cbn [length]; lia]. }
    intros dth Lt. eapply reads_bind; [apply reads_rmap_same, U|]. intros dph Lp. apply reads_ret.
    unfold shaped. cbn [s64_decay_ex s64_decay_thetas s64_decay_phis]. split; [congruence|]. split; congruence.
  Qed.

  (** ** Files *)
  Section Files.
  Context (sq : f64 -> f64) (boost : v4 -> v4 -> v4) (rest_energy mass : v4 -> f64).
  Context (r : reaction_masses) (ds : list decay_masses) (beam : f64) (t : option target64).
  Context (e : excitation64) (es : list excitation64) (q : polar64) (qs : list polar64).
  Hypothesis Ht : match t with Some t => target_valid beam t | None => True end.
  Hypothesis Hes : length es = length ds.
  Hypothesis Hqs : length qs = length ds.
  Hypothesis He : Forall excitation_valid (e :: es).
  Hypothesis Hq : Forall (polar_valid cos64 sum_is_one) (q :: qs).
  Context (letters : list L) (zs ms : list Z) (chunk : Z) (Hchunk : (1 <= chunk)%Z).
  Notation sampler := (sample_pipeline64 unit_next normal_next bw_next cos64 sin64 acos64 pi64 sum_is_one beam t (e :: es) (q :: qs) (length ds)).
  Notation one := (sample_letters t (e :: es) (q :: qs) (length ds)).
  Notation made := (file_with sq sin64 cos64 boost rest_energy mass sampler r ds zs ms chunk).
  Notation raised := (file_raises sq sin64 cos64 boost rest_energy mass sampler r ds zs ms chunk).
  Notation words := (words letters).
  Notation good_buffer buf := (length buf = (4 + 2 * length ds)%nat).

  Lemma sampler_block : forall b, length b = one -> exists s, shaped (length ds) s /\ forall rest, sampler (b ++ rest) = (Ok s, rest).
  Proof using draws cosine pi_finite pi_positive Ht Hes Hqs He Hq.
    intros b Lb. destruct (reads_sample beam t e es q qs (length ds) Ht ltac:(congruence) (eq_sym Hes) He Hq b Lb) as (s & E & Sh).
    exists s. split; [exact Sh|exact E].
  Qed.

  (** C100: the events of a file are independent of each other, and each is distributed like one sample that is allowed,
      whatever the limit.  [Ps]: conditions on the first event, the second, ...; sequences of letters are equally likely;
      both sides are multiplied by the denominators. *)
  Theorem C100_shape N buf buf' Ps M : (length Ps * N <= M)%nat -> good_buffer buf -> good_buffer buf' ->
    (count (made N buf Ps) (words (M * one)) * count (made 1 buf' [anything]) (words one) ^ Z.of_nat (length Ps) =
     count (made N buf (some_of Ps)) (words (M * one)) * product (map (fun P => count (made 1 buf' [P]) (words one)) Ps))%Z.
  Proof using draws cosine pi_finite pi_positive Ht Hes Hqs He Hq Hchunk.
    apply shape_file; [exact sampler_block|exact Hchunk].
  Qed.
  (** C100: as conditional probabilities.  If a sample can be allowed at all, *)
  Theorem C100_conditional N buf buf' Ps M : (length Ps * N <= M)%nat -> (1 <= N)%nat -> good_buffer buf -> good_buffer buf' ->
    (0 < count (made 1 buf' [anything]) (words one))%Z ->
    IZR (count (made N buf Ps) (words (M * one))) / IZR (count (made N buf (some_of Ps)) (words (M * one))) =
    fold_right (fun P p => IZR (count (made 1 buf' [P]) (words one)) / IZR (count (made 1 buf' [anything]) (words one)) * p) 1 Ps.
  Proof using draws cosine pi_finite pi_positive Ht Hes Hqs He Hq Hchunk.
    intros H HN Lb Lb' A. pose proof (C100_shape N buf buf' Ps M H Lb Lb') as S.
    pose proof (made_file sq sin64 cos64 boost rest_energy mass letters sampler r ds one sampler_block zs ms chunk Hchunk N buf buf' Ps M H HN Lb Lb' A) as F.
    set (X := count (made 1 buf' [anything]) (words one)) in *. set (U := count (made N buf Ps) (words (M * one))) in *.
    set (V := count (made N buf (some_of Ps)) (words (M * one))) in *. apply IZR_lt in A, F.
    assert (Pr : IZR (product (map (fun P => count (made 1 buf' [P]) (words one)) Ps)) =
      fold_right (fun P p => IZR (count (made 1 buf' [P]) (words one)) / IZR X * p) 1 Ps * IZR X ^ length Ps).
    { clear - A. induction Ps as [|P Ps IH]; [cbn; lra|]. cbn [map product fold_right length pow]. fold (product (map (fun P => count (made 1 buf' [P]) (words one)) Ps)).
      rewrite mult_IZR, IH. field. lra. }
    apply (f_equal IZR) in S. rewrite !mult_IZR, Pr, <- pow_IZR in S.
    assert (0 < IZR X ^ length Ps) by (now apply pow_lt).
    apply (Rmult_eq_reg_r (IZR V * IZR X ^ length Ps)); [|nra]. transitivity (IZR U * IZR X ^ length Ps); [field; lra|]. rewrite S. ring.
  Qed.
  (** C100: the error about the limit is as likely as that many samples in a row that are not allowed. *)
  Theorem C100_limit N buf buf' : good_buffer buf -> good_buffer buf' ->
    (count (raised N buf 1) (words (N * one)) = count (raised 1 buf' 1) (words one) ^ Z.of_nat N)%Z.
  Proof using draws cosine pi_finite pi_positive Ht Hes Hqs He Hq Hchunk.
    apply limit_file; [exact sampler_block|exact Hchunk].
  Qed.
  End Files.
End Sampler.

(** ** Example *)
(** 12C on deuterons at 100 MeV, (d,p) to states between 0 and 30 MeV, of which those above 20.4 MeV are not allowed; a
    generator with three values.  Of the 27 samples 9 are not allowed, and 9 lead to a fast proton.  With any limit, the first
    event of a file of two is fast and the second is not for 1/4 of the files. *)
Inductive die := Low | Mid | High.
Definition die_unit (l : die) : f64 := unit_of (match l with Low => 0 | Mid => 2 ^ 52 | High => 2 ^ 53 - 1 end)%Z.
Definition die_ex : excitation64 := ExUniform64 (f_of_Z 0) (f_of_Z 30).
Definition die_polar : polar64 := PolarUniform64 (f_of_Z 0) (f_of_Z 3).
Definition die_sample := sample_pipeline64 (next die_unit) (next (fun _ => f_of_Z 0)) (bw_next (fun _ _ _ => f_of_Z 0))
  (fun _ => f_of_Z 0) (fun _ => f_of_Z 1) (fun _ => f_of_Z 1) (f_of_Z 3) (fun _ => true) (f_of_Z 100) None [die_ex] [die_polar] 0.
Definition die_file := let sq := fun x : f64 => fmul x x in
  file_with sq (fun _ => f_of_Z 1) (fun _ => f_of_Z 0) (boost_v sq) (rest_v sq) (mass_v sq) die_sample rx_r [] [1; 6; 1; 6]%Z [2; 12; 1; 13]%Z 50.
Definition die_raises := let sq := fun x : f64 => fmul x x in
  file_raises sq (fun _ => f_of_Z 1) (fun _ => f_of_Z 0) (boost_v sq) (rest_v sq) (mass_v sq) die_sample rx_r [] [1; 6; 1; 6]%Z [2; 12; 1; 13]%Z 50.
Definition fast (ev : @vertex f64 * list (mom4 f64)) : bool :=
  match snd ev with [_; _; proton; _] => fltb (f_of_Z 955) (m_E proton) | _ => false end.
Definition slow (ev : @vertex f64 * list (mom4 f64)) : bool := negb (fast ev).
Definition die_buffer : list v4 := repeat (mkV4 (f_of_Z 0) (f_of_Z 0) (f_of_Z 0) (f_of_Z 0)) 4.

Lemma die_counts :
  (count (die_file 1 die_buffer [anything]) (words [Low; Mid; High] 3) = 18 /\ count (die_file 1 die_buffer [fast]) (words [Low; Mid; High] 3) = 9 /\
   count (die_file 1 die_buffer [slow]) (words [Low; Mid; High] 3) = 9 /\ count (die_raises 1 die_buffer 1) (words [Low; Mid; High] 3) = 9)%Z.
Proof. repeat split; vm_compute; reflexivity. Qed.
Lemma die_valid : (forall l, draw_ok (die_unit l)) /\
  (is_finite (fmul (f_of_Z 3) (f_of_Z 2)) = true /\ is_finite (fmul (f_of_Z 2) (f_of_Z 3)) = true) /\
  (1 <= R64 (fmul (f_of_Z 3) (f_of_Z 2)) /\ 1 <= R64 (fmul (f_of_Z 2) (f_of_Z 3))) /\
  Forall excitation_valid [die_ex] /\ Forall (polar_valid (fun _ => f_of_Z 0) (fun _ => true)) [die_polar].
Proof.
  assert (RZ : forall n, (Z.abs n <= 2 ^ 53)%Z -> R64 (f_of_Z n) = IZR n) by (intros k N; apply f_of_Z_R; exact N).
  assert (FZ : forall n, (Z.abs n <= 2 ^ 53)%Z -> is_finite (f_of_Z n) = true) by (intros k N; apply f_of_Z_fin; exact N).
  split; [intros l; apply unit_draw_ok; destruct l; lia|]. split; [split; vm_compute; reflexivity|]. split.
  - assert (E1 : fmul (f_of_Z 3) (f_of_Z 2) = f_of_Z 6) by (apply same64_eq; vm_compute; reflexivity).
    assert (E2 : fmul (f_of_Z 2) (f_of_Z 3) = f_of_Z 6) by (apply same64_eq; vm_compute; reflexivity).
    rewrite E1, E2, RZ by lia. lra.
  - split; constructor; [|constructor| |constructor]; unfold die_ex, die_polar; cbn [excitation_valid polar_valid].
    + split; [apply FZ; lia|]. split; [apply FZ; lia|]. split; [vm_compute; reflexivity|]. rewrite !RZ by lia. lra.
    + split; [apply FZ; lia|]. split; [apply FZ; lia|]. lra.
Qed.
Example C100_example : forall N buf, (1 <= N)%nat -> length buf = 4%nat ->
  IZR (count (die_file N buf [fast; slow]) (words [Low; Mid; High] (2 * N * 3))) /
  IZR (count (die_file N buf [anything; anything]) (words [Low; Mid; High] (2 * N * 3))) = / 4 /\
  count (die_raises N buf 1) (words [Low; Mid; High] (N * 3)) = (9 ^ Z.of_nat N)%Z.
Proof.
  intros N buf HN Lb. destruct die_valid as (D & Pf & Pp & Ve & Vp). destruct die_counts as (C1 & C2 & C3 & C4).
  assert (Co : forall x : f64, is_finite x = true -> P_SamplingF64.within (-1) 1 (f_of_Z 0)).
  { intros x _. split; [apply f_of_Z_fin; lia|]. rewrite (f_of_Z_R 0) by lia. lra. }
  split.
  - pose proof (C100_conditional die_unit (fun _ => f_of_Z 0) (fun _ _ _ => f_of_Z 0) (fun _ => f_of_Z 0) (fun _ => f_of_Z 1) (fun _ => f_of_Z 1)
      (f_of_Z 3) (fun _ => true) D Co Pf Pp (fun x => fmul x x) (boost_v (fun x => fmul x x)) (rest_v (fun x => fmul x x)) (mass_v (fun x => fmul x x))
      rx_r [] (f_of_Z 100) None die_ex [] die_polar [] I eq_refl eq_refl Ve Vp [Low; Mid; High] [1; 6; 1; 6]%Z [2; 12; 1; 13]%Z 50 ltac:(lia)
      N buf die_buffer [fast; slow] (2 * N) ltac:(cbn [length]; lia) HN Lb eq_refl) as H.
    change (sample_letters None [die_ex] [die_polar] (length (@nil decay_masses))) with 3%nat in H.
    unfold die_file, die_sample in *. cbv zeta in *. cbn [length some_of map fold_right] in *.
    rewrite C1 in H. specialize (H ltac:(lia)). rewrite H, C2, C3. lra.
  - pose proof (C100_limit die_unit (fun _ => f_of_Z 0) (fun _ _ _ => f_of_Z 0) (fun _ => f_of_Z 0) (fun _ => f_of_Z 1) (fun _ => f_of_Z 1)
      (f_of_Z 3) (fun _ => true) D Co Pf Pp (fun x => fmul x x) (boost_v (fun x => fmul x x)) (rest_v (fun x => fmul x x)) (mass_v (fun x => fmul x x))
      rx_r [] (f_of_Z 100) None die_ex [] die_polar [] I eq_refl eq_refl Ve Vp [Low; Mid; High] [1; 6; 1; 6]%Z [2; 12; 1; 13]%Z 50 ltac:(lia)
      N buf die_buffer Lb eq_refl) as H.
    change (sample_letters None [die_ex] [die_polar] (length (@nil decay_masses))) with 3%nat in H.
    unfold die_raises, die_sample in *. cbv zeta in *. cbn [length] in *. rewrite C4 in H. exact H.
Qed.

Print Assumptions C100_shape.
Print Assumptions C100_conditional.
Print Assumptions C100_limit.
Print Assumptions C100_example.
