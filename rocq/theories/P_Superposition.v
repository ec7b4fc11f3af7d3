(** P_Superposition.v -- C81: the charge of an event is the superposition of the charges of its nuclei. *)
From Coq Require Import ZArith Lia List.
From Verif Require Import Base F64 Num Pairing BeamPads Transporter SpecTransport TransportProofs Simulator P_Simulator.
Import ListNotations.
Local Open Scope Z_scope.

(** ** Specification *)
(** Two clouds laid over each other: charges add up (int64), the later one gives the label. *)
Definition overlay (first second : option (Z * Z)) : option (Z * Z) :=
  match first, second with
  | Some (c1, _), Some (c2, l2) => Some (wrap64 (c1 + c2), l2)
  | Some x, None => Some x
  | None, y => y
  end.

(** ** Dictionaries *)
(** Every entry of the second dictionary deposited in the first. *)
Definition merge (first second : points) : points :=
  fold_left (fun acc kv => deposit acc (fst kv) (fst (snd kv)) (snd (snd kv))) second first.

Lemma wrap64_add_r a b : wrap64 (a + wrap64 b) = wrap64 (a + b).
Proof. rewrite Z.add_comm, wrap64_add_l. f_equal. lia. Qed.

Lemma dset_dset (d : points) k v w : pset (pset d k v) k w = pset d k w.
Proof.
  unfold pset. induction d as [|[k' v'] d IH]; cbn [dset]; [now rewrite Z.eqb_refl|].
  destruct (Z.eqb_spec k k') as [->|N]; cbn [dset]; [now rewrite Z.eqb_refl|].
  destruct (Z.eqb_spec k k'); [contradiction|]. now rewrite IH.
Qed.
Lemma dset_swap (d : points) a k v w : a <> k -> In k (map fst d) -> pset (pset d a v) k w = pset (pset d k w) a v.
Proof.
  intros N. unfold pset. induction d as [|[k' v'] d IH]; intros I; [destruct I|]. cbn [dset map fst In] in *.
  destruct (Z.eqb_spec a k') as [->|Na]; destruct (Z.eqb_spec k k') as [->|Nk]; cbn [dset]; try contradiction.
  - rewrite Z.eqb_refl. destruct (Z.eqb_spec k k'); [contradiction|]. reflexivity.
  - rewrite Z.eqb_refl. destruct (Z.eqb_spec a k'); [contradiction|]. reflexivity.
  - destruct (Z.eqb_spec a k'); [contradiction|]. destruct (Z.eqb_spec k k'); [contradiction|].
    rewrite IH; [reflexivity|]. destruct I as [E|I]; [congruence|exact I].
Qed.
Lemma deposit_eq pts k e lab : deposit pts k e lab = pset pts k (wrap64 (charge_at pts k + e), lab).
Proof. reflexivity. Qed.
Lemma deposit_twice pts k a b la lb : deposit (deposit pts k a la) k b lb = deposit pts k (wrap64 (a + b)) lb.
Proof.
  rewrite (deposit_eq (deposit pts k a la)), charge_at_deposit, Z.eqb_refl, deposit_eq, dset_dset, deposit_eq.
  f_equal. f_equal. rewrite wrap64_add_l, wrap64_add_r. f_equal. lia.
Qed.
Lemma deposit_swap pts a k ca la e lab : a <> k -> In k (map fst pts) ->
  deposit (deposit pts a ca la) k e lab = deposit (deposit pts k e lab) a ca la.
Proof.
  intros N I. rewrite (deposit_eq (deposit pts a ca la)), (deposit_eq (deposit pts k e lab)), !charge_at_deposit.
  destruct (Z.eqb_spec k a); [congruence|]. destruct (Z.eqb_spec a k); [congruence|].
  rewrite !deposit_eq. now apply dset_swap.
Qed.
Lemma in_keys_deposit pts k e lab k0 : In k0 (map fst (deposit pts k e lab)) <-> k0 = k \/ In k0 (map fst pts).
Proof. apply (in_keys_dset Z.eqb Zeqb_spec). Qed.

Lemma merge_swap b : forall x k e lab, ~ In k (map fst b) -> In k (map fst x) ->
  deposit (merge x b) k e lab = merge (deposit x k e lab) b.
Proof.
  induction b as [|[k0 [c0 l0]] b IH]; intros x k e lab N I; cbn [merge fold_left fst snd map In] in *; [reflexivity|].
  change (fold_left _ b ?y) with (merge y b). rewrite IH; [|tauto|apply in_keys_deposit; now right].
  f_equal. apply deposit_swap; [|exact I]. intros ->. apply N. now left.
Qed.

(** Depositing in a merged dictionary is depositing in its second part. *)
Lemma deposit_merge b : forall x k e lab, NoDup (map fst b) ->
  deposit (merge x b) k e lab = merge x (deposit b k e lab).
Proof.
  induction b as [|[k0 [c0 l0]] b IH]; intros x k e lab N.
  - cbn. rewrite !deposit_eq. do 2 f_equal. now rewrite wrap64_add_r.
  - cbn [map fst] in N. inversion N as [|? ? N1 N2]; subst.
    change (merge x ((k0, (c0, l0)) :: b)) with (merge (deposit x k0 c0 l0) b).
    rewrite (deposit_eq ((k0, (c0, l0)) :: b)). unfold charge_at, pset, pget. cbn [dset dget].
    destruct (Z.eqb_spec k k0) as [->|Nk].
    + cbn [fst snd]. rewrite merge_swap; [|exact N1|apply in_keys_deposit; now left]. rewrite deposit_twice. reflexivity.
    + rewrite IH by exact N2. reflexivity.
Qed.
Lemma post_all_merge label ds : forall x b, NoDup (map fst b) -> post_all label ds (merge x b) = merge x (post_all label ds b).
Proof.
  induction ds as [|d ds IH]; intros x b N; [reflexivity|].
  change (post_all label (d :: ds) ?y) with (post_all label ds (post label y d)). unfold post at 1 2.
  rewrite deposit_merge by exact N. apply IH. apply (nodup_dset Z.eqb Zeqb_spec). exact N.
Qed.

(** Charges of a dictionary are int64 numbers. *)
Definition int64 (b : points) : Prop := Forall (fun kv => wrap64 (fst (snd kv)) = fst (snd kv)) b.
Lemma int64_deposit b k e lab : int64 b -> int64 (deposit b k e lab).
Proof.
  rewrite deposit_eq. set (v := (wrap64 _, lab)). assert (V : wrap64 (fst v) = fst v) by apply wrap64_idem.
  clearbody v. unfold int64, pset. induction 1 as [|[k' v'] b H F IH]; cbn [dset]; [constructor; [exact V|constructor]|].
  destruct (Z.eqb_spec k k') as [->|]; constructor; assumption.
Qed.
Lemma int64_post_all label ds : forall b, int64 b -> int64 (post_all label ds b).
Proof. induction ds as [|d ds IH]; intros b H; [exact H|]. apply (IH (post label b d)). now apply int64_deposit. Qed.

Lemma pget_none (b : points) k : ~ In k (map fst b) -> pget b k = None.
Proof.
  intros N. unfold pget. induction b as [|[k1 v1] b IH]; [reflexivity|]. cbn [dget map fst In] in *.
  destruct (Z.eqb_spec k k1) as [->|]; [exfalso; apply N; now left|]. apply IH. tauto.
Qed.
Lemma pget_merge b : forall x k, NoDup (map fst b) -> int64 b -> pget (merge x b) k = overlay (pget x k) (pget b k).
Proof.
  induction b as [|[k0 [c0 l0]] b IH]; intros x k N I; [change (pget [] k) with (@None (Z * Z)); change (merge x []) with x; destruct (pget x k) as [[? ?]|]; reflexivity|].
  cbn [map fst] in N. inversion N as [|? ? N1 N2]; subst. inversion I as [|? ? I1 I2]; subst. cbn [fst snd] in I1.
  change (merge x ((k0, (c0, l0)) :: b)) with (merge (deposit x k0 c0 l0) b). rewrite IH by assumption.
  rewrite pget_deposit. change (pget ((k0, (c0, l0)) :: b) k) with (if k =? k0 then Some (c0, l0) else pget b k).
  destruct (Z.eqb_spec k k0) as [->|Nk]; [|reflexivity].
  rewrite (pget_none b k0 N1). unfold overlay, charge_at. destruct (pget x k0) as [[c ?]|]; [reflexivity|].
  cbn [Z.add]. now rewrite I1.
Qed.
Lemma int64_merge b : forall x, int64 x -> int64 (merge x b).
Proof. induction b as [|kv b IH]; intros x H; [exact H|]. apply (IH (deposit x _ _ _)). now apply int64_deposit. Qed.
Lemma nodup_merge b : forall x, NoDup (map fst x) -> NoDup (map fst (merge x b)).
Proof. induction b as [|kv b IH]; intros x H; [exact H|]. apply (IH (deposit x _ _ _)). now apply (nodup_dset Z.eqb Zeqb_spec). Qed.

Section C81.
  Context (fexp : f64 -> f64) {G Nuc Mom Vtx Vel : Type}.
  Context (get_data : Z -> Z -> res Nuc)
    (generate_trajectory : Vtx -> Mom -> Nuc -> config fexp -> res (list (@traj Vel)))
    (generate_electrons : list (@traj Vel) -> Nuc -> config fexp -> G -> list Z * G)
    (uniform : nat -> G -> list f64 * G).
  Context (momenta : list Mom) (vertex : Vtx) (zs ms : list Z) (c : config fexp).

  (** The loop of [simulate] over nuclei. *)
  Notation event := (foldM (simulate_nucleus fexp get_data generate_trajectory generate_electrons momenta vertex zs ms c)).
  (** Nuclei simulated one at a time, each from an empty dictionary; the generator is handed on. *)
  Inductive alone : list Z -> G -> list points -> G -> Prop :=
  | alone_nil g : alone [] g [] g
  | alone_cons i l g cloud g1 clouds g2 :
      event [i] ([], g) = Ok (cloud, g1) -> alone l g1 clouds g2 -> alone (i :: l) g (cloud :: clouds) g2.

  Notation step := (simulate_nucleus fexp get_data generate_trajectory generate_electrons momenta vertex zs ms c).

  Lemma step_shape i g : (forall pts, exists x, step (pts, g) i = Err x) \/
    (exists ds g1, forall pts, step (pts, g) i = Ok (post_all i ds pts, g1)).
  Proof using.
    unfold simulate_nucleus. destruct (py_index zs i) as [z|x]; cbn [bind]; [|left; now exists x].
    destruct (z =? 0); [right; now exists [], g|].
    destruct (py_index ms i) as [a|x]; cbn [bind]; [|left; now exists x].
    destruct (get_data z a) as [n|x]; cbn [bind]; [|left; now exists x].
    destruct (py_index momenta i) as [m|x]; cbn [bind]; [|left; now exists x].
    unfold generate_point_cloud. destruct (generate_trajectory vertex m n c) as [tr|x]; cbn [bind]; [|left; now exists x].
    destruct (generate_electrons tr n c g) as [el g1].
    destruct (negb _); [left; now exists IndexError|].
    destruct (c_edges fexp c) as [ge|]; [|left; now exists ValueError].
    destruct (c_grid fexp c) as [gr|]; [|left; now exists ValueError].
    set (rows := map _ _). set (els := map _ _).
    destruct (transport_track gr ge (c_diffusion fexp c) (c_efield fexp c) (c_drift fexp c) rows els [] i) as [p0|x] eqn:E.
    - apply transport_track_iff in E. destruct E as (ds & L & _). right. exists ds, g1. intros pts.
      assert (E : transport_track gr ge (c_diffusion fexp c) (c_efield fexp c) (c_drift fexp c) rows els pts i = Ok (post_all i ds pts)).
      { apply transport_track_iff. exists ds. split; [exact L|reflexivity]. }
      rewrite E. reflexivity.
    - left. intros pts.
      destruct (transport_track gr ge (c_diffusion fexp c) (c_efield fexp c) (c_drift fexp c) rows els pts i) as [p1|y] eqn:E1; [|now exists y].
      exfalso. apply transport_track_iff in E1. destruct E1 as (ds & L & _).
      assert (E0 : transport_track gr ge (c_diffusion fexp c) (c_efield fexp c) (c_drift fexp c) rows els [] i = Ok (post_all i ds [])).
      { apply transport_track_iff. exists ds. split; [exact L|reflexivity]. }
      rewrite E0 in E. discriminate E.
  Qed.

  (** What one step adds to a dictionary is what it leaves in an empty one. *)
  Lemma step_merge i g pts pts' g1 : step (pts, g) i = Ok (pts', g1) <->
    exists cloud, step ([], g) i = Ok (cloud, g1) /\ pts' = merge pts cloud /\ NoDup (map fst cloud) /\ int64 cloud.
  Proof using.
    destruct (step_shape i g) as [H|(ds & g2 & H)].
    - split.
      + intros E. destruct (H pts) as [x Q]. congruence.
      + intros (cloud & E & _). destruct (H []) as [x Q]. discriminate (eq_trans (eq_sym E) Q).
    - rewrite !H. assert (M : post_all i ds pts = merge pts (post_all i ds [])).
      { change pts with (merge pts []) at 1. apply post_all_merge. constructor. }
      split.
      + intros E. exists (post_all i ds []). split; [congruence|]. split; [congruence|].
        split; [apply post_all_nodup; constructor|apply int64_post_all; constructor].
      + intros (cloud & E & -> & _). congruence.
  Qed.

  Lemma event_one i (g : G) (cloud : points) g1 : event [i] ([], g) = Ok (cloud, g1) <-> step ([], g) i = Ok (cloud, g1).
  Proof using. cbn [foldM]. destruct (step ([], g) i) as [[p h]|x]; cbn [bind]; reflexivity. Qed.

  Lemma event_merge l : forall g pts pts' g', event l (pts, g) = Ok (pts', g') <->
    exists clouds, alone l g clouds g' /\ pts' = fold_left merge clouds pts.
  Proof using.
    induction l as [|i l IH]; intros g pts pts' g'; cbn [foldM].
    - split.
      + intros E. exists []. assert (pts = pts') by congruence. assert (g = g') by congruence. subst. split; [constructor|reflexivity].
      + intros (clouds & A & ->). inversion A; subst. reflexivity.
    - split.
      + intros E. destruct (step (pts, g) i) as [[p1 g1]|x] eqn:E1; cbn [bind] in E; [|discriminate E].
        apply step_merge in E1. destruct E1 as (cloud & Ec & -> & _).
        apply IH in E. destruct E as (clouds & A & ->). exists (cloud :: clouds). split; [|reflexivity].
        econstructor; [exact (proj2 (event_one i g cloud g1) Ec)|exact A].
      + intros (clouds & A & ->). inversion A as [|? ? ? cloud g1 clouds' ? Ec A']; subst.
        apply event_one in Ec. pose proof Ec as E0. apply step_merge in E0. destruct E0 as (cloud' & Ec' & _ & N & I64).
        assert (cloud' = cloud) by congruence. subst cloud'.
        assert (E1 : step (pts, g) i = Ok (merge pts cloud, g1)) by (apply step_merge; exists cloud; auto).
        rewrite E1. cbn [bind]. apply IH. exists clouds'. split; [exact A'|reflexivity].
  Qed.
  Lemma alone_good l g clouds g' : alone l g clouds g' -> Forall (fun cl => NoDup (map fst cl) /\ int64 cl) clouds.
  Proof using.
    induction 1 as [|i l g cloud g1 clouds g2 E A IH]; constructor; [|exact IH].
    apply event_one, step_merge in E. destruct E as (cl & E & -> & N & I). cbn. 
    split; [apply nodup_merge; constructor|apply int64_merge; constructor].
  Qed.

  (** An event is simulated exactly when its nuclei can be simulated one at a time, and then its
      dictionary holds their clouds laid over each other. *)
  Theorem C81_superposition : forall l g pts g', event l ([], g) = Ok (pts, g') ->
    exists clouds, alone l g clouds g' /\ forall k, pget pts k = fold_left overlay (map (fun cl => pget cl k) clouds) None.
  Proof using.
    intros l g pts g' E. apply event_merge in E. destruct E as (clouds & A & ->). exists clouds. split; [exact A|].
    pose proof (alone_good _ _ _ _ A) as F. clear A. intros k.
    assert (H : forall x, pget (fold_left merge clouds x) k = fold_left overlay (map (fun cl => pget cl k) clouds) (pget x k)).
    { induction F as [|cl clouds [N I] F IH]; intros x; [reflexivity|]. cbn [fold_left map]. rewrite IH, pget_merge by assumption. reflexivity. }
    apply H.
  Qed.
  Theorem C81_simulated_iff : forall l g, (exists pts g', event l ([], g) = Ok (pts, g')) <-> (exists clouds g', alone l g clouds g').
  Proof using.
    intros l g. split.
    - intros (pts & g' & E). apply event_merge in E. destruct E as (clouds & A & _). eauto.
    - intros (clouds & g' & A). exists (fold_left merge clouds []), g'. apply event_merge. eauto.
  Qed.

  Lemma overlay_charge l : forall x,
    match fold_left overlay l x with Some (q, _) => q | None => 0 end mod two64 =
    (match x with Some (q, _) => q | None => 0 end + sumZ (map (fun o : option (Z * Z) => match o with Some (q, _) => q | None => 0 end) l)) mod two64.
  Proof using.
    induction l as [|o l IH]; intros x; unfold sumZ in *; cbn [fold_left map fold_right]; [now rewrite Z.add_0_r|].
    rewrite IH. destruct x as [[q ?]|]; destruct o as [[r ?]|]; cbn [overlay]; try (f_equal; lia).
    rewrite Z.add_assoc, <- (Z.add_mod_idemp_l (q + r)) by (unfold two64; lia). rewrite <- (Z.add_mod_idemp_l (wrap64 _)) by (unfold two64; lia).
    f_equal. f_equal. unfold wrap64. rewrite Zminus_mod, Z.mod_mod, <- Zminus_mod by (unfold two64; lia). f_equal. lia.
  Qed.

  (** The charge of a cell is the sum over the nuclei, up to a multiple of 2^64; equal to it when the sum is an int64 number. *)
  Theorem C81_charge : forall l g pts g', event l ([], g) = Ok (pts, g') ->
    exists clouds, alone l g clouds g' /\ forall k,
      charge_at pts k = wrap64 (sumZ (map (fun cl => charge_at cl k) clouds)) /\
      (- two63 <= sumZ (map (fun cl => charge_at cl k) clouds) < two63 -> charge_at pts k = sumZ (map (fun cl => charge_at cl k) clouds)).
  Proof using.
    intros l g pts g' E. pose proof E as E0. apply event_merge in E0. destruct E0 as (clouds0 & _ & M).
    destruct (C81_superposition _ _ _ _ E) as (clouds & A & H). exists clouds. split; [exact A|]. intros k.
    assert (W : charge_at pts k = wrap64 (sumZ (map (fun cl => charge_at cl k) clouds))).
    { pose proof (overlay_charge (map (fun cl => pget cl k) clouds) None) as O. rewrite <- H in O.
      rewrite map_map in O. change (match pget pts k with Some (q, _) => q | None => 0 end) with (charge_at pts k) in O. cbn [Z.add] in O.
      assert (I64 : wrap64 (charge_at pts k) = charge_at pts k).
      { assert (I : int64 pts).
        { rewrite M. assert (Q : forall x, int64 x -> int64 (fold_left merge clouds0 x)).
          { clear. induction clouds0 as [|cl cls IH]; intros x Hx; [exact Hx|]. cbn [fold_left]. apply IH. now apply int64_merge. }
          apply Q. constructor. }
        clear - I. unfold charge_at, pget. induction I as [|[k0 [q0 l0]] b H F IH]; [reflexivity|]. cbn [dget].
        destruct (k =? k0); [exact H|exact IH]. }
      rewrite <- I64. unfold wrap64. f_equal. rewrite <- (Z.add_mod_idemp_l (charge_at pts k)) by (unfold two64; lia).
      rewrite O, Z.add_mod_idemp_l by (unfold two64; lia). reflexivity. }
    split; [exact W|]. intros B. rewrite W. now apply wrap64_id.
  Qed.

  (** The returned cloud comes from this dictionary: one point per entry, smeared in time, those outside
      the window left out. *)
  Theorem C81_cloud : forall l g cloud labels g2,
    simulate fexp get_data generate_trajectory generate_electrons uniform momenta vertex zs ms c g l = Ok ((cloud, labels), g2) ->
    exists clouds g1 keys us,
      alone l g clouds g1 /\ NoDup keys /\ uniform (length keys) g1 = (us, g2) /\
      (forall k, In k keys <-> Exists (fun cl => pget cl k <> None) clouds) /\
      let entries := map (fun k => (k, match fold_left overlay (map (fun cl => pget cl k) clouds) None with Some v => v | None => (0, 0) end)) keys in
      let smeared := wiggle (fst (dict_to_points entries)) us in
      cloud = select (map in_window smeared) smeared /\ labels = select (map in_window smeared) (snd (dict_to_points entries)).
  Proof using.
    intros l g cloud labels g2 E. unfold simulate in E.
    destruct (event l ([], g)) as [[pts g1]|x] eqn:Ev; cbn [bind] in E; [|discriminate E].
    assert (Nd : NoDup (map fst pts)).
    { apply event_merge in Ev. destruct Ev as (cls & _ & ->).
      assert (Q : forall x, NoDup (map fst x) -> NoDup (map fst (fold_left merge cls x))).
      { clear. induction cls as [|cl cls IH]; intros x Hx; [exact Hx|]. cbn [fold_left]. apply IH. now apply nodup_merge. }
      apply Q. constructor. }
    destruct (C81_superposition _ _ _ _ Ev) as (clouds & A & H).
    destruct (dict_to_points pts) as [pa la] eqn:Ep.
    assert (Lp : length pa = length (map fst pts)) by (replace pa with (fst (dict_to_points pts)) by (rewrite Ep; reflexivity); unfold dict_to_points; cbn [fst]; now rewrite !map_length).
    destruct (uniform (length pa) g1) as [us g3] eqn:Eu.
    exists clouds, g1, (map fst pts), us. split; [exact A|]. split; [exact Nd|].
    split; [rewrite <- Lp, Eu; f_equal; congruence|].
    assert (In_get : forall k, In k (map fst pts) <-> pget pts k <> None).
    { intros k. split.
      - intros I Q. clear - I Q. unfold pget in Q. induction pts as [|[k0 v0] pts IH]; [exact I|]. cbn [dget map fst In] in *.
        destruct (Z.eqb_spec k k0) as [->|N]; [discriminate Q|]. destruct I as [I|I]; [congruence|now apply IH].
      - intros Q. destruct (in_dec Z.eq_dec k (map fst pts)) as [I|I]; [exact I|]. exfalso. apply Q, pget_none, I. }
    split.
    { intros k. rewrite In_get, H. clear. assert (Q : forall x, fold_left overlay (map (fun cl => pget cl k) clouds) x <> None <->
        (x <> None \/ Exists (fun cl => pget cl k <> None) clouds)).
      { induction clouds as [|cl clouds IH]; intros x; cbn [map fold_left].
        - rewrite Exists_nil. tauto.
        - rewrite IH, Exists_cons. destruct x as [[? ?]|]; destruct (pget cl k) as [[? ?]|]; cbn [overlay].
          all: split; intros HH; try tauto. all: left; discriminate. }
      rewrite Q. split; [intros [HH|HH]; [congruence|exact HH]|now right]. }
    assert (Een : map (fun k => (k, match fold_left overlay (map (fun cl => pget cl k) clouds) None with Some v => v | None => (0, 0) end)) (map fst pts) = pts).
    { transitivity (map (fun kv => kv) pts); [|apply map_id]. rewrite map_map. apply map_ext_in. intros [k v] I. cbn [fst].
      rewrite <- H. f_equal. clear - I Nd. unfold pget. induction pts as [|[k0 v0] pts IH]; [destruct I|].
      cbn [dget map fst] in *. inversion Nd as [|? ? N1 N2]; subst. destruct I as [I|I].
      - assert (k0 = k) by congruence. assert (v0 = v) by congruence. subst. now rewrite Z.eqb_refl.
      - destruct (Z.eqb_spec k k0) as [->|]; [|now apply IH]. exfalso. apply N1. apply in_map_iff. now exists (k0, v). }
    cbv zeta. rewrite Een, Ep. cbn [fst snd]. split; congruence.
  Qed.
End C81.

(** Two helium nuclei on the same pad: 2040 electrons in two buckets (and 70 more) by the first, 2030 by the second. *)
Example C81_example fexp :
  let run := foldM (simulate_nucleus fexp (fun z a => Ok (100 * z + a)) (ex_traj fexp) (ex_electrons fexp) [0; 0; 0; 0] tt [1; 2; 2; 0] [1; 3; 4; 1]
                     (ex_config fexp (f_of_Z 1) (f_of_ZE 1 (-9)))) in
  exists k k', k <> k' /\
    run [2; 1] ([], 0) = Ok ([(k, (4070, 1)); (k', (140, 1))], 2) /\
    run [2] ([], 0) = Ok ([(k, (2040, 2)); (k', (70, 2))], 1) /\
    run [1] ([], 1) = Ok ([(k, (2030, 1)); (k', (70, 1))], 2) /\
    fold_left overlay (map (fun cl => pget cl k) [[(k, (2040, 2)); (k', (70, 2))]; [(k, (2030, 1)); (k', (70, 1))]]) None = Some (4070, 1).
Proof.
  exists 90256, 1049900. split; [discriminate|]. split; [vm_compute; reflexivity|]. split; [vm_compute; reflexivity|].
  split; [vm_compute; reflexivity|vm_compute; reflexivity].
Qed.

Print Assumptions C81_superposition.
Print Assumptions C81_simulated_iff.
Print Assumptions C81_charge.
Print Assumptions C81_cloud.
