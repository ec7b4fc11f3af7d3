(** P_KinFile.v -- C49, C50, C51: the kinematics file. *)
From Coq Require Import ZArith String Lia FinFun.
From Verif Require Import Base Simulator KinFile SpecRun P_RunSim SpecKinFile.
Local Open Scope string_scope.
Local Open Scope Z_scope.
Local Open Scope list_scope.

(** ** Dictionaries whose keys are distinct images. *)
Section Dict.
  Context {I A : Type} (name : I -> string) (inj : forall i j, name i = name j -> i = j).

  Lemma dget_map_in (f : I -> A) l i : In i l -> dget String.eqb (map (fun j => (name j, f j)) l) (name i) = Some (f i).
  Proof using inj.
    induction l as [|j l IH]; [easy|]. intros [->|H]; cbn [map dget]; [now rewrite String.eqb_refl|].
    destruct (String.eqb_spec (name i) (name j)) as [E|_]; [now apply inj in E; subst|auto].
  Qed.
  Lemma dget_map_notin (f : I -> A) l i : ~ In i l -> dget String.eqb (map (fun j => (name j, f j)) l) (name i) = None.
  Proof using inj.
    induction l as [|j l IH]; [easy|]. intros H; cbn [map dget].
    destruct (String.eqb_spec (name i) (name j)) as [E|_]; [apply inj in E; subst; elim H; now left|].
    apply IH. intros H'. apply H. now right.
  Qed.
  Lemma dset_map (f g : I -> A) l i v : NoDup l -> In i l -> g i = v -> (forall j, In j l -> j <> i -> g j = f j) ->
    dset String.eqb (map (fun j => (name j, f j)) l) (name i) v = map (fun j => (name j, g j)) l.
  Proof using inj.
    induction l as [|j l IH]; [easy|]. intros N H Gi Go. inversion N as [|? ? N1 N2]; subst. cbn [map dset].
    destruct (String.eqb_spec (name i) (name j)) as [E|E].
    - apply inj in E. subst j. f_equal. apply map_ext_in. intros j Hj. f_equal. symmetry. apply Go; [now right|].
      intros ->. contradiction.
    - destruct H as [->|H]; [easy|]. f_equal.
      + f_equal. symmetry. apply Go; [now left|]. intros ->. easy.
      + apply IH; auto. intros j' Hj'. apply Go. now right.
  Qed.
End Dict.

Lemma append_inj_l p a b : append p a = append p b -> a = b.
Proof. induction p as [|c p IH]; cbn; [auto|]. intros [= H]. auto. Qed.
Lemma chunk_name_inj a b : chunk_name a = chunk_name b -> a = b.
Proof. unfold chunk_name. intros H. apply append_inj_l in H. now apply string_of_Z_inj. Qed.
Lemma event_name_inj a b : event_name a = event_name b -> a = b.
Proof. unfold event_name. intros H. apply append_inj_l in H. now apply string_of_Z_inj. Qed.

Lemma zrange_snoc a b : a <= b -> zrange a (b + 1) = (zrange a b ++ [b])%list.
Proof.
  intros H. unfold zrange. replace (Z.to_nat (b + 1 - a)) with (S (Z.to_nat (b - a))) by lia.
  rewrite seq_S, map_app. cbn [map]. do 2 f_equal. lia.
Qed.
Lemma nodup_zrange a b : NoDup (zrange a b).
Proof. unfold zrange. apply Injective_map_NoDup; [intros x y H; lia|apply seq_NoDup]. Qed.
Lemma zrange_length a b : length (zrange a b) = Z.to_nat (b - a).
Proof. unfold zrange. now rewrite map_length, seq_length. Qed.


Lemma combine_snoc {A B} (l : list A) (m : list B) a b : length l = length m ->
  combine (l ++ [a]) (m ++ [b]) = (combine l m ++ [(a, b)])%list.
Proof.
  revert m. induction l as [|x l IH]; intros [|y m] H; try discriminate; [reflexivity|].
  cbn [app combine]. f_equal. apply IH. now injection H.
Qed.

Section File.
  Context {V : Type}.
  Notation event := (@vertex V * list (mom4 V))%type.

  Lemma indexed_snoc (evs : list event) ev : indexed (evs ++ [ev]) = (indexed evs ++ [(Z.of_nat (length evs), ev)])%list.
  Proof.
    unfold indexed. rewrite app_length, Nat2Z.inj_add. cbn [length]. change (Z.of_nat 1) with 1.
    rewrite zrange_snoc by lia. apply combine_snoc. rewrite zrange_length. lia.
  Qed.
  Lemma in_indexed (evs : list event) e ev :
    In (e, ev) (indexed evs) <-> 0 <= e /\ nth_error evs (Z.to_nat e) = Some ev.
  Proof.
    induction evs as [|x evs IH] using rev_ind.
    - cbn. split; [easy|]. intros [_ H]. destruct (Z.to_nat e); discriminate.
    - rewrite indexed_snoc, in_app_iff, IH. cbn [In]. split.
      + intros [[H1 H2]|[H|[]]].
        * split; [exact H1|]. rewrite nth_error_app1; [exact H2|]. apply nth_error_Some. congruence.
        * injection H as <- <-. split; [lia|]. rewrite Nat2Z.id, nth_error_app2, Nat.sub_diag by lia. reflexivity.
      + intros [H1 H2]. destruct (Nat.lt_ge_cases (Z.to_nat e) (length evs)) as [L|L].
        * rewrite nth_error_app1 in H2 by exact L. auto.
        * right. left. rewrite nth_error_app2 in H2 by exact L.
          destruct (Z.to_nat e - length evs)%nat as [|[|n]] eqn:D; try discriminate.
          injection H2 as ->. f_equal. lia.
  Qed.
  Lemma indexed_lt (evs : list event) e ev : In (e, ev) (indexed evs) -> 0 <= e < Z.of_nat (length evs).
  Proof.
    rewrite in_indexed. intros [H1 H2]. assert (Z.to_nat e < length evs)%nat by (apply nth_error_Some; congruence). lia.
  Qed.

  Context (zs ms : list Z) (cs : Z) (Hcs : 1 <= cs).

  Lemma sets_snoc (evs : list event) ev c :
    chunk_sets cs (evs ++ [ev]) c = (chunk_sets cs evs c ++
      (if Z.of_nat (length evs) / cs =? c then [(event_name (Z.of_nat (length evs)), event_ds ev)] else []))%list.
  Proof.
    unfold chunk_sets. rewrite indexed_snoc, filter_app, map_app. f_equal. cbn [filter fst].
    now destruct (_ =? c).
  Qed.

  Lemma sets_fresh (evs : list event) c e : Z.of_nat (length evs) <= e ->
    dget String.eqb (chunk_sets cs evs c) (event_name e) = None.
  Proof.
    intros H. apply dget_none; [apply String.eqb_eq|]. unfold chunk_sets. rewrite map_map. cbn [fst]. intros I.
    apply in_map_iff in I as ([e' ev] & E & I). apply event_name_inj in E. cbn [fst] in E. subst e'.
    apply filter_In in I as [I _]. apply indexed_lt in I. lia.
  Qed.

  Lemma sets_empty (evs : list event) c : Z.of_nat (length evs) <= c * cs -> chunk_sets cs evs c = [].
  Proof using Hcs.
    intros H. unfold chunk_sets.
    assert (N : forall l, (forall x, In x l -> fst x < c * cs) -> filter (fun x : Z * event => fst x / cs =? c) l = []).
    { induction l as [|x l IH]; intros F; [reflexivity|]. cbn [filter].
      rewrite IH by (intros; apply F; now right).
      assert (fst x / cs < c) by (apply Z.div_lt_upper_bound; [lia|]; rewrite Z.mul_comm; apply F; now left).
      destruct (Z.eqb_spec (fst x / cs) c); [lia|reflexivity]. }
    rewrite N; [reflexivity|]. intros [e ev] I. apply indexed_lt in I. cbn [fst]. lia.
  Qed.

  (** The file while it is being written: [m] chunks, the last one without max_event. *)
  Definition partial (n : Z) (evs : list event) (m : Z) : data_group V :=
    mkData (header zs ms cs n)
      (map (fun c => (chunk_name c, mkGrp ([("min_event", AInt (c * cs))] ++
                                           (if c <? m - 1 then [("max_event", AInt ((c + 1) * cs - 1))] else []))
                                          (chunk_sets cs evs c)))
           (zrange 0 m)).

  Lemma partial_group n evs m c : 0 <= c < m ->
    dget String.eqb (dg_groups (partial n evs m)) (chunk_name c) =
    Some (mkGrp ([("min_event", AInt (c * cs))] ++ (if c <? m - 1 then [("max_event", AInt ((c + 1) * cs - 1))] else []))
                (chunk_sets cs evs c)).
  Proof.
    intros H. cbn [partial dg_groups].
    apply (dget_map_in chunk_name chunk_name_inj
      (fun c => mkGrp ([("min_event", AInt (c * cs))] ++ (if c <? m - 1 then [("max_event", AInt ((c + 1) * cs - 1))] else []))
                (chunk_sets cs evs c))). now apply in_zrange.
  Qed.

  (** Closing the last chunk and opening a new one. *)
  Lemma partial_close n (evs : list event) m : 1 <= m -> Z.of_nat (length evs) = m * cs ->
    (let* d2 := create_group (set_group_attr (partial n evs m) (chunk_name (m - 1)) "max_event" (AInt (m * cs - 1)))
                             (chunk_name m) in
     Ok (set_group_attr d2 (chunk_name m) "min_event" (AInt (m * cs)))) = Ok (partial n evs (m + 1)).
  Proof using Hcs.
    intros Hm Hk. unfold set_group_attr at 1. rewrite partial_group by lia.
    rewrite (proj2 (Z.ltb_ge _ _)) by lia. cbn [app gp_attrs gp_sets].
    change (store [("min_event", AInt ((m - 1) * cs))] "max_event" (AInt (m * cs - 1)))
      with [("min_event", @AInt V ((m - 1) * cs)); ("max_event", AInt (m * cs - 1))].
    set (F := fun c => mkGrp ([("min_event", @AInt V (c * cs))] ++ (if c <? m then [("max_event", AInt ((c + 1) * cs - 1))] else []))
                (chunk_sets cs evs c)).
    assert (S1 : store (dg_groups (partial n evs m)) (chunk_name (m - 1))
               (mkGrp [("min_event", @AInt V ((m - 1) * cs)); ("max_event", AInt (m * cs - 1))] (chunk_sets cs evs (m - 1)))
             = map (fun c => (chunk_name c, F c)) (zrange 0 m)).
    { unfold store. cbn [partial dg_groups].
      apply (dset_map chunk_name chunk_name_inj
        (fun c => mkGrp ([("min_event", AInt (c * cs))] ++ (if c <? m - 1 then [("max_event", AInt ((c + 1) * cs - 1))] else []))
                (chunk_sets cs evs c)) F).
      - apply nodup_zrange.
      - apply in_zrange. lia.
      - unfold F. rewrite (proj2 (Z.ltb_lt _ _)) by lia. cbn [app]. now replace (m - 1 + 1) with m by lia.
      - intros j Hj Nj. apply in_zrange in Hj. unfold F. now rewrite !(proj2 (Z.ltb_lt _ _)) by lia. }
    rewrite S1. unfold create_group. cbn [dg_groups dg_attrs]. unfold create.
    rewrite (dget_map_notin chunk_name chunk_name_inj) by (rewrite in_zrange; lia). cbn [bind].
    f_equal. unfold set_group_attr. cbn [dg_groups dg_attrs].
    set (F' := fun c => if c =? m then mkGrp [] [] else F c).
    assert (M : (map (fun c => (chunk_name c, F c)) (zrange 0 m) ++ [(chunk_name m, mkGrp [] [])]
                = map (fun c => (chunk_name c, F' c)) (zrange 0 (m + 1)))%list).
    { rewrite zrange_snoc, map_app by lia. cbn [map]. f_equal.
      - apply map_ext_in. intros c Hc. apply in_zrange in Hc. unfold F'. now rewrite (proj2 (Z.eqb_neq _ _)) by lia.
      - unfold F'. now rewrite Z.eqb_refl. }
    rewrite M. rewrite (dget_map_in chunk_name chunk_name_inj F' (zrange 0 (m + 1)) m) by (apply in_zrange; lia).
    assert (Fm : F' m = mkGrp [] []) by (unfold F'; now rewrite Z.eqb_refl).
    rewrite Fm. cbn [gp_attrs gp_sets store dset].
    unfold partial. f_equal. unfold store. apply (dset_map chunk_name chunk_name_inj F').
    - apply nodup_zrange.
    - apply in_zrange. lia.
    - rewrite (proj2 (Z.ltb_ge _ _)) by lia. cbn [app]. rewrite sets_empty by lia. reflexivity.
    - intros j Hj Nj. apply in_zrange in Hj. unfold F'. rewrite (proj2 (Z.eqb_neq _ _)) by exact Nj.
      unfold F. now replace (m + 1 - 1) with m by lia.
  Qed.

  Lemma partial_event n (evs : list event) ev m : m = Z.of_nat (length evs) / cs + 1 ->
    create_event (partial n evs m) (chunk_name (m - 1)) (Z.of_nat (length evs)) (event_ds ev)
    = Ok (partial n (evs ++ [ev]) m).
  Proof using Hcs.
    intros Hm. assert (0 <= Z.of_nat (length evs) / cs) by (apply Z.div_pos; lia).
    unfold create_event. rewrite partial_group by lia. cbn [gp_sets gp_attrs]. unfold create.
    rewrite sets_fresh by lia. cbn [bind]. f_equal. unfold partial. cbn [dg_attrs dg_groups]. f_equal.
    unfold store. apply (dset_map chunk_name chunk_name_inj (fun c => mkGrp ([("min_event", AInt (c * cs))] ++ (if c <? m - 1 then [("max_event", AInt ((c + 1) * cs - 1))] else []))
                (chunk_sets cs evs c))).
    - apply nodup_zrange.
    - apply in_zrange. lia.
    - f_equal. rewrite sets_snoc, (proj2 (Z.eqb_eq _ _)) by lia. reflexivity.
    - intros j Hj Nj. f_equal. rewrite sets_snoc, (proj2 (Z.eqb_neq _ _)) by lia. now rewrite app_nil_r.
  Qed.

  Section Produce.
    Context {P : Type} (run : P -> res event * P).

    (** Loop state when [evs] have been written. *)
    Definition last_chunk (k : Z) : Z := Z.max 0 ((k - 1) / cs).
    Definition state_of (n : Z) (evs : list event) (p : P) : kstate :=
      let k := Z.of_nat (length evs) in
      mkK (last_chunk k) (k - last_chunk k * cs) (chunk_name (last_chunk k)) (partial n evs (last_chunk k + 1)) p.

    Lemma last_chunk_spec k : 0 <= k -> 0 <= last_chunk k /\ 0 <= k - last_chunk k * cs <= cs.
    Proof using Hcs.
      intros H. unfold last_chunk. destruct (Z.eq_dec k 0) as [->|N].
      - replace ((0 - 1) / cs) with (-1); [cbn; lia|]. apply Z.div_unique with (r := cs - 1); lia.
      - pose proof (Z.div_mod (k - 1) cs ltac:(lia)). pose proof (Z.mod_pos_bound (k - 1) cs ltac:(lia)).
        assert (0 <= (k - 1) / cs) by (apply Z.div_pos; lia). rewrite Z.max_r by lia. nia.
    Qed.

    Lemma next_chunk_eq n evs p : let k := Z.of_nat (length evs) in
      next_chunk cs (state_of n evs p) k =
      Ok (mkK (k / cs) (k mod cs) (chunk_name (k / cs)) (partial n evs (k / cs + 1)) p).
    Proof using Hcs.
      intros k. destruct (last_chunk_spec k ltac:(lia)) as [L0 L1].
      unfold next_chunk, state_of. cbn [k_count k_chunk k_name k_data k_pipe]. fold k.
      set (c := last_chunk k) in *.
      destruct (Z.eqb_spec (k - c * cs) cs) as [E|E].
      - pose proof (partial_close n evs (c + 1) ltac:(lia) ltac:(fold k; lia)) as Q.
        replace (c + 1 - 1) with c in Q by lia. replace ((c + 1) * cs) with k in Q by lia.
        destruct (create_group _ _) as [d2|x]; [|discriminate]. cbn [bind] in *.
        assert (D : k / cs = c + 1) by (symmetry; apply Z.div_unique with (r := 0); lia).
        assert (Mo : k mod cs = 0) by (symmetry; apply Z.mod_unique with (q := c + 1); lia).
        rewrite D, Mo. f_equal. f_equal. congruence.
      - assert (D : k / cs = c) by (symmetry; apply Z.div_unique with (r := k - c * cs); lia).
        assert (Mo : k mod cs = k - c * cs) by (symmetry; apply Z.mod_unique with (q := c); lia).
        now rewrite D, Mo.
    Qed.

    Lemma kin_event_ok n evs p ev p' : run p = (Ok ev, p') ->
      kin_event run cs (state_of n evs p) (Z.of_nat (length evs)) = (state_of n (evs ++ [ev]) p', Ok tt).
    Proof using Hcs.
      intros R. unfold kin_event. pose proof (next_chunk_eq n evs p) as N. cbv zeta in N. rewrite N. clear N.
      cbn [k_pipe]. rewrite R. destruct ev as [[[vx vy] vz] rows]. cbn [k_data k_name k_chunk k_count k_pipe].
      set (k := Z.of_nat (length evs)). assert (0 <= k / cs) by (apply Z.div_pos; lia).
      pose proof (partial_event n evs ((vx, vy, vz), rows) (k / cs + 1) eq_refl) as Q.
      replace (k / cs + 1 - 1) with (k / cs) in Q by lia. cbn [event_ds] in Q. fold k in Q. rewrite Q. f_equal.
      unfold state_of. rewrite app_length, Nat2Z.inj_add. cbn [length]. fold k. change (Z.of_nat 1) with 1.
      assert (L : last_chunk (k + 1) = k / cs) by (unfold last_chunk; rewrite Z.add_simpl_r; lia).
      rewrite L. f_equal. rewrite Z.mod_eq by lia. lia.
    Qed.

    Lemma kin_event_err n evs p x p' : run p = (Err x, p') ->
      kin_event run cs (state_of n evs p) (Z.of_nat (length evs)) =
      (let k := Z.of_nat (length evs) in
       mkK (k / cs) (k mod cs) (chunk_name (k / cs)) (interrupted_file zs ms cs n evs) p', Err x).
    Proof using Hcs.
      intros R. unfold kin_event. pose proof (next_chunk_eq n evs p) as N. cbv zeta in N. rewrite N. clear N.
      cbn [k_pipe]. rewrite R. cbn [k_data k_name k_chunk k_count k_pipe]. cbv zeta. do 2 f_equal.
      unfold partial, interrupted_file. f_equal. now rewrite Z.add_simpl_r.
    Qed.

    (** The whole loop. *)
    Lemma kin_loop_spec n : forall m evs p, 
      (exists evs' p', produced run p evs' p' /\ length evs' = m /\
         kin_loop run cs (zrange (Z.of_nat (length evs)) (Z.of_nat (length evs + m))) (state_of n evs p)
         = (state_of n (evs ++ evs') p', Ok tt)) \/
      (exists evs' p' x p'' c k nm, produced run p evs' p' /\ (length evs' < m)%nat /\ run p' = (Err x, p'') /\
         kin_loop run cs (zrange (Z.of_nat (length evs)) (Z.of_nat (length evs + m))) (state_of n evs p)
         = (mkK c k nm (interrupted_file zs ms cs n (evs ++ evs')) p'', Err x)).
    Proof using Hcs.
      induction m as [|m IH]; intros evs p.
      - left. exists [], p. split; [constructor|]. split; [reflexivity|].
        rewrite Nat.add_0_r, app_nil_r. unfold zrange. rewrite Z.sub_diag. reflexivity.
      - assert (Zr : zrange (Z.of_nat (length evs)) (Z.of_nat (length evs + S m)) =
                 Z.of_nat (length evs) :: zrange (Z.of_nat (S (length evs))) (Z.of_nat (S (length evs) + m))).
        { unfold zrange. replace (Z.to_nat (Z.of_nat (length evs + S m) - Z.of_nat (length evs))) with (S m) by lia.
          replace (Z.to_nat (Z.of_nat (S (length evs) + m) - Z.of_nat (S (length evs)))) with m by lia.
          cbn [seq map]. f_equal; [lia|]. rewrite <- seq_shift, map_map. apply map_ext. intros i. lia. }
        rewrite Zr. cbn [kin_loop]. destruct (run p) as [[ev|x] p1] eqn:R.
        + rewrite (kin_event_ok _ _ _ _ _ R).
          specialize (IH (evs ++ [ev])%list p1). rewrite app_length in IH. cbn [length] in IH.
          replace (length evs + 1)%nat with (S (length evs)) in IH by lia.
          destruct IH as [(evs' & p' & Pr & L & K)|(evs' & p' & x & p'' & c & k & nm & Pr & L & Rx & K)].
          * left. exists (ev :: evs'), p'. split; [econstructor; eauto|]. split; [cbn; lia|].
            rewrite K, <- app_assoc. reflexivity.
          * right. exists (ev :: evs'), p', x, p'', c, k, nm. split; [econstructor; eauto|]. split; [cbn; lia|].
            split; [exact Rx|]. rewrite K, <- app_assoc. reflexivity.
        + right. rewrite (kin_event_err _ _ _ _ _ R). cbv zeta.
          exists [], p, x, p1. do 3 eexists. split; [constructor|]. split; [cbn; lia|]. split; [exact R|].
          rewrite app_nil_r. reflexivity.
    Qed.

    Lemma start_eq n p : kin_start zs ms cs n p = state_of n [] p.
    Proof using Hcs.
      unfold kin_start, state_of. destruct (last_chunk_spec 0 ltac:(lia)) as [L0 L1].
      assert (L : last_chunk 0 = 0) by nia. cbn [length]. change (Z.of_nat 0) with 0. rewrite L. reflexivity.
    Qed.

    Lemma chunks_last k : 0 <= k -> chunks cs k = last_chunk k + 1.
    Proof using Hcs.
      intros H. unfold chunks, last_chunk. replace (k + cs - 1) with (k - 1 + 1 * cs) by lia.
      rewrite Z.div_add by lia. lia.
    Qed.

    Lemma finish_eq n evs p : n = Z.of_nat (length evs) ->
      let s := state_of n evs p in
      set_data_attr (set_group_attr (k_data s) (k_name s) "max_event" (AInt (n - 1))) "n_chunks" (AInt (k_chunk s + 1))
      = finished_file zs ms cs evs.
    Proof using Hcs.
      intros En s. unfold s, state_of. cbn [k_data k_name k_chunk]. rewrite <- En.
      destruct (last_chunk_spec n ltac:(lia)) as [L0 L1]. set (c := last_chunk n) in *.
      unfold set_group_attr. rewrite partial_group by lia. rewrite (proj2 (Z.ltb_ge _ _)) by lia.
      cbn [app gp_attrs gp_sets].
      change (store [("min_event", AInt (c * cs))] "max_event" (AInt (n - 1)))
        with [("min_event", @AInt V (c * cs)); ("max_event", AInt (n - 1))].
      unfold set_data_attr, finished_file. rewrite <- En. cbn [dg_attrs dg_groups partial].
      rewrite chunks_last by lia. fold c. f_equal.
      unfold store. apply (dset_map chunk_name chunk_name_inj (fun j => mkGrp ([("min_event", AInt (j * cs))] ++ (if j <? c + 1 - 1 then [("max_event", AInt ((j + 1) * cs - 1))] else []))
                (chunk_sets cs evs j))).
      - apply nodup_zrange.
      - apply in_zrange. lia.
      - now rewrite Z.min_r by lia.
      - intros j Hj Nj. apply in_zrange in Hj. rewrite (proj2 (Z.ltb_lt _ _)) by lia.
        rewrite Z.min_l by nia. reflexivity.
    Qed.

    Lemma produced_fun p evs p1 : produced run p evs p1 -> forall evs' p2, produced run p evs' p2 ->
      length evs' = length evs -> evs' = evs /\ p2 = p1.
    Proof.
      induction 1 as [p|p ev q evs p1 R H IH]; intros evs' p2 H' L; inversion H'; subst; try discriminate; [auto|].
      match goal with R' : run p = (Ok ?a, ?b) |- _ => assert (a = ev) by congruence; assert (b = q) by congruence end.
      subst. destruct (IH _ _ ltac:(eassumption)) as [-> ->]; [cbn in L; lia|auto].
    Qed.
    Lemma produced_prefix p evs p1 : produced run p evs p1 -> forall evs' p2, produced run p evs' p2 ->
      (length evs' < length evs)%nat -> exists ev p3, run p2 = (Ok ev, p3).
    Proof.
      induction 1 as [p|p ev q evs p1 R H IH]; intros evs' p2 H' L; [cbn in L; lia|].
      inversion H'; subst; [eauto|].
      match goal with R' : run p = (Ok ?a, ?b) |- _ => assert (a = ev) by congruence; assert (b = q) by congruence end.
      subst. eapply IH; [eassumption|cbn in L; lia].
    Qed.

    Lemma run_spec n p : 0 <= n ->
      (exists evs p', produced run p evs p' /\ Z.of_nat (length evs) = n /\
         run_kinematics_pipeline run zs ms cs n p = (finished_file zs ms cs evs, Ok tt)) \/
      (exists evs p' x p'', produced run p evs p' /\ Z.of_nat (length evs) < n /\ run p' = (Err x, p'') /\
         run_kinematics_pipeline run zs ms cs n p = (interrupted_file zs ms cs n evs, Err x)).
    Proof using Hcs.
      intros Hn. unfold run_kinematics_pipeline. rewrite start_eq.
      destruct (kin_loop_spec n (Z.to_nat n) [] p) as [(evs & p' & Pr & L & K)|(evs & p' & x & p'' & c & k & nm & Pr & L & R & K)];
        cbn [length Nat.add app] in K; rewrite Z2Nat.id in K by exact Hn; change (Z.of_nat 0) with 0 in K.
      - left. exists evs, p'. split; [exact Pr|]. assert (E : Z.of_nat (length evs) = n) by lia. split; [exact E|].
        rewrite K. f_equal. now apply finish_eq.
      - right. exists evs, p', x, p''. split; [exact Pr|]. split; [lia|]. split; [exact R|]. rewrite K. reflexivity.
    Qed.

    (** ** C49: the file of a successful generation, and C51: of one that failed at some event. *)
    Theorem C49_finished n p d : 0 <= n ->
      run_kinematics_pipeline run zs ms cs n p = (d, Ok tt) <->
      exists evs p', produced run p evs p' /\ Z.of_nat (length evs) = n /\ d = finished_file zs ms cs evs.
    Proof using Hcs.
      intros Hn. destruct (run_spec n p Hn) as [(evs & p' & Pr & L & K)|(evs & p' & x & p'' & Pr & L & R & K)]; rewrite K.
      - split.
        + intros [= <-]. exists evs, p'. auto.
        + intros (evs2 & p2 & Pr2 & L2 & ->).
          destruct (produced_fun _ _ _ Pr _ _ Pr2 ltac:(lia)) as [-> _]. reflexivity.
      - split; [discriminate|]. intros (evs2 & p2 & Pr2 & L2 & _).
        destruct (produced_prefix _ _ _ Pr2 _ _ Pr ltac:(lia)) as (ev & p3 & R'). congruence.
    Qed.

    Theorem C51_interrupted n p d x : 0 <= n ->
      run_kinematics_pipeline run zs ms cs n p = (d, Err x) <->
      exists evs p' p'', produced run p evs p' /\ Z.of_nat (length evs) < n /\ run p' = (Err x, p'') /\
        d = interrupted_file zs ms cs n evs.
    Proof using Hcs.
      intros Hn. destruct (run_spec n p Hn) as [(evs & p' & Pr & L & K)|(evs & p' & y & p'' & Pr & L & R & K)]; rewrite K.
      - split; [discriminate|]. intros (evs2 & p2 & p3 & Pr2 & L2 & R2 & _).
        destruct (produced_prefix _ _ _ Pr _ _ Pr2 ltac:(lia)) as (ev & p4 & R'). congruence.
      - split.
        + intros [= <- <-]. exists evs, p', p''. auto.
        + intros (evs2 & p2 & p3 & Pr2 & L2 & R2 & ->).
          assert (length evs = length evs2).
          { destruct (Nat.lt_trichotomy (length evs) (length evs2)) as [C|[C|C]]; [|exact C|].
            - destruct (produced_prefix _ _ _ Pr2 _ _ Pr C) as (? & ? & ?). congruence.
            - destruct (produced_prefix _ _ _ Pr _ _ Pr2 C) as (? & ? & ?). congruence. }
          destruct (produced_fun _ _ _ Pr2 _ _ Pr ltac:(lia)) as [-> ->]. congruence.
    Qed.
  End Produce.

  (** ** Reading. *)
  Lemma sets_lookup (evs : list event) c e :
    dget String.eqb (chunk_sets cs evs c) (event_name e) =
    if (e / cs =? c) && (0 <=? e) then option_map event_ds (nth_error evs (Z.to_nat e)) else None.
  Proof.
    induction evs as [|x evs IH] using rev_ind.
    - cbn. destruct (_ && _); [|reflexivity]. now destruct (Z.to_nat e).
    - rewrite sets_snoc.
      assert (A : forall d1 d2 : list (string * dataset V), dget String.eqb (d1 ++ d2) (event_name e) =
        match dget String.eqb d1 (event_name e) with Some v => Some v | None => dget String.eqb d2 (event_name e) end).
      { induction d1 as [|[k v] d1 IHd]; intros d2; [reflexivity|]. cbn [app dget]. now destruct (String.eqb _ _). }
      rewrite A, IH. clear A IH. set (k := Z.of_nat (length evs)).
      destruct (Z.eqb_spec (e / cs) c) as [E|E]; cbn [andb].
      + destruct (Z.leb_spec 0 e) as [H|H].
        * destruct (Z.lt_trichotomy e k) as [C|[C|C]].
          -- rewrite nth_error_app1 by lia. destruct (nth_error evs (Z.to_nat e)) eqn:N; [reflexivity|].
             apply nth_error_None in N. lia.
          -- rewrite (proj2 (nth_error_None evs (Z.to_nat e))) by lia. cbn [option_map].
             rewrite nth_error_app2 by lia. replace (Z.to_nat e - length evs)%nat with 0%nat by lia.
             rewrite <- C, E, Z.eqb_refl. cbn [dget]. now rewrite String.eqb_refl.
          -- rewrite (proj2 (nth_error_None evs (Z.to_nat e))), (proj2 (nth_error_None (evs ++ [x]) (Z.to_nat e)))
               by (rewrite ?app_length; cbn [length]; lia). cbn [option_map].
             destruct (_ =? c); [|reflexivity]. cbn [dget].
             destruct (String.eqb_spec (event_name e) (event_name k)) as [Q|_]; [apply event_name_inj in Q; lia|reflexivity].
        * destruct (_ =? c); [|reflexivity]. cbn [dget].
          destruct (String.eqb_spec (event_name e) (event_name k)) as [Q|_]; [apply event_name_inj in Q; lia|reflexivity].
      + destruct (Z.eqb_spec (k / cs) c) as [E'|_]; [|reflexivity]. cbn [dget].
        destruct (String.eqb_spec (event_name e) (event_name k)) as [Q|_]; [apply event_name_inj in Q; congruence|reflexivity].
  Qed.

  (** Reading from any file whose chunks hold the events of their range. *)
  Lemma read_event_spec (evs : list event) (at_ : Z -> attrs) ha m e : 0 <= e ->
    read_event (mkData ha (map (fun c => (chunk_name c, mkGrp (at_ c) (chunk_sets cs evs c))) (zrange 0 m))) cs e =
    match nth_error evs (Z.to_nat e) with
    | Some (v, rows) => if e / cs <? m then Ok (rows, v) else Err KeyError
    | None => Err KeyError
    end.
  Proof using Hcs.
    intros He. assert (0 <= e / cs) by (apply Z.div_pos; lia).
    unfold read_event. cbn [dg_groups]. unfold lookup at 1.
    destruct (Z.ltb_spec (e / cs) m) as [L|L].
    - rewrite (dget_map_in chunk_name chunk_name_inj (fun c => mkGrp (at_ c) (chunk_sets cs evs c))) by (apply in_zrange; lia).
      cbn [bind gp_sets]. unfold lookup at 1. rewrite sets_lookup, Z.eqb_refl, (proj2 (Z.leb_le _ _)) by exact He.
      cbn [andb]. destruct (nth_error evs (Z.to_nat e)) as [[[[vx vy] vz] rows]|]; reflexivity.
    - rewrite (dget_map_notin chunk_name chunk_name_inj) by (rewrite in_zrange; lia). cbn [bind].
      now destruct (nth_error evs (Z.to_nat e)) as [[v rows]|].
  Qed.

  Lemma chunks_bound n e : 0 <= e < n -> e / cs < chunks cs n.
  Proof using Hcs.
    intros H. rewrite chunks_last by lia. unfold last_chunk.
    pose proof (Z.div_le_mono e (n - 1) cs ltac:(lia) ltac:(lia)). lia.
  Qed.

  (** Event e is in chunk e // chunk_size, with its vertex; nothing else is in the file. *)
  Theorem C49_location (evs : list event) c name ds :
    let d := finished_file zs ms cs evs in
    (exists g, dget String.eqb (dg_groups d) (chunk_name c) = Some g /\ dget String.eqb (gp_sets g) name = Some ds)
    <->
    exists e ev, 0 <= e /\ nth_error evs (Z.to_nat e) = Some ev /\
      c = e / cs /\ name = event_name e /\ ds = event_ds ev.
  Proof using Hcs.
    intros d. set (n := Z.of_nat (length evs)).
    assert (G : forall c, dget String.eqb (dg_groups d) (chunk_name c) =
       if (0 <=? c) && (c <? chunks cs n) then
         Some (mkGrp [("min_event", AInt (c * cs)); ("max_event", AInt (Z.min ((c + 1) * cs) n - 1))] (chunk_sets cs evs c))
       else None).
    { intros c'. unfold d, finished_file. cbn [dg_groups]. fold n.
      destruct (Z.leb_spec 0 c') as [A|A]; [destruct (Z.ltb_spec c' (chunks cs n)) as [B|B]|]; cbn [andb].
      - apply (dget_map_in chunk_name chunk_name_inj
          (fun c => mkGrp [("min_event", AInt (c * cs)); ("max_event", AInt (Z.min ((c + 1) * cs) n - 1))] (chunk_sets cs evs c))).
        apply in_zrange. lia.
      - apply (dget_map_notin chunk_name chunk_name_inj). rewrite in_zrange. lia.
      - apply (dget_map_notin chunk_name chunk_name_inj). rewrite in_zrange. lia. }
    rewrite G. split.
    - intros (g & E & S). destruct ((0 <=? c) && (c <? chunks cs n)); [|discriminate].
      injection E as <-. cbn [gp_sets] in S. apply dget_in in S; [|apply String.eqb_eq].
      unfold chunk_sets in S. apply in_map_iff in S as ([e ev] & Q & I). apply filter_In in I as [I F].
      apply Z.eqb_eq in F. cbn [fst snd] in *. injection Q as <- <-.
      apply in_indexed in I as [I1 I2]. exists e, ev. now repeat split.
    - intros (e & ev & He & N & -> & -> & ->).
      assert (e < n) by (assert (Z.to_nat e < length evs)%nat by (apply nth_error_Some; congruence); lia).
      assert (0 <= e / cs) by (apply Z.div_pos; lia). pose proof (chunks_bound n e ltac:(lia)).
      rewrite (proj2 (Z.leb_le _ _)), (proj2 (Z.ltb_lt _ _)) by lia. cbn [andb]. eexists. split; [reflexivity|].
      cbn [gp_sets]. rewrite sets_lookup, Z.eqb_refl, (proj2 (Z.leb_le _ _)), N by lia. reflexivity.
  Qed.

  (** The announced chunk ranges tile 0 .. n-1, and n_chunks is the number of chunk groups. *)
  Theorem C49_ranges (evs : list event) :
    let d := finished_file zs ms cs evs in let n := Z.of_nat (length evs) in
    get_int (dg_attrs d) "n_chunks" = Ok (chunks cs n) /\ get_int (dg_attrs d) "n_events" = Ok n /\
    map fst (dg_groups d) = map chunk_name (zrange 0 (chunks cs n)) /\
    (forall e, 0 <= e < n -> forall c g, dget String.eqb (dg_groups d) (chunk_name c) = Some g ->
       exists lo hi, get_int (gp_attrs g) "min_event" = Ok lo /\ get_int (gp_attrs g) "max_event" = Ok hi /\
         (lo <= e <= hi <-> c = e / cs)).
  Proof using Hcs.
    intros d n. unfold d, finished_file. cbn [dg_attrs dg_groups]. fold n.
    split; [reflexivity|]. split; [reflexivity|]. split; [now rewrite map_map|].
    intros e He c g E.
    assert (0 <= c < chunks cs n /\ g = mkGrp [("min_event", AInt (c * cs)); ("max_event", AInt (Z.min ((c + 1) * cs) n - 1))] (chunk_sets cs evs c)) as [Hc ->].
    { destruct (in_dec Z.eq_dec c (zrange 0 (chunks cs n))) as [I|I].
      - rewrite (dget_map_in chunk_name chunk_name_inj
          (fun c => mkGrp [("min_event", AInt (c * cs)); ("max_event", AInt (Z.min ((c + 1) * cs) n - 1))] (chunk_sets cs evs c))
          (zrange 0 (chunks cs n)) c I) in E.
        injection E as <-. apply in_zrange in I. now split.
      - rewrite (dget_map_notin chunk_name chunk_name_inj
          (fun c => mkGrp [("min_event", AInt (c * cs)); ("max_event", AInt (Z.min ((c + 1) * cs) n - 1))] (chunk_sets cs evs c)) _ c I) in E.
        discriminate. }
    exists (c * cs), (Z.min ((c + 1) * cs) n - 1). split; [reflexivity|]. split; [reflexivity|].
    pose proof (Z.div_mod e cs ltac:(lia)). pose proof (Z.mod_pos_bound e cs ltac:(lia)).
    split; [|intros ->; lia]. intros B. apply Z.div_unique with (r := e - c * cs); nia.
  Qed.

  (** ** C50 *)
  Theorem C50_read_back (evs : list event) e v rows : 0 <= e ->
    read_event (finished_file zs ms cs evs) cs e = Ok (rows, v) <-> nth_error evs (Z.to_nat e) = Some (v, rows).
  Proof using Hcs.
    intros He. unfold finished_file. rewrite read_event_spec by exact He.
    destruct (nth_error evs (Z.to_nat e)) as [[v' rows']|] eqn:N; [|split; discriminate].
    assert (Z.to_nat e < length evs)%nat by (apply nth_error_Some; congruence).
    rewrite (proj2 (Z.ltb_lt _ _)) by (apply chunks_bound; lia). split; congruence.
  Qed.

  Section Sim.
    Context {G W : Type}.
    Context (simulate : list (mom4 V) -> @vertex V -> list Z -> list Z -> G -> list Z ->
                        res ((list point * list Z) * G)).
    Context (write : W -> list point -> list Z -> Z -> W * res unit) (close : W -> W * res unit).

    Theorem C50_simulation (evs : list event) indices rng w :
      run_simulation simulate write close (finished_file zs ms cs evs) indices rng w
      = direct zs ms simulate write close (nuclei_to_sim indices zs) (indexed evs) rng w.
    Proof using Hcs.
      unfold run_simulation. set (d := finished_file zs ms cs evs).
      change (read_header d) with (@Ok (list Z * list Z * Z * Z * Z)
        (zs, ms, Z.of_nat (length evs), chunks cs (Z.of_nat (length evs)), cs)). cbv beta iota.
      set (idx := nuclei_to_sim indices zs).
      assert (Q : forall post pre rng w, evs = pre ++ post ->
        match sim_loop simulate write d zs ms cs idx (zrange (Z.of_nat (length pre)) (Z.of_nat (length evs))) rng w with
        | (w', Ok _) => close w' | (w', Err x) => (w', Err x) end
        = direct zs ms simulate write close idx (combine (zrange (Z.of_nat (length pre)) (Z.of_nat (length evs))) post) rng w).
      { induction post as [|[v rows] post IH]; intros pre rng0 w0 E.
        - rewrite app_nil_r in E. subst pre. unfold zrange. rewrite Z.sub_diag. reflexivity.
        - assert (L : length evs = (length pre + S (length post))%nat) by (rewrite E, app_length; reflexivity).
          assert (Zr : zrange (Z.of_nat (length pre)) (Z.of_nat (length evs))
                       = Z.of_nat (length pre) :: zrange (Z.of_nat (S (length pre))) (Z.of_nat (length evs))).
          { unfold zrange. replace (Z.to_nat (Z.of_nat (length evs) - Z.of_nat (length pre))) with (S (length post)) by lia.
            replace (Z.to_nat (Z.of_nat (length evs) - Z.of_nat (S (length pre)))) with (length post) by lia.
            cbn [seq map]. f_equal; [lia|]. rewrite <- seq_shift, map_map. apply map_ext. intros i. lia. }
          rewrite Zr. cbn [sim_loop combine direct].
          assert (Rd : read_event d cs (Z.of_nat (length pre)) = Ok (rows, v)).
          { apply C50_read_back; [lia|]. rewrite Nat2Z.id, E, nth_error_app2, Nat.sub_diag by lia. reflexivity. }
          rewrite Rd.
          specialize (IH (pre ++ [(v, rows)])). rewrite app_length in IH. cbn [length] in IH.
          replace (length pre + 1)%nat with (S (length pre)) in IH by lia.
          destruct (simulate rows v zs ms rng0 idx) as [[[cloud labels] rng']|x]; [|reflexivity].
          destruct cloud as [|pt cloud]; cbn [length Nat.eqb].
          + apply IH. now rewrite <- app_assoc.
          + destruct (write w0 (pt :: cloud) labels (Z.of_nat (length pre))) as [w1 [u|x]]; [|reflexivity].
            apply IH. now rewrite <- app_assoc. }
      exact (Q evs [] rng w eq_refl).
    Qed.

    (** C51: an interrupted file is refused before anything is simulated or written. *)
    Theorem C51_simulation_refuses n (evs : list event) indices rng w :
      run_simulation simulate write close (interrupted_file zs ms cs n evs) indices rng w = (w, Err KeyError).
    Proof. reflexivity. Qed.
  End Sim.

  (** ** Conversion *)
  Section Convert.
    Context {Nuc : Type} (get_data : Z -> Z -> res Nuc) (symbol : Nuc -> string).

    Lemma mapM_ok {A B} (f : A -> res B) (g : A -> B) l : (forall a, In a l -> f a = Ok (g a)) -> mapM f l = Ok (map g l).
    Proof.
      induction l as [|a l IH]; intros H; [reflexivity|]. cbn [mapM map]. rewrite (H a) by now left.
      cbn [bind]. rewrite IH by (intros; apply H; now right). reflexivity.
    Qed.
    Lemma mapM_not_ok {A B} (f : A -> res B) l a x : In a l -> f a = Err x -> exists y, mapM f l = Err y.
    Proof.
      induction l as [|b l IH]; [easy|]. intros [Hb|H] E; cbn [mapM]; [rewrite Hb, E; now exists x|].
      destruct (f b) as [c|y]; cbn [bind]; [|now exists y]. destruct (IH H E) as [y ->]. now exists y.
    Qed.

    (** C51: converting an interrupted file raises. *)
    Theorem C51_conversion_refuses n (evs : list event) : Z.of_nat (length evs) < n ->
      exists x, convert_kinematics get_data symbol (interrupted_file zs ms cs n evs) = Err x.
    Proof using Hcs.
      intros L. unfold convert_kinematics.
      change (dg_attrs (interrupted_file zs ms cs n evs)) with (@header V zs ms cs n).
      change (get_ints (@header V zs ms cs n) "proton_numbers") with (Ok zs).
      change (get_ints (@header V zs ms cs n) "mass_numbers") with (Ok ms).
      change (get_int (@header V zs ms cs n) "n_events") with (Ok n).
      change (get_int (@header V zs ms cs n) "chunk_size") with (Ok cs). cbn [bind].
      destruct (mapM _ (zrange 0 (Z.of_nat (length zs)))) as [nuclei|x]; cbn [bind]; [|eauto].
      match goal with |- exists x, bind (mapM ?F ?l) _ = _ =>
        destruct (mapM_not_ok F l (Z.of_nat (length evs)) KeyError) as [y ->] end; [| |cbn [bind]; eauto].
      - apply in_zrange. lia.
      - unfold interrupted_file. rewrite read_event_spec by lia.
        rewrite (proj2 (nth_error_None _ _)) by lia. reflexivity.
    Qed.

    Lemma py_index_ok {A} (l : list A) i a : nth_error l i = Some a -> py_index l (Z.of_nat i) = Ok a.
    Proof.
      intros N. assert (i < length l)%nat by (apply nth_error_Some; congruence). unfold py_index.
      rewrite (proj2 (Z.ltb_ge _ _)) by lia. rewrite (proj2 (Z.leb_le _ _)), (proj2 (Z.ltb_lt _ _)) by lia.
      cbn [andb]. now rewrite Nat2Z.id, N.
    Qed.
    Lemma mapM_zrange {B} (f : Z -> res B) l : (forall i x, nth_error l i = Some x -> f (Z.of_nat i) = Ok x) ->
      mapM f (zrange 0 (Z.of_nat (length l))) = Ok l.
    Proof.
      unfold zrange. rewrite Z.sub_0_r, Nat2Z.id.
      assert (Q : forall k, (forall i x, nth_error l i = Some x -> f (Z.of_nat (k + i)) = Ok x) ->
        mapM f (map (fun i => 0 + Z.of_nat i) (seq k (length l))) = Ok l).
      { induction l as [|x l IH]; intros k H; [reflexivity|]. cbn [length seq map mapM].
        rewrite Z.add_0_l. pose proof (H 0%nat x eq_refl) as H0. rewrite Nat.add_0_r in H0. rewrite H0. cbn [bind].
        rewrite IH; [reflexivity|]. intros i y E. rewrite Nat.add_succ_comm. now apply (H (S i)). }
      intros H. now apply Q.
    Qed.
    Lemma nth_error_combine {A B} (l : list A) (m : list B) i x y :
      nth_error (combine l m) i = Some (x, y) -> nth_error l i = Some x /\ nth_error m i = Some y.
    Proof.
      revert m i. induction l as [|a l IH]; intros [|b m] [|i]; cbn; try discriminate; [|apply IH].
      intros E. split; congruence.
    Qed.

    (** The data frame has one row per event and nucleus, with the generated values. *)
    Theorem C50_conversion (nucs : list Nuc) (evs : list event) :
      length ms = length zs -> length nucs = length zs ->
      (forall i z a nuc, nth_error zs i = Some z -> nth_error ms i = Some a -> nth_error nucs i = Some nuc ->
         get_data z a = Ok nuc) ->
      Forall (fun ev => length (snd ev) = length zs) evs ->
      convert_kinematics get_data symbol (finished_file zs ms cs evs) = Ok (frame zs ms (map symbol nucs) evs).
    Proof using Hcs.
      intros Lm Ln Gd F. unfold convert_kinematics. set (d := finished_file zs ms cs evs).
      change (get_ints (dg_attrs d) "proton_numbers") with (Ok zs).
      change (get_ints (dg_attrs d) "mass_numbers") with (Ok ms).
      change (get_int (dg_attrs d) "n_events") with (Ok (Z.of_nat (length evs))).
      change (get_int (dg_attrs d) "chunk_size") with (Ok cs). cbn [bind].
      assert (N : mapM (fun i => let* z := py_index zs i in let* a := py_index ms i in get_data z a)
                    (zrange 0 (Z.of_nat (length zs))) = Ok nucs).
      { rewrite <- Ln. apply mapM_zrange. intros i nuc E.
        assert (i < length zs)%nat by (rewrite <- Ln; apply nth_error_Some; congruence).
        destruct (nth_error zs i) as [z|] eqn:Ez; [|apply nth_error_None in Ez; lia].
        destruct (nth_error ms i) as [a|] eqn:Ea; [|apply nth_error_None in Ea; lia].
        rewrite (py_index_ok _ _ _ Ez), (py_index_ok _ _ _ Ea). cbn [bind]. eauto. }
      rewrite N. cbn [bind].
      set (one := fun x : Z * event => map (fun y => let '(z, a, s, m) := y in
                    mkFrow (fst x) z a s (m_E m) (m_px m) (m_py m) (m_pz m) (fst (snd x)))
          (combine (combine (combine zs ms) (map symbol nucs)) (snd (snd x)))).
      assert (M : mapM (fun e => let* (rows, v) := read_event d cs e in
                                 mapM (convert_row symbol zs ms nucs e rows v) (zrange 0 (Z.of_nat (length zs))))
                    (zrange 0 (Z.of_nat (length evs))) = Ok (map one (indexed evs))).
      { assert (Li : length (map one (indexed evs)) = length evs).
        { rewrite map_length. unfold indexed. rewrite combine_length, zrange_length. lia. }
        rewrite <- Li. apply mapM_zrange. intros i l E. rewrite nth_error_map in E.
        destruct (nth_error (indexed evs) i) as [[e [v rows]]|] eqn:Ei; [|discriminate]. cbn [option_map] in E.
        injection E as <-. unfold indexed in Ei. apply nth_error_combine in Ei as [E1 E2].
        assert (i < length evs)%nat by (apply nth_error_Some; congruence).
        rewrite zrange_nth, Z.add_0_l in E1 by lia. injection E1 as <-.
        assert (Rd : read_event d cs (Z.of_nat i) = Ok (rows, v)) by (apply C50_read_back; [lia|]; now rewrite Nat2Z.id).
        rewrite Rd. cbn [bind]. unfold one. cbn [fst snd].
        assert (Lr : length rows = length zs).
        { rewrite Forall_forall in F. apply (F (v, rows)). eapply nth_error_In; eauto. }
        match goal with |- _ = Ok ?l => assert (Ll : length l = length zs) end.
        { rewrite map_length, !combine_length, map_length. lia. }
        rewrite <- Ll. apply mapM_zrange. intros j r Er. rewrite nth_error_map in Er.
        destruct (nth_error (combine _ rows) j) as [[[[z a] s] m]|] eqn:Ej; [|discriminate]. cbn [option_map] in Er.
        injection Er as <-. apply nth_error_combine in Ej as [Ej Em]. apply nth_error_combine in Ej as [Ej Es].
        apply nth_error_combine in Ej as [Ez Ea]. rewrite nth_error_map in Es.
        destruct (nth_error nucs j) as [nuc|] eqn:En; [|discriminate]. injection Es as <-.
        unfold convert_row. rewrite (py_index_ok _ _ _ Ez), (py_index_ok _ _ _ Ea), (py_index_ok _ _ _ En), (py_index_ok _ _ _ Em).
        reflexivity. }
      rewrite M. cbn [bind]. f_equal. unfold frame. now rewrite flat_map_concat_map.
    Qed.

    Theorem C50_frame_rows (nucs : list Nuc) (evs : list event) :
      length ms = length zs -> length nucs = length zs ->
      Forall (fun ev => length (snd ev) = length zs) evs ->
      length (frame zs ms (map symbol nucs) evs) = (length evs * length zs)%nat /\
      forall e i v rows z a nuc m, nth_error evs e = Some (v, rows) ->
        nth_error zs i = Some z -> nth_error ms i = Some a -> nth_error nucs i = Some nuc -> nth_error rows i = Some m ->
        nth_error (frame zs ms (map symbol nucs) evs) (e * length zs + i)
        = Some (mkFrow (Z.of_nat e) z a (symbol nuc) (m_E m) (m_px m) (m_py m) (m_pz m) v).
    Proof.
      intros Lm Ln F. unfold frame.
      set (one := fun x : Z * event => map (fun y => let '(z, a, s, m) := y in
                    mkFrow (fst x) z a s (m_E m) (m_px m) (m_py m) (m_pz m) (fst (snd x)))
          (combine (combine (combine zs ms) (map symbol nucs)) (snd (snd x)))).
      assert (Lo : forall x, length (snd (snd x)) = length zs -> length (one x) = length zs).
      { intros x H. unfold one. rewrite map_length, !combine_length, map_length. lia. }
      induction evs as [|ev evs IH] using rev_ind.
      - cbn. split; [reflexivity|]. intros [|e]; discriminate.
      - apply Forall_app in F as [F Fe]. inversion Fe as [|? ? Fe' _]; subst. destruct (IH F) as [L N]. clear IH Fe.
        rewrite indexed_snoc, flat_map_app. cbn [flat_map]. rewrite app_nil_r.
        assert (Le : length (one (Z.of_nat (length evs), ev)) = length zs) by now apply Lo.
        split; [rewrite app_length, L, Le, app_length; cbn; lia|].
        intros e i v rows z a nuc m Ee Ez Ea En Em.
        assert (Hi : (i < length zs)%nat) by (apply nth_error_Some; congruence).
        destruct (Nat.lt_ge_cases e (length evs)) as [C|C].
        + rewrite nth_error_app1 in Ee by exact C. rewrite nth_error_app1 by (rewrite L; nia). eauto.
        + rewrite nth_error_app2 in Ee by exact C. destruct (e - length evs)%nat as [|[|k]] eqn:D; try discriminate.
          injection Ee as ->. assert (e = length evs) by lia. subst e.
          rewrite nth_error_app2, L by (rewrite L; lia). replace (length evs * length zs + i - length evs * length zs)%nat with i by lia.
          unfold one. cbn [fst snd]. rewrite nth_error_map.
          assert (Cb : forall A B (l : list A) (k : list B) x y, nth_error l i = Some x -> nth_error k i = Some y ->
                    nth_error (combine l k) i = Some (x, y)).
          { clear. intros A B l. revert i. induction l as [|a l IH]; intros [|i] [|b k] x y; cbn; try discriminate; [congruence|apply IH]. }
          rewrite (Cb _ _ (combine (combine zs ms) (map symbol nucs)) rows (z, a, symbol nuc) m); [reflexivity| |exact Em].
          apply Cb; [apply Cb; assumption|]. now rewrite nth_error_map, En.
    Qed.
  End Convert.
End File.

(** Five events in chunks of two; the third run of a pipeline that fails. *)
Section Example.
  Definition ex_run (limit p : Z) : res (@vertex Z * list (mom4 Z)) * Z :=
    (if p <? limit then Ok ((p, 0, 0), [mkMom p 1 2 3; mkMom 4 5 6 p]) else Err PipelineError, p + 1).
  Definition ex_event (p : Z) : @vertex Z * list (mom4 Z) := ((p, 0, 0), [mkMom p 1 2 3; mkMom 4 5 6 p]).

  Example C49_example : exists p', produced (ex_run 9) 0 (map ex_event [0; 1; 2; 3; 4]) p' /\
    run_kinematics_pipeline (ex_run 9) [1; 6] [2; 12] 2 5 0
    = (finished_file [1; 6] [2; 12] 2 (map ex_event [0; 1; 2; 3; 4]), Ok tt) /\
    chunks 2 5 = 3.
  Proof.
    eexists. split; [|split; reflexivity].
    do 5 (eapply Pr_cons; [reflexivity|]). apply Pr_nil.
  Qed.

  Example C50_example :
    read_event (fst (run_kinematics_pipeline (ex_run 9) [1; 6] [2; 12] 2 5 0)) 2 3
      = Ok ([mkMom 3 1 2 3; mkMom 4 5 6 3], (3, 0, 0)) /\
    match convert_kinematics (fun z a => Ok (z + a)) string_of_Z
        (fst (run_kinematics_pipeline (ex_run 9) [1; 6] [2; 12] 2 5 0)) with
    | Ok l => length l = 10%nat /\ nth_error l 7 = Some (mkFrow 3 6 12 "18" 3 4 5 6 (3, 0, 0))
    | Err _ => False
    end.
  Proof. split; [reflexivity|]. vm_compute. split; reflexivity. Qed.

  Example C51_example :
    run_kinematics_pipeline (ex_run 2) [1; 6] [2; 12] 2 5 0
      = (interrupted_file [1; 6] [2; 12] 2 5 (map ex_event [0; 1]), Err PipelineError) /\
    convert_kinematics (fun z a => Ok (z + a)) string_of_Z
      (fst (run_kinematics_pipeline (ex_run 2) [1; 6] [2; 12] 2 5 0)) = Err KeyError.
  Proof. split; reflexivity. Qed.
End Example.

Print Assumptions C49_finished.
Print Assumptions C49_location.
Print Assumptions C49_ranges.
Print Assumptions C50_simulation.
Print Assumptions C50_conversion.
Print Assumptions C50_frame_rows.
Print Assumptions C51_interrupted.
Print Assumptions C51_conversion_refuses.
