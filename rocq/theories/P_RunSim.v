(** P_RunSim.v -- properties C20 and C21: which nuclei and which events are simulated/written. *)
From Coq Require Import ZArith String Lia FinFun Sorted.
From Verif Require Import Base Simulator KinFile SpecRun.
Local Open Scope Z_scope.

(** ** C20 *)

(** In a chain with [k] decays rows 0 and 1 are target and projectile, row 3 is the residual of
    the reaction, decay j (from 0) turns a row into rows 4+2j and 5+2j, and its parent is the
    second product of the previous step. *)
Definition parent_row (j : Z) : Z := 3 + 2 * j.
Definition final_product (k i : Z) : Prop :=
  2 <= i < 4 + 2 * k /\ forall j, 0 <= j < k -> i <> parent_row j.

Lemma in_zrange2 a b i : In i (zrange2 a b) <-> a <= i < b /\ (i - a) mod 2 = 0.
Proof.
  unfold zrange2. rewrite in_map_iff. split.
  - intros (n & <- & H). apply in_seq in H.
    assert (Z.of_nat n < (b - a + 1) / 2) by lia.
    pose proof (Z.mul_div_le (b - a + 1) 2 ltac:(lia)).
    split; [lia|]. replace (a + 2 * Z.of_nat n - a) with (Z.of_nat n * 2) by lia. apply Z.mod_mul. lia.
  - intros (H & E). exists (Z.to_nat ((i - a) / 2)).
    pose proof (Z.div_mod (i - a) 2 ltac:(lia)) as D. rewrite E in D.
    assert (0 <= (i - a) / 2) by (apply Z.div_pos; lia).
    split; [lia|]. apply in_seq. split; [lia|]. cbn [plus].
    apply Nat2Z.inj_lt. rewrite !Z2Nat.id by (try apply Z.div_pos; lia).
    assert (2 * ((i - a) / 2 + 1) <= b - a + 1) by lia.
    assert ((i - a) / 2 + 1 <= (b - a + 1) / 2) by (apply Z.div_le_lower_bound; lia). lia.
Qed.

Lemma nodup_zrange2 a b : NoDup (zrange2 a b).
Proof.
  unfold zrange2. apply Injective_map_NoDup; [|apply seq_NoDup].
  intros x y H. lia.
Qed.

Lemma nodup_snoc {A} (l : list A) x : NoDup l -> ~ In x l -> NoDup (l ++ [x]).
Proof.
  induction l as [|y l IH]; intros N H; cbn; [repeat constructor; auto|].
  inversion N as [|? ? N1 N2]; subst. constructor.
  - rewrite in_app_iff. intros [Hx|[Hx|[]]]; [auto|]. subst. apply H. now left.
  - apply IH; [exact N2|]. intros Hx. apply H. now right.
Qed.

Theorem C20_default_nuclei :
  forall (k : Z) (zs : list Z), 0 <= k -> Z.of_nat (length zs) = 4 + 2 * k ->
  (forall i, In i (nuclei_to_sim None zs) <-> final_product k i) /\
  NoDup (nuclei_to_sim None zs) /\
  Z.of_nat (length (nuclei_to_sim None zs)) = k + 2.
Proof.
  intros k zs Hk Hn. unfold nuclei_to_sim. rewrite Hn.
  assert (Hl : ~ In (4 + 2 * k - 1) (zrange2 2 (4 + 2 * k))).
  { rewrite in_zrange2. intros (_ & E). replace (4 + 2 * k - 1 - 2) with (1 + k * 2) in E by lia.
    rewrite Z.mod_add in E by lia. discriminate. }
  split; [|split].
  - intros i. rewrite in_app_iff, in_zrange2. unfold final_product, parent_row. split.
    + intros [(H & E)|[<-|[]]].
      * split; [lia|]. intros j Hj ->. replace (3 + 2 * j - 2) with (1 + j * 2) in E by lia.
        rewrite Z.mod_add in E by lia. discriminate.
      * split; [lia|]. intros j Hj E. lia.
    + intros (H & E). pose proof (Z.mod_pos_bound (i - 2) 2 ltac:(lia)) as M.
      pose proof (Z.div_mod (i - 2) 2 ltac:(lia)) as D.
      destruct (Z.eq_dec ((i - 2) mod 2) 0) as [E0|E0]; [left; split; [lia|exact E0]|].
      right. left. specialize (E ((i - 2) / 2)).
      destruct (Z.eq_dec ((i - 2) / 2) k) as [Ek|Nk]; [lia|]. exfalso.
      assert (0 <= (i - 2) / 2) by (apply Z.div_pos; lia). apply E; lia.
  - apply nodup_snoc; [apply nodup_zrange2|exact Hl].
  - rewrite app_length. unfold zrange2. rewrite map_length, seq_length. cbn [length].
    replace (4 + 2 * k - 2 + 1) with (1 + (k + 1) * 2) by lia.
    rewrite Z.div_add by lia. change (1 / 2) with 0. lia.
Qed.

Example C20_example :
  nuclei_to_sim None [1; 6; 1; 6; 2; 4; 2; 2] = [2; 4; 6; 7] /\ final_product 2 4 /\ ~ final_product 2 5.
Proof.
  split; [reflexivity|]. split.
  - split; [lia|]. unfold parent_row. intros j Hj E. lia.
  - intros (_ & H). apply (H 1); unfold parent_row; lia.
Qed.

(** ** C21 *)
Section C21.
  Context {V G W : Type}.
  Context (simulate : list (mom4 V) -> @vertex V -> list Z -> list Z -> G -> list Z ->
                      res ((list point * list Z) * G)).
  Context (write : W -> list point -> list Z -> Z -> W * res unit) (close : W -> W * res unit).
  Notation perform := (perform write close).

  Lemma perform_app a b w : perform (a ++ b) w =
    match perform a w with (w', Ok _) => perform b w' | r => r end.
  Proof.
    revert w. induction a as [|c a IH]; intros w; cbn [app SpecRun.perform]; [reflexivity|].
    destruct (match c with Write _ _ _ => _ | Close => _ end) as [w1 [u|x]]; [apply IH|reflexivity].
  Qed.

  Lemma writes_cons e cloud labels rs :
    writes ((e, cloud, labels) :: rs) =
    match cloud with [] => writes rs | _ => Write cloud labels e :: writes rs end.
  Proof. unfold writes. cbn [filter fst snd]. now destruct cloud. Qed.

  Lemma sim_loop_ok d zs ms cs idx es g w w' :
    sim_loop simulate write d zs ms cs idx es g w = (w', Ok tt) <->
    exists rs g', simulated simulate d zs ms cs idx es g rs g' /\ perform (writes rs) w = (w', Ok tt).
  Proof.
    revert g w. induction es as [|e es IH]; intros g w; cbn [sim_loop].
    - split.
      + intros [= <-]. exists [], g. split; [constructor|reflexivity].
      + intros (rs & g' & H & E). inversion H; subst. exact E.
    - destruct (read_event d cs e) as [[rows v]|x] eqn:Er.
      2: { split; [discriminate|]. intros (rs & g' & H & _). inversion H; subst. congruence. }
      destruct (simulate rows v zs ms g idx) as [[[cloud labels] g1]|x] eqn:Es.
      2: { split; [discriminate|]. intros (rs & g' & H & _). inversion H; subst. congruence. }
      assert (Inv : forall rs g', simulated simulate d zs ms cs idx (e :: es) g rs g' ->
                exists rs', rs = (e, cloud, labels) :: rs' /\ simulated simulate d zs ms cs idx es g1 rs' g').
      { intros rs g' H. inversion H; subst.
        match goal with H1 : read_event d cs e = Ok (?r, ?vv) |- _ =>
          assert (r = rows /\ vv = v) as [-> ->] by (split; congruence) end.
        match goal with H1 : simulate rows v zs ms g idx = Ok (?cl, ?lb, ?gg) |- _ =>
          assert (cl = cloud /\ lb = labels /\ gg = g1) as (-> & -> & ->) by (repeat split; congruence) end.
        eexists. split; [reflexivity|assumption]. }
      destruct cloud as [|p cloud].
      + rewrite IH. split.
        * intros (rs & g' & H & E). exists ((e, [], labels) :: rs), g'.
          split; [econstructor; eauto|exact E].
        * intros (rs & g' & H & E). destruct (Inv _ _ H) as (rs' & -> & H'). exists rs', g'. auto.
      + destruct (write w (p :: cloud) labels e) as [w1 [u|x]] eqn:Ew.
        * rewrite IH. split.
          -- intros (rs & g' & H & E). exists ((e, p :: cloud, labels) :: rs), g'.
             split; [econstructor; eauto|]. rewrite writes_cons. cbn [SpecRun.perform]. now rewrite Ew.
          -- intros (rs & g' & H & E). destruct (Inv _ _ H) as (rs' & -> & H').
             rewrite writes_cons in E. cbn [SpecRun.perform] in E. rewrite Ew in E. eauto.
        * split; [discriminate|]. intros (rs & g' & H & E). destruct (Inv _ _ H) as (rs' & -> & H').
          rewrite writes_cons in E. cbn [SpecRun.perform] in E. rewrite Ew in E. discriminate.
  Qed.

  (** A successful run: every event of the file is read and simulated in order, the writer
      gets one call per non-empty cloud, then one close, and nothing else; and conversely. *)
  Theorem C21_each_nonempty_event_written_once :
    forall (d : data_group V) indices rng w w',
    run_simulation simulate write close d indices rng w = (w', Ok tt) <->
    exists zs ms n_events n_chunks chunk_size rs rng',
      read_header d = Ok (zs, ms, n_events, n_chunks, chunk_size) /\
      simulated simulate d zs ms chunk_size (nuclei_to_sim indices zs) (zrange 0 n_events) rng rs rng' /\
      perform (writes rs ++ [Close]) w = (w', Ok tt).
  Proof.
    intros d indices rng w w'. unfold run_simulation.
    destruct (read_header d) as [[[[[zs ms] n] nc] cs]|x] eqn:Eh.
    2: { split; [discriminate|]. intros (zs & ms & n & nc & cs & rs & rng' & H & _). discriminate. }
    split.
    - destruct (sim_loop _ _ _ _ _ _ _ _ _ _) as [w1 [[]|x]] eqn:El; [|discriminate]. intros Hc.
      apply sim_loop_ok in El as (rs & rng' & H & E).
      exists zs, ms, n, nc, cs, rs, rng'. split; [reflexivity|]. split; [exact H|].
      rewrite perform_app, E. cbn [SpecRun.perform]. rewrite Hc. reflexivity.
    - intros (zs' & ms' & n' & nc' & cs' & rs & rng' & Ex & H & E). injection Ex as <- <- <- <- <-.
      rewrite perform_app in E. destruct (perform (writes rs) w) as [w1 [[]|x]] eqn:Ep; [|discriminate].
      assert (El : sim_loop simulate write d zs ms cs (nuclei_to_sim indices zs) (zrange 0 n) rng w = (w1, Ok tt))
        by (apply sim_loop_ok; eauto).
      rewrite El. cbn [SpecRun.perform] in E. destruct (close w1) as [w2 [[]|x]]; congruence.
  Qed.

  (** The events of [simulated] are exactly the listed ones, so the written event numbers are
      strictly increasing and within the file. *)
  Lemma simulated_events d zs ms cs idx es g rs g' :
    simulated simulate d zs ms cs idx es g rs g' -> map (fun r => fst (fst r)) rs = es.
  Proof. induction 1; cbn; congruence. Qed.

  Definition event_of (c : call) : Z := match c with Write _ _ e => e | Close => -1 end.

  Lemma zrange_nth a b i : (i < Z.to_nat (b - a))%nat -> nth_error (zrange a b) i = Some (a + Z.of_nat i).
  Proof.
    intros H. unfold zrange. rewrite nth_error_map.
    rewrite (nth_error_nth' _ 0%nat) by now rewrite seq_length. now rewrite seq_nth.
  Qed.
  Lemma in_zrange a b i : In i (zrange a b) <-> a <= i < b.
  Proof.
    unfold zrange. rewrite in_map_iff. split.
    - intros (n & <- & H). apply in_seq in H. lia.
    - intros H. exists (Z.to_nat (i - a)). split; [lia|]. apply in_seq. lia.
  Qed.
  Lemma sorted_zrange a b : StronglySorted Z.lt (zrange a b).
  Proof.
    unfold zrange. generalize (Z.to_nat (b - a)) as n. intros n.
    assert (S : forall n k, StronglySorted Z.lt (map (fun i => a + Z.of_nat i) (seq k n))).
    { clear. induction n as [|n IH]; intros k; cbn; [constructor|]. constructor; [apply IH|].
      apply Forall_forall. intros x Hx. apply in_map_iff in Hx as (y & <- & Hy). apply in_seq in Hy. lia. }
    apply S.
  Qed.

  Theorem C21_increasing_events :
    forall d zs ms cs idx n g rs g',
    simulated simulate d zs ms cs idx (zrange 0 n) g rs g' ->
    StronglySorted Z.lt (map event_of (writes rs)) /\
    (forall e, In e (map event_of (writes rs)) -> 0 <= e < n) /\
    (forall e, 0 <= e < n -> exists cloud labels,
       In (e, cloud, labels) rs /\
       (In (Write cloud labels e) (writes rs) <-> cloud <> [])).
  Proof.
    intros d zs ms cs idx n g rs g' H. apply simulated_events in H.
    assert (M : map event_of (writes rs) =
                map (fun r => fst (fst r)) (filter (fun r => negb (length (snd (fst r)) =? 0)%nat) rs)).
    { unfold writes. rewrite map_map. reflexivity. }
    rewrite M. split; [|split].
    - pose proof (sorted_zrange 0 n) as S. rewrite <- H in S. clear - S.
      induction rs as [|r rs IH]; cbn; [constructor|]. cbn in S. inversion S as [|? ? S1 S2]; subst.
      destruct (negb _); cbn; [|auto]. constructor; [auto|].
      rewrite Forall_forall in *. intros x Hx. apply S2. apply in_map_iff in Hx as (y & <- & Hy).
      apply filter_In in Hy as [Hy _]. now apply (in_map (fun r => fst (fst r))).
    - intros e He. apply in_map_iff in He as (y & <- & Hy). apply filter_In in Hy as [Hy _].
      apply in_zrange. rewrite <- H. now apply (in_map (fun r => fst (fst r))).
    - intros e He. apply in_zrange in He. rewrite <- H in He.
      apply in_map_iff in He as ([[e' cloud] labels] & E & Hi). cbn in E. subst e'.
      exists cloud, labels. split; [exact Hi|]. unfold writes. rewrite in_map_iff. split.
      + intros ([[e2 c2] l2] & E & Hf). cbn in E. injection E as -> -> ->.
        apply filter_In in Hf as [_ Hf]. cbn in Hf. intros ->. discriminate.
      + intros Hc. exists (e, cloud, labels). split; [reflexivity|]. apply filter_In. split; [exact Hi|].
        cbn. now destruct cloud.
  Qed.

  (** If the run raises, the writer has received the calls of the events before some point, and
      possibly the call that raised: never a call out of order, a repeated call, or a close
      before the last event. *)
  Theorem C21_failed_run_is_a_prefix :
    forall (d : data_group V) indices rng w w' x,
    run_simulation simulate write close d indices rng w = (w', Err x) ->
    (w' = w) \/
    exists zs ms n_events n_chunks chunk_size es rest rs rng',
      read_header d = Ok (zs, ms, n_events, n_chunks, chunk_size) /\
      zrange 0 n_events = es ++ rest /\
      simulated simulate d zs ms chunk_size (nuclei_to_sim indices zs) es rng rs rng' /\
      (perform (writes rs) w = (w', Ok tt) \/            (* reading or simulating the next event raised *)
       perform (writes rs) w = (w', Err x) \/            (* a write raised *)
       (rest = [] /\ perform (writes rs ++ [Close]) w = (w', Err x))).
  Proof.
    intros d indices rng w w' x. unfold run_simulation.
    destruct (read_header d) as [[[[[zs ms] n] nc] cs]|x'] eqn:Eh; [|intros [= <- _]; now left].
    intros H. right. exists zs, ms, n, nc, cs.
    assert (L : forall es g w, 
       forall w1, sim_loop simulate write d zs ms cs (nuclei_to_sim indices zs) es g w = (w1, Err x) ->
       exists es1 rest rs g', es = es1 ++ rest /\
         simulated simulate d zs ms cs (nuclei_to_sim indices zs) es1 g rs g' /\
         (perform (writes rs) w = (w1, Ok tt) \/ perform (writes rs) w = (w1, Err x))).
    { induction es as [|e es IH]; intros g w0 w1; cbn [sim_loop]; [discriminate|].
      destruct (read_event d cs e) as [[rows v]|x'] eqn:Er.
      2: { intros [= <- ->]. exists [], (e :: es), [], g. split; [reflexivity|]. split; [constructor|now left]. }
      destruct (simulate rows v zs ms g (nuclei_to_sim indices zs)) as [[[cloud labels] g1]|x'] eqn:Es.
      2: { intros [= <- ->]. exists [], (e :: es), [], g. split; [reflexivity|]. split; [constructor|now left]. }
      destruct cloud as [|p cloud].
      - intros E. destruct (IH _ _ _ E) as (es1 & rest & rs & g' & -> & H1 & H2).
        exists (e :: es1), rest, ((e, [], labels) :: rs), g'.
        split; [reflexivity|]. split; [econstructor; eauto|exact H2].
      - destruct (write w0 (p :: cloud) labels e) as [w2 [u|x']] eqn:Ew.
        + intros E. destruct (IH _ _ _ E) as (es1 & rest & rs & g' & -> & H1 & H2).
          exists (e :: es1), rest, ((e, p :: cloud, labels) :: rs), g'.
          split; [reflexivity|]. split; [econstructor; eauto|]. rewrite writes_cons.
          cbn [SpecRun.perform]. rewrite Ew. exact H2.
        + intros [= <- ->]. exists [e], es, [(e, p :: cloud, labels)], g1.
          split; [reflexivity|]. split; [econstructor; eauto; constructor|]. right.
          rewrite writes_cons. cbn [SpecRun.perform]. now rewrite Ew. }
    destruct (sim_loop _ _ _ _ _ _ _ _ _ _) as [w1 [[]|x1]] eqn:El.
    - apply sim_loop_ok in El as (rs & g' & H1 & E). exists (zrange 0 n), [], rs, g'.
      split; [reflexivity|]. split; [now rewrite app_nil_r|]. split; [exact H1|]. right. right.
      split; [reflexivity|]. rewrite perform_app, E. cbn [SpecRun.perform]. now rewrite H.
    - injection H as -> ->. destruct (L _ _ _ _ El) as (es1 & rest & rs & g' & E & H1 & H2).
      exists es1, rest, rs, g'. repeat split; auto. destruct H2; auto.
  Qed.
End C21.

(** A file with three events of which the second gives an empty cloud; a writer that records. *)
Section Example.
  Local Open Scope string_scope.
  Definition ex_ds (n : Z) : dataset Z :=
    mkDs [mkMom 0 0 0 n] [("vertex_x", AReal 1); ("vertex_y", AReal 2); ("vertex_z", AReal 3)].
  Definition ex_file : data_group Z :=
    mkData [("n_events", AInt 3); ("proton_numbers", AInts [1; 2; 1; 2]); ("mass_numbers", AInts [1; 4; 1; 4]);
            ("chunk_size", AInt 2); ("n_chunks", AInt 2)]
      [("chunk_0", mkGrp [] [("event_0", ex_ds 1); ("event_1", ex_ds 0)]);
       ("chunk_1", mkGrp [] [("event_2", ex_ds 1)])].
  Definition ex_pt := mkPoint F64.fnan F64.fnan F64.fnan.
  Definition ex_simulate (rows : list (mom4 Z)) (v : @vertex Z) (zs ms : list Z) (g : Z) (idx : list Z)
    : res ((list point * list Z) * Z) :=
    Ok ((match rows with r :: _ => repeat ex_pt (Z.to_nat (m_E r)) | [] => [] end, idx), g + 1).
  Example C21_example :
    run_simulation ex_simulate (fun w cl lb e => (w ++ [Write cl lb e], Ok tt))%list
      (fun w => (w ++ [Close], Ok tt))%list ex_file None 0 []
    = ([Write [ex_pt] [2; 3] 0; Write [ex_pt] [2; 3] 2; Close], Ok tt).
  Proof. reflexivity. Qed.
End Example.

Print Assumptions C20_default_nuclei.
Print Assumptions C21_each_nonempty_event_written_once.
Print Assumptions C21_increasing_events.
Print Assumptions C21_failed_run_is_a_prefix.
