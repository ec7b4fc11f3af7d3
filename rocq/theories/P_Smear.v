(** P_Smear.v -- C97: the times of the points of a cloud, counted over the draws of the smearing
    (simulator.py 103-112).

    As in P_Isotropy.v the uniform draws are an unending list of whole numbers k of [0, 2^53), a draw being
    k * 2^-53; the numbers of electrons come from another source, the second part of the generator's state. *)
From Coq Require Import ZArith Reals Lia Lra List.
From Flocq Require Import Core BinarySingleNaN.
From Verif Require Import Base F64 F64Bounds Num Pairing PairingProofs BeamPads Transporter SpecTransport TransportProofs
  Simulator SpecSim SimulatorProofs TransportF64 P_TransportF64 P_Simulator P_KinF64 KinFile P_KinFile P_SamplingF64 P_Frequency P_Isotropy.
Import ListNotations.
Local Open Scope R_scope.

(** ** Specification *)

(** Time of a point of bucket [tb] for the draw [k]. *)
Definition smeared (tb k : Z) : f64 := fadd (f_of_Z tb) (uval (f_of_Z 0) (f_of_Z 1) k).
(** Which points stay: those of the buckets up to 510, and those of bucket 511 for all but the last 256 draws. *)
Definition stays (tb k : Z) : bool := ((tb <=? 510) || (tb =? 511) && (k <? 2 ^ 53 - 256))%Z.
(** A pad and bucket with its draw and the label of its last deposit. *)
Record cell := mkCell { c_place : nat; c_tb : Z; c_pad : Z; c_label : Z }.
Definition hit (lds : list ldep) (tb pad : Z) : Prop := exists d l, In (d, l) lds /\ d_tb d = tb /\ d_pad d = pad.
(** The point of a cell: its pad, its smeared time, all charge collected by it. *)
Definition cell_point (d : nat -> Z) (lds : list ldep) (c : cell) : point :=
  mkPoint (f_of_Z (c_pad c)) (smeared (c_tb c) (d (c_place c))) (f_of_Z (wrap64 (collected (c_tb c) (c_pad c) lds))).
(** numpy's uniform(low=0, high=1, size=n) from the draws [d]. *)
Definition uniform_at {H} (d : nat -> Z) (n : nat) (s : nat * H) : list f64 * (nat * H) :=
  (map (fun i => uval (f_of_Z 0) (f_of_Z 1) (d (fst s + i)%nat)) (seq 0 n), ((fst s + n)%nat, snd s)).

(** ** One time *)
Lemma unit_smear k : (0 <= k < 2 ^ 53)%Z -> unit_draw (uval (f_of_Z 0) (f_of_Z 1) k).
Proof.
  intros K. destruct (uval_01 k K) as [F V]. split; [exact F|]. rewrite V. destruct (unit_draw_ok k K) as [_ D]. rewrite (proj2 (unit_val k K)) in D.
  assert (0 < / 2 ^ 53) by (apply Rinv_0_lt_compat, pow_lt; lra). lra.
Qed.
Lemma smeared_value tb k : (0 <= tb < 2 ^ 26)%Z -> (0 <= k < 2 ^ 53)%Z -> R64 (smeared tb k) = rnd64 (IZR tb + IZR k / 2 ^ 53).
Proof.
  intros T K. destruct (smear_bounds tb _ ltac:(lia) (unit_smear k K)) as (F & _).
  destruct (uval_01 k K) as [Fu Vu]. unfold smeared. rewrite (fadd_fin_val _ _ (f_of_Z_fin tb ltac:(lia)) Fu F), Vu, (f_of_Z_R tb) by lia. reflexivity.
Qed.

Lemma nearest_half n : Z.even n = true -> ZnearestE (IZR n - / 2) = n.
Proof.
  intros E. assert (Fl : Zfloor (IZR n - / 2) = (n - 1)%Z) by (apply Zfloor_imp; rewrite plus_IZR, minus_IZR; lra).
  unfold Znearest. rewrite Fl. rewrite minus_IZR. replace (IZR n - / 2 - (IZR n - 1)) with (/ 2) by lra. rewrite Rcompare_Eq by reflexivity.
  rewrite Z.even_sub, E. cbn. rewrite <- (Zceil_IZR n) at 2. apply Zceil_imp. rewrite Zceil_IZR, minus_IZR. lra.
Qed.

(** The time is moved up to the next bucket by the last 2^j draws, for a bucket of [2^j, 2^(j+1)). *)
Lemma moved_up tb j k : (0 <= j < 26)%Z -> (2 ^ j <= tb < 2 ^ (j + 1))%Z -> (0 <= k < 2 ^ 53)%Z ->
  R64 (smeared tb k) = IZR tb + 1 <-> (2 ^ 53 - 2 ^ j <= k)%Z.
Proof.
  intros J T K. assert (P26 : (2 ^ (j + 1) <= 2 ^ 26)%Z) by (apply Z.pow_le_mono_r; lia).
  assert (Pj : (0 < 2 ^ j)%Z) by (apply Z.pow_pos_nonneg; lia).
  rewrite smeared_value by lia. assert (P53 : IZR (2 ^ 53) = 2 ^ 53) by (change (2 ^ 53)%Z with 9007199254740992%Z; ring).
  set (v := IZR tb + IZR k / 2 ^ 53). assert (N0 : 0 < 2 ^ 53) by (apply pow_lt; lra).
  assert (Ev : v * 2 ^ 53 = IZR (tb * 2 ^ 53 + k)) by (unfold v; rewrite plus_IZR, mult_IZR, P53; field; lra).
  set (h := bpow radix2 (j - 53)). assert (H0 : 0 < h) by apply bpow_gt_0.
  assert (Eh : h * 2 ^ 53 = IZR (2 ^ j)).
  { unfold h. replace (2 ^ 53) with (bpow radix2 53) by (rewrite <- P53; symmetry; apply (IZR_pow2 53); lia). rewrite <- bpow_plus. replace (j - 53 + 53)%Z with j by lia. symmetry. apply IZR_pow2. lia. }
  assert (Fe : fmt64 (IZR tb + 1)) by (rewrite <- plus_IZR; apply fmt64_IZR; lia).
  set (v0 := IZR tb + 1 - h).
  assert (Ej : IZR (2 ^ j) = bpow radix2 j) by (apply IZR_pow2; lia). assert (Ej1 : IZR (2 ^ (j + 1)) = bpow radix2 (j + 1)) by (apply IZR_pow2; lia).
  assert (Hh : h <= / 2 ^ 20).
  { apply Rle_trans with (bpow radix2 (-20)); [apply bpow_le; lia|change (bpow radix2 (-20)) with (/ 1048576); lra]. }
  split.
  - intros E. destruct (Z_lt_le_dec k (2 ^ 53 - 2 ^ j)) as [Q|Q]; [exfalso|exact Q].
    assert (Lv : v < v0).
    { apply Rmult_lt_reg_r with (2 ^ 53); [exact N0|]. rewrite Ev. unfold v0. rewrite Rmult_minus_distr_r, Eh, <- plus_IZR, <- P53, <- mult_IZR, <- minus_IZR. apply IZR_lt. lia. }
    set (w := IZR tb + 1 - 2 * h).
    assert (Fw : fmt64 w).
    { unfold w. replace (2 * h) with (bpow radix2 (j - 52)) by (unfold h; replace (j - 52)%Z with (j - 53 + 1)%Z by lia; rewrite bpow_plus_1; reflexivity).
      apply generic_format_FLT. exists (Float radix2 ((tb + 1) * 2 ^ (52 - j) - 1) (j - 52)); cbn [Fnum Fexp].
      - unfold F2R. cbn [Fnum Fexp]. rewrite minus_IZR, mult_IZR, plus_IZR, Rmult_minus_distr_r, Rmult_assoc, (IZR_pow2 (52 - j)) by lia.
        rewrite <- bpow_plus. replace (52 - j + (j - 52))%Z with 0%Z by lia. cbn [bpow]. lra.
      - change (radix2 ^ prec64)%Z with (2 ^ 53)%Z. replace (2 ^ 53)%Z with (2 ^ (j + 1) * 2 ^ (52 - j))%Z by (rewrite <- Z.pow_add_r by lia; f_equal; lia).
        assert (0 < 2 ^ (52 - j))%Z by (apply Z.pow_pos_nonneg; lia). nia.
      - unfold SpecFloat.emin, emax64, prec64. lia. }
    destruct (Rle_or_lt w v) as [Lw|Lw].
    + pose proof (round_N_pt radix2 fexp64 (fun x => negb (Z.even x)) v) as (_ & Nn). specialize (Nn w Fw). fold (rnd64 v) in Nn. rewrite E in Nn.
      rewrite Rabs_pos_eq in Nn by (unfold v0 in Lv; lra). rewrite Rabs_left1 in Nn by lra. unfold w, v0 in *. lra.
    + assert (rnd64 v <= w) by (rewrite <- (rnd64_fmt w Fw); apply rnd64_le; lra). unfold w in *. lra.
  - intros Q. apply Rle_antisym.
    + rewrite <- (rnd64_fmt _ Fe). apply rnd64_le. apply Rmult_le_reg_r with (2 ^ 53); [exact N0|]. rewrite Ev, <- plus_IZR, <- P53, <- mult_IZR. apply IZR_le. lia.
    + apply Rle_trans with (rnd64 v0).
      * right. unfold rnd64, round, F2R. cbn [Fnum Fexp].
        assert (Ce : cexp radix2 fexp64 v0 = (j - 52)%Z).
        { unfold cexp. rewrite (mag_unique_pos radix2 v0 (j + 1)).
          - unfold fexp64, FLT_exp, SpecFloat.emin, emax64, prec64. lia.
          - replace (j + 1 - 1)%Z with j by lia. rewrite <- Ej, <- Ej1. assert (IZR (2 ^ j) <= IZR tb) by (apply IZR_le; lia).
            assert (IZR tb + 1 <= IZR (2 ^ (j + 1))) by (rewrite <- plus_IZR; apply IZR_le; lia). unfold v0. lra. }
        unfold scaled_mantissa. rewrite Ce. replace (v0 * bpow radix2 (- (j - 52))) with (IZR ((tb + 1) * 2 ^ (52 - j)) - / 2).
        -- rewrite nearest_half.
           ++ rewrite mult_IZR, (IZR_pow2 (52 - j)), plus_IZR, Rmult_assoc, <- bpow_plus by lia. replace (52 - j + (j - 52))%Z with 0%Z by lia. cbn [bpow]. lra.
           ++ rewrite Z.even_mul, Z.even_pow by lia. apply Bool.orb_true_r.
        -- unfold v0. rewrite Rmult_minus_distr_r. unfold h. rewrite <- bpow_plus. replace (j - 53 + - (j - 52))%Z with (-1)%Z by lia.
           rewrite mult_IZR, (IZR_pow2 (52 - j)), plus_IZR by lia. replace (- (j - 52))%Z with (52 - j)%Z by lia. change (bpow radix2 (-1)) with (/ 2). lra.
      * apply rnd64_le. apply Rmult_le_reg_r with (2 ^ 53); [exact N0|]. rewrite Ev. unfold v0. rewrite Rmult_minus_distr_r, Eh, <- plus_IZR, <- P53, <- mult_IZR, <- minus_IZR.
        apply IZR_le. lia.
Qed.

(** C97: how many of the 2^53 draws move a time up to the next bucket. *)
Theorem C97_next_bucket tb : (0 <= tb < 2 ^ 26)%Z ->
  tally (2 ^ 53) (fun k => Req_bool (R64 (smeared tb k)) (IZR tb + 1)) = (if tb =? 0 then 0 else 2 ^ Z.log2 tb)%Z.
Proof.
  intros T. destruct (Z.eqb_spec tb 0) as [->|Nz].
  - rewrite (tally_ext _ (fun k => (0 <=? k) && (k <? 0))%Z); [apply (tally_range 0 0 (2 ^ 53)); lia|lia|]. intros k K.
    replace ((0 <=? k) && (k <? 0))%Z with false by lia. apply Req_bool_false. rewrite smeared_value by lia.
    destruct (unit_val k K) as [Fk Vk]. rewrite Rplus_0_l, <- Vk, rnd64_fmt by apply fmt64_R. destruct (unit_draw_ok k K) as [_ D].
    assert (0 < / 2 ^ 53) by (apply Rinv_0_lt_compat, pow_lt; lra). lra.
  - destruct (Z.log2_spec tb ltac:(lia)) as [L1 L2]. set (j := Z.log2 tb) in *. rewrite <- Z.add_1_r in L2. pose proof (Z.log2_nonneg tb) as J0. fold j in J0.
    assert (J1 : (j < 26)%Z) by (apply (Z.log2_lt_pow2 tb 26); lia). assert (J2 : (0 < 2 ^ j <= 2 ^ 26)%Z) by (split; [apply Z.pow_pos_nonneg; lia|apply Z.pow_le_mono_r; lia]).
    rewrite (tally_ext _ (fun k => (2 ^ 53 - 2 ^ j <=? k) && (k <? 2 ^ 53))%Z); [|lia|].
    + rewrite (tally_range (2 ^ 53 - 2 ^ j) (2 ^ 53) (2 ^ 53)) by lia. lia.
    + intros k K. pose proof (moved_up tb j k ltac:(lia) ltac:(lia) K) as M. replace (k <? 2 ^ 53)%Z with true by lia. rewrite Bool.andb_true_r.
      destruct (Z.leb_spec (2 ^ 53 - 2 ^ j) k) as [Q|Q].
      * apply Req_bool_true. now apply M.
      * apply Req_bool_false. intros E. apply M in E. lia.
Qed.

(** C97: within its bucket the time is uniform. *)
Theorem C97_time tb x : (0 <= tb < 2 ^ 26)%Z -> 0 <= x <= 1 ->
  Rabs (IZR (tally (2 ^ 53) (fun k => Rle_bool (R64 (smeared tb k)) (IZR tb + x))) / 2 ^ 53 - x) <= (IZR tb + 3) / 2 ^ 53.
Proof.
  intros T Hx. assert (P53 : IZR (2 ^ 53) = 2 ^ 53) by (change (2 ^ 53)%Z with 9007199254740992%Z; ring).
  assert (T0 : 0 <= IZR tb) by (apply IZR_le; lia). assert (I0 : 0 < / 2 ^ 53) by (apply Rinv_0_lt_compat, pow_lt; lra).
  set (e := (IZR tb + 2) * / 2 ^ 53). assert (E0 : 0 <= e) by (apply Rmult_le_pos; lra).
  assert (C : forall k, (0 <= k < 2 ^ 53)%Z -> Rabs (R64 (smeared tb k) - (IZR tb + IZR k / 2 ^ 53)) <= e).
  { intros k K. rewrite smeared_value by lia. destruct (unit_draw_ok k K) as [_ D]. rewrite (proj2 (unit_val k K)) in D.
    eapply Rle_trans; [apply (rnd_bound _ (IZR tb + 1)); rewrite Rabs_pos_eq; lra|]. unfold e. pose proof eta_tiny as Et. destruct small_facts as (U0 & U1 & N0 & N1).
    Transparent u eta. unfold u, eta in *. Opaque u eta. assert (X : (IZR tb + 2) * / 2 ^ 53 = / 2 ^ 53 * (IZR tb + 1) + / 2 ^ 53) by ring. rewrite X.
    apply Rplus_le_compat_l. apply Rinv_le_contravar; [apply pow_lt; lra|apply Rle_pow; [lra|lia]]. }
  replace ((IZR tb + 3) / 2 ^ 53) with (e + / IZR (2 ^ 53)) by (rewrite P53; unfold e, Rdiv; ring).
  rewrite <- P53. apply tally_band; [lia|lra|exact E0| |]; rewrite P53.
  - intros k K Hk. apply Rle_bool_true. specialize (C k K). apply Rabs_le_inv in C. lra.
  - intros k K Hk. apply Rle_bool_false. specialize (C k K). apply Rabs_le_inv in C. lra.
Qed.

Lemma stays_spec tb k pad el : (0 <= tb < 2 ^ 26)%Z -> (0 <= k < 2 ^ 53)%Z -> in_window (mkPoint pad (smeared tb k) el) = stays tb k.
Proof.
  intros T K. pose proof (unit_smear k K) as U. destruct (C19_smearing tb _ pad el T U) as (F & B & H1 & H2 & _). fold (smeared tb k) in *. unfold stays.
  destruct (Z.leb_spec tb 510) as [Q|Q]; [now rewrite H2 by lia|]. cbn [orb]. destruct (Z.eqb_spec tb 511) as [->|Q'].
  - cbn [andb]. pose proof (moved_up 511 8 k ltac:(lia) ltac:(lia) K) as M. change (2 ^ 53 - 2 ^ 8)%Z with (2 ^ 53 - 256)%Z in M.
    destruct (Z.ltb_spec k (2 ^ 53 - 256)) as [S|S].
    + apply in_window_spec; [exact F|]. cbn [p_tb]. split; [lra|]. destruct (Req_dec (R64 (smeared 511 k)) 512) as [E|E]; [|rewrite plus_IZR in B; lra].
      exfalso. assert (X : R64 (smeared 511 k) = 511 + 1) by lra. apply M in X. lia.
    + assert (X : R64 (smeared 511 k) = 511 + 1) by (apply M; lia).
      destruct (in_window _) eqn:E; [|reflexivity]. apply in_window_spec in E; [|exact F]. cbn [p_tb] in E. lra.
  - cbn [andb]. apply H1. lia.
Qed.

(** ** The cloud *)
Section Cloud.
  Context (lds : list ldep) (Hd : forall d l, In (d, l) lds -> (d_tb d < 2 ^ 26)%Z /\ (0 <= d_pad d < 2 ^ 26)%Z).

  (** An entry of the dictionary that can become a point, or cannot. *)
  Definition entry_of (i : nat) (e : Z * (Z * Z)) (c : cell) : Prop :=
    c_place c = i /\ fst e = pair (c_tb c) (c_pad c) /\ (0 <= c_tb c < 2 ^ 26)%Z /\ (0 <= c_pad c < 2 ^ 26)%Z /\
    fst (snd e) = wrap64 (collected (c_tb c) (c_pad c) lds) /\ c_label c = snd (snd e) /\ last_on (c_tb c) (c_pad c) lds (c_label c).
  Lemma entries i e : In e (lpost_all lds []) -> fst e = (-1)%Z \/ exists c, entry_of i e c.
  Proof.
    destruct e as [k [ch l]]. intros Hk.
    assert (Hn : NoDup (map fst (lpost_all lds []))) by (apply lpost_all_nodup; constructor).
    pose proof (in_dget Z.eqb Zeqb_spec (lpost_all lds []) k (ch, l) Hn Hk) as Hg.
    fold (pget (lpost_all lds []) k) in Hg. rewrite lpost_all_get in Hg.
    destruct (last_label k lds) as [l'|] eqn:El; [|discriminate Hg].
    injection Hg as Ec0 ->. assert (Ec : wrap64 (ldue k lds) = ch) by (rewrite <- Ec0; reflexivity). clear Ec0.
    assert (Ht : ltouches k lds) by (apply last_label_touch; eauto).
    destruct Ht as (d & Hd1 & Ek). apply in_map_iff in Hd1 as ([d' l'] & E & Hd1). cbn in E. subst d'.
    destruct (Hd d l' Hd1) as (T & P). destruct (Z.ltb_spec (d_tb d) 0) as [Neg|Pos].
    - left. rewrite pair_negative in Ek by auto. now subst k.
    - right. exists (mkCell i (d_tb d) (d_pad d) l). unfold entry_of. cbn [c_place c_tb c_pad c_label fst snd]. subst k.
      split; [reflexivity|]. split; [reflexivity|]. split; [lia|]. split; [exact P|]. split.
      + rewrite <- Ec. f_equal. apply (ldue_collected lds (repeat (f_of_Z 0) (length (lpost_all lds []))) Hd (repeat_length _ _)); lia.
      + split; [reflexivity|]. apply (last_label_last_on lds (repeat (f_of_Z 0) (length (lpost_all lds []))) Hd (repeat_length _ _)); [lia|exact P|exact El].
  Qed.
  (** The entries from number [i] on, and the cells among them. *)
  Inductive listed : nat -> points -> list cell -> Prop :=
  | L_nil i : listed i [] []
  | L_skip i e pts cs : fst e = (-1)%Z -> listed (S i) pts cs -> listed i (e :: pts) cs
  | L_take i e pts c cs : entry_of i e c -> listed (S i) pts cs -> listed i (e :: pts) (c :: cs).
  Lemma listing pts : forall i, (forall e, In e pts -> In e (lpost_all lds [])) -> exists cs, listed i pts cs.
  Proof.
    induction pts as [|e pts IH]; intros i I; [exists []; constructor|].
    destruct (IH (S i)) as (cs & L); [intros; apply I; now right|]. destruct (entries i e) as [N|(c & E)]; [apply I; now left| |].
    - exists cs. now apply L_skip.
    - exists (c :: cs). now apply L_take.
  Qed.
  Lemma listed_kept p d i pts cs : valid d -> listed i pts cs ->
    let us := map (fun j => uval (f_of_Z 0) (f_of_Z 1) (d (p + j)%nat)) (seq i (length pts)) in
    let kc := filter (fun c => stays (c_tb c) (d (p + c_place c)%nat)) cs in
    map pt_of (kept pts us) = map (fun c => cell_point (fun j => d (p + j)%nat) lds c) kc /\ map lab_of (kept pts us) = map c_label kc.
  Proof.
    intros Vd L. induction L as [i|i e pts cs N L IH|i e pts c cs E L IH]; cbv zeta in *; [split; reflexivity| |].
    - cbn [length seq map combine]. unfold kept in *. cbn [combine filter].
      replace (in_window _) with false; [exact IH|]. symmetry. unfold pt_of. cbn [fst snd]. rewrite N. apply C19_negative_times_dropped, unit_smear, Vd.
    - cbn [length seq map combine]. unfold kept in *. cbn [combine filter].
      destruct E as (Ep & Ek & Bt & Bp & Ec & El & _).
      assert (Pt : pt_of (e, uval (f_of_Z 0) (f_of_Z 1) (d (p + i)%nat)) = cell_point (fun j => d (p + j)%nat) lds c).
      { unfold pt_of, cell_point, smeared. cbn [fst snd]. rewrite Ek, Ec, Ep, unpair_pair by lia. reflexivity. }
      rewrite Pt. unfold cell_point at 1 3. rewrite stays_spec by (try exact Bt; apply Vd).
      destruct (stays (c_tb c) (d (p + c_place c)%nat)); [|exact IH]. cbn [map]. rewrite Pt. destruct IH as [I1 I2]. rewrite I1, I2, El. split; reflexivity.
  Qed.
  Lemma listed_places i pts cs : listed i pts cs -> (forall c, In c cs -> (i <= c_place c < i + length pts)%nat) /\ NoDup (map c_place cs).
  Proof.
    induction 1 as [i|i e pts cs N L [I1 I2]|i e pts c cs E L [I1 I2]]; cbn [length map].
    - split; [intros c []|constructor].
    - split; [intros c Ic; specialize (I1 c Ic); lia|exact I2].
    - destruct E as (Ep & _). split.
      + intros c' [<-|Ic]; [lia|specialize (I1 c' Ic); lia].
      + constructor; [|exact I2]. intros Ic. apply in_map_iff in Ic as (c' & Ec & Ic). specialize (I1 c' Ic). lia.
  Qed.
  Lemma listed_cells i pts cs : listed i pts cs -> NoDup (map fst pts) -> NoDup (map (fun c => (c_tb c, c_pad c)) cs) /\
    (forall c, In c cs -> In (pair (c_tb c) (c_pad c)) (map fst pts) /\ last_on (c_tb c) (c_pad c) lds (c_label c)) /\
    (forall tb pad, (0 <= tb < 2 ^ 26)%Z -> (0 <= pad < 2 ^ 26)%Z -> In (pair tb pad) (map fst pts) -> exists c, In c cs /\ c_tb c = tb /\ c_pad c = pad).
  Proof.
    induction 1 as [i|i e pts cs N L IH|i e pts c cs E L IH]; cbn [map]; intros Nd.
    - split; [constructor|]. split; [intros c []|intros tb pad _ _ []].
    - apply NoDup_cons_iff in Nd as [_ Nd]. destruct (IH Nd) as (I1 & I2 & I3). split; [exact I1|]. split.
      + intros c Ic. destruct (I2 c Ic) as [J1 J2]. split; [now right|exact J2].
      + intros tb pad Bt Bp [Q|Q]; [|now apply I3]. exfalso. rewrite N, (pair_nowrap tb pad) in Q by lia. destruct (pad <=? tb)%Z; nia.
    - apply NoDup_cons_iff in Nd as [Nn Nd]. destruct (IH Nd) as (I1 & I2 & I3). destruct E as (_ & Ek & Bt & Bp & _ & _ & Lo). split; [|split].
      + constructor; [|exact I1]. intros Ic. apply in_map_iff in Ic as (c' & Ec & Ic). apply Nn. rewrite Ek. destruct (I2 c' Ic) as [J _]. congruence.
      + intros c' [<-|Ic]; [split; [left; exact Ek|exact Lo]|]. destruct (I2 c' Ic) as [J1 J2]. split; [now right|exact J2].
      + intros tb pad Bt' Bp' [Q|Q].
        * exists c. split; [now left|]. rewrite Ek in Q. apply pair_inj_nowrap in Q as [-> ->]; try lia.
        * destruct (I3 tb pad Bt' Bp' Q) as (c' & Ic & J). exists c'. split; [now right|exact J].
  Qed.
End Cloud.

Section Theorems.
  Context (fexp : f64 -> f64) {H Nuc Mom Vtx Vel : Type}.
  Context (get_data : Z -> Z -> res Nuc)
    (generate_trajectory : Vtx -> Mom -> Nuc -> config fexp -> res (list (@traj Vel)))
    (generate_electrons : list (@traj Vel) -> Nuc -> config fexp -> nat * H -> list Z * (nat * H)).
  Notation sim d := (simulate fexp get_data generate_trajectory generate_electrons (uniform_at d)).

  (** C97: once the charge of an event has been collected, the returned cloud is a known function of the next
      draws, one for each pad and bucket hit: every cell becomes one point, in the order of the first deposits,
      unless its draw takes it out of the window. *)
  Theorem C97_cloud momenta vertex zs ms (c : config fexp) rng indices g ge l p h lds :
    c_grid fexp c = Some g -> c_edges fexp c = Some ge -> (forall i j, (-1 <= gr_cell g i j < 2 ^ 26)%Z) ->
    SpecSim.near fexp generate_trajectory momenta vertex c ->
    tracks fexp get_data generate_trajectory generate_electrons momenta vertex zs ms c indices rng l (p, h) ->
    event_ledger (N := F64 fexp) g ge (c_diffusion fexp c) (c_efield fexp c) (c_drift fexp c) l lds ->
    exists n cells, NoDup (map c_place cells) /\ (forall x, In x cells -> (p <= c_place x < p + n)%nat) /\
      NoDup (map (fun x => (c_tb x, c_pad x)) cells) /\
      (forall tb pad, (0 <= tb)%Z -> hit lds tb pad <-> exists x, In x cells /\ c_tb x = tb /\ c_pad x = pad) /\
      (forall x, In x cells -> (0 <= c_tb x)%Z /\ last_on (c_tb x) (c_pad x) lds (c_label x)) /\
      forall d, valid d -> let kc := filter (fun x => stays (c_tb x) (d (c_place x))) cells in
        sim d momenta vertex zs ms c rng indices = Ok ((map (cell_point d lds) kc, map c_label kc), ((p + n)%nat, h)).
  Proof.
    intros Hg He Hp Hn Ht Hl.
    assert (Hd : forall d lab, In (d, lab) lds -> (d_tb d < 2 ^ 26)%Z /\ (0 <= d_pad d < 2 ^ 26)%Z).
    { intros d lab Hi.
      destruct (deposits_ok fexp get_data generate_trajectory generate_electrons momenta vertex zs ms c g ge indices rng l (p, h) lds d lab Ht Hl Hi)
        as (_ & T & N1 & _ & i & j & _ & _ & E).
      specialize (T Hn). specialize (Hp i j). rewrite E in Hp. lia. }
    set (pts := lpost_all lds []). assert (Nd : NoDup (map fst pts)) by (apply lpost_all_nodup; constructor).
    destruct (listing lds Hd pts 0 ltac:(auto)) as (cs & L).
    destruct (listed_places lds 0 pts cs L) as (P1 & P2). destruct (listed_cells lds 0 pts cs L Nd) as (Q1 & Q2 & Q3).
    exists (length pts), (map (fun x => mkCell (p + c_place x) (c_tb x) (c_pad x) (c_label x)) cs).
    split.
    { rewrite map_map. cbn [c_place]. rewrite <- (map_map c_place (fun j => (p + j)%nat)). apply FinFun.Injective_map_NoDup; [intros a b; lia|exact P2]. }
    split.
    { intros x Ix. apply in_map_iff in Ix as (y & <- & Iy). cbn [c_place]. specialize (P1 y Iy). lia. }
    split; [rewrite map_map; exact Q1|]. split; [|split].
    - intros tb pad T0. split.
      + intros (d & lab & Id & Et & Ep). destruct (Hd d lab Id) as (B1 & B2). rewrite Et in B1. rewrite Ep in B2.
        destruct (Q3 tb pad ltac:(lia) B2) as (y & Iy & Y1 & Y2).
        { apply lpost_all_keys. right. exists d. split; [apply (in_map fst _ _ Id)|congruence]. }
        exists (mkCell (p + c_place y) (c_tb y) (c_pad y) (c_label y)). cbn [c_tb c_pad]. split; [|split; assumption]. apply (in_map (fun x => mkCell (p + c_place x) (c_tb x) (c_pad x) (c_label x))). exact Iy.
      + intros (x & Ix & X1 & X2). apply in_map_iff in Ix as (y & <- & Iy). cbn [c_tb c_pad] in *. destruct (Q2 y Iy) as (_ & b & d & a & E & E1 & E2 & _).
        exists d, (c_label y). split; [rewrite E; apply in_or_app; right; now left|]. split; congruence.
    - intros x Ix. apply in_map_iff in Ix as (y & <- & Iy). cbn [c_tb c_pad c_label]. split; [|apply (Q2 y Iy)].
      clear - L Iy. induction L as [i|i e pts cs N L IH|i e pts c cs E L IH]; [destruct Iy|now apply IH|]. destruct Iy as [<-|Iy]; [apply E|now apply IH].
    - intros d Vd. cbv zeta. apply (simulate_iff _ _ _ _ _ _ _ _ _ _ g ge Hg He).
      exists l, (p, h), lds, (map (fun i => uval (f_of_Z 0) (f_of_Z 1) (d (p + i)%nat)) (seq 0 (length pts))).
      split; [exact Ht|]. split; [exact Hl|]. fold pts. split; [reflexivity|]. cbv zeta.
      destruct (cloud_kept pts (map (fun i => uval (f_of_Z 0) (f_of_Z 1) (d (p + i)%nat)) (seq 0 (length pts)))) as (K1 & K2); [now rewrite map_length, seq_length|].
      cbv zeta in K1, K2. rewrite K1, K2. destruct (listed_kept lds p d 0 pts cs Vd L) as (M1 & M2). cbv zeta in M1, M2. rewrite M1, M2.
      clear. induction cs as [|x cs IH]; [split; reflexivity|]. cbn [map filter]. destruct IH as [I1 I2].
      cbn [c_tb c_place]. destruct (stays (c_tb x) (d (p + c_place x)%nat)); cbn [map]; rewrite I1, I2; split; reflexivity.
  Qed.
End Theorems.

(** C97: how many values of its draw lose a point. *)
Theorem C97_lost tb : (0 <= tb < 2 ^ 26)%Z ->
  tally (2 ^ 53) (fun k => negb (stays tb k)) = (if tb <=? 510 then 0 else if tb =? 511 then 256 else 2 ^ 53)%Z.
Proof.
  intros T. rewrite (tally_ext _ (fun k => ((if tb <=? 510 then 2 ^ 53 else if tb =? 511 then 2 ^ 53 - 256 else 0) <=? k) && (k <? 2 ^ 53))%Z); [|lia|].
  - rewrite tally_range by (destruct (tb <=? 510)%Z, (tb =? 511)%Z; lia). destruct (tb <=? 510)%Z, (tb =? 511)%Z; lia.
  - intros k K. unfold stays. destruct (Z.leb_spec tb 510), (Z.eqb_spec tb 511); cbn [orb andb negb]; lia.
Qed.

Lemma filter_within {A} (f g : A -> bool) (l : list A) : (forall x, f x = true -> g x = true) -> filter f l = filter f (filter g l).
Proof.
  intros H. induction l as [|x l IH]; [reflexivity|]. cbn [filter]. destruct (g x) eqn:Eg.
  - cbn [filter]. now rewrite IH.
  - destruct (f x) eqn:Ef; [rewrite (H x Ef) in Eg; discriminate|exact IH].
Qed.

(** ** A concrete event: one nucleus, electrons in bucket 511 and one row in bucket 1024. *)
Section Example.
  Context (fexp : f64 -> f64).
  Definition sm_traj (v : unit) (m : Z) (n : Z) (c : config fexp) : res (list (@traj unit)) :=
    Ok [mkTraj (f_of_Z 0) (f_of_Z 0) (f_of_ZE 1 (-9)) tt; mkTraj (f_of_Z 0) (f_of_Z 0) (f_of_Z (-1)) tt].
  Definition sm_electrons (t : list (@traj unit)) (n : Z) (c : config fexp) (g : nat * Z) : list Z * (nat * Z) := ([n; 7%Z], (fst g, snd g + 1)%Z).
  Definition sm_config : config fexp := mkConfig fexp (f_of_Z 1) (f_of_Z 1) (f_of_Z 0) (f_of_ZE 1 (-9)) 10 0 (Some (ex_grid 300)) (Some (ex_edges fexp)).
  Definition sm_sim (d : nat -> Z) := simulate fexp (fun z a => Ok (100 * z + a)%Z) sm_traj sm_electrons (uniform_at d) [0%Z] tt [1%Z] [1%Z] sm_config (0%nat, 0%Z) [0%Z].

  (** The cloud has one point, and for 256 of the values of one of the draws none. *)
  Example C97_cloud_example : exists p, forall d, valid d -> exists cloud labels st, sm_sim d = Ok ((cloud, labels), st) /\
    length cloud = if (d p <? 2 ^ 53 - 256)%Z then 1%nat else 0%nat.
  Proof.
    set (d0 := fun _ : nat => 0%Z). assert (V0 : valid d0) by (intros k; unfold d0; lia).
    assert (W : match sm_sim d0 with Ok (([q], _), _) => feqb (p_tb q) (f_of_Z 511) | _ => false end = true) by (vm_compute; reflexivity).
    destruct (sm_sim d0) as [[[cloud labels] rng']|] eqn:E; [|discriminate W].
    assert (Lc : length cloud = 1%nat) by (destruct cloud as [|q [|? ?]]; [discriminate W|reflexivity|discriminate W]).
    unfold sm_sim in E. pose proof E as E'. apply (simulate_iff _ _ _ _ _ _ _ _ _ sm_config (ex_grid 300) (ex_edges fexp) eq_refl eq_refl) in E'.
    destruct E' as (l & [p h] & lds & us & Ht & Hl & _).
    assert (Nr : SpecSim.near fexp sm_traj [0%Z] tt sm_config).
    { intros q nuc track t tb _ Et It Hb.
      assert (Hz : t_z t = f_of_ZE 1 (-9) \/ t_z t = f_of_Z (-1)).
      { unfold sm_traj in Et. apply (f_equal (fun r => match r with Ok x => x | _ => [] end)) in Et.
        cbv beta match in Et. rewrite <- Et in It. destruct It as [<-|[<-|[]]]; auto. }
      assert (A : f_to_Z (drift_time fexp sm_config (f_of_ZE 1 (-9))) = Some 511%Z) by (vm_compute; reflexivity).
      assert (B : f_to_Z (drift_time fexp sm_config (f_of_Z (-1))) = Some 1024%Z) by (vm_compute; reflexivity).
      destruct Hz as [Hz|Hz]; rewrite Hz in Hb; [rewrite A in Hb|rewrite B in Hb]; assert (Q : tb = 511%Z \/ tb = 1024%Z) by (first [left; congruence|right; congruence]); lia. }
    destruct (C97_cloud fexp _ _ _ [0%Z] tt [1%Z] [1%Z] sm_config (0%nat, 0%Z) [0%Z] (ex_grid 300) (ex_edges fexp) l p h lds eq_refl eq_refl ltac:(intros; cbn; lia) Nr Ht Hl)
      as (n & cells & _ & _ & _ & _ & Cp & All).
    pose proof (All d0 V0) as E0. cbv zeta in E0. rewrite E in E0.
    assert (Ec : cloud = map (cell_point d0 lds) (filter (fun x => stays (c_tb x) (d0 (c_place x))) cells)) by congruence.
    assert (F0 : forall d, valid d -> filter (fun x => stays (c_tb x) (d (c_place x))) cells
                   = filter (fun x => stays (c_tb x) (d (c_place x))) (filter (fun x => stays (c_tb x) (d0 (c_place x))) cells)).
    { intros d Vd. apply filter_within. intros x Sx. unfold d0, stays in *. specialize (Vd (c_place x)). lia. }
    destruct (filter (fun x => stays (c_tb x) (d0 (c_place x))) cells) as [|x [|? ?]] eqn:Ef; rewrite Ec in Lc; cbn [map length] in Lc; try discriminate Lc.
    assert (Ix : In x cells /\ stays (c_tb x) 0 = true) by (apply (filter_In (fun x => stays (c_tb x) (d0 (c_place x)))); rewrite Ef; now left).
    destruct Ix as (Ix & Sx). destruct (Cp x Ix) as (Tx & _).
    assert (Tb : c_tb x = 511%Z).
    { assert (Tu : (c_tb x <= 511)%Z) by (unfold stays in Sx; lia).
      rewrite Ec in W. cbn [map cell_point p_tb] in W. unfold d0 in W.
      destruct (smear_bounds (c_tb x) _ ltac:(lia) (unit_smear 0 ltac:(lia))) as (F & B). fold (smeared (c_tb x) 0) in F, B.
      rewrite feqb_R in W by (auto; apply f_of_Z_fin; lia). rewrite (f_of_Z_R 511), smeared_value in W by lia.
      replace (IZR (c_tb x) + 0 / 2 ^ 53) with (IZR (c_tb x)) in W by lra. rewrite rnd64_fmt in W by (apply fmt64_IZR; lia).
      destruct (Req_bool_spec (IZR (c_tb x)) 511) as [Q|Q]; [now apply eq_IZR|discriminate W]. }
    exists (c_place x). intros d Vd. pose proof (All d Vd) as Ed. cbv zeta in Ed.
    eexists _, _, _. split; [exact Ed|]. rewrite map_length, (F0 d Vd). cbn [filter]. rewrite Tb. unfold stays. cbn [Z.leb Z.compare Z.eqb orb andb].
    replace (511 <=? 510)%Z with false by reflexivity. replace (511 =? 511)%Z with true by reflexivity. cbn [orb andb]. now destruct (_ <? _)%Z.
  Qed.
End Example.
Example C97_time_example : tally (2 ^ 53) (fun k => Req_bool (R64 (smeared 300 k)) (300 + 1)) = 256%Z /\
  Rabs (IZR (tally (2 ^ 53) (fun k => Rle_bool (R64 (smeared 300 k)) (300 + 1 / 4))) / 2 ^ 53 - 1 / 4) <= / 2 ^ 44.
Proof.
  split; [exact (C97_next_bucket 300 ltac:(lia))|]. eapply Rle_trans; [apply (C97_time 300 (1 / 4)); [lia|lra]|]. lra.
Qed.

Print Assumptions C97_next_bucket.
Print Assumptions C97_time.
Print Assumptions C97_cloud.
Print Assumptions C97_lost.
