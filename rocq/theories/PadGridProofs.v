(** PadGridProofs.v -- facts about the packaged grid, by computation over the data. *)
From Coq Require Import ZArith Reals Lra.
From Flocq Require Import Core BinarySingleNaN Relative.
From Verif Require Import Base F64 Num Transporter PositionProofs PadGridData PadCentersData PadGrid.
Local Open Scope Z_scope.
Local Opaque grid_rows pad_centers_e7.

Lemma grid_rows_ok :
  forallb (forallb (fun c => (0 <=? c) && (c <? 10486784))) grid_rows = true.
Proof. vm_compute. reflexivity. Qed.

Lemma rle_get_range l j :
  forallb (fun c => (0 <=? c) && (c <? 10486784)) l = true -> -1 <= rle_get l j <= 10239.
Proof.
  revert j. induction l as [|c l IH]; intros j H; simpl; [lia|].
  simpl in H. apply andb_prop in H as [H1 H2].
  destruct (j <? c mod 1024); [|now apply IH].
  assert (0 <= c / 1024 <= 10240); [|lia].
  split; [apply Z.div_pos; lia|]. apply Z.lt_succ_r, Z.div_lt_upper_bound; lia.
Qed.

(** Every cell holds -1 or one of the 10240 pads. *)
Lemma packaged_cell_range i j : -1 <= gr_cell packaged_grid i j <= 10239.
Proof.
  unfold packaged_grid. cbn [gr_cell]. apply rle_get_range.
  pose proof grid_rows_ok as H. rewrite forallb_forall in H.
  destruct (nth_in_or_default (Z.to_nat (i / 10)) grid_rows []) as [Hi|E].
  - now apply H in Hi.
  - rewrite E. reflexivity.
Qed.

(** Two roundings cannot move a decimal with 7 digits (in mm) across an integer. *)
Lemma rnd_rel x : (bpow radix2 (-1000) <= Rabs x)%R ->
  exists eps, (Rabs eps <= bpow radix2 (-53))%R /\ (rnd64 x = x * (1 + eps))%R.
Proof.
  intros H.
  destruct (relative_error_N_FLT_ex radix2 (SpecFloat.emin prec64 emax64) prec64
              ltac:(reflexivity) (fun t => negb (Z.even t)) x) as (eps & He & E).
  - apply Rle_trans with (2 := H). apply bpow_le. unfold SpecFloat.emin, prec64, emax64. lia.
  - exists eps. split; [|exact E]. apply Rle_trans with (1 := He).
    change (/ 2)%R with (bpow radix2 (-1)). rewrite <- bpow_plus. apply bpow_le.
    unfold prec64. lia.
Qed.

Lemma mm_decimal n : Z.abs n <= 3000000000 -> n mod 10000000 <> 0 ->
  mm (fdiv (f_of_Z n) (f_of_Z 10000000000)) = Some (n / 10000000).
Proof.
  intros Hn Hm.
  destruct (f_of_Z_correct n ltac:(lia)) as (Rn & Fn & _).
  destruct (f_of_Z_correct 10000000000 ltac:(lia)) as (Rd & Fd & _).
  assert (n <> 0) by (intros ->; now apply Hm).
  assert (Hb : (bpow radix2 (-1000) <= / 10000000000)%R).
  { apply Rle_trans with (bpow radix2 (-40)); [apply bpow_le; lia|].
    change (bpow radix2 (-40)) with (/ IZR (2 ^ 40))%R. apply Rinv_le; [apply IZR_lt; lia|].
    apply IZR_le. lia. }
  assert (Habs : (1 <= Rabs (IZR n))%R) by (rewrite <- abs_IZR; apply IZR_le; lia).
  destruct (rnd_rel (IZR n / IZR 10000000000)) as (e1 & He1 & E1).
  { unfold Rdiv. rewrite Rabs_mult, (Rabs_pos_eq (/ _)) by (apply Rlt_le, Rinv_0_lt_compat, IZR_lt; lia).
    nra. }
  assert (B53 : (bpow radix2 (-53) <= / 9000000000000000)%R).
  { change (bpow radix2 (-53)) with (/ IZR (2 ^ 53))%R. apply Rinv_le; [apply IZR_lt; lia|].
    apply IZR_le. lia. }
  assert (He1' : (Rabs e1 <= / 9000000000000000)%R) by lra.
  assert (Hn' : (Rabs (IZR n) <= 3000000000)%R) by (rewrite <- abs_IZR; now apply IZR_le).
  apply Rabs_le_inv in He1'. 
  assert (Small : (Rabs (rnd64 (IZR n / IZR 10000000000)) < bpow radix2 emax64)%R).
  { apply Rle_lt_trans with (IZR 1); [|apply Rle_lt_trans with (2 := bpow1024_big);
      rewrite <- IZR_pow2 by lia; apply IZR_le; lia].
    apply Rabs_le. split.
    - rewrite <- opp_IZR. apply rnd64_ge_IZR; [lia|]. rewrite opp_IZR.
      apply Rabs_le_inv in Hn'. unfold Rdiv. lra.
    - apply rnd64_le_IZR; [lia|]. apply Rabs_le_inv in Hn'. unfold Rdiv. lra. }
  pose proof (Bdiv_correct prec64 emax64 _ _ mode_NE (f_of_Z n) (f_of_Z 10000000000)) as C.
  fold (fdiv (f_of_Z n) (f_of_Z 10000000000)) in C. simpl round_mode in C. rewrite Rn, Rd in C.
  specialize (C ltac:(apply IZR_neq; lia)).
  rewrite Rlt_bool_true in C by exact Small. destruct C as (C1 & C2 & _).
  unfold mm. rewrite C2, Fn, C1. f_equal.
  destruct (rnd_rel (rnd64 (IZR n / IZR 10000000000) * 1000)) as (e2 & He2 & E2).
  { rewrite E1. unfold Rdiv. rewrite !Rabs_mult.
    rewrite (Rabs_pos_eq (/ _)) by (apply Rlt_le, Rinv_0_lt_compat, IZR_lt; lia).
    rewrite (Rabs_pos_eq 1000) by lra. rewrite (Rabs_pos_eq (1 + e1)) by lra.
    nra. }
  assert (He2' : (Rabs e2 <= / 9000000000000000)%R) by lra.
  apply Rabs_le_inv in He2'.
  rewrite E2, E1. apply Zfloor_imp.
  set (k := n / 10000000) in *.
  assert (Hk : 10000000 * k + 1 <= n <= 10000000 * (k + 1) - 1).
  { pose proof (Z.div_mod n 10000000 ltac:(lia)).
    pose proof (Z.mod_pos_bound n 10000000 ltac:(lia)). fold k in H0. lia. }
  destruct Hk as [Hk1 Hk2]. apply IZR_le in Hk1, Hk2.
  rewrite plus_IZR, mult_IZR in Hk1. rewrite minus_IZR, mult_IZR, plus_IZR in Hk2.
  rewrite plus_IZR.
  set (d := (IZR n * ((1 + e1) * (1 + e2) - 1))%R).
  assert (Hd : (Rabs d <= /2)%R).
  { unfold d. rewrite Rabs_mult.
    assert (Hq : (Rabs ((1 + e1) * (1 + e2) - 1) <= 3 * / 9000000000000000)%R).
    { apply Rabs_le. nra. }
    apply Rle_trans with (3000000000 * (3 * / 9000000000000000))%R; [|lra].
    apply Rmult_le_compat; try apply Rabs_pos; assumption. }
  apply Rabs_le_inv in Hd.
  replace (IZR n / 10000000000 * (1 + e1) * 1000 * (1 + e2))%R
    with ((IZR n + d) / 10000000)%R by (unfold d; field).
  split; [|]; unfold Rdiv; nra.
Qed.

Lemma mm_zero : mm (fdiv (f_of_Z 0) (f_of_Z 10000000000)) = Some 0.
Proof.
  unfold mm.
  assert (E : fdiv (f_of_Z 0) (f_of_Z 10000000000) = B754_zero false) by reflexivity.
  rewrite E. simpl. rewrite Rmult_0_l. f_equal.
  rewrite (rnd64_IZR 0) by lia. now rewrite Zfloor_IZR.
Qed.

(** Look-up at a listed centre, on integers. *)
Definition center_cell (c : Z * Z) : Z :=
  rle_get (nth (Z.to_nat (fst c / 10000000 + 280)) grid_rows []) (snd c / 10000000 + 280).

Definition coord_ok (n : Z) : bool :=
  (n =? 0) || ((Z.abs n <=? 2789999999) && negb (n mod 10000000 =? 0)).

Lemma coord_ok_mm n : coord_ok n = true ->
  mm (fdiv (f_of_Z n) (f_of_Z 10000000000)) = Some (n / 10000000) /\
  -280 <= n / 10000000 <= 278.
Proof.
  unfold coord_ok. intros H. destruct (Z.eqb_spec n 0) as [E|Hn].
  - rewrite E. split; [apply mm_zero|]. now split.
  - simpl in H. apply andb_prop in H as [H1 H2]. split.
    + apply mm_decimal; lia.
    + split; [apply Z.div_le_lower_bound; lia|].
      apply Z.lt_succ_r, Z.div_lt_upper_bound; lia.
Qed.

Lemma not_nan_of_mm x k : mm x = Some k -> is_nan64 x = false.
Proof. unfold mm. destruct x; simpl; try reflexivity; discriminate. Qed.

Lemma looked_up_center fexp c : coord_ok (fst c) = true -> coord_ok (snd c) = true ->
  looked_up fexp (center_m c) = Ok (center_cell c).
Proof.
  intros H1 H2. destruct c as [nx ny]. cbn [fst snd] in *.
  apply coord_ok_mm in H1 as (Ex & Bx). apply coord_ok_mm in H2 as (Ey & By).
  unfold looked_up, center_m. cbn [fst snd].
  rewrite position_to_index_packaged by (eapply not_nan_of_mm; eassumption).
  rewrite Ex, Ey.
  assert (Ix : in_plane (Some (nx / 10000000)) = true) by (unfold in_plane; lia).
  assert (Iy : in_plane (Some (ny / 10000000)) = true) by (unfold in_plane; lia).
  rewrite Ix, Iy. cbn [andb bind].
  set (kx := nx / 10000000) in *. set (ky := ny / 10000000) in *.
  replace ((10 * (kx + 280) =? -1) || (10 * (ky + 280) =? -1))%bool with false by lia.
  unfold grid_get, axis_index, packaged_grid. cbn [gr_rows gr_cols gr_cell].
  replace (10 * (kx + 280) <? 0) with false by lia.
  replace ((0 <=? 10 * (kx + 280)) && (10 * (kx + 280) <? 5600)) with true by lia.
  replace (10 * (ky + 280) <? 0) with false by lia.
  replace ((0 <=? 10 * (ky + 280)) && (10 * (ky + 280) <? 5600)) with true by lia.
  cbn [bind]. rewrite !(Z.mul_comm 10), !Z.div_mul by lia. reflexivity.
Qed.

(** The pads whose own centre is attributed to another pad or to none (-1). *)
Definition wrong_centers : list (Z * Z) :=
  [(172,-1); (215,-1); (260,-1); (340,338); (345,343); (348,-1); (363,360); (366,-1); (385,383);
   (388,386); (393,-1); (406,-1); (411,-1); (428,426); (433,431); (436,-1); (451,-1); (454,-1);
   (468,466); (473,471); (476,474); (481,-1); (491,488); (494,-1); (499,-1); (513,511); (516,514);
   (521,519); (524,-1); (534,533); (539,-1); (556,554); (561,559); (564,562); (760,-1); (803,-1);
   (848,-1); (916,914); (921,919); (924,-1); (939,936); (942,-1); (961,959); (964,962); (969,-1);
   (982,-1); (987,-1); (1004,1002); (1009,1007); (1012,-1); (1027,-1); (1030,-1); (1044,1042); (1049,1047);
   (1052,1050); (1057,-1); (1067,1064); (1070,-1); (1075,-1); (1089,1087); (1092,1090); (1097,1095); (1100,-1);
   (1110,1109); (1115,-1); (1132,1130); (1323,-1); (1366,-1); (1470,1468); (1473,-1); (1488,1485); (1491,-1);
   (1510,1508); (1513,1511); (1518,-1); (1531,-1); (1536,-1); (1553,1551); (1558,1556); (1561,-1); (1576,-1);
   (1579,-1); (1593,1591); (1598,1596); (1601,1599); (1606,-1); (1616,1613); (1619,-1); (1624,-1); (1638,1636);
   (1641,1639); (1646,1644); (1649,-1); (1659,1658); (1664,-1); (1859,-1); (1902,-1); (2012,2009); (2015,-1);
   (2034,2032); (2037,2035); (2042,-1); (2055,-1); (2060,-1); (2077,2075); (2082,2080); (2085,-1); (2100,-1);
   (2103,-1); (2117,2115); (2122,2120); (2125,2123); (2130,-1); (2140,2137); (2143,-1); (2148,-1); (2162,2160);
   (2165,2163); (2170,2168); (2173,-1); (2183,2182); (2188,-1); (2370,-1); (2413,-1); (2509,2506); (2512,-1);
   (2531,2529); (2534,2532); (2539,-1); (2552,-1); (2557,-1); (2574,2572); (2579,2577); (2582,-1); (2597,-1);
   (2600,-1); (2614,2612); (2619,2617); (2622,2620); (2627,-1); (2637,2634); (2640,-1); (2645,-1); (2659,2657);
   (2662,2660); (2667,2665); (2670,-1); (2680,2679); (2853,-1); (2896,-1); (2980,-1); (2999,2997); (3002,3000);
   (3007,-1); (3020,3019); (3025,-1); (3042,3040); (3047,3045); (3050,-1); (3065,-1); (3068,-1); (3082,3080);
   (3087,3085); (3090,3088); (3095,-1); (3105,3102); (3108,-1); (3113,-1); (3127,3125); (3130,3128); (3135,3133);
   (3138,-1); (3306,-1); (3349,-1); (3438,3436); (3441,3439); (3446,-1); (3459,3458); (3464,-1); (3481,3479);
   (3486,3484); (3489,-1); (3504,-1); (3507,-1); (3521,3519); (3526,3524); (3529,3527); (3534,-1); (3544,3541);
   (3547,-1); (3552,-1); (3566,3564); (3569,3567); (3730,-1); (3773,-1); (3846,3844); (3849,3847); (3854,-1);
   (3867,3866); (3872,-1); (3889,3887); (3894,3892); (3897,-1); (3912,-1); (3915,-1); (3929,3927); (3934,3932);
   (3937,3935); (3942,-1); (3952,3949); (3955,-1); (3960,-1); (5146,-1); (5163,5161); (5168,5166); (5171,-1);
   (5186,5183); (5189,-1); (5208,5206); (5211,5209); (5216,-1); (5229,-1); (5234,-1); (5251,5249); (5256,5254);
   (5259,-1); (5274,-1); (5277,-1); (5291,5289); (5296,5294); (5299,5297); (5304,-1); (5314,5311); (5317,-1);
   (5336,5334); (5339,5337); (5344,5342); (5347,-1); (5357,5356); (5362,-1); (5379,5377); (5384,5382); (5387,5385);
   (5392,-1); (5589,-1); (5632,-1); (5677,-1); (5751,5749); (5756,5754); (5759,-1); (5774,5771); (5777,-1);
   (5796,5794); (5799,5797); (5804,-1); (5817,-1); (5822,-1); (5839,5837); (5844,5842); (5847,-1); (5862,-1);
   (5865,-1); (5879,5877); (5884,5882); (5887,5885); (5892,-1); (5902,5899); (5905,-1); (5924,5922); (5927,5925);
   (5932,5930); (5935,-1); (5945,5944); (5950,-1); (5967,5965); (5972,5970); (5975,5973); (6165,-1); (6208,-1);
   (6253,-1); (6314,6312); (6319,6317); (6322,-1); (6337,-1); (6340,-1); (6359,6357); (6362,6360); (6367,-1);
   (6380,-1); (6385,-1); (6402,6400); (6407,6405); (6410,-1); (6425,-1); (6428,-1); (6442,6440); (6447,6445);
   (6450,6448); (6455,-1); (6465,6462); (6468,-1); (6487,6485); (6490,6488); (6495,6493); (6498,-1); (6508,6507);
   (6513,-1); (6530,6528); (6714,-1); (6757,-1); (6855,6854); (6858,-1); (6873,-1); (6876,-1); (6895,6893);
   (6898,6896); (6903,-1); (6916,-1); (6921,-1); (6938,6936); (6943,6941); (6946,-1); (6961,-1); (6964,-1);
   (6978,6976); (6983,6981); (6986,6984); (6991,-1); (7001,6998); (7004,-1); (7023,7021); (7026,7024); (7031,7029);
   (7034,-1); (7044,7043); (7049,-1); (7238,-1); (7281,-1); (7384,-1); (7387,-1); (7406,7404); (7409,7407);
   (7414,-1); (7427,-1); (7432,-1); (7449,7447); (7454,7452); (7457,-1); (7472,-1); (7475,-1); (7489,7487);
   (7494,7492); (7497,7495); (7502,-1); (7512,7509); (7515,-1); (7534,7532); (7537,7535); (7542,7540); (7545,-1);
   (7555,7554); (7560,-1); (7735,-1); (7778,-1); (7867,-1); (7870,-1); (7889,7887); (7892,7890); (7897,-1);
   (7910,-1); (7915,-1); (7932,7930); (7937,7935); (7940,-1); (7955,-1); (7958,-1); (7972,7970); (7977,7975);
   (7980,7978); (7985,-1); (7995,7992); (7998,-1); (8017,8015); (8020,8018); (8025,8023); (8028,-1); (8203,-1);
   (8246,-1); (8342,8340); (8345,8343); (8350,-1); (8363,-1); (8368,-1); (8385,8383); (8390,8388); (8393,-1);
   (8408,-1); (8425,8423); (8430,8428); (8433,8431); (8438,-1); (8448,8445); (8451,-1); (8470,8468); (8473,8471);
   (8478,8476); (8481,-1); (8642,-1); (8685,-1); (8766,8764); (8769,8767); (8774,-1); (8787,-1); (8792,-1);
   (8809,8807); (8814,8812); (8817,-1); (8832,-1); (8849,8847); (8854,8852); (8857,8855); (8862,-1); (8872,8869);
   (8875,-1); (8894,8892); (8897,8895); (9050,-1); (9093,-1)].

(** Walk along the centre list and the sorted list of wrong pads. *)
Fixpoint check_wrong (p : Z) (cs : list (Z * Z)) (ws : list (Z * Z)) : bool :=
  match cs, ws with
  | _, [] => true
  | [], _ :: _ => false
  | c :: cs', (q, r) :: ws' =>
      if p =? q
      then coord_ok (fst c) && coord_ok (snd c) && (center_cell c =? r) && negb (r =? q)
           && check_wrong (p + 1) cs' ws'
      else check_wrong (p + 1) cs' ws
  end.

Lemma check_wrong_ok : check_wrong 0 pad_centers_e7 wrong_centers = true.
Proof. vm_compute. reflexivity. Qed.

Lemma check_wrong_spec cs : forall p ws, check_wrong p cs ws = true ->
  forall q r, In (q, r) ws -> exists i c, nth_error cs i = Some c /\ q = p + Z.of_nat i /\
    coord_ok (fst c) = true /\ coord_ok (snd c) = true /\ center_cell c = r /\ r <> q.
Proof.
  induction cs as [|c cs IH]; intros p [|[q r] ws] H q' r' Hin; simpl in H;
    try discriminate; try (now destruct Hin).
  destruct (Z.eqb_spec p q) as [->|Hne].
  - rewrite !andb_true_iff in H. destruct H as ((((H1 & H2) & H3) & H4) & H5).
    destruct Hin as [[= <- <-]|Hin].
    + exists 0%nat, c. simpl. repeat split; auto; lia.
    + destruct (IH _ _ H5 _ _ Hin) as (i & c' & A & B & D). exists (S i), c'. simpl.
      split; [exact A|]. split; [lia|exact D].
  - destruct (IH _ _ H _ _ Hin) as (i & c' & A & B & D). exists (S i), c'. simpl.
    split; [exact A|]. split; [lia|exact D].
Qed.

Theorem wrong_center fexp q r : In (q, r) wrong_centers ->
  exists c, nth_error pad_centers_e7 (Z.to_nat q) = Some c /\
    looked_up fexp (center_m c) = Ok r /\ r <> q.
Proof.
  intros H. destruct (check_wrong_spec _ _ _ check_wrong_ok _ _ H)
    as (i & c & A & -> & H1 & H2 & E & N).
  exists c. split; [replace (Z.to_nat (0 + Z.of_nat i)) with i by lia; exact A|].
  split; [rewrite looked_up_center by assumption; now rewrite E|exact N].
Qed.

Lemma wrong_centers_count : length wrong_centers = 428%nat /\ NoDup (map fst wrong_centers) /\
  In (172, -1) wrong_centers /\ In (340, 338) wrong_centers.
Proof.
  split; [reflexivity|]. split.
  - assert (S : forall l p, (fix up p l := match l with [] => true | q :: l' => (p <? q) && up q l' end) p l = true
              -> forall q, In q l -> p < q).
    { induction l as [|x l IH]; intros p H q Hq; [destruct Hq|].
      apply andb_prop in H as [H1 H2]. destruct Hq as [->|Hq]; [lia|].
      specialize (IH _ H2 _ Hq). lia. }
    assert (S' : forall l p, (fix up p l := match l with [] => true | q :: l' => (p <? q) && up q l' end) p l = true
              -> NoDup l).
    { induction l as [|x l IH]; intros p H; [constructor|].
      apply andb_prop in H as [H1 H2]. constructor; [|eapply IH; exact H2].
      intros Hx. specialize (S _ _ H2 _ Hx). lia. }
    apply (S' _ (-1)). vm_compute. reflexivity.
  - assert (F : forall t, existsb (fun x => (fst x =? fst t) && (snd x =? snd t)) wrong_centers = true
              -> In t wrong_centers).
    { intros [a b] H. apply existsb_exists in H as ([a' b'] & Hi & E). simpl in E.
      apply andb_prop in E as [E1 E2]. apply Z.eqb_eq in E1, E2. now subst. }
    split; apply F; vm_compute; reflexivity.
Qed.
