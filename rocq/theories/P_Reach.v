(** P_Reach.v -- C99: every pad of the packaged plane can be hit, next to its centre. *)
From Coq Require Import ZArith Reals Lia Lra List FMapPositive.
From Flocq Require Import Core BinarySingleNaN.
From Verif Require Import Base F64 Num Transporter PositionProofs PadGridData PadCentersData PadGrid PadGridProofs BeamPads PadGeometry
  F64Bounds P_Detect P_KinF64 P_MeshF64 P_Geometry.
Import ListNotations.
Local Open Scope Z_scope.
Local Opaque grid_rows pad_centers_e7.


(** For the pads whose centre is attributed to another pad or to none: a cell (in mm) of theirs. *)
Definition beside : list (Z * (Z * Z)) :=
  [(172,(27,6)); (215,(81,6)); (260,(135,6)); (340,(-130,14)); (345,(-126,15)); (348,(-121,15)); (363,(-103,10));
   (366,(-98,10)); (385,(-76,14)); (388,(-72,15)); (393,(-67,15)); (406,(-49,10)); (411,(-44,10)); (428,(-22,14));
   (433,(-18,15)); (436,(-13,15)); (451,(5,10)); (454,(10,10)); (468,(27,14)); (473,(32,14)); (476,(36,15));
   (481,(41,15)); (491,(54,10)); (494,(59,10)); (499,(64,10)); (513,(81,14)); (516,(86,14)); (521,(90,15));
   (524,(95,15)); (534,(108,10)); (539,(113,10)); (556,(135,14)); (561,(140,14)); (564,(144,15)); (760,(27,23));
   (803,(81,23)); (848,(135,23)); (916,(-130,31)); (921,(-126,32)); (924,(-121,32)); (939,(-103,27)); (942,(-98,27));
   (961,(-76,31)); (964,(-72,32)); (969,(-67,32)); (982,(-49,27)); (987,(-44,27)); (1004,(-22,31)); (1009,(-18,32));
   (1012,(-13,32)); (1027,(5,27)); (1030,(10,27)); (1044,(27,31)); (1049,(32,31)); (1052,(36,32)); (1057,(41,32));
   (1067,(54,27)); (1070,(59,27)); (1075,(64,27)); (1089,(81,31)); (1092,(86,31)); (1097,(90,32)); (1100,(95,32));
   (1110,(108,27)); (1115,(113,27)); (1132,(135,31)); (1323,(27,40)); (1366,(81,40)); (1470,(-126,49));
   (1473,(-121,49)); (1488,(-103,44)); (1491,(-98,44)); (1510,(-76,48)); (1513,(-72,49)); (1518,(-67,49));
   (1531,(-49,44)); (1536,(-44,44)); (1553,(-22,48)); (1558,(-18,49)); (1561,(-13,49)); (1576,(5,44));
   (1579,(10,44)); (1593,(27,48)); (1598,(32,48)); (1601,(36,49)); (1606,(41,49)); (1616,(54,44)); (1619,(59,44));
   (1624,(64,44)); (1638,(81,48)); (1641,(86,48)); (1646,(90,49)); (1649,(95,49)); (1659,(108,44)); (1664,(113,44));
   (1859,(27,57)); (1902,(81,57)); (2012,(-103,61)); (2015,(-98,61)); (2034,(-76,65)); (2037,(-72,66));
   (2042,(-67,66)); (2055,(-49,61)); (2060,(-44,61)); (2077,(-22,65)); (2082,(-18,66)); (2085,(-13,66));
   (2100,(5,61)); (2103,(10,61)); (2117,(27,65)); (2122,(32,65)); (2125,(36,66)); (2130,(41,66)); (2140,(54,61));
   (2143,(59,61)); (2148,(64,61)); (2162,(81,65)); (2165,(86,65)); (2170,(90,66)); (2173,(95,66)); (2183,(108,61));
   (2188,(113,61)); (2370,(27,74)); (2413,(81,74)); (2509,(-103,78)); (2512,(-98,78)); (2531,(-76,82));
   (2534,(-72,83)); (2539,(-67,83)); (2552,(-49,78)); (2557,(-44,78)); (2574,(-22,82)); (2579,(-18,83));
   (2582,(-13,83)); (2597,(5,78)); (2600,(10,78)); (2614,(27,82)); (2619,(32,82)); (2622,(36,83)); (2627,(41,83));
   (2637,(54,78)); (2640,(59,78)); (2645,(64,78)); (2659,(81,82)); (2662,(86,82)); (2667,(90,83)); (2670,(95,83));
   (2680,(108,78)); (2853,(27,91)); (2896,(81,91)); (2980,(-98,95)); (2999,(-76,99)); (3002,(-72,100));
   (3007,(-67,100)); (3020,(-49,95)); (3025,(-44,95)); (3042,(-22,99)); (3047,(-18,100)); (3050,(-13,100));
   (3065,(5,95)); (3068,(10,95)); (3082,(27,99)); (3087,(32,99)); (3090,(36,100)); (3095,(41,100)); (3105,(54,95));
   (3108,(59,95)); (3113,(64,95)); (3127,(81,99)); (3130,(86,99)); (3135,(90,100)); (3138,(95,100)); (3306,(27,108));
   (3349,(81,108)); (3438,(-76,116)); (3441,(-72,117)); (3446,(-67,117)); (3459,(-49,112)); (3464,(-44,112));
   (3481,(-22,116)); (3486,(-18,117)); (3489,(-13,117)); (3504,(5,112)); (3507,(10,112)); (3521,(27,116));
   (3526,(32,116)); (3529,(36,117)); (3534,(41,117)); (3544,(54,112)); (3547,(59,112)); (3552,(64,112));
   (3566,(81,116)); (3569,(86,116)); (3730,(27,125)); (3773,(81,125)); (3846,(-76,133)); (3849,(-72,134));
   (3854,(-67,134)); (3867,(-49,129)); (3872,(-44,129)); (3889,(-22,133)); (3894,(-18,134)); (3897,(-13,134));
   (3912,(5,129)); (3915,(10,129)); (3929,(27,133)); (3934,(32,133)); (3937,(36,134)); (3942,(41,134));
   (3952,(54,129)); (3955,(59,129)); (3960,(64,129)); (5146,(-152,-7)); (5163,(-130,-3)); (5168,(-126,-2));
   (5171,(-121,-2)); (5186,(-103,-7)); (5189,(-98,-7)); (5208,(-76,-3)); (5211,(-72,-2)); (5216,(-67,-2));
   (5229,(-49,-7)); (5234,(-44,-7)); (5251,(-22,-3)); (5256,(-18,-2)); (5259,(-13,-2)); (5274,(5,-7));
   (5277,(10,-7)); (5291,(27,-3)); (5296,(32,-3)); (5299,(36,-2)); (5304,(41,-2)); (5314,(54,-7)); (5317,(59,-7));
   (5336,(81,-3)); (5339,(86,-3)); (5344,(90,-2)); (5347,(95,-2)); (5357,(108,-7)); (5362,(113,-7)); (5379,(135,-3));
   (5384,(140,-3)); (5387,(144,-2)); (5392,(149,-2)); (5589,(27,-11)); (5632,(81,-11)); (5677,(135,-11));
   (5751,(-130,-20)); (5756,(-126,-19)); (5759,(-121,-19)); (5774,(-103,-24)); (5777,(-98,-24)); (5796,(-76,-20));
   (5799,(-72,-19)); (5804,(-67,-19)); (5817,(-49,-24)); (5822,(-44,-24)); (5839,(-22,-20)); (5844,(-18,-19));
   (5847,(-13,-19)); (5862,(5,-24)); (5865,(10,-24)); (5879,(27,-20)); (5884,(32,-20)); (5887,(36,-19));
   (5892,(41,-19)); (5902,(54,-24)); (5905,(59,-24)); (5924,(81,-20)); (5927,(86,-20)); (5932,(90,-19));
   (5935,(95,-19)); (5945,(108,-24)); (5950,(113,-24)); (5967,(135,-20)); (5972,(140,-20)); (5975,(144,-19));
   (6165,(27,-28)); (6208,(81,-28)); (6253,(135,-28)); (6314,(-130,-37)); (6319,(-126,-36)); (6322,(-121,-36));
   (6337,(-103,-41)); (6340,(-98,-41)); (6359,(-76,-37)); (6362,(-72,-36)); (6367,(-67,-36)); (6380,(-49,-41));
   (6385,(-44,-41)); (6402,(-22,-37)); (6407,(-18,-36)); (6410,(-13,-36)); (6425,(5,-41)); (6428,(10,-41));
   (6442,(27,-37)); (6447,(32,-37)); (6450,(36,-36)); (6455,(41,-36)); (6465,(54,-41)); (6468,(59,-41));
   (6487,(81,-37)); (6490,(86,-37)); (6495,(90,-36)); (6498,(95,-36)); (6508,(108,-41)); (6513,(113,-41));
   (6530,(135,-37)); (6714,(27,-45)); (6757,(81,-45)); (6855,(-126,-53)); (6858,(-121,-53)); (6873,(-103,-58));
   (6876,(-98,-58)); (6895,(-76,-54)); (6898,(-72,-53)); (6903,(-67,-53)); (6916,(-49,-58)); (6921,(-44,-58));
   (6938,(-22,-54)); (6943,(-18,-53)); (6946,(-13,-53)); (6961,(5,-58)); (6964,(10,-58)); (6978,(27,-54));
   (6983,(32,-54)); (6986,(36,-53)); (6991,(41,-53)); (7001,(54,-58)); (7004,(59,-58)); (7023,(81,-54));
   (7026,(86,-54)); (7031,(90,-53)); (7034,(95,-53)); (7044,(108,-58)); (7049,(113,-58)); (7238,(27,-62));
   (7281,(81,-62)); (7384,(-103,-75)); (7387,(-98,-75)); (7406,(-76,-71)); (7409,(-72,-70)); (7414,(-67,-70));
   (7427,(-49,-75)); (7432,(-44,-75)); (7449,(-22,-71)); (7454,(-18,-70)); (7457,(-13,-70)); (7472,(5,-75));
   (7475,(10,-75)); (7489,(27,-71)); (7494,(32,-71)); (7497,(36,-70)); (7502,(41,-70)); (7512,(54,-75));
   (7515,(59,-75)); (7534,(81,-71)); (7537,(86,-71)); (7542,(90,-70)); (7545,(95,-70)); (7555,(108,-75));
   (7560,(113,-75)); (7735,(27,-79)); (7778,(81,-79)); (7867,(-103,-92)); (7870,(-98,-92)); (7889,(-76,-88));
   (7892,(-72,-87)); (7897,(-67,-87)); (7910,(-49,-92)); (7915,(-44,-92)); (7932,(-22,-88)); (7937,(-18,-87));
   (7940,(-13,-87)); (7955,(5,-92)); (7958,(10,-92)); (7972,(27,-88)); (7977,(32,-88)); (7980,(36,-87));
   (7985,(41,-87)); (7995,(54,-92)); (7998,(59,-92)); (8017,(81,-88)); (8020,(86,-88)); (8025,(90,-87));
   (8028,(95,-87)); (8203,(27,-96)); (8246,(81,-96)); (8342,(-76,-105)); (8345,(-72,-104)); (8350,(-67,-104));
   (8363,(-49,-109)); (8368,(-44,-109)); (8385,(-22,-105)); (8390,(-18,-104)); (8393,(-13,-104)); (8408,(5,-109));
   (8425,(27,-105)); (8430,(32,-105)); (8433,(36,-104)); (8438,(41,-104)); (8448,(54,-109)); (8451,(59,-109));
   (8470,(81,-105)); (8473,(86,-105)); (8478,(90,-104)); (8481,(95,-104)); (8642,(27,-113)); (8685,(81,-113));
   (8766,(-76,-122)); (8769,(-72,-121)); (8774,(-67,-121)); (8787,(-49,-126)); (8792,(-44,-126)); (8809,(-22,-122));
   (8814,(-18,-121)); (8817,(-13,-121)); (8832,(5,-126)); (8849,(27,-122)); (8854,(32,-122)); (8857,(36,-121));
   (8862,(41,-121)); (8872,(54,-126)); (8875,(59,-126)); (8894,(81,-122)); (8897,(86,-122)); (9050,(27,-130));
   (9093,(81,-130))].


(** The middle of a cell in the units of padxy.csv (1e-7 mm). *)
Definition middle (k : Z * Z) : Z * Z := (10000000 * fst k + 5000000, 10000000 * snd k + 5000000).
(** The point of every pad: its centre, or the middle of the cell above. *)
Fixpoint points (p : Z) (cs : list (Z * Z)) (ws : list (Z * (Z * Z))) : list (Z * Z) :=
  match cs with
  | [] => []
  | c :: cs' => match ws with
                | (q, k) :: ws' => if p =? q then middle k :: points (p + 1) cs' ws' else c :: points (p + 1) cs' ws
                | [] => c :: points (p + 1) cs' []
                end
  end.
(** The points are in the plane and within 0.7 mm of the centres. *)
Definition point_ok (cd : (Z * Z) * (Z * Z)) : bool :=
  let '(c, d) := cd in coord_ok (fst d) && coord_ok (snd d) && (Z.abs (fst d - fst c) <=? 7000000) && (Z.abs (snd d - snd c) <=? 7000000).
Lemma points_ok : forallb point_ok (combine pad_centers_e7 (points 0 pad_centers_e7 beside)) = true.
Proof. vm_compute. reflexivity. Qed.
Lemma points_length : forall cs p ws, length (points p cs ws) = length cs.
Proof.
  induction cs as [|c cs IH]; intros p ws; [reflexivity|]. cbn [points]. destruct ws as [|[q k] ws]; [cbn [length]; now rewrite IH|].
  destruct (p =? q); cbn [length]; now rewrite IH.
Qed.

(** ** Sweeping over the map *)
(** The cells that are still to be found; a run of a pad that covers its cell strikes it off. *)
Fixpoint sweep_row (x : Z) (l : list Z) (y : Z) (m : PositiveMap.t (Z * Z)) : PositiveMap.t (Z * Z) :=
  match l with
  | [] => m
  | c :: l' =>
      let y' := y + Z.land c 1023 in
      sweep_row x l' y'
        match Z.shiftr c 10 with
        | Zpos q => match PositiveMap.find q m with
                    | Some (kx, ky) => if kx =? x then if y <=? ky then if ky <? y' then PositiveMap.remove q m else m else m else m
                    | None => m
                    end
        | _ => m
        end
  end.
Fixpoint sweep (rows : list (list Z)) (x : Z) (m : PositiveMap.t (Z * Z)) : PositiveMap.t (Z * Z) :=
  match rows with [] => m | l :: rows' => sweep rows' (x + 1) (sweep_row x l 0 m) end.
Definition cell_of (d : Z * Z) : Z * Z := (fst d / 10000000 + 280, snd d / 10000000 + 280).
Definition all_found : bool :=
  match sweep grid_rows 0 (build (map cell_of (points 0 pad_centers_e7 beside)) 1 (PositiveMap.empty _)) with PositiveMap.Leaf _ => true | _ => false end.
Lemma all_found_ok : all_found = true.
Proof. vm_compute. reflexivity. Qed.

Lemma sweep_row_spec x q k : forall l y m, PositiveMap.find q m = Some k ->
  PositiveMap.find q (sweep_row x l y m) = Some k \/ (fst k = x /\ y <= snd k /\ rle_get l (snd k - y) = Zpos q - 1).
Proof.
  induction l as [|c l IH]; intros y m F; [now left|]. cbn [sweep_row rle_get]. destruct (unpack c) as (-> & ->).
  pose proof (Z.mod_pos_bound c 1024 ltac:(lia)) as Bn.
  assert (Go : forall m', PositiveMap.find q m' = Some k -> (PositiveMap.find q (sweep_row x l (y + c mod 1024) m') = Some k \/
    (fst k = x /\ y <= snd k /\ (if snd k - y <? c mod 1024 then c / 1024 - 1 else rle_get l (snd k - y - c mod 1024)) = Zpos q - 1))).
  { intros m' F'. destruct (IH (y + c mod 1024) m' F') as [A|(A1 & A2 & A3)]; [now left|]. right. split; [exact A1|]. split; [lia|].
    rewrite (proj2 (Z.ltb_ge _ _)) by lia. rewrite <- A3. f_equal. lia. }
  destruct (c / 1024) as [|q'|q'] eqn:E; try (now apply Go).
  destruct (PositiveMap.find q' m) as [[kx ky]|] eqn:F2; [|now apply Go].
  destruct (Z.eqb_spec kx x) as [->|]; [|now apply Go]. destruct (Z.leb_spec y ky) as [Y1|]; [|now apply Go].
  destruct (Z.ltb_spec ky (y + c mod 1024)) as [Y2|]; [|now apply Go].
  destruct (Pos.eq_dec q' q) as [->|N].
  - right. assert (Ek : k = (x, ky)) by congruence. rewrite Ek. cbn [fst snd]. split; [reflexivity|]. split; [exact Y1|].
    rewrite (proj2 (Z.ltb_lt _ _)) by lia. reflexivity.
  - apply Go. rewrite PositiveMap.gro by congruence. exact F.
Qed.
Lemma sweep_spec q k : forall rows x m, PositiveMap.find q m = Some k ->
  PositiveMap.find q (sweep rows x m) = Some k \/
  (x <= fst k /\ 0 <= snd k /\ rle_get (nth (Z.to_nat (fst k - x)) rows []) (snd k) = Zpos q - 1).
Proof.
  induction rows as [|l rows IH]; intros x m F; [now left|]. cbn [sweep].
  destruct (sweep_row_spec x q k l 0 m F) as [A|(A1 & A2 & A3)].
  - destruct (IH (x + 1) _ A) as [B|(B1 & B2 & B3)]; [now left|]. right. split; [lia|]. split; [exact B2|].
    replace (Z.to_nat (fst k - x)) with (S (Z.to_nat (fst k - (x + 1)))) by lia. exact B3.
  - right. split; [lia|]. split; [exact A2|]. rewrite A1, Z.sub_diag. cbn [Z.to_nat nth]. now rewrite Z.sub_0_r in A3.
Qed.

(** Everything in a list is in its tree. *)
Lemma build_other {A} (l : list A) : forall k m q, (Zpos q < Zpos k) -> PositiveMap.find q (build l k m) = PositiveMap.find q m.
Proof.
  induction l as [|a l IH]; intros k m q H; [reflexivity|]. cbn [build]. rewrite IH by lia. apply PositiveMap.gso. intros ->. lia.
Qed.
Lemma build_find {A} (l : list A) : forall k m i a, nth_error l i = Some a -> PositiveMap.find (Z.to_pos (Zpos k + Z.of_nat i)) (build l k m) = Some a.
Proof.
  induction l as [|b l IH]; intros k m [|i] a N; cbn [nth_error] in N; try discriminate N; cbn [build].
  - replace (Z.to_pos (Zpos k + Z.of_nat 0)) with k by (apply Pos2Z.inj; rewrite Z2Pos.id; lia). rewrite build_other by lia.
    rewrite PositiveMap.gss. exact N.
  - specialize (IH (Pos.succ k) (PositiveMap.add k b m) i a N). replace (Zpos k + Z.of_nat (S i)) with (Zpos (Pos.succ k) + Z.of_nat i) by lia. exact IH.
Qed.

(** Generic in the lists, so that no proof step touches the data. *)
Lemma found_in_map rows cs ws p c :
  match sweep rows 0 (build (map cell_of (points 0 cs ws)) 1 (PositiveMap.empty _)) with PositiveMap.Leaf _ => true | _ => false end = true ->
  forallb point_ok (combine cs (points 0 cs ws)) = true ->
  nth_error cs p = Some c -> exists d, point_ok (c, d) = true /\ rle_get (nth (Z.to_nat (fst d / 10000000 + 280)) rows []) (snd d / 10000000 + 280) = Z.of_nat p.
Proof.
  intros F K N. destruct (nth_error (points 0 cs ws) p) as [d|] eqn:D.
  2:{ apply nth_error_None in D. rewrite points_length in D. assert (p < length cs)%nat by (apply nth_error_Some; congruence). lia. }
  exists d. split.
  - rewrite forallb_forall in K. apply K.
    assert (Nc : nth_error (combine cs (points 0 cs ws)) p = Some (c, d)).
    { clear - N D. revert p N D. generalize (points 0 cs ws). induction cs as [|a cs IH]; intros [|b ps] [|p] N D; cbn [nth_error combine] in *; try discriminate.
      - congruence.
      - now apply IH. }
    eapply nth_error_In. exact Nc.
  - assert (Dt : PositiveMap.find (Z.to_pos (1 + Z.of_nat p)) (build (map cell_of (points 0 cs ws)) 1 (PositiveMap.empty _)) = Some (cell_of d)).
    { apply build_find. now rewrite nth_error_map, D. }
    destruct (sweep_spec _ _ rows 0 _ Dt) as [A|(A1 & A2 & A3)].
    + exfalso. destruct (sweep _ _ _); [|discriminate F]. destruct (Z.to_pos (1 + Z.of_nat p)); discriminate A.
    + unfold cell_of in A3. cbn [fst snd] in A3. rewrite Z.sub_0_r in A3. rewrite A3. rewrite Z2Pos.id by lia. lia.
Qed.

(** The binary64 numbers of the points. *)
Lemma point_near n m : coord_ok n = true -> Z.abs (n - m) <= 7000000 -> (Rabs (1000 * R64 (fdiv (f_of_Z n) (f_of_Z 10000000000)) - IZR m / 10000000) <= 0.71)%R.
Proof.
  intros K H. assert (Hn : Z.abs n <= 2789999999).
  { unfold coord_ok in K. destruct (Z.eqb_spec n 0) as [->|]; [lia|]. cbn [orb] in K. apply andb_prop in K. lia. }
  assert (Q : (Rabs (IZR n) <= 3000000000)%R) by (rewrite <- abs_IZR; apply IZR_le; lia).
  assert (V : R64 (fdiv (f_of_Z n) (f_of_Z 10000000000)) = rnd64 (IZR n / 10000000000)).
  { destruct (fdiv_fin (f_of_Z n) (f_of_Z 10000000000) 40 (f_of_Z_fin n ltac:(lia))) as (R & _).
    - rewrite f_of_Z_R by lia. lra.
    - lia.
    - rewrite !f_of_Z_R by lia. change (b2 40) with 1099511627776%R. unfold Rdiv. rewrite Rabs_mult, (Rabs_pos_eq (/ _)) by lra. lra.
    - rewrite R, !f_of_Z_R by lia. reflexivity. }
  pose proof (rnd_err (IZR n / 10000000000)) as E. rewrite <- V in E. destruct small_facts as (U1 & U2 & U3 & U4).
  assert (A : (Rabs (IZR n / 10000000000) <= 1)%R) by (unfold Rdiv; rewrite Rabs_mult, (Rabs_pos_eq (/ _)) by lra; lra).
  assert (E' : (Rabs (R64 (fdiv (f_of_Z n) (f_of_Z 10000000000)) - IZR n / 10000000000) <= / 1000000)%R).
  { eapply Rle_trans; [exact E|]. pose proof (Rabs_pos (IZR n / 10000000000)). nra. }
  assert (D : (Rabs (IZR n - IZR m) <= 7000000)%R) by (rewrite <- minus_IZR, <- abs_IZR; now apply IZR_le).
  apply Rabs_le_inv in E', D. apply Rabs_le. lra.
Qed.

(** C99: every pad of the plane is found somewhere, and at most 0.7 mm (in x and in y) from its listed centre; the pad numbers
    are those of padxy.csv, 0 to 10239. *)
Theorem C99_every_pad (fexp : f64 -> f64) (pad : Z) : 0 <= pad < 10240 ->
  exists (p : f64 * f64) (cx cy : R), looked_up fexp p = Ok pad /\ listed pad cx cy /\
    (Rabs (1000 * R64 (fst p) - cx) <= 0.71)%R /\ (Rabs (1000 * R64 (snd p) - cy) <= 0.71)%R.
Proof.
  intros Hp. destruct (nth_error pad_centers_e7 (Z.to_nat pad)) as [[nx ny]|] eqn:N.
  2:{ apply nth_error_None in N. rewrite centers_count in N. pose proof num_pads. lia. }
  destruct (found_in_map grid_rows pad_centers_e7 beside (Z.to_nat pad) (nx, ny) all_found_ok points_ok N) as ([dx dy] & K & L).
  cbn [point_ok fst snd] in K, L. rewrite !Bool.andb_true_iff, !Z.leb_le in K. destruct K as (((K1 & K2) & K3) & K4).
  exists (center_m (dx, dy)), (IZR nx / 10000000)%R, (IZR ny / 10000000)%R. split.
  { rewrite looked_up_center by assumption. unfold center_cell. cbn [fst snd]. rewrite L, Z2Nat.id by lia. reflexivity. }
  split; [exists nx, ny; auto|]. unfold center_m. cbn [fst snd]. split; apply point_near; assumption.
Qed.
Print Assumptions C99_every_pad.
