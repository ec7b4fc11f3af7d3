(** P_Mesh.v -- properties C11 and C14: the diffusion mesh in exact arithmetic. *)
From Coq Require Import ZArith Reals Lia Lra.
From Flocq Require Import Core.
From Verif Require Import Base Num Pairing BeamPads Transporter SpecTransport TransportProofs MeshReal.
Local Open Scope R_scope.

Lemma nodup_app {A} (l m : list A) :
  NoDup l -> NoDup m -> (forall x, In x l -> ~ In x m) -> NoDup (l ++ m).
Proof.
  induction 1 as [|x l Hx Nl IH]; intros Nm D; [exact Nm|]. cbn [app]. constructor.
  - rewrite in_app_iff. intros [H|H]; [contradiction|]. now apply (D x (or_introl eq_refl)).
  - apply IH; [exact Nm|]. intros y Hy. apply D. now right.
Qed.

(** ** C14 *)

(** Row-major Cartesian product: element i*|ys|+j is (xs[i], ys[j]); nothing else. *)
Theorem C14_row_major : forall (N : Num) (xs ys : list N),
  length (meshgrid xs ys) = (length xs * length ys)%nat /\
  (forall i j x y, nth_error xs i = Some x -> nth_error ys j = Some y ->
     nth_error (meshgrid xs ys) (i * length ys + j) = Some (x, y)) /\
  (forall p, In p (meshgrid xs ys) <-> In (fst p) xs /\ In (snd p) ys) /\
  (NoDup xs -> NoDup ys -> NoDup (meshgrid xs ys)).
Proof.
  intros N xs ys. unfold meshgrid.
  assert (Len : forall l : list N, length (flat_map (fun x => map (fun y => (x, y)) ys) l) = (length l * length ys)%nat).
  { induction l as [|x l IH]; [reflexivity|]. cbn [flat_map length]. rewrite app_length, map_length, IH. lia. }
  split; [apply Len|]. split; [|split].
  - induction xs as [|x0 xs IH]; intros i j x y Hx Hy; [destruct i; discriminate|].
    assert (Lj : (j < length ys)%nat) by (apply nth_error_Some; congruence).
    cbn [flat_map]. destruct i as [|i].
    + cbn in Hx. injection Hx as <-. rewrite Nat.mul_0_l, Nat.add_0_l.
      rewrite nth_error_app1 by (now rewrite map_length). rewrite nth_error_map, Hy. reflexivity.
    + rewrite nth_error_app2 by (rewrite map_length; lia). rewrite map_length.
      replace (S i * length ys + j - length ys)%nat with (i * length ys + j)%nat by lia.
      now apply IH.
  - intros [x y]. cbn [fst snd]. rewrite in_flat_map. split.
    + intros (x' & Hx & H). apply in_map_iff in H as (y' & [= -> ->] & Hy). auto.
    + intros (Hx & Hy). exists x. split; [exact Hx|]. now apply in_map.
  - intros Nx Ny. induction Nx as [|x l Hx Nl IH]; [constructor|]. cbn [flat_map].
    apply nodup_app; [|exact IH|].
    + apply FinFun.Injective_map_NoDup; [|exact Ny]. intros a b [= ->]. reflexivity.
    + intros p H1 H2. apply in_map_iff in H1 as (y & <- & _).
      apply in_flat_map in H2 as (x' & Hx' & H2). apply in_map_iff in H2 as (y' & [= -> _] & _).
      contradiction.
Qed.

(** Offsets -3, -7/3, ..., 7/3, 3 in units of sigma. *)
Definition offset (t : R) : Prop := exists i : Z, (0 <= i <= 9)%Z /\ t = -3 + 2 * IZR i / 3.

Lemma ticks_offset t : In t ticks <-> offset t.
Proof.
  unfold ticks, offset. rewrite in_map_iff. split.
  - intros (i & <- & H). apply in_seq in H. exists (Z.of_nat i). split; [lia|].
    rewrite INR_IZR_INZ. field.
  - intros (i & Hi & ->). exists (Z.to_nat i). split.
    + rewrite INR_IZR_INZ, Z2Nat.id by lia. field.
    + apply in_seq. lia.
Qed.

(** The mesh is exactly the points (a + u s, b + v s) for offsets u and v, each once when s > 0. *)
Theorem C14_mesh : forall a b s : R, 0 <= s ->
  let mesh := @diffusion_mesh XR (Some a, Some b) (Some s) in
  length mesh = 100%nat /\
  (forall p, In p mesh <->
     exists u v, offset u /\ offset v /\ p = (Some (a + u * s), Some (b + v * s))) /\
  (0 < s -> NoDup mesh).
Proof.
  intros a b s Hs mesh. unfold mesh. rewrite mesh_XR.
  assert (E : flat_map (fun x => map (fun y => (Some x, Some y)) (axis b s)) (axis a s) =
              @meshgrid XR (map Some (axis a s)) (map Some (axis b s))).
  { unfold meshgrid. induction (axis a s) as [|x l IH]; [reflexivity|].
    cbn [flat_map map]. rewrite IH. now rewrite map_map. }
  rewrite E. destruct (C14_row_major XR (map Some (axis a s)) (map Some (axis b s))) as (L & _ & I & D).
  split; [rewrite L, !map_length; reflexivity|]. split.
  - intros [x y]. rewrite I. cbn [fst snd]. unfold axis. rewrite !map_map, !in_map_iff. split.
    + intros ((u & <- & Hu) & (v & <- & Hv)). exists u, v. rewrite <- !ticks_offset. auto.
    + intros (u & v & Hu & Hv & [= -> ->]). rewrite <- ticks_offset in Hu, Hv. split; [exists u|exists v]; auto.
  - intros Hp.
    assert (Nt : NoDup ticks).
    { unfold ticks. apply FinFun.Injective_map_NoDup; [|apply seq_NoDup].
      intros i j H. apply INR_eq. lra. }
    assert (Na : forall c, NoDup (map Some (axis c s))).
    { intros c. unfold axis. rewrite map_map. apply FinFun.Injective_map_NoDup; [|exact Nt].
      intros u v H. assert (u * s = v * s) by (injection H as H; lra).
      apply Rmult_eq_reg_r with s; lra. }
    apply D; apply Na.
Qed.

(** Within 3 sigma of the centre, symmetric about it, with the four corners. *)
Theorem C14_extent : forall a b s : R, 0 <= s ->
  let mesh := @diffusion_mesh XR (Some a, Some b) (Some s) in
  (forall p, In p mesh -> exists x y, p = (Some x, Some y) /\ Rabs (x - a) <= 3 * s /\ Rabs (y - b) <= 3 * s /\
     In (Some (2 * a - x), Some y) mesh /\ In (Some x, Some (2 * b - y)) mesh) /\
  In (Some (a - 3 * s), Some (b - 3 * s)) mesh /\ In (Some (a - 3 * s), Some (b + 3 * s)) mesh /\
  In (Some (a + 3 * s), Some (b - 3 * s)) mesh /\ In (Some (a + 3 * s), Some (b + 3 * s)) mesh.
Proof.
  intros a b s Hs mesh. destruct (C14_mesh a b s Hs) as (_ & I & _). fold mesh in I.
  assert (Om : offset (-3)) by (exists 0%Z; split; [lia|]; lra).
  assert (Op : offset 3) by (exists 9%Z; split; [lia|]; lra).
  assert (Or : forall u, offset u -> offset (- u)).
  { intros u (i & Hi & ->). exists (9 - i)%Z. split; [lia|]. rewrite minus_IZR. lra. }
  assert (Ob : forall u, offset u -> Rabs (u * s) <= 3 * s).
  { intros u (i & Hi & ->). assert (0 <= IZR i <= 9) by (split; apply IZR_le; lia).
    apply Rabs_le. split; nra. }
  split.
  - intros p Hp. apply I in Hp as (u & v & Hu & Hv & ->).
    exists (a + u * s), (b + v * s). split; [reflexivity|].
    replace (a + u * s - a) with (u * s) by ring. replace (b + v * s - b) with (v * s) by ring.
    split; [now apply Ob|]. split; [now apply Ob|]. split; apply I.
    + exists (- u), v. split; [now apply Or|]. split; [exact Hv|]. f_equal. f_equal. ring.
    + exists u, (- v). split; [exact Hu|]. split; [now apply Or|]. f_equal. f_equal. ring.
  - repeat split; apply I; [exists (-3), (-3)|exists (-3), 3|exists 3, (-3)|exists 3, 3];
      (split; [assumption|split; [assumption|]]); f_equal; f_equal; ring.
Qed.

Example C14_example : In (Some (1 + 1), Some (2 - 3)) (@diffusion_mesh XR (Some 1, Some 2) (Some 1)).
Proof.
  apply (proj1 (proj2 (C14_mesh 1 2 1 ltac:(lra)))).
  exists 1, (-3). split; [exists 6%Z; split; [lia|lra]|].
  split; [exists 0%Z; split; [lia|lra]|]. f_equal; f_equal; lra.
Qed.

(** ** C11 *)

Lemma weight_pos a b s x y : 0 < s -> 0 <= weight a b s x y.
Proof.
  intros Hs. unfold weight. pose proof PI_RGT_0.
  assert (0 < s * s) by nra.
  assert (0 < 1 / 2 / PI / (s * s)).
  { unfold Rdiv. repeat apply Rmult_lt_0_compat; try lra; apply Rinv_0_lt_compat; lra. }
  pose proof (exp_pos (-1 / 2 / (s * s) * ((x - a) * (x - a) + (y - b) * (y - b)))).
  apply Rmult_le_pos; [apply Rmult_le_pos; lra|nra].
Qed.

Lemma Ztrunc_le x : 0 <= x -> (0 <= Ztrunc x)%Z /\ x - 1 <= IZR (Ztrunc x) <= x.
Proof.
  intros H. rewrite Ztrunc_floor by exact H. split; [now apply Zfloor_lub|].
  pose proof (Zfloor_ub x). pose proof (Zfloor_lb x). lra.
Qed.

Lemma lift2_nr f x : lift2 f x None = None. Proof. now destruct x. Qed.
Lemma lift2_nl f x : lift2 f None x = None. Proof. reflexivity. Qed.
Lemma xdiv_nr x : xdiv x None = None. Proof. now destruct x. Qed.

Lemma pixel_none (px c : XR * XR) (s : XR) e a :
  @pixel_electrons XR px c s e = Ok a ->
  exists x y u v t, px = (Some x, Some y) /\ c = (Some u, Some v) /\ s = Some t.
Proof.
  destruct px as [[x|] [y|]], c as [[u|] [v|]], s as [t|]; intros H; try (repeat eexists; reflexivity);
  exfalso; revert H; unfold pixel_electrons, bivariate_normal_pdf, njdiv, njint, step_size;
  cbn [fst snd nmul ndiv nofZ npi nsub nadd nexp ntoZ neqb XR lift2 lift1 cmp2 bind];
  try discriminate; try (destruct (Req_bool _ 0); [discriminate|]); cbn [bind];
  repeat (rewrite ?lift2_nr, ?xdiv_nr, ?lift2_nl; cbn [lift1]);
  discriminate.
Qed.

Definition pw (a b s : R) (p : option R * option R) : R :=
  match p with (Some x, Some y) => weight a b s x y | _ => 0 end.

(** Sum over the mesh deposits against the sum of the weights. *)
Lemma mesh_sum g (ge : edges XR) time a b s e (px : list (XR * XR)) dss :
  0 < s -> (0 <= e)%Z ->
  (forall p, In p px -> exists x y, p = (Some x, Some y)) ->
  Forall2 (fun p ds => pos_ledger g ge time
             (fun z => @pixel_electrons XR p (Some a, Some b) (Some s) e = Ok z) p ds) px dss ->
  (forall d, In d (concat dss) -> (0 <= d_el d)%Z) /\
  IZR (sumZ (map d_el (concat dss))) <=
    sumR (map (pw a b s) px) * IZR e /\
  ((forall p, In p px -> exists pad, lands g ge p pad) ->
   sumR (map (pw a b s) px) * IZR e
     - INR (length px) <= IZR (sumZ (map d_el (concat dss)))).
Proof.
  intros Hs He. apply IZR_le in He. intros Hp F.
  induction F as [|p ds px dss H F IH].
  - split; [intros d []|]. unfold sumR, sumZ. simpl. split; [lra|]. intros _. lra.
  - destruct IH as (I1 & I2 & I3); [intros; apply Hp; now right|].
    destruct (Hp p (or_introl eq_refl)) as (x & y & ->).
    pose proof (weight_pos a b s x y Hs) as Wp.
    cbn [map concat]. rewrite sumR_cons, map_app, sumZ_app, plus_IZR. cbn [pw].
    assert (W0 : 0 <= weight a b s x y * IZR e) by (apply Rmult_le_pos; assumption).
    destruct H as [M|pad tb z L T A].
    + cbn [map app]. change (IZR (sumZ [])) with 0. split; [exact I1|]. split; [nra|].
      intros HL. exfalso. destruct (HL _ (or_introl eq_refl)) as (pad & ix & iy & E1 & N1 & N2 & E2 & N3 & N4).
      destruct M as (ix' & iy' & E1' & M). rewrite E1 in E1'. injection E1' as <- <-.
      destruct M as [M|[M|(_ & _ & pad' & E2' & M)]]; [contradiction..|].
      rewrite E2 in E2'. injection E2' as <-. tauto.
    + rewrite pixel_electrons_XR in A by exact Hs. destruct (in_int64 _); [|discriminate].
      injection A as <-. cbn [map app d_el]. rewrite sumZ_cons. change (sumZ []) with 0%Z.
      rewrite Z.add_0_r. destruct (Ztrunc_le _ W0) as (Z0 & Z1).
      split; [intros d [<-|Hd]; [exact Z0|now apply I1]|]. split; [nra|].
      intros HL. specialize (I3 ltac:(intros; apply HL; now right)).
      change (length ((Some x, Some y) :: px)) with (S (length px)). rewrite S_INR. nra.
Qed.

Lemma mesh_weights a b s : 0 < s ->
  sumR (map (pw a b s)
         (@diffusion_mesh XR (Some a, Some b) (Some s))) =
  4 / 9 / (2 * PI) * (bells * bells).
Proof.
  intros Hs. rewrite <- (total_weight a b s Hs). f_equal. rewrite mesh_XR.
  induction (axis a s) as [|x l IH]; [reflexivity|]. cbn [flat_map].
  etransitivity; [apply map_app|]. rewrite map_map. apply (f_equal2 (@app R)); [reflexivity|exact IH].
Qed.

Lemma mesh_some a b s (p : XR * XR) : In p (@diffusion_mesh XR (Some a, Some b) (Some s)) ->
  exists x y, p = (Some x, Some y).
Proof.
  rewrite mesh_XR, in_flat_map. intros (x & _ & H). apply in_map_iff in H as (y & <- & _). eauto.
Qed.

Lemma row_sum g (ge : edges XR) D E dv r e ds : (0 <= e)%Z ->
  row_ledger g ge D E dv (r, e) ds ->
  (forall d, In d ds -> (0 <= d_el d)%Z) /\ (sumZ (map d_el ds) <= e)%Z.
Proof.
  intros He H. inversion H as [r' e' s ds' Es E0 P|r' e' s dss Es E0 P]; subst.
  - destruct P as [M|pad tb z L T A]; [split; [intros d []|exact He]|]. subst z.
    cbn [map d_el]. rewrite sumZ_cons. change (sumZ []) with 0%Z.
    split; [intros d [<-|[]]; exact He|lia].
  - destruct (r_x r) as [a|] eqn:Ea; [destruct (r_y r) as [b|] eqn:Eb;
      [destruct s as [s|]|]|].
    2-4: (assert (Hn : concat dss = []);
      [clear - P; induction P as [|p ds px dss Hp P IH]; [reflexivity|]; cbn [concat]; rewrite IH;
       destruct Hp as [|pad tb z L T A]; [reflexivity|];
       apply pixel_none in A as (? & ? & ? & ? & ? & ? & Hc & Ht); congruence
      |rewrite Hn; split; [intros d []|exact He]]).
    assert (Hs : 0 < s).
    { unfold sigma_of, njdiv in Es. destruct (neqb E (nofZ 0)); [discriminate|]. cbn [bind] in Es.
      injection Es as Es. cbn [nsqrt ndiv nmul XR] in Es.
      cbn [neqb nofZ XR cmp2] in E0.
      assert (s <> 0) by (intros ->; rewrite Req_bool_true in E0 by reflexivity; discriminate).
      destruct (xdiv _ _) as [v|]; [|discriminate]. cbn [xsqrt] in Es.
      destruct (Rlt_bool v 0); [discriminate|]. injection Es as <-.
      pose proof (sqrt_pos v). lra. }
    destruct (mesh_sum g ge (r_time r) a b s e _ dss Hs He (mesh_some a b s) P) as (I1 & I2 & _).
    split; [exact I1|]. rewrite (mesh_weights a b s Hs) in I2.
    apply le_IZR. apply IZR_le in He. pose proof total_weight_bounds. nra.
Qed.

(** The deposits of one row never exceed its electrons, and are not negative, for every width,
    position and grid. *)
Theorem C11_row_no_creation :
  forall (g : grid) (ge : edges XR) (diffusion efield dv : XR) (r : row XR) (e : Z) (ds : list dep),
  (0 <= e)%Z -> row_ledger g ge diffusion efield dv (r, e) ds ->
  (forall d, In d ds -> (0 <= d_el d)%Z) /\ (sumZ (map d_el ds) <= e)%Z.
Proof. intros. eapply row_sum; eauto. Qed.

(** Whole tracks: the total charge grows by at most the electrons of the track. *)
Theorem C11_track_no_creation :
  forall (g : grid) (ge : edges XR) (diffusion efield dv : XR) (track : list (row XR)) (el : list Z)
    (pts pts' : points) (label : Z),
  transport_track g ge diffusion efield dv track el pts label = Ok pts' ->
  NoDup (map fst pts) -> (forall k, (0 <= charge_at pts k)%Z) -> (forall e, In e el -> (0 <= e)%Z) ->
  (forall k, (charge_at pts k + sumZ el < two63)%Z) ->
  (total_charge pts <= total_charge pts' <= total_charge pts + sumZ (firstn (length track) el))%Z.
Proof.
  intros g ge D E dv track el pts pts' label H Hn Hc He Hm.
  apply transport_track_iff in H as (ds & (Hl & dss & F & ->) & ->).
  assert (Hs : (forall d, In d (concat dss) -> (0 <= d_el d)%Z) /\
               (sumZ (map d_el (concat dss)) <= sumZ (map snd (combine track el)))%Z).
  { assert (Hc' : forall re, In re (combine track el) -> (0 <= snd re)%Z).
    { intros [r e] I. apply in_combine_r in I. now apply He. }
    clear Hl Hm. induction F as [|re ds rest dss Hr F IH]; [split; [intros d []|apply Z.le_refl]|].
    destruct IH as (I1 & I2); [intros; apply Hc'; now right|].
    destruct re as [r e]. destruct (row_sum g ge D E dv r e ds (Hc' _ (or_introl eq_refl)) Hr) as (J1 & J2).
    cbn [concat map snd]. rewrite map_app, sumZ_app, sumZ_cons. split; [|lia].
    intros d Hd. apply in_app_iff in Hd as [Hd|Hd]; auto. }
  destruct Hs as (S1 & S2).
  assert (Ec : map snd (combine track el) = firstn (length track) el).
  { clear - Hl. revert el Hl. induction track as [|r track IH]; intros el Hl; [reflexivity|].
    destruct el as [|e el]; [reflexivity|]. cbn [combine map length firstn snd]. f_equal.
    apply IH. simpl in Hl. lia. }
  rewrite Ec in S2.
  assert (S3 : (sumZ (firstn (length track) el) <= sumZ el)%Z).
  { rewrite <- (firstn_skipn (length track) el) at 2. rewrite sumZ_app.
    assert (0 <= sumZ (skipn (length track) el))%Z; [|lia].
    assert (Hk : forall e, In e (skipn (length track) el) -> (0 <= e)%Z).
    { intros e I. apply He. rewrite <- (firstn_skipn (length track) el). apply in_or_app. now right. }
    clear - Hk. induction (skipn (length track) el) as [|e l IH]; [apply Z.le_refl|].
    rewrite sumZ_cons. specialize (IH ltac:(intros; apply Hk; now right)).
    specialize (Hk e (or_introl eq_refl)). lia. }
  rewrite total_post_all_le; auto.
  - assert (0 <= sumZ (map d_el (concat dss)))%Z; [|lia].
    clear - S1. induction (concat dss) as [|d l IH]; [apply Z.le_refl|]. cbn [map]. rewrite sumZ_cons.
    specialize (IH ltac:(intros; apply S1; now right)). specialize (S1 d (or_introl eq_refl)). lia.
  - intros k. specialize (Hm k).
    assert (G1 : (due k (concat dss) <= sumZ (map d_el (concat dss)))%Z).
    { clear - S1. induction (concat dss) as [|d l IH]; [apply Z.le_refl|].
      rewrite due_cons. cbn [map]. rewrite sumZ_cons. specialize (IH ltac:(intros; apply S1; now right)).
      specialize (S1 d (or_introl eq_refl)). destruct (_ =? _)%Z; lia. }
    lia.
Qed.

(** If every pixel is above an active pad, at most 0.2 % plus one electron per pixel are lost. *)
Theorem C11_bounded_loss :
  forall (g : grid) (ge : edges XR) (diffusion efield dv : XR) (r : row XR) (a b s : R) (e : Z) (ds : list dep),
  r_x r = Some a -> r_y r = Some b ->
  sigma_of diffusion efield dv (r_time r) = Ok (Some s : XR) -> 0 < s -> (0 <= e)%Z ->
  (forall p, In p (@diffusion_mesh XR (Some a, Some b) (Some s)) -> exists pad, lands g ge p pad) ->
  row_ledger g ge diffusion efield dv (r, e) ds ->
  998 / 1000 * IZR e - 100 <= IZR (sumZ (map d_el ds)).
Proof.
  intros g ge D E dv r a b s e ds Ha Hb Es Hs He HL H.
  inversion H as [r' e' s' ds' Es' E0 P|r' e' s' dss Es' E0 P]; subst.
  - exfalso. rewrite Es in Es'. injection Es' as <-. cbn [neqb nofZ XR cmp2] in E0.
    rewrite Req_bool_false in E0 by lra. discriminate.
  - rewrite Es in Es'. injection Es' as <-. rewrite Ha, Hb in P.
    destruct (mesh_sum g ge (r_time r) a b s e _ dss Hs He (mesh_some a b s) P) as (_ & _ & I3).
    specialize (I3 HL). rewrite (mesh_weights a b s Hs) in I3.
    destruct (C14_mesh a b s ltac:(lra)) as (L & _). rewrite L in I3.
    replace (INR 100) with 100 in I3 by (rewrite INR_IZR_INZ; reflexivity).
    apply IZR_le in He. pose proof total_weight_bounds. nra.
Qed.

(** A case meeting the hypotheses: a plane of one pad, 8 m wide, sigma = 1 m. *)
Definition big_edges : edges XR := @mkEdges XR (Some (-4000)) (Some 4000) (Some 1).
Definition big_grid : grid := mkGrid 8000 8000 (fun _ _ => 7%Z).

Lemma big_lands x y : Rabs x <= 3 -> Rabs y <= 3 -> lands big_grid big_edges (Some x, Some y : XR) 7.
Proof.
  intros Hx Hy. apply Rabs_le_inv in Hx, Hy.
  assert (F : forall z, -3 <= z <= 3 -> (-3000 <= Zfloor (z * 1000) <= 3000)%Z).
  { intros z Hz. split; [apply Zfloor_lub; lra|].
    apply le_IZR. apply Rle_trans with (1 := Zfloor_lb _). lra. }
  pose proof (F x Hx) as Fx. pose proof (F y Hy) as Fy.
  set (i := Zfloor (x * 1000)) in *. set (j := Zfloor (y * 1000)) in *.
  exists (i + 4000)%Z, (j + 4000)%Z. split.
  - unfold position_to_index, njdiv, njint.
    cbn [fst snd nmul nofZ nfloor nleb nltb nsub neqb ndiv ntoZ XR lift2 lift1 cmp2 xdiv
         high_edge low_edge bin_size big_edges].
    fold i. fold j.
    assert (Ci : forall k : Z, (-3000 <= k <= 3000)%Z -> Rle_bool 4000 (IZR k) = false /\ Rlt_bool (IZR k) (-4000) = false).
    { intros k (K1 & K2). apply IZR_le in K1, K2. split; [apply Rle_bool_false|apply Rlt_bool_false]; lra. }
    destruct (Ci i Fx) as (-> & ->). destruct (Ci j Fy) as (-> & ->). cbn [orb].
    rewrite (Req_bool_false 1) by lra. cbn [bind xtoZ].
    replace ((IZR i - -4000) / 1) with (IZR (i + 4000)) by (rewrite plus_IZR; field).
    replace ((IZR j - -4000) / 1) with (IZR (j + 4000)) by (rewrite plus_IZR; field).
    rewrite !Ztrunc_IZR. unfold in_int64, two63.
    replace ((- (9223372036854775808) <=? i + 4000) && (i + 4000 <? 9223372036854775808))%Z with true by lia.
    replace ((- (9223372036854775808) <=? j + 4000) && (j + 4000 <? 9223372036854775808))%Z with true by lia.
    reflexivity.
  - split; [lia|]. split; [lia|]. split.
    + unfold grid_get, axis_index. cbn [gr_rows gr_cols big_grid gr_cell].
      replace (i + 4000 <? 0)%Z with false by lia. replace (j + 4000 <? 0)%Z with false by lia.
      replace ((0 <=? i + 4000) && (i + 4000 <? 8000))%Z with true by lia.
      replace ((0 <=? j + 4000) && (j + 4000 <? 8000))%Z with true by lia. reflexivity.
    + split; [lia|]. intros H. apply is_beam_spec in H. discriminate H.
Qed.

Example C11_example :
  @sigma_of XR (Some (1 / 2)) (Some 1) (Some 1) (Some 1) = Ok (Some 1 : XR) /\
  forall p, In p (@diffusion_mesh XR (Some 0, Some 0) (Some 1)) -> exists pad, lands big_grid big_edges p pad.
Proof.
  split.
  - unfold sigma_of, njdiv. cbn [nmul nofZ neqb ndiv nsqrt XR lift2 cmp2 xdiv].
    rewrite Req_bool_false by lra. cbn [bind xsqrt].
    replace (2 * (1 / 2) * 1 * 1 / 1) with 1 by field.
    rewrite Rlt_bool_false by lra. now rewrite sqrt_1.
  - intros p Hp. destruct (C14_extent 0 0 1 ltac:(lra)) as (X & _).
    destruct (X p Hp) as (x & y & -> & Bx & By & _). exists 7%Z. apply big_lands.
    + now rewrite Rminus_0_r, Rmult_1_r in Bx.
    + now rewrite Rminus_0_r, Rmult_1_r in By.
Qed.

Print Assumptions C11_row_no_creation.
Print Assumptions C11_track_no_creation.
Print Assumptions C11_bounded_loss.
Print Assumptions C14_row_major.
Print Assumptions C14_mesh.
Print Assumptions C14_extent.
