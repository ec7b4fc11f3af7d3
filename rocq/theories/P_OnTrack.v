(** P_OnTrack.v -- C66: the points of a stored cloud lie where the tracks are. *)
From Coq Require Import ZArith Reals Lia Lra String.
From Flocq Require Import Core BinarySingleNaN.
From Verif Require Import Base F64 Num Pairing PairingProofs BeamPads Transporter SpecTransport TransportProofs
  Simulator SpecSim SimulatorProofs F64Bounds P_Simulator P_Parameters KinFile SpecRun P_RunSim Response Writer SpecWriter
  WriterProofs P_Writer P_Cloud Parameters P_Detect P_KinF64.
Local Open Scope Z_scope.
Local Open Scope list_scope.

(** ** Rounding *)
Section Numbers.
  Local Open Scope R_scope.
  Context (dp : det_params) (ep : elec_params) (Hs : sane dp ep).
  Let L := R64 (dp_length dp).
  Let n := IZR (ep_windows_edge ep - ep_mm_edge ep).
  Let mm := IZR (ep_mm_edge ep).
  Let we := IZR (ep_windows_edge ep).

  Lemma ranges : / 1024 <= L <= 1024 /\ 1 <= n <= 1048576 /\ 0 <= mm <= 1048576 /\ 1 <= we <= 1048576 /\ n = we - mm.
  Proof using Hs.
    destruct Hs as (_ & B & E1 & E2). unfold L, n, mm, we.
    change (bpow radix2 (-10)) with (/ 1024) in B. change (bpow radix2 10) with 1024 in B.
    split; [exact B|]. split; [split; [apply (IZR_le 1); lia|apply (IZR_le _ 1048576); lia]|].
    split; [split; [apply (IZR_le 0); lia|apply (IZR_le _ 1048576); lia]|].
    split; [split; [apply (IZR_le 1); lia|apply (IZR_le _ 1048576); lia]|]. apply minus_IZR.
  Qed.

  (** The computed drift time is within 2^-29 buckets of the exact one. *)
  Lemma drift_time_close fexp dv g ed z :
    drift_velocity (N := F64 fexp) (dp_length dp) (ep_windows_edge ep) (ep_mm_edge ep) = Ok dv ->
    around (dp_length dp) z ->
    let v := drift_time fexp (Simulator.mkConfig fexp (dp_length dp) (dp_efield dp) (dp_diffusion dp) dv
               (dp_gain dp) (ep_mm_edge ep) g ed) z in
    is_finite v = true /\ 0 <= R64 v /\ Rabs (R64 v - (mm + (L - R64 z) / L * n)) <= / 2 ^ 29.
  Proof using Hs.
    intros Ed (Fz & Bz) v. destruct ranges as (RL & Rn & Rm & Rw & En).
    destruct small_facts as (U0 & U1 & T0 & T1).
    destruct Hs as (Fl & Bl & Em & Ew).
    destruct (C31_velocity_binary64 fexp (dp_length dp) (ep_windows_edge ep) (ep_mm_edge ep) ltac:(lia) ltac:(lia) Fl)
      as (v0 & Ev & Fv & Rv). assert (v0 = dv) by congruence. subst v0. clear Ed Ev.
    fold L n in Rv. fold L in Bz.
    set (zz := R64 z) in *. apply Rabs_le_inv in Bz.
    set (h := L / n) in *.
    assert (Eh : L = h * n) by (unfold h; field; lra).
    assert (Ph : / 1073741824 <= h).
    { unfold h. apply le_div; [lra|]. lra. }
    assert (E1 := rnd_bound h h ltac:(rewrite Rabs_pos_eq; lra)). rewrite <- Rv in E1. apply Rabs_le_inv in E1.
    set (d := R64 dv) in *.
    assert (uh : 0 <= u * h <= / 1000000000000000 * h) by (split; [apply Rmult_le_pos|apply Rmult_le_compat_r]; lra).
    assert (Pd : 0 < d) by lra.
    destruct (fsub_fin (dp_length dp) z 12 Fl Fz ltac:(lia)) as (R1 & F1).
    { fold L zz. rewrite (bb 4096 12%Z) by (lia || reflexivity). apply Rabs_le. lra. }
    fold L zz in R1. set (a := R64 (fsub (dp_length dp) z)) in *.
    assert (E2 := rnd_bound (L - zz) (2 * L) ltac:(apply Rabs_le; lra)). rewrite <- R1 in E2. apply Rabs_le_inv in E2.
    assert (A0 : 0 <= a) by (rewrite R1; apply (rnd64_ge_fmt _ 0); [apply generic_format_0|lra]).
    set (X := (L - zz) / L * n).
    assert (EX : L - zz = X * h) by (unfold X, h; field; lra).
    assert (BX : 0 <= X <= 2 * n).
    { assert (0 <= (L - zz) / L <= 2).
      { split; [apply Rmult_le_pos; [lra|apply Rlt_le, Rinv_0_lt_compat; lra]|apply div_le; lra]. }
      unfold X. split; [apply Rmult_le_pos; lra|apply Rmult_le_compat_r; lra]. }
    (* q *)
    set (q := a / d).
    assert (Eq : a = q * d) by (unfold q; field; lra).
    assert (un : 0 <= u * n <= / 1000000000000000 * n) by (split; [apply Rmult_le_pos|apply Rmult_le_compat_r]; lra).
    assert (en : eta * n <= u / 1000000 * n) by (apply Rmult_le_compat_r; lra).
    assert (unh : u * n * / 1073741824 <= u * n * h) by (apply Rmult_le_compat_l; lra).
    assert (Dq : Rabs (q - X) <= 43 / 10 * (u * n)).
    { assert (G : Rabs ((q - X) * d) <= (42 / 10) * (u * n) * h).
      { replace ((q - X) * d) with ((a - (L - zz)) - X * (d - h)) by (rewrite Eq, EX; ring).
        apply Rabs_le.
        assert (XX : Rabs (X * (d - h)) <= 2 * n * (u * h + eta)).
        { rewrite Rabs_mult. apply Rmult_le_compat; try apply Rabs_pos; [rewrite Rabs_pos_eq; lra|apply Rabs_le; lra]. }
        apply Rabs_le_inv in XX.
        assert (2 * n * (u * h + eta) = 2 * (u * n * h) + 2 * (eta * n)) by ring.
        assert (u * (2 * L) = 2 * (u * n * h)) by (rewrite Eh; ring).
        assert (enh : eta * (1 + 2 * n) <= / 10 * (u * n * h)).
        { assert (eta * (1 + 2 * n) <= eta * (3 * n)) by (apply Rmult_le_compat_l; lra).
          assert (T2 : eta <= u / 2 ^ 40) by exact eta_tiny.
          assert (eta * (3 * n) <= u / 2 ^ 40 * (3 * n)) by (apply Rmult_le_compat_r; lra). lra. }
        lra. }
      rewrite Rabs_mult, (Rabs_pos_eq d) in G by lra.
      apply Rmult_le_reg_r with d; [exact Pd|]. apply Rle_trans with (1 := G).
      assert (42 / 10 * (u * n) * h <= 43 / 10 * (u * n) * d); [|lra].
      assert (u * n * (h * (42 / 43)) <= u * n * d).
      { apply Rmult_le_compat_l; [lra|]. assert (T2 : eta <= u / 2 ^ 40) by exact eta_tiny. lra. }
      lra. }
    apply Rabs_le_inv in Dq.
    assert (Q0 : 0 <= q) by (apply Rmult_le_pos; [lra|apply Rlt_le, Rinv_0_lt_compat, Pd]).
    destruct (fdiv_fin (fsub (dp_length dp) z) dv 23 F1 ltac:(fold d; lra) ltac:(lia)) as (R2 & F2).
    { fold a d q. rewrite (bb 8388608 23%Z) by (lia || reflexivity). rewrite Rabs_pos_eq; lra. }
    fold a d q in R2. set (qf := fdiv (fsub (dp_length dp) z) dv) in *.
    assert (E3 := rnd_bound q (3 * n) ltac:(rewrite Rabs_pos_eq; lra)). rewrite <- R2 in E3. apply Rabs_le_inv in E3.
    assert (Q1 : 0 <= R64 qf) by (rewrite R2; apply (rnd64_ge_fmt _ 0); [apply generic_format_0|lra]).
    assert (Rmm : R64 (f_of_Z (ep_mm_edge ep)) = mm) by (apply f_of_Z_R; lia).
    assert (Fmm : is_finite (f_of_Z (ep_mm_edge ep)) = true) by (apply f_of_Z_fin; lia).
    destruct (fadd_fin qf (f_of_Z (ep_mm_edge ep)) 24 F2 Fmm ltac:(lia)) as (R3 & F3).
    { rewrite Rmm, (bb 16777216 24%Z) by (lia || reflexivity). rewrite Rabs_pos_eq; lra. }
    rewrite Rmm in R3.
    assert (E4 := rnd_bound (R64 qf + mm) 4194304 ltac:(rewrite Rabs_pos_eq; lra)). rewrite <- R3 in E4. apply Rabs_le_inv in E4.
    change v with (fadd qf (f_of_Z (ep_mm_edge ep))). split; [exact F3|]. split.
    - rewrite R3. apply (rnd64_ge_fmt _ 0); [apply generic_format_0|lra].
    - fold X. assert (un' : u * n <= u * 1048576) by (apply Rmult_le_compat_l; lra).
      assert (U29 : / 2 ^ 29 = u * 16777216) by exact u_29. apply Rabs_le. lra.
  Qed.

  (** The z column of a stored row: within a part in 2^30 of a bucket of the exact conversion. *)
  Lemma z_column_close tb : is_finite tb = true -> 0 <= R64 tb < 512 ->
    let zf := fmul (fmul (fdiv (fsub (f_of_Z (ep_windows_edge ep)) tb)
                     (f_of_Z (ep_windows_edge ep - ep_mm_edge ep))) (dp_length dp)) (f_of_Z 1000) in
    is_finite zf = true /\
    Rabs (R64 zf - (we - R64 tb) / n * L * 1000) <= / 2 ^ 30 * (1000 * (L / n)).
  Proof using Hs.
    intros Ft Bt zf. destruct ranges as (RL & Rn & Rm & Rw & En).
    destruct small_facts as (U0 & U1 & T0 & T1). destruct Hs as (Fl & Bl & Em & Ew).
    set (t := R64 tb) in *. set (D := we - t).
    assert (BD : Rabs D <= 1048576) by (unfold D; apply Rabs_le; lra).
    assert (Rwe : R64 (f_of_Z (ep_windows_edge ep)) = we) by (apply f_of_Z_R; lia).
    assert (Fwe : is_finite (f_of_Z (ep_windows_edge ep)) = true) by (apply f_of_Z_fin; lia).
    assert (Rnn : R64 (f_of_Z (ep_windows_edge ep - ep_mm_edge ep)) = n) by (apply f_of_Z_R; lia).
    destruct (fsub_fin _ tb 20 Fwe Ft ltac:(lia)) as (R1 & F1).
    { rewrite Rwe. fold t D. rewrite (bb 1048576 20%Z) by (lia || reflexivity). exact BD. }
    rewrite Rwe in R1. fold t D in R1. set (a := fsub (f_of_Z (ep_windows_edge ep)) tb) in *.
    assert (E1 := rnd_bound D 1048576 BD). rewrite <- R1 in E1. apply Rabs_le_inv in E1.
    (* divide *)
    set (i := / n).
    assert (Bi : / 1048576 <= i <= 1).
    { unfold i. split; [apply Rinv_le; lra|]. rewrite <- Rinv_1. apply Rinv_le; lra. }
    assert (mulb : forall x y c, 0 <= c -> Rabs x <= y -> Rabs (x * c) <= y * c).
    { intros x y c Hc H. rewrite Rabs_mult, (Rabs_pos_eq c) by exact Hc. now apply Rmult_le_compat_r. }
    assert (A1 : Rabs (R64 a - D) <= 1048577 * u) by (apply Rabs_le; lra).
    assert (B1 : Rabs (R64 a * i) <= 1048577 * i).
    { apply mulb; [lra|]. apply Rabs_le_inv in BD. apply Rabs_le. lra. }
    destruct (fdiv_fin a (f_of_Z (ep_windows_edge ep - ep_mm_edge ep)) 30 F1 ltac:(rewrite Rnn; lra) ltac:(lia)) as (R2 & F2).
    { rewrite Rnn. unfold Rdiv. fold i. rewrite (bb 1073741824 30%Z) by (lia || reflexivity).
      apply Rle_trans with (1 := B1). lra. }
    rewrite Rnn in R2. unfold Rdiv in R2. fold i in R2.
    set (b := fdiv a (f_of_Z (ep_windows_edge ep - ep_mm_edge ep))) in *.
    assert (E2 := rnd_bound _ _ B1). rewrite <- R2 in E2.
    assert (T2 : eta <= u / 2 ^ 40) by exact eta_tiny.
    assert (ui : u * / 1048576 <= u * i) by (apply Rmult_le_compat_l; lra).
    assert (A2 : Rabs (R64 b - D * i) <= 2097160 * (u * i)).
    { assert (M := mulb _ _ i ltac:(lra) A1). replace ((R64 a - D) * i) with (R64 a * i - D * i) in M by ring.
      apply Rabs_le_inv in M. apply Rabs_le_inv in E2. apply Rabs_le.
      replace (u * (1048577 * i)) with (1048577 * (u * i)) in E2 by ring. lra. }
    assert (uil : u * i <= / 1000000000000000 * i) by (apply Rmult_le_compat_r; lra).
    assert (BDi : Rabs (D * i) <= 1048576 * i) by (apply mulb; [lra|exact BD]).
    assert (B2 : Rabs (R64 b) <= 1048577 * i).
    { apply Rabs_le_inv in A2. apply Rabs_le_inv in BDi. apply Rabs_le. lra. }
    (* times the length *)
    assert (B2L := mulb _ _ L ltac:(lra) B2).
    set (h := i * L). assert (Bh : / 1073741824 <= h <= 1024).
    { unfold h. split.
      - apply Rle_trans with (/ 1048576 * / 1024); [lra|]. apply Rmult_le_compat; lra.
      - apply Rle_trans with (1 * 1024); [|lra]. apply Rmult_le_compat; lra. }
    replace (1048577 * i * L) with (1048577 * h) in B2L by (unfold h; ring).
    destruct (fmul_fin b (dp_length dp) 40 F2 Fl ltac:(lia)) as (R3 & F3).
    { fold L. rewrite (bb 1099511627776 40%Z) by (lia || reflexivity). lra. }
    fold L in R3. set (c := fmul b (dp_length dp)) in *.
    assert (E3 := rnd_bound _ _ B2L). rewrite <- R3 in E3.
    assert (uh : u * / 1073741824 <= u * h <= / 1000000000000000 * h).
    { split; [apply Rmult_le_compat_l|apply Rmult_le_compat_r]; lra. }
    assert (A3 : Rabs (R64 c - D * h) <= 3145750 * (u * h)).
    { assert (M := mulb _ _ L ltac:(lra) A2). replace ((R64 b - D * i) * L) with (R64 b * L - D * h) in M by (unfold h; ring).
      replace (2097160 * (u * i) * L) with (2097160 * (u * h)) in M by (unfold h; ring).
      apply Rabs_le_inv in M. apply Rabs_le_inv in E3. apply Rabs_le.
      replace (u * (1048577 * h)) with (1048577 * (u * h)) in E3 by ring. lra. }
    assert (BDh : Rabs (D * h) <= 1048576 * h) by (apply mulb; [lra|exact BD]).
    assert (B3 : Rabs (R64 c) <= 1048577 * h).
    { apply Rabs_le_inv in A3. apply Rabs_le_inv in BDh. apply Rabs_le. lra. }
    assert (B3L := mulb _ _ 1000 ltac:(lra) B3).
    assert (Rk : R64 (f_of_Z 1000) = 1000) by (apply f_of_Z_R; lia).
    destruct (fmul_fin c (f_of_Z 1000) 50 F3 (f_of_Z_fin 1000 ltac:(lia)) ltac:(lia)) as (R4 & F4).
    { rewrite Rk, (bb 1125899906842624 50%Z) by (lia || reflexivity). lra. }
    rewrite Rk in R4. assert (E4 := rnd_bound _ _ B3L). rewrite <- R4 in E4.
    split; [exact F4|]. unfold zf. fold a b c.
    replace (D / n * L * 1000) with (D * h * 1000) by (unfold h, i, Rdiv; ring).
    replace (L / n) with h by (unfold h, i, Rdiv; ring).
    assert (M := mulb _ _ 1000 ltac:(lra) A3). replace ((R64 c - D * h) * 1000) with (R64 c * 1000 - D * h * 1000) in M by ring.
    apply Rabs_le_inv in M. apply Rabs_le_inv in E4. apply Rabs_le.
    replace (u * (1048577 * h * 1000)) with (1048577 * 1000 * (u * h)) in E4 by ring.
    assert (U30 : / 2 ^ 30 * (1000 * h) = 8388608 * 1000 * (u * h)) by (rewrite u_30; ring). lra.
  Qed.
End Numbers.

(** ** Where deposits come from *)
Lemma ledger_origin {N : Num} (g : grid) (ge : edges N) diffusion efield dv tr el ds d :
  track_ledger g ge diffusion efield dv tr el ds -> In d ds ->
  exists r e pos, In (r, e) (combine tr el) /\ ntoZ (r_time r) = Some (d_tb d) /\
    (pos = (r_x r, r_y r) \/
     exists s, sigma_of diffusion efield dv (r_time r) = Ok s /\ neqb s (nofZ 0) = false /\
       In pos (diffusion_mesh (r_x r, r_y r) s)) /\
    lands g ge pos (d_pad d).
Proof.
  intros (_ & dss & H & ->). induction H as [|re x l m Hr Hl IH]; cbn [concat]; [intros []|].
  intros Hd. apply in_app_iff in Hd. destruct Hd as [Hd|Hd].
  - destruct re as [r e]. inversion Hr as [r0 e0 s ds Es _ Hp E1 E2|r0 e0 s dss Es E0 Hp E1 E2]; subst; try rename e0 into e; try rename r0 into r.
    + inversion Hp as [|pad tb a Hl1 Ht Ha E]; subst; [destruct Hd|].
      destruct Hd as [<-|[]]. eexists r, _, (r_x r, r_y r). split; [left; reflexivity|]. split; [exact Ht|].
      split; [now left|exact Hl1].
    + clear - Hp Hd Es E0.
      assert (Q : exists pos, In pos (diffusion_mesh (r_x r, r_y r) s) /\ ntoZ (r_time r) = Some (d_tb d) /\ lands g ge pos (d_pad d)).
      { clear Es E0. induction Hp as [|px ds0 l0 m0 H1 H2 IH0]; [destruct Hd|]. cbn [concat] in Hd. apply in_app_iff in Hd.
        destruct Hd as [Hd|Hd].
        - inversion H1 as [|pad tb a Hl1 Ht Ha E]; subst; [destruct Hd|]. destruct Hd as [<-|[]].
          exists px. split; [now left|]. now split.
        - destruct (IH0 Hd) as (pos & A & B). exists pos. split; [now right|exact B]. }
      destruct Q as (pos & A & B & C). exists r, e, pos. split; [now left|]. split; [exact B|].
      split; [right; now exists s|exact C].
  - destruct (IH Hd) as (r & e & pos & A & B). exists r, e, pos. split; [now right|exact B].
Qed.

Lemma take_nth {A} (l : list A) idx out : take l idx = Ok out ->
  forall k x, nth_error out k = Some x -> exists i, nth_error idx k = Some i /\ nth_error l i = Some x.
Proof.
  unfold take. revert out. induction idx as [|i idx IH]; cbn [mapM]; intros out E k x Hk.
  - assert (out = []) by congruence. subst. destruct k; discriminate Hk.
  - destruct (nth_error l i) as [a|] eqn:N; [|discriminate E]. cbn [bind] in E.
    destruct (mapM _ idx) as [o|] eqn:M; [|discriminate E]. cbn [bind] in E.
    assert (out = a :: o) by congruence. subst. destruct k as [|k].
    + cbn [nth_error] in Hk. exists i. split; [reflexivity|congruence].
    + exact (IH o eq_refl k x Hk).
Qed.
Lemma combine_nth_in {A B} (l : list A) (m : list B) k a b :
  nth_error l k = Some a -> nth_error m k = Some b -> In (a, b) (combine l m).
Proof.
  revert l m. induction k as [|k IH]; intros [|x l] [|y m]; try discriminate; cbn [nth_error combine].
  - intros H H0. left. congruence.
  - intros H H0. right. now apply IH.
Qed.
Lemma in_combine_nth {A B} (l : list A) (m : list B) a b : In (a, b) (combine l m) ->
  exists k, nth_error l k = Some a /\ nth_error m k = Some b.
Proof.
  revert m. induction l as [|x l IH]; intros [|y m] H; try destruct H.
  - exists O. cbn [nth_error]. split; congruence.
  - destruct (IH m H) as (k & H1). now exists (S k).
Qed.
Lemma mapM_nth {A B} (f : A -> res B) l out : mapM f l = Ok out ->
  forall k b, nth_error out k = Some b -> exists a, nth_error l k = Some a /\ f a = Ok b.
Proof.
  revert out. induction l as [|a l IH]; cbn [mapM]; intros out E k b Hk.
  - assert (out = []) by congruence. subst. destruct k; discriminate Hk.
  - destruct (f a) as [x|] eqn:Ef; [|discriminate E]. cbn [bind] in E.
    destruct (mapM f l) as [o|]; [|discriminate E]. cbn [bind] in E.
    assert (out = x :: o) by congruence. subst. destruct k as [|k].
    + exists a. cbn [nth_error] in *. split; [reflexivity|congruence].
    + exact (IH o eq_refl k b Hk).
Qed.

(** A stored row with its label comes from a point of the cloud with the same label. *)
Lemma process_from fexp argsort resp c data labels rows labs centers :
  wc_centers c = Some centers ->
  process fexp argsort resp c data labels = Ok (rows, labs) ->
  forall r l, In (r, l) (combine rows labs) -> exists p, In (p, l) (combine data labels) /\
    convert_point fexp (wc_windows_edge c) (wc_mm_edge c) (wc_length c) resp centers (wc_sizes c) p = Ok r /\
    fltb (f_of_Z (wc_threshold c)) (s_amp r) = true.
Proof.
  intros Ec E r l H. unfold process in E. rewrite Ec in E.
  destruct (convert_to_spyral _ _ _ _ _ _ _ _) as [fmt|] eqn:Ef; [|discriminate E]. cbn [bind] in E.
  destruct (negb _) eqn:Eb in E; [discriminate E|].
  destruct (take (select _ fmt) _) as [f2|] eqn:T1; [|discriminate E]. cbn [bind] in E.
  destruct (take (select _ labels) _) as [l2|] eqn:T2; [|discriminate E]. cbn [bind] in E.
  assert (f2 = rows) by congruence. assert (l2 = labs) by congruence. subst f2 l2. clear E.
  apply in_combine_nth in H. destruct H as (k & H1 & H2).
  destruct (take_nth _ _ _ T1 _ _ H1) as (i & I1 & N1). destruct (take_nth _ _ _ T2 _ _ H2) as (i' & I2 & N2).
  assert (i' = i) by congruence. subst i'.
  set (mask := map (fun r => fltb (f_of_Z (wc_threshold c)) (s_amp r)) fmt) in *.
  assert (Hin : In (r, l) (combine fmt labels)).
  { pose proof (combine_nth_in _ _ _ _ _ N1 N2) as Q. apply negb_false_iff, Nat.eqb_eq in Eb.
    rewrite (proj1 (select_combine2 mask fmt labels ltac:(congruence))) in Q. now apply select_incl in Q. }
  apply in_combine_nth in Hin. destruct Hin as (j & J1 & J2).
  destruct (mapM_nth _ _ _ Ef _ _ J1) as (p & P1 & P2). exists p. split; [eapply combine_nth_in; eassumption|].
  split; [exact P2|]. apply nth_error_In in N1. clear - N1. unfold mask in N1.
  rewrite <- (map_id fmt) in N1 at 2. rewrite (select_map_filter _ (fun r => r)), map_id in N1.
  now apply filter_In in N1.
Qed.

Section Position.
  Context (fexp : f64 -> f64) {V G Nuc Vel : Type}.
  Notation config := (config fexp).
  Notation traj := (@traj Vel).
  Context (get_data : Z -> Z -> res Nuc)
    (generate_trajectory : @vertex V -> mom4 V -> Nuc -> config -> res (list traj))
    (generate_electrons : list traj -> Nuc -> config -> G -> list Z * G)
    (uniform : nat -> G -> list f64 * G) (argsort : list f64 -> list nat).
  Context (Hu : draws_ok uniform).
  Context (to_float : string -> option f64) (files : string -> option text) (resource : string -> text)
    (load : string -> res (grid * edges (F64 fexp))) (packaged : res (grid * edges (F64 fexp)))
    (dp : det_params) (ep : elec_params) (pp : pad_params) (fc : full_config fexp).
  Context (Hfc : make_config fexp to_float files resource load packaged dp ep pp = Ok fc).
  Context (Hgrid : forall i j, -1 <= gr_cell (fc_grid fexp fc) i j < 10240).
  Context (Hs : sane dp ep) (Hth : Z.abs (ep_threshold ep) <= 2 ^ 53).
  Notation cfg := (sim_config fexp fc).

  (** Row [t] of the track of nucleus [lab] of the event made [k] electrons. *)
  Definition ionised (rows : list (mom4 V)) (v : @vertex V) (zs ms : list Z) (lab : Z) (t : traj) (k : Z) : Prop :=
    exists z a nuc p track els g g1,
      py_index zs lab = Ok z /\ z <> 0 /\ py_index ms lab = Ok a /\ get_data z a = Ok nuc /\
      py_index rows lab = Ok p /\ generate_trajectory v p nuc cfg = Ok track /\
      generate_electrons track nuc cfg g = (els, g1) /\ length els = length track /\
      In (t, k) (combine track els) /\ 1 <= k.

  Lemma tracks_origin rows v zs ms idx rng l rng' :
    tracks fexp get_data generate_trajectory generate_electrons rows v zs ms cfg idx rng l rng' ->
    forall tr el lab, In (tr, el, lab) l -> In lab idx /\
      forall r e, In (r, e) (combine tr el) -> exists t k, ionised rows v zs ms lab t k /\ r = to_row fexp cfg t.
  Proof.
    induction 1 as [| i rest g l g' Hz H IH | i rest g z a nuc p track els g1 l g' Ez Nz Ea En Ep Et Ee El H IH];
      intros tr el lab Hi.
    - destruct Hi.
    - destruct (IH _ _ _ Hi) as (A & B). split; [now right|exact B].
    - destruct Hi as [E|Hi].
      + unfold ionises in E. injection E as <- <- <-. split; [now left|]. intros r e Hr.
        apply in_combine_l in Hr. apply in_map_iff in Hr as ([t k] & <- & Ht). exists t, k. split; [|reflexivity].
        unfold ionising in Ht. apply filter_In in Ht as [Ht Hk]. apply Z.leb_le in Hk. cbn [snd] in Hk.
        exists z, a, nuc, p, track, els, g, g1. repeat (split; [assumption|]). exact Hk.
      + destruct (IH _ _ _ Hi) as (A & B). split; [now right|exact B].
  Qed.

  (** C66: every stored row lies within one time bucket of a point of the track of the nucleus whose
      label it carries, where that nucleus made electrons; and on the centre of the pad that the grid
      has under a point of the diffusion mesh around it. *)
  Theorem C66_rows_lie_on_the_track resp rows v zs ms rng idx cloud labels rng' out labs :
    contained fexp generate_trajectory dp fc rows v ->
    sim fexp get_data generate_trajectory generate_electrons uniform fc rows v zs ms rng idx = Ok ((cloud, labels), rng') ->
    process fexp argsort resp (writer_config fexp fc) cloud labels = Ok (out, labs) ->
    forall r l, In (r, l) (combine out labs) ->
      In l idx /\ exists t k pos (pad : nat), ionised rows v zs ms l t k /\
        (Rabs (R64 (s_z r) - 1000 * R64 (t_z t)) <=
           (1 + / 2 ^ 28) * (1000 * (R64 (dp_length dp) / IZR (ep_windows_edge ep - ep_mm_edge ep))))%R /\
        (pos = (t_x t, t_y t) \/
         exists s, sigma_of (N := F64 fexp) (dp_diffusion dp) (dp_efield dp) (fc_drift fexp fc)
                     (drift_time fexp cfg (t_z t)) = Ok s /\ feqb s (f_of_Z 0) = false /\
           In pos (diffusion_mesh (N := F64 fexp) (t_x t, t_y t) s)) /\
        lands (N := F64 fexp) (fc_grid fexp fc) (fc_edges fexp fc) pos (Z.of_nat pad) /\
        nth_error (fc_centers fexp fc) pad = Some (s_x r, s_y r) /\
        nth_error (fc_sizes fexp fc) pad = Some (s_size r) /\
        fltb (f_of_Z (ep_threshold ep)) (s_amp r) = true.
  Proof using Hu Hfc Hgrid Hs Hth.
    intros Hc S P r l Hrl.
    destruct (config_fine fexp generate_trajectory to_float files resource load packaged dp ep pp fc Hfc Hs Hth) as [Hcfg Hnear].
    pose proof (Hnear _ _ Hc) as Hn.
    assert (Hg26 : forall i j, -1 <= gr_cell (fc_grid fexp fc) i j < 2 ^ 26) by (intros i j; specialize (Hgrid i j); lia).
    destruct (C17_one_point_per_cell fexp get_data generate_trajectory generate_electrons uniform rows v zs ms
                cfg rng idx (fc_grid fexp fc) (fc_edges fexp fc) cloud labels rng' eq_refl eq_refl Hg26 Hn Hu S)
      as (il & rng1 & lds & cells & Ht & Hl & Len & _ & F & C3 & _).
    destruct (C16_cloud_shape fexp get_data generate_trajectory generate_electrons uniform rows v zs ms
                cfg rng idx (fc_grid fexp fc) (fc_edges fexp fc) cloud labels rng' eq_refl eq_refl Hg26 Hn Hu S)
      as [_ Shape].
    destruct (process_from fexp argsort resp (writer_config fexp fc) cloud labels out labs (fc_centers fexp fc) eq_refl P r l Hrl)
      as (p & Hp & Ec & Eth).
    destruct (Shape p ltac:(eapply in_combine_l; exact Hp)) as (_ & Ftb & Btb). clear Shape.
    assert (X : exists cell, In cell cells /\ is_point_of lds cell p l).
    { clear - F Hp. induction F as [|c pl cs pls H1 H2 IH]; [destruct Hp|]. destruct Hp as [->|Hp].
      - exists c. split; [now left|exact H1].
      - destruct (IH Hp) as (c' & A & B). exists c'. split; [now right|exact B]. }
    destruct X as ([[tb pad] u0] & Ic & Du & Ep & before & d & after & El & Ed1 & Ed2 & _).
    destruct (C3 _ _ _ Ic) as (Btb0 & Bpad). clear C3 F.
    assert (Id : In (d, l) lds) by (rewrite El; apply in_elt).
    destruct (event_ledger_in _ _ _ _ _ _ _ _ _ Hl Id) as (tr & el & ds & I1 & TL & I2).
    destruct (tracks_origin _ _ _ _ _ _ _ _ Ht _ _ _ I1) as (Ilab & Or).
    destruct (ledger_origin _ _ _ _ _ _ _ _ _ TL I2) as (rw & e & pos & I3 & Tz & Hpos & Hland).
    destruct (Or _ _ I3) as (t & k & Io & Er). split; [exact Ilab|].
    rewrite Ed1 in Tz. rewrite Ed2 in Hland. subst rw. cbn [to_row r_x r_y r_time] in Tz, Hpos.
    (* the converted point *)
    unfold convert_point in Ec. rewrite Ep in Ec. cbn [p_pad p_tb p_el] in Ec.
    assert (Bp : Z.abs pad <= 2 ^ 53).
    { destruct Hland as (ix & iy & _ & _ & _ & Gg & _). unfold grid_get in Gg.
      destruct (axis_index _ ix) as [a1|]; [|discriminate Gg]. cbn [bind] in Gg.
      destruct (axis_index _ iy) as [a2|]; [|discriminate Gg]. cbn [bind] in Gg.
      assert (gr_cell (fc_grid fexp fc) a1 a2 = pad) by congruence. specialize (Hgrid a1 a2). lia. }
    rewrite f_to_Z_of_Z in Ec by exact Bp. cbn [bind] in Ec.
    destruct (nj_index _ pad) as [cen|] eqn:En; [|discriminate Ec]. cbn [bind] in Ec.
    destruct (apply_response _ _) as [[amp integral]|]; [|discriminate Ec]. cbn [bind] in Ec.
    assert (Ftb' : is_finite (fadd (f_of_Z tb) u0) = true /\ (0 <= R64 (fadd (f_of_Z tb) u0) < 512)%R)
      by (rewrite Ep in Ftb, Btb; now split).
    destruct Ftb' as (Ftb' & Btb').
    destruct (z_finite fexp (writer_config fexp fc) p Hcfg Ftb) as (Ez & _).
    { rewrite Rabs_pos_eq by lra. apply Rlt_le, Rlt_le_trans with 512%R; [lra|].
      change 512%R with (bpow radix2 9). apply bpow_le. lia. }
    rewrite Ep in Ez. cbn [p_tb] in Ez. rewrite Ez in Ec. cbn [bind] in Ec.
    destruct (nj_index (wc_sizes _) pad) as [sz|] eqn:Esz; [|discriminate Ec]. cbn [bind] in Ec.
    assert (Rz : s_z r = fmul (fmul (fdiv (fsub (f_of_Z (wc_windows_edge (writer_config fexp fc))) (fadd (f_of_Z tb) u0))
        (f_of_Z (wc_windows_edge (writer_config fexp fc) - wc_mm_edge (writer_config fexp fc)))) (wc_length (writer_config fexp fc))) (f_of_Z 1000)).
    { apply (f_equal (fun r => match r with Ok a => s_z a | Err _ => f_of_Z 0 end)) in Ec. cbn beta iota in Ec.
      rewrite <- Ec. reflexivity. }
    assert (Rx : s_x r = fst cen) by (apply (f_equal (fun r => match r with Ok a => s_x a | Err _ => f_of_Z 0 end)) in Ec; cbn beta iota in Ec; now rewrite <- Ec).
    assert (Ry : s_y r = snd cen) by (apply (f_equal (fun r => match r with Ok a => s_y a | Err _ => f_of_Z 0 end)) in Ec; cbn beta iota in Ec; now rewrite <- Ec).
    assert (Rsz : s_size r = sz) by (apply (f_equal (fun r => match r with Ok a => s_size a | Err _ => f_of_Z 0 end)) in Ec; cbn beta iota in Ec; now rewrite <- Ec).
    exists t, k, pos, (Z.to_nat pad). split; [exact Io|].
    rewrite Z2Nat.id by exact Bpad.
    assert (Row : forall A (l : list A) x, nj_index l pad = Ok x -> nth_error l (Z.to_nat pad) = Some x).
    { clear - Bpad. intros A l x E. unfold nj_index in E.
      destruct (py_index l pad) as [c0|] eqn:Epy; [|discriminate E].
      assert (c0 = x) by congruence. subst c0. unfold py_index in Epy.
      destruct (pad <? 0) eqn:Eneg; [apply Z.ltb_lt in Eneg; lia|].
      destruct (_ && _) in Epy; [|discriminate Epy].
      destruct (nth_error _ (Z.to_nat pad)) as [c1|]; [congruence|discriminate Epy]. }
    assert (Parts : exists dv, drift_velocity (N := F64 fexp) (dp_length dp) (ep_windows_edge ep) (ep_mm_edge ep) = Ok dv /\
      cfg = Simulator.mkConfig fexp (dp_length dp) (dp_efield dp) (dp_diffusion dp) dv (dp_gain dp) (ep_mm_edge ep)
              (Some (fc_grid fexp fc)) (Some (fc_edges fexp fc)) /\
      wc_windows_edge (writer_config fexp fc) = ep_windows_edge ep /\ wc_mm_edge (writer_config fexp fc) = ep_mm_edge ep /\
      wc_length (writer_config fexp fc) = dp_length dp /\ wc_threshold (writer_config fexp fc) = ep_threshold ep).
    { clear - Hfc. unfold make_config in Hfc.
      destruct (drift_velocity _ _ _) as [dv|]; [|discriminate Hfc]. cbn [bind] in Hfc.
      destruct (load_pad_grid _ _ _ _) as [[g ed]|]; [|discriminate Hfc]. cbn [bind] in Hfc.
      destruct (load_pad_centers _ _ _ _) as [cs|]; [|discriminate Hfc]. cbn [bind] in Hfc.
      destruct (load_pad_sizes _ _ _ _) as [ss|]; [|discriminate Hfc]. cbn [bind] in Hfc.
      injection Hfc as <-. exists dv. repeat split. }
    destruct Parts as (dv & Edv & Ecfg & W1 & W2 & W3 & W4).
    split; [|split; [|split; [|split; [|split]]]].
    - (* z *)
      assert (Ar : around (dp_length dp) (t_z t)).
      { destruct Io as (z & a & nuc & p0 & track & els & g & g1 & _ & _ & _ & _ & J1 & J2 & _ & _ & J3 & _).
        eapply Hc; [eapply py_index_in; exact J1|exact J2|eapply in_combine_l; exact J3]. }
      rewrite W1, W2, W3 in Rz.
      destruct (drift_time_close dp ep Hs fexp dv (Some (fc_grid fexp fc)) (Some (fc_edges fexp fc)) (t_z t) Edv Ar) as (Fv & Pv & Cv).
      rewrite <- Ecfg in Fv, Pv, Cv. set (vv := drift_time fexp cfg (t_z t)) in *.
      destruct (z_column_close dp ep Hs (fadd (f_of_Z tb) u0) Ftb' Btb') as (_ & Cz). rewrite <- Rz in Cz.
      destruct (ranges dp ep Hs) as (RL & Rn & Rm & Rw & Enn).
      destruct Du as (Fu & Bu).
      destruct (fadd_fin (f_of_Z tb) u0 10 (f_of_Z_fin tb ltac:(lia)) Fu ltac:(lia)) as (Ra & _).
      { rewrite f_of_Z_R by lia. assert (0 <= IZR tb <= 511)%R by (split; [apply (IZR_le 0)|apply (IZR_le _ 511)]; lia).
        change (F64Bounds.b2 10) with 1024%R. apply Rabs_le. lra. }
      rewrite f_of_Z_R in Ra by lia.
      assert (Btbr : (0 <= IZR tb <= 511)%R) by (split; [apply (IZR_le 0)|apply (IZR_le _ 511)]; lia).
      assert (Er := rnd_bound (IZR tb + R64 u0) 512 ltac:(apply Rabs_le; lra)). rewrite <- Ra in Er. apply Rabs_le_inv in Er.
      apply f_to_Z_inv in Tz. destruct Tz as (_ & Etb & _).
      rewrite Ztrunc_floor in Etb by exact Pv.
      pose proof (Zfloor_lb (R64 vv)) as L1. pose proof (Zfloor_ub (R64 vv)) as L2. rewrite <- Etb in L1, L2.
      set (LL := R64 (dp_length dp)) in *. set (nn := IZR (ep_windows_edge ep - ep_mm_edge ep)) in *.
      set (tt := R64 (fadd (f_of_Z tb) u0)) in *. set (zz := R64 (t_z t)) in *.
      set (h := (LL / nn)%R) in *.
      set (X := ((LL - zz) / LL * nn)%R) in *.
      destruct small_facts as (U0 & U1 & T0 & T1).
      assert (Ph : (0 < h)%R) by (apply Rdiv_lt_0_compat; lra).
      assert (Dt : (Rabs (IZR (ep_mm_edge ep) + X - tt) <= 1 + / 2 ^ 29 + / 2 ^ 30)%R).
      { apply Rabs_le_inv in Cv. apply Rabs_le. rewrite u_30. lra. }
      assert (Q : ((IZR (ep_windows_edge ep) - tt) / nn * LL * 1000 - 1000 * zz = (IZR (ep_mm_edge ep) + X - tt) * (1000 * h))%R).
      { unfold X, h. rewrite (Rplus_comm (IZR (ep_mm_edge ep))). replace (IZR (ep_windows_edge ep)) with (nn + IZR (ep_mm_edge ep))%R by lra. field. lra. }
      assert (M : (Rabs ((IZR (ep_mm_edge ep) + X - tt) * (1000 * h)) <= (1 + / 2 ^ 29 + / 2 ^ 30) * (1000 * h))%R).
      { rewrite Rabs_mult, (Rabs_pos_eq (1000 * h)) by lra. apply Rmult_le_compat_r; lra. }
      rewrite <- Q in M. apply Rabs_le_inv in M. apply Rabs_le_inv in Cz. apply Rabs_le. lra.
    - destruct Hpos as [Hpos|(s & Es & E0 & Hm)]; [now left|]. right. exists s.
      rewrite Ecfg in Es at 1 2. split; [exact Es|]. split; [exact E0|exact Hm].
    - exact Hland.
    - rewrite Rx, Ry, <- surjective_pairing. now apply Row.
    - rewrite Rsz. now apply Row.
    - now rewrite <- W4.
  Qed.
End Position.

(** With the configuration, tracks and pads of P_Detect.v's example (C58_hypotheses shows that they
    meet the hypotheses): the track of event 0 passes z = 500 mm, a bucket is 1.95 mm, and the one
    stored row is at 499.02 mm (pad 300, label 3). *)
Example C66_example fexp :
  match e_make fexp with
  | Ok fc =>
      match sim fexp e_nuc (e_traj fexp) (e_electrons fexp) ex_uniform fc [e_row 1; e_row 1; e_row 1; e_row 1]
              (1, 2, 3) [1; 2; 1; 2] [1; 4; 1; 4] 0 [2; 3] with
      | Ok ((cloud, labels), _) =>
          match process fexp the_sort [f_of_Z 1] (writer_config fexp fc) cloud labels with
          | Ok (out, labs) => (map (fun r => map f_to_Z [fmul (f_of_Z 100) (s_z r); s_pad r]) out, labs)
          | Err _ => ([], [])
          end
      | Err _ => ([], [])
      end
  | Err _ => ([], [])
  end = ([[Some 49902; Some 300]], [3]).
Proof. vm_compute. reflexivity. Qed.
Print Assumptions C66_rows_lie_on_the_track.
