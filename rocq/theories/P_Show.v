(** P_Show.v -- C101: the printed chain tells which chain it is. *)
From Coq Require Import ZArith Reals String Ascii List Lia.
From Verif Require Import Base Nucleus Reaction Pipeline SpecPipeline P_Pipeline Show.
Import ListNotations.
Local Open Scope string_scope.

(** ** Specification *)
(** A string without the signs that separate the parts of an equation. *)
Fixpoint has (c : ascii) (s : string) : Prop := match s with EmptyString => False | String x s => c = x \/ has c s end.
Definition plain (s : string) : Prop := forall c, has c s -> ~ has c "(),->+ ".
(** The symbols of a chain, in the order in which the nuclei appear. *)
Definition symbols (pl : pipeline) : list (list string) :=
  let r := pl_reaction pl in
  [n_symbol (r_target r); n_symbol (r_projectile r); n_symbol (r_ejectile r); n_symbol (r_residual r)] ::
  map (fun d => [n_symbol (d_parent d); n_symbol (d_res1 d); n_symbol (d_res2 d)]) (pl_decays pl).

(** ** Cutting at the first separator *)
Lemma app_assoc_s a b c : (a ++ b) ++ c = a ++ b ++ c.
Proof. induction a as [|x a IH]; [reflexivity|]. cbn [append]. now rewrite IH. Qed.
Lemma app_nil_s a : a ++ "" = a.
Proof. induction a as [|x a IH]; [reflexivity|]. cbn [append]. now rewrite IH. Qed.
Lemma cut c : forall a b x y, ~ has c a -> ~ has c b -> a ++ String c x = b ++ String c y -> a = b /\ x = y.
Proof.
  induction a as [|u a IH]; intros b x y Na Nb E; destruct b as [|v b]; cbn [append has] in *.
  - split; congruence.
  - exfalso. apply Nb. left. congruence.
  - exfalso. apply Na. left. congruence.
  - assert (u = v) by congruence. subst v. destruct (IH b x y) as (-> & ->); [tauto|tauto|congruence|auto].
Qed.
(** One side ends, the other goes on with a separator. *)
Lemma no_cut c : forall a b x, ~ has c b -> a ++ String c x <> b.
Proof.
  induction a as [|u a IH]; intros b x Nb E; destruct b as [|v b]; cbn [append has] in *; [congruence|apply Nb; left; congruence|congruence|].
  apply (IH b x); [tauto|congruence].
Qed.
Lemma plain_has s c : plain s -> has c "(),->+ " -> ~ has c s.
Proof. intros P H K. exact (P c K H). Qed.

Definition tail (decays : list decay) : string := fold_right (fun d s => ", " ++ decay_str d ++ s) "" decays.
Lemma add_decays_tail : forall decays chain, add_decays chain decays = chain ++ tail decays.
Proof.
  induction decays as [|d ds IH]; intros chain; cbn [add_decays tail fold_right].
  - now rewrite app_nil_s.
  - fold (tail ds). rewrite IH, !app_assoc_s. reflexivity.
Qed.
Definition plain_decay (d : decay) : Prop := plain (n_symbol (d_parent d)) /\ plain (n_symbol (d_res1 d)) /\ plain (n_symbol (d_res2 d)).
(** A plain string followed by a tail. *)
Lemma tail_cut : forall ds ds' a b, plain a -> plain b -> Forall plain_decay ds -> Forall plain_decay ds' ->
  a ++ tail ds = b ++ tail ds' ->
  a = b /\ map (fun d => [n_symbol (d_parent d); n_symbol (d_res1 d); n_symbol (d_res2 d)]) ds =
           map (fun d => [n_symbol (d_parent d); n_symbol (d_res1 d); n_symbol (d_res2 d)]) ds'.
Proof.
  assert (S1 : has "," "(),->+ ") by (cbn; tauto). assert (S2 : has "-" "(),->+ ") by (cbn; tauto). assert (S3 : has "+" "(),->+ ") by (cbn; tauto).
  induction ds as [|d ds IH]; intros [|d' ds'] a b Pa Pb F F' E; cbn [tail fold_right] in E.
  - rewrite !app_nil_s in E. auto.
  - exfalso. rewrite app_nil_s in E. apply (no_cut "," b a (String " " (decay_str d' ++ tail ds'))); [now apply plain_has|]. symmetry. exact E.
  - exfalso. rewrite app_nil_s in E. apply (no_cut "," a b (String " " (decay_str d ++ tail ds))); [now apply plain_has|]. exact E.
  - fold (tail ds) (tail ds') in E. inversion F as [|? ? (P1 & P2 & P3) Fr]; subst. inversion F' as [|? ? (Q1 & Q2 & Q3) Fr']; subst.
    apply (cut ",") in E; [|now apply plain_has|now apply plain_has]. destruct E as (-> & E). split; [reflexivity|]. cbn [map].
    cbn [append] in E. assert (E1 : decay_str d ++ tail ds = decay_str d' ++ tail ds') by congruence.
    unfold decay_str in E1. rewrite !app_assoc_s in E1. apply (cut "-") in E1; [|now apply plain_has|now apply plain_has]. destruct E1 as (-> & E1).
    cbn [append] in E1. assert (E2 : n_symbol (d_res1 d) ++ "+" ++ n_symbol (d_res2 d) ++ tail ds = n_symbol (d_res1 d') ++ "+" ++ n_symbol (d_res2 d') ++ tail ds').
    { rewrite ?app_assoc_s in E1. cbn [append] in E1 |- *. congruence. }
    apply (cut "+") in E2; [|now apply plain_has|now apply plain_has]. destruct E2 as (-> & E2).
    destruct (IH ds' _ _ P3 Q3 Fr Fr' E2) as (-> & Em). now rewrite Em.
Qed.

(** All symbols of a pipeline are plain. *)
Definition plain_symbols (pl : pipeline) : Prop := Forall (Forall plain) (symbols pl).

(** C101: two pipelines print alike only if they have the same nuclei in the same places. *)
Theorem C101_chain pl pl' : plain_symbols pl -> plain_symbols pl' -> pipeline_str pl = pipeline_str pl' -> symbols pl = symbols pl'.
Proof.
  intros P P' E. unfold plain_symbols, symbols in P, P'. inversion P as [|? ? Pr Pd]; subst. inversion P' as [|? ? Pr' Pd']; subst.
  assert (D : forall ds, Forall (Forall plain) (map (fun d => [n_symbol (d_parent d); n_symbol (d_res1 d); n_symbol (d_res2 d)]) ds) -> Forall plain_decay ds).
  { clear. induction ds as [|d ds IH]; intros H; cbn [map] in H; constructor.
    - inversion H as [|? ? H1 _]; subst. inversion H1 as [|? ? A H2]; subst. inversion H2 as [|? ? B H3]; subst. inversion H3 as [|? ? C _]; subst. now repeat split.
    - apply IH. now inversion H. }
  apply D in Pd, Pd'. clear D P P'.
  inversion Pr as [|? ? P1 Pr1]; subst. inversion Pr1 as [|? ? P2 Pr2]; subst. inversion Pr2 as [|? ? P3 Pr3]; subst. inversion Pr3 as [|? ? P4 _]; subst.
  inversion Pr' as [|? ? Q1 Qr1]; subst. inversion Qr1 as [|? ? Q2 Qr2]; subst. inversion Qr2 as [|? ? Q3 Qr3]; subst. inversion Qr3 as [|? ? Q4 _]; subst.
  clear Pr Pr1 Pr2 Pr3 Pr' Qr1 Qr2 Qr3.
  assert (S1 : has "(" "(),->+ ") by (cbn; tauto). assert (S2 : has "," "(),->+ ") by (cbn; tauto). assert (S3 : has ")" "(),->+ ") by (cbn; tauto).
  unfold pipeline_str in E. rewrite !add_decays_tail in E. unfold reaction_str in E. rewrite ?app_assoc_s in E.
  apply (cut "(") in E; [|now apply plain_has|now apply plain_has]. destruct E as (E1 & E). cbn [append] in E. rewrite ?app_assoc_s in E.
  apply (cut ",") in E; [|now apply plain_has|now apply plain_has]. destruct E as (E2 & E). cbn [append] in E. rewrite ?app_assoc_s in E.
  apply (cut ")") in E; [|now apply plain_has|now apply plain_has]. destruct E as (E3 & E). cbn [append] in E.
  apply tail_cut in E; [|assumption..]. destruct E as (E4 & E). unfold symbols. now rewrite E1, E2, E3, E4, E.
Qed.

(** C101: if moreover a symbol stands for one nucleus, the numbers that are written to the file are the same. *)
Theorem C101_numbers junkz pl pl' : junk_ok junkz -> plain_symbols pl -> plain_symbols pl' ->
  length (pl_result pl) = (4 + 2 * length (pl_decays pl))%nat -> length (pl_result pl') = (4 + 2 * length (pl_decays pl'))%nat ->
  (forall a b, In a (row_nuclei (pl_reaction pl) (pl_decays pl)) -> In b (row_nuclei (pl_reaction pl') (pl_decays pl')) ->
     n_symbol a = n_symbol b -> n_Z a = n_Z b /\ n_A a = n_A b) ->
  pipeline_str pl = pipeline_str pl' ->
  get_proton_numbers junkz pl = get_proton_numbers junkz pl' /\ get_mass_numbers junkz pl = get_mass_numbers junkz pl'.
Proof.
  intros J P P' L L' One E. apply C101_chain in E; [|assumption..].
  assert (Sy : map n_symbol (row_nuclei (pl_reaction pl) (pl_decays pl)) = map n_symbol (row_nuclei (pl_reaction pl') (pl_decays pl'))).
  { unfold symbols in E. assert (E1 : [n_symbol (r_target (pl_reaction pl)); n_symbol (r_projectile (pl_reaction pl)); n_symbol (r_ejectile (pl_reaction pl)); n_symbol (r_residual (pl_reaction pl))] =
      [n_symbol (r_target (pl_reaction pl')); n_symbol (r_projectile (pl_reaction pl')); n_symbol (r_ejectile (pl_reaction pl')); n_symbol (r_residual (pl_reaction pl'))]) by congruence.
    assert (E2 : map (fun d => [n_symbol (d_parent d); n_symbol (d_res1 d); n_symbol (d_res2 d)]) (pl_decays pl) =
      map (fun d => [n_symbol (d_parent d); n_symbol (d_res1 d); n_symbol (d_res2 d)]) (pl_decays pl')) by congruence.
    unfold row_nuclei. rewrite !map_app. cbn [map]. rewrite E1. f_equal.
    clear - E2. revert E2. generalize (pl_decays pl'). induction (pl_decays pl) as [|d ds IH]; intros [|d' ds'] E2; cbn [map] in E2; [reflexivity|discriminate E2|discriminate E2|].
    cbn [flat_map map app]. assert (n_symbol (d_res1 d) = n_symbol (d_res1 d')) as -> by congruence.
    assert (n_symbol (d_res2 d) = n_symbol (d_res2 d')) as -> by congruence. do 2 f_equal. apply IH. congruence. }
  assert (G : forall l l' : list nucleus, map n_symbol l = map n_symbol l' ->
    (forall a b, In a l -> In b l' -> n_symbol a = n_symbol b -> n_Z a = n_Z b /\ n_A a = n_A b) -> map n_Z l = map n_Z l' /\ map n_A l = map n_A l').
  { clear. induction l as [|a l IH]; intros [|b l'] E O; cbn [map] in E; [auto|discriminate E|discriminate E|].
    destruct (O a b) as (Ez & Ea); [now left|now left|congruence|]. destruct (IH l') as (Iz & Ia); [congruence|intros; apply O; [now right|now right|assumption]|].
    cbn [map]. now rewrite Ez, Ea, Iz, Ia. }
  unfold get_proton_numbers, get_mass_numbers. rewrite !C43_row_order by assumption. apply G; assumption.
Qed.

(** C101: the words of the printed chain -- what stands between separators -- are the symbols of the nuclei,
    reaction first (target, projectile, ejectile, residual), then each decay (parent, first, second product). *)
Definition is_sep (c : ascii) : bool := existsb (Ascii.eqb c) ["("; ")"; ","; "-"; ">"; "+"; " "]%char.
Fixpoint words (w s : string) : list string :=
  match s with
  | EmptyString => if String.eqb w "" then [] else [w]
  | String c s => if is_sep c then (if String.eqb w "" then [] else [w]) ++ words "" s else words (w ++ String c "") s
  end%list.
Lemma sep_has c : is_sep c = true -> has c "(),->+ ".
Proof.
  unfold is_sep. cbn [existsb has]. rewrite !Bool.orb_true_iff, !Ascii.eqb_eq. assert (false <> true) by discriminate. tauto.
Qed.
Lemma words_plain : forall a w s, plain a -> words w (a ++ s) = words (w ++ a) s.
Proof.
  induction a as [|c a IH]; intros w s P; cbn [append]; [now rewrite app_nil_s|]. cbn [words].
  destruct (is_sep c) eqn:E; [exfalso; apply (P c); [now left|now apply sep_has]|].
  rewrite IH; [|intros x Hx; apply P; now right]. now rewrite app_assoc_s.
Qed.
Lemma words_word a s : plain a -> a <> "" -> forall c, is_sep c = true -> words "" (a ++ String c s) = (a :: words "" s)%list.
Proof.
  intros P N c S. rewrite words_plain by exact P. cbn [append words]. rewrite S.
  destruct (String.eqb a "") eqn:E; [apply String.eqb_eq in E; contradiction|reflexivity].
Qed.
Lemma words_sep c s : is_sep c = true -> words "" (String c s) = words "" s.
Proof. intros S. cbn [words]. now rewrite S. Qed.
Lemma words_tail : forall ds a, plain a -> a <> "" -> Forall plain_decay ds ->
  Forall (fun d => n_symbol (d_parent d) <> "" /\ n_symbol (d_res1 d) <> "" /\ n_symbol (d_res2 d) <> "") ds ->
  words "" (a ++ tail ds) = (a :: concat (map (fun d => [n_symbol (d_parent d); n_symbol (d_res1 d); n_symbol (d_res2 d)]) ds))%list.
Proof.
  induction ds as [|d ds IH]; intros a Pa Na F G; cbn [tail fold_right map concat].
  - rewrite words_plain by exact Pa. cbn [append words]. destruct (String.eqb a "") eqn:E; [apply String.eqb_eq in E; contradiction|reflexivity].
  - fold (tail ds). inversion F as [|? ? (P1 & P2 & P3) Fr]; subst. inversion G as [|? ? (N1 & N2 & N3) Gr]; subst.
    cbn [append]. rewrite words_word by (reflexivity || assumption). f_equal. rewrite words_sep by reflexivity.
    unfold decay_str. rewrite !app_assoc_s. cbn [append]. rewrite words_word by (reflexivity || assumption). cbn [app]. f_equal.
    rewrite words_sep by reflexivity. rewrite words_word by (reflexivity || assumption). f_equal. now rewrite IH.
Qed.
Theorem C101_words pl : plain_symbols pl -> Forall (Forall (fun s => s <> "")) (symbols pl) ->
  words "" (pipeline_str pl) = concat (symbols pl).
Proof.
  intros P N. unfold plain_symbols, symbols in *. inversion P as [|? ? Pr Pd]; subst. inversion N as [|? ? Nr Nd]; subst.
  assert (D : Forall plain_decay (pl_decays pl) /\ Forall (fun d => n_symbol (d_parent d) <> "" /\ n_symbol (d_res1 d) <> "" /\ n_symbol (d_res2 d) <> "") (pl_decays pl)).
  { clear - Pd Nd. induction (pl_decays pl) as [|d ds IH]; [split; constructor|]. cbn [map] in *. inversion Pd as [|? ? A B]; subst. inversion Nd as [|? ? A' B']; subst.
    destruct (IH B B') as [I1 I2]. rewrite !Forall_cons_iff in A, A'. unfold plain_decay. split; constructor; tauto. }
  rewrite !Forall_cons_iff in Pr, Nr. unfold pipeline_str. rewrite add_decays_tail. unfold reaction_str. rewrite !app_assoc_s. cbn [append].
  destruct Pr as (P1 & P2 & P3 & P4 & _), Nr as (N1 & N2 & N3 & N4 & _). cbn [concat app].
  rewrite words_word by (reflexivity || assumption). f_equal. rewrite words_word by (reflexivity || assumption). f_equal.
  rewrite words_word by (reflexivity || assumption). f_equal. apply words_tail; tauto.
Qed.

(** 14C(d,p)15C followed by the emission of a neutron. *)
Example C101_example :
  let d := mkDecay (mkNucleus 6 15 1 "15C") (mkNucleus 0 1 1 "1n") (mkNucleus 6 14 1 "14C") in
  let r := mkReaction (mkNucleus 1 2 1 "2H") (mkNucleus 6 14 1 "14C") (mkNucleus 1 1 1 "1H") (mkNucleus 6 15 1 "15C") in
  let pl := mkPipeline r [d] 10 (repeat None 6) in
  pipeline_str pl = "2H(14C,1H)15C, 15C->1n+14C" /\ plain_symbols pl /\ Forall (Forall (fun s => s <> "")) (symbols pl) /\
  words "" (pipeline_str pl) = ["2H"; "14C"; "1H"; "15C"; "15C"; "1n"; "14C"]%list.
Proof.
  cbv zeta. split; [reflexivity|]. split; [|split; [repeat constructor; intros C; discriminate C|reflexivity]]. unfold plain_symbols, symbols, plain. cbn [pl_reaction pl_decays r_target r_projectile r_ejectile r_residual d_parent d_res1 d_res2 n_symbol map].
  repeat constructor; intros c H K; cbn [has] in H, K;
    repeat (destruct H as [H|H]; [subst c; repeat (destruct K as [K|K]; [discriminate K|]); exact K|]); exact H.
Qed.
(** With a symbol that holds a separator, two different chains look the same. *)
Example C101_separators_matter : exists pl pl', pipeline_str pl = pipeline_str pl' /\ symbols pl <> symbols pl'.
Proof.
  exists (mkPipeline (mkReaction (mkNucleus 1 2 1 "2H") (mkNucleus 6 14 1 "14C") (mkNucleus 1 1 1 "1H") (mkNucleus 6 15 1 "15C, a->b+c")) [] 10 []),
    (mkPipeline (mkReaction (mkNucleus 1 2 1 "2H") (mkNucleus 6 14 1 "14C") (mkNucleus 1 1 1 "1H") (mkNucleus 6 15 1 "15C"))
       [mkDecay (mkNucleus 1 1 1 "a") (mkNucleus 1 1 1 "b") (mkNucleus 1 1 1 "c")] 10 []).
  split; [reflexivity|]. unfold symbols. cbn. intros C. discriminate C.
Qed.

Print Assumptions C101_chain.
Print Assumptions C101_numbers.
Print Assumptions C101_words.
