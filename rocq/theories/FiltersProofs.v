(* FiltersProofs.v: the printed conditions of queries keep their meaning. *)
From Coq Require Import Lia.
From Verif Require Import Base Doc SpecDoc Cst Comments Formatter SpecTree SpecWords SpecTokens SpecFilters
  BitsProofs TokensProofs TokensProofs2 TokensProofs5 ReadProofs WordsFormat.
Local Open Scope string_scope.
Local Open Scope list_scope.

(* ------------------------------------------------------------ one reading *)

Scheme single_mind := Induction for single Sort Prop
with chain_mind := Induction for chain Sort Prop
with reads_mind := Induction for reads Sort Prop.
Combined Scheme reading_ind from single_mind, chain_mind, reads_mind.

Definition closed (r : list lexeme) : Prop := match r with [] | Close :: _ => True | _ => False end.
Lemma single_head ls f : single ls f -> exists x r, ls = x :: r /\ (x = Open \/ exists c, x = Compared c).
Proof. intros [c|ls' f' H]; eauto 8. Qed.
Lemma one_reading_here :
  (forall ls f, single ls f -> forall ls' f' r r', single ls' f' -> ls ++ r = ls' ++ r' -> ls = ls' /\ f = f') /\
  (forall j ls f, chain j ls f -> forall j' ls' f' r r', chain j' ls' f' -> closed r -> closed r' ->
     ls ++ r = ls' ++ r' -> ls = ls' /\ f = f') /\
  (forall ls f, reads ls f -> forall ls' f' r r', reads ls' f' -> closed r -> closed r' ->
     ls ++ r = ls' ++ r' -> ls = ls' /\ f = f').
Proof.
  apply reading_ind.
  - intros c ls' f' r r' H E. destruct H as [c'|ls' f' H]; [|discriminate]. injection E as -> _. auto.
  - intros ls f H IH ls' f' r r' H' E. destruct H' as [c'|ls' f' H']; [discriminate|].
    cbn [app] in E. injection E as E. rewrite <- !app_assoc in E. destruct (IH _ _ (Close :: r) (Close :: r') H' I I E) as [-> ->]. auto.
  - intros j ls f H IH j' ls' f' r r' H' C C' E. destruct H' as [j' ls' f' H'|j' ls' f' q g H' Q].
    + exact (IH _ _ _ _ H' E).
    + exfalso. rewrite <- app_assoc in E. destruct (IH _ _ _ _ H' E) as [-> ->]. apply app_inv_head in E. subst r. exact C.
  - intros j ls f q g H IH Q IHq j' ls' f' r r' H' C C' E. rewrite <- app_assoc in E.
    destruct H' as [j' ls' f' H'|j' ls' f' q' g' H' Q'].
    + exfalso. destruct (IH _ _ _ _ H' E) as [-> ->]. apply app_inv_head in E. subst r'. exact C'.
    + rewrite <- app_assoc in E. destruct (IH _ _ _ _ H' E) as [-> ->]. apply app_inv_head in E.
      cbn [app] in E. injection E as <- E. destruct (IHq _ _ _ _ _ Q' C C' E) as [-> ->]. auto.
  - intros j ls f H IH ls' f' r r' H' C C' E. destruct H' as [j' ls' f' H'|ls' f' H'].
    + exact (IH _ _ _ _ _ H' C C' E).
    + exfalso. destruct H as [j ls f H|j ls f q g H Q]; destruct (single_head _ _ H) as (x & y & -> & [->|(c & ->)]); discriminate.
  - intros ls f H IH ls' f' r r' H' C C' E. destruct H' as [j' ls' f' H'|ls' f' H'].
    + exfalso. destruct H' as [j ls' f' H'|j ls' f' q g H' Q]; destruct (single_head _ _ H') as (x & y & -> & [->|(c & ->)]); discriminate.
    + cbn [app] in E. injection E as E. destruct (IH _ _ _ _ H' E) as [-> ->]. auto.
Qed.
Lemma one_reading ls f g : reads ls f -> reads ls g -> f = g.
Proof. intros H1 H2. eapply (proj2 (proj2 one_reading_here) ls f H1 ls g [] []); [exact H2|exact I|exact I|reflexivity]. Qed.

(* ------------------------------------------------------------ truth values *)

Lemma parts_named {A} (h : node -> A) cs :
  flat_map (fun c => if n_named c && negb (n_extra c) then [h c] else []) cs
  = map h (filter (fun c => n_named c && negb (n_extra c)) cs).
Proof. induction cs as [|c cs IH]; [reflexivity|]. cbn [flat_map filter]. destruct (_ && _); cbn [app map]; rewrite IH; reflexivity. Qed.
Lemma parts_named_list {A} (h : node -> list A) cs :
  flat_map (fun c => if n_named c && negb (n_extra c) then h c else []) cs
  = flat_map h (filter (fun c => n_named c && negb (n_extra c)) cs).
Proof. induction cs as [|c cs IH]; [reflexivity|]. cbn [flat_map filter]. destruct (_ && _); cbn [app flat_map]; rewrite IH; reflexivity. Qed.
Lemma parts_code n : filter (fun c => n_named c && negb (n_extra c)) (children n) = filter n_named (code_children n).
Proof.
  unfold code_children. rewrite filter_filter. apply filter_ext. intro c. destruct (spare n c) eqn:E.
  - rewrite (proj1 (spare_skipped _ _ E)). rewrite andb_false_r. reflexivity.
  - rewrite orb_false_r. apply andb_comm.
Qed.
Lemma truth_eq v n : truth v n =
  (let parts := map (truth v) (filter n_named (code_children n)) in
   if has_kind "and_expression" n then forallb (fun b => b) parts
   else if has_kind "or_expression" n then existsb (fun b => b) parts
   else if has_kind "not_expression" n then negb (hd false parts)
   else v n).
Proof. rewrite <- parts_code, <- parts_named. destruct n. reflexivity. Qed.
Lemma comparisons_eq n : comparisons n =
  (if kind_in (n_kind n) ["and_expression"; "or_expression"; "not_expression"]
   then flat_map comparisons (filter n_named (code_children n)) else [n]).
Proof. rewrite <- parts_code, <- parts_named_list. destruct n. reflexivity. Qed.

(* ------------------------------------------------------------ the readings of the printed conditions *)

Definition spells (ls : list lexeme) (n : list node) : Prop := flat_map lexeme_bits ls = bits_of n.
Definition read_as (n : node) (R : list lexeme -> formula -> Prop) : Prop :=
  exists ls f, R ls f /\ spells ls (leaves n) /\ compared ls = comparisons n /\ forall v, satisfied v f = truth v n.
Definition both (j : joint) (a b : bool) : bool := match j with And => a && b | Or => a || b end.
Definition over (j : joint) (bs : list bool) : bool :=
  match j with And => forallb (fun b => b) bs | Or => existsb (fun b => b) bs end.
Lemma satisfied_join v j f g : satisfied v (FJoin j f g) = both j (satisfied v f) (satisfied v g).
Proof. destruct j; reflexivity. Qed.
Lemma both_assoc j a b c : both j a (both j b c) = both j (both j a b) c.
Proof. destruct j, a, b, c; reflexivity. Qed.
Lemma over_app j a b : over j (a ++ b) = both j (over j a) (over j b).
Proof. destruct j; cbn; [apply forallb_app|apply existsb_app]. Qed.
Lemma over_one j b : over j [b] = b.
Proof. destruct j, b; reflexivity. Qed.
Lemma compared_app a b : compared (a ++ b) = compared a ++ compared b.
Proof. apply flat_map_app. Qed.

Lemma chain_app j ls f : chain j ls f -> forall r g, chain j r g ->
  exists h, chain j (ls ++ Join j :: r) h /\ forall v, satisfied v h = both j (satisfied v f) (satisfied v g).
Proof.
  induction 1 as [j ls f H|j ls f q h H Q IH]; intros r g R.
  - exists (FJoin j f g). split; [apply Chain_more; assumption|]. intro v. apply satisfied_join.
  - destruct (IH r g R) as (k & K & E). exists (FJoin j f k). split.
    + rewrite <- app_assoc. cbn [app]. apply Chain_more; assumption.
    + intro v. rewrite !satisfied_join, E. apply both_assoc.
Qed.

(* what the proof needs to know about a tree *)
Definition regular (n : node) : Prop :=
  forall m, In m (all_nodes n) -> n_extra m = false -> spelled m /\ (n_named m = true -> follows_rules m).
Lemma regular_kid n c : regular n -> In c (children n) -> regular c.
Proof.
  intros H Hc m Hm. apply H. destruct n as [i cs]. right. apply in_flat_map. exists c. split; [exact Hc|exact Hm].
Qed.
Lemma code_kid n c : In c (code_children n) -> In c (children n) /\ n_extra c = false.
Proof. intro H. apply filter_In in H as [H1 H2]. apply negb_true_iff, orb_false_iff in H2 as [H2 _]. auto. Qed.
Lemma leaves_code_kids n cs : n_extra n = false -> code_children n = cs -> cs <> [] -> leaves n = flat_map leaves cs.
Proof.
  intros H E N. rewrite leaves_kids, E; [reflexivity|exact H|]. intro C. apply N. rewrite <- E. unfold code_children. rewrite C. reflexivity.
Qed.
Lemma sign_leaves c : regular c -> n_extra c = false -> n_named c = false -> leaves c = [c] /\ bits (n_text c) = bits (U (n_kind c)).
Proof.
  intros R Hx Hn. destruct (R c (self_in c) Hx) as [S _]. unfold spelled in S. rewrite Hn in S. destruct S as [S1 S2].
  split; [apply leaves_leaf; assumption|exact S2].
Qed.
Lemma word_leaves fs w x : Forall (fun c => regular c /\ n_extra c = false) x -> worded (fun c => c) fs w x ->
  bits_of (flat_map leaves x) = bits (U w) /\ filter n_named x = [].
Proof.
  intros F (_ & W & E). rewrite map_id in E. rewrite <- E. clear E. induction F as [|c x (R & Hx) F IH]; [split; reflexivity|].
  inversion W as [|? ? (Hn & _) W']; subst. destruct (IH W') as [E1 E2]. cbn [flat_map filter]. rewrite Hn.
  destruct (sign_leaves c R Hx Hn) as [-> _]. split; [|exact E2]. cbn [app]. change (bits_of (c :: flat_map leaves x)) with (bits (n_text c) ++ bits_of (flat_map leaves x)).
  rewrite E1. reflexivity.
Qed.

Definition joint_kind (j : joint) : string := match j with And => "and_expression" | Or => "or_expression" end.
Definition joint_word (j : joint) : string := match j with And => "AND" | Or => "OR" end.
Definition readable (c : node) : Prop :=
  n_extra c = false -> n_named c = true -> regular c ->
  (n_kind c = "comparison_expression" -> read_as c single) /\
  (forall j, n_kind c = joint_kind j -> read_as c (chain j)) /\
  (n_kind c = "not_expression" -> read_as c reads).
Lemma read_reads c : readable c -> n_extra c = false -> n_named c = true -> regular c ->
  kind_in (n_kind c) ["and_expression"; "or_expression"; "not_expression"; "comparison_expression"] = true -> read_as c reads.
Proof.
  intros H Hx Hn R K. destruct (H Hx Hn R) as (H1 & H2 & H3). unfold kind_in in K. cbn [existsb] in K.
  destruct (String.eqb_spec (n_kind c) "and_expression") as [E|_].
  { destruct (H2 And E) as (ls & f & P & Q). exists ls, f. split; [exact (Reads_chain _ _ _ P)|exact Q]. }
  destruct (String.eqb_spec (n_kind c) "or_expression") as [E|_].
  { destruct (H2 Or E) as (ls & f & P & Q). exists ls, f. split; [exact (Reads_chain _ _ _ P)|exact Q]. }
  destruct (String.eqb_spec (n_kind c) "not_expression") as [E|_]; [exact (H3 E)|].
  destruct (String.eqb_spec (n_kind c) "comparison_expression") as [E|_]; [|discriminate].
  destruct (H1 E) as (ls & f & P & Q). exists ls, f. split; [exact (Reads_chain And _ _ (Chain_last _ _ _ P))|exact Q].
Qed.
Definition fit (c : node) : Prop := readable c /\ regular c /\ n_extra c = false.

(* a condition in parentheses *)
Lemma group_read fs o c e ks : fit o -> fit c -> fit e ->
  sign (fun c => c) fs "" "(" o -> branch (fun c => c) fs "" ks c -> sign (fun c => c) fs "" ")" e ->
  forallb (fun k => kind_in k ["and_expression"; "or_expression"; "not_expression"; "comparison_expression"]) ks = true ->
  exists ls f, single ls f /\ spells ls (flat_map leaves [o; c; e]) /\ compared ls = comparisons c /\ forall v, satisfied v f = truth v c.
Proof.
  intros (_ & Ro & Xo) (Hc & Rc & Xc) (_ & Re & Xe) (No & Ko & _) (Nc & Kc & _) (Ne & Ke & _) Hks.
  destruct (read_reads c Hc Xc Nc Rc (kinds_in _ _ _ Kc Hks)) as (ls & f & P & Q & C & T).
  exists (Open :: ls ++ [Close]), f. split; [exact (Single_group _ _ P)|]. split; [|split; [|exact T]].
  - unfold spells in *. cbn [flat_map app lexeme_bits]. rewrite flat_map_app, Q. cbn [flat_map lexeme_bits app].
    destruct (sign_leaves o Ro Xo No) as [-> Eo]. destruct (sign_leaves e Re Xe Ne) as [-> Ee]. rewrite Ko in Eo. rewrite Ke in Ee.
    cbn [app]. change (o :: leaves c ++ [e]) with ([o] ++ leaves c ++ [e]). rewrite !bits_of_app.
    change (bits_of [o]) with (bits (n_text o) ++ []). change (bits_of [e]) with (bits (n_text e) ++ []). rewrite Eo, Ee. reflexivity.
  - change (compared (Open :: ls ++ [Close])) with (compared (ls ++ [Close])). rewrite compared_app, C. apply app_nil_r.
Qed.
Lemma one_read fs j ks a : Forall fit a -> condition (fun c => c) fs ["comparison_expression"; joint_kind j] ks a ->
  forallb (fun k => kind_in k ["and_expression"; "or_expression"; "not_expression"; "comparison_expression"]) ks = true ->
  exists ls f, chain j ls f /\ spells ls (flat_map leaves a) /\ compared ls = flat_map comparisons (filter n_named a) /\
    forall v, satisfied v f = over j (map (truth v) (filter n_named a)).
Proof.
  intros F H Hks. destruct H as [c Hc|o c e Ho Hc He].
  - pose proof (Forall_inv F) as Fc. destruct Fc as (Hr & R & X). destruct Hc as (Hn & K & _).
    destruct (Hr X Hn R) as (H1 & H2 & _). cbn [flat_map filter]. rewrite Hn. cbn [flat_map map]. rewrite !app_nil_r.
    assert (D : read_as c (chain j)).
    { unfold kind_in in K. cbn [existsb] in K. destruct (String.eqb_spec (n_kind c) "comparison_expression") as [E|_].
      - destruct (H1 E) as (ls & f & P & Q). exists ls, f. split; [exact (Chain_last _ _ _ P)|exact Q].
      - cbn [orb] in K. rewrite orb_false_r in K. apply String.eqb_eq in K. exact (H2 j K). }
    destruct D as (ls & f & P & Q & C & T). exists ls, f. split; [exact P|]. split; [exact Q|]. split; [exact C|].
    intro v. rewrite over_one. apply T.
  - inversion F as [|? ? Fo F1]; subst. inversion F1 as [|? ? Fc F2]; subst. inversion F2 as [|? ? Fe _]; subst.
    destruct (group_read fs o c e ks Fo Fc Fe Ho Hc He Hks) as (ls & f & P & Q & C & T).
    destruct Ho as (No & _), Hc as (Nc & _), He as (Ne & _). exists ls, f. split; [exact (Chain_last _ _ _ P)|]. split; [exact Q|].
    cbn [filter]. rewrite No, Nc, Ne. cbn [flat_map map]. rewrite app_nil_r. split; [exact C|]. intro v. rewrite over_one. apply T.
Qed.
Lemma conditions_read fs j ks a : conditions (fun c => c) fs (joint_word j) ["comparison_expression"; joint_kind j] ks a ->
  Forall fit a ->
  forallb (fun k => kind_in k ["and_expression"; "or_expression"; "not_expression"; "comparison_expression"]) ks = true ->
  exists ls f, chain j ls f /\ spells ls (flat_map leaves a) /\ compared ls = flat_map comparisons (filter n_named a) /\
    forall v, satisfied v f = over j (map (truth v) (filter n_named a)).
Proof.
  intros H F Hks. remember (joint_word j) as w eqn:Ew. induction H as [a Ha|a x r Ha Hx Hr IH].
  - eapply one_read; eassumption.
  - apply Forall_app in F as [Fa F]. apply Forall_app in F as [Fx Fr].
    destruct (one_read fs j ks a Fa Ha Hks) as (l1 & f1 & P1 & Q1 & C1 & T1).
    destruct (IH Fr) as (l2 & f2 & P2 & Q2 & C2 & T2).
    assert (Fx' : Forall (fun c => regular c /\ n_extra c = false) x).
    { eapply Forall_impl; [|exact Fx]. intros c (_ & H). exact H. }
    destruct (word_leaves fs w x Fx' Hx) as [W N].
    destruct (chain_app j l1 f1 P1 l2 f2 P2) as (h & P & T). exists (l1 ++ Join j :: l2), h. split; [exact P|].
    rewrite !filter_app, N. cbn [app]. split; [|split].
    + unfold spells in *. rewrite !flat_map_app, !bits_of_app. cbn [flat_map]. rewrite Q1, Q2, W, Ew. destruct j; reflexivity.
    + rewrite compared_app, flat_map_app, C1, <- C2. reflexivity.
    + intro v. rewrite T, T1, T2, map_app, over_app. reflexivity.
Qed.

Lemma all_readable n : readable n.
Proof.
  induction n as [i cs IH] using node_nested_ind. intros Hx Hn R. set (n := Node i cs) in *.
  assert (HF : Forall fit (code_children n)).
  { apply Forall_forall. intros c Hc. apply code_kid in Hc as [Hc Xc]. split; [|split; [eapply regular_kid; eassumption|exact Xc]].
    rewrite Forall_forall in IH. apply IH. exact Hc. }
  pose proof (proj2 (R n (self_in n) Hx) Hn) as HR. unfold follows_rules in HR.
  split; [|split].
  - intro K. exists [Compared n], (FCompare n). split; [constructor|]. split; [apply app_nil_r|]. split.
    + rewrite comparisons_eq, K. reflexivity.
    + intro v. rewrite truth_eq. unfold has_kind. rewrite K. reflexivity.
  - intros j K. rewrite K in HR. destruct HR as (alt & Ha & HI); [destruct j; discriminate|].
    assert (HC : exists ks, conditions (fun c => c) (fields (joint_kind j)) (joint_word j) ["comparison_expression"; joint_kind j] ks (code_children n) /\
      forallb (fun k => kind_in k ["and_expression"; "or_expression"; "not_expression"; "comparison_expression"]) ks = true).
    { destruct j; destruct Ha as [<-|[]]; cbn [fits] in HI; destruct HI as (a & t & E & HC & ->); rewrite app_nil_r in E; rewrite E;
        eexists; (split; [exact HC|reflexivity]). }
    destruct HC as (ks & HC & Hks). destruct (conditions_read _ j ks _ HC HF Hks) as (ls & f & P & Q & C & T).
    exists ls, f. split; [exact P|]. split; [|split].
    + unfold spells in *. rewrite (leaves_code_kids n _ Hx eq_refl); [exact Q|]. intro E. rewrite E in HC. clear - HC.
      assert (G : forall a, conditions (fun c : node => c) (fields (joint_kind j)) (joint_word j) ["comparison_expression"; joint_kind j] ks a -> a <> []).
      { intros a [b B|b x r B W _]; destruct B; discriminate. }
      exact (G [] HC eq_refl).
    + rewrite comparisons_eq, K. destruct j; exact C.
    + intro v. rewrite T, truth_eq. unfold has_kind. rewrite K. destruct j; reflexivity.
  - intro K. rewrite K in HR. destruct HR as (alt & Ha & HI); [discriminate|].
    assert (HC : exists x r c ls f, code_children n = x ++ r /\ worded (fun c => c) (fields "not_expression") "NOT" x /\ filter n_named r = [c] /\
      single ls f /\ spells ls (flat_map leaves r) /\ compared ls = comparisons c /\ forall v, satisfied v f = truth v c).
    { destruct Ha as [<-|[<-|[]]]; cbn [fits] in HI.
      - destruct HI as (x & r & E & W & c & t & -> & B & ->). rewrite E in HF. apply Forall_app in HF as [_ HF].
        inversion HF as [|? ? (Hr & Rc & Xc) _]; subst. destruct B as (Nc & Kc & _).
        unfold kind_in in Kc. cbn [existsb] in Kc. rewrite orb_false_r in Kc. apply String.eqb_eq in Kc.
        destruct (proj1 (Hr Xc Nc Rc) Kc) as (ls & f & P & Q & C & T).
        exists x, [c], c, ls, f. split; [exact E|]. split; [exact W|]. cbn [filter flat_map]. rewrite Nc, app_nil_r. auto 6.
      - destruct HI as (x & r & E & W & o & t & -> & Bo & c & t' & -> & B & e & t'' & -> & Be & ->). rewrite E in HF. apply Forall_app in HF as [_ HF].
        inversion HF as [|? ? Fo F1]; subst. inversion F1 as [|? ? Fc F2]; subst. inversion F2 as [|? ? Fe _]; subst.
        destruct (group_read _ o c e _ Fo Fc Fe Bo B Be eq_refl) as (ls & f & P & Q & C & T).
        destruct Bo as (No & _), B as (Nc & _), Be as (Ne & _).
        exists x, [o; c; e], c, ls, f. split; [exact E|]. split; [exact W|]. cbn [filter]. rewrite No, Nc, Ne. auto 6. }
    destruct HC as (x & r & c & ls & f & E & W & N & P & Q & C & T).
    assert (Fx : Forall (fun c => regular c /\ n_extra c = false) x).
    { rewrite E in HF. apply Forall_app in HF as [HF _]. eapply Forall_impl; [|exact HF]. intros m (_ & H). exact H. }
    destruct (word_leaves _ _ x Fx W) as [Wb Wn].
    exists (Negate :: ls), (FNot f). split; [exact (Reads_not _ _ P)|]. split; [|split].
    + unfold spells in *. rewrite (leaves_code_kids n _ Hx E), flat_map_app, bits_of_app, Wb, <- Q; [reflexivity|].
      destruct W as (W & _). destruct x; [contradiction|discriminate].
    + rewrite comparisons_eq, K, E, filter_app, Wn, N. cbn [kind_in existsb String.eqb Ascii.eqb Bool.eqb orb app flat_map]. rewrite app_nil_r. exact C.
    + intro v. rewrite truth_eq. unfold has_kind. rewrite K, E, filter_app, Wn, N.
      cbn [String.eqb Ascii.eqb Bool.eqb app map hd satisfied]. rewrite T. reflexivity.
Qed.

(* ------------------------------------------------------------ files *)

Lemma all_nodes_trans root n m : In n (all_nodes root) -> In m (all_nodes n) -> In m (all_nodes root).
Proof.
  revert n. induction root as [i cs IH] using node_nested_ind. intros n Hn Hm. destruct Hn as [<-|Hn]; [exact Hm|].
  apply in_flat_map in Hn as (c & Hc & Hn). right. apply in_flat_map. exists c. split; [exact Hc|].
  rewrite Forall_forall in IH. eapply IH; eassumption.
Qed.
Lemma file_regular root n : file_tree root -> In n (all_nodes root) -> regular n.
Proof.
  intros S Hn m Hm Hx. assert (H : In m (all_nodes root)) by (eapply all_nodes_trans; eassumption).
  split; [exact (ft_spelled _ S m H Hx)|exact (ft_rules _ S m H Hx)].
Qed.
(* The tokens of a node are a part of those of the file. *)
Lemma leaves_part n : forall root, In n (all_nodes root) -> n_named n = true -> n_extra n = false ->
  (forall m, In m (all_nodes root) -> n_extra m = true \/ n_named m = false -> children m = []) ->
  exists a b, leaves root = a ++ leaves n ++ b.
Proof.
  intro root. induction root as [i cs IH] using node_nested_ind. intros H Nn Xn HC.
  destruct H as [<-|H]; [exists [], []; rewrite app_nil_r; reflexivity|].
  apply in_flat_map in H as (c & Hc & H). rewrite Forall_forall in IH.
  assert (HCc : forall m, In m (all_nodes c) -> n_extra m = true \/ n_named m = false -> children m = []).
  { intros m Hm. apply HC. right. apply in_flat_map. eauto. }
  destruct (IH c Hc H Nn Xn HCc) as (a & b & E).
  assert (Hs : n_named c = true /\ n_extra c = false).
  { assert (D : children c = [] -> n_named c = true /\ n_extra c = false).
    { intro D. destruct c as [j ds]. cbn in D. subst ds. destruct H as [->|[]]. auto. }
    destruct (n_extra c) eqn:X; [destruct (D (HCc c (self_in c) (or_introl X))); congruence|].
    destruct (n_named c) eqn:N; [auto|]. destruct (D (HCc c (self_in c) (or_intror N))); congruence. }
  destruct Hs as [Nc Xc]. set (p := Node i cs) in *.
  assert (Xp : n_extra p = false).
  { destruct (n_extra p) eqn:X; [|reflexivity]. pose proof (HC p (self_in p) (or_introl X)) as D. cbn in D. rewrite D in Hc. destruct Hc. }
  assert (Hk : In c (code_children p)).
  { apply filter_In. split; [exact Hc|]. rewrite Xc. destruct (spare p c) eqn:Sp; [|reflexivity].
    apply spare_skipped in Sp as (Sp & _). congruence. }
  rewrite leaves_kids; [|exact Xp|intro D; cbn in D; rewrite D in Hc; destruct Hc].
  apply in_split in Hk as (u & w & ->). rewrite flat_map_app. cbn [flat_map]. rewrite E.
  exists (flat_map leaves u ++ a), (b ++ flat_map leaves w). rewrite <- !app_assoc. reflexivity.
Qed.
Lemma file_part root n : file_tree root -> In n (all_nodes root) -> n_named n = true -> n_extra n = false ->
  exists a b, leaves root = a ++ leaves n ++ b.
Proof.
  intros S H Nn Xn. apply leaves_part; auto. intros m Hm HX. destruct (n_extra m) eqn:X.
  - apply (ft_comments _ S m Hm X).
  - destruct HX as [HX|HX]; [discriminate|]. pose proof (ft_spelled _ S m Hm X) as Sp. unfold spelled in Sp. rewrite HX in Sp. apply Sp.
Qed.

Lemma filter_read root n c : file_tree root -> In n (all_nodes root) -> n_extra n = false -> n_named n = true ->
  kind_in (n_kind n) ["where_clause"; "having_clause"] = true ->
  In c (children n) -> n_named c = true -> n_extra c = false ->
  exists w ls f, In w ["WHERE"; "HAVING"] /\ bits_of (leaves n) = bits (U w) ++ flat_map lexeme_bits ls /\ compared ls = comparisons c /\
    reads ls f /\ forall v, satisfied v f = truth v c.
Proof.
  intros S Hn Xn Nn K Hc Nc Xc. pose proof (file_regular root n S Hn) as R.
  pose proof (proj2 (R n (self_in n) Xn) Nn) as HR. unfold follows_rules in HR.
  assert (HC : In c (filter n_named (code_children n))).
  { rewrite <- parts_code. apply filter_In. split; [exact Hc|]. rewrite Nc, Xc. reflexivity. }
  assert (HF : Forall fit (code_children n)).
  { apply Forall_forall. intros m Hm. apply code_kid in Hm as [Hm Xm]. split; [apply all_readable|split; [eapply regular_kid; eassumption|exact Xm]]. }
  assert (HW : exists w x, In w ["WHERE"; "HAVING"] /\ worded (fun c => c) (fields (n_kind n)) w x /\ code_children n = x ++ [c] /\
    kind_in (n_kind c) ["and_expression"; "or_expression"; "not_expression"; "comparison_expression"] = true).
  { assert (D : n_kind n = "where_clause" \/ n_kind n = "having_clause").
    { unfold kind_in in K. cbn [existsb] in K. destruct (String.eqb_spec (n_kind n) "where_clause"); [auto|].
      destruct (String.eqb_spec (n_kind n) "having_clause"); [auto|discriminate]. }
    destruct D as [D|D]; rewrite D in *; destruct HR as (alt & Ha & HI); try discriminate; destruct Ha as [<-|[]]; cbn [fits] in HI;
      destruct HI as (x & t & E & W & d & t' & -> & B & ->).
    all: assert (Fx : Forall (fun c => regular c /\ n_extra c = false) x)
      by (rewrite E in HF; apply Forall_app in HF as [HF _]; eapply Forall_impl; [|exact HF]; intros m (_ & H); exact H).
    all: destruct (word_leaves _ _ x Fx W) as [_ Wn]; destruct B as (Nd & Kd & _); rewrite E, filter_app, Wn in HC; cbn [app filter] in HC;
      rewrite Nd in HC; destruct HC as [->|[]].
    - exists "WHERE", x. split; [left; reflexivity|]. auto.
    - exists "HAVING", x. split; [right; left; reflexivity|]. auto. }
  destruct HW as (w & x & Hw & W & E & Kc).
  assert (Fx : Forall (fun c => regular c /\ n_extra c = false) x)
    by (rewrite E in HF; apply Forall_app in HF as [HF _]; eapply Forall_impl; [|exact HF]; intros m (_ & H); exact H).
  destruct (word_leaves _ _ x Fx W) as [Wb _].
  destruct (read_reads c (all_readable c) Xc Nc (regular_kid _ _ R Hc) Kc) as (ls & f & P & Q & C & T).
  exists w, ls, f. split; [exact Hw|]. split; [|auto].
  rewrite (leaves_code_kids n _ Xn E); [|destruct x; discriminate]. rewrite flat_map_app, bits_of_app, Wb.
  unfold spells in Q. cbn [flat_map]. rewrite app_nil_r, Q. reflexivity.
Qed.

Theorem format_filters checked stack cfg root out : source_tree root -> format_tree checked stack cfg root = Ok out ->
  forall n c, In n (all_nodes root) -> n_named n = true -> kind_in (n_kind n) ["where_clause"; "having_clause"] = true ->
  In c (children n) -> n_named c = true ->
  exists a b w ls,
    leaves root = a ++ leaves n ++ b /\ In w ["WHERE"; "HAVING"] /\
    bits out = bits_of a ++ (bits (U w) ++ flat_map lexeme_bits ls) ++ bits_of b /\
    compared ls = comparisons c /\
    (exists f, reads ls f) /\
    forall f, reads ls f -> forall v, satisfied v f = truth v c.
Proof.
  intros S H n c Hn Nn K Hc Nc. pose proof (st_no_comments _ S) as U.
  assert (Xn : n_extra n = false) by (apply U, Hn).
  assert (Xc : n_extra c = false) by (apply U; eapply all_nodes_child; eassumption).
  destruct (file_part root n (proj1 S) Hn Nn Xn) as (a & b & E).
  destruct (filter_read root n c (proj1 S) Hn Xn Nn K Hc Nc Xc) as (w & ls & f & Hw & Q & C & P & T).
  exists a, b, w, ls. split; [exact E|]. split; [exact Hw|]. split.
  - rewrite (format_bits _ _ _ _ _ S H). fold bits_of. rewrite E, !bits_of_app, Q. reflexivity.
  - split; [exact C|]. split; [exists f; exact P|]. intros g G v. rewrite <- (one_reading _ _ _ P G). apply T.
Qed.
