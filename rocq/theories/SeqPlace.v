(* SeqPlace.v: where the place of a node is among the words that are printed.
   Proofs only. *)
From Coq Require Import Lia.
From Verif Require Import Base Doc DocBuilder Cst Comments Term SpecTree New SpecWords SpecTokens BitsProofs TokensProofs
  CollectProofs CollectProofs2 TokensMarks TokensProofs2 TokensProofs5 TokensComments FiltersProofs ReadProofs ArrangeOrder SeqTerm SpecReread.
Local Open Scope string_scope.
Local Open Scope list_scope.

(* ------------------------------------------------------------ leaves *)

Lemma tips_kids n : children n <> [] -> tips n = flat_map tips (children n).
Proof. destruct n as [i [|c cs]]; intro H; [exfalso; apply H; reflexivity|reflexivity]. Qed.
Lemma tips_leaves n : untouched n -> leaves n = tips n.
Proof.
  induction n as [i cs IH] using node_nested_ind. intro H. destruct (H _ (or_introl eq_refl)) as [Hx Hs].
  destruct cs as [|c cs]; [rewrite leaves_leaf by (first [exact Hx|reflexivity]); reflexivity|].
  rewrite leaves_kids by (first [exact Hx|discriminate]). rewrite tips_kids by discriminate.
  assert (E : code_children (Node i (c :: cs)) = c :: cs).
  { unfold code_children. cbn [children] in *. assert (Q : forall x, In x (c :: cs) -> n_extra x || spare (Node i (c :: cs)) x = false).
    { intros x Q. rewrite (Hs x Q). destruct (H x) as [-> _]; [|reflexivity]. right. apply in_flat_map. exists x. split; [exact Q|apply self_in]. }
    revert Q. generalize (Node i (c :: cs)). generalize (c :: cs). intros l n Q. induction l as [|x l IHl]; [reflexivity|]. cbn [filter].
    rewrite (Q x (or_introl eq_refl)). cbn [negb]. f_equal. apply IHl. intros y Hy. apply Q. right. exact Hy. }
  rewrite E. cbn [children]. assert (U : forall x, In x (c :: cs) -> untouched x).
  { intros x Q m Hm. apply H. right. apply in_flat_map. exists x. auto. }
  clear E H Hx Hs. induction IH as [|x l Hx Hl IHl]; [reflexivity|]. cbn [flat_map].
  rewrite Hx by (apply U; left; reflexivity). rewrite IHl by (intros y Hy; apply U; right; exact Hy). reflexivity.
Qed.

Lemma untouched_kids n : untouched n -> code_children n = children n.
Proof.
  intro H. destruct (H n (self_in n)) as [Hx Hs]. unfold code_children.
  assert (Q : forall x, In x (children n) -> n_extra x || spare n x = false).
  { intros y Q. rewrite (Hs y Q). destruct (H y) as [-> _]; [|reflexivity]. eapply all_nodes_child; [apply self_in|exact Q]. }
  revert Q. generalize (children n). intros k Q. induction k as [|y k IH]; [reflexivity|]. cbn [filter].
  rewrite (Q y (or_introl eq_refl)). cbn [negb]. f_equal. apply IH. intros z Hz. apply Q. right. exact Hz.
Qed.
Lemma flat_map_ext_in' {A B} (f g : A -> list B) l : (forall x, In x l -> f x = g x) -> flat_map f l = flat_map g l.
Proof. induction l as [|x l IH]; intro H; [reflexivity|]. cbn. rewrite H by (left; reflexivity). f_equal. apply IH. intros y Hy. apply H. right. exact Hy. Qed.

(* The leaves before and after a place. *)
Fixpoint ahead_of (l : loc) : list node :=
  match l with Loc n lf rg up => match up with Some u => ahead_of u | None => [] end ++ flat_map tips (rev lf) end.
Fixpoint behind_of (l : loc) : list node :=
  match l with Loc n lf rg up => flat_map tips rg ++ match up with Some u => behind_of u | None => [] end end.
Lemma kid_shape u c : In c (kids u) -> exists left right, c = Loc (l_node c) left right (Some u) /\
  children (l_node u) = rev left ++ l_node c :: right.
Proof.
  unfold kids. assert (G : forall cs left, children (l_node u) = rev left ++ cs -> In c (locs_from u left cs) ->
    exists left right, c = Loc (l_node c) left right (Some u) /\ children (l_node u) = rev left ++ l_node c :: right).
  { induction cs as [|x cs IH]; intros left E H; [destruct H|]. cbn [locs_from] in H. destruct H as [<-|H].
    - exists left, cs. split; [reflexivity|exact E].
    - apply (IH (x :: left)); [|exact H]. cbn [rev]. rewrite <- app_assoc. exact E. }
  apply G. reflexivity.
Qed.

(* ------------------------------------------------------------ a word that does not occur *)

Definition long (n : nat) : ustr := repeat 120%N (S n).
Lemma bits_long n : bits (long n) = [long n].
Proof.
  unfold bits, long. assert (E : split_words (repeat 120%N (S n)) = [repeat 120%N (S n)]).
  { induction n as [|n IH]; [reflexivity|]. change (repeat 120%N (S (S n))) with (120%N :: repeat 120%N (S n)).
    cbn [split_words]. change (is_ws 120) with false. rewrite IH. reflexivity. }
  rewrite E. cbn [map]. f_equal. clear E. unfold to_lowercase. induction (S n) as [|k IH]; [reflexivity|].
  cbn [repeat map]. rewrite IH. reflexivity.
Qed.
Lemma long_fresh (ws : list ustr) : ~ In (long (fold_right (fun w k => List.length w + k)%nat O ws)) ws.
Proof.
  assert (G : forall w, In w ws -> (List.length w <= fold_right (fun w k => List.length w + k)%nat O ws)%nat).
  { induction ws as [|v ws IH]; intros w H; [destruct H|]. cbn [fold_right]. destruct H as [<-|H]; [lia|]. specialize (IH w H). lia. }
  intro H. specialize (G _ H). unfold long in G at 1. rewrite repeat_length in G. lia.
Qed.

(* ------------------------------------------------------------ the leaves with one mark *)

Section Mark.
  Variable root : node.
  Hypothesis U : untouched root.
  Hypothesis D : distinct_ids root.
  Variable c : node.
  Variable m : ustr.
  Definition only (id : N) : list ustr := if (id =? n_id c)%N then [m] else [].
  Local Instance DG : dangles := fronts only.
  Lemma closing_none n : closing n = [].
  Proof. unfold closing. cbn. destruct (is_punctuation_node n), (code_token n); reflexivity. Qed.
  Lemma opening_none n : n_id n <> n_id c -> opening n = [].
  Proof.
    intro H. unfold opening. cbn. unfold only. apply N.eqb_neq in H. rewrite H.
    destruct (is_punctuation_node n), (code_token n); reflexivity.
  Qed.
  Lemma mleaves_free n : untouched n -> ~ In (n_id c) (map n_id (all_nodes n)) -> mleaves n = tips n.
  Proof.
    intros Hu H. rewrite <- tips_leaves by exact Hu. apply mleaves_none. intros k Hk. split; [|split; [apply closing_none|discriminate]].
    apply opening_none. intro E. apply H. rewrite <- E. apply in_map. exact Hk.
  Qed.
  Lemma mleaves_through n : untouched n -> n_id n <> n_id c -> children n <> [] -> mleaves n = flat_map mleaves (children n).
  Proof.
    intros Hu H Hc. destruct (Hu n (self_in n)) as [Hx Hs]. rewrite mleaves_inner by exact Hx.
    unfold front, behind. rewrite closing_none, (opening_none n H).
    replace (if existsb (late n) _ then [] else []) with (@nil ustr) by (destruct (existsb _ _); reflexivity).
    replace (if existsb (early n) _ then [] else []) with (@nil ustr) by (destruct (existsb _ _); reflexivity).
    cbn [marks map app]. rewrite app_nil_r. unfold inner. destruct (children n) as [|x l] eqn:E; [congruence|]. rewrite <- E in *.
    rewrite untouched_kids by exact Hu. apply flat_map_ext. intro y. unfold ahead. rewrite (opening_none n H), closing_none. cbn [dangle DG fronts andb].
    destruct (late n y), (early n y); reflexivity.
  Qed.
  Lemma mleaves_self : untouched c -> code_token c = true -> is_punctuation_node c = false -> n_kind c <> "for_clause" ->
    ~ In (n_id c) (map n_id (flat_map all_nodes (children c))) -> mleaves c = mark m :: tips c.
  Proof.
    intros Hu Ht Hp Hk Hd. destruct (Hu c (self_in c)) as [Hx Hs]. rewrite mleaves_inner by exact Hx.
    assert (Hf : front c = [m]).
    { unfold front. assert (E : existsb (late c) (code_children c) = false).
      { unfold late. assert (Z : has_kind "for_clause" c = false) by (apply String.eqb_neq; exact Hk). rewrite Z.
        induction (code_children c); [reflexivity|assumption]. }
      rewrite E. unfold opening. rewrite Hp, Ht. cbn. unfold only. rewrite N.eqb_refl. reflexivity. }
    assert (Hb : behind c = []) by (unfold behind; rewrite closing_none; destruct (existsb _ _); reflexivity).
    rewrite Hf, Hb. cbn [marks map app]. f_equal. rewrite app_nil_r. unfold inner.
    destruct (children c) as [|x l] eqn:E; [destruct c as [i [|? ?]]; [reflexivity|discriminate E]|]. rewrite <- E in *.
    rewrite tips_kids by congruence.
    rewrite untouched_kids by exact Hu. clear Hf Hb.
    apply flat_map_ext_in'.
    intros y Hy. assert (A0 : ahead c y = []).
      { unfold ahead. rewrite closing_none. cbn [dangle DG fronts andb]. unfold late.
        assert (Z : has_kind "for_clause" c = false) by (apply String.eqb_neq; exact Hk). rewrite Z. cbn [andb app].
        destruct (early c y); reflexivity. }
      rewrite A0. cbn [marks map app]. apply mleaves_free.
      - intros k Hk'. apply Hu. destruct c as [i cs]. right. apply in_flat_map. exists y. auto.
      - intro F. apply Hd. apply in_map_iff in F as (k & Ek & F). rewrite <- Ek. apply in_map. apply in_flat_map. exists y. auto.
  Qed.
  Lemma untouched_sub n : In n (all_nodes root) -> untouched n.
  Proof.
    intros H k Hk. apply U. revert H Hk. clear. induction root as [i cs IH] using node_nested_ind. intros H Hk. cbn [all_nodes] in H.
    destruct H as [<-|H]; [exact Hk|]. apply in_flat_map in H as (x & Hx & H). right. apply in_flat_map. exists x. split; [exact Hx|].
    rewrite Forall_forall in IH. apply IH; assumption.
  Qed.
  Lemma mleaves_at l : pos root l -> In c (all_nodes (l_node l)) ->
    mleaves root = ahead_of l ++ mleaves (l_node l) ++ behind_of l.
  Proof.
    induction 1 as [|u x P IH Hx]; intro H.
    - cbn. rewrite app_nil_r. reflexivity.
    - pose proof (pos_node _ _ P) as Pn. apply kid_shape in Hx as (left & right & E & Ec).
      assert (Kx : In (l_node x) (children (l_node u))) by (rewrite Ec; apply in_or_app; right; left; reflexivity).
      assert (Hc : In c (flat_map all_nodes (children (l_node u)))) by (apply in_flat_map; exists (l_node x); auto).
      assert (Hu : In c (all_nodes (l_node u))) by (destruct (l_node u); right; exact Hc).
      rewrite (IH Hu). pose proof (distinct_sub root D _ Pn) as Du. unfold distinct_ids in Du.
      assert (Du' : ~ In (n_id (l_node u)) (map n_id (flat_map all_nodes (children (l_node u)))) /\
                    NoDup (map n_id (flat_map all_nodes (children (l_node u))))).
      { clear -Du. destruct (l_node u) as [i cs]. cbn [all_nodes map] in Du. apply NoDup_cons_iff in Du. exact Du. }
      destruct Du' as [Dn Dk].
      rewrite mleaves_through; [|apply untouched_sub; exact Pn| |intro Z; rewrite Z in Kx; destruct Kx].
      2: { intro Z. apply Dn. rewrite Z. apply in_map. exact Hc. }
      rewrite Ec in Dk |- *.
      assert (Ea : ahead_of x = ahead_of u ++ flat_map tips (rev left)) by (rewrite E; reflexivity).
      assert (Eb : behind_of x = flat_map tips right ++ behind_of u) by (rewrite E; reflexivity).
      rewrite Ea, Eb. rewrite !flat_map_app, !map_app in Dk. cbn [flat_map] in Dk. rewrite map_app in Dk.
      rewrite !flat_map_app. cbn [flat_map].
      assert (G : forall k, (forall y, In y k -> In y (children (l_node u))) -> ~ In (n_id c) (map n_id (flat_map all_nodes k)) ->
        flat_map mleaves k = flat_map tips k).
      { intros k Hk F. induction k as [|y k IHk]; [reflexivity|]. cbn [flat_map] in *. rewrite map_app in F.
        rewrite IHk; [|intros z Hz; apply Hk; right; exact Hz|intro Z; apply F; apply in_or_app; right; exact Z].
        rewrite mleaves_free; [reflexivity| |intro Z; apply F; apply in_or_app; left; exact Z].
        apply untouched_sub. eapply all_nodes_child; [exact Pn|]. apply Hk. left. reflexivity. }
      assert (Ic : In (n_id c) (map n_id (all_nodes (l_node x)))) by (apply in_map; exact H).
      rewrite (G (rev left)), (G right).
      + rewrite <- !app_assoc. reflexivity.
      + intros y Hy. rewrite Ec. apply in_or_app. right. right. exact Hy.
      + intro Z. apply NoDup_app_r in Dk. exact (NoDup_app_disj _ _ _ Dk Ic Z).
      + intros y Hy. rewrite Ec. apply in_or_app. left. exact Hy.
      + intro Z. eapply NoDup_app_disj; [exact Dk|exact Z|]. apply in_or_app. left. exact Ic.
  Qed.
End Mark.

(* ------------------------------------------------------------ its place among the words *)

Lemma one_place {A} (m : A) P Q X Y : ~ In m X -> ~ In m Y -> P ++ m :: Q = X ++ m :: Y -> P = X /\ Q = Y.
Proof.
  revert X. induction P as [|p P IH]; intros [|x X] HX HY E; cbn [app] in E.
  - injection E as E2. auto.
  - injection E as E1 E2. subst x. exfalso. apply HX. left. reflexivity.
  - injection E as E1 E2. subst p. exfalso. apply HY. rewrite <- E2. apply in_or_app. right. left. reflexivity.
  - injection E as E1 E2. subst p. destruct (IH X) as [-> ->]; [intro Z; apply HX; right; exact Z|exact HY|exact E2|auto].
Qed.
Lemma thinned_one {DG : dangles} A m B ls : Forall (fun n => n_extra n = false) A -> Forall (fun n => n_extra n = false) B ->
  thinned (A ++ mark m :: B) ls -> ls = A ++ mark m :: B \/ ls = A ++ B.
Proof.
  intros FA FB. revert ls. induction FA as [|a A Ha FA IH]; intros ls T; cbn [app] in *.
  - inversion T as [|? ? ? T'|? ? ? L0 T']; subst; apply thinned_same in T'; try exact FB; subst; auto.
  - inversion T as [|? ? b T'|? ? ? T']; subst; [|discriminate Ha]. destruct (IH b T') as [->| ->]; auto.
Qed.
Lemma tips_nodes n k : In k (tips n) -> In k (all_nodes n).
Proof.
  induction n as [i cs IH] using node_nested_ind. intro H. destruct cs as [|x cs]; [destruct H as [<-|[]]; apply self_in|].
  rewrite tips_kids in H by discriminate. apply in_flat_map in H as (y & Hy & H). right. apply in_flat_map. exists y. split; [exact Hy|].
  rewrite Forall_forall in IH. apply IH; assumption.
Qed.
Lemma ahead_nodes root l k : pos root l -> In k (ahead_of l ++ behind_of l) -> In k (all_nodes root).
Proof.
  induction 1 as [|u x P IH Hx]; intro H; [destruct H|]. pose proof (pos_node _ _ P) as Pn.
  apply kid_shape in Hx as (left & right & E & Ec).
  assert (Ea : ahead_of x = ahead_of u ++ flat_map tips (rev left)) by (rewrite E; reflexivity).
  assert (Eb : behind_of x = flat_map tips right ++ behind_of u) by (rewrite E; reflexivity).
  rewrite Ea, Eb in H. rewrite !in_app_iff in H.
  assert (G : In k (flat_map tips (rev left)) \/ In k (flat_map tips right) -> In k (all_nodes root)).
  { intro Z. assert (Z' : In k (flat_map tips (children (l_node u)))).
    { rewrite Ec, flat_map_app. cbn [flat_map]. rewrite !in_app_iff. tauto. }
    apply in_flat_map in Z' as (y & Hy & Z'). apply tips_nodes in Z'. eapply all_nodes_trans; [|exact Z'].
    eapply all_nodes_child; [exact Pn|exact Hy]. }
  rewrite in_app_iff in IH. tauto.
Qed.
Lemma told_only c m P : ~ In m (told (only c m) P) -> visible m <> [] -> bits m = [m] -> told (only c m) P = flat_map bits (said P).
Proof.
  intros H _ Hm. induction P as [|p P IH]; [reflexivity|].
  change (p :: P) with ([p] ++ P) in *. rewrite told_app in *. rewrite said_app, flat_map_app. rewrite IH.
  - f_equal. destruct p; try reflexivity. unfold told, spread, expand, only. cbn [flat_map].
    destruct (id =? n_id c)%N eqn:E; [|reflexivity]. exfalso. apply H. apply in_or_app. left.
    unfold told, spread, expand, only. cbn [flat_map]. rewrite E. unfold said. cbn [map flat_map app text]. rewrite Hm. left. reflexivity.
  - intro Z. apply H. apply in_or_app. right. exact Z.
Qed.
Definition markable (c : node) : Prop :=
  code_token c = true /\ is_punctuation_node c = false /\
  kind_in (n_kind c) ["for_clause"; "with_type"; "selected_fields"] = false.

Lemma placing root cm checked stack T l P Q : file_tree root -> untouched root -> distinct_ids root -> pos root l -> markable (l_node l) ->
  new cm checked stack Root (root_loc root) = Ok T -> seq T = P ++ PN (n_id (l_node l)) :: Q ->
  flat_map bits (said P) = bits_of (ahead_of l).
Proof.
  intros S U D Hp (Mt & Mp & Mk) E ET. set (c := l_node l) in *. pose proof (pos_node _ _ Hp) as Hc. fold c in Hc.
  set (m := long (fold_right (fun w k => List.length w + k)%nat O (bits_of (ahead_of l ++ tips c ++ behind_of l)))).
  assert (Fr : ~ In m (bits_of (ahead_of l ++ tips c ++ behind_of l))) by apply long_fresh.
  assert (Bm : bits m = [m]) by apply bits_long.
  rewrite !bits_of_app, !in_app_iff in Fr.
  pose proof (root_pieces (DG := fronts (only c m)) cm checked stack root T eq_refl S) as K.
  assert (C : forall k, In k (all_nodes root) -> n_extra k = false -> @calm (fronts (only c m)) k).
  { intros k Hk _. assert (O : forall y, In y (all_nodes root) -> y <> c -> @opening (fronts (only c m)) y = []).
    { intros y Hy Hn. apply opening_none. intro Z. apply Hn. eapply same_id; eassumption. }
    unfold calm. repeat match goal with |- _ /\ _ => split end; cbn [kind_in existsb] in Mk.
    - intro Z. discriminate Z.
    - intro Z. split; [|reflexivity]. cbn. unfold only. destruct (n_id k =? n_id c)%N eqn:Ek; [|reflexivity].
      apply N.eqb_eq in Ek. assert (k = c) by (eapply same_id; eassumption). congruence.
    - intro Z. split; [|apply closing_none]. apply O; [exact Hk|]. intros ->. rewrite Z in Mk. discriminate.
    - intros _ y Hy Z. split; [|apply closing_none]. apply O; [eapply all_nodes_child; eassumption|]. intros ->. rewrite Z in Mk. discriminate.
    - intros _ y Hy Z. split; [|apply closing_none]. apply O; [eapply all_nodes_child; eassumption|]. intros ->.
      unfold is_punctuation_node, has_kind in Mp. rewrite Z in Mp. discriminate. }
  specialize (K C E). apply mkept_thin in K as (ls & Th & K). apply kept_bits in K. rewrite pieces_told in K.
  assert (Ma : @mleaves (fronts (only c m)) root = ahead_of l ++ @mleaves (fronts (only c m)) c ++ behind_of l)
    by exact (mleaves_at root U D c m l Hp (self_in c)).
  rewrite Ma in Th.
  assert (Ml : @mleaves (fronts (only c m)) c = mark m :: tips c).
  { apply mleaves_self; [apply (untouched_sub root U); exact Hc|exact Mt|exact Mp| |].
    - intro Z. rewrite Z in Mk. discriminate.
    - pose proof (distinct_sub root D _ Hc) as Dc. unfold distinct_ids in Dc. destruct c as [i cs]. cbn [all_nodes map] in Dc.
      apply NoDup_cons_iff in Dc as [Dc _]. exact Dc. }
  rewrite Ml in Th. cbn [app] in Th.
  assert (X : forall k, In k (all_nodes root) -> n_extra k = false) by (intros k Hk; apply (U k Hk)).
  apply thinned_one in Th.
  2: { apply Forall_forall. intros k Hk. apply X. eapply ahead_nodes; [exact Hp|]. apply in_or_app. left. exact Hk. }
  2: { apply Forall_forall. intros k Hk. apply X. apply in_app_iff in Hk as [Hk|Hk].
       - eapply all_nodes_trans; [exact Hc|]. apply tips_nodes. exact Hk.
       - eapply ahead_nodes; [exact Hp|]. apply in_or_app. right. exact Hk. }
  rewrite ET, told_app in K. change (PN (n_id c) :: Q) with ([PN (n_id c)] ++ Q) in K. rewrite told_app in K.
  assert (Hm : told (only c m) [PN (n_id c)] = [m]).
  { unfold told, spread, expand, only. cbn [flat_map]. rewrite N.eqb_refl. unfold said. cbn [map flat_map app text]. rewrite Bm. reflexivity. }
  rewrite Hm in K. cbn [app] in K.
  destruct Th as [->| ->]; rewrite bits_of_app in K.
  - change (bits_of (mark m :: tips c ++ behind_of l)) with (bits m ++ bits_of (tips c ++ behind_of l)) in K. rewrite Bm in K. cbn [app] in K.
    rewrite bits_of_app in K. apply one_place in K as [K1 _]; [|tauto|rewrite in_app_iff; tauto].
    rewrite <- told_only with (c := c) (m := m); [exact K1| |discriminate|exact Bm]. rewrite K1. tauto.
  - exfalso. rewrite bits_of_app in K. apply Fr. rewrite <- !in_app_iff, <- K. apply in_or_app. right. left. reflexivity.
Qed.
Lemma folded_len s : List.length (folded s) = List.length (visible s).
Proof. unfold folded, to_lowercase. apply map_length. Qed.
Lemma placed_width root cm checked stack T l P Q : file_tree root -> untouched root -> distinct_ids root -> pos root l -> markable (l_node l) ->
  new cm checked stack Root (root_loc root) = Ok T -> seq T = P ++ PN (n_id (l_node l)) :: Q ->
  List.length (visible (List.concat (said P))) = width (ahead_of l).
Proof.
  intros S U D Hp Mk E ET. pose proof (placing _ _ _ _ _ _ _ _ S U D Hp Mk E ET) as H.
  unfold width. rewrite <- folded_len, <- flat_bits_folded, H.
  rewrite bits_of_folded, folded_len. unfold visible. clear. induction (ahead_of l) as [|n ns IH]; [reflexivity|].
  cbn [flat_map]. rewrite filter_app, !app_length, IH. reflexivity.
Qed.
