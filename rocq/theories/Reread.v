(* Reread.v: a formatted source is formatted to itself.  Proofs only. *)
From Coq Require Import Lia.
From Verif Require Import Base Doc DocBuilder SpecDoc DocProofs Cst Comments Term SpecTree New Formatter SpecWords SpecTokens BitsProofs TokensProofs
  CollectProofs TokensProofs2 TokensProofs5 FormatProofs TermProofs2 FiltersProofs NewProofs ReadProofs SpecLayout LayoutNew LayoutStep LayoutFormat
  SeqTerm SeqEdges SeqHeads SeqPlace SeqRows SpecReread RereadPlace.
Local Open Scope string_scope.
Local Open Scope list_scope.

(* ------------------------------------------------------------ gaps that do not matter *)

Definition loose (_ _ _ : node) : nat * nat := (0, 0)%nat.
Definition comment_gap (_ a b : node) : nat * nat := ((if n_extra a || n_extra b then rows_apart a b else 0)%nat, 0%nat).
Lemma spacing_loose p cs : Forall (fun c => n_extra c = false) cs -> forall prev last,
  match prev with Some a => n_extra a = false | None => True end ->
  spacing comment_gap p prev last cs = spacing loose p prev last cs.
Proof.
  induction 1 as [|c cs Hc F IH]; intros prev last Hp; [reflexivity|]. cbn [spacing]. rewrite Hc.
  f_equal; [|f_equal; apply IH; destruct (n_named c); [exact Hc|exact Hp]].
  destruct (n_named c); [|reflexivity]. destruct prev as [a|]; [|reflexivity]. unfold comment_gap, loose. rewrite Hp, Hc. reflexivity.
Qed.
Lemma alike_loose n : forall p n', alike_by loose p n n' -> uncommented n -> alike_by comment_gap p n n'.
Proof.
  induction n as [i cs IH] using node_nested_ind. intros p n' A Un. inversion A as [? ? ? A1 A2 A3 A4 A5 A6 K]; subst.
  assert (X : Forall (fun c => n_extra c = false) cs).
  { apply Forall_forall. intros c Hc. apply Un. right. apply in_flat_map. exists c. split; [exact Hc|apply self_in]. }
  assert (X' : Forall (fun c => n_extra c = false) (children n')).
  { cbn [children] in K. revert K. generalize (Some (Node i cs)). intros q K. clear -K X. induction K as [|c c' ds ds' C K IHK]; constructor.
    - apply Forall_inv in X. destruct C as [? ? ? (_ & _ & E & _)]. rewrite <- E. exact X.
    - apply IHK. exact (Forall_inv_tail X). }
  constructor; try assumption.
  - cbn [children] in *. rewrite !spacing_loose by (first [assumption|exact I]). exact A6.
  - cbn [children] in *. revert K. generalize (Some (Node i cs)). intros q K.
    assert (Uc : forall c, In c cs -> uncommented c).
    { intros c Hc m Hm. apply Un. right. apply in_flat_map. exists c. auto. }
    clear -IH K Uc. induction K as [|c c' ds ds' C K IHK]; constructor.
    + apply (Forall_inv IH); [exact C|]. apply Uc. left. reflexivity.
    + apply IHK; [exact (Forall_inv_tail IH)|]. intros x Hx. apply Uc. right. exact Hx.
Qed.

(* ------------------------------------------------------------ the same number of leaves *)

Lemma app_len_inj {A} (a b c d : list A) : a ++ b = c ++ d -> List.length a = List.length c -> a = c /\ b = d.
Proof.
  revert c. induction a as [|x a IH]; intros [|y c] E L; try discriminate; [auto|]. cbn in E, L. injection E as -> E. injection L as L.
  destruct (IH c E L) as [-> ->]. auto.
Qed.

Lemma f2_length {A B} (R : A -> B -> Prop) a b : Forall2 R a b -> List.length a = List.length b.
Proof. induction 1; cbn; congruence. Qed.

Section Two.
  Variable f : N -> N.
  Hypothesis inj : forall a b, f a = f b -> a = b.
  Notation gp := comment_gap.
  Variables root root' : node.
  Definition tops (n n' : node) : Prop := n = root /\ n' = root'.
  Notation sim := (sim f gp tops).
  Notation like := (like f gp).

  Lemma like_tips n : forall p n', like p n n' -> List.length (tips n) = List.length (tips n').
  Proof.
    induction n as [i cs IH] using node_nested_ind. intros p n' L. pose proof (like_kids _ _ _ _ _ L) as K. clear L. cbn [children] in K.
    destruct n' as [i' cs']. cbn [children] in K. revert K. generalize (Some (Node i cs)). intros q K.
    destruct K as [|c c' ds ds' C K]; [reflexivity|]. rewrite !tips_kids by discriminate. cbn [children].
    assert (K' : Forall2 (like q) (c :: ds) (c' :: ds')) by (constructor; assumption). revert IH K'. clear. generalize (c :: ds) (c' :: ds').
    intros l l' IH K. induction K as [|x x' l l' X K IHK]; [reflexivity|]. inversion IH; subst. cbn [flat_map]. rewrite !app_length. f_equal; eauto.
  Qed.
  Lemma likes_tips q l l' : Forall2 (like q) l l' -> List.length (flat_map tips l) = List.length (flat_map tips l').
  Proof. induction 1 as [|x x' l l' X K IH]; [reflexivity|]. cbn [flat_map]. rewrite !app_length, IH. f_equal. eapply like_tips. exact X. Qed.
  Lemma sim_pos l l' : sim l l' -> pos root l /\ pos root' l'.
  Proof.
    induction 1 as [n n' [-> ->] L|u u' lf lf' n n' rg rg' SU [P P'] K K' LL L R]; [split; constructor|].
    split; eapply Pos_kid; try eassumption; apply kids_in; eexists _, _; cbn [l_node]; (split; [eassumption|]); rewrite rev_involutive; reflexivity.
  Qed.
  Lemma sim_ahead l l' : sim l l' -> List.length (ahead_of l) = List.length (ahead_of l').
  Proof.
    induction 1 as [n n' TT L|u u' lf lf' n n' rg rg' SU IH K K' LL L R]; [reflexivity|]. cbn [ahead_of]. rewrite !app_length, IH. f_equal.
    eapply likes_tips. apply f2_rev. exact LL.
  Qed.
  Hypothesis W : same_words root root'.
  Lemma words_width a b : Forall2 (fun a b => folded (n_text a) = folded (n_text b)) a b -> width a = width b.
  Proof.
    unfold width. induction 1 as [|x y a b E F IH]; [reflexivity|]. cbn [flat_map]. rewrite !app_length, IH.
    rewrite <- !folded_len, E. reflexivity.
  Qed.
  Lemma sim_width l l' : sim l l' -> width (ahead_of l) = width (ahead_of l') /\ width (tips (l_node l)) = width (tips (l_node l')).
  Proof.
    intro H. destruct (sim_pos _ _ H) as [P P']. unfold same_words in W. rewrite (pos_shape _ _ P), (pos_shape _ _ P') in W.
    apply Forall2_app_inv_l in W as (b1 & b2 & F1 & F2 & E). pose proof (sim_ahead _ _ H) as L1.
    assert (L2 := like_tips _ _ _ (sim_like _ _ _ _ _ H)).
    apply Forall2_app_inv_l in F2 as (b3 & b4 & F3 & F4 & ->).
    assert (N1 := f2_length _ _ _ F1). assert (N3 := f2_length _ _ _ F3).
    apply app_len_inj in E as [-> E]; [|congruence]. apply app_len_inj in E as [-> _]; [|congruence].
    split; apply words_width; assumption.
  Qed.

  (* ---------------------------------------------------------- the places of the nodes *)

  Variable out : ustr.
  Hypothesis St : standing out 0 (children root').
  Lemma stands_inv k n : stands out k n ->
    (forall w, width (tips n) = S w -> n_srow n = row_of out k /\ n_erow n = row_of out (k + w)) /\ standing out k (children n).
  Proof.
    destruct n as [i cs]. intros [H1 H2]. split; [exact H1|]. cbn [children]. revert k H1 H2. intros k _. revert k.
    induction cs as [|c cs IH]; intros k H2; [exact I|]. destruct H2 as [H2 H3]. split; [exact H2|]. apply IH. exact H3.
  Qed.
  Lemma standing_in a c b : forall k, standing out k (a ++ c :: b) -> stands out (k + width (flat_map tips a)) c.
  Proof.
    induction a as [|x a IH]; intros k H; cbn [app standing flat_map] in *.
    - destruct H as [H _]. change (width []) with O. rewrite Nat.add_0_r. exact H.
    - destruct H as [_ H]. apply IH in H. unfold width in *. rewrite flat_map_app, app_length. rewrite Nat.add_assoc. exact H.
  Qed.
  Lemma width_app a b : width (a ++ b) = (width a + width b)%nat.
  Proof. unfold width. rewrite flat_map_app, app_length. reflexivity. Qed.
  Lemma pos_standing l : pos root' l -> standing out (width (ahead_of l)) (children (l_node l)).
  Proof.
    induction 1 as [|u x P IH Hx]; [exact St|]. apply kid_shape in Hx as (lf & rg & E & Ec). rewrite Ec in IH. apply standing_in in IH.
    assert (Ea : ahead_of x = ahead_of u ++ flat_map tips (rev lf)) by (rewrite E; reflexivity).
    rewrite <- width_app, <- Ea in IH. exact (proj2 (stands_inv _ _ IH)).
  Qed.
  Lemma kid_stands u x w : pos root' u -> In x (kids u) -> width (tips (l_node x)) = S w ->
    n_srow (l_node x) = row_of out (width (ahead_of x)) /\ n_erow (l_node x) = row_of out (width (ahead_of x) + w).
  Proof.
    intros P Hx Hw. pose proof (pos_standing _ P) as H. apply kid_shape in Hx as (lf & rg & E & Ec). rewrite Ec in H. apply standing_in in H.
    assert (Ea : ahead_of x = ahead_of u ++ flat_map tips (rev lf)) by (rewrite E; reflexivity).
    rewrite <- width_app, <- Ea in H. exact (proj1 (stands_inv _ _ H) w Hw).
  Qed.
End Two.

(* ------------------------------------------------------------ the blank lines that are printed *)

Section Main.
  Variable f : N -> N.
  Hypothesis inj : forall a b, f a = f b -> a = b.
  Variables root root' : node.
  Hypothesis Ft : file_tree root.
  Hypothesis Un : untouched root.
  Hypothesis Di : distinct_ids root.
  Hypothesis Sol : solid root.
  Hypothesis Ww : same_words root root'.
  Variable cm : list (N * bucket).
  Hypothesis E1 : collect_comments root = Ok cm.
  Variable stack : nat.
  Variable T : dt.
  Hypothesis E2 : new cm false stack Root (root_loc root) = Ok T.
  Variable X : list atom.
  Hypothesis Fo : follows (bare (seq T)) X.
  Hypothesis St : standing (render X) 0 (children root').
  Notation sim := (sim f comment_gap (tops root root')).
  Notation like := (like f comment_gap).
  Notation cm' := (cmf f cm).
  Notation out := (render X).
  Definition printed (d : dt) : Prop := part d T.

  Lemma empties : forall id bk, get_comment_bucket cm id = Ok bk -> bucket_empty bk.
  Proof. apply (source_empty root cm); [|exact E1]. split; [exact Ft|]. intros n Hn. apply (Un n Hn). Qed.
  Lemma trailing_total c c' : sim c c' ->
    rr (fun _ _ => True) (has_trailing_newline cm false c) (has_trailing_newline cm' false c').
  Proof.
    intro S. unfold has_trailing_newline. rewrite (like_id _ _ _ _ _ (sim_like _ _ _ _ _ S)), (bucket_f f inj).
    destruct (get_comment_bucket cm (n_id (l_node c))) as [bk| |]; cbn; [|reflexivity|exact I].
    destruct (rev (Comments.post bk)), (rev (map (cf f) (Comments.post bk))).
    all: repeat match goal with |- context [match find ?p ?l with _ => _ end] => destruct (find p l) end.
    all: repeat match goal with |- context [if ?b then _ else _] => destruct b end. all: exact I.
  Qed.
  (* what the formatted source says about the place behind a member *)
  Lemma trailing_last c c' b : sim c c' -> find n_named (l_right c') = None -> has_trailing_newline cm' false c' = Ok b -> b = false.
  Proof.
    intros S F H. unfold has_trailing_newline in H. rewrite (like_id _ _ _ _ _ (sim_like _ _ _ _ _ S)), (bucket_f f inj) in H.
    destruct (get_comment_bucket cm (n_id (l_node c))) as [bk| |] eqn:Eb; cbn in H; try discriminate.
    destruct (empties _ _ Eb) as (_ & Hp & _). rewrite Hp in H. cbn in H. rewrite F in H. injection H as <-. reflexivity.
  Qed.
  Lemma trailing_plain c b : find n_named (l_right c) = None -> has_trailing_newline cm false c = Ok b -> b = false.
  Proof.
    intros F H. unfold has_trailing_newline in H.
    destruct (get_comment_bucket cm (n_id (l_node c))) as [bk| |] eqn:Eb; cbn in H; try discriminate.
    destruct (empties _ _ Eb) as (_ & Hp & _). rewrite Hp in H. cbn in H. rewrite F in H. injection H as <-. reflexivity.
  Qed.
  Lemma trailing_next c c' d b : sim c c' -> find n_named (l_right c') = Some d -> n_srow d <> 0%N ->
    has_trailing_newline cm' false c' = Ok b -> b = (n_erow (l_node c') <? n_srow d - 1)%N.
  Proof.
    intros S F N0 H. unfold has_trailing_newline in H. rewrite (like_id _ _ _ _ _ (sim_like _ _ _ _ _ S)), (bucket_f f inj) in H.
    destruct (get_comment_bucket cm (n_id (l_node c))) as [bk| |] eqn:Eb; cbn in H; try discriminate.
    destruct (empties _ _ Eb) as (_ & Hp & _). rewrite Hp in H. cbn in H. rewrite F in H. apply N.eqb_neq in N0. rewrite N0 in H.
    injection H as <-. reflexivity.
  Qed.

  Lemma mseq_cons x tr y tr' r : mseq ((x, tr) :: (y, tr') :: r) = seq x ++ sep_seq tr ++ mseq ((y, tr') :: r).
  Proof. reflexivity. Qed.
  Lemma mseq_head y tr r : exists b, mseq ((y, tr) :: r) = seq y ++ b.
  Proof. destruct r as [|[z tr'] r]; [exists []; cbn; rewrite app_nil_r; reflexivity|]. exists (sep_seq tr ++ mseq ((z, tr') :: r)). reflexivity. Qed.

  Lemma tip_ne n : tips n <> [].
  Proof.
    induction n as [i cs IH] using node_nested_ind. destruct cs as [|c cs]; [discriminate|]. rewrite tips_kids by discriminate. cbn [children flat_map].
    intro E. apply app_eq_nil in E as [E _]. exact (Forall_inv IH E).
  Qed.
  Lemma kid_below u x : pos root u -> In x (kids u) -> In (l_node x) (flat_map all_nodes (children root)).
  Proof. intros P H. exact (proj2 (at_kid root _ _ P H)). Qed.
  Lemma kid_width u x : pos root u -> In x (kids u) -> exists w, width (tips (l_node x)) = S w.
  Proof.
    intros P H. pose proof (kid_below _ _ P H) as B. destruct (tips (l_node x)) as [|n ns] eqn:E; [destruct (tip_ne _ E)|].
    assert (Hn : In n (flat_map all_nodes (children root))).
    { apply in_flat_map in B as (y & Hy & B). apply in_flat_map. exists y. split; [exact Hy|].
      eapply all_nodes_trans; [exact B|]. apply tips_nodes. rewrite E. left. reflexivity. }
    destruct (Sol n Hn) as [L _]. apply lead_inv in L as (c & z & Et & Ec). unfold width. cbn [flat_map]. rewrite app_length, Et. unfold visible at 1.
    cbn [filter]. rewrite Ec. cbn. eexists. reflexivity.
  Qed.

  (* two members in a row *)
  Lemma pair_rows k u u' n lf m rg c1' c2' x1 x2 tr tr' A B :
    let c1 := Loc n lf (m :: rg) (Some u) in let c2 := Loc m (n :: lf) rg (Some u) in
    sim u u' -> In c1 (kids u) -> In c2 (kids u) -> sim c1 c1' -> sim c2 c2' -> In c1' (kids u') -> In c2' (kids u') ->
    (exists n' lf' m' rg', c1' = Loc n' lf' (m' :: rg') (Some u') /\ c2' = Loc m' (n' :: lf') rg' (Some u')) ->
    n_named m = true -> plain_member m ->
    (exists s, In s member_sorts /\ new cm false k s c1 = Ok x1) -> (exists s, In s member_sorts /\ new cm false k s c2 = Ok x2) ->
    seq T = A ++ seq x1 ++ sep_seq tr ++ seq x2 ++ B ->
    has_trailing_newline cm' false c1' = Ok tr' -> tr' = tr.
  Proof.
    intros c1 c2 SU H1 H2 S1 S2 H1' H2' Ch Nm Pm (s1 & M1 & N1) (s2 & M2 & N2) ET HT.
    destruct (sim_pos _ _ _ _ _ SU) as [Pu Pu'].
    assert (T1 : tight x1). { pose proof (new_edges root cm false k Sol s1 c1 x1 (at_kid root _ _ Pu H1) N1) as K.
      eapply KK_tight; [|exact K]. cbn in M1. destruct M1 as [<-|[<-|[<-|[<-|[<-|[]]]]]]; split; reflexivity. }
    assert (T2 : tight x2). { pose proof (new_edges root cm false k Sol s2 c2 x2 (at_kid root _ _ Pu H2) N2) as K.
      eapply KK_tight; [|exact K]. cbn in M2. destruct M2 as [<-|[<-|[<-|[<-|[<-|[]]]]]]; split; reflexivity. }
    assert (Hs : is_kind ";" c2 = false).
    { unfold is_kind, has_kind. cbn [c2 l_node]. unfold plain_member in Pm. apply String.eqb_neq. intro Z. rewrite Z in Pm. discriminate. }
    destruct (member_headed cm false k s2 c2 x2 M2 Hs N2) as (b & Hd).
    destruct (members_apart T x1 x2 tr A B X T1 T2 Fo ET) as (j & Ej & Rj).
    assert (P2 : pos root c2) by (eapply Pos_kid; eassumption).
    assert (Mk : markable (l_node c2)).
    { cbn [c2 l_node]. unfold plain_member in Pm. split; [unfold code_token; rewrite Nm; reflexivity|]. split.
      - unfold is_punctuation_node, has_kind. apply orb_false_iff. split; apply String.eqb_neq; intro Z; rewrite Z in Pm; discriminate.
      - destruct (kind_in (n_kind m) ["for_clause"; "with_type"; "selected_fields"]) eqn:Z; [|reflexivity]. apply kind_in_in in Z. exfalso. revert Pm.
        destruct Z as [<-|[<-|[<-|[]]]]; discriminate. }
    assert (Wd : List.length (visible (List.concat (said (A ++ seq x1 ++ sep_seq tr)))) = width (ahead_of c2)).
    { eapply (placed_width root cm false stack T c2 _ (b ++ B)); try eassumption. rewrite ET, Hd. rewrite <- !app_assoc. reflexivity. }
    rewrite Wd in Ej. destruct (sim_width f root root' Ww _ _ S2) as [Wa _]. destruct (sim_width f root root' Ww _ _ S1) as [Wa1 Wt1].
    destruct (kid_width u c1 Pu H1) as (w1 & Hw1). destruct (kid_width u c2 Pu H2) as (w2 & Hw2).
    assert (Hw1' : width (tips (l_node c1')) = S w1) by congruence.
    assert (Hw2' : width (tips (l_node c2')) = S w2) by (destruct (sim_width f root root' Ww _ _ S2) as [_ Wt2]; congruence).
    destruct (kid_stands root' out St u' c1' w1 Pu' H1' Hw1') as [_ R1]. destruct (kid_stands root' out St u' c2' w2 Pu' H2' Hw2') as [R2 _].
    destruct Ch as (n' & lf' & m' & rg' & C1 & C2).
    assert (Ah : ahead_of c2' = ahead_of c1' ++ tips (l_node c1')).
    { rewrite C1, C2. cbn [ahead_of l_node rev]. rewrite flat_map_app. cbn [flat_map]. rewrite app_nil_r, app_assoc. reflexivity. }
    assert (K1 : (width (ahead_of c1') + w1 = j)%nat).
    { assert (Q : width (ahead_of c2') = S j) by congruence. rewrite Ah, width_app, Hw1' in Q. lia. }
    rewrite K1 in R1. assert (K2 : width (ahead_of c2') = S j) by congruence. rewrite K2 in R2.
    assert (Fd : find n_named (l_right c1') = Some (l_node c2')).
    { assert (Nm' : n_named (l_node c2') = true) by (rewrite <- (like_named _ _ _ _ _ (sim_like _ _ _ _ _ S2)); exact Nm).
      rewrite C1, C2 in *. cbn [l_right l_node find] in *. rewrite Nm'. reflexivity. }
    rewrite (trailing_next c1 c1' (l_node c2') tr' S1 Fd); [|rewrite R2, Rj; destruct tr; lia|exact HT].
    rewrite R1, R2, Rj. destruct tr; [apply N.ltb_lt|apply N.ltb_ge]; lia.
  Qed.

  Lemma signs_like q a a' : Forall2 (like q) a a' -> signs_only a -> signs_only a'.
  Proof.
    intro L. induction L as [|x y a a' H L IH]; intro F; [constructor|]. constructor; [|exact (IH (Forall_inv_tail F))].
    rewrite <- (like_named _ _ _ _ _ H). exact (Forall_inv F).
  Qed.
  Lemma members_like q a a' : Forall2 (like q) a a' -> members_only a -> members_only a'.
  Proof.
    intro L. induction L as [|x y a a' H L IH]; intro F; [constructor|]. constructor; [|exact (IH (Forall_inv_tail F))].
    rewrite <- (like_named _ _ _ _ _ H), <- (like_extra _ _ _ _ _ H). exact (Forall_inv F).
  Qed.
  Lemma members_rows k l l' ms ms' : sim l l' -> bodied l ->
    members_of false cm (new cm false k) l ms -> members_of false cm' (new cm' false k) l' ms' -> printed_members printed ms ->
    map snd ms' = map snd ms.
  Proof.
    intros S Bd HM HM' (d & a0 & b0 & Pd & Ed). destruct (sim_pos _ _ _ _ _ S) as [P P'].
    destruct (body_shape root Ft Un l P Bd) as (a & b & z & Ec & Fa & Fb & Fz).
    assert (Mb : members_only b).
    { apply Forall_forall. intros n Hn. rewrite Forall_forall in Fb. split; [apply Fb; exact Hn|]. apply (Un n).
      eapply all_nodes_child; [apply pos_node; exact P|]. rewrite Ec. apply in_or_app. right. apply in_or_app. left. exact Hn. }
    pose proof (children_chain l a b z Ec Fa Mb Fz) as Ch.
    (* the same shape in the formatted source *)
    pose proof (like_kids _ _ _ _ _ (sim_like _ _ _ _ _ S)) as Lk. rewrite Ec in Lk.
    apply Forall2_app_inv_l in Lk as (a' & r' & La & Lk & Ec'). apply Forall2_app_inv_l in Lk as (b' & z' & Lb & Lz & ->).
    assert (Fa' : signs_only a') by exact (signs_like _ _ _ La Fa). assert (Fz' : signs_only z') by exact (signs_like _ _ _ Lz Fz).
    assert (Mb' : members_only b') by exact (members_like _ _ _ Lb Mb).
    pose proof (children_chain l' a' b' z' Ec' Fa' Mb' Fz') as Ch'.
    assert (Nz : find n_named z = None) by (clear -Fz; induction Fz as [|x ? Hx ? IH]; [reflexivity|]; cbn; rewrite Hx; exact IH).
    assert (Nz' : find n_named z' = None) by (clear -Fz'; induction Fz' as [|x ? Hx ? IH]; [reflexivity|]; cbn; rewrite Hx; exact IH).
    assert (Ks : forall c, In c (children_vec l) -> In c (kids l) /\ n_named (l_node c) = true /\ plain_member (l_node c)).
    { intros c Hc. rewrite children_vec_wanted in Hc. apply filter_In in Hc as [Hc Hw]. split; [exact Hc|]. unfold wanted in Hw.
      apply andb_true_iff in Hw as [Hw _]. split; [exact Hw|]. apply kids_child in Hc. rewrite Ec in Hc. unfold is_named in Hw.
      apply in_app_or in Hc as [Hc|Hc]; [unfold signs_only in Fa; rewrite Forall_forall in Fa; rewrite (Fa _ Hc) in Hw; discriminate|].
      apply in_app_or in Hc as [Hc|Hc]; [|unfold signs_only in Fz; rewrite Forall_forall in Fz; rewrite (Fz _ Hc) in Hw; discriminate].
      rewrite Forall_forall in Fb. apply Fb. exact Hc. }
    assert (Ks' : forall c, In c (children_vec l') -> In c (kids l')) by (intros c Hc; rewrite children_vec_wanted in Hc; apply filter_In in Hc; apply Hc).
    pose proof (sim_children_vec f comment_gap (tops root root') _ _ S) as Sc.
    destruct (part_seq _ _ Pd) as (a1 & b1 & ET). rewrite Ed in ET.
    assert (Q : exists A B, seq T = A ++ mseq ms ++ B) by (exists (a1 ++ a0), (b0 ++ b1); rewrite ET, <- !app_assoc; reflexivity).
    clear ET Ed a0 b0 a1 b1 Pd d.
    unfold members_of in HM, HM'. revert HM HM' Sc Ch Ch' Ks Ks' Q. generalize (children_vec l) (children_vec l'). intros cs cs' HM HM' Sc.
    revert ms ms' HM HM'. induction Sc as [|c c' cs cs' Hc Sc IH]; intros ms ms' HM HM' Ch Ch' Ks Ks' (A & B & ET).
    - inversion HM; inversion HM'; subst. reflexivity.
    - inversion HM as [|? [x1 tr1] ? ms0 [Hx1 Ht1] HM0]; subst. inversion HM' as [|? [x1' tr1'] ? ms0' [Hx1' Ht1'] HM0']; subst.
      cbn [fst snd] in *. cbn [map snd]. destruct Ch as [Ch0 Ch]. destruct Ch' as [Ch0' Ch'].
      destruct Sc as [|d d' cs cs' Hd Sc].
      + assert (Q1 : tr1 = false) by (eapply trailing_plain; [rewrite Ch0; exact Nz|exact Ht1]).
        assert (Q2 : tr1' = false) by (eapply trailing_last; [apply Hc|rewrite Ch0'; exact Nz'|exact Ht1']).
        rewrite Q1, Q2. inversion HM0; inversion HM0'; subst. reflexivity.
      + inversion HM0 as [|? [x2 tr2] ? ms1 [Hx2 Ht2] HM1]; subst. inversion HM0' as [|? [x2' tr2'] ? ms1' [Hx2' Ht2'] HM1']; subst.
        rewrite mseq_cons in ET. f_equal.
        * destruct Ch0 as (n & lf & m & rg & C1 & C2). destruct (mseq_head x2 tr2 ms1) as (b2 & Eb). rewrite Eb in ET.
          destruct (Ks c (or_introl eq_refl)) as (Kc & _). destruct (Ks d (or_intror (or_introl eq_refl))) as (Kd & Nd & Pm).
          pose proof (Ks' c' (or_introl eq_refl)) as Kc'. pose proof (Ks' d' (or_intror (or_introl eq_refl))) as Kd'.
          rewrite C1 in Kc, Hc, Hx1. rewrite C2 in Kd, Hd, Hx2, Nd, Pm. cbn [l_node] in Nd, Pm. cbn [fst] in Hx2.
          eapply (pair_rows k l l' n lf m rg c' d' x1 x2 tr1 tr1' A (b2 ++ B)); try eassumption; [apply Hc|apply Hd|].
          rewrite ET. rewrite <- !app_assoc. reflexivity.
        * apply (IH ((x2, tr2) :: ms1) ((x2', tr2') :: ms1')); try assumption.
          -- intros y Hy. apply Ks. right. exact Hy.
          -- intros y Hy. apply Ks'. right. exact Hy.
          -- exists (A ++ seq x1 ++ sep_seq tr1), B. rewrite ET, <- !app_assoc. reflexivity.
  Qed.

  Lemma reread_new k : forall s c c', sim c c' -> LayoutStep.pre s c c' ->
    rr (dR f printed) (new cm false k s c) (new cm' false k s c').
  Proof.
    induction k as [|k IH]; intros s c c' S P; [exact I|]. cbn [new].
    apply (new_step_like f comment_gap (tops root root')); [| exact IH| | |exact S|exact P].
    - intros d p Hd Hp. eapply part_trans; [|exact Hd]. eapply Part_in; [apply Part_self|exact Hp].
    - intros u d d' [D _] _ _. apply trailing_total. exact D.
    - intros l l' ms ms' SL Bd HM HM' Pr. eapply members_rows; eassumption.
  Qed.
  Lemma reread_root : like None root root' -> new cm' false stack Root (root_loc root') = Ok (dmap f T).
  Proof.
    intro L. assert (H := reread_new stack Root _ _ (Sim_root _ _ (tops root root') _ _ (conj eq_refl eq_refl) L) I).
    rewrite E2 in H. destruct (new cm' false stack Root (root_loc root')) as [d'| |]; try contradiction. cbn [rr] in H.
    f_equal. apply H. apply Part_self.
  Qed.
End Main.

(* ------------------------------------------------------------ the whole *)

Lemma ends_bordered s : visible_ends s -> bordered s.
Proof.
  intros (c & m & -> & Hc & Hl). split; [cbn; rewrite Hc; reflexivity|]. unfold last_. destruct (rev (c :: m)) as [|d r] eqn:E.
  - apply (f_equal (@List.length _)) in E. rewrite rev_length in E. discriminate.
  - cbn [lead]. assert (Z : last (c :: m) c = d).
    { rewrite <- (rev_involutive (c :: m)), E. cbn [rev]. apply last_last. }
    rewrite Z in Hl. rewrite Hl. reflexivity.
Qed.
Theorem reread stack cfg root root' out :
  file_tree root -> untouched root -> distinct_ids root -> distinct_ids root' -> trimmed_nodes root ->
  format_tree false stack cfg root = Ok out -> found_again root out root' ->
  format_tree false stack cfg root' = Ok out.
Proof.
  intros Ft Un D D' Tr E [Fa Fw Fp].
  assert (A : alike_by comment_gap None root root') by (apply alike_loose; [exact Fa|intros n Hn; apply (Un n Hn)]).
  destruct (renaming _ _ D D') as (f & inj & M); [rewrite !map_length; exact (alike_size _ _ _ _ A)|].
  pose proof (alike_like _ f _ _ _ A M) as L.
  assert (G1 : forall p p' a a' b b', same_node p p' -> same_node a a' -> same_node b b' -> comment_gap p a b = comment_gap p' a' b' ->
      n_extra a || n_extra b = true -> rows_apart a b = rows_apart a' b').
  { intros p p' a a' b b' _ (_ & _ & Xa & _) (_ & _ & Xb & _) Eg H. unfold comment_gap in Eg. injection Eg as Eg.
    rewrite <- Xa, <- Xb, H in Eg. exact Eg. }
  unfold format_tree in *. rewrite (like_collect_comments f inj comment_gap G1 _ _ _ L).
  destruct (collect_comments root) as [cm| |] eqn:E1; try discriminate. cbn [rbind rmap] in *.
  destruct (new cm false stack Root (root_loc root)) as [T| |] eqn:E2; try discriminate. cbn [rbind] in E.
  destruct (PrettyConfig_new (cfg_indent_size cfg)) as [b| |] eqn:E3; try discriminate. cbn [rbind] in *.
  destruct (run cm b T) as [[d w]| |] eqn:E4; try discriminate. cbn [rbind fst snd] in *.
  destruct (pretty_print_layout d (max_width cfg)) as (X & Lx & Px).
  assert (Em : forall id bk, get_comment_bucket cm id = Ok bk -> bucket_empty bk).
  { apply (source_empty root cm); [|exact E1]. split; [exact Ft|]. intros n Hn. apply (Un n Hn). }
  assert (Fo : follows (bare (seq T)) X).
  { rewrite <- (run_seq cm b Em T d w E4). eapply layout_follows; [eapply run_grouped; eassumption|exact Lx]. }
  destruct (assert_no_missing_comments cm w) as [[]| |] eqn:E5; try discriminate. cbn [rbind] in E. injection E as E.
  assert (Sol : solid root) by (intros n Hn; apply ends_bordered, Tr; exact Hn).
  assert (R : new (cmf f cm) false stack Root (root_loc root') = Ok (dmap f T)).
  { eapply reread_root; try eassumption. rewrite <- Px, E. exact Fp. }
  rewrite R. cbn [rbind]. rewrite (run_f f inj), E4. cbn.
  unfold assert_no_missing_comments in *. rewrite (missing_f f inj). destruct (is_nil _); [cbn; rewrite E; reflexivity|discriminate].
Qed.
