(* PlacesFormat.v: rows and columns of the members of bodies in the output.  Proofs only. *)
From Verif Require NewProofs.
From Coq Require Import Sorting.Sorted Lia.
From Verif Require Import Base Doc DocBuilder Cst Comments Term SpecDoc SpecTree DocProofs TermProofs TermProofs2 New Formatter ReadProofs SpecWords SpecTokens BitsProofs TokensProofs
  TokensMarks TokensProofs2 TokensProofs3 TokensProofs5 CollectProofs FormatProofs FiltersProofs WordsTerm LayoutNew LayoutStep SpecReread SpecPlaces SeqTerm SeqPlace SeqEdges SeqHeads SeqRows RereadPlace Reread
  LevelTerm LevelRows Reach Reach2 Places PlacesBody.
Local Open Scope string_scope.
Local Open Scope list_scope.

Section Kids.
  Local Instance DGk : dangles := mute.
  Lemma locs_behind up a z : forall left, exists U, map l_node U = a /\ locs_from up left (a ++ z) = U ++ locs_from up (rev a ++ left) z.
  Proof.
    induction a as [|x a IH]; intro left; [exists []; split; reflexivity|].
    destruct (IH (x :: left)) as (U & HU & E). exists (Loc x left (a ++ z) (Some up) :: U). split; [cbn; rewrite HU; reflexivity|].
    cbn [app locs_from]. rewrite E. cbn [rev app]. rewrite <- app_assoc. reflexivity.
  Qed.
  Lemma unnamed_none U : Forall (fun n => n_named n = false) (map l_node U) -> filter is_named U = [].
  Proof.
    induction U as [|c U IH]; intro F; [reflexivity|]. inversion F as [|? ? H F']; subst. cbn [filter]. unfold is_named at 1. rewrite H. apply IH. exact F'.
  Qed.
  Lemma code_all root l : untouched root -> pos root l -> ckids l = kids l.
  Proof.
    intros U P. unfold ckids. pose proof (pos_node _ _ P) as Hl. destruct (U _ Hl) as [_ Hs].
    assert (G : forall c, In c (kids l) -> plain (l_node l) (l_node c) = true).
    { intros c Hc. apply NewProofs.kids_child in Hc. unfold plain. rewrite (proj1 (U _ (all_nodes_child _ _ _ Hl Hc))), (Hs _ Hc). reflexivity. }
    revert G. generalize (kids l). intro cs. induction cs as [|c cs IH]; intro G; [reflexivity|]. cbn [filter]. rewrite (G c (or_introl eq_refl)). f_equal.
    apply IH. intros d Hd. apply G. right. exact Hd.
  Qed.
  Lemma named_split root l a c z : untouched root -> pos root l -> children (l_node l) = a ++ c :: z -> n_named c = true ->
    exists u v, cnamed l = u ++ kid_at l a c z :: v /\ (Forall (fun n => n_named n = false) a -> u = []) /\
      (Forall (fun n => n_named n = false) z -> v = []) /\ (forall d z', z = d :: z' -> n_named d = true -> exists v', v = kid_at l (a ++ [c]) d z' :: v').
  Proof.
    intros U P E N. unfold cnamed. rewrite (code_all root l U P). unfold kids. rewrite E.
    destruct (locs_behind l a (c :: z) []) as (A & HA & ->). rewrite app_nil_r. cbn [locs_from]. rewrite filter_app. cbn [filter].
    unfold is_named at 2. cbn [l_node]. rewrite N. exists (filter is_named A), (filter is_named (locs_from l (c :: rev a) z)). split; [reflexivity|]. split.
    - intro F. apply unnamed_none. rewrite HA. exact F.
    - split.
      + intro F. apply unnamed_none. rewrite locs_nodes. exact F.
      + intros d z' -> Nd. cbn [locs_from filter]. unfold is_named at 1. cbn [l_node]. rewrite Nd. unfold kid_at. rewrite rev_app_distr. cbn [rev app]. eauto.
  Qed.
End Kids.

Section Gaps.
  Variable b : pretty_config.
  Lemma lmember_pair j m1 x1 tr1 x2 tr2 m2 : exists p q,
    lmember j (map (lword b j) (m1 ++ (x1, tr1) :: (x2, tr2) :: m2)) = p ++ lseq b j x1 ++ tag j (sep_seq tr1) ++ lseq b j x2 ++ q.
  Proof.
    induction m1 as [|[x tr] m1 (p & q & IH)].
    - cbn [app map lword lmember]. destruct m2 as [|m m2].
      + exists [], []. rewrite app_nil_r. reflexivity.
      + exists [], (tag j (sep_seq tr2) ++ lmember j (map (lword b j) (m :: m2))). reflexivity.
    - exists (lseq b j x ++ tag j (sep_seq tr) ++ p), q. cbn [app map lword lmember].
      destruct (map (lword b j) (m1 ++ (x1, tr1) :: (x2, tr2) :: m2)) as [|y ys] eqn:E; [destruct m1; discriminate E|].
      rewrite IH, <- !app_assoc. reflexivity.
  Qed.
  Lemma lgen_pair j g m1 x1 tr1 x2 tr2 m2 : exists p q,
    lgen b j g (m1 ++ (x1, tr1) :: (x2, tr2) :: m2) = p ++ lseq b j x1 ++ tag (if is_nil m1 && tr1 then g else j) (sep_seq tr1) ++ lseq b j x2 ++ q.
  Proof.
    destruct m1 as [|[x tr] m1].
    - cbn [app lgen is_nil andb]. exists []. cbn [map lword lmember]. destruct m2 as [|m m2].
      + exists []. rewrite app_nil_r. reflexivity.
      + exists (tag j (sep_seq tr2) ++ lmember j (map (lword b j) (m :: m2))). reflexivity.
    - destruct (lmember_pair j m1 x1 tr1 x2 tr2 m2) as (p & q & E). cbn [is_nil andb].
      exists (lseq b j x ++ tag (if tr then g else j) (sep_seq tr) ++ p), q. cbn [app lgen].
      destruct (m1 ++ (x1, tr1) :: (x2, tr2) :: m2) as [|y ys] eqn:Em; [destruct m1; discriminate Em|].
      rewrite E, <- !app_assoc. reflexivity.
  Qed.
  Lemma lgen_first j g x tr ms : exists q, lgen b j g ((x, tr) :: ms) = lseq b j x ++ q.
  Proof. destruct ms as [|m ms]; [exists []; rewrite app_nil_r; reflexivity|]. cbn [lgen]. eexists. reflexivity. Qed.
  Lemma lgen_last j g m1 x tr : exists p, lgen b j g (m1 ++ [(x, tr)]) = p ++ lseq b j x.
  Proof.
    destruct m1 as [|[y t0] m1]; [exists []; reflexivity|].
    assert (G : exists p, lmember j (map (lword b j) (m1 ++ [(x, tr)])) = p ++ lseq b j x).
    { induction m1 as [|[w t1] m1 (p & IH)]; [exists []; reflexivity|]. exists (lseq b j w ++ tag j (sep_seq t1) ++ p). cbn [app map lword lmember].
      destruct (map (lword b j) (m1 ++ [(x, tr)])) as [|v vs] eqn:E; [destruct m1; discriminate E|]. rewrite IH, <- !app_assoc. reflexivity. }
    destruct G as (p & E). exists (lseq b j y ++ tag (if t0 then g else j) (sep_seq t0) ++ p). cbn [app lgen].
    destruct (m1 ++ [(x, tr)]) as [|v vs] eqn:Em; [destruct m1; discriminate Em|]. rewrite E, <- !app_assoc. reflexivity.
  Qed.
End Gaps.

Section Places.
  Local Instance DGp : dangles := mute.
  Variable root : node.
  Hypothesis Ft : file_tree root.
  Hypothesis Un : untouched root.
  Hypothesis D : distinct_ids root.
  Hypothesis Sol : solid root.
  Variable cm : cmap.
  Hypothesis Em : forall id bk, get_comment_bucket cm id = Ok bk -> bucket_empty bk.
  Variable checked : bool.
  Variable stack : nat.
  Variable b : pretty_config.
  Variable T : dt.
  Hypothesis E2 : new cm checked stack Root (root_loc root) = Ok T.
  Variable X : list atom.
  Hypothesis Fo : lfollows (lbare (lseq b 0 T)) X.
  Notation step := (indent_size b).
  Notation out := (render X).

  Lemma member_plain n c : In n (all_nodes root) -> kind_in (n_kind n) member_lists = true -> In c (children n) -> n_named c = true -> plain_member c.
  Proof.
    intros Hn K Hc N. destruct (body_kinds_shape root Ft Un n Hn) as (a & bb & z & E & Fa & Fb & Fz).
    { revert K. unfold kind_in, member_lists. cbn [existsb]. destruct (String.eqb (n_kind n) "parser_output"), (String.eqb (n_kind n) "class_body"),
        (String.eqb (n_kind n) "interface_body"), (String.eqb (n_kind n) "constructor_body"), (String.eqb (n_kind n) "block"); auto. }
    rewrite E in Hc. unfold signs_only in *. rewrite Forall_forall in Fa, Fb, Fz.
    apply in_app_or in Hc as [Hc|Hc]; [rewrite (Fa _ Hc) in N; discriminate|]. apply in_app_or in Hc as [Hc|Hc]; [apply Fb; exact Hc|].
    rewrite (Fz _ Hc) in N. discriminate.
  Qed.
  Lemma member_markable c : n_named c = true -> plain_member c -> markable c.
  Proof.
    intros Nm Pm. unfold plain_member in Pm. split; [unfold code_token; rewrite Nm; reflexivity|]. split.
    - unfold is_punctuation_node, has_kind. apply Bool.orb_false_iff. split; apply String.eqb_neq; intro Z; rewrite Z in Pm; discriminate.
    - destruct (kind_in (n_kind c) ["for_clause"; "with_type"; "selected_fields"]) eqn:Z; [|reflexivity]. apply kind_in_in in Z. exfalso. revert Pm.
      destruct Z as [<-|[<-|[<-|[]]]]; discriminate.
  Qed.
  Lemma member_tight l c m s x : pos root l -> In c (kids l) -> In s member_sorts -> new cm checked m s c = Ok x -> tight x.
  Proof.
    intros P Hc M H. pose proof (new_edges root cm checked m Sol s c x (at_kid root _ _ P Hc) H) as K.
    eapply KK_tight; [|exact K]. cbn in M. destruct M as [<-|[<-|[<-|[<-|[<-|[]]]]]]; split; reflexivity.
  Qed.
  Lemma trailing_gap c1 d tr : find n_named (l_right c1) = Some d -> n_srow d <> 0%N ->
    has_trailing_newline cm checked c1 = Ok tr -> tr = (n_erow (l_node c1) <? n_srow d - 1)%N.
  Proof.
    intros Hf N0 H. unfold has_trailing_newline in H.
    destruct (get_comment_bucket cm (n_id (l_node c1))) as [bk| |] eqn:Eb; cbn in H; try discriminate.
    destruct (Em _ _ Eb) as (_ & Hp & _). rewrite Hp in H. cbn in H. rewrite Hf in H. apply N.eqb_neq in N0. rewrite N0 in H.
    injection H as <-. reflexivity.
  Qed.
  Lemma inner_deeper l c : kind_in (kind l) member_lists = true -> inner_level l = deeper (l_node l) c.
  Proof.
    unfold kind. intro K. apply kind_in_in in K. unfold inner_level, deeper, is_kind, has_kind.
    destruct K as [<-|[<-|[<-|[<-|[<-|[]]]]]]; reflexivity.
  Qed.
  Lemma lists_frames k : kind_in k member_lists = true -> kind_in k frames = true.
  Proof. intro K. apply kind_in_in in K. destruct K as [<-|[<-|[<-|[<-|[<-|[]]]]]]; reflexivity. Qed.

  (* the body [n] and its members, as printed *)
  Lemma body_found n ahead level : lies root n ahead level -> kind_in (n_kind n) member_lists = true -> n_named n = true ->
    exists l m s y A B, pos root l /\ l_node l = n /\ ahead_of l = ahead /\ fine l /\ In (kind l, s) outer_sorts /\
      new cm checked (S m) s l = Ok y /\ lseq b 0 T = A ++ lseq b (level * step)%N y ++ B /\ shaped cm checked b (new cm checked m) l y.
  Proof.
    intros L K N. destruct (lies_found root Ft Un cm checked b stack T E2 n ahead level L N (lists_frames _ K)) as (l & m & s & y & A & B & P & El & Ea & F & Hs & Hy & Es).
    destruct m as [|m]; [discriminate Hy|]. exists l, m, s, y, A, B. repeat (split; [assumption|]).
    eapply body_shaped; [|exact Hs|exact F|exact Hy]. unfold kind. rewrite El. exact K.
  Qed.

  Lemma members_in cs ms m u c v : from_members cm checked (new cm checked m) cs ms -> cs = u ++ c :: v ->
    exists ms1 x tr ms2 s, ms = ms1 ++ (x, tr) :: ms2 /\ from_members cm checked (new cm checked m) u ms1 /\ from_members cm checked (new cm checked m) v ms2 /\
      In s member_sorts /\ new cm checked m s c = Ok x /\ has_trailing_newline cm checked c = Ok tr.
  Proof.
    intros FM ->. apply Forall2_app_inv_l in FM as (ms1 & r & F1 & F2 & ->). inversion F2 as [|? [x tr] ? ms2 [(s & Hs & Hx) Ht] F3]; subst.
    exists ms1, x, tr, ms2, s. repeat (split; [assumption || reflexivity|]). exact Ht.
  Qed.

  (* one member behind the other *)
  Lemma pair_place n ahead level a c1 c2 z : lies root n ahead level -> kind_in (n_kind n) member_lists = true ->
    children n = a ++ c1 :: c2 :: z -> n_named c1 = true -> n_named c2 = true -> n_srow c2 <> 0%N ->
    exists k, width (ahead ++ flat_map tips (a ++ [c1])) = S k /\
      row_of out (S k) = (row_of out k + if (n_erow c1 <? n_srow c2 - 1)%N then 2 else 1)%N /\
      (n_kind c1 <> "explicit_constructor_invocation" \/ (n_erow c1 <? n_srow c2 - 1)%N = false -> column_of out (S k) = ((level + deeper n c2) * step)%N).
  Proof.
    intros L K E N1 N2 R0. pose proof (lies_node root _ _ _ L) as Hn.
    assert (H1 : In c1 (children n)) by (rewrite E; apply in_or_app; right; left; reflexivity).
    assert (H2 : In c2 (children n)) by (rewrite E; apply in_or_app; right; right; left; reflexivity).
    destruct (body_found n ahead level L K (parent_named root Ft Un n c1 Hn H1)) as (l & m & s & y & A & B & P & El & Ea & F & Hs & Hy & Es & ms & FM & Sh).
    subst n ahead. set (k1 := kid_at l a c1 (c2 :: z)). set (k2 := kid_at l (a ++ [c1]) c2 z).
    assert (E' : children (l_node l) = (a ++ [c1]) ++ c2 :: z) by (rewrite E, <- app_assoc; reflexivity).
    destruct (named_split root l a c1 (c2 :: z) Un P E N1) as (u & v & Ec & _ & _ & Hv). destruct (Hv c2 z eq_refl N2) as (v' & Ev). fold k1 in Ec. fold k2 in Ev.
    destruct (members_in _ _ _ _ _ _ FM Ec) as (m1 & x1 & tr1 & ms2 & s1 & Em1 & F1 & F2 & S1 & Hx1 & Ht1).
    destruct (members_in _ _ _ [] k2 v' F2 Ev) as (m0 & x2 & tr2 & m2 & s2 & Em2 & F0 & F3 & S2 & Hx2 & Ht2). inversion F0; subst m0. cbn [app] in Em2.
    subst ms2. assert (Hne : ms <> []) by (rewrite Em1; destruct m1; discriminate).
    assert (K1 : In k1 (kids l)) by (apply kid_at_in; exact E). assert (K2 : In k2 (kids l)) by (apply kid_at_in; exact E').
    destruct (Sh Hne (level * step)%N) as (p & e & q & Ey & _). rewrite Em1 in Ey.
    destruct (lgen_pair b (level * step + inner_level l * step)%N (gap_level b l (level * step)) m1 x1 tr1 x2 tr2 m2) as (p' & q' & Eg).
    rewrite Eg in Ey. rewrite Ey in Es.
    set (g := if is_nil m1 && tr1 then gap_level b l (level * step)%N else (level * step + inner_level l * step)%N) in *.
    set (P0 := A ++ p ++ opened b l (level * step)%N ++ p'). set (Q0 := q' ++ tag (level * step + step)%N e ++ closed l (level * step)%N ++ q ++ B).
    assert (ET : lseq b 0 T = P0 ++ lseq b (level * step + inner_level l * step)%N x1 ++ tag g (sep_seq tr1) ++ lseq b (level * step + inner_level l * step)%N x2 ++ Q0).
    { rewrite Es. unfold P0, Q0. rewrite <- !app_assoc. reflexivity. }
    destruct (levels_apart b T x1 x2 tr1 _ _ g P0 Q0 X (member_tight l k1 m s1 x1 P K1 S1 Hx1) (member_tight l k2 m s2 x2 P K2 S2 Hx2) Fo ET) as (k & Ek & Rk & Ck).
    assert (Pm : plain_member c2) by exact (member_plain _ _ Hn K H2 N2).
    assert (Hsm : is_kind ";" k2 = false).
    { unfold is_kind, has_kind. cbn [k2 kid_at l_node]. unfold plain_member in Pm. apply String.eqb_neq. intro Z. rewrite Z in Pm. discriminate. }
    destruct (member_headed cm checked m s2 k2 x2 S2 Hsm Hx2) as (r & Hd).
    assert (Wd : List.length (visible (List.concat (said (untag P0 ++ seq x1 ++ sep_seq tr1)))) = width (ahead_of k2)).
    { eapply (placed_width root cm checked stack T k2 _ (r ++ untag Q0)); try eassumption; [eapply Pos_kid; eassumption|apply member_markable; assumption|].
      rewrite <- (untag_lseq b T 0), ET, !untag_app, !untag_lseq, untag_tag, Hd. rewrite <- !app_assoc. reflexivity. }
    assert (Ah : ahead_of k2 = ahead_of l ++ flat_map tips (a ++ [c1])) by (cbn [k2 kid_at ahead_of]; rewrite rev_involutive; reflexivity).
    exists k. rewrite <- Ah, <- Wd. split; [exact Ek|].
    assert (Fd : find n_named (l_right k1) = Some c2) by (cbn [k1 kid_at l_right find]; rewrite N2; reflexivity).
    pose proof (trailing_gap k1 c2 tr1 Fd R0 Ht1) as Et. cbn [k1 kid_at l_node] in Et. rewrite <- Et. split; [exact Rk|].
    intro Hx. rewrite Ck. unfold g. rewrite <- (inner_deeper l c2 K), N.mul_add_distr_r. destruct m1 as [|m0 m1]; [|reflexivity]. cbn [is_nil andb].
    destruct tr1; [|reflexivity]. destruct Hx as [Hx|Hx]; [|discriminate Hx]. unfold gap_level. inversion F1; subst u. rewrite Ec. cbn [app].
    unfold is_kind, has_kind. cbn [k1 kid_at l_node]. destruct (String.eqb (n_kind c1) "explicit_constructor_invocation") eqn:Z; [|reflexivity].
    apply String.eqb_eq in Z. contradiction.
  Qed.
  (* the first member behind the brace *)
  Lemma text_tight s m : post_text F s = Some m -> le m V -> tight (TTxt s).
  Proof. intros H L. eapply K1_up; [apply K1_const; exact H|exact L]. Qed.
  Lemma not_root l : kind_in (kind l) member_lists = true -> kind l <> "parser_output" -> is_kind "parser_output" l = false.
  Proof. intros _ H. unfold is_kind, has_kind. apply String.eqb_neq. exact H. Qed.
  Lemma first_place n ahead level a c z : lies root n ahead level -> kind_in (n_kind n) member_lists = true -> n_kind n <> "parser_output" ->
    children n = a ++ c :: z -> Forall (fun n => n_named n = false) a -> n_named c = true ->
    exists k, width (ahead ++ flat_map tips a) = S k /\ row_of out (S k) = (row_of out k + 1)%N /\ column_of out (S k) = ((level + 1) * step)%N.
  Proof.
    intros L K Kr E Fa N. pose proof (lies_node root _ _ _ L) as Hn.
    assert (H1 : In c (children n)) by (rewrite E; apply in_or_app; right; left; reflexivity).
    destruct (body_found n ahead level L K (parent_named root Ft Un n c Hn H1)) as (l & m & s & y & A & B & P & El & Ea & Fl & Hs & Hy & Es & ms & FM & Sh).
    subst n ahead. set (k1 := kid_at l a c z). pose proof (not_root l K Kr) as Hr.
    destruct (named_split root l a c z Un P E N) as (u & v & Ec & Hu & _). rewrite (Hu Fa) in Ec. fold k1 in Ec. cbn [app] in Ec.
    destruct (members_in _ _ _ [] k1 v FM Ec) as (m0 & x1 & tr1 & ms2 & s1 & Em1 & F0 & F2 & S1 & Hx1 & Ht1). inversion F0; subst m0. cbn [app] in Em1.
    assert (Hne : ms <> []) by (rewrite Em1; discriminate).
    assert (K1 : In k1 (kids l)) by (apply kid_at_in; exact E).
    destruct (Sh Hne (level * step)%N) as (p & e & q & Ey & _). rewrite Em1 in Ey.
    destruct (lgen_first b (level * step + inner_level l * step)%N (gap_level b l (level * step)) x1 tr1 ms2) as (q' & Eg).
    rewrite Eg in Ey. rewrite Ey in Es. unfold opened, inner_level in Es. rewrite Hr in Es. rewrite N.mul_1_l in Es.
    set (P0 := A ++ p). set (Q0 := q' ++ tag (level * step + step)%N e ++ closed l (level * step)%N ++ q ++ B).
    assert (ET : lseq b 0 T = P0 ++ lseq b (level * step)%N (TTxt (U "{")) ++ tag (level * step + step)%N (sep_seq false) ++ lseq b (level * step + step)%N x1 ++ Q0).
    { rewrite Es. unfold P0, Q0. cbn [lseq sep_seq]. rewrite <- !app_assoc. reflexivity. }
    assert (Tb : tight (TTxt (U "{"))) by (eapply text_tight; [vm_compute; reflexivity|exact I]).
    destruct (levels_apart b T (TTxt (U "{")) x1 false _ _ _ P0 Q0 X Tb (member_tight l k1 m s1 x1 P K1 S1 Hx1) Fo ET) as (k & Ek & Rk & Ck).
    assert (Pm : plain_member c) by exact (member_plain _ _ Hn K H1 N).
    assert (Hsm : is_kind ";" k1 = false).
    { unfold is_kind, has_kind. cbn [k1 kid_at l_node]. unfold plain_member in Pm. apply String.eqb_neq. intro Z. rewrite Z in Pm. discriminate. }
    destruct (member_headed cm checked m s1 k1 x1 S1 Hsm Hx1) as (r & Hd).
    assert (Wd : List.length (visible (List.concat (said (untag P0 ++ seq (TTxt (U "{")) ++ sep_seq false)))) = width (ahead_of k1)).
    { eapply (placed_width root cm checked stack T k1 _ (r ++ untag Q0)); try eassumption; [eapply Pos_kid; eassumption|apply member_markable; assumption|].
      rewrite <- (untag_lseq b T 0), ET, !untag_app, !untag_lseq, untag_tag, Hd. rewrite <- !app_assoc. reflexivity. }
    assert (Ah : ahead_of k1 = ahead_of l ++ flat_map tips a) by (cbn [k1 kid_at ahead_of]; rewrite rev_involutive; reflexivity).
    exists k. rewrite <- Ah, <- Wd. split; [exact Ek|]. split; [exact Rk|]. rewrite Ck. lia.
  Qed.

  (* what a node prints has the width of its words *)
  Lemma mute_tips n : untouched n -> mleaves n = tips n.
  Proof.
    intro U. rewrite <- tips_leaves by exact U. apply mleaves_none. intros k _. unfold opening, TokensMarks.closing. cbn.
    destruct (is_punctuation_node k), (code_token k); repeat split; discriminate.
  Qed.
  Lemma own_width l m s y : pos root l -> fine l -> In (kind l, s) outer_sorts -> kind_in (kind l) silent_kinds = true -> new cm checked m s l = Ok y ->
    List.length (visible (List.concat (said (seq y)))) = width (tips (l_node l)).
  Proof.
    intros P Fl Hs Ks Hy.
    assert (O : ok s l /\ claims s l = claim l).
    { split; [split; [exact Fl|]|].
      - split.
        + unfold expected. repeat (destruct Hs as [Hs|Hs]; [injection Hs as Hk <-; cbn [expect]; try exact I; rewrite <- Hk; reflexivity|]). destruct Hs.
        + repeat (destruct Hs as [Hs|Hs]; [injection Hs as Hk <-; exact I|]). destruct Hs.
      - repeat (destruct Hs as [Hs|Hs]; [injection Hs as Hk <-; reflexivity|]). destruct Hs. }
    destruct O as [O Oc]. pose proof (new_kept cm checked m s l y O Hy) as Kp. rewrite Oc, (claim_silent l Ks), (mute_tips _ (untouched_sub root Un _ (pos_node _ _ P))) in Kp.
    apply mkept_thin in Kp as (ls & Th & Kp).
    apply thinned_same in Th.
    2: { apply Forall_forall. intros k Hk. apply (Un k). eapply all_nodes_trans; [exact (pos_node _ _ P)|]. apply tips_nodes. exact Hk. }
    subst ls. apply kept_bits in Kp. pose proof (eq_trans (eq_sym (pieces_told (fun _ => []) y)) Kp) as Kp'. clear Kp. rename Kp' into Kp. unfold told in Kp.
    change (spread (fun _ : N => []) (seq y)) with (bare (seq y)) in Kp. rewrite said_bare in Kp.
    unfold width. rewrite <- folded_len, <- flat_bits_folded, Kp, bits_of_folded, folded_len. unfold visible. clear.
    induction (tips (l_node l)) as [|n ns IH]; [reflexivity|]. cbn [flat_map]. rewrite filter_app, !app_length, IH. reflexivity.
  Qed.

  (* the closing brace *)
  Lemma tight_end x e : tight x -> e = [] \/ e = [PT []] -> exists x', tight x' /\ forall i, lseq b i x' = lseq b i x ++ tag i e.
  Proof.
    intros Tx [->| ->].
    - exists x. split; [exact Tx|]. intro i. cbn. rewrite app_nil_r. reflexivity.
    - exists (TConcat [x; TTxt []]). split; [|intro i; cbn [lseq flat_map]; rewrite app_nil_r; reflexivity].
      apply K1_concat. eapply KD_cons; [exact Tx|]. eapply KD_cons; [|apply KD_nil]. eapply K1_up; [apply K1_const; vm_compute; reflexivity|exact I].
  Qed.
  Lemma close_place n ahead level a c z : lies root n ahead level -> kind_in (n_kind n) member_lists = true -> n_kind n <> "parser_output" ->
    children n = a ++ c :: z -> n_named c = true -> Forall (fun n => n_named n = false) z ->
    exists k, width (ahead ++ tips n) = S (S k) /\ row_of out (S k) = (row_of out k + 1)%N /\ column_of out (S k) = (level * step)%N.
  Proof.
    intros L K Kr E N Fz. pose proof (lies_node root _ _ _ L) as Hn.
    assert (H1 : In c (children n)) by (rewrite E; apply in_or_app; right; left; reflexivity).
    destruct (body_found n ahead level L K (parent_named root Ft Un n c Hn H1)) as (l & m & s & y & A & B & P & El & Ea & Fl & Hs & Hy & Es & ms & FM & Sh).
    subst n ahead. set (k1 := kid_at l a c z). pose proof (not_root l K Kr) as Hr.
    destruct (named_split root l a c z Un P E N) as (u & v & Ec & _ & Hv & _). rewrite (Hv Fz) in Ec. fold k1 in Ec.
    destruct (members_in _ _ _ u k1 [] FM Ec) as (m0 & x1 & tr1 & ms2 & s1 & Em1 & F0 & F2 & S1 & Hx1 & Ht1). inversion F2; subst ms2.
    assert (Hne : ms <> []) by (rewrite Em1; destruct m0; discriminate).
    assert (K1 : In k1 (kids l)) by (apply kid_at_in; exact E).
    destruct (Sh Hne (level * step)%N) as (p & e & q & Ey & He & [Ed|[Sq (r & Ep)]]); [rewrite Ed in Hr; discriminate|]. rewrite Em1 in Ey.
    destruct (lgen_last b (level * step + inner_level l * step)%N (gap_level b l (level * step)) m0 x1 tr1) as (p' & Eg).
    rewrite Eg in Ey. pose proof Es as Es0. rewrite Ey in Es. unfold opened, closed, inner_level in Es, Ey. rewrite Hr in Es, Ey. rewrite N.mul_1_l in Es, Ey.
    destruct (tight_end x1 e (member_tight l k1 m s1 x1 P K1 S1 Hx1) He) as (x' & Tx & Ex).
    set (i := (level * step)%N) in *. set (o := tag i [PT (U "{")] ++ tag (i + step)%N [PB]) in *.
    set (P0 := A ++ p ++ o ++ p').
    assert (ET : lseq b 0 T = P0 ++ lseq b (i + step)%N x' ++ tag i (sep_seq false) ++ lseq b i (TTxt (U "}")) ++ q ++ B).
    { rewrite Es, Ex. unfold P0. cbn [lseq sep_seq]. rewrite <- !app_assoc. reflexivity. }
    assert (Tb : tight (TTxt (U "}"))) by (eapply text_tight; [vm_compute; reflexivity|exact I]).
    destruct (levels_apart b T x' (TTxt (U "}")) false _ _ _ P0 (q ++ B) X Tx Tb Fo ET) as (k & Ek & Rk & Ck).
    assert (Wa : List.length (visible (List.concat (said (untag A)))) = width (ahead_of l)).
    { eapply (placed_width root cm checked stack T l (untag A) (untag r ++ untag (o ++ (p' ++ lseq b (i + step)%N x1) ++ tag (i + step)%N e ++ tag i [PB; PT (U "}")] ++ q) ++ untag B)); try eassumption.
      - apply member_markable; [exact (parent_named root Ft Un _ c Hn H1)|]. apply kind_in_in in K. unfold plain_member. destruct K as [<-|[<-|[<-|[<-|[<-|[]]]]]]; reflexivity.
      - rewrite <- (untag_lseq b T 0), Es0, Ey, Ep. rewrite !untag_app. cbn [untag map fst app]. rewrite <- !app_assoc. reflexivity. }
    assert (Wo : List.length (visible (List.concat (said (seq y)))) = width (tips (l_node l))).
    { eapply own_width; try eassumption. unfold kind in *. apply kind_in_in in K. revert Kr. destruct K as [<-|[<-|[<-|[<-|[<-|[]]]]]]; intro Kr; reflexivity. }
    exists k. split; [|split; [exact Rk|exact Ck]].
    assert (Wt : width (ahead_of l ++ tips (l_node l)) = (width (ahead_of l) + width (tips (l_node l)))%nat) by (unfold width; rewrite flat_map_app, app_length; reflexivity).
    rewrite Wt, <- Wa, <- Wo. rewrite <- (untag_lseq b y i), Ey.
    assert (Sp : untag P0 ++ seq x' ++ sep_seq false = untag A ++ untag (p ++ o ++ (p' ++ lseq b (i + step)%N x1) ++ tag (i + step)%N e ++ tag i [PB])).
    { unfold P0. rewrite <- (untag_lseq b x' (i + step)), Ex. rewrite !untag_app, !untag_tag. rewrite <- !app_assoc. reflexivity. }
    rewrite Sp in Ek.
    assert (Sy : untag (p ++ o ++ (p' ++ lseq b (i + step)%N x1) ++ tag (i + step)%N e ++ tag i [PB; PT (U "}")] ++ q) =
                 untag (p ++ o ++ (p' ++ lseq b (i + step)%N x1) ++ tag (i + step)%N e ++ tag i [PB]) ++ [PT (U "}")] ++ untag q).
    { rewrite !untag_app, !untag_tag. rewrite <- !app_assoc. reflexivity. }
    rewrite Sy. rewrite said_app, (said_app [PT _]), Sq, app_nil_r. cbn [said flat_map app].
    rewrite said_app, concat_app in Ek. rewrite concat_app. unfold visible in *. rewrite filter_app, app_length in Ek. rewrite filter_app, app_length, Nat.add_assoc, Ek.
    cbn. lia.
  Qed.
End Places.

(* ------------------------------------------------------------ the whole *)

Section Whole.
  Variable checked : bool.
  Variable stack : nat.
  Variable cfg : config.
  Variable root : node.
  Variable out : ustr.
  Hypothesis Ft : file_tree root.
  Hypothesis Un : untouched root.
  Hypothesis D : distinct_ids root.
  Hypothesis Tr : trimmed_nodes root.
  Hypothesis E : format_tree checked stack cfg root = Ok out.
  Lemma format_levels : exists cm T b X, (forall id bk, get_comment_bucket cm id = Ok bk -> bucket_empty bk) /\
    new cm checked stack Root (root_loc root) = Ok T /\ lfollows (lbare (lseq b 0 T)) X /\ render X = out /\ indent_size b = cfg_indent_size cfg.
  Proof.
    clear D Tr. unfold format_tree in E.
    destruct (collect_comments root) as [cm| |] eqn:E1; try discriminate. cbn [rbind rmap] in *.
    destruct (new cm checked stack Root (root_loc root)) as [T| |] eqn:E2; try discriminate. cbn [rbind] in E.
    destruct (PrettyConfig_new (cfg_indent_size cfg)) as [b| |] eqn:E3; try discriminate. cbn [rbind] in *.
    destruct (run cm b T) as [[d w]| |] eqn:E4; try discriminate. cbn [rbind fst snd] in *.
    destruct (pretty_print_layout d (max_width cfg)) as (X & Lx & Px).
    assert (Em : forall id bk, get_comment_bucket cm id = Ok bk -> bucket_empty bk).
    { apply (source_empty root cm); [|exact E1]. split; [exact Ft|]. intros n Hn. apply (Un n Hn). }
    exists cm, T, b, X. split; [exact Em|]. split; [exact E2|]. split.
    - rewrite <- (run_levels b cm Em T d w E4 0%N). eapply layout_levels; [eapply run_grouped; eassumption|exact Lx].
    - split; [|unfold PrettyConfig_new in E3; destruct (cfg_indent_size cfg =? 0)%N; [discriminate|injection E3 as <-; reflexivity]].
      destruct (assert_no_missing_comments cm w) as [[]| |] eqn:E5; try discriminate. cbn [rbind] in E. injection E as E. rewrite <- Px. exact E.
  Qed.
  Lemma bordered_solid : solid root.
  Proof. intros n Hn. apply ends_bordered, Tr. exact Hn. Qed.
  Theorem members_apart_out n ahead level a c1 c2 z : lies root n ahead level -> kind_in (n_kind n) member_lists = true ->
    children n = a ++ c1 :: c2 :: z -> n_named c1 = true -> n_named c2 = true -> n_srow c2 <> 0%N ->
    exists k, width (ahead ++ flat_map tips (a ++ [c1])) = S k /\
      row_of out (S k) = (row_of out k + if (n_erow c1 <? n_srow c2 - 1)%N then 2 else 1)%N /\
      (n_kind c1 <> "explicit_constructor_invocation" \/ (n_erow c1 <? n_srow c2 - 1)%N = false ->
       column_of out (S k) = ((level + deeper n c2) * cfg_indent_size cfg)%N).
  Proof.
    destruct format_levels as (cm & T & b & X & Em & E2 & Fo & <- & <-).
    exact (pair_place root Ft Un D bordered_solid cm Em checked stack b T E2 X Fo n ahead level a c1 c2 z).
  Qed.
  Theorem first_member_out n ahead level a c z : lies root n ahead level -> kind_in (n_kind n) member_lists = true -> n_kind n <> "parser_output" ->
    children n = a ++ c :: z -> Forall (fun n => n_named n = false) a -> n_named c = true ->
    exists k, width (ahead ++ flat_map tips a) = S k /\ row_of out (S k) = (row_of out k + 1)%N /\ column_of out (S k) = ((level + 1) * cfg_indent_size cfg)%N.
  Proof.
    destruct format_levels as (cm & T & b & X & Em & E2 & Fo & <- & <-).
    intros. eapply first_place; eauto using bordered_solid.
  Qed.
  Theorem closing_brace_out n ahead level a c z : lies root n ahead level -> kind_in (n_kind n) member_lists = true -> n_kind n <> "parser_output" ->
    children n = a ++ c :: z -> n_named c = true -> Forall (fun n => n_named n = false) z ->
    exists k, width (ahead ++ tips n) = S (S k) /\ row_of out (S k) = (row_of out k + 1)%N /\ column_of out (S k) = (level * cfg_indent_size cfg)%N.
  Proof.
    destruct format_levels as (cm & T & b & X & Em & E2 & Fo & <- & <-).
    intros. eapply close_place; eauto using bordered_solid.
  Qed.
End Whole.
