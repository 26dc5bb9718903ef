(* ArrangeOnce.v: the formatted file is the tokens and comments of the source,
   each comment once. *)
From Coq Require Import Permutation.
From Verif Require Import Base Doc DocProofs DocBuilder SpecDoc Cst Comments Term New Formatter SpecComments SpecTree SpecRead SpecSigns
  CollectProofs CollectProofs2 TermProofs2 FormatProofs ReadProofs SignsProofs SpecWords SpecTokens SpecOrder SpecArrange BitsProofs
  TokensProofs TokensMarks TokensProofs2 TokensProofs3 TokensProofs4 TokensProofs5 TokensComments ArrangeRun ArrangeItems ArrangeGrammar ArrangeFormat.
Local Open Scope string_scope.
Local Open Scope list_scope.

(* A comment in front of or behind a node belongs to a node of code. *)
Lemma find_code_in (l : list node) x : find code l = Some x -> In x l /\ code x = true.
Proof. intro H. apply find_some in H. exact H. Qed.
Lemma separator_sibling l s : next_sibling l = Some s -> separator s = true -> In s l /\ code s = true /\ next_code l = Some s.
Proof.
  unfold next_sibling, next_code. intros H S.
  assert (HC : n_extra s = false -> code s = true).
  { intro X. unfold code, code_token. rewrite X. unfold separator in S. unfold kind_in in *. cbn [existsb] in *.
    destruct (String.eqb (n_kind s) ","); [rewrite Bool.orb_true_r; reflexivity|].
    destruct (String.eqb (n_kind s) ";"); [rewrite Bool.orb_true_r; reflexivity|discriminate]. }
  induction l as [|x l IH]; [discriminate|]. cbn [find] in *. destruct (n_extra x) eqn:X; cbn [negb] in H.
  - destruct (IH H) as (H1 & H2 & H3). split; [right; exact H1|]. split; [exact H2|].
    unfold code at 1. rewrite X. exact H3.
  - injection H as ->. rewrite (HC X). auto using in_eq.
Qed.
(* The node is the nearest one before or behind the comment. *)
Lemma belongs_near n l c r : match snd (belongs n l c r) with
  | Leading => next_code r = Some (fst (belongs n l c r))
  | Trailing => prev_code l = Some (fst (belongs n l c r))
  | Dangling => prev_code l = None /\ next_code r = None /\ fst (belongs n l c r) = n
  end.
Proof.
  unfold belongs. destruct (prev_code l) as [p|] eqn:E1.
  - destruct (next_sibling r) as [s|] eqn:E2; [|reflexivity]. destruct (separator s) eqn:E3.
    + cbn. apply (separator_sibling r s E2 E3).
    + destruct (_ =? _)%N; [reflexivity|]. destruct (next_code r) eqn:E4; reflexivity.
  - destruct (next_code r) eqn:E4; cbn; auto.
Qed.
Lemma attached_code root a : In a (attachments root) -> In (at_node a) (all_nodes root) /\ (at_place a <> Dangling -> code (at_node a) = true).
Proof.
  intro Ha. destruct (proj1 (attachments_spec root a) Ha) as (n & (Hn & Hch & Hx) & Hb).
  pose proof (belongs_near n (at_left a) (at_comment a) (at_right a)) as HB. rewrite <- Hb in HB. cbn [fst snd] in HB.
  apply code_node_in in Hn. unfold child_at in Hch.
  assert (HI : forall x, In x (at_left a) \/ In x (at_right a) -> In x (all_nodes root)).
  { intros x Hin. eapply all_nodes_child; [exact Hn|]. rewrite Hch. apply in_or_app. destruct Hin as [H|H]; [left; apply in_rev in H; exact H|right; right; exact H]. }
  destruct (at_place a).
  - apply find_code_in in HB as [H1 H2]. auto.
  - apply find_code_in in HB as [H1 H2]. auto.
  - destruct HB as (_ & _ & E). split; [rewrite E; exact Hn|congruence].
Qed.

Section Once.
Variable root : node.
Variable cm : cmap.
Hypothesis S : file_tree root.
Hypothesis D : distinct_ids root.
Hypothesis B : comments_in_braces root.
Hypothesis P : simple_places root.
Hypothesis HC : collect_comments root = Ok cm.
Let Hr : code root = true := file_code root S.
Local Instance shown_r : dangles := shown_in cm.

Lemma quiet_token m p : In m (all_nodes root) -> code m = false -> p <> Dangling -> held cm (n_id m) p = [].
Proof.
  intros Hm Hc Hp. destruct (held cm (n_id m) p) as [|c l] eqn:E; [reflexivity|]. exfalso.
  destruct (held_comment root cm D Hr HC (n_id m) p c) as (a & Ha & _); [rewrite E; left; reflexivity|].
  apply filter_In in Ha as [Ha E2]. apply andb_prop in E2 as [E2 E3]. apply N.eqb_eq in E2. apply place_eqb_eq in E3.
  destruct (attached_code root a Ha) as [H1 H2]. rewrite (same_id root m (at_node a) D Hm H1 (eq_sym E2)) in Hc.
  rewrite H2 in Hc by congruence. discriminate.
Qed.
Lemma none_sides m : no_comments_at root m -> opening m = [] /\ closing m = [].
Proof.
  intros [H1 H2]. apply (held_none root cm D Hr HC) in H1, H2. unfold opening, closing. cbn [p_pre p_post n_pre n_post shown_r shown_in].
  rewrite H1, H2. destruct (is_punctuation_node m), (code_token m); split; reflexivity.
Qed.
Lemma placed_calm m : In m (all_nodes root) -> n_extra m = false -> calm m.
Proof.
  intros Hm Hx. destruct (P m Hm Hx) as (P1 & P2 & P3). split; [exact (file_calm root cm S D B HC m Hm Hx)|].
  split; [|split; [|split]].
  - intro Hc. assert (Hcode : code m = false) by (unfold code; rewrite Hc; apply Bool.andb_false_r).
    cbn [n_pre n_post shown_r shown_in]. rewrite !quiet_token by (auto; discriminate). split; reflexivity.
  - intro E. apply none_sides, P1, E.
  - intros E c Hc Ek. apply none_sides. exact (P2 E c Hc Ek).
  - intros E c Hc Ek. apply none_sides. exact (P3 E c Hc Ek).
Qed.
Lemma hollow_lone m : In m (all_nodes root) -> ihollow (placed root cm) m = true -> lone_comments m.
Proof. intros Hm H. rewrite <- hollow_placed in H. exact (dangling_lone root cm m D Hr HC Hm H). Qed.
Lemma lone_children m : lone_comments m -> forall c, In c (code_children m) -> n_named c = false.
Proof.
  intros [_ K] c Hc. apply filter_In in Hc as [Hc X]. apply negb_true_iff, orb_false_iff in X as [X _].
  destruct (n_named c) eqn:E; [|reflexivity]. exfalso.
  assert (Hk : In c (code_kids m)) by (apply filter_In; unfold code, code_token; rewrite E, X; auto). rewrite K in Hk. destruct Hk.
Qed.
Lemma filter_short {A} (p : A -> bool) a x : (forall c, In c a -> p c = false) -> most p (a ++ [x]).
Proof.
  intro H. unfold most. rewrite filter_app. replace (filter p a) with (@nil A); [cbn; destruct (p x); cbn; lia|].
  symmetry. induction a as [|y a IH]; [reflexivity|]. cbn [filter]. rewrite (H y (or_introl eq_refl)). apply IH. intros c Hc. apply H. right. exact Hc.
Qed.
Lemma filter_empty {A} (p : A -> bool) a : (forall c, In c a -> p c = false) -> filter p a = [].
Proof.
  intro H. induction a as [|y a IH]; [reflexivity|]. cbn [filter]. rewrite (H y (or_introl eq_refl)). apply IH. intros c Hc. apply H. right. exact Hc.
Qed.
Lemma file_follows m : In m (all_nodes root) -> n_extra m = false -> children m <> [] -> n_named m = true /\ follows_rules m.
Proof.
  intros Hm Hx Hc. pose proof (ft_spelled _ S m Hm Hx) as Hs. unfold spelled in Hs. destruct (n_named m) eqn:E.
  - split; [reflexivity|]. exact (ft_rules _ S m Hm Hx E).
  - destruct Hs as [Hs _]. congruence.
Qed.
Lemma file_single m : In m (all_nodes root) -> single (placed root cm) m.
Proof.
  intro Hm. destruct (children m) as [|c0 cs0] eqn:EC.
  { unfold single, code_children. rewrite EC. unfold most. cbn. repeat split; lia. }
  destruct (n_extra m) eqn:Hx.
  { destruct (ft_comments _ S m Hm Hx) as (_ & _ & H & _). congruence. }
  destruct (file_follows m Hm Hx ltac:(congruence)) as [Hn HR].
  assert (HE : forall p : node -> bool, (forall c, In c (code_children m) -> p c = false) -> most p (code_children m)).
  { intros p H. unfold most. rewrite filter_empty by exact H. cbn. lia. }
  split; [|split].
  - unfold late. destruct (has_kind "for_clause" m) eqn:K; [|apply HE; reflexivity].
    destruct (for_clause_children m HR) as (a & x & -> & _ & Ha & _); [apply String.eqb_eq; exact K|]. apply filter_short.
    intros c Hc. rewrite Forall_forall in Ha. rewrite (Ha c Hc). reflexivity.
  - unfold early. destruct (has_kind "accessor_declaration" m) eqn:K; [|apply HE; reflexivity].
    destruct (accessor_children m HR) as [Ha|(a & x & -> & Ha & _)]; [apply String.eqb_eq; exact K| |].
    + apply HE. intros c Hc. cbn [andb]. unfold has_kind. apply String.eqb_neq, Ha, Hc.
    + apply filter_short. intros c Hc. cbn [andb]. unfold has_kind. apply String.eqb_neq, Ha, Hc.
  - intro Hh. pose proof (hollow_lone m Hm Hh) as L. destruct (braces_children m HR (B m Hm L) (lone_children m L)) as (o & c & -> & Ho & Hc).
    change [o; c] with ([o] ++ [c]). apply filter_short. intros y [<-|[]]. unfold has_kind. rewrite Ho. reflexivity.
Qed.
End Once.

(* ------------------------------------------------------------ the theorem *)

Lemma nodup_comments root : distinct_ids root -> NoDup (comments_of root).
Proof. intro D. unfold comments_of. apply NoDup_filter. eapply NoDup_map_inv. exact D. Qed.

(* The order in which the formatter prints tokens and comments. *)
Definition arrangement (root : node) (cm : cmap) : list node := items (placed root cm) root.
Theorem format_arranged_doc checked stack cfg root out :
  file_tree root -> distinct_ids root -> comments_in_braces root -> simple_places root -> visible_comments root ->
  format_tree checked stack cfg root = Ok out ->
  exists cm b x d marks, collect_comments root = Ok cm /\ new cm checked stack Root (root_loc root) = Ok x /\
    run cm b x = Ok (d, marks) /\ out = pretty_print d (max_width cfg) /\
    kept (flat_map as_lines (arrangement root cm)) (words d) /\
    filter token (arrangement root cm) = leaves root /\
    Permutation (filter n_extra (arrangement root cm)) (comments_of root).
Proof.
  intros S D B P V H. pose proof (file_code _ S) as Hr. pose proof H as F.
  apply format_ok in H as (cm & t & b & d & marks & E1 & E2 & E3 & E4 & -> & Hm).
  pose proof (root_pieces (DG := shown_in cm) _ _ _ _ _ eq_refl S (placed_calm root cm S D B P E1) E2) as K.
  apply (TokensMarks.kept_same _ _ (words d)) in K; [|symmetry; exact (run_alike cm b t d marks E4)].
  rewrite (mleaves_items root cm D Hr E1) in K.
  destruct (mkept_thin _ _ K) as (ls & T & KL). fold (arrangement root cm) in T.
  set (A := arrangement root cm) in *.
  assert (PA : part (filter n_extra A) (comments_of root)).
  { eapply part_trans; [apply items_part; [apply placed_extra; auto|apply file_single; auto]|].
    eapply part_trans; [apply slots_part; auto|apply attached_part; auto]. }
  assert (TA : filter token A = leaves root) by (apply items_tokens, placed_extra; auto).
  (* all comments are printed *)
  assert (W : (shows (leaves root) + weight (comments_of root) <= shows ls)%nat).
  { rewrite <- (kept_shows _ _ KL).
    destruct (format_with_comments _ _ _ _ _ S D B F) as (ws & vs & cs & Hs & Sh & Kv & Hcs).
    assert (EV : List.length (visible (List.concat (words d))) = List.length (visible (List.concat ws))).
    { assert (Q : spaced (words d) (pretty_print d (max_width cfg))) by (apply pretty_print_words; eapply run_grouped; eauto).
      apply spaced_folded in Q. apply spaced_folded in Hs. rewrite Hs in Q. apply (f_equal (@List.length _)) in Q.
      rewrite !folded_length in Q. symmetry. exact Q. }
    rewrite EV, (shuffled_shows _ _ _ Sh), (kept_shows _ _ Kv). fold (weight cs).
    assert (weight (comments_of root) <= weight cs)%nat; [|lia]. apply weight_incl; [apply nodup_comments, D|].
    intros n Hn. apply Hcs. apply filter_In in Hn. exact Hn. }
  assert (WA : shows (flat_map as_lines A) = (shows (leaves root) + weight (filter n_extra A))%nat) by (rewrite weight_items, TA; reflexivity).
  pose proof (weight_part _ _ PA) as WP. pose proof (thinned_shows _ _ T) as WT.
  assert (EL : ls = flat_map as_lines A).
  { eapply thinned_all; [exact T| |lia]. apply Forall_forall. intros n Hn Hx. apply in_flat_map in Hn as (y & Hy & Hn).
    unfold as_lines in Hn. destruct (n_extra y) eqn:Ey.
    - apply in_map_iff in Hn as (w & <- & Hw). apply filter_In in Hw as [_ Hw]. change (n_text (line_token w)) with w.
      destruct (visible w); [discriminate|discriminate].
    - destruct Hn as [<-|[]]. congruence. }
  subst ls. exists cm, b, t, d, marks. split; [exact E1|]. split; [exact E2|]. split; [exact E4|]. split; [reflexivity|].
  split; [exact KL|]. split; [exact TA|]. destruct PA as [rest Q]. destruct rest as [|c rest]; [rewrite app_nil_r in Q; exact Q|]. exfalso.
  assert (Hc : In c (comments_of root)) by (eapply Permutation_in; [exact Q|apply in_or_app; right; left; reflexivity]).
  apply filter_In in Hc as [Hc Hx]. pose proof (comment_has_line c (V c Hc Hx)) as N.
  rewrite <- (weight_perm _ _ Q), weight_app in *. change (c :: rest) with ([c] ++ rest) in *. rewrite weight_app in *.
  assert (weight [c] = 0)%nat by lia.
  assert (Z : forall w, In w (comment_lines c) -> visible w <> []).
  { intros w Hw. apply filter_In in Hw as [_ Hw]. destruct (visible w); [discriminate|discriminate]. }
  unfold weight in H. cbn [flat_map] in H. rewrite app_nil_r in H. destruct (comment_lines c) as [|w l]; [congruence|].
  cbn [List.concat] in H. rewrite visible_app, app_length in H. specialize (Z w (or_introl eq_refl)). destruct (visible w); [congruence|discriminate].
Qed.
Theorem format_arranged checked stack cfg root out :
  file_tree root -> distinct_ids root -> comments_in_braces root -> simple_places root -> visible_comments root ->
  format_tree checked stack cfg root = Ok out ->
  exists cm ws, collect_comments root = Ok cm /\ spaced ws out /\ kept (flat_map as_lines (arrangement root cm)) ws /\
    filter token (arrangement root cm) = leaves root /\
    Permutation (filter n_extra (arrangement root cm)) (comments_of root).
Proof.
  intros S D B P V H. destruct (format_arranged_doc _ _ _ _ _ S D B P V H) as (cm & b & x & d & marks & E1 & E2 & E4 & -> & K & T & Q).
  exists cm, (words d). split; [exact E1|]. split; [apply pretty_print_words; eapply run_grouped; eauto|]. auto.
Qed.
