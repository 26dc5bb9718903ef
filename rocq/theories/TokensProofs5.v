(* TokensProofs5.v: the code tokens of a file are those of the formatted file. *)
From Verif Require Import Base Doc DocBuilder SpecDoc Cst Comments Term New Formatter SpecTree SpecRead
  TermProofs2 FormatProofs SpecWords SpecTokens SpecLoud BitsProofs TokensProofs TokensMarks TokensProofs2 TokensProofs3 TokensProofs4.
Local Open Scope string_scope.
Local Open Scope list_scope.

Lemma new_kept {DG : dangles} cm checked fuel : forall s l x, ok s l -> new cm checked fuel s l = Ok x -> mkept (claims s l) (pieces x).
Proof.
  induction fuel as [|k IH]; intros s l x O H; cbn [new] in H; [discriminate|].
  eapply step_kept; [exact IH|exact O|exact H].
Qed.

Lemma file_hushed {DG : dangles} root : file_tree root ->
  (forall m, In m (all_nodes root) -> n_extra m = false -> calm m /\ hushed m) -> valid root.
Proof.
  intros S C. split; [apply (ft_root _ S)|]. intros m Hm. split; [apply (ft_covered _ S m Hm)|].
  split; [apply (ft_order _ S m Hm)|]. split; [apply (ft_comments _ S m Hm)|]. intro Hx.
  split; [apply (ft_spelled _ S m Hm Hx)|]. split; [apply (ft_rules _ S m Hm Hx)|].
  split; [apply (ft_atoms _ S m Hm Hx)|]. split; [intros c; apply (ft_values _ S m c Hm)|exact (C m Hm Hx)].
Qed.
Lemma root_hushed {DG : dangles} cm checked stack root t : file_tree root ->
  (forall m, In m (all_nodes root) -> n_extra m = false -> calm m /\ hushed m) ->
  new cm checked stack Root (root_loc root) = Ok t -> mkept (mleaves root) (pieces t).
Proof.
  intros S C E. assert (O : ok Root (root_loc root)).
  { split; [|split; exact I]. apply fine_none; [apply file_hushed; assumption|split; [constructor|split; discriminate]|apply (ft_root _ S)|reflexivity]. }
  pose proof (new_kept cm checked stack Root (root_loc root) t O E) as K.
  cbn [claims] in K. rewrite claim_none in K by reflexivity. exact K.
Qed.
(* Comments may be left out. *)
Lemma file_valid {DG : dangles} root : loose = true -> file_tree root ->
  (forall m, In m (all_nodes root) -> n_extra m = false -> calm m) -> valid root.
Proof. intros L S C. apply file_hushed; [exact S|]. intros m Hm Hx. split; [exact (C m Hm Hx)|left; exact L]. Qed.
Lemma root_pieces {DG : dangles} cm checked stack root t : loose = true -> file_tree root ->
  (forall m, In m (all_nodes root) -> n_extra m = false -> calm m) ->
  new cm checked stack Root (root_loc root) = Ok t -> mkept (mleaves root) (pieces t).
Proof. intros L S C. apply root_hushed; [exact S|]. intros m Hm Hx. split; [exact (C m Hm Hx)|left; exact L]. Qed.
(* Apart from the comments themselves. *)
Definition calm_braces (cm : list (N * bucket)) (m : node) : Prop :=
  hollow cm (n_id m) = true -> kind_in (n_kind m) body_kinds = true /\ filter n_named (code_children m) = [] /\ ~ untouched m.
Lemma quiet_sides cm m : @opening (dangling_in cm) m = [] /\ @closing (dangling_in cm) m = [].
Proof.
  unfold opening, closing. cbn [dangling_in p_pre n_pre p_post n_post]. destruct (is_punctuation_node m), (code_token m); split; reflexivity.
Qed.
Lemma quiet_calm cm m : calm_braces cm m -> @calm (dangling_in cm) m.
Proof.
  intro H. split; [exact H|]. split; [split; reflexivity|]. split; [intros _; apply quiet_sides|].
  split; intros _ c _ _; apply quiet_sides.
Qed.
Lemma quiet_pieces cm checked stack root t : file_tree root ->
  (forall m, In m (all_nodes root) -> n_extra m = false -> calm_braces cm m) ->
  new cm checked stack Root (root_loc root) = Ok t -> kept (leaves root) (@pieces (dangling_in cm) t).
Proof.
  intros S C E. apply (@mkept_plain (dangling_in cm)); [|eapply root_pieces; [reflexivity|exact S| |exact E]].
  - apply mleaves_none. intros m _. destruct (quiet_sides cm m) as [-> ->]. repeat split.
  - intros m Hm Hx. apply quiet_calm, C; assumption.
Qed.
Lemma no_dangling cm : (forall id bk, get_comment_bucket cm id = Ok bk -> bucket_empty bk) ->
  forall id, @dangle (dangling_in cm) id = false.
Proof.
  intros H id. unfold dangle, dangling_in, hollow. destruct (cm_get id cm) as [bk|] eqn:E; [|reflexivity].
  assert (Hb : get_comment_bucket cm id = Ok bk) by (unfold get_comment_bucket; rewrite E; reflexivity).
  destruct (H id bk Hb) as (_ & _ & ->). reflexivity.
Qed.
(* facts about sources without comments *)
Lemma st_no_comments root : source_tree root -> forall n, In n (all_nodes root) -> n_extra n = false.
Proof. intros [_ U]. exact U. Qed.
Lemma st_root root : source_tree root -> n_kind root = "parser_output" /\ n_named root = true.
Proof. intros [S _]. destruct (ft_root _ S) as (H1 & H2 & _). auto. Qed.
Lemma st_covered root : source_tree root -> forall n, In n (all_nodes root) -> covered n.
Proof. intros [S _]. apply (ft_covered _ S). Qed.
Lemma st_order root : source_tree root -> forall n, In n (all_nodes root) -> in_order n.
Proof. intros [S _]. apply (ft_order _ S). Qed.
Lemma st_spelled root : source_tree root -> forall n, In n (all_nodes root) -> spelled n.
Proof. intros [S U] n Hn. apply (ft_spelled _ S n Hn (U n Hn)). Qed.
Lemma st_rules root : source_tree root -> forall n, In n (all_nodes root) -> n_named n = true -> follows_rules n.
Proof. intros [S U] n Hn. apply (ft_rules _ S n Hn (U n Hn)). Qed.

Lemma source_empty root cm : source_tree root -> collect_comments root = Ok cm ->
  forall id bk, get_comment_bucket cm id = Ok bk -> bucket_empty bk.
Proof.
  intros S E1 id bk Hb. eapply no_comments_empty; [|exact (st_no_comments _ S)|exact E1|exact Hb].
  unfold code, code_token. rewrite (st_no_comments _ S root (self_in root)), (proj2 (st_root _ S)). reflexivity.
Qed.
Lemma source_pieces root cm checked stack t : source_tree root -> collect_comments root = Ok cm ->
  new cm checked stack Root (root_loc root) = Ok t -> kept (leaves root) (@pieces (dangling_in cm) t).
Proof.
  intros S E1 E2. eapply quiet_pieces; [exact (proj1 S)| |exact E2]. intros m _ _ Hd.
  pose proof (no_dangling cm (source_empty _ _ S E1) (n_id m)) as Q. cbn [dangle dangling_in] in Q. rewrite Q in Hd. discriminate.
Qed.
Theorem format_kept checked stack cfg root out :
  source_tree root -> format_tree checked stack cfg root = Ok out ->
  exists ws, spaced ws out /\ kept (leaves root) ws.
Proof.
  intros S H. apply format_ok in H as (cm & t & b & d & marks & E1 & E2 & E3 & E4 & -> & _).
  exists (words d). split; [apply pretty_print_words; eapply run_grouped; eauto|].
  eapply TokensProofs.kept_same; [symmetry; eapply run_solid; [|exact E4]|exact (source_pieces _ _ _ _ _ S E1 E2)].
  exact (source_empty _ _ S E1).
Qed.

(* Up to white space and the case of letters the text is the same. *)
Lemma blank_visible b : blank b -> visible b = [].
Proof.
  unfold blank, visible. induction 1 as [|c b Hc Hb IH]; [reflexivity|]. cbn [filter].
  unfold is_layout_char in Hc. apply Bool.orb_prop in Hc as [Hc|Hc]; apply N.eqb_eq in Hc; subst c; exact IH.
Qed.
Lemma spaced_folded ws out : spaced ws out -> folded out = folded (List.concat ws).
Proof.
  unfold folded. induction 1 as [b Hb|b t ts s Hb Hs IH]; cbn [List.concat].
  - rewrite (blank_visible b Hb). reflexivity.
  - rewrite !visible_app, (blank_visible b Hb), !lowercase_app. cbn [app]. rewrite IH. reflexivity.
Qed.

(* The words and signs of the printed texts are those of the tokens. *)
Lemma kept_bits ls ws : kept ls ws -> flat_map bits ws = bits_of ls.
Proof.
  induction 1 as [|w ls ws Hw K IH|n ls ws Hn K IH|ns v ls ws Hv Hb K IH|v w ls ws Hvw K IH|ns vs ls ws Hn He K IH].
  - reflexivity.
  - cbn [flat_map]. rewrite (bits_blank w Hw). exact IH.
  - change (bits_of (n :: ls)) with (bits (n_text n) ++ bits_of ls). rewrite (bits_blank _ Hn). exact IH.
  - cbn [flat_map]. rewrite bits_of_app, Hb, IH. reflexivity.
  - cbn [flat_map] in *. rewrite (bits_app v w Hvw), <- app_assoc. exact IH.
  - rewrite flat_map_app, bits_of_app, He, IH. reflexivity.
Qed.
Lemma kept_folded ls ws : kept ls ws -> folded (List.concat ws) = folded (flat_map n_text ls).
Proof. intro K. rewrite <- flat_bits_folded, (kept_bits _ _ K). apply bits_of_folded. Qed.
Theorem format_folded_leaves checked stack cfg root out :
  source_tree root -> format_tree checked stack cfg root = Ok out -> folded out = folded (flat_map n_text (leaves root)).
Proof.
  intros S H. destruct (format_kept _ _ _ _ _ S H) as (ws & Hs & K).
  rewrite (spaced_folded _ _ Hs). exact (kept_folded _ _ K).
Qed.
Theorem format_folded checked stack cfg root out :
  file_tree root -> untouched root -> format_tree checked stack cfg root = Ok out -> folded out = folded (n_text root).
Proof.
  intros S U H. assert (SS : source_tree root) by (split; [exact S|intros m Hm; apply (U m Hm)]).
  rewrite (format_folded_leaves _ _ _ _ _ SS H). unfold folded.
  rewrite (visible_leaves root); [reflexivity|exact U|exact (st_covered _ SS)].
Qed.

(* The tokens other than words of the language stand in the output, verbatim. *)
Lemma in_turn_before a ts s : in_turn ts s -> in_turn ts (a ++ s).
Proof. intro H. destruct H as [s|b t ts s H]; [constructor|]. rewrite app_assoc. constructor. exact H. Qed.
Lemma in_turn_app a s b t : in_turn a s -> in_turn b t -> in_turn (a ++ b) (s ++ t).
Proof.
  intros H1 H2. induction H1 as [s|g x ts s H IH]; cbn [app]; [apply in_turn_before; exact H2|].
  rewrite <- !app_assoc. constructor. exact IH.
Qed.
Lemma in_turn_fewer {A} (f : A -> ustr) (p : A -> bool) l s : in_turn (map f l) s -> in_turn (map f (filter p l)) s.
Proof.
  revert s. induction l as [|x l IH]; intros s H; [exact H|]. cbn [map] in H. inversion H as [|b t ts s' H' E1 E2]; subst.
  cbn [filter]. destruct (p x); cbn [map].
  - constructor. apply IH, H'.
  - apply in_turn_before, in_turn_before, IH, H'.
Qed.
Lemma woven_in_turn ts s : woven ts s -> in_turn ts s.
Proof. induction 1; constructor; auto. Qed.
Lemma spaced_after vs ws out : spaced (vs ++ ws) out -> exists p s, out = p ++ s /\ spaced ws s.
Proof.
  revert out. induction vs as [|v vs IH]; intros out H; [exists [], out; split; [reflexivity|exact H]|].
  cbn [app] in H. inversion H as [|b t ts s Hb Hs]; subst. destruct (IH s Hs) as (p & s' & -> & H').
  exists (b ++ v ++ p), s'. split; [rewrite <- !app_assoc; reflexivity|exact H'].
Qed.
Lemma kept_in_turn ls ws : kept ls ws -> forall out, spaced ws out -> in_turn (map n_text (filter verbatim ls)) out.
Proof.
  induction 1 as [|w ls ws Hw K IH|n ls ws Hn K IH|ns v ls ws Hv Hb0 K IH|v w ls ws Hvw K IH|ns vs ls ws Hn He K IH]; intros out Hs.
  - constructor.
  - inversion Hs as [|b t ts s Hb Hs']; subst. apply in_turn_before, in_turn_before, IH, Hs'.
  - cbn [filter]. unfold verbatim at 1. rewrite Hn. cbn [is_nil negb]. rewrite Bool.andb_false_r. apply IH, Hs.
  - inversion Hs as [|b t ts s Hb Hs']; subst. rewrite filter_app, map_app.
    apply in_turn_before, in_turn_app; [|apply IH, Hs']. apply in_turn_fewer, woven_in_turn, Hv.
  - apply IH. inversion Hs as [|b t ts s Hb Hs']; subst. rewrite <- app_assoc. constructor; [exact Hb|].
    apply (Sp_text []); [constructor|exact Hs'].
  - apply spaced_after in Hs as (p & s & -> & Hs). rewrite filter_app, map_app.
    apply in_turn_app; [|apply IH, Hs]. replace (filter verbatim ns) with (@nil node); [constructor|].
    clear - Hn. induction Hn as [|n ns Hn _ IH]; [reflexivity|]. cbn [filter]. unfold verbatim at 1. rewrite Hn. exact IH.
Qed.
Theorem format_verbatim checked stack cfg root out :
  source_tree root -> format_tree checked stack cfg root = Ok out ->
  in_turn (map n_text (filter verbatim (leaves root))) out.
Proof.
  intros S H. destruct (format_kept _ _ _ _ _ S H) as (ws & Hs & K). exact (kept_in_turn _ _ K _ Hs).
Qed.
