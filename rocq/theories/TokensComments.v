(* TokensComments.v: the formatted file consists of the code tokens and of the
   comments of the source. *)
From Coq Require Import Permutation.
From Verif Require Import Base Doc DocProofs DocBuilder SpecDoc Cst Comments Term New Formatter SpecComments SpecTree SpecRead SpecSigns
  CollectProofs CollectProofs2 TermProofs2 FormatProofs ReadProofs SignsProofs SpecWords SpecTokens SpecLoud BitsProofs TokensProofs TokensProofs2
  TokensProofs3 TokensProofs4 TokensProofs5.
Local Open Scope string_scope.
Local Open Scope list_scope.

(* ------------------------------------------------------------ which nodes hold comments alone *)

Lemma file_code root : file_tree root -> code root = true.
Proof. intro S. destruct (ft_root _ S) as (_ & H2 & H3). unfold code, code_token. rewrite H2, H3. reflexivity. Qed.
Lemma file_leaf_tokens root : file_tree root -> leaf_tokens root.
Proof.
  intros S n Hn Hc. destruct (n_extra n) eqn:Hx; [apply (ft_comments _ S n Hn Hx)|].
  pose proof (ft_spelled _ S n Hn Hx) as Hs. unfold spelled in Hs. unfold code, code_token in Hc. rewrite Hx in Hc.
  destruct (n_named n); [discriminate|]. apply Hs.
Qed.
Lemma find_none_filter {A} (p : A -> bool) l : find p l = None -> filter p l = [].
Proof.
  induction l as [|x l IH]; [reflexivity|]. cbn [find filter]. destruct (p x); [discriminate|]. exact IH.
Qed.
Lemma filter_rev {A} (p : A -> bool) l : filter p l = [] -> filter p (rev l) = [].
Proof.
  intro H. destruct (filter p (rev l)) as [|x r] eqn:E; [reflexivity|].
  assert (Hx : In x (filter p (rev l))) by (rewrite E; left; reflexivity).
  apply filter_In in Hx as [Hx Px]. apply in_rev in Hx.
  assert (Hf : In x (filter p l)) by (apply filter_In; auto). rewrite H in Hf. destruct Hf.
Qed.
Lemma same_id root m n : distinct_ids root -> In m (all_nodes root) -> In n (all_nodes root) -> n_id m = n_id n -> m = n.
Proof.
  unfold distinct_ids. generalize (all_nodes root). induction l as [|x l IH]; intros D Hm Hn E; [destruct Hm|].
  cbn [map] in D. apply NoDup_cons_iff in D as [D1 D2]. destruct Hm as [->|Hm], Hn as [->|Hn]; auto.
  - exfalso. apply D1. rewrite E. apply in_map. exact Hn.
  - exfalso. apply D1. rewrite <- E. apply in_map. exact Hm.
Qed.
Lemma code_node_in root n : code_node root n -> In n (all_nodes root).
Proof.
  induction 1 as [|n c Hn IH Hc]; [destruct root; left; reflexivity|].
  eapply all_nodes_child; [exact IH|]. apply filter_In in Hc. apply Hc.
Qed.
Lemma collected_place root cm c : code root = true -> collect_comments root = Ok cm -> forall id p, In c (held cm id p) ->
  exists a n, In a (attachments root) /\ at_id a = id /\ at_place a = p /\ In c (at_comments a) /\
    comment_under root n (at_left a) (at_comment a) (at_right a) /\
    (at_node a, at_place a) = belongs n (at_left a) (at_comment a) (at_right a).
Proof.
  intros Hr HC id p H. apply (Permutation_in _ (collected_held root cm id p Hr HC)) in H.
  apply in_flat_map in H as (a & Ha & Hc). apply filter_In in Ha as [Ha E]. apply Bool.andb_true_iff in E as [E1 E2].
  destruct (proj1 (attachments_spec root a) Ha) as (n & H1 & H2).
  exists a, n. split; [exact Ha|]. split; [apply N.eqb_eq; exact E1|].
  split; [destruct (at_place a), p; try discriminate; reflexivity|]. auto.
Qed.
Lemma dangling_lone root cm m : distinct_ids root -> code root = true -> collect_comments root = Ok cm ->
  In m (all_nodes root) -> @dangle (dangling_in cm) (n_id m) = true -> lone_comments m.
Proof.
  intros D Hr HC Hm Hd.
  assert (Hh : exists c, In c (held cm (n_id m) Dangling)).
  { unfold dangle, dangling_in, hollow in Hd. unfold held. destruct (cm_get (n_id m) cm) as [bk|]; [|discriminate].
    destruct (dangling bk) as [|c l]; [discriminate|]. exists c. left. reflexivity. }
  destruct Hh as (c & Hc). destruct (collected_place root cm c Hr HC _ _ Hc) as (a & n & _ & Hid & Hp & _ & Hu & Hb).
  destruct Hu as (Hn & Hch & Hx). rewrite Hp in Hb. unfold belongs in Hb.
  destruct (prev_code (at_left a)) as [p|] eqn:E1.
  { exfalso. destruct (next_sibling _) as [s|]; [|discriminate]. destruct (separator s); [discriminate|].
    destruct (_ =? _)%N; [discriminate|]. destruct (next_code _); discriminate. }
  destruct (next_code (at_right a)) as [x|] eqn:E2; [discriminate|]. injection Hb as Hb.
  assert (EM : m = n).
  { apply (same_id root); [exact D|exact Hm|apply code_node_in; exact Hn|]. rewrite <- Hb. symmetry. exact Hid. }
  rewrite EM in *. clear EM. split.
  - exists (at_comment a). split; [|exact Hx]. rewrite Hch. apply in_or_app. right. left. reflexivity.
  - unfold code_kids. rewrite Hch, filter_app. cbn [filter].
    replace (code (at_comment a)) with false by (unfold code; rewrite Hx; reflexivity).
    rewrite (find_none_filter _ _ E2), app_nil_r. apply filter_rev, find_none_filter, E1.
Qed.
Lemma file_calm root cm : file_tree root -> distinct_ids root -> comments_in_braces root -> collect_comments root = Ok cm ->
  forall m, In m (all_nodes root) -> n_extra m = false -> calm_braces cm m.
Proof.
  intros S D B HC m Hm Hx Hd. pose proof (dangling_lone root cm m D (file_code _ S) HC Hm Hd) as L.
  split; [exact (B m Hm L)|]. destruct L as [(c & Hc & Hcx) HK]. split.
  - destruct (filter n_named (code_children m)) as [|y r] eqn:E; [reflexivity|].
    assert (Hy : In y (filter n_named (code_children m))) by (rewrite E; left; reflexivity).
    apply filter_In in Hy as [Hy Ny]. apply filter_In in Hy as [Hy Xy].
    apply negb_true_iff, orb_false_iff in Xy as [Xy _].
    assert (Hk : In y (code_kids m)) by (apply filter_In; unfold code, code_token; rewrite Ny, Xy; auto).
    rewrite HK in Hk. destruct Hk.
  - intro U. rewrite (proj1 (U c ltac:(destruct m as [i cs]; right; apply in_flat_map; exists c; split; [exact Hc|destruct c; left; reflexivity]))) in Hcx. discriminate.
Qed.

(* ------------------------------------------------------------ the texts of comments *)

Lemma solid_comment c : solid (comment_texts c) = filter (fun l => negb (is_nil (visible l))) (normal_lines (c_line c) (c_value c)).
Proof.
  unfold comment_texts. rewrite SignsProofs.comment_words. unfold shown, solid.
  induction (normal_lines (c_line c) (c_value c)) as [|x l IH]; [reflexivity|]. cbn [filter].
  destruct (ustr_eqb x [c_sp]) eqn:E; cbn [negb].
  - apply ustr_eqb_eq in E. subst x. exact IH.
  - cbn [filter]. rewrite IH. reflexivity.
Qed.
Lemma solid_flat {A} (f : A -> list ustr) l : solid (flat_map f l) = flat_map (fun x => solid (f x)) l.
Proof. induction l as [|x l IH]; [reflexivity|]. cbn [flat_map]. rewrite solid_app, IH. reflexivity. Qed.
Lemma solid_twice l : solid (solid l) = solid l.
Proof.
  induction l as [|w l IH]; [reflexivity|]. cbn [solid filter]. destruct (negb (is_nil (visible w))) eqn:E.
  - cbn [filter]. rewrite E. f_equal. exact IH.
  - exact IH.
Qed.
(* words without visible characters count as code *)
Lemma shuffled_blanks a b W : shuffled a b (solid W) -> exists a', shuffled a' b W /\ solid a' = solid a.
Proof.
  revert a b. induction W as [|w W IH]; intros a b H.
  - exists a. split; [exact H|reflexivity].
  - cbn [solid filter] in H. change (filter (fun w => negb (is_nil (visible w))) W) with (solid W) in H.
    destruct (is_nil (visible w)) eqn:E; cbn [negb] in H.
    + destruct (IH a b H) as (a' & S & E'). exists (w :: a'). split; [constructor; exact S|].
      cbn [solid filter]. rewrite E. cbn [negb]. exact E'.
    + inversion H as [|x a0 b0 c0 H0|x a0 b0 c0 H0]; subst; destruct (IH _ _ H0) as (a' & S & E').
      * exists (w :: a'). split; [constructor; exact S|]. cbn [solid filter]. rewrite E. cbn [negb].
        f_equal. exact E'.
      * exists a'. split; [constructor; exact S|exact E'].
Qed.

Theorem format_with_comments checked stack cfg root out :
  file_tree root -> distinct_ids root -> comments_in_braces root ->
  format_tree checked stack cfg root = Ok out ->
  exists ws vs cs, spaced ws out /\ shuffled vs (flat_map comment_lines cs) ws /\ kept (leaves root) vs /\
    (forall n, In n cs <-> In n (all_nodes root) /\ n_extra n = true).
Proof.
  intros S D B H. pose proof (file_code _ S) as Hr.
  apply format_ok in H as (cm & t & b & d & marks & E1 & E2 & E3 & E4 & -> & Hm).
  pose proof (quiet_pieces _ _ _ _ _ S (file_calm root cm S D B E1) E2) as K.
  destruct (run_mixed cm b t d marks E4) as (cs & I & F & Sh).
  assert (HN : exists ns, flat_map comment_lines ns = solid (flat_map comment_texts cs) /\
    (forall n, In n ns -> In n (all_nodes root) /\ n_extra n = true) /\ map n_id ns = map c_id cs).
  { rewrite solid_flat. clear I Sh. induction F as [|c cs (id & p & Hc) F IH].
    - exists []. split; [reflexivity|]. split; [intros n []|reflexivity].
    - destruct IH as (ns & J1 & J2 & J3).
      destruct (collected_place root cm c Hr E1 id p Hc) as (a & n & _ & _ & _ & Ha & (Hn & Hch & Hx) & _).
      unfold at_comments, comment_at in Ha.
      destruct (comment_of (at_left a) (at_comment a) (at_right a)) as [c'| |] eqn:EC; try (destruct Ha; fail).
      destruct Ha as [->|[]]. exists (at_comment a :: ns). split; [|split].
      + cbn [flat_map]. rewrite J1, solid_comment. f_equal. unfold comment_lines.
        rewrite (comment_of_line _ _ _ _ EC), (comment_of_value _ _ _ _ EC). reflexivity.
      + intros m [<-|Hin]; [|auto]. split; [|exact Hx]. eapply all_nodes_child; [apply code_node_in; exact Hn|].
        rewrite Hch. apply in_or_app. right. left. reflexivity.
      + cbn [map]. rewrite J3. f_equal. symmetry. exact (comment_of_id _ _ _ _ EC). }
  destruct HN as (ns & J1 & J2 & J3). rewrite <- J1 in Sh. apply shuffled_blanks in Sh as (vs & Sh & Ev).
  exists (words d), vs, ns. split; [apply pretty_print_words; eapply run_grouped; eauto|]. split; [exact Sh|].
  split; [eapply kept_same; [|exact K]|].
  - rewrite Ev, solid_twice. reflexivity.
  - intro n. split; [apply J2|]. intros [Hn Hx].
    destruct (every_extra_under root n (file_leaf_tokens _ S) Hr Hn Hx) as (p & l & r & Hu).
    destruct (comment_placed _ _ _ _ _ _ Hr E1 Hu) as (co & Hco & Hh). apply held_in_map in Hh.
    assert (Hp : is_printed marks co = true).
    { destruct (is_printed marks co) eqn:Hp; [reflexivity|]. exfalso.
      assert (Hin : In co (missing_comments cm marks)) by (apply filter_In; rewrite Hp; auto). rewrite Hm in Hin. destruct Hin. }
    unfold is_printed in Hp. apply existsb_exists in Hp as (c' & Hc' & E). apply N.eqb_eq in E.
    apply I in Hc'. apply (in_map c_id) in Hc'. rewrite <- J3, E, (comment_of_id _ _ _ _ Hco) in Hc'.
    apply in_map_iff in Hc' as (n' & E' & Hn'). destruct (J2 n' Hn') as [Hn2 _].
    rewrite <- (same_id root n' n D Hn2 Hn E'). exact Hn'.
Qed.

(* ------------------------------------------------------------ tokens in turn *)

Lemma in_turn_split a b s : in_turn (a ++ b) s -> exists p q, s = p ++ q /\ in_turn a p /\ in_turn b q.
Proof.
  revert s. induction a as [|x a IH]; intros s H.
  - exists [], s. split; [reflexivity|]. split; [constructor|exact H].
  - cbn [app] in H. inversion H as [|g y ts s' H' E1 E2]; subst. destruct (IH s' H') as (p & q & -> & P1 & P2).
    exists (g ++ x ++ p), q. split; [rewrite <- !app_assoc; reflexivity|]. split; [constructor; exact P1|exact P2].
Qed.
Lemma shuffled_in_turn a b c out : shuffled a b c -> spaced c out -> in_turn a out.
Proof.
  intro H. revert out. induction H as [|x a b c H IH|x a b c H IH]; intros out Hs; [constructor| |];
    inversion Hs as [|g y ts s Hg Hs']; subst; [constructor; auto|]. apply in_turn_before, in_turn_before, IH, Hs'.
Qed.
Lemma kept_turn ls ws : kept ls ws -> forall out, in_turn ws out -> in_turn (map n_text (filter verbatim ls)) out.
Proof.
  induction 1 as [|w ls ws Hw K IH|n ls ws Hn K IH|ns v ls ws Hv Hb0 K IH|v w ls ws Hvw K IH|ns vs ls ws Hn He K IH]; intros out Hs.
  - constructor.
  - inversion Hs as [|b x ts s Hs' E1 E2]; subst. apply in_turn_before, in_turn_before, IH, Hs'.
  - cbn [filter]. unfold verbatim at 1. rewrite Hn. cbn [is_nil negb]. rewrite Bool.andb_false_r. apply IH, Hs.
  - inversion Hs as [|b x ts s Hs' E1 E2]; subst. rewrite filter_app, map_app.
    apply in_turn_before, in_turn_app; [|apply IH, Hs']. apply in_turn_fewer, woven_in_turn, Hv.
  - apply IH. inversion Hs as [|b x ts s Hs' E1 E2]; subst. rewrite <- app_assoc. constructor.
    apply (Turn_text []). exact Hs'.
  - apply in_turn_split in Hs as (p & s & -> & _ & Hs). rewrite filter_app, map_app.
    apply in_turn_app; [|apply IH, Hs]. replace (filter verbatim ns) with (@nil node); [constructor|].
    clear - Hn. induction Hn as [|n ns Hn _ IH]; [reflexivity|]. cbn [filter]. unfold verbatim at 1. rewrite Hn. exact IH.
Qed.
Theorem format_verbatim_comments checked stack cfg root out :
  file_tree root -> distinct_ids root -> comments_in_braces root ->
  format_tree checked stack cfg root = Ok out ->
  in_turn (map n_text (filter verbatim (leaves root))) out.
Proof.
  intros S D B H. destruct (format_with_comments _ _ _ _ _ S D B H) as (ws & vs & cs & Hs & Sh & K & _).
  eapply kept_turn; [exact K|]. eapply shuffled_in_turn; eassumption.
Qed.

(* ------------------------------------------------------------ words and signs in turn *)

Lemma word_not_ws c : word_char c = true -> is_ws c = false.
Proof.
  unfold word_char. intro H. destruct (is_ws c) eqn:E; [|reflexivity]. exfalso. unfold is_ws in *.
  rewrite !orb_true_iff, !andb_true_iff in *. rewrite !N.leb_le, !N.eqb_eq in *. rewrite ?negb_true_iff in H.
  destruct H as [[[[H|H]|H]|H]|[_ H]]; try congruence; lia.
Qed.
Lemma split_words_in_turn s : in_turn (split_words s) s /\
  (starts_word s = true -> exists w ws p, split_words s = w :: ws /\ s = w ++ p /\ in_turn ws p).
Proof.
  induction s as [|c r [H1 H2]]; [split; [constructor|discriminate]|]. cbn [split_words starts_word].
  assert (HW : word_char c = true -> exists w ws p,
    (if word_char c && starts_word r then match split_words r with w :: ws => (c :: w) :: ws | [] => [[c]] end else [c] :: split_words r)
      = w :: ws /\ c :: r = w ++ p /\ in_turn ws p).
  { intro Hc. rewrite Hc. cbn [andb]. destruct (starts_word r) eqn:E.
    - destruct (H2 eq_refl) as (w & ws & p & -> & -> & H). exists (c :: w), ws, p. auto.
    - exists [c], (split_words r), r. auto. }
  split.
  - destruct (is_ws c); [exact (in_turn_before [c] _ _ H1)|]. destruct (word_char c) eqn:Hc.
    + destruct (HW eq_refl) as (w & ws & p & -> & -> & H). exact (Turn_text [] w ws p H).
    + exact (Turn_text [] [c] _ r H1).
  - intro Hc. rewrite (word_not_ws c Hc). apply HW, Hc.
Qed.
Lemma in_turn_lower ts s : in_turn ts s -> in_turn (map to_lowercase ts) (to_lowercase s).
Proof. induction 1 as [s|b x ts s H IH]; [constructor|]. cbn [map]. rewrite !lowercase_app. constructor. exact IH. Qed.
Lemma bits_in_turn ws out : in_turn ws out -> in_turn (flat_map bits ws) (to_lowercase out).
Proof.
  induction 1 as [s|b w ts s H IH]; [constructor|]. cbn [flat_map]. rewrite !lowercase_app. apply in_turn_before, in_turn_app; [|exact IH].
  apply in_turn_lower, split_words_in_turn.
Qed.
Theorem format_signs_comments checked stack cfg root out :
  file_tree root -> distinct_ids root -> comments_in_braces root ->
  format_tree checked stack cfg root = Ok out ->
  in_turn (bits_of (leaves root)) (to_lowercase out).
Proof.
  intros S D B H. destruct (format_with_comments _ _ _ _ _ S D B H) as (ws & vs & cs & Hs & Sh & K & _).
  rewrite <- (kept_bits _ _ K). apply bits_in_turn. eapply shuffled_in_turn; eassumption.
Qed.
