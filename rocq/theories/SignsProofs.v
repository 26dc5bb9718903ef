(* SignsProofs.v: separators with their comments, the operator table, and the
   order in which comments are printed. *)
From Coq Require Import Lia.
From Verif Require Import Base Doc DocBuilder SpecDoc Cst Comments SpecComments SpecSigns Term New FormatProofs.

Lemma line_docs_words ls : flat_map words (line_docs ls) = filter (fun l => negb (ustr_eqb l [c_sp])) ls.
Proof.
  induction ls as [|l ls IH]; [reflexivity|]. destruct ls as [|l' ls].
  - cbn. destruct (ustr_eqb l [c_sp]); reflexivity.
  - rewrite line_docs_cons by discriminate. cbn [flat_map filter]. cbn [flat_map filter] in IH. rewrite IH. cbn. destruct (ustr_eqb l [c_sp]); reflexivity.
Qed.
Lemma comment_words c : words (comment_doc c) = shown c.
Proof.
  unfold comment_doc, concat. cbn [words]. rewrite comment_docs_lines, flat_map_app, line_docs_words.
  unfold shown. destruct (c_line c); apply app_nil_r.
Qed.
Lemma post_words cs : flat_map words (flat_map post_comment_docs cs) = flat_map shown cs.
Proof.
  induction cs as [|c cs IH]; [reflexivity|]. cbn [flat_map]. rewrite flat_map_app, IH. f_equal.
  unfold post_comment_docs. rewrite !flat_map_app. cbn [flat_map]. rewrite comment_words, app_nil_r.
  destruct (c_leading c), (c_above c), (c_trailing c && negb (c_bracket c)); cbn; apply app_nil_r.
Qed.
Lemma pre_words cs : forall first, flat_map words (pre_comments_docs first cs) = flat_map shown cs.
Proof.
  induction cs as [|c cs IH]; intro first; [reflexivity|]. cbn [pre_comments_docs flat_map]. rewrite flat_map_app, IH. f_equal.
  unfold pre_comment_docs. rewrite !flat_map_app. cbn [flat_map]. rewrite comment_words, app_nil_r.
  destruct (c_leading c), (c_above c), (c_below c), (c_trailing c), first, (is_nil cs); cbn; apply app_nil_r.
Qed.

(* No groups in comment documents. *)
Fixpoint ungrouped (d : doc) : bool :=
  match d with
  | Flat x | Indent _ x | Dedent _ x => ungrouped x
  | Concat l => forallb ungrouped l
  | Choice _ _ => false
  | _ => true
  end.
Lemma ungrouped_grouped d : ungrouped d = true -> grouped d.
Proof.
  induction d using doc_nested_ind; cbn; auto; try discriminate.
  intro E. match goal with H : Forall _ l |- _ => revert E; induction H as [|x l Hx _ IH]; [auto|] end.
  cbn. intro E. apply andb_prop in E as [E1 E2]. split; [exact (Hx E1)|exact (IH E2)].
Qed.
Lemma forallb_flat {A B} (f : B -> bool) (g : A -> list B) l : (forall x, forallb f (g x) = true) -> forallb f (flat_map g l) = true.
Proof. intro H. induction l as [|x l IH]; [reflexivity|]. cbn. rewrite forallb_app, H, IH. reflexivity. Qed.
Lemma line_docs_ungrouped ls : forallb ungrouped (line_docs ls) = true.
Proof.
  induction ls as [|l ls IH]; [reflexivity|]. destruct ls as [|l' ls]; [reflexivity|].
  rewrite line_docs_cons by discriminate. exact IH.
Qed.
Lemma comment_ungrouped c : ungrouped (comment_doc c) = true.
Proof.
  cbn. rewrite comment_docs_lines, forallb_app, line_docs_ungrouped. destruct (c_line c); reflexivity.
Qed.
Lemma post_ungrouped c : forallb ungrouped (post_comment_docs c) = true.
Proof.
  unfold post_comment_docs. rewrite !forallb_app. cbn [forallb]. rewrite comment_ungrouped.
  destruct (c_leading c), (c_above c), (c_trailing c && negb (c_bracket c)); reflexivity.
Qed.
Lemma pre_ungrouped cs : forall first, forallb ungrouped (pre_comments_docs first cs) = true.
Proof.
  induction cs as [|c cs IH]; intro first; [reflexivity|]. cbn [pre_comments_docs]. rewrite forallb_app, IH, andb_true_r.
  unfold pre_comment_docs. rewrite !forallb_app. cbn [forallb]. rewrite comment_ungrouped.
  destruct (c_leading c), (c_above c), (c_below c), (c_trailing c), first, (is_nil cs); reflexivity.
Qed.

Theorem separator_printed (comma : bool) (bk : bucket) (i w : N) :
  spaced (flat_map shown (filter (fun c => negb (c_line c)) (pre bk))
          ++ [U (if comma then "," else ";")]
          ++ flat_map shown (filter c_line (pre bk)) ++ flat_map shown (post bk))
         (pretty_print (Indent i (concat (punct_docs comma bk))) w).
Proof.
  assert (E : words (Indent i (concat (punct_docs comma bk))) =
    flat_map shown (filter (fun c => negb (c_line c)) (pre bk))
          ++ [U (if comma then "," else ";")]
          ++ flat_map shown (filter c_line (pre bk)) ++ flat_map shown (post bk)).
  { cbn [words]. unfold concat, punct_docs. cbn [words]. rewrite !flat_map_app, !post_words.
    destruct comma; reflexivity. }
  rewrite <- E. apply pretty_print_words, ungrouped_grouped. cbn. unfold punct_docs.
  rewrite !forallb_app, !(forallb_flat _ _ _ post_ungrouped). reflexivity.
Qed.
Theorem pre_in_order bk i w :
  spaced (flat_map shown (pre bk)) (pretty_print (Indent i (Concat (handle_pre_comments bk))) w).
Proof.
  unfold handle_pre_comments. destruct (pre bk) as [|c cs] eqn:E; [constructor; vm_compute; constructor|]. rewrite <- E.
  rewrite <- (pre_words (pre bk) true), <- (app_nil_r (flat_map words _)).
  apply (pretty_print_words (Indent i (Concat [concat (pre_comments_docs true (pre bk))]))).
  apply ungrouped_grouped. cbn. rewrite pre_ungrouped. reflexivity.
Qed.
Theorem post_in_order bk i w :
  spaced (flat_map shown (post bk)) (pretty_print (Indent i (Concat (handle_post_comments bk))) w).
Proof.
  unfold handle_post_comments. destruct (post bk) as [|c cs] eqn:E; [constructor; vm_compute; constructor|]. rewrite <- E.
  rewrite <- (post_words (post bk)), <- (app_nil_r (flat_map words _)).
  apply (pretty_print_words (Indent i (Concat [concat (flat_map post_comment_docs (post bk))]))).
  apply ungrouped_grouped. cbn. rewrite (forallb_flat _ _ _ post_ungrouped). reflexivity.
Qed.

Lemma separator_found l p : punct_from l = Some p <->
  exists s left x r, l_right l = left ++ x :: r /\ Forall (fun y => n_extra y = true) left /\ n_extra x = false /\
    n_kind x = s /\ ((s = ","%string /\ p = Punct true (n_id x)) \/ (s = ";"%string /\ p = Punct false (n_id x))).
Proof.
  unfold punct_from. induction (l_right l) as [|y r IH]; cbn [peek].
  - split; [discriminate|]. intros (s & left & x & r & E & _). destruct left; discriminate.
  - destruct (n_extra y) eqn:Ey.
    + rewrite IH. split.
      * intros (s & left & x & r' & -> & Hl & H). exists s, (y :: left), x, r'. split; [reflexivity|]. split; [constructor; auto|exact H].
      * intros (s & left & x & r' & E & Hl & Hx & H). destruct left as [|z left]; cbn in E; injection E as -> E; [congruence|].
        inversion Hl; subst. exists s, left, x, r'. auto.
    + unfold has_kind. split.
      * destruct (String.eqb_spec (n_kind y) ",") as [E1|E1].
        -- intro H. injection H as <-. exists ","%string, [], y, r. split; [reflexivity|]. split; [constructor|]. auto 6.
        -- destruct (String.eqb_spec (n_kind y) ";") as [E2|E2]; [|discriminate].
           intro H. injection H as <-. exists ";"%string, [], y, r. split; [reflexivity|]. split; [constructor|]. auto 6.
      * intros (s & left & x & r' & E & Hl & Hx & Hk & H). destruct left as [|z left]; cbn in E; injection E as -> E.
        -- rewrite Hk. destruct H as [[-> ->]|[-> ->]]; reflexivity.
        -- inversion Hl; congruence.
Qed.

Lemma kind_in_iff k ks : kind_in k ks = true <-> In k ks.
Proof.
  unfold kind_in. rewrite existsb_exists. split.
  - intros (x & Hx & E). apply String.eqb_eq in E. subst. exact Hx.
  - intro H. exists k. split; [exact H|apply String.eqb_refl].
Qed.
Theorem precedence_table op p : get_precedence op = Ok p <-> In (op, p) operators.
Proof.
  split.
  - unfold get_precedence. intro H.
    repeat match type of H with
    | (if kind_in ?k ?ks then _ else _) = _ =>
        let E := fresh "E" in destruct (kind_in k ks) eqn:E;
        [apply kind_in_iff in E; injection H as <-; cbn in E;
         repeat (destruct E as [<-|E]; [cbn; tauto|]); destruct E
        |clear E]
    end. discriminate.
  - cbn. intro H. repeat (destruct H as [H|H]; [injection H as <- <-; reflexivity|]). destruct H.
Qed.
Theorem precedence_unknown op : (forall p, ~ In (op, p) operators) -> get_precedence op = Panic "Unknown operator".
Proof.
  intro H. destruct (get_precedence op) as [p|w|] eqn:E.
  - exfalso. apply (H p), precedence_table, E.
  - unfold get_precedence in E. repeat match type of E with (if ?b then _ else _) = _ => destruct b; [discriminate|] end. symmetry. exact E.
  - unfold get_precedence in E. repeat match type of E with (if ?b then _ else _) = _ => destruct b; [discriminate|] end. discriminate.
Qed.

Theorem binary_supported cm checked k l t :
  new cm checked k BinaryExpression l = Ok t ->
  exists opn p, c_by_n "operator" l = Ok opn /\ In (kind opn, p) operators.
Proof.
  destruct k as [|k]; [discriminate|]. cbn [new new_step]. unfold new_BinaryExpression.
  destruct (assert_check _ l); try discriminate. cbn [rbind].
  destruct (by_n _ _ _ l); try discriminate. cbn [rbind].
  destruct (c_by_n "operator" l) as [opn| |]; try discriminate. cbn [rbind].
  destruct (by_n _ _ _ l); try discriminate. cbn [rbind].
  destruct (get_precedence (kind opn)) as [p| |] eqn:E; try discriminate. intros _.
  exists opn, p. split; [reflexivity|]. apply precedence_table. exact E.
Qed.

Fixpoint nodupb (l : list string) : bool :=
  match l with [] => true | x :: r => negb (existsb (String.eqb x) r) && nodupb r end.
Lemma NoDup_nodupb l : nodupb l = true -> NoDup l.
Proof.
  induction l as [|x l IH]; intro H; [constructor|]. cbn in H. apply andb_prop in H as [H1 H2]. constructor; [|auto].
  intro Hi. apply negb_true_iff in H1. assert (existsb (String.eqb x) l = true); [|congruence].
  apply existsb_exists. exists x. split; [exact Hi|apply String.eqb_refl].
Qed.
