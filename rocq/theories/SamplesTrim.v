(* SamplesTrim.v: checks of the hypotheses of SpecTrim.v on concrete trees. *)
From Verif Require Import Base Cst SpecTree Comments New SpecTokens SpecReread SpecOrder SpecComments SpecTrim Trees Samples SamplesTokens SamplesReread.
From Verif Require ArrangeFormat TokensComments.
Local Open Scope string_scope.
Local Open Scope list_scope.

Definition has_childb (n : node) (k : string) : bool := existsb (fun c => has_kind k c && n_named c) (children n).
Definition has_itemb (n : node) (not : string) : bool :=
  existsb (fun c => n_named c && negb (n_extra c) && negb (has_kind not c)) (children n).
Lemma has_childb_ok n k : has_childb n k = true -> has_child n k.
Proof.
  intro H. apply existsb_exists in H as (c & Hc & H). apply andb_prop in H as [H1 H2]. apply String.eqb_eq in H1. exists c. auto.
Qed.
Lemma has_itemb_ok n k : has_itemb n k = true -> has_item n k.
Proof.
  intro H. apply existsb_exists in H as (c & Hc & H). apply andb_prop in H as [H H3]. apply andb_prop in H as [H1 H2].
  apply Bool.negb_true_iff in H2, H3. exists c. repeat (split; [assumption|]). apply String.eqb_neq. exact H3.
Qed.
Definition tidy_textsb (root : node) : bool :=
  forallb (fun n => implb (told_alone n) (tidy false (n_text n)) &&
                    forallb (fun c => implb (told_as n c) (tidy false (n_text c))) (children n)) (all_nodes root).
Lemma tidy_textsb_ok root : tidy_textsb root = true -> tidy_texts root.
Proof.
  intros H n Hn. unfold tidy_textsb in H. rewrite forallb_forall in H. apply H in Hn. apply andb_prop in Hn as [H1 H2]. split.
  - intro T. rewrite T in H1. exact H1.
  - intros c Hc T. rewrite forallb_forall in H2. apply H2 in Hc. rewrite T in Hc. exact Hc.
Qed.
Definition full_clausesb (root : node) : bool :=
  forallb (fun n => implb (has_kind "for_statement" n) (existsb (has_field "update") (children n)) &&
                    implb (has_kind "using_lookup_clause" n) (has_childb n "using_lookup_bind_clause")) (all_nodes root).
Lemma full_clausesb_ok root : full_clausesb root = true -> full_clauses root.
Proof.
  intros H n Hn. unfold full_clausesb in H. rewrite forallb_forall in H. apply H in Hn. apply andb_prop in Hn as [H1 H2]. unfold has_kind in *. split; intro K.
  - rewrite K, String.eqb_refl in H1. apply existsb_exists in H1 as (c & Hc & F). exists c. split; [exact Hc|].
    unfold has_field in F. destruct (n_field c); [|discriminate]. apply String.eqb_eq in F. congruence.
  - rewrite K, String.eqb_refl in H2. apply has_childb_ok, H2.
Qed.
Definition filledb (root : node) : bool :=
  forallb (fun n => implb (kind_in (n_kind n) listed_kinds) (has_itemb n "") &&
                    implb (has_kind "group_by_clause" n) (has_itemb n "having_clause") &&
                    implb (has_kind "using_lookup_bind_clause" n) (has_childb n "using_lookup_bind_expression") &&
                    implb (has_kind "variable_declarator" n && existsb (has_field "value") (children n)) (has_childb n "assignment_operator") &&
                    implb (has_kind "annotation" n) (forallb (fun c => implb (has_field "arguments" c) (has_kind "annotation_argument_list" c)) (children n)))
    (all_nodes root).
Lemma filledb_ok root : filledb root = true -> filled root.
Proof.
  intro H. unfold filledb in H. rewrite forallb_forall in H.
  assert (F : forall c f, n_field c = Some f -> has_field f c = true) by (intros c f E; unfold has_field; rewrite E; apply String.eqb_refl).
  split; intros n; [|intros Hn K|intros Hn K|intros c Hn K Hc E|intros c Hn K Hc E].
  - intros Hn K. apply H in Hn. apply andb_prop in Hn as [Hn _]. apply andb_prop in Hn as [Hn _]. apply andb_prop in Hn as [Hn _]. apply andb_prop in Hn as [Hn _].
    rewrite K in Hn. apply has_itemb_ok, Hn.
  - apply H in Hn. apply andb_prop in Hn as [Hn _]. apply andb_prop in Hn as [Hn _]. apply andb_prop in Hn as [Hn _]. apply andb_prop in Hn as [_ Hn].
    unfold has_kind in Hn. rewrite K, String.eqb_refl in Hn. apply has_itemb_ok, Hn.
  - apply H in Hn. apply andb_prop in Hn as [Hn _]. apply andb_prop in Hn as [Hn _]. apply andb_prop in Hn as [_ Hn].
    unfold has_kind in Hn. rewrite K, String.eqb_refl in Hn. apply has_childb_ok, Hn.
  - apply H in Hn. apply andb_prop in Hn as [Hn _]. apply andb_prop in Hn as [_ Hn]. unfold has_kind in Hn. rewrite K, String.eqb_refl in Hn.
    apply has_childb_ok. assert (G : existsb (has_field "value") (children n) = true) by (apply existsb_exists; exists c; auto).
    rewrite G in Hn. exact Hn.
  - apply H in Hn. apply andb_prop in Hn as [_ Hn]. unfold has_kind at 1 in Hn. rewrite K, String.eqb_refl in Hn. cbn [implb] in Hn.
    rewrite forallb_forall in Hn. apply Hn in Hc. rewrite (F _ _ E) in Hc. apply String.eqb_eq. exact Hc.
Qed.

(* ------------------------------------------------------------ comments *)

Definition same_comment (l : list node) (c : node) : bool :=
  match l with [x] => (n_id x =? n_id c)%N | _ => false end.
Definition quietb (root : node) : bool :=
  forallb (fun a =>
    match at_place a with
    | Leading => negb (separator (at_node a)) &&
        implb (followed a) (same_comment (comments_at root (n_id (at_node a)) Leading) (at_comment a))
    | Trailing => kind_in (n_kind (at_node a)) member_kinds && match n_field (at_node a) with None => true | Some _ => false end && negb (followed a)
    | Dangling => kind_in (n_kind (at_node a)) body_kinds && in_body (at_node a)
    end) (attachments root).
Lemma quietb_ok root : distinct_ids root -> quietb root = true -> quiet_comments root.
Proof.
  intros D H. unfold quietb in H. rewrite forallb_forall in H.
  assert (AI : forall a, In a (attachments root) -> In (at_comment a) (all_nodes root)) by (intros a Ha; apply (ArrangeFormat.attached_in root a Ha)).
  split; intros a Ha P; specialize (H a Ha); rewrite P in H; apply andb_prop in H as [H1 H2].
  - apply Bool.negb_true_iff in H1. split; [exact H1|]. intro F. rewrite F in H2. cbn [implb] in H2. unfold same_comment in H2.
    destruct (comments_at root (n_id (at_node a)) Leading) as [|x [|]] eqn:E; try discriminate. f_equal.
    apply N.eqb_eq in H2. apply (TokensComments.same_id root x (at_comment a) D); [|apply AI, Ha|exact H2].
    assert (Hx : In x (comments_at root (n_id (at_node a)) Leading)) by (rewrite E; left; reflexivity).
    unfold comments_at in Hx. apply in_map_iff in Hx as (b & <- & Hb). apply filter_In in Hb as [Hb _]. apply AI, Hb.
  - apply andb_prop in H1 as [H1 H3]. apply Bool.negb_true_iff in H2. destruct (n_field (at_node a)); [discriminate|]. auto.
  - auto.
Qed.
Definition full_linesb (root : node) : bool :=
  forallb (fun c => implb (n_extra c)
    (if has_kind "line_comment" c then negb (existsb (N.eqb c_nl) (n_text c)) && negb (is_nil (trim (n_text c)))
     else starts_with (U "/**") (n_text c) || forallb (fun l => negb (is_nil (trim l))) (split_on c_nl (n_text c)))) (all_nodes root).
Lemma full_linesb_ok root : full_linesb root = true -> full_lines root.
Proof.
  intros H c Hc X. unfold full_linesb in H. rewrite forallb_forall in H. specialize (H c Hc). rewrite X in H. cbn [implb] in H.
  assert (NE : forall s : ustr, negb (is_nil s) = true -> s <> []) by (intros [|]; [discriminate|intros _ ?; discriminate]).
  destruct (has_kind "line_comment" c).
  - apply andb_prop in H as [H1 H2]. apply Bool.negb_true_iff in H1. split; [|apply NE, H2]. intro I'.
    enough (existsb (N.eqb c_nl) (n_text c) = true) by congruence. apply existsb_exists. exists c_nl. split; [exact I'|apply N.eqb_refl].
  - apply Bool.orb_true_iff in H as [H|H]; [left; exact H|right]. rewrite forallb_forall in H. intros l Hl. apply NE, H, Hl.
Qed.
Definition trimmed_textsb (root : node) : bool :=
  forallb (fun n => (has_kind "line_comment" n && match n_field n with None => true | _ => false end) || visible_endsb (n_text n))
    (flat_map all_nodes (children root)).
Lemma trimmed_textsb_ok root : trimmed_textsb root = true -> trimmed_texts root.
Proof.
  intros H n Hn O. unfold trimmed_textsb in H. rewrite forallb_forall in H. specialize (H n Hn). apply Bool.orb_true_iff in H as [H|H].
  - exfalso. apply andb_prop in H as [H1 H2]. apply String.eqb_eq in H1. destruct O as [O|O]; [exact (O H1)|]. destruct (n_field n); [discriminate|congruence].
  - unfold visible_endsb in H. destruct (n_text n) as [|c m]; [discriminate|]. apply andb_prop in H as [H1 H2]. apply Bool.negb_true_iff in H1, H2.
    exists c, m. auto.
Qed.

(* Comments in front of declarations, types, conditions and arguments, behind statements,
   alone in braces, with blanks at the end of a line, and over several lines. *)
Definition sample_quiet : node :=
  tree (br "parser_output"
    [bcom ("/**" ++ String "010" "  * A demo." ++ String "010" "" ++ String "010" "  */"); Row 1;
     br "class_declaration"
       [an "class"; bcom "/* the */"; tokf "name" "identifier" "Demo";
        brf "body" "class_body"
          [an "{"; Row 1; lcom "// runs  "; Row 1; bcom ("/* and" ++ String "010" "  stops */"); Row 1;
           br "method_declaration"
             [type_ "Integer"; tokf "name" "identifier" "run";
              brf "parameters" "formal_parameters" [an "("; an ")"];
              block_
                [Row 1;
                 br "if_statement"
                   [an "if";
                    paren_ "condition" (br "binary_expression"
                      [bcom "/* not */"; tokf "left" "identifier" "i"; anf "operator" "!="; tokf "right" "int" "1"]);
                    brf "consequence" "block" [an "{"; Row 1; lcom "// nothing"; Row 1; lcom "// at all  "; Row 1; an "}"]];
                 Row 2;
                 inv [id_ "aaaaaaaaaaaaaaaaaaaaaaa"; an ","; Row 1; lcom "// x"; Row 1; tok "int" "12"]; lcom "// called"; Row 1;
                 br "return_statement" [an "return"; lcom "// soon "; Row 1; tok "null_literal" "NULL"; an ";"]; Row 1;
                 lcom "// end"; Row 1]]; Row 1; an "}"]]; Row 1;
     lcom "// bye"]).
(* A block comment with an empty line; a comment behind an argument; a constructor with
   nothing but a call of super and a comment. *)
Definition sample_blank_line : node :=
  tree (cls [meth [Row 1; bcom ("/* a" ++ String "010" "" ++ String "010" " b */"); Row 1; inv []]]).
Definition sample_behind : node := tree (cls [meth [inv [id_ "a"; lcom "// c"; Row 1; an ","; id_ "b"]]]).
Definition sample_super : node :=
  tree (cls [br "constructor_declaration"
    [tokf "name" "identifier" "Foo"; brf "parameters" "formal_parameters" [an "("; an ")"];
     brf "body" "constructor_body"
       [an "{"; Row 1;
        br "explicit_constructor_invocation" [tokf "constructor" "super" "super"; brf "arguments" "argument_list" [an "("; an ")"]; an ";"];
        lcom "// c"; Row 1; an "}"]]]).

Definition sparse_textsb (root : node) : bool :=
  forallb (fun n => implb (told_alone n) (sparse (n_text n)) &&
                    forallb (fun c => implb (told_as n c) (sparse (n_text c))) (children n)) (all_nodes root).
Lemma sparse_textsb_ok root : sparse_textsb root = true -> sparse_texts root.
Proof.
  intros H n Hn. unfold sparse_textsb in H. rewrite forallb_forall in H. apply H in Hn. apply andb_prop in Hn as [H1 H2]. split.
  - intro T. rewrite T in H1. exact H1.
  - intros c Hc T. rewrite forallb_forall in H2. apply H2 in Hc. rewrite T in Hc. exact Hc.
Qed.
(* Many empty lines between members, statements and comments. *)
Definition klass (name : string) (body : list sketch) : sketch :=
  br "class_declaration" [an "class"; tokf "name" "identifier" name; brf "body" "class_body" ([an "{"; Row 1] ++ body ++ [Row 1; an "}"])].
Definition sample_gaps : node :=
  tree (br "parser_output"
    [lcom "// head"; Row 5; bcom "/* more */"; Row 4;
     klass "A" [Row 4; meth [Row 6; inv []; Row 4; lcom "// behind"; Row 5; inv []; Row 3]; Row 9;
          lcom "// second"; Row 3; bcom "/* block */"; Row 7; meth [Row 3; lcom "// alone"; Row 4]; Row 5]; Row 6;
     klass "B" []]).
(* A comment with two empty lines in front of a class. *)
Definition sample_hollow : node :=
  tree (br "parser_output"
    [bcom ("/* a" ++ String "010" "" ++ String "010" "" ++ String "010" " b */"); Row 1; klass "A" []]).

Definition single_textsb (root : node) : bool :=
  forallb (fun n => implb (told_alone n) (singles false (n_text n)) &&
                    forallb (fun c => implb (told_as n c) (singles false (n_text c))) (children n)) (all_nodes root).
Lemma single_textsb_ok root : single_textsb root = true -> single_texts root.
Proof.
  intros H n Hn. unfold single_textsb in H. rewrite forallb_forall in H. apply H in Hn. apply andb_prop in Hn as [H1 H2]. split.
  - intro T. rewrite T in H1. exact H1.
  - intros c Hc T. rewrite forallb_forall in H2. apply H2 in Hc. rewrite T in Hc. exact Hc.
Qed.
Definition single_commentsb (root : node) : bool :=
  forallb (fun c => implb (n_extra c)
    (let ls := normal_lines (has_kind "line_comment" c) (trim_end (n_text c)) in
     forallb (singles false) ls && negb (starts_with [c_sp] (hd [] ls)))) (all_nodes root).
Lemma single_commentsb_ok root : single_commentsb root = true -> single_comments root.
Proof.
  intros H c Hc X. unfold single_commentsb in H. rewrite forallb_forall in H. specialize (H c Hc). rewrite X in H. cbn [implb] in H. cbv zeta in *.
  apply andb_prop in H as [H1 H2]. apply Bool.negb_true_iff in H2. split; [|exact H2]. apply Forall_forall. rewrite forallb_forall in H1. exact H1.
Qed.
Definition unannouncedb (root : node) : bool :=
  forallb (fun a => match at_place a with Leading => negb (announced (at_node a)) | _ => true end) (attachments root).
Lemma unannouncedb_ok root : unannouncedb root = true -> unannounced root.
Proof.
  intros H a Ha P. unfold unannouncedb in H. rewrite forallb_forall in H. specialize (H a Ha). rewrite P in H. apply Bool.negb_true_iff, H.
Qed.
(* A comment between a block and a [catch]. *)
Definition sample_catch : node :=
  tree (cls [meth [br "try_statement"
    [an "try"; block_ [inv []]; bcom "/* c */";
     br "catch_clause"
       [an "catch"; an "("; br "formal_parameter" [type_ "Exception"; tokf "name" "identifier" "e"]; an ")"; block_ []]]]]).
