(* PropertiesTokens.v: formatting changes nothing but white space and the case of
   the words of the language.  Statements only; proofs are in TokensProofs*.v and
   TokensSorts*.v, the vocabulary (the grammar among it) in SpecTokens.v. *)
From Verif Require Import Base SpecDoc Cst Formatter SpecTree SpecTokens TokensProofs5 TokensComments Trees Samples SamplesTokens.
Local Open Scope string_scope.
Local Open Scope list_scope.

Definition narrow : config := {| max_width := 30; cfg_indent_size := 2 |}.
Definition printed (root : node) : list string :=
  match format_tree true 100 narrow root with Ok out => map show (split_on c_nl out) | _ => [] end.

(* ------------------------------------------------------------------ C35 *)
(* The tokens of a source without comments are printed in their order, none is
   dropped, added or printed twice: the output is a list [ws] of texts with only
   spaces and line feeds between them, and [ws] are the tokens of the source,
   verbatim but for the case of words.
   Missing for the full claim: [source_tree] leaves out the constructs refuted
   below. *)
Theorem C35_tokens_partial :
  forall (checked : bool) (stack : nat) (cfg : config) (root : node) (out : ustr),
    source_tree root -> format_tree checked stack cfg root = Ok out ->
    exists ws, spaced ws out /\ kept (leaves root) ws.
Proof. exact format_kept. Qed.
Print Assumptions C35_tokens_partial.

(* Hence the output is the source, white space and the case of letters aside,
   if the source has neither comments nor parentheses that afmt drops. *)
Theorem C35_same_characters_partial :
  forall (checked : bool) (stack : nat) (cfg : config) (root : node) (out : ustr),
    file_tree root -> untouched root -> format_tree checked stack cfg root = Ok out ->
    folded out = folded (n_text root).
Proof. exact format_folded. Qed.
Print Assumptions C35_same_characters_partial.

(* And names, numbers, strings and all other tokens that are not words of the
   language stand in the output verbatim, one behind the other. *)
Theorem C35_verbatim_partial :
  forall (checked : bool) (stack : nat) (cfg : config) (root : node) (out : ustr),
    source_tree root -> format_tree checked stack cfg root = Ok out ->
    in_turn (map n_text (filter verbatim (leaves root))) out.
Proof. exact format_verbatim. Qed.
Print Assumptions C35_verbatim_partial.

(* Whatever the width and the indent, the outputs agree up to white space (the
   words of the language included). *)
Theorem C35_layout_independent :
  forall (checked : bool) (stack : nat) (cfg cfg' : config) (root : node) (out out' : ustr),
    source_tree root -> format_tree checked stack cfg root = Ok out -> format_tree checked stack cfg' root = Ok out' ->
    folded out = folded out'.
Proof.
  intros. rewrite (format_folded_leaves _ _ _ _ _ H H0), (format_folded_leaves _ _ _ _ _ H H1). reflexivity.
Qed.
Print Assumptions C35_layout_independent.

(* The hypotheses hold for a class with annotations, a map, a method with a for
   loop, if and else, a chain with safe navigation, DML, try and switch. *)
Example C35_sample : source_tree sample_tokens /\ printed sample_tokens <> [].
Proof. split; [apply source_treeb_ok; vm_compute; reflexivity|vm_compute; discriminate]. Qed.
Example C35_sample_verbatim :
  map show (firstn 10 (map n_text (filter verbatim (leaves sample_tokens))))
  = ["IsTest"; "Demo"; "Base"; "A"; "B"; "Map"; "Id"; "String"; "names"; "="].
Proof. vm_compute. reflexivity. Qed.
(* They also hold for a query and a search with most of their clauses. *)
Example C35_sample_queries : source_tree sample_queries.
Proof. apply source_treeb_ok. vm_compute. reflexivity. Qed.
Example C35_sample_queries_printed : printed sample_queries
  = ["public class Foo {"; "  void bar() {"; "    A x = ["; "      SELECT"; "        Id,"; "        Owner.Name,"; "        Count(Id) n,";
     "        (SELECT Id FROM Notes)"; "      FROM Account a"; "      WHERE"; "        x = 1"; "        AND (y IN :ys";
     "        OR (z < LAST_N_DAYS:3"; "        AND w != 'q'))"; "      WITH USER_MODE"; "      GROUP BY x"; "      HAVING Count(Id) > 2";
     "      ORDER BY x desc NULLS last"; "      LIMIT :n"; "      OFFSET 5"; "      ALL ROWS"; "      FOR view"; "    ];"; "    y = [";
     "      FIND :q"; "      IN Name FIELDS"; "      RETURNING"; "        Account("; "          Id,"; "          Name";
     "          WHERE x = 1"; "          LIMIT 3),"; "        Contact"; "      WITH SNIPPET(TARGET_LENGTH = 120)";
     "      WITH DATA CATEGORY"; "        G AT (a, b)"; "        AND H ABOVE c"; "      LIMIT 20"; "    ];"; "  }"; "}"; ""].
Proof. vm_compute. reflexivity. Qed.

(* With comments in the source: the output consists of texts, with only spaces and
   line feeds between them, which are the code tokens as above, in their order, and
   the lines of comments [cs].  Every comment of the source is among [cs], and no
   other; a comment's lines stand one behind the other, white space at their ends
   and before them aside.
   Missing for the full claim: besides the constructs refuted below, comments alone
   between parentheses; and a comment can be printed twice (see C05). *)
Theorem C35_comments_partial :
  forall (checked : bool) (stack : nat) (cfg : config) (root : node) (out : ustr),
    file_tree root -> distinct_ids root -> comments_in_braces root ->
    format_tree checked stack cfg root = Ok out ->
    exists ws vs cs,
      spaced ws out /\ shuffled vs (flat_map comment_lines cs) ws /\ kept (leaves root) vs /\
      (forall n, In n cs <-> In n (all_nodes root) /\ n_extra n = true).
Proof. exact format_with_comments. Qed.
Print Assumptions C35_comments_partial.

(* Names, numbers, strings ... stand in the output verbatim and in their order,
   whatever the comments. *)
Theorem C35_verbatim_comments_partial :
  forall (checked : bool) (stack : nat) (cfg : config) (root : node) (out : ustr),
    file_tree root -> distinct_ids root -> comments_in_braces root ->
    format_tree checked stack cfg root = Ok out ->
    in_turn (map n_text (filter verbatim (leaves root))) out.
Proof. exact format_verbatim_comments. Qed.
Print Assumptions C35_verbatim_comments_partial.

Example C35_sample_comments :
  file_tree sample_comments /\ distinct_ids sample_comments /\ comments_in_braces sample_comments.
Proof.
  split; [apply file_treeb_ok; vm_compute; reflexivity|].
  split; [apply distinct_ids_sound; vm_compute; reflexivity|apply comments_in_bracesb_ok; vm_compute; reflexivity].
Qed.
Example C35_sample_comments_printed : printed sample_comments
  = ["/**"; " * A demo."; " */"; "public /* the */ class Demo {"; "  // runs"; "  Integer run() {"; "    if (i /* not */  != 1) {";
     "      // nothing"; "      // at all"; "    }"; ""; "    foo("; "      a, /* x */ "; "      12"; "    ); // called";
     "    return // soon"; "    null;"; "    // end"; "  }"; "}"; "// bye"; ""].
Proof. vm_compute. reflexivity. Qed.
Example C35_sample_comments_lines :
  map show (flat_map comment_lines (filter n_extra (all_nodes sample_comments)))
  = ["/**"; " * A demo."; " */"; "/* the */"; "// runs"; "/* not */"; "// nothing"; "// at all"; "/* x */"; "// called"; "// soon"; "// end"; "// bye"].
Proof. vm_compute. reflexivity. Qed.

(* A comment alone between parentheses replaces them: [foo(/* c */);] is printed
   without its parentheses. *)
Theorem C35_lone_comment_refuted :
  exists root out, file_tree root /\ distinct_ids root /\ format_tree true 100 narrow root = Ok out /\
    count_occ N.eq_dec (n_text root) 40%N = 2%nat /\ count_occ N.eq_dec out 40%N = 1%nat.
Proof.
  exists sample_lone_comment. eexists. split; [apply file_treeb_ok; vm_compute; reflexivity|].
  split; [apply distinct_ids_sound; vm_compute; reflexivity|]. split; [vm_compute; reflexivity|].
  split; vm_compute; reflexivity.
Qed.
Print Assumptions C35_lone_comment_refuted.
Example C35_lone_comment_printed : printed sample_lone_comment
  = ["public class Foo {"; "  void bar() {"; "    foo/* c */;"; "  }"; "}"; ""].
Proof. vm_compute. reflexivity. Qed.

(* Beyond [source_tree] the claim is false: a second pair of brackets is lost, ... *)
Theorem C35_dimensions_refuted :
  exists root out, outside root /\ format_tree true 100 narrow root = Ok out /\ folded out <> folded (n_text root).
Proof.
  exists sample_dimensions. eexists. split; [apply outsideb_ok; vm_compute; reflexivity|].
  split; [vm_compute; reflexivity|vm_compute; discriminate].
Qed.
Print Assumptions C35_dimensions_refuted.
Example C35_dimensions_printed : printed sample_dimensions
  = ["public class Foo {"; "  void bar() {"; "    A[] x;"; "  }"; "}"; ""].
Proof. vm_compute. reflexivity. Qed.

(* ... a second update of a for loop is lost and its comma kept, ... *)
Theorem C35_updates_refuted :
  exists root out, outside root /\ format_tree true 100 narrow root = Ok out /\ folded out <> folded (n_text root).
Proof.
  exists sample_updates. eexists. split; [apply outsideb_ok; vm_compute; reflexivity|].
  split; [vm_compute; reflexivity|vm_compute; discriminate].
Qed.
Print Assumptions C35_updates_refuted.
Example C35_updates_printed : printed sample_updates
  = ["public class Foo {"; "  void bar() {"; "    for (;; i++,) {"; "    }"; "  }"; "}"; ""].
Proof. vm_compute. reflexivity. Qed.

(* ... the modifier of a loop variable is lost, ... *)
Theorem C35_final_refuted :
  exists root out, outside root /\ format_tree true 100 narrow root = Ok out /\ folded out <> folded (n_text root).
Proof.
  exists sample_final. eexists. split; [apply outsideb_ok; vm_compute; reflexivity|].
  split; [vm_compute; reflexivity|vm_compute; discriminate].
Qed.
Print Assumptions C35_final_refuted.
Example C35_final_printed : printed sample_final
  = ["public class Foo {"; "  void bar() {"; "    for (A a : xs) {"; "    }"; "  }"; "}"; ""].
Proof. vm_compute. reflexivity. Qed.

(* ... the empty statement of an if is printed twice, ... *)
Theorem C35_empty_if_refuted :
  exists root out, outside root /\ format_tree true 100 narrow root = Ok out /\ folded out <> folded (n_text root).
Proof.
  exists sample_empty_if. eexists. split; [apply outsideb_ok; vm_compute; reflexivity|].
  split; [vm_compute; reflexivity|vm_compute; discriminate].
Qed.
Print Assumptions C35_empty_if_refuted.
Example C35_empty_if_printed : printed sample_empty_if
  = ["public class Foo {"; "  void bar() {"; "    if (a);"; "      ;"; "  }"; "}"; ""].
Proof. vm_compute. reflexivity. Qed.

(* ... and an annotation behind a modifier moves before it. *)
Theorem C35_annotation_refuted :
  exists root out, outside root /\ format_tree true 100 narrow root = Ok out /\ folded out <> folded (n_text root).
Proof.
  exists sample_annotation. eexists. split; [apply outsideb_ok; vm_compute; reflexivity|].
  split; [vm_compute; reflexivity|vm_compute; discriminate].
Qed.
Print Assumptions C35_annotation_refuted.
Example C35_annotation_printed : printed sample_annotation = ["@A"; "public class F {"; "}"; ""].
Proof. vm_compute. reflexivity. Qed.

(* The parentheses behind an annotation are lost if nothing is between them
   (tests/prettier80/anno3.in expects this). *)
Definition sample_parens : node :=
  tree (br "parser_output"
    [br "class_declaration"
       [br "modifiers" [br "annotation" [an "@"; tokf "name" "identifier" "A"; brf "arguments" "annotation_argument_list" [an "("; an ")"]]];
        an "class"; tokf "name" "identifier" "F"; brf "body" "class_body" [an "{"; an "}"]]]).
Theorem C35_parentheses_refuted :
  exists root out, outside root /\ format_tree true 100 narrow root = Ok out /\ folded out <> folded (n_text root).
Proof.
  exists sample_parens. eexists. split; [apply outsideb_ok; vm_compute; reflexivity|].
  split; [vm_compute; reflexivity|vm_compute; discriminate].
Qed.
Print Assumptions C35_parentheses_refuted.
Example C35_parentheses_printed : printed sample_parens = ["@A"; "class F {"; "}"; ""].
Proof. vm_compute. reflexivity. Qed.

(* In queries, a second object behind FROM is lost, ... *)
Theorem C35_from_refuted :
  exists root out, outside root /\ format_tree true 100 narrow root = Ok out /\ folded out <> folded (n_text root).
Proof.
  exists sample_from. eexists. split; [apply outsideb_ok; vm_compute; reflexivity|].
  split; [vm_compute; reflexivity|vm_compute; discriminate].
Qed.
Print Assumptions C35_from_refuted.
Example C35_from_printed : printed sample_from
  = ["public class Foo {"; "  void bar() {"; "    [SELECT Id FROM A,];"; "  }"; "}"; ""].
Proof. vm_compute. reflexivity. Qed.

(* ... so is AS in front of the alias of an object (tests/prettier80/soql19.in expects this), ... *)
Definition sample_alias : node :=
  tree (cls [meth
    [br "expression_statement"
       [br "query_expression"
          [an "[";
           br "soql_query_body"
             [brf "select_clause" "select_clause" [an "SELECT"; fld_ "Id"];
              brf "from_clause" "from_clause"
                [an "FROM"; br "storage_alias" [br "storage_identifier" [id_ "Contact"]; an "AS"; id_ "c"]]];
           an "]"]; an ";"]]]).
Theorem C35_alias_refuted :
  exists root out, outside root /\ format_tree true 100 narrow root = Ok out /\ folded out <> folded (n_text root).
Proof.
  exists sample_alias. eexists. split; [apply outsideb_ok; vm_compute; reflexivity|].
  split; [vm_compute; reflexivity|vm_compute; discriminate].
Qed.
Print Assumptions C35_alias_refuted.
Example C35_alias_printed : printed sample_alias
  = ["public class Foo {"; "  void bar() {"; "    ["; "      SELECT Id"; "      FROM Contact c"; "    ];"; "  }"; "}"; ""].
Proof. vm_compute. reflexivity. Qed.

(* ... and the parentheses of NOT (NOT ...). *)
Theorem C35_not_refuted :
  exists root out, outside root /\ format_tree true 100 narrow root = Ok out /\ folded out <> folded (n_text root).
Proof.
  exists sample_not. eexists. split; [apply outsideb_ok; vm_compute; reflexivity|].
  split; [vm_compute; reflexivity|vm_compute; discriminate].
Qed.
Print Assumptions C35_not_refuted.
Example C35_not_printed : printed sample_not
  = ["public class Foo {"; "  void bar() {"; "    ["; "      SELECT Id"; "      FROM A"; "      WHERE NOT NOT x = 1"; "    ];"; "  }"; "}"; ""].
Proof. vm_compute. reflexivity. Qed.
