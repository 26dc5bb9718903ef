(* PropertiesTrim.v: lines of the output that end with white space. *)
From Verif Require Import Base Doc DocBuilder Cst Comments Term New Formatter SpecTree SpecTokens SpecReread SpecOrder SpecTrim TrimFormat DocProofs2
  Trees Samples SamplesTokens PropertiesTokens SamplesReread SamplesTrim.
Local Open Scope string_scope.
Local Open Scope list_scope.

(* C17, for sources without comments whose [for] statements have an update part and whose
   LOOKUP clauses have a BIND part ([full_clauses]), at every width and indentation: a line
   feed of the output stands at its beginning or behind a character that is not white space
   other than a line feed.  The texts of the nodes begin and end with something visible
   ([trimmed_nodes]); a text that is copied has no line that ends with white space itself
   ([tidy_texts]: a string over several lines could); and the lists that the parser never
   leaves empty are not empty ([filled]).  The output ends with a line feed (C16), so this
   says it of every line.
   Missing: the sources with comments ([C17_no_trailing_space_comments_partial] below).  For a [for] statement without update it is false
   ([C17_no_trailing_space_refuted]), for a LOOKUP without BIND too (below). *)
Theorem C17_no_trailing_space_partial :
  forall (checked : bool) (stack : nat) (cfg : config) (root : node) (out : ustr),
    n_named root = true -> (forall n, In n (all_nodes root) -> n_extra n = false) ->
    trimmed_nodes root -> tidy_texts root -> full_clauses root -> filled root ->
    format_tree checked stack cfg root = Ok out ->
    forall (before : ustr) (c : N) (rest : ustr),
      out = before ++ c :: c_nl :: rest -> is_ws c = true -> c = c_nl.
Proof.
  intros checked stack cfg root out Hn He Ht Hx Hc Hf H a c b E W.
  pose proof (proj1 (tidy_means out) (format_trim _ _ _ _ _ Hn He Ht Hx Hc Hf H) a c b E) as B.
  unfold is_blank in B. rewrite W in B. apply Bool.negb_false_iff in B. apply N.eqb_eq. exact B.
Qed.
Print Assumptions C17_no_trailing_space_partial.

Definition trim_ok (root : node) : Prop :=
  n_named root = true /\ (forall n, In n (all_nodes root) -> n_extra n = false) /\
  trimmed_nodes root /\ tidy_texts root /\ full_clauses root /\ filled root /\
  format_tree false 100 narrow root = Ok (narrow_out root).
Lemma plainb root : forallb (fun n => negb (n_extra n)) (all_nodes root) = true -> forall n, In n (all_nodes root) -> n_extra n = false.
Proof. intros H n Hn. rewrite forallb_forall in H. apply Bool.negb_true_iff, H, Hn. Qed.
Ltac trim :=
  split; [vm_compute; reflexivity|];
  split; [apply plainb; vm_compute; reflexivity|];
  split; [apply trimmedb_ok; vm_compute; reflexivity|];
  split; [apply tidy_textsb_ok; vm_compute; reflexivity|];
  split; [apply full_clausesb_ok; vm_compute; reflexivity|];
  split; [apply filledb_ok; vm_compute; reflexivity|vm_compute; reflexivity].
Example C17_sample_tokens : trim_ok sample_tokens.
Proof. trim. Qed.
Example C17_sample_queries : trim_ok sample_queries.
Proof. trim. Qed.

(* [FIND :q RETURNING Account(Id USING LOOKUP Owner.Name LIMIT 3)] *)
Definition sample_lookup : node :=
  tree (cls [meth [br "local_variable_declaration"
    [type_ "A";
     var_ "x" [eq_; brf "value" "query_expression"
       [an "["; br "sosl_query_body"
          [br "find_clause" [an "FIND"; bound_ "q"];
           br "returning_clause" [an "RETURNING";
             br "sobject_return" [id_ "Account"; an "("; br "selected_fields" [fld_ "Id"];
               br "using_clause" [an "USING"; br "using_lookup_clause"
                 [an "LOOKUP"; brf "using_lookup_clause" "dotted_identifier" [id_ "Owner"; an "."; id_ "Name"]]];
               br "limit_clause" [an "LIMIT"; tok "int" "3"]; an ")"]]]; an "]"]]; an ";"]]]).
(* A LOOKUP without BIND leaves a space behind it. *)
Theorem C17_lookup_refuted :
  exists root out a b,
    source_tree root /\ format_tree true 100 narrow root = Ok out /\ out = a ++ [c_sp; c_nl] ++ b.
Proof.
  exists sample_lookup, (narrow_out sample_lookup), (firstn 139 (narrow_out sample_lookup)), (skipn 141 (narrow_out sample_lookup)).
  split; [apply source_treeb_ok; vm_compute; reflexivity|]. split; vm_compute; reflexivity.
Qed.
Print Assumptions C17_lookup_refuted.

(* C17 with comments: the same, when a comment stands in front of something that is not a
   separator, behind a statement or declaration as the last thing in its row, or alone in
   braces ([quiet_comments]), and no line of a block comment that is not a JavaDoc comment
   is blank ([full_lines]).  White space at the end of a line of a comment is allowed.
   Missing: comments behind other things and in front of separators, and block comments
   with blank lines.  For these it is false ([C17_comments_refuted]). *)
Theorem C17_no_trailing_space_comments_partial :
  forall (checked : bool) (stack : nat) (cfg : config) (root : node) (out : ustr),
    distinct_ids root -> code root = true -> trimmed_texts root -> tidy_texts root -> full_clauses root -> filled root ->
    quiet_comments root -> full_lines root ->
    format_tree checked stack cfg root = Ok out ->
    forall (before : ustr) (c : N) (rest : ustr),
      out = before ++ c :: c_nl :: rest -> is_ws c = true -> c = c_nl.
Proof.
  intros checked stack cfg root out D Hr Ht Hx Hc Hf Q F H a c b E W.
  pose proof (proj1 (tidy_means out) (format_trim_comments _ _ _ _ _ D Hr Ht Hx Hc Hf Q F H) a c b E) as B.
  unfold is_blank in B. rewrite W in B. apply Bool.negb_false_iff in B. apply N.eqb_eq. exact B.
Qed.
Print Assumptions C17_no_trailing_space_comments_partial.

Example C17_sample_quiet :
  distinct_ids sample_quiet /\ code sample_quiet = true /\ trimmed_texts sample_quiet /\ tidy_texts sample_quiet /\
  full_clauses sample_quiet /\ filled sample_quiet /\ quiet_comments sample_quiet /\ full_lines sample_quiet /\
  format_tree true 100 narrow sample_quiet = Ok (narrow_out sample_quiet).
Proof.
  assert (D : distinct_ids sample_quiet) by (apply distinct_ids_sound; vm_compute; reflexivity).
  split; [exact D|]. split; [vm_compute; reflexivity|].
  split; [apply trimmed_textsb_ok; vm_compute; reflexivity|].
  split; [apply tidy_textsb_ok; vm_compute; reflexivity|].
  split; [apply full_clausesb_ok; vm_compute; reflexivity|].
  split; [apply filledb_ok; vm_compute; reflexivity|].
  split; [apply quietb_ok; [exact D|vm_compute; reflexivity]|].
  split; [apply full_linesb_ok; vm_compute; reflexivity|vm_compute; reflexivity].
Qed.

(* A block comment with an empty line, a comment in front of a comma, and a comment behind
   the call of super of a constructor with nothing else each leave blanks at the end of a
   line. *)
Definition leaves_blank (root : node) (k : nat) : Prop :=
  file_tree root /\ exists out, format_tree true 100 narrow root = Ok out /\
    exists a b, out = a ++ [c_sp; c_nl] ++ b /\ List.length a = k.
Theorem C17_comments_refuted :
  leaves_blank sample_blank_line 46 /\ leaves_blank sample_behind 49 /\ leaves_blank sample_super 50.
Proof.
  split; [|split]; (split; [apply file_treeb_ok; vm_compute; reflexivity|]).
  - exists (narrow_out sample_blank_line). split; [vm_compute; reflexivity|].
    exists (firstn 46 (narrow_out sample_blank_line)), (skipn 48 (narrow_out sample_blank_line)). split; vm_compute; reflexivity.
  - exists (narrow_out sample_behind). split; [vm_compute; reflexivity|].
    exists (firstn 49 (narrow_out sample_behind)), (skipn 51 (narrow_out sample_behind)). split; vm_compute; reflexivity.
  - exists (narrow_out sample_super). split; [vm_compute; reflexivity|].
    exists (firstn 50 (narrow_out sample_super)), (skipn 52 (narrow_out sample_super)). split; vm_compute; reflexivity.
Qed.
Print Assumptions C17_comments_refuted.

(* C59, under the hypotheses of C17 with comments, when moreover no text that is copied has
   two empty lines in a row ([sparse_texts]: names and literals have one line as a rule): at
   every width and indentation the output nowhere has two empty lines in a row, however many
   there are in the source.
   Missing: comments behind other things than statements and declarations and in front of
   separators, and block comments with blank lines, which keep them
   ([C59_comment_refuted]). *)
Theorem C59_no_two_empty_lines_partial :
  forall (checked : bool) (stack : nat) (cfg : config) (root : node) (out : ustr),
    distinct_ids root -> code root = true -> trimmed_texts root -> tidy_texts root -> sparse_texts root ->
    full_clauses root -> filled root -> quiet_comments root -> full_lines root ->
    format_tree checked stack cfg root = Ok out ->
    forall before rest : ustr, out <> before ++ [c_nl; c_nl; c_nl] ++ rest.
Proof.
  intros checked stack cfg root out D Hr Ht Hx Hs Hc Hf Q F H a b.
  exact (proj1 (sparse_means out) (format_sparse _ _ _ _ _ D Hr Ht Hx Hs Hc Hf Q F H) a b).
Qed.
Print Assumptions C59_no_two_empty_lines_partial.

Example C59_sample_gaps :
  distinct_ids sample_gaps /\ code sample_gaps = true /\ trimmed_texts sample_gaps /\ tidy_texts sample_gaps /\ sparse_texts sample_gaps /\
  full_clauses sample_gaps /\ filled sample_gaps /\ quiet_comments sample_gaps /\ full_lines sample_gaps /\
  format_tree true 100 narrow sample_gaps = Ok (narrow_out sample_gaps).
Proof.
  assert (D : distinct_ids sample_gaps) by (apply distinct_ids_sound; vm_compute; reflexivity).
  split; [exact D|]. split; [vm_compute; reflexivity|].
  split; [apply trimmed_textsb_ok; vm_compute; reflexivity|].
  split; [apply tidy_textsb_ok; vm_compute; reflexivity|].
  split; [apply sparse_textsb_ok; vm_compute; reflexivity|].
  split; [apply full_clausesb_ok; vm_compute; reflexivity|].
  split; [apply filledb_ok; vm_compute; reflexivity|].
  split; [apply quietb_ok; [exact D|vm_compute; reflexivity]|].
  split; [apply full_linesb_ok; vm_compute; reflexivity|vm_compute; reflexivity].
Qed.
Example C59_printed_gaps :
  narrow_out sample_gaps =
  List.concat (map (fun l => U l ++ [c_nl])
    ["// head"; ""; "/* more */"; ""; "class A {"; "  void bar() {"; "    foo();"; ""; "    // behind"; ""; "    foo();"; "  }"; "";
     "  // second"; ""; "  /* block */"; ""; "  void bar() {"; "    // alone"; "  }"; "}"; ""; "class B {"; "}"]).
Proof. vm_compute. reflexivity. Qed.

(* The empty lines inside a block comment are kept. *)
Theorem C59_comment_refuted :
  exists root out before rest,
    file_tree root /\ format_tree true 100 narrow root = Ok out /\ out = before ++ [c_nl; c_nl; c_nl] ++ rest.
Proof.
  exists sample_hollow, (narrow_out sample_hollow), (firstn 4 (narrow_out sample_hollow)), (skipn 7 (narrow_out sample_hollow)).
  split; [apply file_treeb_ok; vm_compute; reflexivity|]. split; vm_compute; reflexivity.
Qed.
Print Assumptions C59_comment_refuted.

(* C60, under the hypotheses of C17 with comments, when moreover no text that is copied and
   no printed line of a comment has two spaces in a row ([single_texts], [single_comments];
   a string may have them, and keeps them) and no comment stands in front of a [catch], a
   [finally] or the list behind [extends] or [implements] ([unannounced]): at every width and
   indentation, two spaces in a row in the output are part of the indentation of their line.
   Missing: comments at other places.  There it is false ([C60_catch_refuted]). *)
Theorem C60_single_spaces_partial :
  forall (checked : bool) (stack : nat) (cfg : config) (root : node) (out : ustr),
    distinct_ids root -> code root = true -> trimmed_texts root -> tidy_texts root -> single_texts root ->
    full_clauses root -> filled root -> quiet_comments root -> full_lines root -> single_comments root -> unannounced root ->
    format_tree checked stack cfg root = Ok out ->
    forall before rest : ustr, out = before ++ [c_sp; c_sp] ++ rest ->
      exists (lines : ustr) (n : nat), before = lines ++ repeat c_sp n /\ (lines = [] \/ exists ls, lines = ls ++ [c_nl]).
Proof.
  intros checked stack cfg root out D Hr Ht Hx Hs Hc Hf Q F Sc Un H a b E.
  exact (format_spaced _ _ _ _ _ D Hr Ht Hx Hs Hc Hf Q F Sc Un H a b E).
Qed.
Print Assumptions C60_single_spaces_partial.

Example C60_sample_quiet :
  single_texts sample_quiet /\ single_comments sample_quiet /\ unannounced sample_quiet.
Proof.
  split; [apply single_textsb_ok; vm_compute; reflexivity|].
  split; [apply single_commentsb_ok; vm_compute; reflexivity|apply unannouncedb_ok; vm_compute; reflexivity].
Qed.
(* the other hypotheses: [C17_sample_quiet] *)
Example C60_printed_quiet :
  narrow_out sample_quiet =
  List.concat (map (fun l => U l ++ [c_nl])
    ["/**"; " * A demo."; " *"; " */"; "class /* the */ Demo {"; "  // runs"; "  /* and"; "  stops */"; "  Integer run() {"; "    if (";
     "      /* not */ i"; "      != 1"; "    ) {"; "      // nothing"; "      // at all"; "    }"; ""; "    foo(";
     "      aaaaaaaaaaaaaaaaaaaaaaa,"; "      // x"; "      12"; "    ); // called"; "    return // soon"; "    null;"; "    // end";
     "  }"; "}"; "// bye"]).
Proof. vm_compute. reflexivity. Qed.

(* A comment between the block of a [try] and the [catch] is followed by two spaces. *)
Theorem C60_catch_refuted :
  exists root out before rest,
    file_tree root /\ format_tree true 100 narrow root = Ok out /\ out = before ++ U "*/" ++ [c_sp; c_sp] ++ rest.
Proof.
  exists sample_catch, (narrow_out sample_catch), (firstn 68 (narrow_out sample_catch)), (skipn 72 (narrow_out sample_catch)).
  split; [apply file_treeb_ok; vm_compute; reflexivity|]. split; vm_compute; reflexivity.
Qed.
Print Assumptions C60_catch_refuted.
