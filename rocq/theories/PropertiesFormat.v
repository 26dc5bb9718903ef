(* PropertiesFormat.v: the properties of formatting one accepted syntax tree.
   Statements only; proofs are in FormatProofs.v and TermProofs*.v.

   [format_tree checked stack cfg root] is the result of formatting the tree:
   the text, a panic, or an exhausted stack of depth [stack]; [checked] says
   whether arithmetic overflow panics (debug builds). *)
From Verif Require Import Base Doc DocBuilder SpecDoc Cst Comments SpecTree SpecComments Term New
  Formatter CollectProofs2 TermProofs2 FormatProofs Trees Samples Witnesses.
Local Open Scope string_scope.

(* ------------------------------------------------------------------ C02 *)
(* Two configurations with a positive indent size give the same failure, or
   texts that are equal once spaces and line feeds are deleted. *)
Theorem C02_configuration_changes_only_white_space :
  forall (checked : bool) (stack : nat) (cfg cfg' : config) (root : node),
    cfg_indent_size cfg <> 0%N -> cfg_indent_size cfg' <> 0%N ->
    match format_tree checked stack cfg root, format_tree checked stack cfg' root with
    | Ok out, Ok out' => squeeze out = squeeze out'
    | Panic y, Panic y' => y = y'
    | Overflow, Overflow => True
    | _, _ => False
    end.
Proof. exact format_config_squeeze. Qed.
Print Assumptions C02_configuration_changes_only_white_space.

(* White space inside a text (a string literal, a comment line) is kept: the
   documents built for two indent sizes have the same texts, and the output
   consists of these texts verbatim with blanks between them. *)
Theorem C02_texts_are_printed_verbatim :
  forall (cm : list (N * bucket)) (b b' : pretty_config) (t : dt) (d : doc) m (d' : doc) m' (w : N),
    run cm b t = Ok (d, m) -> run cm b' t = Ok (d', m') ->
    words d = words d' /\ spaced (words d) (pretty_print d w).
Proof. exact run_words. Qed.
Print Assumptions C02_texts_are_printed_verbatim.

(* Width 80 and 10, indent size 2 and 4: different texts. *)
Example C02_case :
  match format_tree true 60 {| max_width := 80; cfg_indent_size := 2 |} sample,
        format_tree true 60 {| max_width := 10; cfg_indent_size := 4 |} sample with
  | Ok out, Ok out' => negb (ustr_eqb out out') && ustr_eqb (squeeze out) (squeeze out')
  | _, _ => false
  end = true.
Proof. vm_compute. reflexivity. Qed.

(* ------------------------------------------------------------------ C03 *)
(* Every comment of the tree occurs in the output, in its printed form. *)
Theorem C03_no_comment_is_lost :
  forall (checked : bool) (stack : nat) (cfg : config) (root : node) (out : ustr) (c : node),
    distinct_ids root -> leaf_tokens root -> code root = true ->
    format_tree checked stack cfg root = Ok out ->
    In c (all_nodes root) -> n_extra c = true ->
    occurs_as_lines (normal_lines (has_kind "line_comment" c) (trim_end (n_text c))) out.
Proof. exact format_every_comment. Qed.
Print Assumptions C03_no_comment_is_lost.

Example C03_case :
  distinct_ids sample_doc /\ leaf_tokens sample_doc /\ code sample_doc = true /\
  ok_with (format_tree true 60 Config_default sample_doc) (fun _ => true) = true /\
  map (fun c => map show (normal_lines (has_kind "line_comment" c) (trim_end (n_text c))))
      (filter n_extra (all_nodes sample_doc)) = [["/**"; " * adds"; " */"]].
Proof.
  split; [apply distinct_ids_sound; vm_compute; reflexivity|].
  split; [apply leaf_tokens_sound; vm_compute; reflexivity|].
  split; [reflexivity|]. split; vm_compute; reflexivity.
Qed.

(* ------------------------------------------------------------------ C04 *)
(* After the text of a line comment only spaces follow before the line ends. *)
Theorem C04_line_comment_ends_its_line :
  forall (checked : bool) (stack : nat) (cfg : config) (root : node) (out : ustr) (c : node),
    distinct_ids root -> leaf_tokens root -> code root = true ->
    format_tree checked stack cfg root = Ok out ->
    In c (all_nodes root) -> n_extra c = true -> has_kind "line_comment" c = true ->
    exists before k after, out = (before ++ trim_end (n_text c) ++ repeat c_sp k ++ c_nl :: after)%list.
Proof. exact format_every_line_comment. Qed.
Print Assumptions C04_line_comment_ends_its_line.

(* The line comment behind a statement of the sample. *)
Example C04_case :
  existsb (fun c => n_extra c && has_kind "line_comment" c && ustr_eqb (n_text c) (U "// post")) (all_nodes sample) = true /\
  ok_with (format_tree true 60 Config_default sample) (fun _ => true) = true.
Proof. split; vm_compute; reflexivity. Qed.

(* ------------------------------------------------------------------ C05 *)
(* "Each comment is emitted exactly once" is false: a comment before the type
   of a SOQL WITH clause is printed twice. *)
Theorem C05_no_duplication_refuted :
  exists root c out a b d,
    distinct_ids root /\ leaf_tokens root /\ code root = true /\
    filter n_extra (all_nodes root) = [c] /\
    format_tree true 100 Config_default root = Ok out /\
    out = (a ++ n_text c ++ b ++ n_text c ++ d)%list.
Proof. exact comment_printed_twice. Qed.
Print Assumptions C05_no_duplication_refuted.

(* ------------------------------------------------------------------ C08 *)
(* Formatting returns a text exactly when every collected comment has been
   emitted while the document was built. *)
Theorem C08_succeeds_iff_every_comment_emitted :
  forall (checked : bool) (stack : nat) (cfg : config) (root : node) (out : ustr)
         (cm : list (N * bucket)) (t : dt) (b : pretty_config) (d : doc) (emitted : list comment),
    collect_comments root = Ok cm -> new cm checked stack Root (root_loc root) = Ok t ->
    PrettyConfig_new (cfg_indent_size cfg) = Ok b -> run cm b t = Ok (d, emitted) ->
    (format_tree checked stack cfg root = Ok out <->
     out = pretty_print d (max_width cfg) /\
     forall c, In c (map_comments cm) -> exists c', In c' emitted /\ c_id c' = c_id c).
Proof. exact format_ok_iff. Qed.
Print Assumptions C08_succeeds_iff_every_comment_emitted.

(* What counts as emitted is part of the document. *)
Theorem C08_emitted_comments_are_in_the_document :
  forall (cm : list (N * bucket)) (b : pretty_config) (t : dt) (d : doc) (emitted : list comment) (c : comment),
    run cm b t = Ok (d, emitted) -> In c emitted -> within (comment_doc c) d.
Proof. exact run_marks_within. Qed.
Print Assumptions C08_emitted_comments_are_in_the_document.

(* A comment behind the label of a switch rule is collected but never emitted. *)
Example C08_case :
  match collect_comments sample_label with
  | Ok cm =>
      match new cm true 60 Root (root_loc sample_label) with
      | Ok t => match run cm {| indent_size := 2 |} t with
                | Ok (d, emitted) => is_nil emitted && negb (is_nil (map_comments cm))
                | _ => false
                end
      | _ => false
      end
  | _ => false
  end = true /\
  format_tree true 60 Config_default sample_label = Panic "## There are erased comment node(s)".
Proof. split; vm_compute; reflexivity. Qed.

(* ------------------------------------------------------------------ C09 *)
(* "A file with only comments can be formatted" is false for every such file:
   no configuration, build or stack size gives a text. *)
Theorem C09_comment_only_file_refuted :
  forall (checked : bool) (stack : nat) (cfg : config) (root : node) (out : ustr),
    code root = true -> code_kids root = [] -> (exists c, In c (children root) /\ n_extra c = true) ->
    format_tree checked stack cfg root <> Ok out.
Proof. exact comment_only_fails. Qed.
Print Assumptions C09_comment_only_file_refuted.

Example C09_case :
  code only_comment = true /\ code_kids only_comment = [] /\
  (exists c, In c (children only_comment) /\ n_extra c = true) /\
  format_tree true 60 Config_default only_comment = Panic "## There are erased comment node(s)".
Proof.
  split; [reflexivity|]. split; [reflexivity|].
  split; [eexists; split; [left; reflexivity|reflexivity]|vm_compute; reflexivity].
Qed.

(* ------------------------------------------------------------------ C13 *)
(* The output is a layout of the document built from the tree in which every
   break is indented by nesting depth times the configured size. *)
Theorem C13_output_indentation :
  forall (checked : bool) (stack : nat) (cfg : config) (root : node) (out : ustr),
    format_tree checked stack cfg root = Ok out ->
    exists cm t m d a,
      collect_comments root = Ok cm /\ new cm checked stack Root (root_loc root) = Ok t /\
      run cm {| indent_size := cfg_indent_size cfg |} t = Ok (d, m) /\
      dlayout (cfg_indent_size cfg) 0 false d a /\ out = render a.
Proof. exact format_layout. Qed.
Print Assumptions C13_output_indentation.

Example C13_output_case :
  format_tree true 60 {| max_width := 80; cfg_indent_size := 3 |} (tree (cls [meth [inv []]])) =
  Ok (U "public class Foo {" ++ [c_nl] ++ U "   void bar() {" ++ [c_nl] ++ U "      foo();" ++ [c_nl]
      ++ U "   }" ++ [c_nl] ++ U "}" ++ [c_nl])%list.
Proof. vm_compute. reflexivity. Qed.

(* ------------------------------------------------------------------ C16 *)
Theorem C16_output_ends_with_line_feed :
  forall (checked : bool) (stack : nat) (cfg : config) (root : node) (out : ustr),
    format_tree checked stack cfg root = Ok out -> exists text, out = (text ++ [c_nl])%list.
Proof. exact format_ends_newline. Qed.
Print Assumptions C16_output_ends_with_line_feed.

(* Also for an empty file. *)
Example C16_case : format_tree true 60 Config_default (tree (br "parser_output" [])) = Ok [c_nl].
Proof. vm_compute. reflexivity. Qed.

(* ------------------------------------------------------------------ C17 *)
(* "No line ends with a space" is false: a `for` without update that does not
   fit on one line leaves a line of spaces. *)
Theorem C17_no_trailing_space_refuted :
  exists root out a b,
    format_tree true 100 (Config_new 20) root = Ok out /\ out = (a ++ [c_sp; c_nl] ++ b)%list.
Proof. exact trailing_space. Qed.
Print Assumptions C17_no_trailing_space_refuted.
