(* PropertiesEnds.v: the first and the last line of the output. *)
From Verif Require Import Base Doc DocBuilder Cst Comments Term New Formatter SpecTree SpecTokens SpecReread SpecOrder SpecTrim TrimEnds
  Trees Samples SamplesTokens PropertiesTokens SamplesReread SamplesTrim PropertiesTrim.
Local Open Scope string_scope.
Local Open Scope list_scope.

(* C61, under the hypotheses of C59, at every width and indentation: unless there is nothing to
   print, the output does not begin with a line feed and does not end with two.  By C16 it ends
   with one, so its first and its last line are not empty, whatever empty lines the source
   begins or ends with.  By C17 a line of blanks cannot stand there either.
   Missing: comments behind other things than statements and declarations and in front of
   separators, and block comments with blank lines. *)
Theorem C61_no_empty_line_at_the_ends_partial :
  forall (checked : bool) (stack : nat) (cfg : config) (root : node) (out : ustr),
    distinct_ids root -> code root = true -> trimmed_texts root -> tidy_texts root -> sparse_texts root ->
    full_clauses root -> filled root -> quiet_comments root -> full_lines root ->
    format_tree checked stack cfg root = Ok out ->
    out = [c_nl] \/ (forall rest, out <> c_nl :: rest) /\ (forall before, out <> before ++ [c_nl; c_nl]).
Proof. exact format_ends. Qed.
Print Assumptions C61_no_empty_line_at_the_ends_partial.

(* A file with empty lines above and below its only class, and comments there:

     (two empty lines)  // head  (empty line)  class A { }  // tail  (two empty lines)  /* end */  *)
Definition sample_ends : node :=
  tree (br "parser_output"
    [Row 3; lcom "// head"; Row 2;
     klass "A" [];
     lcom "// tail"; Row 3; bcom "/* end */"; Row 2]).
Example C61_sample_ends :
  distinct_ids sample_ends /\ code sample_ends = true /\ trimmed_texts sample_ends /\ tidy_texts sample_ends /\ sparse_texts sample_ends /\
  full_clauses sample_ends /\ filled sample_ends /\ quiet_comments sample_ends /\ full_lines sample_ends /\
  format_tree true 100 narrow sample_ends = Ok (narrow_out sample_ends).
Proof.
  assert (D : distinct_ids sample_ends) by (apply distinct_ids_sound; vm_compute; reflexivity).
  split; [exact D|]. split; [vm_compute; reflexivity|].
  split; [apply trimmed_textsb_ok; vm_compute; reflexivity|].
  split; [apply tidy_textsb_ok; vm_compute; reflexivity|].
  split; [apply sparse_textsb_ok; vm_compute; reflexivity|].
  split; [apply full_clausesb_ok; vm_compute; reflexivity|].
  split; [apply filledb_ok; vm_compute; reflexivity|].
  split; [apply quietb_ok; [exact D|vm_compute; reflexivity]|].
  split; [apply full_linesb_ok; vm_compute; reflexivity|vm_compute; reflexivity].
Qed.
Example C61_printed_ends : printed sample_ends = ["// head"; ""; "class A {"; "} // tail"; ""; "/* end */"; ""].
Proof. vm_compute. reflexivity. Qed.
