(* PropertiesArrange.v: each comment is printed once, and among the same names.
   Statements only; proofs are in Arrange*.v, the vocabulary in SpecArrange.v. *)
From Coq Require Import Permutation.
From Verif Require Import Base SpecDoc Cst Formatter SpecTree SpecOrder SpecTokens SpecArrange CollectProofs2 TokensProofs5 TokensComments ArrangeText
  Trees Samples SamplesTokens SamplesArrange PropertiesTokens.
Local Open Scope string_scope.
Local Open Scope list_scope.

(* ------------------------------------------------------------------ C05 *)
(* Each comment of the source is printed exactly once: the output is a list of
   texts [ws] with only white space between them, and [ws] are the tokens and
   comments [order], where the tokens of [order] are those of the source in their
   order and its comments are those of the source, each once.
   Missing for the full claim: the places left out by [simple_places], at some of
   which a comment is printed twice (C05_no_duplication_refuted), and the constructs
   left out by [file_tree]. *)
Theorem C05_once_partial :
  forall (checked : bool) (stack : nat) (cfg : config) (root : node) (out : ustr),
    file_tree root -> distinct_ids root -> comments_in_braces root -> simple_places root -> visible_comments root ->
    format_tree checked stack cfg root = Ok out ->
    exists order ws,
      spaced ws out /\ kept (flat_map as_lines order) ws /\
      filter (fun n => negb (n_extra n)) order = leaves root /\
      Permutation (filter n_extra order) (comments_of root).
Proof. exact format_once. Qed.
Print Assumptions C05_once_partial.

(* Hence, white space and the case of letters aside, the characters of the output are
   those of the tokens and of the lines of the comments, each as often. *)
Theorem C05_characters_partial :
  forall (checked : bool) (stack : nat) (cfg : config) (root : node) (out : ustr),
    file_tree root -> distinct_ids root -> comments_in_braces root -> simple_places root -> visible_comments root ->
    format_tree checked stack cfg root = Ok out ->
    Permutation (folded out) (folded (flat_map n_text (leaves root) ++ List.concat (flat_map comment_lines (comments_of root)))).
Proof. exact format_characters. Qed.
Print Assumptions C05_characters_partial.

(* ------------------------------------------------------------------ C55 *)
(* Names, literals and comments keep their order: the comments of the output stand
   between the same names as in the source.
   Missing for the full claim: two comments around a bracket (C46_bracket_refuted), a
   block comment behind a line comment in front of a separator (C46_separator_refuted),
   comments on both sides of the semicolon of an accessor (refuted below), and the
   places of C05. *)
Theorem C55_arranged_partial :
  forall (checked : bool) (stack : nat) (cfg : config) (root : node) (out : ustr),
    file_tree root -> distinct_ids root -> comments_in_braces root -> simple_places root -> visible_comments root ->
    ordered_places root -> format_tree checked stack cfg root = Ok out ->
    exists order ws,
      spaced ws out /\ kept (flat_map as_lines order) ws /\
      filter (fun n => negb (n_extra n)) order = leaves root /\
      filter fixed order = filter fixed (everything root).
Proof. exact format_ordered. Qed.
Print Assumptions C55_arranged_partial.

Theorem C55_landmarks_partial :
  forall (checked : bool) (stack : nat) (cfg : config) (root : node) (out : ustr),
    file_tree root -> distinct_ids root -> comments_in_braces root -> simple_places root -> visible_comments root ->
    ordered_places root -> format_tree checked stack cfg root = Ok out ->
    in_turn (landmarks root) out.
Proof. exact format_landmarks. Qed.
Print Assumptions C55_landmarks_partial.

Example C55_sample :
  simple_places sample_comments /\ visible_comments sample_comments /\ ordered_places sample_comments.
Proof.
  split; [apply simple_placesb_ok; vm_compute; reflexivity|].
  split; [apply visible_commentsb_ok; vm_compute; reflexivity|apply ordered_placesb_ok; vm_compute; reflexivity].
Qed.
(* for the other hypotheses and the output see C35_sample_comments *)
Example C55_sample_landmarks : map show (landmarks sample_comments)
  = ["/**"; " * A demo."; " */"; "/* the */"; "Demo"; "// runs"; "Integer"; "run"; "i"; "/* not */"; "1"; "// nothing"; "// at all";
     "foo"; "a"; "/* x */"; "12"; "// called"; "// soon"; "// end"; "// bye"].
Proof. vm_compute. reflexivity. Qed.

(* Comments on both sides of the semicolon of an accessor change places. *)
Theorem C55_accessor_refuted :
  exists root out,
    file_tree root /\ distinct_ids root /\ comments_in_braces root /\ simple_places root /\ visible_comments root /\ orderly root /\
    format_tree true 100 narrow root = Ok out /\ ~ in_turn (landmarks root) out.
Proof.
  exists sample_accessor. eexists. split; [apply file_treeb_ok; vm_compute; reflexivity|].
  split; [apply distinct_ids_sound; vm_compute; reflexivity|]. split; [apply comments_in_bracesb_ok; vm_compute; reflexivity|].
  split; [apply simple_placesb_ok; vm_compute; reflexivity|]. split; [apply visible_commentsb_ok; vm_compute; reflexivity|].
  split; [apply OrderProofs.orderly_sound; vm_compute; reflexivity|]. split; [vm_compute; reflexivity|].
  intro H. apply in_turnb_complete in H. vm_compute in H. discriminate.
Qed.
Print Assumptions C55_accessor_refuted.
Example C55_accessor_landmarks : map show (landmarks sample_accessor) = ["Foo"; "Integer"; "x"; "/* a */"; "/* b */"].
Proof. vm_compute. reflexivity. Qed.
Example C55_accessor_printed : printed sample_accessor
  = ["public class Foo {"; "  Integer x { get /* b */"; "    /* a */; }"; "}"; ""].
Proof. vm_compute. reflexivity. Qed.
