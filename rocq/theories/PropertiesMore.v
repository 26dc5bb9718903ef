(* PropertiesMore.v: what C35 and C54 say about brackets (C36), semicolons (C37) and
   clauses (C38).  These claims are false in general, see PropertiesSigns.v; here is
   where they hold.  Specification: SpecTokens.v, SpecWords.v. *)
From Verif Require Import Base SpecDoc DocProofs Cst SpecComments Formatter SpecTree SpecWords SpecTokens TokensComments WordsFormat
  Trees Samples SamplesTokens PropertiesTokens.
Local Open Scope string_scope.
Local Open Scope list_scope.

(* ------------------------------------------------------------------ C36 *)

(* In a file of the grammar in which comments stand alone only in the braces of a
   body, all words and signs of the code, and so all brackets, stand in the output
   one behind the other, whatever comments there are. *)
Theorem C36_brackets_partial :
  forall (checked : bool) (stack : nat) (cfg : config) (root : node) (out : ustr),
    file_tree root -> distinct_ids root -> comments_in_braces root ->
    format_tree checked stack cfg root = Ok out ->
    in_turn (flat_map (fun token => bits (n_text token)) (leaves root)) (to_lowercase out).
Proof. exact format_signs_comments. Qed.
Print Assumptions C36_brackets_partial.
(* void bar() { /* c */ } *)
Definition sample_body_comment : node := tree (cls [meth [bcom "/* c */"]]).
Example C36_sample : file_tree sample_body_comment /\ distinct_ids sample_body_comment /\ comments_in_braces sample_body_comment /\
  exists n, In n (all_nodes sample_body_comment) /\ lone_comments n.
Proof.
  split; [apply file_treeb_ok; vm_compute; reflexivity|]. split; [apply distinct_ids_sound; vm_compute; reflexivity|].
  split; [apply comments_in_bracesb_ok; vm_compute; reflexivity|].
  set (n := hd sample_body_comment (filter lone_commentsb (all_nodes sample_body_comment))).
  exists n. split.
  - apply (proj1 (filter_In lone_commentsb n (all_nodes sample_body_comment))). vm_compute. left. reflexivity.
  - split; [exists (hd n (filter n_extra (children n)))|vm_compute; reflexivity].
    apply (proj1 (filter_In n_extra _ (children n))). vm_compute. left. reflexivity.
Qed.
Example C36_sample_printed : printed sample_body_comment
  = ["public class Foo {"; "  void bar() {"; "    /* c */"; "  }"; "}"; ""].
Proof. vm_compute. reflexivity. Qed.

(* ------------------------------------------------------------------ C37 *)

(* In a file of the grammar (in which no if or else has an empty statement) without
   comments the output has as many semicolons as the source has. *)
Theorem C37_semicolons_partial :
  forall (checked : bool) (stack : nat) (cfg : config) (root : node) (out : ustr),
    source_tree root -> format_tree checked stack cfg root = Ok out ->
    filter (ustr_eqb (U ";")) (bits out) = filter (ustr_eqb (U ";")) (flat_map (fun token => bits (n_text token)) (leaves root)).
Proof. intros checked stack cfg root out S H. rewrite (format_bits _ _ _ _ _ S H). reflexivity. Qed.
Print Assumptions C37_semicolons_partial.
(* while (x) ; *)
Definition sample_empty_while : node :=
  tree (cls [meth [br "while_statement"
    [an "while"; brf "condition" "parenthesized_expression" [an "("; id_ "x"; an ")"]; anf "body" ";"]]]).
Example C37_sample : source_tree sample_empty_while.
Proof. apply source_treeb_ok. vm_compute. reflexivity. Qed.
Example C37_sample_printed : printed sample_empty_while
  = ["public class Foo {"; "  void bar() {"; "    while (x);"; "  }"; "}"; ""].
Proof. vm_compute. reflexivity. Qed.

(* ------------------------------------------------------------------ C38 *)

(* Two files of the grammar without comments that differ in a word or sign give
   different outputs, even with different configurations. *)
Theorem C38_outputs_differ_partial :
  forall (checked checked' : bool) (stack stack' : nat) (cfg cfg' : config) (root root' : node) (out out' : ustr),
    source_tree root -> source_tree root' ->
    format_tree checked stack cfg root = Ok out -> format_tree checked' stack' cfg' root' = Ok out' ->
    flat_map (fun token => bits (n_text token)) (leaves root) <> flat_map (fun token => bits (n_text token)) (leaves root') ->
    out <> out'.
Proof.
  intros checked checked' stack stack' cfg cfg' root root' out out' S S' H H' N E. apply N.
  pose proof (format_bits _ _ _ _ _ S H) as B. pose proof (format_bits _ _ _ _ _ S' H') as B'.
  unfold bits_of in *. rewrite <- B, <- B', E. reflexivity.
Qed.
Print Assumptions C38_outputs_differ_partial.
Example C38_sample : source_tree sample_empty_while /\ source_tree sample_tokens /\
  flat_map (fun token => bits (n_text token)) (leaves sample_empty_while) <> flat_map (fun token => bits (n_text token)) (leaves sample_tokens).
Proof. split; [exact C37_sample|]. split; [exact (proj1 C35_sample)|]. vm_compute. discriminate. Qed.
