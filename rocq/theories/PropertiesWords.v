(* PropertiesWords.v: C54, formatting neither joins nor splits words.
   Specification: SpecWords.v ([bits], the words and signs of a text) and
   SpecTokens.v ([leaves], [source_tree]). *)
From Coq Require Import Permutation.
From Verif Require Import Base SpecDoc DocProofs Cst Formatter SpecTree SpecWords SpecTokens SpecText SpecArrange SpecLexed WordsFormat WordsComments TextProofs3 Trees Samples SamplesTokens SamplesArrange PropertiesTokens PropertiesArrange.
Local Open Scope string_scope.
Local Open Scope list_scope.

(* For every file without comments that follows the grammar, every width, stack and
   build: the words of the output are those of the tokens of the source, in the same
   order.  No two words are printed without a gap between them, no word is split,
   and no word or sign is added or lost.  Only the case of letters may differ. *)
Theorem C54_words_partial :
  forall checked stack cfg root out,
    source_tree root -> format_tree checked stack cfg root = Ok out ->
    bits out = flat_map (fun token => bits (n_text token)) (leaves root).
Proof. exact format_bits. Qed.
Print Assumptions C54_words_partial.

(* They are also those of the source text as a whole, if it has neither comments
   nor parentheses that afmt drops. *)
Theorem C54_same_words_partial :
  forall checked stack cfg root out,
    file_tree root -> untouched root -> format_tree checked stack cfg root = Ok out ->
    bits out = bits (n_text root).
Proof. exact format_bits_text. Qed.
Print Assumptions C54_same_words_partial.

(* The hypotheses hold for a class with most statements and for queries; the words
   and signs are many. *)
Example C54_sample : source_tree sample_tokens /\ source_tree sample_queries.
Proof. split; [exact (proj1 C35_sample)|exact C35_sample_queries]. Qed.
Example C54_sample_words :
  match format_tree true 100 narrow sample_tokens with
  | Ok out => map show (firstn 20 (bits out))
  | _ => []
  end = ["@"; "istest"; "public"; "with"; "sharing"; "class"; "demo"; "extends"; "base"; "implements"; "a"; ","; "b";
         "{"; "private"; "map"; "<"; "id"; ","; "string"].
Proof. vm_compute. reflexivity. Qed.

(* Foo() { a.super(x); } *)
Definition sample_super : node :=
  tree (cls
    [br "constructor_declaration"
       [tokf "name" "identifier" "Foo"; brf "parameters" "formal_parameters" [an "("; an ")"];
        brf "body" "constructor_body"
          [an "{";
           br "explicit_constructor_invocation"
             [tokf "object" "identifier" "a"; an "."; tokf "constructor" "super" "super";
              brf "arguments" "argument_list" [an "("; id_ "x"; an ")"]; an ";"];
           an "}"]]]).
(* Beyond [source_tree] the claim is false: the dot before [super] is lost and the
   two words become one. *)
Theorem C54_super_refuted :
  exists root out, outside root /\ format_tree true 100 narrow root = Ok out /\
    bits out <> bits (n_text root) /\ In (U "asuper") (bits out) /\ ~ In (U "asuper") (bits (n_text root)).
Proof.
  exists sample_super. eexists. split; [apply outsideb_ok; vm_compute; reflexivity|].
  split; [vm_compute; reflexivity|]. split; [vm_compute; discriminate|]. split.
  - vm_compute. tauto.
  - vm_compute. intuition discriminate.
Qed.
Print Assumptions C54_super_refuted.
Example C54_super_printed : printed sample_super
  = ["public class Foo {"; "  Foo() {"; "    asuper(x);"; "  }"; "}"; ""].
Proof. vm_compute. reflexivity. Qed.

(* void bar() { y = - -x; } *)
Definition sample_minus : node :=
  tree (cls [meth
    [br "expression_statement"
       [br "assignment_expression"
          [tokf "left" "identifier" "y"; tokf "operator" "assignment_operator" "=";
           brf "right" "unary_expression"
             [anf "operator" "-";
              brf "operand" "unary_expression" [anf "operator" "-"; tokf "operand" "identifier" "x"]]];
        an ";"]]]).
Lemma none_is s l : forallb (fun n => negb (ustr_eqb (n_text n) s)) l = true -> forall n, In n l -> n_text n <> s.
Proof.
  intros H n Hn E. apply (proj1 (forallb_forall _ _) H) in Hn. rewrite E, ustr_eqb_refl in Hn. discriminate.
Qed.
(* Signs, unlike words, may come to touch: the output has a decrement that is not
   in the source. *)
Theorem C54_signs_refuted :
  exists root out, source_tree root /\ format_tree true 100 narrow root = Ok out /\
    (forall token, In token (leaves root) -> n_text token <> U "--") /\
    exists a b, out = a ++ U "--" ++ b.
Proof.
  exists sample_minus. eexists. split; [apply source_treeb_ok; vm_compute; reflexivity|].
  split; [vm_compute; reflexivity|]. split.
  - apply none_is. vm_compute. reflexivity.
  - exists (U "public class Foo {" ++ [c_nl] ++ U "  void bar() {" ++ [c_nl] ++ U "    y = "), (U "x;" ++ [c_nl] ++ U "  }" ++ [c_nl] ++ U "}" ++ [c_nl]).
    vm_compute. reflexivity.
Qed.
Print Assumptions C54_signs_refuted.

(* With comments: the words and signs of the output are those of the tokens and of the
   lines of the comments in some order [order], in which the tokens are in the order of the
   source and each comment stands once.  No word of the code is joined with its neighbour
   or with a comment, or split by a comment.
   Missing for the full claim: the places of C05 ([simple_places]), comments alone in
   brackets other than braces, and the constructs left out by [file_tree]. *)
Theorem C54_words_comments_partial :
  forall (checked : bool) (stack : nat) (cfg : config) (root : node) (out : ustr),
    file_tree root -> distinct_ids root -> comments_in_braces root -> simple_places root -> lexed_comments root ->
    format_tree checked stack cfg root = Ok out ->
    exists order,
      bits out = flat_map (fun token => bits (n_text token)) (flat_map as_lines order) /\
      filter (fun n => negb (n_extra n)) order = leaves root /\
      Permutation (filter n_extra order) (comments_of root).
Proof. exact format_comment_bits. Qed.
Print Assumptions C54_words_comments_partial.

(* Hence each word is in the output as often as in the tokens and comments. *)
Theorem C54_word_counts_partial :
  forall (checked : bool) (stack : nat) (cfg : config) (root : node) (out : ustr),
    file_tree root -> distinct_ids root -> comments_in_braces root -> simple_places root -> lexed_comments root ->
    format_tree checked stack cfg root = Ok out ->
    Permutation (bits out)
      (flat_map (fun token => bits (n_text token)) (leaves root) ++ flat_map bits (flat_map comment_lines (comments_of root))).
Proof. exact format_comment_words. Qed.
Print Assumptions C54_word_counts_partial.

Definition inside (s : ustr) : ustr := firstn (List.length s - 4) (skipn 2 s).
Definition lexedb (root : node) : bool :=
  forallb (fun n => implb (n_extra n)
    (if has_kind "line_comment" n then starts_with (U "//") (n_text n)
     else ustr_eqb (n_text n) (U "/*" ++ inside (n_text n) ++ U "*/") && negb (has_close (inside (n_text n))))) (all_nodes root).
Lemma lexedb_ok root : lexedb root = true -> lexed_comments root.
Proof.
  intros H n Hn X. unfold lexedb in H. rewrite forallb_forall in H. specialize (H n Hn). rewrite X in H. cbn [implb] in H.
  destruct (has_kind "line_comment" n); [exact H|]. apply andb_prop in H as [H1 H2]. apply ustr_eqb_eq in H1. apply Bool.negb_true_iff in H2.
  apply one_block_iff. eauto.
Qed.
(* for [simple_places] see C55_sample, for the rest and the output C35_sample_comments *)
Example C54_sample_comments : simple_places sample_comments /\ lexed_comments sample_comments.
Proof. split; [exact (proj1 C55_sample)|apply lexedb_ok; vm_compute; reflexivity]. Qed.
Example C54_sample_comments_words :
  match format_tree true 100 narrow sample_comments with
  | Ok out => map show (firstn 24 (bits out))
  | _ => []
  end = ["/"; "*"; "*"; "*"; "a"; "demo"; "."; "*"; "/"; "public"; "/"; "*"; "the"; "*"; "/"; "class"; "demo"; "{"; "/"; "/"; "runs"; "integer"; "run"; "("].
Proof. vm_compute. reflexivity. Qed.
