(* PropertiesText.v: the text of printed block comments.  Statements only; proofs
   are in TextProofs*.v, the vocabulary ([printed], [at_indent], [words_of],
   [one_block_comment], ...) in SpecText.v. *)
From Verif Require Import Base Doc Cst Comments SpecComments SpecText TextProofs4 Trees.
Local Open Scope string_scope.

(* A comment node with text [s], for the examples. *)
Definition comment_node (s : string) : node := hd (tree (br "parser_output" [])) (children (tree (br "parser_output" [bcom s]))).
Definition comment_value (s : string) : comment :=
  match comment_of [] (comment_node s) [] with Ok c => c | _ =>
    {| c_id := 0; c_value := []; c_line := true; c_leading := false; c_trailing := false; c_above := false;
       c_below := false; c_prev := false; c_bracket := false |} end.

Ltac checks :=
  match goal with
  | |- _ /\ _ => split; checks
  | |- _ = _ => vm_compute; reflexivity
  | |- block_comment_of _ _ => split; [vm_compute; reflexivity|exists [], []; vm_compute; reflexivity]
  | _ => idtac
  end.

(* ------------------------------------------------------------------ C30 *)
(* Printing a JavaDoc comment, at any indentation, and reading the printed text
   as a comment again prints the same. *)
Theorem C30_javadoc_idempotent :
  forall (n : node) (c : comment) (i w : N) (n' : node) (c' : comment),
    block_comment_of n c -> starts_with (U "/**") (n_text n) = true ->
    block_comment_of n' c' -> n_text n' = printed c i w ->
    forall i' w', printed c' i' w' = printed c i' w'.
Proof. exact javadoc_again. Qed.
Print Assumptions C30_javadoc_idempotent.

Example C30_case :
  let n := comment_node "/** First

      second   *
   ** third **/" in
  let c := comment_value "/** First

      second   *
   ** third **/" in
  block_comment_of n c /\ starts_with (U "/**") (n_text n) = true /\
  printed c 2 80 = U "/**
   * First
   *
   * second   *
   * ** third *
   */".
Proof.
  cbv zeta. checks.
Qed.
(* ... and a second node with exactly the printed text. *)
Example C30_case_again :
  let c := comment_value "/** First
   second */" in
  let s := "/**
       * First
       * second
       */" in
  block_comment_of (comment_node s) (comment_value s) /\
  n_text (comment_node s) = printed c 6 80 /\ printed (comment_value s) 0 80 = printed c 0 80.
Proof.
  cbv zeta. checks.
Qed.

(* ------------------------------------------------------------------ C31 *)
(* An ordinary block comment prints its source lines, each without surrounding
   white space, one below the other at the indentation: none added, none dropped. *)
Theorem C31_block_comment_lines :
  forall (n : node) (c : comment) (i w : N),
    block_comment_of n c -> starts_with (U "/**") (n_text n) = false ->
    printed c i w = at_indent i (map trim (split_on c_nl (trim_end (n_text n)))).
Proof. exact block_source_lines. Qed.
Print Assumptions C31_block_comment_lines.

(* Hence its words are the words of the source, in order. *)
Theorem C31_block_comment_words :
  forall (n : node) (c : comment) (i w : N),
    block_comment_of n c -> starts_with (U "/**") (n_text n) = false ->
    words_of (printed c i w) = words_of (n_text n).
Proof. exact block_source_words. Qed.
Print Assumptions C31_block_comment_words.

(* Reading it again changes nothing. *)
Theorem C31_block_comment_idempotent :
  forall (n : node) (c : comment) (i w : N) (n' : node) (c' : comment),
    block_comment_of n c -> starts_with (U "/*") (n_text n) = true ->
    block_comment_of n' c' -> n_text n' = printed c i w ->
    forall i' w', printed c' i' w' = printed c i' w'.
Proof. exact printed_again. Qed.
Print Assumptions C31_block_comment_idempotent.

Example C31_case :
  let s := "/* one   two

        * three
   */" in
  block_comment_of (comment_node s) (comment_value s) /\
  starts_with (U "/**") (n_text (comment_node s)) = false /\
  starts_with (U "/*") (n_text (comment_node s)) = true /\
  printed (comment_value s) 2 80 = (U "/* one   two" ++ c_nl :: U "  " ++ U "
  * three
  */")%list /\
  words_of (n_text (comment_node s)) = map U ["/*"; "one"; "two"; "*"; "three"; "*/"].
Proof.
  cbv zeta. checks.
Qed.

(* ------------------------------------------------------------------ C51 *)
(* What is printed for a block comment is again exactly one block comment: it is
   opened at its start and closed at its end, and nowhere before. *)
Theorem C51_printed_comment_is_one_comment :
  forall (n : node) (c : comment) (i w : N),
    block_comment_of n c -> one_block_comment (n_text n) -> one_block_comment (printed c i w).
Proof. exact printed_is_one_comment. Qed.
Print Assumptions C51_printed_comment_is_one_comment.

Example C51_case :
  let s := "/**/" in
  block_comment_of (comment_node s) (comment_value s) /\ one_block_comment (n_text (comment_node s)) /\
  printed (comment_value s) 0 80 = U "/**
 */".
Proof.
  cbv zeta. checks. exists []. split; [vm_compute; reflexivity|]. intros a b H.
  destruct a as [|x [|y a]]; [injection H as <-; reflexivity| |]; cbn in H.
  + injection H as _ H. discriminate.
  + injection H as _ _ H. destruct a; discriminate.
Qed.

(* ------------------------------------------------------------------ C52 *)
(* A JavaDoc comment keeps all its characters except stars and white space, in
   order. *)
Theorem C52_javadoc_keeps_characters :
  forall (n : node) (c : comment) (i w : N),
    block_comment_of n c -> one_block_comment (n_text n) -> starts_with (U "/**") (n_text n) = true ->
    plain_chars (printed c i w) = plain_chars (n_text n).
Proof. exact javadoc_source_chars. Qed.
Print Assumptions C52_javadoc_keeps_characters.

Example C52_case :
  let s := "/** a * b */" in
  block_comment_of (comment_node s) (comment_value s) /\ one_block_comment (n_text (comment_node s)) /\
  starts_with (U "/**") (n_text (comment_node s)) = true /\
  plain_chars (n_text (comment_node s)) = U "/ab/" /\
  printed (comment_value s) 0 80 = U "/**
 * a * b
 */".
Proof.
  cbv zeta. checks. exists (U "* a * b "). split; [vm_compute; reflexivity|]. intros a b H.
    do 10 (destruct a as [|? a]; [injection H; intros; subst; try discriminate; reflexivity|
      cbn in H; injection H as _ H]).
    destruct a; discriminate.
Qed.

(* Stars are not kept: text before the closing sign on the last line keeps its
   star although a new one is put in front. *)
Theorem C52_star_doubled_refuted :
  exists (n : node) (c : comment),
    block_comment_of n c /\ n_text n = U "/**
 * a
 * b */" /\
    printed c 0 80 = U "/**
 * a
 * * b
 */".
Proof.
  exists (comment_node "/**
 * a
 * b */"), (comment_value "/**
 * a
 * b */"). checks.
Qed.
Print Assumptions C52_star_doubled_refuted.
