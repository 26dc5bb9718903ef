(* SpecLexed.v: comments as a parser finds them. *)
From Verif Require Import Base Cst SpecTree SpecText.
Local Open Scope string_scope.

(* A line comment begins with two slashes; a block comment is one block comment. *)
Definition lexed_comments (root : node) : Prop :=
  forall n, In n (all_nodes root) -> n_extra n = true ->
    if has_kind "line_comment" n then starts_with (U "//") (n_text n) = true else one_block_comment (n_text n).
