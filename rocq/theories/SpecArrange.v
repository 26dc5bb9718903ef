(* SpecArrange.v: the tokens and comments of a tree in one list. *)
From Verif Require Import Base Cst SpecTree SpecOrder SpecTokens.
Local Open Scope string_scope.
Local Open Scope list_scope.

(* All tokens and comments, in source order, without needless parentheses. *)
Fixpoint everything (n : node) : list node :=
  match n with
  | Node _ [] => [n]
  | Node _ cs => flat_map (fun c => if spare n c then [] else everything c) cs
  end.
Definition comments_of (root : node) : list node := filter n_extra (all_nodes root).

(* A token that stands for a line of a comment. *)
Definition line_token (w : ustr) : node :=
  Node {| i_id := 0; i_kind := ""; i_named := true; i_extra := true; i_error := false; i_field := None;
          i_srow := 0; i_erow := 0; i_sbyte := 0; i_ebyte := 0; i_text := w |} [].
(* The tokens to be printed for a token or comment: for a comment, its lines. *)
Definition as_lines (n : node) : list node :=
  if n_extra n then map line_token (comment_lines n) else [n].

(* Names, literals, named words and comments: everything but signs and unnamed words. *)
Definition fixed (n : node) : bool := n_extra n || n_named n.

(* Comments start with a visible sign. *)
Definition visible_comments (root : node) : Prop :=
  forall n, In n (all_nodes root) -> n_extra n = true ->
  starts_with (U "//") (n_text n) = true \/ starts_with (U "/*") (n_text n) = true.

(* The comments at a node, in front of it and behind it. *)
Definition no_comments_at (root n : node) : Prop :=
  comments_at root (n_id n) Leading = [] /\ comments_at root (n_id n) Trailing = [].
(* A for statement with initial expressions and without a condition. *)
Definition no_condition (n : node) : Prop :=
  n_kind n = "for_statement" /\ existsb (has_field "condition") (children n) = false /\
  existsb (fun c => has_field "init" c && negb (has_kind "local_variable_declaration" c)) (children n) = true.
(* The places that are not treated here: the comments at the type of a WITH clause,
   at the fields of a RETURNING clause and at the semicolons of such a for
   statement.  Some of them are printed twice. *)
Definition simple_places (root : node) : Prop :=
  forall n, In n (all_nodes root) -> n_extra n = false ->
  (n_kind n = "with_type" -> no_comments_at root n) /\
  (n_kind n = "sobject_return" -> forall c, In c (children n) -> n_kind c = "selected_fields" -> no_comments_at root c) /\
  (no_condition n -> forall c, In c (children n) -> n_kind c = ";" -> no_comments_at root c).

(* In front of a separator, line comments come last; an accessor has no comments
   both behind it and at its semicolon. *)
Definition line_comment (n : node) : bool := has_kind "line_comment" n.
Definition ordered_places (root : node) : Prop :=
  orderly root /\
  (forall s, In s (all_nodes root) -> separator s = true ->
     exists a b, comments_at root (n_id s) Leading = a ++ b /\
       Forall (fun c => line_comment c = false) a /\ Forall (fun c => line_comment c = true) b) /\
  (forall n c, In n (all_nodes root) -> n_kind n = "accessor_declaration" -> In c (children n) -> n_kind c = ";" ->
     comments_at root (n_id n) Trailing = [] \/ no_comments_at root c).

(* The names, literals ... and the lines of comments, in source order. *)
Definition landmarks (root : node) : list ustr :=
  flat_map (fun n => if n_extra n then comment_lines n else if verbatim n then [n_text n] else []) (everything root).
