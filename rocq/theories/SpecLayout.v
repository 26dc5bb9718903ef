(* SpecLayout.v: when two syntax trees stand for the same source text up to its
   layout.  Specification only.

   The trees have the same shape, and the words that afmt takes over have the same
   text.  Nothing is said about columns, about the case of keywords, about the
   identities of nodes, nor about line breaks, except that
     - a blank line between two members of a body is there in both or in neither;
     - a comment stands on the row of its neighbours, on the next row or further
       away in both. *)
From Coq Require Import Sorting.Sorted.
From Verif Require Import Base Cst.
Local Open Scope string_scope.
Local Open Scope list_scope.

(* ------------------------------------------------------------ text *)

Definition parent_kind (p : option node) : string := match p with Some q => n_kind q | None => "" end.
Definition parent_field (f : string) (p : option node) : bool := match p with Some q => has_field f q | None => false end.

(* Words, by the field they stand in: names, operators, the values in annotations,
   the object of a trigger. *)
Definition word_field (p : option node) (n : node) : bool :=
  existsb (fun f => has_field f n)
    ["name"; "key"; "operator"; "accessor"; "function_name"; "version_num"; "field"]
  || has_field "value" n && (parent_field "arguments" p || (parent_kind p =? "annotation_key_value")%string)
  || has_field "object" n && (parent_kind p =? "trigger_declaration")%string.
(* ... and by their kind. *)
Definition word_kind (n : node) : bool :=
  kind_in (n_kind n)
    ["identifier"; "type_identifier"; "void_type"; "int"; "decimal"; "string_literal"; "boolean"; "null_literal";
     "date"; "date_literal"; "in_type"; "field"; "using_scope_type"; "order_direction"; "order_null_direction";
     "for_type"; "assignment_operator"; "update_type"; "term"; "value_comparison_operator";
     "set_comparison_operator"; "user"; "system"; "else"; "line_comment"; "block_comment"]
  || has_kind "with_type" n && negb (existsb n_named (children n)).

(* Literals whose case is normalised. *)
Definition in_lower_case (p : option node) (n : node) : bool :=
  has_kind "decimal_floating_point_literal" n
  || kind_in (n_kind n) ["boolean"; "null_literal"]
     && negb (has_field "bound_value" n)
     && negb (kind_in (parent_kind p) ["comparison_expression"; "comparable_list"; "with_network_expression";
                                        "with_spell_correction_expression"]).
Definition in_upper_case (p : option node) (n : node) : bool :=
  kind_in (n_kind n) ["fields_type"; "with_data_cat_filter_type"]
  || has_kind "date_literal" n && (parent_kind p =? "date_literal_with_param")%string.

Definition same_text (p : option node) (n n' : node) : Prop :=
  if word_field p n then n_text n = n_text n'
  else if in_lower_case p n then to_lowercase (n_text n) = to_lowercase (n_text n')
  else if in_upper_case p n then to_uppercase (n_text n) = to_uppercase (n_text n')
  else if word_kind n then n_text n = n_text n'
  else True.

(* ------------------------------------------------------------ rows *)

(* Where [b] begins, seen from the end of [a]: 1 on the same row, 2 on the next one,
   3 further down. *)
Definition rows_apart (a b : node) : nat :=
  if (n_srow b <? n_erow a)%N then 0
  else if (n_srow b =? n_erow a)%N then 1
  else if (n_srow b =? n_erow a + 1)%N then 2 else 3.

(* The nodes that have members: between members only blank lines matter. *)
Definition has_members (n : node) : bool :=
  kind_in (n_kind n) ["parser_output"; "class_body"; "interface_body"; "block"; "constructor_body"]
  || has_field "body" n.

(* What matters about the rows of a child [a] of [p] and the next one [b]: how far
   they are apart if one of them is a comment, and whether there is a blank line
   between members.  The first row of the file is special, see C32_first_row_refuted. *)
Definition gap (p a b : node) : nat * nat :=
  ((if n_extra a || n_extra b then rows_apart a b else 0),
   (if has_members p
    then if (n_srow b =? 0)%N then 2 else if (n_erow a + 1 <? n_srow b)%N then 1 else 0
    else 0)).

(* The same if the first row were not special. *)
Definition plain_gap (p a b : node) : nat * nat :=
  ((if n_extra a || n_extra b then rows_apart a b else 0),
   (if has_members p && (n_erow a + 1 <? n_srow b)%N then 1 else 0)).

Section Spacing.
  Variable gp : node -> node -> node -> nat * nat.
  Variable p : node.
  (* The gaps between the named children [cs] of [p], and for each comment whether it
     ends on the row on which the code before it ends.  [prev] is the named child and
     [last] the named child, comma, semicolon or `else` before [cs], comments apart. *)
  Fixpoint spacing (prev last : option node) (cs : list node) : list (nat * nat) :=
    match cs with
    | [] => []
    | c :: r =>
        (if n_named c then match prev with Some a => [gp p a c] | None => [] end else [])
        ++ (if n_extra c then match last with
                              | Some a => [if (n_erow c =? n_erow a)%N then (1, 0) else (0, 0)]
                              | None => []
                              end else [])
        ++ spacing (if n_named c then Some c else prev)
                   (if negb (n_extra c) && (n_named c || kind_in (n_kind c) [","; ";"; "else"]) then Some c else last)
                   r
    end.
End Spacing.

(* ------------------------------------------------------------ trees *)

Definition same_node (n n' : node) : Prop :=
  n_kind n = n_kind n' /\ n_named n = n_named n' /\ n_extra n = n_extra n' /\ n_field n = n_field n'.

(* The children of a node stand one behind the other. *)
Definition in_sequence (n : node) : Prop :=
  StronglySorted (fun a b => (n_sbyte a < n_sbyte b)%N) (children n).

Section Alike.
  Variable gp : node -> node -> node -> nat * nat.
  Inductive alike_by : option node -> node -> node -> Prop :=
  | Alike p n n' :
      same_node n n' -> same_text p n n' ->
      (n_extra n = true -> n_named n = true) ->                  (* comments are named nodes *)
      in_sequence n -> in_sequence n' ->
      spacing gp n None None (children n) = spacing gp n' None None (children n') ->
      Forall2 (alike_by (Some n)) (children n) (children n') ->
      alike_by p n n'.
End Alike.
(* The trees [n] and [n'] of the same code; [p] is the parent of [n]. *)
Definition alike := alike_by gap.
