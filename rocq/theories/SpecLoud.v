(* SpecLoud.v: the places whose comments are not printed, so that afmt refuses the file. *)
From Verif Require Import Base Cst SpecTree SpecOrder SpecTokens SpecArrange.
Local Open Scope string_scope.
Local Open Scope list_scope.

(* Kinds of nodes that are printed without the comments in front of them and behind them. *)
Definition mute_kinds : list string := ["parser_output"; "annotation_argument_list"; "dml_security_mode"; "switch_label";
  "find_clause"; "offset_clause"; "with_division_expression"; "with_type"].
(* Kinds of nodes that are printed without the comments behind them. *)
Definition mute_ends : list string := ["constructor_body"; "enum_body"].
(* Children that are printed without their comments: kind of the parent, field and kind of
   the child; "" stands for any field or kind. *)
Definition mute_children : list (string * string * string) :=
  [("dml_security_mode", "", ""); ("dml_type", "", ""); ("trigger_event", "", ""); ("modifier", "", "");
   ("type_parameter", "", "type_identifier"); ("generic_type", "", "type_identifier");
   ("scoped_type_identifier", "", "type_identifier"); ("when_sobject_type", "", "identifier");
   ("enhanced_for_statement", "body", ";"); ("for_statement", "body", ";");
   ("explicit_constructor_invocation", "constructor", "");
   ("comparison_expression", "", "set_comparison_operator"); ("comparison_expression", "", "value_comparison_operator");
   ("date_literal_with_param", "", ""); ("storage_identifier", "", "dotted_identifier");
   ("find_clause", "", "term"); ("sobject_return", "", "selected_fields"); ("sosl_using_clause", "", "");
   ("with_division_expression", "", "string_literal"); ("with_network_expression", "", "set_comparison_operator");
   ("with_network_expression", "", "value_comparison_operator"); ("with_type", "", "")].
(* ... and the ELSE of a switch label. *)
Definition mute_child (n c : node) : bool :=
  (has_kind "else" c && negb (has_kind "if_statement" n)) ||
  existsb (fun e : string * string * string =>
    let '(p, f, k) := e in
    has_kind p n && (String.eqb f "" || has_field f c) && (String.eqb k "" || has_kind k c)) mute_children.

(* No comments at these places; and none behind braces with nothing but comments in them. *)
Definition loud_places (root : node) : Prop :=
  forall n, In n (all_nodes root) -> n_extra n = false ->
  (kind_in (n_kind n) mute_kinds = true -> no_comments_at root n) /\
  (kind_in (n_kind n) mute_ends = true \/ lone_comments n -> comments_at root (n_id n) Trailing = []) /\
  (forall c, In c (children n) -> mute_child n c = true -> no_comments_at root c) /\
  (no_condition n -> forall c, In c (children n) -> n_kind c = ";" -> no_comments_at root c).
