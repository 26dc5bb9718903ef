(* SpecSupported.v: the files that afmt can read.  Specification only. *)
From Verif Require Import Base Cst SpecTree New SpecTokens.
Local Open Scope string_scope.
Local Open Scope list_scope.

(* What the grammar of SpecTokens.v leaves open and the reader insists on: the type behind
   [new] is no array type when braces or sizes follow, a property has an accessor, [merge]
   has a second record, a query has no WITH but a mode or a user, and a search no WITH but
   those of searches. *)
Record supported (root : node) : Prop := {
  su_type : forall n c, In n (all_nodes root) ->
    kind_in (n_kind n) ["array_creation_expression"; "map_creation_expression"] = true ->
    In c (children n) -> n_field c = Some "type" -> n_kind c <> "array_type";
  su_accessor : forall n, In n (all_nodes root) -> n_kind n = "accessor_list" ->
    exists c, In c (children n) /\ n_named c = true /\ n_kind c = "accessor_declaration";
  su_merge : forall n v m, In n (all_nodes root) -> n_kind n = "dml_expression" ->
    In v (children n) -> n_kind v = "dml_type" -> In m (children v) -> n_kind m = "merge" ->
    exists c, In c (children n) /\ n_field c = Some "merge_with";
  su_query : forall q w v c, In q (all_nodes root) -> n_kind q = "soql_query_body" ->
    In w (children q) -> n_kind w = "with_clause" -> In v (children w) -> n_kind v = "with_type" ->
    In c (children v) -> n_named c = true -> n_kind c = "with_user_id_type";
  su_search : forall q w v, In q (all_nodes root) -> n_kind q = "sosl_query_body" ->
    In w (children q) -> n_kind w = "with_clause" -> In v (children w) -> n_kind v = "with_type" ->
    exists c, In c (children v) /\ n_named c = true /\ n_extra c = false /\ n_kind c <> "with_user_id_type"
}.

(* Only the first member of a body is on the first row of the file. *)
Definition member_bodies : list string := ["parser_output"; "class_body"; "interface_body"; "block"; "constructor_body"].
Definition later_rows (root : node) : Prop :=
  forall n a x b y, In n (all_nodes root) -> kind_in (n_kind n) member_bodies = true ->
    children n = a ++ x :: b -> n_named x = true -> n_extra x = false ->
    In y b -> n_named y = true -> n_srow y <> 0%N.
