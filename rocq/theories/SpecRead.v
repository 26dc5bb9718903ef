(* SpecRead.v: what the properties about reading a tree say, independently of the
   functions of afmt that read it. *)
From Verif Require Import Base Cst SpecTree SpecComments.
Local Open Scope string_scope.

(* The number of nodes on the longest path from a node to a leaf. *)
Fixpoint height (n : node) : nat :=
  match n with Node _ cs => S (fold_right (fun c m => Nat.max (height c) m) 0 cs) end.

(* ---- what the grammar guarantees ---- *)

(* The filter expressions of the query grammar. *)
Definition filter_kinds : list string :=
  ["and_expression"; "or_expression"; "not_expression"; "comparison_expression"].
(* The nodes whose operands are filter expressions. *)
Definition filter_parents : list string :=
  ["where_clause"; "having_clause"; "and_expression"; "or_expression"; "not_expression"].
(* Operands of conditions are filter expressions. *)
Definition filters_known (root : node) : Prop :=
  forall n c, In n (all_nodes root) -> In c (children n) ->
    kind_in (n_kind n) filter_parents = true -> n_named c = true -> n_extra c = false ->
    kind_in (n_kind c) filter_kinds = true.

(* Comments are of the two kinds of comments. *)
Definition extras_are_comments (root : node) : Prop :=
  forall n, In n (all_nodes root) -> n_extra n = true ->
    kind_in (n_kind n) ["line_comment"; "block_comment"] = true.

(* The fields of the grammar that hold a named node or one of `,` `;` `else`: all
   but the operators of unary, binary and update expressions, and the words
   `get` and `set`, which are plain tokens. *)
Definition node_fields : list string :=
  ["alternative"; "arguments"; "array"; "body"; "bound_value"; "condition"; "consequence";
   "dimensions"; "element"; "field"; "from_clause"; "index"; "left"; "merge_with"; "object";
   "operand"; "parameters"; "right"; "select_clause"; "target"; "type"; "user";
   "using_lookup_clause"; "value"; "group_by_clause"; "init"; "limit_clause"; "offset_clause";
   "order_by_clause"; "update"; "upsert_key"; "where_clause"; "with_clause"; "all_rows_clause";
   "version_num"; "function_name"; "key"; "name"; "declarator"].
Definition node_field (parent_kind f : string) : bool :=
  kind_in f node_fields || (String.eqb f "operator" && String.eqb parent_kind "assignment_expression").
Definition fields_hold_nodes (root : node) : Prop :=
  forall n c f, In n (all_nodes root) -> In c (children n) ->
    n_field c = Some f -> node_field (n_kind n) f = true -> code c = true.

Record grammatical (root : node) : Prop := {
  gr_root : code root = true;
  gr_extras : extras_are_comments root;
  gr_fields : fields_hold_nodes root;
  gr_filters : filters_known root
}.

(* ---- where printed text comes from ---- *)

(* The words and signs the printer adds by itself, or prints in place of a token
   with the same meaning. *)
Definition fixed_pieces : list string :=
  [""; " "; " : "; " = "; " => "; " catch "; " extends "; " finally "; " instanceof "; " on ";
   " while "; "("; "()"; "(TARGET_LENGTH = "; ")"; ") "; ","; "."; ".class"; ":"; ": "; ";"; "<";
   "="; ">"; "? "; "?."; "@"; "ALL ROWS"; "AND "; "BIND "; "DATA CATEGORY"; "DIVISION = ";
   "FIELDS"; "FIELDS("; "FIND "; "FOR "; "FROM "; "GROUP BY "; "HAVING"; "HIGHLIGHT"; "IN ";
   "LIMIT "; "LOOKUP "; "ListView = "; "METADATA = "; "NETWORK"; "NOT "; "OFFSET "; "OR ";
   "ORDER BY "; "Package.Version."; "PriceBookId = "; "RETURNING"; "Request"; "SCOPE "; "SELECT";
   "SNIPPET"; "SPELL_CORRECTION = "; "System.runAs"; "UPDATE "; "USING "; "UserId = "; "WHERE";
   "WITH "; "["; "[]"; "]"; "as "; "boolean"; "break"; "class "; "continue"; "do "; "else";
   "enum "; "extends "; "for "; "for ("; "if "; "implements "; "interface "; "java:"; "new";
   "new "; "return"; "static "; "super"; "switch on"; "this"; "throw "; "trigger "; "try ";
   "when "; "while "; "{"; "}";
   (* modifiers *)
   "abstract"; "final"; "global"; "override"; "private"; "protected"; "public"; "static";
   "transient"; "virtual"; "testMethod"; "webService"; "with sharing"; "without sharing";
   "inherited sharing";
   (* trigger events *)
   "before insert"; "before update"; "before delete"; "after insert"; "after update";
   "after delete"; "after undelete";
   (* data manipulation, search *)
   "insert"; "update"; "delete"; "undelete"; "merge"; "upsert"; "PHRASE SEARCH"; "ADVANCED SEARCH";
   (* binary operators *)
   "+="; "-="; "*="; "/="; "&="; "|="; "^="; "%="; "<<="; ">>="; ">>>="; "?"; "||"; "??"; "&&";
   "|"; "^"; "&"; "=="; "!="; "==="; "!=="; "<>"; ">="; "<="; "instanceof"; "<<"; ">>"; ">>>";
   "+"; "-"; "*"; "/"; "%"; "!"; "~"; "++"; "--"].
Definition fixed_piece (s : ustr) : Prop := In s (map U fixed_pieces).

(* Text of the source: the text of a node, possibly in another case, quoted or
   between spaces; and a date literal joined with its number. *)
Inductive source_piece (root : node) : ustr -> Prop :=
| SP_text n : In n (all_nodes root) -> source_piece root (n_text n)
| SP_lower n : In n (all_nodes root) -> source_piece root (to_lowercase (n_text n))
| SP_upper n : In n (all_nodes root) -> source_piece root (to_uppercase (n_text n))
| SP_quoted n : In n (all_nodes root) -> source_piece root (U "'" ++ n_text n ++ U "'")%list
| SP_spaced n : In n (all_nodes root) -> source_piece root (U " " ++ n_text n ++ U " ")%list
| SP_date n m : In n (all_nodes root) -> In m (all_nodes root) ->
    source_piece root (to_uppercase (n_text n) ++ U ":" ++ n_text m)%list.

(* A line of a comment of the source, in its printed form. *)
Definition comment_piece (root : node) (s : ustr) : Prop :=
  exists c, In c (all_nodes root) /\ n_extra c = true /\
    In s (normal_lines (has_kind "line_comment" c) (trim_end (n_text c))).
