(* SpecTokens.v: what the property about code tokens says.

   The tokens of a source file are the leaves of its syntax tree, without comments
   and without needless parentheses in the filters of queries.  [kept ls ws]
   says that the printed texts [ws] are these tokens, in this order.  The grammar
   below is the part of the Apex grammar for which it is proved: [rules] lists for
   every kind of node the sequences of children it may have.  A kind without rules
   may have any children; afmt prints the text of such a node as it is.  The
   grammar is that of the tree-sitter parser, which is not part of afmt. *)
From Coq Require Import Sorting.Sorted.
From Verif Require Import Base Cst Comments SpecComments SpecTree SpecWords.
Local Open Scope string_scope.

(* ------------------------------------------------------------ tokens *)

(* The parentheses in the filters of queries, which are children of these nodes. *)
Definition filter_nodes : list string :=
  ["where_clause"; "having_clause"; "and_expression"; "or_expression"; "not_expression"].
(* A condition of kind [c] in one of kind [k] needs parentheses. *)
Definition needs_group (k c : string) : bool :=
  if String.eqb k "and_expression" then kind_in c ["or_expression"; "not_expression"]
  else if String.eqb k "or_expression" then kind_in c ["and_expression"; "not_expression"]
  else if String.eqb k "not_expression" then kind_in c ["and_expression"; "or_expression"; "not_expression"]
  else false.
(* The other parentheses among the children [cs] of a node of kind [k]: all that
   stand around a condition which needs none, and all but the innermost pair around
   one that needs some.  [opened] are the parentheses opened before the next
   condition, innermost first; [closing] says that the next closing parenthesis is
   needed. *)
Fixpoint spare_among (k : string) (opened : list node) (closing : bool) (cs : list node) : list node :=
  match cs with
  | [] => opened
  | c :: r =>
      if n_named c
      then (if needs_group k (n_kind c) then tl opened else opened) ++ spare_among k [] (needs_group k (n_kind c)) r
      else if has_kind "(" c then spare_among k (c :: opened) false r
      else if has_kind ")" c
           then if closing then spare_among k opened false r else c :: spare_among k opened false r
           else spare_among k opened closing r
  end%list.
Definition spare_signs (n : node) : list node :=
  if kind_in (n_kind n) filter_nodes
  then spare_among (n_kind n) [] false (filter (fun c => negb (n_extra c)) (children n))
  else [].
(* [c] is a needless parenthesis of [n]. *)
Definition spare (n c : node) : bool :=
  if is_nil (spare_signs n) then false
  else negb (n_named c) && negb (n_extra c) && kind_in (n_kind c) ["("; ")"] &&
       match n_field c with None => true | Some _ => false end &&
       existsb (fun m => N.eqb (n_id m) (n_id c)) (spare_signs n).

(* The leaves of a tree, in order, without comments and needless parentheses. *)
Fixpoint leaves (n : node) : list node :=
  if n_extra n then []
  else match n with
       | Node _ [] => [n]
       | Node _ cs => flat_map (fun c => if spare n c then [] else leaves c) cs
       end.

(* The characters of a text that are not white space. *)
Definition visible (s : ustr) : ustr := filter (fun c => negb (is_ws c)) s.
(* ... up to the case of letters. *)
Definition folded (s : ustr) : ustr := to_lowercase (visible s).

(* Nodes that are one word of the language, written in any case, with that word. *)
Definition word_kinds : list (string * string) :=
  [("this", "this"); ("super", "super"); ("boolean_type", "boolean");
   ("safe_navigation_operator", "?.");
   (* modifiers *)
   ("abstract", "abstract"); ("final", "final"); ("global", "global"); ("override", "override");
   ("private", "private"); ("protected", "protected"); ("public", "public"); ("static", "static");
   ("transient", "transient"); ("virtual", "virtual"); ("testMethod", "testMethod");
   ("webservice", "webservice"); ("with_sharing", "with sharing");
   ("without_sharing", "without sharing"); ("inherited_sharing", "inherited sharing");
   (* trigger events *)
   ("before_insert", "before insert"); ("before_update", "before update");
   ("before_delete", "before delete"); ("after_insert", "after insert");
   ("after_update", "after update"); ("after_delete", "after delete");
   ("after_undelete", "after undelete");
   (* data manipulation *)
   ("insert", "insert"); ("update", "update"); ("delete", "delete"); ("undelete", "undelete");
   ("merge", "merge"); ("upsert", "upsert");
   (* queries *)
   ("all_rows_clause", "all rows"); ("using_phrase_search", "phrase search");
   ("using_advanced_search", "advanced search"); ("with_highlight", "highlight")].
(* Literals that may be written in any case. *)
Definition caseless_kinds : list string :=
  ["boolean"; "null_literal"; "decimal_floating_point_literal"; "fields_type";
   "with_data_cat_filter_type"; "date_literal"].
Definition keyword_kind (k : string) : bool := kind_in k (map fst word_kinds) || kind_in k caseless_kinds.
(* A token whose letters may be written in any case: everything but identifiers,
   numbers, strings and the like. *)
Definition keyword (n : node) : bool := negb (n_named n) || keyword_kind (n_kind n).

(* [woven ts s]: [s] consists of the texts [ts], verbatim and in this order, with
   only white space before, between and after them. *)
Inductive woven : list ustr -> ustr -> Prop :=
| Woven_end b : visible b = [] -> woven [] b
| Woven_text b t ts s : visible b = [] -> woven ts s -> woven (t :: ts) (b ++ t ++ s).

(* The words and signs of several nodes. *)
Definition bits_of (ns : list node) : list ustr := flat_map (fun n => bits (n_text n)) ns.

(* The printed texts [ws] are the tokens [ls], in the same order.  Blank texts and
   tokens without a visible character do not count.  Tokens are printed verbatim,
   one or several of them to a text, without joining or splitting words; only words
   of the language may be printed in another case. *)
Inductive kept : list node -> list ustr -> Prop :=
| Kept_end : kept [] []
| Kept_blank w ls ws : visible w = [] -> kept ls ws -> kept ls (w :: ws)
| Kept_nothing n ls ws : visible (n_text n) = [] -> kept ls ws -> kept (n :: ls) ws
| Kept_text ns v ls ws :
    woven (map n_text ns) v -> bits v = bits_of ns -> kept ls ws -> kept (ns ++ ls) (v :: ws)
| Kept_split v w ls ws :
    ends_word v && starts_word w = false -> kept ls (v :: w :: ws) -> kept ls ((v ++ w)%list :: ws)
| Kept_words ns vs ls ws :
    Forall (fun n => keyword n = true) ns ->
    bits_of ns = flat_map bits vs ->
    kept ls ws -> kept (ns ++ ls) (vs ++ ws).

(* The texts [ts] stand in [s], in this order and one behind the other. *)
Inductive in_turn : list ustr -> ustr -> Prop :=
| Turn_end s : in_turn [] s
| Turn_text b t ts s : in_turn ts s -> in_turn (t :: ts) (b ++ t ++ s).

(* Tokens that are not words of the language: names, numbers, strings ... *)
Definition verbatim (n : node) : bool := negb (keyword n) && negb (is_nil (visible (n_text n))).

(* ------------------------------------------------------------ sequences of children *)

Inductive item :=
| Sign (k : string)                              (* the word or sign k *)
| SignF (f k : string)                           (* ... in field f *)
| One (f : string) (ks : list string)            (* a node of one of the kinds ks, in field f *)
| Opt (f : string) (ks : list string)            (* ... at most one *)
| Rep (f : string) (ks : list string)            (* ... any number *)
| Sep (s f : string) (ks : list string)          (* ... at least one, separated by the sign s *)
| Verb (k : string) (ks : list string)           (* a node of kind k whose one child is of one of the kinds ks *)
| Word (w : string)                              (* the words w, as one token or several *)
| Link (w f : string) (ks : list string)         (* as Sep, with the words w for the sign *)
| Logic (w : string) (ps ks : list string).      (* conditions with the words w between them *)
(* The empty field name "" stands for any field that the rules of the kind do not name. *)

Definition item_field (i : item) : list string :=
  match i with
  | Sign _ | Verb _ _ | Word _ | Logic _ _ _ => []
  | SignF f _ | One f _ | Opt f _ | Rep f _ | Sep _ f _ | Link _ f _ => if String.eqb f "" then [] else [f]
  end.

(* The children of a node that are neither comments nor needless parentheses. *)
Definition code_children (n : node) : list node :=
  filter (fun c => negb (n_extra c || spare n c)) (children n).

Section Fits.
  Context {A : Type}.
  Variable nd : A -> node.
  Variable fs : list string.      (* the fields the rules name *)

  Definition in_field (f : string) (n : node) : Prop :=
    if String.eqb f "" then match n_field n with Some g => kind_in g fs = false | None => True end
    else n_field n = Some f.
  Definition sign (f k : string) (a : A) : Prop :=
    n_named (nd a) = false /\ n_kind (nd a) = k /\ in_field f (nd a).
  Definition branch (f : string) (ks : list string) (a : A) : Prop :=
    n_named (nd a) = true /\ kind_in (n_kind (nd a)) ks = true /\ in_field f (nd a).

  Definition verb (k : string) (ks : list string) (a : A) : Prop :=
    branch "" [k] a /\ exists c, code_children (nd a) = [c] /\ kind_in (n_kind c) ks = true.

  Inductive separated (s f : string) (ks : list string) : list A -> Prop :=
  | Sep_one a : branch f ks a -> separated s f ks [a]
  | Sep_more a x r : branch f ks a -> sign "" s x -> separated s f ks r -> separated s f ks (a :: x :: r).

  (* the words w, in tokens that are no separators *)
  Definition piece_of_word (a : A) : Prop :=
    n_named (nd a) = false /\ kind_in (n_kind (nd a)) [","; ";"] = false /\ in_field "" (nd a).
  Definition worded (w : string) (l : list A) : Prop :=
    l <> []%list /\ Forall piece_of_word l /\ bits_of (map nd l) = bits (U w).
  Inductive linking (w f : string) (ks : list string) : list A -> Prop :=
  | Link_one a : branch f ks a -> linking w f ks [a]
  | Link_more a x r : branch f ks a -> worded w x -> linking w f ks r -> linking w f ks (a :: x ++ r)%list.
  (* a condition is one of the kinds ps, or one of the kinds ks in parentheses *)
  Inductive condition (ps ks : list string) : list A -> Prop :=
  | Cond_plain c : branch "" ps c -> condition ps ks [c]
  | Cond_group o c e : sign "" "(" o -> branch "" ks c -> sign "" ")" e -> condition ps ks [o; c; e].
  Inductive conditions (w : string) (ps ks : list string) : list A -> Prop :=
  | Conds_one a : condition ps ks a -> conditions w ps ks a
  | Conds_more a x r : condition ps ks a -> worded w x -> conditions w ps ks r -> conditions w ps ks (a ++ x ++ r)%list.

  Fixpoint fits (its : list item) (cs : list A) : Prop :=
    match its with
    | [] => cs = []
    | Sign k :: r => exists c t, cs = c :: t /\ sign "" k c /\ fits r t
    | SignF f k :: r => exists c t, cs = c :: t /\ sign f k c /\ fits r t
    | One f ks :: r => exists c t, cs = c :: t /\ branch f ks c /\ fits r t
    | Verb k ks :: r => exists c t, cs = c :: t /\ verb k ks c /\ fits r t
    | Opt f ks :: r => fits r cs \/ exists c t, cs = c :: t /\ branch f ks c /\ fits r t
    | Rep f ks :: r => exists a t, cs = (a ++ t)%list /\ Forall (branch f ks) a /\ fits r t
    | Sep s f ks :: r => exists a t, cs = (a ++ t)%list /\ separated s f ks a /\ fits r t
    | Word w :: r => exists a t, cs = (a ++ t)%list /\ worded w a /\ fits r t
    | Link w f ks :: r => exists a t, cs = (a ++ t)%list /\ linking w f ks a /\ fits r t
    | Logic w ps ks :: r => exists a t, cs = (a ++ t)%list /\ conditions w ps ks a /\ fits r t
    end.
End Fits.

(* ------------------------------------------------------------ the grammar *)

Definition types : list string :=
  ["type_identifier"; "void_type"; "boolean_type"; "generic_type"; "java_type";
   "scoped_type_identifier"; "array_type"].
Definition primaries : list string :=
  ["int"; "decimal_floating_point_literal"; "boolean"; "null_literal"; "string_literal";
   "identifier"; "class_literal"; "method_invocation"; "parenthesized_expression";
   "object_creation_expression"; "map_creation_expression"; "field_access"; "array_access";
   "array_creation_expression"; "version_expression"; "java_field_access";
   "this"; "query_expression"].
Definition expressions : list string :=
  (["assignment_expression"; "binary_expression"; "update_expression"; "unary_expression";
    "dml_expression"; "ternary_expression"; "cast_expression"; "instanceof_expression"] ++ primaries)%list.
Definition statements : list string :=
  ["if_statement"; "expression_statement"; "local_variable_declaration"; "block"; "for_statement";
   "enhanced_for_statement"; "run_as_statement"; "do_statement"; "while_statement";
   "return_statement"; "try_statement"; "throw_statement"; "break_statement";
   "continue_statement"; "switch_expression"].
Definition class_members : list string :=
  ["field_declaration"; "class_declaration"; "method_declaration"; "interface_declaration";
   "block"; "constructor_declaration"; "enum_declaration"; "static_initializer"].
Definition interface_members : list string :=
  ["constant_declaration"; "enum_declaration"; "method_declaration"; "class_declaration";
   "interface_declaration"].
Definition file_members : list string :=
  ["class_declaration"; "enum_declaration"; "trigger_declaration"; "interface_declaration"].
Definition binary_signs : list string :=
  ["||"; "&&"; "??"; "|"; "^"; "&"; "=="; "!="; "==="; "!=="; "<>"; ">"; "<"; ">="; "<="; "<<"; ">>";
   ">>>"; "+"; "-"; "*"; "/"; "%"].
Definition values : list string := ["field_identifier"; "function_expression"].
Definition selectable : list string :=
  ["field_identifier"; "function_expression"; "alias_expression"; "fields_expression"; "subquery"].
Definition plain_literals : list string :=
  ["decimal"; "int"; "string_literal"; "boolean"; "date"; "date_literal"; "null_literal"; "date_literal_with_param"].
Definition soql_literals : list string := "bound_apex_expression" :: plain_literals.
Definition set_values : list string := ["subquery"; "comparable_list"; "bound_apex_expression"].

Definition grammar : list (string * list (list item)) :=
  [("parser_output", [[Rep "" file_members]]);
   (* declarations *)
   ("class_declaration",
     [[Opt "" ["modifiers"]; Sign "class"; One "name" ["identifier"]; Opt "" ["type_parameters"];
       Opt "" ["superclass"]; Opt "" ["interfaces"]; One "body" ["class_body"]]]);
   ("class_body", [[Sign "{"; Rep "" class_members; Sign "}"]]);
   ("interface_declaration",
     [[Opt "" ["modifiers"]; Sign "interface"; One "name" ["identifier"]; Opt "" ["type_parameters"];
       Opt "" ["extends_interfaces"]; One "body" ["interface_body"]]]);
   ("interface_body", [[Sign "{"; Rep "" interface_members; Sign "}"]]);
   ("enum_declaration",
     [[Opt "" ["modifiers"]; Sign "enum"; One "name" ["identifier"]; Opt "" ["interfaces"];
       One "body" ["enum_body"]]]);
   ("enum_body", [[Sign "{"; Sign "}"]; [Sign "{"; Sep "," "" ["enum_constant"]; Sign "}"]]);
   ("enum_constant", [[Opt "" ["modifiers"]; One "name" ["identifier"]]]);
   ("trigger_declaration",
     [[Sign "trigger"; One "name" ["identifier"]; Sign "on"; One "object" ["identifier"]; Sign "(";
       Sep "," "" ["trigger_event"]; Sign ")"; One "body" ["trigger_body"]]]);
   ("trigger_event", [[One "" ["before_insert"; "before_update"; "before_delete"; "after_insert";
                               "after_update"; "after_delete"; "after_undelete"]]]);
   ("trigger_body", [[One "" ["block"]]]);
   ("method_declaration",
     [[Opt "" ["modifiers"]; One "type" types; One "name" ["identifier"];
       One "parameters" ["formal_parameters"]; One "body" ["block"]];
      [Opt "" ["modifiers"]; One "type" types; One "name" ["identifier"];
       One "parameters" ["formal_parameters"]; Sign ";"]]);
   ("formal_parameters",
     [[Sign "("; Sign ")"]; [Sign "("; Sep "," "" ["formal_parameter"]; Sign ")"]]);
   ("formal_parameter",
     [[Opt "" ["modifiers"]; One "type" types; One "name" ["identifier"]; Opt "" ["dimensions"]]]);
   ("constructor_declaration",
     [[Opt "" ["modifiers"]; Opt "" ["type_parameters"]; One "name" ["identifier"];
       One "parameters" ["formal_parameters"]; One "body" ["constructor_body"]]]);
   ("constructor_body",
     [[Sign "{"; Opt "" ["explicit_constructor_invocation"]; Rep "" statements; Sign "}"]]);
   ("explicit_constructor_invocation",
     [[Opt "object" []; Opt "" ["type_arguments"]; One "constructor" ["this"; "super"];
       One "arguments" ["argument_list"]; Sign ";"]]);
   ("static_initializer", [[Sign "static"; One "" ["block"]]]);
   ("field_declaration",
     [[Opt "" ["modifiers"]; One "type" types; Sep "," "declarator" ["variable_declarator"]; Sign ";"];
      [Opt "" ["modifiers"]; One "type" types; Sep "," "declarator" ["variable_declarator"];
       One "" ["accessor_list"]]]);
   ("constant_declaration",
     [[Opt "" ["modifiers"]; One "type" types; Sep "," "declarator" ["variable_declarator"]; Sign ";"]]);
   ("variable_declarator",
     [[One "name" ["identifier"]];
      [One "name" ["identifier"]; One "" ["assignment_operator"]; One "value" expressions]]);
   ("accessor_list", [[Sign "{"; Rep "" ["accessor_declaration"]; Sign "}"]]);
   ("accessor_declaration",
     [[Opt "" ["modifiers"]; SignF "accessor" "get"; Sign ";"];
      [Opt "" ["modifiers"]; SignF "accessor" "set"; Sign ";"];
      [Opt "" ["modifiers"]; SignF "accessor" "get"; One "body" ["block"]];
      [Opt "" ["modifiers"]; SignF "accessor" "set"; One "body" ["block"]]]);
   ("modifiers", [[One "" ["annotation"]; Rep "" ["annotation"]; Rep "" ["modifier"]];
                  [One "" ["modifier"]; Rep "" ["modifier"]]]);
   ("modifier",
     [[One "" ["abstract"; "final"; "global"; "override"; "private"; "protected"; "public";
               "static"; "transient"; "virtual"; "testMethod"; "webservice"; "with_sharing";
               "without_sharing"; "inherited_sharing"]]]);
   ("annotation", [[Sign "@"; One "name" ["identifier"]; Opt "arguments" ["annotation_argument_list"]]]);
   ("annotation_argument_list",
     [[Sign "("; One "value" expressions; Sign ")"];
      [Sign "("; One "" ["annotation_key_value"]; Rep "" ["annotation_key_value"]; Sign ")"];
      [Sign "("; Sep "," "" ["annotation_key_value"]; Sign ")"]]);
   ("annotation_key_value",
     [[One "key" ["identifier"]; Sign "="; One "value" expressions]]);
   ("superclass", [[Sign "extends"; One "" types]]);
   ("interfaces", [[Sign "implements"; One "" ["type_list"]]]);
   ("extends_interfaces", [[Sign "extends"; One "" ["type_list"]]]);
   ("type_list", [[Sep "," "" types]]);
   ("type_parameters", [[Sign "<"; Sep "," "" ["type_parameter"]; Sign ">"]]);
   ("type_parameter", [[Rep "" ["annotation"]; One "" ["type_identifier"]]]);
   (* types *)
   ("generic_type", [[One "" ["type_identifier"; "scoped_type_identifier"]; One "" ["type_arguments"]]]);
   ("type_arguments", [[Sign "<"; Sep "," "" types; Sign ">"]; [Sign "<"; Sign ">"]]);
   ("scoped_type_identifier",
     [[One "" ["type_identifier"; "scoped_type_identifier"; "generic_type"]; Sign ".";
       One "" ["type_identifier"]]]);
   ("array_type", [[One "element" types; One "dimensions" ["dimensions"]]]);
   ("dimensions", [[Sign "["; Sign "]"]]);
   ("java_type", [[Sign "java"; Sign ":"; One "" ["scoped_type_identifier"]];
                  [Sign "java:"; One "" ["scoped_type_identifier"]]]);
   (* statements *)
   ("block", [[Sign "{"; Rep "" statements; Sign "}"]]);
   ("expression_statement", [[One "" expressions; Sign ";"]]);
   ("local_variable_declaration",
     [[Opt "" ["modifiers"]; One "type" types; Sep "," "declarator" ["variable_declarator"]; Sign ";"]]);
   ("if_statement",
     [[Sign "if"; One "condition" ["parenthesized_expression"]; One "consequence" statements];
      [Sign "if"; One "condition" ["parenthesized_expression"]; One "consequence" statements;
       Sign "else"; One "alternative" statements]]);
   ("while_statement",
     [[Sign "while"; One "condition" ["parenthesized_expression"]; One "body" statements];
      [Sign "while"; One "condition" ["parenthesized_expression"]; SignF "body" ";"]]);
   ("do_statement",
     [[Sign "do"; One "body" ["block"]; Sign "while"; One "condition" ["parenthesized_expression"];
       Sign ";"]]);
   ("for_statement",
     [[Sign "for"; Sign "("; One "init" ["local_variable_declaration"];
       One "condition" expressions; Sign ";"; Opt "update" expressions; Sign ")"; One "body" statements];
      [Sign "for"; Sign "("; One "init" ["local_variable_declaration"];
       Sign ";"; Opt "update" expressions; Sign ")"; One "body" statements];
      [Sign "for"; Sign "("; Sep "," "init" expressions; Sign ";";
       One "condition" expressions; Sign ";"; Opt "update" expressions; Sign ")"; One "body" statements];
      [Sign "for"; Sign "("; Sign ";";
       One "condition" expressions; Sign ";"; Opt "update" expressions; Sign ")"; One "body" statements];
      [Sign "for"; Sign "("; Sign ";"; Sign ";"; Opt "update" expressions; Sign ")";
       One "body" statements];
      [Sign "for"; Sign "("; Sep "," "init" expressions; Sign ";"; Sign ";"; Opt "update" expressions; Sign ")";
       One "body" statements];
      [Sign "for"; Sign "("; One "init" ["local_variable_declaration"];
       One "condition" expressions; Sign ";"; Opt "update" expressions; Sign ")"; SignF "body" ";"];
      [Sign "for"; Sign "("; One "init" ["local_variable_declaration"];
       Sign ";"; Opt "update" expressions; Sign ")"; SignF "body" ";"];
      [Sign "for"; Sign "("; Sep "," "init" expressions; Sign ";";
       One "condition" expressions; Sign ";"; Opt "update" expressions; Sign ")"; SignF "body" ";"];
      [Sign "for"; Sign "("; Sign ";";
       One "condition" expressions; Sign ";"; Opt "update" expressions; Sign ")"; SignF "body" ";"];
      [Sign "for"; Sign "("; Sign ";"; Sign ";"; Opt "update" expressions; Sign ")"; SignF "body" ";"];
      [Sign "for"; Sign "("; Sep "," "init" expressions; Sign ";"; Sign ";"; Opt "update" expressions; Sign ")";
       SignF "body" ";"]]);
   ("enhanced_for_statement",
     [[Sign "for"; Sign "("; One "type" types; One "name" ["identifier"]; Sign ":";
       One "value" expressions; Sign ")"; One "body" statements];
      [Sign "for"; Sign "("; One "type" types; One "name" ["identifier"]; Sign ":";
       One "value" expressions; Sign ")"; SignF "body" ";"]]);
   ("run_as_statement",
     [[Sign "System.runAs"; One "user" ["parenthesized_expression"]; One "" ["block"]];
      [Sign "System"; Sign "."; Sign "runAs"; One "user" ["parenthesized_expression"]; One "" ["block"]]]);
   ("return_statement", [[Sign "return"; Opt "" expressions; Sign ";"]]);
   ("break_statement", [[Sign "break"; Opt "" ["identifier"]; Sign ";"]]);
   ("continue_statement", [[Sign "continue"; Opt "" ["identifier"]; Sign ";"]]);
   ("throw_statement", [[Sign "throw"; One "" expressions; Sign ";"]]);
   ("try_statement",
     [[Sign "try"; One "body" ["block"]; Rep "" ["catch_clause"]; One "" ["finally_clause"]];
      [Sign "try"; One "body" ["block"]; One "" ["catch_clause"]; Rep "" ["catch_clause"]]]);
   ("catch_clause",
     [[Sign "catch"; Sign "("; One "" ["formal_parameter"]; Sign ")"; One "body" ["block"]]]);
   ("finally_clause", [[Sign "finally"; One "" ["block"]]]);
   ("switch_expression",
     [[Sign "switch"; Sign "on"; One "condition" expressions; One "body" ["switch_block"]]]);
   ("switch_block", [[Sign "{"; One "" ["switch_rule"]; Rep "" ["switch_rule"]; Sign "}"]]);
   ("switch_rule", [[One "" ["switch_label"]; One "" ["block"]]]);
   ("switch_label",
     [[Sign "when"; Sign "else"];
      [Sign "when"; One "" ["when_sobject_type"]];
      [Sign "when"; Sep "," "" expressions]]);
   ("when_sobject_type", [[One "" types; One "" ["identifier"]]]);
   (* expressions *)
   ("assignment_expression",
     [[One "left" ["identifier"; "field_access"; "array_access"]; One "operator" ["assignment_operator"];
       One "right" expressions]]);
   ("binary_expression",
     map (fun o => [One "left" expressions; SignF "operator" o; One "right" expressions]) binary_signs);
   ("instanceof_expression", [[One "left" expressions; Sign "instanceof"; One "right" types]]);
   ("ternary_expression",
     [[One "condition" expressions; Sign "?"; One "consequence" expressions; Sign ":";
       One "alternative" expressions]]);
   ("unary_expression",
     map (fun o => [SignF "operator" o; One "operand" expressions]) ["+"; "-"; "!"; "~"]);
   ("update_expression",
     [[SignF "operator" "++"; One "operand" expressions]; [SignF "operator" "--"; One "operand" expressions];
      [One "operand" expressions; SignF "operator" "++"]; [One "operand" expressions; SignF "operator" "--"]]);
   ("cast_expression", [[Sign "("; One "type" types; Sign ")"; One "value" expressions]]);
   ("parenthesized_expression", [[Sign "("; One "" expressions; Sign ")"]]);
   ("class_literal", [[One "" types; Sign "."; Sign "class"]]);
   ("object_creation_expression",
     [[Sign "new"; Opt "" ["type_arguments"]; One "type" types; One "arguments" ["argument_list"];
       Opt "" ["class_body"]]]);
   ("field_access",
     [[One "object" ("super" :: primaries); Sign "."; One "field" ["identifier"; "this"]];
      [One "object" ("super" :: primaries); One "" ["safe_navigation_operator"];
       One "field" ["identifier"; "this"]]]);
   ("array_access", [[One "array" primaries; Sign "["; One "index" expressions; Sign "]"]]);
   ("method_invocation",
     [[One "name" ["identifier"]; One "arguments" ["argument_list"]];
      [One "object" ("super" :: primaries); Sign "."; Opt "" ["type_arguments"];
       One "name" ["identifier"]; One "arguments" ["argument_list"]];
      [One "object" ("super" :: primaries); One "" ["safe_navigation_operator"]; Opt "" ["type_arguments"];
       One "name" ["identifier"]; One "arguments" ["argument_list"]]]);
   ("argument_list", [[Sign "("; Sign ")"]; [Sign "("; Sep "," "" expressions; Sign ")"]]);
   ("array_creation_expression",
     [[Sign "new"; One "type" types; One "" ["dimensions_expr"]; Rep "" ["dimensions_expr"];
       Opt "" ["dimensions"]];
      [Sign "new"; One "type" types; One "value" ["array_initializer"]];
      [Sign "new"; One "type" types; One "dimensions" ["dimensions"]; One "value" ["array_initializer"]]]);
   ("dimensions_expr", [[Sign "["; One "" expressions; Sign "]"]]);
   ("array_initializer",
     [[Sign "{"; Sign "}"]; [Sign "{"; Sep "," "" ("array_initializer" :: expressions); Sign "}"]]);
   ("map_creation_expression",
     [[Sign "new"; One "type" types; One "value" ["map_initializer"]]]);
   ("map_initializer",
     [[Sign "{"; Sign "}"]; [Sign "{"; Sep "," "" ["map_key_initializer"]; Sign "}"]]);
   ("map_key_initializer", [[One "" expressions; Sign "=>"; One "" expressions]]);
   ("version_expression",
     [[Sign "Package.Version."; One "version_num" ["version_number"]];
      [Sign "Package.Version."; Sign "Request"];
      [Sign "Package"; Sign "."; Sign "Version"; Sign "."; One "version_num" ["version_number"]];
      [Sign "Package"; Sign "."; Sign "Version"; Sign "."; Sign "Request"]]);
   ("java_field_access",
     [[Sign "java"; Sign ":"; One "" ["field_access"]]; [Sign "java:"; One "" ["field_access"]]]);
   ("dml_expression",
     [[One "" ["dml_type"]; Opt "" ["dml_security_mode"]; One "target" expressions];
      [Verb "dml_type" ["merge"]; Opt "" ["dml_security_mode"]; One "target" expressions; One "merge_with" expressions];
      [Verb "dml_type" ["upsert"]; Opt "" ["dml_security_mode"]; One "target" expressions; One "upsert_key" types]]);
   ("dml_security_mode", [[Sign "as"; One "" ["user"; "system"]]]);
   ("dml_type", [[One "" ["insert"; "update"; "delete"; "undelete"; "merge"; "upsert"]]]);
   (* queries *)
   ("query_expression",
     [[Sign "["; One "" ["soql_query_body"]; Sign "]"]; [Sign "["; One "" ["sosl_query_body"]; Sign "]"]]);
   ("soql_query_body",
     [[One "select_clause" ["select_clause"]; One "from_clause" ["from_clause"];
       Opt "where_clause" ["where_clause"]; Opt "with_clause" ["with_clause"];
       Opt "group_by_clause" ["group_by_clause"]; Opt "order_by_clause" ["order_by_clause"];
       Opt "limit_clause" ["limit_clause"]; Opt "offset_clause" ["offset_clause"];
       Opt "all_rows_clause" ["all_rows_clause"]; Opt "" ["for_clause"]]]);
   ("select_clause",
     [[Word "SELECT"; One "" ["count_expression"]]; [Word "SELECT"; Sep "," "" selectable]]);
   ("count_expression", [[One "function_name" ["identifier"]; Sign "("; Sign ")"]]);
   ("function_expression",
     [[One "function_name" ["identifier"]; Sign "("; Sign ")"];
      [One "function_name" ["identifier"]; Sign "("; Sep "," "" values; Sign ")"];
      [One "function_name" ["identifier"]; Sign "("; One "" ["field_identifier"]; Sign ",";
       One "" ["geo_location_type"]; Sign ","; One "" ["string_literal"]; Sign ")"];
      [One "function_name" ["identifier"]; Sign "("; One "" ["bound_apex_expression"]; Sign ",";
       One "" ["geo_location_type"]; Sign ","; One "" ["string_literal"]; Sign ")"]]);
   ("geo_location_type",
     [[One "" ["field_identifier"; "bound_apex_expression"]];
      [One "" ["identifier"]; Sign "("; One "" ["decimal"]; Sign ","; One "" ["decimal"]; Sign ")"]]);
   ("field_identifier", [[One "" ["identifier"; "dotted_identifier"]]]);
   ("dotted_identifier", [[Sep "." "" ["identifier"]]]);
   ("alias_expression", [[One "" values; One "" ["identifier"]]]);
   ("fields_expression", [[Word "FIELDS("; One "" ["fields_type"]; Sign ")"]]);
   ("subquery", [[Sign "("; One "" ["soql_query_body"]; Sign ")"]]);
   ("from_clause", [[Word "FROM"; One "" ["storage_identifier"; "storage_alias"]]]);
   ("storage_identifier", [[One "" ["identifier"; "dotted_identifier"]]]);
   ("storage_alias", [[One "" ["storage_identifier"]; One "" ["identifier"]]]);
   ("where_clause",
     [[Word "WHERE"; One "" ["and_expression"; "or_expression"; "not_expression"; "comparison_expression"]]]);
   ("having_clause",
     [[Word "HAVING"; One "" ["and_expression"; "or_expression"; "not_expression"; "comparison_expression"]]]);
   ("and_expression", [[Logic "AND" ["comparison_expression"; "and_expression"] ["or_expression"; "not_expression"]]]);
   ("or_expression", [[Logic "OR" ["comparison_expression"; "or_expression"] ["and_expression"; "not_expression"]]]);
   ("not_expression",
     [[Word "NOT"; One "" ["comparison_expression"]];
      [Word "NOT"; Sign "("; One "" ["and_expression"; "or_expression"]; Sign ")"]]);
   ("comparison_expression",
     [[One "" values; One "" ["value_comparison_operator"]; One "" soql_literals];
      [One "" values; One "" ["set_comparison_operator"]; One "" set_values]]);
   ("comparable_list", [[Sign "("; Sep "," "" soql_literals; Sign ")"]]);
   ("date_literal_with_param", [[One "" ["date_literal"]; Sign ":"; One "" ["int"]]]);
   ("bound_apex_expression", [[Sign ":"; One "" expressions]]);
   ("group_by_clause",
     [[Word "GROUP BY"; Sep "," "" values]; [Word "GROUP BY"; Sep "," "" values; One "" ["having_clause"]]]);
   ("order_by_clause", [[Word "ORDER BY"; Sep "," "" ["order_expression"]]]);
   ("order_expression",
     [[One "" values; Opt "" ["order_direction"]; Opt "" ["order_null_direction"]]]);
   ("limit_clause", [[Word "LIMIT"; One "" ["int"; "bound_apex_expression"]]]);
   ("offset_clause", [[Word "OFFSET"; One "" ["int"; "bound_apex_expression"]]]);
   ("for_clause", [[Word "FOR"; One "" ["for_type"]]]);
   ("with_clause", [[Word "WITH"; One "" ["with_type"]]]);
   ("with_type",
     [[Word "SECURITY_ENFORCED"]; [Word "USER_MODE"]; [Word "SYSTEM_MODE"]; [One "" ["with_user_id_type"]];
      [One "" ["with_data_cat_expression"; "with_division_expression"; "with_snippet_expression";
               "with_network_expression"; "with_metadata_expression"; "with_spell_correction_expression";
               "with_highlight"; "with_pricebook_expression"]]]);
   ("with_user_id_type", [[Word "UserId ="; One "" ["string_literal"]]]);
   (* searches *)
   ("sosl_query_body",
     [[One "" ["find_clause"]; Opt "" ["in_clause"]; Opt "" ["returning_clause"]; Rep "" ["with_clause"];
       Opt "" ["sosl_using_clause"]; Opt "" ["limit_clause"]; Opt "" ["update_clause"]]]);
   ("find_clause",
     [[Word "FIND"; One "" ["bound_apex_expression"]]; [Word "FIND"; Sign "'"; One "" ["term"]; Sign "'"]]);
   ("in_clause", [[Word "IN"; One "" ["in_type"]; Word "FIELDS"]]);
   ("returning_clause", [[Word "RETURNING"; Sep "," "" ["sobject_return"]]]);
   ("sobject_return",
     [[One "" ["identifier"]];
      [One "" ["identifier"]; Sign "("; One "" ["selected_fields"]; Opt "" ["using_clause"]; Opt "" ["where_clause"];
       Opt "" ["order_by_clause"]; Opt "" ["limit_clause"]; Opt "" ["offset_clause"]; Sign ")"]]);
   ("selected_fields", [[Sep "," "" selectable]]);
   ("using_clause",
     [[Word "USING"; One "" ["using_scope_clause"; "using_lookup_clause"; "using_listview_clause"]]]);
   ("using_scope_clause", [[Word "SCOPE"; One "" ["using_scope_type"]]]);
   ("using_lookup_clause",
     [[Word "LOOKUP"; One "using_lookup_clause" ["dotted_identifier"]; Opt "" ["using_lookup_bind_clause"]]]);
   ("using_lookup_bind_clause", [[Word "BIND"; Sep "," "" ["using_lookup_bind_expression"]]]);
   ("using_lookup_bind_expression", [[One "" ["field"]; Sign "="; One "bound_value" plain_literals]]);
   ("using_listview_clause", [[Word "ListView ="; One "" ["identifier"]]]);
   ("sosl_using_clause", [[Word "USING"; One "" ["using_phrase_search"; "using_advanced_search"]]]);
   ("update_clause", [[Word "UPDATE"; Sep "," "" ["update_type"]]]);
   ("with_data_cat_expression", [[Word "DATA CATEGORY"; Link "AND" "" ["with_data_cat_filter"]]]);
   ("with_data_cat_filter",
     [[One "" ["identifier"]; One "" ["with_data_cat_filter_type"]; One "" ["identifier"]];
      [One "" ["identifier"]; One "" ["with_data_cat_filter_type"]; Sign "("; One "" ["identifier"]; Sign ",";
       Sep "," "" ["identifier"]; Sign ")"]]);
   ("with_division_expression", [[Word "DIVISION ="; One "" ["bound_apex_expression"; "string_literal"]]]);
   ("with_snippet_expression",
     [[Word "SNIPPET"]; [Word "SNIPPET"; Word "(TARGET_LENGTH ="; One "" ["int"]; Sign ")"]]);
   ("with_network_expression",
     [[Word "NETWORK"; One "" ["value_comparison_operator"]; One "" soql_literals];
      [Word "NETWORK"; One "" ["set_comparison_operator"]; One "" set_values]]);
   ("with_metadata_expression", [[Word "METADATA ="; One "" ["string_literal"]]]);
   ("with_spell_correction_expression", [[Word "SPELL_CORRECTION ="; One "" ["boolean"]]]);
   ("with_pricebook_expression", [[Word "PriceBookId ="; One "" ["string_literal"]]])].

Fixpoint lookup {A} (k : string) (t : list (string * list A)) : list A :=
  match t with
  | [] => []
  | (k', v) :: r => if String.eqb k k' then v else lookup k r
  end.
Definition rules (k : string) : list (list item) := lookup k grammar.
Definition fields (k : string) : list string := flat_map (flat_map item_field) (rules k).

Definition follows_rules (n : node) : Prop :=
  rules (n_kind n) <> [] ->
  exists alt, In alt (rules (n_kind n)) /\ fits (fun c => c) (fields (n_kind n)) alt (code_children n).

(* A node that is one word has that text and no inner structure but signs.  The
   separators are signs. *)
Definition spelled (n : node) : Prop :=
  if n_named n
  then kind_in (n_kind n) [","; ";"] = false /\
       (keyword_kind (n_kind n) = true -> Forall (fun c => n_named c = false) (children n)) /\
       (forall w, In (n_kind n, w) word_kinds -> bits (n_text n) = bits (U w))
  else children n = [] /\ bits (n_text n) = bits (U (n_kind n)).

(* The text of a node is that of its children, with white space between them; where
   there is none, no word touches another one. *)
Definition covered (n : node) : Prop :=
  children n <> [] \/ rules (n_kind n) <> [] ->
  woven (map n_text (children n)) (n_text n) /\ bits (n_text n) = bits_of (children n).

(* The children of a node stand one behind the other in the file. *)
Definition in_order (n : node) : Prop :=
  StronglySorted (fun a b => (n_sbyte a < n_sbyte b)%N) (children n).

(* No comment inside. *)
Definition uncommented (n : node) : Prop := forall m, In m (all_nodes n) -> n_extra m = false.

(* ... and no needless parenthesis. *)
Definition untouched (n : node) : Prop :=
  forall m, In m (all_nodes n) -> n_extra m = false /\ forall c, In c (children m) -> spare m c = false.

(* A comment: a leaf, in no field of its parent. *)
Definition comment_kinds : list string := ["line_comment"; "block_comment"].
Definition comment_node (n : node) : Prop :=
  n_named n = true /\ kind_in (n_kind n) comment_kinds = true /\ children n = [] /\ n_field n = None.

(* The text of these nodes, and of the values in annotations, is printed as it is. *)
Definition verbatim_kind (k : string) : Prop := rules k = [] \/ k = "with_type".
Definition annotation_kinds : list string := ["annotation_argument_list"; "annotation_key_value"].

(* The nodes whose braces may enclose comments and nothing else. *)
Definition body_kinds : list string := ["class_body"; "block"; "interface_body"; "enum_body"; "constructor_body"].

(* [shuffled a b c]: [c] consists of the members of [a] and those of [b], each in
   their order. *)
Inductive shuffled {A : Type} : list A -> list A -> list A -> Prop :=
| Shuffled_nil : shuffled [] [] []
| Shuffled_left x a b c : shuffled a b c -> shuffled (x :: a) b (x :: c)
| Shuffled_right x a b c : shuffled a b c -> shuffled a (x :: b) (x :: c).

(* A syntax tree of the grammar.  Comments may stand between the children of any
   other node. *)
Record file_tree (root : node) : Prop := {
  ft_root : n_kind root = "parser_output" /\ n_named root = true /\ n_extra root = false;
  ft_comments : forall n, In n (all_nodes root) -> n_extra n = true -> comment_node n;
  ft_atoms : forall n, In n (all_nodes root) -> n_extra n = false -> verbatim_kind (n_kind n) -> untouched n;
  ft_values : forall n c, In n (all_nodes root) -> kind_in (n_kind n) annotation_kinds = true ->
    In c (children n) -> n_field c = Some "value" -> untouched c;
  ft_covered : forall n, In n (all_nodes root) -> covered n;
  ft_order : forall n, In n (all_nodes root) -> in_order n;
  ft_spelled : forall n, In n (all_nodes root) -> n_extra n = false -> spelled n;
  ft_rules : forall n, In n (all_nodes root) -> n_extra n = false -> n_named n = true -> follows_rules n
}.
(* A node whose children are comments and signs only, and the condition that such
   nodes are bodies in braces. *)
Definition lone_comments (n : node) : Prop :=
  (exists c, In c (children n) /\ n_extra c = true) /\ code_kids n = [].
Definition comments_in_braces (root : node) : Prop :=
  forall n, In n (all_nodes root) -> lone_comments n -> kind_in (n_kind n) body_kinds = true.
(* The lines of a comment that have something visible on them. *)
Definition comment_lines (n : node) : list ustr :=
  filter (fun l => negb (is_nil (visible l))) (normal_lines (has_kind "line_comment" n) (trim_end (n_text n))).
(* ... for a source without comments. *)
Definition source_tree (root : node) : Prop := file_tree root /\ uncommented root.
