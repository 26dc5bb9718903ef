(* SpecPlaces.v: where the members of bodies stand in the printed text.  Specification only. *)
From Verif Require Import Base Cst SpecTree SpecTokens SpecReread.
Local Open Scope string_scope.
Local Open Scope list_scope.

(* The column of the visible character number [k] of a text: how many characters are
   between it and the beginning of its row. *)
Fixpoint column_from (col : N) (s : ustr) (k : nat) : N :=
  match s with
  | [] => col
  | c :: s => if is_ws c then column_from (if (c =? c_nl)%N then 0 else col + 1)%N s k
              else match k with O => col | S k => column_from (col + 1)%N s k end
  end.
Definition column_of (s : ustr) (k : nat) : N := column_from 0 s k.
Example column_of_1 : map (column_of (U "ab c" ++ [c_nl; c_nl] ++ U "  d")) [0; 1; 2; 3]%nat = [0; 1; 3; 2]%N.
Proof. vm_compute. reflexivity. Qed.

(* The child [c] of [n] stands one level deeper than [n]: in braces, or as the statement
   without braces behind if. *)
Definition braces : list string :=
  ["class_body"; "interface_body"; "constructor_body"; "block"; "switch_block"; "accessor_list"].
Definition deeper (n c : node) : N :=
  if kind_in (n_kind n) braces then 1
  else if has_kind "if_statement" n && has_field "consequence" c && negb (has_kind "block" c) then 1
  else 0.

(* Declarations, statements and their bodies, which is where bodies are. *)
Definition frames : list string :=
  ["parser_output"; "class_declaration"; "class_body"; "interface_declaration"; "interface_body"; "trigger_declaration"; "trigger_body";
   "method_declaration"; "constructor_declaration"; "constructor_body"; "static_initializer"; "field_declaration"; "accessor_list";
   "accessor_declaration"; "block"; "if_statement"; "for_statement"; "enhanced_for_statement"; "while_statement"; "do_statement";
   "run_as_statement"; "try_statement"; "catch_clause"; "finally_clause"; "switch_expression"; "switch_block"; "switch_rule"].

(* The node [c] lies in the tree [root] behind the words [ahead], at the given level.
   Expressions are not entered. *)
Inductive lies (root : node) : node -> list node -> N -> Prop :=
| Lies_root : lies root root [] 0
| Lies_child n ahead level before c after :
    lies root n ahead level -> kind_in (n_kind n) frames = true -> children n = before ++ c :: after ->
    lies root c (ahead ++ flat_map tips before) (level + deeper n c)%N.

(* Nodes whose named children are printed each on its own line. *)
Definition member_lists : list string := ["parser_output"; "class_body"; "interface_body"; "constructor_body"; "block"].
