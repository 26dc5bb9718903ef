(* PropertiesPlaces.v: the rows and columns at which the members of bodies are printed.
   Statements; proofs are in PlacesFormat.v, the vocabulary in SpecPlaces.v and
   SpecReread.v. *)
From Coq Require Import Lia.
From Verif Require Import Base Doc DocBuilder Cst Comments Term New Formatter SpecTree SpecTokens SpecReread SpecPlaces PlacesFormat
  Trees Samples SamplesTokens PropertiesTokens SamplesReread SamplesPlaces PropertiesMembers.
From Verif Require LayoutNew.
Local Open Scope string_scope.
Local Open Scope list_scope.

(* C32 in the output.  [c1] and [c2] are consecutive members of a file, class body,
   interface body, constructor body or block [n].  [k] is the last visible character
   printed before [c2], so that [k + 1] is the first character of [c2]: as many visible
   characters are printed before it as the words before it have.  The rows of the two
   differ by 2 if the source has an empty row between [c1] and [c2], and by 1 if not.
   Missing: sources with comments; bodies in expressions (an object created with a body);
   members that begin on the first row, for which it is false (C32_first_row_refuted). *)
Theorem C32_blank_line_output_partial :
  forall (checked : bool) (stack : nat) (cfg : config) (root : node) (out : ustr) (n : node) (ahead : list node) (level : N) a c1 c2 z,
    file_tree root -> untouched root -> distinct_ids root -> trimmed_nodes root ->
    format_tree checked stack cfg root = Ok out ->
    lies root n ahead level -> kind_in (n_kind n) member_lists = true ->
    children n = a ++ c1 :: c2 :: z -> n_named c1 = true -> n_named c2 = true -> n_srow c2 <> 0%N ->
    exists k, width (ahead ++ flat_map tips (a ++ [c1])) = S k /\
      row_of out (S k) = (row_of out k + if (n_erow c1 + 1 <? n_srow c2)%N then 2 else 1)%N.
Proof.
  intros. destruct (members_apart_out checked stack cfg root out) with (n := n) (ahead := ahead) (level := level) (a := a) (c1 := c1) (c2 := c2) (z := z)
    as (k & Ek & Rk & _); try assumption.
  exists k. split; [exact Ek|]. rewrite Rk. destruct (N.ltb_spec (n_erow c1) (n_srow c2 - 1)), (N.ltb_spec (n_erow c1 + 1) (n_srow c2)); lia.
Qed.
Print Assumptions C32_blank_line_output_partial.

(* C45 in the output.  [n] is a class body, interface body, constructor body or block that
   lies [level] levels deep.  Its first member begins a row, at [level + 1] indent steps;
   so does every member behind another one; and the closing brace begins a row at [level]
   steps, if there is a member at all.
   The exception is the member behind this(...) or super(...) and an empty row, for which
   it is false (C45_constructor_refuted).
   Missing: rows of a member but its first, where it is false
   (C45_else_refuted); sources with comments; bodies in expressions. *)
Theorem C45_first_member_partial :
  forall (checked : bool) (stack : nat) (cfg : config) (root : node) (out : ustr) (n : node) (ahead : list node) (level : N) a c z,
    file_tree root -> untouched root -> distinct_ids root -> trimmed_nodes root ->
    format_tree checked stack cfg root = Ok out ->
    lies root n ahead level -> kind_in (n_kind n) member_lists = true -> n_kind n <> "parser_output" ->
    children n = a ++ c :: z -> Forall (fun s => n_named s = false) a -> n_named c = true ->
    exists k, width (ahead ++ flat_map tips a) = S k /\
      row_of out (S k) = (row_of out k + 1)%N /\ column_of out (S k) = ((level + 1) * cfg_indent_size cfg)%N.
Proof. intros. eapply first_member_out; eassumption. Qed.
Print Assumptions C45_first_member_partial.

Theorem C45_next_member_partial :
  forall (checked : bool) (stack : nat) (cfg : config) (root : node) (out : ustr) (n : node) (ahead : list node) (level : N) a c1 c2 z,
    file_tree root -> untouched root -> distinct_ids root -> trimmed_nodes root ->
    format_tree checked stack cfg root = Ok out ->
    lies root n ahead level -> kind_in (n_kind n) member_lists = true -> n_kind n <> "parser_output" ->
    children n = a ++ c1 :: c2 :: z -> n_named c1 = true -> n_named c2 = true -> n_srow c2 <> 0%N ->
    n_kind c1 <> "explicit_constructor_invocation" \/ (n_srow c2 <= n_erow c1 + 1)%N ->
    exists k, width (ahead ++ flat_map tips (a ++ [c1])) = S k /\
      (row_of out k < row_of out (S k))%N /\ column_of out (S k) = ((level + 1) * cfg_indent_size cfg)%N.
Proof.
  intros checked stack cfg root out n ahead level a c1 c2 z Ft Un D Tr E L K Kr Ec N1 N2 R0 X.
  destruct (members_apart_out checked stack cfg root out Ft Un D Tr E n ahead level a c1 c2 z L K Ec N1 N2 R0) as (k & Ek & Rk & Ck).
  exists k. split; [exact Ek|]. split; [rewrite Rk; destruct (_ <? _)%N; lia|].
  replace 1%N with (deeper n c2).
  - apply Ck. destruct X as [X|X]; [left; exact X|right]. apply N.ltb_ge. lia.
  - apply LayoutNew.kind_in_in in K. unfold deeper. revert Kr. destruct K as [<-|[<-|[<-|[<-|[<-|[]]]]]]; intro Kr; [congruence|..]; reflexivity.
Qed.
Print Assumptions C45_next_member_partial.

Theorem C45_closing_brace_partial :
  forall (checked : bool) (stack : nat) (cfg : config) (root : node) (out : ustr) (n : node) (ahead : list node) (level : N) a c z,
    file_tree root -> untouched root -> distinct_ids root -> trimmed_nodes root ->
    format_tree checked stack cfg root = Ok out ->
    lies root n ahead level -> kind_in (n_kind n) member_lists = true -> n_kind n <> "parser_output" ->
    children n = a ++ c :: z -> n_named c = true -> Forall (fun s => n_named s = false) z ->
    exists k, width (ahead ++ tips n) = S (S k) /\
      row_of out (S k) = (row_of out k + 1)%N /\ column_of out (S k) = (level * cfg_indent_size cfg)%N.
Proof. intros. eapply closing_brace_out; eassumption. Qed.
Print Assumptions C45_closing_brace_partial.

(* ------------------------------------------------------------ cases *)

Definition places_ok (root : node) : Prop :=
  file_tree root /\ untouched root /\ distinct_ids root /\ trimmed_nodes root /\ format_tree true 100 narrow root = Ok (narrow_out root).
Example places_tokens : places_ok sample_tokens.
Proof.
  split; [apply file_treeb_ok; vm_compute; reflexivity|].
  split; [apply untouchedb_ok; vm_compute; reflexivity|].
  split; [apply distinct_ids_sound; vm_compute; reflexivity|].
  split; [apply trimmedb_ok; vm_compute; reflexivity|vm_compute; reflexivity].
Qed.
(* The bodies of that file, with their levels; and for every member and closing brace by
   how many rows it is below the character before it, and its column.  Among them: a class
   body with a blank row, and blocks in a method, a for statement, behind else, in try,
   catch and in a switch. *)
Example places_found : map (spots (narrow_out sample_tokens)) (bodies sample_tokens) =
  [("parser_output", 0, [(0, 0); (1, 0)]);
   ("class_body", 0, [(1, 2); (2, 2); (1, 0)]);
   ("block", 1, [(1, 4); (2, 4); (1, 4); (1, 4); (1, 2)]);
   ("block", 2, [(1, 6); (1, 4)]);
   ("block", 3, [(1, 8); (1, 6)]);
   ("block", 2, [(1, 6); (1, 4)]);
   ("block", 2, [(1, 6); (1, 4)]);
   ("block", 3, [(1, 8); (1, 6)]); ("block", 3, [(1, 6)])]%N.
Proof. vm_compute. reflexivity. Qed.
(* The hypotheses of C32_blank_line_output_partial and C45_next_member_partial hold of the
   first two statements of the method. *)
Example places_pair : exists n ahead level a c1 c2 z,
  lies sample_tokens n ahead level /\ kind_in (n_kind n) member_lists = true /\ n_kind n <> "parser_output" /\
  children n = a ++ c1 :: c2 :: z /\ n_named c1 = true /\ n_named c2 = true /\ n_srow c2 <> 0%N /\
  (n_kind c1, n_kind c2, level, n_erow c1 + 1 <? n_srow c2)%N = ("for_statement", "expression_statement", 1%N, true).
Proof.
  destruct (nth 2 (bodies sample_tokens) (sample_tokens, [], 0%N)) as [[n ahead] level] eqn:E.
  destruct (bodies_ok sample_tokens (nth 2 (bodies sample_tokens) (sample_tokens, [], 0%N))) as [L K]; [apply nth_In; vm_compute; lia|].
  rewrite E in L, K. vm_compute in E. injection E as <- <- <-.
  eexists _, _, _, [_], _, _, _. split; [exact L|]. split; [exact K|]. split; [discriminate|]. split; [reflexivity|].
  split; [reflexivity|]. split; [reflexivity|]. split; [discriminate|]. vm_compute. reflexivity.
Qed.
(* Behind else a statement without braces is printed in a row of its own, but what it
   contains is not indented: the statement in the block begins at the column of the row
   of the opening brace. *)
Theorem C45_else_refuted :
  exists root, file_tree root /\ untouched root /\ format_tree true 100 Config_default root = Ok (U "public class Foo {
  void bar() {
    if (a)
      foo();
    else
      for (T x : y) {
      foo();
    }
  }
}
").
Proof.
  exists sample_else. split; [apply file_treeb_ok; vm_compute; reflexivity|].
  split; [apply untouchedb_ok; vm_compute; reflexivity|vm_compute; reflexivity].
Qed.
Print Assumptions C45_else_refuted.
