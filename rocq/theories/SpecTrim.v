(* SpecTrim.v: lines that end with white space.  Specification only. *)
From Coq Require Import Lia.
From Verif Require Import Base Cst New SpecTree SpecOrder SpecTokens SpecReread SpecComments.
Local Open Scope string_scope.
Local Open Scope list_scope.

(* White space other than a line feed. *)
Definition is_blank (c : N) : bool := is_ws c && negb (c =? c_nl)%N.
(* No line feed of [s] stands behind a blank; [b]: a blank stands before [s]. *)
Fixpoint tidy (b : bool) (s : ustr) : bool :=
  match s with
  | [] => true
  | c :: s => if (c =? c_nl)%N then negb b && tidy false s else tidy (is_blank c) s
  end.
Lemma tidy_means s : tidy false s = true <-> forall a c b, s = a ++ c :: c_nl :: b -> is_blank c = false.
Proof.
  enough (G : forall p, tidy p s = true <-> (forall a c b, s = a ++ c :: c_nl :: b -> is_blank c = false) /\ (forall b, s = c_nl :: b -> p = false)).
  { rewrite G. split; [intros [H _]; exact H|]. intro H. split; [exact H|reflexivity]. }
  induction s as [|x s IH]; intro p.
  - split; [|reflexivity]. intros _. split; [intros a c b E; destruct a; discriminate E|discriminate].
  - cbn [tidy]. destruct (N.eqb_spec x c_nl) as [->|Hx].
    + rewrite Bool.andb_true_iff, Bool.negb_true_iff, IH. split.
      * intros [Hp [H _]]. split; [|intros; exact Hp]. intros a c b E. destruct a as [|y a]; injection E as E1 E.
        -- subst. reflexivity.
        -- eapply H. exact E.
      * intros [H Hp]. split; [eapply Hp; reflexivity|]. split; [|reflexivity]. intros a c b E. apply (H (c_nl :: a) c b). rewrite E. reflexivity.
    + rewrite IH. split.
      * intros [H Hp]. split.
        -- intros a c b E. destruct a as [|y a]; injection E as E1 E; [subst; eapply Hp; reflexivity|eapply H; exact E].
        -- intros b E. injection E as E _. contradiction.
      * intros [H _]. split.
        -- intros a c b E. apply (H (x :: a) c b). rewrite E. reflexivity.
        -- intros b E. apply (H [] x b). rewrite E. reflexivity.
Qed.

(* ------------------------------------------------------------ texts that are printed as they are *)

(* Names, literals and key words, whose text is copied to the output ... *)
Definition told_kinds : list string :=
  ["identifier"; "type_identifier"; "void_type"; "boolean"; "null_literal"; "int"; "decimal"; "string_literal";
   "decimal_floating_point_literal"; "date"; "date_literal"; "term"; "assignment_operator"; "else"; "user"; "system";
   "value_comparison_operator"; "set_comparison_operator"; "in_type"; "update_type"; "using_scope_type"; "field";
   "order_direction"; "order_null_direction"; "with_data_cat_filter_type"; "fields_type"; "for_type"; "type_parameter"].
Definition told_fields : list string :=
  ["name"; "key"; "operator"; "accessor"; "version_num"; "function_name"; "field"].
Definition told_places : list (string * string) :=
  [("annotation_argument_list", "value"); ("annotation_key_value", "value"); ("trigger_declaration", "object")].
Definition told_as (n c : node) : bool :=
  match n_field c with
  | Some f => kind_in f told_fields || existsb (fun p => String.eqb (fst p) (n_kind n) && String.eqb (snd p) f) told_places
  | None => false
  end.
Definition told_alone (n : node) : bool :=
  kind_in (n_kind n) told_kinds ||
  (String.eqb (n_kind n) "with_type" && is_nil (filter n_named (children n))).

(* ... and none of their lines ends with white space (a name has one line; a text in
   quotes may have more). *)
Definition tidy_texts (root : node) : Prop :=
  forall n, In n (all_nodes root) ->
    (told_alone n = true -> tidy false (n_text n) = true) /\
    (forall c, In c (children n) -> told_as n c = true -> tidy false (n_text c) = true).

(* The number of line feeds at the end of [s], [k] of which stand before it; none if three
   line feeds follow one another, which are two empty lines in a row. *)
Fixpoint feeds (k : nat) (s : ustr) : option nat :=
  match s with
  | [] => Some k
  | c :: s => if (c =? c_nl)%N then (if (k <? 2)%nat then feeds (S k) s else None) else feeds 0 s
  end.
Definition sparse (s : ustr) : bool := match feeds 0 s with Some _ => true | None => false end.
Lemma feeds_bound s : forall k m, feeds k s = Some m -> (k <= 2)%nat -> (m <= 2)%nat.
Proof.
  induction s as [|c s IH]; intros k m H L; cbn [feeds] in H; [injection H as <-; exact L|].
  destruct (c =? c_nl)%N; [|eapply IH; [exact H|lia]]. destruct (Nat.ltb_spec k 2); [|discriminate]. eapply IH; [exact H|lia].
Qed.
Lemma feeds_means s : forall k, (k <= 2)%nat ->
  (feeds k s <> None <-> forall a b, repeat c_nl k ++ s <> a ++ c_nl :: c_nl :: c_nl :: b).
Proof.
  induction s as [|c s IH]; intros k L; cbn [feeds].
  - split; [intros _ a b E|discriminate]. rewrite app_nil_r in E. apply (f_equal (@List.length _)) in E.
    rewrite repeat_length, app_length in E. cbn in E. lia.
  - destruct (N.eqb_spec c c_nl) as [->|Hc].
    + destruct (Nat.ltb_spec k 2) as [Hk|Hk].
      * rewrite IH by lia. assert (Q : repeat c_nl (S k) ++ s = repeat c_nl k ++ c_nl :: s).
        { change (c_nl :: s) with ([c_nl] ++ s). rewrite app_assoc, <- repeat_cons. reflexivity. }
        rewrite Q. reflexivity.
      * split; [congruence|]. intro H. exfalso. assert (k = 2)%nat as -> by lia. apply (H [] s). reflexivity.
    + rewrite (IH 0%nat) by lia. cbn [repeat app]. split.
      * intros H a b E. destruct k as [|[|[|]]]; [| | |lia]; cbn [repeat app] in E.
        -- destruct a as [|x a]; injection E as E1 E; [congruence|exact (H a b E)].
        -- destruct a as [|x [|y a]]; injection E; intros; try congruence; eapply H; eassumption.
        -- destruct a as [|x [|y [|z a]]]; injection E; intros; try congruence; eapply H; eassumption.
      * intros H a b E. apply (H (repeat c_nl k ++ c :: a) b). rewrite E, <- app_assoc. reflexivity.
Qed.
Lemma sparse_means s : sparse s = true <-> forall a b, s <> a ++ c_nl :: c_nl :: c_nl :: b.
Proof.
  rewrite <- (feeds_means s 0) by lia. unfold sparse. destruct (feeds 0 s); split; try reflexivity; try discriminate; congruence.
Qed.
(* No two spaces in a row in [s]; [b]: a space stands before [s]. *)
Fixpoint singles (b : bool) (s : ustr) : bool :=
  match s with
  | [] => true
  | c :: s => if (c =? c_sp)%N then negb b && singles true s else singles false s
  end.
(* None of the texts that are copied has two spaces in a row. *)
Definition single_texts (root : node) : Prop :=
  forall n, In n (all_nodes root) ->
    (told_alone n = true -> singles false (n_text n) = true) /\
    (forall c, In c (children n) -> told_as n c = true -> singles false (n_text c) = true).
(* None of the texts that are copied has two empty lines in a row. *)
Definition sparse_texts (root : node) : Prop :=
  forall n, In n (all_nodes root) ->
    (told_alone n = true -> sparse (n_text n) = true) /\
    (forall c, In c (children n) -> told_as n c = true -> sparse (n_text c) = true).

(* ------------------------------------------------------------ the exception *)

Definition has_child (n : node) (k : string) : Prop := exists c, In c (children n) /\ n_kind c = k /\ n_named c = true.
Definition has_item (n : node) (not : string) : Prop :=
  exists c, In c (children n) /\ n_named c = true /\ n_extra c = false /\ n_kind c <> not.

(* Every [for] statement has its third part, and every LOOKUP its BIND. *)
Definition full_clauses (root : node) : Prop :=
  forall n, In n (all_nodes root) ->
    (n_kind n = "for_statement" -> exists c, In c (children n) /\ n_field c = Some "update") /\
    (n_kind n = "using_lookup_clause" -> has_child n "using_lookup_bind_clause").

(* What the parser gives: lists that are not empty, an operator in front of the first
   value of a variable, and the arguments of an annotation in their own node. *)
Definition listed_kinds : list string := ["and_expression"; "or_expression"; "select_clause"; "selected_fields"; "type_list"].
Record filled (root : node) : Prop := {
  fi_list : forall n, In n (all_nodes root) -> kind_in (n_kind n) listed_kinds = true -> has_item n "";
  fi_group : forall n, In n (all_nodes root) -> n_kind n = "group_by_clause" -> has_item n "having_clause";
  fi_binds : forall n, In n (all_nodes root) -> n_kind n = "using_lookup_bind_clause" -> has_child n "using_lookup_bind_expression";
  fi_value : forall n c, In n (all_nodes root) -> n_kind n = "variable_declarator" -> In c (children n) -> n_field c = Some "value" ->
    has_child n "assignment_operator";
  fi_args : forall n c, In n (all_nodes root) -> n_kind n = "annotation" -> In c (children n) -> n_field c = Some "arguments" ->
    n_kind c = "annotation_argument_list"
}.

(* ------------------------------------------------------------ comments *)

(* Statements and declarations, the members of bodies. *)
Definition member_kinds : list string :=
  ["class_declaration"; "interface_declaration"; "enum_declaration"; "trigger_declaration"; "field_declaration";
   "method_declaration"; "constructor_declaration"; "constant_declaration"; "static_initializer";
   "if_statement"; "expression_statement"; "local_variable_declaration"; "for_statement";
   "enhanced_for_statement"; "run_as_statement"; "do_statement"; "while_statement"; "return_statement"; "try_statement";
   "throw_statement"; "break_statement"; "continue_statement"; "switch_expression"].
(* The fields at which the nodes of [body_kinds] stand. *)
Definition body_fields : list string := ["body"; "consequence"; "alternative"].
Definition in_body (n : node) : bool := match n_field n with Some f => kind_in f body_fields | None => true end.

(* A block comment with something behind it in the row where it ends. *)
Definition followed (a : attached) : bool :=
  negb (has_kind "line_comment" (at_comment a)) &&
  match find n_named (at_right a) with Some x => (n_erow (at_comment a) =? n_srow x)%N | None => false end.

(* A comment stands in front of something that is not a separator, or behind a statement
   or declaration as the last thing in its row, or alone in braces.  A comment in front of
   something that has something else behind it in its row is the only one there. *)
Record quiet_comments (root : node) : Prop := {
  qc_front : forall a, In a (attachments root) -> at_place a = Leading ->
    separator (at_node a) = false /\
    (followed a = true -> comments_at root (n_id (at_node a)) Leading = [at_comment a]);
  qc_behind : forall a, In a (attachments root) -> at_place a = Trailing ->
    kind_in (n_kind (at_node a)) member_kinds = true /\ n_field (at_node a) = None /\ followed a = false;
  qc_alone : forall a, In a (attachments root) -> at_place a = Dangling ->
    kind_in (n_kind (at_node a)) body_kinds = true /\ in_body (at_node a) = true
}.
(* The lines of a block comment are not blank; a line comment is one line that is not. *)
Definition full_lines (root : node) : Prop :=
  forall c, In c (all_nodes root) -> n_extra c = true ->
    if has_kind "line_comment" c then ~ In c_nl (n_text c) /\ trim (n_text c) <> []
    else starts_with (U "/**") (n_text c) = true \/ (forall l, In l (split_on c_nl (n_text c)) -> trim l <> []).
(* The text of every node but the root and the line comments begins and ends with a visible
   character. *)
Definition trimmed_texts (root : node) : Prop :=
  forall n, In n (flat_map all_nodes (children root)) -> n_kind n <> "line_comment" \/ n_field n <> None ->
    visible_ends (n_text n).

(* ------------------------------------------------------------ spaces in a row *)

(* No line of a comment, as it is printed, has two spaces in a row, and the first begins
   with something else than a space ... *)
Definition single_comments (root : node) : Prop :=
  forall c, In c (all_nodes root) -> n_extra c = true ->
    let ls := normal_lines (has_kind "line_comment" c) (trim_end (n_text c)) in
    Forall (fun l => singles false l = true) ls /\ starts_with [c_sp] (hd [] ls) = false.
(* ... and none stands in front of a [catch], a [finally] or the list of an [extends] or
   [implements]. *)
Definition announced (n : node) : bool :=
  kind_in (n_kind n) ["catch_clause"; "finally_clause"] || existsb (has_kind "type_list") (children n).
Definition unannounced (root : node) : Prop :=
  forall a, In a (attachments root) -> at_place a = Leading -> announced (at_node a) = false.
(* Two spaces in a row in [out] are part of the indentation of their line. *)
Definition spaced_once (out : ustr) : Prop :=
  forall before rest, out = before ++ c_sp :: c_sp :: rest ->
    exists lines n, before = lines ++ repeat c_sp n /\ (lines = [] \/ exists ls, lines = ls ++ [c_nl]).
