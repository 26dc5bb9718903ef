(* PropertiesRead.v: the properties of reading a syntax tree and of the text
   printed for it.  Statements only; proofs are in NewProofs.v and ReadProofs*.v.

   [height], [filters_known], [grammatical] and the kinds of printed pieces are
   specified in SpecRead.v. *)
From Verif Require Import Base Doc DocBuilder SpecDoc Cst Comments SpecTree SpecComments SpecRead Term New
  Formatter NewProofs ReadProofs ReadProofs2 ReadProofs3 Trees Samples Witnesses SamplesRead.
Local Open Scope string_scope.

(* ------------------------------------------------------------------ C34 *)
(* If every operand of a query condition is one of the four conditions afmt
   knows, formatting ends: six nested calls per level of the tree suffice. *)
Theorem C34_formatting_terminates :
  forall (checked : bool) (stack : nat) (cfg : config) (root : node),
    filters_known root -> (6 * height root < stack)%nat -> format_tree checked stack cfg root <> Overflow.
Proof. exact format_tree_terminates. Qed.
Print Assumptions C34_formatting_terminates.

Example C34_case : filters_known sample_where /\ (6 * height sample_where < 100)%nat.
Proof. split; [apply filters_known_sound; vm_compute; reflexivity|apply Nat.ltb_lt; vm_compute; reflexivity]. Qed.

(* Without the hypothesis the claim is false: a condition of any other kind is
   read for ever, whatever the stack. *)
Theorem C34_unknown_conditions_refuted :
  exists root, forall (checked : bool) (stack : nat) (cfg : config),
    format_tree checked stack cfg root = Overflow.
Proof. exists sample_unknown. exact unknown_condition_overflows. Qed.
Print Assumptions C34_unknown_conditions_refuted.

Theorem C34_every_unknown_condition_loops :
  forall (cm : list (N * bucket)) (checked : bool) (stack : nat) (l : loc),
    kind_in (n_kind (l_node l)) filter_kinds = false ->
    forall p, new cm checked stack (BooleanExpression p) l = Overflow /\
              new cm checked stack (ConditionExpression p) l = Overflow.
Proof. exact filter_loop. Qed.
Print Assumptions C34_every_unknown_condition_loops.

(* ------------------------------------------------------------------ C49 *)
(* A bigger stack never changes a result: it can only avoid an overflow. *)
Theorem C49_a_bigger_stack_changes_nothing :
  forall (checked : bool) (k k' : nat) (cfg : config) (root : node),
    (k <= k')%nat -> format_tree checked k cfg root <> Overflow ->
    format_tree checked k' cfg root = format_tree checked k cfg root.
Proof. exact format_tree_more. Qed.
Print Assumptions C49_a_bigger_stack_changes_nothing.

(* The same tree overflows a stack of 10 and not one of 30. *)
Example C49_case :
  format_tree true 10 Config_default sample = Overflow /\
  ok_with (format_tree true 30 Config_default sample) (fun _ => true) = true.
Proof. split; vm_compute; reflexivity. Qed.

(* ------------------------------------------------------------------ C41 *)
(* On a tree of the grammar the comments of every node that is printed can be
   looked up: this failure never happens. *)
Theorem C41_lookup_never_fails :
  forall (checked : bool) (stack : nat) (cfg : config) (root : node) (y : string),
    grammatical root -> (6 * height root < stack)%nat ->
    format_tree checked stack cfg root = Panic y -> y <> "comment map missing bucket for node".
Proof. exact no_lookup_failure. Qed.
Print Assumptions C41_lookup_never_fails.

(* ------------------------------------------------------------------ C48 *)
(* The only ways to fail: the tree is rejected while it is read, before anything
   is built, or comments are left over at the very end.  Building never fails. *)
Theorem C48_building_never_fails :
  forall (checked : bool) (stack : nat) (cfg : config) (root : node),
    grammatical root -> (6 * height root < stack)%nat -> cfg_indent_size cfg <> 0%N ->
    exists cm, collect_comments root = Ok cm /\
      ((exists t d marks,
          new cm checked stack Root (root_loc root) = Ok t /\
          run cm {| indent_size := cfg_indent_size cfg |} t = Ok (d, marks) /\
          format_tree checked stack cfg root =
            (if is_nil (missing_comments cm marks) then Ok (pretty_print d (max_width cfg))
             else Panic "## There are erased comment node(s)")) \/
       (exists y, new cm checked stack Root (root_loc root) = Panic y /\
          y <> "comment map missing bucket for node" /\
          format_tree checked stack cfg root = Panic y)).
Proof. exact format_tree_outcome. Qed.
Print Assumptions C48_building_never_fails.

Example C41_C48_case :
  grammatical sample /\ grammatical sample_where /\ grammatical sample_label /\
  (6 * height sample_label < 100)%nat /\
  format_tree true 100 Config_default sample_label = Panic "## There are erased comment node(s)".
Proof.
  split; [apply grammatical_sound; vm_compute; reflexivity|].
  split; [apply grammatical_sound; vm_compute; reflexivity|].
  split; [apply grammatical_sound; vm_compute; reflexivity|].
  split; [apply Nat.ltb_lt; vm_compute; reflexivity|vm_compute; reflexivity].
Qed.

(* ------------------------------------------------------------------ C47 *)
(* The output consists, blanks aside, of pieces each of which is a word or sign
   of the language, text of the source, or a line of a comment of the source. *)
Theorem C47_nothing_is_invented :
  forall (checked : bool) (stack : nat) (cfg : config) (root : node) (out : ustr),
    grammatical root -> format_tree checked stack cfg root = Ok out ->
    exists ps, spaced ps out /\
      Forall (fun p => fixed_piece p \/ source_piece root p \/ comment_piece root p) ps.
Proof. exact format_pieces. Qed.
Print Assumptions C47_nothing_is_invented.

Example C47_case :
  grammatical sample /\ ok_with (format_tree true 100 Config_default sample) (fun _ => true) = true.
Proof. split; [apply grammatical_sound; vm_compute; reflexivity|vm_compute; reflexivity]. Qed.
