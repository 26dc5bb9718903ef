(* PropertiesLoud.v: comments do not keep a file from being formatted, unless they stand at
   one of the places listed in SpecLoud.v. *)
From Verif Require Import Base Doc DocBuilder Cst Comments Term New Formatter SpecTree SpecComments SpecRead SpecTokens SpecOrder SpecArrange SpecSupported
  SpecLoud ReadSafe3 Loud SamplesSupported SamplesLoud SamplesRead SamplesTokens SamplesArrange Samples PropertiesTokens PropertiesSupported.
Local Open Scope string_scope.
Local Open Scope list_scope.

(* C58: a file of supported constructs is formatted although it has comments, however many
   and of whatever sort, at any place where the formatter looks for comments.
   Missing: comments at the places of [loud_places], and a comment alone between other
   signs than braces ([comments_in_braces]). *)
Theorem C58_comments_do_not_matter_partial :
  forall (ts : ustr -> node) (checked : bool) (stack : nat) (cfg : config) (src : ustr),
    file_tree (ts src) -> distinct_ids (ts src) -> grammatical (ts src) -> supported (ts src) ->
    comments_in_braces (ts src) -> loud_places (ts src) ->
    (checked = true -> later_rows (ts src)) ->
    n_error (ts src) = false -> (6 * height (ts src) < stack)%nat -> cfg_indent_size cfg <> 0%N ->
    exists out, format_source ts checked stack cfg src = ([], Ok out).
Proof.
  intros ts checked stack cfg src FT D G SU B L LR E HS HI.
  destruct (loud_formatted checked stack cfg (ts src)) as (out & H); auto.
  { split; [exact FT|]. tauto. }
  exists out. unfold format_source, parse. rewrite E. cbn [rbind]. rewrite H. reflexivity.
Qed.
Print Assumptions C58_comments_do_not_matter_partial.

Example C58_case :
  file_tree sample_comments /\ distinct_ids sample_comments /\ comments_in_braces sample_comments /\ loud_places sample_comments /\
  supported_ok sample_comments.
Proof.
  split; [apply file_treeb_ok; vm_compute; reflexivity|]. split; [apply distinct_ids_sound; vm_compute; reflexivity|].
  split; [apply comments_in_bracesb_ok; vm_compute; reflexivity|]. split; [apply loud_placesb_ok; vm_compute; reflexivity|]. supports.
Qed.

(* ... but a comment in the place of the condition of a for loop, between a type and its
   parameters, behind braces with only a comment in them, or between the label and the
   block of a switch rule keeps a file from being formatted. *)
Definition erased (root : node) : Prop :=
  file_tree root /\ distinct_ids root /\ grammatical root /\ supported root /\ comments_in_braces root /\ later_rows root /\
  n_error root = false /\
  forall checked, format_source (fun _ => root) checked 200 Config_default [] = ([], Panic "## There are erased comment node(s)").
Ltac erases :=
  split; [apply file_treeb_ok; vm_compute; reflexivity|];
  split; [apply distinct_ids_sound; vm_compute; reflexivity|];
  split; [apply grammatical_sound; vm_compute; reflexivity|];
  split; [apply supportedb_ok; vm_compute; reflexivity|];
  split; [apply comments_in_bracesb_ok; vm_compute; reflexivity|];
  split; [apply later_rowsb_ok; vm_compute; reflexivity|];
  split; [vm_compute; reflexivity|intros []; vm_compute; reflexivity].
Theorem C58_for_refuted : erased sample_mute_for.
Proof. erases. Qed.
Print Assumptions C58_for_refuted.
Theorem C58_type_refuted : erased sample_mute_list.
Proof. erases. Qed.
Print Assumptions C58_type_refuted.
Theorem C58_braces_refuted : erased sample_mute_block.
Proof. erases. Qed.
Print Assumptions C58_braces_refuted.
Theorem C58_switch_refuted : erased sample_mute_switch.
Proof. erases. Qed.
Print Assumptions C58_switch_refuted.
