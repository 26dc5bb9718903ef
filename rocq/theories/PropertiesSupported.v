(* PropertiesSupported.v: which files are formatted. *)
From Verif Require Import Base Doc DocBuilder Cst Comments Term New Formatter SpecTree SpecComments SpecRead SpecTokens SpecSupported
  Trees Samples SamplesRead SamplesTokens SamplesSupported PropertiesTokens ReadSafe3.
Local Open Scope string_scope.
Local Open Scope list_scope.

(* ------------------------------------------------------------------ C57 *)
(* A file without syntax error and without comments, of which the parser made a tree of the
   grammar ([source_tree], [grammatical]), is formatted if it is [supported] and the stack is
   deep enough; in debug builds ([checked]) only one member of a body may be on the first row
   of the file.  In particular the reader rejects no such file.
   Missing: what [supported] excludes, for which the claim is false (below). *)
Theorem C57_supported_files_partial :
  forall (ts : ustr -> node) (checked : bool) (stack : nat) (cfg : config) (src : ustr),
    source_tree (ts src) -> grammatical (ts src) -> supported (ts src) ->
    (checked = true -> later_rows (ts src)) ->
    n_error (ts src) = false -> (6 * height (ts src) < stack)%nat -> cfg_indent_size cfg <> 0%N ->
    exists out, format_source ts checked stack cfg src = ([], Ok out).
Proof.
  intros ts checked stack cfg src ST G SU LR E HS HI.
  destruct (format_supported checked stack cfg (ts src)) as (cm & t & d & marks & HC & _ & _ & H); auto.
  { split; [apply ST|]. tauto. }
  unfold format_source, parse. rewrite E. cbn [rbind]. rewrite H, (nothing_missing _ cm marks G ST HC). cbn [is_nil]. eexists. reflexivity.
Qed.
Print Assumptions C57_supported_files_partial.

(* ... and one with comments is formatted or reported for a comment without a place in the
   output. *)
Theorem C57_supported_files_with_comments_partial :
  forall (ts : ustr -> node) (checked : bool) (stack : nat) (cfg : config) (src : ustr),
    file_tree (ts src) -> grammatical (ts src) -> supported (ts src) ->
    (checked = true -> later_rows (ts src)) ->
    n_error (ts src) = false -> (6 * height (ts src) < stack)%nat -> cfg_indent_size cfg <> 0%N ->
    (exists out, format_source ts checked stack cfg src = ([], Ok out)) \/
    format_source ts checked stack cfg src = ([], Panic "## There are erased comment node(s)").
Proof.
  intros ts checked stack cfg src FT G SU LR E HS HI.
  destruct (format_supported checked stack cfg (ts src)) as (cm & t & d & marks & _ & _ & _ & H); auto.
  { split; [exact FT|]. tauto. }
  unfold format_source, parse. rewrite E. cbn [rbind]. rewrite H. destruct (is_nil _); [left; eexists; reflexivity|right; reflexivity].
Qed.
Print Assumptions C57_supported_files_with_comments_partial.

Ltac supports :=
  split; [apply grammatical_sound; vm_compute; reflexivity|];
  split; [apply supportedb_ok; vm_compute; reflexivity|];
  split; [apply later_rowsb_ok; vm_compute; reflexivity|];
  split; [vm_compute; reflexivity|]; split; [apply Nat.ltb_lt; vm_compute; reflexivity|discriminate].
Definition supported_ok (root : node) : Prop :=
  grammatical root /\ supported root /\ later_rows root /\
  n_error root = false /\ (6 * height root < 100)%nat /\ cfg_indent_size narrow <> 0%N.
Example C57_case :
  source_tree sample_tokens /\ supported_ok sample_tokens /\ source_tree sample_queries /\ supported_ok sample_queries /\
  file_tree sample_comments /\ supported_ok sample_comments.
Proof.
  split; [apply source_treeb_ok; vm_compute; reflexivity|]. split; [supports|].
  split; [apply source_treeb_ok; vm_compute; reflexivity|]. split; [supports|].
  split; [apply file_treeb_ok; vm_compute; reflexivity|]. supports.
Qed.

(* A query WITH DATA CATEGORY, a property without accessors, [merge] with one record and, in
   debug builds, a second declaration on the first row make the reader panic. *)
Definition rejected (checked : bool) (root : node) (y : string) : Prop :=
  source_tree root /\ grammatical root /\ n_error root = false /\
  format_source (fun _ => root) checked 100 Config_default [] = ([], Panic y).
Ltac rejects :=
  split; [apply source_treeb_ok; vm_compute; reflexivity|];
  split; [apply grammatical_sound; vm_compute; reflexivity|]; split; vm_compute; reflexivity.
Theorem C57_category_refuted : rejected false sample_category "unknown node in WithType".
Proof. rejects. Qed.
Print Assumptions C57_category_refuted.
Theorem C57_property_refuted : rejected false sample_property "missing mandatory kind children".
Proof. rejects. Qed.
Print Assumptions C57_property_refuted.
Theorem C57_merge_refuted : rejected false sample_merge "missing mandatory name child".
Proof. rejects. Qed.
Print Assumptions C57_merge_refuted.
Theorem C57_first_row_refuted : supported sample_row /\ rejected true sample_row "attempt to subtract with overflow".
Proof. split; [apply supportedb_ok; vm_compute; reflexivity|rejects]. Qed.
Print Assumptions C57_first_row_refuted.
