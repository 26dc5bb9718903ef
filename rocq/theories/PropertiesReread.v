(* PropertiesReread.v: formatting a formatted source again. *)
From Verif Require Import Base Doc DocBuilder Cst Comments Term New Formatter SpecTree SpecLayout SpecTokens SpecReread Reread
  Samples SamplesTokens SamplesLayout PropertiesTokens SamplesReread.
Local Open Scope string_scope.
Local Open Scope list_scope.

(* C39, for sources without comments and without parentheses that afmt removes, in a
   build without overflow checks.  [root'] is what the parser finds in the formatted text
   [out]: the tree of the source, with the same words in it, and with the rows that its
   nodes have in [out] ([found_again] of SpecReread.v).  Nothing is assumed of the rows,
   bytes and numbers of the nodes of [root], and nothing of the bytes and numbers of the
   nodes of [root'] but that they are in order and different.
   Missing: that the parser does find that tree; and the sources with comments, for which
   it is false, see below. *)
Theorem C39_formatting_again_partial :
  forall (stack : nat) (cfg : config) (root root' : node) (out : ustr),
    file_tree root -> untouched root -> trimmed_nodes root -> distinct_ids root -> distinct_ids root' ->
    format_tree false stack cfg root = Ok out -> found_again root out root' ->
    format_tree false stack cfg root' = Ok out.
Proof. intros. eapply reread; eassumption. Qed.
Print Assumptions C39_formatting_again_partial.

(* The same for sources, where the parser is any function from texts to trees. *)
Theorem C39_sources_partial :
  forall (ts : ustr -> node) (stack : nat) (cfg : config) (src out : ustr),
    file_tree (ts src) -> untouched (ts src) -> trimmed_nodes (ts src) ->
    distinct_ids (ts src) -> distinct_ids (ts out) -> n_error (ts out) = false ->
    found_again (ts src) out (ts out) ->
    snd (format_source ts false stack cfg src) = Ok out ->
    format_source ts false stack cfg out = ([], Ok out).
Proof.
  intros ts stack cfg src out Ft Un Tr D D' E F H. unfold format_source, parse in *. rewrite E.
  destruct (n_error (ts src)).
  - destruct (parse_report (ts src)) as [log [[]| |]]; discriminate H.
  - cbn in *. f_equal. eapply reread; eassumption.
Qed.
Print Assumptions C39_sources_partial.

Definition again_ok (root : node) : Prop :=
  file_tree root /\ untouched root /\ trimmed_nodes root /\ distinct_ids root /\ distinct_ids (again root) /\
  format_tree false 100 narrow root = Ok (narrow_out root) /\ found_again root (narrow_out root) (again root).
Ltac again :=
  split; [apply file_treeb_ok; vm_compute; reflexivity|];
  split; [apply untouchedb_ok; vm_compute; reflexivity|];
  split; [apply trimmedb_ok; vm_compute; reflexivity|];
  split; [apply distinct_ids_sound; vm_compute; reflexivity|];
  split; [apply distinct_ids_sound; vm_compute; reflexivity|];
  split; [vm_compute; reflexivity|apply found_againb_ok; vm_compute; reflexivity].
Example C39_sample_tokens : again_ok sample_tokens.
Proof. again. Qed.
Example C39_sample_queries : again_ok sample_queries.
Proof. again. Qed.
(* The tree that is found in the formatted text differs from that of the source. *)
Example C39_sample_rows : (n_erow sample_tokens, n_erow (again sample_tokens)) = (11, 39)%N.
Proof. vm_compute. reflexivity. Qed.

(* With comments formatting again may change the text: here afmt prints a blank at the
   end of the line behind a comment that stood on the row of the next argument, and not
   when it reads its own output. *)
Theorem C39_comments_refuted :
  exists (root root' : node) (out out' : ustr),
    file_tree root /\ trimmed_nodes root /\ distinct_ids root /\ distinct_ids root' /\
    format_tree false 100 narrow root = Ok out /\ found_again root out root' /\
    format_tree false 100 narrow root' = Ok out' /\ out' <> out.
Proof.
  exists sample_arguments, (again sample_arguments), (narrow_out sample_arguments), (narrow_out (again sample_arguments)).
  split; [apply file_treeb_ok; vm_compute; reflexivity|].
  split; [apply trimmedb_ok; vm_compute; reflexivity|].
  split; [apply distinct_ids_sound; vm_compute; reflexivity|].
  split; [apply distinct_ids_sound; vm_compute; reflexivity|].
  split; [vm_compute; reflexivity|]. split; [apply found_againb_ok; vm_compute; reflexivity|].
  split; [vm_compute; reflexivity|]. vm_compute. discriminate.
Qed.
Print Assumptions C39_comments_refuted.
Example C39_comments_printed :
  (map show (split_on c_nl (narrow_out sample_arguments)), map show (split_on c_nl (narrow_out (again sample_arguments)))) =
  (["public class Foo {"; "  void bar() {"; "    foo("; "      aaaaaaaaaa, /* x */ "; "      bbbbbbbbbb"; "    );"; "  }"; "}"; ""],
   ["public class Foo {"; "  void bar() {"; "    foo("; "      aaaaaaaaaa, /* x */"; "      bbbbbbbbbb"; "    );"; "  }"; "}"; ""]).
Proof. vm_compute. reflexivity. Qed.
