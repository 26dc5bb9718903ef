(* ConfHypotheses.v: how many of the 301 test files of the project meet hypotheses of the
   theorems (conformance/hypotheses.py counts them for each hypothesis and for all files).  Nothing here models afmt; the trees are those of the Conf*.v files. *)
From Coq Require Import List String NArith Bool.
From Verif Require Import Base Cst Comments SpecTree SpecTokens SpecRead SpecReread SpecArrange SpecOrder SpecSupported SpecLoud SpecTrim
  Samples SamplesTokens SamplesArrange SamplesRead SamplesReread SamplesSupported SamplesLoud SamplesTrim ConfTrees.
From Verif Require ConfStatic1 ConfComments1 ConfPrettier1 ConfPrettier2 ConfPrettier3.
Import ListNotations.
Local Open Scope list_scope.

Definition test_trees : list node :=
  ConfStatic1.trees ++ ConfComments1.trees ++ ConfPrettier1.trees ++ ConfPrettier2.trees ++ ConfPrettier3.trees.
Example test_count : List.length test_trees = 301%nat.
Proof. vm_compute. reflexivity. Qed.

(* [P] holds of [n] of the trees (at least; a decider may miss some). *)
Definition holds_in (l : list node) (n : nat) (P : node -> Prop) : Prop :=
  exists chosen : node -> bool, List.length (filter chosen l) = n /\ Forall P (filter chosen l).
Definition holds_of : nat -> (node -> Prop) -> Prop := holds_in test_trees.
Lemma chosen_by l n (P : node -> Prop) (b : node -> bool) :
  (forall r, b r = true -> P r) -> List.length (filter b l) = n -> holds_in l n P.
Proof. intros H L. exists b. split; [exact L|]. apply Forall_forall. intros r Hr. apply H, (proj1 (filter_In _ _ _) Hr). Qed.
Ltac both := let H := fresh in intros ? H; repeat match type of H with _ && _ = true => apply andb_prop in H as [H ?] end; repeat match goal with |- _ /\ _ => split end.
Ltac test n b := apply (chosen_by _ n _ b); [|vm_compute; reflexivity].

(* C39, C32, C45, C35, C54, C33, C36 to C38 need a file of the grammar (below) without comments *)
Example uncommented_tests : holds_of 231 (fun r => uncommented r /\ untouched r /\ trimmed_nodes r).
Proof. test 231%nat (fun r => uncommentedb r && untouchedb r && trimmedb r). both; auto using uncommentedb_ok, untouchedb_ok, trimmedb_ok. Qed.
(* C55 *)
Example C55_tests : holds_of 299 ordered_places.
Proof. test 299%nat ordered_placesb. exact ordered_placesb_ok. Qed.
(* C05, C58, C62 and, with C55_tests, C55: the files that must be formatted, whatever the
   comments; all 60 tests of tests/comments *)
Example C62_tests :
  holds_in ConfComments1.trees 60 (fun r => file_tree r /\ distinct_ids r /\ grammatical r /\ supported r /\ comments_in_braces r /\ loud_places r /\
    simple_places r /\ visible_comments r /\ later_rows r /\ n_error r = false /\ (6 * height r < 400)%nat).
Proof.
  test 60%nat (fun r => file_treeb r && distinct_ids_b r && grammatical_b r && supportedb r && comments_in_bracesb r && loud_placesb r &&
    simple_placesb r && visible_commentsb r && later_rowsb r && negb (n_error r) && (6 * height r <? 400)%nat).
  both; auto using file_treeb_ok, distinct_ids_sound, grammatical_sound, supportedb_ok, comments_in_bracesb_ok, loud_placesb_ok, simple_placesb_ok,
    visible_commentsb_ok, later_rowsb_ok.
  - apply negb_true_iff. assumption.
  - apply Nat.ltb_lt. assumption.
Qed.
(* C17, C59, C60, C61 *)
Example C60_tests : holds_of 279 (fun r =>
  distinct_ids r /\ code r = true /\ trimmed_texts r /\ tidy_texts r /\ sparse_texts r /\ single_texts r /\ full_clauses r /\ filled r /\
  quiet_comments r /\ full_lines r /\ single_comments r /\ unannounced r).
Proof.
  test 279%nat (fun r => distinct_ids_b r && code r && trimmed_textsb r && tidy_textsb r && sparse_textsb r && single_textsb r && full_clausesb r &&
    filledb r && quietb r && full_linesb r && single_commentsb r && unannouncedb r).
  both; auto using distinct_ids_sound, trimmed_textsb_ok, tidy_textsb_ok, sparse_textsb_ok, single_textsb_ok, full_clausesb_ok, filledb_ok,
    full_linesb_ok, single_commentsb_ok, unannouncedb_ok.
  all: apply quietb_ok; auto using distinct_ids_sound.
Qed.
