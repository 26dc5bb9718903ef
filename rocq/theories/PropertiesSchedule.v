(* PropertiesSchedule.v: the properties of formatting many files in threads.
   Statements only; proofs are in ScheduleProofs.v and ScheduleProofs2.v.

   A schedule [ops] is any interleaving of the main thread and the workers, with
   what reading each file gave ([Read i c]).  [gives] and [too_deep] say what the
   result for one file is (SpecSchedule.v). *)
From Verif Require Import Base Cst Formatter Schedule SpecCli SpecSchedule ScheduleProofs ScheduleProofs2 Trees Samples SamplesCli.
From Coq Require Import Permutation.
Local Open Scope string_scope.

(* ------------------------------------------------------------------ C23 *)
(* When the call returns, every file was read once and the results are those of
   the files, one each. *)
Theorem C23_one_result_per_file :
  forall ts checked stack cfg (files : list ustr) (ops : list op) (st : state),
    schedule ts checked stack cfg (init files) ops = Some st -> returned st = true ->
    exists cs rs, List.length cs = List.length files /\
      (forall i c, nth_error cs i = Some c <-> In (Read i c) ops) /\
      Forall2 (gives ts checked stack cfg) cs rs /\ Permutation (got st) rs.
Proof. exact results. Qed.
Print Assumptions C23_one_result_per_file.

(* Every schedule is finite; one that has not ended can go on.  So the call
   returns unless the process is aborted... *)
Theorem C23_the_call_ends :
  forall ts checked stack cfg (files : list ustr) (ops : list op) (st : state),
    schedule ts checked stack cfg (init files) ops = Some st ->
    (List.length ops <= 6 * List.length files + 2)%nat /\
    (returned st = true \/ aborted st = true \/
     exists o st', Schedule.step ts checked stack cfg st o = Some st').
Proof. exact goes_on. Qed.
Print Assumptions C23_the_call_ends.

(* ...which only happens when formatting one of the files runs out of stack. *)
Theorem C23_abort_only_for_deep_files :
  forall ts checked stack cfg (files : list ustr) (ops : list op) (st : state),
    schedule ts checked stack cfg (init files) ops = Some st -> aborted st = true ->
    exists i c, In (Read i c) ops /\ too_deep ts checked stack cfg c.
Proof. exact only_deep_aborts. Qed.
Print Assumptions C23_abort_only_for_deep_files.

(* Two files, the second finishing first. *)
Definition two : list ustr := [U "A.cls"; U "B.cls"].
Definition two_ops (a b : ustr) : list op :=
  [Spawn; Spawn; Read 1 (inl b); Read 0 (inl a); Format 1; DropTx; Send 1; Receive; Format 0; Drop 1; Send 0; Drop 0; Receive; Return].
Definition two_run (a b : ustr) (p : state -> bool) : bool :=
  match schedule ts1 true 100 Config_default (init two) (two_ops a b) with Some st => p st | None => false end.
Definition is_text (r : result) (t : ustr) : bool := match r with inl s => ustr_eqb s t | inr _ => false end.
Definition is_failure (r : result) : bool := match r with inl _ => false | inr _ => true end.

Example C23_case :
  two_run (U "x") bad_text (fun st => returned st &&
    match got st with [r1; r2] => is_failure r1 && is_text r2 text1 | _ => false end) = true.
Proof. vm_compute. reflexivity. Qed.

(* ------------------------------------------------------------------ C24 *)
(* The results are in the order in which the workers finish: any order of the
   files is the order of the results under some schedule. *)
Theorem C24_results_in_any_order_refuted :
  forall ts checked stack cfg (files : list ustr) (reads : nat -> reading) (rs : nat -> result) (idx : list nat),
    Permutation idx (seq 0 (List.length files)) ->
    (forall i, (i < List.length files)%nat -> gives ts checked stack cfg (reads i) (rs i)) ->
    exists ops st, schedule ts checked stack cfg (init files) ops = Some st /\ returned st = true /\
      (forall i c, In (Read i c) ops -> c = reads i) /\ got st = map rs idx.
Proof. exact orders. Qed.
Print Assumptions C24_results_in_any_order_refuted.

(* So the i-th result need not belong to the i-th file. *)
Theorem C24_second_result_first_refuted :
  exists ts checked stack cfg files ops st v why,
    schedule ts checked stack cfg (init files) ops = Some st /\ returned st = true /\
    In (Read 0 (inl v)) ops /\ gives ts checked stack cfg (inl v) (inl v) /\
    nth_error (got st) 0 = Some (inr why).
Proof.
  exists ts1, true, 100%nat, Config_default, two, (two_ops text1 bad_text). eexists. exists text1. eexists.
  split; [vm_compute; reflexivity|]. split; [reflexivity|]. split; [right; right; right; left; reflexivity|].
  split; [apply gives_text; apply formats1; vm_compute; reflexivity|reflexivity].
Qed.
Print Assumptions C24_second_result_first_refuted.

(* With one file, which is all the command line program passes, there is one
   result and it belongs to that file. *)
Theorem C24_single_file_partial :
  forall ts checked stack cfg (f : ustr) (ops : list op) (st : state),
    schedule ts checked stack cfg (init [f]) ops = Some st -> returned st = true ->
    exists c r, In (Read 0 c) ops /\ gives ts checked stack cfg c r /\ got st = [r].
Proof. exact one_result. Qed.
Print Assumptions C24_single_file_partial.

Example C24_case :
  Permutation [1; 0]%nat (seq 0 (List.length two)) /\
  gives ts1 true 100 Config_default (inl (U "x")) (inl text1) /\
  match schedule ts1 true 100 Config_default (init [U "A.cls"])
          [Spawn; DropTx; Read 0 (inl (U "x")); Format 0; Send 0; Drop 0; Receive; Return] with
  | Some st => returned st
  | None => false
  end = true.
Proof.
  split; [apply perm_swap|]. split; [apply gives_text; apply formats1; reflexivity|vm_compute; reflexivity].
Qed.

(* ------------------------------------------------------------------ C25 *)
(* Two calls that read the same, except for file j, return the same results,
   except for the result of file j. *)
Theorem C25_files_are_independent :
  forall ts checked stack cfg (files files' : list ustr) (ops ops' : list op) (st st' : state) (j : nat),
    schedule ts checked stack cfg (init files) ops = Some st -> returned st = true ->
    schedule ts checked stack cfg (init files') ops' = Some st' -> returned st' = true ->
    List.length files = List.length files' -> (j < List.length files)%nat ->
    (forall i c, i <> j -> (In (Read i c) ops <-> In (Read i c) ops')) ->
    exists c c' r r' rest,
      In (Read j c) ops /\ gives ts checked stack cfg c r /\ Permutation (got st) (r :: rest) /\
      In (Read j c') ops' /\ gives ts checked stack cfg c' r' /\ Permutation (got st') (r' :: rest).
Proof. exact isolated. Qed.
Print Assumptions C25_files_are_independent.

Example C25_case :
  two_run (U "x") (U "y") (fun st => returned st && match got st with [r1; r2] => is_text r1 text1 && is_text r2 text1 | _ => false end) = true /\
  two_run (U "x") bad_text (fun st => returned st && match got st with [r1; r2] => is_failure r1 && is_text r2 text1 | _ => false end) = true /\
  (forall i c, i <> 1%nat -> (In (Read i c) (two_ops (U "x") (U "y")) <-> In (Read i c) (two_ops (U "x") bad_text))).
Proof.
  split; [vm_compute; reflexivity|]. split; [vm_compute; reflexivity|].
  intros i c Hi. simpl. intuition congruence.
Qed.

(* A file that runs out of stack takes the results of all others with it: the
   call never returns. *)
Theorem C25_deep_file_refuted :
  forall ts checked stack cfg (files : list ustr) (ops : list op) (st : state) (i : nat) (c : reading),
    schedule ts checked stack cfg (init files) ops = Some st -> In (Read i c) ops ->
    too_deep ts checked stack cfg c -> returned st = false.
Proof. exact deep_spoils. Qed.
Print Assumptions C25_deep_file_refuted.

(* Such a file exists for every stack. *)
Theorem C25_deep_file_exists : forall stack, too_deep ts1 true stack Config_default (inl deep_text).
Proof. exact deep1. Qed.
Print Assumptions C25_deep_file_exists.
