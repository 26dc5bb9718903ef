(* PropertiesCli.v: the properties of the command line program.  Statements
   only; proofs are in CliProofs.v and CliProofs2.v.

   An execution is a list of steps [ops] of the program, of its threads and of
   the outside (Cli.v).  The terms used are defined in SpecCli.v. *)
From Verif Require Import Base Cst Formatter Schedule Cli SpecCli CliProofs CliProofs2 Trees Samples SamplesCli.
Local Open Scope string_scope.

(* ------------------------------------------------------------------ C18 *)
(* With --check the program never changes a file, at no moment. *)
Theorem C18_check_changes_nothing :
  forall ts checked stack toml (a : args) (fs : files) (ops : list cli_op) (s : cli),
    cli_run ts checked stack toml a (cli_init fs) ops = Some s -> a_check a = true ->
    same (c_fs s) (outside ops fs).
Proof. exact check_writes_nothing. Qed.
Print Assumptions C18_check_changes_nothing.

(* It exits with 0 exactly when the file, read again, holds the formatted text. *)
Theorem C18_check_reports_faithfully :
  forall ts checked stack toml (a : args) (fs : files) (ops : list cli_op) (s : cli) (code : N),
    cli_run ts checked stack toml a (cli_init fs) ops = Some s -> a_check a = true -> c_pc s = At_exit code ->
    (code = 0%N <->
     exists cfg src v, loaded toml a ops cfg /\ source ops (inl src) /\ formats ts checked stack cfg src v /\
       In (Check (inl v)) ops).
Proof. exact check_exit. Qed.
Print Assumptions C18_check_reports_faithfully.

Example C18_case :
  ends_with (args1 false true) text1 [Check (inl text1)] (fun s => exits 0 s && holds file1 text1 s) = true /\
  ends_with (args1 false true) (U "x") [Check (inl (U "x"))] (fun s => exits 1 s && holds file1 (U "x") s) = true.
Proof. split; vm_compute; reflexivity. Qed.

(* When nobody else writes and existing files can be read: with --check the exit
   status is 0 exactly when the file is its own formatted text; otherwise it is 0
   exactly when the file can be formatted. *)
Theorem C18_exit_status :
  forall ts checked stack toml (a : args) (fs : files) (ops : list cli_op) (s : cli) (code : N),
    calm a fs ops -> cli_run ts checked stack toml a (cli_init fs) ops = Some s -> c_pc s = At_exit code ->
    (code = 0%N <->
     exists cfg src v, configured toml a fs cfg /\ fs (a_path a) = Some src /\ formats ts checked stack cfg src v /\
       (a_check a = true -> v = src)).
Proof. exact calm_exit. Qed.
Print Assumptions C18_exit_status.

Example C18_calm_case : calm (args1 false true) (disk text1) (upto text1 ++ [Check (inl text1)])%list.
Proof. intros o Ho. simpl in Ho. repeat (destruct Ho as [<-|Ho]; [exact I|]). destruct Ho. Qed.

(* ------------------------------------------------------------------ C19 *)
Theorem C19_write_stores_the_text :
  forall ts checked stack toml (a : args) (fs : files) (ops : list cli_op) (s : cli),
    cli_run ts checked stack toml a (cli_init fs) ops = Some s -> a_write a = true -> a_check a = false ->
    c_pc s = At_exit 0 -> untouched (a_path a) ops ->
    exists cfg src v, loaded toml a ops cfg /\ source ops (inl src) /\ formats ts checked stack cfg src v /\
      c_fs s (a_path a) = Some v /\ same_but (a_path a) (c_fs s) (outside ops fs).
Proof. exact write_stores. Qed.
Print Assumptions C19_write_stores_the_text.

(* Written in two pieces, while another file is changed from outside. *)
Example C19_case :
  ends_with (args1 true false) (U "x")
    [Create true; Write 3; Env other1 None; Write (List.length text1 - 5); Finish; Finish]
    (fun s => exits 0 s && holds file1 text1 s && match c_fs s other1 with None => true | _ => false end) = true.
Proof. vm_compute. reflexivity. Qed.

(* ------------------------------------------------------------------ C20 *)
Theorem C20_dry_run_changes_nothing :
  forall ts checked stack toml (a : args) (fs : files) (ops : list cli_op) (s : cli),
    cli_run ts checked stack toml a (cli_init fs) ops = Some s -> a_write a = false ->
    same (c_fs s) (outside ops fs).
Proof. exact dry_run_writes_nothing. Qed.
Print Assumptions C20_dry_run_changes_nothing.

Theorem C20_dry_run_prints_the_text :
  forall ts checked stack toml (a : args) (fs : files) (ops : list cli_op) (s : cli),
    cli_run ts checked stack toml a (cli_init fs) ops = Some s -> a_write a = false -> a_check a = false ->
    c_pc s = At_exit 0 ->
    exists cfg src v, loaded toml a ops cfg /\ source ops (inl src) /\ formats ts checked stack cfg src v /\
      c_out s = (Println v :: (if a_time a then [Elapsed] else []))%list.
Proof. exact dry_run_prints. Qed.
Print Assumptions C20_dry_run_prints_the_text.

Example C20_case :
  ends_with (args1 false false) (U "x") [Print; Finish]
    (fun s => exits 0 s && match c_out s with [Println t] => ustr_eqb t text1 | _ => false end) = true.
Proof. vm_compute. reflexivity. Qed.

(* ------------------------------------------------------------------ C21 *)
(* If no text is obtained (the configuration or the source cannot be read or
   parsed, or formatting fails), nothing is changed and the exit status is 1, or
   134 if formatting ran out of stack. *)
Theorem C21_failure_changes_nothing :
  forall ts checked stack toml (a : args) (fs : files) (ops : list cli_op) (s : cli) (code : N),
    cli_run ts checked stack toml a (cli_init fs) ops = Some s -> c_pc s = At_exit code ->
    (forall cfg src v, loaded toml a ops cfg -> source ops (inl src) -> ~ formats ts checked stack cfg src v) ->
    same (c_fs s) (outside ops fs) /\
    (code = 1%N \/
     code = 134%N /\ exists cfg src, loaded toml a ops cfg /\ source ops (inl src) /\
                       snd (format_source ts checked stack cfg src) = Overflow).
Proof. exact failure_exit. Qed.
Print Assumptions C21_failure_changes_nothing.

(* A run that does not exit with 0 prints no formatted text and no success message. *)
Theorem C21_failure_prints_no_text :
  forall ts checked stack toml (a : args) (fs : files) (ops : list cli_op) (s : cli) (code : N),
    cli_run ts checked stack toml a (cli_init fs) ops = Some s -> c_pc s = At_exit code -> code <> 0%N ->
    exists reports, c_out s = map Report reports.
Proof. exact failure_output. Qed.
Print Assumptions C21_failure_prints_no_text.

Example C21_case :
  ends_with (args1 true false) bad_text [Finish] (fun s => exits 1 s && holds file1 bad_text s && negb (is_nil (c_out s))) = true /\
  (forall cfg src v, loaded toml1 (args1 true false) (upto bad_text ++ [Finish])%list cfg ->
     source (upto bad_text ++ [Finish])%list (inl src) -> ~ formats ts1 true 100 cfg src v).
Proof.
  split; [vm_compute; reflexivity|]. intros cfg src v Hc Hs.
  unfold loaded in Hc. simpl in Hc. subst cfg. unfold source in Hs. simpl in Hs.
  assert (src = bad_text) as -> by (repeat (destruct Hs as [Hs|Hs]; [congruence|]); destruct Hs).
  unfold formats. vm_compute. discriminate.
Qed.

(* The claim "exit status 1 means no file was changed" fails when the write
   itself fails: the old content is gone. *)
Theorem C21_failed_write_refuted :
  exists ts checked stack toml a fs ops s,
    cli_run ts checked stack toml a (cli_init fs) ops = Some s /\ c_pc s = At_exit 1 /\
    untouched (a_path a) ops /\ fs (a_path a) = Some (U "x") /\ c_fs s (a_path a) = Some [].
Proof.
  exists ts1, true, 100%nat, toml1, (args1 true false), (disk (U "x")), (upto (U "x") ++ [Create true; WriteFails])%list.
  eexists. split; [vm_compute; reflexivity|]. split; [reflexivity|]. split; [|split; reflexivity].
  intros c Hin. simpl in Hin. repeat (destruct Hin as [Hin|Hin]; [discriminate|]). destruct Hin.
Qed.
Print Assumptions C21_failed_write_refuted.

(* ------------------------------------------------------------------ C22 *)
(* At every moment the file holds its old content or a beginning of the
   formatted text, and the other files are untouched. *)
Theorem C22_crash_leaves_old_or_beginning_partial :
  forall ts checked stack toml (a : args) (fs : files) (ops : list cli_op) (s : cli),
    cli_run ts checked stack toml a (cli_init fs) ops = Some s -> untouched (a_path a) ops ->
    same_but (a_path a) (c_fs s) (outside ops fs) /\
    (c_fs s (a_path a) = fs (a_path a) \/
     a_write a = true /\ a_check a = false /\
     exists cfg src v rest done, loaded toml a ops cfg /\ source ops (inl src) /\ formats ts checked stack cfg src v /\
       v = (done ++ rest)%list /\ c_fs s (a_path a) = Some done).
Proof. exact any_moment. Qed.
Print Assumptions C22_crash_leaves_old_or_beginning_partial.

(* Every beginning, the empty one included, is what some crash leaves: the claim
   that a crash leaves the old or the complete new content is false. *)
Theorem C22_crash_loses_text_refuted :
  forall ts checked stack toml (a : args) (fs : files) (src v : ustr) (k : nat),
    a_config a = None -> a_write a = true -> a_check a = false ->
    fs (a_path a) = Some src -> formats ts checked stack Config_default src v -> (k <= List.length v)%nat ->
    exists ops s, calm a fs ops /\ cli_run ts checked stack toml a (cli_init fs) ops = Some s /\
      c_fs s (a_path a) = Some (firstn k v).
Proof. exact crash_leaves. Qed.
Print Assumptions C22_crash_loses_text_refuted.

Example C22_case :
  disk (U "x") (a_path (args1 true false)) = Some (U "x") /\ formats ts1 true 100 Config_default (U "x") text1 /\
  Nat.leb 20 (List.length text1) = true.
Proof. split; [reflexivity|]. split; [apply formats1; reflexivity|vm_compute; reflexivity]. Qed.

(* ------------------------------------------------------------------ C50 *)
(* No execution goes on for ever... *)
Theorem C50_the_program_ends :
  forall ts checked stack toml (a : args),
    well_founded (fun s' s => exists o, own o /\ cli_step ts checked stack toml a s o = Some s').
Proof. exact program_ends. Qed.
Print Assumptions C50_the_program_ends.

(* ...and none is stuck before it exits. *)
Theorem C50_the_program_is_never_stuck :
  forall ts checked stack toml (a : args) (fs : files) (ops : list cli_op) (s : cli),
    cli_run ts checked stack toml a (cli_init fs) ops = Some s -> (forall code, c_pc s <> At_exit code) ->
    exists o s', own o /\ cli_step ts checked stack toml a s o = Some s'.
Proof. exact never_stuck. Qed.
Print Assumptions C50_the_program_is_never_stuck.

Theorem C50_every_run_can_exit :
  forall ts checked stack toml (a : args) (fs : files) (ops : list cli_op) (s : cli),
    calm a fs ops -> cli_run ts checked stack toml a (cli_init fs) ops = Some s ->
    exists more s' code, calm a fs (ops ++ more) /\
      cli_run ts checked stack toml a (cli_init fs) (ops ++ more) = Some s' /\ c_pc s' = At_exit code.
Proof. exact runs_to_the_end. Qed.
Print Assumptions C50_every_run_can_exit.

Example C50_case :
  ends_with (args1 true false) (U "x") [Create true; Write 3] (fun s => negb (exits 0 s) && negb (exits 1 s)) = true /\
  calm (args1 true false) (disk (U "x")) (upto (U "x") ++ [Create true; Write 3])%list.
Proof.
  split; [vm_compute; reflexivity|]. intros o Ho. simpl in Ho. repeat (destruct Ho as [<-|Ho]; [exact I|]). destruct Ho.
Qed.
