(* SamplesCli.v: executions used as non-trivial cases of the properties. *)
From Verif Require Import Base Cst Comments Term New Formatter Schedule Cli SpecCli SpecSchedule ScheduleProofs CliProofs2 ScheduleProofs2
  Trees Samples Witnesses SamplesRead.
From Coq Require Import Permutation.
Local Open Scope string_scope.

(* A parser that gives one tree for a text, another for any other text. *)
Definition bad_tree : node := tree (br "parser_output" [lcom "// c"; err "class x"]).
Definition deep_text : ustr := U "deep".
Definition bad_text : ustr := U "bad".
Definition ts1 (src : ustr) : node :=
  if ustr_eqb src deep_text then sample_unknown else if ustr_eqb src bad_text then bad_tree else sample.
Definition text1 : ustr := match format_tree true 100 Config_default sample with Ok s => s | _ => [] end.
Lemma ts1_sample src : ustr_eqb src deep_text = false -> ustr_eqb src bad_text = false -> ts1 src = sample.
Proof. intros H1 H2. unfold ts1. rewrite H1, H2. reflexivity. Qed.
Lemma formats1 src : ustr_eqb src deep_text = false -> ustr_eqb src bad_text = false ->
  formats ts1 true 100 Config_default src text1.
Proof.
  intros H1 H2. unfold formats, format_source, parse. rewrite (ts1_sample src H1 H2).
  replace (n_error sample) with false by (vm_compute; reflexivity). cbn [snd rbind]. unfold text1.
  assert (K : ok_with (format_tree true 100 Config_default sample) (fun _ => true) = true) by (vm_compute; reflexivity).
  destruct (format_tree true 100 Config_default sample); [reflexivity|discriminate|discriminate].
Qed.
Lemma deep1 stack : too_deep ts1 true stack Config_default (inl deep_text).
Proof.
  exists deep_text. split; [reflexivity|]. unfold format_source, parse.
  change (ts1 deep_text) with sample_unknown. replace (n_error sample_unknown) with false by (vm_compute; reflexivity).
  cbn [snd rbind]. apply unknown_condition_overflows.
Qed.

Definition file1 : ustr := U "A.cls".
Definition other1 : ustr := U "B.cls".
Definition disk (c : ustr) : files := fun p => if ustr_eqb p file1 then Some c else if ustr_eqb p other1 then Some (U "keep") else None.
Definition args1 (write check : bool) : args :=
  {| a_path := file1; a_config := None; a_write := write; a_time := false; a_check := check |}.
Definition toml1 (s : ustr) : toml_fields + ustr := inr (U "no toml").
(* The steps up to the result. *)
Definition upto (src : ustr) : list cli_op :=
  [Start (inl []); Thread Spawn; Thread DropTx; Thread (Read 0 (inl src)); Thread (Format 0); Thread (Send 0);
   Thread (Drop 0); Thread Receive; Thread Return; Collected].
Definition ends_with (a : args) (src : ustr) (more : list cli_op) (p : cli -> bool) : bool :=
  match cli_run ts1 true 100 toml1 a (cli_init (disk src)) (upto src ++ more)%list with
  | Some s => p s
  | None => false
  end.
Definition exits (code : N) (s : cli) : bool := match c_pc s with At_exit c => (c =? code)%N | _ => false end.
Definition holds (p : ustr) (c : ustr) (s : cli) : bool := match c_fs s p with Some x => ustr_eqb x c | None => false end.
