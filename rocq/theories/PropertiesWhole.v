(* PropertiesWhole.v: the program as a whole, from the command line to the text in the file. *)
From Coq Require Import Permutation.
From Verif Require Import Base SpecDoc Cst Comments Formatter Schedule Cli SpecTree SpecRead SpecTokens SpecOrder SpecArrange SpecSupported SpecLoud
  CollectProofs2 TokensComments ArrangeText Samples SamplesRead SamplesTokens SamplesArrange SamplesSupported SamplesLoud PropertiesTokens
  PropertiesArrange PropertiesSupported PropertiesLoud.
From Verif Require SpecCli CliProofs CliProofs2 PropertiesCli SamplesCli.
Local Open Scope string_scope.
Local Open Scope list_scope.

(* C62.  [afmt --write FILE] on a file of supported constructs, with comments, when nobody else
   writes and the file can be read and written: if the program comes to its end (C50 says that
   it does), it exits with 0, no other file has changed, and FILE holds a text that is the
   tokens of the source, in their order, and each of its comments once, with only white space
   between them.
   Missing: the constructs that [file_tree] and [supported] leave out (C35, C57) and comments
   at the places of [loud_places], [simple_places] and [comments_in_braces] (C58, C05). *)
Theorem C62_write_keeps_the_program_partial :
  forall ts checked stack toml (a : args) (fs : files) (ops : list cli_op) (s : cli) (code : N) (cfg : config) (src : ustr),
    SpecCli.calm a fs ops -> cli_run ts checked stack toml a (cli_init fs) ops = Some s -> c_pc s = At_exit code ->
    a_write a = true -> a_check a = false -> fs (a_path a) = Some src -> SpecCli.configured toml a fs cfg ->
    cfg_indent_size cfg <> 0%N ->
    file_tree (ts src) -> distinct_ids (ts src) -> grammatical (ts src) -> supported (ts src) ->
    comments_in_braces (ts src) -> loud_places (ts src) -> simple_places (ts src) -> visible_comments (ts src) ->
    (checked = true -> later_rows (ts src)) -> n_error (ts src) = false -> (6 * height (ts src) < stack)%nat ->
    code = 0%N /\ (forall other, other <> a_path a -> c_fs s other = fs other) /\
    exists text order ws,
      c_fs s (a_path a) = Some text /\
      spaced ws text /\ kept (flat_map as_lines order) ws /\
      filter (fun n => negb (n_extra n)) order = leaves (ts src) /\
      Permutation (filter n_extra order) (comments_of (ts src)).
Proof.
  intros ts checked stack toml a fs ops s code cfg src Hc HR Hp Hw Hk Hs Hcfg Hi Ft Di Gr Su Cb Lo Si Vi La Er St.
  destruct (C58_comments_do_not_matter_partial ts checked stack cfg src Ft Di Gr Su Cb Lo La Er St Hi) as (out & HF).
  assert (E0 : code = 0%N).
  { apply (PropertiesCli.C18_exit_status ts checked stack toml a fs ops s code Hc HR Hp). exists cfg, src, out.
    split; [exact Hcfg|]. split; [exact Hs|]. split; [unfold SpecCli.formats; rewrite HF; reflexivity|congruence]. }
  split; [exact E0|]. subst code.
  assert (Un : SpecCli.untouched (a_path a) ops) by (intros c Hin; exact (Hc _ Hin)).
  destruct (PropertiesCli.C19_write_stores_the_text ts checked stack toml a fs ops s HR Hw Hk Hp Un) as (cfg' & src' & v & L & So & Fm & Ev & Sb).
  rewrite (CliProofs2.outside_calm a fs ops Hc) in Sb. split; [exact Sb|].
  pose proof (CliProofs2.calm_reads ts checked stack toml a fs ops s _ Hc HR So) as Rd. cbn in Rd.
  assert (src' = src) as -> by congruence.
  unfold SpecCli.formats in Fm. unfold format_source in Fm. destruct (parse ts src) as [lg r] eqn:P. cbn [snd] in Fm.
  unfold parse in P. rewrite Er in P. injection P as <- <-. cbn [rbind] in Fm.
  destruct (C05_once_partial checked stack cfg' (ts src) v Ft Di Cb Si Vi Fm) as (order & ws & H).
  exists v, order, ws. split; [exact Ev|exact H].
Qed.
Print Assumptions C62_write_keeps_the_program_partial.

(* A file with comments at many places, and an execution. *)
Definition whole_args : args := SamplesCli.args1 true false.
Definition whole_ops (src : ustr) : list cli_op :=
  SamplesCli.upto src ++ [Create true; Write 3; Write (List.length (match format_tree true 200 Config_default sample_comments with Ok s => s | _ => [] end) - 5); Finish; Finish].
Definition whole_end : option cli :=
  cli_run (fun _ => sample_comments) true 200 SamplesCli.toml1 whole_args (cli_init (SamplesCli.disk (n_text sample_comments)))
    (whole_ops (n_text sample_comments)).
Example C62_case :
  SpecCli.calm whole_args (SamplesCli.disk (n_text sample_comments)) (whole_ops (n_text sample_comments)) /\
  match whole_end with Some s => c_pc s = At_exit 0 | None => False end /\
  file_tree sample_comments /\ distinct_ids sample_comments /\ grammatical sample_comments /\ supported sample_comments /\
  comments_in_braces sample_comments /\ loud_places sample_comments /\ simple_places sample_comments /\ visible_comments sample_comments /\
  later_rows sample_comments /\ n_error sample_comments = false /\ (6 * height sample_comments < 200)%nat.
Proof.
  split; [intros o Ho; unfold whole_ops, SamplesCli.upto in Ho; cbn [app In] in Ho; repeat (destruct Ho as [<-|Ho]; [exact I|]); destruct Ho|].
  split; [vm_compute; reflexivity|].
  split; [apply file_treeb_ok; vm_compute; reflexivity|]. split; [apply distinct_ids_sound; vm_compute; reflexivity|].
  split; [apply grammatical_sound; vm_compute; reflexivity|]. split; [apply supportedb_ok; vm_compute; reflexivity|].
  split; [apply comments_in_bracesb_ok; vm_compute; reflexivity|]. split; [apply loud_placesb_ok; vm_compute; reflexivity|].
  split; [apply simple_placesb_ok; vm_compute; reflexivity|]. split; [apply visible_commentsb_ok; vm_compute; reflexivity|].
  split; [apply later_rowsb_ok; vm_compute; reflexivity|]. split; [vm_compute; reflexivity|].
  apply PeanoNat.Nat.ltb_lt. vm_compute. reflexivity.
Qed.
