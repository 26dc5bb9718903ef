(* PropertiesFormatter.v: the entry point, syntax errors and the configuration.
   Statements only; proofs are in FormatterProofs.v.  [last_error], [snippet_of]
   and [boundary_at_80] are specified in SpecFormatter.v.  [ts] is the parser and
   [n_error n] says that n or a node below it is a syntax error. *)
From Verif Require Import Base Cst Comments Term New Formatter Schedule SpecCli SpecFormatter FormatterProofs Trees Samples Witnesses SamplesCli.
Local Open Scope string_scope.

(* ------------------------------------------------------------------ C26 *)
(* A second call on the same thread never gives a text: it panics, whatever the
   first call gave. *)
Theorem C26_second_call_refuted :
  forall ts checked stack cfg (src1 src2 : ustr),
    n_error (ts src1) = false -> n_error (ts src2) = false ->
    let after := fst (fst (format_one ts checked stack cfg src1 fresh_thread)) in
    format_one ts checked stack cfg src2 after
    = (after, [], Panic "Source code is already set for this thread").
Proof. exact second_call. Qed.
Print Assumptions C26_second_call_refuted.

(* Only a call that met a syntax error leaves the thread as it was. *)
Theorem C26_after_syntax_error_partial :
  forall ts checked stack cfg (src1 src2 : ustr) (s : thread_state),
    n_error (ts src1) = true ->
    let after := fst (fst (format_one ts checked stack cfg src1 s)) in
    after = s /\ format_one ts checked stack cfg src2 after = format_one ts checked stack cfg src2 s.
Proof. exact call_after_syntax_error. Qed.
Print Assumptions C26_after_syntax_error_partial.

Example C26_case :
  n_error (ts1 (U "x")) = false /\ n_error (ts1 bad_text) = true /\
  formats ts1 true 100 Config_default (U "x") text1.
Proof. split; [vm_compute; reflexivity|]. split; [vm_compute; reflexivity|]. apply formats1; reflexivity. Qed.

(* ------------------------------------------------------------------ C27 *)
Theorem C27_syntax_error_gives_no_text :
  forall ts checked stack cfg (src : ustr),
    n_error (ts src) = true -> exists why, snd (format_source ts checked stack cfg src) = Panic why.
Proof. exact syntax_error_no_text. Qed.
Print Assumptions C27_syntax_error_gives_no_text.

(* The node reported is the one found by following the last erroneous child; the
   second report is about its parent.  A report is missing only when cutting its
   snippet fails. *)
Theorem C27_reported_node :
  forall ts checked stack cfg (src : ustr),
    n_error (ts src) = true ->
    exists e, last_error (ts src) e /\ (forall e', last_error (ts src) e' -> e' = e) /\
      match fst (format_source ts checked stack cfg src) with
      | [] => (80 < ulen (n_text e))%N /\ ~ boundary_at_80 (n_text e)
      | r :: more =>
          r_parent r = false /\ r_kind r = n_kind e /\ r_sbyte r = n_sbyte e /\ r_ebyte r = n_ebyte e /\
          snippet_of (n_text e) (r_snippet r) /\
          match more with
          | [] => e = ts src \/ exists p, In e (children p) /\ (80 < ulen (n_text p))%N /\ ~ boundary_at_80 (n_text p)
          | [r2] => exists p, In e (children p) /\ r_parent r2 = true /\ r_kind r2 = n_kind p /\ r_sbyte r2 = n_sbyte p /\
                      r_ebyte r2 = n_ebyte p /\ snippet_of (n_text p) (r_snippet r2)
          | _ => False
          end
      end.
Proof. exact reported. Qed.
Print Assumptions C27_reported_node.

Theorem C27_no_report_without_error :
  forall ts checked stack cfg (src : ustr),
    n_error (ts src) = false -> fst (format_source ts checked stack cfg src) = [].
Proof. exact nothing_reported. Qed.
Print Assumptions C27_no_report_without_error.

Example C27_case :
  n_error (ts1 bad_text) = true /\
  match fst (format_source ts1 true 100 Config_default bad_text) with
  | [r1; r2] => String.eqb (r_kind r1) "ERROR" && String.eqb (r_kind r2) "parser_output"
  | _ => false
  end = true.
Proof. split; vm_compute; reflexivity. Qed.

(* ------------------------------------------------------------------ C28 *)
(* The snippet is the text, or its first 80 bytes and a mark... *)
Theorem C28_snippet_is_a_prefix :
  forall s t, truncate_snippet s = Ok t <-> snippet_of s t.
Proof. exact snippet_spec. Qed.
Print Assumptions C28_snippet_is_a_prefix.

(* ...and cutting it fails exactly when byte 80 of a longer text is inside a
   character. *)
Theorem C28_exactly_when_it_crashes_partial :
  forall s, (exists why, truncate_snippet s = Panic why) <-> (80 < ulen s)%N /\ ~ boundary_at_80 s.
Proof. exact snippet_fails. Qed.
Print Assumptions C28_exactly_when_it_crashes_partial.

Theorem C28_crash_refuted : exists s why, truncate_snippet s = Panic why.
Proof. exists (repeat 233%N 39 ++ [8364%N; 97%N])%list. eexists. vm_compute. reflexivity. Qed.
Print Assumptions C28_crash_refuted.

Example C28_case :
  ok_with (truncate_snippet (repeat 97%N 100)) (fun t => ustr_eqb t (repeat 97%N 80 ++ [8230%N])%list) = true.
Proof. vm_compute. reflexivity. Qed.

(* ------------------------------------------------------------------ C29 *)
(* Fields the file does not set have the values 80 and 2; the others have the
   values it sets; a file that cannot be read or parsed gives no configuration. *)
Theorem C29_defaults :
  forall toml s t c, toml s = inl t -> Config_from_file toml (inl s) = inl c ->
    max_width c = match toml_max_width t with Some w => w | None => 80%N end /\
    cfg_indent_size c = match toml_indent_size t with Some i => i | None => 2%N end.
Proof. intros toml s t c E H. unfold Config_from_file in H. rewrite E in H. injection H as <-. split; reflexivity. Qed.
Print Assumptions C29_defaults.

Theorem C29_unusable_file :
  forall toml r c, Config_from_file toml r = inl c -> exists s t, r = inl s /\ toml s = inl t.
Proof.
  intros toml [s|e] c H; [|discriminate]. exists s. simpl in H. destruct (toml s) as [t|]; [eauto|discriminate].
Qed.
Print Assumptions C29_unusable_file.

(* With an indent size of zero nothing is ever formatted. *)
Theorem C29_zero_indent_fails :
  forall ts checked stack cfg (src : ustr),
    cfg_indent_size cfg = 0%N -> forall out, snd (format_source ts checked stack cfg src) <> Ok out.
Proof. exact zero_indent. Qed.
Print Assumptions C29_zero_indent_fails.

Example C29_case :
  Config_from_file (fun _ => inl {| toml_max_width := Some 100%N; toml_indent_size := None |}) (inl (U "max_width = 100"))
  = inl {| max_width := 100%N; cfg_indent_size := 2%N |} /\
  snd (format_source ts1 true 100 {| max_width := 80; cfg_indent_size := 0 |} (U "x")) = Panic "indent_size must be greater than 0".
Proof. split; [reflexivity|vm_compute; reflexivity]. Qed.
