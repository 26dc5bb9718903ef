(* PropertiesDoc.v: the properties of the layout engine (src/doc.rs and
   src/doc_builder.rs).  Statements only; proofs are in DocProofs*.v.

   Reading guide.  [pretty_print d w] is the text printed for document [d] and
   width [w]; [print_step] and [fits_step] are one iteration of the two loops of
   src/doc.rs; [reached w d s]: the printer passes through state [s].  The
   vocabulary of the statements (layouts, glances, lines) is in SpecDoc.v. *)
From Verif Require Import Base Doc DocBuilder SpecDoc DocProofs DocProofs2 DocProofs3.
Local Open Scope string_scope.

(* Documents used in the examples. *)
Definition tx (s : string) : doc := txt (U s).
Definition call_doc : doc :=          (* f(a, b) with the arguments in a group *)
  concat [tx "f"; group (concat [tx "("; Indent 2 maybeline; Indent 2 (concat [tx "a,"; softline; tx "b"]);
                                 maybeline; tx ")"]); tx ";"].

(* ------------------------------------------------------------------ C01 *)
(* Neither loop has an infinite run, from any state, and printing gives a text. *)
Theorem C01_printer_loop_terminates :
  forall (w : N) (run : nat -> pstate), ~ (forall n, print_step w (run n) = Some (run (S n))).
Proof. exact print_no_infinite_run. Qed.
Print Assumptions C01_printer_loop_terminates.

Theorem C01_lookahead_loop_terminates :
  forall run : nat -> fstate, ~ (forall n, fits_step (run n) = inr (run (S n))).
Proof. exact fits_no_infinite_run. Qed.
Print Assumptions C01_lookahead_loop_terminates.

Theorem C01_printing_yields_a_text :
  forall (d : doc) (w : N),
    exists final, reached w d final /\ print_step w final = None /\ pretty_print d w = p_out (flush final).
Proof. exact pretty_print_final. Qed.
Print Assumptions C01_printing_yields_a_text.

Example C01_case : pretty_print call_doc 80 = U "f(a, b);".
Proof. vm_compute. reflexivity. Qed.

(* ------------------------------------------------------------------ C10 *)
(* At an undecided group the printer commits the text [p_out s']; if it then
   continues with the flat alternative, the current line of the final output,
   trailing spaces aside, is not longer than the width, or than what was already
   on the line. *)
Theorem C10_flat_line_within_width :
  forall (w : N) (d : doc) (s s' : pstate) (y : doc) (i : N) (r : list chunk) (m : ustr),
    exact_widths d -> reached w d s ->
    p_chunks s = {| ch_doc := group y; ch_indent := i; ch_flat := false |} :: r ->
    print_step w s = Some s' ->
    p_chunks s' = {| ch_doc := Flat y; ch_indent := i; ch_flat := false |} :: r ->
    pretty_print d w = (p_out s' ++ m)%list ->
    (ulen (last_line (p_out s')) + ulen (strip_trailing_spaces (first_line m))
       <= N.max w (ulen (last_line (p_out s'))))%N.
Proof. exact flat_line_width. Qed.
Print Assumptions C10_flat_line_within_width.

(* The hypotheses are met by the call document at width 8, and at width 7 the
   same group is broken. *)
Example C10_case :
  exists s s' y i r m,
    exact_widths call_doc /\ reached 8 call_doc s /\
    p_chunks s = {| ch_doc := group y; ch_indent := i; ch_flat := false |} :: r /\
    print_step 8 s = Some s' /\
    p_chunks s' = {| ch_doc := Flat y; ch_indent := i; ch_flat := false |} :: r /\
    pretty_print call_doc 8 = (p_out s' ++ m)%list /\ m = U "(a, b);".
Proof.
  do 6 eexists. split; [repeat split; simpl; intuition discriminate|].
  split; [eapply R_step; [eapply R_step; [apply R_init|reflexivity]|reflexivity]|].
  split; [reflexivity|]. split; [reflexivity|]. split; [reflexivity|].
  split; [vm_compute; reflexivity|reflexivity].
Qed.
Example C10_case_narrow :
  pretty_print call_doc 7 = (U "f(" ++ [c_nl] ++ U "  a," ++ [c_nl] ++ U "  b" ++ [c_nl] ++ U ");")%list.
Proof. vm_compute. reflexivity. Qed.

(* ------------------------------------------------------------------ C11 *)
(* At an undecided group, with [r] still to be printed after it: it is printed
   flat exactly when it holds no forced break and its flat text together with
   what follows up to the next possible line break fits in the remaining width. *)
Theorem C11_group_broken_only_when_needed :
  forall (w : N) (d : doc) (s s' : pstate) (y : doc) (i : N) (r : list chunk),
    exact_widths d -> reached w d s ->
    p_chunks s = {| ch_doc := group y; ch_indent := i; ch_flat := false |} :: r ->
    print_step w s = Some s' ->
    let column := ulen (last_line (p_out s')) in
    p_chunks s' =
      {| ch_doc := if (need (glance true y ++ glances r) <=? w - column)%N && negb (forced (glance true y))
                   then Flat y else y;
         ch_indent := i; ch_flat := false |} :: r.
Proof. exact group_choice. Qed.
Print Assumptions C11_group_broken_only_when_needed.

(* For a whole document that is one group: the output is a flat layout of it
   when it fits, and a layout of the undecided document when it does not. *)
Theorem C11_whole_document_group :
  forall (d : doc) (w : N),
    let fits_flat := (need (glance true d) <=? w)%N && negb (forced (glance true d)) in
    exists a, layout 0 fits_flat d a /\ pretty_print (group d) w = render (AGroup :: a).
Proof. exact group_decision. Qed.
Print Assumptions C11_whole_document_group.

Example C11_case :
  let d := concat [tx "a"; softline; tx "b"] in
  pretty_print (group d) 3 = U "a b" /\ pretty_print (group d) 2 = (U "a" ++ [c_nl] ++ U "b")%list
  /\ need (glance true d) = 3%N.
Proof. vm_compute. auto. Qed.

(* ------------------------------------------------------------------ C12 *)
(* A run of hard breaks between two texts prints one line break, wherever the
   three stand in a document. *)
Theorem C12_run_of_breaks_prints_one :
  forall (d : doc) (w : N) (s : ustr) (sw : N) (t : ustr) (tw : N) (n : nat),
    s <> [c_sp] -> t <> [c_sp] ->
    within (Concat (Text s sw :: repeat Newline (S n) ++ [Text t tw])) d ->
    exists a i b, pretty_print d w = (a ++ s ++ c_nl :: repeat c_sp (N.to_nat i) ++ t ++ b)%list.
Proof. exact breaks_between_texts_printed. Qed.
Print Assumptions C12_run_of_breaks_prints_one.

Theorem C12_empty_line_prints_one_blank_line :
  forall (d : doc) (w : N) (s : ustr) (sw : N) (t : ustr) (tw : N),
    s <> [c_sp] -> t <> [c_sp] ->
    within (Concat [Text s sw; empty_new_line; Text t tw]) d ->
    exists a i b, pretty_print d w = (a ++ s ++ c_nl :: c_nl :: repeat c_sp (N.to_nat i) ++ t ++ b)%list.
Proof. exact empty_line_between_texts_printed. Qed.
Print Assumptions C12_empty_line_prints_one_blank_line.

(* The full property is false: a group that starts between two hard breaks keeps
   them from being merged, so two breaks print two line feeds (a blank line). *)
Theorem C12_breaks_across_group_start_refuted :
  exists d w, d = concat [tx "a"; nl; group (concat [nl; tx "b"])] /\
              pretty_print d w = (U "a" ++ [c_nl; c_nl] ++ U "b")%list.
Proof. eexists; exists 80%N; split; [reflexivity|vm_compute; reflexivity]. Qed.
Print Assumptions C12_breaks_across_group_start_refuted.

Example C12_case :
  pretty_print (concat [tx "{"; Indent 4 (concat [nl; nl; nl; tx "x"])]) 80
  = (U "{" ++ [c_nl] ++ U "    x")%list.
Proof. vm_compute. reflexivity. Qed.
Example C12_case_hyp :
  within (Concat (Text (U "a") 1 :: repeat Newline 3 ++ [Text (U "b") 1]))
         (Indent 2 (Concat [tx "x"; group (Concat (Text (U "a") 1 :: repeat Newline 3 ++ [Text (U "b") 1]))])).
Proof. apply W_indent. eapply W_concat; [right; left; reflexivity|]. apply within_group, W_here. Qed.

(* ------------------------------------------------------------------ C13 *)
(* When every indent of a document has the same size, the printed text is the
   rendering of a layout in which each break is followed by depth times size
   spaces (SpecDoc.dlayout counts the enclosing indents). *)
Theorem C13_indentation_is_depth_times_size :
  forall (sz : N) (d : doc) (w : N),
    uniform sz d -> exists a, dlayout sz 0 false d a /\ pretty_print d w = render a.
Proof. exact pretty_print_dlayout. Qed.
Print Assumptions C13_indentation_is_depth_times_size.

Example C13_case :
  let d := Indent 3 (concat [tx "{"; nl; Indent 3 (concat [tx "a"; nl; tx "b"; Dedent 3 (concat [nl; tx "}"])])]) in
  uniform 3 d /\
  pretty_print d 80 = (U "{" ++ [c_nl] ++ U "   a" ++ [c_nl] ++ U "      b" ++ [c_nl] ++ U "   }")%list.
Proof. split; [simpl; tauto|vm_compute; reflexivity]. Qed.

(* ------------------------------------------------------------------ C14 *)
Theorem C14_column_is_exact :
  forall (w : N) (d : doc) (s : pstate),
    exact_widths d -> reached w d s -> p_col s = ulen (last_line (p_out s)).
Proof. exact reached_column. Qed.
Print Assumptions C14_column_is_exact.

(* The proviso is needed: with a line feed inside a text the column is wrong. *)
Example C14_proviso :
  exists s, reached 80 (concat [Text (U "ab" ++ [c_nl] ++ U "c")%list 4]) s /\
            p_col s = 4%N /\ ulen (last_line (p_out s)) = 1%N.
Proof.
  eexists. split; [eapply R_step; [eapply R_step; [apply R_init|reflexivity]|reflexivity]|].
  split; vm_compute; reflexivity.
Qed.
Example C14_case : exact_widths call_doc.
Proof. repeat split; simpl; intuition discriminate. Qed.

(* ------------------------------------------------------------------ C43 *)
(* Printing a text: nothing changes when it is a lone space and the line already
   ends in a space; otherwise exactly that text is appended (after the pending
   line break, if there is one). *)
Theorem C43_lone_space_not_doubled :
  forall (w : N) (s s' : pstate) (tw i : N) (f : bool) (r : list chunk) (o : ustr),
    p_chunks s = {| ch_doc := Text [c_sp] tw; ch_indent := i; ch_flat := f |} :: r ->
    p_out (flush s) = (o ++ [c_sp])%list -> print_step w s = Some s' -> p_out s' = p_out (flush s).
Proof. exact lone_space_step. Qed.
Print Assumptions C43_lone_space_not_doubled.

Theorem C43_other_text_printed_in_full :
  forall (d : doc) (w : N) (t : ustr) (tw : N),
    t <> [c_sp] -> within (Text t tw) d -> exists a b, pretty_print d w = (a ++ t ++ b)%list.
Proof. exact text_printed. Qed.
Print Assumptions C43_other_text_printed_in_full.

(* The full property is false: a soft break printed as a space is not a text and
   is printed after a space. *)
Theorem C43_space_before_softline_refuted :
  exists d w, d = group (concat [tx "a "; softline; tx "b"]) /\ pretty_print d w = U "a  b".
Proof. eexists; exists 80%N; split; [reflexivity|vm_compute; reflexivity]. Qed.
Print Assumptions C43_space_before_softline_refuted.

Example C43_case : pretty_print (concat [tx "a "; tx " "; tx "b"; tx " "; tx " "; tx "c"]) 80 = U "a b c".
Proof. vm_compute. reflexivity. Qed.
