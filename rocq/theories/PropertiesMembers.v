(* PropertiesMembers.v: blank lines between the members of a body, their depth,
   and the hash order of the comment map.  Statements only; proofs are in
   MembersProofs*.v and HashProofs.v, the vocabulary in SpecMembers.v. *)
From Coq Require Import Permutation Lia.
From Verif Require Import Base Doc DocBuilder SpecDoc Cst Comments Term New Formatter SpecMembers MembersProofs
  MembersProofs2 HashOrder HashProofs Trees Samples.
Local Open Scope string_scope.

(* ------------------------------------------------------------------ C32 *)
(* Reading: every member of a file, class body, interface body or block gets the
   flag saying whether the source has an empty line behind it. *)
Theorem C32_blank_line_read :
  forall cm checked k s s' l t,
    member_sort s = Some s' -> new cm checked (S k) s l = Ok t ->
    exists h ms, t = TNode h (with_punctuation l) (member_term s ms) [] /\
      Forall2 (fun c m => new cm checked k s' c = Ok (fst m) /\
        exists bk, cm_get (n_id (l_node c)) cm = Some bk /\ blank_kept (post bk) c (snd m)) (children_vec l) ms.
Proof. exact bodies_kept. Qed.
Print Assumptions C32_blank_line_read.

(* Printing: between the last text of a member and the first text of the next one
   there is one line break, or one empty line when the flag is set, never more.
   Missing for the full property: that every member prints a first and a last
   text, and files whose members share the first row (refuted below). *)
Theorem C32_blank_line_printed_partial :
  forall D w pre d1 tr d2 tr2 post s t,
    within (Concat (intersperse_members (pre ++ (d1, tr) :: (d2, tr2) :: post))) D ->
    ends_text s d1 -> starts_text t d2 ->
    exists a i b, pretty_print D w =
      (a ++ s ++ (if tr then [c_nl; c_nl] else [c_nl]) ++ repeat c_sp (N.to_nat i) ++ t ++ b)%list.
Proof. exact members_printed. Qed.
Print Assumptions C32_blank_line_printed_partial.

Definition field (name : string) : sketch :=
  br "field_declaration" [tokf "type" "type_identifier" "T"; brf "declarator" "variable_declarator" [tokf "name" "identifier" name]; an ";"].
(* class A { body } on as few rows as [body] takes *)
Definition plain_class (body : list sketch) : sketch :=
  br "parser_output" [br "class_declaration" [an "class"; tokf "name" "identifier" "A"; brf "body" "class_body" ([an "{"] ++ body ++ [an "}"])]].
Definition three_fields : node :=
  tree (plain_class [Row 1; field "a"; Row 1; field "b"; Row 3; field "c"; Row 1]).
Example C32_case :
  format_tree true 200%nat Config_default three_fields = Ok (U "class A {
  T a;
  T b;

  T c;
}
").
Proof. vm_compute. reflexivity. Qed.
Example C32_case_parts :
  let d1 := concat [txt (U "a"); txt (U ";")] in
  let d2 := concat [txt (U "b"); txt (U ";")] in
  within (Concat (intersperse_members ([] ++ (d1, true) :: (d2, false) :: []))) (Indent 2 (Concat (intersperse_members [(d1, true); (d2, false)]))) /\
  ends_text (U ";") d1 /\ starts_text (U "b") d2.
Proof.
  cbv zeta. split; [|split].
  - apply W_indent, W_here.
  - apply (Et_concat _ [txt (U "a")] _ []); [constructor|]. apply Et_text. discriminate.
  - apply (St_concat _ [] _ [txt (U ";")]); [constructor|]. apply St_text. discriminate.
Qed.

(* On the first row of the file the rule fails: with overflow checks formatting
   stops, without them an empty line is added. *)
Theorem C32_first_row_refuted :
  exists root,
    (forall stack cfg, (stack >= 20)%nat -> exists w, format_tree true stack cfg root = Panic w) /\
    format_tree false 200%nat Config_default root = Ok (U "class A {
  T a;

  T b;
}
") /\
    (forall n, In n (SpecTree.all_nodes root) -> n_srow n = 0%N).
Proof.
  exists (tree (plain_class [field "a"; field "b"])). split; [|split].
  - intros stack cfg H. exists "attempt to subtract with overflow".
    do 20 (destruct stack as [|stack]; [exfalso; lia|]). clear H. vm_compute. reflexivity.
  - vm_compute. reflexivity.
  - apply Forall_forall. vm_compute. repeat constructor.
Qed.
Print Assumptions C32_first_row_refuted.

(* ------------------------------------------------------------------ C45 *)
(* A body with at least one member: all lines between its opening brace and the
   line of its closing brace are blank or at least one indent step deeper than
   the closing brace's line, provided the members contain no dedent, no texts with
   line feeds and no bare line feeds (multi-line comments are indented by line
   documents, string literals and SOQL keep theirs). *)
Theorem C45_members_deeper_partial :
  forall D w cfg ms open close,
    within (surround_body_members cfg ms open close) D ->
    ms <> [] -> open <> [c_sp] -> close <> [c_sp] ->
    Forall (fun m => shaped (fst m)) ms ->
    exists a x i b,
      pretty_print D w = (a ++ open ++ x ++ c_nl :: repeat c_sp (N.to_nat i) ++ close ++ b)%list /\
      Forall (deep_line (i + indent_size cfg)) (split_on c_nl x).
Proof. exact members_deeper. Qed.
Print Assumptions C45_members_deeper_partial.

Example C45_case :
  let ms := [(concat [txt (U "a"); txt (U ";")], true); (concat [txt (U "b"); txt (U ";")], false)] in
  within (surround_body_members {| indent_size := 4 |} ms (U "{") (U "}"))
         (Concat [txt (U "class A "); surround_body_members {| indent_size := 4 |} ms (U "{") (U "}")]) /\
  ms <> [] /\ U "{" <> [c_sp] /\ U "}" <> [c_sp] /\ Forall (fun m => shaped (fst m)) ms.
Proof.
  cbv zeta. split; [|split; [|split; [|split]]]; try discriminate.
  - eapply W_concat; [right; left; reflexivity|apply W_here].
  - repeat (constructor; try (intros [H|[]]; discriminate H)).
Qed.

(* A statement after `this();` and an empty line starts at the wrong column. *)
Definition chained : node :=
  tree (plain_class [Row 1; br "constructor_declaration" [tokf "name" "identifier" "A"; brf "parameters" "formal_parameters" [an "("; an ")"];
     brf "body" "constructor_body" [an "{"; Row 1;
       br "explicit_constructor_invocation" [tokf "constructor" "this" "this"; brf "arguments" "argument_list" [an "("; an ")"]; an ";"];
       Row 2; inv []; Row 1; an "}"]]; Row 1]).
Theorem C45_constructor_refuted :
  exists root, format_tree true 200%nat Config_default root = Ok (U "class A {
  A() {
    this();

  foo();
  }
}
").
Proof. exists chained. vm_compute. reflexivity. Qed.
Print Assumptions C45_constructor_refuted.

(* ------------------------------------------------------------------ C42 *)
(* Whatever order the hash map lists its entries in, the outcome is the same ... *)
Theorem C42_result_deterministic :
  forall order checked stack cfg root,
    (forall m, Permutation (order m) m) ->
    snd (format_tree_hashed order checked stack cfg root) = format_tree checked stack cfg root.
Proof. exact hashed_result. Qed.
Print Assumptions C42_result_deterministic.
(* ... and the lines reported on stderr are the same up to their order. *)
Theorem C42_reports_permuted :
  forall o1 o2 checked stack cfg root,
    (forall m, Permutation (o1 m) m) -> (forall m, Permutation (o2 m) m) ->
    Permutation (fst (format_tree_hashed o1 checked stack cfg root))
                (fst (format_tree_hashed o2 checked stack cfg root)).
Proof. exact hashed_reports. Qed.
Print Assumptions C42_reports_permuted.
Example C42_case :
  (forall m : cmap, Permutation (rev m) m) /\
  snd (format_tree_hashed (@rev _) true 200%nat Config_default sample) = format_tree true 200%nat Config_default sample /\
  (exists out, format_tree true 200%nat Config_default sample = Ok out).
Proof.
  split; [intro; symmetry; apply Permutation_rev|]. split.
  - vm_compute. reflexivity.
  - eexists. vm_compute. reflexivity.
Qed.

(* The order of the report is not determined: two comments that the formatter
   drops are reported in either order. *)
Definition two_dropped : node :=
  let rule n c := br "switch_rule" [an "when"; br "switch_label" [tok "int" n]; bcom c; br "block" [an "{"; an "}"]] in
  tree (cls [meth [br "switch_expression"
    [an "switch"; an "on"; tokf "condition" "identifier" "x";
     brf "body" "switch_block" [an "{"; rule "1" "/* a */"; Row 1; rule "2" "/* b */"; an "}"]]]]).
Theorem C42_report_order_refuted :
  exists root o1 o2,
    (forall m : cmap, Permutation (o1 m) m) /\ (forall m : cmap, Permutation (o2 m) m) /\
    fst (format_tree_hashed o1 true 200%nat Config_default root) = [U "Erased comment: /* a */"; U "Erased comment: /* b */"] /\
    fst (format_tree_hashed o2 true 200%nat Config_default root) = [U "Erased comment: /* b */"; U "Erased comment: /* a */"].
Proof.
  exists two_dropped, (fun m => m), (@rev _). split; [intro; apply Permutation_refl|].
  split; [intro; symmetry; apply Permutation_rev|]. split; vm_compute; reflexivity.
Qed.
Print Assumptions C42_report_order_refuted.
