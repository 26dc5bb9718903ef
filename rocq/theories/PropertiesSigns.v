(* PropertiesSigns.v: separators, operators, the order of comments, and signs that
   are dropped or doubled.  Statements only; proofs are in SignsProofs.v and
   OrderProofs.v, the vocabulary in SpecSigns.v and SpecOrder.v. *)
From Coq Require Import Lia.
From Verif Require Import Base Doc DocBuilder SpecDoc Cst Comments SpecComments SpecTree Term New Formatter SpecSigns
  SignsProofs SpecOrder OrderProofs Trees Samples.
Local Open Scope string_scope.

(* ------------------------------------------------------------------ C40 *)
(* The separator of a construct is the first following token that is no comment,
   when that is "," or ";". *)
Theorem C40_separator_found :
  forall (l : loc) (p : punct), punct_from l = Some p <->
    exists s left x r, l_right l = (left ++ x :: r)%list /\ Forall (fun y => n_extra y = true) left /\ n_extra x = false /\
      n_kind x = s /\ ((s = "," /\ p = Punct true (n_id x)) \/ (s = ";" /\ p = Punct false (n_id x))).
Proof. exact separator_found. Qed.
Print Assumptions C40_separator_found.

(* At every indentation and width: block comments before it, the sign once, line
   comments before it, comments after it, and nothing else but white space. *)
Theorem C40_separator_printed :
  forall (comma : bool) (bk : bucket) (i w : N),
    spaced (flat_map shown (filter (fun c => negb (c_line c)) (pre bk))
            ++ [U (if comma then "," else ";")]
            ++ flat_map shown (filter c_line (pre bk)) ++ flat_map shown (post bk))%list
           (pretty_print (Indent i (concat (punct_docs comma bk))) w).
Proof. exact separator_printed. Qed.
Print Assumptions C40_separator_printed.

(* foo(a // one
       /* two */ , b); *)
Definition around_comma : node :=
  tree (cls [Row 1; meth [inv [tok "identifier" "a"; lcom "// one"; Row 1; bcom "/* two */"; an ","; tok "identifier" "b"]]]).
Example C40_case :
  format_tree true 200%nat Config_default around_comma = Ok (U "public class Foo {
  void bar() {
    foo(a
      /* two */ , // one 
      b);
  }
}
").
Proof. vm_compute. reflexivity. Qed.

(* ------------------------------------------------------------------ C46 *)
(* Collection: the comments held for a side of a node are the comments of the
   source in their order, provided no two of them stand around a bracket. *)
Theorem C46_collected_in_order :
  forall root cm id p,
    code root = true -> orderly root -> collect_comments root = Ok cm ->
    map c_id (held cm id p) = map n_id (comments_at root id p) /\
    map c_value (held cm id p) = map (fun n => trim_end (n_text n)) (comments_at root id p).
Proof. exact collected_source_order. Qed.
Print Assumptions C46_collected_in_order.
(* Printing: the comments held before a node, and those held behind it, are
   printed in that order (for separators see C40: line comments move). *)
Theorem C46_pre_printed_in_order_partial :
  forall (bk : bucket) (i w : N),
    spaced (flat_map shown (pre bk)) (pretty_print (Indent i (Concat (handle_pre_comments bk))) w).
Proof. exact pre_in_order. Qed.
Print Assumptions C46_pre_printed_in_order_partial.
Theorem C46_post_printed_in_order_partial :
  forall (bk : bucket) (i w : N),
    spaced (flat_map shown (post bk)) (pretty_print (Indent i (Concat (handle_post_comments bk))) w).
Proof. exact post_in_order. Qed.
Print Assumptions C46_post_printed_in_order_partial.

Definition three_comments : node :=
  tree (cls [lcom "// one"; Row 1; bcom "/* two */"; Row 1; lcom "// three"; Row 1; meth []]).
Example C46_case : exists cm,
  collect_comments three_comments = Ok cm /\ code three_comments = true /\
  map c_value (held cm 13 Leading) = [U "// one"; U "/* two */"; U "// three"].
Proof. eexists. split; [vm_compute; reflexivity|]. split; vm_compute; reflexivity. Qed.
Example C46_case_orderly : orderly three_comments /\ orderly around_comma.
Proof. split; apply orderly_sound; vm_compute; reflexivity. Qed.
(* Not all comments keep their order: around_comma above prints its second comment
   first.  Both are attached before the comma. *)
Theorem C46_separator_refuted :
  exists root cm id a b x y z,
    collect_comments root = Ok cm /\ orderly root /\
    map c_value (held cm id Leading) = [a; b] /\
    format_tree true 200%nat Config_default root = Ok (x ++ b ++ y ++ a ++ z)%list /\
    a = U "// one" /\ b = U "/* two */".
Proof.
  exists around_comma. eexists. exists 26%N, (U "// one"), (U "/* two */").
  eexists (U "public class Foo {
  void bar() {
    foo(a
      "), (U " , "), (U " 
      b);
  }
}
").
  split; [vm_compute; reflexivity|]. split; [apply C46_case_orderly|].
  split; [vm_compute; reflexivity|]. split; [vm_compute; reflexivity|]. split; reflexivity.
Qed.
Print Assumptions C46_separator_refuted.
(* Two comments around a bracket: for (T t : ts
     /* one */ ) /* two */ ; *)
Definition around_bracket : node :=
  tree (cls [meth [br "enhanced_for_statement"
    [an "for"; an "("; tokf "type" "type_identifier" "T"; tokf "name" "identifier" "t"; an ":"; tokf "value" "identifier" "ts"; Row 1;
     bcom "/* one */"; an ")"; bcom "/* two */"; anf "body" ";"]]]).
Theorem C46_bracket_refuted :
  exists root cm id,
    collect_comments root = Ok cm /\
    comments_at root id Leading <> [] /\
    map c_id (held cm id Leading) = rev (map n_id (comments_at root id Leading)) /\
    map c_value (held cm id Leading) = [U "/* two */"; U "/* one */"].
Proof.
  exists around_bracket. eexists. exists 28%N. split; [vm_compute; reflexivity|].
  split; [vm_compute; discriminate|]. split; vm_compute; reflexivity.
Qed.
Print Assumptions C46_bracket_refuted.

(* ------------------------------------------------------------------ C44 *)
(* The level of an operator is the one of the table, and only operators of the
   table have one. *)
Theorem C44_levels : forall op p, get_precedence op = Ok p <-> In (op, p) operators.
Proof. exact precedence_table. Qed.
Print Assumptions C44_levels.
Theorem C44_unsupported_rejected :
  forall op, (forall p, ~ In (op, p) operators) -> get_precedence op = Panic "Unknown operator".
Proof. exact precedence_unknown. Qed.
Print Assumptions C44_unsupported_rejected.
(* Every operator once; assignments at the bottom, unary operators at the top. *)
Theorem C44_table : NoDup (map fst operators) /\ Forall (fun e => (1 <= snd e <= 14)%N) operators.
Proof.
  split.
  - apply NoDup_nodupb. vm_compute. reflexivity.
  - apply Forall_forall. intros e H. cbn in H.
    repeat (destruct H as [<-|H]; [cbn; lia|]). destruct H.
Qed.
Print Assumptions C44_table.
(* A binary expression that is formatted has an operator of the table. *)
Theorem C44_binary_expression :
  forall cm checked k l t, new cm checked k BinaryExpression l = Ok t ->
    exists opn p, c_by_n "operator" l = Ok opn /\ In (kind opn, p) operators.
Proof. exact binary_supported. Qed.
Print Assumptions C44_binary_expression.

Definition binary (op : string) : node :=
  tree (cls [meth [br "expression_statement"
    [br "binary_expression" [tokf "left" "identifier" "a"; anf "operator" op; tokf "right" "identifier" "b"]; an ";"]]]).
Example C44_case :
  format_tree true 200%nat Config_default (binary ">>>") = Ok (U "public class Foo {
  void bar() {
    a >>> b;
  }
}
") /\ format_tree true 200%nat Config_default (binary "**") = Panic "Unknown operator" /\
  (forall p, ~ In ("**", p) operators).
Proof.
  split; [vm_compute; reflexivity|]. split; [vm_compute; reflexivity|].
  intros p H. cbn in H. repeat (destruct H as [H|H]; [discriminate H|]). destruct H.
Qed.

(* ------------------------------------------------------------------ C36 *)
(* foo(/* c */); loses its brackets. *)
Theorem C36_brackets_refuted :
  exists before after,
    format_tree true 200%nat Config_default before = Ok (U "public class Foo {
  void bar() {
    foo();
  }
}
") /\ format_tree true 200%nat Config_default after = Ok (U "public class Foo {
  void bar() {
    foo/* c */;
  }
}
") /\ before = tree (cls [Row 1; meth [Row 1; inv []]]) /\
    after = tree (cls [Row 1; meth [Row 1; inv [bcom "/* c */"]]]).
Proof. eexists. eexists. split; [|split; [|split; reflexivity]]; vm_compute; reflexivity. Qed.
Print Assumptions C36_brackets_refuted.

(* ------------------------------------------------------------------ C37 *)
(* if (x); prints two semicolons. *)
Definition empty_if : node :=
  tree (cls [Row 1; meth [br "if_statement"
    [an "if"; brf "condition" "parenthesized_expression" [an "("; tok "identifier" "x"; an ")"]; anf "consequence" ";"]]]).
Theorem C37_empty_statement_refuted :
  exists root, format_tree true 200%nat Config_default root = Ok (U "public class Foo {
  void bar() {
    if (x);
      ;
  }
}
") /\ List.length (filter (fun n => has_kind ";" n) (all_nodes root)) = 1%nat.
Proof. exists empty_if. split; vm_compute; reflexivity. Qed.
Print Assumptions C37_empty_statement_refuted.

(* ------------------------------------------------------------------ C38 *)
(* Two trees that differ in a modifier and print the same: the modifier `final` of
   a loop variable is dropped. *)
Definition loop (mods : list sketch) : node :=
  tree (cls [Row 1; meth [br "enhanced_for_statement"
    ([an "for"; an "("] ++ mods ++
     [tokf "type" "type_identifier" "T"; tokf "name" "identifier" "t"; an ":"; tokf "value" "identifier" "ts"; an ")";
      brf "body" "block" [an "{"; an "}"]])%list]]).
Theorem C38_modifier_refuted :
  exists root root' out,
    format_tree true 200%nat Config_default root = Ok out /\
    format_tree true 200%nat Config_default root' = Ok out /\
    n_text root <> n_text root'.
Proof.
  exists (loop []), (loop [br "modifiers" [br "modifier" [tok "final" "final"]]]). eexists.
  split; [vm_compute; reflexivity|]. split; [vm_compute; reflexivity|]. vm_compute. discriminate.
Qed.
Print Assumptions C38_modifier_refuted.
