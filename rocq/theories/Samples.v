(* Samples.v: trees used by the examples beside the theorems, and tests that
   decide the hypotheses about trees. *)
From Verif Require Import Base Cst Comments SpecTree Trees.
From Coq Require Import Ascii.
Local Open Scope string_scope.

Definition show (u : ustr) : string := fold_right (fun c s => String (ascii_of_N c) s) EmptyString u.

(* class Foo { body } *)
Definition cls (body : list sketch) : sketch :=
  br "parser_output"
    [br "class_declaration"
       [br "modifiers" [br "modifier" [tok "public" "public"]]; an "class"; tokf "name" "identifier" "Foo";
        brf "body" "class_body" ([an "{"; Row 1] ++ body ++ [Row 1; an "}"])]].
(* void bar() { stmts } *)
Definition meth (stmts : list sketch) : sketch :=
  br "method_declaration"
    [tokf "type" "void_type" "void"; tokf "name" "identifier" "bar";
     brf "parameters" "formal_parameters" [an "("; an ")"];
     brf "body" "block" ([an "{"; Row 1] ++ stmts ++ [Row 1; an "}"])].
(* foo(args); *)
Definition inv (args : list sketch) : sketch :=
  br "expression_statement"
    [br "method_invocation"
       [tokf "name" "identifier" "foo"; brf "arguments" "argument_list" ([an "("] ++ args ++ [an ")"])];
     an ";"].

(* A class with a line comment before a method, a block comment between two
   arguments, and a line comment and a blank line behind a statement. *)
Definition sample : node :=
  tree (cls [lcom "// hello"; Row 1;
             meth [inv [tok "identifier" "a"; an ","; bcom "/* x */"; tok "int" "12"]; lcom "// post"; Row 2;
                   inv []]]).
(* A JavaDoc comment before the method. *)
Definition sample_doc : node :=
  tree (cls [bcom ("/**" ++ String "010" "   * adds" ++ String "010" "    */"); Row 1; meth [inv []]]).

(* Tests for the hypotheses about trees. *)
Fixpoint nodup_ids (l : list N) : bool :=
  match l with
  | [] => true
  | x :: r => negb (existsb (N.eqb x) r) && nodup_ids r
  end.
Definition distinct_ids_b (root : node) : bool := nodup_ids (map n_id (all_nodes root)).
Definition leaf_tokens_b (root : node) : bool :=
  forallb (fun n => code n || is_nil (children n)) (all_nodes root).

Lemma nodup_ids_sound l : nodup_ids l = true -> NoDup l.
Proof.
  induction l as [|x r IH]; simpl; [constructor|]. intro H. apply andb_prop in H as [H1 H2].
  constructor; [|auto]. intro Hin. apply negb_true_iff in H1.
  enough (existsb (N.eqb x) r = true) by congruence. apply existsb_exists. exists x. split; [exact Hin|].
  apply N.eqb_refl.
Qed.
Lemma distinct_ids_sound root : distinct_ids_b root = true -> distinct_ids root.
Proof. apply nodup_ids_sound. Qed.
Lemma leaf_tokens_sound root : leaf_tokens_b root = true -> leaf_tokens root.
Proof.
  unfold leaf_tokens_b, leaf_tokens. rewrite forallb_forall. intros H n Hn Hc. specialize (H n Hn).
  rewrite Hc in H. simpl in H. destruct (children n); [reflexivity|discriminate].
Qed.

(* [SELECT Id FROM A clauses]; *)
Definition query (clauses : list sketch) : sketch :=
  br "expression_statement"
    [br "query_expression"
       [an "[";
        br "soql_query_body"
          ([brf "select_clause" "select_clause" [an "SELECT"; br "field_identifier" [tok "identifier" "Id"]];
            brf "from_clause" "from_clause" [an "FROM"; br "storage_identifier" [tok "identifier" "A"]]]
           ++ clauses);
        an "]"]; an ";"].
(* A comment before the type of a WITH clause. *)
Definition sample_with : node :=
  tree (cls [meth [query [brf "with_clause" "with_clause"
                            [an "WITH"; bcom "/*c*/"; br "with_type" [an "SECURITY_ENFORCED"]]]]]).
(* for (aaaaaaaaaa; bbbbbbbbbb; ) {} *)
Definition sample_for : node :=
  tree (cls [meth [br "for_statement"
                     [an "for"; an "("; tokf "init" "identifier" "aaaaaaaaaa"; an ";";
                      tokf "condition" "identifier" "bbbbbbbbbb"; an ";"; an ")";
                      brf "body" "block" [an "{"; an "}"]]]]).
(* A file with nothing but a comment. *)
Definition only_comment : node := tree (br "parser_output" [lcom "// c"]).

Definition has_trailing_space_b (s : ustr) : bool :=
  existsb (fun l => match rev l with c :: _ => (c =? c_sp)%N | [] => false end) (split_on c_nl s).

Fixpoint code_nodes (n : node) : list node :=
  match n with Node _ cs => n :: flat_map (fun c => if code c then code_nodes c else []) cs end.
Lemma code_nodes_from root n : code_node root n -> forall m, In m (code_nodes n) -> code_node root m.
Proof.
  induction n as [i cs IH] using node_nested_ind. intros Hn m Hm. simpl in Hm. destruct Hm as [<-|Hm]; [exact Hn|].
  apply in_flat_map in Hm as (c & Hc & Hm). destruct (code c) eqn:E; [|destruct Hm].
  rewrite Forall_forall in IH. eapply IH; eauto. eapply CN_kid; [exact Hn|]. apply filter_In. auto.
Qed.
Lemma code_nodes_sound root n : In n (code_nodes root) -> code_node root n.
Proof. apply code_nodes_from. constructor. Qed.
Lemma code_node_exists root (P : node -> bool) :
  existsb P (code_nodes root) = true -> exists n, code_node root n /\ P n = true.
Proof. intro H. apply existsb_exists in H as (n & Hn & HP). exists n. split; [apply code_nodes_sound; exact Hn|exact HP]. Qed.
(* switch on x { when 1 /* c */ { } } *)
Definition sample_label : node :=
  tree (cls [meth [br "switch_expression"
    [an "switch"; an "on"; tokf "condition" "identifier" "x";
     brf "body" "switch_block"
       [an "{"; br "switch_rule" [an "when"; br "switch_label" [tok "int" "1"]; bcom "/* c */"; br "block" [an "{"; an "}"]]; an "}"]]]]).
