(* SamplesLayout.v: trees used by the examples of PropertiesLayout.v, and tests that
   decide whether two trees are alike. *)
From Coq Require Import Sorting.Sorted.
From Verif Require Import Base Cst SpecTree SpecLayout CollectProofs Trees Samples SamplesTokens.
Local Open Scope string_scope.
Local Open Scope list_scope.

Definition ueqb (a b : ustr) : bool := if list_eq_dec N.eq_dec a b then true else false.
Definition opt_eqb (a b : option string) : bool :=
  match a, b with
  | Some x, Some y => String.eqb x y
  | None, None => true
  | _, _ => false
  end.
Definition gap_eq_dec (x y : nat * nat) : {x = y} + {x <> y}.
Proof. decide equality; apply Nat.eq_dec. Defined.
Definition gaps_eqb (a b : list (nat * nat)) : bool := if list_eq_dec gap_eq_dec a b then true else false.
Section Alikeb.
  Variable gp : node -> node -> node -> nat * nat.
  Definition same_textb (p : option node) (n n' : node) : bool :=
    if word_field p n then ueqb (n_text n) (n_text n')
    else if in_lower_case p n then ueqb (to_lowercase (n_text n)) (to_lowercase (n_text n'))
    else if in_upper_case p n then ueqb (to_uppercase (n_text n)) (to_uppercase (n_text n'))
    else if word_kind n then ueqb (n_text n) (n_text n')
    else true.
  Definition same_nodeb (n n' : node) : bool :=
    String.eqb (n_kind n) (n_kind n') && Bool.eqb (n_named n) (n_named n') && Bool.eqb (n_extra n) (n_extra n')
    && opt_eqb (n_field n) (n_field n').
  Fixpoint alikeb (p : option node) (n n' : node) {struct n} : bool :=
    match n with
    | Node i cs =>
        same_nodeb n n' && same_textb p n n' && implb (n_extra n) (n_named n)
        && in_orderb cs && in_orderb (children n')
        && gaps_eqb (spacing gp n None None cs) (spacing gp n' None None (children n'))
        && (fix go (cs cs' : list node) : bool :=
              match cs, cs' with
              | [], [] => true
              | c :: r, c' :: r' => alikeb (Some n) c c' && go r r'
              | _, _ => false
              end) cs (children n')
    end.
  Lemma ueqb_ok a b : ueqb a b = true -> a = b.
  Proof. unfold ueqb. destruct (list_eq_dec _ a b); [auto|discriminate]. Qed.
  Lemma alikeb_ok : forall n p n', alikeb p n n' = true -> alike_by gp p n n'.
  Proof.
    intro n. induction n as [i cs IH] using node_nested_ind. intros p n' H. cbn [alikeb] in H.
    repeat match goal with H : (_ && _)%bool = true |- _ => apply andb_prop in H as [H ?] end.
    constructor.
    - unfold same_nodeb in *. repeat match goal with H : (_ && _)%bool = true |- _ => apply andb_prop in H as [H ?] end.
      repeat split; [apply String.eqb_eq; assumption|apply Bool.eqb_prop; assumption|apply Bool.eqb_prop; assumption|].
      unfold opt_eqb in *. destruct (n_field _), (n_field _); try discriminate; [|reflexivity]. f_equal. apply String.eqb_eq. assumption.
    - unfold same_textb, same_text in *.
      destruct (word_field _ _); [apply ueqb_ok; assumption|]. destruct (in_lower_case _ _); [apply ueqb_ok; assumption|].
      destruct (in_upper_case _ _); [apply ueqb_ok; assumption|]. destruct (word_kind _); [apply ueqb_ok; assumption|exact I].
    - intro X. rewrite X in *. destruct (n_named _); [reflexivity|discriminate].
    - apply in_orderb_ok. assumption.
    - apply in_orderb_ok. assumption.
    - unfold gaps_eqb in *. destruct (list_eq_dec _ _ _) as [E|]; [exact E|discriminate].
    - cbn [children]. revert IH. match goal with H : _ cs (children n') = true |- _ => revert H end.
      generalize (children n'). generalize (Some (Node i cs)). intro q.
      clear. induction cs as [|c r IHr]; intros [|c' r'] K IH; try discriminate; [constructor|].
      inversion IH; subst. apply andb_prop in K as [K1 K2]. constructor; auto.
  Qed.
End Alikeb.

(* [sample_comments] of SamplesTokens.v written down differently: other line breaks,
   other bytes, other cases of keywords, other node numbers. *)
Definition sample_relaid : node :=
  match fst (number (br "parser_output"
    [Row 3; bcom ("/**" ++ String "010" "  * A demo." ++ String "010" "  */")%string; Row 1;
     br "class_declaration"
       [br "modifiers" [br "modifier" [tok "public" "Public"]]; an "class"; bcom "/* the */"; tokf "name" "identifier" "Demo"; Row 1;
        brf "body" "class_body"
          [an "{"; Row 2; lcom "// runs"; Row 1;
           br "method_declaration"
             [type_ "Integer"; Row 1; tokf "name" "identifier" "run";
              brf "parameters" "formal_parameters" [an "("; Row 5; an ")"];
              block_
                [br "if_statement"
                   [an "if";
                    paren_ "condition" (br "binary_expression"
                      [tokf "left" "identifier" "i"; bcom "/* not */"; anf "operator" "!="; tokf "right" "int" "1"]); Row 1;
                    brf "consequence" "block" [an "{"; lcom "// nothing"; Row 1; lcom "// at all  "; Row 4; an "}"]];
                 Row 4;
                 inv [Row 1; id_ "a"; an ","; bcom "/* x */"; tok "int" "12"; Row 1]; lcom "// called"; Row 1;
                 br "return_statement" [an "return"; lcom "// soon"; Row 1; tok "null_literal" "null"; Row 2; an ";"]; Row 1;
                 lcom "// end"; Row 2]]; an "}"]]; Row 1;
     lcom "// bye"]) {| m_id := 700; m_row := 0; m_byte := 12 |}) with
  | n :: _ => n
  | [] => sample_comments
  end.

(* Two classes on the first row, and on two rows. *)
Definition two_classes (k : N) : node :=
  tree (br "parser_output"
    [br "class_declaration" [an "class"; tokf "name" "identifier" "A"; brf "body" "class_body" [an "{"; an "}"]]; Row k;
     br "class_declaration" [an "class"; tokf "name" "identifier" "B"; brf "body" "class_body" [an "{"; an "}"]]]).
