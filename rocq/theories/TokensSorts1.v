(* TokensSorts1.v: what each syntax type prints, given what its parts print (part 1 of 3). *)
From Coq Require Import Sorting.Sorted Lia.
From Verif Require Import Base Doc DocBuilder Cst Comments Term SpecTree New SpecWords SpecTokens SpecLoud BitsProofs TokensProofs TokensMarks TokensProofs2 TokensProofs3.
Local Open Scope string_scope.
Local Open Scope list_scope.

Section Sorts.
  Context {DG : dangles}.
  Variable cm : cmap.
  Variable checked : bool.
  Variable rec : sort -> loc -> res dt.
  Hypothesis IH : forall s l x, ok s l -> rec s l = Ok x -> mkept (claims s l) (pieces x).

  Lemma ClassDeclaration_kept l x : fine l -> new_ClassDeclaration rec l = Ok x -> holds l x.
  Proof. intros F H. unfold new_ClassDeclaration in H. checked_kind H Hk. plain_sort l IH F H Hk. Qed.
  Lemma FormalParameter_kept l x : fine l -> new_FormalParameter rec l = Ok x -> holds l x.
  Proof. intros F H. unfold new_FormalParameter in H. checked_kind H Hk. plain_sort l IH F H Hk. Qed.
  Lemma AnnotationKeyValue_kept l x : fine l -> new_AnnotationKeyValue l = Ok x -> holds l x.
  Proof.
    intros F H. unfold new_AnnotationKeyValue in H. checked_kind H Hk.
    open_rule l F Hk; links; kid_lists; value_atoms Hk; inv_new H; done_new H; repeat rec_step IH; node_body F Hk; kp.
  Qed.
  Lemma AssignmentExpression_kept l x : fine l -> new_AssignmentExpression rec l = Ok x -> holds l x.
  Proof. intros F H. unfold new_AssignmentExpression in H. checked_kind H Hk. plain_sort l IH F H Hk.
    all: match goal with |- context [if ?b then _ else _] => destruct b end; pc; kp.
  Qed.
  Lemma VariableDeclarator_kept l x : fine l -> new_VariableDeclarator rec l = Ok x -> holds l x.
  Proof. intros F H. unfold new_VariableDeclarator in H. checked_kind H Hk. plain_sort l IH F H Hk.
    all: match goal with |- context [if ?b then _ else _] => destruct b end; pc; kp.
  Qed.
  Lemma RunAsStatement_kept l x : fine l -> new_RunAsStatement rec l = Ok x -> holds l x.
  Proof. intros F H. unfold new_RunAsStatement in H. checked_kind H Hk. plain_sort l IH F H Hk. Qed.
  Lemma ArrayAccess_kept l x : fine l -> new_ArrayAccess rec l = Ok x -> holds l x.
  Proof. intros F H. unfold new_ArrayAccess in H. checked_kind H Hk. plain_sort l IH F H Hk. Qed.
  Lemma TernaryExpression_kept l x : fine l -> new_TernaryExpression rec l = Ok x -> holds l x.
  Proof. intros F H. unfold new_TernaryExpression in H. checked_kind H Hk. plain_sort l IH F H Hk. Qed.
  Lemma FinallyClause_kept l x : fine l -> new_FinallyClause rec l = Ok x -> holds l x.
  Proof. intros F H. unfold new_FinallyClause in H. checked_kind H Hk. plain_sort l IH F H Hk. Qed.
  Lemma ThrowStatement_kept l x : fine l -> new_ThrowStatement rec l = Ok x -> holds l x.
  Proof. intros F H. unfold new_ThrowStatement in H. checked_kind H Hk. plain_sort l IH F H Hk. Qed.
  Lemma SwitchRule_kept l x : fine l -> new_SwitchRule rec l = Ok x -> holds l x.
  Proof. intros F H. unfold new_SwitchRule in H. checked_kind H Hk. plain_sort l IH F H Hk. Qed.
  Lemma JavaFieldAccess_kept l x : fine l -> new_JavaFieldAccess rec l = Ok x -> holds l x.
  Proof. intros F H. unfold new_JavaFieldAccess in H. checked_kind H Hk. plain_sort l IH F H Hk. Qed.
  Lemma TriggerBody_kept l x : fine l -> new_TriggerBody rec l = Ok x -> holds l x.
  Proof. intros F H. unfold new_TriggerBody in H. checked_kind H Hk. plain_sort l IH F H Hk. Qed.
  Lemma TypeArguments_kept l x : kind l = "type_arguments" -> fine l -> new_TypeArguments rec l = Ok x -> holds l x.
  Proof. intros Hk F H. unfold new_TypeArguments in H. plain_sort l IH F H Hk. Qed.
  Lemma ConstructorDeclaration_kept l x : kind l = "constructor_declaration" -> fine l -> new_ConstructorDeclaration rec l = Ok x -> holds l x.
  Proof. intros Hk F H. unfold new_ConstructorDeclaration in H. plain_sort l IH F H Hk. Qed.
  Lemma StaticInitializer_kept l x : kind l = "static_initializer" -> fine l -> new_StaticInitializer rec l = Ok x -> holds l x.
  Proof. intros Hk F H. unfold new_StaticInitializer in H. plain_sort l IH F H Hk. Qed.
  Lemma JavaType_kept l x : kind l = "java_type" -> fine l -> new_JavaType rec l = Ok x -> holds l x.
  Proof. intros Hk F H. unfold new_JavaType in H. plain_sort l IH F H Hk. Qed.

  Lemma EnhancedForStatement_kept l x : fine l -> new_EnhancedForStatement rec l = Ok x -> holds l x.
  Proof.
    intros F H. unfold new_EnhancedForStatement in H. checked_kind H Hk. open_rule l F Hk; links; kid_lists; inv_new H; done_new H.
    all: unfold loop_body, is_semicolumn;
      match goal with |- context [is_kind ";" ?c] => let Q := fresh in destruct (is_kind ";" c) eqn:Q; ev Q; try discriminate Q end.
    all: repeat rec_step IH; node_body F Hk; kp.
  Qed.
  Lemma TypeParameter_kept l x : kind l = "type_parameter" -> fine l -> new_TypeParameter rec l = Ok x -> holds l x.
  Proof.
    intros Hk F H. unfold new_TypeParameter in H. open_rule l F Hk; links; kid_lists; inv_new H; done_new H.
    repeat rec_step IH. node_body F Hk. kp.
  Qed.
  Lemma AnnotationArgumentList_kept l x : kind l = "annotation_argument_list" -> fine l ->
    new_AnnotationArgumentList rec l = Ok x -> holds l x.
  Proof.
    intros Hk F H. unfold new_AnnotationArgumentList in H. open_rule l F Hk; links; kid_lists; value_atoms Hk.
    all: assert (EN : is_nil (named_kids l) = false)
           by (apply named_not_nil; rewrite ENamed; first [discriminate|eapply separated_evens; eassumption]);
         rewrite EN in H; clear EN.
    all: inv_new H.
    all: try (destruct (is_nil _) in H; [discriminate H|]).
    all: done_new H; repeat rec_step IH; silent_body F Hk; kp.
  Qed.
  Lemma InterfaceBody_kept l x : fine l -> new_InterfaceBody cm checked rec l = Ok x -> holds l x.
  Proof.
    intros F H. unfold new_InterfaceBody in H. checked_kind H Hk. open_rule l F Hk. links. kid_lists. inv_new H. done_new H.
    members. repeat rec_step IH. silent_body F Hk. to_members. kp.
  Qed.
  Lemma WhileStatement_kept l x : fine l -> new_WhileStatement rec l = Ok x -> holds l x.
  Proof.
    intros F H. unfold new_WhileStatement in H. checked_kind H Hk.
    open_rule l F Hk; links; kid_lists; inv_new H; done_new H.
    all: unfold is_semicolumn;
      match goal with |- context [is_kind ";" ?c] => let Q := fresh in destruct (is_kind ";" c) eqn:Q; ev Q; try discriminate Q end.
    all: repeat rec_step IH; silent_body F Hk; kp.
  Qed.
  Lemma DmlSecurityMode_kept l x : kind l = "dml_security_mode" -> fine l -> new_DmlSecurityMode l = Ok x -> holds l x.
  Proof.
    intros Hk F H. unfold new_DmlSecurityMode in H. open_rule l F Hk; links; kid_lists; inv_new H.
    destruct (kind_in _ _); done_new H. silent_body F Hk; kp.
  Qed.
  Lemma MapKeyInitializer_kept l x : fine l -> new_MapKeyInitializer rec l = Ok x -> holds l x.
  Proof. intros F H. unfold new_MapKeyInitializer in H. checked_kind H Hk. plain_sort l IH F H Hk. Qed.
  Lemma ConstructorBody_kept l x : kind l = "constructor_body" -> fine l -> new_ConstructorBody cm checked rec l = Ok x -> holds l x.
  Proof.
    intros Hk F H. unfold new_ConstructorBody in H. open_rule l F Hk; links; kid_lists; inv_new H.
    - done_new H.
      assert (Q : x1 = None /\ mapR (body_member cm checked rec Statement) x2 = Ok x3).
      { destruct x2 as [|c x2]; [injection E as <-; auto|]. inversion H2; subst. ev E. ev E0.
        injection E as <-. auto. }
      destruct Q as [-> E']. clear E E0. members. repeat rec_step IH. silent_body F Hk.
      destruct x3 as [|[d tr] ms]; cbn [is_nil]; pc.
      + kp. apply kept_app_nil; [exact K|]. kp.
      + rewrite (app_assoc (pieces d)).
        change (pieces d ++ flat_map (fun m : dt * bool => let (x, _) := m in pieces x) ms)
          with (flat_map (fun m : dt * bool => let (x, _) := m in pieces x) ((d, tr) :: ms)).
        to_members. kp.
    - destruct (body_member cm checked rec ConstructInvocation x2) as [[d tr]| |] eqn:Eb; try discriminate E.
      injection E as <-. done_new H. unfold body_member in Eb. inv_bind Eb. inv_bind Eb. injection Eb as -> ->.
      members. repeat rec_step IH. silent_body F Hk. to_members.
      replace (flat_map pieces (if is_nil x3 then [] else [if tr then TEmptyLine else TIndent NL])) with (@nil ustr)
        by (destruct x3, tr; reflexivity). pc. kp.
  Qed.

  Lemma ReturnStatement_kept l x : fine l -> new_ReturnStatement rec l = Ok x -> holds l x.
  Proof.
    intros F H. unfold new_ReturnStatement in H. checked_kind H Hk.
    open_rule l F Hk; links; kid_lists; inv_new H; done_new H.
    - silent_body F Hk. kp. inner.
    - repeat rec_step IH; node_body F Hk; kp.
  Qed.
  Lemma FieldAccess_kept l x : fine l -> new_FieldAccess rec l = Ok x -> holds l x.
  Proof.
    intros F H. unfold new_FieldAccess in H. checked_kind H Hk.
    open_rule l F Hk; links; kid_lists; inv_new H; done_new H.
    all: inv_res E; inv_res E0; try inv_res E1; repeat rec_step IH; node_body F Hk.
    all: match goal with |- context [match ?c with Some _ => _ | None => _ end] =>
           destruct c as [[[|] [|]]|] end; cbn [orb]; pc; kp.
  Qed.
  Lemma ObjectExpression_kept l x : fine l -> new_ObjectExpression rec l = Ok x -> holds l x.
  Proof. intros F H. unfold new_ObjectExpression in H. dispatch IH F H. Qed.
  Lemma RootMember_kept l x : fine l -> new_RootMember rec l = Ok x -> holds l x.
  Proof. intros F H. unfold new_RootMember in H. dispatch IH F H. Qed.
  Lemma VariableInitializer_kept l x : fine l -> new_VariableInitializer rec l = Ok x -> holds l x.
  Proof. intros F H. unfold new_VariableInitializer in H. dispatch IH F H. Qed.
  Lemma Statement_kept l x : fine l -> new_Statement rec l = Ok x -> holds l x.
  Proof.
    intros F H. unfold new_Statement in H. dispatch IH F H. exfalso.
    destruct (valid_good _ (f_valid l F)) as (_ & _ & Hs & _). unfold spelled in Hs. rewrite (f_named l F) in Hs.
    unfold kind in Q. rewrite Q in Hs. destruct Hs as [Hs _]. discriminate Hs.
  Qed.
  Lemma TriggerEvent_kept l x : fine l -> new_TriggerEvent l = Ok x -> holds l x.
  Proof.
    intros F H. unfold new_TriggerEvent in H. checked_kind H Hk.
    open_rule l F Hk; links; kid_lists; unfold_access H; use_lists H; ev H; cbn [rbind] in H.
    each_kind x1; match goal with B : branch _ _ _ _ x1 |- _ => rewrite (only_kind _ _ _ _ B) in H end; cbn in H; done_new H;
      node_body F Hk; kp.
  Qed.
  Lemma MethodInvocation_kept l x : fine l -> new_MethodInvocation rec l = Ok x -> holds l x.
  Proof.
    intros F H. unfold new_MethodInvocation in H. checked_kind H Hk.
    open_rule l F Hk; links; kid_lists; inv_new H; done_new H.
    all: try match goal with
      | E1 : next_named ?c = Ok ?n, E2 : (if is_kind _ ?n then _ else _) = Ok ?d, P : placed _ ?c (?x :: ?y :: _),
        S : sign _ _ _ "." ?x, B : branch _ _ _ _ ?y, Py : placed _ ?y _ |- _ =>
          pose proof (dot_next _ _ _ _ _ _ _ _ _ _ _ P S B Py eq_refl E1 E2); subst d
      | E1 : next_named ?c = Ok ?n, E2 : (if is_kind _ ?n then _ else _) = Ok ?d, P : placed _ ?c (?y :: ?r),
        B : branch _ _ _ ["safe_navigation_operator"] ?y, Py : placed _ ?y _ |- _ =>
          let Q := fresh in assert (Q : follow (map l_node r) = []) by follows;
          let K := fresh "K" in
          pose proof (safe_next _ _ _ _ _ _ _ _ P B Py Q E1 E2) as K; clear E2
      end.
    all: repeat rec_step IH; node_body F Hk.
    all: try match goal with |- context [match ?c with Some _ => _ | None => _ end] =>
           destruct c as [[[|] [|]]|] end; cbn [orb]; pc; kp.
  Qed.
End Sorts.
