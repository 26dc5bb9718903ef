(* TokensSorts2.v: what each syntax type prints, given what its parts print (part 2 of 3). *)
From Coq Require Import Sorting.Sorted Lia.
From Verif Require Import Base Doc DocBuilder Cst Comments Term SpecTree New SpecWords SpecTokens SpecLoud BitsProofs TokensProofs TokensMarks TokensProofs2 TokensProofs3.
Local Open Scope string_scope.
Local Open Scope list_scope.

Section Sorts.
  Context {DG : dangles}.
  Variable cm : cmap.
  Variable checked : bool.
  Variable rec : sort -> loc -> res dt.
  Hypothesis IH : forall s l x, ok s l -> rec s l = Ok x -> mkept (claims s l) (pieces x).

  Ltac quiet_semi x H :=
    match goal with F : fine ?l, Hk : kind ?l = _, E : ckids ?l = _, Ea : ?a = ?c0 :: _, B : branch _ _ _ _ ?c0, S : sign _ _ _ ";" x |- _ =>
      assert (H : p_pre (n_id (l_node x)) = [] /\ p_post (n_id (l_node x)) = []);
      [ eapply (twice_quiet l) with (c := c0);
        [ exact (f_valid l F) | exact Hk
        | rewrite E; match goal with |- ?y = None => let z := fresh in let Q := fresh in remember y as z eqn:Q; ev Q; exact Q end
        | rewrite E, Ea; cbn [In app]; tauto | exact B | reflexivity | rewrite (branch_field _ _ _ "init" _ B eq_refl); reflexivity
        | rewrite E; cbn [In]; rewrite in_app_iff; cbn [In]; tauto | exact S ]
      | ]
    end.
  Ltac quiet_semis :=
    match goal with |- mkept (mleaves (l_node ?y) ++ ?ls) (p_pre (n_id (l_node ?x)) ++ _) =>
      let H := fresh in quiet_semi x H; rewrite (proj1 H), (proj2 H); cbn [app];
      match goal with S : sign _ _ _ ";" y, P : placed _ y _ |- mkept _ (_ :: ?ws) =>
        let H' := fresh in quiet_semi y H';
        let K := fresh in pose proof (semi_kept _ _ _ _ _ ls ws P S) as K; rewrite (proj1 H'), (proj2 H') in K; apply K; clear K
      end
    end.
  Ltac semis :=
    kp; try match goal with
    | S : sign _ _ _ _ ?x, P : placed _ ?x _ |- mkept (mleaves (l_node ?x) ++ _) (p_pre (n_id (l_node ?x)) ++ _) =>
        apply (semi_kept _ _ _ _ _ _ _ P S); semis
    end.
  Lemma MethodDeclaration_kept l x : fine l -> new_MethodDeclaration rec l = Ok x -> holds l x.
  Proof. intros F H. unfold new_MethodDeclaration in H. checked_kind H Hk. plain_sort l IH F H Hk. Qed.
  Lemma SuperClass_kept l x : fine l -> new_SuperClass rec l = Ok x -> holds l x.
  Proof. intros F H. unfold new_SuperClass in H. checked_kind H Hk. plain_sort l IH F H Hk. Qed.
  Lemma FieldDeclaration_kept l x : fine l -> new_FieldDeclaration rec l = Ok x -> holds l x.
  Proof. intros F H. unfold new_FieldDeclaration in H. checked_kind H Hk. plain_sort l IH F H Hk. Qed.
  Lemma Interface_kept l x : fine l -> new_Interface rec l = Ok x -> holds l x.
  Proof. intros F H. unfold new_Interface in H. checked_kind H Hk. plain_sort l IH F H Hk. Qed.
  Lemma TypeParameters_kept l x : fine l -> new_TypeParameters rec l = Ok x -> holds l x.
  Proof. intros F H. unfold new_TypeParameters in H. checked_kind H Hk. plain_sort l IH F H Hk. Qed.
  Lemma DoStatement_kept l x : fine l -> new_DoStatement rec l = Ok x -> holds l x.
  Proof. intros F H. unfold new_DoStatement in H. checked_kind H Hk. plain_sort l IH F H Hk. Qed.
  Lemma ArrayCreationExpression_kept l x : fine l -> new_ArrayCreationExpression rec l = Ok x -> holds l x.
  Proof. intros F H. unfold new_ArrayCreationExpression in H. checked_kind H Hk. plain_sort l IH F H Hk. Qed.
  Lemma TryStatement_kept l x : fine l -> new_TryStatement rec l = Ok x -> holds l x.
  Proof. intros F H. unfold new_TryStatement in H. checked_kind H Hk. plain_sort l IH F H Hk. Qed.
  Lemma InterfaceDeclaration_kept l x : fine l -> new_InterfaceDeclaration rec l = Ok x -> holds l x.
  Proof. intros F H. unfold new_InterfaceDeclaration in H. checked_kind H Hk. plain_sort l IH F H Hk. Qed.
  Lemma SwitchExpression_kept l x : fine l -> new_SwitchExpression rec l = Ok x -> holds l x.
  Proof. intros F H. unfold new_SwitchExpression in H. checked_kind H Hk. plain_sort l IH F H Hk. Qed.
  Lemma InstanceOfExpression_kept l x : fine l -> new_InstanceOfExpression rec l = Ok x -> holds l x.
  Proof. intros F H. unfold new_InstanceOfExpression in H. checked_kind H Hk. plain_sort l IH F H Hk. Qed.
  Lemma ArrayType_kept l x : fine l -> new_ArrayType rec l = Ok x -> holds l x.
  Proof. intros F H. unfold new_ArrayType in H. checked_kind H Hk. plain_sort l IH F H Hk. Qed.
  Lemma ExpressionStatement_kept l x : fine l -> new_ExpressionStatement rec l = Ok x -> holds l x.
  Proof. intros F H. unfold new_ExpressionStatement in H. checked_kind H Hk. plain_sort l IH F H Hk. Qed.
  Lemma ArgumentList_kept l x : kind l = "argument_list" -> fine l -> new_ArgumentList rec l = Ok x -> holds l x.
  Proof. intros Hk F H. unfold new_ArgumentList in H. plain_sort l IH F H Hk. Qed.
  Lemma EnumDeclaration_kept l x : kind l = "enum_declaration" -> fine l -> new_EnumDeclaration rec l = Ok x -> holds l x.
  Proof. intros Hk F H. unfold new_EnumDeclaration in H. plain_sort l IH F H Hk. Qed.
  Lemma ExtendsInterface_kept l x : kind l = "extends_interfaces" -> fine l -> new_ExtendsInterface rec l = Ok x -> holds l x.
  Proof. intros Hk F H. unfold new_ExtendsInterface in H. plain_sort l IH F H Hk. Qed.
  Lemma GenericType_kept l x : fine l -> new_GenericType rec l = Ok x -> holds l x.
  Proof.
    intros F H. unfold new_GenericType in H. checked_kind H Hk. open_rule l F Hk. links. kid_lists. inv_new H. done_new H.
    inv_res E; repeat rec_step IH; node_body F Hk; kp.
  Qed.
  Lemma ScopedTypeIdentifier_kept l x : fine l -> new_ScopedTypeIdentifier rec l = Ok x -> holds l x.
  Proof.
    intros F H. unfold new_ScopedTypeIdentifier in H. checked_kind H Hk. open_rule l F Hk. links. kid_lists. inv_new H. done_new H.
    inv_res E; inv_res E0; repeat rec_step IH; node_body F Hk; kp.
  Qed.
  Lemma WhenSObjectType_kept l x : kind l = "when_sobject_type" -> fine l -> new_WhenSObjectType rec l = Ok x -> holds l x.
  Proof.
    intros Hk F H. unfold new_WhenSObjectType in H. open_rule l F Hk; links; kid_lists; inv_new H; done_new H.
    inv_res E. repeat rec_step IH. node_body F Hk. kp.
  Qed.

  Lemma ClassBody_kept l x : fine l -> new_ClassBody cm checked rec l = Ok x -> holds l x.
  Proof.
    intros F H. unfold new_ClassBody in H. checked_kind H Hk. open_rule l F Hk. links. kid_lists. inv_new H. done_new H.
    members. repeat rec_step IH. silent_body F Hk. to_members. kp.
  Qed.
  Lemma Root_kept l x : fine l -> new_Root cm checked rec l = Ok x -> holds l x.
  Proof.
    intros F H. unfold new_Root in H. checked_kind H Hk. open_rule l F Hk. links. kid_lists. inv_new H. done_new H.
    members. repeat rec_step IH. silent_body F Hk. to_members. kp.
  Qed.
  Lemma SwitchLabel_kept l x : fine l -> new_SwitchLabel rec l = Ok x -> holds l x.
  Proof.
    intros F H. unfold new_SwitchLabel in H. checked_kind H Hk.
    open_rule l F Hk; links; kid_lists; inv_new H; done_new H.
    all: repeat rec_step IH; silent_body F Hk; kp.
  Qed.
  Lemma MapCreationExpression_kept l x : fine l -> new_MapCreationExpression rec l = Ok x -> holds l x.
  Proof. intros F H. unfold new_MapCreationExpression in H. checked_kind H Hk. plain_sort l IH F H Hk. Qed.
  Lemma AccessorDeclaration_kept l x : fine l -> new_AccessorDeclaration rec l = Ok x -> holds l x.
  Proof.
    intros F H. unfold new_AccessorDeclaration in H. checked_kind H Hk.
    open_rule l F Hk; links; kid_lists; inv_new H; done_new H.
    all: repeat rec_step IH; unfold holds; rewrite claim_silent by (rewrite Hk; reflexivity).
    all: first
      [ match goal with
        | E : ckids _ = [?a; ?x], S : sign _ _ _ ";" ?x, P : placed _ ?x _ |- _ =>
            apply (accessor_kept _ [a] x _ _ _ (f_valid _ F) (f_named _ F) Hk E ltac:(no_punct) S (proj1 (proj2 (proj2 P))))
        | E : ckids _ = [?a; ?b; ?x], S : sign _ _ _ ";" ?x, P : placed _ ?x _ |- _ =>
            apply (accessor_kept _ [a; b] x _ _ _ (f_valid _ F) (f_named _ F) Hk E ltac:(no_punct) S (proj1 (proj2 (proj2 P))))
        end
      | apply accessor_plain; [exact (f_valid _ F)|exact (f_named _ F)|exact Hk|
          match goal with E : ckids _ = _ |- _ => rewrite E end; no_punct|];
        match goal with E : ckids _ = _ |- _ => rewrite E end ]; pc; kp.
  Qed.
  Lemma UpdateExpression_kept l x : fine l -> new_UpdateExpression rec l = Ok x -> holds l x.
  Proof.
    intros F H. unfold new_UpdateExpression in H. checked_kind H Hk.
    pose proof (code_order l (f_valid l F)) as HS.
    open_rule l F Hk; links; kid_lists; inv_new H; done_new H.
    all: rewrite EKids in HS; cbn [map] in HS; inversion HS as [|? ? _ Hlt]; inversion Hlt as [|? ? Hlt' _]; subst.
    all: repeat rec_step IH; node_body F Hk.
    all: match goal with |- context [(?a <? ?b)%N] => destruct (N.ltb_spec a b); try lia end; pc; kp.
  Qed.
  Lemma BreakStatement_kept l x : fine l -> new_BreakStatement l = Ok x -> holds l x.
  Proof.
    intros F H. unfold new_BreakStatement in H. checked_kind H Hk.
    open_rule l F Hk; links; kid_lists; inv_new H; done_new H.
    - silent_body F Hk. kp. inner.
    - repeat rec_step IH; node_body F Hk; kp. rewrite app_nil_r.
      eapply vn_kept_punct; [eassumption|atom|apart|eassumption| |reflexivity]. eapply proj1, proj2, proj2; eassumption.
  Qed.
  Lemma DmlType_kept l x : fine l -> new_DmlType l = Ok x -> holds l x.
  Proof.
    intros F H. unfold new_DmlType in H. checked_kind H Hk.
    open_rule l F Hk; links; kid_lists; inv_new H.
    each_kind x1; match goal with B : branch _ _ _ _ x1 |- _ => rewrite (only_kind _ _ _ _ B) in H end; cbn in H; done_new H;
      node_body F Hk; kp.
  Qed.
  Lemma InterfaceMember_kept l x : fine l -> new_InterfaceMember rec l = Ok x -> holds l x.
  Proof. intros F H. unfold new_InterfaceMember in H. dispatch IH F H. Qed.
  Lemma UnannotatedType_kept l x : fine l -> new_UnannotatedType rec l = Ok x -> holds l x.
  Proof. intros F H. unfold new_UnannotatedType in H. dispatch IH F H. Qed.
  Lemma Expression_kept l x : fine l -> new_Expression rec l = Ok x -> holds l x.
  Proof. intros F H. unfold new_Expression in H. dispatch IH F H. Qed.
  Lemma Type_kept l x : fine l -> new_Type rec l = Ok x -> holds l x.
  Proof.
    intros F H. unfold new_Type in H. dispatch IH F H; dispatch IH F E.
  Qed.
  Lemma ForStatement_kept l x : fine l -> new_ForStatement rec l = Ok x -> holds l x.
  Proof.
    intros F H. unfold new_ForStatement in H. checked_kind H Hk. rewrite (kids_filter l ";" (f_valid l F) eq_refl) in H.
    open_rule l F Hk; links; kid_lists.
    all: assert (EI : filter (fun c => has_field "init" (l_node c)) (kids l) = filter (fun c => has_field "init" (l_node c)) (ckids l)) by (apply code_filter_field; assumption).
    all: rewrite EKids in EI; ev EI.
    all: try match goal with HS : separated _ _ _ _ _ ?a, HL : linked_to _ ?a _ |- _ =>
           destruct (sep_first _ _ _ _ _ _ _ HS HL) as (c0 & r0 & Ea & Bc0 & Pc0) end.
    all: inv_new H.
    all: match goal with E : mapR punct_new _ = Ok _ |- _ => cbn [map mapR app] in E; 
      repeat match goal with S : sign _ _ _ ";" ?x |- _ => rewrite (semi_new _ _ _ S) in E end;
      cbn [rbind mapR] in E; injection E as <- end.
    all: cbn [List.length Nat.ltb Nat.leb Nat.add] in H; try discriminate H.
    all: done_new H.
    all: repeat match goal with
    | E : rec ForInitOption ?c = Ok _, B : branch _ _ _ ["local_variable_declaration"] ?c, P : placed _ ?c _ |- _ =>
        let K := fresh "K" in pose proof (init_lvd _ IH _ _ _ _ _ _ E B P EI) as K; clear E
    | E : rec ForInitOption ?c = Ok _, B : branch _ _ _ _ ?c, P : placed _ ?c _, HS : separated _ _ _ _ _ ?a,
      HL : linked_to _ ?a (?x :: _), S : sign _ _ _ ";" ?x, Px : placed _ ?x _ |- _ =>
        let K := fresh "K" in
        pose proof (init_sep _ IH _ _ _ _ _ _ _ _ _ _ _ _ E HS B P HL S Px EI eq_refl eq_refl eq_refl eq_refl) as K; clear E
    end.
    all: repeat rec_step IH; node_body F Hk.
    all: unfold loop_body, is_semicolumn;
      match goal with |- context [is_kind ";" ?c] =>
        match goal with
        | B : branch _ _ _ _ c |- _ => rewrite (branch_no _ _ _ ";" c B eq_refl)
        | S : sign _ _ _ ";" c |- _ => rewrite (sign_kind _ _ _ ";" c S); cbn [String.eqb Ascii.eqb Bool.eqb]
        end end; cbn [punct_piece pieces flat_map]; pc; cbn [punct_piece app];
      semis.
    all: quiet_semis; kp.
  Qed.
End Sorts.
