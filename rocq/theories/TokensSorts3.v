(* TokensSorts3.v: what each syntax type prints, given what its parts print (part 3 of 3). *)
From Coq Require Import Sorting.Sorted Lia.
From Verif Require Import Base Doc DocBuilder Cst Comments Term SpecTree New SpecWords SpecTokens SpecLoud BitsProofs TokensProofs TokensMarks TokensProofs2 TokensProofs3.
Local Open Scope string_scope.
Local Open Scope list_scope.

Section Sorts.
  Context {DG : dangles}.
  Variable cm : cmap.
  Variable checked : bool.
  Variable rec : sort -> loc -> res dt.
  Hypothesis IH : forall s l x, ok s l -> rec s l = Ok x -> mkept (claims s l) (pieces x).

  Lemma FormalParameters_kept l x : fine l -> new_FormalParameters rec l = Ok x -> holds l x.
  Proof. intros F H. unfold new_FormalParameters in H. checked_kind H Hk. plain_sort l IH F H Hk. Qed.
  Lemma Annotation_kept l x : fine l -> new_Annotation rec l = Ok x -> holds l x.
  Proof. intros F H. unfold new_Annotation in H. checked_kind H Hk. plain_sort l IH F H Hk. Qed.
  Lemma ArrayInitializer_kept l x : fine l -> new_ArrayInitializer rec l = Ok x -> holds l x.
  Proof. intros F H. unfold new_ArrayInitializer in H. checked_kind H Hk. plain_sort l IH F H Hk. Qed.
  Lemma TypeList_kept l x : fine l -> new_TypeList rec l = Ok x -> holds l x.
  Proof. intros F H. unfold new_TypeList in H. checked_kind H Hk. plain_sort l IH F H Hk. Qed.
  Lemma ObjectCreationExpression_kept l x : fine l -> new_ObjectCreationExpression rec l = Ok x -> holds l x.
  Proof. intros F H. unfold new_ObjectCreationExpression in H. checked_kind H Hk. plain_sort l IH F H Hk. Qed.
  Lemma UnaryExpression_kept l x : fine l -> new_UnaryExpression rec l = Ok x -> holds l x.
  Proof. intros F H. unfold new_UnaryExpression in H. checked_kind H Hk. plain_sort l IH F H Hk. Qed.
  Lemma DimensionsExpr_kept l x : fine l -> new_DimensionsExpr rec l = Ok x -> holds l x.
  Proof. intros F H. unfold new_DimensionsExpr in H. checked_kind H Hk. plain_sort l IH F H Hk. Qed.
  Lemma CatchClause_kept l x : fine l -> new_CatchClause rec l = Ok x -> holds l x.
  Proof. intros F H. unfold new_CatchClause in H. checked_kind H Hk. plain_sort l IH F H Hk. Qed.
  Lemma CastExpression_kept l x : fine l -> new_CastExpression rec l = Ok x -> holds l x.
  Proof. intros F H. unfold new_CastExpression in H. checked_kind H Hk. plain_sort l IH F H Hk. Qed.
  Lemma SwitchBlock_kept l x : fine l -> new_SwitchBlock rec l = Ok x -> holds l x.
  Proof. intros F H. unfold new_SwitchBlock in H. checked_kind H Hk. plain_sort l IH F H Hk. Qed.
  Lemma VersionExpression_kept l x : fine l -> new_VersionExpression l = Ok x -> holds l x.
  Proof. intros F H. unfold new_VersionExpression in H. checked_kind H Hk. plain_sort l IH F H Hk. Qed.
  Lemma TriggerDeclaration_kept l x : fine l -> new_TriggerDeclaration rec l = Ok x -> holds l x.
  Proof. intros F H. unfold new_TriggerDeclaration in H. checked_kind H Hk. plain_sort l IH F H Hk. Qed.
  Lemma ClassLiteral_kept l x : fine l -> new_ClassLiteral rec l = Ok x -> holds l x.
  Proof. intros F H. unfold new_ClassLiteral in H. checked_kind H Hk. plain_sort l IH F H Hk. Qed.
  Lemma ParenthesizedExpression_kept l x : kind l = "parenthesized_expression" -> fine l -> new_ParenthesizedExpression rec l = Ok x -> holds l x.
  Proof. intros Hk F H. unfold new_ParenthesizedExpression in H. plain_sort l IH F H Hk. Qed.
  Lemma EnumConstant_kept l x : kind l = "enum_constant" -> fine l -> new_EnumConstant rec l = Ok x -> holds l x.
  Proof. intros Hk F H. unfold new_EnumConstant in H. plain_sort l IH F H Hk. Qed.
  Lemma ConstantDeclaration_kept l x : kind l = "constant_declaration" -> fine l -> new_ConstantDeclaration rec l = Ok x -> holds l x.
  Proof. intros Hk F H. unfold new_ConstantDeclaration in H. plain_sort l IH F H Hk. Qed.
  Lemma IfStatement_kept l x : fine l -> new_IfStatement rec l = Ok x -> holds l x.
  Proof.
    intros F H. unfold new_IfStatement in H. checked_kind H Hk. open_rule l F Hk; links; kid_lists; inv_new H; done_new H.
    all: repeat rec_step IH; node_body F Hk.
    - destruct (is_kind "block" _); pc; kp.
    - kp. destruct (is_kind "block" _); pc; kp. destruct (_ || _); pc; kp.
  Qed.
  Lemma ConstructInvocation_kept l x : kind l = "explicit_constructor_invocation" -> fine l ->
    new_ConstructInvocation rec l = Ok x -> holds l x.
  Proof.
    intros Hk F H. unfold new_ConstructInvocation in H. open_rule l F Hk; links; kid_lists; inv_new H; done_new H.
    all: match goal with E : (if _ then _ else _) = Ok _ |- _ => inv_res E end; repeat rec_step IH; node_body F Hk; kp.
  Qed.
  Lemma Modifiers_kept l x : fine l -> new_Modifiers rec l = Ok x -> holds l x.
  Proof.
    intros F H. unfold new_Modifiers in H. checked_kind H Hk. open_rule l F Hk; links; kid_lists; inv_new H; done_new H.
    all: repeat rec_step IH; silent_body F Hk; kp.
  Qed.
  Lemma Block_kept l x : fine l -> new_Block cm checked rec l = Ok x -> holds l x.
  Proof.
    intros F H. unfold new_Block in H. checked_kind H Hk. open_rule l F Hk. links. kid_lists. inv_new H. done_new H.
    members. repeat rec_step IH. silent_body F Hk. to_members. kp.
  Qed.
  Lemma LocalVariableDeclaration_kept l x : fine l -> new_LocalVariableDeclaration rec l = Ok x -> holds l x.
  Proof.
    intros F H. unfold new_LocalVariableDeclaration in H. checked_kind H Hk.
    open_rule l F Hk; links; kid_lists; inv_new H; done_new H.
    all: repeat rec_step IH; silent_body F Hk; kp.
  Qed.
  Lemma EnumBody_kept l x : fine l -> new_EnumBody rec l = Ok x -> holds l x.
  Proof.
    intros F H. unfold new_EnumBody in H. checked_kind H Hk.
    open_rule l F Hk; links; kid_lists; inv_new H; done_new H.
    - silent_body F Hk. kp.
    - repeat rec_step IH; destruct x2 as [|d ds]; cbn [is_nil]; silent_body F Hk; pc; kp.
      + apply kept_app_nil; [exact K|]. kp.
      + rewrite app_assoc. change (pieces d ++ flat_map pieces ds) with (flat_map pieces (d :: ds)). kp.
  Qed.
  Lemma MapInitializer_kept l x : fine l -> new_MapInitializer rec l = Ok x -> holds l x.
  Proof. intros F H. unfold new_MapInitializer in H. checked_kind H Hk. plain_sort l IH F H Hk. Qed.
  Lemma AccessorList_kept l x : fine l -> new_AccessorList rec l = Ok x -> holds l x.
  Proof.
    intros F H. unfold new_AccessorList in H. checked_kind H Hk.
    open_rule l F Hk; links; kid_lists; inv_new H; done_new H.
    all: repeat rec_step IH; node_body F Hk; destruct (existsb _ _); pc; kp.
  Qed.
  Lemma BinaryExpression_kept l x : fine l -> new_BinaryExpression rec l = Ok x -> holds l x.
  Proof.
    intros F H. unfold new_BinaryExpression in H. checked_kind H Hk.
    destruct (use_rules l _ (f_valid l F) (f_named l F) Hk) as (alt & ks & Hin & EK & HF & HL); [discriminate|].
    change (rules "binary_expression") with
      (map (fun o => [One "left" expressions; SignF "operator" o; One "right" expressions]) binary_signs) in Hin.
    apply in_map_iff in Hin as (o & <- & Hin).
    destruct HF as (c1 & r1 & -> & B1 & c2 & r2 & -> & B2 & c3 & r3 & -> & B3 & HF). cbn [fits] in HF. subst r3.
    let fs := eval vm_compute in (fields "binary_expression") in change (fields "binary_expression") with fs in *.
    links. kid_lists. inv_new H. all: done_new H.
    all: assert (Eq : kind_in o [","; ";"] = false)
      by (apply (proj1 (forallb_forall (fun o => negb (kind_in o [","; ";"])) binary_signs) eq_refl) in Hin;
          destruct (kind_in o [","; ";"]); [discriminate Hin|reflexivity]).
    all: assert (Eq' : kind_in o [","; ";"; "else"] = false)
      by (apply (proj1 (forallb_forall (fun o => negb (kind_in o [","; ";"; "else"])) binary_signs) eq_refl) in Hin;
          destruct (kind_in o [","; ";"; "else"]); [discriminate Hin|reflexivity]).
    all: pose proof (rec_none _ IH _ _ _ _ _ _ _ _ E B1 P (follow_sign _ _ _ _ _ B2 Eq) eq_refl eq_refl) as K1.
    all: repeat rec_step IH; node_body F Hk.
    all: assert (Eo : kind c2 = o) by apply B2; rewrite Eo.
    all: repeat match goal with |- context [if ?b then _ else _] => destruct b end; pc; kp.
    all: try (apply (kept_sign1 _ _ _ _ _ H0); [first [left; assumption|still]|reflexivity|]; kp).
  Qed.
  Lemma ContinueStatement_kept l x : fine l -> new_ContinueStatement l = Ok x -> holds l x.
  Proof.
    intros F H. unfold new_ContinueStatement in H. checked_kind H Hk.
    open_rule l F Hk; links; kid_lists; inv_new H; done_new H.
    - silent_body F Hk. kp. inner.
    - repeat rec_step IH; node_body F Hk; kp. rewrite app_nil_r.
      eapply vn_kept_punct; [eassumption|atom|apart|eassumption| |reflexivity]. eapply proj1, proj2, proj2; eassumption.
  Qed.
  Lemma AssignmentLeft_kept l x : fine l -> new_AssignmentLeft rec l = Ok x -> holds l x.
  Proof. intros F H. unfold new_AssignmentLeft in H. dispatch IH F H. Qed.
  Lemma ClassMember_kept l x : fine l -> new_ClassMember rec l = Ok x -> holds l x.
  Proof. intros F H. unfold new_ClassMember in H. dispatch IH F H. Qed.
  Lemma SimpleType_kept l x : fine l -> new_SimpleType rec l = Ok x -> holds l x.
  Proof. intros F H. unfold new_SimpleType in H. dispatch IH F H. Qed.
  Lemma PrimaryExpression_kept l x : fine l -> new_PrimaryExpression rec l = Ok x -> holds l x.
  Proof.
    intros F H. unfold new_PrimaryExpression, new_Literal_ in H. dispatch IH F H; dispatch IH F E.
  Qed.
  Lemma Modifier_kept l x : fine l -> new_Modifier l = Ok x -> holds l x.
  Proof.
    intros F H. unfold new_Modifier in H. checked_kind H Hk.
    open_rule l F Hk; links; kid_lists; unfold_access H; use_lists H; ev H; cbn [rbind] in H.
    each_kind x1; match goal with B : branch _ _ _ _ x1 |- _ => rewrite (only_kind _ _ _ _ B) in H end; cbn in H; done_new H;
      node_body F Hk; kp.
  Qed.
  Lemma DmlExpression_kept l x : fine l -> new_DmlExpression rec l = Ok x -> holds l x.
  Proof.
    intros F H. unfold new_DmlExpression in H. checked_kind H Hk.
    open_rule l F Hk; links; kid_lists; inv_new H; done_new H.
    all: try match goal with
      | V : verb _ _ _ [?k] ?c, E : must _ (hd_error (children_vec ?c)) = Ok ?v |- _ =>
          let Ek := fresh "Ek" in assert (Ek : kind v = k) by (exact (verb_kind _ _ _ _ _ _ V E));
          let E' := fresh "E" in
          match goal with E2 : (if is_kind "merge" v then _ else _) = Ok _ |- _ =>
            unfold is_kind, has_kind in E2; unfold kind in Ek; rewrite Ek in E2; cbn [String.eqb Ascii.eqb Bool.eqb] in E2
          end
      end.
    all: match goal with E2 : _ = Ok ?d |- context [?d ++ [tnil]] => inv_res E2 end.
    all: try match goal with E2 : (if is_kind _ ?v then _ else _) = Ok _ |- _ =>
      destruct (is_kind "merge" v); [discriminate E2|]; destruct (is_kind "upsert" v); injection E2 as <- end.
    all: repeat rec_step IH; node_body F Hk; kp.
  Qed.
  Lemma ForInitOption_kept l x : ok ForInitOption l -> new_ForInitOption rec l = Ok x -> mkept (claims ForInitOption l) (pieces x).
  Proof.
    intros (F & _ & G) H. unfold new_ForInitOption in H. cbn [claims].
    destruct (is_kind "local_variable_declaration" l) eqn:Q.
    - apply kind_of in Q. change (holds l x). unfold wrap_r in H. inv_bind H. injection H as <-. apply wrap_holds. leaf IH F.
    - cbn [special] in G. unfold inits in *. inv_bind H. destruct (parent l) as [p|]; [|discriminate].
      injection E as <-. inv_bind H. injection H as <-. unfold all1_n in E.
      inv_bind E. apply cs_by_n_ok in E0. subst. pc. apply kept_joined; [reflexivity|].
      eapply mapR_kept; [|exact E]. rewrite Forall_forall in G. intros c d Hc Hd. specialize (G c Hc).
      eapply (rec_holds rec IH Expression); [reflexivity|exact G|exact I|exact Hd].
  Qed.
End Sorts.
