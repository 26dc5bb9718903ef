(* TokensProofs4.v: what every syntax type prints, given what its parts print. *)
From Verif Require Import Base Doc DocBuilder Cst Comments Term SpecTree New SpecWords SpecTokens SpecLoud BitsProofs TokensProofs TokensMarks TokensProofs2 TokensProofs3
  TokensSorts1 TokensSorts2 TokensSorts3 TokensSorts4.
Local Open Scope string_scope.
Local Open Scope list_scope.

Section Step.
  Context {DG : dangles}.
  Variable cm : cmap.
  Variable checked : bool.
  Variable rec : sort -> loc -> res dt.
  Hypothesis IH : forall s l x, ok s l -> rec s l = Ok x -> mkept (claims s l) (pieces x).

  Theorem step_kept s l x : ok s l -> new_step cm checked rec s l = Ok x -> mkept (claims s l) (pieces x).
  Proof.
    intros O H. pose proof O as (F & X & G). destruct s; cbn [new_step] in H; cbn [claims].
    all: try exact (ForInitOption_kept rec IH l x O H).
    all: try exact (ConditionExpression_kept rec IH _ l x O H).
    all: try exact (ForClause_kept l x O H).
    all: change (holds l x).
    all: try exact (BooleanExpression_kept rec IH _ l x F X H).
    all: unfold expected in X; cbn [expect] in X; try (apply (kind_one _ l) in X).
    all: try (eapply Root_kept; eassumption).
    all: try (eapply ClassDeclaration_kept; eassumption).
    all: try (eapply MethodDeclaration_kept; eassumption).
    all: try (eapply FormalParameters_kept; eassumption).
    all: try (eapply FormalParameter_kept; eassumption).
    all: try (eapply SuperClass_kept; eassumption).
    all: try (eapply Annotation_kept; eassumption).
    all: try (eapply AnnotationKeyValue_kept; eassumption).
    all: try (eapply FieldDeclaration_kept; eassumption).
    all: try (eapply ArrayInitializer_kept; eassumption).
    all: try (eapply AssignmentExpression_kept; eassumption).
    all: try (eapply Interface_kept; eassumption).
    all: try (eapply TypeList_kept; eassumption).
    all: try (eapply VariableDeclarator_kept; eassumption).
    all: try (eapply TypeParameters_kept; eassumption).
    all: try (eapply ObjectCreationExpression_kept; eassumption).
    all: try (eapply RunAsStatement_kept; eassumption).
    all: try (eapply DoStatement_kept; eassumption).
    all: try (eapply UnaryExpression_kept; eassumption).
    all: try (eapply ArrayAccess_kept; eassumption).
    all: try (eapply ArrayCreationExpression_kept; eassumption).
    all: try (eapply DimensionsExpr_kept; eassumption).
    all: try (eapply TernaryExpression_kept; eassumption).
    all: try (eapply TryStatement_kept; eassumption).
    all: try (eapply CatchClause_kept; eassumption).
    all: try (eapply FinallyClause_kept; eassumption).
    all: try (eapply InterfaceDeclaration_kept; eassumption).
    all: try (eapply CastExpression_kept; eassumption).
    all: try (eapply ThrowStatement_kept; eassumption).
    all: try (eapply SwitchExpression_kept; eassumption).
    all: try (eapply SwitchBlock_kept; eassumption).
    all: try (eapply SwitchRule_kept; eassumption).
    all: try (eapply InstanceOfExpression_kept; eassumption).
    all: try (eapply VersionExpression_kept; eassumption).
    all: try (eapply JavaFieldAccess_kept; eassumption).
    all: try (eapply ArrayType_kept; eassumption).
    all: try (eapply TriggerDeclaration_kept; eassumption).
    all: try (eapply TriggerBody_kept; eassumption).
    all: try (eapply ExpressionStatement_kept; eassumption).
    all: try (eapply ClassLiteral_kept; eassumption).
    all: try (eapply TypeArguments_kept; eassumption).
    all: try (eapply ArgumentList_kept; eassumption).
    all: try (eapply ParenthesizedExpression_kept; eassumption).
    all: try (eapply ConstructorDeclaration_kept; eassumption).
    all: try (eapply EnumDeclaration_kept; eassumption).
    all: try (eapply EnumConstant_kept; eassumption).
    all: try (eapply StaticInitializer_kept; eassumption).
    all: try (eapply ExtendsInterface_kept; eassumption).
    all: try (eapply ConstantDeclaration_kept; eassumption).
    all: try (eapply JavaType_kept; eassumption).
    all: try (eapply GenericType_kept; eassumption).
    all: try (eapply IfStatement_kept; eassumption).
    all: try (eapply EnhancedForStatement_kept; eassumption).
    all: try (eapply ScopedTypeIdentifier_kept; eassumption).
    all: try (eapply TypeParameter_kept; eassumption).
    all: try (eapply WhenSObjectType_kept; eassumption).
    all: try (eapply Modifiers_kept; eassumption).
    all: try (eapply ClassBody_kept; eassumption).
    all: try (eapply Block_kept; eassumption).
    all: try (eapply InterfaceBody_kept; eassumption).
    all: try (eapply Root_kept; eassumption).
    all: try (eapply LocalVariableDeclaration_kept; eassumption).
    all: try (eapply WhileStatement_kept; eassumption).
    all: try (eapply SwitchLabel_kept; eassumption).
    all: try (eapply EnumBody_kept; eassumption).
    all: try (eapply DmlSecurityMode_kept; eassumption).
    all: try (eapply MapCreationExpression_kept; eassumption).
    all: try (eapply MapInitializer_kept; eassumption).
    all: try (eapply MapKeyInitializer_kept; eassumption).
    all: try (eapply AccessorDeclaration_kept; eassumption).
    all: try (eapply AccessorList_kept; eassumption).
    all: try (eapply ConstructorBody_kept; eassumption).
    all: try (eapply UpdateExpression_kept; eassumption).
    all: try (eapply BinaryExpression_kept; eassumption).
    all: try (eapply ReturnStatement_kept; eassumption).
    all: try (eapply BreakStatement_kept; eassumption).
    all: try (eapply ContinueStatement_kept; eassumption).
    all: try (eapply FieldAccess_kept; eassumption).
    all: try (eapply DmlType_kept; eassumption).
    all: try (eapply AssignmentLeft_kept; eassumption).
    all: try (eapply ObjectExpression_kept; eassumption).
    all: try (eapply InterfaceMember_kept; eassumption).
    all: try (eapply ClassMember_kept; eassumption).
    all: try (eapply RootMember_kept; eassumption).
    all: try (eapply UnannotatedType_kept; eassumption).
    all: try (eapply SimpleType_kept; eassumption).
    all: try (eapply VariableInitializer_kept; eassumption).
    all: try (eapply Expression_kept; eassumption).
    all: try (eapply PrimaryExpression_kept; eassumption).
    all: try (eapply Statement_kept; eassumption).
    all: try (eapply Type_kept; eassumption).
    all: try (eapply Modifier_kept; eassumption).
    all: try (eapply TriggerEvent_kept; eassumption).
    all: try (eapply QueryExpression_kept; eassumption).
    all: try (eapply DmlExpression_kept; eassumption).
    all: try (eapply MethodInvocation_kept; eassumption).
    all: try (eapply ForStatement_kept; eassumption).
    all: try (eapply AnnotationArgumentList_kept; eassumption).
    all: try (eapply ConstructInvocation_kept; eassumption).
    all: try (eapply SoslQueryBody_kept; eassumption).
    all: try (eapply FindClause_kept; eassumption).
    all: try (eapply InClause_kept; eassumption).
    all: try (eapply SObjectReturn_kept; eassumption).
    all: try (eapply SoqlQueryBody_kept; eassumption).
    all: try (eapply FromClause_kept; eassumption).
    all: try (eapply StorageAlias_kept; eassumption).
    all: try (eapply LimitClause_kept; eassumption).
    all: try (eapply BoundApexExpression_kept; eassumption).
    all: try (eapply SoslUsingClause_kept; eassumption).
    all: try (eapply UsingClause_kept; eassumption).
    all: try (eapply UsingScopeClause_kept; eassumption).
    all: try (eapply UsingLookupClause_kept; eassumption).
    all: try (eapply UsingLookupBindClause_kept; eassumption).
    all: try (eapply UsingLookupBindExpression_kept; eassumption).
    all: try (eapply UsingListviewClause_kept; eassumption).
    all: try (eapply WhereClause_kept; eassumption).
    all: try (eapply HavingClause_kept; eassumption).
    all: try (eapply ComparisonExpression_kept; eassumption).
    all: try (eapply OrderByClause_kept; eassumption).
    all: try (eapply OrderExpression_kept; eassumption).
    all: try (eapply GroupByClause_kept; eassumption).
    all: try (eapply SoslWithClause_kept; eassumption).
    all: try (eapply SoqlWithClause_kept; eassumption).
    all: try (eapply SoqlWithType_kept; eassumption).
    all: try (eapply SoslWithType_kept; eassumption).
    all: try (eapply WithDataCatExpression_kept; eassumption).
    all: try (eapply WithDataCatFilter_kept; eassumption).
    all: try (eapply WithDivisionExpression_kept; eassumption).
    all: try (eapply WithSnippetExpression_kept; eassumption).
    all: try (eapply WithNetworkExpression_kept; eassumption).
    all: try (eapply WithMetadataExpression_kept; eassumption).
    all: try (eapply WithSpellCorrectionExpression_kept; eassumption).
    all: try (eapply WithPriceBookExpression_kept; eassumption).
    all: try (eapply DottedIdentifier_kept; eassumption).
    all: try (eapply CountExpression_kept; eassumption).
    all: try (eapply FunctionExpression_kept; eassumption).
    all: try (eapply FieldIdentifier_kept; eassumption).
    all: try (eapply GeoLocationType_kept; eassumption).
    all: try (eapply SelectClause_kept; eassumption).
    all: try (eapply StorageIdentifier_kept; eassumption).
    all: try (eapply FieldsExpression_kept; eassumption).
    all: try (eapply AliasExpression_kept; eassumption).
    all: try (eapply NotExpression_kept; eassumption).
    all: try (eapply OffsetClause_kept; eassumption).
    all: try (eapply ReturningClause_kept; eassumption).
    all: try (eapply UpdateClause_kept; eassumption).
    all: try (eapply ComparableList_kept; eassumption).
    all: try (eapply SubQuery_kept; eassumption).
    all: try (eapply ValueExpression_kept; eassumption).
    all: try (eapply SelectableExpression_kept; eassumption).
    all: try (eapply StorageVariant_kept; eassumption).
    all: try (eapply LimitValue_kept; eassumption).
    all: try (eapply SetValue_kept; eassumption).
    all: try (eapply ComparableListValue_kept; eassumption).
    all: try (eapply SoqlLiteral_kept; eassumption).
    all: try (eapply AndExpression_kept; eassumption).
    all: try (eapply OrExpression_kept; eassumption).
  Qed.
End Step.
