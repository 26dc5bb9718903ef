(* ReadSafe2.v: the files of SpecSupported.v are read without a failure. *)
From Coq Require Import Lia.
From Verif Require Import Base Cst SpecTree Comments Term New SpecRead SpecTokens SpecSupported NewProofs ReadProofs TokensProofs TokensProofs2 ReadSafe.
Local Open Scope string_scope.
Local Open Scope list_scope.

(* The kinds of nodes that a type of afmt is made from. *)
Definition sort_kinds (s : sort) : list string :=
  match s with
  | Root => ["parser_output"]
  | RootMember => file_members
  | ClassMember => class_members
  | ClassDeclaration => ["class_declaration"]
  | MethodDeclaration => ["method_declaration"]
  | FormalParameters => ["formal_parameters"]
  | FormalParameter => ["formal_parameter"]
  | SuperClass => ["superclass"]
  | Modifiers => ["modifiers"]
  | Modifier => ["modifier"]
  | Annotation => ["annotation"]
  | AnnotationArgumentList => ["annotation_argument_list"]
  | AnnotationKeyValue => ["annotation_key_value"]
  | ClassBody => ["class_body"]
  | FieldDeclaration => ["field_declaration"]
  | ArrayInitializer => ["array_initializer"]
  | AssignmentExpression => ["assignment_expression"]
  | AssignmentLeft => ["identifier"; "field_access"; "array_access"]
  | Block => ["block"]
  | Interface_ => ["interfaces"]
  | TypeList => ["type_list"]
  | ObjectExpression => "super" :: primaries
  | MethodInvocation => ["method_invocation"]
  | TypeArguments => ["type_arguments"]
  | ArgumentList => ["argument_list"]
  | BinaryExpression => ["binary_expression"]
  | LocalVariableDeclaration => ["local_variable_declaration"]
  | VariableDeclarator => ["variable_declarator"]
  | GenericType => ["generic_type"]
  | IfStatement => ["if_statement"]
  | ParenthesizedExpression => ["parenthesized_expression"]
  | ForInitOption => "local_variable_declaration" :: expressions
  | ForStatement => ["for_statement"]
  | EnhancedForStatement => ["enhanced_for_statement"]
  | UpdateExpression => ["update_expression"]
  | ScopedTypeIdentifier => ["scoped_type_identifier"]
  | ConstructorDeclaration => ["constructor_declaration"]
  | ConstructorBody => ["constructor_body"]
  | ConstructInvocation => ["explicit_constructor_invocation"]
  | TypeParameters => ["type_parameters"]
  | TypeParameter => ["type_parameter"]
  | ObjectCreationExpression => ["object_creation_expression"]
  | RunAsStatement => ["run_as_statement"]
  | DoStatement => ["do_statement"]
  | WhileStatement => ["while_statement"]
  | UnaryExpression => ["unary_expression"]
  | FieldAccess => ["field_access"]
  | EnumDeclaration => ["enum_declaration"]
  | EnumBody => ["enum_body"]
  | EnumConstant => ["enum_constant"]
  | DmlExpression => ["dml_expression"]
  | DmlSecurityMode => ["dml_security_mode"]
  | DmlType => ["dml_type"]
  | ArrayAccess => ["array_access"]
  | ArrayCreationExpression => ["array_creation_expression"]
  | DimensionsExpr => ["dimensions_expr"]
  | ReturnStatement => ["return_statement"]
  | TernaryExpression => ["ternary_expression"]
  | TryStatement => ["try_statement"]
  | CatchClause => ["catch_clause"]
  | FinallyClause => ["finally_clause"]
  | StaticInitializer => ["static_initializer"]
  | InterfaceDeclaration => ["interface_declaration"]
  | ExtendsInterface => ["extends_interfaces"]
  | InterfaceBody => ["interface_body"]
  | InterfaceMember => interface_members
  | ConstantDeclaration => ["constant_declaration"]
  | AccessorList => ["accessor_list"]
  | AccessorDeclaration => ["accessor_declaration"]
  | CastExpression => ["cast_expression"]
  | ThrowStatement => ["throw_statement"]
  | BreakStatement => ["break_statement"]
  | ContinueStatement => ["continue_statement"]
  | SwitchExpression => ["switch_expression"]
  | SwitchBlock => ["switch_block"]
  | SwitchRule => ["switch_rule"]
  | SwitchLabel => ["switch_label"]
  | WhenSObjectType => ["when_sobject_type"]
  | InstanceOfExpression => ["instanceof_expression"]
  | VersionExpression => ["version_expression"]
  | JavaFieldAccess => ["java_field_access"]
  | JavaType => ["java_type"]
  | ArrayType => ["array_type"]
  | TriggerDeclaration => ["trigger_declaration"]
  | TriggerEvent => ["trigger_event"]
  | TriggerBody => ["trigger_body"]
  | QueryExpression => ["query_expression"]
  | SoslQueryBody => ["sosl_query_body"]
  | FindClause => ["find_clause"]
  | InClause => ["in_clause"]
  | ReturningClause => ["returning_clause"]
  | SObjectReturn => ["sobject_return"]
  | SoqlQueryBody => ["soql_query_body"]
  | FromClause => ["from_clause"]
  | StorageAlias => ["storage_alias"]
  | LimitClause => ["limit_clause"]
  | UpdateClause => ["update_clause"]
  | BoundApexExpression => ["bound_apex_expression"]
  | SoslUsingClause => ["sosl_using_clause"]
  | UsingClause => ["using_clause"]
  | UsingScopeClause => ["using_scope_clause"]
  | UsingLookupClause => ["using_lookup_clause"]
  | UsingLookupBindClause => ["using_lookup_bind_clause"]
  | UsingLookupBindExpression => ["using_lookup_bind_expression"]
  | UsingListviewClause => ["using_listview_clause"]
  | WhereClause => ["where_clause"]
  | HavingClause => ["having_clause"]
  | ComparisonExpression => ["comparison_expression"]
  | ComparableList => ["comparable_list"]
  | OrderByClause => ["order_by_clause"]
  | OrderExpression => ["order_expression"]
  | SubQuery => ["subquery"]
  | MapCreationExpression => ["map_creation_expression"]
  | MapInitializer => ["map_initializer"]
  | MapKeyInitializer => ["map_key_initializer"]
  | GroupByClause => ["group_by_clause"]
  | SoslWithClause => ["with_clause"]
  | SoqlWithClause => ["with_clause"]
  | SoqlWithType => ["with_type"]
  | SoslWithType => ["with_type"]
  | WithDataCatExpression => ["with_data_cat_expression"]
  | WithDataCatFilter => ["with_data_cat_filter"]
  | WithDivisionExpression => ["with_division_expression"]
  | WithSnippetExpression => ["with_snippet_expression"]
  | WithNetworkExpression => ["with_network_expression"]
  | WithMetadataExpression => ["with_metadata_expression"]
  | WithSpellCorrectionExpression => ["with_spell_correction_expression"]
  | WithPriceBookExpression => ["with_pricebook_expression"]
  | DottedIdentifier => ["dotted_identifier"]
  | ExpressionStatement => ["expression_statement"]
  | CountExpression => ["count_expression"]
  | FunctionExpression => ["function_expression"]
  | FieldIdentifier => ["field_identifier"]
  | GeoLocationType => ["geo_location_type"]
  | SelectClause => ["select_clause"]
  | StorageIdentifier => ["storage_identifier"]
  | AndExpression => ["and_expression"]
  | OrExpression => ["or_expression"]
  | NotExpression => ["not_expression"]
  | ForClause => ["for_clause"]
  | BooleanExpression _ => filter_kinds
  | ConditionExpression _ => filter_kinds
  | UnannotatedType => types
  | SimpleType => removelast types
  | VariableInitializer => "array_initializer" :: expressions
  | Expression => expressions
  | PrimaryExpression => primaries
  | ClassLiteral => ["class_literal"]
  | Statement => statements ++ [";"]
  | Type_ => types
  | SelectableExpression => selectable
  | FieldsExpression => ["fields_expression"]
  | AliasExpression => ["alias_expression"]
  | StorageVariant => ["storage_identifier"; "storage_alias"]
  | LimitValue => ["int"; "bound_apex_expression"]
  | ValueExpression => values
  | SoqlLiteral => plain_literals
  | SetValue => set_values
  | ComparableListValue => soql_literals
  | OffsetClause => ["offset_clause"]
  end.
(* ... and what is asked of them besides. *)
Definition free (s : sort) : bool :=
  match s with ForInitOption | SoqlWithClause | SoqlWithType | SoslWithClause | SoslWithType => false | _ => true end.

Section Read.
  Variable root : node.
  Hypothesis FT : file_tree root.
  Hypothesis SU : supported root.
  Variable cm : cmap.
  Variable checked : bool.
  Hypothesis LR : checked = true -> later_rows root.
  Notation solid := (solid root).

  Definition query_type (v : node) : Prop := forall c, In c (children v) -> n_named c = true -> n_kind c = "with_user_id_type".
  Definition search_type (v : node) : Prop := exists c, In c (children v) /\ n_named c = true /\ n_extra c = false /\ n_kind c <> "with_user_id_type".
  Definition place (s : sort) (l : loc) : Prop :=
    match s with
    | ForInitOption => exists p, solid p /\ kind p = "for_statement" /\ try_c_by_n "init" p = Some l
    | SoqlWithClause => forall v, In v (children (l_node l)) -> n_kind v = "with_type" -> query_type v
    | SoqlWithType => query_type (l_node l)
    | SoslWithClause => forall v, In v (children (l_node l)) -> n_kind v = "with_type" -> search_type v
    | SoslWithType => search_type (l_node l)
    | _ => True
    end.
  Lemma free_place s l : free s = true -> place s l.
  Proof. destruct s; cbn; intro; try discriminate; exact I. Qed.
  Definition good (s : sort) (l : loc) : Prop :=
    pos root l /\ is_extra l = false /\ above root l /\ (is_named l = true \/ kind l = ";") /\ kind_in (kind l) (sort_kinds s) = true /\ place s l.

  Variable rec : sort -> loc -> res dt.
  Hypothesis IH : forall s l, good s l -> fine (rec s l).

  Lemma same_fine s l x : pos root l -> is_extra l = false -> above root l -> (is_named l = true \/ kind l = ";") -> kind l = x ->
    kind_in x (sort_kinds s) && free s = true -> fine (rec s l).
  Proof.
    intros P E A N K H. apply andb_prop in H as [H1 H2]. apply IH. repeat (split; [assumption|]). rewrite K. split; [exact H1|apply free_place, H2].
  Qed.

  (* ---------------------------------------------------------- children *)

  Definition check_n (k : string) (alts : list (list item)) (f : string) (s : sort) : bool :=
    kind_in f (fields k) && subset (field_kinds alts f) (sort_kinds s) &&
    subset (field_signs alts f) (if kind_in ";" (sort_kinds s) then [";"] else []).
  Lemma kid_n l k alts f s c : solid l -> obeys k alts l -> check_n k alts f s = true -> In c (kids l) -> n_field (l_node c) = Some f ->
    place s c -> good s c.
  Proof.
    intros S O H Hc Hf HP. unfold check_n in H. apply andb_prop in H as [H H4]. apply andb_prop in H as [H2 H3].
    destruct (only_field root FT l k alts c f S O H2 Hc Hf) as (E & [(N & G)|(N & G)]).
    - assert (A := kid_above root l c S Hc). repeat (split; auto); [eapply kid_pos; [exact (proj1 S)|exact Hc]|]. eapply subset_in; eauto.
    - apply (subset_in _ _ _ H4) in G. destruct (kind_in ";" (sort_kinds s)) eqn:KS; [|discriminate G].
      apply kind_in_In in G. destruct G as [G|[]]. symmetry in G. assert (A := kid_above root l c S Hc). repeat (split; auto); [eapply kid_pos; [exact (proj1 S)|exact Hc]|]. rewrite G. exact KS.
  Qed.
  Definition check_k (x : string) (s : sort) : bool := kind_in x (sort_kinds s) && negb (kind_in x comment_kinds).
  Lemma kind_plain l c x : pos root l -> In c (kids l) -> kind c = x -> kind_in x comment_kinds = false -> is_extra c = false.
  Proof.
    intros P Hc K H. destruct (is_extra c) eqn:E; [|reflexivity]. exfalso.
    destruct (ft_comments root FT (l_node c)) as (_ & G & _); [apply pos_node; eapply kid_pos; eauto|exact E|].
    change (n_kind (l_node c)) with (kind c) in G. congruence.
  Qed.
  Lemma kid_k l x s c : solid l -> check_k x s = true -> In c (kids l) -> is_named c = true -> kind c = x -> place s c -> good s c.
  Proof.
    intros S H Hc N K HP. unfold check_k in H. apply andb_prop in H as [H2 H3]. apply Bool.negb_true_iff in H3.
    split; [eapply kid_pos; [exact (proj1 S)|exact Hc]|]. split; [eapply kind_plain; [exact (proj1 S)|exact Hc|exact K|exact H3]|]. split; [eapply kid_above; eauto|].
    split; [left; exact N|]. rewrite K. split; [exact H2|exact HP].
  Qed.
  Definition check_c (alts : list (list item)) (s : sort) : bool := subset (named_kinds alts) (sort_kinds s).
  Lemma vec_in l c : In c (children_vec l) -> In c (kids l) /\ is_named c = true /\ is_extra c = false.
  Proof.
    unfold children_vec, named_kids. intro H. apply filter_In in H as [H H2]. apply filter_In in H as [H1 H3].
    apply Bool.negb_true_iff in H2. tauto.
  Qed.
  Lemma kid_c l k alts s c : solid l -> obeys k alts l -> check_c alts s = true -> In c (children_vec l) -> place s c -> good s c.
  Proof.
    intros S O H Hc HP. apply vec_in in Hc as (Hc & N & E). pose proof (only_named l k alts c O Hc N E) as G.
    split; [eapply kid_pos; [exact (proj1 S)|exact Hc]|]. split; [exact E|]. split; [eapply kid_above; eauto|]. split; [left; exact N|]. split; [eapply subset_in; eauto|exact HP].
  Qed.
  Definition check_1 (alts : list (list item)) (s : sort) : bool := subset (first_kinds alts) (sort_kinds s).
  Lemma kid_1 l k alts s c : solid l -> obeys k alts l -> check_1 alts s = true -> try_first_c l = Some c -> place s c -> good s c.
  Proof.
    intros S O H Hc HP. pose proof (first_named l k alts c O Hc) as G.
    assert (Hv : In c (children_vec l)) by (unfold try_first_c in Hc; destruct (children_vec l); [discriminate|injection Hc as <-; left; reflexivity]).
    apply vec_in in Hv as (Hv & N & E).
    split; [eapply kid_pos; [exact (proj1 S)|exact Hv]|]. split; [exact E|]. split; [eapply kid_above; eauto|]. split; [left; exact N|]. split; [eapply subset_in; eauto|exact HP].
  Qed.

  Lemma by_name l c f : try_c_by_n f l = Some c -> In c (kids l) /\ n_field (l_node c) = Some f.
  Proof.
    unfold try_c_by_n. intro H. apply find_some in H as [H1 H2]. split; [exact H1|]. unfold has_field in H2.
    destruct (n_field (l_node c)); [|discriminate]. apply String.eqb_eq in H2. congruence.
  Qed.
  Lemma by_kind l c k : try_c_by_k k l = Some c -> In c (kids l) /\ is_named c = true /\ kind c = k.
  Proof.
    unfold try_c_by_k, named_kids. intro H. apply find_some in H as [H1 H2]. apply filter_In in H1 as [H1 H3].
    apply String.eqb_eq in H2. tauto.
  Qed.
  Lemma all_by_kind l c k : In c (try_cs_by_k k l) -> In c (kids l) /\ is_named c = true /\ kind c = k.
  Proof.
    unfold try_cs_by_k, named_kids. intro H. apply filter_In in H as [H1 H2]. apply filter_In in H1 as [H1 H3].
    apply String.eqb_eq in H2. tauto.
  Qed.
  Lemma name_there l k alts f : obeys k alts l -> needs_field alts f = true -> exists c, try_c_by_n f l = Some c.
  Proof.
    intros O H. destruct (has_one l k alts f O H) as (c & Hc & Hf). destruct (try_c_by_n f l) eqn:E; [eexists; reflexivity|].
    exfalso. pose proof (find_none _ _ E c Hc) as G. cbn beta in G. unfold has_field in G. rewrite Hf, String.eqb_refl in G. discriminate G.
  Qed.
  Lemma kind_there l k alts x : obeys k alts l -> needs_kind alts [x] = true -> exists c, try_c_by_k x l = Some c.
  Proof.
    intros O H. destruct (has_kind_one l k alts [x] O H) as (c & Hc & N & E & Hk). apply kind_in_In in Hk. destruct Hk as [Hk|[]].
    destruct (try_c_by_k x l) eqn:F; [eexists; reflexivity|]. exfalso.
    assert (Hn : In c (named_kids l)) by (apply filter_In; split; assumption). pose proof (find_none _ _ F c Hn) as G.
    unfold is_kind, has_kind in G. change (n_kind (l_node c)) with (kind c) in G. rewrite <- Hk, String.eqb_refl in G. discriminate G.
  Qed.
  Definition needs_c (alts : list (list item)) : bool := needs_kind alts (named_kinds alts).
  Lemma vec_there l k alts : obeys k alts l -> needs_c alts = true -> exists c, In c (children_vec l).
  Proof.
    intros O H. destruct (has_kind_one l k alts _ O H) as (c & Hc & N & E & _). exists c.
    unfold children_vec, named_kids. rewrite !filter_In. rewrite E. auto.
  Qed.
  Lemma first_there l k alts : obeys k alts l -> needs_c alts = true -> exists c, try_first_c l = Some c.
  Proof.
    intros O H. destruct (vec_there l k alts O H) as (c & Hc). unfold try_first_c. destruct (children_vec l) as [|x r]; [destruct Hc|]. exists x. reflexivity.
  Qed.

  (* ---------------------------------------------------------- reading children *)

  Ltac split_and H := repeat match type of H with _ && _ = true => let H' := fresh "H" in apply andb_prop in H as [H H'] end.
  Lemma c_by_n_fine l k alts f : solid l -> obeys k alts l -> needs_field alts f = true -> fine (c_by_n f l).
  Proof. intros S O H. destruct (name_there l k alts f O H) as (c & E). unfold c_by_n. rewrite E. apply fine_ok. Qed.
  Lemma c_by_n_ok l f c : c_by_n f l = Ok c -> In c (kids l) /\ n_field (l_node c) = Some f.
  Proof. unfold c_by_n, must. destruct (try_c_by_n f l) eqn:E; [|discriminate]. intro H. injection H as <-. apply by_name, E. Qed.
  Lemma c_by_k_fine l k alts x : solid l -> obeys k alts l -> needs_kind alts [x] = true -> fine (c_by_k x l).
  Proof. intros S O H. destruct (kind_there l k alts x O H) as (c & E). unfold c_by_k. rewrite E. apply fine_ok. Qed.
  Lemma c_by_k_ok l x c : c_by_k x l = Ok c -> In c (kids l) /\ is_named c = true /\ kind c = x.
  Proof. unfold c_by_k, must. destruct (try_c_by_k x l) eqn:E; [|discriminate]. intro H. injection H as <-. apply by_kind, E. Qed.
  Lemma first_c_fine l k alts : solid l -> obeys k alts l -> needs_c alts = true -> fine (first_c l).
  Proof. intros S O H. destruct (first_there l k alts O H) as (c & E). unfold first_c. rewrite E. apply fine_ok. Qed.
  Lemma try_first_in l c : try_first_c l = Some c -> In c (children_vec l).
  Proof. unfold try_first_c. destruct (children_vec l); [discriminate|]. intro H. injection H as <-. left. reflexivity. Qed.
  Lemma first_c_ok l c : first_c l = Ok c -> In c (children_vec l).
  Proof. unfold first_c, must. destruct (try_first_c l) eqn:E; [|discriminate]. intro H. injection H as <-. apply try_first_in, E. Qed.

  Lemma first_c_1 l c : first_c l = Ok c -> try_first_c l = Some c.
  Proof. unfold first_c, must. destruct (try_first_c l) eqn:E; [|discriminate]. intro H. injection H as <-. reflexivity. Qed.

  Lemma by_n_fine l k alts f s : solid l -> obeys k alts l -> needs_field alts f && check_n k alts f s && free s = true -> fine (by_n rec f s l).
  Proof.
    intros S O H. split_and H. apply fine_bind; [eapply c_by_n_fine; eauto|]. intros c E. apply c_by_n_ok in E as [Hc Hf].
    apply IH. eapply kid_n; eauto. apply free_place. assumption.
  Qed.
  Lemma opt_n_fine l k alts f s : solid l -> obeys k alts l -> check_n k alts f s && free s = true -> fine (opt_n rec f s l).
  Proof.
    intros S O H. split_and H. unfold opt_n. destruct (try_c_by_n f l) as [c|] eqn:E; [|apply fine_ok]. apply by_name in E as [Hc Hf].
    apply fine_bind; [|intros; apply fine_ok]. apply IH. eapply kid_n; eauto. apply free_place. assumption.
  Qed.
  Lemma by_k_fine l k alts x s : solid l -> obeys k alts l -> needs_kind alts [x] && check_k x s && free s = true -> fine (by_k rec x s l).
  Proof.
    intros S O H. split_and H. apply fine_bind; [eapply c_by_k_fine; eauto|]. intros c E. apply c_by_k_ok in E as (Hc & N & Hk).
    apply IH. eapply kid_k; eauto. apply free_place. assumption.
  Qed.
  Lemma opt_k_fine l x s : solid l -> check_k x s && free s = true -> fine (opt_k rec x s l).
  Proof.
    intros S H. split_and H. unfold opt_k. destruct (try_c_by_k x l) as [c|] eqn:E; [|apply fine_ok]. apply by_kind in E as (Hc & N & Hk).
    apply fine_bind; [|intros; apply fine_ok]. apply IH. eapply kid_k; eauto. apply free_place. assumption.
  Qed.
  Lemma all_k_fine l x s : solid l -> check_k x s && free s = true -> fine (all_k rec x s l).
  Proof.
    intros S H. split_and H. unfold all_k. apply fine_mapR. intros c Hc. apply all_by_kind in Hc as (Hc & N & Hk).
    apply IH. eapply kid_k; eauto. apply free_place. assumption.
  Qed.
  Lemma cs_by_k_fine l k alts x : solid l -> obeys k alts l -> needs_kind alts [x] = true -> fine (cs_by_k x l).
  Proof.
    intros S O H. destruct (kind_there l k alts x O H) as (c & E). apply find_some in E as [Hc E]. unfold cs_by_k.
    destruct (try_cs_by_k x l) eqn:F; [|apply fine_ok]. exfalso. assert (G : In c (try_cs_by_k x l)) by (apply filter_In; auto). rewrite F in G. destruct G.
  Qed.
  Lemma cs_by_k_ok l x cs : cs_by_k x l = Ok cs -> cs = try_cs_by_k x l.
  Proof. unfold cs_by_k. destruct (try_cs_by_k x l); [discriminate|]. congruence. Qed.
  Lemma all1_k_fine l k alts x s : solid l -> obeys k alts l -> needs_kind alts [x] && check_k x s && free s = true -> fine (all1_k rec x s l).
  Proof.
    intros S O H. split_and H. unfold all1_k. apply fine_bind; [eapply cs_by_k_fine; eauto|]. intros cs E. apply cs_by_k_ok in E. subst.
    apply fine_mapR. intros c Hc. apply all_by_kind in Hc as (Hc & N & Hk). apply IH. eapply kid_k; eauto. apply free_place. assumption.
  Qed.
  Lemma cs_by_n_fine l k alts f : solid l -> obeys k alts l -> needs_field alts f = true -> fine (cs_by_n f l).
  Proof.
    intros S O H. destruct (name_there l k alts f O H) as (c & E). apply find_some in E as [Hc E]. unfold cs_by_n.
    destruct (filter _ (kids l)) eqn:F; [|apply fine_ok]. exfalso.
    assert (G : In c (filter (fun c => has_field f (l_node c)) (kids l))) by (apply filter_In; auto). rewrite F in G. destruct G.
  Qed.
  Lemma cs_by_n_ok l f cs c : cs_by_n f l = Ok cs -> In c cs -> In c (kids l) /\ n_field (l_node c) = Some f.
  Proof.
    unfold cs_by_n. intros E Hc. assert (G : In c (filter (fun c => has_field f (l_node c)) (kids l))).
    { destruct (filter _ (kids l)); [discriminate|]. injection E as <-. exact Hc. }
    apply filter_In in G as [G1 G2]. split; [exact G1|]. unfold has_field in G2. destruct (n_field (l_node c)); [|discriminate]. apply String.eqb_eq in G2. congruence.
  Qed.
  Lemma all1_n_fine l k alts f s : solid l -> obeys k alts l -> needs_field alts f && check_n k alts f s && free s = true -> fine (all1_n rec f s l).
  Proof.
    intros S O H. split_and H. unfold all1_n. apply fine_bind; [eapply cs_by_n_fine; eauto|]. intros cs E.
    apply fine_mapR. intros c Hc. destruct (cs_by_n_ok _ _ _ _ E Hc). apply IH. eapply kid_n; eauto. apply free_place. assumption.
  Qed.
  Lemma fst_c_fine l k alts s : solid l -> obeys k alts l -> needs_c alts && check_1 alts s && free s = true -> fine (fst_c rec s l).
  Proof.
    intros S O H. split_and H. apply fine_bind; [eapply first_c_fine; eauto|]. intros c E. apply first_c_1 in E.
    apply IH. eapply kid_1; eauto. apply free_place. assumption.
  Qed.
  Lemma all_c_fine l k alts s : solid l -> obeys k alts l -> check_c alts s && free s = true -> fine (all_c rec s l).
  Proof.
    intros S O H. split_and H. unfold all_c. apply fine_mapR. intros c Hc. apply IH. eapply kid_c; eauto. apply free_place. assumption.
  Qed.

  (* ---------------------------------------------------------- members of bodies *)

  Lemma trailing_fine l c : pos root l -> kind_in (kind l) member_bodies = true -> In c (children_vec l) -> fine (has_trailing_newline cm checked c).
  Proof.
    intros P K Hc. apply vec_in in Hc as (Hc & N & E). unfold has_trailing_newline. apply fine_bind.
    - unfold get_comment_bucket, must. destruct (cm_get _ cm); [apply fine_ok|]. intros y H. congruence.
    - intros bk _. destruct (rev (post bk)); [|apply fine_ok]. destruct (find n_named (l_right c)) as [n|] eqn:F; [|apply fine_ok].
      destruct (n_srow n =? 0)%N eqn:R; [|apply fine_ok]. destruct checked eqn:C; [|apply fine_ok]. exfalso.
      apply find_some in F as [F1 F2]. apply N.eqb_eq in R. apply kids_in in Hc as (b & r & Eq & Hc). rewrite Hc in F1. cbn [l_right] in F1.
      exact (LR eq_refl (l_node l) b (l_node c) r n (pos_node _ _ P) K Eq N E F1 F2 R).
  Qed.
  Lemma members_fine l k alts s : solid l -> kind l = k -> obeys k alts l -> kind_in k member_bodies && check_c alts s && free s = true ->
    fine (mapR (body_member cm checked rec s) (children_vec l)).
  Proof.
    intros S K O H. split_and H. apply fine_mapR. intros c Hc. unfold body_member. apply fine_bind.
    - apply IH. eapply kid_c; eauto. apply free_place. assumption.
    - intros d _. apply fine_bind; [|intros; apply fine_ok]. eapply trailing_fine; [exact (proj1 S)| |exact Hc]. rewrite K. assumption.
  Qed.

  (* ---------------------------------------------------------- the types of afmt *)

  Lemma check_fine k l : kind l = k -> fine (assert_check k l).
  Proof. intro K. unfold assert_check, is_kind, has_kind. change (n_kind (l_node l)) with (kind l). rewrite K, String.eqb_refl. apply fine_ok. Qed.
  Lemma is_kind_eq l k x : kind l = k -> is_kind x l = String.eqb k x.
  Proof. intros <-. reflexivity. Qed.

  Lemma kid_n_fine l k alts f s c : solid l -> obeys k alts l -> check_n k alts f s && free s = true -> In c (kids l) /\ n_field (l_node c) = Some f ->
    fine (rec s c).
  Proof. intros S O H [H1 H2]. split_and H. apply IH. eapply kid_n; eauto. apply free_place. assumption. Qed.
  Lemma kid_k_fine l x s c : solid l -> check_k x s && free s = true -> In c (kids l) /\ is_named c = true /\ kind c = x -> fine (rec s c).
  Proof. intros S H (H1 & H2 & H3). split_and H. apply IH. eapply kid_k; eauto. apply free_place. assumption. Qed.
  Lemma kid_1_fine l k alts s c : solid l -> obeys k alts l -> check_1 alts s && free s = true -> try_first_c l = Some c -> fine (rec s c).
  Proof. intros S O H H1. split_and H. apply IH. eapply kid_1; eauto. apply free_place. assumption. Qed.
  Lemma kid_c_fine l k alts s c : solid l -> obeys k alts l -> check_c alts s && free s = true -> In c (children_vec l) -> fine (rec s c).
  Proof. intros S O H H1. split_and H. apply IH. eapply kid_c; eauto. apply free_place. assumption. Qed.

  (* the kinds of a child that has been read *)
  Lemma kid_solid l c : solid l -> In c (kids l) -> is_named c = true -> is_extra c = false -> solid c.
  Proof. intros S H N E. split; [eapply kid_pos; [exact (proj1 S)|exact H]|]. split; [assumption|]. split; [assumption|eapply kid_above; eauto]. Qed.
  Lemma named_k l x c : solid l -> kind_in x comment_kinds = false -> In c (kids l) /\ is_named c = true /\ kind c = x -> solid c /\ kind c = x.
  Proof. intros S H (H1 & H2 & H3). split; [|exact H3]. eapply kid_solid; eauto. eapply kind_plain; [exact (proj1 S)|exact H1|exact H3|exact H]. Qed.
  Lemma named_1 l k alts c : solid l -> obeys k alts l -> try_first_c l = Some c -> solid c /\ In (kind c) (first_kinds alts).
  Proof.
    intros S O H. split; [|apply kind_in_In; eapply first_named; eauto]. apply try_first_in, vec_in in H as (H & N & E). eapply kid_solid; eauto.
  Qed.
  Lemma named_n l k alts f c : solid l -> obeys k alts l -> kind_in f (fields k) && is_nil (field_signs alts f) = true ->
    In c (kids l) /\ n_field (l_node c) = Some f -> solid c /\ In (kind c) (field_kinds alts f).
  Proof.
    intros S O H (Hc & Hf). split_and H. destruct (only_field root FT l k alts c f S O H Hc Hf) as (E & [(N & G)|(N & G)]).
    - split; [eapply kid_solid; eauto|apply kind_in_In, G].
    - exfalso. destruct (field_signs alts f); discriminate.
  Qed.
  Lemma obeys_rules l k : solid l -> kind l = k -> is_nil (rules k) = false -> obeys k (rules k) l.
  Proof. apply solid_rules, FT. Qed.

  Lemma named_v l k alts c : solid l -> obeys k alts l -> In c (children_vec l) -> solid c /\ In (kind c) (named_kinds alts).
  Proof.
    intros S O H. apply vec_in in H as (H & N & E). split; [eapply kid_solid; eauto|].
    apply kind_in_In. eapply only_named; eauto.
  Qed.
  Lemma parent_there l k : solid l -> kind l = k -> k <> "parser_output" -> exists p, parent l = Some p.
  Proof.
    intros (P & _) K N. destruct P as [|l c _ Hc]; [|exists l; apply kid_parent, Hc]. exfalso. apply N. rewrite <- K. apply (proj1 (ft_root root FT)).
  Qed.
  Lemma no_kind l k alts x c : obeys k alts l -> solid l -> negb (kind_in x (named_kinds alts)) && negb (kind_in x comment_kinds) = true ->
    try_c_by_k x l = Some c -> False.
  Proof.
    intros O S H E. split_and H. apply Bool.negb_true_iff in H, H0. apply by_kind in E as (Hc & N & K).
    pose proof (only_named l k alts c O Hc N (kind_plain l c x (proj1 S) Hc K H0)) as G. rewrite K in G. congruence.
  Qed.
  Lemma no_name l k alts f c : obeys k alts l -> solid l -> kind_in f (fields k) && is_nil (field_kinds alts f) && is_nil (field_signs alts f) = true ->
    try_c_by_n f l = Some c -> False.
  Proof.
    intros O S H E. split_and H. apply by_name in E as (Hc & Hf). destruct (only_field root FT l k alts c f S O H Hc Hf) as (_ & [(_ & G)|(_ & G)]).
    - destruct (field_kinds alts f); discriminate.
    - destruct (field_signs alts f); discriminate.
  Qed.
  Lemma named_s l k alts f c : solid l -> obeys k alts l -> kind_in f (fields k) && is_nil (field_kinds alts f) = true ->
    In c (kids l) /\ n_field (l_node c) = Some f -> In (kind c) (field_signs alts f).
  Proof.
    intros S O H (Hc & Hf). split_and H. destruct (only_field root FT l k alts c f S O H Hc Hf) as (_ & [(_ & G)|(_ & G)]).
    - exfalso. destruct (field_kinds alts f); discriminate.
    - apply kind_in_In, G.
  Qed.
  Lemma in_vec l c : solid l -> In c (kids l) -> is_named c = true -> is_extra c = false -> In c (children_vec l).
  Proof. intros S H N E. unfold children_vec, named_kids. rewrite !filter_In, E. auto. Qed.
  Lemma chaining_fine l k : solid l -> kind l = k -> negb (String.eqb k "parser_output") = true -> fine (build_chaining_context l).
  Proof.
    intros S K N. unfold build_chaining_context. destruct (parent_there l k S K) as (p & ->); [intros ->; discriminate N|]. cbn [must rbind]. apply fine_ok.
  Qed.
  Lemma from_named : forall cs up left y b,
    filter (fun c => negb (is_extra c)) (filter is_named (locs_from up left cs)) = y :: b -> next_named_from left cs (Some up) = Some y.
  Proof.
    induction cs as [|n cs IHc]; intros up left y b H; [discriminate|]. cbn [locs_from filter next_named_from] in *.
    change (is_named (Loc n left cs (Some up))) with (n_named n) in H. destruct (n_named n); cbn [andb filter] in *; [|eapply IHc; eauto].
    change (is_extra (Loc n left cs (Some up))) with (n_extra n) in H. destruct (n_extra n); cbn [negb] in *; [eapply IHc; eauto|]. injection H as <- _. reflexivity.
  Qed.
  Lemma next_vec l c y a b : children_vec l = a ++ c :: y :: b -> next_named c = Ok y.
  Proof.
    unfold children_vec, named_kids, kids. generalize (@nil node). revert a. induction (children (l_node l)) as [|n cs IHc]; intros a left H; [destruct a; discriminate|].
    cbn [locs_from filter] in H. change (is_named (Loc n left cs (Some l))) with (n_named n) in H. destruct (n_named n) eqn:N; cbn [filter] in H; [|eapply IHc; eauto].
    change (is_extra (Loc n left cs (Some l))) with (n_extra n) in H. destruct (n_extra n) eqn:X; cbn [negb] in *; [eapply IHc; eauto|].
    destruct a as [|z a]; cbn [app] in H; injection H as E H; [|eapply IHc; eauto]. subst c. unfold next_named. cbn [l_node l_left l_right parent].
    rewrite (from_named _ _ _ _ _ H). reflexivity.
  Qed.
  (* [K : kind l = "..."], [S : solid l] and [O : obeys k alts l] *)
  Ltac say := vm_compute; reflexivity.
  Ltac alts O :=
    match type of O with
    | obeys _ (rules ?k) _ => let a := eval vm_compute in (rules k) in change (rules k) with a in O
    | _ => idtac
    end;
    repeat match type of O with obeys _ (_ :: _ :: _) _ => apply obeys_or in O; destruct O as [O|O] end.
  Ltac away :=
    match goal with O : obeys _ _ _ |- _ => alts O end;
    match goal with
    | O : obeys _ _ ?l, E : try_c_by_k ?x ?l = None |- _ => destruct (kind_there l _ _ x O eq_refl) as (? & ?); congruence
    | O : obeys _ _ ?l, E : try_c_by_n ?x ?l = None |- _ => destruct (name_there l _ _ x O eq_refl) as (? & ?); congruence
    | O : obeys _ _ ?l, E : try_first_c ?l = None |- _ => destruct (first_there l _ _ O eq_refl) as (? & ?); congruence
    end.
  Ltac is_kinds K :=
    repeat match goal with
    | |- context [is_kind ?x ?l] => match type of K with kind l = _ => rewrite (is_kind_eq l _ x K) end
    | |- context [kind_in (kind ?l) _] => match type of K with kind l = _ => rewrite K end
    | |- context [kind ?l] => match type of K with kind l = _ => rewrite K end
    end; cbn [String.eqb Ascii.eqb Bool.eqb kind_in existsb orb andb negb].
  Ltac obey S K := try (match type of K with kind ?l = ?k => let O := fresh "O" in pose proof (obeys_rules l k S K eq_refl) as O end).
  (* the kinds of a child *)
  Ltac about c g :=
    match goal with K : kind c = _ |- _ => fail 1 | _ => idtac end;
    match g with
    | assert_check _ c => idtac
    | modifier_text (kind c) => idtac
    | trigger_event_text (kind c) => idtac
    | if is_kind _ c then _ else _ => idtac
    | if kind_in (kind c) _ then _ else _ => idtac
    | wrap_r (new_Super c) => idtac
    | all_c _ _ c => idtac
    | cs_by_k _ c => idtac
    | c_by_k _ c => idtac
    | first_c c => idtac
    end.
  Ltac kinds_of H :=
    let S := fresh "S" in let K := fresh "K" in destruct H as [S K]; match type of K with In _ ?ks => let v := eval vm_compute in ks in change ks with v in K end;
    let rec each := (lazymatch type of K with False => destruct K | _ => destruct K as [K|K]; [symmetry in K; obey S K; is_kinds K|each] end) in
    cbn [In] in K; each.
  Ltac kind_of H :=
    let S := fresh "S" in let K := fresh "K" in destruct H as [S K]; obey S K; is_kinds K.
  Ltac go1 :=
    match goal with
    | |- fine (Ok _) => apply fine_ok
    | K : kind ?l = _ |- fine (assert_check _ ?l) => apply check_fine; exact K
    | |- fine (wrap_r _) => apply fine_rmap
    | |- fine (rmap _ _) => apply fine_rmap
    | S : ReadSafe.solid _ ?l, O : obeys _ _ ?l |- fine (by_n _ _ _ ?l) => apply (by_n_fine _ _ _ _ _ S O); say
    | S : ReadSafe.solid _ ?l, O : obeys _ _ ?l |- fine (opt_n _ _ _ ?l) => apply (opt_n_fine _ _ _ _ _ S O); say
    | S : ReadSafe.solid _ ?l, O : obeys _ _ ?l |- fine (by_k _ _ _ ?l) => apply (by_k_fine _ _ _ _ _ S O); say
    | S : ReadSafe.solid _ ?l |- fine (opt_k _ _ _ ?l) => apply (opt_k_fine _ _ _ S); say
    | S : ReadSafe.solid _ ?l |- fine (all_k _ _ _ ?l) => apply (all_k_fine _ _ _ S); say
    | S : ReadSafe.solid _ ?l, O : obeys _ _ ?l |- fine (all1_k _ _ _ ?l) => apply (all1_k_fine _ _ _ _ _ S O); say
    | S : ReadSafe.solid _ ?l, O : obeys _ _ ?l |- fine (all1_n _ _ _ ?l) => apply (all1_n_fine _ _ _ _ _ S O); say
    | S : ReadSafe.solid _ ?l, O : obeys _ _ ?l |- fine (fst_c _ _ ?l) => apply (fst_c_fine _ _ _ _ S O); say
    | S : ReadSafe.solid _ ?l, O : obeys _ _ ?l |- fine (all_c _ _ ?l) => apply (all_c_fine _ _ _ _ S O); say
    | |- fine (vn_n _ _) => apply fine_rmap
    | |- fine (vn_k _ _) => apply fine_rmap
    | |- fine (cvalue_by_n _ _) => apply fine_rmap
    | |- fine (cvalue_by_k _ _) => apply fine_rmap
    | S : ReadSafe.solid _ ?l, O : obeys _ _ ?l |- fine (c_by_n _ ?l) => apply (c_by_n_fine _ _ _ _ S O); say
    | S : ReadSafe.solid _ ?l, O : obeys _ _ ?l |- fine (c_by_k _ ?l) => apply (c_by_k_fine _ _ _ _ S O); say
    | S : ReadSafe.solid _ ?l, O : obeys _ _ ?l |- fine (cs_by_k _ ?l) => apply (cs_by_k_fine _ _ _ _ S O); say
    | S : ReadSafe.solid _ ?l, O : obeys _ _ ?l |- fine (first_c ?l) => apply (first_c_fine _ _ _ S O); say
    | S : ReadSafe.solid _ ?l, K : kind ?l = _, O : obeys _ _ ?l |- fine (mapR (body_member _ _ _ _) (children_vec ?l)) => apply (members_fine _ _ _ _ S K O); say
    | S : ReadSafe.solid _ ?l, K : kind ?l = _ |- fine (rec _ ?l) =>
        apply (same_fine _ _ _ (proj1 S) (proj1 (proj2 (proj2 S))) (proj2 (proj2 (proj2 S))) (or_introl (proj1 (proj2 S))) K); say
    | S : ReadSafe.solid _ ?l, O : obeys _ _ ?l, E : c_by_n _ ?l = Ok ?c |- fine (rec _ ?c) => eapply (kid_n_fine _ _ _ _ _ _ S O); [|exact (c_by_n_ok _ _ _ E)]; say
    | S : ReadSafe.solid _ ?l, O : obeys _ _ ?l, E : try_c_by_n _ ?l = Some ?c |- fine (rec _ ?c) => eapply (kid_n_fine _ _ _ _ _ _ S O); [|exact (by_name _ _ _ E)]; say
    | S : ReadSafe.solid _ ?l, E : c_by_k _ ?l = Ok ?c |- fine (rec _ ?c) => eapply (kid_k_fine _ _ _ _ S); [|exact (c_by_k_ok _ _ _ E)]; say
    | S : ReadSafe.solid _ ?l, E : try_c_by_k _ ?l = Some ?c |- fine (rec _ ?c) => eapply (kid_k_fine _ _ _ _ S); [|exact (by_kind _ _ _ E)]; say
    | S : ReadSafe.solid _ ?l, O : obeys _ _ ?l, E : first_c ?l = Ok ?c |- fine (rec _ ?c) => eapply (kid_1_fine _ _ _ _ _ S O); [|exact (first_c_1 _ _ E)]; say
    | S : ReadSafe.solid _ ?l, O : obeys _ _ ?l, E : try_first_c ?l = Some ?c |- fine (rec _ ?c) => eapply (kid_1_fine _ _ _ _ _ S O); [|exact E]; say
    | S : ReadSafe.solid _ ?l, O : obeys _ _ ?l, E : In ?c (children_vec ?l) |- fine (rec _ ?c) => eapply (kid_c_fine _ _ _ _ _ S O); [|exact E]; say
    | S : ReadSafe.solid _ ?l, E : In ?c (try_cs_by_k _ ?l) |- fine (rec _ ?c) => eapply (kid_k_fine _ _ _ _ S); [|exact (all_by_kind _ _ _ E)]; say
    | |- fine (mapR _ (children_vec _)) => apply fine_mapR; intros ? ?
    | |- fine (mapR _ (try_cs_by_k _ _)) => apply fine_mapR; intros ? ?
    | |- fine (opt_dimensions_k _) => unfold opt_dimensions_k
    | |- fine (new_Super _) => unfold new_Super
    | |- fine (new_This _) => unfold new_This
    | |- fine (new_Dimensions _) => unfold new_Dimensions
    | |- fine (group_by_item _ _) => unfold group_by_item
    | |- fine (new_SafeNavigationOperator _) => unfold new_SafeNavigationOperator
    | |- fine (new_AllRowsClause _) => unfold new_AllRowsClause
    | |- fine (new_BoolType _) => unfold new_BoolType
    | |- fine (new_DateLiteralWithParam _) => unfold new_DateLiteralWithParam
    | K : kind ?l = _ |- fine (new_Literal_ ?l) => unfold new_Literal_; is_kinds K
    | S : ReadSafe.solid _ ?l, K : kind ?l = _ |- fine (build_chaining_context ?l) => apply (chaining_fine _ _ S K); say
    | |- fine (modifier_text (String _ _)) => apply fine_ok
    | |- fine (trigger_event_text (String _ _)) => apply fine_ok
    | |- fine (get_precedence (String _ _)) => apply fine_ok
    | |- fine (rbind _ _) => apply fine_bind; [|intros ? ?]
    | |- fine (match try_c_by_n ?x ?l with _ => _ end) => let E := fresh "E" in destruct (try_c_by_n x l) eqn:E
    | |- fine (match try_c_by_k ?x ?l with _ => _ end) => let E := fresh "E" in destruct (try_c_by_k x l) eqn:E
    | |- fine (match try_first_c ?l with _ => _ end) => let E := fresh "E" in destruct (try_first_c l) eqn:E
    | |- fine (Panic _) => exfalso; away
    | |- fine (unknown _) => exfalso; away
    | |- fine (if is_nil ?x then _ else _) => destruct (is_nil x)
    | K : kind ?c = _ |- fine (if is_kind _ ?c then _ else _) => is_kinds K
    | S : ReadSafe.solid _ ?l, O : obeys _ _ ?l, E : first_c ?l = Ok ?c |- fine ?g => about c g; kinds_of (named_1 _ _ _ _ S O (first_c_1 _ _ E))
    | S : ReadSafe.solid _ ?l, O : obeys _ _ ?l, E : try_first_c ?l = Some ?c |- fine ?g => about c g; kinds_of (named_1 _ _ _ _ S O E)
    | S : ReadSafe.solid _ ?l, O : obeys _ _ ?l, E : c_by_n ?f ?l = Ok ?c |- fine ?g => about c g; kinds_of (named_n _ _ _ f _ S O eq_refl (c_by_n_ok _ _ _ E))
    | S : ReadSafe.solid _ ?l, O : obeys _ _ ?l, E : try_c_by_n ?f ?l = Some ?c |- fine ?g => about c g; kinds_of (named_n _ _ _ f _ S O eq_refl (by_name _ _ _ E))
    | S : ReadSafe.solid _ ?l, O : obeys _ _ ?l, E : In ?c (children_vec ?l) |- fine ?g => about c g; kinds_of (named_v _ _ _ _ S O E)
    | S : ReadSafe.solid _ ?l, E : c_by_k ?x ?l = Ok ?c |- fine ?g => about c g; kind_of (named_k _ x _ S eq_refl (c_by_k_ok _ _ _ E))
    | S : ReadSafe.solid _ ?l, E : try_c_by_k ?x ?l = Some ?c |- fine ?g => about c g; kind_of (named_k _ x _ S eq_refl (by_kind _ _ _ E))
    | S : ReadSafe.solid _ ?l, E : c_by_k _ ?l = Ok ?c |- fine (assert_check _ ?c) => apply check_fine; exact (proj2 (proj2 (c_by_k_ok _ _ _ E)))
    | S : ReadSafe.solid _ ?l, E : try_c_by_k _ ?l = Some ?c |- fine (assert_check _ ?c) => apply check_fine; exact (proj2 (proj2 (by_kind _ _ _ E)))
    end.
  Ltac go := repeat go1.
  Lemma good_solid s l : good s l -> kind_in ";" (sort_kinds s) = false -> solid l.
  Proof. intros (P & E & A & [N|N] & K & _) H; [exact (conj P (conj N (conj E A)))|]. rewrite N in K. congruence. Qed.
  (* a type with one kind *)
  Ltac one G :=
    match type of G with good ?s ?l =>
      let S := fresh "S" in let K := fresh "K" in
      assert (S : solid l) by (apply (good_solid s l G); vm_compute; reflexivity);
      assert (K : kind l = hd "" (sort_kinds s))
        by (destruct G as (_ & _ & _ & _ & K & _); apply kind_in_In in K; cbn [sort_kinds] in K; destruct K as [K|[]]; symmetry; exact K);
      cbn [sort_kinds hd] in K; obey S K; cbn [new_step]
    end.
  Ltac many G :=
    match type of G with good ?s ?l =>
      let S := fresh "S" in let K := fresh "K" in
      assert (S : solid l) by (apply (good_solid s l G); vm_compute; reflexivity);
      destruct G as (_ & _ & _ & _ & K & _); apply kind_in_In in K; cbn [sort_kinds] in K; cbn [new_step]
    end.
  (* the children of a node with one form *)
  Ltac clash :=
    exfalso; first [
      match goal with
      | O : obeys _ _ ?l, S : ReadSafe.solid _ ?l, E : try_c_by_k ?x ?l = Some _ |- _ => exact (no_kind _ _ _ x _ O S eq_refl E)
      | O : obeys _ _ ?l, S : ReadSafe.solid _ ?l, E : try_c_by_n ?f ?l = Some _ |- _ => exact (no_name _ _ _ f _ O S eq_refl E)
      end | away ].
  Ltac shape O :=
    let F := fresh "F" in destruct O as (? & [<-|[]] & F); cbn [fits] in F;
    repeat match goal with H : exists _, _ |- _ => destruct H | H : _ /\ _ |- _ => destruct H end; subst.
  Ltac vec l V :=
    pose proof (code_vec l) as V; unfold cnamed in V;
    match goal with E : ckids l = _ |- _ => rewrite E in V end; cbn [app filter] in V;
    repeat match goal with
    | B : branch _ _ _ _ ?x |- _ => match type of V with context [is_named x] => rewrite (proj1 B : is_named x = true) in V end
    | B : sign _ _ _ _ ?x |- _ => match type of V with context [is_named x] => rewrite (proj1 B : is_named x = false) in V end
    end.

  Lemma Root_fine l : good Root l -> fine (new_step cm checked rec Root l).
  Proof. intro G. one G. unfold new_Root. go. Qed.
  Lemma RootMember_fine l : good RootMember l -> fine (new_step cm checked rec RootMember l).
  Proof. intro G. many G. unfold new_RootMember. repeat (destruct K as [K|K]; [symmetry in K; obey S K; is_kinds K; go|]). destruct K. Qed.
  Lemma ClassMember_fine l : good ClassMember l -> fine (new_step cm checked rec ClassMember l).
  Proof. intro G. many G. unfold new_ClassMember. repeat (destruct K as [K|K]; [symmetry in K; obey S K; is_kinds K; go|]). destruct K. Qed.
  Lemma ClassDeclaration_fine l : good ClassDeclaration l -> fine (new_step cm checked rec ClassDeclaration l).
  Proof. intro G. one G. unfold new_ClassDeclaration. go. Qed.
  Lemma MethodDeclaration_fine l : good MethodDeclaration l -> fine (new_step cm checked rec MethodDeclaration l).
  Proof. intro G. one G. unfold new_MethodDeclaration. go. Qed.
  Lemma FormalParameters_fine l : good FormalParameters l -> fine (new_step cm checked rec FormalParameters l).
  Proof. intro G. one G. unfold new_FormalParameters. go. Qed.
  Lemma FormalParameter_fine l : good FormalParameter l -> fine (new_step cm checked rec FormalParameter l).
  Proof. intro G. one G. unfold new_FormalParameter. go. Qed.
  Lemma SuperClass_fine l : good SuperClass l -> fine (new_step cm checked rec SuperClass l).
  Proof. intro G. one G. unfold new_SuperClass. go. Qed.
  Lemma Modifiers_fine l : good Modifiers l -> fine (new_step cm checked rec Modifiers l).
  Proof. intro G. one G. unfold new_Modifiers. go. Qed.
  Lemma Modifier_fine l : good Modifier l -> fine (new_step cm checked rec Modifier l).
  Proof. intro G. one G. unfold new_Modifier. go. Qed.
  Lemma Annotation_fine l : good Annotation l -> fine (new_step cm checked rec Annotation l).
  Proof. intro G. one G. unfold new_Annotation. go. Qed.
  Lemma AnnotationKeyValue_fine l : good AnnotationKeyValue l -> fine (new_step cm checked rec AnnotationKeyValue l).
  Proof. intro G. one G. unfold new_AnnotationKeyValue. go. Qed.
  Lemma ClassBody_fine l : good ClassBody l -> fine (new_step cm checked rec ClassBody l).
  Proof. intro G. one G. unfold new_ClassBody. go. Qed.
  Lemma FieldDeclaration_fine l : good FieldDeclaration l -> fine (new_step cm checked rec FieldDeclaration l).
  Proof. intro G. one G. unfold new_FieldDeclaration. go. Qed.
  Lemma ArrayInitializer_fine l : good ArrayInitializer l -> fine (new_step cm checked rec ArrayInitializer l).
  Proof. intro G. one G. unfold new_ArrayInitializer. go. Qed.
  Lemma AssignmentExpression_fine l : good AssignmentExpression l -> fine (new_step cm checked rec AssignmentExpression l).
  Proof. intro G. one G. unfold new_AssignmentExpression. go. Qed.
  Lemma AssignmentLeft_fine l : good AssignmentLeft l -> fine (new_step cm checked rec AssignmentLeft l).
  Proof. intro G. many G. unfold new_AssignmentLeft. repeat (destruct K as [K|K]; [symmetry in K; obey S K; is_kinds K; go|]). destruct K. Qed.
  Lemma Block_fine l : good Block l -> fine (new_step cm checked rec Block l).
  Proof. intro G. one G. unfold new_Block. go. Qed.
  Lemma Interface__fine l : good Interface_ l -> fine (new_step cm checked rec Interface_ l).
  Proof. intro G. one G. unfold new_Interface. go. Qed.
  Lemma TypeList_fine l : good TypeList l -> fine (new_step cm checked rec TypeList l).
  Proof. intro G. one G. unfold new_TypeList. go. Qed.
  Lemma ObjectExpression_fine l : good ObjectExpression l -> fine (new_step cm checked rec ObjectExpression l).
  Proof. intro G. many G. unfold new_ObjectExpression. repeat (destruct K as [K|K]; [symmetry in K; obey S K; is_kinds K; go|]). destruct K. Qed.
  Lemma TypeArguments_fine l : good TypeArguments l -> fine (new_step cm checked rec TypeArguments l).
  Proof. intro G. one G. unfold new_TypeArguments. go. Qed.
  Lemma ArgumentList_fine l : good ArgumentList l -> fine (new_step cm checked rec ArgumentList l).
  Proof. intro G. one G. unfold new_ArgumentList. go. Qed.
  Lemma LocalVariableDeclaration_fine l : good LocalVariableDeclaration l -> fine (new_step cm checked rec LocalVariableDeclaration l).
  Proof. intro G. one G. unfold new_LocalVariableDeclaration. go. Qed.
  Lemma VariableDeclarator_fine l : good VariableDeclarator l -> fine (new_step cm checked rec VariableDeclarator l).
  Proof. intro G. one G. unfold new_VariableDeclarator. go. Qed.
  Lemma ParenthesizedExpression_fine l : good ParenthesizedExpression l -> fine (new_step cm checked rec ParenthesizedExpression l).
  Proof. intro G. one G. unfold new_ParenthesizedExpression. go. Qed.
  Lemma EnhancedForStatement_fine l : good EnhancedForStatement l -> fine (new_step cm checked rec EnhancedForStatement l).
  Proof. intro G. one G. unfold new_EnhancedForStatement. go. Qed.
  Lemma UpdateExpression_fine l : good UpdateExpression l -> fine (new_step cm checked rec UpdateExpression l).
  Proof. intro G. one G. unfold new_UpdateExpression. go. Qed.
  Lemma ConstructorDeclaration_fine l : good ConstructorDeclaration l -> fine (new_step cm checked rec ConstructorDeclaration l).
  Proof. intro G. one G. unfold new_ConstructorDeclaration. go. Qed.
  Lemma ConstructInvocation_fine l : good ConstructInvocation l -> fine (new_step cm checked rec ConstructInvocation l).
  Proof. intro G. one G. unfold new_ConstructInvocation. go. Qed.
  Lemma TypeParameters_fine l : good TypeParameters l -> fine (new_step cm checked rec TypeParameters l).
  Proof. intro G. one G. unfold new_TypeParameters. go. Qed.
  Lemma TypeParameter_fine l : good TypeParameter l -> fine (new_step cm checked rec TypeParameter l).
  Proof. intro G. one G. unfold new_TypeParameter. go. Qed.
  Lemma ObjectCreationExpression_fine l : good ObjectCreationExpression l -> fine (new_step cm checked rec ObjectCreationExpression l).
  Proof. intro G. one G. unfold new_ObjectCreationExpression. go. Qed.
  Lemma RunAsStatement_fine l : good RunAsStatement l -> fine (new_step cm checked rec RunAsStatement l).
  Proof. intro G. one G. unfold new_RunAsStatement. go. Qed.
  Lemma DoStatement_fine l : good DoStatement l -> fine (new_step cm checked rec DoStatement l).
  Proof. intro G. one G. unfold new_DoStatement. go. Qed.
  Lemma WhileStatement_fine l : good WhileStatement l -> fine (new_step cm checked rec WhileStatement l).
  Proof. intro G. one G. unfold new_WhileStatement. go. Qed.
  Lemma UnaryExpression_fine l : good UnaryExpression l -> fine (new_step cm checked rec UnaryExpression l).
  Proof. intro G. one G. unfold new_UnaryExpression. go. Qed.
  Lemma FieldAccess_fine l : good FieldAccess l -> fine (new_step cm checked rec FieldAccess l).
  Proof. intro G. one G. unfold new_FieldAccess. go. Qed.
  Lemma EnumDeclaration_fine l : good EnumDeclaration l -> fine (new_step cm checked rec EnumDeclaration l).
  Proof. intro G. one G. unfold new_EnumDeclaration. go. Qed.
  Lemma EnumBody_fine l : good EnumBody l -> fine (new_step cm checked rec EnumBody l).
  Proof. intro G. one G. unfold new_EnumBody. go. Qed.
  Lemma EnumConstant_fine l : good EnumConstant l -> fine (new_step cm checked rec EnumConstant l).
  Proof. intro G. one G. unfold new_EnumConstant. go. Qed.
  Lemma DmlSecurityMode_fine l : good DmlSecurityMode l -> fine (new_step cm checked rec DmlSecurityMode l).
  Proof. intro G. one G. unfold new_DmlSecurityMode. go. Qed.
  Lemma DmlType_fine l : good DmlType l -> fine (new_step cm checked rec DmlType l).
  Proof. intro G. one G. unfold new_DmlType. go. Qed.
  Lemma ArrayAccess_fine l : good ArrayAccess l -> fine (new_step cm checked rec ArrayAccess l).
  Proof. intro G. one G. unfold new_ArrayAccess. go. Qed.
  Lemma DimensionsExpr_fine l : good DimensionsExpr l -> fine (new_step cm checked rec DimensionsExpr l).
  Proof. intro G. one G. unfold new_DimensionsExpr. go. Qed.
  Lemma ReturnStatement_fine l : good ReturnStatement l -> fine (new_step cm checked rec ReturnStatement l).
  Proof. intro G. one G. unfold new_ReturnStatement. go. Qed.
  Lemma TernaryExpression_fine l : good TernaryExpression l -> fine (new_step cm checked rec TernaryExpression l).
  Proof. intro G. one G. unfold new_TernaryExpression. go. Qed.
  Lemma CatchClause_fine l : good CatchClause l -> fine (new_step cm checked rec CatchClause l).
  Proof. intro G. one G. unfold new_CatchClause. go. Qed.
  Lemma FinallyClause_fine l : good FinallyClause l -> fine (new_step cm checked rec FinallyClause l).
  Proof. intro G. one G. unfold new_FinallyClause. go. Qed.
  Lemma StaticInitializer_fine l : good StaticInitializer l -> fine (new_step cm checked rec StaticInitializer l).
  Proof. intro G. one G. unfold new_StaticInitializer. go. Qed.
  Lemma InterfaceDeclaration_fine l : good InterfaceDeclaration l -> fine (new_step cm checked rec InterfaceDeclaration l).
  Proof. intro G. one G. unfold new_InterfaceDeclaration. go. Qed.
  Lemma ExtendsInterface_fine l : good ExtendsInterface l -> fine (new_step cm checked rec ExtendsInterface l).
  Proof. intro G. one G. unfold new_ExtendsInterface. go. Qed.
  Lemma InterfaceBody_fine l : good InterfaceBody l -> fine (new_step cm checked rec InterfaceBody l).
  Proof. intro G. one G. unfold new_InterfaceBody. go. Qed.
  Lemma InterfaceMember_fine l : good InterfaceMember l -> fine (new_step cm checked rec InterfaceMember l).
  Proof. intro G. many G. unfold new_InterfaceMember. repeat (destruct K as [K|K]; [symmetry in K; obey S K; is_kinds K; go|]). destruct K. Qed.
  Lemma ConstantDeclaration_fine l : good ConstantDeclaration l -> fine (new_step cm checked rec ConstantDeclaration l).
  Proof. intro G. one G. unfold new_ConstantDeclaration. go. Qed.
  Lemma AccessorDeclaration_fine l : good AccessorDeclaration l -> fine (new_step cm checked rec AccessorDeclaration l).
  Proof. intro G. one G. unfold new_AccessorDeclaration. go. Qed.
  Lemma CastExpression_fine l : good CastExpression l -> fine (new_step cm checked rec CastExpression l).
  Proof. intro G. one G. unfold new_CastExpression. go. Qed.
  Lemma ThrowStatement_fine l : good ThrowStatement l -> fine (new_step cm checked rec ThrowStatement l).
  Proof. intro G. one G. unfold new_ThrowStatement. go. Qed.
  Lemma BreakStatement_fine l : good BreakStatement l -> fine (new_step cm checked rec BreakStatement l).
  Proof. intro G. one G. unfold new_BreakStatement. go. Qed.
  Lemma ContinueStatement_fine l : good ContinueStatement l -> fine (new_step cm checked rec ContinueStatement l).
  Proof. intro G. one G. unfold new_ContinueStatement. go. Qed.
  Lemma SwitchExpression_fine l : good SwitchExpression l -> fine (new_step cm checked rec SwitchExpression l).
  Proof. intro G. one G. unfold new_SwitchExpression. go. Qed.
  Lemma SwitchBlock_fine l : good SwitchBlock l -> fine (new_step cm checked rec SwitchBlock l).
  Proof. intro G. one G. unfold new_SwitchBlock. go. Qed.
  Lemma SwitchRule_fine l : good SwitchRule l -> fine (new_step cm checked rec SwitchRule l).
  Proof. intro G. one G. unfold new_SwitchRule. go. Qed.
  Lemma InstanceOfExpression_fine l : good InstanceOfExpression l -> fine (new_step cm checked rec InstanceOfExpression l).
  Proof. intro G. one G. unfold new_InstanceOfExpression. go. Qed.
  Lemma VersionExpression_fine l : good VersionExpression l -> fine (new_step cm checked rec VersionExpression l).
  Proof. intro G. one G. unfold new_VersionExpression. go. Qed.
  Lemma JavaFieldAccess_fine l : good JavaFieldAccess l -> fine (new_step cm checked rec JavaFieldAccess l).
  Proof. intro G. one G. unfold new_JavaFieldAccess. go. Qed.
  Lemma JavaType_fine l : good JavaType l -> fine (new_step cm checked rec JavaType l).
  Proof. intro G. one G. unfold new_JavaType. go. Qed.
  Lemma ArrayType_fine l : good ArrayType l -> fine (new_step cm checked rec ArrayType l).
  Proof. intro G. one G. unfold new_ArrayType. go. Qed.
  Lemma TriggerDeclaration_fine l : good TriggerDeclaration l -> fine (new_step cm checked rec TriggerDeclaration l).
  Proof. intro G. one G. unfold new_TriggerDeclaration. go. Qed.
  Lemma TriggerEvent_fine l : good TriggerEvent l -> fine (new_step cm checked rec TriggerEvent l).
  Proof. intro G. one G. unfold new_TriggerEvent. go. Qed.
  Lemma TriggerBody_fine l : good TriggerBody l -> fine (new_step cm checked rec TriggerBody l).
  Proof. intro G. one G. unfold new_TriggerBody. go. Qed.
  Lemma InClause_fine l : good InClause l -> fine (new_step cm checked rec InClause l).
  Proof. intro G. one G. unfold new_InClause. go. Qed.
  Lemma ReturningClause_fine l : good ReturningClause l -> fine (new_step cm checked rec ReturningClause l).
  Proof. intro G. one G. unfold new_ReturningClause. go. Qed.
  Lemma FromClause_fine l : good FromClause l -> fine (new_step cm checked rec FromClause l).
  Proof. intro G. one G. unfold new_FromClause. go. Qed.
  Lemma StorageAlias_fine l : good StorageAlias l -> fine (new_step cm checked rec StorageAlias l).
  Proof. intro G. one G. unfold new_StorageAlias. go. Qed.
  Lemma LimitClause_fine l : good LimitClause l -> fine (new_step cm checked rec LimitClause l).
  Proof. intro G. one G. unfold new_LimitClause. go. Qed.
  Lemma UpdateClause_fine l : good UpdateClause l -> fine (new_step cm checked rec UpdateClause l).
  Proof. intro G. one G. unfold new_UpdateClause. go. Qed.
  Lemma BoundApexExpression_fine l : good BoundApexExpression l -> fine (new_step cm checked rec BoundApexExpression l).
  Proof. intro G. one G. unfold new_BoundApexExpression. go. Qed.
  Lemma SoslUsingClause_fine l : good SoslUsingClause l -> fine (new_step cm checked rec SoslUsingClause l).
  Proof. intro G. one G. unfold new_SoslUsingClause. go. Qed.
  Lemma UsingClause_fine l : good UsingClause l -> fine (new_step cm checked rec UsingClause l).
  Proof. intro G. one G. unfold new_UsingClause. go. Qed.
  Lemma UsingScopeClause_fine l : good UsingScopeClause l -> fine (new_step cm checked rec UsingScopeClause l).
  Proof. intro G. one G. unfold new_UsingScopeClause. go. Qed.
  Lemma UsingLookupClause_fine l : good UsingLookupClause l -> fine (new_step cm checked rec UsingLookupClause l).
  Proof. intro G. one G. unfold new_UsingLookupClause. go. Qed.
  Lemma UsingLookupBindClause_fine l : good UsingLookupBindClause l -> fine (new_step cm checked rec UsingLookupBindClause l).
  Proof. intro G. one G. unfold new_UsingLookupBindClause. go. Qed.
  Lemma UsingLookupBindExpression_fine l : good UsingLookupBindExpression l -> fine (new_step cm checked rec UsingLookupBindExpression l).
  Proof. intro G. one G. unfold new_UsingLookupBindExpression. go. Qed.
  Lemma UsingListviewClause_fine l : good UsingListviewClause l -> fine (new_step cm checked rec UsingListviewClause l).
  Proof. intro G. one G. unfold new_UsingListviewClause. go. Qed.
  Lemma WhereClause_fine l : good WhereClause l -> fine (new_step cm checked rec WhereClause l).
  Proof. intro G. one G. unfold new_WhereClause. go. Qed.
  Lemma HavingClause_fine l : good HavingClause l -> fine (new_step cm checked rec HavingClause l).
  Proof. intro G. one G. unfold new_HavingClause. go. Qed.
  Lemma ComparableList_fine l : good ComparableList l -> fine (new_step cm checked rec ComparableList l).
  Proof. intro G. one G. unfold new_ComparableList. go. Qed.
  Lemma OrderByClause_fine l : good OrderByClause l -> fine (new_step cm checked rec OrderByClause l).
  Proof. intro G. one G. unfold new_OrderByClause. go. Qed.
  Lemma OrderExpression_fine l : good OrderExpression l -> fine (new_step cm checked rec OrderExpression l).
  Proof. intro G. one G. unfold new_OrderExpression. go. Qed.
  Lemma SubQuery_fine l : good SubQuery l -> fine (new_step cm checked rec SubQuery l).
  Proof. intro G. one G. unfold new_SubQuery. go. Qed.
  Lemma MapInitializer_fine l : good MapInitializer l -> fine (new_step cm checked rec MapInitializer l).
  Proof. intro G. one G. unfold new_MapInitializer. go. Qed.
  Lemma GroupByClause_fine l : good GroupByClause l -> fine (new_step cm checked rec GroupByClause l).
  Proof. intro G. one G. unfold new_GroupByClause. go. Qed.
  Lemma WithDataCatExpression_fine l : good WithDataCatExpression l -> fine (new_step cm checked rec WithDataCatExpression l).
  Proof. intro G. one G. unfold new_WithDataCatExpression. go. Qed.
  Lemma WithDivisionExpression_fine l : good WithDivisionExpression l -> fine (new_step cm checked rec WithDivisionExpression l).
  Proof. intro G. one G. unfold new_WithDivisionExpression. go. Qed.
  Lemma WithSnippetExpression_fine l : good WithSnippetExpression l -> fine (new_step cm checked rec WithSnippetExpression l).
  Proof. intro G. one G. unfold new_WithSnippetExpression. go. Qed.
  Lemma WithMetadataExpression_fine l : good WithMetadataExpression l -> fine (new_step cm checked rec WithMetadataExpression l).
  Proof. intro G. one G. unfold new_WithMetadataExpression. go. Qed.
  Lemma WithSpellCorrectionExpression_fine l : good WithSpellCorrectionExpression l -> fine (new_step cm checked rec WithSpellCorrectionExpression l).
  Proof. intro G. one G. unfold new_WithSpellCorrectionExpression. go. Qed.
  Lemma WithPriceBookExpression_fine l : good WithPriceBookExpression l -> fine (new_step cm checked rec WithPriceBookExpression l).
  Proof. intro G. one G. unfold new_WithPriceBookExpression. go. Qed.
  Lemma DottedIdentifier_fine l : good DottedIdentifier l -> fine (new_step cm checked rec DottedIdentifier l).
  Proof. intro G. one G. unfold new_DottedIdentifier. go. Qed.
  Lemma ExpressionStatement_fine l : good ExpressionStatement l -> fine (new_step cm checked rec ExpressionStatement l).
  Proof. intro G. one G. unfold new_ExpressionStatement. go. Qed.
  Lemma CountExpression_fine l : good CountExpression l -> fine (new_step cm checked rec CountExpression l).
  Proof. intro G. one G. unfold new_CountExpression. go. Qed.
  Lemma FieldIdentifier_fine l : good FieldIdentifier l -> fine (new_step cm checked rec FieldIdentifier l).
  Proof. intro G. one G. unfold new_FieldIdentifier. go. Qed.
  Lemma StorageIdentifier_fine l : good StorageIdentifier l -> fine (new_step cm checked rec StorageIdentifier l).
  Proof. intro G. one G. unfold new_StorageIdentifier. go. Qed.
  Lemma AndExpression_fine l : good AndExpression l -> fine (new_step cm checked rec AndExpression l).
  Proof. intro G. one G. unfold new_AndExpression. go. Qed.
  Lemma OrExpression_fine l : good OrExpression l -> fine (new_step cm checked rec OrExpression l).
  Proof. intro G. one G. unfold new_OrExpression. go. Qed.
  Lemma NotExpression_fine l : good NotExpression l -> fine (new_step cm checked rec NotExpression l).
  Proof. intro G. one G. unfold new_NotExpression. go. Qed.
  Lemma ForClause_fine l : good ForClause l -> fine (new_step cm checked rec ForClause l).
  Proof. intro G. one G. unfold new_ForClause. go. Qed.
  Lemma UnannotatedType_fine l : good UnannotatedType l -> fine (new_step cm checked rec UnannotatedType l).
  Proof. intro G. many G. unfold new_UnannotatedType. repeat (destruct K as [K|K]; [symmetry in K; obey S K; is_kinds K; go|]). destruct K. Qed.
  Lemma SimpleType_fine l : good SimpleType l -> fine (new_step cm checked rec SimpleType l).
  Proof. intro G. many G. unfold new_SimpleType. repeat (destruct K as [K|K]; [symmetry in K; obey S K; is_kinds K; go|]). destruct K. Qed.
  Lemma VariableInitializer_fine l : good VariableInitializer l -> fine (new_step cm checked rec VariableInitializer l).
  Proof. intro G. many G. unfold new_VariableInitializer. repeat (destruct K as [K|K]; [symmetry in K; obey S K; is_kinds K; go|]). destruct K. Qed.
  Lemma Expression_fine l : good Expression l -> fine (new_step cm checked rec Expression l).
  Proof. intro G. many G. unfold new_Expression. repeat (destruct K as [K|K]; [symmetry in K; obey S K; is_kinds K; go|]). destruct K. Qed.
  Lemma PrimaryExpression_fine l : good PrimaryExpression l -> fine (new_step cm checked rec PrimaryExpression l).
  Proof. intro G. many G. unfold new_PrimaryExpression. repeat (destruct K as [K|K]; [symmetry in K; obey S K; is_kinds K; go|]). destruct K. Qed.
  Lemma ClassLiteral_fine l : good ClassLiteral l -> fine (new_step cm checked rec ClassLiteral l).
  Proof. intro G. one G. unfold new_ClassLiteral. go. Qed.
  Lemma Type__fine l : good Type_ l -> fine (new_step cm checked rec Type_ l).
  Proof. intro G. many G. unfold new_Type. repeat (destruct K as [K|K]; [symmetry in K; obey S K; is_kinds K; go|]). destruct K. Qed.
  Lemma SelectableExpression_fine l : good SelectableExpression l -> fine (new_step cm checked rec SelectableExpression l).
  Proof. intro G. many G. unfold new_SelectableExpression. repeat (destruct K as [K|K]; [symmetry in K; obey S K; is_kinds K; go|]). destruct K. Qed.
  Lemma FieldsExpression_fine l : good FieldsExpression l -> fine (new_step cm checked rec FieldsExpression l).
  Proof. intro G. one G. unfold new_FieldsExpression. go. Qed.
  Lemma AliasExpression_fine l : good AliasExpression l -> fine (new_step cm checked rec AliasExpression l).
  Proof. intro G. one G. unfold new_AliasExpression. go. Qed.
  Lemma StorageVariant_fine l : good StorageVariant l -> fine (new_step cm checked rec StorageVariant l).
  Proof. intro G. many G. unfold new_StorageVariant. repeat (destruct K as [K|K]; [symmetry in K; obey S K; is_kinds K; go|]). destruct K. Qed.
  Lemma LimitValue_fine l : good LimitValue l -> fine (new_step cm checked rec LimitValue l).
  Proof. intro G. many G. unfold new_LimitValue. repeat (destruct K as [K|K]; [symmetry in K; obey S K; is_kinds K; go|]). destruct K. Qed.
  Lemma ValueExpression_fine l : good ValueExpression l -> fine (new_step cm checked rec ValueExpression l).
  Proof. intro G. many G. unfold new_ValueExpression. repeat (destruct K as [K|K]; [symmetry in K; obey S K; is_kinds K; go|]). destruct K. Qed.
  Lemma SoqlLiteral_fine l : good SoqlLiteral l -> fine (new_step cm checked rec SoqlLiteral l).
  Proof. intro G. many G. unfold new_SoqlLiteral. repeat (destruct K as [K|K]; [symmetry in K; obey S K; is_kinds K; go|]). destruct K. Qed.
  Lemma SetValue_fine l : good SetValue l -> fine (new_step cm checked rec SetValue l).
  Proof. intro G. many G. unfold new_SetValue. repeat (destruct K as [K|K]; [symmetry in K; obey S K; is_kinds K; go|]). destruct K. Qed.
  Lemma ComparableListValue_fine l : good ComparableListValue l -> fine (new_step cm checked rec ComparableListValue l).
  Proof. intro G. many G. unfold new_ComparableListValue. repeat (destruct K as [K|K]; [symmetry in K; obey S K; is_kinds K; go|]). destruct K. Qed.
  Lemma OffsetClause_fine l : good OffsetClause l -> fine (new_step cm checked rec OffsetClause l).
  Proof. intro G. one G. unfold new_OffsetClause. go. Qed.
  (* ---------------------------------------------------------- the other types *)

  Lemma all_k_some l k alts x s ds : obeys k alts l -> all_k rec x s l = Ok ds -> needs_kind alts [x] = true -> is_nil ds = false.
  Proof.
    intros O E H. destruct (kind_there l k alts x O H) as (c & F). unfold try_c_by_k in F. apply find_some in F as [F1 F2]. unfold all_k in E.
    assert (F : In c (try_cs_by_k x l)) by (apply filter_In; split; assumption).
    destruct (try_cs_by_k x l) as [|y r]; [destruct F|]. cbn [mapR] in E. destruct (rec s y); [|discriminate..]. cbn [rbind] in E.
    destruct (mapR (rec s) r); [|discriminate..]. cbn [rbind] in E. injection E as <-. reflexivity.
  Qed.
  Lemma AnnotationArgumentList_fine l : good AnnotationArgumentList l -> fine (new_step cm checked rec AnnotationArgumentList l).
  Proof.
    intro G. one G. unfold new_AnnotationArgumentList. destruct (is_nil (named_kids l)); [apply fine_ok|]. alts O.
    - go.
    - apply fine_bind; [go|]. intros kvs E. rewrite (all_k_some _ _ _ _ _ _ O E eq_refl). go.
    - apply fine_bind; [go|]. intros kvs E. rewrite (all_k_some _ _ _ _ _ _ O E eq_refl). go.
  Qed.
  Ltac parts := repeat match goal with H : exists _, _ |- _ => destruct H | H : _ /\ _ |- _ => destruct H end; subst.
  Ltac each_of H := repeat (destruct H as [<-|H]); try destruct H.
  Ltac nexts V := eexists; first
    [ exact (next_vec _ _ _ [] _ V) | exact (next_vec _ _ _ [_] _ V) | exact (next_vec _ _ _ [_; _] _ V) | exact (next_vec _ _ _ [_; _; _] _ V) ].
  Ltac not_field Hf := exfalso; match goal with B : branch _ _ ?f _ ?x, H : n_field (l_node ?x) = Some ?g |- _ =>
    let Q := fresh in pose proof (proj2 (proj2 B)) as Q; cbn in Q; congruence end.
  Lemma object_next l c : solid l -> kind l = "method_invocation" -> try_c_by_n "object" l = Some c -> exists y, next_named c = Ok y.
  Proof.
    intros S K E. pose proof (obeys_rules l _ S K eq_refl) as O.
    destruct (by_name _ _ _ E) as (Ho & Hf). destruct (named_n l _ _ "object" c S O eq_refl (conj Ho Hf)) as (So & _).
    pose proof (in_vec l c S Ho (proj1 (proj2 So)) (proj1 (proj2 (proj2 So)))) as Hv. alts O.
    - clash.
    - shape O. match goal with H : _ \/ _ |- _ => destruct H as [H|H] end; parts; vec l V; rewrite V in Hv; each_of Hv; first [nexts V|not_field Hf].
    - shape O. match goal with H : _ \/ _ |- _ => destruct H as [H|H] end; parts; vec l V; rewrite V in Hv; each_of Hv; first [nexts V|not_field Hf].
  Qed.
  Lemma MethodInvocation_fine l : good MethodInvocation l -> fine (new_step cm checked rec MethodInvocation l).
  Proof.
    intro G. one G. unfold new_MethodInvocation. apply fine_bind; [go|intros ? ?]. apply fine_bind; [go|intros ? ?]. apply fine_bind; [go|intros ? ?].
    destruct (try_c_by_n "object" l) as [o|] eqn:E; [|go]. apply fine_bind; [go|intros ? ?].
    destruct (object_next l o S K E) as (y & N). rewrite N. cbn [rbind]. apply fine_bind.
    - destruct (is_kind "safe_navigation_operator" y) eqn:Q; [|go]. apply String.eqb_eq in Q. change (kind y = "safe_navigation_operator") in Q.
      apply fine_rmap. unfold new_SafeNavigationOperator. apply fine_bind; [apply check_fine, Q|intros; go].
    - intros ? ?. go.
  Qed.
  Lemma operator_fine l c : solid l -> kind l = "binary_expression" -> c_by_n "operator" l = Ok c -> fine (get_precedence (kind c)).
  Proof.
    intros S K E. pose proof (obeys_rules l _ S K eq_refl) as O. pose proof (named_s l _ _ "operator" c S O eq_refl (c_by_n_ok _ _ _ E)) as H.
    match type of H with In _ ?ks => let v := eval vm_compute in ks in change ks with v in H end. cbn [In] in H.
    repeat (destruct H as [<-|H]; [apply fine_ok|]). destruct H.
  Qed.
  Lemma BinaryExpression_fine l : good BinaryExpression l -> fine (new_step cm checked rec BinaryExpression l).
  Proof.
    intro G. one G. unfold new_BinaryExpression. apply fine_bind; [go|intros ? ?]. apply fine_bind; [go|intros ? ?]. apply fine_bind; [go|intros o Ho]. apply fine_bind; [go|intros ? ?].
    apply fine_bind; [eapply operator_fine; eauto|intros ? ?]. destruct (parent_there l _ S K) as (p & Ep); [discriminate|]. rewrite Ep. cbn [must rbind].
    apply fine_bind; [|intros; go]. destruct (is_kind "binary_expression" p) eqn:Q; [|go]. apply String.eqb_eq in Q. change (kind p = "binary_expression") in Q.
    destruct (proj2 (proj2 (proj2 S)) p Ep) as (Pp & Np & Xp).
    assert (Op : obeys "binary_expression" (rules "binary_expression") p) by (apply (rules_at root FT); auto).
    apply fine_bind; [destruct (name_there p _ _ "operator" Op eq_refl) as (c & Ec); unfold c_by_n; rewrite Ec; apply fine_ok|]. intros po Epo.
    apply fine_bind; [|intros; go]. apply c_by_n_ok in Epo as (Hc & Hf).
    pose proof (only_field_at root FT p _ _ po "operator" Pp Op eq_refl Hc Hf) as (_ & [(_ & W)|(_ & W)]); [vm_compute in W; discriminate W|].
    apply kind_in_In in W. match type of W with In _ ?ks => let v := eval vm_compute in ks in change ks with v in W end. cbn [In] in W.
    repeat (destruct W as [<-|W]; [apply fine_ok|]). destruct W.
  Qed.
  Lemma GenericType_fine l : good GenericType l -> fine (new_step cm checked rec GenericType l).
  Proof.
    intro G. one G. unfold new_GenericType. go. exfalso.
    destruct (has_kind_one l _ _ ["type_identifier"; "scoped_type_identifier"] O eq_refl) as (c & Hc & N & _ & Hk).
    assert (Hn : In c (named_kids l)) by (apply filter_In; split; assumption).
    apply kind_in_In in Hk. destruct Hk as [Hk|[Hk|[]]];
      [pose proof (find_none _ _ E c Hn) as Q|pose proof (find_none _ _ E0 c Hn) as Q]; unfold is_kind, has_kind in Q;
      change (n_kind (l_node c)) with (kind c) in Q; rewrite <- Hk in Q; discriminate Q.
  Qed.
  Lemma kid_of_ckids l c : In c (ckids l) -> In c (kids l).
  Proof. intro H. apply filter_In in H. apply H. Qed.
  Lemma IfStatement_fine l : good IfStatement l -> fine (new_step cm checked rec IfStatement l).
  Proof.
    intro G. one G. unfold new_IfStatement. go. alts O; [clash|]. shape O.
    match goal with B : sign _ _ _ "else" ?x, E : ckids l = _ |- _ =>
      assert (Hx : In x (kids l)) by (apply kid_of_ckids; rewrite E; repeat (first [left; reflexivity|right]));
      destruct (find (is_kind "else") (kids l)) eqn:Q; [apply fine_ok|]; exfalso; pose proof (find_none _ _ Q x Hx) as W;
      unfold is_kind, has_kind in W; rewrite (proj1 (proj2 B)) in W; discriminate W
    end.
  Qed.
  Lemma ForInitOption_fine l : good ForInitOption l -> fine (new_step cm checked rec ForInitOption l).
  Proof.
    intro G. assert (S : solid l) by (apply (good_solid _ l G); reflexivity). destruct G as (_ & _ & _ & _ & _ & p & Sp & Kp & Ep). cbn [new_step]. unfold new_ForInitOption.
    destruct (is_kind "local_variable_declaration" l) eqn:Q.
    - apply String.eqb_eq in Q. change (kind l = "local_variable_declaration") in Q. go.
    - pose proof (by_name _ _ _ Ep) as (Hl & Hf). rewrite (kid_parent p l Hl). cbn [must rbind]. pose proof (obeys_rules p _ Sp Kp eq_refl) as O.
      assert (W : kind l <> "local_variable_declaration") by (intro W; unfold is_kind, has_kind in Q; change (n_kind (l_node l)) with (kind l) in Q; rewrite W in Q; discriminate Q).
      alts O; first [clash | solve [go] |
        exfalso; destruct (named_n p _ _ "init" l Sp O eq_refl (conj Hl Hf)) as (_ & M); destruct M as [M|[]]; congruence].
  Qed.
  Lemma semicolons_fine (cs : list node) : exists ps, mapR punct_new (filter (has_kind ";") cs) = Ok ps /\ List.length ps = List.length (filter (has_kind ";") cs).
  Proof.
    induction cs as [|c cs (ps & E & L)]; [exists []; split; reflexivity|]. cbn [filter]. destruct (has_kind ";" c) eqn:Q; [|exists ps; split; assumption].
    cbn [mapR]. unfold punct_new at 1. rewrite Q. destruct (has_kind "," c) eqn:Q2.
    - unfold has_kind in Q, Q2. apply String.eqb_eq in Q, Q2. congruence.
    - cbn [rbind]. rewrite E. cbn [rbind]. eexists. split; [reflexivity|]. cbn [List.length]. f_equal. exact L.
  Qed.
  Lemma filter_le {A} (p q : A -> bool) cs : (List.length (filter p (filter q cs)) <= List.length (filter p cs))%nat.
  Proof.
    induction cs as [|c cs IHc]; [apply Nat.le_refl|]. cbn [filter]. destruct (q c); cbn [filter]; destruct (p c); cbn [List.length]; lia.
  Qed.
  Definition semi (c : loc) : bool := is_kind ";" c.
  Lemma semicolons_of l : (List.length (filter semi (ckids l)) <= List.length (filter (has_kind ";") (children (l_node l))))%nat.
  Proof.
    unfold ckids. eapply Nat.le_trans; [apply filter_le|]. rewrite <- (locs_nodes l (children (l_node l)) []). fold (kids l). induction (kids l) as [|c r IHr]; [apply Nat.le_refl|].
    cbn [filter map]. change (semi c) with (has_kind ";" (l_node c)). destruct (has_kind ";" (l_node c)); cbn [List.length]; auto using le_n_S.
  Qed.
  Lemma opt_n_nil f s l ds : opt_n rec f s l = Ok ds -> is_nil ds = true -> try_c_by_n f l = None.
  Proof.
    unfold opt_n. destruct (try_c_by_n f l); [|reflexivity]. destruct (rec s l0); [|discriminate..]. cbn. intro E. injection E as <-. discriminate.
  Qed.
  Fixpoint semicolons (its : list item) : nat :=
    match its with
    | [] => 0
    | Sign k :: r | SignF _ k :: r => (if String.eqb k ";" then 1 else 0) + semicolons r
    | _ :: r => semicolons r
    end.
  Lemma fits_semicolons fs : forall its cs, fits l_node fs its cs -> (semicolons its <= List.length (filter semi cs))%nat.
  Proof.
    assert (ONE : forall f k x r n, sign l_node fs f k x -> (n <= List.length (filter semi r))%nat -> ((if String.eqb k ";" then 1 else 0) + n <= List.length (filter semi (x :: r)))%nat).
    { intros f k x r n (_ & Kx & _) H. cbn [filter]. unfold semi at 1, is_kind, has_kind. rewrite Kx. destruct (String.eqb k ";"); cbn [List.length]; lia. }
    assert (SKIP : forall a r n, (n <= List.length (filter semi r))%nat -> (n <= List.length (filter semi (a ++ r)))%nat).
    { intros a r n H. rewrite filter_app, app_length. lia. }
    induction its as [|it its IHi]; intros cs F; [apply Nat.le_0_l|]. destruct it; cbn [fits semicolons] in *.
    1, 2: destruct F as (x & r & -> & Hx & F); eapply ONE; eauto.
    1: destruct F as (x & r & -> & _ & F); apply (SKIP [x]); auto.
    1: destruct F as [F|(x & r & -> & _ & F)]; [auto|apply (SKIP [x]); auto].
    1, 2: destruct F as (a & r & -> & _ & F); apply SKIP; auto.
    1: destruct F as (x & r & -> & _ & F); apply (SKIP [x]); auto.
    all: destruct F as (a & r & -> & _ & F); apply SKIP; auto.
  Qed.
  Lemma for_semicolons l ds cs : solid l -> kind l = "for_statement" -> opt_n rec "init" ForInitOption l = Ok ds -> opt_n rec "condition" Expression l = Ok cs ->
    ((if is_nil ds then 1 else 0) + (if is_nil cs then 1 else 0) <= List.length (filter semi (ckids l)))%nat.
  Proof.
    intros S K E1 E2. pose proof (obeys_rules l _ S K eq_refl) as O.
    assert (D : is_nil ds = false \/ try_c_by_n "init" l = None) by (destruct (is_nil ds) eqn:Q; [right; eapply opt_n_nil; eauto|left; reflexivity]).
    assert (C : is_nil cs = false \/ try_c_by_n "condition" l = None) by (destruct (is_nil cs) eqn:Q; [right; eapply opt_n_nil; eauto|left; reflexivity]).
    clear E1 E2.
    alts O; (destruct D as [->|D]; [|try solve [clash]]); (destruct C as [->|C]; [|try solve [clash]]).
    all: destruct O as (? & [<-|[]] & F); apply fits_semicolons in F; cbn in F |- *; repeat match goal with |- context [if ?b then _ else _] => destruct b end; lia.
  Qed.
  Lemma ForStatement_fine l : good ForStatement l -> fine (new_step cm checked rec ForStatement l).
  Proof.
    intro G. one G. unfold new_ForStatement. apply fine_bind; [go|intros ? ?]. apply fine_bind.
    { unfold opt_n. destruct (try_c_by_n "init" l) as [c|] eqn:E; [|go]. apply fine_bind; [|intros; go]. apply IH.
      destruct (by_name _ _ _ E) as (Hc & Hf). eapply (kid_n l _ _ "init"); [exact S|exact O|say|exact Hc|exact Hf|]. exists l. auto. }
    intros ini E1. apply fine_bind; [go|intros con E2]. apply fine_bind; [go|intros upd E3].
    destruct (semicolons_fine (children (l_node l))) as (ps & E4 & L). rewrite E4. cbn [rbind].
    pose proof (for_semicolons l ini con S K E1 E2) as Q. pose proof (semicolons_of l) as Q2.
    match goal with |- context [Nat.ltb ?a ?b] => replace (Nat.ltb a b) with false by (symmetry; apply Nat.ltb_ge; lia) end.
    apply fine_bind; [go|intros bn Eb]. apply fine_bind; [go|intros body _].
    destruct ini; [destruct (next_semicolon ps)|]; destruct con; repeat match goal with |- context [next_semicolon ?x] => destruct (next_semicolon x) end; go.
  Qed.
  Lemma kid_child l c : In c (kids l) -> In (l_node c) (children (l_node l)).
  Proof. intro H. apply kids_in in H as (b & r & E & ->). cbn [l_node]. rewrite E. apply in_or_app. right. left. reflexivity. Qed.
  Lemma child_kid l n : In n (children (l_node l)) -> exists c, In c (kids l) /\ l_node c = n.
  Proof.
    rewrite <- (locs_nodes l (children (l_node l)) []). fold (kids l). intro H. apply in_map_iff in H as (c & E & H). exists c. auto.
  Qed.
  Lemma ScopedTypeIdentifier_fine l : good ScopedTypeIdentifier l -> fine (new_step cm checked rec ScopedTypeIdentifier l).
  Proof.
    intro G. one G. unfold new_ScopedTypeIdentifier. go. destruct (kind_there l _ _ "type_identifier" O eq_refl) as (c & E).
    match goal with H : cs_by_k _ _ = Ok ?a |- _ => unfold cs_by_k in H; destruct (try_cs_by_k "type_identifier" l) as [|x r]; [discriminate H|]; injection H as <- end.
    destruct (rev (x :: r)) as [|z w] eqn:Q; [|apply fine_ok]. apply (f_equal (@List.length loc)) in Q. rewrite rev_length in Q. discriminate Q.
  Qed.
  Lemma ConstructorBody_fine l : good ConstructorBody l -> fine (new_step cm checked rec ConstructorBody l).
  Proof.
    intro G. one G. unfold new_ConstructorBody.
    assert (C : forall c s, In c (children_vec l) -> fine (rec s c) -> fine (body_member cm checked rec s c)).
    { intros c s Hc F. unfold body_member. apply fine_bind; [exact F|]. intros d _. apply fine_bind; [|intros; apply fine_ok].
      eapply trailing_fine; [exact (proj1 S)| |exact Hc]. rewrite K. reflexivity. }
    assert (V : (exists c r, children_vec l = c :: r /\ kind c = "explicit_constructor_invocation" /\ forall x, In x r -> kind_in (kind x) statements = true) \/
                (forall x, In x (children_vec l) -> kind_in (kind x) statements = true)).
    { alts O. destruct O as (? & [<-|[]] & F). cbn [fits] in F. destruct F as (o & r & E1 & So & F).
      assert (R : forall r, (exists a t0, r = a ++ t0 /\ Forall (branch l_node (fields "constructor_body") "" statements) a /\
                (exists c t, t0 = c :: t /\ sign l_node (fields "constructor_body") "" "}" c /\ t = [])) -> forall x, In x (filter is_named r) -> kind_in (kind x) statements = true).
      { clear. intros r (a & t0 & -> & Ha & c & r' & -> & Sc & ->) x H. rewrite filter_app in H. cbn [filter] in H. rewrite (proj1 Sc : is_named c = false), app_nil_r in H.
        apply filter_In in H as [H _]. rewrite Forall_forall in Ha. exact (proj1 (proj2 (Ha x H))). }
      rewrite code_vec. unfold cnamed. rewrite E1. cbn [filter]. rewrite (proj1 So : is_named o = false). destruct F as [F|(c & q & -> & B & F)].
      - right. exact (R _ F).
      - left. cbn [filter]. rewrite (proj1 B : is_named c = true). exists c, (filter is_named q). split; [reflexivity|]. split; [|exact (R _ F)].
        apply kind_one. exact (proj1 (proj2 B)). }
    assert (ST : forall x, In x (children_vec l) -> kind_in (kind x) statements = true -> fine (rec Statement x)).
    { intros x Hx Kx. destruct (vec_in _ _ Hx) as (H1 & H2 & H3). apply IH. split; [eapply kid_pos; [exact (proj1 S)|exact H1]|]. split; [exact H3|].
      split; [eapply kid_above; eauto|]. split; [left; exact H2|]. split; [|exact I]. cbn [sort_kinds]. rewrite kind_in_app, Kx. reflexivity. }
    apply fine_bind.
    - destruct (children_vec l) as [|c r] eqn:Ev; [go|]. destruct (is_kind "explicit_constructor_invocation" c) eqn:Q; [|go]. apply fine_rmap. apply C; [left; reflexivity|].
      apply String.eqb_eq in Q. change (kind c = "explicit_constructor_invocation") in Q. destruct (vec_in l c) as (H1 & H2 & H3); [rewrite Ev; left; reflexivity|].
      exact (kid_k_fine l "explicit_constructor_invocation" ConstructInvocation c S eq_refl (conj H1 (conj H2 Q))).
    - intros ? _. apply fine_bind; [|intros; go]. apply fine_mapR. intros x Hx. destruct V as [(c & r & Ev & Kc & Hr)|V].
      + rewrite Ev in *. rewrite (is_kind_eq c _ "explicit_constructor_invocation" Kc) in Hx. change (In x r) in Hx. apply C; [right; exact Hx|]. apply ST; [right; exact Hx|apply Hr, Hx].
      + assert (Hv : In x (children_vec l)) by (destruct (children_vec l) as [|c r]; [exact Hx|]; destruct (is_kind _ c); [right; exact Hx|exact Hx]).
        apply C; [exact Hv|]. apply ST; [exact Hv|apply V, Hv].
  Qed.
  Lemma DmlExpression_fine l : good DmlExpression l -> fine (new_step cm checked rec DmlExpression l).
  Proof.
    intro G. one G. unfold new_DmlExpression. apply fine_bind; [go|intros ? _]. apply fine_bind; [go|intros ? _]. apply fine_bind; [go|intros ? _].
    apply fine_bind; [go|intros tn Et]. apply fine_bind; [go|intros ty _].
    destruct (named_k l "dml_type" _ S eq_refl (c_by_k_ok _ _ _ Et)) as (St & Kt). pose proof (obeys_rules tn _ St Kt eq_refl) as Ot.
    apply fine_bind; [go|intros v Ev]. destruct (is_kind "merge" v) eqn:Q; [|destruct (is_kind "upsert" v); go].
    apply fine_bind; [|intros; go]. apply fine_bind; [|intros; go].
    destruct (su_merge root SU (l_node l) (l_node tn) (l_node v)) as (n & Hn & Hf).
    - exact (pos_node _ _ (proj1 S)).
    - exact K.
    - apply kid_child, (c_by_k_ok _ _ _ Et).
    - exact Kt.
    - apply kid_child. apply first_c_ok, vec_in in Ev. apply Ev.
    - apply String.eqb_eq, Q.
    - apply child_kid in Hn as (c & Hc & <-). apply fine_bind.
      + unfold c_by_n. destruct (try_c_by_n "merge_with" l) eqn:E; [apply fine_ok|]. exfalso. pose proof (find_none _ _ E c Hc) as W. cbn beta in W. unfold has_field in W. rewrite Hf in W. discriminate W.
      + intros ? ?. go.
  Qed.
  Lemma simple_fine l k : solid l -> obeys k (rules k) l -> kind l = k -> kind_in k ["array_creation_expression"; "map_creation_expression"] = true ->
    fine (by_n rec "type" SimpleType l).
  Proof.
    intros S O K H. assert (B : needs_field (rules k) "type" && check_n k (rules k) "type" UnannotatedType = true).
    { apply kind_in_In in H. destruct H as [<-|[<-|[]]]; vm_compute; reflexivity. }
    split_and B. apply fine_bind; [eapply c_by_n_fine; eauto|]. intros c E. apply c_by_n_ok in E as (Hc & Hf). apply IH.
    pose proof (kid_n l k _ "type" UnannotatedType c S O H0 Hc Hf Logic.I) as (G1 & G2 & G3 & G4 & G5 & _). split; [exact G1|]. split; [exact G2|]. split; [exact G3|].
    split; [destruct G4 as [G4|G4]; [left; exact G4|rewrite G4 in G5; discriminate G5]|]. split; [|exact Logic.I].
    assert (N : kind c <> "array_type").
    { apply (su_type root SU (l_node l) (l_node c)); [exact (pos_node _ _ (proj1 S))|change (n_kind (l_node l)) with (kind l); rewrite K; exact H|apply kid_child, Hc|exact Hf]. }
    cbn [sort_kinds] in *. apply kind_in_In in G5. apply kind_in_In. unfold types in *. cbn [In removelast] in *. intuition congruence.
  Qed.
  Lemma ArrayCreationExpression_fine l : good ArrayCreationExpression l -> fine (new_step cm checked rec ArrayCreationExpression l).
  Proof.
    intro G. one G. pose proof (simple_fine l _ S O K eq_refl) as T. unfold new_ArrayCreationExpression. apply fine_bind; [go|intros ? _]. apply fine_bind; [|intros; go; exact T].
    destruct (try_c_by_n "value" l) eqn:E.
    - destruct (try_c_by_n "dimensions" l) eqn:E2; go.
    - alts O; [|clash|clash]. go.
  Qed.
  Lemma MapCreationExpression_fine l : good MapCreationExpression l -> fine (new_step cm checked rec MapCreationExpression l).
  Proof. intro G. one G. pose proof (simple_fine l _ S O K eq_refl) as T. unfold new_MapCreationExpression. go. exact T. Qed.
  Lemma TryStatement_fine l : good TryStatement l -> fine (new_step cm checked rec TryStatement l).
  Proof. intro G. one G. unfold new_TryStatement. alts O; go. clash. Qed.
  Lemma AccessorList_fine l : good AccessorList l -> fine (new_step cm checked rec AccessorList l).
  Proof.
    intro G. one G. unfold new_AccessorList. apply fine_bind; [go|intros ? _]. apply fine_bind.
    - destruct (su_accessor root SU (l_node l) (pos_node _ _ (proj1 S)) K) as (n & Hn & N & Kn). apply child_kid in Hn as (c & Hc & <-).
      unfold cs_by_k. destruct (try_cs_by_k "accessor_declaration" l) eqn:E; [|apply fine_ok]. exfalso.
      assert (W : In c (try_cs_by_k "accessor_declaration" l)); [|rewrite E in W; destruct W].
      apply filter_In. split; [apply filter_In; split; assumption|]. unfold is_kind, has_kind. rewrite Kn. reflexivity.
    - intros ns E. apply cs_by_k_ok in E. subst ns. go.
  Qed.
  Lemma SwitchLabel_fine l : good SwitchLabel l -> fine (new_step cm checked rec SwitchLabel l).
  Proof.
    intro G. one G. unfold new_SwitchLabel. apply fine_bind; [go|intros ? _]. destruct (is_nil (children_vec l)) eqn:Q; [go|]. alts O; go. clash.
  Qed.
  Lemma two_vec l k a b : solid l -> obeys k [[One "" a; One "" b]] l -> exists x y, children_vec l = [x; y] /\ kind_in (kind x) a = true /\ kind_in (kind y) b = true.
  Proof. intros S O. shape O. vec l V. do 2 eexists. split; [exact V|]. split; match goal with B : branch _ _ _ _ ?x |- kind_in (kind ?x) _ = true => exact (proj1 (proj2 B)) end. Qed.
  Lemma WhenSObjectType_fine l : good WhenSObjectType l -> fine (new_step cm checked rec WhenSObjectType l).
  Proof.
    intro G. one G. unfold new_WhenSObjectType. alts O. destruct (two_vec l _ _ _ S O) as (x & y & V & Hx & Hy). 
    assert (Kx : is_kind "identifier" x = false).
    { unfold is_kind, has_kind. change (n_kind (l_node x)) with (kind x). apply kind_in_In in Hx. cbn [In] in Hx. repeat (destruct Hx as [<-|Hx]; [reflexivity|]). destruct Hx. }
    assert (Ky : is_kind "identifier" y = true) by (apply kind_in_In in Hy; destruct Hy as [Hy|[]]; unfold is_kind, has_kind; change (n_kind (l_node y)) with (kind y); rewrite <- Hy; reflexivity).
    rewrite V. cbn [filter]. rewrite Kx, Ky. cbn [negb mapR rev app hd_error must rbind]. 
    assert (F : fine (rec UnannotatedType x)).
    { destruct (vec_in l x) as (H1 & H2 & H3); [rewrite V; left; reflexivity|]. apply IH. split; [eapply kid_pos; [exact (proj1 S)|exact H1]|]. split; [exact H3|].
      split; [eapply kid_above; eauto|]. split; [left; exact H2|]. split; [|exact Logic.I]. exact Hx. }
    apply fine_bind; [apply fine_bind; [exact F|intros; go]|]. intros tys E. destruct (rec UnannotatedType x); [|discriminate E..]. cbn [rbind] in E. injection E as <-.
    cbn [rev app hd_error must rbind]. go.
  Qed.
  Lemma QueryExpression_fine l : good QueryExpression l -> fine (new_step cm checked rec QueryExpression l).
  Proof. intro G. one G. unfold new_QueryExpression. alts O; go. clash. Qed.
  Lemma FindClause_fine l : good FindClause l -> fine (new_step cm checked rec FindClause l).
  Proof. intro G. one G. unfold new_FindClause. alts O; go. clash. Qed.
  Lemma SelectClause_fine l : good SelectClause l -> fine (new_step cm checked rec SelectClause l).
  Proof. intro G. one G. unfold new_SelectClause. alts O; go. clash. Qed.
  Lemma SObjectReturn_fine l : good SObjectReturn l -> fine (new_step cm checked rec SObjectReturn l).
  Proof.
    intro G. one G. unfold new_SObjectReturn. apply fine_bind; [go|intros ? _]. apply fine_bind; [|intros; go].
    destruct (try_c_by_k "selected_fields" l) as [c|] eqn:E; [|go]. destruct (named_k l "selected_fields" _ S eq_refl (by_kind _ _ _ E)) as (Sc & Kc).
    pose proof (obeys_rules c _ Sc Kc eq_refl) as Oc. go.
  Qed.
  Lemma SoslQueryBody_fine l : good SoslQueryBody l -> fine (new_step cm checked rec SoslQueryBody l).
  Proof.
    intro G. one G. unfold new_SoslQueryBody. go. apply fine_mapR. intros c Hc. apply all_by_kind in Hc as (Hc & N & Kc). apply IH.
    eapply (kid_k l "with_clause"); [exact S|say|exact Hc|exact N|exact Kc|]. intros v Hv Kv.
    exact (su_search root SU (l_node l) (l_node c) v (pos_node _ _ (proj1 S)) K (kid_child _ _ Hc) Kc Hv Kv).
  Qed.
  Lemma SoqlQueryBody_fine l : good SoqlQueryBody l -> fine (new_step cm checked rec SoqlQueryBody l).
  Proof.
    intro G. one G. unfold new_SoqlQueryBody. go.
    - unfold opt_n. destruct (try_c_by_n "with_clause" l) as [c|] eqn:E; [|go]. apply fine_bind; [|intros; go]. apply IH.
      destruct (named_n l _ _ "with_clause" c S O eq_refl (by_name _ _ _ E)) as (Sc & Kc). destruct (by_name _ _ _ E) as (Hc & Hf).
      eapply (kid_n l _ _ "with_clause"); [exact S|exact O|say|exact Hc|exact Hf|]. intros v Hv Kv x Hx Nx. destruct Kc as [Kc|[]]. symmetry in Kc.
      exact (su_query root SU (l_node l) (l_node c) v x (pos_node _ _ (proj1 S)) K (kid_child _ _ Hc) Kc Hv Kv Hx Nx).
  Qed.
  Lemma SoslWithClause_fine l : good SoslWithClause l -> fine (new_step cm checked rec SoslWithClause l).
  Proof.
    intro G. assert (P := proj2 (proj2 (proj2 (proj2 (proj2 G))))). one G. unfold new_SoslWithClause. go. apply fine_bind; [go|]. intros c E. apply c_by_k_ok in E as (Hc & N & Kc).
    apply IH. eapply (kid_k l "with_type"); [exact S|say|exact Hc|exact N|exact Kc|]. exact (P (l_node c) (kid_child _ _ Hc) Kc).
  Qed.
  Lemma SoqlWithClause_fine l : good SoqlWithClause l -> fine (new_step cm checked rec SoqlWithClause l).
  Proof.
    intro G. assert (P := proj2 (proj2 (proj2 (proj2 (proj2 G))))). one G. unfold new_SoqlWithClause. go. apply fine_bind; [go|]. intros c E. apply c_by_k_ok in E as (Hc & N & Kc).
    apply IH. eapply (kid_k l "with_type"); [exact S|say|exact Hc|exact N|exact Kc|]. exact (P (l_node c) (kid_child _ _ Hc) Kc).
  Qed.
  Lemma some_named l c : In c (kids l) -> is_named c = true -> is_extra c = false -> exists d, try_first_c l = Some d /\ In d (children_vec l).
  Proof.
    intros H N E. assert (V : In c (children_vec l)) by (unfold children_vec, named_kids; rewrite !filter_In, E; auto).
    unfold try_first_c. destruct (children_vec l) as [|d r]; [destruct V|]. exists d. split; [reflexivity|left; reflexivity].
  Qed.
  Lemma SoqlWithType_fine l : good SoqlWithType l -> fine (new_step cm checked rec SoqlWithType l).
  Proof.
    intro G. assert (P := proj2 (proj2 (proj2 (proj2 (proj2 G))))). one G. unfold new_SoqlWithType. apply fine_bind; [go|intros ? _]. apply fine_bind; [|intros; go].
    destruct (named_kids l) as [|n r] eqn:Q; cbn [is_nil]; [go|]. assert (Hn : In n (kids l) /\ is_named n = true) by (apply filter_In; fold (named_kids l); rewrite Q; left; reflexivity).
    destruct Hn as (Hn & Nn). assert (Kn : kind n = "with_user_id_type") by exact (P (l_node n) (kid_child _ _ Hn) Nn).
    pose proof (kind_plain l n _ (proj1 S) Hn Kn eq_refl) as Xn. destruct (some_named l n Hn Nn Xn) as (d & Ed & Vd). unfold first_c. rewrite Ed. cbn [must rbind].
    apply vec_in in Vd as (Hd & Nd & Xd). assert (Kd : kind d = "with_user_id_type") by exact (P (l_node d) (kid_child _ _ Hd) Nd).
    rewrite (is_kind_eq d _ "with_user_id_type" Kd). cbn [String.eqb Ascii.eqb Bool.eqb]. pose proof (kid_solid l d S Hd Nd Xd) as Sd.
    pose proof (obeys_rules d _ Sd Kd eq_refl) as Od. go.
  Qed.
  Lemma SoslWithType_fine l : good SoslWithType l -> fine (new_step cm checked rec SoslWithType l).
  Proof.
    intro G. assert (P := proj2 (proj2 (proj2 (proj2 (proj2 G))))). one G. unfold new_SoslWithType.
    destruct P as (n & Hn & Nn & Xn & Kn). apply child_kid in Hn as (c & Hc & <-).
    apply fine_bind; [go|intros ? _]. destruct (some_named l c Hc Nn Xn) as (d & Ed & Vd). unfold first_c. rewrite Ed. cbn [must rbind].
    alts O; go.
    all: exfalso; pose proof (only_named _ _ _ c O Hc Nn Xn) as W; apply kind_in_In in W; destruct W as [W|[]]; apply Kn; symmetry; exact W.
  Qed.

  Lemma MapKeyInitializer_fine l : good MapKeyInitializer l -> fine (new_step cm checked rec MapKeyInitializer l).
  Proof.
    intro G. one G. unfold new_MapKeyInitializer. apply fine_bind; [go|intros ? _].
    assert (D : exists p q, children_vec l = [p; q]) by (alts O; shape O; vec l V; do 2 eexists; exact V). destruct D as (p & q & V).
    assert (Hp : In p (children_vec l)) by (rewrite V; left; reflexivity). assert (Hq : In q (children_vec l)) by (rewrite V; right; left; reflexivity). rewrite V. clear V. go.
  Qed.
  Lemma comparison_fine l k : solid l -> kind l = k -> obeys k (rules k) l ->
    kind_in k ["comparison_expression"; "with_network_expression"] = true -> fine (get_comparsion rec l).
  Proof.
    intros S K O H. unfold get_comparsion.
    assert (D : (exists op v a, children_vec l = a ++ [op; v] /\ (forall x, In x a -> kind_in (kind x) values = true) /\ kind op = "value_comparison_operator" /\ kind_in (kind v) soql_literals = true) \/
                (exists op v a, children_vec l = a ++ [op; v] /\ (forall x, In x a -> kind_in (kind x) values = true) /\ kind op = "set_comparison_operator" /\ kind_in (kind v) set_values = true)).
    { assert (W : forall a, worded l_node (fields k) "NETWORK" a -> filter is_named a = []).
      { clear. intros a (_ & H & _). induction H as [|x a (B & _) _ IHa]; [reflexivity|]. cbn [filter]. change (is_named x) with (n_named (l_node x)). rewrite B. exact IHa. }
      apply kind_in_In in H. destruct H as [<-|[<-|[]]]; alts O; [left|right|left|right].
      1, 2: shape O; vec l V; match type of V with _ = [?a; ?b; ?c] => exists b, c, [a] end; rewrite V; split; [reflexivity|]; split;
        [let z := fresh in intros z [<-|[]]; match goal with B : branch _ _ _ _ ?x |- kind_in (kind ?x) _ = true => exact (proj1 (proj2 B)) end|]; split;
        match goal with B : branch _ _ _ _ ?x |- kind_in (kind ?x) _ = true => exact (proj1 (proj2 B)) | B : branch _ _ _ _ ?x |- kind ?x = _ => apply kind_one; exact (proj1 (proj2 B)) end.
      1, 2: destruct O as (? & [<-|[]] & F); cbn [fits] in F; destruct F as (a & r & E & Wa & F); parts; pose proof (code_vec l) as V; unfold cnamed in V; rewrite E, filter_app, (W a Wa) in V; cbn [app filter] in V;
        repeat match goal with B : branch _ _ _ _ ?x |- _ => match type of V with context [is_named x] => rewrite (proj1 B : is_named x = true) in V end end;
        match type of V with _ = [?b; ?c] => exists b, c, [] end; rewrite V; split; [reflexivity|]; split; [intros ? []|]; split;
        match goal with B : branch _ _ _ _ ?x |- kind_in (kind ?x) _ = true => exact (proj1 (proj2 B)) | B : branch _ _ _ _ ?x |- kind ?x = _ => apply kind_one; exact (proj1 (proj2 B)) end. }
    assert (VIN : forall x o, try_c_by_k x l = Some o -> kind_in x comment_kinds = false -> In o (children_vec l) /\ kind o = x).
    { intros x o E N. apply by_kind in E as (E1 & E2 & E3). split; [|exact E3]. apply in_vec; auto. eapply kind_plain; [exact (proj1 S)|exact E1|exact E3|exact N]. }
    assert (NOV : forall x ks, kind x = "value_comparison_operator" \/ kind x = "set_comparison_operator" -> kind_in (kind x) ks = true -> kind_in "value_comparison_operator" ks || kind_in "set_comparison_operator" ks = true).
    { intros x ks [->| ->] ->; [reflexivity|apply Bool.orb_true_r]. }
    assert (SOL : forall v, In v (children_vec l) -> solid v).
    { intros v Hv. apply vec_in in Hv as (H1 & H2 & H3). eapply kid_solid; eauto. }
    destruct D as [(op & v & a & V & Ha & Kop & Kv)|(op & v & a & V & Ha & Kop & Kv)].
    - assert (Sv : solid v) by (apply SOL; rewrite V; apply in_or_app; right; right; left; reflexivity).
      destruct (try_c_by_k "value_comparison_operator" l) as [o|] eqn:E.
      + destruct (VIN _ _ E eq_refl) as (Ho & Ko). rewrite V in Ho. apply in_app_iff in Ho as [Ho|[Ho|[Ho|[]]]].
        * pose proof (NOV _ _ (or_introl Ko) (Ha _ Ho)) as Q. discriminate Q.
        * subst o. rewrite (next_vec l op v a [] V). cbn [rbind]. apply fine_bind; [|intros; apply fine_ok].
          apply kind_in_In in Kv. unfold soql_literals, plain_literals in Kv. cbn [In] in Kv. repeat (destruct Kv as [Kv|Kv]; [symmetry in Kv; is_kinds Kv; go|]). destruct Kv.
        * subst o. pose proof (NOV _ _ (or_introl Ko) Kv) as Q. discriminate Q.
      + exfalso. assert (Hop : In op (children_vec l)) by (rewrite V; apply in_or_app; right; left; reflexivity). apply vec_in in Hop as (H1 & H2 & _).
        assert (Hn : In op (named_kids l)) by (apply filter_In; split; assumption). pose proof (find_none _ _ E op Hn) as Q. unfold is_kind, has_kind in Q.
        change (n_kind (l_node op)) with (kind op) in Q. rewrite Kop in Q. discriminate Q.
    - assert (Sv : solid v) by (apply SOL; rewrite V; apply in_or_app; right; right; left; reflexivity).
      destruct (try_c_by_k "value_comparison_operator" l) as [o|] eqn:E.
      { exfalso. destruct (VIN _ _ E eq_refl) as (Ho & Ko). rewrite V in Ho. apply in_app_iff in Ho as [Ho|[Ho|[Ho|[]]]].
        - pose proof (NOV _ _ (or_introl Ko) (Ha _ Ho)) as Q. discriminate Q.
        - subst o. congruence.
        - subst o. pose proof (NOV _ _ (or_introl Ko) Kv) as Q. discriminate Q. }
      clear E. destruct (try_c_by_k "set_comparison_operator" l) as [o|] eqn:E.
      + destruct (VIN _ _ E eq_refl) as (Ho & Ko). rewrite V in Ho. apply in_app_iff in Ho as [Ho|[Ho|[Ho|[]]]].
        * pose proof (NOV _ _ (or_intror Ko) (Ha _ Ho)) as Q. discriminate Q.
        * subst o. rewrite (next_vec l op v a [] V). cbn [rbind]. apply fine_bind; [|intros; apply fine_ok].
          apply kind_in_In in Kv. unfold set_values in Kv. cbn [In] in Kv. repeat (destruct Kv as [Kv|Kv]; [symmetry in Kv; is_kinds Kv; go|]). destruct Kv.
        * subst o. pose proof (NOV _ _ (or_intror Ko) Kv) as Q. discriminate Q.
      + exfalso. assert (Hop : In op (children_vec l)) by (rewrite V; apply in_or_app; right; left; reflexivity). apply vec_in in Hop as (H1 & H2 & _).
        assert (Hn : In op (named_kids l)) by (apply filter_In; split; assumption). pose proof (find_none _ _ E op Hn) as Q. unfold is_kind, has_kind in Q.
        change (n_kind (l_node op)) with (kind op) in Q. rewrite Kop in Q. discriminate Q.
  Qed.
  Lemma ComparisonExpression_fine l : good ComparisonExpression l -> fine (new_step cm checked rec ComparisonExpression l).
  Proof. intro G. one G. unfold new_ComparisonExpression. go. eapply comparison_fine; eauto. Qed.
  Lemma WithNetworkExpression_fine l : good WithNetworkExpression l -> fine (new_step cm checked rec WithNetworkExpression l).
  Proof. intro G. one G. unfold new_WithNetworkExpression. go. eapply comparison_fine; eauto. Qed.
  Lemma kinds_vec l x : solid l -> kind_in x comment_kinds = false -> try_cs_by_k x l = filter (is_kind x) (children_vec l).
  Proof.
    intros S N. unfold try_cs_by_k, children_vec, named_kids.
    assert (H : forall c, In c (filter is_named (kids l)) -> is_kind x c = true -> is_extra c = false).
    { intros c Hc Q. apply filter_In in Hc as [Hc _]. apply String.eqb_eq in Q. eapply kind_plain; [exact (proj1 S)|exact Hc|exact Q|exact N]. }
    induction (filter is_named (kids l)) as [|c r IHr]; [reflexivity|]. cbn [filter].
    assert (IHr' := IHr (fun d Hd => H d (or_intror Hd))). destruct (is_kind x c) eqn:Q.
    - rewrite (H c (or_introl eq_refl) Q). cbn [negb filter]. rewrite Q, IHr'. reflexivity.
    - destruct (is_extra c); cbn [negb filter]; [exact IHr'|]. rewrite Q. exact IHr'.
  Qed.
  Lemma is_kind_branch x fs f c : branch l_node fs f [x] c -> is_kind x c = true.
  Proof. intros (_ & H & _). apply kind_one in H. unfold is_kind, has_kind. rewrite H. apply String.eqb_refl. Qed.
  Lemma WithDataCatFilter_fine l : good WithDataCatFilter l -> fine (new_step cm checked rec WithDataCatFilter l).
  Proof.
    intro G. one G. unfold new_WithDataCatFilter. apply fine_bind; [go|intros ? _]. apply fine_bind; [go|intros ids E].
    assert (D : exists p q r, ids = p :: q :: r).
    { apply cs_by_k_ok in E. rewrite (kinds_vec l "identifier" S eq_refl) in E. alts O.
      - shape O. vec l V. rewrite V. cbn [filter].
        repeat match goal with B : branch _ _ _ ["identifier"] ?x |- context [is_kind "identifier" ?x] => rewrite (is_kind_branch _ _ _ _ B) end.
        match goal with |- context [if ?b then _ else _] => destruct b end; eauto.
      - shape O. vec l V. rewrite V. cbn [filter].
        repeat match goal with B : branch _ _ _ ["identifier"] ?x |- context [is_kind "identifier" ?x] => rewrite (is_kind_branch _ _ _ _ B) end.
        match goal with |- context [if ?b then _ else _] => destruct b end; eauto. }
    destruct D as (p & q & r & ->). go.
  Qed.
  Lemma GeoLocationType_fine l : good GeoLocationType l -> fine (new_step cm checked rec GeoLocationType l).
  Proof.
    intro G. one G. unfold new_GeoLocationType. alts O; go.
    match goal with E : cs_by_k "decimal" l = Ok ?d, Q : kind ?c = "identifier" |- _ => apply cs_by_k_ok in E; rewrite (kinds_vec l "decimal" S eq_refl) in E;
      assert (D : exists d1 d2, d = [d1; d2]) end.
    { shape O. vec l V. rewrite V. cbn [filter].
      match goal with B : branch _ _ _ ["identifier"] ?x |- _ => replace (is_kind "decimal" x) with false by
        (pose proof (kind_one _ _ (proj1 (proj2 B))) as Q; unfold is_kind, has_kind; rewrite Q; reflexivity) end.
      repeat match goal with B : branch _ _ _ ["decimal"] ?x |- context [is_kind "decimal" ?x] => rewrite (is_kind_branch _ _ _ _ B) end. eauto. }
    destruct D as (d1 & d2 & ->). go.
  Qed.
  Lemma FunctionExpression_fine l : good FunctionExpression l -> fine (new_step cm checked rec FunctionExpression l).
  Proof.
    intro G. one G. unfold new_FunctionExpression. apply fine_bind; [go|intros ? _]. apply fine_bind; [go|intros ? _]. apply fine_bind; [|intros; go].
    destruct (try_c_by_k "geo_location_type" l) as [c|] eqn:E; [alts O; first [clash|go]|].
    apply fine_bind; [|intros; go]. apply fine_mapR. intros x Hx.
    assert (Hv : In x (children_vec l)) by (destruct (children_vec l); [destruct Hx|right; exact Hx]).
    assert (Kx : kind_in (kind x) values = true).
    { alts O; try clash; clear E.
      - shape O. vec l V. rewrite V in Hx. destruct Hx.
      - shape O. pose proof (code_vec l) as V. unfold cnamed in V. match goal with E : ckids l = _ |- _ => rewrite E in V end. cbn [app filter] in V.
        match goal with B : branch _ _ _ ["identifier"] ?x, B' : sign _ _ _ "(" ?y |- _ => rewrite (proj1 B : is_named x = true), (proj1 B' : is_named y = false) in V end.
        rewrite filter_app in V. rewrite V in Hx. cbn [tl] in Hx. apply in_app_iff in Hx as [Hx|Hx].
        + apply filter_In in Hx as [Hx Nx]. match goal with P : separated _ _ _ _ _ _ |- _ => destruct (sep_each _ _ _ _ _ _ _ P Hx) as [B|B] end;
            [exact (proj1 (proj2 B))|]. rewrite (proj1 B : is_named x = false) in Nx. discriminate Nx.
        + cbn [filter] in Hx. match goal with B : sign _ _ _ ")" ?x |- _ => rewrite (proj1 B : is_named x = false) in Hx end. destruct Hx. }
    destruct (vec_in _ _ Hv) as (H1 & H2 & H3). pose proof (kid_solid l x S H1 H2 H3) as Sx. clear Hv Hx E. apply kind_in_In in Kx. destruct Kx as [Kx|[Kx|[]]]; symmetry in Kx; go.
  Qed.
  Lemma Statement_fine l : good Statement l -> fine (new_step cm checked rec Statement l).
  Proof.
    intros (P & E & A & N & K & _). cbn [new_step]. unfold new_Statement. destruct (is_kind ";" l) eqn:Q.
    - apply String.eqb_eq in Q. change (kind l = ";") in Q. is_kinds Q. apply fine_ok.
    - assert (W : kind l <> ";") by (intro W; unfold is_kind, has_kind in Q; change (n_kind (l_node l)) with (kind l) in Q; rewrite W in Q; discriminate Q).
      destruct N as [N|N]; [|congruence]. assert (S : solid l) by exact (conj P (conj N (conj E A))). apply kind_in_In in K. cbn [sort_kinds app In statements] in K.
      repeat (destruct K as [K|K]; [symmetry in K; first [congruence | is_kinds K; go]|]). destruct K.
  Qed.
  Lemma BooleanExpression_fine o l : good (BooleanExpression o) l -> fine (new_step cm checked rec (BooleanExpression o) l).
  Proof. intro G. many G. unfold new_BooleanExpression. repeat (destruct K as [K|K]; [symmetry in K; is_kinds K; go|]). destruct K. Qed.
  Lemma ConditionExpression_fine o l : good (ConditionExpression o) l -> fine (new_step cm checked rec (ConditionExpression o) l).
  Proof. intro G. many G. unfold new_ConditionExpression. repeat (destruct K as [K|K]; [symmetry in K; is_kinds K; go|]). destruct K. Qed.

  Lemma step_fine s l : good s l -> fine (new_step cm checked rec s l).
  Proof.
    intro G. destruct s; first [exact (Root_fine l G) | exact (RootMember_fine l G) | exact (ClassMember_fine l G) | exact (ClassDeclaration_fine l G) | exact (MethodDeclaration_fine l G) | exact (FormalParameters_fine l G) | exact (FormalParameter_fine l G) | exact (SuperClass_fine l G) | exact (Modifiers_fine l G) | exact (Modifier_fine l G) | exact (Annotation_fine l G) | exact (AnnotationArgumentList_fine l G) | exact (AnnotationKeyValue_fine l G) | exact (ClassBody_fine l G) | exact (FieldDeclaration_fine l G) | exact (ArrayInitializer_fine l G) | exact (AssignmentExpression_fine l G) | exact (AssignmentLeft_fine l G) | exact (Block_fine l G) | exact (Interface__fine l G) | exact (TypeList_fine l G) | exact (ObjectExpression_fine l G) | exact (MethodInvocation_fine l G) | exact (TypeArguments_fine l G) | exact (ArgumentList_fine l G) | exact (BinaryExpression_fine l G) | exact (LocalVariableDeclaration_fine l G) | exact (VariableDeclarator_fine l G) | exact (GenericType_fine l G) | exact (IfStatement_fine l G) | exact (ParenthesizedExpression_fine l G) | exact (ForInitOption_fine l G) | exact (ForStatement_fine l G) | exact (EnhancedForStatement_fine l G) | exact (UpdateExpression_fine l G) | exact (ScopedTypeIdentifier_fine l G) | exact (ConstructorDeclaration_fine l G) | exact (ConstructorBody_fine l G) | exact (ConstructInvocation_fine l G) | exact (TypeParameters_fine l G) | exact (TypeParameter_fine l G) | exact (ObjectCreationExpression_fine l G) | exact (RunAsStatement_fine l G) | exact (DoStatement_fine l G) | exact (WhileStatement_fine l G) | exact (UnaryExpression_fine l G) | exact (FieldAccess_fine l G) | exact (EnumDeclaration_fine l G) | exact (EnumBody_fine l G) | exact (EnumConstant_fine l G) | exact (DmlExpression_fine l G) | exact (DmlSecurityMode_fine l G) | exact (DmlType_fine l G) | exact (ArrayAccess_fine l G) | exact (ArrayCreationExpression_fine l G) | exact (DimensionsExpr_fine l G) | exact (ReturnStatement_fine l G) | exact (TernaryExpression_fine l G) | exact (TryStatement_fine l G) | exact (CatchClause_fine l G) | exact (FinallyClause_fine l G) | exact (StaticInitializer_fine l G) | exact (InterfaceDeclaration_fine l G) | exact (ExtendsInterface_fine l G) | exact (InterfaceBody_fine l G) | exact (InterfaceMember_fine l G) | exact (ConstantDeclaration_fine l G) | exact (AccessorList_fine l G) | exact (AccessorDeclaration_fine l G) | exact (CastExpression_fine l G) | exact (ThrowStatement_fine l G) | exact (BreakStatement_fine l G) | exact (ContinueStatement_fine l G) | exact (SwitchExpression_fine l G) | exact (SwitchBlock_fine l G) | exact (SwitchRule_fine l G) | exact (SwitchLabel_fine l G) | exact (WhenSObjectType_fine l G) | exact (InstanceOfExpression_fine l G) | exact (VersionExpression_fine l G) | exact (JavaFieldAccess_fine l G) | exact (JavaType_fine l G) | exact (ArrayType_fine l G) | exact (TriggerDeclaration_fine l G) | exact (TriggerEvent_fine l G) | exact (TriggerBody_fine l G) | exact (QueryExpression_fine l G) | exact (SoslQueryBody_fine l G) | exact (FindClause_fine l G) | exact (InClause_fine l G) | exact (ReturningClause_fine l G) | exact (SObjectReturn_fine l G) | exact (SoqlQueryBody_fine l G) | exact (FromClause_fine l G) | exact (StorageAlias_fine l G) | exact (LimitClause_fine l G) | exact (UpdateClause_fine l G) | exact (BoundApexExpression_fine l G) | exact (SoslUsingClause_fine l G) | exact (UsingClause_fine l G) | exact (UsingScopeClause_fine l G) | exact (UsingLookupClause_fine l G) | exact (UsingLookupBindClause_fine l G) | exact (UsingLookupBindExpression_fine l G) | exact (UsingListviewClause_fine l G) | exact (WhereClause_fine l G) | exact (HavingClause_fine l G) | exact (ComparisonExpression_fine l G) | exact (ComparableList_fine l G) | exact (OrderByClause_fine l G) | exact (OrderExpression_fine l G) | exact (SubQuery_fine l G) | exact (MapCreationExpression_fine l G) | exact (MapInitializer_fine l G) | exact (MapKeyInitializer_fine l G) | exact (GroupByClause_fine l G) | exact (SoslWithClause_fine l G) | exact (SoqlWithClause_fine l G) | exact (SoqlWithType_fine l G) | exact (SoslWithType_fine l G) | exact (WithDataCatExpression_fine l G) | exact (WithDataCatFilter_fine l G) | exact (WithDivisionExpression_fine l G) | exact (WithSnippetExpression_fine l G) | exact (WithNetworkExpression_fine l G) | exact (WithMetadataExpression_fine l G) | exact (WithSpellCorrectionExpression_fine l G) | exact (WithPriceBookExpression_fine l G) | exact (DottedIdentifier_fine l G) | exact (ExpressionStatement_fine l G) | exact (CountExpression_fine l G) | exact (FunctionExpression_fine l G) | exact (FieldIdentifier_fine l G) | exact (GeoLocationType_fine l G) | exact (SelectClause_fine l G) | exact (StorageIdentifier_fine l G) | exact (AndExpression_fine l G) | exact (OrExpression_fine l G) | exact (NotExpression_fine l G) | exact (ForClause_fine l G) | exact (BooleanExpression_fine _ l G) | exact (ConditionExpression_fine _ l G) | exact (UnannotatedType_fine l G) | exact (SimpleType_fine l G) | exact (VariableInitializer_fine l G) | exact (Expression_fine l G) | exact (PrimaryExpression_fine l G) | exact (ClassLiteral_fine l G) | exact (Statement_fine l G) | exact (Type__fine l G) | exact (SelectableExpression_fine l G) | exact (FieldsExpression_fine l G) | exact (AliasExpression_fine l G) | exact (StorageVariant_fine l G) | exact (LimitValue_fine l G) | exact (ValueExpression_fine l G) | exact (SoqlLiteral_fine l G) | exact (SetValue_fine l G) | exact (ComparableListValue_fine l G) | exact (OffsetClause_fine l G)].
  Qed.
End Read.

Lemma new_fine root cm checked : file_tree root -> supported root -> (checked = true -> later_rows root) ->
  forall fuel s l, good root s l -> fine (new cm checked fuel s l).
Proof.
  intros FT SU LR. induction fuel as [|k IHk]; intros s l G; [intros y H; discriminate H|].
  cbn [new]. exact (step_fine root FT SU cm checked LR (new cm checked k) IHk s l G).
Qed.
Lemma root_good root : file_tree root -> good root Root (root_loc root).
Proof.
  intro FT. destruct (ft_root root FT) as (K & N & E). split; [constructor|]. split; [exact E|]. split; [intros p H; discriminate H|].
  split; [left; exact N|]. split; [|exact I]. change (kind_in (n_kind root) (sort_kinds Root) = true). rewrite K. reflexivity.
Qed.
