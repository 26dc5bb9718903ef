(* TokensSorts4.v: what the syntax types of queries print, given what their parts print. *)
From Coq Require Import Sorting.Sorted Lia.
From Verif Require Import Base Doc DocBuilder Cst Comments Term SpecTree New SpecWords SpecTokens SpecLoud BitsProofs TokensProofs TokensMarks TokensProofs2 TokensProofs3 TokensQueries.
Local Open Scope string_scope.
Local Open Scope list_scope.

Section Sorts.
  Context {DG : dangles}.
  Variable rec : sort -> loc -> res dt.
  Hypothesis IH : forall s l x, ok s l -> rec s l = Ok x -> mkept (claims s l) (pieces x).

  Lemma QueryExpression_kept l x : fine l -> new_QueryExpression rec l = Ok x -> holds l x.
  Proof.
    intros F H. unfold new_QueryExpression in H. checked_kind H Hk. soql_sort l IH F H Hk.
    all: match goal with |- context [match ?o with Some _ => _ | None => _ end] => destruct o end; pc; kp.
  Qed.
  Lemma SoslQueryBody_kept l x : fine l -> new_SoslQueryBody rec l = Ok x -> holds l x.
  Proof.
    intros F H. unfold new_SoslQueryBody in H. checked_kind H Hk.
    destruct (use_rules l _ (f_valid l F) (f_named l F) Hk) as (alt & ks & Hin & EK & HF & HL); [discriminate|].
    let fs := eval vm_compute in (fields "sosl_query_body") in change (fields "sosl_query_body") with fs in HF.
    destruct Hin as [<-|[]]. destruct HF as (fc & r1 & -> & Bs & HF).
    apply fits_opt in HF as (a1 & t1 & -> & B1 & L1 & HF).
    apply fits_opt in HF as (a2 & t2 & -> & B2 & L2 & HF). destruct HF as (a3 & t3 & -> & B3 & HF).
    apply fits_opt in HF as (a4 & t4 & -> & B4 & L4 & HF).
    apply fits_opt in HF as (a5 & t5 & -> & B5 & L5 & HF).
    apply fits_opt in HF as (a6 & t6 & -> & B6 & L6 & HF).
    cbn [fits] in HF. subst t6. links. kid_lists. unfold_access H. use_lists H.
    repeat (ev H; lone_step H). try lone_step H. ev H. cbn [rbind] in H.
    rewrite !(lone_map rec) in H by assumption. repeat inv_bind H. done_new H.
    repeat rec_step IH. node_body F Hk. kp.
    assert (K2' : mkept (flat_map mleaves (map l_node a3)) (flat_map pieces (if is_nil x4 then [] else [TIntersperse x4 sepSL]))).
    { destruct x4; [exact K3|]. cbn [is_nil]. pc. kp. }
    rewrite !concat_app, <- !flat_map_concat_map. repeat (apply kept_app; [assumption|]). assumption.
  Qed.
  Lemma FindClause_kept l x : fine l -> new_FindClause rec l = Ok x -> holds l x.
  Proof.
    intros F H. unfold new_FindClause in H. checked_kind H Hk. soql_silent l IH F H Hk.
    change (39%N :: value x5 ++ U "'") with (U "'" ++ value x5 ++ U "'"). apply Mk_split; [first [reflexivity|apply Bool.andb_false_r]|].
    apply (kept_sign1 _ _ _ _ _ H2); [still|reflexivity|]. apply Mk_split; [first [reflexivity|apply Bool.andb_false_r]|]. kp.
  Qed.
  Lemma InClause_kept l x : fine l -> new_InClause l = Ok x -> holds l x.
  Proof. intros F H. unfold new_InClause in H. checked_kind H Hk. plain_sort l IH F H Hk. Qed.
  Lemma SObjectReturn_kept l x : fine l -> new_SObjectReturn rec l = Ok x -> holds l x.
  Proof.
    intros F H. unfold new_SObjectReturn in H. checked_kind H Hk.
    destruct (use_rules l _ (f_valid l F) (f_named l F) Hk) as (alt & ks & Hin & EK & HF & HL); [discriminate|].
    let fs := eval vm_compute in (fields "sobject_return") in change (fields "sobject_return") with fs in HF.
    destruct Hin as [<-|[<-|[]]].
    { destruct HF as (i & r1 & -> & Bi & ->). links. kid_lists. unfold_access H. use_lists H. ev H. done_new H.
      node_body F Hk. kp. }
    destruct HF as (i & r1 & -> & Bi & o & r2 & -> & So & sf & r3 & -> & Bf & HF).
    apply fits_opt in HF as (a1 & t1 & -> & B1 & L1 & HF).
    apply fits_opt in HF as (a2 & t2 & -> & B2 & L2 & HF).
    apply fits_opt in HF as (a3 & t3 & -> & B3 & L3 & HF).
    apply fits_opt in HF as (a4 & t4 & -> & B4 & L4 & HF).
    apply fits_opt in HF as (a5 & t5 & -> & B5 & L5 & HF).
    destruct HF as (e & r4 & -> & Se & ->). links. kid_lists. unfold_access H. use_lists H.
    repeat (ev H; lone_step H). try lone_step H. ev H. cbn [rbind] in H.
    rewrite !(lone_map rec) in H by assumption. repeat inv_bind H. done_new H.
    assert (Ks : mkept (mleaves (l_node sf)) (flat_map pieces x1)).
    { assert (Vs : valid (l_node sf)) by apply P1.
      assert (Ns : n_named (l_node sf) = true) by (eapply branch_named; exact Bf).
      assert (Hs : kind sf = "selected_fields") by (apply kind_one, Bf).
      apply bare_children; [exact Vs|rewrite Hs; discriminate|rewrite Hs; reflexivity|apply kind_calm; [exact Vs|rewrite Hs; reflexivity]|hush|].
      destruct (use_rules sf _ Vs Ns Hs) as (alt & ks & Hin & EK' & HF & HL); [discriminate|].
      let fs := eval vm_compute in (fields "selected_fields") in change (fields "selected_fields") with fs in HF.
      destruct Hin as [<-|[]]. destruct HF as (a6 & t6 & -> & B6 & ->). links. kid_lists.
      match goal with E : mapR _ (children_vec sf) = Ok _ |- _ => use_lists E end. repeat rec_step IH. rewrite EKids0. pc. assumption. }
    repeat rec_step IH. node_body F Hk. kp.
    assert (Hf : follow (cright sf) = []) by (rewrite (proj1 P1); follows).
    assert (Hq : n_pre (n_id (l_node sf)) = [] /\ n_post (n_id (l_node sf)) = []).
    { destruct (valid_calm _ (f_valid l F)) as (_ & _ & _ & Hq & _).
      destruct (node_sides (l_node sf) (proj1 (proj2 (proj2 P1)))) as [<- <-].
      - rewrite punct_is, (kind_one _ _ (proj1 (proj2 Bf))). reflexivity.
      - apply Hq; [exact Hk| |exact (kind_one _ _ (proj1 (proj2 Bf)))]. apply ckids_in. rewrite EKids. right. right. left. reflexivity. }
    match goal with |- mkept ?L _ => replace L with (marks (n_pre (n_id (l_node sf))) ++ L ++ marks (n_post (n_id (l_node sf))) ++ follow (cright sf))
      by (rewrite (proj1 Hq), (proj2 Hq), Hf; apply app_nil_r) end.
    apply nodeP_kept; [apply kind_calm; [apply P1|unfold kind; rewrite (kind_one _ _ (proj1 (proj2 Bf))); reflexivity]|apply P1|]. pc.
    rewrite !joined_nil. cbn [List.concat]. rewrite !concat_app, <- !flat_map_concat_map, <- ?app_assoc.
    eapply kept_sign1; [eassumption|still|reflexivity|].
    repeat (apply kept_app; [assumption|]). kp.
  Qed.
  Lemma SoqlQueryBody_kept l x : fine l -> new_SoqlQueryBody rec l = Ok x -> holds l x.
  Proof.
    intros F H. unfold new_SoqlQueryBody in H. checked_kind H Hk. 
    destruct (use_rules l _ (f_valid l F) (f_named l F) Hk) as (alt & ks & Hin & EK & HF & HL); [discriminate|].
    let fs := eval vm_compute in (fields "soql_query_body") in change (fields "soql_query_body") with fs in HF.
    destruct Hin as [<-|[]]. destruct HF as (sel & r1 & -> & Bs & frm & r2 & -> & Bf & HF).
    apply fits_opt in HF as (a1 & t1 & -> & B1 & L1 & HF).
    apply fits_opt in HF as (a2 & t2 & -> & B2 & L2 & HF).
    apply fits_opt in HF as (a3 & t3 & -> & B3 & L3 & HF).
    apply fits_opt in HF as (a4 & t4 & -> & B4 & L4 & HF).
    apply fits_opt in HF as (a5 & t5 & -> & B5 & L5 & HF).
    apply fits_opt in HF as (a6 & t6 & -> & B6 & L6 & HF).
    apply fits_opt in HF as (a7 & t7 & -> & B7 & L7 & HF).
    apply fits_opt in HF as (a8 & t8 & -> & B8 & L8 & HF).
    cbn [fits] in HF. subst t8. links. kid_lists. unfold_access H. use_lists H.
    repeat (ev H; lone_step H). ev H. cbn [rbind] in H.
    rewrite !(lone_map rec) in H by assumption.
    assert (E7 : match hd_error a7 with None => Ok [] | Some c => d <- new_AllRowsClause c ;; Ok [d] end = mapR new_AllRowsClause a7)
      by exact (lone_map (fun _ => new_AllRowsClause) Root a7 L7).
    rewrite E7 in H. clear E7. repeat inv_bind H. done_new H.
    eapply all_rows_kept in E5; [|exact L7|exact B7|exact P7|idtac].
    2: follows.
    eapply (fors_kept rec IH) in E6; [|exact L8|exact B8|exact P8].
    repeat rec_step IH. node_body F Hk. kp.
    rewrite !concat_app, <- !flat_map_concat_map. repeat (apply kept_app; [assumption|]). assumption.
  Qed.
  Lemma FromClause_kept l x : fine l -> new_FromClause rec l = Ok x -> holds l x.
  Proof. intros F H. unfold new_FromClause in H. checked_kind H Hk. plain_sort l IH F H Hk. Qed.
  Lemma StorageAlias_kept l x : fine l -> new_StorageAlias rec l = Ok x -> holds l x.
  Proof. intros F H. unfold new_StorageAlias in H. checked_kind H Hk. plain_sort l IH F H Hk. Qed.
  Lemma LimitClause_kept l x : fine l -> new_LimitClause rec l = Ok x -> holds l x.
  Proof. intros F H. unfold new_LimitClause in H. checked_kind H Hk. plain_sort l IH F H Hk. Qed.
  Lemma BoundApexExpression_kept l x : fine l -> new_BoundApexExpression rec l = Ok x -> holds l x.
  Proof. intros F H. unfold new_BoundApexExpression in H. checked_kind H Hk. plain_sort l IH F H Hk. Qed.
  Lemma SoslUsingClause_kept l x : fine l -> new_SoslUsingClause l = Ok x -> holds l x.
  Proof.
    intros F H. unfold new_SoslUsingClause in H. checked_kind H Hk. soql_sort l IH F H Hk.
  Qed.
  Lemma UsingClause_kept l x : fine l -> new_UsingClause rec l = Ok x -> holds l x.
  Proof.
    intros F H. unfold new_UsingClause in H. checked_kind H Hk. soql_sort l IH F H Hk.
  Qed.
  Lemma UsingScopeClause_kept l x : fine l -> new_UsingScopeClause l = Ok x -> holds l x.
  Proof. intros F H. unfold new_UsingScopeClause in H. checked_kind H Hk. plain_sort l IH F H Hk. Qed.
  Lemma UsingLookupClause_kept l x : fine l -> new_UsingLookupClause rec l = Ok x -> holds l x.
  Proof. intros F H. unfold new_UsingLookupClause in H. checked_kind H Hk. plain_sort l IH F H Hk. Qed.
  Lemma UsingLookupBindClause_kept l x : fine l -> new_UsingLookupBindClause rec l = Ok x -> holds l x.
  Proof. intros F H. unfold new_UsingLookupBindClause in H. checked_kind H Hk. plain_sort l IH F H Hk. Qed.
  Lemma UsingLookupBindExpression_kept l x : fine l -> new_UsingLookupBindExpression rec l = Ok x -> holds l x.
  Proof. intros F H. unfold new_UsingLookupBindExpression in H. checked_kind H Hk. plain_sort l IH F H Hk. Qed.
  Lemma UsingListviewClause_kept l x : fine l -> new_UsingListviewClause l = Ok x -> holds l x.
  Proof. intros F H. unfold new_UsingListviewClause in H. checked_kind H Hk. plain_sort l IH F H Hk. Qed.
  Lemma WhereClause_kept l x : fine l -> new_WhereClause rec l = Ok x -> holds l x.
  Proof. intros F H. unfold new_WhereClause in H. checked_kind H Hk. plain_sort l IH F H Hk. Qed.
  Lemma HavingClause_kept l x : fine l -> new_HavingClause rec l = Ok x -> holds l x.
  Proof. intros F H. unfold new_HavingClause in H. checked_kind H Hk. plain_sort l IH F H Hk. Qed.
  Lemma ComparisonExpression_kept l x : fine l -> new_ComparisonExpression rec l = Ok x -> holds l x.
  Proof.
    intros F H. unfold new_ComparisonExpression in H. checked_kind H Hk. open_rule l F Hk; links; kid_lists; unfold get_comparsion in H; inv_new H; try done_new H.
    all: match goal with
      | E : next_named ?c = Ok ?n, P : placed _ ?c (?y :: _), B : branch _ _ _ _ ?y, P' : placed _ ?y _ |- _ =>
          let Q := fresh "Q" in let Bn := fresh "B" in let Pn := fresh "P" in
          destruct (next_placed _ _ _ _ _ _ _ _ P B P' E) as (Q & Bn & Pn); clear E B P';
          repeat match goal with E' : (if _ then _ else _) = Ok _ |- _ => inv_res E' end;
          repeat rec_step IH; node_body F Hk; kp; rewrite <- Q
      end.
    all: apply kept_padded; [eapply proj1, proj2, proj2; eassumption|atom|hush|]; kp.
  Qed.
  Lemma OrderByClause_kept l x : fine l -> new_OrderByClause rec l = Ok x -> holds l x.
  Proof. intros F H. unfold new_OrderByClause in H. checked_kind H Hk. plain_sort l IH F H Hk. Qed.
  Lemma OrderExpression_kept l x : fine l -> new_OrderExpression rec l = Ok x -> holds l x.
  Proof. intros F H. unfold new_OrderExpression in H. checked_kind H Hk. plain_sort l IH F H Hk. Qed.
  Lemma GroupByClause_kept l x : fine l -> new_GroupByClause rec l = Ok x -> holds l x.
  Proof.
    intros F H. unfold new_GroupByClause in H. checked_kind H Hk. open_rule l F Hk; links; kid_lists; inv_new H; try done_new H; node_body F Hk; kp.
    - destruct (sep_all _ _ _ _ _ _ _ P0 H3 eq_refl eq_refl eq_refl) as [EC HF].
      destruct (group_items rec IH _ _ E HF) as [N K]. rewrite N. cbn [rev flat_map app]. rewrite app_nil_r.
      rewrite EC in K. cbn [map follow] in K. rewrite app_nil_r in K. exact K.
    - destruct (sep_all _ _ _ _ _ _ _ P0 H3 eq_refl eq_refl eq_refl) as [EC HF].
      destruct (group_items rec IH _ _ E0 HF) as [N K].
      unfold group_by_item in E. ev E. inv_bind E. injection E as <-. rec_step IH.
      unfold lefts, rights in *. rewrite !flat_map_app, N.
      cbn [flat_map app rev]. rewrite app_nil_r. rewrite EC in K. cbn [map] in K.
      rewrite (follow_branch _ _ _ _ _ H5 eq_refl), app_nil_r in K. apply kept_app; [exact K|]. pc. kp.
  Qed.
  Lemma SoslWithClause_kept l x : fine l -> new_SoslWithClause rec l = Ok x -> holds l x.
  Proof. intros F H. unfold new_SoslWithClause in H. checked_kind H Hk. plain_sort l IH F H Hk. Qed.
  Lemma SoqlWithClause_kept l x : fine l -> new_SoqlWithClause rec l = Ok x -> holds l x.
  Proof. intros F H. unfold new_SoqlWithClause in H. checked_kind H Hk. plain_sort l IH F H Hk. Qed.
  Lemma SoqlWithType_kept l x : fine l -> new_SoqlWithType l = Ok x -> holds l x.
  Proof.
    intros F H. unfold new_SoqlWithType in H. checked_kind H Hk.
    assert (U : untouched (l_node l)) by (apply with_type_atom; [exact (f_valid _ F)|exact Hk]).
    rewrite (named_untouched l U) in H. open_rule l F Hk; links; kid_lists; rewrite ENamed in H; inv_new H; try done_new H.
    1-3: apply nodeP_holds; [exact F|rewrite Hk; vm_compute; auto|]; cbn [flat_map pieces wrap app]; rewrite !app_nil_r;
      pose proof (nodeP_kept l [TTxt (value l)] (inner (l_node l)) (atom_calm l (f_valid _ F) U) (f_right l F)) as K;
      rewrite (f_alone l F) in K by (rewrite Hk; reflexivity);
      destruct (valid_calm _ (f_valid l F)) as (_ & _ & Hq & _); destruct (Hq Hk) as [Hq1 Hq2];
      destruct (node_sides _ (f_valid l F)) as [Ho Hc]; [rewrite punct_is; unfold kind in Hk; rewrite Hk; reflexivity|..];
      rewrite <- Ho, <- Hc, Hq1, Hq2 in K; cbn [marks map app] in K; rewrite app_nil_r in K; apply K; cbn [flat_map pieces app];
      apply kept_inner; [exact (f_valid _ F)|exact U|unfold kind in Hk; rewrite Hk; reflexivity].
    - node_body F Hk. eapply user_id; first [eassumption|hush].
    - exfalso. inv_res E.
  Qed.
  Lemma SoslWithType_kept l x : fine l -> new_SoslWithType rec l = Ok x -> holds l x.
  Proof.
    intros F H. unfold new_SoslWithType in H. checked_kind H Hk. open_rule l F Hk; links; kid_lists; unfold_access H; use_lists H; ev H; cbn [rbind] in H; try done_new H.
    each_kind x1; inv_res H; repeat rec_step IH; silent_body F Hk; kp.
  Qed.
  Lemma WithDataCatExpression_kept l x : fine l -> new_WithDataCatExpression rec l = Ok x -> holds l x.
  Proof.
    intros F H. unfold new_WithDataCatExpression in H. checked_kind H Hk. plain_sort l IH F H Hk. rewrite app_nil_r.
    eapply (linking_kept rec IH); try eassumption; first [reflexivity|not_if].
  Qed.
  Lemma WithDataCatFilter_kept l x : fine l -> new_WithDataCatFilter l = Ok x -> holds l x.
  Proof.
    intros F H. unfold new_WithDataCatFilter in H. checked_kind H Hk. plain_sort l IH F H Hk.
    all: apply kept_app; [eapply upper_kept; try eassumption; try reflexivity; follows|]; kp.
    destruct (evens x11) as [|c cs] eqn:Ee; [exfalso; exact (separated_evens _ _ _ _ _ H11 Ee)|]. rewrite <- Ee.
    pc. kp. apply kept_app; [eapply seps_vn; try eassumption; try reflexivity; follows|]. kp.
  Qed.
  Lemma WithDivisionExpression_kept l x : fine l -> new_WithDivisionExpression rec l = Ok x -> holds l x.
  Proof.
    intros F H. unfold new_WithDivisionExpression in H. checked_kind H Hk. soql_silent l IH F H Hk.
  Qed.
  Lemma WithSnippetExpression_kept l x : fine l -> new_WithSnippetExpression l = Ok x -> holds l x.
  Proof. intros F H. unfold new_WithSnippetExpression in H. checked_kind H Hk. plain_sort l IH F H Hk. Qed.
  Lemma WithNetworkExpression_kept l x : fine l -> new_WithNetworkExpression rec l = Ok x -> holds l x.
  Proof.
    intros F H. unfold new_WithNetworkExpression in H. checked_kind H Hk. open_rule l F Hk; links; kid_lists; unfold get_comparsion in H; inv_new H; try done_new H.
    all: match goal with
      | E : next_named ?c = Ok ?n, P : placed _ ?c (?y :: _), B : branch _ _ _ _ ?y, P' : placed _ ?y _ |- _ =>
          let Q := fresh "Q" in let Bn := fresh "B" in let Pn := fresh "P" in
          destruct (next_placed _ _ _ _ _ _ _ _ P B P' E) as (Q & Bn & Pn); clear E B P';
          repeat match goal with E' : (if _ then _ else _) = Ok _ |- _ => inv_res E' end;
          repeat rec_step IH; node_body F Hk; kp; rewrite <- Q
      end.
    all: apply kept_padded; [eapply proj1, proj2, proj2; eassumption|atom|hush|]; kp.
  Qed.
  Lemma WithMetadataExpression_kept l x : fine l -> new_WithMetadataExpression l = Ok x -> holds l x.
  Proof. intros F H. unfold new_WithMetadataExpression in H. checked_kind H Hk. plain_sort l IH F H Hk. Qed.
  Lemma WithSpellCorrectionExpression_kept l x : fine l -> new_WithSpellCorrectionExpression l = Ok x -> holds l x.
  Proof. intros F H. unfold new_WithSpellCorrectionExpression in H. checked_kind H Hk. plain_sort l IH F H Hk. Qed.
  Lemma WithPriceBookExpression_kept l x : fine l -> new_WithPriceBookExpression l = Ok x -> holds l x.
  Proof. intros F H. unfold new_WithPriceBookExpression in H. checked_kind H Hk. plain_sort l IH F H Hk. Qed.
  Lemma DottedIdentifier_kept l x : fine l -> new_DottedIdentifier l = Ok x -> holds l x.
  Proof.
    intros F H. unfold new_DottedIdentifier in H. checked_kind H Hk. plain_sort l IH F H Hk.
    rewrite app_nil_r. eapply dots_kept; try eassumption; reflexivity.
  Qed.
  Lemma CountExpression_kept l x : fine l -> new_CountExpression l = Ok x -> holds l x.
  Proof. intros F H. unfold new_CountExpression in H. checked_kind H Hk. plain_sort l IH F H Hk. Qed.
  Lemma FunctionExpression_kept l x : fine l -> new_FunctionExpression rec l = Ok x -> holds l x.
  Proof.
    intros F H. unfold new_FunctionExpression in H. checked_kind H Hk. open_rule l F Hk; links; kid_lists; inv_new H; try done_new H; res_steps; cbn [tl] in *; inv_maps; repeat rec_step IH; node_body F Hk; kp.
  Qed.
  Lemma FieldIdentifier_kept l x : fine l -> new_FieldIdentifier rec l = Ok x -> holds l x.
  Proof.
    intros F H. unfold new_FieldIdentifier in H. checked_kind H Hk. soql_sort l IH F H Hk.
  Qed.
  Lemma GeoLocationType_kept l x : fine l -> new_GeoLocationType rec l = Ok x -> holds l x.
  Proof.
    intros F H. unfold new_GeoLocationType in H. checked_kind H Hk. soql_sort l IH F H Hk.
  Qed.
  Lemma SelectClause_kept l x : fine l -> new_SelectClause rec l = Ok x -> holds l x.
  Proof. intros F H. unfold new_SelectClause in H. checked_kind H Hk. plain_sort l IH F H Hk. Qed.
  Lemma StorageIdentifier_kept l x : fine l -> new_StorageIdentifier l = Ok x -> holds l x.
  Proof.
    intros F H. unfold new_StorageIdentifier in H. checked_kind H Hk. soql_sort l IH F H Hk.
    rewrite app_nil_r. eapply dotted_inside; first [eassumption|hush].
  Qed.
  Lemma FieldsExpression_kept l x : fine l -> new_FieldsExpression l = Ok x -> holds l x.
  Proof.
    intros F H. unfold new_FieldsExpression in H. checked_kind H Hk. plain_sort l IH F H Hk.
    apply kept_app; [eapply upper_kept; try eassumption; try reflexivity; follows|]. kp.
  Qed.
  Lemma AliasExpression_kept l x : fine l -> new_AliasExpression rec l = Ok x -> holds l x.
  Proof. intros F H. unfold new_AliasExpression in H. checked_kind H Hk. plain_sort l IH F H Hk. Qed.
  Lemma NotExpression_kept l x : fine l -> new_NotExpression rec l = Ok x -> holds l x.
  Proof.
    intros F H. unfold new_NotExpression in H. checked_kind H Hk. soql_sort l IH F H Hk.
    - eapply (plain_cond rec IH); try eassumption; try reflexivity. eapply branch_widen; [eassumption|reflexivity].
    - eapply (group_cond rec IH _ x1); try eassumption; try reflexivity. split; [eassumption|]. split; [eassumption|].
      split; [eassumption|exact I].
  Qed.
  Lemma OffsetClause_kept l x : fine l -> new_OffsetClause rec l = Ok x -> holds l x.
  Proof.
    intros F H. unfold new_OffsetClause in H. checked_kind H Hk. soql_silent l IH F H Hk.
  Qed.
  Lemma ReturningClause_kept l x : kind l = "returning_clause" -> fine l -> new_ReturningClause rec l = Ok x -> holds l x.
  Proof. intros Hk F H. unfold new_ReturningClause in H. plain_sort l IH F H Hk. Qed.
  Lemma UpdateClause_kept l x : kind l = "update_clause" -> fine l -> new_UpdateClause l = Ok x -> holds l x.
  Proof.
    intros Hk F H. unfold new_UpdateClause in H. plain_sort l IH F H Hk.
    eapply seps_vn; try eassumption; reflexivity.
  Qed.
  Lemma ComparableList_kept l x : kind l = "comparable_list" -> fine l -> new_ComparableList rec l = Ok x -> holds l x.
  Proof. intros Hk F H. unfold new_ComparableList in H. plain_sort l IH F H Hk. Qed.
  Lemma SubQuery_kept l x : kind l = "subquery" -> fine l -> new_SubQuery rec l = Ok x -> holds l x.
  Proof. intros Hk F H. unfold new_SubQuery in H. plain_sort l IH F H Hk. Qed.
  Lemma ValueExpression_kept l x : fine l -> new_ValueExpression rec l = Ok x -> holds l x.
  Proof. intros F H. unfold new_ValueExpression in H. dispatch IH F H. Qed.
  Lemma SelectableExpression_kept l x : fine l -> new_SelectableExpression rec l = Ok x -> holds l x.
  Proof.
    intros F H. unfold new_SelectableExpression in H. dispatch IH F H. all: res_steps; leaf IH F.
  Qed.
  Lemma StorageVariant_kept l x : fine l -> new_StorageVariant rec l = Ok x -> holds l x.
  Proof. intros F H. unfold new_StorageVariant in H. dispatch IH F H. Qed.
  Lemma LimitValue_kept l x : fine l -> new_LimitValue rec l = Ok x -> holds l x.
  Proof. intros F H. unfold new_LimitValue in H. dispatch IH F H. Qed.
  Lemma SetValue_kept l x : fine l -> new_SetValue rec l = Ok x -> holds l x.
  Proof. intros F H. unfold new_SetValue in H. dispatch IH F H. Qed.
  Lemma ComparableListValue_kept l x : fine l -> new_ComparableListValue rec l = Ok x -> holds l x.
  Proof. intros F H. unfold new_ComparableListValue in H. dispatch IH F H. Qed.
  Lemma SoqlLiteral_kept l x : fine l -> new_SoqlLiteral l = Ok x -> holds l x.
  Proof.
    intros F H. unfold new_SoqlLiteral in H.
    destruct (kind_in (kind l) _) eqn:Q; [injection H as <-; apply wrap_holds, vn_holds; [exact F| |exact (kinds_plain _ _ Q eq_refl)]|].
    { intro S. pose proof (kinds_not _ silent_kinds _ Q eq_refl) as N. unfold kind in *. congruence. }
    clear Q. destruct (is_kind "date_literal_with_param" l) eqn:Q; [|discriminate]. clear Q.
    unfold wrap_r in H. inv_bind H. injection H as <-. apply wrap_holds. rename E into H.
    unfold new_DateLiteralWithParam in H. checked_kind H Hk.
    open_rule l F Hk. links. kid_lists. inv_new H. done_new H. node_body F Hk.
    apply Mk_split; [first [reflexivity|apply Bool.andb_false_r]|].
    match goal with |- mkept ?L (?a :: ?b) => change (mkept L ([a] ++ b)) end. apply kept_app.
    { match goal with B : branch _ _ _ ["date_literal"] ?c |- _ =>
        apply kept_caseless; [|exact (proj1 B)|pose proof (only_kind _ _ _ _ B) as Q; unfold kind in Q; rewrite Q; reflexivity|hush|apply bits_upper] end.
      match goal with P : placed _ ?c _ |- valid (l_node ?c) => exact (proj1 (proj2 (proj2 P))) end. }
    match goal with |- mkept _ [?a :: ?b] => change (a :: b) with ([a] ++ b) end. apply Mk_split; [first [reflexivity|apply Bool.andb_false_r]|].
    eapply kept_sign1; [eassumption|still|reflexivity|].
    match goal with B : branch _ _ _ ["int"] ?c, P : placed _ ?c _ |- _ => apply kept_node; [exact (proj1 (proj2 (proj2 P)))|atom|hush] end.
  Qed.
  Lemma AndExpression_kept l x : fine l -> new_AndExpression rec l = Ok x -> holds l x.
  Proof.
    intros F H. unfold new_AndExpression in H. checked_kind H Hk.
    destruct (use_rules l _ (f_valid l F) (f_named l F) Hk) as (alt & ks & Hin & EK & HF & HL); [discriminate|].
    destruct Hin as [<-|[]]. cbn [fits] in HF. destruct HF as (a & r & -> & C & ->). links. kid_lists.
    unfold_access H. use_lists H. inv_bind H. done_new H.
    node_body F Hk. apply (conditions_kept rec IH l [] _ _ "AND" _ _ ltac:(not_if) C [] (U "AND ") _); try reflexivity; try assumption.
  Qed.
  Lemma OrExpression_kept l x : fine l -> new_OrExpression rec l = Ok x -> holds l x.
  Proof.
    intros F H. unfold new_OrExpression in H. checked_kind H Hk.
    destruct (use_rules l _ (f_valid l F) (f_named l F) Hk) as (alt & ks & Hin & EK & HF & HL); [discriminate|].
    destruct Hin as [<-|[]]. cbn [fits] in HF. destruct HF as (a & r & -> & C & ->). links. kid_lists.
    unfold_access H. use_lists H. inv_bind H. done_new H.
    node_body F Hk. apply (conditions_kept rec IH l [] _ _ "OR" _ _ ltac:(not_if) C [] (U "OR ") _); try reflexivity; try assumption.
  Qed.
  Lemma BooleanExpression_kept q l x : fine l -> expected (BooleanExpression q) l -> new_BooleanExpression rec q l = Ok x -> holds l x.
  Proof.
    intros F X H. unfold new_BooleanExpression in H.
    destruct (is_kind "and_expression" l) eqn:Q1; [apply kind_of in Q1; leaf IH F|].
    destruct (is_kind "or_expression" l) eqn:Q2; [apply kind_of in Q2; leaf IH F|].
    destruct (is_kind "not_expression" l) eqn:Q3; [apply kind_of in Q3; leaf IH F|].
    assert (Q : is_kind "comparison_expression" l = true).
    { unfold expected, expect, kind_in in X. cbn [existsb] in X. unfold is_kind, has_kind in *. unfold kind in X.
      rewrite Q1, Q2, Q3 in X. destruct (String.eqb (n_kind (l_node l)) "comparison_expression"); [reflexivity|discriminate X]. }
    assert (G : grouped_by q l = false) by (unfold grouped_by; rewrite Q; reflexivity).
    assert (K : mkept (claims (ConditionExpression q) l) (pieces x)).
    { apply IH; [|exact H]. split; [exact F|]. split; [exact X|]. cbn [special]. rewrite G. discriminate. }
    cbn [claims] in K. rewrite G in K. exact K.
  Qed.
  Lemma ConditionExpression_kept q l x : ok (ConditionExpression q) l -> new_ConditionExpression rec q l = Ok x ->
    mkept (claims (ConditionExpression q) l) (pieces x).
  Proof.
    intros (F & X & S) H. unfold new_ConditionExpression in H. cbn [claims special] in *. unfold grouped_by in *.
    destruct (is_kind "comparison_expression" l) eqn:Q.
    - apply kind_of in Q. cbn [negb andb]. change (holds l x). leaf IH F.
    - cbn [negb andb] in *. inv_bind H. injection H as <-.
      assert (K : holds l x0) by (eapply (rec_holds rec IH (BooleanExpression (bool_operator l))); [reflexivity|exact F|exact X|exact E]).
      destruct (should_parenthesize q (bool_operator l)); [|exact K].
      destruct (S eq_refl) as (o & lo & e & re & El & Er & So & Se & Hf).
      unfold holds in K. rewrite (claim_none l Hf) in K. rewrite El, Er. cbn [firstn].
      cbn [flat_map]. rewrite !app_nil_r.
      change (mkept (mleaves o ++ mleaves (l_node l) ++ mleaves e) (U "(" :: pieces x0 ++ U ")" :: [])).
      eapply kept_sign1; [exact So|left; reflexivity|reflexivity|]. apply kept_app; [exact K|].
      rewrite <- (app_nil_r (mleaves e)). eapply kept_sign1; [exact Se|left; reflexivity|reflexivity|constructor].
  Qed.
  Lemma ForClause_kept l x : ok ForClause l -> new_ForClause l = Ok x -> mkept (claims ForClause l) (pieces x).
  Proof.
    intros (F & X & _) H. unfold new_ForClause in H. checked_kind H Hk.
    open_rule l F Hk. links. kid_lists. inv_new H. done_new H. cbn [claims].
    apply nodeP_kept; [apply kind_calm; [exact (f_valid _ F)|rewrite Hk; reflexivity]|apply (f_right _ F)|]. rewrite <- ckids_nodes.
    assert (Ef : filter n_named (map l_node (ckids l)) = [l_node x3])
      by (rewrite <- (filter_locs n_named); change (map l_node (cnamed l) = [l_node x3]); rewrite ENamed; reflexivity).
    rewrite Ef. pc. kp.
  Qed.
End Sorts.
