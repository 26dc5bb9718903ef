(* TokensQueries.v: lists of parts that only queries have, and tactics for queries. *)
From Coq Require Import Sorting.Sorted Lia.
From Verif Require Import Base Doc DocBuilder Cst Comments Term SpecTree New SpecWords SpecTokens SpecLoud BitsProofs TokensProofs TokensMarks TokensProofs2 TokensProofs3.
Local Open Scope string_scope.
Local Open Scope list_scope.

(* ------------------------------------------------------------ lists of parts *)

Section Dangling1.
Context {DG : dangles}.
Lemma joined_nil l : joined [] l = List.concat l.
Proof.
  destruct l as [|x l]; [reflexivity|]. unfold joined. cbn [List.concat]. f_equal.
Qed.
Lemma joined_cons s x y l : joined s (x :: y :: l) = x ++ s ++ joined s (y :: l).
Proof. unfold joined. cbn [flat_map]. rewrite <- !app_assoc. reflexivity. Qed.
Lemma named_extra p a t : linked_to p a t ->
  filter (fun c => negb (is_extra c)) (filter is_named a) = filter is_named a.
Proof. intro H. apply filter_all. intros c Hc. apply filter_In in Hc as [Hc _]. eapply linked_to_extra; eauto. Qed.
Lemma linked_to_app p a b t : linked_to p (a ++ b) t -> linked_to p a (b ++ t) /\ linked_to p b t.
Proof.
  induction a as [|c a IH]; intro H; [split; [exact I|exact H]|]. destruct H as [H1 H2].
  destruct (IH H2) as [H3 H4]. split; [|exact H4]. split; [|exact H3]. rewrite <- app_assoc in H1. exact H1.
Qed.
Lemma keyword_apart k : keyword_kind k = true -> kind_in k apart_kinds = false.
Proof.
  intro E. destruct (kind_in k apart_kinds) eqn:Q; [|reflexivity]. unfold apart_kinds, kind_in in Q. cbn [existsb] in Q.
  repeat (apply Bool.orb_prop in Q as [Q|Q]; [apply String.eqb_eq in Q; subst k; discriminate E|]). discriminate.
Qed.
Lemma upper_kept p c r fs f k : placed p c r -> follow (map l_node r) = [] ->
  branch l_node fs f [k] c -> keyword_kind k = true -> mkept (mleaves (l_node c)) (pieces (vn_upper c)).
Proof.
  intros (Hr & _ & Hv & HV) Hf (Bn & Bk & _) E. unfold vn_upper. rewrite <- Hr in Hf.
  rewrite node_marks; [|exact Hv|rewrite (kind_one _ _ Bk); apply keyword_apart, E].
  rewrite <- (app_nil_r (marks (n_post _))), <- Hf. apply nodeP_kept; [apply kind_calm; [exact Hv|]|exact HV|].
  { unfold kind. rewrite (kind_one _ _ Bk). destruct (kind_in k body_kinds) eqn:Q; [|reflexivity].
    unfold body_kinds, kind_in in Q. cbn [existsb] in Q.
    repeat (apply Bool.orb_prop in Q as [Q|Q]; [apply String.eqb_eq in Q; subst k; discriminate E|]). discriminate. }
  simpl.
  apply caseless_inner; [exact Hv|exact Bn|rewrite (kind_one _ _ Bk); exact E|apply bits_upper].
Qed.
Lemma seps_vn p t fs sg f ks a : separated l_node fs sg f ks a -> linked_to p a t -> follow (map l_node t) = [] ->
  forallb (fun k => negb (kind_in k silent_kinds)) ks = true ->
  forallb (fun k => negb (kind_in k alone_kinds)) ks = true -> kind_in sg [","; ";"] = true -> plain_kinds ks = true ->
  mkept (flat_map mleaves (map l_node a)) (flat_map pieces (map vn (evens a))).
Proof.
  intros HS HL Hf E1 E2 Es Ep. rewrite <- (app_nil_r (flat_map mleaves _)), <- Hf.
  destruct (sep_all p fs sg f ks a t HL HS E1 E2 Es) as [<- HF]. induction (evens a) as [|c b IHb]; [constructor|].
  cbn [map flat_map]. apply kept_app; [|apply IHb; intros; apply HF; right; assumption].
  destruct (HF c (or_introl eq_refl)) as [Fc Hk]. apply vn_holds; [exact Fc| |exact (kinds_plain _ ks Hk Ep)].
  unfold kind. rewrite (kinds_not ks silent_kinds _ Hk E1). discriminate.
Qed.
(* identifiers with dots between them *)
Lemma dots_kept p t fs f ks a : separated l_node fs "." f ks a -> linked_to p a t -> follow (map l_node t) = [] -> plain_kinds ks = true ->
  forallb (fun k => negb (kind_in k apart_kinds)) ks = true ->
  mkept (flat_map mleaves (map l_node a)) (joined [U "."] (map pieces (map vn (evens a)))).
Proof.
  intros HS HL Hf Ep Ea. induction HS as [c Hc|c x r Hc Hx HS IHs]; cbn [evens map].
  - destruct HL as (P & _). cbn [flat_map]. unfold joined. cbn [flat_map]. rewrite !app_nil_r.
    apply (vn_kept _ _ _ P (branch_atom _ _ _ _ _ _ Hc P Ep) (apart_branch _ _ _ _ Hc Ea)). exact Hf.
  - destruct HL as (P & Px & HL). specialize (IHs HL).
    destruct (evens r) as [|c' b] eqn:Er; [exfalso; exact (separated_evens _ _ _ _ _ HS Er)|].
    cbn [map] in *. rewrite joined_cons. cbn [flat_map].
    apply kept_app; [apply (vn_kept _ _ _ P (branch_atom _ _ _ _ _ _ Hc P Ep) (apart_branch _ _ _ _ Hc Ea)); exact (follow_sign _ _ _ _ _ Hx eq_refl)|].
    apply (kept_sign1 _ "." _ _ _ (sign_signed _ _ _ _ Hx (proj1 (proj2 (proj2 Px))))); [left; reflexivity|reflexivity|exact IHs].
Qed.

Section Parts.
  Variable rec : sort -> loc -> res dt.
  Hypothesis IH : forall s l x, ok s l -> rec s l = Ok x -> mkept (claims s l) (pieces x).

  (* parts with words between them *)
  Lemma linking_kept p t fs w f k a s v ds : is_kind "if_statement" p = false -> linking l_node fs w f [k] a -> linked_to p a t -> follow (map l_node t) = [] ->
    usual s = true -> expect_in s [k] = true -> kind_in k [","; ";"] = false -> bits v = bits (U w) ->
    mapR (rec s) (filter (is_kind k) (filter is_named a)) = Ok ds ->
    ds <> [] /\ mkept (flat_map mleaves (map l_node a)) (joined [v] (map pieces ds)).
  Proof.
    intros HI HK. revert ds. induction HK as [c Hc|c x r Hc Hx HK IHk]; intros ds HL Hf Hs He Hk Hv E.
    - destruct HL as (P & _). cbn [filter] in E. rewrite (branch_named _ _ _ _ Hc) in E. cbn [filter] in E.
      rewrite (branch_yes _ _ _ _ Hc) in E. apply mapR_cons in E as (d & ds' & -> & E & E'). injection E' as <-.
      split; [discriminate|]. cbn [map flat_map]. unfold joined. cbn [flat_map]. rewrite !app_nil_r.
      exact (rec_none _ IH _ _ _ _ _ _ _ _ E Hc P Hf Hs He).
    - destruct HL as (P & HL). apply linked_to_app in HL as [HLx HL]. cbn [filter] in E.
      rewrite (branch_named _ _ _ _ Hc) in E. cbn [filter] in E.
      rewrite (branch_yes _ _ _ _ Hc), filter_app, (worded_named _ _ _ Hx) in E. cbn [app] in E.
      apply mapR_cons in E as (d & ds' & -> & E & E'). destruct (IHk ds' HL Hf Hs He Hk Hv E') as [N K].
      split; [discriminate|]. destruct ds' as [|d' ds']; [contradiction|]. cbn [map] in *. rewrite joined_cons. cbn [flat_map]. rewrite map_app, flat_map_app.
      apply kept_app; [|exact (kept_worded _ _ _ _ _ _ _ _ Hx HLx HI Hv K)].
      rewrite <- app_assoc in P. exact (rec_none _ IH _ _ _ _ _ _ _ _ E Hc P (follow_word _ _ _ _ Hx) Hs He).
  Qed.

  (* conditions *)
  Definition op_kind (op : string) : string :=
    if String.eqb op "AND" then "and_expression" else if String.eqb op "OR" then "or_expression" else "not_expression".
  Lemma branch_widen fs f ks ks' c : branch l_node fs f ks c -> forallb (fun k => kind_in k ks') ks = true -> branch l_node fs f ks' c.
  Proof. intros (B1 & B2 & B3) H. split; [exact B1|]. split; [eapply kinds_in; eassumption|exact B3]. Qed.
  Lemma plain_cond p c r d fs op : rec (ConditionExpression (Some op)) c = Ok d ->
    branch l_node fs "" ["comparison_expression"; op_kind op] c -> placed p c r -> follow (map l_node r) = [] ->
    kind_in op ["AND"; "OR"; "NOT"] = true ->
    mkept (mleaves (l_node c)) (pieces d).
  Proof.
    intros E B (Hr & _ & Hv & HV) Hf Hop. rewrite <- Hr in Hf.
    assert (G : grouped_by (Some op) c = false).
    { unfold grouped_by. destruct B as (_ & B & _). unfold is_kind, has_kind, should_parenthesize, bool_operator, is_kind, has_kind, op_kind, kind_in in *.
      cbn [existsb] in *. destruct (String.eqb_spec (n_kind (l_node c)) "comparison_expression") as [|Q]; [reflexivity|]. cbn [orb] in B.
      rewrite Bool.orb_false_r in B. apply String.eqb_eq in B. rewrite B.
      destruct (String.eqb_spec op "AND") as [->|]; [reflexivity|]. destruct (String.eqb_spec op "OR") as [->|]; [reflexivity|].
      destruct (String.eqb_spec op "NOT") as [->|]; [reflexivity|discriminate Hop]. }
    assert (K : mkept (claims (ConditionExpression (Some op)) c) (pieces d)).
    { apply IH; [|exact E]. split; [apply fine_none; auto; apply B|]. split.
      - unfold expected. cbn [expect]. destruct B as (_ & B & _). unfold kind, op_kind, kind_in in *. cbn [existsb] in *.
        destruct (String.eqb (n_kind (l_node c)) "comparison_expression"); [reflexivity|]. cbn [orb] in B. rewrite Bool.orb_false_r in B.
        apply String.eqb_eq in B. rewrite B. destruct (String.eqb op "AND"), (String.eqb op "OR"); reflexivity.
      - cbn [special]. rewrite G. discriminate. }
    cbn [claims] in K. rewrite G, (claim_none c Hf) in K. exact K.
  Qed.
  Lemma group_cond p u o c e t d fs op ks : rec (ConditionExpression (Some op)) c = Ok d ->
    ckids p = u ++ o :: c :: e :: t ->
    sign l_node fs "" "(" o -> branch l_node fs "" ks c -> sign l_node fs "" ")" e ->
    linked_to p [o; c; e] t -> kind_in op ["AND"; "OR"; "NOT"] = true ->
    forallb (fun k => kind_in k ["and_expression"; "or_expression"; "not_expression"]) ks = true ->
    kind_in (op_kind op) ks = false ->
    mkept (mleaves (l_node o) ++ mleaves (l_node c) ++ mleaves (l_node e)) (pieces d).
  Proof.
    intros E EK So B Se (Po & (Hr & Hp & Hv & HV) & Pe & _) Hop Hks Hno.
    pose proof (sign_signed _ _ _ _ So (proj1 (proj2 (proj2 Po)))) as Go.
    pose proof (sign_signed _ _ _ _ Se (proj1 (proj2 (proj2 Pe)))) as Ge.
    destruct (kids_left _ _ _ _ _ EK) as [lo Hl].
    assert (Bk : kind_in (n_kind (l_node c)) ["and_expression"; "or_expression"; "not_expression"] = true)
      by (eapply kinds_in; [|exact Hks]; apply B).
    assert (Hc : is_kind "comparison_expression" c = false) by (eapply kind_no; [exact Bk|reflexivity]).
    assert (G : grouped_by (Some op) c = true).
    { unfold grouped_by. rewrite Hc. cbn [negb andb]. unfold should_parenthesize, bool_operator.
      pose proof (branch_no _ _ _ (op_kind op) _ B Hno) as Hn. unfold op_kind, kind_in in *. cbn [existsb] in *.
      destruct (String.eqb_spec op "AND") as [->|]; [|destruct (String.eqb_spec op "OR") as [->|];
        [|destruct (String.eqb_spec op "NOT") as [->|]; [|discriminate]]]; cbn in Hn; rewrite ?Hn.
      - destruct (is_kind "or_expression" c); [reflexivity|]. destruct (is_kind "not_expression" c); reflexivity.
      - destruct (is_kind "and_expression" c); [reflexivity|]. destruct (is_kind "not_expression" c); reflexivity.
      - destruct (is_kind "and_expression" c); [reflexivity|]. destruct (is_kind "or_expression" c); reflexivity. }
    assert (K : mkept (claims (ConditionExpression (Some op)) c) (pieces d)).
    { apply IH; [|exact E]. split; [|split].
      - apply fine_none; auto; [apply B|]. rewrite Hr. exact (follow_sign _ _ _ _ _ Se eq_refl).
      - unfold expected. cbn [expect]. unfold kind. revert Bk. unfold kind_in. cbn [existsb].
        rewrite !orb_true_iff. tauto.
      - cbn [special]. intros _. rewrite Hl, Hr. cbn [map app]. do 4 eexists. split; [reflexivity|]. split; [reflexivity|].
        split; [exact Go|]. split; [exact Ge|]. exact (follow_sign _ _ _ _ _ Se eq_refl). }
    cbn [claims] in K. rewrite G, Hl, Hr in K. cbn [map app firstn flat_map] in K. rewrite !app_nil_r in K. exact K.
  Qed.
  Lemma conditions_kept p t fs w op ks a : is_kind "if_statement" p = false -> conditions l_node fs w ["comparison_expression"; op_kind op] ks a ->
    forall u v ds, ckids p = u ++ a ++ t -> linked_to p a t -> follow (map l_node t) = [] ->
    kind_in op ["AND"; "OR"; "NOT"] = true ->
    forallb (fun k => kind_in k ["and_expression"; "or_expression"; "not_expression"]) ks = true ->
    kind_in (op_kind op) ks = false -> bits v = bits (U w) ->
    mapR (rec (ConditionExpression (Some op))) (filter is_named a) = Ok ds ->
    ds <> [] /\ mkept (flat_map mleaves (map l_node a)) (joined [v] (map pieces ds)).
  Proof.
    intro HI. assert (One : forall a u t ds, condition l_node fs ["comparison_expression"; op_kind op] ks a -> ckids p = u ++ a ++ t -> linked_to p a t -> follow (map l_node t) = [] ->
      kind_in op ["AND"; "OR"; "NOT"] = true ->
      forallb (fun k => kind_in k ["and_expression"; "or_expression"; "not_expression"]) ks = true ->
      kind_in (op_kind op) ks = false ->
      mapR (rec (ConditionExpression (Some op))) (filter is_named a) = Ok ds ->
      exists d, ds = [d] /\ mkept (flat_map mleaves (map l_node a)) (pieces d)).
    { intros a0 u t0 ds [c Hc|o c e Ho Hc He] EK HL Hf H1 H2 H3 E.
      - cbn [filter] in E. rewrite (branch_named _ _ _ _ Hc) in E. apply mapR_cons in E as (d & ds' & -> & E & E').
        injection E' as <-. exists d. split; [reflexivity|]. cbn [map flat_map]. rewrite app_nil_r. destruct HL as (P & _).
        eapply plain_cond; eauto.
      - cbn [filter] in E. rewrite (branch_named _ _ _ _ Hc), (sign_named _ _ _ _ Ho), (sign_named _ _ _ _ He) in E.
        apply mapR_cons in E as (d & ds' & -> & E & E'). injection E' as <-. exists d. split; [reflexivity|].
        cbn [map flat_map]. rewrite app_nil_r. exact (group_cond p u o c e t0 d fs op ks E EK Ho Hc He HL H1 H2 H3). }
    induction 1 as [a Ha|a x r Ha Hx HC IHc]; intros u v ds EK HL Hf H1 H2 H3 Hv E.
    - destruct (One a u t ds Ha EK HL Hf H1 H2 H3 E) as (d & -> & K). split; [discriminate|].
      unfold joined. cbn [map flat_map]. rewrite app_nil_r. exact K.
    - apply linked_to_app in HL as [HLa HL]. apply linked_to_app in HL as [HLx HL].
      rewrite !filter_app, (worded_named _ _ _ Hx) in E. cbn [app] in E. apply mapR_app in E as (d1 & d2 & -> & E1 & E2).
      rewrite <- !app_assoc in EK.
      destruct (One a u ((x ++ r) ++ t) d1 Ha) as (d & -> & K1); auto.
      { rewrite EK, <- !app_assoc. reflexivity. }
      { rewrite <- app_assoc. exact (follow_word _ _ _ _ Hx). }
      destruct (IHc (u ++ a ++ x) v d2) as [N K]; auto; [rewrite EK, <- !app_assoc; reflexivity|].
      split; [discriminate|]. destruct d2 as [|d' d2]; [contradiction|]. cbn [map app] in *. rewrite joined_cons, !map_app, !flat_map_app.
      apply kept_app; [exact K1|]. exact (kept_worded _ _ _ _ _ _ _ _ Hx HLx HI Hv K).
  Qed.
  (* the clause FOR, whose first word its query prints *)
  Lemma for_kept c d fs f : branch l_node fs f ["for_clause"] c -> valid (l_node c) -> rec ForClause c = Ok d ->
    rightly c -> follow (cright c) = [] ->
    mkept (mleaves (l_node c)) (U "FOR " :: pieces d).
  Proof.
    intros B V E HV Hf. pose proof (only_kind _ _ _ _ B) as Hk.
    destruct (use_rules c _ V (branch_named _ _ _ _ B) Hk) as (alt & ks & Hin & EK & HF & HL); [discriminate|].
    destruct Hin as [<-|[]]. cbn [fits] in HF. destruct HF as (a & t & -> & W & c' & t' & -> & B' & ->).
    apply linked_app in HL as [HL _]. destruct EK as [_ EK].
    assert (K : mkept (claims ForClause c) (pieces d)).
    { apply IH; [|exact E]. split; [apply fine_none; auto; apply B|]. split; exact I. }
    cbn [claims] in K. rewrite Hf, app_nil_r, <- ckids_nodes, EK in K.
    destruct B' as (Bn & Bk & _).
    assert (Ef : filter n_named (map l_node (a ++ [c'])) = [l_node c']).
    { rewrite map_app, filter_app. cbn [map filter]. rewrite Bn.
      destruct W as (_ & W & _). clear - W. induction W as [|x a (Hn & _) W IHa]; [reflexivity|]. cbn [map filter]. rewrite Hn. exact IHa. }
    rewrite Ef in K. cbn [flat_map] in K. rewrite app_nil_r in K. unfold kind in Hk.
    destruct (node_sides _ V) as [HO HC]; [rewrite punct_is, Hk; reflexivity|].
    assert (EC : code_children (l_node c) = map l_node a ++ [l_node c']) by (rewrite <- ckids_nodes, EK, map_app; reflexivity).
    assert (E0 : children (l_node c) <> []) by (intro E0; unfold code_children in EC; rewrite E0 in EC; destruct a; discriminate).
    assert (HE : forall z, early (l_node c) z = false) by (intro z; unfold early, has_kind; rewrite Hk; reflexivity).
    assert (Hd : dangle (n_id (l_node c)) = false) by (apply kind_calm; [exact V|unfold kind; rewrite Hk; reflexivity]).
    assert (HF : front (l_node c) = []).
    { unfold front. rewrite EC, existsb_app. cbn [existsb]. unfold late at 2. unfold has_kind. rewrite Hk, Bn. cbn [andb String.eqb Ascii.eqb Bool.eqb].
      rewrite orb_true_r. reflexivity. }
    assert (HA : Forall (fun z => n_named (l_node z) = false) a).
    { destruct W as (_ & W & _). eapply Forall_impl; [|exact W]. intros z (Hz & _). exact Hz. }
    assert (HI : mleaves (l_node c) = flat_map mleaves (map l_node a) ++
      marks (n_pre (n_id (l_node c))) ++ mleaves (l_node c') ++ marks (n_post (n_id (l_node c)))).
    { rewrite mleaves_inner, HF by apply V. rewrite behind_closing, HC by (unfold has_kind; rewrite Hk; reflexivity). cbn [marks map app].
      unfold inner. destruct (children (l_node c)) as [|y r]; [contradiction|]. rewrite EC, flat_map_app, <- app_assoc. f_equal.
      - clear - HA Hk HE Hd. induction HA as [|z a Hz HA IHa]; [reflexivity|].
        cbn [map flat_map]. rewrite IHa. unfold ahead, late. rewrite Hz, HE, Hd, Bool.andb_false_r. reflexivity.
      - cbn [flat_map]. unfold ahead. rewrite HE, Hd. unfold late, has_kind. rewrite Hk, Bn, HO. cbn [andb String.eqb Ascii.eqb Bool.eqb].
        rewrite !app_nil_r, <- !app_assoc. reflexivity. }
    rewrite HI. apply (kept_worded _ _ _ _ _ _ _ _ W HL); [unfold is_kind, has_kind; rewrite Hk; reflexivity|reflexivity|exact K].
  Qed.
End Parts.

End Dangling1.
Ltac res_steps :=
  repeat match goal with
  | E : (if _ then _ else _) = Ok _ |- _ => progress inv_res E
  | E : rmap _ _ = Ok _ |- _ => progress inv_res E
  | E : rbind _ _ = Ok _ |- _ => progress inv_res E
  end.
Ltac soql_sort l IH F H Hk :=
  open_rule l F Hk; links; kid_lists; inv_new H; try done_new H; res_steps; repeat rec_step IH; node_body F Hk; kp.
Ltac soql_silent l IH F H Hk :=
  open_rule l F Hk; links; kid_lists; inv_new H; try done_new H; res_steps; repeat rec_step IH; silent_body F Hk; kp.

(* ------------------------------------------------------------ other shapes *)

Section Dangling2.
Context {DG : dangles}.
Lemma next_placed p c y r fs f ks n : placed p c (y :: r) -> branch l_node fs f ks y -> placed p y r ->
  next_named c = Ok n -> l_node n = l_node y /\ branch l_node fs f ks n /\ placed p n r.
Proof.
  intros P B (Hr' & Hp' & Hv & HV) En. destruct (next_named_take _ _ _ _ _ _ _ _ P B En) as (lf & r' & -> & Er).
  split; [reflexivity|]. split; [exact B|]. unfold placed.
  assert (EC : cright (Loc (l_node y) lf r' (Some p)) = map l_node r) by exact Er.
  split; [exact EC|]. split; [reflexivity|]. split; [exact Hv|]. unfold rightly in *. rewrite EC, <- Hr'. cbn [parent l_node]. rewrite <- Hp'. exact HV.
Qed.
Lemma kept_padded n ls ws : valid n -> untouched n -> quiet n -> mkept ls ws -> mkept (mleaves n ++ ls) ((c_sp :: n_text n ++ [c_sp]) :: ws).
Proof.
  intros V U Q K. apply (Mk_split [c_sp] (n_text n ++ [c_sp])); [reflexivity|]. apply Mk_blank; [reflexivity|].
  apply Mk_split; [apply Bool.andb_false_r|]. apply kept_text; [exact V|exact U|exact Q|]. apply Mk_blank; [reflexivity|exact K].
Qed.
Lemma dotted_inside p c r fs f ids : branch l_node fs f ["dotted_identifier"] c -> placed p c r -> quiet (l_node c) ->
  cs_by_k "identifier" c = Ok ids -> mkept (mleaves (l_node c)) (joined [U "."] (map pieces (map vn ids))).
Proof.
  intros B (_ & _ & V & _) Q E. pose proof (only_kind _ _ _ _ B) as Hk.
  destruct (use_rules c _ V (branch_named _ _ _ _ B) Hk) as (alt & ks & Hin & EK & HF & HL); [discriminate|].
  destruct Hin as [<-|[]]. cbn [fits] in HF. destruct HF as (a & t & -> & S & ->). destruct EK as [_ EK].
  apply linked_app in HL as [HL _]. apply cs_by_k_ok in E. rewrite (code_filter_kind c "identifier" V eq_refl) in E. unfold cnamed in E. rewrite EK, app_nil_r in E.
  rewrite (sep_named _ _ _ _ _ S) in E. change (fields "dotted_identifier") with (@nil string) in *.
  rewrite (rep_kind_yes _ _ _ _ (sep_evens _ _ _ _ _ S)) in E. subst ids.
  apply bare_children; [exact V|rewrite Hk; discriminate|rewrite Hk; reflexivity|apply kind_calm; [exact V|rewrite Hk; reflexivity]|exact Q|].
  rewrite EK, app_nil_r. eapply dots_kept; eauto.
Qed.
Section More.
  Variable rec : sort -> loc -> res dt.
  Hypothesis IH : forall s l x, ok s l -> rec s l = Ok x -> mkept (claims s l) (pieces x).
  Lemma group_items a ys : mapR (group_by_item rec) a = Ok ys ->
    (forall c, In c a -> fine c /\ kind_in (n_kind (l_node c)) values = true) ->
    rights ys = [] /\ mkept (flat_map claim a) (flat_map pieces (lefts ys)).
  Proof.
    revert ys. induction a as [|c a IHa]; intros ys E H.
    - injection E as <-. split; [reflexivity|constructor].
    - apply mapR_cons in E as (y & ys' & -> & E & E'). destruct (IHa ys' E') as [N K]; [intros; apply H; right; assumption|].
      destruct (H c (or_introl eq_refl)) as [Fc Hk].
      assert (Hy : exists d, y = inl (wrap d) /\ holds c d).
      { unfold group_by_item in E. destruct (is_kind "field_identifier" c) eqn:Q1.
        - inv_bind E. injection E as <-. exists x. split; [reflexivity|]. apply kind_of in Q1. leaf IH Fc.
        - destruct (is_kind "function_expression" c) eqn:Q2.
          + inv_bind E. injection E as <-. exists x. split; [reflexivity|]. apply kind_of in Q2. leaf IH Fc.
          + exfalso. unfold is_kind, has_kind in Q1, Q2. unfold kind_in, values in Hk. cbn [existsb] in Hk.
            rewrite Q1, Q2 in Hk. discriminate. }
      destruct Hy as (d & -> & Hd). cbn [rights lefts flat_map app]. split; [exact N|].
      apply kept_app; [apply wrap_holds; exact Hd|exact K].
  Qed.
End More.
Lemma user_id p c r fs f x msg : branch l_node fs f ["with_user_id_type"] c -> placed p c r -> quiet (l_node c) ->
  rmap vn (must msg (find (is_kind "string_literal") (named_kids c))) = Ok x ->
  mkept (mleaves (l_node c)) ((U "UserId =" ++ [c_sp]) :: pieces x).
Proof.
  intros B (_ & _ & V & _) Q E. pose proof (only_kind _ _ _ _ B) as Hk.
  destruct (use_rules c _ V (branch_named _ _ _ _ B) Hk) as (alt & ks & Hin & EK & HF & HL); [discriminate|].
  destruct Hin as [<-|[]]. cbn [fits] in HF. destruct HF as (a & t & -> & W & c' & t' & -> & B' & ->).
  destruct EK as [_ EK]. apply linked_app in HL as [HL (P & _)]. apply bare_children; [exact V|rewrite Hk; discriminate|rewrite Hk; reflexivity|apply kind_calm; [exact V|rewrite Hk; reflexivity]|exact Q|].
  rewrite (code_find_kind c "string_literal" V eq_refl) in E. unfold cnamed in E. rewrite EK, filter_app, (worded_named _ _ _ W) in E. cbn [app filter] in E.
  rewrite (branch_named _ _ _ _ B') in E. cbn [find] in E. rewrite (branch_yes _ _ _ _ B') in E. injection E as <-.
  rewrite EK, map_app, flat_map_app. apply (kept_worded _ _ _ _ _ _ _ _ W HL); [not_if|reflexivity|].
  cbn [map flat_map]. rewrite app_nil_r. exact (vn_kept _ _ _ P ltac:(atom) ltac:(apart) eq_refl).
Qed.
(* optional parts among the children *)
Lemma lone_last fs f k a : Forall (branch l_node fs f [k]) a -> find (is_kind k) a = hd_error a.
Proof. intro B. rewrite <- (lone_kind fs f k a [] B eq_refl), app_nil_r. reflexivity. Qed.
End Dangling2.
Ltac lone_step H :=
  match type of H with
  | context [find (fun c => has_field ?g (l_node c)) (?a ++ ?t)] =>
      match goal with B : Forall (branch _ _ g _) a |- _ =>
        let N := fresh in
        assert (N : find (fun c => has_field g (l_node c)) t = None)
          by (match goal with |- ?x = None => let y := fresh in let Q := fresh in remember x as y eqn:Q; ev Q; exact Q end);
        rewrite (lone_field _ _ _ a t B eq_refl N) in H; clear N
      end
  | context [find (is_kind ?k) (?a ++ ?t)] =>
      match goal with B : Forall (branch _ _ _ [k]) a |- _ =>
        let N := fresh in
        assert (N : find (is_kind k) t = None)
          by (match goal with |- ?x = None => let y := fresh in let Q := fresh in remember x as y eqn:Q; ev Q; exact Q end);
        rewrite (lone_kind _ _ k a t B N) in H; clear N
      end
  | context [find (is_kind ?k) ?a] =>
      match goal with B : Forall (branch _ _ _ [k]) a |- _ =>
        rewrite (lone_last _ _ k a B) in H
      end
  end.
Section Dangling3.
Context {DG : dangles}.
Lemma all_rows_kept p a r ds fs f : mapR new_AllRowsClause a = Ok ds ->
  (List.length a <= 1)%nat -> Forall (branch l_node fs f ["all_rows_clause"]) a -> linked_to p a r ->
  follow (map l_node r) = [] -> mkept (flat_map mleaves (map l_node a)) (flat_map pieces ds).
Proof.
  intros E L B HL Hf. destruct a as [|c [|c' a]]; [injection E as <-; constructor| |cbn in L; lia].
  apply mapR_cons in E as (d & ds' & -> & E & E'). injection E' as <-. inversion B as [|? ? Bc _]; subst. destruct HL as (P & _).
  unfold new_AllRowsClause in E. destruct (assert_check "all_rows_clause" c); cbn [rbind] in E; try discriminate. injection E as <-.
  cbn [map flat_map]. rewrite !app_nil_r. destruct P as (Hr & Hp & Hv & HV). cbn [app] in Hr.
  rewrite node_marks; [|exact Hv|rewrite (kind_one _ _ (proj1 (proj2 Bc))); reflexivity].
  rewrite <- (app_nil_r (marks (n_post _))), <- Hf, <- Hr. apply nodeP_kept; [apply kind_calm; [exact Hv|unfold kind; rewrite (kind_one _ _ (proj1 (proj2 Bc))); reflexivity]|exact HV|].
  cbn [flat_map pieces t app]. eapply (word_inner _ "all rows" (U "ALL ROWS")); [exact Hv|apply Bc| |reflexivity].
  rewrite (kind_one _ _ (proj1 (proj2 Bc))). unfold word_kinds. cbn [In]. tauto.
Qed.
Section Fors.
  Variable rec : sort -> loc -> res dt.
  Hypothesis IH : forall s l x, ok s l -> rec s l = Ok x -> mkept (claims s l) (pieces x).
  Lemma fors_kept p a ds fs f : mapR (rec ForClause) a = Ok ds -> (List.length a <= 1)%nat ->
    Forall (branch l_node fs f ["for_clause"]) a -> linked_to p a [] ->
    mkept (flat_map mleaves (map l_node a))
      (flat_map pieces (if is_nil ds then [] else [TConcat [t_ "FOR"; TIntersperse ds (sepStr " ")]])).
  Proof.
    intros E L B HL. destruct a as [|c [|c' a]]; [injection E as <-; constructor| |cbn in L; lia].
    inversion B as [|? ? Bc _]; subst. destruct HL as ((Hr & _ & Hv & HV) & _).
    apply mapR_cons in E as (d & ds' & -> & E & E'). injection E' as <-. pc.
    unfold joined. cbn [map flat_map]. rewrite ?app_nil_r.
    apply (for_kept rec IH c d fs f Bc Hv E HV). rewrite Hr. reflexivity.
  Qed.
End Fors.

End Dangling3.
