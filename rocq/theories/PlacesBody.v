(* PlacesBody.v: the members of a body are printed at the level of the body, or one
   level deeper.  Proofs only. *)
From Verif Require NewProofs.
From Coq Require Import Sorting.Sorted Lia.
From Verif Require Import Base Doc DocBuilder Cst Comments Term SpecTree New ReadProofs SpecWords SpecTokens BitsProofs TokensProofs TokensMarks TokensProofs2 TokensProofs3
  TokensProofs5 LayoutStep SpecReread SpecPlaces SeqTerm SeqPlace LevelTerm Reach Reach2 Places.
Local Open Scope string_scope.
Local Open Scope list_scope.

Section Body.
  Context {DG : dangles}.
  Variable cm : cmap.
  Variable checked : bool.
  Variable b : pretty_config.
  Variable rec : sort -> loc -> res dt.
  Notation step := (indent_size b).
  Notation lseq := (lseq b).
  Definition lword (i : N) (m : dt * bool) : list tp * bool := let (x, tr) := m in (lseq i x, tr).
  Definition lgen (j g : N) (ms : list (dt * bool)) : list tp :=
    match ms with
    | [] => tag j [PT []]
    | [(x, _)] => lseq j x
    | (x, tr) :: r => lseq j x ++ tag (if tr then g else j) (sep_seq tr) ++ lmember j (map (lword j) r)
    end.
  Lemma lgen_same j ms : lgen j j ms = lmember j (map (lword j) ms).
  Proof. destruct ms as [|[x tr] [|m ms]]; try reflexivity. cbn [lgen map lmember lword]. destruct tr; reflexivity. Qed.
  Definition from_members (cs : list loc) (ms : list (dt * bool)) : Prop :=
    Forall2 (fun c m => (exists s, In s member_sorts /\ rec s c = Ok (fst m)) /\ has_trailing_newline cm checked c = Ok (snd m)) cs ms.
  Lemma from_mapR s cs ms : In s member_sorts -> mapR (body_member cm checked rec s) cs = Ok ms -> from_members cs ms.
  Proof.
    intro Hs. revert ms. induction cs as [|c cs IH]; intros ms H; [injection H as <-; constructor|].
    apply mapR_cons in H as ([x tr] & ms' & -> & E & H). constructor; [|apply IH; exact H]. unfold body_member in E.
    destruct (rec s c) as [d| |] eqn:D; cbn [rbind] in E; try discriminate. destruct (has_trailing_newline _ _ _) as [t0| |]; cbn [rbind] in E; try discriminate.
    injection E as -> ->. split; [exists s; split; [exact Hs|exact D]|reflexivity].
  Qed.

  Definition inner_level (l : loc) : N := if is_kind "parser_output" l then 0 else 1.
  Definition opened (l : loc) (i : N) : list tp := if is_kind "parser_output" l then [] else tag i [PT (U "{")] ++ tag (i + step)%N [PB].
  Definition closed (l : loc) (i : N) : list tp := if is_kind "parser_output" l then [] else tag i [PB; PT (U "}")].
  Definition gap_level (l : loc) (i : N) : N :=
    match cnamed l with c :: _ => if is_kind "explicit_constructor_invocation" c then i else (i + inner_level l * step)%N | [] => (i + inner_level l * step)%N end.
  Definition edges (l : loc) (i : N) (p q : list tp) : Prop :=
    is_kind "parser_output" l = true \/ said (untag q) = [] /\ exists r, p = (PN (n_id (l_node l)), i) :: r.
  Definition shaped (l : loc) (y : dt) : Prop :=
    exists ms, from_members (cnamed l) ms /\
      (ms <> [] -> forall i, exists p e q, lseq i y = p ++ opened l i ++ lgen (i + inner_level l * step)%N (gap_level l i) ms ++ tag (i + step)%N e ++ closed l i ++ q /\ (e = [] \/ e = [PT []]) /\ edges l i p q).

  Lemma plain_gap l ks i fs : cnamed l <> [] -> Forall (branch l_node fs "" ks) (cnamed l) -> kind_in "explicit_constructor_invocation" ks = false ->
    gap_level l i = (i + inner_level l * step)%N.
  Proof.
    intros Hn F K. unfold gap_level. destruct (cnamed l) as [|c cs]; [reflexivity|]. destruct (Forall_inv F) as (_ & B & _).
    unfold is_kind, has_kind. destruct (String.eqb (n_kind (l_node c)) "explicit_constructor_invocation") eqn:E; [|reflexivity].
    apply String.eqb_eq in E. rewrite E in B. congruence.
  Qed.
  Ltac is_root Hk := unfold inner_level, opened, closed, is_kind, has_kind; unfold kind in Hk; rewrite Hk; cbn [String.eqb Ascii.eqb Bool.eqb].
  Lemma surround_shape l ms i : ms <> [] -> is_kind "parser_output" l = false ->
    exists p e q, lseq i (TNode HBracket (with_punctuation l) [TSurroundMembers ms (U "{") (U "}")] []) =
      p ++ opened l i ++ lgen (i + inner_level l * step)%N (i + inner_level l * step)%N ms ++ tag (i + step)%N e ++ closed l i ++ q /\ (e = [] \/ e = [PT []]) /\ edges l i p q.
  Proof.
    intros Hm Hr. unfold opened, closed, inner_level. rewrite Hr. exists (tag i (node_seq HBracket (with_punctuation l))), [], (tag i (end_seq HBracket (with_punctuation l))).
    split; [|split; [left; reflexivity|right; split; [reflexivity|exists []; reflexivity]]].
    rewrite lgen_same. cbn [LevelTerm.lseq flat_map]. destruct ms as [|m ms]; [congruence|]. rewrite N.mul_1_l, !app_nil_r. fold lword. rewrite <- !app_assoc. reflexivity.
  Qed.

  Ltac flat := unfold tag; cbn [app map]; repeat (rewrite <- app_assoc; cbn [app]); reflexivity.
  Lemma from_nil cs ms : from_members cs ms -> ms <> [] -> cs <> [].
  Proof. intros F Hm ->. inversion F; subst. congruence. Qed.
  Ltac braced H Hk srt :=
    match goal with E : mapR _ ?cs = Ok ?ms, EN : cnamed _ = ?cs |- _ =>
      exists ms; assert (FM : from_members cs ms) by (apply (from_mapR srt); [here|exact E]);
      split; [rewrite EN; exact FM|]; intros Hms i; pose proof (from_nil _ _ FM Hms) as Hcs;
      rewrite <- EN in *;
      match goal with B : Forall (branch _ _ _ ?ks) _ |- _ => rewrite (plain_gap _ _ _ _ Hcs B) by reflexivity end;
      apply surround_shape; [exact Hms|unfold is_kind, has_kind; unfold kind in Hk; rewrite Hk; reflexivity]
    end.
  Lemma b_ClassBody l y : fine l -> new_ClassBody cm checked rec l = Ok y -> shaped l y.
  Proof.
    intros F H. unfold new_ClassBody in H. checked_kind H Hk. open_rule l F Hk. links. kid_lists. inv_new H. done_new H. braced H Hk ClassMember.
  Qed.
  Lemma b_InterfaceBody l y : fine l -> new_InterfaceBody cm checked rec l = Ok y -> shaped l y.
  Proof.
    intros F H. unfold new_InterfaceBody in H. checked_kind H Hk. open_rule l F Hk. links. kid_lists. inv_new H. done_new H. braced H Hk InterfaceMember.
  Qed.
  Lemma b_Block l y : fine l -> new_Block cm checked rec l = Ok y -> shaped l y.
  Proof.
    intros F H. unfold new_Block in H. checked_kind H Hk. open_rule l F Hk. links. kid_lists. inv_new H. done_new H. braced H Hk Statement.
  Qed.
  Lemma b_Root l y : fine l -> new_Root cm checked rec l = Ok y -> shaped l y.
  Proof.
    intros F H. unfold new_Root in H. checked_kind H Hk. open_rule l F Hk. links. kid_lists. inv_new H. done_new H.
    match goal with E : mapR _ ?cs = Ok ?ms, EN : cnamed _ = ?cs |- _ =>
      exists ms; assert (FM : from_members cs ms) by (apply (from_mapR RootMember); [here|exact E]);
      split; [rewrite EN; exact FM|]; intros Hms i; pose proof (from_nil _ _ FM Hms) as Hcs;
      rewrite <- EN in *;
      match goal with B : Forall (branch _ _ _ ?ks) _ |- _ => rewrite (plain_gap _ _ _ _ Hcs B) by reflexivity end
    end.
    rewrite lgen_same. is_root Hk. rewrite N.mul_0_l, N.add_0_r.
    exists (tag i (node_seq HRoot (with_punctuation l))), [], (tag i [PB] ++ tag i (end_seq HRoot (with_punctuation l))). split; [|split; [left; reflexivity|left; unfold is_kind, has_kind; rewrite Hk; reflexivity]].
    cbn [LevelTerm.lseq flat_map]. fold lword. rewrite !app_nil_r. flat.
  Qed.
  Lemma b_ConstructorBody l y : kind l = "constructor_body" -> fine l -> new_ConstructorBody cm checked rec l = Ok y -> shaped l y.
  Proof.
    intros Hk F H. unfold new_ConstructorBody in H. open_rule l F Hk; links; kid_lists; inv_new H.
    - done_new H.
      assert (Q : x0 = None /\ mapR (body_member cm checked rec Statement) x1 = Ok x2).
      { destruct x1 as [|d x1]; [injection E as <-; auto|]. inversion H2; subst. ev E. ev E0.
        injection E as <-. auto. }
      destruct Q as [-> E']. clear E E0. exists x2. assert (FM : from_members x1 x2) by (apply (from_mapR Statement); [here|exact E']).
      split; [rewrite ENamed; exact FM|]. intros Hms i. pose proof (from_nil _ _ FM Hms) as Hcs. rewrite <- ENamed in *.
      rewrite (plain_gap _ _ _ _ Hcs H2) by reflexivity. rewrite lgen_same. is_root Hk. rewrite N.mul_1_l.
      destruct x2 as [|m ms]; [congruence|].
      eexists (tag i (node_seq HBracketNoPost (with_punctuation l))), [], (tag i (end_seq HBracketNoPost (with_punctuation l))). split; [|split; [left; reflexivity|right; split; [reflexivity|exists []; reflexivity]]].
      cbn [LevelTerm.lseq flat_map app]. fold lword. rewrite !app_nil_r. flat.
    - unfold rmap in E. destruct (body_member cm checked rec ConstructInvocation x1) as [[d tr0]| |] eqn:E3; cbn [rbind] in E; try discriminate E. injection E as <-.
      done_new H. exists ((d, tr0) :: x2).
      assert (FM : from_members (x1 :: x3) ((d, tr0) :: x2)).
      { constructor; [|apply (from_mapR Statement); [here|exact E0]]. unfold body_member in E3. destruct (rec ConstructInvocation x1) as [d'| |] eqn:D; cbn [rbind] in E3; try discriminate E3.
        destruct (has_trailing_newline _ _ _) as [t0| |]; cbn [rbind] in E3; try discriminate E3. injection E3 as -> ->.
        split; [exists ConstructInvocation; split; [here|exact D]|reflexivity]. }
      split; [rewrite ENamed; exact FM|]. intros _ i. unfold gap_level. rewrite ENamed.
      assert (Q : is_kind "explicit_constructor_invocation" x1 = true).
      { unfold is_kind, has_kind. destruct H2 as (_ & B & _). unfold kind_in in B. cbn [existsb] in B. rewrite Bool.orb_false_r in B. exact B. }
      rewrite Q. is_root Hk. rewrite N.mul_1_l.
      exists (tag i (node_seq HBracketNoPost (with_punctuation l))), (if is_nil x2 then [PT []] else []), (tag i (end_seq HBracketNoPost (with_punctuation l))).
      split; [|split; [destruct x2; [right|left]; reflexivity|right; split; [reflexivity|exists []; reflexivity]]].
      destruct x2 as [|m ms]; cbn [is_nil LevelTerm.lseq flat_map app lgen].
      + rewrite !app_nil_r. flat.
      + fold lword. rewrite !app_nil_r. destruct tr0; cbn [LevelTerm.lseq sep_seq]; flat.
  Qed.
  Lemma body_shaped l s y : kind_in (kind l) member_lists = true -> In (kind l, s) outer_sorts -> fine l -> new_step cm checked rec s l = Ok y -> shaped l y.
  Proof.
    intros K Hs F H.
    repeat (destruct Hs as [Hs|Hs]; [injection Hs as Hk <-; rewrite <- Hk in K; try discriminate K; symmetry in Hk; cbn [new_step] in H;
      eauto using b_Root, b_ClassBody, b_InterfaceBody, b_ConstructorBody, b_Block; fail|]).
    destruct Hs.
  Qed.
End Body.
