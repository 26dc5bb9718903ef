(* Places.v: bodies reached through declarations and statements are printed at their
   level.  Proofs only. *)
From Verif Require NewProofs.
From Coq Require Import Sorting.Sorted Lia.
From Verif Require Import Base Doc DocBuilder Cst Comments Term SpecTree New ReadProofs SpecWords SpecTokens BitsProofs TokensProofs TokensMarks TokensProofs2 TokensProofs3
  TokensProofs5 SpecReread SpecPlaces SeqTerm SeqPlace LevelTerm Reach Reach2.
Local Open Scope string_scope.
Local Open Scope list_scope.

Lemma frames_outer : frames = outer.
Proof. reflexivity. Qed.

Section Linked.
Context {DG : dangles}.
Lemma linked_in p ls c : linked p ls -> In c ls -> exists r, placed p c r.
Proof.
  revert c. induction ls as [|d ls IH]; intros c H; [intros []|]. destruct H as [H1 H2]. intros [<-|Hc]; [eauto|]. apply IH; assumption.
Qed.
Lemma ckid_fine l c : fine l -> In c (ckids l) -> is_named c = true -> kind_in (kind c) outer = true -> fine c.
Proof.
  intros F Hc N K. destruct (linked_in _ _ _ (ckids_linked l (f_valid l F)) Hc) as (r & _ & _ & V & R).
  apply (fine_kinds c outer); try assumption. reflexivity.
Qed.

End Linked.

Section Steps.
  Context {DG : dangles}.
  Variable cm : cmap.
  Variable checked : bool.
  Variable b : pretty_config.

  Lemma outer_shows m s l x c : In (kind l, s) outer_sorts -> fine l -> new cm checked (S m) s l = Ok x ->
    In c (ckids l) -> is_named c = true -> kind_in (kind c) outer = true -> shows b (new cm checked m) l x c.
  Proof.
    intros Hs F H. cbn [new] in H. set (rec := new cm checked m) in *.
    repeat (destruct Hs as [Hs|Hs]; [injection Hs as Hk <-; cbn [new_step] in H; symmetry in Hk; eauto using
      r_Root, r_ClassDeclaration, r_ClassBody, r_InterfaceDeclaration, r_InterfaceBody, r_TriggerDeclaration, r_TriggerBody, r_MethodDeclaration,
      r_ConstructorDeclaration, r_ConstructorBody, r_StaticInitializer, r_FieldDeclaration, r_AccessorList, r_AccessorDeclaration, r_Block,
      r_IfStatement, r_ForStatement, r_EnhancedForStatement, r_WhileStatement, r_DoStatement, r_RunAsStatement, r_TryStatement, r_CatchClause,
      r_FinallyClause, r_SwitchExpression, r_SwitchBlock, r_SwitchRule; fail|]).
    destruct Hs.
  Qed.

  Ltac hop H c :=
    repeat match type of H with
    | (if is_kind ?k c then _ else _) = _ =>
        let E := fresh "E" in destruct (is_kind k c) eqn:E;
        [unfold is_kind, has_kind in E; apply String.eqb_eq in E|]
    end.
  Ltac hopped H c K :=
    hop H c; try discriminate H;
    match goal with E : n_kind (l_node c) = _ |- _ => rewrite E in *; try (vm_compute in K; discriminate K) end;
    unfold wrap_r, rmap in H;
    match type of H with rbind (?rec ?s c) _ = _ => destruct (rec s c) as [d| |] eqn:D; cbn [rbind] in H; try discriminate H; injection H as <-;
      exists s, d; split; [here|split; [exact D|eapply in_con; [left; reflexivity|apply in_self]]] end.
  Lemma hops m s c y : In s via -> kind_in (kind c) outer = true -> new cm checked (S m) s c = Ok y ->
    exists s' y', In (kind c, s') outer_sorts /\ new cm checked m s' c = Ok y' /\ inside b 0 y' y.
  Proof.
    intros Hs K H. cbn [new] in H. set (rec := new cm checked m) in *. unfold kind in *.
    destruct Hs as [<-|[<-|[<-|[<-|[]]]]]; cbn [new_step] in H.
    - unfold new_RootMember in H. hopped H c K.
    - unfold new_ClassMember in H. hopped H c K.
    - unfold new_InterfaceMember in H. hopped H c K.
    - unfold new_Statement in H. hopped H c K.
  Qed.
End Steps.

Definition mute : dangles := fronts (fun _ => []).
Lemma mute_valid root : file_tree root -> @valid mute root.
Proof.
  intro F. apply file_valid; [reflexivity|exact F|]. intros m _ _. unfold calm, opening, TokensMarks.closing. cbn. repeat match goal with |- context [if ?b then _ else _] => destruct b end. all: repeat split; try discriminate; intros; cbn; auto. all: repeat match goal with |- context [if ?b then _ else _] => destruct b end; reflexivity.
Qed.

Section Lies.
  Local Instance DGm : dangles := mute.
  Variable root : node.
  Hypothesis Ft : file_tree root.
  Hypothesis Un : untouched root.
  Variable cm : cmap.
  Variable checked : bool.
  Variable b : pretty_config.
  Variable stack : nat.
  Variable T : dt.
  Hypothesis E2 : new cm checked stack Root (root_loc root) = Ok T.
  Notation step := (indent_size b).

  Definition found (n : node) (ahead : list node) (level : N) : Prop :=
    exists l m s y A B, pos root l /\ l_node l = n /\ ahead_of l = ahead /\ fine l /\ In (kind l, s) outer_sorts /\
      new cm checked m s l = Ok y /\ lseq b 0 T = A ++ lseq b (level * step)%N y ++ B.

  Lemma found_root : found root [] 0.
  Proof.
    exists (root_loc root), stack, Root, T, [], []. split; [constructor|]. split; [reflexivity|]. split; [reflexivity|]. split.
    { apply fine_none; [apply mute_valid; exact Ft|split; [constructor|split; discriminate]|apply (ft_root _ Ft)|reflexivity]. }
    split; [left; unfold kind; cbn; rewrite (proj1 (ft_root _ Ft)); reflexivity|]. split; [exact E2|]. rewrite app_nil_r. reflexivity.
  Qed.
  Lemma lies_node n ahead level : lies root n ahead level -> In n (all_nodes root).
  Proof.
    induction 1 as [|n ahead level a c z L IH K E]; [apply self_in|].
    eapply all_nodes_child; [exact IH|]. rewrite E. apply in_or_app. right. left. reflexivity.
  Qed.
  Lemma parent_named n c : In n (all_nodes root) -> In c (children n) -> n_named n = true.
  Proof.
    intros H Hc. destruct (n_named n) eqn:E; [reflexivity|]. pose proof (ft_spelled _ Ft n H (proj1 (Un n H))) as Sp. unfold spelled in Sp. rewrite E in Sp.
    rewrite (proj1 Sp) in Hc. destruct Hc.
  Qed.
  Definition kid_at (l : loc) (a : list node) (c : node) (z : list node) : loc := Loc c (rev a) z (Some l).
  Lemma kid_at_in l a c z : children (l_node l) = a ++ c :: z -> In (kid_at l a c z) (kids l).
  Proof. intro E. apply NewProofs.kids_in. exists a, z. split; [exact E|reflexivity]. Qed.
  Lemma kid_at_code l a c z : pos root l -> children (l_node l) = a ++ c :: z -> In (kid_at l a c z) (ckids l).
  Proof.
    intros P E. apply filter_In. split; [apply kid_at_in; exact E|]. pose proof (pos_node _ _ P) as Hl.
    assert (Hc : In c (children (l_node l))) by (rewrite E; apply in_or_app; right; left; reflexivity).
    unfold plain. cbn [kid_at l_node]. rewrite (proj1 (Un c (all_nodes_child _ _ _ Hl Hc))), (proj2 (Un _ Hl) c Hc). reflexivity.
  Qed.
  Lemma lies_found n ahead level : lies root n ahead level -> n_named n = true -> kind_in (n_kind n) frames = true -> found n ahead level.
  Proof.
    induction 1 as [|n ahead level a c z L IH K E]; intros Nc Kc; [exact found_root|].
    assert (Hc : In c (children n)) by (rewrite E; apply in_or_app; right; left; reflexivity).
    destruct (IH (parent_named n c (lies_node _ _ _ L) Hc) K) as (l & m & s & y & A & B & P & El & Ea & F & Hs & Hy & Es).
    destruct m as [|m]; [discriminate Hy|]. subst n ahead.
    pose proof (kid_at_code l a c z P E) as IC. assert (Kc' : kind_in (kind (kid_at l a c z)) outer = true) by exact Kc.
    destruct (outer_shows cm checked b m s l y (kid_at l a c z) Hs F Hy IC Nc Kc') as (s1 & y1 & R1 & H1 & I1).
    assert (G : exists m2 s2 y2, In (kind (kid_at l a c z), s2) outer_sorts /\ new cm checked m2 s2 (kid_at l a c z) = Ok y2 /\ inside b 0 y2 y1).
    { destruct R1 as [R1|R1]; [exists m, s1, y1; split; [exact R1|split; [exact H1|apply in_self]]|].
      destruct m as [|m]; [discriminate H1|]. destruct (hops cm checked b m s1 (kid_at l a c z) y1 R1 Kc' H1) as (s2 & y2 & Q). exists m, s2, y2. exact Q. }
    destruct G as (m2 & s2 & y2 & R2 & H2 & I2).
    destruct (I1 (level * step)%N) as (p1 & q1 & J1). destruct (I2 (level * step + deeper (l_node l) c * step)%N) as (p2 & q2 & J2).
    rewrite N.mul_0_l, N.add_0_r in J2. cbn [kid_at l_node] in J1. rewrite J2 in J1. rewrite J1 in Es.
    exists (kid_at l a c z), m2, s2, y2, (A ++ p1 ++ p2), (q2 ++ q1 ++ B).
    split; [eapply Pos_kid; [exact P|apply kid_at_in; exact E]|]. split; [reflexivity|]. split; [cbn [ahead_of kid_at]; rewrite rev_involutive; reflexivity|].
    split; [apply (ckid_fine l); assumption|]. split; [exact R2|]. split; [exact H2|].
    rewrite Es, N.mul_add_distr_r, <- !app_assoc. reflexivity.
  Qed.
End Lies.
