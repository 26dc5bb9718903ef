(* Reach.v: declarations and statements are printed inside one another.  Proofs only. *)
From Coq Require Import Sorting.Sorted Lia.
From Verif Require Import Base Doc DocBuilder Cst Comments Term SpecTree New SpecWords SpecTokens BitsProofs TokensProofs TokensMarks TokensProofs2 TokensProofs3
  SpecReread SpecPlaces SeqTerm LevelTerm.
Local Open Scope string_scope.
Local Open Scope list_scope.

Definition outer_sorts : list (string * sort) :=
  [("parser_output", Root); ("class_declaration", ClassDeclaration); ("class_body", ClassBody); ("interface_declaration", InterfaceDeclaration);
   ("interface_body", InterfaceBody); ("trigger_declaration", TriggerDeclaration); ("trigger_body", TriggerBody);
   ("method_declaration", MethodDeclaration); ("constructor_declaration", ConstructorDeclaration); ("constructor_body", ConstructorBody);
   ("static_initializer", StaticInitializer); ("field_declaration", FieldDeclaration); ("accessor_list", AccessorList);
   ("accessor_declaration", AccessorDeclaration); ("block", Block); ("if_statement", IfStatement); ("for_statement", ForStatement);
   ("enhanced_for_statement", EnhancedForStatement); ("while_statement", WhileStatement); ("do_statement", DoStatement);
   ("run_as_statement", RunAsStatement); ("try_statement", TryStatement); ("catch_clause", CatchClause); ("finally_clause", FinallyClause);
   ("switch_expression", SwitchExpression); ("switch_block", SwitchBlock); ("switch_rule", SwitchRule)].
Definition outer : list string := map fst outer_sorts.
Definition via : list sort := [RootMember; ClassMember; InterfaceMember; Statement].

Section Reach.
  Context {DG : dangles}.
  Variable cm : cmap.
  Variable checked : bool.
  Variable b : pretty_config.
  Variable rec : sort -> loc -> res dt.
  Notation step := (indent_size b).

  Definition reads (s : sort) (c : loc) : Prop := In (kind c, s) outer_sorts \/ In s via.
  Definition inside (j : N) (y x : dt) : Prop := forall i, exists p q, lseq b i x = p ++ lseq b (i + j * step)%N y ++ q.
  Definition shows (l : loc) (x : dt) (c : loc) : Prop :=
    exists s y, reads s c /\ rec s c = Ok y /\ inside (deeper (l_node l) (l_node c)) y x.

  (* ------------------------------------------------ terms inside terms *)
  Lemma in_self y : inside 0 y y.
  Proof. intro i. exists [], []. rewrite N.mul_0_l, N.add_0_r, app_nil_r. reflexivity. Qed.
  Lemma in_flat j y z ls : In z ls -> inside j y z -> forall i, exists p q, flat_map (lseq b i) ls = p ++ lseq b (i + j * step)%N y ++ q.
  Proof.
    intros Hz H i. apply in_split in Hz as (a & c & ->). destruct (H i) as (p & q & E). rewrite flat_map_app. cbn [flat_map]. rewrite E.
    exists (flat_map (lseq b i) a ++ p), (q ++ flat_map (lseq b i) c). rewrite <- !app_assoc. reflexivity.
  Qed.
  Lemma in_node j y z h x ls tl : In z ls -> inside j y z -> inside j y (TNode h x ls tl).
  Proof.
    intros Hz H i. destruct (in_flat _ _ _ _ Hz H i) as (p & q & E). cbn [lseq]. rewrite E.
    exists (tag i (node_seq h x) ++ p), (q ++ tag i (end_seq h x) ++ flat_map (lseq b i) tl). rewrite <- !app_assoc. reflexivity.
  Qed.
  Lemma in_con j y z ls : In z ls -> inside j y z -> inside j y (TConcat ls).
  Proof. intros Hz H i. apply (in_flat _ _ _ _ Hz H i). Qed.
  Lemma in_group j y z : inside j y z -> inside j y (TGroup z).
  Proof. intros H i. destruct (H i) as (p & q & E). cbn [lseq]. rewrite E. exists (tag i [PG] ++ p), q. rewrite <- app_assoc. reflexivity. Qed.
  Lemma in_indent y z : inside 0 y z -> inside 1 y (TIndent z).
  Proof.
    intros H i. destruct (H (i + step)%N) as (p & q & E). cbn [lseq]. rewrite E. exists p, q.
    replace (i + step + 0 * step)%N with (i + 1 * step)%N by lia. reflexivity.
  Qed.
  Lemma strung_in i s (ls : list (list tp)) w : In w ls -> exists p q, lstrung i s ls = p ++ w ++ q.
  Proof.
    destruct ls as [|v ls]; [intros []|]. intros [<-|Hw]; cbn [lstrung].
    - exists [], (flat_map (fun y => tag i s ++ y) ls). reflexivity.
    - apply in_split in Hw as (a & c & ->). rewrite flat_map_app. cbn [flat_map].
      exists (v ++ flat_map (fun y => tag i s ++ y) a ++ tag i s), (flat_map (fun y => tag i s ++ y) c). rewrite <- !app_assoc. reflexivity.
  Qed.
  Lemma in_intersperse j y z ls sep : In z ls -> inside j y z -> inside j y (TIntersperse ls sep).
  Proof.
    intros Hz H i. destruct (H i) as (p & q & E). cbn [lseq].
    destruct (strung_in i (ins_seq sep) (map (lseq b i) ls) (lseq b i z) (in_map _ _ _ Hz)) as (p' & q' & E'). rewrite E', E.
    exists (p' ++ p), (q ++ q'). rewrite <- !app_assoc. reflexivity.
  Qed.
  Lemma in_surround y z ls sep o c : In z ls -> inside 0 y z -> inside 1 y (TSurround ls sep o c).
  Proof.
    intros Hz H i. destruct (H (i + step)%N) as (p & q & E). cbn [lseq]. destruct ls as [|v ls]; [destruct Hz|].
    destruct (strung_in (i + step)%N (ins_seq sep) (map (lseq b (i + step)%N) (v :: ls)) (lseq b (i + step)%N z) (in_map _ _ _ Hz)) as (p' & q' & E'). rewrite E', E.
    exists (tag i (opt_seq (t_pre o) ++ str_seq o) ++ tag (i + step)%N (opt_seq (t_suf o)) ++ p' ++ p), (q ++ q' ++ tag i (ins_seq c)).
    replace (i + step + 0 * step)%N with (i + 1 * step)%N by lia. rewrite <- !app_assoc. reflexivity.
  Qed.
  Lemma lmember_in i (ms : list (list tp * bool)) w tr : In (w, tr) ms -> exists p q, lmember i ms = p ++ w ++ q.
  Proof.
    induction ms as [|[v t0] ms IH]; [intros []|]. intros [E|Hw].
    - injection E as -> ->. cbn [lmember]. destruct ms as [|m ms].
      + exists [], []. rewrite app_nil_r. reflexivity.
      + exists [], (tag i (sep_seq tr) ++ lmember i (m :: ms)). reflexivity.
    - destruct (IH Hw) as (p & q & E). destruct ms as [|m ms]; [destruct Hw|].
      change (lmember i ((v, t0) :: m :: ms)) with (v ++ tag i (sep_seq t0) ++ lmember i (m :: ms)). rewrite E.
      exists (v ++ tag i (sep_seq t0) ++ p), q. rewrite <- !app_assoc. reflexivity.
  Qed.
  Lemma in_members j y z tr ms : In (z, tr) ms -> inside j y z -> inside j y (TMembers ms).
  Proof.
    intros Hz H i. destruct (H i) as (p & q & E). cbn [lseq].
    destruct (lmember_in i (map (fun m : dt * bool => let (x, tr) := m in (lseq b i x, tr)) ms) (lseq b i z) tr) as (p' & q' & E').
    { apply in_map_iff. exists (z, tr). split; [reflexivity|exact Hz]. }
    rewrite E', E. exists (p' ++ p), (q ++ q'). rewrite <- !app_assoc. reflexivity.
  Qed.
  Lemma in_smembers y z tr ms o c : In (z, tr) ms -> inside 0 y z -> inside 1 y (TSurroundMembers ms o c).
  Proof.
    intros Hz H i. destruct (H (i + step)%N) as (p & q & E). cbn [lseq]. destruct ms as [|m ms]; [destruct Hz|].
    destruct (lmember_in (i + step)%N (map (fun m : dt * bool => let (x, tr) := m in (lseq b (i + step)%N x, tr)) (m :: ms)) (lseq b (i + step)%N z) tr) as (p' & q' & E').
    { apply in_map_iff. exists (z, tr). split; [reflexivity|exact Hz]. }
    rewrite E', E. exists (tag i [PT o] ++ tag (i + step)%N [PB] ++ p' ++ p), (q ++ q' ++ tag i [PB] ++ tag i [PT c]).
    replace (i + step + 0 * step)%N with (i + 1 * step)%N by lia. rewrite <- !app_assoc. reflexivity.
  Qed.

  (* ------------------------------------------------ children of a rule *)
  Lemma sep_in fs s f ks (a : list loc) c : separated l_node fs s f ks a -> In c a -> is_named c = true -> branch l_node fs f ks c.
  Proof.
    induction 1 as [x B|x y r B S HS IH]; intros Hc N.
    - destruct Hc as [<-|[]]. exact B.
    - destruct Hc as [<-|[<-|Hc]]; [exact B| |exact (IH Hc N)]. destruct S as [S _]. unfold is_named in N. rewrite S in N. discriminate N.
  Qed.
  Lemma worded_in fs w (a : list loc) c : worded l_node fs w a -> In c a -> is_named c = false.
  Proof. intros (_ & H & _) Hc. rewrite Forall_forall in H. apply (H c Hc). Qed.
  Lemma not_outer fs f ks (c : loc) : branch l_node fs f ks c -> kind_in (kind c) outer = true -> forallb (fun k => negb (kind_in k outer)) ks = true -> False.
  Proof. intros (_ & B & _) K H. pose proof (kinds_not _ _ _ B H) as Q. unfold kind in K. congruence. Qed.
  Lemma mapR_in {X Y} (f : X -> res Y) a ds c : mapR f a = Ok ds -> In c a -> exists y, f c = Ok y /\ In y ds.
  Proof.
    revert ds. induction a as [|x a IH]; intros ds H; [intros []|]. apply mapR_cons in H as (d & ds' & -> & Hd & Ha).
    intros [<-|Hc]; [exists d; split; [exact Hd|left; reflexivity]|]. destruct (IH _ Ha Hc) as (y & Hy & Hin). exists y. split; [exact Hy|right; exact Hin].
  Qed.
  Lemma one_kind fs f k (c : loc) s : branch l_node fs f [k] c -> In (k, s) outer_sorts -> reads s c.
  Proof.
    intros (_ & B & _) H. left. unfold kind_in in B. cbn [existsb] in B. rewrite Bool.orb_false_r in B. apply String.eqb_eq in B.
    unfold kind. rewrite B. exact H.
  Qed.
End Reach.

Ltac here := first [(left; reflexivity) | right; here].
Ltac kid_cases IC :=
  repeat lazymatch type of IC with
  | In _ (_ ++ _) => apply in_app_or in IC as [IC|IC]
  | In _ (_ :: _) => apply in_inv in IC as [IC|IC]; [subst|]
  | In _ [] => destruct IC
  end.
Ltac drop_kid IC N K :=
  match goal with
  | S : sign _ _ _ _ ?c |- shows _ _ _ _ ?c => exfalso; destruct S as [S _]; unfold is_named in N; rewrite S in N; discriminate N
  | B : branch _ _ _ _ ?c |- shows _ _ _ _ ?c => exfalso; refine (not_outer _ _ _ _ B K _); vm_compute; reflexivity
  | S : verb _ _ _ _ ?c |- shows _ _ _ _ ?c => exfalso; destruct S as [B _]; refine (not_outer _ _ _ _ B K _); vm_compute; reflexivity
  | S : separated _ _ _ _ _ ?a |- shows _ _ _ _ ?c => exfalso; refine (not_outer _ _ _ _ (sep_in _ _ _ _ _ _ S IC N) K _); vm_compute; reflexivity
  | S : worded _ _ _ ?a |- shows _ _ _ _ ?c => exfalso; rewrite (worded_in _ _ _ _ S IC) in N; discriminate N
  | S : Forall (branch _ _ _ _) ?a |- shows _ _ _ _ ?c => exfalso; rewrite Forall_forall in S; refine (not_outer _ _ _ _ (S _ IC) K _); vm_compute; reflexivity
  end.
Ltac pick := (left; reflexivity) + (right; pick) + (apply in_or_app; left; pick) + (apply in_or_app; right; pick) + eassumption.
Ltac insd :=
  first [ apply in_self
        | apply in_group; insd | apply in_indent; insd
        | eapply in_node; [pick|insd] | eapply in_con; [pick|insd] | eapply in_intersperse; [pick|insd]
        | eapply in_surround; [pick|insd] | eapply in_members; [pick|insd] | eapply in_smembers; [pick|insd] ].
Ltac level Hk := unfold deeper; let Q := fresh "Q" in pose proof Hk as Q; unfold kind in Q; unfold has_kind; rewrite ?Q; clear Q; cbn.
Ltac this_kid Hk :=
  match goal with
  | E : ?rec ?s ?c = Ok ?y |- shows _ ?rec _ _ ?c =>
      exists s, y; split; [first [right; here | match goal with B : branch _ _ _ _ c |- _ => eapply (one_kind _ _ _ _ _ B); here end]|split; [exact E|level Hk; try insd]]
  end.
Ltac list_kid IC Hk :=
  match goal with
  | E : mapR ?f ?a = Ok ?ds, B : Forall (branch _ _ _ _) ?a |- shows _ _ _ _ ?c =>
      let y := fresh "y" in let Ey := fresh "Ey" in let Iy := fresh "Iy" in let Bc := fresh "Bc" in
      destruct (mapR_in _ _ _ _ E IC) as (y & Ey & Iy); pose proof (proj1 (Forall_forall _ _) B _ IC) as Bc; cbv beta in Ey;
      this_kid Hk
  end.
Ltac reach l F H Hk :=
  open_rule l F Hk; links; kid_lists; inv_new H; done_new H.
Ltac finish Hk :=
  let IC := fresh "IC" in let N := fresh "N" in let K := fresh "K" in
  intros IC N K; match goal with EK : ckids _ = _ |- _ => rewrite EK in IC end; kid_cases IC; first [drop_kid IC N K | this_kid Hk | list_kid IC Hk | idtac].

Section Shown.
  Context {DG : dangles}.
  Variable cm : cmap.
  Variable checked : bool.
  Variable b : pretty_config.
  Variable rec : sort -> loc -> res dt.
  Notation shows := (shows b rec).

  Lemma r_ClassDeclaration l x c : fine l -> new_ClassDeclaration rec l = Ok x -> In c (ckids l) -> is_named c = true -> kind_in (kind c) outer = true -> shows l x c.
  Proof. intros F H. unfold new_ClassDeclaration in H. checked_kind H Hk. reach l F H Hk. all: finish Hk. Qed.
  Lemma r_InterfaceDeclaration l x c : fine l -> new_InterfaceDeclaration rec l = Ok x -> In c (ckids l) -> is_named c = true -> kind_in (kind c) outer = true -> shows l x c.
  Proof. intros F H. unfold new_InterfaceDeclaration in H. checked_kind H Hk. reach l F H Hk. all: finish Hk. Qed.
  Lemma r_RunAsStatement l x c : fine l -> new_RunAsStatement rec l = Ok x -> In c (ckids l) -> is_named c = true -> kind_in (kind c) outer = true -> shows l x c.
  Proof. intros F H. unfold new_RunAsStatement in H. checked_kind H Hk. reach l F H Hk. all: finish Hk. Qed.
  Lemma r_FinallyClause l x c : fine l -> new_FinallyClause rec l = Ok x -> In c (ckids l) -> is_named c = true -> kind_in (kind c) outer = true -> shows l x c.
  Proof. intros F H. unfold new_FinallyClause in H. checked_kind H Hk. reach l F H Hk. all: finish Hk. Qed.
  Lemma r_SwitchRule l x c : fine l -> new_SwitchRule rec l = Ok x -> In c (ckids l) -> is_named c = true -> kind_in (kind c) outer = true -> shows l x c.
  Proof. intros F H. unfold new_SwitchRule in H. checked_kind H Hk. reach l F H Hk. all: finish Hk. Qed.
  Lemma r_TriggerBody l x c : fine l -> new_TriggerBody rec l = Ok x -> In c (ckids l) -> is_named c = true -> kind_in (kind c) outer = true -> shows l x c.
  Proof. intros F H. unfold new_TriggerBody in H. checked_kind H Hk. reach l F H Hk. all: finish Hk. Qed.
  Lemma r_MethodDeclaration l x c : fine l -> new_MethodDeclaration rec l = Ok x -> In c (ckids l) -> is_named c = true -> kind_in (kind c) outer = true -> shows l x c.
  Proof. intros F H. unfold new_MethodDeclaration in H. checked_kind H Hk. reach l F H Hk. all: finish Hk. Qed.
  Lemma r_FieldDeclaration l x c : fine l -> new_FieldDeclaration rec l = Ok x -> In c (ckids l) -> is_named c = true -> kind_in (kind c) outer = true -> shows l x c.
  Proof. intros F H. unfold new_FieldDeclaration in H. checked_kind H Hk. reach l F H Hk. all: finish Hk. Qed.
  Lemma r_DoStatement l x c : fine l -> new_DoStatement rec l = Ok x -> In c (ckids l) -> is_named c = true -> kind_in (kind c) outer = true -> shows l x c.
  Proof. intros F H. unfold new_DoStatement in H. checked_kind H Hk. reach l F H Hk. all: finish Hk. Qed.
  Lemma r_TryStatement l x c : fine l -> new_TryStatement rec l = Ok x -> In c (ckids l) -> is_named c = true -> kind_in (kind c) outer = true -> shows l x c.
  Proof. intros F H. unfold new_TryStatement in H. checked_kind H Hk. reach l F H Hk. all: finish Hk. Qed.
  Lemma r_SwitchExpression l x c : fine l -> new_SwitchExpression rec l = Ok x -> In c (ckids l) -> is_named c = true -> kind_in (kind c) outer = true -> shows l x c.
  Proof. intros F H. unfold new_SwitchExpression in H. checked_kind H Hk. reach l F H Hk. all: finish Hk. Qed.
  Lemma r_CatchClause l x c : fine l -> new_CatchClause rec l = Ok x -> In c (ckids l) -> is_named c = true -> kind_in (kind c) outer = true -> shows l x c.
  Proof. intros F H. unfold new_CatchClause in H. checked_kind H Hk. reach l F H Hk. all: finish Hk. Qed.
  Lemma r_SwitchBlock l x c : fine l -> new_SwitchBlock rec l = Ok x -> In c (ckids l) -> is_named c = true -> kind_in (kind c) outer = true -> shows l x c.
  Proof. intros F H. unfold new_SwitchBlock in H. checked_kind H Hk. reach l F H Hk. all: finish Hk. Qed.
  Lemma r_TriggerDeclaration l x c : fine l -> new_TriggerDeclaration rec l = Ok x -> In c (ckids l) -> is_named c = true -> kind_in (kind c) outer = true -> shows l x c.
  Proof. intros F H. unfold new_TriggerDeclaration in H. checked_kind H Hk. reach l F H Hk. all: finish Hk. Qed.
  Lemma r_ConstructorDeclaration l x c : kind l = "constructor_declaration" -> fine l -> new_ConstructorDeclaration rec l = Ok x -> In c (ckids l) -> is_named c = true -> kind_in (kind c) outer = true -> shows l x c.
  Proof. intros Hk F H. unfold new_ConstructorDeclaration in H. reach l F H Hk. all: finish Hk. Qed.
  Lemma r_StaticInitializer l x c : kind l = "static_initializer" -> fine l -> new_StaticInitializer rec l = Ok x -> In c (ckids l) -> is_named c = true -> kind_in (kind c) outer = true -> shows l x c.
  Proof. intros Hk F H. unfold new_StaticInitializer in H. reach l F H Hk. all: finish Hk. Qed.
End Shown.
