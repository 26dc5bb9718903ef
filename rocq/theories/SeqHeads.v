(* SeqHeads.v: what is printed for a member begins with the place of its comments.
   Proofs only. *)
From Verif Require Import Base Doc DocBuilder Cst Comments Term SpecTree New WordsSorts SpecLayout LayoutNew SeqTerm LayoutStep.
Open Scope res_scope.
Local Open Scope string_scope.
Local Open Scope list_scope.

Definition headed (l : loc) (x : dt) : Prop := exists b, seq x = PN (n_id (l_node l)) :: b.
Lemma headed_node h p l b t' : h <> HRoot -> x_id p = n_id (l_node l) -> headed l (TNode h p b t').
Proof. intros H E. unfold headed. cbn [seq]. destruct h; try congruence; cbn [node_seq app]; rewrite E; eexists; reflexivity. Qed.
Lemma headed_wrap l x : headed l x -> headed l (wrap x).
Proof. intros [b E]. unfold wrap, headed. cbn [seq flat_map]. rewrite E. eexists. reflexivity. Qed.
Lemma headed_wrap_r l a x : (forall y, a = Ok y -> headed l y) -> wrap_r a = Ok x -> headed l x.
Proof. intros H E. unfold wrap_r in E. apply rmap_inv in E as (y & E & ->). apply headed_wrap, H, E. Qed.

Section Heads.
  Variable cm : cmap.
  Variable checked : bool.
  Variable rec : sort -> loc -> res dt.
  (* the types of members *)
  Definition own (s : sort) : bool :=
    match s with
    | ClassDeclaration | EnumDeclaration | TriggerDeclaration | InterfaceDeclaration | FieldDeclaration | MethodDeclaration
    | Block | ConstructorDeclaration | StaticInitializer | ConstantDeclaration | IfStatement | ExpressionStatement
    | LocalVariableDeclaration | ForStatement | EnhancedForStatement | RunAsStatement | DoStatement | WhileStatement
    | ReturnStatement | TryStatement | ThrowStatement | BreakStatement | ContinueStatement | SwitchExpression
    | ConstructInvocation => true
    | _ => false
    end.
  Ltac peel E :=
    repeat match type of E with
    | rbind _ _ = Ok _ => let y := fresh "y" in let F := fresh "F" in apply bind_inv in E; destruct E as (y & F & E); clear F
    | (if ?b then _ else _) = Ok _ => destruct b
    | (let (_, _) := ?p in _) = Ok _ => destruct p
    | (match ?o with Some _ => _ | None => _ end) = Ok _ => destruct o
    | (match ?o with [] => _ | _ :: _ => _ end) = Ok _ => destruct o
    | Panic _ = Ok _ => discriminate E
    | unknown _ = Ok _ => discriminate E
    | Ok _ = Ok _ => injection E as <-
    end.
  Lemma own_headed s l x : own s = true -> new_step cm checked rec s l = Ok x -> headed l x.
  Proof.
    intros H E. destruct s; try discriminate H; cbn [new_step] in E; clear H;
    match type of E with ?a = Ok _ => let h := (let rec hd t := match t with ?f _ => hd f | _ => t end in hd a) in unfold h in E end; cbv zeta in E; peel E.
    all: try (apply headed_node; [discriminate|reflexivity]).
  Qed.
End Heads.
Lemma new_headed cm checked fuel s l x : own s = true -> new cm checked fuel s l = Ok x -> headed l x.
Proof. destruct fuel as [|k]; [discriminate|]. cbn [new]. apply own_headed. Qed.
Theorem member_headed cm checked fuel s l x : In s member_sorts -> is_kind ";" l = false ->
  new cm checked fuel s l = Ok x -> headed l x.
Proof.
  intros H N E. destruct fuel as [|k]; [discriminate E|]. cbn [new] in E.
  cbn [member_sorts In] in H. destruct H as [<-|[<-|[<-|[<-|[<-|[]]]]]]; cbn [new_step] in E.
  5: { exact (own_headed cm checked (new cm checked k) ConstructInvocation l x eq_refl E). }
  all: match type of E with ?a = Ok _ => let h := (let rec hd t := match t with ?f _ => hd f | _ => t end in hd a) in unfold h in E end.
  all: try rewrite N in E.
  all: repeat match type of E with (if ?b then _ else _) = Ok _ => destruct b end; try discriminate E.
  all: revert E; apply headed_wrap_r; intros y E; eapply new_headed; [|exact E]; reflexivity.
Qed.
