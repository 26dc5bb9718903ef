(* SamplesPlaces.v: finds the members of the bodies of a tree, for the examples of
   PropertiesPlaces.v. *)
From Verif Require Import Base Doc DocBuilder Cst Comments Term New Formatter SpecTree SpecTokens SpecReread SpecPlaces BitsProofs NewProofs LayoutNew
  Trees Samples SamplesTokens.
Local Open Scope string_scope.
Local Open Scope list_scope.

Section Walk.
  Context {A B : Type}.
  Variable f : list A -> A -> list B.
  Fixpoint walk (before cs : list A) : list B :=
    match cs with [] => [] | c :: r => f before c ++ walk (before ++ [c]) r end.
End Walk.
(* All nodes that [lies] speaks of. *)
Fixpoint lying (ahead : list node) (level : N) (n : node) : list (node * list node * N) :=
  (n, ahead, level) ::
  match n with
  | Node i cs => if kind_in (i_kind i) frames
                 then walk (fun before c => lying (ahead ++ flat_map tips before) (level + deeper (Node i cs) c)%N c) [] cs else []
  end.
Definition lies3 (root : node) (p : node * list node * N) : Prop := let '(n, ahead, level) := p in lies root n ahead level.
Lemma lying_ok root n : forall ahead level, lies root n ahead level -> Forall (lies3 root) (lying ahead level n).
Proof.
  induction n as [i cs IH] using node_nested_ind. intros ahead level L. cbn [lying]. constructor; [exact L|].
  destruct (kind_in (i_kind i) frames) eqn:K; [|constructor].
  assert (G : forall r before, cs = before ++ r -> Forall (fun c => forall ahead level, lies root c ahead level -> Forall (lies3 root) (lying ahead level c)) r ->
    Forall (lies3 root) (walk (fun before c => lying (ahead ++ flat_map tips before) (level + deeper (Node i cs) c)%N c) before r)).
  { induction r as [|c r IHr]; intros before E F; [constructor|]. cbn [walk]. inversion F as [|? ? Hc Hr]; subst. apply Forall_app. split.
    - apply Hc. eapply Lies_child; [exact L|exact K|reflexivity].
    - apply IHr; [rewrite <- app_assoc; reflexivity|exact Hr]. }
  apply (G cs []); [reflexivity|exact IH].
Qed.
(* The bodies of a tree. *)
Definition bodies (root : node) : list (node * list node * N) :=
  filter (fun p => kind_in (n_kind (fst (fst p))) member_lists) (lying [] 0 root).
Lemma bodies_ok root p : In p (bodies root) -> lies3 root p /\ kind_in (n_kind (fst (fst p))) member_lists = true.
Proof.
  intro H. apply filter_In in H as [H K]. split; [|exact K]. pose proof (lying_ok root root [] 0%N (Lies_root root)) as G.
  rewrite Forall_forall in G. apply G. exact H.
Qed.
(* The places of the characters that the theorems speak of: for every body its kind and
   level, and for every member and the closing brace whether an empty row is printed
   before it, and its column. *)
Definition spot (out : ustr) (k : nat) : N * N := (row_of out k - row_of out (pred k), column_of out k)%N.
Definition spots (out : ustr) (p : node * list node * N) : string * N * list (N * N) :=
  let '(n, ahead, level) := p in
  (n_kind n, level,
   walk (fun before c => if n_named c then [spot out (width (ahead ++ flat_map tips before))] else []) [] (children n)
   ++ [spot out (pred (width (ahead ++ tips n)))]).

(* if (a) foo(); else for (T x : y) { foo(); } *)
Definition sample_else : node :=
  tree (cls [meth [Row 1; br "if_statement"
    [an "if"; paren_ "condition" (id_ "a");
     brf "consequence" "expression_statement"
       [br "method_invocation" [tokf "name" "identifier" "foo"; brf "arguments" "argument_list" [an "("; an ")"]]; an ";"];
     an "else";
     brf "alternative" "enhanced_for_statement"
       [an "for"; an "("; type_ "T"; tokf "name" "identifier" "x"; an ":"; tokf "value" "identifier" "y"; an ")";
        brf "body" "block" [an "{"; inv []; an "}"]]]; Row 1]]).
