(* SamplesRead.v: tests deciding the hypotheses about the grammar, and a tree on
   which reading does not end. *)
From Verif Require Import Base Doc DocBuilder SpecDoc DocProofs Cst Comments SpecTree SpecComments SpecRead Term New
  Formatter ReadProofs ReadProofs3 Trees Samples Witnesses.
Local Open Scope string_scope.

Definition filters_known_b (root : node) : bool :=
  forallb (fun n => negb (kind_in (n_kind n) filter_parents) ||
    forallb (fun c => negb (n_named c) || n_extra c || kind_in (n_kind c) filter_kinds) (children n))%bool
    (all_nodes root).
Lemma filters_known_sound root : filters_known_b root = true -> filters_known root.
Proof.
  unfold filters_known_b, filters_known. rewrite forallb_forall. intros H n c Hn Hc Hp H1 H2.
  specialize (H n Hn). rewrite Hp in H. simpl in H. rewrite forallb_forall in H. specialize (H c Hc).
  rewrite H1, H2 in H. exact H.
Qed.
Definition extras_are_comments_b (root : node) : bool :=
  forallb (fun n => negb (n_extra n) || kind_in (n_kind n) ["line_comment"; "block_comment"])%bool (all_nodes root).
Lemma extras_are_comments_sound root : extras_are_comments_b root = true -> extras_are_comments root.
Proof.
  unfold extras_are_comments_b, extras_are_comments. rewrite forallb_forall. intros H n Hn He.
  specialize (H n Hn). rewrite He in H. exact H.
Qed.
Definition fields_hold_nodes_b (root : node) : bool :=
  forallb (fun n => forallb (fun c =>
    match n_field c with Some f => negb (node_field (n_kind n) f) || code c | None => true end)%bool (children n))
    (all_nodes root).
Lemma fields_hold_nodes_sound root : fields_hold_nodes_b root = true -> fields_hold_nodes root.
Proof.
  unfold fields_hold_nodes_b, fields_hold_nodes. rewrite forallb_forall. intros H n c f Hn Hc Hf Hk.
  specialize (H n Hn). rewrite forallb_forall in H. specialize (H c Hc). rewrite Hf, Hk in H. exact H.
Qed.
Definition grammatical_b (root : node) : bool :=
  (code root && extras_are_comments_b root && fields_hold_nodes_b root && filters_known_b root)%bool.
Lemma grammatical_sound root : grammatical_b root = true -> grammatical root.
Proof.
  unfold grammatical_b. rewrite !andb_true_iff. intros [[[H1 H2] H3] H4].
  constructor; auto using extras_are_comments_sound, fields_hold_nodes_sound, filters_known_sound.
Qed.

Definition comparison : sketch :=
  br "comparison_expression" [br "field_identifier" [tok "identifier" "Name"];
    br "value_comparison_operator" [an "="]; tok "string_literal" "'x'"].
(* [SELECT Id FROM A WHERE Name = 'x'] *)
Definition sample_where : node :=
  tree (cls [meth [query [brf "where_clause" "where_clause" [an "WHERE"; comparison]]]]).
(* A condition of a kind afmt does not know. *)
Definition sample_unknown : node :=
  tree (cls [meth [query [brf "where_clause" "where_clause" [an "WHERE"; tok "new_condition" "x"]]]]).

Definition cm_unknown := match collect_comments sample_unknown with Ok m => m | _ => [] end.
Lemma cm_unknown_ok : collect_comments sample_unknown = Ok cm_unknown.
Proof. vm_compute. reflexivity. Qed.

(* The position of the unknown condition. *)
Fixpoint find_loc (n : nat) (k : string) (l : loc) : option loc :=
  match n with
  | O => None
  | S m => if is_kind k l then Some l
           else fold_right (fun c r => match find_loc m k c with Some x => Some x | None => r end) None (kids l)
  end.
Definition loc_unknown : loc :=
  match find_loc 20 "new_condition" (root_loc sample_unknown) with Some l => l | None => root_loc sample_unknown end.

Lemma unknown_base checked f :
  f (BooleanExpression None) loc_unknown = Overflow -> f (ConditionExpression None) loc_unknown = Overflow ->
  new_base cm_unknown checked f 60 Root (root_loc sample_unknown) = Overflow.
Proof.
  intros H1 H2. vm_compute in H1, H2. destruct checked; vm_compute.
  all: first [rewrite H1|rewrite H2]; reflexivity.
Qed.

Lemma unknown_condition_overflows checked stack cfg :
  format_tree checked stack cfg sample_unknown = Overflow.
Proof.
  unfold format_tree. rewrite cm_unknown_ok. cbn [rbind].
  assert (E : new cm_unknown checked (60 + stack) Root (root_loc sample_unknown) = Overflow).
  { rewrite new_base_eq.
    destruct (filter_loop cm_unknown checked stack loc_unknown eq_refl None) as [H1 H2].
    apply unknown_base; assumption. }
  destruct (new_more cm_unknown checked stack (60 + stack) Root (root_loc sample_unknown)) as [H|H].
  - apply Nat.le_add_l.
  - rewrite H. reflexivity.
  - rewrite H, E. reflexivity.
Qed.
