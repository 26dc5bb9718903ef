(* TrimTame.v: the syntax types whose reader refuses a statement or a declaration.  Proofs only. *)

From Verif Require LayoutNew.
From Verif Require Import Base Doc DocBuilder Cst Comments Term SpecTree New ReadProofs NewProofs
  SpecTokens CollectProofs TokensProofs SpecWords WordsProofs WordsTerm WordsSorts SeqTerm SeqComments SpecTrim TrimEdges.
Open Scope res_scope.
Local Open Scope string_scope.
Local Open Scope list_scope.

Section Tame.
  Variable cm : cmap.
  Variable checked : bool.
  Variable rec : sort -> loc -> res dt.
  Hypothesis IHT : forall s l x, tame s = true -> kind_in (kind l) member_kinds = true -> rec s l = Ok x -> False.

  Lemma not_kind k l : kind_in (kind l) member_kinds = true -> kind_in k member_kinds = false -> is_kind k l = false.
  Proof. intros M K. destruct (is_kind k l) eqn:E; [|reflexivity]. apply String.eqb_eq in E. unfold kind in M. congruence. Qed.
  Lemma not_check k l u : kind_in (kind l) member_kinds = true -> kind_in k member_kinds = false -> assert_check k l = Ok u -> False.
  Proof. intros M K H. unfold assert_check in H. rewrite (not_kind k l M K) in H. discriminate. Qed.
  Lemma not_kinds ks l : kind_in (kind l) member_kinds = true -> forallb (fun k => negb (kind_in k member_kinds)) ks = true -> kind_in (kind l) ks = false.
  Proof.
    intros M K. destruct (kind_in (kind l) ks) eqn:E; [|reflexivity]. apply LayoutNew.kind_in_in in E. rewrite forallb_forall in K. apply K in E.
    rewrite M in E. discriminate.
  Qed.
  Ltac refuse H := first
    [ discriminate H
    | eapply IHT in H; [exact H|reflexivity|assumption]
    | match type of H with
      | rbind (assert_check _ _) _ = Ok _ => let u := fresh "u" in let E := fresh "E" in apply bind_inv in H as (u & E & H); eapply not_check in E; [exact E|assumption|reflexivity]
      | rbind _ _ = Ok _ => let u := fresh "u" in let E := fresh "E" in apply bind_inv in H as (u & E & H); refuse E
      | wrap_r _ = Ok _ => unfold wrap_r in H; apply rmap_inv in H as (? & H & _); refuse H
      | rmap _ _ = Ok _ => apply rmap_inv in H as (? & H & _); refuse H
      | (if is_kind ?k ?l then _ else _) = Ok _ => rewrite (not_kind k l) in H by (assumption || reflexivity); refuse H
      | (if kind_in (kind ?l) ?k then _ else _) = Ok _ => rewrite (not_kinds k l) in H by (assumption || reflexivity); refuse H
      | (if ?b then _ else _) = Ok _ => destruct b; refuse H
      | ?f ?a ?b = Ok _ => unfold f in H; refuse H
      | ?f ?a = Ok _ => unfold f in H; refuse H
      end ].
  Theorem step_tame s l x : tame s = true -> kind_in (kind l) member_kinds = true -> new_step cm checked rec s l = Ok x -> False.
  Proof.
    intros T M H. destruct s; try discriminate T; cbn [new_step] in H; clear T.
    all: try (refuse H).
    all: try (unfold new_Root, new_ClassBody, new_Block, new_InterfaceBody, new_BooleanExpression, new_ConditionExpression in H; refuse H).
  Qed.
End Tame.
Theorem new_tame cm checked fuel : forall s l x, tame s = true -> kind_in (kind l) member_kinds = true -> new cm checked fuel s l = Ok x -> False.
Proof.
  induction fuel as [|k IH]; [discriminate|]. intros s l x T M H. exact (step_tame cm checked (new cm checked k) IH s l x T M H).
Qed.

(* what the comments have to be like *)
Record tame_comments {strict : rules} (root : node) (cm : cmap) : Prop := {
  tc_pre : forall id, pre_fine (strict:=strict) (pre (bkt cm id));
  tc_post : forall id, post_fine (strict:=strict) (post (bkt cm id));
  tc_dangling : forall id, Forall (comment_fine (strict:=strict)) (dangling (bkt cm id));
  tc_behind : forall n, In n (all_nodes root) -> post (bkt cm (n_id n)) <> [] ->
    kind_in (n_kind n) member_kinds = true /\ n_field n = None;
  tc_alone : forall n, In n (all_nodes root) -> dangling (bkt cm (n_id n)) <> [] ->
    kind_in (n_kind n) body_kinds = true /\ in_body n = true;
  tc_signs : forall n, In n (all_nodes root) -> separator n = true -> pre (bkt cm (n_id n)) = [] /\ post (bkt cm (n_id n)) = [];
  tc_clauses : r_single strict = true -> forall n, In n (all_nodes root) -> announced n = true -> pre (bkt cm (n_id n)) = []
}.
Section Whole.
  Context {strict : rules}.
  Variable root : node.
  Variable cm : cmap.
  Hypothesis S1 : solid root.
  Hypothesis S2 : tidy_texts root.
  Hypothesis S5 : r_sparse strict = true -> sparse_texts root.
  Hypothesis S6 : r_single strict = true -> single_texts root.
  Hypothesis S3 : full_clauses root.
  Hypothesis S4 : filled root.
  Hypothesis TC : tame_comments (strict:=strict) root cm.
  Theorem new_trim checked fuel :
    (forall s l x, at_ root l -> (blind s = true -> calm cm l) -> new cm checked fuel s l = Ok x -> KL (strict:=strict) cm s l x) /\
    (forall l x, at_ root l -> kind l = "annotation_argument_list" -> new cm checked fuel AnnotationArgumentList l = Ok x -> K1 (strict:=strict) cm Neat x Neat).
  Proof.
    destruct TC as [T1 T2 T3 T4 T5 T6 T7]. induction fuel as [|k [IH IHA]]; [split; intros; discriminate|]. pose proof (new_tame cm checked k) as IHT. split.
    - intros s l x T B H. exact (step_trim cm T1 T2 T3 root S1 S2 S5 S6 S3 S4 T4 T5 T6 T7 checked (new cm checked k) IH IHA IHT s l x T B H).
    - intros l x T K H. exact (args_K cm T1 T2 root S1 S2 S5 S6 T4 T5 T6 T7 (new cm checked k) IH IHT l x T K H).
  Qed.
  Lemma K_dangling_root (cs : list comment) : Forall (comment_fine (strict:=strict)) cs -> forall e, le e Open -> K (strict:=strict) e (flat_map dseq (map comment_doc cs)) Open.
  Proof.
    induction 1 as [|c cs Hc H IH]; intros e L; [eapply K_weak; [apply (K_nil Open)|exact L|apply le_refl]|].
    cbn [map flat_map]. eapply K_app; [apply K_comment, Hc|]. apply IH. apply le_refl.
  Qed.
  Theorem root_trim checked fuel x : new cm checked fuel Root (root_loc root) = Ok x -> K1 (strict:=strict) cm Neat x Open.
  Proof.
    intro H. destruct fuel as [|k]; [discriminate|]. destruct (new_trim checked k) as [IH _].
    cbn [new new_step] in H. unfold new_Root in H. apply bind_inv in H as (? & _ & H). apply bind_inv in H as (ms & E & H). injection H as <-.
    eapply (r_members_vec (strict:=strict) cm root checked (new cm checked k) IH RootMember) in E; [|split; reflexivity|reflexivity|constructor].
    unfold K1. cbn [cseq node_cseq flat_map]. rewrite app_nil_r. destruct (is_nil _); [|apply K_dangling_root; [apply (tc_dangling root cm TC)|exact I]].
    change (KD (strict:=strict) cm Neat [TMembers ms; NL] Open). eapply (KD_cons (strict:=strict) cm); [eapply K1_members; exact E|]. eapply KD_cons; [apply K1_run; vm_compute; reflexivity|apply KD_nil].
  Qed.
End Whole.
