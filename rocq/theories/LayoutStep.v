(* LayoutStep.v: every constructor of New.v reads the same builder calls from two
   places that are alike.  Proofs only. *)
From Coq Require Import Lia Sorting.Sorted.
From Verif Require Import Base Doc DocBuilder Cst Comments Term New SpecTree SpecLayout LayoutNew SeqTerm.
Open Scope res_scope.
Local Open Scope string_scope.
Local Open Scope list_scope.

Definition literal_kinds : list string :=
  ["decimal"; "int"; "string_literal"; "boolean"; "date"; "date_literal"; "null_literal"].

Section Step.
  Variable f : N -> N.
  Variable gp : node -> node -> node -> nat * nat.
  Variable top : node -> node -> Prop.
  Variables cm cm' : list (N * bucket).
  Variable checked : bool.
  Variables r r' : sort -> loc -> res dt.
  Notation sim := (sim f gp top).
  Notation simp := (simp f gp top).
  Notation simk := (simk f gp top).
  Notation simf := (simf f gp top).

  (* The calls that matter: those for which the two readings are compared. *)
  Variable G : dt -> Prop.
  Hypothesis closed : forall d p, G d -> In p (parts d) -> G p.
  Definition dR (d d' : dt) : Prop := G d -> d' = dmap f d.
  Definition lR (d d' : list dt) : Prop := Forall2 dR d d'.
  Definition mmap_ (m : dt * bool) : dt * bool := let (x, b) := m in (dmap f x, b).
  (* The members [ms] stand in such a call. *)
  Definition printed_members (ms : list (dt * bool)) : Prop := exists d a b, G d /\ seq d = a ++ mseq ms ++ b.
  Definition mR (ms ms' : list (dt * bool)) : Prop :=
    Forall2 (fun m m' => dR (fst m) (fst m')) ms ms' /\ (printed_members ms -> map snd ms' = map snd ms).
  (* The members read from the children of [l]. *)
  Definition member_sorts : list sort := [RootMember; ClassMember; InterfaceMember; Statement; ConstructInvocation].
  Definition members_of (cm : list (N * bucket)) (r : sort -> loc -> res dt) (l : loc) (ms : list (dt * bool)) : Prop :=
    Forall2 (fun c m => (exists s, In s member_sorts /\ r s c = Ok (fst m)) /\ has_trailing_newline cm checked c = Ok (snd m))
      (children_vec l) ms.

  Lemma lR_eq ds ds' : lR ds ds' -> Forall G ds -> ds' = map (dmap f) ds.
  Proof. induction 1 as [|x y ds ds' Hx Hd IH]; intro H; [reflexivity|]. inversion H; subst. cbn. rewrite Hx, IH by assumption. reflexivity. Qed.
  Lemma lR_nil ds ds' : lR ds ds' -> is_nil ds' = is_nil ds.
  Proof. intros []; reflexivity. Qed.
  Lemma lR_cons x x' l l' : dR x x' -> lR l l' -> lR (x :: l) (x' :: l').
  Proof. intros. constructor; assumption. Qed.
  Lemma lR_none : lR [] [].
  Proof. constructor. Qed.
  Lemma lR_app a a' b b' : lR a a' -> lR b b' -> lR (a ++ b) (a' ++ b').
  Proof. apply Forall2_app. Qed.
  Lemma lR_before x x' l l' : dR x x' -> lR l l' -> lR (before x l) (before x' l').
  Proof. intros Hx [|? ? ? ? Hy Hl]; [constructor|]. repeat (apply lR_cons; [assumption|]). exact Hl. Qed.
  Lemma lR_after x x' l l' : dR x x' -> lR l l' -> lR (after l x) (after l' x').
  Proof. intros Hx [|? ? ? ? Hy Hl]; [constructor|]. unfold after. cbn [is_nil]. apply lR_app; [apply lR_cons; assumption|]. apply lR_cons; [assumption|apply lR_none]. Qed.
  Lemma G_all d : G d -> Forall G (parts d).
  Proof. intro H. apply Forall_forall. intros x Hx. eapply closed; eassumption. Qed.
  Lemma G_node h x b t' : G (TNode h x b t') -> Forall G b /\ Forall G t'.
  Proof. intro H. apply G_all in H. apply Forall_app in H. exact H. Qed.
  Lemma G_concat l : G (TConcat l) -> Forall G l.
  Proof. exact (G_all (TConcat l)). Qed.
  Lemma G_indent x : G (TIndent x) -> G x.
  Proof. intro H. apply G_all in H. inversion H. assumption. Qed.
  Lemma G_dedent x : G (TDedent x) -> G x.
  Proof. intro H. apply G_all in H. inversion H. assumption. Qed.
  Lemma G_group x : G (TGroup x) -> G x.
  Proof. intro H. apply G_all in H. inversion H. assumption. Qed.
  Lemma G_inter l s : G (TIntersperse l s) -> Forall G l.
  Proof. exact (G_all (TIntersperse l s)). Qed.
  Lemma G_surround l s o c : G (TSurround l s o c) -> Forall G l.
  Proof. exact (G_all (TSurround l s o c)). Qed.
  Lemma G_before x l : Forall G (before x l) -> Forall G l.
  Proof. destruct l; [auto|]. intro H. inversion H. assumption. Qed.
  Lemma G_after l x : Forall G (after l x) -> Forall G l.
  Proof. destruct l; [auto|]. unfold after. cbn [is_nil]. intro H. apply Forall_app in H. apply H. Qed.
  Lemma G_cons x l : Forall G (x :: l) -> G x /\ Forall G l.
  Proof. intro H. inversion H. auto. Qed.
  Lemma G_app l l' : Forall G (l ++ l') -> Forall G l /\ Forall G l'.
  Proof. apply Forall_app. Qed.
  Lemma G_declarators ds : G (declarators_doc ds) -> Forall G ds.
  Proof.
    destruct ds as [|d [|e ds]]; [constructor| |].
    - cbn. intro H. repeat constructor. repeat first [apply G_group in H | apply G_indent in H | apply G_concat in H | apply G_cons in H as [H ?]]; try assumption.
    - intro H. unfold declarators_doc in H. repeat first [apply G_group in H | apply G_indent in H | apply G_inter in H]; exact H.
  Qed.
  Lemma mR_all ms ms' : mR ms ms' -> Forall G (map fst ms) -> printed_members ms \/ ms = [] -> ms' = map mmap_ ms.
  Proof.
    intros [H K] g P. assert (E : map snd ms' = map snd ms).
    { destruct P as [P|P]; [apply K; exact P|]. subst. inversion H; subst. reflexivity. }
    clear K P. induction H as [|[x b] [x' b'] ms ms' Hx Hm IH]; [reflexivity|]. inversion g; subst. injection E as E1 E2.
    cbn in *. rewrite (Hx ltac:(assumption)), IH by assumption. subst. reflexivity.
  Qed.
  Lemma mR_members ms ms' : mR ms ms' -> G (TMembers ms) -> ms' = map mmap_ ms.
  Proof.
    intros H g. apply mR_all; [exact H|exact (G_all _ g)|]. left. exists (TMembers ms), [], []. split; [exact g|].
    rewrite app_nil_r. reflexivity.
  Qed.
  Lemma mR_surround ms ms' o c : mR ms ms' -> G (TSurroundMembers ms o c) -> ms' = map mmap_ ms.
  Proof.
    intros H g. apply mR_all; [exact H|exact (G_all _ g)|]. destruct ms as [|m ms]; [right; reflexivity|left].
    exists (TSurroundMembers (m :: ms) o c), [PT o; PB], ([PB] ++ [PT c]). split; [exact g|].
    cbn [seq]. rewrite <- !app_assoc. reflexivity.
  Qed.

  Definition pre (s : sort) (c c' : loc) : Prop :=
    match s with
    | SoqlLiteral | ComparableListValue => kind_in (kind c) literal_kinds = true -> value c' = value c
    | ComparableList => is_kind "comparable_list" c = true
    | AnnotationArgumentList => has_field "arguments" (l_node c) = true
    | ConstructorDeclaration => is_kind "constructor_declaration" c = true
    | ConstructorBody => has_field "body" (l_node c) = true /\ exists u, parent c = Some u /\ is_kind "constructor_declaration" u = true
    | _ => True
    end.
  (* the places that have members *)
  Definition bodied (l : loc) : Prop :=
    kind_in (kind l) ["parser_output"; "class_body"; "interface_body"; "block"; "constructor_body"] = true \/
    (has_field "body" (l_node l) = true /\ exists u, parent l = Some u /\ is_kind "constructor_declaration" u = true).
  Lemma bodied_members l : bodied l -> has_members (l_node l) = true.
  Proof. unfold has_members. intros [H|[H _]]; [unfold kind in H; rewrite H; reflexivity|rewrite H; apply orb_true_r]. Qed.
  Hypothesis HR : forall s c c', sim c c' -> pre s c c' -> rr dR (r s c) (r' s c').
  Hypothesis HT : forall u c c', simp (Some u) c c' -> has_members (l_node u) = true -> is_named c = true ->
    rr (fun _ _ => True) (has_trailing_newline cm checked c) (has_trailing_newline cm' checked c').
  Hypothesis HB : forall l l' ms ms', sim l l' -> bodied l ->
    members_of cm r l ms -> members_of cm' r' l' ms' -> printed_members ms -> map snd ms' = map snd ms.

  (* -------------------------------------------------------- reading children *)

  Lemma s_by_n g s l l' : sim l l' -> (forall c c', simf g (Some l) c c' -> pre s c c') ->
    rr dR (by_n r g s l) (by_n r' g s l').
  Proof.
    intros S P. unfold by_n. eapply rr_bind; [apply sim_c_n; exact S|].
    intros c c' H. apply HR; [apply H|]. apply P. exact H.
  Qed.
  Lemma s_by_k g s l l' : sim l l' -> (forall c c', simk g (Some l) c c' -> pre s c c') ->
    rr dR (by_k r g s l) (by_k r' g s l').
  Proof.
    intros S P. unfold by_k. eapply rr_bind; [apply sim_c_k; exact S|].
    intros c c' H. apply HR; [apply H|]. apply P. exact H.
  Qed.
  Lemma s_fst s l l' : sim l l' -> (forall c c', simp (Some l) c c' -> pre s c c') ->
    rr dR (fst_c r s l) (fst_c r' s l').
  Proof.
    intros S P. unfold fst_c. eapply rr_bind; [apply sim_first; exact S|].
    intros c c' H. apply HR; [apply H|]. apply P. exact H.
  Qed.
  Lemma s_one s c c' : sim c c' -> pre s c c' ->
    rr lR (d <- r s c ;; Ok [d]) (d <- r' s c' ;; Ok [d]).
  Proof. intros S P. eapply rr_bind; [apply HR; eassumption|]. intros x x' Hx. repeat constructor. exact Hx. Qed.
  Lemma s_opt_k g s l l' : sim l l' -> (forall c c', simk g (Some l) c c' -> pre s c c') ->
    rr lR (opt_k r g s l) (opt_k r' g s l').
  Proof.
    intros S P. unfold opt_k. pose proof (sim_try_k f gp top g _ _ S) as H.
    destruct (try_c_by_k g l), (try_c_by_k g l'); cbn in H; try contradiction; [|constructor].
    apply s_one; [apply H|apply P; exact H].
  Qed.
  Lemma s_opt_n g s l l' : sim l l' -> (forall c c', simf g (Some l) c c' -> pre s c c') ->
    rr lR (opt_n r g s l) (opt_n r' g s l').
  Proof.
    intros S P. unfold opt_n. pose proof (sim_try_n f gp top g _ _ S) as H.
    destruct (try_c_by_n g l), (try_c_by_n g l'); cbn in H; try contradiction; [|constructor].
    apply s_one; [apply H|apply P; exact H].
  Qed.
  Lemma s_map (R : loc -> loc -> Prop) s cs cs' : Forall2 R cs cs' ->
    (forall c c', R c c' -> sim c c' /\ pre s c c') -> rr lR (mapR (r s) cs) (mapR (r' s) cs').
  Proof.
    intros H P. eapply (rr_mapR _ dR); [exact H|].
    intros x y F. apply P in F. apply HR; apply F.
  Qed.
  Lemma s_all_k g s l l' : sim l l' -> (forall c c', simk g (Some l) c c' -> pre s c c') ->
    rr lR (all_k r g s l) (all_k r' g s l').
  Proof.
    intros S P. unfold all_k. eapply s_map; [apply sim_try_ks; exact S|].
    intros c c' H. split; [apply H|apply P; exact H].
  Qed.
  Lemma s_all1_k g s l l' : sim l l' -> (forall c c', simk g (Some l) c c' -> pre s c c') ->
    rr lR (all1_k r g s l) (all1_k r' g s l').
  Proof.
    intros S P. unfold all1_k. eapply rr_bind; [apply sim_cs_k; exact S|]. intros cs cs' F.
    eapply s_map; [exact F|]. intros c c' H. split; [apply H|apply P; exact H].
  Qed.
  Lemma s_all1_n g s l l' : sim l l' -> (forall c c', simf g (Some l) c c' -> pre s c c') ->
    rr lR (all1_n r g s l) (all1_n r' g s l').
  Proof.
    intros S P. unfold all1_n. eapply rr_bind; [apply sim_cs_n; exact S|]. intros cs cs' F.
    eapply s_map; [exact F|]. intros c c' H. split; [apply H|apply P; exact H].
  Qed.
  Lemma s_all_c s l l' : sim l l' -> (forall c c', simp (Some l) c c' -> pre s c c') ->
    rr lR (all_c r s l) (all_c r' s l').
  Proof.
    intros S P. unfold all_c. eapply s_map; [apply sim_children_vec; exact S|].
    intros c c' H. split; [apply H|apply P; exact H].
  Qed.
  Lemma s_member u s c c' : simp (Some u) c c' -> has_members (l_node u) = true -> is_named c = true -> pre s c c' ->
    rr (fun m m' => dR (fst m) (fst m')) (body_member cm checked r s c) (body_member cm' checked r' s c').
  Proof.
    intros S M N P. unfold body_member. eapply rr_bind; [apply HR; [apply S|exact P]|]. intros d d' Hd.
    eapply rr_bind; [eapply HT; eassumption|]. intros b b' _. exact Hd.
  Qed.
  Lemma member_read cm1 r1 s cs ms : In s member_sorts -> mapR (body_member cm1 checked r1 s) cs = Ok ms ->
    Forall2 (fun c m => (exists s, In s member_sorts /\ r1 s c = Ok (fst m)) /\ has_trailing_newline cm1 checked c = Ok (snd m)) cs ms.
  Proof.
    intro Hs. revert ms. induction cs as [|c cs IH]; intros ms H; cbn [mapR] in H; [injection H as <-; constructor|].
    unfold body_member at 1 in H. destruct (r1 s c) as [d| |] eqn:E; try discriminate. cbn [rbind] in H.
    destruct (has_trailing_newline cm1 checked c) as [tr| |] eqn:E1; try discriminate. cbn [rbind] in H.
    destruct (mapR _ cs) as [ms0| |] eqn:E2; try discriminate. injection H as <-.
    constructor; [|apply IH; reflexivity]. split; [exists s; auto|exact E1].
  Qed.
  Lemma children_vec_named l c : In c (children_vec l) -> is_named c = true.
  Proof. unfold children_vec, named_kids. intro H. apply filter_In in H. destruct H as [H _]. apply filter_In in H. apply H. Qed.
  Lemma sim_children_named l l' : sim l l' ->
    Forall2 (fun c c' => simp (Some l) c c' /\ is_named c = true) (children_vec l) (children_vec l').
  Proof.
    intro S. pose proof (sim_children_vec f gp top _ _ S) as H. pose proof (children_vec_named l) as N.
    induction H as [|x y cs cs' Hx Hc IH]; constructor.
    - split; [exact Hx|apply N; left; reflexivity].
    - apply IH. intros c Hc'. apply N. right. exact Hc'.
  Qed.
  Lemma s_members_of u s cs cs' :
    Forall2 (fun c c' => simp (Some u) c c' /\ is_named c = true) cs cs' -> has_members (l_node u) = true ->
    (forall c c', pre s c c') ->
    rr (Forall2 (fun m m' => dR (fst m) (fst m')))
      (mapR (body_member cm checked r s) cs) (mapR (body_member cm' checked r' s) cs').
  Proof.
    intros H M P. eapply (rr_mapR _ (fun m m' => dR (fst m) (fst m'))); [exact H|].
    intros x y [F N]. eapply s_member; eauto.
  Qed.
  Lemma s_members s l l' : In s member_sorts -> sim l l' -> bodied l -> (forall c c', pre s c c') ->
    rr mR (mapR (body_member cm checked r s) (children_vec l)) (mapR (body_member cm' checked r' s) (children_vec l')).
  Proof.
    intros I S M P. pose proof (s_members_of l s _ _ (sim_children_named _ _ S) (bodied_members l M) P) as H.
    destruct (mapR (body_member cm checked r s) (children_vec l)) as [ms| |] eqn:E,
      (mapR (body_member cm' checked r' s) (children_vec l')) as [ms'| |] eqn:E'; cbn [rr] in *; try assumption.
    split; [exact H|]. apply (HB l l'); [exact S|exact M| |]; eapply member_read; eassumption.
  Qed.

  (* -------------------------------------------------------- words *)

  Lemma s_vn c c' : sim c c' -> value c' = value c -> vn c' = dmap f (vn c).
  Proof. intros S E. unfold vn, nodeP. cbn. rewrite E, (sim_with f gp top _ _ S). reflexivity. Qed.
  Lemma s_vn_exact c c' : sim c c' -> kind_in (kind c) exact_kinds = true -> vn c' = dmap f (vn c).
  Proof. intros S K. apply s_vn; [exact S|]. eapply text_exact; eassumption. Qed.
  Lemma s_vn_lower c c' : sim c c' -> kind_in (kind c) ["boolean"; "null_literal"; "decimal_floating_point_literal"] = true ->
    vn_lower c' = dmap f (vn_lower c).
  Proof.
    intros S K. unfold vn_lower, nodeP. cbn. rewrite (text_lower f gp top _ _ S K), (sim_with f gp top _ _ S). reflexivity.
  Qed.
  Lemma s_vn_upper c c' : sim c c' -> kind_in (kind c) ["fields_type"; "with_data_cat_filter_type"] = true ->
    vn_upper c' = dmap f (vn_upper c).
  Proof.
    intros S K. unfold vn_upper, nodeP. cbn. rewrite (text_upper f gp top _ _ S K), (sim_with f gp top _ _ S). reflexivity.
  Qed.
  Lemma kind_of k c : is_kind k c = true -> kind c = k.
  Proof. unfold is_kind, has_kind. intro H. apply String.eqb_eq in H. exact H. Qed.
  Definition word_fields : list string := ["name"; "key"; "operator"; "accessor"; "function_name"; "version_num"; "field"].
  Lemma s_vn_n g l l' : kind_in g word_fields = true -> sim l l' -> rr dR (vn_n g l) (vn_n g l').
  Proof.
    intros KG S. unfold vn_n. eapply rr_map; [apply sim_c_n; exact S|]. intros c c' H.
    intros _. apply s_vn; [apply H|]. eapply text_field; [exact H|]. apply kind_in_in. exact KG.
  Qed.
  Lemma s_vn_k k l l' : kind_in k exact_kinds = true -> sim l l' -> rr dR (vn_k k l) (vn_k k l').
  Proof.
    intros KG S. unfold vn_k. eapply rr_map; [apply sim_c_k; exact S|]. intros c c' (H & _ & K).
    intros _. apply s_vn_exact; [exact H|]. rewrite (kind_of _ _ K). exact KG.
  Qed.
  Lemma s_opt_vn_k k l l' : kind_in k exact_kinds = true -> sim l l' ->
    opt_vn_k k l' = map (dmap f) (opt_vn_k k l).
  Proof.
    intros KG S. unfold opt_vn_k, opt_list. pose proof (sim_try_k f gp top k _ _ S) as H.
    destruct (try_c_by_k k l), (try_c_by_k k l'); cbn in H; try contradiction; [|reflexivity].
    destruct H as (H & _ & K). cbn. rewrite (s_vn_exact _ _ H); [reflexivity|]. rewrite (kind_of _ _ K). exact KG.
  Qed.
  Lemma s_cvalue_k k l l' : kind_in k exact_kinds = true -> sim l l' -> rr eq (cvalue_by_k k l) (cvalue_by_k k l').
  Proof.
    intros KG S. unfold cvalue_by_k. eapply rr_map; [apply sim_c_k; exact S|]. intros c c' (H & _ & K).
    symmetry. eapply text_exact; [exact H|]. rewrite (kind_of _ _ K). exact KG.
  Qed.
  Lemma s_cvalue_n g l l' : kind_in g word_fields = true -> sim l l' -> rr eq (cvalue_by_n g l) (cvalue_by_n g l').
  Proof.
    intros KG S. unfold cvalue_by_n. eapply rr_map; [apply sim_c_n; exact S|]. intros c c' H.
    symmetry. eapply text_field; [exact H|]. apply kind_in_in. exact KG.
  Qed.
  Lemma s_assert k l l' : sim l l' -> rr (fun _ _ => is_kind k l = true) (assert_check k l) (assert_check k l').
  Proof. intro S. unfold assert_check. rewrite (sim_is_kind f gp top k _ _ S). destruct (is_kind k l); cbn; reflexivity. Qed.
  Lemma s_chain l l' : sim l l' -> rr eq (build_chaining_context l) (build_chaining_context l').
  Proof.
    intro S. unfold build_chaining_context. eapply rr_bind; [apply rr_must, (sim_parent f gp top), S|].
    intros p p' Sp. rewrite (sim_kind f gp top _ _ Sp). pose proof (sim_try_n f gp top "object" _ _ S) as H.
    destruct (try_c_by_n "object" l), (try_c_by_n "object" l'); cbn in H; try contradiction; [|reflexivity].
    destruct H as (H & _). rewrite (sim_kind f gp top _ _ H). reflexivity.
  Qed.
  Lemma s_wrap a a' : rr dR a a' -> rr dR (wrap_r a) (wrap_r a').
  Proof. intro H. unfold wrap_r. eapply rr_map; [exact H|]. intros x x' Hx g. apply G_concat, G_cons in g as [g _]. rewrite Hx by exact g. reflexivity. Qed.
  Lemma s_before x l : map (dmap f) (before x l) = before (dmap f x) (map (dmap f) l).
  Proof. destruct l; reflexivity. Qed.
  Lemma s_after l x : map (dmap f) (after l x) = after (map (dmap f) l) (dmap f x).
  Proof. destruct l; cbn; [reflexivity|]. rewrite map_app. reflexivity. Qed.
  Lemma s_nil {A B} (g : A -> B) l : is_nil (map g l) = is_nil l.
  Proof. destruct l; reflexivity. Qed.
  Lemma s_unknown {A B} (R : A -> B -> Prop) w : rr R (unknown w) (unknown w).
  Proof. reflexivity. Qed.

  Lemma s_bool_operator l l' : sim l l' -> bool_operator l' = bool_operator l.
  Proof. intro S. unfold bool_operator. rewrite !(sim_is_kind f gp top _ _ _ S). reflexivity. Qed.
  Lemma s_declarators ds : declarators_doc (map (dmap f) ds) = dmap f (declarators_doc ds).
  Proof. destruct ds as [|d [|e ds]]; reflexivity. Qed.
  Lemma s_map_vn k u cs cs' : kind_in k exact_kinds = true -> Forall2 (simk k u) cs cs' ->
    map vn cs' = map (dmap f) (map vn cs).
  Proof.
    intros K H. rewrite map_map. eapply f2_map; [exact H|]. intros x y (S & _ & Q). apply s_vn_exact; [exact S|].
    rewrite (kind_of _ _ Q). exact K.
  Qed.

  Ltac inst :=
    repeat match goal with
    | H : simk _ _ _ _ |- _ => destruct H as (? & ? & ?)
    | H : simf _ _ _ _ |- _ => destruct H as (? & ? & ?)
    | H : simp _ _ _ |- _ => destruct H as (? & ?)
    end.
  Ltac pure :=
    repeat match goal with
    | H : sim ?l ?l' |- context [is_kind ?k ?l'] => rewrite (sim_is_kind f gp top k _ _ H)
    | H : sim ?l ?l' |- context [kind ?l'] => rewrite (sim_kind f gp top _ _ H)
    | H : sim ?l ?l' |- context [is_semicolumn ?l'] => change (is_semicolumn l') with (is_kind ";" l')
    | H : sim ?l ?l' |- context [is_semicolumn ?l] => change (is_semicolumn l) with (is_kind ";" l)
    | H : sim ?l ?l' |- context [bool_operator ?l'] => rewrite (s_bool_operator _ _ H)
    | H : sim ?l ?l' |- context [is_nil (named_kids ?l')] => rewrite (f2_nil _ _ _ (sim_named_kids f gp top _ _ H))
    | H : sim ?l ?l' |- context [is_nil (children_vec ?l')] => rewrite (f2_nil _ _ _ (sim_children_vec f gp top _ _ H))
    end.
  Ltac kk := first [ assumption | reflexivity
                   | match goal with H : is_kind _ ?c = true |- kind_in (kind ?c) _ = true => rewrite (kind_of _ _ H); reflexivity end ].
  Ltac crack :=
    repeat match goal with
    | H : G (TNode _ _ _ _) |- _ => apply G_node in H; destruct H
    | H : G (TConcat _) |- _ => apply G_concat in H
    | H : G (TIndent _) |- _ => apply G_indent in H
    | H : G (TDedent _) |- _ => apply G_dedent in H
    | H : G (TGroup _) |- _ => apply G_group in H
    | H : G (TIntersperse _ _) |- _ => apply G_inter in H
    | H : G (TSurround _ _ _ _) |- _ => apply G_surround in H
    | H : G (declarators_doc _) |- _ => apply G_declarators in H
    | H : Forall G (before _ _) |- _ => apply G_before in H
    | H : Forall G (after _ _) |- _ => apply G_after in H
    | H : Forall G [] |- _ => clear H
    | H : Forall G (_ :: _) |- _ => apply G_cons in H; destruct H
    | H : Forall G (_ ++ _) |- _ => apply G_app in H; destruct H
    | H : G (if ?b then _ else _) |- _ => destruct b
    | H : Forall G (if ?b then _ else _) |- _ => destruct b
    | H : mR _ _, g : G (TMembers _) |- _ => apply (mR_members _ _ H) in g; subst; clear H
    | H : mR _ _, g : G (TSurroundMembers _ _ _) |- _ => apply (mR_surround _ _ _ _ H) in g; subst; clear H
    | H : dR ?x _, g : G ?x |- _ => specialize (H g); subst
    | H : lR ?x _, g : Forall G ?x |- _ => apply lR_eq in H; [subst|exact g]
    end.
  Ltac fin :=
    cbn [rr]; try (match goal with |- lR _ _ =>
      repeat match goal with
      | |- lR [] [] => apply lR_none
      | |- lR (_ ++ _) _ => apply lR_app
      | |- lR (before _ _) _ => apply lR_before
      | |- lR (after _ _) _ => apply lR_after
      | |- lR (_ :: _) _ => apply lR_cons
      | |- lR _ _ => assumption
      | |- dR _ _ => assumption
      end end);
    try match goal with |- dR _ _ => let g := fresh "g" in intro g;
      unfold nodeP, gc, gic, gparen, gsur, surr, wrap, loop_body, is_semicolumn in g |- * end;
    repeat match goal with
      | |- context [match ?x with Some _ => _ | None => _ end] => is_var x; destruct x as [[? []]|]
      | H : context [match ?x with Some _ => _ | None => _ end] |- _ => is_var x; destruct x as [[? []]|] end;
    repeat match goal with H : lR ?a ?b |- context [is_nil ?b] => rewrite (lR_nil _ _ H) end;
    pure; crack;
    repeat match goal with
    | H : sim ?l ?l' |- context [with_punctuation ?l'] => rewrite (sim_with f gp top _ _ H)
    | H : sim ?l ?l' |- context [with_inner_punctuation ?l'] => rewrite (sim_with_inner f gp top _ _ H)
    | H : sim ?l ?l' |- context [without_punctuation ?l'] => rewrite (sim_without f gp top _ _ H)
    | H : sim ?l ?l' |- context [vn ?l'] => rewrite (s_vn_exact _ _ H) by kk
    | H : sim ?l ?l' |- context [value ?l'] => rewrite (text_exact f gp top _ _ H) by kk
    | H : sim ?l ?l' |- context [vn_lower ?l'] => rewrite (s_vn_lower _ _ H) by kk
    | H : sim ?l ?l' |- context [vn_upper ?l'] => rewrite (s_vn_upper _ _ H) by kk
    | H : Forall2 (simk ?k _) ?l ?l' |- context [map vn ?l'] => rewrite (s_map_vn k _ _ _ eq_refl H)
    | H : sim ?l ?l' |- context [opt_vn_k ?k ?l'] => rewrite (s_opt_vn_k k _ _ eq_refl H)
    end;
    pure;
    repeat (cbn [dmap map app]; rewrite ?map_app, ?s_before, ?s_after, ?s_nil, ?s_declarators);
    try reflexivity;
    repeat (match goal with |- context [if ?b then _ else _] => destruct b end;
            repeat (cbn [dmap map app]; rewrite ?map_app, ?s_before, ?s_after, ?s_nil, ?s_declarators));
    try reflexivity.
  Ltac cut_ R := apply (rr_bind R).
  Ltac step :=
    match goal with
    | |- rr _ (Panic _) (Panic _) => reflexivity
    | |- rr _ (unknown _) (unknown _) => reflexivity
    | |- rr _ (r _ _) (r' _ _) => apply HR; [assumption|try exact I]
    | |- rr _ (wrap_r _) (wrap_r _) => apply s_wrap
    | |- rr _ (new_Dimensions _) _ => unfold new_Dimensions
    | |- rr _ (new_AllRowsClause _) _ => unfold new_AllRowsClause
    | |- rr _ (opt_dimensions_k _) _ => unfold opt_dimensions_k
    | |- rr _ (new_Super _) _ => unfold new_Super
    | |- rr _ (new_This _) _ => unfold new_This
    | |- rr _ (new_BoolType _) _ => unfold new_BoolType
    | |- rr _ (new_Literal_ _) _ => unfold new_Literal_
    | |- rr _ (new_SafeNavigationOperator _) _ => unfold new_SafeNavigationOperator
    | |- rr _ (new_DateLiteralWithParam _) _ => unfold new_DateLiteralWithParam
    | |- rr _ (rbind (mapR (body_member _ _ _ _) (children_vec _)) _) _ =>
        eapply rr_bind; [apply s_members; [cbn; tauto|eassumption| |intros; exact I]|intros ? ? ?]
    | |- bodied _ => match goal with H : is_kind _ ?l = true |- bodied ?l => left; rewrite (kind_of _ _ H); reflexivity end
    | H : lR ?a ?b |- rr _ _ (if is_nil ?b then _ else _) => rewrite (lR_nil _ _ H)
    | |- rr _ (by_n _ _ _ _) _ => apply s_by_n; [assumption|try (intros; exact I)]
    | |- rr _ (by_k _ _ _ _) _ => apply s_by_k; [assumption|try (intros; exact I)]
    | |- rr _ (fst_c _ _ _) _ => apply s_fst; [assumption|try (intros; exact I)]
    | |- rr _ (opt_k _ _ _ _) _ => apply s_opt_k; [assumption|try (intros; exact I)]
    | |- rr _ (opt_n _ _ _ _) _ => apply s_opt_n; [assumption|try (intros; exact I)]
    | |- rr _ (all_k _ _ _ _) _ => apply s_all_k; [assumption|try (intros; exact I)]
    | |- rr _ (all1_k _ _ _ _) _ => apply s_all1_k; [assumption|try (intros; exact I)]
    | |- rr _ (all1_n _ _ _ _) _ => apply s_all1_n; [assumption|try (intros; exact I)]
    | |- rr _ (all_c _ _ _) _ => apply s_all_c; [assumption|try (intros; exact I)]
    | |- rr _ (vn_n _ _) _ => apply s_vn_n; [reflexivity|assumption]
    | |- rr _ (vn_k _ _) _ => apply s_vn_k; [reflexivity|assumption]
    | |- rr _ (rbind (assert_check _ _) _) _ => eapply rr_bind; [apply s_assert; eassumption|intros ? ? ?; cbv beta in *]
    | |- rr _ (rbind (cvalue_by_k _ _) _) _ => eapply rr_bind; [apply s_cvalue_k; [reflexivity|eassumption]|intros ? ? <-]
    | |- rr _ (rbind (cvalue_by_n _ _) _) _ => eapply rr_bind; [apply s_cvalue_n; [reflexivity|eassumption]|intros ? ? <-]
    | |- rr _ (rbind (build_chaining_context _) _) _ => eapply rr_bind; [apply s_chain; eassumption|intros ? ? <-]
    | |- rr _ (rbind (c_by_n _ _) _) _ => eapply rr_bind; [apply sim_c_n; eassumption|intros ? ? ?; inst]
    | |- rr _ (rbind (c_by_k _ _) _) _ => eapply rr_bind; [apply sim_c_k; eassumption|intros ? ? ?; inst]
    | |- rr _ (rbind (cs_by_k _ _) _) _ => eapply rr_bind; [apply sim_cs_k; eassumption|intros ? ? ?]
    | |- rr _ (rmap vn_upper (c_by_k _ _)) _ => eapply rr_map; [apply sim_c_k; eassumption|intros ? ? ?; inst]
    | |- dR (vn_upper _) (vn_upper _) => intros _; apply s_vn_upper; [assumption|kk]
    | |- rr _ (rbind (first_c _) _) _ => eapply rr_bind; [apply sim_first; eassumption|intros ? ? ?; inst]
    | |- rr _ (rbind (next_named _) _) _ => eapply rr_bind; [apply sim_next; eassumption|intros ? ? ?; inst]
    | |- rr _ (rbind (must _ (parent _)) _) _ => eapply rr_bind; [apply rr_must, (sim_parent f gp top); eassumption|intros ? ? ?; inst]
    | |- rr _ (rbind (modifier_text _) _) _ => pure; eapply rr_bind; [apply rr_refl|intros ? ? <-]
    | |- rr _ (rbind (trigger_event_text _) _) _ => pure; eapply rr_bind; [apply rr_refl|intros ? ? <-]
    | |- rr _ (rbind (get_precedence _) _) _ => pure; eapply rr_bind; [apply rr_refl|intros ? ? <-]
    | |- rr _ (rbind ?a _) _ => match type of a with
                                | res bool => apply (rr_bind eq); [|intros ? ? <-]
                                | res string => apply (rr_bind eq); [|intros ? ? <-]
                                | res dt => apply (rr_bind dR); [|intros ? ? ?; inst]
                                | res (list dt) => apply (rr_bind lR); [|intros ? ? ?; inst]
                                end
    | |- rr _ (match try_c_by_k ?k ?l with _ => _ end) (match try_c_by_k ?k ?l' with _ => _ end) =>
        let H := fresh "T" in
        assert (H : oo (simk k (Some l)) (try_c_by_k k l) (try_c_by_k k l')) by (apply sim_try_k; assumption);
        destruct (try_c_by_k k l), (try_c_by_k k l'); cbn [oo] in H; [inst|destruct H|destruct H|clear H]
    | |- rr _ (match try_c_by_n ?k ?l with _ => _ end) (match try_c_by_n ?k ?l' with _ => _ end) =>
        let H := fresh "T" in
        assert (H : oo (simf k (Some l)) (try_c_by_n k l) (try_c_by_n k l')) by (apply sim_try_n; assumption);
        destruct (try_c_by_n k l), (try_c_by_n k l'); cbn [oo] in H; [inst|destruct H|destruct H|clear H]
    | |- rr _ (if ?b then _ else _) (if ?b then _ else _) => let E := fresh "E" in destruct b eqn:E
    | |- rr _ (if _ then _ else _) (if _ then _ else _) => progress pure
    | |- rr _ (Ok _) (Ok _) => solve [fin]
    | |- rr _ (Ok ?a) (Ok ?a) => reflexivity
    | |- rr lR (Ok []) (Ok []) => constructor
    end.
  Ltac go := repeat step.
  Ltac ok := cbn [rr].

  Lemma s_vn_value l l' : sim l l' -> has_field "arguments" (l_node l) || is_kind "annotation_key_value" l = true ->
    rr dR (vn_n "value" l) (vn_n "value" l').
  Proof.
    intros S P. unfold vn_n. eapply rr_map; [apply sim_c_n; exact S|]. intros c c' H.
    intros _. apply s_vn; [apply H|]. eapply text_value; eassumption.
  Qed.
  Lemma s_vn_object l l' : sim l l' -> is_kind "trigger_declaration" l = true ->
    rr dR (vn_n "object" l) (vn_n "object" l').
  Proof.
    intros S P. unfold vn_n. eapply rr_map; [apply sim_c_n; exact S|]. intros c c' H.
    intros _. apply s_vn; [apply H|]. eapply text_object; eassumption.
  Qed.
  Lemma s_vn_boolean l l' : sim l l' -> is_kind "with_spell_correction_expression" l = true ->
    rr dR (vn_k "boolean" l) (vn_k "boolean" l').
  Proof.
    intros S P. unfold vn_k. eapply rr_map; [apply sim_c_k; exact S|]. intros c c' (H & U & K).
    intros _. apply s_vn; [exact H|]. eapply (text_literal f gp top l); [split; assumption| |].
    - unfold raw_parent. rewrite (kind_of _ _ P). reflexivity.
    - rewrite (kind_of _ _ K). reflexivity.
  Qed.
  Lemma s_literal_pre l c c' : simp (Some l) c c' -> raw_parent l = true -> pre SoqlLiteral c c'.
  Proof. intros S R K. eapply text_literal; eassumption. Qed.
  Lemma s_comparison l l' : sim l l' -> raw_parent l = true -> rr dR (get_comparsion r l) (get_comparsion r' l').
  Proof.
    intros S R. unfold get_comparsion. step.
    - eapply rr_bind; [apply sim_next; eassumption|]. intros c c' Hc.
      match goal with H : parent _ = Some l |- _ => rewrite H in Hc end.
      apply (rr_bind dR).
      + destruct Hc as [Sc Pc]. pure. destruct (is_kind "bound_apex_expression" c); apply HR; try exact Sc; [exact I|].
        apply (s_literal_pre l); [split; assumption|exact R].
      + intros x x' Hx. fin.
    - step.
      + eapply rr_bind; [apply sim_next; eassumption|]. intros c c' Hc.
        match goal with H : parent _ = Some l |- _ => rewrite H in Hc end. destruct Hc as [Sc Pc].
        apply (rr_bind dR); [apply HR; [exact Sc|exact I]|]. intros x x' Hx. fin.
      + reflexivity.
  Qed.
  Definition gR (a b : dt + dt) : Prop :=
    match a, b with inl d, inl d' => dR d d' | inr d, inr d' => dR d d' | _, _ => False end.
  Lemma s_group_item c c' : sim c c' -> rr gR (group_by_item r c) (group_by_item r' c').
  Proof.
    intro S. unfold group_by_item. pure.
    repeat match goal with
    | |- rr _ (if ?b then _ else _) (if ?b then _ else _) => destruct b
    end; try reflexivity.
    all: apply (rr_bind dR); [apply HR; [exact S|exact I]|intros x x' Hx; cbn [rr gR]; first [exact Hx|fin]].
  Qed.
  Lemma s_lefts a b : Forall2 gR a b -> lR (lefts a) (lefts b).
  Proof.
    intro H. unfold lefts. induction H as [|x y a b Hx Hl IH]; [constructor|]. cbn [flat_map].
    destruct x, y; cbn in Hx; try contradiction; [constructor|]; assumption.
  Qed.
  Lemma s_rights a b : Forall2 gR a b -> lR (rights a) (rights b).
  Proof.
    intro H. unfold rights. induction H as [|x y a b Hx Hl IH]; [constructor|]. cbn [flat_map].
    destruct x, y; cbn in Hx; try contradiction; [|constructor]; assumption.
  Qed.
  Lemma s_puncts p cs cs' : Forall2 (like f gp p) cs cs' ->
    rr (fun a b => b = map (pmap f) a) (mapR punct_new (filter (has_kind ";") cs)) (mapR punct_new (filter (has_kind ";") cs')).
  Proof.
    intro H. eapply rr_impl; [|eapply (rr_mapR (like f gp p) (fun a b => b = pmap f a))].
    - intros x y F. apply f2_eqmap. exact F.
    - eapply f2_impl; [|apply f2_filter; [exact H|]].
      + intros x y [Q _]. exact Q.
      + intros x y Q. apply (like_has_kind f gp _ _ _ _ Q).
    - intros x y Q. unfold punct_new. rewrite <- !(like_has_kind f gp _ _ _ _ Q), (like_id f gp _ _ _ Q).
      destruct (has_kind "," x); [reflexivity|]. destruct (has_kind ";" x); reflexivity.
  Qed.
  Lemma sorted_pair {A} (key : A -> N) R l : forall l' a a' b b',
    StronglySorted (fun x y => (key x < key y)%N) l -> StronglySorted (fun x y => (key x < key y)%N) l' ->
    Forall2 R l l' -> In (a, a') (combine l l') -> In (b, b') (combine l l') ->
    (key a' <? key b')%N = (key a <? key b)%N.
  Proof.
    induction l as [|x l IH]; intros l' a a' b b' S S' H Ha Hb; [destruct Ha|].
    inversion H as [|? y ? m Hx Hm]; subst. inversion S as [|? ? S1 F1]; subst. inversion S' as [|? ? S2 F2]; subst.
    rewrite Forall_forall in F1, F2.
    assert (I1 : forall u v, In (u, v) (combine l m) -> In u l) by (intros u v; apply in_combine_l).
    assert (I2 : forall u v, In (u, v) (combine l m) -> In v m) by (intros u v; apply in_combine_r).
    destruct Ha as [Ea|Ha], Hb as [Eb|Hb].
    - injection Ea as <- <-. injection Eb as <- <-. rewrite !N.ltb_irrefl. reflexivity.
    - injection Ea as <- <-. pose proof (F1 _ (I1 _ _ Hb)). pose proof (F2 _ (I2 _ _ Hb)).
      transitivity true; [apply N.ltb_lt; assumption|symmetry; apply N.ltb_lt; assumption].
    - injection Eb as <- <-. pose proof (F1 _ (I1 _ _ Ha)). pose proof (F2 _ (I2 _ _ Ha)).
      transitivity false; [apply N.ltb_ge; lia|symmetry; apply N.ltb_ge; lia].
    - eapply IH; eassumption.
  Qed.
  Lemma find_combine {A B} (p : A -> bool) (q : B -> bool) l : forall l' x y, Forall2 (fun a b => p a = q b) l l' ->
    find p l = Some x -> find q l' = Some y -> In (x, y) (combine l l').
  Proof.
    induction l as [|a l IH]; intros l' x y H E E'; [discriminate E|]. inversion H as [|? b ? m Hx Hm]; subst.
    cbn in E, E'. rewrite <- Hx in E'. destruct (p a).
    - injection E as <-. injection E' as <-. left. reflexivity.
    - right. eapply IH; eassumption.
  Qed.
  Lemma combine_map {A B} (g : A -> B) l l' x y : In (x, y) (combine l l') -> In (g x, g y) (combine (map g l) (map g l')).
  Proof.
    revert l'. induction l as [|a l IH]; intros [|b l'] H; cbn in *; try contradiction.
    destruct H as [H|H]; [injection H as <- <-; left; reflexivity|right; apply IH; exact H].
  Qed.
  Lemma kids_nodes l : map l_node (kids l) = children (l_node l).
  Proof.
    unfold kids. generalize (@nil node). induction (children (l_node l)) as [|c cs IH]; intro left; cbn; [reflexivity|].
    rewrite IH. reflexivity.
  Qed.
  Lemma s_order g h l l' a a' b b' : sim l l' ->
    try_c_by_n g l = Some a -> try_c_by_n g l' = Some a' -> try_c_by_n h l = Some b -> try_c_by_n h l' = Some b' ->
    (n_sbyte (l_node a') <? n_sbyte (l_node b'))%N = (n_sbyte (l_node a) <? n_sbyte (l_node b))%N.
  Proof.
    intros S Ea Ea' Eb Eb'. pose proof (sim_like f gp top _ _ S) as L.
    assert (F : forall g, Forall2 (fun x y => has_field g (l_node x) = has_field g (l_node y)) (kids l) (kids l')).
    { intro g0. eapply f2_impl; [|apply (sim_kids f gp top); exact S]. intros x y Q.
      apply (like_has_field f gp _ _ _ _ (sim_like f gp top _ _ Q)). }
    pose proof (find_combine _ _ _ _ _ _ (F g) Ea Ea') as Ia. pose proof (find_combine _ _ _ _ _ _ (F h) Eb Eb') as Ib.
    apply (combine_map l_node) in Ia, Ib. rewrite !kids_nodes in Ia, Ib.
    destruct (like_seq f gp _ _ _ L) as [O O'].
    exact (sorted_pair n_sbyte _ _ _ _ _ _ _ O O' (like_kids f gp _ _ _ L) Ia Ib).
  Qed.

  Ltac head := match goal with |- rr _ ?a _ =>
      let h := (let rec hd t := match t with ?f _ => hd f | _ => t end in hd a) in unfold h end.
  Lemma s_hd_rev {A B} (R : A -> B -> Prop) w xs ys : Forall2 R xs ys ->
    rr R (must w (hd_error (rev xs))) (must w (hd_error (rev ys))).
  Proof. intro H. apply rr_must, f2_hd, f2_rev, H. Qed.
  Lemma s_IfStatement l l' : sim l l' -> rr dR (new_IfStatement r l) (new_IfStatement r' l').
  Proof.
    intro S. head. step.
    apply (rr_bind (oo (fun a b : dt * dt * bool =>
      fst (fst b) = dmap f (fst (fst a)) /\ dR (snd (fst a)) (snd (fst b)) /\ snd b = snd a))).
    - step; [|exact I]. eapply (rr_bind (fun c c' => sim c c' /\ is_kind "else" c = true)).
      + apply rr_must. apply f2_find; [apply sim_kids; exact S|]. intros ? ? Q. symmetry. apply (sim_is_kind f gp top _ _ _ Q).
      + intros c c' [Sc Kc]. apply (rr_bind dR); [apply HR; [assumption|exact I]|]. intros x1 x2 Hx. cbn [rr oo fst snd].
        pure. rewrite (s_vn_exact _ _ Sc) by kk. auto.
    - intros a a' HA. step; [step|]. step. step; [step|].
      destruct a as [[[e s] i]|], a' as [[[e' s'] i']|]; cbn [oo fst snd] in HA; try contradiction.
      + destruct HA as (-> & HA & ->). fin.
      + fin.
  Qed.
  Lemma s_next_semicolon ps : next_semicolon (map (pmap f) ps) = (dmap f (fst (next_semicolon ps)), map (pmap f) (snd (next_semicolon ps))).
  Proof. destruct ps; reflexivity. Qed.
  Lemma s_ForStatement l l' : sim l l' -> rr dR (new_ForStatement r l) (new_ForStatement r' l').
  Proof.
    intro S. head. step. step; [step|]. step; [step|]. step; [step|].
    eapply rr_bind; [eapply s_puncts; apply (like_kids f gp _ _ _ (sim_like f gp top _ _ S))|]. intros ps ps' ->.
    rewrite map_length.
    repeat match goal with H : lR ?a ?b |- context [is_nil ?b] => rewrite (lR_nil _ _ H) end.
    destruct (_ <? _)%nat; [reflexivity|]. step. step; [step|].
    match goal with |- rr _ (let (_, _) := match ?i with _ => _ end in let (_, _) := match ?c with _ => _ end in _) _ =>
      match goal with HI : lR i _, HC : lR c _ |- _ => destruct HI as [|i0 i1 ini ini' HI HJ], HC as [|c0 c1 con con' HC HD] end end.
    all: rewrite ?s_next_semicolon; destruct (next_semicolon ps) as [d1 p1] eqn:E1; cbn [fst snd].
    all: rewrite ?s_next_semicolon; destruct (next_semicolon p1) as [d2 p2] eqn:E2; cbn [fst snd].
    all: match goal with |- context [match ?u with [] => tnil | _ :: _ => _ end] =>
           match goal with HU : lR u _ |- _ => destruct HU end end; fin.
  Qed.
  Lemma s_UpdateExpression l l' : sim l l' -> rr dR (new_UpdateExpression r l) (new_UpdateExpression r' l').
  Proof.
    intro S. head. step. unfold c_by_n.
    pose proof (sim_try_n f gp top "operator" _ _ S) as A. pose proof (sim_try_n f gp top "operand" _ _ S) as B.
    pose proof (s_order "operator" "operand" l l') as O.
    destruct (try_c_by_n "operator" l) as [a|], (try_c_by_n "operator" l') as [a'|]; cbn [oo] in A; try contradiction; [|reflexivity].
    cbn [must rbind].
    destruct (try_c_by_n "operand" l) as [b|], (try_c_by_n "operand" l') as [b'|]; cbn [oo] in B; try contradiction; [|reflexivity].
    cbn [must rbind]. specialize (O a a' b b' S eq_refl eq_refl eq_refl eq_refl).
    apply (rr_bind dR); [apply HR; [apply B|exact I]|]. intros ? ? ?.
    assert (V : value a' = value a) by (eapply text_field; [exact A|cbn; tauto]).
    cbn [rr]. unfold nodeP. rewrite O, V, (sim_with f gp top _ _ S). intro g. destruct (n_sbyte (l_node a) <? n_sbyte (l_node b))%N; crack; reflexivity.
  Qed.
  Lemma s_ScopedTypeIdentifier l l' : sim l l' -> rr dR (new_ScopedTypeIdentifier r l) (new_ScopedTypeIdentifier r' l').
  Proof.
    intro S. head. go. eapply rr_bind; [eapply s_hd_rev; eassumption|]. intros c c' Hc; inst. fin.
  Qed.
  Lemma s_ConstructorBody l l' : sim l l' -> pre ConstructorBody l l' ->
    rr dR (new_ConstructorBody cm checked r l) (new_ConstructorBody cm' checked r' l').
  Proof.
    intros S P. head. pose proof (sim_children_named _ _ S) as H.
    assert (Bd : bodied l) by (right; exact P). assert (M := bodied_members l Bd).
    pose proof (HB l l') as HB0. unfold members_of in HB0.
    set (M0 := fun cm r (c : loc) (m : dt * bool) =>
      (exists s, In s member_sorts /\ r s c = Ok (fst m)) /\ has_trailing_newline cm checked c = Ok (snd m)) in *.
    change (forall ms ms', sim l l' -> bodied l -> Forall2 (M0 cm r) (children_vec l) ms ->
      Forall2 (M0 cm' r') (children_vec l') ms' -> printed_members ms -> map snd ms' = map snd ms) in HB0.
    assert (one : forall cm1 r1 c m, body_member cm1 checked r1 ConstructInvocation c = Ok m -> M0 cm1 r1 c m).
    { intros cm1 r1 c m E. unfold body_member in E. destruct (r1 _ c) as [d| |] eqn:E1; try discriminate. cbn [rbind] in E.
      destruct (has_trailing_newline cm1 checked c) as [tr| |] eqn:E2; try discriminate. injection E as <-.
      split; [exists ConstructInvocation; split; [cbn; tauto|exact E1]|exact E2]. }
    assert (many : forall cm1 r1 cs ms, mapR (body_member cm1 checked r1 Statement) cs = Ok ms -> Forall2 (M0 cm1 r1) cs ms).
    { intros cm1 r1 cs ms E. eapply member_read; [|exact E]. cbn. tauto. }
    destruct H as [|c c' cs cs' [Hc Nc] Hcs].
    - cbn [rbind mapR rr]. fin.
    - cbv beta zeta. rewrite (sim_is_kind f gp top _ _ _ (proj1 Hc)). destruct (is_kind _ c).
      + pose proof (s_member l ConstructInvocation c c' Hc M Nc I) as Hi.
        destruct (body_member cm checked r ConstructInvocation c) as [i| |] eqn:E1,
          (body_member cm' checked r' ConstructInvocation c') as [i'| |] eqn:E1'; cbn [rr] in Hi; try contradiction; try exact Hi.
        cbn [rmap rbind].
        pose proof (s_members_of l Statement cs cs' Hcs M (fun _ _ => I)) as Hm.
        destruct (mapR (body_member cm checked r Statement) cs) as [ms| |] eqn:E2,
          (mapR (body_member cm' checked r' Statement) cs') as [ms'| |] eqn:E2'; cbn [rr] in Hm; try contradiction; try exact Hm.
        cbn [rbind]. specialize (HB0 (i :: ms) (i' :: ms') S Bd (Forall2_cons _ _ (one _ _ _ _ E1) (many _ _ _ _ E2))
          (Forall2_cons _ _ (one _ _ _ _ E1') (many _ _ _ _ E2'))).
        destruct i as [d tr], i' as [d' tr']. cbn [fst] in Hi.
        assert (Q : mR ((d, tr) :: ms) ((d', tr') :: ms')).
        { split; [constructor; assumption|exact HB0]. }
        clear HB0 E1 E1' E2 E2' one many. cbn [rr]. intro g. apply mR_all in Q.
        * cbn [map mmap_] in Q. injection Q as -> -> ->. rewrite (sim_with f gp top _ _ S).
          destruct ms as [|m ms]; cbn; [reflexivity|]. destruct tr; reflexivity.
        * cbn [map fst]. assert (G d /\ Forall G (map fst ms)) as [Gd Gm].
          { destruct ms as [|m ms]; cbn [is_nil] in g; destruct tr; crack; (split; [assumption|]);
              first [match goal with HH : G (TMembers _) |- _ => exact (G_all _ HH) end|constructor]. }
          constructor; assumption.
        * left. match type of g with G ?D => set (D0 := D) in * end.
          exists D0, [PN (n_id (l_node l)); PT (U "{"); PB],
            ((if is_nil ms then [PT []] else []) ++ [PB; PT (U "}")]).
          split; [exact g|]. subst D0. cbn [seq node_seq flat_map app]. unfold mseq.
          destruct ms as [|m ms]; [|destruct tr]; cbn [map member_seq is_nil seq flat_map app NL leaf_seq sep_seq t];
            rewrite ?app_nil_r, <- ?app_assoc; reflexivity.

      + cbn [rbind]. pose proof (s_members_of l Statement (c :: cs) (c' :: cs') (Forall2_cons _ _ (conj Hc Nc) Hcs) M (fun _ _ => I)) as Hm.
        destruct (mapR (body_member cm checked r Statement) (c :: cs)) as [ms| |] eqn:E2,
          (mapR (body_member cm' checked r' Statement) (c' :: cs')) as [ms'| |] eqn:E2'; cbn [rr] in Hm; try contradiction; try exact Hm.
        cbn [rbind]. specialize (HB0 ms ms' S Bd (many _ _ _ _ E2) (many _ _ _ _ E2')).
        assert (Q : mR ms ms') by (split; assumption). clear HB0 Hm one many E2 E2'. cbn [rr]. intro g.
        assert (ms' = map mmap_ ms) as ->.
        { destruct ms as [|m ms]; [destruct Q as [Q _]; inversion Q; reflexivity|]. apply G_node in g as [g _].
          apply G_app in g as [_ g]. apply G_app in g as [_ g]. apply G_cons in g as [g _]. apply G_indent in g.
          eapply mR_members; eassumption. }
        rewrite (sim_with f gp top _ _ S). destruct ms as [|m ms]; reflexivity.
  Qed.
  Lemma s_FieldAccess l l' : sim l l' -> rr dR (new_FieldAccess r l) (new_FieldAccess r' l').
  Proof.
    intro S. head. step. step. step; [go|]. step; [go|].
    eapply rr_bind; [apply sim_c_n; eassumption|]. intros c c' Hc.
    assert (V : value c' = value c) by (eapply text_field; [exact Hc|cbn; tauto]).
    inst. apply (rr_bind dR).
    - pure. step; [go|]. intros _. match goal with Q : sim c c' |- _ => rewrite (s_vn _ _ Q V) end. reflexivity.
    - intros ? ? ?. go.
  Qed.
  Lemma s_WhenSObjectType l l' : sim l l' -> rr dR (new_WhenSObjectType r l) (new_WhenSObjectType r' l').
  Proof.
    intro S. head. apply (rr_bind lR).
    - eapply s_map; [apply f2_filter; [apply sim_children_vec; exact S|]|].
      + intros x y [Q _]. cbv beta. rewrite (sim_is_kind f gp top _ _ _ Q). reflexivity.
      + intros c c' [[Q _] _]. split; [exact Q|exact I].
    - intros x x' Hx. apply (rr_bind dR).
      + pose proof (f2_rev _ _ _ Hx) as Hr. destruct (rev x), (rev x'); inversion Hr; subst; [reflexivity|assumption].
      + intros y y' Hy. eapply rr_bind.
        * eapply s_hd_rev. apply f2_filter; [apply sim_children_vec; exact S|].
          intros c c' [Q _]. symmetry. apply (sim_is_kind f gp top _ _ _ Q).
        * intros c c' [[Q _] K]. fin.
  Qed.
  Lemma s_VersionExpression l l' : sim l l' -> rr dR (new_VersionExpression l) (new_VersionExpression l').
  Proof.
    intro S. head. step. ok. pose proof (sim_try_n f gp top "version_num" _ _ S) as A.
    destruct (try_c_by_n "version_num" l) as [a|], (try_c_by_n "version_num" l') as [a'|]; cbn [oo] in A; try contradiction; [|fin].
    assert (V : value a' = value a) by (eapply text_field; [exact A|cbn; tauto]).
    rewrite (s_vn _ _ (proj1 A) V). fin.
  Qed.
  Lemma s_AccessorList l l' : sim l l' -> rr dR (new_AccessorList r l) (new_AccessorList r' l').
  Proof.
    intro S. head. go.
    all: match goal with H : Forall2 (simk _ _) ?a ?b |- _ => rename H into F end.
    - eapply s_map; [exact F|]. intros c c' Hc. split; [apply Hc|exact I].
    - match goal with |- context [existsb ?p ?x] => assert (E : forall y, Forall2 (simk "accessor_declaration" (Some l)) x y -> existsb p y = existsb p x) end.
      { intros y Fy. symmetry. eapply f2_existsb; [exact Fy|].
        intros c c' (Q & _). pose proof (sim_try_n f gp top "body" _ _ Q) as A.
        destruct (try_c_by_n "body" c), (try_c_by_n "body" c'); cbn in A; try contradiction; reflexivity. }
      rewrite (E _ F). match goal with |- context [existsb ?p ?x] => destruct (existsb p x) end; fin.
  Qed.
  Lemma s_MapKeyInitializer l l' : sim l l' -> rr dR (new_MapKeyInitializer r l) (new_MapKeyInitializer r' l').
  Proof.
    intro S. head. step. destruct (sim_children_vec f gp top _ _ S) as [|a a' ? ? A [|b b' ? ? B []]]; try reflexivity.
    inst. go.
  Qed.
  Lemma s_GroupByClause l l' : sim l l' -> rr dR (new_GroupByClause r l) (new_GroupByClause r' l').
  Proof.
    intro S. head. step. eapply rr_bind.
    - eapply (rr_mapR _ gR); [apply sim_children_vec; exact S|]. intros c c' [Q _]. apply s_group_item. exact Q.
    - intros a b Hg. pose proof (s_lefts _ _ Hg) as HL. pose proof (f2_rev _ _ _ (s_rights _ _ Hg)) as HRi.
      change (lR (rev (rights a)) (rev (rights b))) in HRi.
      destruct HRi; fin; rewrite HL; reflexivity.
  Qed.
  Lemma s_WithDataCatFilter l l' : sim l l' -> rr dR (new_WithDataCatFilter l) (new_WithDataCatFilter l').
  Proof.
    intro S. head. step. step. match goal with H : Forall2 (simk _ _) ?a ?b |- _ => destruct H as [|a0 a0' ? ? A [|b0 b0' c0 c0' B F]] end; try reflexivity.
    pose proof (fun _ : unit => s_map_vn "identifier" (Some l) (b0 :: c0) (b0' :: c0') eq_refl (Forall2_cons _ _ B F)) as V.
    pose proof (f2_nil _ _ _ F) as N.
    destruct A as (SA & _ & KA). destruct B as (SB & _ & KB). clear F.
    step; [go|]. rewrite (V tt). ok. destruct c0, c0'; try discriminate N; fin.
  Qed.
  Lemma s_GeoLocationType l l' : sim l l' -> rr dR (new_GeoLocationType r l) (new_GeoLocationType r' l').
  Proof.
    intro S. head. go.
    match goal with H : Forall2 (simk _ _) ?a ?b |- _ => destruct H as [|d1 d1' ? ? A [|d2 d2' ? ? B []]] end; try reflexivity.
    inst. go.
  Qed.
  Lemma s_DateLiteralWithParam l l' : sim l l' -> rr dR (new_DateLiteralWithParam l) (new_DateLiteralWithParam l').
  Proof.
    intro S. head. step.
    apply (rr_bind (fun a b => to_uppercase b = to_uppercase a)).
    - unfold cvalue_by_k. eapply rr_map; [apply sim_c_k; exact S|]. intros c c' Q. eapply text_date; eassumption.
    - intros a b E. step. ok. rewrite E. fin.
  Qed.
  Lemma s_SoqlLiteral l l' : sim l l' -> pre SoqlLiteral l l' -> rr dR (new_SoqlLiteral l) (new_SoqlLiteral l').
  Proof.
    intros S P. head. pure. step.
    - ok. rewrite (s_vn _ _ S); [intros _; reflexivity|]. apply P. assumption.
    - pure. step; [apply s_wrap, s_DateLiteralWithParam, S|reflexivity].
  Qed.
  Lemma s_ComparableListValue l l' : sim l l' -> pre ComparableListValue l l' ->
    rr dR (new_ComparableListValue r l) (new_ComparableListValue r' l').
  Proof. intros S P. head. pure. step; [go|]. apply s_wrap, HR; [exact S|exact P]. Qed.
  Lemma s_SoqlWithType l l' : sim l l' -> rr dR (new_SoqlWithType l) (new_SoqlWithType l').
  Proof.
    intro S. head. step. step; [|go]. pure. step; [|go]. ok. rewrite (s_vn _ _ S); [intros _; reflexivity|].
    eapply text_with_type; eassumption.
  Qed.
  Lemma s_DmlSecurityMode l l' : sim l l' -> rr dR (new_DmlSecurityMode l) (new_DmlSecurityMode l').
  Proof.
    intro S. head. step. pure. step; [|go]. ok.
    match goal with Q : sim ?c ?c', E : kind_in (kind ?c) ["user"; "system"] = true |- _ =>
      rewrite (text_exact f gp top _ _ Q); [fin|]; apply kind_in_in in E; cbn [In] in E;
      destruct E as [E|[E|[]]]; rewrite <- E; reflexivity end.
  Qed.
  Lemma s_ReturnStatement l l' : sim l l' -> rr dR (new_ReturnStatement r l) (new_ReturnStatement r' l').
  Proof.
    intro S. head. step. pose proof (f2_hd _ _ _ (sim_children_vec f gp top _ _ S)) as Hh. unfold try_first_c.
    destruct (hd_error (children_vec l)), (hd_error (children_vec l')); cbn [oo] in Hh; try contradiction; [inst|]; go.
  Qed.

  Lemma new_step_like s l l' : sim l l' -> pre s l l' -> rr dR (new_step cm checked r s l) (new_step cm' checked r' s l').
  Proof.
    intros S P. destruct s; cbn [new_step];
    lazymatch goal with
    | |- rr _ (new_IfStatement _ _) _ => apply s_IfStatement; exact S
    | |- rr _ (new_ForStatement _ _) _ => apply s_ForStatement; exact S
    | |- rr _ (new_UpdateExpression _ _) _ => apply s_UpdateExpression; exact S
    | |- rr _ (new_ScopedTypeIdentifier _ _) _ => apply s_ScopedTypeIdentifier; exact S
    | |- rr _ (new_FieldAccess _ _) _ => apply s_FieldAccess; exact S
    | |- rr _ (new_WhenSObjectType _ _) _ => apply s_WhenSObjectType; exact S
    | |- rr _ (new_AccessorList _ _) _ => apply s_AccessorList; exact S
    | |- rr _ (new_MapKeyInitializer _ _) _ => apply s_MapKeyInitializer; exact S
    | |- rr _ (new_GroupByClause _ _) _ => apply s_GroupByClause; exact S
    | |- rr _ (new_GeoLocationType _ _) _ => apply s_GeoLocationType; exact S
    | |- rr _ (new_ReturnStatement _ _) _ => apply s_ReturnStatement; exact S
    | |- rr _ (new_VersionExpression _) _ => apply s_VersionExpression; exact S
    | |- rr _ (new_WithDataCatFilter _) _ => apply s_WithDataCatFilter; exact S
    | |- rr _ (new_SoqlWithType _) _ => apply s_SoqlWithType; exact S
    | |- rr _ (new_DmlSecurityMode _) _ => apply s_DmlSecurityMode; exact S
    | |- rr _ (new_ConstructorBody _ _ _ _) _ => apply s_ConstructorBody; [exact S|exact P]
    | |- rr _ (new_SoqlLiteral _) _ => apply s_SoqlLiteral; [exact S|exact P]
    | |- rr _ (new_ComparableListValue _ _) _ => apply s_ComparableListValue; [exact S|exact P]
    | |- _ => head; go
    end.
    1: { cbn [pre]. assumption. }
    1: { intros c c' Hc. apply Hc. }
    1: { apply s_vn_value; [exact S|]. cbn [pre] in P. rewrite P. reflexivity. }
    1: { apply s_vn_value; [exact S|]. apply orb_true_iff. right. assumption. }
    1: { intros c c' Hc. cbn [pre] in P |- *. split; [apply Hc|]. exists l. split; [apply Hc|exact P]. }
    1: { apply s_vn_object; assumption. }
    1: { intros c c' Hc K. eapply text_bound; [exact Hc| |exact K].
         match goal with H : is_kind _ l = true |- _ => rewrite (kind_of _ _ H) end. discriminate. }
    1: { apply s_comparison; [assumption|]. unfold raw_parent. match goal with H : is_kind _ l = true |- _ => rewrite (kind_of _ _ H) end. reflexivity. }
    1: { intros c c' Hc K. cbn [pre] in P. eapply text_literal; [exact Hc| |exact K]. unfold raw_parent. rewrite (kind_of _ _ P). reflexivity. }
    1: { apply s_comparison; [assumption|]. unfold raw_parent. match goal with H : is_kind _ l = true |- _ => rewrite (kind_of _ _ H) end. reflexivity. }
    1: { apply s_vn_boolean; assumption. }
    1: { eapply s_map; [apply f2_tl, sim_children_vec; exact S|]. intros c c' [Q _]. split; [exact Q|exact I]. }
    1: { cbn [pre]. assumption. }
  Qed.
End Step.
