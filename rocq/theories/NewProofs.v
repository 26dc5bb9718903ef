(* NewProofs.v: one pass over the constructors of New.v.  Reading a tree calls
   itself only on smaller positions, looks up only nodes that have a comment
   record, and returns builder calls that print known pieces. *)
From Verif Require Import Base Doc DocBuilder Cst Comments Term New SpecTree SpecRead DocProofs.
From Coq Require Import Lia.
Open Scope res_scope.
Local Open Scope string_scope.

(* ------------------------------------------------------------ positions *)

Lemma locs_from_in up : forall cs left c, In c (locs_from up left cs) <->
  exists before right, cs = (before ++ l_node c :: right)%list /\
    c = Loc (l_node c) (rev before ++ left)%list right (Some up).
Proof.
  induction cs as [|n cs IH]; intros left c; simpl.
  - split; [tauto|]. intros (b & r & H & _). destruct b; discriminate.
  - rewrite IH. split.
    + intros [<-|(b & r & E & Hc)].
      * exists [], cs. split; reflexivity.
      * exists (n :: b), r. split; [simpl; congruence|].
        rewrite Hc at 1. simpl. rewrite <- app_assoc. reflexivity.
    + intros (b & r & E & Hc). destruct b as [|m b].
      * left. simpl in E. injection E as E1 E2. rewrite Hc. rewrite <- E1. subst. reflexivity.
      * right. simpl in E. injection E as -> E2. exists b, r. split; [exact E2|].
        rewrite Hc at 1. simpl. rewrite <- app_assoc. reflexivity.
Qed.
Lemma kids_in l c : In c (kids l) <->
  exists before right, children (l_node l) = (before ++ l_node c :: right)%list /\
    c = Loc (l_node c) (rev before) right (Some l).
Proof.
  unfold kids. rewrite locs_from_in. setoid_rewrite app_nil_r. reflexivity.
Qed.
Lemma kids_child l c : In c (kids l) -> In (l_node c) (children (l_node l)).
Proof. intro H. apply kids_in in H. destruct H as (b & r & -> & _). apply in_or_app. simpl. tauto. Qed.
Lemma kids_parent l c : In c (kids l) -> parent c = Some l.
Proof. intro H. apply kids_in in H. destruct H as (b & r & _ & ->). reflexivity. Qed.
Lemma child_kid l n : In n (children (l_node l)) -> exists c, In c (kids l) /\ l_node c = n.
Proof.
  intro H. apply in_split in H. destruct H as (b & r & E).
  exists (Loc n (rev b) r (Some l)). split; [|reflexivity].
  apply kids_in. exists b, r. split; [exact E|reflexivity].
Qed.
Lemma kid_right l c n : In c (kids l) -> In n (l_right c) -> In n (children (l_node l)).
Proof.
  intros H Hn. apply kids_in in H. destruct H as (b & r & E & Hc). rewrite E.
  rewrite Hc in Hn. simpl in Hn. apply in_or_app. simpl. tauto.
Qed.

Lemma next_named_from_in up c : forall right before,
  children (l_node up) = (rev before ++ right)%list ->
  next_named_from before right (Some up) = Some c ->
  In c (kids up) /\ is_named c = true /\ is_extra c = false.
Proof.
  induction right as [|n right IH]; intros before E H; [discriminate|]. simpl in H.
  destruct (n_named n && negb (n_extra n)) eqn:B.
  - injection H as <-. apply andb_prop in B. destruct B as [B1 B2].
    split; [|unfold is_named, is_extra; simpl; split; [exact B1|apply negb_true_iff; exact B2]].
    apply kids_in. exists (rev before), right. split; [exact E|]. simpl. rewrite rev_involutive. reflexivity.
  - apply IH in H; [exact H|]. simpl. rewrite <- app_assoc. exact E.
Qed.
Lemma next_named_in up o c : In o (kids up) -> next_named o = Ok c ->
  In c (kids up) /\ is_named c = true /\ is_extra c = false.
Proof.
  intros H Hn. apply kids_in in H. destruct H as (b & r & E & Ho). unfold next_named in Hn.
  rewrite Ho in Hn. cbn [l_node l_left l_right parent] in Hn.
  destruct (next_named_from _ _ _) as [x|] eqn:N; [|discriminate]. injection Hn as ->.
  eapply next_named_from_in; [|exact N]. simpl. rewrite rev_involutive, <- app_assoc. exact E.
Qed.

Lemma height_child n c : In c (children n) -> height c < height n.
Proof.
  destruct n as [i cs]. simpl. intro H.
  enough (height c <= fold_right (fun c m => Nat.max (height c) m) 0 cs) by lia.
  induction cs as [|x cs IH]; [destruct H|]. simpl. destruct H as [->|H]; [lia|]. specialize (IH H). lia.
Qed.
Lemma height_pos n : 0 < height n.
Proof. destruct n. simpl. lia. Qed.

(* ------------------------------------------------------------ outcomes *)

Section Frame.
  Variable cm : cmap.
  Variable checked : bool.
  Variable V : loc -> Prop.          (* positions reading may reach *)
  Variable T : ustr -> Prop.         (* texts it may print *)
  Variable has : N -> Prop.          (* nodes with a comment record *)
  Variable okp : string -> Prop.     (* acceptable panics *)

  Definition spec {A} (Q : A -> Prop) (m : res A) : Prop :=
    match m with Ok a => Q a | Panic y => okp y | Overflow => False end.

  Definition lookup_failure : string := "comment map missing bucket for node".
  Hypothesis okp_other : forall y, String.eqb y lookup_failure = false -> okp y.

  (* The children reading may go down to. *)
  Inductive eligible (l c : loc) : Prop :=
  | E_named : is_named c = true -> is_extra c = false -> eligible l c
  | E_kind : is_named c = true -> kind_in (kind c) ["line_comment"; "block_comment"] = false -> eligible l c
  | E_field f : has_field f (l_node c) = true -> node_field (kind l) f = true -> eligible l c
  | E_token : kind_in (kind c) [","; ";"; "else"] = true -> eligible l c.
  Hypothesis V_kid : forall l c, V l -> In c (kids l) -> eligible l c -> V c.
  Hypothesis V_filter : forall l c, V l -> In c (kids l) -> kind_in (kind l) filter_parents = true ->
    is_named c = true -> is_extra c = false -> kind_in (kind c) filter_kinds = true.
  Hypothesis V_id : forall l, V l -> has (n_id (l_node l)).
  Hypothesis V_punct : forall l b i, V l -> punct_from l = Some (Punct b i) -> has i.
  Hypothesis V_bucket : forall l, V l -> spec (fun _ => True) (get_comment_bucket cm (n_id (l_node l))).

  Hypothesis T_fixed : forall s, In s (map U fixed_pieces) -> T s.
  Hypothesis T_self : forall l, V l -> T (value l).
  Hypothesis T_lower : forall l, V l -> T (to_lowercase (value l)).
  Hypothesis T_upper : forall l, V l -> T (to_uppercase (value l)).
  Hypothesis T_kid : forall l c, V l -> In c (kids l) -> T (value c).
  Hypothesis T_quoted : forall l, V l -> T (U "'" ++ value l ++ U "'")%list.
  Hypothesis T_spaced : forall l, V l -> T (c_sp :: value l ++ [c_sp])%list.
  Hypothesis T_date : forall l l', V l -> V l' -> T (to_uppercase (value l) ++ U ":" ++ value l')%list.

  (* ---- builder calls that can only print such texts and only look up such nodes ---- *)
  Definition okpunct (p : punct) : Prop := match p with Punct _ i => has i end.
  Definition okx (x : context) : Prop :=
    has (x_id x) /\ match x_punc x with Some p => okpunct p | None => True end.
  Definition okins (i : tins) : Prop := match t_str i with Some s => T s | None => True end.
  Inductive okd : dt -> Prop :=
  | D_txt s : T s -> okd (TTxt s)
  | D_leaf l : okd (TLeaf l)
  | D_empty : okd TEmptyLine
  | D_concat l : Forall okd l -> okd (TConcat l)
  | D_indent x : okd x -> okd (TIndent x)
  | D_dedent x : okd x -> okd (TDedent x)
  | D_group x : okd x -> okd (TGroup x)
  | D_inter l s : Forall okd l -> okins s -> okd (TIntersperse l s)
  | D_surround l s o c : Forall okd l -> okins s -> okins o -> okins c ->
      t_str o <> None -> t_str c <> None -> okd (TSurround l s o c)
  | D_members ms : Forall (fun m => okd (fst m)) ms -> okd (TMembers ms)
  | D_surround_members ms o c : Forall (fun m => okd (fst m)) ms -> T o -> T c ->
      okd (TSurroundMembers ms o c)
  | D_node h x body tail : okx x -> Forall okd body -> Forall okd tail -> okd (TNode h x body tail)
  | D_punct p : okpunct p -> okd (TPunct p).

  Lemma spec_ok {A} (Q : A -> Prop) a : Q a -> spec Q (Ok a).
  Proof. auto. Qed.
  Lemma spec_panic {A} (Q : A -> Prop) y : String.eqb y lookup_failure = false -> spec Q (Panic y).
  Proof. simpl. apply okp_other. Qed.
  Lemma spec_bind {A B} (P : A -> Prop) (Q : B -> Prop) m f :
    spec P m -> (forall a, P a -> m = Ok a -> spec Q (f a)) -> spec Q (rbind m f).
  Proof. destruct m as [a|y|]; simpl; auto. Qed.
  Lemma spec_rmap {A B} (P : A -> Prop) (Q : B -> Prop) f m :
    spec P m -> (forall a, P a -> Q (f a)) -> spec Q (rmap f m).
  Proof. destruct m; simpl; auto. Qed.
  Lemma spec_impl {A} (P Q : A -> Prop) m : (forall a, P a -> Q a) -> spec P m -> spec Q m.
  Proof. destruct m; simpl; auto. Qed.
  Lemma spec_mapR {A B} (Q : B -> Prop) (f : A -> res B) l :
    (forall x, In x l -> spec Q (f x)) -> spec (Forall Q) (mapR f l).
  Proof.
    induction l as [|x l IH]; intro H; [constructor|].
    change (spec (Forall Q) (rbind (f x) (fun y => rbind (mapR f l) (fun ys => Ok (y :: ys)%list)))).
    eapply spec_bind; [apply H; simpl; auto|]. intros y Hy _.
    eapply spec_bind; [apply IH; intros z Hz; apply H; simpl; auto|]. intros ys Hys _. constructor; auto.
  Qed.
  Lemma spec_must {A} (Q : A -> Prop) y o :
    String.eqb y lookup_failure = false -> (forall a, o = Some a -> Q a) -> spec Q (must y o).
  Proof. intros Hy H. destruct o; simpl; auto. Qed.

  (* ---- reading children ---- *)
  Variable rec : sort -> loc -> res dt.

  Definition rank (s : sort) (l : loc) : nat :=
    match s with
    | RootMember | ClassMember | InterfaceMember | Statement | VariableInitializer => 5
    | Expression | AssignmentLeft | ObjectExpression => 4
    | PrimaryExpression | Type_ | UnannotatedType | SelectableExpression => 3
    | SimpleType | ComparableListValue => 2
    | ValueExpression | StorageVariant | LimitValue | SetValue => 1
    | BooleanExpression _ => if is_kind "comparison_expression" l then 3 else 1
    | ConditionExpression _ => if is_kind "comparison_expression" l then 1 else 2
    | _ => 0
    end.
  Definition weight (s : sort) (l : loc) : nat :=
    match s with
    | ForInitOption => match parent l with Some p => 6 * height (l_node p) - 1 | None => 0 end
    | _ => 6 * height (l_node l) + rank s l
    end.
  Definition pre_ok (s : sort) (l : loc) : Prop :=
    match s with
    | BooleanExpression _ | ConditionExpression _ => kind_in (kind l) filter_kinds = true
    | ForInitOption => exists p, parent l = Some p /\ V p /\ In l (kids p)
    | _ => True
    end.
  Definition plain (s : sort) : bool :=
    match s with BooleanExpression _ | ConditionExpression _ | ForInitOption => false | _ => true end.
  Lemma rank_le s l : rank s l <= 5.
  Proof. destruct s; simpl; try lia; destruct (is_kind _ _); lia. Qed.

  Section Step.
  Variable s0 : sort.
  Variable l : loc.
  Hypothesis Vl : V l.
  Hypothesis IH : forall s c, V c -> pre_ok s c -> weight s c < weight s0 l -> spec okd (rec s c).

  Lemma weight_eq s x : s <> ForInitOption -> weight s x = 6 * height (l_node x) + rank s x.
  Proof. destruct s; intro H; try reflexivity. exfalso; apply H; reflexivity. Qed.
  Lemma plain_not_init s : plain s = true -> s <> ForInitOption.
  Proof. intros H ->. discriminate. Qed.
  Lemma plain_pre s x : plain s = true -> pre_ok s x.
  Proof. destruct s; intro H; try exact I; discriminate. Qed.
  Lemma rec_same s : plain s = true -> s0 <> ForInitOption -> rank s l < rank s0 l -> spec okd (rec s l).
  Proof.
    intros Hs H0 Hr. apply IH; [exact Vl|apply plain_pre; exact Hs|].
    rewrite !weight_eq by (auto using plain_not_init). lia.
  Qed.
  (* a child of a position at most as high *)
  Lemma rec_below s m c : plain s = true -> s0 <> ForInitOption ->
    V m -> height (l_node m) <= height (l_node l) -> In c (kids m) -> eligible m c -> spec okd (rec s c).
  Proof.
    intros Hs H0 Vm Hm Hc He. apply IH; [eapply V_kid; eauto|apply plain_pre; exact Hs|].
    pose proof (height_child _ _ (kids_child _ _ Hc)). pose proof (rank_le s c).
    rewrite !weight_eq by (auto using plain_not_init). lia.
  Qed.
  Lemma rec_kid s c : plain s = true -> s0 <> ForInitOption ->
    In c (kids l) -> eligible l c -> spec okd (rec s c).
  Proof. intros. eapply rec_below; eauto. Qed.

  Hypothesis NI : s0 <> ForInitOption.

  Lemma kid_k k c m : find (is_kind k) (named_kids m) = Some c ->
    kind_in k ["line_comment"; "block_comment"] = false ->
    In c (kids m) /\ eligible m c /\ is_kind k c = true.
  Proof.
    intros H Hk. apply find_some in H. destruct H as [H1 H2]. unfold named_kids in H1.
    apply filter_In in H1. destruct H1 as [H1 H3]. split; [exact H1|]. split; [|exact H2].
    apply E_kind; [exact H3|]. unfold is_kind, has_kind in H2. apply String.eqb_eq in H2.
    unfold kind. rewrite H2. exact Hk.
  Qed.
  Lemma kids_k k c m : In c (try_cs_by_k k m) ->
    kind_in k ["line_comment"; "block_comment"] = false ->
    In c (kids m) /\ eligible m c /\ is_kind k c = true.
  Proof.
    intros H Hk. unfold try_cs_by_k, named_kids in H. apply filter_In in H. destruct H as [H1 H2].
    apply filter_In in H1. destruct H1 as [H1 H3]. split; [exact H1|]. split; [|exact H2].
    apply E_kind; [exact H3|]. unfold is_kind, has_kind in H2. apply String.eqb_eq in H2.
    unfold kind. rewrite H2. exact Hk.
  Qed.
  Lemma kid_n f c m : try_c_by_n f m = Some c -> In c (kids m) /\ has_field f (l_node c) = true.
  Proof. intro H. apply find_some in H. exact H. Qed.
  Lemma kids_vec c m : In c (children_vec m) -> In c (kids m) /\ eligible m c /\
    is_named c = true /\ is_extra c = false.
  Proof.
    unfold children_vec, named_kids. intro H. apply filter_In in H. destruct H as [H H1].
    apply filter_In in H. destruct H as [H H2]. apply negb_true_iff in H1.
    repeat split; auto. apply E_named; auto.
  Qed.

  Lemma sp_c_by_n f : node_field (kind l) f = true ->
    spec (fun c => In c (kids l) /\ eligible l c) (c_by_n f l).
  Proof.
    intro Hf. apply spec_must; [reflexivity|]. intros c Hc. apply kid_n in Hc. destruct Hc as [H1 H2].
    split; [exact H1|]. eapply E_field; eauto.
  Qed.
  Lemma sp_c_token f : spec (fun c => In c (kids l)) (c_by_n f l).
  Proof. apply spec_must; [reflexivity|]. intros c Hc. apply kid_n in Hc. tauto. Qed.
  Lemma sp_c_by_k k : kind_in k ["line_comment"; "block_comment"] = false ->
    spec (fun c => In c (kids l) /\ eligible l c /\ is_kind k c = true) (c_by_k k l).
  Proof. intro Hk. apply spec_must; [reflexivity|]. intros c Hc. apply (kid_k k); auto. Qed.
  Lemma sp_first_c : spec (fun c => In c (kids l) /\ eligible l c /\ is_named c = true /\ is_extra c = false) (first_c l).
  Proof.
    apply spec_must; [reflexivity|]. intros c Hc. unfold try_first_c in Hc. apply kids_vec.
    destruct (children_vec l); [discriminate|]. injection Hc as ->. left. reflexivity.
  Qed.
  Lemma sp_cs_by_k k m : kind_in k ["line_comment"; "block_comment"] = false ->
    spec (fun cs => forall c, In c cs -> In c (kids m) /\ eligible m c /\ is_kind k c = true) (cs_by_k k m).
  Proof.
    intro Hk. unfold cs_by_k. destruct (try_cs_by_k k m) as [|x cs] eqn:E.
    - apply spec_panic. reflexivity.
    - intros c Hc. apply (kids_k k); [|exact Hk]. rewrite E. exact Hc.
  Qed.
  Lemma sp_cs_by_n f m : node_field (kind m) f = true ->
    spec (fun cs => forall c, In c cs -> In c (kids m) /\ eligible m c) (cs_by_n f m).
  Proof.
    intro Hf. unfold cs_by_n. destruct (filter _ (kids m)) as [|x cs] eqn:E.
    - apply spec_panic. reflexivity.
    - intros c Hc. rewrite <- E in Hc. apply filter_In in Hc. destruct Hc as [H1 H2].
      split; [exact H1|]. eapply E_field; eauto.
  Qed.

  Lemma sp_by_n f s : node_field (kind l) f = true -> plain s = true -> spec okd (by_n rec f s l).
  Proof.
    intros Hf Hs. eapply spec_bind; [apply sp_c_by_n; exact Hf|]. intros c [H1 H2] _. apply rec_kid; auto.
  Qed.
  Lemma sp_by_k k s : kind_in k ["line_comment"; "block_comment"] = false -> plain s = true -> spec okd (by_k rec k s l).
  Proof.
    intros Hf Hs. eapply spec_bind; [apply sp_c_by_k; exact Hf|]. intros c (H1 & H2 & _) _. apply rec_kid; auto.
  Qed.
  Lemma sp_fst_c s : plain s = true -> spec okd (fst_c rec s l).
  Proof.
    intros Hs. eapply spec_bind; [apply sp_first_c|]. intros c (H1 & H2 & _) _. apply rec_kid; auto.
  Qed.
  Lemma sp_opt_k k s : kind_in k ["line_comment"; "block_comment"] = false -> plain s = true ->
    spec (Forall okd) (opt_k rec k s l).
  Proof.
    intros Hf Hs. unfold opt_k. destruct (try_c_by_k k l) as [c|] eqn:E; [|constructor].
    apply kid_k in E; [|exact Hf]. destruct E as (H1 & H2 & _).
    eapply spec_bind; [apply rec_kid; auto|]. intros d Hd _. constructor; auto.
  Qed.
  Lemma sp_opt_n f s : node_field (kind l) f = true -> plain s = true ->
    spec (Forall okd) (opt_n rec f s l).
  Proof.
    intros Hf Hs. unfold opt_n. destruct (try_c_by_n f l) as [c|] eqn:E; [|constructor].
    apply kid_n in E. destruct E as (H1 & H2).
    eapply spec_bind; [apply rec_kid; auto; eapply E_field; eauto|]. intros d Hd _. constructor; auto.
  Qed.
  Lemma sp_all_k k s : kind_in k ["line_comment"; "block_comment"] = false -> plain s = true ->
    spec (Forall okd) (all_k rec k s l).
  Proof.
    intros Hf Hs. apply spec_mapR. intros c Hc. apply kids_k in Hc; [|exact Hf].
    destruct Hc as (H1 & H2 & _). apply rec_kid; auto.
  Qed.
  Lemma sp_all1_k k s : kind_in k ["line_comment"; "block_comment"] = false -> plain s = true ->
    spec (Forall okd) (all1_k rec k s l).
  Proof.
    intros Hf Hs. eapply spec_bind; [apply sp_cs_by_k; exact Hf|]. intros cs Hcs _.
    apply spec_mapR. intros c Hc. apply Hcs in Hc. destruct Hc as (H1 & H2 & _). apply rec_kid; auto.
  Qed.
  Lemma sp_all1_n f s : node_field (kind l) f = true -> plain s = true ->
    spec (Forall okd) (all1_n rec f s l).
  Proof.
    intros Hf Hs. eapply spec_bind; [apply sp_cs_by_n; exact Hf|]. intros cs Hcs _.
    apply spec_mapR. intros c Hc. apply Hcs in Hc. destruct Hc as (H1 & H2). apply rec_kid; auto.
  Qed.
  Lemma sp_all_c s : plain s = true -> spec (Forall okd) (all_c rec s l).
  Proof.
    intros Hs. apply spec_mapR. intros c Hc. apply kids_vec in Hc. destruct Hc as (H1 & H2 & _).
    apply rec_kid; auto.
  Qed.

  (* ---- builder calls ---- *)
  Lemma fixed_in s : existsb (ustr_eqb s) (map U fixed_pieces) = true -> T s.
  Proof.
    intro H. apply existsb_exists in H. destruct H as (x & Hx & E). apply T_fixed.
    apply ustr_eqb_eq in E. subst. exact Hx.
  Qed.
  Lemma Vk c : In c (kids l) -> eligible l c -> V c.
  Proof. intros. eapply V_kid; eauto. Qed.
  Lemma okx_punc m : V m -> okx (with_punctuation m).
  Proof.
    intro H. split; [apply V_id; exact H|]. cbn. destruct (punct_from m) as [[b i]|] eqn:E; [|exact I].
    exact (V_punct _ _ _ H E).
  Qed.
  Lemma okx_inner : okx (with_inner_punctuation l).
  Proof.
    split; [apply V_id; exact Vl|]. cbn. unfold punct_from_inner.
    destruct (find is_punctuation_node _) as [n|] eqn:E; [|exact I].
    apply find_some in E. destruct E as [H1 H2]. apply child_kid in H1. destruct H1 as (c & Hc & <-).
    cbn. apply V_id. apply (Vk _ Hc). apply E_token.
    unfold is_punctuation_node, has_kind in H2. unfold kind. simpl.
    destruct (String.eqb _ ","); [reflexivity|]. destruct (String.eqb _ ";"); [reflexivity|discriminate].
  Qed.
  Lemma ok_nodeP m body : V m -> Forall okd body -> okd (nodeP m body).
  Proof. intros. apply D_node; auto using okx_punc. Qed.
  Lemma ok_vn m : V m -> okd (vn m).
  Proof. intro H. apply ok_nodeP; [exact H|]. repeat constructor. auto. Qed.
  Lemma ok_vn_lower m : V m -> okd (vn_lower m).
  Proof. intro H. apply ok_nodeP; [exact H|]. repeat constructor. auto. Qed.
  Lemma ok_vn_upper m : V m -> okd (vn_upper m).
  Proof. intro H. apply ok_nodeP; [exact H|]. repeat constructor. auto. Qed.
  Lemma sp_vn_n f : node_field (kind l) f = true -> spec okd (vn_n f l).
  Proof.
    intro Hf. eapply spec_rmap; [apply sp_c_by_n; exact Hf|]. intros c [H1 H2]. apply ok_vn, Vk; auto.
  Qed.
  Lemma sp_vn_k k : kind_in k ["line_comment"; "block_comment"] = false -> spec okd (vn_k k l).
  Proof.
    intro Hf. eapply spec_rmap; [apply sp_c_by_k; exact Hf|]. intros c (H1 & H2 & _). apply ok_vn, Vk; auto.
  Qed.
  Lemma ok_opt_vn_k k : kind_in k ["line_comment"; "block_comment"] = false -> Forall okd (opt_vn_k k l).
  Proof.
    intro Hf. unfold opt_vn_k. destruct (try_c_by_k k l) as [c|] eqn:E; [|constructor].
    apply kid_k in E; [|exact Hf]. destruct E as (H1 & H2 & _). constructor; [|constructor]. apply ok_vn, Vk; auto.
  Qed.
  Lemma ok_before x ds : okd x -> Forall okd ds -> Forall okd (before x ds).
  Proof. intros. unfold before. destruct (is_nil ds); [constructor|constructor; auto]. Qed.
  Lemma ok_after x ds : Forall okd ds -> okd x -> Forall okd (after ds x).
  Proof. intros. unfold after. destruct (is_nil ds); [constructor|]. apply Forall_app; split; auto. Qed.
  Lemma ok_surr ds sep o lf c : Forall okd ds -> okins sep -> T (U o) -> T (U c) -> okd (surr ds sep o lf c).
  Proof. intros. apply D_surround; auto; discriminate. Qed.
  Lemma ok_gsur o lf c ds : Forall okd ds -> T (U o) -> T (U c) -> okd (gsur o lf c ds).
  Proof. intros. apply D_group, ok_surr; auto. exact I. Qed.
  Lemma ok_map_vn cs : (forall c, In c cs -> V c) -> Forall okd (map vn cs).
  Proof. intro H. apply Forall_forall. intros d Hd. apply in_map_iff in Hd. destruct Hd as (c & <- & Hc). apply ok_vn; auto. Qed.
  Lemma sp_assert k (Q : dt -> Prop) f : (is_kind k l = true -> spec Q (f tt)) -> spec Q (rbind (assert_check k l) f).
  Proof.
    intro H. unfold assert_check. destruct (is_kind k l) eqn:E; [apply H; reflexivity|].
    apply spec_panic. reflexivity.
  Qed.
  Lemma sp_wrap r : spec okd r -> spec okd (wrap_r r).
  Proof. intro H. eapply spec_rmap; [exact H|]. intros d Hd. apply D_concat. repeat constructor. exact Hd. Qed.
  Lemma sp_dimensions c : V c -> spec okd (new_Dimensions c).
  Proof.
    intro H. unfold new_Dimensions, assert_check. destruct (is_kind _ c).
    - apply ok_nodeP; [exact H|]. constructor; [|constructor]. apply D_txt, fixed_in. vm_compute; reflexivity.
    - apply spec_panic. reflexivity.
  Qed.


  Lemma spec_assoc {A B C} (Q : C -> Prop) (m : res A) (f : A -> res B) (g : B -> res C) :
    spec Q (rbind m (fun x => rbind (f x) g)) -> spec Q (rbind (rbind m f) g).
  Proof. destruct m; auto. Qed.
  Lemma spec_unknown {A B} (Q : B -> Prop) w (f : A -> res B) :
    String.eqb ("unknown node in " ++ w) lookup_failure = false -> spec Q (rbind (unknown w) f).
  Proof. apply okp_other. Qed.
  Lemma sp_opt_dimensions : spec (Forall okd) (opt_dimensions_k l).
  Proof.
    unfold opt_dimensions_k. destruct (try_c_by_k "dimensions" l) as [c|] eqn:E; [|constructor].
    apply kid_k in E; [|reflexivity]. destruct E as (H1 & H2 & _).
    eapply spec_bind; [apply sp_dimensions, Vk; auto|]. intros d Hd _. constructor; auto.
  Qed.
  Lemma sp_trailing c : V c -> spec (fun _ => True) (has_trailing_newline cm checked c).
  Proof.
    intro H. unfold has_trailing_newline. eapply spec_bind; [apply V_bucket; exact H|]. intros bk _ _.
    destruct (rev (post bk)); [|exact I]. destruct (find n_named (l_right c)); [|exact I].
    destruct (_ =? _)%N; [|exact I]. destruct checked; [apply spec_panic; reflexivity|exact I].
  Qed.
  Lemma sp_member s c : plain s = true -> In c (kids l) -> eligible l c ->
    spec (fun m => okd (fst m)) (body_member cm checked rec s c).
  Proof.
    intros Hs H1 H2. unfold body_member. eapply spec_bind; [apply rec_kid; auto|]. intros d Hd _.
    eapply spec_bind; [apply sp_trailing, Vk; auto|]. intros b _ _. exact Hd.
  Qed.
  Lemma sp_members s : plain s = true ->
    spec (Forall (fun m => okd (fst m))) (mapR (body_member cm checked rec s) (children_vec l)).
  Proof.
    intro Hs. apply spec_mapR. intros c Hc. apply kids_vec in Hc. destruct Hc as (H1 & H2 & _).
    apply sp_member; auto.
  Qed.
  Lemma sp_cvalue_k k : kind_in k ["line_comment"; "block_comment"] = false ->
    spec (fun v => exists c, In c (kids l) /\ eligible l c /\ v = value c) (cvalue_by_k k l).
  Proof.
    intro H. eapply spec_rmap; [apply sp_c_by_k; exact H|]. intros c (H1 & H2 & _). eauto.
  Qed.
  Lemma sp_cvalue_n f : spec (fun v => exists c, In c (kids l) /\ v = value c) (cvalue_by_n f l).
  Proof. eapply spec_rmap; [apply sp_c_token|]. intros c H1. exists c. auto. Qed.
  Lemma sp_nav c : V c -> spec okd (wrap_r (new_SafeNavigationOperator c)).
  Proof.
    intro H. apply sp_wrap. unfold new_SafeNavigationOperator, assert_check. destruct (is_kind _ c).
    - apply ok_nodeP; [exact H|]. constructor; [|constructor]. apply D_txt, fixed_in. vm_compute; reflexivity.
    - apply spec_panic. reflexivity.
  Qed.
  Lemma ok_dot : okd dot_navigation.
  Proof. apply D_concat. constructor; [|constructor]. apply D_txt, fixed_in. vm_compute; reflexivity. Qed.
  Lemma sp_word c k s : V c -> T (U s) -> spec okd (wrap_r (_ <- assert_check k c ;; Ok (nodeP c [t s]))).
  Proof.
    intros H Hs. apply sp_wrap. unfold assert_check. destruct (is_kind _ c).
    - apply ok_nodeP; [exact H|]. constructor; [|constructor]. apply D_txt. exact Hs.
    - apply spec_panic. reflexivity.
  Qed.
  Lemma sp_next o : In o (kids l) ->
    spec (fun c => In c (kids l) /\ eligible l c) (next_named o).
  Proof.
    intro H. destruct (next_named o) as [c|y|] eqn:E; [| |].
    - apply (next_named_in l) in E; [|exact H]. destruct E as (H1 & H2 & H3). split; [exact H1|].
      apply E_named; auto.
    - unfold next_named, must in E. destruct (next_named_from _ _ _); [discriminate|]. injection E as <-.
      apply okp_other. reflexivity.
    - unfold next_named, must in E. destruct (next_named_from _ _ _); discriminate.
  Qed.
  Lemma sp_chain : spec (fun _ => True) (build_chaining_context l).
  Proof.
    unfold build_chaining_context. eapply spec_bind; [apply (spec_must (fun _ => True)); [reflexivity|auto]|].
    intros p _ _. exact I.
  Qed.
  Ltac fixed := apply fixed_in; vm_compute; reflexivity.
  Ltac vk := match goal with
    | |- V l => exact Vl
    | H : In ?c (kids l) |- V ?c => apply (Vk _ H); first [eassumption | apply E_named; assumption | eapply E_field; [eassumption|reflexivity]]
    | |- V _ => assumption
    end.
  Ltac ok1 :=
    match goal with
    | H : Forall ?P ?x |- Forall ?P ?x => exact H
    | H : okd ?x |- okd ?x => exact H
    | |- Forall _ [] => constructor
    | |- Forall okd (_ ++ _)%list => apply Forall_app; split
    | |- Forall okd (_ :: _)%list => apply Forall_cons
    | |- Forall okd (before _ _) => apply ok_before
    | |- Forall okd (after _ _) => apply ok_after
    | |- Forall okd (opt_vn_k _ l) => apply ok_opt_vn_k; reflexivity
    | |- Forall okd (if ?b then _ else _) => destruct b
    | |- okd (if ?b then _ else _) => destruct b
    | |- okd (nodeP _ _) => apply ok_nodeP; [vk|]
    | |- okd (vn _) => apply ok_vn; vk
    | |- okd (vn_lower _) => apply ok_vn_lower; vk
    | |- okd (vn_upper _) => apply ok_vn_upper; vk
    | H : T (U ?s) |- okd (t ?s) => apply D_txt; exact H
    | |- okd (t ?s) => apply D_txt; fixed
    | |- okd (t_ ?s) => apply D_txt; fixed
    | |- okd (_t ?s) => apply D_txt; fixed
    | |- okd (_t_ ?s) => apply D_txt; fixed
    | |- okd sp => apply D_txt; fixed
    | |- okd tnil => apply D_txt; fixed
    | |- okd SL => apply D_leaf
    | |- okd ML => apply D_leaf
    | |- okd NL => apply D_leaf
    | |- okd TEmptyLine => apply D_empty
    | |- okd (wrap _) => apply D_concat
    | |- okd (gc _) => apply D_group, D_concat
    | |- okd (gic _) => apply D_group, D_indent, D_concat
    | |- okd (gparen _) => apply ok_gsur; [|fixed|fixed]
    | |- okd (gsur _ _ _ _) => apply ok_gsur; [|fixed|fixed]
    | |- okd (surr _ _ _ _ _) => apply ok_surr; [| |fixed|fixed]
    | |- okd (TConcat _) => apply D_concat
    | |- okd (TIndent _) => apply D_indent
    | |- okd (TDedent _) => apply D_dedent
    | |- okd (TGroup _) => apply D_group
    | |- okd (TIntersperse _ _) => apply D_inter
    | |- okd (TMembers _) => apply D_members
    | |- okd (TSurroundMembers _ _ _) => apply D_surround_members; [|fixed|fixed]
    | |- okd (TSurround _ _ _ _) => apply D_surround; [| | | |discriminate|discriminate]
    | |- okd (TNode _ (with_punctuation l) _ _) => apply D_node; [apply okx_punc; exact Vl| |]
    | |- okd (TNode _ (with_inner_punctuation l) _ _) => apply D_node; [apply okx_inner| |]
    | |- okd (TNode _ (without_punctuation l) _ _) => apply D_node; [split; [apply V_id; exact Vl|exact I]| |]
    | |- okd (TTxt (value ?c)) => apply D_txt; first [ apply T_self; vk | eapply T_kid; [exact Vl|assumption] ]
    | |- okd dot_navigation => apply ok_dot
    | |- okd (match ?x with _ => _ end) => let H := fresh "Hm" in destruct x eqn:H
    | |- Forall okd (match ?x with _ => _ end) => let H := fresh "Hm" in destruct x eqn:H
    | |- okins ?i => first [exact I | unfold okins; cbn [t_str mk_ins sepStr option_map]; fixed]
    end.
  Ltac ok := repeat ok1.
  Ltac sp1 :=
    match goal with
    | |- spec _ (rbind (assert_check _ l) _) => apply sp_assert; let H := fresh "Hk" in intro H
    | |- spec _ (rbind (by_n rec _ _ l) _) => eapply spec_bind; [apply sp_by_n; reflexivity|]
    | |- spec _ (rbind (by_k rec _ _ l) _) => eapply spec_bind; [apply sp_by_k; reflexivity|]
    | |- spec _ (rbind (fst_c rec _ l) _) => eapply spec_bind; [apply sp_fst_c; reflexivity|]
    | |- spec _ (rbind (opt_k rec _ _ l) _) => eapply spec_bind; [apply sp_opt_k; reflexivity|]
    | |- spec _ (rbind (opt_n rec _ _ l) _) => eapply spec_bind; [apply sp_opt_n; reflexivity|]
    | |- spec _ (rbind (all_k rec _ _ l) _) => eapply spec_bind; [apply sp_all_k; reflexivity|]
    | |- spec _ (rbind (all1_k rec _ _ l) _) => eapply spec_bind; [apply sp_all1_k; reflexivity|]
    | |- spec _ (rbind (all1_n rec _ _ l) _) => eapply spec_bind; [apply sp_all1_n; reflexivity|]
    | |- spec _ (rbind (all_c rec _ l) _) => eapply spec_bind; [apply sp_all_c; reflexivity|]
    | |- spec _ (rbind (vn_n _ l) _) => eapply spec_bind; [apply sp_vn_n; reflexivity|]
    | |- spec _ (rbind (vn_k _ l) _) => eapply spec_bind; [apply sp_vn_k; reflexivity|]
    | |- spec _ (rbind (first_c l) _) => eapply spec_bind; [apply sp_first_c|intros ? (? & ? & ? & ?) _]
    | |- spec _ (rbind (c_by_k _ l) _) => eapply spec_bind; [apply sp_c_by_k; reflexivity|intros ? (? & ? & ?) _]
    | |- spec _ (rbind (c_by_n _ l) _) => eapply spec_bind; [apply sp_c_by_n; reflexivity|intros ? (? & ?) _]
    | |- spec _ (rbind (cs_by_k _ l) _) => eapply spec_bind; [apply sp_cs_by_k; reflexivity|]
    | |- spec _ (rbind (rec _ _) _) => eapply spec_bind; [apply rec_kid; [reflexivity|exact NI|assumption|assumption]|]
    | |- spec _ (rbind (wrap_r (rec _ _)) _) => eapply spec_bind; [apply sp_wrap; apply rec_kid; [reflexivity|exact NI|assumption|assumption]|]
    | |- spec _ (rbind (rbind _ _) _) => apply spec_assoc
    | |- spec _ (rbind (Ok _) _) => cbn [rbind]
    | |- spec _ (rbind (unknown _) _) => apply spec_unknown; reflexivity
    | |- spec _ (rbind (Panic _) _) => cbn [rbind]
    | |- spec _ (rbind (opt_dimensions_k l) _) => eapply spec_bind; [apply sp_opt_dimensions|]
    | |- spec _ (rbind (new_Dimensions _) _) => eapply spec_bind; [apply sp_dimensions; vk|]
    | |- spec _ (rbind (mapR (body_member _ _ rec _) (children_vec l)) _) => eapply spec_bind; [apply sp_members; reflexivity|intros ? ? _]
    | |- spec _ (rbind (body_member _ _ rec _ _) _) => eapply spec_bind; [apply sp_member; [reflexivity|assumption|assumption]|intros [? ?] ? _]
    | |- spec _ (rbind (cvalue_by_k _ l) _) => eapply spec_bind; [apply sp_cvalue_k; reflexivity|intros ? (? & ? & ? & ->) _]
    | |- spec _ (rbind (cvalue_by_n _ l) _) => eapply spec_bind; [apply sp_cvalue_n|intros ? (? & ? & ->) _]
    | |- spec _ (rbind (wrap_r (new_SafeNavigationOperator _)) _) => eapply spec_bind; [apply sp_nav; vk|]
    | |- spec _ (rbind (wrap_r (new_Super _)) _) => eapply spec_bind; [apply sp_word; [vk|fixed]|]
    | |- spec _ (rbind (wrap_r (new_This _)) _) => eapply spec_bind; [apply sp_word; [vk|fixed]|]
    | |- spec _ (rbind (next_named _) _) => eapply spec_bind; [apply sp_next; assumption|intros ? (? & ?) _]
    | |- spec _ (rbind (build_chaining_context l) _) => eapply spec_bind; [apply sp_chain|intros ? _ _]
    | |- spec _ (rbind (if ?b then _ else _) _) => let H := fresh "Hb" in destruct b eqn:H
    | |- spec _ (if ?b then _ else _) => let H := fresh "Hb" in destruct b eqn:H
    | |- spec _ (rbind (match try_c_by_k ?k l with _ => _ end) _) =>
        let H := fresh "Ht" in let c := fresh "c" in destruct (try_c_by_k k l) as [c|] eqn:H;
        [apply kid_k in H; [destruct H as (? & ? & ?)|reflexivity]|]
    | |- spec _ (match try_c_by_k ?k l with _ => _ end) =>
        let H := fresh "Ht" in let c := fresh "c" in destruct (try_c_by_k k l) as [c|] eqn:H;
        [apply kid_k in H; [destruct H as (? & ? & ?)|reflexivity]|]
    | |- spec _ (rbind (match try_c_by_n ?k l with _ => _ end) _) =>
        let H := fresh "Ht" in let c := fresh "c" in destruct (try_c_by_n k l) as [c|] eqn:H;
        [apply kid_n in H; destruct H as (? & ?); try (assert (eligible l c) by (eapply E_field; [eassumption|reflexivity]))|]
    | |- spec _ (match try_c_by_n ?k l with _ => _ end) =>
        let H := fresh "Ht" in let c := fresh "c" in destruct (try_c_by_n k l) as [c|] eqn:H;
        [apply kid_n in H; destruct H as (? & ?); try (assert (eligible l c) by (eapply E_field; [eassumption|reflexivity]))|]
    | |- spec _ (wrap_r (rec _ l)) => apply sp_wrap
    | |- spec _ (wrap_r (wrap_r _)) => apply sp_wrap
    | Hs : s0 = _ |- spec _ (rec _ l) => apply rec_same; [reflexivity|exact NI|rewrite Hs; unfold rank; lia]
    | |- spec _ (wrap_r (rec _ _)) => apply sp_wrap
    | |- spec _ (rec _ _) => apply rec_kid; [reflexivity|exact NI|assumption|assumption]
    | |- spec _ (wrap_r (new_Super _)) => apply sp_word; [vk|fixed]
    | |- spec _ (wrap_r (new_This _)) => apply sp_word; [vk|fixed]
    | |- spec _ (wrap_r (new_BoolType _)) => apply sp_word; [vk|fixed]
    | |- forall a, okd a -> _ => let x := fresh "d" in let H := fresh "Hd" in intros x H _
    | |- forall a, Forall okd a -> _ => let x := fresh "ds" in let H := fresh "Hds" in intros x H _
    | |- spec _ (Ok _) => apply spec_ok
    | |- spec _ (Panic _) => apply spec_panic; reflexivity
    | |- spec _ (unknown _) => apply spec_panic; reflexivity
    end.
  Ltac go := repeat sp1; ok.

  Lemma sp_Root : spec okd (new_step cm checked rec Root l).
  Proof. cbv beta iota delta [new_step new_Root]. go. Qed.
  Lemma sp_RootMember : s0 = RootMember -> spec okd (new_step cm checked rec RootMember l).
  Proof. intro Hs0. cbv beta iota delta [new_step new_RootMember]. go. Qed.
  Lemma sp_ClassMember : s0 = ClassMember -> spec okd (new_step cm checked rec ClassMember l).
  Proof. intro Hs0. cbv beta iota delta [new_step new_ClassMember]. go. Qed.
  Lemma sp_ClassDeclaration : spec okd (new_step cm checked rec ClassDeclaration l).
  Proof. cbv beta iota delta [new_step new_ClassDeclaration]. go. Qed.
  Lemma sp_MethodDeclaration : spec okd (new_step cm checked rec MethodDeclaration l).
  Proof. cbv beta iota delta [new_step new_MethodDeclaration]. go. Qed.
  Lemma sp_FormalParameters : spec okd (new_step cm checked rec FormalParameters l).
  Proof. cbv beta iota delta [new_step new_FormalParameters]. go. Qed.
  Lemma sp_FormalParameter : spec okd (new_step cm checked rec FormalParameter l).
  Proof. cbv beta iota delta [new_step new_FormalParameter]. go. Qed.
  Lemma sp_SuperClass : spec okd (new_step cm checked rec SuperClass l).
  Proof. cbv beta iota delta [new_step new_SuperClass]. go. Qed.
  Lemma sp_Modifiers : spec okd (new_step cm checked rec Modifiers l).
  Proof. cbv beta iota delta [new_step new_Modifiers]. go. Qed.
  Lemma sp_Annotation : spec okd (new_step cm checked rec Annotation l).
  Proof. cbv beta iota delta [new_step new_Annotation]. go. Qed.
  Lemma sp_AnnotationArgumentList : spec okd (new_step cm checked rec AnnotationArgumentList l).
  Proof. cbv beta iota delta [new_step new_AnnotationArgumentList]. go. Qed.
  Lemma sp_AnnotationKeyValue : spec okd (new_step cm checked rec AnnotationKeyValue l).
  Proof. cbv beta iota delta [new_step new_AnnotationKeyValue]. go. Qed.
  Lemma sp_ClassBody : spec okd (new_step cm checked rec ClassBody l).
  Proof. cbv beta iota delta [new_step new_ClassBody]. go. Qed.
  Lemma sp_ArrayInitializer : spec okd (new_step cm checked rec ArrayInitializer l).
  Proof. cbv beta iota delta [new_step new_ArrayInitializer]. go. Qed.
  Lemma sp_AssignmentLeft : s0 = AssignmentLeft -> spec okd (new_step cm checked rec AssignmentLeft l).
  Proof. intro Hs0. cbv beta iota delta [new_step new_AssignmentLeft]. go. Qed.
  Lemma sp_Block : spec okd (new_step cm checked rec Block l).
  Proof. cbv beta iota delta [new_step new_Block]. go. Qed.
  Lemma sp_Interface_ : spec okd (new_step cm checked rec Interface_ l).
  Proof. cbv beta iota delta [new_step new_Interface]. go. Qed.
  Lemma sp_TypeList : spec okd (new_step cm checked rec TypeList l).
  Proof. cbv beta iota delta [new_step new_TypeList]. go. Qed.
  Lemma sp_ObjectExpression : s0 = ObjectExpression -> spec okd (new_step cm checked rec ObjectExpression l).
  Proof. intro Hs0. cbv beta iota delta [new_step new_ObjectExpression]. go. Qed.
  Lemma sp_TypeArguments : spec okd (new_step cm checked rec TypeArguments l).
  Proof. cbv beta iota delta [new_step new_TypeArguments]. go. Qed.
  Lemma sp_ArgumentList : spec okd (new_step cm checked rec ArgumentList l).
  Proof. cbv beta iota delta [new_step new_ArgumentList]. go. Qed.
  Lemma sp_GenericType : spec okd (new_step cm checked rec GenericType l).
  Proof. cbv beta iota delta [new_step new_GenericType]. go. Qed.
  Lemma sp_ParenthesizedExpression : spec okd (new_step cm checked rec ParenthesizedExpression l).
  Proof. cbv beta iota delta [new_step new_ParenthesizedExpression]. go. Qed.
  Lemma sp_ConstructorDeclaration : spec okd (new_step cm checked rec ConstructorDeclaration l).
  Proof. cbv beta iota delta [new_step new_ConstructorDeclaration]. go. Qed.
  Lemma sp_ConstructInvocation : spec okd (new_step cm checked rec ConstructInvocation l).
  Proof. cbv beta iota delta [new_step new_ConstructInvocation]. go. Qed.
  Lemma sp_TypeParameters : spec okd (new_step cm checked rec TypeParameters l).
  Proof. cbv beta iota delta [new_step new_TypeParameters]. go. Qed.
  Lemma sp_TypeParameter : spec okd (new_step cm checked rec TypeParameter l).
  Proof. cbv beta iota delta [new_step new_TypeParameter]. go. Qed.
  Lemma sp_ObjectCreationExpression : spec okd (new_step cm checked rec ObjectCreationExpression l).
  Proof. cbv beta iota delta [new_step new_ObjectCreationExpression]. go. Qed.
  Lemma sp_RunAsStatement : spec okd (new_step cm checked rec RunAsStatement l).
  Proof. cbv beta iota delta [new_step new_RunAsStatement]. go. Qed.
  Lemma sp_DoStatement : spec okd (new_step cm checked rec DoStatement l).
  Proof. cbv beta iota delta [new_step new_DoStatement]. go. Qed.
  Lemma sp_WhileStatement : spec okd (new_step cm checked rec WhileStatement l).
  Proof. cbv beta iota delta [new_step new_WhileStatement]. go. Qed.
  Lemma sp_UnaryExpression : spec okd (new_step cm checked rec UnaryExpression l).
  Proof. cbv beta iota delta [new_step new_UnaryExpression]. go. Qed.
  Lemma sp_EnumDeclaration : spec okd (new_step cm checked rec EnumDeclaration l).
  Proof. cbv beta iota delta [new_step new_EnumDeclaration]. go. Qed.
  Lemma sp_EnumBody : spec okd (new_step cm checked rec EnumBody l).
  Proof. cbv beta iota delta [new_step new_EnumBody]. go. Qed.
  Lemma sp_EnumConstant : spec okd (new_step cm checked rec EnumConstant l).
  Proof. cbv beta iota delta [new_step new_EnumConstant]. go. Qed.
  Lemma sp_DmlSecurityMode : spec okd (new_step cm checked rec DmlSecurityMode l).
  Proof. cbv beta iota delta [new_step new_DmlSecurityMode]. go. Qed.
  Lemma sp_ArrayAccess : spec okd (new_step cm checked rec ArrayAccess l).
  Proof. cbv beta iota delta [new_step new_ArrayAccess]. go. Qed.
  Lemma sp_ArrayCreationExpression : spec okd (new_step cm checked rec ArrayCreationExpression l).
  Proof. cbv beta iota delta [new_step new_ArrayCreationExpression]. go. Qed.
  Lemma sp_DimensionsExpr : spec okd (new_step cm checked rec DimensionsExpr l).
  Proof. cbv beta iota delta [new_step new_DimensionsExpr]. go. Qed.
  Lemma sp_TernaryExpression : spec okd (new_step cm checked rec TernaryExpression l).
  Proof. cbv beta iota delta [new_step new_TernaryExpression]. go. Qed.
  Lemma sp_TryStatement : spec okd (new_step cm checked rec TryStatement l).
  Proof. cbv beta iota delta [new_step new_TryStatement]. go. Qed.
  Lemma sp_CatchClause : spec okd (new_step cm checked rec CatchClause l).
  Proof. cbv beta iota delta [new_step new_CatchClause]. go. Qed.
  Lemma sp_FinallyClause : spec okd (new_step cm checked rec FinallyClause l).
  Proof. cbv beta iota delta [new_step new_FinallyClause]. go. Qed.
  Lemma sp_StaticInitializer : spec okd (new_step cm checked rec StaticInitializer l).
  Proof. cbv beta iota delta [new_step new_StaticInitializer]. go. Qed.
  Lemma sp_InterfaceDeclaration : spec okd (new_step cm checked rec InterfaceDeclaration l).
  Proof. cbv beta iota delta [new_step new_InterfaceDeclaration]. go. Qed.
  Lemma sp_ExtendsInterface : spec okd (new_step cm checked rec ExtendsInterface l).
  Proof. cbv beta iota delta [new_step new_ExtendsInterface]. go. Qed.
  Lemma sp_InterfaceBody : spec okd (new_step cm checked rec InterfaceBody l).
  Proof. cbv beta iota delta [new_step new_InterfaceBody]. go. Qed.
  Lemma sp_InterfaceMember : s0 = InterfaceMember -> spec okd (new_step cm checked rec InterfaceMember l).
  Proof. intro Hs0. cbv beta iota delta [new_step new_InterfaceMember]. go. Qed.
  Lemma sp_ConstantDeclaration : spec okd (new_step cm checked rec ConstantDeclaration l).
  Proof. cbv beta iota delta [new_step new_ConstantDeclaration]. go. Qed.
  Lemma sp_AccessorDeclaration : spec okd (new_step cm checked rec AccessorDeclaration l).
  Proof. cbv beta iota delta [new_step new_AccessorDeclaration]. go. Qed.
  Lemma sp_CastExpression : spec okd (new_step cm checked rec CastExpression l).
  Proof. cbv beta iota delta [new_step new_CastExpression]. go. Qed.
  Lemma sp_ThrowStatement : spec okd (new_step cm checked rec ThrowStatement l).
  Proof. cbv beta iota delta [new_step new_ThrowStatement]. go. Qed.
  Lemma sp_BreakStatement : spec okd (new_step cm checked rec BreakStatement l).
  Proof. cbv beta iota delta [new_step new_BreakStatement]. go. Qed.
  Lemma sp_ContinueStatement : spec okd (new_step cm checked rec ContinueStatement l).
  Proof. cbv beta iota delta [new_step new_ContinueStatement]. go. Qed.
  Lemma sp_SwitchExpression : spec okd (new_step cm checked rec SwitchExpression l).
  Proof. cbv beta iota delta [new_step new_SwitchExpression]. go. Qed.
  Lemma sp_SwitchBlock : spec okd (new_step cm checked rec SwitchBlock l).
  Proof. cbv beta iota delta [new_step new_SwitchBlock]. go. Qed.
  Lemma sp_SwitchRule : spec okd (new_step cm checked rec SwitchRule l).
  Proof. cbv beta iota delta [new_step new_SwitchRule]. go. Qed.
  Lemma sp_SwitchLabel : spec okd (new_step cm checked rec SwitchLabel l).
  Proof. cbv beta iota delta [new_step new_SwitchLabel]. go. Qed.
  Lemma sp_InstanceOfExpression : spec okd (new_step cm checked rec InstanceOfExpression l).
  Proof. cbv beta iota delta [new_step new_InstanceOfExpression]. go. Qed.
  Lemma sp_JavaFieldAccess : spec okd (new_step cm checked rec JavaFieldAccess l).
  Proof. cbv beta iota delta [new_step new_JavaFieldAccess]. go. Qed.
  Lemma sp_JavaType : spec okd (new_step cm checked rec JavaType l).
  Proof. cbv beta iota delta [new_step new_JavaType]. go. Qed.
  Lemma sp_ArrayType : spec okd (new_step cm checked rec ArrayType l).
  Proof. cbv beta iota delta [new_step new_ArrayType]. go. Qed.
  Lemma sp_TriggerDeclaration : spec okd (new_step cm checked rec TriggerDeclaration l).
  Proof. cbv beta iota delta [new_step new_TriggerDeclaration]. go. Qed.
  Lemma sp_TriggerBody : spec okd (new_step cm checked rec TriggerBody l).
  Proof. cbv beta iota delta [new_step new_TriggerBody]. go. Qed.
  Lemma sp_QueryExpression : spec okd (new_step cm checked rec QueryExpression l).
  Proof. cbv beta iota delta [new_step new_QueryExpression]. go. Qed.
  Lemma sp_SoslQueryBody : spec okd (new_step cm checked rec SoslQueryBody l).
  Proof. cbv beta iota delta [new_step new_SoslQueryBody]. go. Qed.
  Lemma sp_InClause : spec okd (new_step cm checked rec InClause l).
  Proof. cbv beta iota delta [new_step new_InClause]. go. Qed.
  Lemma sp_ReturningClause : spec okd (new_step cm checked rec ReturningClause l).
  Proof. cbv beta iota delta [new_step new_ReturningClause]. go. Qed.
  Lemma sp_FromClause : spec okd (new_step cm checked rec FromClause l).
  Proof. cbv beta iota delta [new_step new_FromClause]. go. Qed.
  Lemma sp_StorageAlias : spec okd (new_step cm checked rec StorageAlias l).
  Proof. cbv beta iota delta [new_step new_StorageAlias]. go. Qed.
  Lemma sp_LimitClause : spec okd (new_step cm checked rec LimitClause l).
  Proof. cbv beta iota delta [new_step new_LimitClause]. go. Qed.
  Lemma sp_BoundApexExpression : spec okd (new_step cm checked rec BoundApexExpression l).
  Proof. cbv beta iota delta [new_step new_BoundApexExpression]. go. Qed.
  Lemma sp_SoslUsingClause : spec okd (new_step cm checked rec SoslUsingClause l).
  Proof. cbv beta iota delta [new_step new_SoslUsingClause]. go. Qed.
  Lemma sp_UsingClause : spec okd (new_step cm checked rec UsingClause l).
  Proof. cbv beta iota delta [new_step new_UsingClause]. go. Qed.
  Lemma sp_UsingScopeClause : spec okd (new_step cm checked rec UsingScopeClause l).
  Proof. cbv beta iota delta [new_step new_UsingScopeClause]. go. Qed.
  Lemma sp_UsingLookupClause : spec okd (new_step cm checked rec UsingLookupClause l).
  Proof. cbv beta iota delta [new_step new_UsingLookupClause]. go. Qed.
  Lemma sp_UsingLookupBindClause : spec okd (new_step cm checked rec UsingLookupBindClause l).
  Proof. cbv beta iota delta [new_step new_UsingLookupBindClause]. go. Qed.
  Lemma sp_UsingLookupBindExpression : spec okd (new_step cm checked rec UsingLookupBindExpression l).
  Proof. cbv beta iota delta [new_step new_UsingLookupBindExpression]. go. Qed.
  Lemma sp_UsingListviewClause : spec okd (new_step cm checked rec UsingListviewClause l).
  Proof. cbv beta iota delta [new_step new_UsingListviewClause]. go. Qed.
  Lemma sp_ComparableList : spec okd (new_step cm checked rec ComparableList l).
  Proof. cbv beta iota delta [new_step new_ComparableList]. go. Qed.
  Lemma sp_OrderByClause : spec okd (new_step cm checked rec OrderByClause l).
  Proof. cbv beta iota delta [new_step new_OrderByClause]. go. Qed.
  Lemma sp_OrderExpression : spec okd (new_step cm checked rec OrderExpression l).
  Proof. cbv beta iota delta [new_step new_OrderExpression]. go. Qed.
  Lemma sp_SubQuery : spec okd (new_step cm checked rec SubQuery l).
  Proof. cbv beta iota delta [new_step new_SubQuery]. go. Qed.
  Lemma sp_MapCreationExpression : spec okd (new_step cm checked rec MapCreationExpression l).
  Proof. cbv beta iota delta [new_step new_MapCreationExpression]. go. Qed.
  Lemma sp_MapInitializer : spec okd (new_step cm checked rec MapInitializer l).
  Proof. cbv beta iota delta [new_step new_MapInitializer]. go. Qed.
  Lemma sp_SoslWithClause : spec okd (new_step cm checked rec SoslWithClause l).
  Proof. cbv beta iota delta [new_step new_SoslWithClause]. go. Qed.
  Lemma sp_SoqlWithClause : spec okd (new_step cm checked rec SoqlWithClause l).
  Proof. cbv beta iota delta [new_step new_SoqlWithClause]. go. Qed.
  Lemma sp_SoslWithType : spec okd (new_step cm checked rec SoslWithType l).
  Proof. cbv beta iota delta [new_step new_SoslWithType]. go. Qed.
  Lemma sp_WithDataCatExpression : spec okd (new_step cm checked rec WithDataCatExpression l).
  Proof. cbv beta iota delta [new_step new_WithDataCatExpression]. go. Qed.
  Lemma sp_WithDivisionExpression : spec okd (new_step cm checked rec WithDivisionExpression l).
  Proof. cbv beta iota delta [new_step new_WithDivisionExpression]. go. Qed.
  Lemma sp_WithSnippetExpression : spec okd (new_step cm checked rec WithSnippetExpression l).
  Proof. cbv beta iota delta [new_step new_WithSnippetExpression]. go. Qed.
  Lemma sp_WithMetadataExpression : spec okd (new_step cm checked rec WithMetadataExpression l).
  Proof. cbv beta iota delta [new_step new_WithMetadataExpression]. go. Qed.
  Lemma sp_WithSpellCorrectionExpression : spec okd (new_step cm checked rec WithSpellCorrectionExpression l).
  Proof. cbv beta iota delta [new_step new_WithSpellCorrectionExpression]. go. Qed.
  Lemma sp_WithPriceBookExpression : spec okd (new_step cm checked rec WithPriceBookExpression l).
  Proof. cbv beta iota delta [new_step new_WithPriceBookExpression]. go. Qed.
  Lemma sp_ExpressionStatement : spec okd (new_step cm checked rec ExpressionStatement l).
  Proof. cbv beta iota delta [new_step new_ExpressionStatement]. go. Qed.
  Lemma sp_CountExpression : spec okd (new_step cm checked rec CountExpression l).
  Proof. cbv beta iota delta [new_step new_CountExpression]. go. Qed.
  Lemma sp_FieldIdentifier : spec okd (new_step cm checked rec FieldIdentifier l).
  Proof. cbv beta iota delta [new_step new_FieldIdentifier]. go. Qed.
  Lemma sp_SelectClause : spec okd (new_step cm checked rec SelectClause l).
  Proof. cbv beta iota delta [new_step new_SelectClause]. go. Qed.
  Lemma sp_ForClause : spec okd (new_step cm checked rec ForClause l).
  Proof. cbv beta iota delta [new_step new_ForClause]. go. Qed.
  Lemma sp_UnannotatedType : s0 = UnannotatedType -> spec okd (new_step cm checked rec UnannotatedType l).
  Proof. intro Hs0. cbv beta iota delta [new_step new_UnannotatedType]. go. Qed.
  Lemma sp_SimpleType : s0 = SimpleType -> spec okd (new_step cm checked rec SimpleType l).
  Proof. intro Hs0. cbv beta iota delta [new_step new_SimpleType]. go. Qed.
  Lemma sp_VariableInitializer : s0 = VariableInitializer -> spec okd (new_step cm checked rec VariableInitializer l).
  Proof. intro Hs0. cbv beta iota delta [new_step new_VariableInitializer]. go. Qed.
  Lemma sp_Expression : s0 = Expression -> spec okd (new_step cm checked rec Expression l).
  Proof. intro Hs0. cbv beta iota delta [new_step new_Expression]. go. Qed.
  Lemma sp_ClassLiteral : spec okd (new_step cm checked rec ClassLiteral l).
  Proof. cbv beta iota delta [new_step new_ClassLiteral]. go. Qed.
  Lemma sp_Statement : s0 = Statement -> spec okd (new_step cm checked rec Statement l).
  Proof. intro Hs0. cbv beta iota delta [new_step new_Statement]. go. Qed.
  Lemma sp_Type_ : s0 = Type_ -> spec okd (new_step cm checked rec Type_ l).
  Proof. intro Hs0. cbv beta iota delta [new_step new_Type]. go. Qed.
  Lemma sp_SelectableExpression : s0 = SelectableExpression -> spec okd (new_step cm checked rec SelectableExpression l).
  Proof. intro Hs0. cbv beta iota delta [new_step new_SelectableExpression]. go. Qed.
  Lemma sp_AliasExpression : spec okd (new_step cm checked rec AliasExpression l).
  Proof. cbv beta iota delta [new_step new_AliasExpression]. go. Qed.
  Lemma sp_StorageVariant : s0 = StorageVariant -> spec okd (new_step cm checked rec StorageVariant l).
  Proof. intro Hs0. cbv beta iota delta [new_step new_StorageVariant]. go. Qed.
  Lemma sp_LimitValue : s0 = LimitValue -> spec okd (new_step cm checked rec LimitValue l).
  Proof. intro Hs0. cbv beta iota delta [new_step new_LimitValue]. go. Qed.
  Lemma sp_ValueExpression : s0 = ValueExpression -> spec okd (new_step cm checked rec ValueExpression l).
  Proof. intro Hs0. cbv beta iota delta [new_step new_ValueExpression]. go. Qed.
  Lemma sp_SetValue : s0 = SetValue -> spec okd (new_step cm checked rec SetValue l).
  Proof. intro Hs0. cbv beta iota delta [new_step new_SetValue]. go. Qed.
  Lemma sp_ComparableListValue : s0 = ComparableListValue -> spec okd (new_step cm checked rec ComparableListValue l).
  Proof. intro Hs0. cbv beta iota delta [new_step new_ComparableListValue]. go. Qed.
  Lemma sp_OffsetClause : spec okd (new_step cm checked rec OffsetClause l).
  Proof. cbv beta iota delta [new_step new_OffsetClause]. go. Qed.
  Lemma sp_word_kid s : In s fixed_pieces -> T (U s).
  Proof. intro H. apply T_fixed. apply in_map. exact H. Qed.
  Lemma kind_in_spec k ks : kind_in k ks = true -> In k ks.
  Proof.
    unfold kind_in. intro H. apply existsb_exists in H. destruct H as (x & Hx & E).
    apply String.eqb_eq in E. subst. exact Hx.
  Qed.
  Definition fixed_word (s : string) : bool := existsb (String.eqb s) fixed_pieces.
  Lemma fixed_word_T s : fixed_word s = true -> T (U s).
  Proof. intro H. apply sp_word_kid. apply (kind_in_spec s fixed_pieces). exact H. Qed.
  Lemma fixed_words_T k ks : kind_in k ks = true -> forallb fixed_word ks = true -> T (U k).
  Proof.
    intros H H2. apply fixed_word_T. apply kind_in_spec in H.
    apply (proj1 (forallb_forall _ _)) with (x := k) in H2; auto.
  Qed.
  Lemma sp_modifier_text k : spec (fun s => T (U s)) (modifier_text k).
  Proof.
    unfold modifier_text.
    match goal with |- spec _ (if ?b then _ else _) => destruct b eqn:H end;
      [eapply fixed_words_T; [exact H|vm_compute; reflexivity]|].
    repeat match goal with |- spec _ (if ?b then _ else _) => destruct b; [apply fixed_word_T; vm_compute; reflexivity|] end.
    apply spec_panic. reflexivity.
  Qed.
  Lemma sp_Modifier : spec okd (new_Modifier l).
  Proof.
    unfold new_Modifier. sp1. sp1. eapply spec_bind; [apply sp_modifier_text|]. intros s Hs _. cbv beta in Hs. apply spec_ok. ok.
  Qed.
  Lemma sp_trigger_text k : spec (fun s => T (U s)) (trigger_event_text k).
  Proof.
    unfold trigger_event_text.
    repeat match goal with |- spec _ (if ?b then _ else _) => destruct b; [apply fixed_word_T; vm_compute; reflexivity|] end.
    apply spec_panic. reflexivity.
  Qed.
  Lemma sp_TriggerEvent : spec okd (new_TriggerEvent l).
  Proof.
    unfold new_TriggerEvent. sp1. sp1. eapply spec_bind; [apply sp_trigger_text|]. intros s Hs _. cbv beta in Hs. apply spec_ok. ok.
  Qed.
  Lemma ok_declarators ds : Forall okd ds -> okd (declarators_doc ds).
  Proof.
    intro H. unfold declarators_doc. destruct ds as [|d [|e r]]; [ok| |ok].
    inversion H; assumption.
  Qed.
  Lemma sp_FieldDeclaration : spec okd (new_FieldDeclaration rec l).
  Proof. unfold new_FieldDeclaration. go. apply ok_declarators; assumption. Qed.
  Lemma sp_LocalVariableDeclaration : spec okd (new_LocalVariableDeclaration rec l).
  Proof. unfold new_LocalVariableDeclaration. go. apply ok_declarators; assumption. Qed.
  Lemma kind_eq k : is_kind k l = true -> kind l = k.
  Proof. unfold is_kind, has_kind. intro H. apply String.eqb_eq in H. exact H. Qed.
  Lemma sp_AssignmentExpression : spec okd (new_AssignmentExpression rec l).
  Proof.
    unfold new_AssignmentExpression. sp1. sp1. sp1. sp1.
    eapply spec_bind; [apply sp_vn_n; rewrite (kind_eq _ Hk); reflexivity|]. go.
  Qed.
  Lemma sp_MethodInvocation : spec okd (new_MethodInvocation rec l).
  Proof. unfold new_MethodInvocation. repeat sp1; ok. Qed.
  Lemma precedence_fixed k p : get_precedence k = Ok p -> T (U k).
  Proof.
    unfold get_precedence. intro H.
    repeat match type of H with
    | (if kind_in ?k ?ks then _ else _) = _ => 
        let E := fresh "E" in destruct (kind_in k ks) eqn:E; [eapply fixed_words_T; [exact E|vm_compute; reflexivity]|clear E]
    end. discriminate.
  Qed.
  Lemma sp_precedence k : spec (fun _ => True) (get_precedence k).
  Proof.
    unfold get_precedence.
    repeat match goal with |- spec _ (if ?b then _ else _) => destruct b; [exact I|] end.
    apply spec_panic. reflexivity.
  Qed.
  Lemma sp_BinaryExpression : spec okd (new_BinaryExpression rec l).
  Proof.
    unfold new_BinaryExpression. sp1. sp1. sp1.
    eapply spec_bind; [apply sp_c_token|]. intros opn Hop _. sp1. sp1.
    eapply spec_bind; [apply sp_precedence|]. intros pr _ Hpr.
    eapply spec_bind; [apply (spec_must (fun _ => True)); [reflexivity|auto]|]. intros p _ _.
    eapply spec_bind.
    { instantiate (1 := fun _ => True). destruct (is_kind "binary_expression" p); [|exact I].
      eapply spec_bind; [apply (spec_must (fun _ => True)); [reflexivity|auto]|]. intros po _ _.
      eapply spec_bind; [apply sp_precedence|]. intros; exact I. }
    intros same _ _. assert (T (U (kind opn))) by (eapply precedence_fixed; exact Hpr).
    apply spec_ok. ok.
  Qed.
  Lemma sp_VariableDeclarator : spec okd (new_VariableDeclarator rec l).
  Proof. unfold new_VariableDeclarator. repeat sp1; ok. Qed.
  Lemma sp_IfStatement : spec okd (new_IfStatement rec l).
  Proof.
    unfold new_IfStatement. sp1.
    eapply spec_bind.
    { instantiate (1 := fun o => match o with Some (e, s, _) => okd e /\ okd s | None => True end).
      sp1; [|exact I].
      eapply spec_bind.
      { apply spec_must; [reflexivity|]. intros e He. apply find_some in He.
        instantiate (1 := fun e => In e (kids l) /\ is_kind "else" e = true). exact He. }
      intros e [He1 He2] _. sp1. intros s Hs _. split; [|exact Hs]. apply ok_vn. apply (Vk _ He1).
      apply E_token. unfold is_kind, has_kind in He2. apply String.eqb_eq in He2. unfold kind. rewrite He2. reflexivity. }
    intros alt Halt _. repeat sp1. ok; tauto.
  Qed.
  Lemma sp_UpdateExpression : spec okd (new_UpdateExpression rec l).
  Proof.
    unfold new_UpdateExpression. sp1. eapply spec_bind; [apply sp_c_token|]. intros opn Hop _.
    repeat sp1. ok.
  Qed.
  Lemma in_last {A} (x : A) cs : hd_error (rev cs) = Some x -> In x cs.
  Proof. intro H. apply in_rev. destruct (rev cs); [discriminate|]. injection H as ->. left. reflexivity. Qed.
  Lemma sp_ScopedTypeIdentifier : spec okd (new_ScopedTypeIdentifier rec l).
  Proof.
    unfold new_ScopedTypeIdentifier. sp1. sp1. eapply spec_bind with (P := okd).
    { repeat sp1; ok. }
    repeat sp1. intros cs Hcs _.
    eapply spec_bind.
    { apply spec_must; [reflexivity|]. intros x Hx. apply in_last in Hx. apply Hcs in Hx.
      instantiate (1 := fun x => In x (kids l)). tauto. }
    intros ti Hti _. apply spec_ok. ok.
  Qed.
  Lemma ok_loop_body bn body : okd body -> Forall okd (loop_body bn body).
  Proof. intro H. unfold loop_body. ok. Qed.
  Lemma sp_EnhancedForStatement : spec okd (new_EnhancedForStatement rec l).
  Proof. unfold new_EnhancedForStatement. repeat sp1. ok. apply ok_loop_body. assumption. Qed.
  Lemma sp_semicolons : spec (Forall okpunct) (mapR punct_new (filter (has_kind ";") (children (l_node l)))).
  Proof.
    apply spec_mapR. intros n Hn. apply filter_In in Hn. destruct Hn as [H1 H2].
    assert (has (n_id n)).
    { apply child_kid in H1. destruct H1 as (c & Hc & <-). apply V_id. apply (Vk _ Hc). apply E_token.
      unfold has_kind in H2. apply String.eqb_eq in H2. unfold kind. rewrite H2. reflexivity. }
    unfold punct_new. destruct (has_kind "," n); [assumption|]. rewrite H2. assumption.
  Qed.
  Lemma sp_opt_init : spec (Forall okd) (opt_n rec "init" ForInitOption l).
  Proof.
    unfold opt_n. destruct (try_c_by_n "init" l) as [c|] eqn:E; [|constructor].
    apply kid_n in E. destruct E as (H1 & H2).
    eapply spec_bind.
    { apply IH.
      - apply (Vk _ H1). eapply E_field; [exact H2|reflexivity].
      - exists l. split; [exact (kids_parent _ _ H1)|]. split; assumption.
      - rewrite (weight_eq _ _ NI). unfold weight. rewrite (kids_parent _ _ H1).
        pose proof (height_pos (l_node l)). lia. }
    intros d Hd _. constructor; auto.
  Qed.
  Lemma sp_ForStatement : spec okd (new_ForStatement rec l).
  Proof.
    unfold new_ForStatement. sp1. eapply spec_bind; [apply sp_opt_init|]. intros init Hi _.
    sp1. intros cond Hc _. sp1. intros upd Hu _.
    eapply spec_bind; [apply sp_semicolons|]. intros ps Hp _.
    destruct (Nat.ltb _ _) eqn:L; [apply spec_panic; reflexivity|]. apply Nat.ltb_ge in L.
    sp1. sp1. intros body Hb _.
    destruct (match init with i :: _ => (i, ps) | [] => next_semicolon ps end) as [d1 ps1] eqn:E1.
    destruct (match cond with c :: _ => (TConcat [sp; c], ps1) | [] => next_semicolon ps1 end) as [d2 ps2] eqn:E2.
    assert (okd d1 /\ Forall okpunct ps1 /\ (cond = [] -> ps1 <> [])) as (Hd1 & Hp1 & Hl).
    { destruct init as [|i r].
      - destruct ps as [|p ps]; [simpl in L; lia|]. injection E1 as <- <-. inversion Hp; subst.
        split; [apply D_punct; assumption|]. split; [assumption|]. intros ->. simpl in L. destruct ps; [simpl in L; lia|discriminate].
      - injection E1 as <- <-. inversion Hi; subst. split; [assumption|]. split; [exact Hp|].
        intros ->. simpl in L. destruct ps; [simpl in L; lia|discriminate]. }
    assert (okd d2).
    { destruct cond as [|c r].
      - destruct ps1 as [|p ps1]; [exfalso; apply Hl; reflexivity|]. injection E2 as <- _. inversion Hp1; subst.
        apply D_punct; assumption.
      - injection E2 as <- _. inversion Hc; subst. ok. }
    apply spec_ok. ok; try (inversion Hu; subst; assumption).
    apply ok_loop_body. assumption.
  Qed.
  Lemma sp_ConstructorBody : spec okd (new_ConstructorBody cm checked rec l).
  Proof.
    unfold new_ConstructorBody. 
    assert (HV : forall c, In c (children_vec l) -> In c (kids l) /\ eligible l c)
      by (intros c Hc; apply kids_vec in Hc; tauto).
    eapply spec_bind.
    { instantiate (1 := fun o => match o with Some m => okd (fst m) | None => True end).
      destruct (children_vec l) as [|c cs]; [exact I|]. destruct (is_kind _ c); [|exact I].
      destruct (HV c (or_introl eq_refl)). eapply spec_rmap; [apply sp_member; [reflexivity|assumption|assumption]|]. auto. }
    intros inv Hinv _.
    eapply spec_bind.
    { apply (spec_mapR (fun m => okd (fst m))). intros c Hc. apply sp_member; [reflexivity| |];
        apply HV; destruct (children_vec l) as [|x r]; try (destruct (is_kind _ x)); simpl in *; tauto. }
    intros stmts Hst _. apply spec_ok. apply D_node; [apply okx_punc; exact Vl| |constructor].
    destruct inv as [[d tr]|].
    - assert (okd d) by exact Hinv. ok.
    - destruct stmts; ok.
  Qed.
  Lemma sp_FieldAccess : spec okd (new_FieldAccess rec l).
  Proof. unfold new_FieldAccess. repeat sp1; ok. Qed.
  Lemma sp_first_c_of m : V m -> spec (fun c => In c (kids m)) (first_c m).
  Proof.
    intro H. apply spec_must; [reflexivity|]. intros c Hc. unfold try_first_c in Hc.
    apply kids_vec. destruct (children_vec m); [discriminate|]. injection Hc as ->. left. reflexivity.
  Qed.
  Lemma sp_DmlExpression : spec okd (new_DmlExpression rec l).
  Proof.
    unfold new_DmlExpression. repeat sp1.
    eapply spec_bind; [apply sp_first_c_of; vk|]. intros v Hv _.
    repeat sp1; ok.
  Qed.
  Lemma sp_DmlType : spec okd (new_DmlType l).
  Proof.
    unfold new_DmlType. repeat sp1.
    match goal with H : kind_in _ _ = true |- _ => eapply fixed_words_T in H; [|vm_compute; reflexivity] end. ok.
  Qed.
  Lemma sp_ReturnStatement : spec okd (new_ReturnStatement rec l).
  Proof.
    unfold new_ReturnStatement. sp1. destruct (try_first_c l) as [c|] eqn:E; [|repeat sp1; ok].
    unfold try_first_c in E. assert (In c (children_vec l)) as Hc.
    { destruct (children_vec l); [discriminate|]. injection E as ->. left. reflexivity. }
    apply kids_vec in Hc. destruct Hc as (H1 & H2 & _). repeat sp1. ok.
  Qed.
  Lemma sp_AccessorList : spec okd (new_AccessorList rec l).
  Proof.
    unfold new_AccessorList. repeat sp1. intros ns Hns _.
    eapply spec_bind.
    { apply (spec_mapR okd). intros c Hc. apply Hns in Hc. destruct Hc as (H1 & H2 & _).
      apply rec_kid; [reflexivity|exact NI|assumption|assumption]. }
    intros ds Hds _. apply spec_ok. ok.
  Qed.
  Lemma sp_WhenSObjectType : spec okd (new_WhenSObjectType rec l).
  Proof.
    unfold new_WhenSObjectType. eapply spec_bind.
    { apply (spec_mapR okd). intros c Hc. apply filter_In in Hc. destruct Hc as [Hc _].
      apply kids_vec in Hc. destruct Hc as (H1 & H2 & _). apply rec_kid; [reflexivity|exact NI|assumption|assumption]. }
    intros tys Htys _. eapply spec_bind with (P := okd).
    { apply spec_must; [reflexivity|]. intros x Hx. apply in_last in Hx.
      apply (proj1 (Forall_forall _ _) Htys). exact Hx. }
    intros ty Hty _. eapply spec_bind with (P := fun x => In x (kids l)).
    { apply spec_must; [reflexivity|]. intros x Hx. apply in_last in Hx. apply filter_In in Hx.
      destruct Hx as [Hx _]. apply kids_vec in Hx. tauto. }
    intros idn Hidn _. apply spec_ok. ok.
  Qed.
  Lemma sp_VersionExpression : spec okd (new_VersionExpression l).
  Proof.
    unfold new_VersionExpression. sp1. apply spec_ok. ok. apply kid_n in Hm. destruct Hm as [H1 H2].
    apply ok_vn. vk.
  Qed.
  Lemma sp_FindClause : spec okd (new_FindClause rec l).
  Proof. unfold new_FindClause. repeat sp1; ok. apply D_txt, T_quoted. vk. Qed.
  Lemma sp_SObjectReturn : spec okd (new_SObjectReturn rec l).
  Proof.
    unfold new_SObjectReturn. sp1. eapply spec_bind with (P := Forall okd).
    { sp1; [|constructor]. assert (V c) by vk. eapply spec_bind with (P := Forall okd).
      { apply spec_mapR. intros x Hx. apply kids_vec in Hx. destruct Hx as (H3 & H4 & _).
        eapply rec_below; [reflexivity|exact NI|eassumption| |exact H3|exact H4].
        match goal with H : In c (kids l) |- _ => pose proof (height_child _ _ (kids_child _ _ H)) end. lia. }
      intros fs Hfs _. repeat sp1. ok. }
    go.
  Qed.
  Lemma sp_SoqlQueryBody : spec okd (new_SoqlQueryBody rec l).
  Proof.
    unfold new_SoqlQueryBody. do 12 sp1. intros off Hoff _.
    eapply spec_bind with (P := Forall okd).
    { sp1; [|constructor]. eapply spec_bind with (P := okd).
      { unfold new_AllRowsClause, assert_check. destruct (is_kind _ c); [|apply spec_panic; reflexivity].
        apply ok_nodeP; [vk|]. ok. }
      intros d Hd _. apply spec_ok. ok. }
    go.
  Qed.
  Lemma sp_UpdateClause : spec okd (new_UpdateClause l).
  Proof.
    unfold new_UpdateClause. repeat sp1. intros us Hus _. apply spec_ok. ok.
    apply ok_map_vn. intros c Hc. apply Hus in Hc. destruct Hc as (H1 & H2 & _). vk.
  Qed.
  Lemma rec_filter s c : (exists p, s = BooleanExpression p \/ s = ConditionExpression p) ->
    In c (kids l) -> is_named c = true -> is_extra c = false -> kind_in (kind l) filter_parents = true ->
    spec okd (rec s c).
  Proof.
    intros Hs Hc Hn He Hl. apply IH.
    - apply (Vk _ Hc). apply E_named; assumption.
    - assert (kind_in (kind c) filter_kinds = true) by (eapply V_filter; eauto).
      destruct Hs as [p [->| ->]]; assumption.
    - rewrite !weight_eq; [|exact NI|destruct Hs as [p [->| ->]]; discriminate].
      pose proof (height_child _ _ (kids_child _ _ Hc)). pose proof (rank_le s c). lia.
  Qed.
  Lemma sp_WhereClause : spec okd (new_WhereClause rec l).
  Proof.
    unfold new_WhereClause. sp1. eapply spec_bind with (P := okd); [|go].
    eapply spec_bind; [apply sp_first_c|]. intros c (H1 & H2 & H3 & H4) _.
    apply rec_filter; eauto. rewrite (kind_eq _ Hk). reflexivity.
  Qed.
  Lemma sp_HavingClause : spec okd (new_HavingClause rec l).
  Proof.
    unfold new_HavingClause. sp1. eapply spec_bind with (P := okd); [|go].
    eapply spec_bind; [apply sp_first_c|]. intros c (H1 & H2 & H3 & H4) _.
    apply rec_filter; eauto. rewrite (kind_eq _ Hk). reflexivity.
  Qed.
  Lemma sp_NotExpression : spec okd (new_NotExpression rec l).
  Proof.
    unfold new_NotExpression. sp1. eapply spec_bind with (P := okd); [|go].
    eapply spec_bind; [apply sp_first_c|]. intros c (H1 & H2 & H3 & H4) _.
    apply rec_filter; eauto. rewrite (kind_eq _ Hk). reflexivity.
  Qed.
  Lemma sp_AndExpression : spec okd (new_AndExpression rec l).
  Proof.
    unfold new_AndExpression. sp1. eapply spec_bind with (P := Forall okd); [|go].
    apply spec_mapR. intros c Hc. apply kids_vec in Hc. destruct Hc as (H1 & H2 & H3 & H4).
    apply rec_filter; eauto. rewrite (kind_eq _ Hk). reflexivity.
  Qed.
  Lemma sp_OrExpression : spec okd (new_OrExpression rec l).
  Proof.
    unfold new_OrExpression. sp1. eapply spec_bind with (P := Forall okd); [|go].
    apply spec_mapR. intros c Hc. apply kids_vec in Hc. destruct Hc as (H1 & H2 & H3 & H4).
    apply rec_filter; eauto. rewrite (kind_eq _ Hk). reflexivity.
  Qed.
  Lemma sp_comparison : spec okd (get_comparsion rec l).
  Proof.
    unfold get_comparsion. repeat sp1; ok; apply D_txt, T_spaced; vk.
  Qed.
  Lemma sp_ComparisonExpression : spec okd (new_ComparisonExpression rec l).
  Proof. unfold new_ComparisonExpression. repeat sp1. eapply spec_bind; [apply sp_comparison|]. go. Qed.
  Lemma sp_WithNetworkExpression : spec okd (new_WithNetworkExpression rec l).
  Proof. unfold new_WithNetworkExpression. repeat sp1. eapply spec_bind; [apply sp_comparison|]. go. Qed.
  Lemma sp_MapKeyInitializer : spec okd (new_MapKeyInitializer rec l).
  Proof.
    unfold new_MapKeyInitializer. sp1.
    assert (HV : forall c, In c (children_vec l) -> In c (kids l) /\ eligible l c)
      by (intros c Hc; apply kids_vec in Hc; tauto).
    destruct (children_vec l) as [|a [|b [|c r]]]; try (apply spec_panic; reflexivity).
    destruct (HV a) as [A1 A2]; [simpl; auto|]. destruct (HV b) as [B1 B2]; [simpl; auto|]. go.
  Qed.
  Lemma ok_lefts items : Forall (fun x => match x with inl d | inr d => okd d end) items -> Forall okd (lefts items).
  Proof.
    intro H. apply Forall_forall. intros d Hd. apply in_flat_map in Hd. destruct Hd as (x & Hx & Hd).
    apply (proj1 (Forall_forall _ _) H) in Hx. destruct x; simpl in Hd; [|tauto]. destruct Hd as [<-|[]]. exact Hx.
  Qed.
  Lemma ok_rights items : Forall (fun x => match x with inl d | inr d => okd d end) items -> Forall okd (rights items).
  Proof.
    intro H. apply Forall_forall. intros d Hd. apply in_flat_map in Hd. destruct Hd as (x & Hx & Hd).
    apply (proj1 (Forall_forall _ _) H) in Hx. destruct x; simpl in Hd; [tauto|]. destruct Hd as [<-|[]]. exact Hx.
  Qed.
  Lemma sp_GroupByClause : spec okd (new_GroupByClause rec l).
  Proof.
    unfold new_GroupByClause. sp1.
    eapply spec_bind.
    { apply (spec_mapR (fun x => match x with inl d | inr d => okd d end)). intros c Hc. apply kids_vec in Hc.
      destruct Hc as (H1 & H2 & _). unfold group_by_item. repeat sp1; ok. }
    intros items Hit _. apply spec_ok. apply ok_nodeP; [exact Vl|]. ok; try (apply ok_lefts; exact Hit).
    apply (proj1 (Forall_forall _ _) (ok_rights _ Hit)). apply in_rev. rewrite Hm. left. reflexivity.
  Qed.
  Lemma sp_SoqlWithType : spec okd (new_SoqlWithType l).
  Proof.
    unfold new_SoqlWithType. repeat sp1; try (ok; fail).
    eapply spec_bind with (P := okd); [|go]. eapply spec_rmap.
    { apply spec_must; [reflexivity|]. intros x Hx. apply (kid_k "string_literal") in Hx; [|reflexivity].
      instantiate (1 := V). destruct Hx as (H3 & H4 & _). eapply V_kid; [|exact H3|exact H4]. vk. }
    intros x Hx. apply ok_vn. exact Hx.
  Qed.
  Lemma sp_WithDataCatFilter : spec okd (new_WithDataCatFilter l).
  Proof.
    unfold new_WithDataCatFilter. repeat sp1. intros ids Hids _.
    assert (HV : forall c, In c ids -> V c).
    { intros c Hc. apply Hids in Hc. destruct Hc as (H1 & H2 & _). vk. }
    destruct ids as [|a [|b r]]; try (apply spec_panic; reflexivity).
    eapply spec_bind with (P := okd).
    { eapply spec_rmap; [apply sp_c_by_k; reflexivity|]. intros c (H1 & H2 & _). apply ok_vn_upper. vk. }
    intros ft Hft _. apply spec_ok. apply ok_nodeP; [exact Vl|].
    assert (okd (vn a)) by (apply ok_vn, HV; simpl; auto).
    assert (Forall okd (map vn (b :: r))) as Hm by (apply ok_map_vn; intros c Hc; apply HV; simpl in *; tauto).
    assert (okd (vn b)) by (inversion Hm; assumption).
    repeat first [assumption | ok1].
  Qed.
  Lemma sp_DottedIdentifier : spec okd (new_DottedIdentifier l).
  Proof.
    unfold new_DottedIdentifier. repeat sp1. intros us Hus _. apply spec_ok. ok.
    apply ok_map_vn. intros c Hc. apply Hus in Hc. destruct Hc as (H1 & H2 & _). vk.
  Qed.
  Lemma sp_FunctionExpression : spec okd (new_FunctionExpression rec l).
  Proof.
    unfold new_FunctionExpression. repeat sp1; ok.
    eapply spec_bind.
    { apply (spec_mapR okd). intros c Hc. assert (In c (children_vec l)) as Hc2.
      { destruct (children_vec l); [exact Hc|]. right. exact Hc. }
      apply kids_vec in Hc2. destruct Hc2 as (H1 & H2 & _). apply rec_kid; [reflexivity|exact NI|assumption|assumption]. }
    intros vs Hvs _. go.
  Qed.
  Lemma sp_GeoLocationType : spec okd (new_GeoLocationType rec l).
  Proof.
    unfold new_GeoLocationType. sp1. sp1. eapply spec_bind with (P := okd); [|go].
    repeat sp1; try (ok; fail). intros ds Hds _.
    assert (HV : forall c, In c ds -> V c).
    { intros c Hc. apply Hds in Hc. destruct Hc as (H3 & H4 & _). vk. }
    destruct ds as [|d1 [|d2 [|d3 r]]]; try (apply spec_panic; reflexivity).
    assert (okd (vn d1)) by (apply ok_vn, HV; simpl; auto).
    assert (okd (vn d2)) by (apply ok_vn, HV; simpl; auto).
    apply spec_ok. repeat first [assumption | ok1].
  Qed.
  Lemma sp_StorageIdentifier : spec okd (new_StorageIdentifier l).
  Proof.
    unfold new_StorageIdentifier. sp1. sp1. eapply spec_bind with (P := okd); [|go].
    repeat sp1; try (ok; fail). eapply spec_bind; [apply sp_cs_by_k; reflexivity|]. intros us Hus _.
    apply spec_ok. ok. apply ok_map_vn. intros x Hx. apply Hus in Hx. destruct Hx as (H3 & H4 & _).
    eapply V_kid; [|exact H3|exact H4]. vk.
  Qed.
  Lemma sp_literal : spec okd (new_Literal_ l).
  Proof. unfold new_Literal_. repeat sp1; ok. Qed.
  Lemma sp_PrimaryExpression : s0 = PrimaryExpression -> spec okd (new_PrimaryExpression rec l).
  Proof. intro Hs0. unfold new_PrimaryExpression. repeat sp1; ok. apply sp_wrap, sp_literal. Qed.
  Lemma sp_FieldsExpression : spec okd (new_FieldsExpression l).
  Proof.
    unfold new_FieldsExpression. sp1. eapply spec_bind with (P := okd); [|go].
    eapply spec_rmap; [apply sp_c_by_k; reflexivity|]. intros c (H1 & H2 & _). apply ok_vn_upper. vk.
  Qed.
  Lemma sp_SoqlLiteral : spec okd (new_SoqlLiteral l).
  Proof.
    unfold new_SoqlLiteral. repeat sp1; ok. apply sp_wrap. unfold new_DateLiteralWithParam. repeat sp1.
    ok. apply D_txt, T_date; vk.
  Qed.
  Lemma sp_BooleanExpression p : s0 = BooleanExpression p -> pre_ok s0 l -> spec okd (new_BooleanExpression rec p l).
  Proof.
    intros Hs Hp. rewrite Hs in Hp. unfold new_BooleanExpression. unfold pre_ok in Hp.
    assert (H0 : forall a b, is_kind a l = true -> String.eqb a b = false -> is_kind b l = false).
    { intros a b Ha Hab. unfold is_kind, has_kind in *. apply String.eqb_eq in Ha. rewrite Ha. exact Hab. }
    repeat match goal with |- spec _ (if ?b then _ else _) => destruct b eqn:?; [apply rec_same; [reflexivity|exact NI|]; rewrite Hs; unfold rank; erewrite H0; [|eassumption|reflexivity]; lia|] end.
    apply IH; [exact Vl|exact Hp|]. rewrite (weight_eq s0 l NI), weight_eq by discriminate. rewrite Hs. unfold rank.
    assert (is_kind "comparison_expression" l = true) as ->; [|lia].
    unfold filter_kinds, kind_in in Hp. simpl in Hp. unfold is_kind, has_kind, kind in *.
    destruct (String.eqb (n_kind (l_node l)) "and_expression"); [discriminate|].
    destruct (String.eqb (n_kind (l_node l)) "or_expression"); [discriminate|].
    destruct (String.eqb (n_kind (l_node l)) "not_expression"); [discriminate|].
    destruct (String.eqb (n_kind (l_node l)) "comparison_expression"); [reflexivity|discriminate].
  Qed.
  Lemma sp_ConditionExpression p : s0 = ConditionExpression p -> pre_ok s0 l -> spec okd (new_ConditionExpression rec p l).
  Proof.
    intros Hs Hp. rewrite Hs in Hp. unfold new_ConditionExpression. unfold pre_ok in Hp.
    destruct (is_kind "comparison_expression" l) eqn:E.
    - apply rec_same; [reflexivity|exact NI|]. rewrite Hs. unfold rank. rewrite E. lia.
    - cbv zeta. eapply spec_bind with (P := okd).
      + apply IH; [exact Vl|exact Hp|]. rewrite (weight_eq s0 l NI), weight_eq by discriminate. rewrite Hs. unfold rank. rewrite E. lia.
      + go.
  Qed.
  End Step.

  Lemma sp_ForInitOption m : V m -> pre_ok ForInitOption m ->
    (forall s c, V c -> pre_ok s c -> weight s c < weight ForInitOption m -> spec okd (rec s c)) ->
    spec okd (new_ForInitOption rec m).
  Proof.
    intros Vm (p & Ep & Vp & Hm) IHm. unfold new_ForInitOption.
    pose proof (height_child _ _ (kids_child _ _ Hm)) as Hh.
    destruct (is_kind "local_variable_declaration" m).
    - apply sp_wrap. apply IHm; [exact Vm|exact I|]. unfold weight. rewrite Ep. simpl. lia.
    - rewrite Ep. cbn [must rbind]. eapply spec_bind with (P := Forall okd).
      + unfold all1_n. eapply spec_bind; [apply sp_cs_by_n; reflexivity|]. intros cs Hcs _.
        apply spec_mapR. intros c Hc. apply Hcs in Hc. destruct Hc as (H1 & H2).
        apply IHm; [eapply V_kid; eauto|exact I|]. pose proof (height_child _ _ (kids_child _ _ H1)).
        unfold weight. rewrite Ep. simpl. lia.
      + intros ds Hds _. apply D_concat. constructor; [|constructor]. apply D_group, D_inter; [exact Hds|exact I].
  Qed.

  Lemma new_step_spec s m : V m -> pre_ok s m ->
    (forall s' c, V c -> pre_ok s' c -> weight s' c < weight s m -> spec okd (rec s' c)) ->
    spec okd (new_step cm checked rec s m).
  Proof.
    intros Vm Pm IHm. destruct s.
    - eapply sp_Root; try eassumption; try discriminate; reflexivity.
    - eapply sp_RootMember; try eassumption; try discriminate; reflexivity.
    - eapply sp_ClassMember; try eassumption; try discriminate; reflexivity.
    - eapply sp_ClassDeclaration; try eassumption; try discriminate; reflexivity.
    - eapply sp_MethodDeclaration; try eassumption; try discriminate; reflexivity.
    - eapply sp_FormalParameters; try eassumption; try discriminate; reflexivity.
    - eapply sp_FormalParameter; try eassumption; try discriminate; reflexivity.
    - eapply sp_SuperClass; try eassumption; try discriminate; reflexivity.
    - eapply sp_Modifiers; try eassumption; try discriminate; reflexivity.
    - eapply sp_Modifier; try eassumption; try discriminate; reflexivity.
    - eapply sp_Annotation; try eassumption; try discriminate; reflexivity.
    - eapply sp_AnnotationArgumentList; try eassumption; try discriminate; reflexivity.
    - eapply sp_AnnotationKeyValue; try eassumption; try discriminate; reflexivity.
    - eapply sp_ClassBody; try eassumption; try discriminate; reflexivity.
    - eapply sp_FieldDeclaration; try eassumption; try discriminate; reflexivity.
    - eapply sp_ArrayInitializer; try eassumption; try discriminate; reflexivity.
    - eapply sp_AssignmentExpression; try eassumption; try discriminate; reflexivity.
    - eapply sp_AssignmentLeft; try eassumption; try discriminate; reflexivity.
    - eapply sp_Block; try eassumption; try discriminate; reflexivity.
    - eapply sp_Interface_; try eassumption; try discriminate; reflexivity.
    - eapply sp_TypeList; try eassumption; try discriminate; reflexivity.
    - eapply sp_ObjectExpression; try eassumption; try discriminate; reflexivity.
    - eapply sp_MethodInvocation; try eassumption; try discriminate; reflexivity.
    - eapply sp_TypeArguments; try eassumption; try discriminate; reflexivity.
    - eapply sp_ArgumentList; try eassumption; try discriminate; reflexivity.
    - eapply sp_BinaryExpression; try eassumption; try discriminate; reflexivity.
    - eapply sp_LocalVariableDeclaration; try eassumption; try discriminate; reflexivity.
    - eapply sp_VariableDeclarator; try eassumption; try discriminate; reflexivity.
    - eapply sp_GenericType; try eassumption; try discriminate; reflexivity.
    - eapply sp_IfStatement; try eassumption; try discriminate; reflexivity.
    - eapply sp_ParenthesizedExpression; try eassumption; try discriminate; reflexivity.
    - exact (sp_ForInitOption m Vm Pm IHm).
    - eapply sp_ForStatement; try eassumption; try discriminate; reflexivity.
    - eapply sp_EnhancedForStatement; try eassumption; try discriminate; reflexivity.
    - eapply sp_UpdateExpression; try eassumption; try discriminate; reflexivity.
    - eapply sp_ScopedTypeIdentifier; try eassumption; try discriminate; reflexivity.
    - eapply sp_ConstructorDeclaration; try eassumption; try discriminate; reflexivity.
    - eapply sp_ConstructorBody; try eassumption; try discriminate; reflexivity.
    - eapply sp_ConstructInvocation; try eassumption; try discriminate; reflexivity.
    - eapply sp_TypeParameters; try eassumption; try discriminate; reflexivity.
    - eapply sp_TypeParameter; try eassumption; try discriminate; reflexivity.
    - eapply sp_ObjectCreationExpression; try eassumption; try discriminate; reflexivity.
    - eapply sp_RunAsStatement; try eassumption; try discriminate; reflexivity.
    - eapply sp_DoStatement; try eassumption; try discriminate; reflexivity.
    - eapply sp_WhileStatement; try eassumption; try discriminate; reflexivity.
    - eapply sp_UnaryExpression; try eassumption; try discriminate; reflexivity.
    - eapply sp_FieldAccess; try eassumption; try discriminate; reflexivity.
    - eapply sp_EnumDeclaration; try eassumption; try discriminate; reflexivity.
    - eapply sp_EnumBody; try eassumption; try discriminate; reflexivity.
    - eapply sp_EnumConstant; try eassumption; try discriminate; reflexivity.
    - eapply sp_DmlExpression; try eassumption; try discriminate; reflexivity.
    - eapply sp_DmlSecurityMode; try eassumption; try discriminate; reflexivity.
    - eapply sp_DmlType; try eassumption; try discriminate; reflexivity.
    - eapply sp_ArrayAccess; try eassumption; try discriminate; reflexivity.
    - eapply sp_ArrayCreationExpression; try eassumption; try discriminate; reflexivity.
    - eapply sp_DimensionsExpr; try eassumption; try discriminate; reflexivity.
    - eapply sp_ReturnStatement; try eassumption; try discriminate; reflexivity.
    - eapply sp_TernaryExpression; try eassumption; try discriminate; reflexivity.
    - eapply sp_TryStatement; try eassumption; try discriminate; reflexivity.
    - eapply sp_CatchClause; try eassumption; try discriminate; reflexivity.
    - eapply sp_FinallyClause; try eassumption; try discriminate; reflexivity.
    - eapply sp_StaticInitializer; try eassumption; try discriminate; reflexivity.
    - eapply sp_InterfaceDeclaration; try eassumption; try discriminate; reflexivity.
    - eapply sp_ExtendsInterface; try eassumption; try discriminate; reflexivity.
    - eapply sp_InterfaceBody; try eassumption; try discriminate; reflexivity.
    - eapply sp_InterfaceMember; try eassumption; try discriminate; reflexivity.
    - eapply sp_ConstantDeclaration; try eassumption; try discriminate; reflexivity.
    - eapply sp_AccessorList; try eassumption; try discriminate; reflexivity.
    - eapply sp_AccessorDeclaration; try eassumption; try discriminate; reflexivity.
    - eapply sp_CastExpression; try eassumption; try discriminate; reflexivity.
    - eapply sp_ThrowStatement; try eassumption; try discriminate; reflexivity.
    - eapply sp_BreakStatement; try eassumption; try discriminate; reflexivity.
    - eapply sp_ContinueStatement; try eassumption; try discriminate; reflexivity.
    - eapply sp_SwitchExpression; try eassumption; try discriminate; reflexivity.
    - eapply sp_SwitchBlock; try eassumption; try discriminate; reflexivity.
    - eapply sp_SwitchRule; try eassumption; try discriminate; reflexivity.
    - eapply sp_SwitchLabel; try eassumption; try discriminate; reflexivity.
    - eapply sp_WhenSObjectType; try eassumption; try discriminate; reflexivity.
    - eapply sp_InstanceOfExpression; try eassumption; try discriminate; reflexivity.
    - eapply sp_VersionExpression; try eassumption; try discriminate; reflexivity.
    - eapply sp_JavaFieldAccess; try eassumption; try discriminate; reflexivity.
    - eapply sp_JavaType; try eassumption; try discriminate; reflexivity.
    - eapply sp_ArrayType; try eassumption; try discriminate; reflexivity.
    - eapply sp_TriggerDeclaration; try eassumption; try discriminate; reflexivity.
    - eapply sp_TriggerEvent; try eassumption; try discriminate; reflexivity.
    - eapply sp_TriggerBody; try eassumption; try discriminate; reflexivity.
    - eapply sp_QueryExpression; try eassumption; try discriminate; reflexivity.
    - eapply sp_SoslQueryBody; try eassumption; try discriminate; reflexivity.
    - eapply sp_FindClause; try eassumption; try discriminate; reflexivity.
    - eapply sp_InClause; try eassumption; try discriminate; reflexivity.
    - eapply sp_ReturningClause; try eassumption; try discriminate; reflexivity.
    - eapply sp_SObjectReturn; try eassumption; try discriminate; reflexivity.
    - eapply sp_SoqlQueryBody; try eassumption; try discriminate; reflexivity.
    - eapply sp_FromClause; try eassumption; try discriminate; reflexivity.
    - eapply sp_StorageAlias; try eassumption; try discriminate; reflexivity.
    - eapply sp_LimitClause; try eassumption; try discriminate; reflexivity.
    - eapply sp_UpdateClause; try eassumption; try discriminate; reflexivity.
    - eapply sp_BoundApexExpression; try eassumption; try discriminate; reflexivity.
    - eapply sp_SoslUsingClause; try eassumption; try discriminate; reflexivity.
    - eapply sp_UsingClause; try eassumption; try discriminate; reflexivity.
    - eapply sp_UsingScopeClause; try eassumption; try discriminate; reflexivity.
    - eapply sp_UsingLookupClause; try eassumption; try discriminate; reflexivity.
    - eapply sp_UsingLookupBindClause; try eassumption; try discriminate; reflexivity.
    - eapply sp_UsingLookupBindExpression; try eassumption; try discriminate; reflexivity.
    - eapply sp_UsingListviewClause; try eassumption; try discriminate; reflexivity.
    - eapply sp_WhereClause; try eassumption; try discriminate; reflexivity.
    - eapply sp_HavingClause; try eassumption; try discriminate; reflexivity.
    - eapply sp_ComparisonExpression; try eassumption; try discriminate; reflexivity.
    - eapply sp_ComparableList; try eassumption; try discriminate; reflexivity.
    - eapply sp_OrderByClause; try eassumption; try discriminate; reflexivity.
    - eapply sp_OrderExpression; try eassumption; try discriminate; reflexivity.
    - eapply sp_SubQuery; try eassumption; try discriminate; reflexivity.
    - eapply sp_MapCreationExpression; try eassumption; try discriminate; reflexivity.
    - eapply sp_MapInitializer; try eassumption; try discriminate; reflexivity.
    - eapply sp_MapKeyInitializer; try eassumption; try discriminate; reflexivity.
    - eapply sp_GroupByClause; try eassumption; try discriminate; reflexivity.
    - eapply sp_SoslWithClause; try eassumption; try discriminate; reflexivity.
    - eapply sp_SoqlWithClause; try eassumption; try discriminate; reflexivity.
    - eapply sp_SoqlWithType; try eassumption; try discriminate; reflexivity.
    - eapply sp_SoslWithType; try eassumption; try discriminate; reflexivity.
    - eapply sp_WithDataCatExpression; try eassumption; try discriminate; reflexivity.
    - eapply sp_WithDataCatFilter; try eassumption; try discriminate; reflexivity.
    - eapply sp_WithDivisionExpression; try eassumption; try discriminate; reflexivity.
    - eapply sp_WithSnippetExpression; try eassumption; try discriminate; reflexivity.
    - eapply sp_WithNetworkExpression; try eassumption; try discriminate; reflexivity.
    - eapply sp_WithMetadataExpression; try eassumption; try discriminate; reflexivity.
    - eapply sp_WithSpellCorrectionExpression; try eassumption; try discriminate; reflexivity.
    - eapply sp_WithPriceBookExpression; try eassumption; try discriminate; reflexivity.
    - eapply sp_DottedIdentifier; try eassumption; try discriminate; reflexivity.
    - eapply sp_ExpressionStatement; try eassumption; try discriminate; reflexivity.
    - eapply sp_CountExpression; try eassumption; try discriminate; reflexivity.
    - eapply sp_FunctionExpression; try eassumption; try discriminate; reflexivity.
    - eapply sp_FieldIdentifier; try eassumption; try discriminate; reflexivity.
    - eapply sp_GeoLocationType; try eassumption; try discriminate; reflexivity.
    - eapply sp_SelectClause; try eassumption; try discriminate; reflexivity.
    - eapply sp_StorageIdentifier; try eassumption; try discriminate; reflexivity.
    - eapply sp_AndExpression; try eassumption; try discriminate; reflexivity.
    - eapply sp_OrExpression; try eassumption; try discriminate; reflexivity.
    - eapply sp_NotExpression; try eassumption; try discriminate; reflexivity.
    - eapply sp_ForClause; try eassumption; try discriminate; reflexivity.
    - eapply sp_BooleanExpression; try eassumption; try discriminate; reflexivity.
    - eapply sp_ConditionExpression; try eassumption; try discriminate; reflexivity.
    - eapply sp_UnannotatedType; try eassumption; try discriminate; reflexivity.
    - eapply sp_SimpleType; try eassumption; try discriminate; reflexivity.
    - eapply sp_VariableInitializer; try eassumption; try discriminate; reflexivity.
    - eapply sp_Expression; try eassumption; try discriminate; reflexivity.
    - eapply sp_PrimaryExpression; try eassumption; try discriminate; reflexivity.
    - eapply sp_ClassLiteral; try eassumption; try discriminate; reflexivity.
    - eapply sp_Statement; try eassumption; try discriminate; reflexivity.
    - eapply sp_Type_; try eassumption; try discriminate; reflexivity.
    - eapply sp_SelectableExpression; try eassumption; try discriminate; reflexivity.
    - eapply sp_FieldsExpression; try eassumption; try discriminate; reflexivity.
    - eapply sp_AliasExpression; try eassumption; try discriminate; reflexivity.
    - eapply sp_StorageVariant; try eassumption; try discriminate; reflexivity.
    - eapply sp_LimitValue; try eassumption; try discriminate; reflexivity.
    - eapply sp_ValueExpression; try eassumption; try discriminate; reflexivity.
    - eapply sp_SoqlLiteral; try eassumption; try discriminate; reflexivity.
    - eapply sp_SetValue; try eassumption; try discriminate; reflexivity.
    - eapply sp_ComparableListValue; try eassumption; try discriminate; reflexivity.
    - eapply sp_OffsetClause; try eassumption; try discriminate; reflexivity.
  Qed.
End Frame.
