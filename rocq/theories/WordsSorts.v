(* WordsSorts.v: no syntax type prints two words without a gap between them. *)
From Verif Require Import Base Doc DocBuilder Cst Comments Term SpecTree New ReadProofs NewProofs
  SpecTokens TokensProofs SpecWords WordsProofs WordsTerm.
Open Scope res_scope.
Local Open Scope string_scope.
Local Open Scope list_scope.

(* ------------------------------------------------------------ printing behind a word or not *)

(* [J e l e']: printed behind a word only if [e], the texts [l] neither touch it nor
   one another, and leave a word at the end only if [e']. *)
Definition J (e : bool) (l : list ustr) (e' : bool) : Prop :=
  forall b, leb b e -> firm b l = true /\ leb (WordsProofs.after b l) e'.
Definition J1 (e : bool) (x : dt) (e' : bool) : Prop := J e (texts x) e'.
Definition JD (e : bool) (l : list dt) (e' : bool) : Prop := J e (flat_map texts l) e'.

Lemma leb_true b : leb b true.
Proof. intro; reflexivity. Qed.
Lemma leb_trans a b c : leb a b -> leb b c -> leb a c.
Proof. unfold leb. auto. Qed.

Lemma J_nil e : J e [] e.
Proof. intros b L. split; [reflexivity|exact L]. Qed.
Lemma J_app e a m c e' : J e a m -> J m c e' -> J e (a ++ c) e'.
Proof.
  intros H1 H2 b L. destruct (H1 b L) as [F A]. destruct (H2 _ A) as [F2 A2].
  rewrite firm_app, after_app, F. split; assumption.
Qed.
Lemma J_weak e l e' a a' : J e l e' -> leb a e -> leb e' a' -> J a l a'.
Proof. intros H L1 L2 b L. destruct (H b (leb_trans _ _ _ L L1)) as [F A]. split; [exact F|eapply leb_trans; eauto]. Qed.
Lemma J_text e s : e && starts_word s = false -> J e [s] (match s with [] => e | _ => ends_word s end).
Proof.
  intros H b L. cbn [firm WordsProofs.after]. destruct s as [|c s]; [split; [reflexivity|exact L]|].
  split; [|apply leb_refl]. rewrite Bool.andb_true_r. apply Bool.negb_true_iff.
  destruct b; [|reflexivity]. rewrite (L eq_refl) in H. exact H.
Qed.
Lemma J_any s : J false [s] true.
Proof. eapply J_weak; [apply (J_text false s); reflexivity|apply leb_refl|apply leb_true]. Qed.
Lemma J_const e s m : e && starts_word s = false -> match s with [] => e | _ => ends_word s end = m -> J e [s] m.
Proof. intros H <-. apply J_text, H. Qed.
Lemma J_flat {A} (f : A -> list ustr) a c e l :
  Forall (fun x => J a (f x) c) l -> leb e a -> leb c a -> J e (flat_map f l) (e || c).
Proof.
  intros H L1 L2. assert (G : forall d, leb d a -> leb d (e || c) -> J d (flat_map f l) (e || c)).
  { induction H as [|x l Hx H IH]; intros d L L'; [cbn; eapply J_weak; [apply J_nil|apply leb_refl|exact L']|].
    cbn [flat_map]. eapply J_app; [eapply J_weak; [exact Hx|exact L|apply leb_refl]|]. apply IH; [exact L2|].
    intros ->. apply Bool.orb_true_r. }
  apply G; [exact L1|]. intros ->. reflexivity.
Qed.

Lemma JD_nil e : JD e [] e.
Proof. apply J_nil. Qed.
Lemma JD_cons e x m l e' : J1 e x m -> JD m l e' -> JD e (x :: l) e'.
Proof. apply J_app. Qed.
Lemma JD_app e a m c e' : JD e a m -> JD m c e' -> JD e (a ++ c) e'.
Proof. unfold JD. rewrite flat_map_app. apply J_app. Qed.
Lemma JD_list a c e l m : Forall (fun x => J1 a x c) l -> leb e a -> leb c a -> e || c = m -> JD e l m.
Proof. intros H L1 L2 <-. exact (J_flat texts a c e l H L1 L2). Qed.

Lemma J1_weak e x e' a a' : J1 e x e' -> leb a e -> leb e' a' -> J1 a x a'.
Proof. apply J_weak. Qed.
Lemma J1_up e x e' a' : J1 e x e' -> leb e' a' -> J1 e x a'.
Proof. intros H L. eapply J1_weak; [exact H|apply leb_refl|exact L]. Qed.
Lemma J1_const e s m : e && starts_word s = false -> match s with [] => e | _ => ends_word s end = m -> J1 e (TTxt s) m.
Proof. apply J_const. Qed.
Lemma J1_any s : J1 false (TTxt s) true.
Proof. apply J_any. Qed.
Lemma J1_spaced e s : J1 e (TTxt (c_sp :: s ++ [c_sp])) false.
Proof.
  apply J_const; [apply Bool.andb_false_r|]. unfold ends_word. cbn [rev]. rewrite rev_app_distr. reflexivity.
Qed.
Lemma J1_quoted e s : J1 e (TTxt (U "'" ++ s ++ U "'")) false.
Proof.
  apply J_const; [apply Bool.andb_false_r|]. change (U "'") with [39%N]. unfold ends_word. cbn [app rev].
  rewrite !rev_app_distr. reflexivity.
Qed.
Lemma J_gap e : J e gap false.
Proof. apply J_const; [apply Bool.andb_false_r|reflexivity]. Qed.
Lemma J1_nl e : J1 e NL false.
Proof. apply J_gap. Qed.
Lemma J1_sl e : J1 e SL false.
Proof. apply J_gap. Qed.
Lemma J1_ml e : J1 e ML e.
Proof. apply J_nil. Qed.
Lemma J1_emptyline e : J1 e TEmptyLine false.
Proof. eapply J_app; apply J_gap. Qed.
Lemma J1_concat e l e' : JD e l e' -> J1 e (TConcat l) e'.
Proof. exact (fun H => H). Qed.
Lemma J1_indent e x e' : J1 e x e' -> J1 e (TIndent x) e'.
Proof. exact (fun H => H). Qed.
Lemma J1_dedent e x e' : J1 e x e' -> J1 e (TDedent x) e'.
Proof. exact (fun H => H). Qed.
Lemma J1_group e x e' : J1 e x e' -> J1 e (TGroup x) e'.
Proof. exact (fun H => H). Qed.
Lemma J_punct e p : J e (sign_piece p) false.
Proof. destruct p as [[] id]; apply J_const; try apply Bool.andb_false_r; reflexivity. Qed.
Lemma J_opt_punct e (o : option punct) : J e (match o with Some p => sign_piece p | None => [] end) e.
Proof.
  destruct o as [p|]; [|apply J_nil]. eapply J_weak; [apply (J_punct e)|apply leb_refl|]. intro; discriminate.
Qed.
Lemma J1_punct e p : J1 e (TPunct p) false.
Proof. apply J_punct. Qed.
Lemma J1_node e h x body tail m e' : JD e body m -> JD m tail e' -> J1 e (TNode h x body tail) e'.
Proof.
  intros H1 H2. unfold J1. cbn [texts]. eapply J_app; [exact H1|]. eapply J_app; [|exact H2].
  destruct (prints_punct h); [apply J_opt_punct|apply J_nil].
Qed.
Lemma J1_nodeP e l body e' : JD e body e' -> J1 e (nodeP l body) e'.
Proof. intro H. eapply J1_node; [exact H|apply JD_nil]. Qed.

Definition loose (x : dt) : Prop := J1 false x true.
Lemma J_joined s l : l <> [] -> Forall loose l -> J true s false -> J false (joined s (map texts l)) true.
Proof.
  intros HN HF HS. destruct HF as [|x l Hx HF]; [exfalso; apply HN; reflexivity|]. cbn [map joined].
  eapply J_app; [exact Hx|]. clear HN Hx.
  assert (E : true = (true || true)%bool) by reflexivity. rewrite E at 2.
  apply (J_flat (fun y => s ++ y) true true true); [|apply leb_refl|apply leb_true].
  induction HF as [|y l Hy HF IH]; cbn [map]; constructor; [|exact IH]. eapply J_app; [exact HS|exact Hy].
Qed.
Lemma J_strung s l : Forall loose l -> J true s false -> J false (strung s (map texts l)) true.
Proof.
  intros HF HS. destruct l as [|x l]; [apply J_any|]. unfold strung. cbn [map].
  apply (J_joined s (x :: l)); [discriminate|assumption|assumption].
Qed.
Lemma J1_inter l sep : Forall loose l -> J true (ins_texts sep) false -> J1 false (TIntersperse l sep) true.
Proof. apply J_strung. Qed.
Lemma J1_surround e l sep o c m : Forall loose l -> J true (ins_texts sep) false ->
  J e (ins_texts o) false -> J true (ins_texts c) m -> J e (str_piece o ++ str_piece c) m ->
  J1 e (TSurround l sep o c) m.
Proof.
  intros HF HS HO HC HE. unfold J1. cbn [texts]. destruct l as [|x l]; [exact HE|].
  eapply J_app; [exact HO|]. eapply J_app; [|exact HC]. apply J_strung; assumption.
Qed.
Lemma J_members (ms : list (dt * bool)) : Forall (fun m => loose (fst m)) ms -> J false (texts (TMembers ms)) true.
Proof.
  cbn [texts]. induction 1 as [|[x tr] ms Hx HF IH]; [apply J_any|]. cbn [map member_texts].
  destruct (map _ ms) as [|p ps] eqn:E; [exact Hx|]. eapply J_app; [exact Hx|]. eapply J_app; [|exact IH].
  destruct tr; [eapply J_app|]; apply J_gap.
Qed.
Lemma J1_members ms : Forall (fun m => loose (fst m)) ms -> J1 false (TMembers ms) true.
Proof. apply J_members. Qed.
Lemma J1_smembers e ms : Forall (fun m => loose (fst m)) ms -> J1 e (TSurroundMembers ms (U "{") (U "}")) false.
Proof.
  intro HF. unfold J1. cbn [texts].
  eapply J_app; [apply J_const; [apply Bool.andb_false_r|reflexivity]|]. eapply J_app; [apply J_gap|].
  eapply (J_app _ _ false); [|apply J_const; reflexivity]. destruct ms; [apply J_nil|].
  eapply J_app; [apply J_members; exact HF|apply J_gap].
Qed.

(* ------------------------------------------------------------ the syntax types *)

(* Types that begin with a sign or a gap, or are empty. *)
Definition opens (s : sort) : bool :=
  match s with
  | FormalParameters | AnnotationArgumentList | ClassBody | ArrayInitializer | Block | TypeArguments
  | ArgumentList | ParenthesizedExpression | ConstructorBody | TypeParameters | EnumBody | DimensionsExpr
  | CatchClause | FinallyClause | ExtendsInterface | InterfaceBody | AccessorList | SwitchBlock
  | TriggerBody | QueryExpression | BoundApexExpression | ComparableList | SubQuery | MapInitializer => true
  | _ => false
  end.
(* Types that may end with a word. *)
Definition ends (s : sort) : bool :=
  match s with Modifiers | TypeParameters | TypeArguments | Annotation => false | _ => true end.
Definition plain_sort_ (s : sort) : bool := match s with ConstructInvocation => false | _ => true end.

(* What is needed of the tree: operators are signs, and a call of another
   constructor has no object. *)
Definition signlike (s : ustr) : Prop := starts_word s = false /\ ends_word s = false.
Definition signs_only (root : node) : Prop :=
  (forall n c, In n (all_nodes root) -> kind_in (n_kind n) ["unary_expression"; "update_expression"] = true ->
    In c (children n) -> n_field c = Some "operator" -> signlike (n_text c)) /\
  (forall n c, In n (all_nodes root) -> n_kind n = "explicit_constructor_invocation" ->
    In c (children n) -> n_field c <> Some "object").

Lemma bind_inv {A B} (m : res A) (f : A -> res B) x : rbind m f = Ok x -> exists a, m = Ok a /\ f a = Ok x.
Proof. destruct m as [a| |]; [exists a; auto|discriminate|discriminate]. Qed.
Lemma rmap_inv {A B} (f : A -> B) (m : res A) x : rmap f m = Ok x -> exists a, m = Ok a /\ x = f a.
Proof. destruct m as [a| |]; [|discriminate|discriminate]. intro H. injection H as <-. exists a. auto. Qed.
Lemma must_inv {A} w (o : option A) x : must w o = Ok x -> o = Some x.
Proof. destruct o; [|discriminate]. intro H. injection H as ->. reflexivity. Qed.

Lemma near_k k l c : try_c_by_k k l = Some c -> In c (kids l).
Proof. intro H. apply find_some in H as [H _]. apply filter_In in H. tauto. Qed.
Lemma near_n f l c : try_c_by_n f l = Some c -> In c (kids l).
Proof. intro H. apply find_some in H. tauto. Qed.
Lemma near_vec l c : In c (children_vec l) -> In c (kids l).
Proof. intro H. apply filter_In in H as [H _]. apply filter_In in H. tauto. Qed.
Lemma near_ks k l c : In c (try_cs_by_k k l) -> In c (kids l).
Proof. intro H. apply filter_In in H as [H _]. apply filter_In in H. tauto. Qed.
Lemma near_first l c : try_first_c l = Some c -> In c (kids l).
Proof. unfold try_first_c. intro H. apply near_vec. destruct (children_vec l); [discriminate|]. injection H as ->. left. reflexivity. Qed.
Lemma cs_k_inv k l cs : cs_by_k k l = Ok cs -> cs = try_cs_by_k k l.
Proof. unfold cs_by_k. destruct (try_cs_by_k k l); [discriminate|]. intro H. injection H as <-. reflexivity. Qed.
Lemma cs_n_inv f l cs : cs_by_n f l = Ok cs -> forall c, In c cs -> In c (kids l).
Proof.
  unfold cs_by_n. destruct (filter _ (kids l)) eqn:E; [discriminate|]. intro H. injection H as <-. intros c Hc.
  rewrite <- E in Hc. apply filter_In in Hc. tauto.
Qed.

Section Sorts.
  Variable root : node.
  Hypothesis sane : signs_only root.
  Variable cm : cmap.
  Variable checked : bool.
  Variable rec : sort -> loc -> res dt.
  Definition known (s : sort) (l : loc) : Prop :=
    pos root l /\ (s = ConstructInvocation -> is_kind "explicit_constructor_invocation" l = true).
  Definition JJ (s : sort) (x : dt) : Prop := J1 (opens s) x (ends s).
  Hypothesis IH : forall s l x, known s l -> rec s l = Ok x -> JJ s x.

  Lemma at_kid l c : pos root l -> In c (kids l) -> pos root c.
  Proof. apply Pos_kid. Qed.
  Lemma r_rec s l x : pos root l -> plain_sort_ s = true -> rec s l = Ok x -> JJ s x.
  Proof. intros P Hs. apply IH. split; [exact P|]. intros ->. discriminate. Qed.
  Lemma r_by_n f s l x : pos root l -> plain_sort_ s = true -> by_n rec f s l = Ok x -> JJ s x.
  Proof.
    intros P Hs H. unfold by_n in H. apply bind_inv in H as (c & E & H). apply must_inv, near_n in E.
    eapply r_rec; [eapply at_kid; eassumption|exact Hs|exact H].
  Qed.
  Lemma r_by_k k s l x : pos root l -> plain_sort_ s = true -> by_k rec k s l = Ok x -> JJ s x.
  Proof.
    intros P Hs H. unfold by_k in H. apply bind_inv in H as (c & E & H). apply must_inv, near_k in E.
    eapply r_rec; [eapply at_kid; eassumption|exact Hs|exact H].
  Qed.
  Lemma r_fst s l x : pos root l -> plain_sort_ s = true -> fst_c rec s l = Ok x -> JJ s x.
  Proof.
    intros P Hs H. unfold fst_c in H. apply bind_inv in H as (c & E & H). apply must_inv, near_first in E.
    eapply r_rec; [eapply at_kid; eassumption|exact Hs|exact H].
  Qed.
  Definition lone (s : sort) (ds : list dt) : Prop := ds = [] \/ exists d, ds = [d] /\ JJ s d.
  Lemma r_opt_k k s l ds : pos root l -> plain_sort_ s = true -> opt_k rec k s l = Ok ds -> lone s ds.
  Proof.
    intros P Hs H. unfold opt_k in H. destruct (try_c_by_k k l) as [c|] eqn:E.
    - apply bind_inv in H as (d & E2 & H). injection H as <-. right. exists d. split; [reflexivity|].
      apply near_k in E. eapply r_rec; [eapply at_kid; eassumption|exact Hs|exact E2].
    - injection H as <-. left. reflexivity.
  Qed.
  Lemma r_opt_n k s l ds : pos root l -> plain_sort_ s = true -> opt_n rec k s l = Ok ds -> lone s ds.
  Proof.
    intros P Hs H. unfold opt_n in H. destruct (try_c_by_n k l) as [c|] eqn:E.
    - apply bind_inv in H as (d & E2 & H). injection H as <-. right. exists d. split; [reflexivity|].
      apply near_n in E. eapply r_rec; [eapply at_kid; eassumption|exact Hs|exact E2].
    - injection H as <-. left. reflexivity.
  Qed.
  Lemma r_map s cs ds : (forall c, In c cs -> pos root c) -> plain_sort_ s = true ->
    mapR (rec s) cs = Ok ds -> Forall (JJ s) ds.
  Proof.
    intros P Hs. revert ds. induction cs as [|c cs IHc]; intros ds H; cbn [mapR] in H.
    - injection H as <-. constructor.
    - apply bind_inv in H as (d & E & H). apply bind_inv in H as (ds' & E' & H). injection H as <-. constructor.
      + eapply r_rec; eauto. apply P. left. reflexivity.
      + apply IHc; [|exact E']. intros x Hx. apply P. right. exact Hx.
  Qed.
  Lemma r_all_k k s l ds : pos root l -> plain_sort_ s = true -> all_k rec k s l = Ok ds -> Forall (JJ s) ds.
  Proof. intros P Hs. apply r_map; [|exact Hs]. intros c Hc. apply near_ks in Hc. eapply at_kid; eassumption. Qed.
  Lemma r_all1_k k s l ds : pos root l -> plain_sort_ s = true -> all1_k rec k s l = Ok ds -> Forall (JJ s) ds.
  Proof.
    intros P Hs H. unfold all1_k in H. apply bind_inv in H as (cs & E & H). apply cs_k_inv in E as ->.
    eapply r_map; [|exact Hs|exact H]. intros c Hc. apply near_ks in Hc. eapply at_kid; eassumption.
  Qed.
  Lemma r_all1_n f s l ds : pos root l -> plain_sort_ s = true -> all1_n rec f s l = Ok ds -> Forall (JJ s) ds.
  Proof.
    intros P Hs H. unfold all1_n in H. apply bind_inv in H as (cs & E & H).
    eapply r_map; [|exact Hs|exact H]. intros c Hc. pose proof (cs_n_inv _ _ _ E c Hc). eapply at_kid; eassumption.
  Qed.
  Lemma r_all_c s l ds : pos root l -> plain_sort_ s = true -> all_c rec s l = Ok ds -> Forall (JJ s) ds.
  Proof. intros P Hs. apply r_map; [|exact Hs]. intros c Hc. apply near_vec in Hc. eapply at_kid; eassumption. Qed.
  Lemma r_member s l d : pos root l -> plain_sort_ s = true -> body_member cm checked rec s l = Ok d -> JJ s (fst d).
  Proof.
    intros P Hs H. unfold body_member in H. apply bind_inv in H as (x & E & H). apply bind_inv in H as (tr & _ & H).
    injection H as <-. eapply r_rec; eauto.
  Qed.
  Lemma JJ_loose s x : JJ s x -> loose x.
  Proof. intro H. eapply J1_weak; [exact H|apply leb_false|apply leb_true]. Qed.
  Lemma r_members s cs ds : (forall c, In c cs -> pos root c) -> plain_sort_ s = true ->
    mapR (body_member cm checked rec s) cs = Ok ds -> Forall (fun m => loose (fst m)) ds.
  Proof.
    intros P Hs. revert ds. induction cs as [|c cs IHc]; intros ds H; cbn [mapR] in H.
    - injection H as <-. constructor.
    - apply bind_inv in H as (d & E & H). apply bind_inv in H as (ds' & E' & H). injection H as <-. constructor.
      + eapply JJ_loose, r_member; eauto. apply P. left. reflexivity.
      + apply IHc; [|exact E']. intros x Hx. apply P. right. exact Hx.
  Qed.
  Lemma r_members_vec s l ds : pos root l -> plain_sort_ s = true ->
    mapR (body_member cm checked rec s) (children_vec l) = Ok ds -> Forall (fun m => loose (fst m)) ds.
  Proof. intros P. apply r_members. intros c Hc. apply near_vec in Hc. eapply at_kid; eassumption. Qed.
  Lemma J1_vn l : J1 false (vn l) true.
  Proof. apply J1_nodeP. eapply JD_cons; [apply J1_any|apply JD_nil]. Qed.
  Lemma J1_vnl l : J1 false (vn_lower l) true.
  Proof. apply J1_nodeP. eapply JD_cons; [apply J1_any|apply JD_nil]. Qed.
  Lemma J1_vnu l : J1 false (vn_upper l) true.
  Proof. apply J1_nodeP. eapply JD_cons; [apply J1_any|apply JD_nil]. Qed.
  Lemma J1_hyp e s x m : JJ s x -> leb e (opens s) -> ends s = m -> J1 e x m.
  Proof. intros H L <-. eapply J1_weak; [exact H|exact L|apply leb_refl]. Qed.
  Lemma JJ_all s l : Forall (JJ s) l -> Forall loose l.
  Proof. apply Forall_impl. apply JJ_loose. Qed.

  Lemma J1_decls ds : Forall loose ds -> J1 false (declarators_doc ds) true.
  Proof.
    intro H. unfold declarators_doc. destruct ds as [|d [|d' ds]].
    - apply J1_group, J1_indent, (J1_inter [] sepSL); [constructor|apply J_gap].
    - inversion H; subst. assumption.
    - apply J1_group, J1_indent, J1_inter; [exact H|apply J_gap].
  Qed.
  Lemma next_pos l o c : In o (kids l) -> pos root l -> next_named o = Ok c -> pos root c.
  Proof. intros Ho P H. apply (next_named_in l) in H as [H _]; [|exact Ho]. eapply at_kid; eassumption. Qed.

  Ltac sort_fact E :=
    lazymatch type of E with
    | by_n _ _ _ _ = Ok _ => eapply r_by_n in E; [|eassumption|reflexivity]
    | by_k _ _ _ _ = Ok _ => eapply r_by_k in E; [|eassumption|reflexivity]
    | fst_c _ _ _ = Ok _ => eapply r_fst in E; [|eassumption|reflexivity]
    | opt_k _ _ _ _ = Ok _ => eapply r_opt_k in E; [|eassumption|reflexivity]; destruct E as [->|(? & -> & E)]
    | opt_n _ _ _ _ = Ok _ => eapply r_opt_n in E; [|eassumption|reflexivity]; destruct E as [->|(? & -> & E)]
    | all_k _ _ _ _ = Ok _ => eapply r_all_k in E; [|eassumption|reflexivity]
    | all1_k _ _ _ _ = Ok _ => eapply r_all1_k in E; [|eassumption|reflexivity]
    | all1_n _ _ _ _ = Ok _ => eapply r_all1_n in E; [|eassumption|reflexivity]
    | all_c _ _ _ = Ok _ => eapply r_all_c in E; [|eassumption|reflexivity]
    | mapR (body_member _ _ _ _) (children_vec _) = Ok _ => eapply r_members_vec in E; [|eassumption|reflexivity]
    | vn_n _ _ = Ok _ => apply rmap_inv in E as (? & _ & ->)
    | vn_k _ _ = Ok _ => apply rmap_inv in E as (? & _ & ->)
    | cvalue_by_n _ _ = Ok _ => apply rmap_inv in E as (? & E & ->); apply must_inv, near_n in E; try (apply at_kid in E; [|eassumption])
    | cvalue_by_k _ _ = Ok _ => apply rmap_inv in E as (? & E & ->); apply must_inv, near_k in E; try (apply at_kid in E; [|eassumption])
    | c_by_n _ _ = Ok _ => apply must_inv, near_n in E; try (apply at_kid in E; [|eassumption])
    | c_by_k _ _ = Ok _ => apply must_inv, near_k in E; try (apply at_kid in E; [|eassumption])
    | first_c _ = Ok _ => apply must_inv, near_first in E; try (apply at_kid in E; [|eassumption])
    | try_c_by_n _ _ = Some _ => apply near_n in E; try (apply at_kid in E; [|eassumption])
    | try_c_by_k _ _ = Some _ => apply near_k in E; try (apply at_kid in E; [|eassumption])
    | try_first_c _ = Some _ => apply near_first in E; try (apply at_kid in E; [|eassumption])
    | rec _ _ = Ok _ => try (eapply r_rec in E; [|eassumption|reflexivity])
    | _ => idtac
    end.
  Lemma r_comparison l x : pos root l -> get_comparsion rec l = Ok x -> J1 true x true.
  Proof.
    intros P H. unfold get_comparsion in H. destruct (try_c_by_k "value_comparison_operator" l) as [op|] eqn:E.
    - apply near_k in E. apply bind_inv in H as (nx & E1 & H). apply bind_inv in H as (v & E2 & H). injection H as <-.
      apply (next_pos l) in E1; [|exact E|exact P].
      eapply J1_concat, JD_cons; [|apply JD_nil]. eapply J1_concat, JD_cons; [apply J1_spaced|].
      eapply JD_cons; [|apply JD_nil]. eapply J1_concat, JD_cons; [|apply JD_nil].
      destruct (is_kind "bound_apex_expression" nx); (eapply r_rec in E2; [|exact E1|reflexivity]);
        exact (JJ_loose _ _ E2).
    - destruct (try_c_by_k "set_comparison_operator" l) as [op|] eqn:E0; [|discriminate]. clear E. rename E0 into E.
      apply near_k in E. apply bind_inv in H as (nx & E1 & H). apply bind_inv in H as (v & E2 & H). injection H as <-.
      apply (next_pos l) in E1; [|exact E|exact P].
      eapply J1_concat, JD_cons; [|apply JD_nil]. eapply J1_concat, JD_cons; [apply J1_spaced|].
      eapply JD_cons; [|apply JD_nil]. eapply r_rec in E2; [|exact E1|reflexivity]. exact (JJ_loose _ _ E2).
  Qed.

  Ltac split_new H :=
    lazymatch type of H with
    | rbind _ _ = Ok _ =>
        let a := fresh "v" in let E := fresh "E" in
        apply bind_inv in H as (a & E & H); split_new E; split_new H
    | wrap_r _ = Ok _ => let a := fresh "v" in unfold wrap_r in H; apply rmap_inv in H as (a & H & ->); split_new H
    | rmap _ _ = Ok _ => let a := fresh "v" in apply rmap_inv in H as (a & H & ->); split_new H
    | (if ?b then _ else _) = Ok _ => let Q := fresh "Q" in destruct b eqn:Q; split_new H
    | match ?o with Some _ => _ | None => _ end = Ok _ =>
        let Q := fresh "Q" in destruct o eqn:Q; [sort_fact Q|]; split_new H
    | Ok ?a = Ok ?b => injection H as H; subst
    | Panic _ = _ => discriminate H
    | unknown _ = _ => discriminate H
    | assert_check _ _ = _ => idtac
    | new_Dimensions _ = _ => unfold new_Dimensions in H; split_new H
    | new_This _ = _ => unfold new_This in H; split_new H
    | new_Super _ = _ => unfold new_Super in H; split_new H
    | new_BoolType _ = _ => unfold new_BoolType in H; split_new H
    | new_AllRowsClause _ = _ => unfold new_AllRowsClause in H; split_new H
    | new_SafeNavigationOperator _ = _ => unfold new_SafeNavigationOperator in H; split_new H
    | new_DateLiteralWithParam _ = _ => unfold new_DateLiteralWithParam in H; split_new H
    | new_Literal_ _ = _ => unfold new_Literal_ in H; split_new H
    | opt_dimensions_k _ = _ => unfold opt_dimensions_k in H; split_new H
    | get_comparsion _ _ = _ => eapply r_comparison in H; [|eassumption]
    | _ => sort_fact H
    end.

  Ltac lebs := first [apply leb_refl | apply leb_false | apply leb_true | assumption].
  Ltac jtext := vm_compute; reflexivity.
  Ltac jins := unfold ins_texts, str_piece, sepSL, sepNL, sepML, sepStr, mk_ins; cbn [t_pre t_str t_suf option_map opt_texts leaf_texts];
    repeat first [ eapply J_app; [first [apply J_nil | apply J_gap | apply J_const; jtext]|] | apply J_nil | apply J_gap | apply J_const; jtext ].
  Ltac j1 :=
    lazymatch goal with
    | |- J1 _ (if ?b then _ else _) _ => let Q := fresh in destruct b eqn:Q; j1
    | |- J1 _ (match ?o with _ => _ end) _ => destruct o; j1
    | |- J1 _ (nodeP _ _) _ => eapply J1_nodeP; jd
    | |- J1 _ (TNode _ _ _ _) _ => eapply J1_node; jd
    | |- J1 _ (TConcat _) _ => eapply J1_concat; jd
    | |- J1 _ (wrap _) _ => eapply J1_concat; jd
    | |- J1 _ (TIndent _) _ => eapply J1_indent; j1
    | |- J1 _ (TDedent _) _ => eapply J1_dedent; j1
    | |- J1 _ (TGroup _) _ => eapply J1_group; j1
    | |- J1 _ (gc _) _ => eapply J1_group, J1_concat; jd
    | |- J1 _ (gic _) _ => eapply J1_group, J1_indent, J1_concat; jd
    | |- J1 _ (gsur _ _ _ _) _ => unfold gsur; eapply J1_group; j1
    | |- J1 _ (gparen _) _ => unfold gparen, gsur; eapply J1_group; j1
    | |- J1 _ (surr _ _ _ _ _) _ => unfold surr; j1
    | |- J1 _ (TSurround _ _ _ _) _ => eapply J1_surround; [jl|jins|jins|jins|jins]
    | |- J1 _ (TIntersperse _ _) _ => apply J1_inter; [jl|jins]
    | |- J1 _ (TMembers _) _ => apply J1_members; assumption
    | |- J1 _ (TSurroundMembers _ _ _) _ => apply J1_smembers; assumption
    | |- J1 _ (declarators_doc _) _ => apply J1_decls; jl
    | |- J1 _ dot_navigation _ => unfold dot_navigation; j1
    | |- J1 _ (vn _) _ => apply J1_vn
    | |- J1 _ (vn_lower _) _ => apply J1_vnl
    | |- J1 _ (vn_upper _) _ => apply J1_vnu
    | |- J1 _ NL _ => apply J1_nl
    | |- J1 _ SL _ => apply J1_sl
    | |- J1 _ ML _ => apply J1_ml
    | |- J1 _ TEmptyLine _ => apply J1_emptyline
    | |- J1 _ (TPunct _) _ => apply J1_punct
    | |- J1 _ (TTxt (c_sp :: value _ ++ [c_sp])) _ => apply J1_spaced
    | |- J1 _ (TTxt (U "'" ++ _ ++ U "'")) _ => apply J1_quoted
    | |- J1 _ (TTxt (value _)) _ => apply J1_any
    | |- J1 _ (t (kind _)) _ => apply J1_any
    | |- J1 _ (TTxt (to_uppercase _ ++ _)) _ => apply J1_any
    | |- J1 _ (TTxt _) _ => apply J1_const; jtext
    | |- J1 _ (t _) _ => apply J1_const; jtext
    | |- J1 _ (t_ _) _ => apply J1_const; jtext
    | |- J1 _ (_t _) _ => apply J1_const; jtext
    | |- J1 _ (_t_ _) _ => apply J1_const; jtext
    | |- J1 _ sp _ => apply J1_const; jtext
    | |- J1 _ tnil _ => apply J1_const; jtext
    | |- J1 _ ?x _ => match goal with H : J1 true x true |- _ => eapply J1_weak; [exact H|lebs|apply leb_refl] | H : JJ _ x |- _ => eapply (J1_hyp _ _ _ _ H); [lebs|reflexivity] end
    end
  with jd :=
    lazymatch goal with
    | |- JD _ [] _ => apply JD_nil
    | |- JD _ (_ :: _) _ => eapply JD_cons; [j1|jd]
    | |- JD _ (_ ++ _) _ => eapply JD_app; [jd|jd]
    | |- JD _ (if ?b then _ else _) _ => let Q := fresh in destruct b eqn:Q; jd
    | |- JD _ (match ?o with _ => _ end) _ => destruct o; jd
    | |- JD _ (New.before _ _) _ => unfold New.before; cbn [is_nil]; jd
    | |- JD _ (New.after _ _) _ => unfold New.after; cbn [is_nil]; jd
    | |- JD _ ?l _ => match goal with H : Forall (JJ _) l |- _ => eapply (JD_list _ _ _ _ _ H); [lebs|lebs|reflexivity] end
    end
  with jl :=
    lazymatch goal with
    | |- Forall loose [] => constructor
    | |- Forall loose (_ :: _) => constructor; [jw|jl]
    | |- Forall loose (_ ++ _) => apply Forall_app; split; jl
    | |- Forall loose (if ?b then _ else _) => let Q := fresh in destruct b eqn:Q; jl
    | |- Forall loose (map vn _) => apply Forall_map, Forall_forall; intros; apply J1_vn
    | |- Forall loose ?l => match goal with H : Forall (JJ _) l |- _ => exact (JJ_all _ _ H) end
    end
  with jw := unfold loose; eapply J1_up; [j1|lebs].
  Ltac sort_done :=
    unfold opt_vn_k; repeat match goal with |- context [opt_list vn ?o] => destruct o; cbn [opt_list] end;
    unfold loop_body; repeat match goal with |- context [is_semicolumn ?b] => destruct (is_semicolumn b) end; cbn [is_nil orb andb app New.before New.after]; unfold JJ; cbn [opens ends];
    (eapply J1_up; [j1|lebs]).

  Lemma parent_pos l p : pos root l -> parent l = Some p -> pos root p.
  Proof. intros P H. destruct P as [|l c P Hc]; [discriminate|]. apply kids_parent in Hc. congruence. Qed.
  Lemma operator_sign l c : pos root l -> kind_in (kind l) ["unary_expression"; "update_expression"] = true ->
    c_by_n "operator" l = Ok c -> signlike (value c).
  Proof.
    intros P K H. apply must_inv in H. unfold try_c_by_n in H. apply find_some in H as [Hc Hf].
    apply (proj1 sane (l_node l)); [apply pos_node; exact P|exact K|apply kids_child; exact Hc|].
    unfold has_field in Hf. destruct (n_field (l_node c)) as [g|]; [|discriminate].
    apply String.eqb_eq in Hf. congruence.
  Qed.
  Lemma J1_sign e s : signlike s -> J1 e (TTxt s) (match s with [] => e | _ => false end).
  Proof. intros [H1 H2]. apply J1_const; [rewrite H1; apply Bool.andb_false_r|]. destruct s; [reflexivity|exact H2]. Qed.
  Lemma check_kind k l u : assert_check k l = Ok u -> kind l = k.
  Proof. unfold assert_check. destruct (is_kind k l) eqn:E; [|discriminate]. intros _. apply String.eqb_eq, E. Qed.
  Lemma Root_J l x : pos root l -> new_Root cm checked rec l = Ok x -> JJ Root x.
  Proof. intros P H. unfold new_Root in H. split_new H; sort_done. Qed.
  Lemma ClassDeclaration_J l x : pos root l -> new_ClassDeclaration rec l = Ok x -> JJ ClassDeclaration x.
  Proof. intros P H. unfold new_ClassDeclaration in H. split_new H; sort_done. Qed.
  Lemma MethodDeclaration_J l x : pos root l -> new_MethodDeclaration rec l = Ok x -> JJ MethodDeclaration x.
  Proof. intros P H. unfold new_MethodDeclaration in H. split_new H; sort_done. Qed.
  Lemma FormalParameters_J l x : pos root l -> new_FormalParameters rec l = Ok x -> JJ FormalParameters x.
  Proof. intros P H. unfold new_FormalParameters in H. split_new H; sort_done. Qed.
  Lemma FormalParameter_J l x : pos root l -> new_FormalParameter rec l = Ok x -> JJ FormalParameter x.
  Proof. intros P H. unfold new_FormalParameter in H. split_new H; sort_done. Qed.
  Lemma SuperClass_J l x : pos root l -> new_SuperClass rec l = Ok x -> JJ SuperClass x.
  Proof. intros P H. unfold new_SuperClass in H. split_new H; sort_done. Qed.
  Lemma Modifiers_J l x : pos root l -> new_Modifiers rec l = Ok x -> JJ Modifiers x.
  Proof. intros P H. unfold new_Modifiers in H. split_new H; sort_done. Qed.
  Lemma Modifier_J l x : pos root l -> new_Modifier l = Ok x -> JJ Modifier x.
  Proof. intros P H. unfold new_Modifier in H. split_new H; sort_done. Qed.
  Lemma Annotation_J l x : pos root l -> new_Annotation rec l = Ok x -> JJ Annotation x.
  Proof. intros P H. unfold new_Annotation in H. split_new H; sort_done. Qed.
  Lemma AnnotationArgumentList_J l x : pos root l -> new_AnnotationArgumentList rec l = Ok x -> JJ AnnotationArgumentList x.
  Proof. intros P H. unfold new_AnnotationArgumentList in H. split_new H; sort_done. Qed.
  Lemma AnnotationKeyValue_J l x : pos root l -> new_AnnotationKeyValue l = Ok x -> JJ AnnotationKeyValue x.
  Proof. intros P H. unfold new_AnnotationKeyValue in H. split_new H; sort_done. Qed.
  Lemma ClassBody_J l x : pos root l -> new_ClassBody cm checked rec l = Ok x -> JJ ClassBody x.
  Proof. intros P H. unfold new_ClassBody in H. split_new H; sort_done. Qed.
  Lemma FieldDeclaration_J l x : pos root l -> new_FieldDeclaration rec l = Ok x -> JJ FieldDeclaration x.
  Proof. intros P H. unfold new_FieldDeclaration in H. split_new H; sort_done. Qed.
  Lemma ArrayInitializer_J l x : pos root l -> new_ArrayInitializer rec l = Ok x -> JJ ArrayInitializer x.
  Proof. intros P H. unfold new_ArrayInitializer in H. split_new H; sort_done. Qed.
  Lemma AssignmentExpression_J l x : pos root l -> new_AssignmentExpression rec l = Ok x -> JJ AssignmentExpression x.
  Proof. intros P H. unfold new_AssignmentExpression in H. split_new H; sort_done. Qed.
  Lemma AssignmentLeft_J l x : pos root l -> new_AssignmentLeft rec l = Ok x -> JJ AssignmentLeft x.
  Proof. intros P H. unfold new_AssignmentLeft in H. split_new H; sort_done. Qed.
  Lemma Block_J l x : pos root l -> new_Block cm checked rec l = Ok x -> JJ Block x.
  Proof. intros P H. unfold new_Block in H. split_new H; sort_done. Qed.
  Lemma Interface__J l x : pos root l -> new_Interface rec l = Ok x -> JJ Interface_ x.
  Proof. intros P H. unfold new_Interface in H. split_new H; sort_done. Qed.
  Lemma TypeList_J l x : pos root l -> new_TypeList rec l = Ok x -> JJ TypeList x.
  Proof. intros P H. unfold new_TypeList in H. split_new H; sort_done. Qed.
  Lemma ObjectExpression_J l x : pos root l -> new_ObjectExpression rec l = Ok x -> JJ ObjectExpression x.
  Proof. intros P H. unfold new_ObjectExpression in H. split_new H; sort_done. Qed.
  Lemma MethodInvocation_J l x : pos root l -> new_MethodInvocation rec l = Ok x -> JJ MethodInvocation x.
  Proof. intros P H. unfold new_MethodInvocation in H. split_new H; sort_done. Qed.
  Lemma TypeArguments_J l x : pos root l -> new_TypeArguments rec l = Ok x -> JJ TypeArguments x.
  Proof. intros P H. unfold new_TypeArguments in H. split_new H; sort_done. Qed.
  Lemma ArgumentList_J l x : pos root l -> new_ArgumentList rec l = Ok x -> JJ ArgumentList x.
  Proof. intros P H. unfold new_ArgumentList in H. split_new H; sort_done. Qed.
  Lemma BinaryExpression_J l x : pos root l -> new_BinaryExpression rec l = Ok x -> JJ BinaryExpression x.
  Proof. intros P H. unfold new_BinaryExpression in H. split_new H; sort_done. Qed.
  Lemma LocalVariableDeclaration_J l x : pos root l -> new_LocalVariableDeclaration rec l = Ok x -> JJ LocalVariableDeclaration x.
  Proof. intros P H. unfold new_LocalVariableDeclaration in H. split_new H; sort_done. Qed.
  Lemma VariableDeclarator_J l x : pos root l -> new_VariableDeclarator rec l = Ok x -> JJ VariableDeclarator x.
  Proof. intros P H. unfold new_VariableDeclarator in H. split_new H; sort_done. Qed.
  Lemma GenericType_J l x : pos root l -> new_GenericType rec l = Ok x -> JJ GenericType x.
  Proof. intros P H. unfold new_GenericType in H. split_new H; sort_done. Qed.
  Lemma IfStatement_J l x : pos root l -> new_IfStatement rec l = Ok x -> JJ IfStatement x.
  Proof. intros P H. unfold new_IfStatement in H. split_new H; sort_done. Qed.
  Lemma ParenthesizedExpression_J l x : pos root l -> new_ParenthesizedExpression rec l = Ok x -> JJ ParenthesizedExpression x.
  Proof. intros P H. unfold new_ParenthesizedExpression in H. split_new H; sort_done. Qed.
  Lemma ForInitOption_J l x : pos root l -> new_ForInitOption rec l = Ok x -> JJ ForInitOption x.
  Proof.
    intros P H. unfold new_ForInitOption in H. destruct (is_kind _ l).
    - split_new H; sort_done.
    - apply bind_inv in H as (p & E & H). apply must_inv in E. apply parent_pos in E; [|exact P]. clear P.
      split_new H; sort_done.
  Qed.
  Lemma ForStatement_J l x : pos root l -> new_ForStatement rec l = Ok x -> JJ ForStatement x.
  Proof.
    intros P H. unfold new_ForStatement in H.
    apply bind_inv in H as (? & _ & H).
    apply bind_inv in H as (init & E1 & H). apply bind_inv in H as (cond & E2 & H). apply bind_inv in H as (upd & E3 & H).
    apply bind_inv in H as (ps & _ & H). destruct (Nat.ltb _ _); [discriminate|].
    apply bind_inv in H as (bn & E4 & H). apply bind_inv in H as (body & E5 & H).
    eapply r_opt_n in E1; [|exact P|reflexivity]. eapply r_opt_n in E2; [|exact P|reflexivity].
    eapply r_opt_n in E3; [|exact P|reflexivity]. sort_fact E4. sort_fact E5. apply JJ_loose in E5.
    assert (HT : forall d1 d2 d3, loose d1 -> (J1 true d2 true) -> (J1 true d3 true) ->
      JJ ForStatement (nodeP l ([t "for "; TGroup (surr [d1; d2; d3] sepML "(" LMaybe ")")] ++ loop_body bn body))).
    { intros d1 d2 d3 H1 H2 H3. apply J1_nodeP. eapply JD_app.
      - eapply JD_cons; [apply J1_const; jtext|]. eapply JD_cons; [|apply JD_nil]. apply J1_group. unfold surr, J1.
        cbn [texts map strung joined flat_map]. eapply J_app; [jins|]. eapply (J_app _ _ true); [|jins].
        eapply J_app; [exact H1|]. eapply J_app; [eapply J_app; [jins|exact H2]|].
        eapply J_app; [eapply J_app; [jins|exact H3]|apply J_nil].
      - unfold loop_body. destruct (is_semicolumn bn).
        + eapply JD_cons; [eapply J1_up; [apply J1_const; jtext|apply leb_false]|apply JD_nil].
        + eapply JD_cons; [apply J1_const; jtext|]. eapply JD_cons; [exact E5|apply JD_nil]. }
    assert (HN : forall ps d q, next_semicolon ps = (d, q) -> J1 true d true).
    { intros [|p q'] d q E; injection E as <- <-; [eapply J1_up; [apply J_nil|apply leb_refl]|].
      eapply J1_up; [apply J1_punct|apply leb_false]. }
    destruct (match init with [] => next_semicolon ps | i :: _ => (i, ps) end) as [d1 ps1] eqn:Q1.
    destruct (match cond with [] => next_semicolon ps1 | c :: _ => (TConcat [sp; c], ps1) end) as [d2 ps2] eqn:Q2.
    injection H as <-. apply HT.
    - destruct E1 as [->|(d & -> & E1)]; [|injection Q1 as <- <-; exact (JJ_loose _ _ E1)].
      eapply J1_weak; [exact (HN _ _ _ Q1)|apply leb_false|apply leb_refl].
    - destruct E2 as [->|(d & -> & E2)]; [exact (HN _ _ _ Q2)|]. injection Q2 as <- <-. apply J1_concat.
      eapply JD_cons; [apply J1_const; jtext|]. eapply JD_cons; [exact (JJ_loose _ _ E2)|apply JD_nil].
    - destruct E3 as [->|(d & -> & E3)]; [apply J1_const; jtext|]. apply J1_concat.
      eapply JD_cons; [apply J1_const; jtext|]. eapply JD_cons; [exact (JJ_loose _ _ E3)|apply JD_nil].
  Qed.
  Lemma EnhancedForStatement_J l x : pos root l -> new_EnhancedForStatement rec l = Ok x -> JJ EnhancedForStatement x.
  Proof. intros P H. unfold new_EnhancedForStatement in H. split_new H; sort_done. Qed.
  Lemma UpdateExpression_J l x : pos root l -> new_UpdateExpression rec l = Ok x -> JJ UpdateExpression x.
  Proof.
    intros P H. unfold new_UpdateExpression in H. apply bind_inv in H as (u & K & H). apply check_kind in K.
    apply bind_inv in H as (o & E & H). assert (S : signlike (value o)).
    { eapply operator_sign; [exact P| |exact E]. rewrite K. reflexivity. }
    clear K E. split_new H. unfold JJ. cbn [opens ends].
    pose proof (J1_sign false _ S) as S1. pose proof (J1_sign true _ S) as S2.
    apply J1_nodeP. eapply JD_cons; [|apply JD_nil]. apply J1_concat.
    match goal with H : JJ _ ?d |- _ => apply JJ_loose in H as D end.
    destruct (n_sbyte _ <? n_sbyte _)%N.
    - eapply JD_cons; [exact S1|]. eapply JD_cons; [|apply JD_nil]. eapply J1_weak; [exact D| |apply leb_refl].
      destruct (value o); apply leb_refl.
    - eapply JD_cons; [exact D|]. eapply JD_cons; [|apply JD_nil]. eapply J1_up; [exact S2|apply leb_true].
  Qed.
  Lemma ScopedTypeIdentifier_J l x : pos root l -> new_ScopedTypeIdentifier rec l = Ok x -> JJ ScopedTypeIdentifier x.
  Proof. intros P H. unfold new_ScopedTypeIdentifier in H. split_new H; sort_done. Qed.
  Lemma ConstructorDeclaration_J l x : pos root l -> new_ConstructorDeclaration rec l = Ok x -> JJ ConstructorDeclaration x.
  Proof. intros P H. unfold new_ConstructorDeclaration in H. split_new H; sort_done. Qed.
  Lemma ConstructorBody_J l x : pos root l -> new_ConstructorBody cm checked rec l = Ok x -> JJ ConstructorBody x.
  Proof.
    intros P H. unfold new_ConstructorBody in H.
    assert (PC : forall c, In c (children_vec l) -> pos root c).
    { intros c Hc. apply near_vec in Hc. eapply at_kid; eassumption. }
    apply bind_inv in H as (inv & E1 & H). apply bind_inv in H as (stmts & E2 & H). injection H as <-.
    assert (HS : Forall (fun m => loose (fst m)) stmts).
    { apply (r_members Statement) in E2; [exact E2| |reflexivity]. intros c Hc. destruct (children_vec l) as [|c0 cs]; [destruct Hc|].
      destruct (is_kind _ c0); apply PC; [right|]; exact Hc. }
    assert (HI : match inv with Some (d, _) => loose d | None => True end).
    { destruct (children_vec l) as [|c0 cs]; [injection E1 as <-; exact I|].
      destruct (is_kind _ c0) eqn:K; [|injection E1 as <-; exact I].
      apply rmap_inv in E1 as ([d tr] & E1 & ->). unfold body_member in E1.
      apply bind_inv in E1 as (d' & E1 & E3). apply bind_inv in E3 as (tr' & _ & E3). injection E3 as <- <-.
      apply IH in E1; [exact (JJ_loose _ _ E1)|]. split; [apply PC; left; reflexivity|intros _; exact K]. }
    unfold JJ. cbn [opens ends]. eapply J1_up; [|apply leb_refl]. eapply J1_node; [|apply JD_nil].
    destruct inv as [[d tr]|].
    - eapply JD_cons; [apply J1_const; jtext|]. eapply JD_app.
      + eapply JD_cons; [apply J1_indent, J1_concat; eapply JD_cons; [apply J1_nl|eapply JD_cons; [exact HI|apply JD_nil]]|].
        instantiate (1 := negb (is_nil stmts) && false || is_nil stmts). destruct stmts as [|m stmts]; cbn [is_nil].
        * apply JD_nil.
        * eapply JD_cons; [|apply JD_nil]. destruct tr; [apply J1_emptyline|apply J1_indent, J1_nl].
      + destruct stmts as [|m stmts]; cbn [is_nil negb andb orb].
        * eapply JD_cons; [apply J1_indent; instantiate (1 := true); unfold J1; cbn; apply J_const; reflexivity|].
          eapply JD_cons; [apply J1_nl|]. eapply JD_cons; [apply J1_const; jtext|]. eapply J_weak; [apply JD_nil|apply leb_refl|apply leb_false].
        * eapply JD_cons; [apply J1_indent, J1_members; exact HS|].
          eapply JD_cons; [apply J1_nl|]. eapply JD_cons; [apply J1_const; jtext|]. eapply J_weak; [apply JD_nil|apply leb_refl|apply leb_false].
    - destruct stmts as [|m stmts].
      + eapply JD_cons; [|apply JD_nil]. apply J1_concat. eapply JD_cons; [apply J1_const; jtext|].
        eapply JD_cons; [apply J1_nl|]. eapply JD_cons; [apply J1_const; jtext|]. eapply J_weak; [apply JD_nil|apply leb_refl|apply leb_false].
      + eapply JD_cons; [apply J1_const; jtext|]. eapply JD_cons; [apply J1_indent, J1_nl|].
        eapply JD_cons; [apply J1_indent, J1_members; exact HS|].
        eapply JD_cons; [apply J1_nl|]. eapply JD_cons; [apply J1_const; jtext|]. eapply J_weak; [apply JD_nil|apply leb_refl|apply leb_false].
  Qed.
  Lemma ConstructInvocation_J l x : is_kind "explicit_constructor_invocation" l = true -> pos root l ->
    new_ConstructInvocation rec l = Ok x -> JJ ConstructInvocation x.
  Proof.
    intros K P H. unfold new_ConstructInvocation in H. apply bind_inv in H as (obj & E & H).
    assert (O : obj = []).
    { unfold opt_n in E. destruct (try_c_by_n "object" l) as [c|] eqn:Q; [|congruence]. exfalso.
      unfold try_c_by_n in Q. apply find_some in Q as [Hc Hf].
      apply (proj2 sane (l_node l) (l_node c)); [apply pos_node; exact P|apply String.eqb_eq, K|apply kids_child; exact Hc|].
      unfold has_field in Hf. destruct (n_field (l_node c)) as [g|]; [|discriminate]. apply String.eqb_eq in Hf. congruence. }
    subst obj. clear E. split_new H; sort_done.
  Qed.
  Lemma TypeParameters_J l x : pos root l -> new_TypeParameters rec l = Ok x -> JJ TypeParameters x.
  Proof. intros P H. unfold new_TypeParameters in H. split_new H; sort_done. Qed.
  Lemma TypeParameter_J l x : pos root l -> new_TypeParameter rec l = Ok x -> JJ TypeParameter x.
  Proof. intros P H. unfold new_TypeParameter in H. split_new H; sort_done. Qed.
  Lemma ObjectCreationExpression_J l x : pos root l -> new_ObjectCreationExpression rec l = Ok x -> JJ ObjectCreationExpression x.
  Proof. intros P H. unfold new_ObjectCreationExpression in H. split_new H; sort_done. Qed.
  Lemma RunAsStatement_J l x : pos root l -> new_RunAsStatement rec l = Ok x -> JJ RunAsStatement x.
  Proof. intros P H. unfold new_RunAsStatement in H. split_new H; sort_done. Qed.
  Lemma DoStatement_J l x : pos root l -> new_DoStatement rec l = Ok x -> JJ DoStatement x.
  Proof. intros P H. unfold new_DoStatement in H. split_new H; sort_done. Qed.
  Lemma WhileStatement_J l x : pos root l -> new_WhileStatement rec l = Ok x -> JJ WhileStatement x.
  Proof. intros P H. unfold new_WhileStatement in H. split_new H; sort_done. Qed.
  Lemma UnaryExpression_J l x : pos root l -> new_UnaryExpression rec l = Ok x -> JJ UnaryExpression x.
  Proof.
    intros P H. unfold new_UnaryExpression in H. apply bind_inv in H as (u & K & H). apply check_kind in K.
    apply bind_inv in H as (o & E & H). apply rmap_inv in E as (c & E & ->). assert (S : signlike (value c)).
    { eapply operator_sign; [exact P| |exact E]. rewrite K. reflexivity. }
    clear K E. split_new H. unfold JJ. cbn [opens ends]. pose proof (J1_sign false _ S) as S1.
    match goal with H : JJ _ ?d |- _ => apply JJ_loose in H as D end.
    apply J1_nodeP. eapply JD_cons; [exact S1|]. eapply JD_cons; [|apply JD_nil]. eapply J1_weak; [exact D| |apply leb_refl].
    destruct (value c); apply leb_refl.
  Qed.
  Lemma FieldAccess_J l x : pos root l -> new_FieldAccess rec l = Ok x -> JJ FieldAccess x.
  Proof. intros P H. unfold new_FieldAccess in H. split_new H; sort_done. Qed.
  Lemma EnumDeclaration_J l x : pos root l -> new_EnumDeclaration rec l = Ok x -> JJ EnumDeclaration x.
  Proof. intros P H. unfold new_EnumDeclaration in H. split_new H; sort_done. Qed.
  Lemma EnumBody_J l x : pos root l -> new_EnumBody rec l = Ok x -> JJ EnumBody x.
  Proof. intros P H. unfold new_EnumBody in H. split_new H; sort_done. Qed.
  Lemma EnumConstant_J l x : pos root l -> new_EnumConstant rec l = Ok x -> JJ EnumConstant x.
  Proof. intros P H. unfold new_EnumConstant in H. split_new H; sort_done. Qed.
  Lemma DmlSecurityMode_J l x : pos root l -> new_DmlSecurityMode l = Ok x -> JJ DmlSecurityMode x.
  Proof. intros P H. unfold new_DmlSecurityMode in H. split_new H; sort_done. Qed.
  Lemma DmlType_J l x : pos root l -> new_DmlType l = Ok x -> JJ DmlType x.
  Proof. intros P H. unfold new_DmlType in H. split_new H; sort_done. Qed.
  Lemma DmlExpression_J l x : pos root l -> new_DmlExpression rec l = Ok x -> JJ DmlExpression x.
  Proof. intros P H. unfold new_DmlExpression in H. split_new H; sort_done. Qed.
  Lemma ArrayAccess_J l x : pos root l -> new_ArrayAccess rec l = Ok x -> JJ ArrayAccess x.
  Proof. intros P H. unfold new_ArrayAccess in H. split_new H; sort_done. Qed.
  Lemma ArrayCreationExpression_J l x : pos root l -> new_ArrayCreationExpression rec l = Ok x -> JJ ArrayCreationExpression x.
  Proof. intros P H. unfold new_ArrayCreationExpression in H. split_new H; sort_done. Qed.
  Lemma DimensionsExpr_J l x : pos root l -> new_DimensionsExpr rec l = Ok x -> JJ DimensionsExpr x.
  Proof. intros P H. unfold new_DimensionsExpr in H. split_new H; sort_done. Qed.
  Lemma ReturnStatement_J l x : pos root l -> new_ReturnStatement rec l = Ok x -> JJ ReturnStatement x.
  Proof. intros P H. unfold new_ReturnStatement in H. split_new H; sort_done. Qed.
  Lemma TernaryExpression_J l x : pos root l -> new_TernaryExpression rec l = Ok x -> JJ TernaryExpression x.
  Proof. intros P H. unfold new_TernaryExpression in H. split_new H; sort_done. Qed.
  Lemma TryStatement_J l x : pos root l -> new_TryStatement rec l = Ok x -> JJ TryStatement x.
  Proof. intros P H. unfold new_TryStatement in H. split_new H; sort_done. Qed.
  Lemma CatchClause_J l x : pos root l -> new_CatchClause rec l = Ok x -> JJ CatchClause x.
  Proof. intros P H. unfold new_CatchClause in H. split_new H; sort_done. Qed.
  Lemma FinallyClause_J l x : pos root l -> new_FinallyClause rec l = Ok x -> JJ FinallyClause x.
  Proof. intros P H. unfold new_FinallyClause in H. split_new H; sort_done. Qed.
  Lemma StaticInitializer_J l x : pos root l -> new_StaticInitializer rec l = Ok x -> JJ StaticInitializer x.
  Proof. intros P H. unfold new_StaticInitializer in H. split_new H; sort_done. Qed.
  Lemma InterfaceDeclaration_J l x : pos root l -> new_InterfaceDeclaration rec l = Ok x -> JJ InterfaceDeclaration x.
  Proof. intros P H. unfold new_InterfaceDeclaration in H. split_new H; sort_done. Qed.
  Lemma ExtendsInterface_J l x : pos root l -> new_ExtendsInterface rec l = Ok x -> JJ ExtendsInterface x.
  Proof. intros P H. unfold new_ExtendsInterface in H. split_new H; sort_done. Qed.
  Lemma InterfaceBody_J l x : pos root l -> new_InterfaceBody cm checked rec l = Ok x -> JJ InterfaceBody x.
  Proof. intros P H. unfold new_InterfaceBody in H. split_new H; sort_done. Qed.
  Lemma InterfaceMember_J l x : pos root l -> new_InterfaceMember rec l = Ok x -> JJ InterfaceMember x.
  Proof. intros P H. unfold new_InterfaceMember in H. split_new H; sort_done. Qed.
  Lemma ConstantDeclaration_J l x : pos root l -> new_ConstantDeclaration rec l = Ok x -> JJ ConstantDeclaration x.
  Proof. intros P H. unfold new_ConstantDeclaration in H. split_new H; sort_done. Qed.
  Lemma AccessorList_J l x : pos root l -> new_AccessorList rec l = Ok x -> JJ AccessorList x.
  Proof.
    intros P H. unfold new_AccessorList in H. apply bind_inv in H as (? & _ & H). apply bind_inv in H as (ns & E & H).
    apply cs_k_inv in E as ->. apply bind_inv in H as (ds & E & H). injection H as <-.
    apply r_map in E; [|intros c Hc; apply near_ks in Hc; eapply at_kid; eassumption|reflexivity].
    sort_done.
  Qed.
  Lemma AccessorDeclaration_J l x : pos root l -> new_AccessorDeclaration rec l = Ok x -> JJ AccessorDeclaration x.
  Proof. intros P H. unfold new_AccessorDeclaration in H. split_new H; sort_done. Qed.
  Lemma CastExpression_J l x : pos root l -> new_CastExpression rec l = Ok x -> JJ CastExpression x.
  Proof. intros P H. unfold new_CastExpression in H. split_new H; sort_done. Qed.
  Lemma ThrowStatement_J l x : pos root l -> new_ThrowStatement rec l = Ok x -> JJ ThrowStatement x.
  Proof. intros P H. unfold new_ThrowStatement in H. split_new H; sort_done. Qed.
  Lemma BreakStatement_J l x : pos root l -> new_BreakStatement l = Ok x -> JJ BreakStatement x.
  Proof. intros P H. unfold new_BreakStatement in H. split_new H; sort_done. Qed.
  Lemma ContinueStatement_J l x : pos root l -> new_ContinueStatement l = Ok x -> JJ ContinueStatement x.
  Proof. intros P H. unfold new_ContinueStatement in H. split_new H; sort_done. Qed.
  Lemma SwitchExpression_J l x : pos root l -> new_SwitchExpression rec l = Ok x -> JJ SwitchExpression x.
  Proof. intros P H. unfold new_SwitchExpression in H. split_new H; sort_done. Qed.
  Lemma SwitchBlock_J l x : pos root l -> new_SwitchBlock rec l = Ok x -> JJ SwitchBlock x.
  Proof. intros P H. unfold new_SwitchBlock in H. split_new H; sort_done. Qed.
  Lemma SwitchRule_J l x : pos root l -> new_SwitchRule rec l = Ok x -> JJ SwitchRule x.
  Proof. intros P H. unfold new_SwitchRule in H. split_new H; sort_done. Qed.
  Lemma SwitchLabel_J l x : pos root l -> new_SwitchLabel rec l = Ok x -> JJ SwitchLabel x.
  Proof. intros P H. unfold new_SwitchLabel in H. split_new H; sort_done. Qed.
  Lemma WhenSObjectType_J l x : pos root l -> new_WhenSObjectType rec l = Ok x -> JJ WhenSObjectType x.
  Proof.
    intros P H. unfold new_WhenSObjectType in H. apply bind_inv in H as (tys & E & H).
    apply r_map in E; [|intros c Hc; apply filter_In in Hc as [Hc _]; apply near_vec in Hc; eapply at_kid; eassumption|reflexivity].
    apply bind_inv in H as (ty & E1 & H). apply must_inv in E1. apply bind_inv in H as (idn & _ & H). injection H as <-.
    assert (T : JJ UnannotatedType ty).
    { rewrite Forall_forall in E. apply E. apply in_rev. destruct (rev tys); [discriminate|]. injection E1 as ->. left. reflexivity. }
    sort_done.
  Qed.
  Lemma InstanceOfExpression_J l x : pos root l -> new_InstanceOfExpression rec l = Ok x -> JJ InstanceOfExpression x.
  Proof. intros P H. unfold new_InstanceOfExpression in H. split_new H; sort_done. Qed.
  Lemma VersionExpression_J l x : pos root l -> new_VersionExpression l = Ok x -> JJ VersionExpression x.
  Proof. intros P H. unfold new_VersionExpression in H. split_new H; sort_done. Qed.
  Lemma JavaFieldAccess_J l x : pos root l -> new_JavaFieldAccess rec l = Ok x -> JJ JavaFieldAccess x.
  Proof. intros P H. unfold new_JavaFieldAccess in H. split_new H; sort_done. Qed.
  Lemma JavaType_J l x : pos root l -> new_JavaType rec l = Ok x -> JJ JavaType x.
  Proof. intros P H. unfold new_JavaType in H. split_new H; sort_done. Qed.
  Lemma ArrayType_J l x : pos root l -> new_ArrayType rec l = Ok x -> JJ ArrayType x.
  Proof. intros P H. unfold new_ArrayType in H. split_new H; sort_done. Qed.
  Lemma TriggerDeclaration_J l x : pos root l -> new_TriggerDeclaration rec l = Ok x -> JJ TriggerDeclaration x.
  Proof. intros P H. unfold new_TriggerDeclaration in H. split_new H; sort_done. Qed.
  Lemma TriggerEvent_J l x : pos root l -> new_TriggerEvent l = Ok x -> JJ TriggerEvent x.
  Proof. intros P H. unfold new_TriggerEvent in H. split_new H; sort_done. Qed.
  Lemma TriggerBody_J l x : pos root l -> new_TriggerBody rec l = Ok x -> JJ TriggerBody x.
  Proof. intros P H. unfold new_TriggerBody in H. split_new H; sort_done. Qed.
  Lemma QueryExpression_J l x : pos root l -> new_QueryExpression rec l = Ok x -> JJ QueryExpression x.
  Proof. intros P H. unfold new_QueryExpression in H. split_new H; sort_done. Qed.
  Lemma SoslQueryBody_J l x : pos root l -> new_SoslQueryBody rec l = Ok x -> JJ SoslQueryBody x.
  Proof. intros P H. unfold new_SoslQueryBody in H. split_new H; sort_done. Qed.
  Lemma FindClause_J l x : pos root l -> new_FindClause rec l = Ok x -> JJ FindClause x.
  Proof. intros P H. unfold new_FindClause in H. split_new H; sort_done. Qed.
  Lemma InClause_J l x : pos root l -> new_InClause l = Ok x -> JJ InClause x.
  Proof. intros P H. unfold new_InClause in H. split_new H; sort_done. Qed.
  Lemma ReturningClause_J l x : pos root l -> new_ReturningClause rec l = Ok x -> JJ ReturningClause x.
  Proof. intros P H. unfold new_ReturningClause in H. split_new H; sort_done. Qed.
  Lemma SObjectReturn_J l x : pos root l -> new_SObjectReturn rec l = Ok x -> JJ SObjectReturn x.
  Proof. intros P H. unfold new_SObjectReturn in H. split_new H; sort_done. Qed.
  Lemma SoqlQueryBody_J l x : pos root l -> new_SoqlQueryBody rec l = Ok x -> JJ SoqlQueryBody x.
  Proof. intros P H. unfold new_SoqlQueryBody in H. split_new H; sort_done. Qed.
  Lemma FromClause_J l x : pos root l -> new_FromClause rec l = Ok x -> JJ FromClause x.
  Proof. intros P H. unfold new_FromClause in H. split_new H; sort_done. Qed.
  Lemma StorageAlias_J l x : pos root l -> new_StorageAlias rec l = Ok x -> JJ StorageAlias x.
  Proof. intros P H. unfold new_StorageAlias in H. split_new H; sort_done. Qed.
  Lemma LimitClause_J l x : pos root l -> new_LimitClause rec l = Ok x -> JJ LimitClause x.
  Proof. intros P H. unfold new_LimitClause in H. split_new H; sort_done. Qed.
  Lemma UpdateClause_J l x : pos root l -> new_UpdateClause l = Ok x -> JJ UpdateClause x.
  Proof. intros P H. unfold new_UpdateClause in H. split_new H; sort_done. Qed.
  Lemma BoundApexExpression_J l x : pos root l -> new_BoundApexExpression rec l = Ok x -> JJ BoundApexExpression x.
  Proof. intros P H. unfold new_BoundApexExpression in H. split_new H; sort_done. Qed.
  Lemma SoslUsingClause_J l x : pos root l -> new_SoslUsingClause l = Ok x -> JJ SoslUsingClause x.
  Proof. intros P H. unfold new_SoslUsingClause in H. split_new H; sort_done. Qed.
  Lemma UsingClause_J l x : pos root l -> new_UsingClause rec l = Ok x -> JJ UsingClause x.
  Proof. intros P H. unfold new_UsingClause in H. split_new H; sort_done. Qed.
  Lemma UsingScopeClause_J l x : pos root l -> new_UsingScopeClause l = Ok x -> JJ UsingScopeClause x.
  Proof. intros P H. unfold new_UsingScopeClause in H. split_new H; sort_done. Qed.
  Lemma UsingLookupClause_J l x : pos root l -> new_UsingLookupClause rec l = Ok x -> JJ UsingLookupClause x.
  Proof. intros P H. unfold new_UsingLookupClause in H. split_new H; sort_done. Qed.
  Lemma UsingListviewClause_J l x : pos root l -> new_UsingListviewClause l = Ok x -> JJ UsingListviewClause x.
  Proof. intros P H. unfold new_UsingListviewClause in H. split_new H; sort_done. Qed.
  Lemma UsingLookupBindClause_J l x : pos root l -> new_UsingLookupBindClause rec l = Ok x -> JJ UsingLookupBindClause x.
  Proof. intros P H. unfold new_UsingLookupBindClause in H. split_new H; sort_done. Qed.
  Lemma UsingLookupBindExpression_J l x : pos root l -> new_UsingLookupBindExpression rec l = Ok x -> JJ UsingLookupBindExpression x.
  Proof. intros P H. unfold new_UsingLookupBindExpression in H. split_new H; sort_done. Qed.
  Lemma WhereClause_J l x : pos root l -> new_WhereClause rec l = Ok x -> JJ WhereClause x.
  Proof. intros P H. unfold new_WhereClause in H. split_new H; sort_done. Qed.
  Lemma HavingClause_J l x : pos root l -> new_HavingClause rec l = Ok x -> JJ HavingClause x.
  Proof. intros P H. unfold new_HavingClause in H. split_new H; sort_done. Qed.
  Lemma ComparisonExpression_J l x : pos root l -> new_ComparisonExpression rec l = Ok x -> JJ ComparisonExpression x.
  Proof. intros P H. unfold new_ComparisonExpression in H. split_new H; sort_done. Qed.
  Lemma ComparableList_J l x : pos root l -> new_ComparableList rec l = Ok x -> JJ ComparableList x.
  Proof. intros P H. unfold new_ComparableList in H. split_new H; sort_done. Qed.
  Lemma OrderByClause_J l x : pos root l -> new_OrderByClause rec l = Ok x -> JJ OrderByClause x.
  Proof. intros P H. unfold new_OrderByClause in H. split_new H; sort_done. Qed.
  Lemma OrderExpression_J l x : pos root l -> new_OrderExpression rec l = Ok x -> JJ OrderExpression x.
  Proof. intros P H. unfold new_OrderExpression in H. split_new H; sort_done. Qed.
  Lemma SubQuery_J l x : pos root l -> new_SubQuery rec l = Ok x -> JJ SubQuery x.
  Proof. intros P H. unfold new_SubQuery in H. split_new H; sort_done. Qed.
  Lemma MapCreationExpression_J l x : pos root l -> new_MapCreationExpression rec l = Ok x -> JJ MapCreationExpression x.
  Proof. intros P H. unfold new_MapCreationExpression in H. split_new H; sort_done. Qed.
  Lemma MapInitializer_J l x : pos root l -> new_MapInitializer rec l = Ok x -> JJ MapInitializer x.
  Proof. intros P H. unfold new_MapInitializer in H. split_new H; sort_done. Qed.
  Lemma MapKeyInitializer_J l x : pos root l -> new_MapKeyInitializer rec l = Ok x -> JJ MapKeyInitializer x.
  Proof.
    intros P H. unfold new_MapKeyInitializer in H. apply bind_inv in H as (? & _ & H).
    assert (PC : forall c, In c (children_vec l) -> pos root c).
    { intros c Hc. apply near_vec in Hc. eapply at_kid; eassumption. }
    destruct (children_vec l) as [|a [|b [|]]]; try discriminate.
    pose proof (PC a (or_introl eq_refl)) as PA. pose proof (PC b (or_intror (or_introl eq_refl))) as PB.
    apply bind_inv in H as (y & E1 & H). apply bind_inv in H as (z & E2 & H). injection H as <-.
    eapply r_rec in E1; [|exact PA|reflexivity]. eapply r_rec in E2; [|exact PB|reflexivity]. sort_done.
  Qed.
  Lemma GroupByClause_J l x : pos root l -> new_GroupByClause rec l = Ok x -> JJ GroupByClause x.
  Proof.
    intros P H. unfold new_GroupByClause in H. apply bind_inv in H as (? & _ & H). apply bind_inv in H as (items & E & H).
    injection H as <-.
    assert (HI : Forall (fun i : dt + dt => loose match i with inl d | inr d => d end) items).
    { assert (PC : forall c, In c (children_vec l) -> pos root c).
      { intros c Hc. apply near_vec in Hc. eapply at_kid; eassumption. }
      revert items E. induction (children_vec l) as [|c cs IHc]; intros items E; cbn [mapR] in E.
      - injection E as <-. constructor.
      - apply bind_inv in E as (d & E & E2). apply bind_inv in E2 as (ds & E2 & E3). injection E3 as <-. constructor.
        + pose proof (PC c (or_introl eq_refl)) as Pc. unfold group_by_item in E.
          destruct (is_kind "field_identifier" c).
          { apply bind_inv in E as (d' & E & H). injection H as <-. eapply r_rec in E; [|exact Pc|reflexivity].
            apply J1_concat. eapply JD_cons; [exact (JJ_loose _ _ E)|apply JD_nil]. }
          destruct (is_kind "function_expression" c).
          { apply bind_inv in E as (d' & E & H). injection H as <-. eapply r_rec in E; [|exact Pc|reflexivity].
            apply J1_concat. eapply JD_cons; [exact (JJ_loose _ _ E)|apply JD_nil]. }
          destruct (is_kind "having_clause" c); [|discriminate].
          apply bind_inv in E as (d' & E & H). injection H as <-. eapply r_rec in E; [|exact Pc|reflexivity].
          exact (JJ_loose _ _ E).
        + apply IHc; [|exact E2]. intros y Hy. apply PC. right. exact Hy. }
    assert (HL : Forall loose (lefts items)).
    { apply Forall_flat_map. eapply Forall_impl; [|exact HI]. intros [d|d] Hd; [constructor; [exact Hd|constructor]|constructor]. }
    assert (HR : Forall loose (rights items)).
    { apply Forall_flat_map. eapply Forall_impl; [|exact HI]. intros [d|d] Hd; [constructor|constructor; [exact Hd|constructor]]. }
    apply J1_nodeP. eapply JD_cons; [apply J1_const; jtext|]. eapply JD_cons; [apply J1_inter; [exact HL|jins]|].
    cbn [app]. destruct (rev (rights items)) as [|h r] eqn:R; [apply JD_nil|].
    eapply JD_cons; [apply J1_sl|]. eapply JD_cons; [|apply JD_nil]. rewrite Forall_forall in HR. apply HR.
    apply in_rev. rewrite R. left. reflexivity.
  Qed.
  Lemma SoslWithClause_J l x : pos root l -> new_SoslWithClause rec l = Ok x -> JJ SoslWithClause x.
  Proof. intros P H. unfold new_SoslWithClause in H. split_new H; sort_done. Qed.
  Lemma SoqlWithClause_J l x : pos root l -> new_SoqlWithClause rec l = Ok x -> JJ SoqlWithClause x.
  Proof. intros P H. unfold new_SoqlWithClause in H. split_new H; sort_done. Qed.
  Lemma SoqlWithType_J l x : pos root l -> new_SoqlWithType l = Ok x -> JJ SoqlWithType x.
  Proof. intros P H. unfold new_SoqlWithType in H. split_new H; sort_done. Qed.
  Lemma SoslWithType_J l x : pos root l -> new_SoslWithType rec l = Ok x -> JJ SoslWithType x.
  Proof. intros P H. unfold new_SoslWithType in H. split_new H; sort_done. Qed.
  Lemma WithDataCatExpression_J l x : pos root l -> new_WithDataCatExpression rec l = Ok x -> JJ WithDataCatExpression x.
  Proof. intros P H. unfold new_WithDataCatExpression in H. split_new H; sort_done. Qed.
  Lemma WithDataCatFilter_J l x : pos root l -> new_WithDataCatFilter l = Ok x -> JJ WithDataCatFilter x.
  Proof.
    intros P H. unfold new_WithDataCatFilter in H. apply bind_inv in H as (? & _ & H). apply bind_inv in H as (ids & _ & H).
    destruct ids as [|a [|b r]]; try discriminate. apply bind_inv in H as (ft & E & H). apply rmap_inv in E as (c & _ & ->).
    injection H as <-. destruct r as [|d r]; unfold JJ; cbn [opens ends]; (eapply J1_up; [j1|lebs]).
  Qed.
  Lemma WithDivisionExpression_J l x : pos root l -> new_WithDivisionExpression rec l = Ok x -> JJ WithDivisionExpression x.
  Proof. intros P H. unfold new_WithDivisionExpression in H. split_new H; sort_done. Qed.
  Lemma WithSnippetExpression_J l x : pos root l -> new_WithSnippetExpression l = Ok x -> JJ WithSnippetExpression x.
  Proof. intros P H. unfold new_WithSnippetExpression in H. split_new H; sort_done. Qed.
  Lemma WithNetworkExpression_J l x : pos root l -> new_WithNetworkExpression rec l = Ok x -> JJ WithNetworkExpression x.
  Proof. intros P H. unfold new_WithNetworkExpression in H. split_new H; sort_done. Qed.
  Lemma WithMetadataExpression_J l x : pos root l -> new_WithMetadataExpression l = Ok x -> JJ WithMetadataExpression x.
  Proof. intros P H. unfold new_WithMetadataExpression in H. split_new H; sort_done. Qed.
  Lemma WithSpellCorrectionExpression_J l x : pos root l -> new_WithSpellCorrectionExpression l = Ok x -> JJ WithSpellCorrectionExpression x.
  Proof. intros P H. unfold new_WithSpellCorrectionExpression in H. split_new H; sort_done. Qed.
  Lemma WithPriceBookExpression_J l x : pos root l -> new_WithPriceBookExpression l = Ok x -> JJ WithPriceBookExpression x.
  Proof. intros P H. unfold new_WithPriceBookExpression in H. split_new H; sort_done. Qed.
  Lemma DottedIdentifier_J l x : pos root l -> new_DottedIdentifier l = Ok x -> JJ DottedIdentifier x.
  Proof. intros P H. unfold new_DottedIdentifier in H. split_new H; sort_done. Qed.
  Lemma ExpressionStatement_J l x : pos root l -> new_ExpressionStatement rec l = Ok x -> JJ ExpressionStatement x.
  Proof. intros P H. unfold new_ExpressionStatement in H. split_new H; sort_done. Qed.
  Lemma CountExpression_J l x : pos root l -> new_CountExpression l = Ok x -> JJ CountExpression x.
  Proof. intros P H. unfold new_CountExpression in H. split_new H; sort_done. Qed.
  Lemma FunctionExpression_J l x : pos root l -> new_FunctionExpression rec l = Ok x -> JJ FunctionExpression x.
  Proof.
    intros P H. unfold new_FunctionExpression in H. apply bind_inv in H as (? & _ & H).
    apply bind_inv in H as (f & E & H). apply rmap_inv in E as (c & _ & ->). apply bind_inv in H as (v & E & H).
    injection H as <-. destruct (try_c_by_k "geo_location_type" l).
    - split_new E; sort_done.
    - apply bind_inv in E as (vs & E & H). injection H as <-.
      apply r_map in E; [|intros y Hy; assert (In y (children_vec l)) by (destruct (children_vec l); [destruct Hy|right; exact Hy]);
        eapply at_kid; [exact P|apply near_vec; assumption]|reflexivity].
      sort_done.
  Qed.
  Lemma FieldIdentifier_J l x : pos root l -> new_FieldIdentifier rec l = Ok x -> JJ FieldIdentifier x.
  Proof. intros P H. unfold new_FieldIdentifier in H. split_new H; sort_done. Qed.
  Lemma GeoLocationType_J l x : pos root l -> new_GeoLocationType rec l = Ok x -> JJ GeoLocationType x.
  Proof.
    intros P H. unfold new_GeoLocationType in H. apply bind_inv in H as (? & _ & H). apply bind_inv in H as (c & Ec & H).
    apply bind_inv in H as (v & E & H). injection H as <-. sort_fact Ec.
    destruct (is_kind "field_identifier" c); [split_new E; sort_done|].
    destruct (is_kind "bound_apex_expression" c); [split_new E; sort_done|].
    destruct (is_kind "identifier" c); [|discriminate]. apply bind_inv in E as (ds & _ & E).
    destruct ds as [|d1 [|d2 [|]]]; try discriminate. injection E as <-. sort_done.
  Qed.
  Lemma SelectClause_J l x : pos root l -> new_SelectClause rec l = Ok x -> JJ SelectClause x.
  Proof. intros P H. unfold new_SelectClause in H. split_new H; sort_done. Qed.
  Lemma StorageIdentifier_J l x : pos root l -> new_StorageIdentifier l = Ok x -> JJ StorageIdentifier x.
  Proof. intros P H. unfold new_StorageIdentifier in H. split_new H; sort_done. Qed.
  Lemma AndExpression_J l x : pos root l -> new_AndExpression rec l = Ok x -> JJ AndExpression x.
  Proof. intros P H. unfold new_AndExpression in H. split_new H; sort_done. Qed.
  Lemma OrExpression_J l x : pos root l -> new_OrExpression rec l = Ok x -> JJ OrExpression x.
  Proof. intros P H. unfold new_OrExpression in H. split_new H; sort_done. Qed.
  Lemma NotExpression_J l x : pos root l -> new_NotExpression rec l = Ok x -> JJ NotExpression x.
  Proof. intros P H. unfold new_NotExpression in H. split_new H; sort_done. Qed.
  Lemma ForClause_J l x : pos root l -> new_ForClause l = Ok x -> JJ ForClause x.
  Proof. intros P H. unfold new_ForClause in H. split_new H; sort_done. Qed.
  Lemma RootMember_J l x : pos root l -> new_RootMember rec l = Ok x -> JJ RootMember x.
  Proof. intros P H. unfold new_RootMember in H. split_new H; sort_done. Qed.
  Lemma ClassMember_J l x : pos root l -> new_ClassMember rec l = Ok x -> JJ ClassMember x.
  Proof. intros P H. unfold new_ClassMember in H. split_new H; sort_done. Qed.
  Lemma UnannotatedType_J l x : pos root l -> new_UnannotatedType rec l = Ok x -> JJ UnannotatedType x.
  Proof. intros P H. unfold new_UnannotatedType in H. split_new H; sort_done. Qed.
  Lemma SimpleType_J l x : pos root l -> new_SimpleType rec l = Ok x -> JJ SimpleType x.
  Proof. intros P H. unfold new_SimpleType in H. split_new H; sort_done. Qed.
  Lemma VariableInitializer_J l x : pos root l -> new_VariableInitializer rec l = Ok x -> JJ VariableInitializer x.
  Proof. intros P H. unfold new_VariableInitializer in H. split_new H; sort_done. Qed.
  Lemma Expression_J l x : pos root l -> new_Expression rec l = Ok x -> JJ Expression x.
  Proof. intros P H. unfold new_Expression in H. split_new H; sort_done. Qed.
  Lemma PrimaryExpression_J l x : pos root l -> new_PrimaryExpression rec l = Ok x -> JJ PrimaryExpression x.
  Proof. intros P H. unfold new_PrimaryExpression in H. split_new H; sort_done. Qed.
  Lemma ClassLiteral_J l x : pos root l -> new_ClassLiteral rec l = Ok x -> JJ ClassLiteral x.
  Proof. intros P H. unfold new_ClassLiteral in H. split_new H; sort_done. Qed.
  Lemma Statement_J l x : pos root l -> new_Statement rec l = Ok x -> JJ Statement x.
  Proof. intros P H. unfold new_Statement in H. split_new H; sort_done. Qed.
  Lemma Type__J l x : pos root l -> new_Type rec l = Ok x -> JJ Type_ x.
  Proof. intros P H. unfold new_Type in H. split_new H; sort_done. Qed.
  Lemma ValueExpression_J l x : pos root l -> new_ValueExpression rec l = Ok x -> JJ ValueExpression x.
  Proof. intros P H. unfold new_ValueExpression in H. split_new H; sort_done. Qed.
  Lemma SelectableExpression_J l x : pos root l -> new_SelectableExpression rec l = Ok x -> JJ SelectableExpression x.
  Proof. intros P H. unfold new_SelectableExpression in H. split_new H; sort_done. Qed.
  Lemma FieldsExpression_J l x : pos root l -> new_FieldsExpression l = Ok x -> JJ FieldsExpression x.
  Proof. intros P H. unfold new_FieldsExpression in H. split_new H; sort_done. Qed.
  Lemma AliasExpression_J l x : pos root l -> new_AliasExpression rec l = Ok x -> JJ AliasExpression x.
  Proof. intros P H. unfold new_AliasExpression in H. split_new H; sort_done. Qed.
  Lemma StorageVariant_J l x : pos root l -> new_StorageVariant rec l = Ok x -> JJ StorageVariant x.
  Proof. intros P H. unfold new_StorageVariant in H. split_new H; sort_done. Qed.
  Lemma LimitValue_J l x : pos root l -> new_LimitValue rec l = Ok x -> JJ LimitValue x.
  Proof. intros P H. unfold new_LimitValue in H. split_new H; sort_done. Qed.
  Lemma SoqlLiteral_J l x : pos root l -> new_SoqlLiteral l = Ok x -> JJ SoqlLiteral x.
  Proof. intros P H. unfold new_SoqlLiteral in H. split_new H; sort_done. Qed.
  Lemma SetValue_J l x : pos root l -> new_SetValue rec l = Ok x -> JJ SetValue x.
  Proof. intros P H. unfold new_SetValue in H. split_new H; sort_done. Qed.
  Lemma ComparableListValue_J l x : pos root l -> new_ComparableListValue rec l = Ok x -> JJ ComparableListValue x.
  Proof. intros P H. unfold new_ComparableListValue in H. split_new H; sort_done. Qed.
  Lemma OffsetClause_J l x : pos root l -> new_OffsetClause rec l = Ok x -> JJ OffsetClause x.
  Proof. intros P H. unfold new_OffsetClause in H. split_new H; sort_done. Qed.
  Lemma BooleanExpression_J p l x : pos root l -> new_BooleanExpression rec p l = Ok x -> JJ (BooleanExpression p) x.
  Proof. intros P H. unfold new_BooleanExpression in H. split_new H; sort_done. Qed.
  Lemma ConditionExpression_J p l x : pos root l -> new_ConditionExpression rec p l = Ok x -> JJ (ConditionExpression p) x.
  Proof.
    intros P H. unfold new_ConditionExpression in H. destruct (is_kind _ l).
    - eapply r_rec in H; [|exact P|reflexivity]. exact H.
    - apply bind_inv in H as (d & E & H). eapply r_rec in E; [|exact P|reflexivity].
      destruct (should_parenthesize _ _); injection H as <-; [|exact E].
      unfold JJ; cbn [opens ends]; (eapply J1_up; [j1|lebs]).
  Qed.

  Theorem step_firm s l x : known s l -> new_step cm checked rec s l = Ok x -> JJ s x.
  Proof.
    intros [P K] H. destruct s; cbn [new_step] in H.
    all: try (exact (Root_J l x P H)).
    all: try (exact (ClassDeclaration_J l x P H)).
    all: try (exact (MethodDeclaration_J l x P H)).
    all: try (exact (FormalParameters_J l x P H)).
    all: try (exact (FormalParameter_J l x P H)).
    all: try (exact (SuperClass_J l x P H)).
    all: try (exact (Modifiers_J l x P H)).
    all: try (exact (Modifier_J l x P H)).
    all: try (exact (Annotation_J l x P H)).
    all: try (exact (AnnotationArgumentList_J l x P H)).
    all: try (exact (AnnotationKeyValue_J l x P H)).
    all: try (exact (ClassBody_J l x P H)).
    all: try (exact (FieldDeclaration_J l x P H)).
    all: try (exact (ArrayInitializer_J l x P H)).
    all: try (exact (AssignmentExpression_J l x P H)).
    all: try (exact (AssignmentLeft_J l x P H)).
    all: try (exact (Block_J l x P H)).
    all: try (exact (Interface__J l x P H)).
    all: try (exact (TypeList_J l x P H)).
    all: try (exact (ObjectExpression_J l x P H)).
    all: try (exact (MethodInvocation_J l x P H)).
    all: try (exact (TypeArguments_J l x P H)).
    all: try (exact (ArgumentList_J l x P H)).
    all: try (exact (BinaryExpression_J l x P H)).
    all: try (exact (LocalVariableDeclaration_J l x P H)).
    all: try (exact (VariableDeclarator_J l x P H)).
    all: try (exact (GenericType_J l x P H)).
    all: try (exact (IfStatement_J l x P H)).
    all: try (exact (ParenthesizedExpression_J l x P H)).
    all: try (exact (ForInitOption_J l x P H)).
    all: try (exact (ForStatement_J l x P H)).
    all: try (exact (EnhancedForStatement_J l x P H)).
    all: try (exact (UpdateExpression_J l x P H)).
    all: try (exact (ScopedTypeIdentifier_J l x P H)).
    all: try (exact (ConstructorDeclaration_J l x P H)).
    all: try (exact (ConstructorBody_J l x P H)).
    all: try (eapply ConstructInvocation_J; [apply K; reflexivity|exact P|exact H]).
    all: try (exact (TypeParameters_J l x P H)).
    all: try (exact (TypeParameter_J l x P H)).
    all: try (exact (ObjectCreationExpression_J l x P H)).
    all: try (exact (RunAsStatement_J l x P H)).
    all: try (exact (DoStatement_J l x P H)).
    all: try (exact (WhileStatement_J l x P H)).
    all: try (exact (UnaryExpression_J l x P H)).
    all: try (exact (FieldAccess_J l x P H)).
    all: try (exact (EnumDeclaration_J l x P H)).
    all: try (exact (EnumBody_J l x P H)).
    all: try (exact (EnumConstant_J l x P H)).
    all: try (exact (DmlSecurityMode_J l x P H)).
    all: try (exact (DmlType_J l x P H)).
    all: try (exact (DmlExpression_J l x P H)).
    all: try (exact (ArrayAccess_J l x P H)).
    all: try (exact (ArrayCreationExpression_J l x P H)).
    all: try (exact (DimensionsExpr_J l x P H)).
    all: try (exact (ReturnStatement_J l x P H)).
    all: try (exact (TernaryExpression_J l x P H)).
    all: try (exact (TryStatement_J l x P H)).
    all: try (exact (CatchClause_J l x P H)).
    all: try (exact (FinallyClause_J l x P H)).
    all: try (exact (StaticInitializer_J l x P H)).
    all: try (exact (InterfaceDeclaration_J l x P H)).
    all: try (exact (ExtendsInterface_J l x P H)).
    all: try (exact (InterfaceBody_J l x P H)).
    all: try (exact (InterfaceMember_J l x P H)).
    all: try (exact (ConstantDeclaration_J l x P H)).
    all: try (exact (AccessorList_J l x P H)).
    all: try (exact (AccessorDeclaration_J l x P H)).
    all: try (exact (CastExpression_J l x P H)).
    all: try (exact (ThrowStatement_J l x P H)).
    all: try (exact (BreakStatement_J l x P H)).
    all: try (exact (ContinueStatement_J l x P H)).
    all: try (exact (SwitchExpression_J l x P H)).
    all: try (exact (SwitchBlock_J l x P H)).
    all: try (exact (SwitchRule_J l x P H)).
    all: try (exact (SwitchLabel_J l x P H)).
    all: try (exact (WhenSObjectType_J l x P H)).
    all: try (exact (InstanceOfExpression_J l x P H)).
    all: try (exact (VersionExpression_J l x P H)).
    all: try (exact (JavaFieldAccess_J l x P H)).
    all: try (exact (JavaType_J l x P H)).
    all: try (exact (ArrayType_J l x P H)).
    all: try (exact (TriggerDeclaration_J l x P H)).
    all: try (exact (TriggerEvent_J l x P H)).
    all: try (exact (TriggerBody_J l x P H)).
    all: try (exact (QueryExpression_J l x P H)).
    all: try (exact (SoslQueryBody_J l x P H)).
    all: try (exact (FindClause_J l x P H)).
    all: try (exact (InClause_J l x P H)).
    all: try (exact (ReturningClause_J l x P H)).
    all: try (exact (SObjectReturn_J l x P H)).
    all: try (exact (SoqlQueryBody_J l x P H)).
    all: try (exact (FromClause_J l x P H)).
    all: try (exact (StorageAlias_J l x P H)).
    all: try (exact (LimitClause_J l x P H)).
    all: try (exact (UpdateClause_J l x P H)).
    all: try (exact (BoundApexExpression_J l x P H)).
    all: try (exact (SoslUsingClause_J l x P H)).
    all: try (exact (UsingClause_J l x P H)).
    all: try (exact (UsingScopeClause_J l x P H)).
    all: try (exact (UsingLookupClause_J l x P H)).
    all: try (exact (UsingListviewClause_J l x P H)).
    all: try (exact (UsingLookupBindClause_J l x P H)).
    all: try (exact (UsingLookupBindExpression_J l x P H)).
    all: try (exact (WhereClause_J l x P H)).
    all: try (exact (HavingClause_J l x P H)).
    all: try (exact (ComparisonExpression_J l x P H)).
    all: try (exact (ComparableList_J l x P H)).
    all: try (exact (OrderByClause_J l x P H)).
    all: try (exact (OrderExpression_J l x P H)).
    all: try (exact (SubQuery_J l x P H)).
    all: try (exact (MapCreationExpression_J l x P H)).
    all: try (exact (MapInitializer_J l x P H)).
    all: try (exact (MapKeyInitializer_J l x P H)).
    all: try (exact (GroupByClause_J l x P H)).
    all: try (exact (SoslWithClause_J l x P H)).
    all: try (exact (SoqlWithClause_J l x P H)).
    all: try (exact (SoqlWithType_J l x P H)).
    all: try (exact (SoslWithType_J l x P H)).
    all: try (exact (WithDataCatExpression_J l x P H)).
    all: try (exact (WithDataCatFilter_J l x P H)).
    all: try (exact (WithDivisionExpression_J l x P H)).
    all: try (exact (WithSnippetExpression_J l x P H)).
    all: try (exact (WithNetworkExpression_J l x P H)).
    all: try (exact (WithMetadataExpression_J l x P H)).
    all: try (exact (WithSpellCorrectionExpression_J l x P H)).
    all: try (exact (WithPriceBookExpression_J l x P H)).
    all: try (exact (DottedIdentifier_J l x P H)).
    all: try (exact (ExpressionStatement_J l x P H)).
    all: try (exact (CountExpression_J l x P H)).
    all: try (exact (FunctionExpression_J l x P H)).
    all: try (exact (FieldIdentifier_J l x P H)).
    all: try (exact (GeoLocationType_J l x P H)).
    all: try (exact (SelectClause_J l x P H)).
    all: try (exact (StorageIdentifier_J l x P H)).
    all: try (exact (AndExpression_J l x P H)).
    all: try (exact (OrExpression_J l x P H)).
    all: try (exact (NotExpression_J l x P H)).
    all: try (exact (ForClause_J l x P H)).
    all: try (exact (RootMember_J l x P H)).
    all: try (exact (ClassMember_J l x P H)).
    all: try (exact (UnannotatedType_J l x P H)).
    all: try (exact (SimpleType_J l x P H)).
    all: try (exact (VariableInitializer_J l x P H)).
    all: try (exact (Expression_J l x P H)).
    all: try (exact (PrimaryExpression_J l x P H)).
    all: try (exact (ClassLiteral_J l x P H)).
    all: try (exact (Statement_J l x P H)).
    all: try (exact (Type__J l x P H)).
    all: try (exact (ValueExpression_J l x P H)).
    all: try (exact (SelectableExpression_J l x P H)).
    all: try (exact (FieldsExpression_J l x P H)).
    all: try (exact (AliasExpression_J l x P H)).
    all: try (exact (StorageVariant_J l x P H)).
    all: try (exact (LimitValue_J l x P H)).
    all: try (exact (SoqlLiteral_J l x P H)).
    all: try (exact (SetValue_J l x P H)).
    all: try (exact (ComparableListValue_J l x P H)).
    all: try (exact (OffsetClause_J l x P H)).
    - exact (BooleanExpression_J _ l x P H).
    - exact (ConditionExpression_J _ l x P H).
  Qed.
End Sorts.

Lemma new_firm root cm checked fuel : signs_only root ->
  forall s l x, known root s l -> new cm checked fuel s l = Ok x -> JJ s x.
Proof.
  intro S. induction fuel as [|k IH]; intros s l x K H; [discriminate|].
  exact (step_firm root S cm checked (new cm checked k) IH s l x K H).
Qed.
