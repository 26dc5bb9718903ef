(* TermProofs.v: what executing builder calls (Term.run) guarantees about the
   document, by induction over the calls. *)
From Verif Require Import Base Doc DocBuilder SpecDoc DocProofs DocProofs2 Cst Comments Term.

Section DtInd.
  Variable P : dt -> Prop.
  Hypothesis HTxt : forall s, P (TTxt s).
  Hypothesis HLeaf : forall l, P (TLeaf l).
  Hypothesis HEmpty : P TEmptyLine.
  Hypothesis HConcat : forall l, Forall P l -> P (TConcat l).
  Hypothesis HIndent : forall x, P x -> P (TIndent x).
  Hypothesis HDedent : forall x, P x -> P (TDedent x).
  Hypothesis HGroup : forall x, P x -> P (TGroup x).
  Hypothesis HInter : forall l s, Forall P l -> P (TIntersperse l s).
  Hypothesis HSurr : forall l s o c, Forall P l -> P (TSurround l s o c).
  Hypothesis HMem : forall ms, Forall (fun m => P (fst m)) ms -> P (TMembers ms).
  Hypothesis HSMem : forall ms o c, Forall (fun m => P (fst m)) ms -> P (TSurroundMembers ms o c).
  Hypothesis HNode : forall h x body tail, Forall P body -> Forall P tail -> P (TNode h x body tail).
  Hypothesis HPunct : forall p, P (TPunct p).
  Hypothesis HPanic : forall y, P (TPanic y).
  Fixpoint dt_nested_ind (t : dt) : P t :=
    let go := fix go (l : list dt) : Forall P l :=
      match l with [] => Forall_nil P | x :: r => Forall_cons x (dt_nested_ind x) (go r) end in
    let gom := fix gom (l : list (dt * bool)) : Forall (fun m => P (fst m)) l :=
      match l with
      | [] => Forall_nil _
      | (x, b) :: r => @Forall_cons _ (fun m : dt * bool => P (fst m)) (x, b) r (dt_nested_ind x) (gom r)
      end in
    match t with
    | TTxt s => HTxt s
    | TLeaf l => HLeaf l
    | TEmptyLine => HEmpty
    | TConcat l => HConcat l (go l)
    | TIndent x => HIndent x (dt_nested_ind x)
    | TDedent x => HDedent x (dt_nested_ind x)
    | TGroup x => HGroup x (dt_nested_ind x)
    | TIntersperse l s => HInter l s (go l)
    | TSurround l s o c => HSurr l s o c (go l)
    | TMembers ms => HMem ms (gom ms)
    | TSurroundMembers ms o c => HSMem ms o c (gom ms)
    | TNode h x b t => HNode h x b t (go b) (go t)
    | TPunct p => HPunct p
    | TPanic y => HPanic y
    end.
End DtInd.

(* ------------------------------------------------------------ inversion of M *)

Lemma mbind_ok {A B} (m : M A) (f : A -> M B) b w :
  mbind m f = Ok (b, w) -> exists a w1 w2, m = Ok (a, w1) /\ f a = Ok (b, w2) /\ w = w1 ++ w2.
Proof.
  unfold mbind. destruct m as [[a w1]| |]; try discriminate.
  destruct (f a) as [[b' w2]| |] eqn:E; try discriminate.
  intro H; injection H as <- <-. eauto 6.
Qed.
Lemma mmap_ok {A B} (f : A -> B) (m : M A) b w :
  mmap f m = Ok (b, w) -> exists a, m = Ok (a, w) /\ b = f a.
Proof.
  unfold mmap. intro H. apply mbind_ok in H as (a & w1 & w2 & H1 & H2 & ->).
  injection H2 as <- <-. rewrite app_nil_r. eauto.
Qed.
Lemma lift_ok {A} (m : res A) a w : lift m = Ok (a, w) -> m = Ok a /\ w = [].
Proof. unfold lift, rbind. destruct m; try discriminate. intro H; injection H as <- <-. auto. Qed.
Lemma mark_ok {A} (a a' : A) cs w : mark a cs = Ok (a', w) -> a' = a /\ w = cs.
Proof. unfold mark. intro H; injection H as <- <-. auto. Qed.
Lemma ret_ok {A} (a a' : A) w : ret a = Ok (a', w) -> a' = a /\ w = [].
Proof. unfold ret. intro H; injection H as <- <-. auto. Qed.

Ltac minv :=
  repeat match goal with
  | H : mbind _ _ = Ok (_, _) |- _ => apply mbind_ok in H as (? & ? & ? & ? & ? & ?); subst
  | H : mmap _ _ = Ok (_, _) |- _ => apply mmap_ok in H as (? & ? & ?); subst
  | H : lift _ = Ok (_, _) |- _ => apply lift_ok in H as (? & ?); subst
  | H : mark _ _ = Ok (_, _) |- _ => apply mark_ok in H as (? & ?); subst
  | H : ret _ = Ok (_, _) |- _ => apply ret_ok in H as (? & ?); subst
  end.

(* A predicate on results, extended to lists run in sequence. *)
Lemma mapM_forall {A B} (f : A -> M B) (Q : B -> list comment -> Prop) l :
  Forall (fun x => forall y w, f x = Ok (y, w) -> Q y w) l ->
  forall ys w, mapM f l = Ok (ys, w) ->
  exists ws, w = List.concat ws /\ Forall2 Q ys ws.
Proof.
  induction 1 as [|x l Hx Hl IH]; intros ys w H; simpl in H; minv.
  - exists []. auto.
  - destruct (IH _ _ ltac:(eassumption)) as (ws & -> & HF).
    match goal with H : f x = Ok (?y, ?w1) |- _ => exists (w1 :: ws) end.
    rewrite app_nil_r. split; [reflexivity|]. constructor; auto.
Qed.

Lemma mapM_all {A B} (f : A -> M B) (Q : B -> Prop) l :
  Forall (fun x => forall y w, f x = Ok (y, w) -> Q y) l ->
  forall ys w, mapM f l = Ok (ys, w) -> Forall Q ys.
Proof.
  induction 1 as [|x l Hx Hl IH]; intros ys w H; simpl in H; minv; constructor; eauto.
Qed.

Lemma seqM_ok l ds w : seqM l = Ok (ds, w) ->
  exists dss, mapM (fun m => m) l = Ok (dss, w) /\ ds = List.concat dss.
Proof. unfold seqM. intro H. minv. eauto. Qed.

Lemma seqM_pred (Q : doc -> Prop) l ds w :
  seqM l = Ok (ds, w) ->
  Forall (fun m : M (list doc) => forall y v, m = Ok (y, v) -> Forall Q y) l -> Forall Q ds.
Proof.
  intros H HF. apply seqM_ok in H as (dss & H & ->).
  apply (mapM_all (fun m => m) (Forall Q)) in H; [|exact HF].
  induction H; simpl; [constructor|]. apply Forall_app; auto.
Qed.

(* ------------------------------------------------------------ predicates *)

Lemma Forall_opt {A B} (Q : B -> Prop) (f : A -> B) o :
  (forall x, o = Some x -> Q (f x)) -> Forall Q (opt_list f o).
Proof. destruct o; simpl; auto. Qed.

Section Pred.
  Variable P : doc -> Prop.       (* the invariant *)
  Variable T : ustr -> Prop.      (* the texts it covers *)
  Variable b : pretty_config.
  Hypothesis P_txt : forall s, T s -> P (txt s).
  Hypothesis P_newline : P Newline.
  Hypothesis P_noindent : P NewlineNoIndent.
  Hypothesis P_force : P ForceBreak.
  Hypothesis P_soft : P Softline.
  Hypothesis P_maybe : P Maybeline.
  Hypothesis P_concat : forall l, Forall P l -> P (Concat l).
  Hypothesis P_indent : forall d, P d -> P (Indent (indent_size b) d).
  Hypothesis P_dedent : forall d, P d -> P (Dedent (indent_size b) d).
  Hypothesis P_group : forall d, P d -> P (group d).
  Hypothesis T_fixed : T [] /\ T [c_sp] /\ T (U "{") /\ T (U "}") /\ T (U ",") /\ T (U ";").

  Definition T_opt (o : option ustr) : Prop := match o with Some s => T s | None => True end.
  Definition T_ins (i : tins) : Prop := T_opt (t_str i).
  Fixpoint T_dt (t : dt) : Prop :=
    match t with
    | TTxt s => T s
    | TConcat l => (fix go (l : list dt) : Prop := match l with [] => True | x :: r => T_dt x /\ go r end) l
    | TIndent x | TDedent x | TGroup x => T_dt x
    | TIntersperse l sep =>
        T_ins sep /\
        (fix go (l : list dt) : Prop := match l with [] => True | x :: r => T_dt x /\ go r end) l
    | TSurround l sep o c =>
        T_ins sep /\ T_ins o /\ T_ins c /\
        (fix go (l : list dt) : Prop := match l with [] => True | x :: r => T_dt x /\ go r end) l
    | TMembers ms =>
        (fix go (l : list (dt * bool)) : Prop := match l with [] => True | (x, _) :: r => T_dt x /\ go r end) ms
    | TSurroundMembers ms o c =>
        T o /\ T c /\
        (fix go (l : list (dt * bool)) : Prop := match l with [] => True | (x, _) :: r => T_dt x /\ go r end) ms
    | TNode _ _ body tail =>
        (fix go (l : list dt) : Prop := match l with [] => True | x :: r => T_dt x /\ go r end) body /\
        (fix go (l : list dt) : Prop := match l with [] => True | x :: r => T_dt x /\ go r end) tail
    | _ => True
    end.
  Lemma T_list l :
    (fix go (l : list dt) : Prop := match l with [] => True | x :: r => T_dt x /\ go r end) l
    <-> Forall T_dt l.
  Proof.
    induction l as [|x l IH]; [split; auto|]. split.
    - intros [H1 H2]. constructor; tauto.
    - intro H; inversion H; subst; tauto.
  Qed.
  Lemma T_mlist l :
    (fix go (l : list (dt * bool)) : Prop := match l with [] => True | (x, _) :: r => T_dt x /\ go r end) l
    <-> Forall (fun m => T_dt (fst m)) l.
  Proof.
    induction l as [|[x tr] l IH]; [split; auto|]. split.
    - intros [H1 H2]. constructor; tauto.
    - intro H; inversion H; subst; tauto.
  Qed.

  Variable cm : cmap.
  Hypothesis P_comment : forall id bk c,
    cm_get id cm = Some bk -> In c (pre bk ++ post bk ++ dangling bk) -> P (comment_doc c).

  Lemma P_leaf l : P (leaf_doc l).
  Proof. destruct l; auto. Qed.
  Lemma P_empty : P empty_new_line.
  Proof. apply P_concat. repeat constructor; auto. Qed.
  Lemma P_sp : P (txt [c_sp]).
  Proof. apply P_txt; tauto. Qed.

  Lemma bucket_get id bk : get_comment_bucket cm id = Ok bk -> cm_get id cm = Some bk.
  Proof. unfold get_comment_bucket, must. destruct (cm_get id cm); [congruence|discriminate]. Qed.

  Lemma P_ins i : T_ins i -> Forall P (ins_docs (tins_ins i)).
  Proof.
    destruct i as [p s q]. unfold T_ins, ins_docs, tins_ins; simpl. intro H.
    repeat (apply Forall_app; split).
    - apply Forall_opt. intros x Hx. destruct p; simpl in Hx; inversion Hx. apply P_leaf.
    - apply Forall_opt. intros x ->. apply P_txt; exact H.
    - apply Forall_opt. intros x Hx. destruct q; simpl in Hx; inversion Hx. apply P_leaf.
  Qed.
  Lemma P_intersperse ds i : T_ins i -> Forall P ds -> P (intersperse ds (tins_ins i)).
  Proof.
    intros Hi H. destruct H as [|d ds Hd H]; simpl.
    - apply P_txt; tauto.
    - apply P_concat. constructor; [exact Hd|].
      induction H as [|e ds He H IH]; simpl; [constructor|].
      apply Forall_app. split; [apply P_ins; exact Hi|]. constructor; auto.
  Qed.

  Lemma P_indent_b d : P d -> P (indent b d).
  Proof. unfold indent. auto. Qed.

  Lemma P_surround ds sep o c d :
    T_ins sep -> T_ins o -> T_ins c -> Forall P ds ->
    surround b ds (tins_ins sep) (tins_ins o) (tins_ins c) = Ok d -> P d.
  Proof.
    intros Hs Ho Hc H E. destruct o as [op os oq], c as [cp cs cq].
    unfold T_ins in Ho, Hc; simpl in Ho, Hc. unfold surround, tins_ins at 2 3 in E; simpl in E.
    destruct ds as [|d0 ds].
    - destruct os, cs; try discriminate. injection E as <-. apply P_concat.
      constructor; [apply P_txt; exact Ho|]. constructor; [apply P_txt; exact Hc|constructor].
    - injection E as <-. apply P_concat. repeat (apply Forall_app; split).
      + apply Forall_opt. intros x Hx. destruct op; simpl in Hx; inversion Hx. apply P_leaf.
      + apply Forall_opt. intros x ->. apply P_txt; exact Ho.
      + apply Forall_opt. intros x Hx. destruct oq; simpl in Hx; inversion Hx. apply P_indent_b, P_leaf.
      + constructor; [apply P_indent_b; apply (P_intersperse (d0 :: ds)); auto|].
        repeat (apply Forall_app; split).
        * apply Forall_opt. intros x Hx. destruct cp; simpl in Hx; inversion Hx. apply P_leaf.
        * apply Forall_opt. intros x ->. apply P_txt; exact Hc.
        * apply Forall_opt. intros x Hx. destruct cq; simpl in Hx; inversion Hx. apply P_leaf.
  Qed.

  Lemma P_members ms : Forall (fun m => P (fst m)) ms -> Forall P (intersperse_members ms).
  Proof.
    induction 1 as [|[d tr] ms Hd H IH]; simpl; [constructor|].
    destruct ms as [|m ms]; [constructor; auto|].
    constructor; [exact Hd|]. constructor; [|exact IH].
    destruct tr; [apply P_empty|apply P_newline].
  Qed.
  Lemma P_intersperse_members ms : Forall (fun m => P (fst m)) ms -> P (intersperse_body_members ms).
  Proof.
    intro H. unfold intersperse_body_members. destruct ms; [apply P_txt; tauto|].
    apply P_concat, P_members; exact H.
  Qed.

  (* comments *)
  Section Bucket.
    Variable bk : bucket.
    Hypothesis Hbk : forall c, In c (pre bk ++ post bk ++ dangling bk) -> P (comment_doc c).
    Lemma P_post_comment c : P (comment_doc c) -> Forall P (post_comment_docs c).
    Proof.
      intro H. unfold post_comment_docs. repeat (apply Forall_app; split).
      - destruct (c_leading c); [repeat constructor; apply P_sp|].
        destruct (c_above c); repeat constructor; [apply P_empty|apply P_newline].
      - repeat constructor; exact H.
      - destruct (_ && _); repeat constructor. apply P_sp.
    Qed.
    Lemma P_flat_map_post cs : (forall c, In c cs -> P (comment_doc c)) -> Forall P (flat_map post_comment_docs cs).
    Proof.
      induction cs as [|c cs IH]; intro H; simpl; [constructor|].
      apply Forall_app; split; [apply P_post_comment; apply H; simpl; auto|].
      apply IH. intros; apply H; simpl; auto.
    Qed.
    Lemma P_post : Forall P (handle_post_comments bk).
    Proof.
      unfold handle_post_comments. destruct (post bk) eqn:E; [constructor|]. rewrite <- E.
      constructor; [|constructor]. apply P_concat, P_flat_map_post.
      intros x Hx. apply Hbk. rewrite ?E, !in_app_iff. rewrite ?E in Hx. tauto.
    Qed.
    Lemma P_pre_comments cs : forall first, (forall c, In c cs -> P (comment_doc c)) ->
      Forall P (pre_comments_docs first cs).
    Proof.
      induction cs as [|c cs IH]; intros first H; simpl; [constructor|].
      assert (Hc : P (comment_doc c)) by (apply H; simpl; auto).
      apply Forall_app; split; [|apply IH; intros; apply H; simpl; auto].
      unfold pre_comment_docs. repeat (apply Forall_app; split).
      - destruct (c_leading c); [repeat constructor; apply P_sp|].
        constructor; [apply P_force|]. destruct first; [constructor|].
        destruct (c_above c); repeat constructor; [apply P_empty|apply P_newline].
      - repeat constructor; exact Hc.
      - destruct (c_trailing c); [repeat constructor; apply P_sp|].
        destruct (is_nil cs); [|constructor].
        destruct (c_below c); repeat constructor; [apply P_empty|apply P_newline].
    Qed.
    Lemma P_pre : Forall P (handle_pre_comments bk).
    Proof.
      unfold handle_pre_comments. destruct (pre bk) eqn:E; [constructor|]. rewrite <- E.
      constructor; [|constructor]. apply P_concat, P_pre_comments.
      intros x Hx. apply Hbk. rewrite ?E, !in_app_iff. rewrite ?E in Hx. tauto.
    Qed.
    Lemma P_dangling ds : handle_dangling_comments bk = Ok ds -> Forall P ds.
    Proof.
      unfold handle_dangling_comments. destruct (dangling bk) eqn:E; [discriminate|]. rewrite <- E.
      intro H; injection H as <-.
      assert (H : forall c, In c (dangling bk) -> P (comment_doc c))
        by (intros x Hx; apply Hbk; rewrite ?E, !in_app_iff; rewrite ?E in Hx; tauto).
      clear E. induction (dangling bk) as [|x xs IH]; simpl; [constructor|].
      apply Forall_app; split; [|apply IH; intros; apply H; simpl; auto].
      unfold dangling_comment_docs. apply Forall_app; split; [|repeat constructor; apply H; simpl; auto].
      destruct (c_leading x); [repeat constructor; apply P_sp|].
      destruct (c_above x); [repeat constructor; apply P_empty|].
      destruct (c_prev x); repeat constructor. apply P_newline.
    Qed.
    Lemma P_punct comma : Forall P (punct_docs comma bk).
    Proof.
      unfold punct_docs. repeat (apply Forall_app; split).
      - apply P_flat_map_post. intros x Hx. apply filter_In in Hx. apply Hbk. rewrite ?E, !in_app_iff. rewrite ?E in Hx. tauto.
      - repeat constructor. apply P_txt. destruct comma; tauto.
      - apply P_flat_map_post. intros x Hx. apply in_app_iff in Hx. apply Hbk. rewrite !in_app_iff.
        rewrite filter_In in Hx. tauto.
    Qed.
  End Bucket.

  Lemma P_build_punct p d w : build_punct cm p = Ok (d, w) -> P d.
  Proof.
    destruct p as [comma id]. unfold build_punct. intro H. minv.
    match goal with H : get_comment_bucket _ _ = _ |- _ => apply bucket_get in H end.
    apply P_concat, P_punct. intros; eapply P_comment; eauto.
  Qed.

  Lemma P_members_or bk m ds w :
    (forall c, In c (pre bk ++ post bk ++ dangling bk) -> P (comment_doc c)) ->
    (forall ds w, m = Ok (ds, w) -> Forall P ds) ->
    members_or_dangling bk m = Ok (ds, w) -> Forall P ds.
  Proof.
    intros Hbk Hm H. unfold members_or_dangling in H. destruct (is_nil (dangling bk)); [eauto|].
    minv. repeat constructor. apply P_concat. eapply P_dangling; eauto.
  Qed.
  Lemma P_members_br bk m ds w :
    (forall c, In c (pre bk ++ post bk ++ dangling bk) -> P (comment_doc c)) ->
    (forall ds w, m = Ok (ds, w) -> Forall P ds) ->
    members_or_bracket b bk m = Ok (ds, w) -> Forall P ds.
  Proof.
    intros Hbk Hm H. unfold members_or_bracket in H. destruct (is_nil (dangling bk)); [eauto|].
    minv. unfold dangling_in_bracket_surround in *.
    match goal with H : rbind (handle_dangling_comments bk) _ = Ok _ |- _ =>
      destruct (handle_dangling_comments bk) eqn:E; try discriminate; injection H as <- end.
    pose proof (P_dangling bk Hbk _ E).
    constructor; [apply P_txt; tauto|]. constructor; [apply P_indent_b, P_newline|].
    constructor; [apply P_indent_b, P_concat; assumption|].
    constructor; [apply P_newline|]. constructor; [apply P_txt; tauto|constructor].
  Qed.
  Lemma P_punct_opt o ds w : build_punct_opt cm o = Ok (ds, w) -> Forall P ds.
  Proof.
    unfold build_punct_opt. destruct o as [p|]; intro H; minv; [|constructor].
    repeat constructor. eapply P_build_punct; eauto.
  Qed.

  Lemma P_build_node h x m ds w :
    (forall ds w, m = Ok (ds, w) -> Forall P ds) ->
    build_node cm b h x m = Ok (ds, w) -> Forall P ds.
  Proof.
    intros Hm H. unfold build_node in H. minv.
    match goal with H : get_comment_bucket _ _ = Ok ?k |- _ => apply bucket_get in H; rename k into bk end.
    assert (Hbk : forall c, In c (pre bk ++ post bk ++ dangling bk) -> P (comment_doc c))
      by (intros; eapply P_comment; eauto).
    assert (Hpre : forall y v, pre_docs bk = Ok (y, v) -> Forall P y)
      by (unfold pre_docs; intros; minv; apply P_pre; exact Hbk).
    assert (Hpost : forall y v, post_docs bk = Ok (y, v) -> Forall P y)
      by (unfold post_docs; intros; destruct (is_nil _); minv; [apply P_post; exact Hbk|constructor]).
    assert (Hp : forall y v, build_punct_opt cm (x_punc x) = Ok (y, v) -> Forall P y)
      by (intros; eapply P_punct_opt; eauto).
    assert (H1 : forall y v, members_or_dangling bk m = Ok (y, v) -> Forall P y)
      by (intros y v E; exact (P_members_or bk m y v Hbk Hm E)).
    assert (H2 : forall y v, members_or_bracket b bk m = Ok (y, v) -> Forall P y)
      by (intros y v E; exact (P_members_br bk m y v Hbk Hm E)).
    destruct h; try (eapply seqM_pred; [eassumption|]; repeat (constructor; [assumption|]); constructor).
    destruct (is_nil (dangling bk)); [eauto|]. minv. repeat constructor. apply P_concat.
    apply Forall_forall. intros d Hd. apply in_map_iff in Hd as (c & <- & Hc).
    apply Hbk. rewrite !in_app_iff. tauto.
  Qed.

  Lemma run_pred t : forall d w, T_dt t -> run cm b t = Ok (d, w) -> P d.
  Proof.
    assert (HL : forall l, Forall (fun t => forall d w, T_dt t -> run cm b t = Ok (d, w) -> P d) l ->
                 forall ds w, Forall T_dt l -> mapM (run cm b) l = Ok (ds, w) -> Forall P ds).
    { intros l Hl ds w HT H. eapply mapM_all; [|exact H].
      rewrite Forall_forall in *. intros x Hx y v E. eapply Hl; eauto. }
    assert (HLm : forall ms, Forall (fun m => forall d w, T_dt (fst m) -> run cm b (fst m) = Ok (d, w) -> P d) ms ->
                  forall l w, Forall (fun m => T_dt (fst m)) ms ->
                  mapM (fun m : dt * bool => let (x, tr) := m in mmap (fun d => (d, tr)) (run cm b x)) ms = Ok (l, w) ->
                  Forall (fun m => P (fst m)) l).
    { intros ms Hl l w HT H. eapply mapM_all; [|exact H].
      rewrite Forall_forall in *. intros [x tr] Hx y v E. minv. simpl.
      eapply (Hl (x, tr)); simpl; eauto. apply (HT (x, tr)); exact Hx. }
    induction t using dt_nested_ind; intros d w HT E; cbn [run T_dt] in E, HT;
      rewrite ?T_list, ?T_mlist in HT; minv.
    - apply P_txt; exact HT.
    - apply P_leaf.
    - apply P_empty.
    - apply P_concat. eauto.
    - apply P_indent_b. eauto.
    - unfold dedent. apply P_dedent. eauto.
    - apply P_group. eauto.
    - apply P_intersperse; [tauto|]. eapply HL; eauto; tauto.
    - eapply P_surround; [| | | |eassumption]; try tauto. eapply HL; eauto; tauto.
    - apply P_intersperse_members. eauto.
    - unfold surround_body_members. destruct HT as (Ho & Hc & HT).
      match goal with |- context [match ?l with [] => _ | _ => _ end] => assert (Hms : Forall (fun m => P (fst m)) l) by eauto;
        destruct l as [|m0 ms0] end.
      + apply P_concat. constructor; [apply P_txt; exact Ho|]. constructor; [apply P_newline|].
        constructor; [apply P_txt; exact Hc|constructor].
      + apply P_concat. constructor; [apply P_txt; exact Ho|]. constructor; [apply P_indent_b, P_newline|].
        constructor; [apply P_indent_b; apply P_intersperse_members; exact Hms|].
        constructor; [apply P_newline|]. constructor; [apply P_txt; exact Hc|constructor].
    - apply P_concat. eapply seqM_pred; [eassumption|].
      constructor; [intros y v E; eapply P_build_node; [|exact E]; intros ds0 w0 E0;
        eapply (HL body); [assumption|tauto|exact E0]|].
      constructor; [intros y v E; eapply (HL tail); [assumption|tauto|exact E]|constructor].
    - eapply P_build_punct; eauto.
    - discriminate.
  Qed.
End Pred.
