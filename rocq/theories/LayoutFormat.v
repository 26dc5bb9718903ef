(* LayoutFormat.v: trees that are alike are formatted alike.  Proofs only. *)
From Coq Require Import Lia Sorting.Sorted.
From Verif Require Import Base Doc DocBuilder Cst Comments Term New Formatter SpecComments SpecTree SpecLayout
  LayoutNew LayoutStep TermProofs CollectProofs.
Open Scope res_scope.
Local Open Scope string_scope.
Local Open Scope list_scope.

(* ------------------------------------------------------------ renaming comments *)

Section Rename.
  Variable f : N -> N.
  Hypothesis inj : forall a b, f a = f b -> a = b.
  Definition cf (c : comment) : comment :=
    {| c_id := f (c_id c); c_value := c_value c; c_line := c_line c; c_leading := c_leading c;
       c_trailing := c_trailing c; c_above := c_above c; c_below := c_below c; c_prev := c_prev c;
       c_bracket := c_bracket c |}.
  Definition bf (b : bucket) : bucket :=
    {| Comments.pre := map cf (Comments.pre b); post := map cf (post b); dangling := map cf (dangling b) |}.
  Definition cmf (m : list (N * bucket)) : list (N * bucket) := map (fun e => (f (fst e), bf (snd e))) m.

  Lemma f_eqb a b : (f a =? f b)%N = (a =? b)%N.
  Proof.
    destruct (a =? b)%N eqn:E; [apply N.eqb_eq in E; subst; apply N.eqb_refl|].
    apply N.eqb_neq. intro H. apply N.eqb_neq in E. apply E. apply inj. exact H.
  Qed.
  Lemma cm_get_f id m : cm_get (f id) (cmf m) = option_map bf (cm_get id m).
  Proof.
    induction m as [|[k v] m IH]; [reflexivity|]. cbn. rewrite f_eqb. destruct (k =? id)%N; [reflexivity|exact IH].
  Qed.
  Lemma bucket_f id m : get_comment_bucket (cmf m) (f id) = rmap bf (get_comment_bucket m id).
  Proof. unfold get_comment_bucket. rewrite cm_get_f. destruct (cm_get id m); reflexivity. Qed.
  Lemma cm_update_f id g h m : (forall b, g (bf b) = bf (h b)) -> cm_update (f id) g (cmf m) = cmf (cm_update id h m).
  Proof.
    intro H. induction m as [|[k v] m IH].
    - cbn. change empty_bucket with (bf empty_bucket) at 1. rewrite H. reflexivity.
    - change (cmf ((k, v) :: m)) with ((f k, bf v) :: cmf m). cbn [cm_update]. rewrite f_eqb. destruct (k =? id)%N.
      + rewrite H. reflexivity.
      + rewrite IH. reflexivity.
  Qed.
  Lemma add_pre_f cs b : add_pre (map cf cs) (bf b) = bf (add_pre cs b).
  Proof. unfold add_pre, bf. cbn. rewrite map_app. reflexivity. Qed.
  Lemma add_post_f cs b : add_post (map cf cs) (bf b) = bf (add_post cs b).
  Proof. unfold add_post, bf. cbn. rewrite map_app. reflexivity. Qed.
  Lemma add_dangling_f cs b : add_dangling (map cf cs) (bf b) = bf (add_dangling cs b).
  Proof. unfold add_dangling, bf. cbn. rewrite map_app. reflexivity. Qed.

  (* ---------------------------------------------------------- running *)

  Definition wf {A} (m : M A) : M A := rmap (fun p : A * list comment => (fst p, map cf (snd p))) m.
  Lemma wf_bind {A B} (m m' : M A) (k k' : A -> M B) : m' = wf m -> (forall a, k' a = wf (k a)) -> mbind m' k' = wf (mbind m k).
  Proof.
    intros -> H. destruct m as [[a w]| |]; cbn; try reflexivity. rewrite H. destruct (k a) as [[b w']| |]; cbn; try reflexivity.
    rewrite map_app. reflexivity.
  Qed.
  Lemma wf_ret {A} (a : A) : ret a = wf (ret a).
  Proof. reflexivity. Qed.
  Lemma wf_lift {A} (m : res A) : lift m = wf (lift m).
  Proof. destruct m; reflexivity. Qed.
  Lemma wf_mark {A} (a : A) cs : mark a (map cf cs) = wf (mark a cs).
  Proof. reflexivity. Qed.
  Lemma wf_map {A B} (g : A -> B) (m m' : M A) : m' = wf m -> mmap g m' = wf (mmap g m).
  Proof. intros ->. unfold mmap. apply wf_bind; [reflexivity|]. intro a. apply wf_ret. Qed.
  Lemma wf_mapM {A A' B} (k : A -> M B) (k' : A' -> M B) (g : A -> A') l :
    Forall (fun x => k' (g x) = wf (k x)) l -> mapM k' (map g l) = wf (mapM k l).
  Proof.
    induction 1 as [|x l Hx Hl IH]; [reflexivity|]. cbn. apply wf_bind; [exact Hx|]. intro y.
    apply wf_bind; [exact IH|]. intro ys. apply wf_ret.
  Qed.
  Lemma wf_seq ls ls' : Forall2 (fun a b => b = wf a) ls ls' -> seqM ls' = wf (seqM ls).
  Proof.
    intro H. unfold seqM. apply wf_map. induction H as [|x y l l' Hx Hl IH]; [reflexivity|].
    cbn. apply wf_bind; [exact Hx|]. intro a. apply wf_bind; [exact IH|]. intro b. apply wf_ret.
  Qed.
  Lemma comment_doc_f c : comment_doc (cf c) = comment_doc c.
  Proof. reflexivity. Qed.
  Lemma flat_f (k : comment -> list doc) cs : (forall c, k (cf c) = k c) -> flat_map k (map cf cs) = flat_map k cs.
  Proof. intro H. induction cs as [|c cs IH]; [reflexivity|]. cbn. rewrite H, IH. reflexivity. Qed.
  Lemma filter_f (p : comment -> bool) cs : (forall c, p (cf c) = p c) -> filter p (map cf cs) = map cf (filter p cs).
  Proof. intro H. induction cs as [|c cs IH]; [reflexivity|]. cbn. rewrite H, IH. destruct (p c); reflexivity. Qed.
  Lemma handle_pre_f b : handle_pre_comments (bf b) = handle_pre_comments b.
  Proof.
    assert (H : forall cs fst_, pre_comments_docs fst_ (map cf cs) = pre_comments_docs fst_ cs).
    { induction cs as [|c cs IH]; intro b0; [reflexivity|]. cbn [map pre_comments_docs]. rewrite IH. f_equal.
      unfold pre_comment_docs. cbn. destruct cs; reflexivity. }
    unfold handle_pre_comments, bf. cbn. destruct (Comments.pre b) as [|c cs]; [reflexivity|].
    change (map cf (c :: cs)) with (cf c :: map cf cs). cbn [map]. f_equal. f_equal. apply (H (c :: cs)).
  Qed.
  Lemma handle_post_f b : handle_post_comments (bf b) = handle_post_comments b.
  Proof.
    unfold handle_post_comments, bf. cbn. destruct (post b) as [|c cs]; [reflexivity|]. cbn [map].
    change (cf c :: map cf cs) with (map cf (c :: cs)). rewrite flat_f; [reflexivity|]. reflexivity.
  Qed.
  Lemma handle_dangling_f b : handle_dangling_comments (bf b) = handle_dangling_comments b.
  Proof.
    unfold handle_dangling_comments, bf. cbn. destruct (dangling b) as [|c cs]; [reflexivity|]. cbn [map].
    change (cf c :: map cf cs) with (map cf (c :: cs)). rewrite flat_f; [reflexivity|]. reflexivity.
  Qed.
  Lemma is_nil_map {A B} (g : A -> B) l : is_nil (map g l) = is_nil l.
  Proof. destruct l; reflexivity. Qed.

  Section Run.
    Variable cm : list (N * bucket).
    Variable b : pretty_config.
    Lemma punct_f p : build_punct (cmf cm) (pmap f p) = wf (build_punct cm p).
    Proof.
      destruct p as [c id]. cbn. rewrite bucket_f. destruct (get_comment_bucket cm id) as [bk| |]; cbn; try reflexivity.
      unfold mark. f_equal. f_equal.
      - unfold punct_docs. f_equal. f_equal; [|f_equal].
        + cbn. rewrite filter_f by reflexivity. apply flat_f. reflexivity.
        + cbn. rewrite filter_f by reflexivity. rewrite <- map_app. f_equal. apply flat_f. reflexivity.
      - rewrite map_app. reflexivity.
    Qed.
    Lemma punct_opt_f o : build_punct_opt (cmf cm) (option_map (pmap f) o) = wf (build_punct_opt cm o).
    Proof. destruct o as [p|]; [|reflexivity]. cbn. apply wf_map. apply punct_f. Qed.
    Lemma node_f h x ms ms' : ms' = wf ms -> build_node (cmf cm) b h (xmap f x) ms' = wf (build_node cm b h x ms).
    Proof.
      intro H. unfold build_node. cbn [x_id xmap]. rewrite bucket_f.
      destruct (get_comment_bucket cm (x_id x)) as [bk| |]; cbn [rmap rbind lift]; try reflexivity.
      assert (D : is_nil (dangling (bf bk)) = is_nil (dangling bk)) by apply is_nil_map.
      assert (P1 : pre_docs (bf bk) = wf (pre_docs bk)) by (unfold pre_docs; rewrite handle_pre_f; reflexivity).
      assert (P2 : members_or_dangling (bf bk) ms' = wf (members_or_dangling bk ms)).
      { unfold members_or_dangling. rewrite D, handle_dangling_f. destruct (is_nil (dangling bk)); [exact H|].
        apply wf_bind; [apply wf_lift|]. intro. reflexivity. }
      assert (P3 : members_or_bracket b (bf bk) ms' = wf (members_or_bracket b bk ms)).
      { unfold members_or_bracket. rewrite D. unfold dangling_in_bracket_surround. rewrite handle_dangling_f.
        destruct (is_nil (dangling bk)); [exact H|]. apply wf_bind; [apply wf_lift|]. intro. reflexivity. }
      assert (P4 : post_docs (bf bk) = wf (post_docs bk)).
      { unfold post_docs. rewrite D, handle_post_f. destruct (is_nil (dangling bk)); reflexivity. }
      assert (P5 := punct_opt_f (x_punc x)). cbn [x_punc xmap].
      match goal with |- mbind _ ?k' = wf (mbind _ ?k) => assert (K : k' (bf bk) = wf (k bk)) end.
      2: { cbn [mbind]. cbv beta in K. rewrite K. match goal with |- context [wf ?s] => destruct s as [[? ?]| |] end; reflexivity. }
      destruct h; try (apply wf_seq; repeat constructor; assumption).
      rewrite D. destruct (is_nil (dangling bk)); [exact H|]. cbn. rewrite map_map. reflexivity.
    Qed.
    Lemma run_f t : run (cmf cm) b (dmap f t) = wf (run cm b t).
    Proof.
      induction t using dt_nested_ind; cbn [dmap run]; try reflexivity.
      - apply wf_map, wf_mapM. exact H.
      - apply wf_map. exact IHt.
      - apply wf_map. exact IHt.
      - apply wf_map. exact IHt.
      - apply wf_map, wf_mapM. exact H.
      - apply wf_bind; [apply wf_mapM; exact H|]. intro. apply wf_lift.
      - apply wf_map, wf_mapM. revert H. apply Forall_impl. intros [x tr] Hx. apply wf_map. exact Hx.
      - apply wf_map, wf_mapM. revert H. apply Forall_impl. intros [x tr] Hx. apply wf_map. exact Hx.
      - apply wf_map, wf_seq. constructor; [|constructor; [|constructor]].
        + apply node_f. apply wf_mapM. exact H.
        + apply wf_mapM. exact H0.
      - apply punct_f.
    Qed.
  End Run.

  Lemma missing_f m marks : is_nil (missing_comments (cmf m) (map cf marks)) = is_nil (missing_comments m marks).
  Proof.
    unfold missing_comments.
    assert (E : map_comments (cmf m) = map cf (map_comments m)).
    { unfold map_comments. induction m as [|[k v] m IH]; [reflexivity|]. cbn [cmf map flat_map]. fold (cmf m). rewrite IH, map_app. f_equal.
      unfold bucket_comments. cbn. rewrite !map_app. reflexivity. }
    assert (F : forall p q cs, (forall c, p (cf c) = q c) -> filter p (map cf cs) = map cf (filter q cs)).
    { intros p q cs H. induction cs as [|c cs IH]; [reflexivity|]. cbn. rewrite H, IH. destruct (q c); reflexivity. }
    rewrite E, (F _ (fun c => negb (is_printed marks c))); [apply is_nil_map|]. intro c. f_equal. unfold is_printed.
    induction marks as [|d marks IH]; [reflexivity|]. cbn [map existsb]. rewrite IH. cbn. rewrite f_eqb. reflexivity.
  Qed.
End Rename.

(* ------------------------------------------------------------ spacing *)

Section Spacing.
  Variable f : N -> N.
  Hypothesis inj : forall a b, f a = f b -> a = b.
  Variable gp : node -> node -> node -> nat * nat.
  Notation like := (like f gp).
  Definition anyway (_ _ : node) : Prop := True.
  Notation sim := (sim f gp anyway).

  Lemma like_code p n n' : like p n n' -> code n = code n'.
  Proof.
    intro H. destruct (like_node _ _ _ _ _ H) as (A & B & C & _). unfold code, code_token. rewrite A, B, C. reflexivity.
  Qed.
  Lemma find_like (q : node -> bool) p l l' : (forall n n', like p n n' -> q n = q n') -> Forall2 (like p) l l' ->
    oo (like p) (find q l) (find q l').
  Proof.
    intro H. induction 1 as [|x y l l' X L IH]; [exact I|]. cbn. rewrite <- (H _ _ X). destruct (q x); [exact X|exact IH].
  Qed.
  Lemma oo_some {A} (R : A -> A -> Prop) a b x : oo R a b -> a = Some x -> exists y, b = Some y /\ R x y.
  Proof. intros H ->. destruct b as [y|]; [|contradiction]. exists y. split; [reflexivity|exact H]. Qed.
  Lemma oo_none {A} (R : A -> A -> Prop) a b : oo R a b -> a = None -> b = None.
  Proof. intros H ->. destruct b; [contradiction|reflexivity]. Qed.

  Definition at_left (p : node) (left cs : list node) := spacing gp p (find n_named left) (prev_code left) cs.
  Lemma at_left_step q p p' left left' c c' r r' :
    Forall2 (like q) left left' -> like q c c' ->
    at_left p left (c :: r) = at_left p' left' (c' :: r') ->
    (forall a a', n_named c = true -> find n_named left = Some a -> find n_named left' = Some a' -> gp p a c = gp p' a' c')
    /\ (forall a a', n_extra c = true -> prev_code left = Some a -> prev_code left' = Some a' ->
         (n_erow c =? n_erow a)%N = (n_erow c' =? n_erow a')%N)
    /\ at_left p (c :: left) r = at_left p' (c' :: left') r'.
  Proof.
    intros L C E. unfold at_left, prev_code in *. cbn [spacing find] in *.
    assert (F1 := find_like n_named _ _ _ (like_named f gp q) L).
    assert (F2 := find_like code _ _ _ (like_code q) L).
    rewrite <- (like_named _ _ _ _ _ C), <- (like_extra _ _ _ _ _ C) in *.
    rewrite <- (like_code _ _ _ C). change (negb (n_extra c) && (n_named c || kind_in (n_kind c) [","; ";"; "else"]))%bool with (code c) in E.
    assert (K := like_code _ _ _ C). unfold code, code_token in K. rewrite <- (like_extra _ _ _ _ _ C), <- (like_named _ _ _ _ _ C) in K.
    rewrite <- K in E. change (negb (n_extra c) && (n_named c || kind_in (n_kind c) [","; ";"; "else"]))%bool with (code c) in E.
    destruct (find n_named left) as [a|], (find n_named left') as [a'|]; try contradiction;
      destruct (find code left) as [b|], (find code left') as [b'|]; try contradiction;
      destruct (n_named c), (n_extra c); cbn [app] in E;
      repeat match goal with E : _ :: _ = _ :: _ |- _ => let A := fresh in injection E as A E end;
      (split; [|split]);
      try (intros ? ? ? Q1 Q2; try discriminate; injection Q1 as <-; injection Q2 as <-);
      try assumption; try discriminate;
      repeat match goal with H : (if ?x then (1, 0) else (0, 0)) = _ |- _ => destruct x end;
      repeat match goal with H : _ = (if ?x then (1, 0) else (0, 0)) |- _ => destruct x end;
      try discriminate; try reflexivity.
    all: repeat match goal with E : (_, _) :: _ = (_, _) :: _ |- _ => injection E as E end; try assumption.
  Qed.

  Lemma at_left_walk q p p' xs xs' left left' cs cs' :
    Forall2 (like q) left left' -> Forall2 (like q) xs xs' ->
    at_left p left (xs ++ cs) = at_left p' left' (xs' ++ cs') ->
    at_left p (rev xs ++ left) cs = at_left p' (rev xs' ++ left') cs'.
  Proof.
    intros L X. revert left left' L. induction X as [|x x' xs xs' X1 X IH]; intros left left' L E; [exact E|].
    cbn [rev]. rewrite <- !app_assoc. cbn [app]. cbn [app] in E. apply (at_left_step q) in E as (_ & _ & E); [|exact L|exact X1].
    apply IH; [constructor; assumption|exact E].
  Qed.
  Lemma next_gap q p p' c c' : forall r r' l l', Forall2 (like q) r r' -> oo (like q) l l' ->
    spacing gp p (Some c) l r = spacing gp p' (Some c') l' r' ->
    forall x x', find n_named r = Some x -> find n_named r' = Some x' -> gp p c x = gp p' c' x'.
  Proof.
    intros r r' l l' R. revert l l'. induction R as [|y y' r r' Y R IH]; intros l l' O E x x' F F'; [discriminate|].
    cbn [spacing find] in *. rewrite <- (like_named _ _ _ _ _ Y), <- (like_extra _ _ _ _ _ Y) in *.
    destruct (n_named y); [injection F as <-; injection F' as <-; cbn [app] in E; injection E as E _; exact E|].
    cbn [app orb] in E.
    assert (K := like_kind _ _ _ _ _ Y). rewrite <- K in E.
    destruct (n_extra y).
    - destruct l as [l|], l' as [l'|]; try contradiction; cbn [app negb andb] in E.
      + injection E as _ E. exact (IH (Some l) (Some l') O E _ _ F F').
      + exact (IH None None O E _ _ F F').
    - cbn [app negb andb] in E. destruct (kind_in _ _).
      + exact (IH (Some y) (Some y') Y E _ _ F F').
      + exact (IH _ _ O E _ _ F F').
  Qed.

  (* What must follow from equal gaps. *)
  Variable checked : bool.
  Hypothesis G1 : forall p p' a a' b b', same_node p p' -> same_node a a' -> same_node b b' -> gp p a b = gp p' a' b' ->
    n_extra a || n_extra b = true -> rows_apart a b = rows_apart a' b'.
  Definition trail (a b : node) : res bool :=
    if (n_srow b =? 0)%N then if checked then Panic "attempt to subtract with overflow" else Ok true
    else Ok (n_erow a <? n_srow b - 1)%N.
  Hypothesis G2 : forall p p' a a' b b', same_node p p' -> same_node a a' -> same_node b b' -> gp p a b = gp p' a' b' ->
    has_members p = true -> trail a b = trail a' b'.

  Lemma rows_same a b a' b' : rows_apart a b = rows_apart a' b' ->
    (n_srow b =? n_erow a)%N = (n_srow b' =? n_erow a')%N /\ (n_erow a + 1 <? n_srow b)%N = (n_erow a' + 1 <? n_srow b')%N.
  Proof.
    unfold rows_apart.
    destruct (N.ltb_spec (n_srow b) (n_erow a)), (N.ltb_spec (n_srow b') (n_erow a')); try discriminate;
    destruct (N.eqb_spec (n_srow b) (n_erow a)), (N.eqb_spec (n_srow b') (n_erow a')); try discriminate; try lia;
    destruct (N.eqb_spec (n_srow b) (n_erow a + 1)), (N.eqb_spec (n_srow b') (n_erow a' + 1)); try discriminate; try lia;
    intros _; (split; [reflexivity|]);
    destruct (N.ltb_spec (n_erow a + 1) (n_srow b)), (N.ltb_spec (n_erow a' + 1) (n_srow b')); try reflexivity; lia.
  Qed.
  Lemma below_alt a b : (a <? b - 1)%N = (a + 1 <? b)%N.
  Proof. destruct (N.ltb_spec a (b - 1)), (N.ltb_spec (a + 1) b); try reflexivity; lia. Qed.

  Lemma comment_text q n n' : like q n n' -> kind_in (n_kind n) ["line_comment"; "block_comment"] = true -> n_text n = n_text n'.
  Proof.
    intros L K. assert (T := like_text _ _ _ _ _ L). unfold same_text in T.
    destruct (word_field q n); [exact T|].
    apply kind_in_in in K.
    assert (A : in_lower_case q n = false /\ in_upper_case q n = false /\ word_kind n = true).
    { unfold in_lower_case, in_upper_case, word_kind, has_kind. destruct K as [<-|[<-|[]]]; repeat split; cbn; reflexivity. }
    destruct A as (A1 & A2 & A3). rewrite A1, A2, A3 in T. exact T.
  Qed.
  Definition mk_comment (left : list node) (n : node) (right : list node) (line : bool) : comment :=
    {| c_id := n_id n;
       c_value := trim_end (n_text n);
       c_line := line;
       c_leading := match find n_named left with Some p => (n_srow n =? n_erow p)%N | None => false end;
       c_trailing := if line then false
                     else match find n_named right with Some x => (n_erow n =? n_srow x)%N | None => false end;
       c_above := match find n_named left with Some p => (n_erow p + 1 <? n_srow n)%N | None => false end;
       c_below := match find n_named right with Some x => (n_erow n <? n_srow x - 1)%N | None => false end;
       c_prev := match find n_named left with Some _ => true | None => false end;
       c_bracket := match find n_named right with Some x => is_bracket_composite_node x | None => false end |}.
  Lemma comment_of_mk left n right : comment_of left n right =
    if has_kind "line_comment" n then Ok (mk_comment left n right true)
    else if has_kind "block_comment" n then Ok (mk_comment left n right false)
    else Panic "unknown node kind in Comment".
  Proof. reflexivity. Qed.
  Lemma like_comment q p p' left left' c c' r r' :
    same_node p p' ->
    Forall2 (like q) left left' -> like q c c' -> Forall2 (like q) r r' -> n_extra c = true ->
    at_left p left (c :: r) = at_left p' left' (c' :: r') ->
    comment_of left' c' r' = rmap (cf f) (comment_of left c r).
  Proof.
    intros SP L C R X E. destruct (at_left_step _ _ _ _ _ _ _ _ _ L C E) as (E1 & _ & E3).
    assert (N : n_named c = true) by (destruct C; auto).
    assert (F1 := find_like n_named _ _ _ (like_named f gp q) L).
    assert (F2 := find_like n_named _ _ _ (like_named f gp q) R).
    assert (F3 := find_like code _ _ _ (like_code q) L).
    unfold at_left in E3. cbn [find prev_code] in E3. rewrite <- (like_named _ _ _ _ _ C), N in E3.
    assert (NC : code c = false) by (unfold code; rewrite X; reflexivity).
    unfold prev_code in E3. cbn [find] in E3. rewrite <- (like_code _ _ _ C), NC in E3.
    assert (E2 := next_gap _ _ _ _ _ _ _ _ _ R F3 E3).
    assert (SN := like_node _ _ _ _ _ C).
    rewrite !comment_of_mk.
    rewrite <- (like_has_kind _ _ "line_comment" _ _ _ C), <- (like_has_kind _ _ "block_comment" _ _ _ C).
    assert (M : kind_in (n_kind c) ["line_comment"; "block_comment"] = true -> forall line, mk_comment left' c' r' line = cf f (mk_comment left c r line)).
    { intros K line. unfold mk_comment, cf. cbn. rewrite (comment_text _ _ _ C K), (like_id _ _ _ _ _ C).
      destruct (find n_named left) as [a|], (find n_named left') as [a'|]; try contradiction;
      destruct (find n_named r) as [b|], (find n_named r') as [b'|]; try contradiction; cbn in F1, F2;
      try (specialize (E1 _ _ N eq_refl eq_refl); apply G1, rows_same in E1 as [E1 E1'];
           [|exact SP|exact (like_node _ _ _ _ _ F1)|exact SN|rewrite X; apply Bool.orb_true_r]; rewrite <- E1, <- E1');
      try (specialize (E2 _ _ eq_refl eq_refl); apply G1, rows_same in E2 as [E2 E2'];
           [|exact SP|exact SN|exact (like_node _ _ _ _ _ F2)|rewrite X; reflexivity];
           rewrite !below_alt, <- E2', !(N.eqb_sym (n_erow _) (n_srow _)), <- E2;
           unfold is_bracket_composite_node; rewrite <- (like_kind _ _ _ _ _ F2));
      reflexivity. }
    unfold kind_in in M. cbn [existsb] in M. unfold has_kind. 
    destruct (String.eqb (n_kind c) "line_comment"); [cbn; f_equal; apply M; reflexivity|].
    destruct (String.eqb (n_kind c) "block_comment"); [cbn; f_equal; apply M; reflexivity|]. reflexivity.
  Qed.

  Lemma last_like q left left' : Forall2 (like q) left left' ->
    oo (like q) (prev_code left) (prev_code left').
  Proof. intro L. exact (find_like code _ _ _ (like_code q) L). Qed.
  Lemma like_associable q n n' : like q n n' -> associable n = associable n'.
  Proof.
    intro H. unfold associable, is_associable_unnamed_node, is_punctuation_node.
    rewrite <- (like_named _ _ _ _ _ H), <- !(like_has_kind _ _ _ _ _ _ H). reflexivity.
  Qed.
  Lemma like_punctuation q n n' : like q n n' -> is_punctuation_node n = is_punctuation_node n'.
  Proof. intro H. unfold is_punctuation_node. rewrite <- !(like_has_kind _ _ _ _ _ _ H). reflexivity. Qed.
  Lemma rmap_bind {A B} (g : A -> A) (h : B -> B) (a : res A) (k k' : A -> res B) :
    (forall x, k' (g x) = rmap h (k x)) -> rbind (rmap g a) k' = rmap h (rbind a k).
  Proof. intro H. destruct a as [x| |]; cbn; [apply H|reflexivity|reflexivity]. Qed.

  Lemma like_collect : forall n q n' m, like q n n' -> collect n' (cmf f m) = rmap (cmf f) (collect n m).
  Proof.
    intro n. induction n as [i cs IH] using node_nested_ind. intros q [i' cs'] m L.
    assert (SN := like_node _ _ _ _ _ L). assert (ID := like_id _ _ _ _ _ L). assert (KS := like_kids _ _ _ _ _ L).
    assert (SP := like_spacing _ _ _ _ _ L). cbn [children] in KS, SP. unfold n_id in ID. cbn in ID.
    rewrite !collect_eq. cbv zeta. rewrite ID.
    rewrite (cm_update_f f inj _ (fun b => b) (fun b => b)) by reflexivity.
    set (m1 := cm_update (i_id i) (fun b => b) m). clearbody m1.
    remember (Node i cs) as u eqn:Eu. remember (Node i' cs') as u' eqn:Eu'. clear Eu Eu' L.
    assert (GO : forall cs cs' left left' pending m, Forall (fun n => forall q n' m, like q n n' ->
        collect n' (cmf f m) = rmap (cmf f) (collect n m)) cs ->
      Forall2 (like (Some u)) left left' -> Forall2 (like (Some u)) cs cs' ->
      at_left u left cs = at_left u' left' cs' ->
      collect_go collect i' left' cs' (map (cf f) pending) (last_of left') (cmf f m)
      = rmap (cmf f) (collect_go collect i left cs pending (last_of left) m)).
    2: { destruct KS as [|c c' cs cs' C KS]; [reflexivity|].
         apply (GO (c :: cs) (c' :: cs') [] [] [] m1); [exact IH|constructor|constructor; assumption|exact SP]. }
    clear cs cs' IH KS SP m m1. induction cs as [|c r IHr]; intros cs' left left' pending m IH LL KS E.
    - inversion KS; subst. cbn [collect_go]. assert (O := last_like _ _ _ LL). unfold last_of.
      destruct (prev_code left) as [a|], (prev_code left') as [a'|]; try contradiction; cbn [option_map rmap].
      + rewrite (like_id _ _ _ _ _ O). cbn [rmap rbind]. f_equal. apply cm_update_f; [exact inj|]. intro. apply add_post_f.
      + rewrite ID. cbn [rmap rbind]. f_equal. apply cm_update_f; [exact inj|]. intro. apply add_dangling_f.
    - inversion KS as [|? c' ? r' C R]; subst. inversion IH as [|? ? IHc IHcs]; subst.
      destruct (at_left_step _ _ _ _ _ _ _ _ _ LL C E) as (_ & E2 & E3).
      assert (NX : forall pending m, collect_go collect i' (c' :: left') r' (map (cf f) pending) (last_of (c' :: left')) (cmf f m)
        = rmap (cmf f) (collect_go collect i (c :: left) r pending (last_of (c :: left)) m)).
      { intros. apply IHr; [exact IHcs|constructor; assumption|exact R|exact E3]. }
      assert (LO : last_of (c :: left) = if code c then Some (n_id c, n_erow c) else last_of left).
      { unfold last_of, prev_code. cbn. destruct (code c); reflexivity. }
      assert (LO' : last_of (c' :: left') = if code c' then Some (n_id c', n_erow c') else last_of left').
      { unfold last_of, prev_code. cbn. destruct (code c'); reflexivity. }
      rewrite LO, LO', <- (like_code _ _ _ C), code_eq in NX.
      cbn [collect_go]. rewrite <- (like_extra _ _ _ _ _ C).
      destruct (n_extra c) eqn:X.
      + cbn [negb andb] in NX.
        rewrite (like_comment _ _ _ _ _ _ _ _ _ SN LL C R X E). apply rmap_bind. intro co.
        assert (O := last_like _ _ _ LL). unfold last_of in NX |- *.
        assert (PK := peek_like _ _ _ _ _ R).
        assert (AP : forall co, map (cf f) pending ++ [cf f co] = map (cf f) (pending ++ [co])) by (intro; rewrite map_app; reflexivity).
        destruct (prev_code left) as [a|], (prev_code left') as [a'|]; try contradiction; cbn [option_map] in *.
        2: { rewrite AP. apply NX. }
        rewrite <- (E2 _ _ eq_refl eq_refl eq_refl).
        assert (UP : cm_update (n_id a') (add_post [cf f co]) (cmf f m) = cmf f (cm_update (n_id a) (add_post [co]) m)).
        { rewrite (like_id _ _ _ _ _ O). apply cm_update_f; [exact inj|]. intro. apply (add_post_f f [co]). }
        destruct (peek r) as [s|], (peek r') as [s'|]; try contradiction.
        2: { rewrite UP. apply NX. }
        rewrite <- (like_punctuation _ _ _ PK). destruct (is_punctuation_node s).
        * assert (UQ : cm_update (n_id s') (add_pre [cf f co]) (cmf f m) = cmf f (cm_update (n_id s) (add_pre [co]) m)).
          { rewrite (like_id _ _ _ _ _ PK). apply cm_update_f; [exact inj|]. intro. apply (add_pre_f f [co]). }
          rewrite UQ. apply NX.
        * destruct (n_erow c =? n_erow a)%N; [rewrite UP; apply NX|rewrite AP; apply NX].
      + cbn [negb andb] in NX. rewrite <- (like_associable _ _ _ C).
        destruct (associable c); [|apply NX].
        replace (if is_nil (map (cf f) pending) then cmf f m else cm_update (n_id c') (add_pre (map (cf f) pending)) (cmf f m))
          with (cmf f (if is_nil pending then m else cm_update (n_id c) (add_pre pending) m)).
        2: { rewrite is_nil_map. destruct (is_nil pending); [reflexivity|]. rewrite (like_id _ _ _ _ _ C). symmetry.
             apply cm_update_f; [exact inj|]. intro. apply add_pre_f. }
        rewrite (IHc _ _ _ C). apply rmap_bind. intro m2. apply (NX []).
  Qed.
  Lemma like_collect_comments q n n' : like q n n' -> collect_comments n' = rmap (cmf f) (collect_comments n).
  Proof.
    intro L. unfold collect_comments, is_associable_unnamed_node, is_punctuation_node.
    rewrite <- (like_named _ _ _ _ _ L), <- (like_extra _ _ _ _ _ L), <- !(like_has_kind _ _ _ _ _ _ L).
    destruct (_ && _)%bool; [reflexivity|]. exact (like_collect _ _ _ [] L).
  Qed.

  (* ---------------------------------------------------------- blank lines *)

  Lemma like_trailing cm u c c' : simp f gp anyway (Some u) c c' -> has_members (l_node u) = true -> is_named c = true ->
    rr eq (has_trailing_newline cm checked c) (has_trailing_newline (cmf f cm) checked c').
  Proof.
    intros [S P] HM HN. unfold has_trailing_newline.
    rewrite (like_id _ _ _ _ _ (sim_like _ _ _ _ _ S)), (bucket_f f inj).
    destruct (get_comment_bucket cm (n_id (l_node c))) as [bk| |]; cbn; [|reflexivity|exact I].
    rewrite <- map_rev. destruct (rev (post bk)) as [|co cs]; cbn; [|reflexivity].
    destruct S as [n n' TT L|u0 u' left left' n n' right right' SU K K' LL L R]; [discriminate|].
    injection P as ->. cbn [l_right l_node] in *.
    assert (F := find_like n_named _ _ _ (like_named f gp _) R).
    destruct (find n_named right) as [x|] eqn:FX, (find n_named right') as [x'|] eqn:FX'; try contradiction; [|reflexivity].
    assert (SU' := sim_like _ _ _ _ _ SU).
    assert (E := like_spacing _ _ _ _ _ SU'). rewrite K, K' in E.
    assert (E1 : at_left (l_node u) left (n :: right) = at_left (l_node u') left' (n' :: right')).
    { assert (W := at_left_walk _ (l_node u) (l_node u') (rev left) (rev left') [] [] (n :: right) (n' :: right')
        (Forall2_nil _) (f2_rev _ _ _ LL) E). rewrite !rev_involutive, !app_nil_r in W. exact W. }
    destruct (at_left_step _ _ _ _ _ _ _ _ _ LL L E1) as (_ & _ & E3).
    unfold at_left in E3. cbn [find] in E3. unfold is_named in HN. cbn [l_node] in HN.
    rewrite <- (like_named _ _ _ _ _ L), HN in E3.
    assert (E4 := next_gap _ _ _ _ _ _ _ _ _ R (last_like _ _ _ (Forall2_cons _ _ L LL)) E3 _ _ FX FX').
    apply G2 in E4; [|exact (like_node _ _ _ _ _ SU')|exact (like_node _ _ _ _ _ L)|exact (like_node _ _ _ _ _ F)|exact HM].
    unfold trail in E4.
    destruct (n_srow x =? 0)%N, (n_srow x' =? 0)%N; destruct checked; try discriminate; cbn; try reflexivity;
      injection E4 as E4; exact E4.
  Qed.

  (* ---------------------------------------------------------- the whole *)

  Lemma like_new cm : forall fuel s c c', sim c c' -> LayoutStep.pre s c c' ->
    rr (dR f (fun _ => True)) (new cm checked fuel s c) (new (cmf f cm) checked fuel s c').
  Proof.
    induction fuel as [|k IH]; intros s c c' S P; [exact I|]. cbn [new].
    apply (new_step_like f gp anyway); [auto|exact IH| | |exact S|exact P].
    - intros u d d' D M N. eapply rr_impl; [|exact (like_trailing cm u d d' D M N)]. auto.
    - intros l l' ms ms' SL M HM HM' _. apply bodied_members in M. unfold members_of in HM, HM'.
      pose proof (sim_children_named f gp anyway _ _ SL) as K.
      revert ms ms' HM HM'. induction K as [|d d' ds ds' [Hd Nd] K IHK]; intros ms ms' HM HM'; inversion HM; inversion HM'; subst; [reflexivity|].
      cbn [map]. f_equal; [|auto]. pose proof (like_trailing cm l d d' Hd M Nd) as Q.
      repeat match goal with H : _ /\ has_trailing_newline _ _ _ = _ |- _ => destruct H as [_ H]; rewrite H in Q; clear H end.
      cbn in Q. symmetry. exact Q.
  Qed.
  Theorem like_format stack cfg root root' : like None root root' ->
    format_tree checked stack cfg root' = format_tree checked stack cfg root.
  Proof.
    intro L. unfold format_tree. rewrite (like_collect_comments _ _ _ L).
    destruct (collect_comments root) as [cm| |]; cbn; try reflexivity.
    assert (H := like_new cm stack Root _ _ (Sim_root _ _ anyway _ _ I L) I).
    destruct (new cm checked stack Root (root_loc root)) as [d| |],
      (new (cmf f cm) checked stack Root (root_loc root')) as [d'| |]; try contradiction; cbn in H |- *; subst; try reflexivity.
    destruct (PrettyConfig_new (cfg_indent_size cfg)) as [b| |]; cbn; try reflexivity.
    rewrite (H I). clear H. rewrite (run_f f inj). destruct (run cm b d) as [[o w]| |]; cbn; try reflexivity.
    unfold assert_no_missing_comments. rewrite (missing_f f inj). reflexivity.
  Qed.
End Spacing.

(* ------------------------------------------------------------ numbering the nodes *)

Definition swap (u v y : N) : N := if (y =? u)%N then v else if (y =? v)%N then u else y.
Lemma swap_inj u v y z : swap u v y = swap u v z -> y = z.
Proof.
  unfold swap. destruct (N.eqb_spec y u), (N.eqb_spec z u), (N.eqb_spec y v), (N.eqb_spec z v); subst; congruence.
Qed.
Lemma renaming : forall l l' : list N, NoDup l -> NoDup l' -> List.length l = List.length l' ->
  exists f, (forall a b, f a = f b -> a = b) /\ map f l = l'.
Proof.
  induction l as [|a l IH]; intros [|b l'] D D' E; try discriminate.
  - exists (fun x => x). split; [auto|reflexivity].
  - inversion D as [|? ? Da Dl]; subst. inversion D' as [|? ? Db Dl']; subst. injection E as E.
    destruct (IH l' Dl Dl' E) as (f & I & M). exists (fun x => swap (f a) b (f x)). split.
    + intros x y H. apply I. exact (swap_inj _ _ _ _ H).
    + cbn. f_equal; [unfold swap; rewrite N.eqb_refl; reflexivity|]. rewrite <- M. apply map_ext_in. intros x X.
      unfold swap. destruct (N.eqb_spec (f x) (f a)) as [Q|_]; [apply I in Q; subst; contradiction|].
      destruct (N.eqb_spec (f x) b) as [Q|_]; [|reflexivity]. subst b. destruct Db. rewrite <- M. apply in_map. exact X.
Qed.
Section Number.
  Variable gp : node -> node -> node -> nat * nat.
  Lemma alike_size : forall n p n', alike_by gp p n n' -> List.length (all_nodes n) = List.length (all_nodes n').
  Proof.
    intro n. induction n as [i cs IH] using node_nested_ind. intros p [i' cs'] A. inversion A as [? ? ? _ _ _ _ _ _ K]; subst.
    cbn [children] in K. cbn. f_equal. clear A. revert IH. induction K as [|c c' ds ds' C K IHK]; intro IH; [reflexivity|].
    inversion IH; subst. cbn. rewrite !app_length. f_equal; [eauto|apply IHK; assumption].
  Qed.
  Lemma alike_like f : forall n p n', alike_by gp p n n' -> map f (map n_id (all_nodes n)) = map n_id (all_nodes n') ->
    like f gp p n n'.
  Proof.
    intro n. induction n as [i cs IH] using node_nested_ind. intros p [i' cs'] A E.
    inversion A as [? ? ? A1 A2 A3 A4 A5 A6 K]; subst. cbn [all_nodes map] in E. injection E as E1 E2.
    constructor; try assumption; [symmetry; exact E1|]. clear A A2 A4 A5 A6 A1 A3 E1. cbn [children] in *.
    revert K E2. generalize (Some (Node i cs)). intros q K E2.
    revert IH E2. induction K as [|c c' ds ds' C K IHK]; intros IH E2; [constructor|].
    inversion IH; subst. cbn [flat_map] in E2. rewrite !map_app in E2.
    assert (L : List.length (map f (map n_id (all_nodes c))) = List.length (map n_id (all_nodes c'))).
    { rewrite !map_length. exact (alike_size _ _ _ C). }
    assert (S := f_equal (firstn (List.length (map f (map n_id (all_nodes c))))) E2).
    assert (T := f_equal (skipn (List.length (map f (map n_id (all_nodes c))))) E2).
    rewrite firstn_app, Nat.sub_diag, firstn_all, firstn_O, app_nil_r, L, firstn_app, Nat.sub_diag, firstn_all, firstn_O, app_nil_r in S.
    rewrite skipn_app, Nat.sub_diag, skipn_all, skipn_O, L, skipn_app, Nat.sub_diag, skipn_all, skipn_O in T. cbn [app] in T.
    constructor; [eauto|apply IHK; assumption].
  Qed.
  Theorem alike_by_format checked
    (G1 : forall p p' a a' b b', same_node p p' -> same_node a a' -> same_node b b' -> gp p a b = gp p' a' b' ->
      n_extra a || n_extra b = true -> rows_apart a b = rows_apart a' b')
    (G2 : forall p p' a a' b b', same_node p p' -> same_node a a' -> same_node b b' -> gp p a b = gp p' a' b' ->
      has_members p = true -> trail checked a b = trail checked a' b') stack cfg root root' :
    alike_by gp None root root' -> distinct_ids root -> distinct_ids root' ->
    format_tree checked stack cfg root' = format_tree checked stack cfg root.
  Proof.
    intros A D D'. destruct (renaming _ _ D D') as (f & I & M); [rewrite !map_length; exact (alike_size _ _ _ A)|].
    exact (like_format f I gp checked G1 G2 stack cfg root root' (alike_like f _ _ _ A M)).
  Qed.
End Number.

Lemma members_same p p' : same_node p p' -> has_members p = has_members p'.
Proof. intros (A & B & C & D). unfold has_members, has_field. rewrite A, D. reflexivity. Qed.
Theorem alike_format checked stack cfg root root' :
  alike None root root' -> distinct_ids root -> distinct_ids root' ->
  format_tree checked stack cfg root' = format_tree checked stack cfg root.
Proof.
  apply alike_by_format; intros p p' a a' b b' P A B E H; unfold gap in E; injection E as E1 E2.
  - assert (X : n_extra a' || n_extra b' = true) by (destruct A as (_ & _ & <- & _), B as (_ & _ & <- & _); exact H).
    rewrite H, X in E1. exact E1.
  - rewrite <- (members_same _ _ P), H in E2. unfold trail.
    destruct (n_srow b =? 0)%N, (n_srow b' =? 0)%N; try reflexivity.
    + destruct (_ <? _)%N in E2; discriminate.
    + destruct (_ <? _)%N in E2; discriminate.
    + f_equal. rewrite !below_alt. destruct (n_erow a + 1 <? n_srow b)%N, (n_erow a' + 1 <? n_srow b')%N; try reflexivity; discriminate.
Qed.
