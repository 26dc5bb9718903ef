(* LayoutNew.v: the constructors of New.v read the same builder calls from two trees
   that are alike.  Proofs only. *)
From Coq Require Import Lia Sorting.Sorted.
From Verif Require Import Base Doc DocBuilder Cst Comments Term New SpecTree SpecLayout.
Open Scope res_scope.
Local Open Scope string_scope.
Local Open Scope list_scope.

(* ------------------------------------------------------------ related results *)

Definition rr {A B} (R : A -> B -> Prop) (a : res A) (b : res B) : Prop :=
  match a, b with
  | Ok x, Ok y => R x y
  | Panic w, Panic w' => w = w'
  | Overflow, Overflow => True
  | _, _ => False
  end.
Lemma rr_bind {A A' B B'} (R : A -> A' -> Prop) (S : B -> B' -> Prop) a a' k k' :
  rr R a a' -> (forall x x', R x x' -> rr S (k x) (k' x')) -> rr S (rbind a k) (rbind a' k').
Proof. destruct a, a'; cbn; intros H K; try contradiction; auto. Qed.
Lemma rr_map {A A' B B'} (R : A -> A' -> Prop) (S : B -> B' -> Prop) a a' k k' :
  rr R a a' -> (forall x x', R x x' -> S (k x) (k' x')) -> rr S (rmap k a) (rmap k' a').
Proof. intros H K. unfold rmap. eapply rr_bind; [exact H|]. intros x x' Hx. apply K. exact Hx. Qed.
Lemma rr_impl {A B} (R S : A -> B -> Prop) a b : (forall x y, R x y -> S x y) -> rr R a b -> rr S a b.
Proof. destruct a, b; cbn; auto. Qed.
Lemma rr_refl {A} (a : res A) : rr eq a a.
Proof. destruct a; cbn; auto. Qed.
Lemma rr_eq {A} (a b : res A) : rr eq a b <-> a = b.
Proof. destruct a, b; cbn; split; intro H; try contradiction; try congruence; try exact I. Qed.
Lemma rr_mapR {A A' B B'} (R : A -> A' -> Prop) (S : B -> B' -> Prop) k k' l l' :
  Forall2 R l l' -> (forall x x', R x x' -> rr S (k x) (k' x')) -> rr (Forall2 S) (mapR k l) (mapR k' l').
Proof.
  intros H K. induction H as [|x y l l' Hx Hl IH]; cbn; [constructor|].
  eapply rr_bind; [apply K; exact Hx|]. intros y1 y2 Hy. eapply rr_bind; [exact IH|].
  intros z1 z2 Hz. cbn. constructor; assumption.
Qed.
Definition oo {A B} (R : A -> B -> Prop) (a : option A) (b : option B) : Prop :=
  match a, b with Some x, Some y => R x y | None, None => True | _, _ => False end.
Lemma rr_must {A B} (R : A -> B -> Prop) w a b : oo R a b -> rr R (must w a) (must w b).
Proof. destruct a, b; cbn; auto. Qed.

Lemma f2_filter {A B} (R : A -> B -> Prop) p q l l' :
  Forall2 R l l' -> (forall x y, R x y -> p x = q y) ->
  Forall2 (fun x y => R x y /\ p x = true) (filter p l) (filter q l').
Proof.
  intros H K. induction H as [|x y l l' Hx Hl IH]; cbn; [constructor|].
  rewrite <- (K _ _ Hx). destruct (p x) eqn:E; [constructor; auto|exact IH].
Qed.
Lemma f2_find {A B} (R : A -> B -> Prop) p q l l' :
  Forall2 R l l' -> (forall x y, R x y -> p x = q y) ->
  oo (fun x y => R x y /\ p x = true) (find p l) (find q l').
Proof.
  intros H K. induction H as [|x y l l' Hx Hl IH]; cbn; [exact I|].
  rewrite <- (K _ _ Hx). destruct (p x) eqn:E; [cbn; auto|exact IH].
Qed.
Lemma f2_impl {A B} (R S : A -> B -> Prop) l l' : (forall x y, R x y -> S x y) -> Forall2 R l l' -> Forall2 S l l'.
Proof. intros K H. induction H; constructor; auto. Qed.
Lemma f2_hd {A B} (R : A -> B -> Prop) l l' : Forall2 R l l' -> oo R (hd_error l) (hd_error l').
Proof. intros []; cbn; auto. Qed.
Lemma f2_rev {A B} (R : A -> B -> Prop) l l' : Forall2 R l l' -> Forall2 R (rev l) (rev l').
Proof.
  intro H. induction H as [|x y l l' Hx Hl IH]; cbn; [constructor|].
  apply Forall2_app; [exact IH|]. constructor; [exact Hx|constructor].
Qed.
Lemma f2_nil {A B} (R : A -> B -> Prop) l l' : Forall2 R l l' -> is_nil l' = is_nil l.
Proof. intros []; reflexivity. Qed.
Lemma f2_existsb {A B} (R : A -> B -> Prop) p q l l' :
  Forall2 R l l' -> (forall x y, R x y -> p x = q y) -> existsb p l = existsb q l'.
Proof. intros H K. induction H as [|x y l l' Hx Hl IH]; cbn; [reflexivity|]. rewrite (K _ _ Hx), IH. reflexivity. Qed.
Lemma f2_map {A B C} (f : A -> C) (g : B -> C) (R : A -> B -> Prop) l l' :
  Forall2 R l l' -> (forall x y, R x y -> g y = f x) -> map g l' = map f l.
Proof. intros H K. induction H as [|x y l l' Hx Hl IH]; cbn; [reflexivity|]. rewrite (K _ _ Hx), IH. reflexivity. Qed.
Lemma f2_eqmap {A B} (f : A -> B) l l' : Forall2 (fun x y => y = f x) l l' -> l' = map f l.
Proof. intro H. induction H; cbn; congruence. Qed.
Lemma f2_tl {A B} (R : A -> B -> Prop) l l' : Forall2 R l l' -> Forall2 R (tl l) (tl l').
Proof. intros []; cbn; auto. Qed.
Lemma f2_split {A B} (R : A -> B -> Prop) l : forall l' a x b, Forall2 R l l' -> l = a ++ x :: b ->
  exists a' x' b', l' = a' ++ x' :: b' /\ Forall2 R a a' /\ R x x' /\ Forall2 R b b'.
Proof.
  intros l' a x b H E. rewrite E in H. apply Forall2_app_inv_l in H. destruct H as (a' & r & Ha & Hr & El).
  inversion Hr as [|? x' ? b' Hx Hb]; subst. exists a', x', b'. auto.
Qed.

(* ------------------------------------------------------------ renaming the nodes in builder calls *)

Section Rename.
  Variable f : N -> N.
  Definition pmap (p : punct) : punct := match p with Punct c i => Punct c (f i) end.
  Definition xmap (x : context) : context := {| x_id := f (x_id x); x_punc := option_map pmap (x_punc x) |}.
  Fixpoint dmap (d : dt) : dt :=
    match d with
    | TTxt s => TTxt s
    | TLeaf l => TLeaf l
    | TEmptyLine => TEmptyLine
    | TConcat l => TConcat (map dmap l)
    | TIndent x => TIndent (dmap x)
    | TDedent x => TDedent (dmap x)
    | TGroup x => TGroup (dmap x)
    | TIntersperse l s => TIntersperse (map dmap l) s
    | TSurround l s o c => TSurround (map dmap l) s o c
    | TMembers ms => TMembers (map (fun m : dt * bool => let (x, b) := m in (dmap x, b)) ms)
    | TSurroundMembers ms o c => TSurroundMembers (map (fun m : dt * bool => let (x, b) := m in (dmap x, b)) ms) o c
    | TNode h x b tl => TNode h (xmap x) (map dmap b) (map dmap tl)
    | TPunct p => TPunct (pmap p)
    | TPanic w => TPanic w
    end.
End Rename.

(* ------------------------------------------------------------ related trees *)

Section Like.
  Variable f : N -> N.
  Variable gp : node -> node -> node -> nat * nat.
  Inductive like : option node -> node -> node -> Prop :=
  | Like p n n' :
      n_id n' = f (n_id n) -> same_node n n' -> same_text p n n' ->
      (n_extra n = true -> n_named n = true) ->
      in_sequence n -> in_sequence n' ->
      spacing gp n None None (children n) = spacing gp n' None None (children n') ->
      Forall2 (like (Some n)) (children n) (children n') ->
      like p n n'.

  Lemma like_id p n n' : like p n n' -> n_id n' = f (n_id n).
  Proof. intros []; assumption. Qed.
  Lemma like_node p n n' : like p n n' -> same_node n n'.
  Proof. intros []; assumption. Qed.
  Lemma like_text p n n' : like p n n' -> same_text p n n'.
  Proof. intros []; assumption. Qed.
  Lemma like_kids p n n' : like p n n' -> Forall2 (like (Some n)) (children n) (children n').
  Proof. intros []; assumption. Qed.
  Lemma like_seq p n n' : like p n n' -> in_sequence n /\ in_sequence n'.
  Proof. intros []; split; assumption. Qed.
  Lemma like_spacing p n n' : like p n n' ->
    spacing gp n None None (children n) = spacing gp n' None None (children n').
  Proof. intros []; assumption. Qed.
  Lemma like_kind p n n' : like p n n' -> n_kind n = n_kind n'.
  Proof. intro H. apply (like_node _ _ _ H). Qed.
  Lemma like_named p n n' : like p n n' -> n_named n = n_named n'.
  Proof. intro H. apply (like_node _ _ _ H). Qed.
  Lemma like_extra p n n' : like p n n' -> n_extra n = n_extra n'.
  Proof. intro H. apply (like_node _ _ _ H). Qed.
  Lemma like_field p n n' : like p n n' -> n_field n = n_field n'.
  Proof. intro H. apply (like_node _ _ _ H). Qed.
  Lemma like_has_kind k p n n' : like p n n' -> has_kind k n = has_kind k n'.
  Proof. intro H. unfold has_kind. rewrite (like_kind _ _ _ H). reflexivity. Qed.
  Lemma like_has_field k p n n' : like p n n' -> has_field k n = has_field k n'.
  Proof. intro H. unfold has_field. rewrite (like_field _ _ _ H). reflexivity. Qed.

  (* -------------------------------------------------------- places *)

  Definition up_node (l : loc) : option node := option_map l_node (parent l).
  Variable top : node -> node -> Prop.
  Inductive sim : loc -> loc -> Prop :=
  | Sim_root n n' : top n n' -> like None n n' -> sim (root_loc n) (root_loc n')
  | Sim_kid u u' left left' n n' right right' :
      sim u u' ->
      children (l_node u) = rev left ++ n :: right -> children (l_node u') = rev left' ++ n' :: right' ->
      Forall2 (like (Some (l_node u))) left left' -> like (Some (l_node u)) n n' ->
      Forall2 (like (Some (l_node u))) right right' ->
      sim (Loc n left right (Some u)) (Loc n' left' right' (Some u')).

  Lemma sim_like l l' : sim l l' -> like (up_node l) (l_node l) (l_node l').
  Proof. intros []; assumption. Qed.
  Lemma sim_kind l l' : sim l l' -> kind l' = kind l.
  Proof. intro H. symmetry. apply (like_kind _ _ _ (sim_like _ _ H)). Qed.
  Lemma sim_is_kind k l l' : sim l l' -> is_kind k l' = is_kind k l.
  Proof. intro H. symmetry. apply (like_has_kind _ _ _ _ (sim_like _ _ H)). Qed.
  Lemma sim_parent l l' : sim l l' -> oo sim (parent l) (parent l').
  Proof. intros []; cbn; auto. Qed.
  Definition simp (u : option loc) (c c' : loc) : Prop := sim c c' /\ parent c = u.
  Lemma sim_locs_from u u' : sim u u' -> forall cs cs' left left',
    children (l_node u) = rev left ++ cs -> children (l_node u') = rev left' ++ cs' ->
    Forall2 (like (Some (l_node u))) left left' -> Forall2 (like (Some (l_node u))) cs cs' ->
    Forall2 (simp (Some u)) (locs_from u left cs) (locs_from u' left' cs').
  Proof.
    intros S cs cs' left left' E E' HL H. revert left left' E E' HL.
    induction H as [|x y cs cs' Hx Hc IH]; intros left left' E E' HL; cbn [locs_from]; [constructor|].
    constructor.
    - split; [econstructor; eassumption|reflexivity].
    - apply IH.
      + cbn [rev]. rewrite <- app_assoc. exact E.
      + cbn [rev]. rewrite <- app_assoc. exact E'.
      + constructor; assumption.
  Qed.
  Lemma sim_kids_p l l' : sim l l' -> Forall2 (simp (Some l)) (kids l) (kids l').
  Proof.
    intro S. unfold kids. apply sim_locs_from; auto.
    apply like_kids with (p := up_node l). apply sim_like. exact S.
  Qed.
  Lemma sim_kids l l' : sim l l' -> Forall2 sim (kids l) (kids l').
  Proof. intro S. eapply f2_impl; [|apply sim_kids_p; exact S]. intros x y []; assumption. Qed.
  Lemma sim_named l l' : sim l l' -> is_named l = is_named l'.
  Proof. intro S. apply (like_named _ _ _ (sim_like _ _ S)). Qed.
  Lemma sim_extra l l' : sim l l' -> is_extra l = is_extra l'.
  Proof. intro S. apply (like_extra _ _ _ (sim_like _ _ S)). Qed.
  Lemma sim_named_kids l l' : sim l l' -> Forall2 (simp (Some l)) (named_kids l) (named_kids l').
  Proof.
    intro S. unfold named_kids. eapply f2_impl; [|apply f2_filter; [apply sim_kids_p; exact S|]].
    - intros x y []. assumption.
    - intros x y []. apply sim_named. assumption.
  Qed.
  Lemma sim_children_vec l l' : sim l l' -> Forall2 (simp (Some l)) (children_vec l) (children_vec l').
  Proof.
    intro S. unfold children_vec. eapply f2_impl; [|apply f2_filter; [apply sim_named_kids; exact S|]].
    - intros x y []. assumption.
    - intros x y []. f_equal. apply sim_extra. assumption.
  Qed.
  (* found by kind *)
  Definition simk (k : string) (u : option loc) (c c' : loc) : Prop := sim c c' /\ parent c = u /\ is_kind k c = true.
  Lemma sim_try_k k l l' : sim l l' -> oo (simk k (Some l)) (try_c_by_k k l) (try_c_by_k k l').
  Proof.
    intro S. unfold try_c_by_k.
    pose proof (f2_find (simp (Some l)) (is_kind k) (is_kind k) _ _ (sim_named_kids _ _ S)) as H.
    assert (K : forall x y, simp (Some l) x y -> is_kind k x = is_kind k y)
      by (intros x y []; symmetry; apply sim_is_kind; assumption).
    specialize (H K). destruct (find _ _), (find _ _); cbn in *; auto. destruct H as [[H P] Q]. repeat split; assumption.
  Qed.
  Lemma sim_try_ks k l l' : sim l l' -> Forall2 (simk k (Some l)) (try_cs_by_k k l) (try_cs_by_k k l').
  Proof.
    intro S. unfold try_cs_by_k. eapply f2_impl; [|apply f2_filter; [apply sim_named_kids; exact S|]].
    - intros x y [[A B] C]. repeat split; assumption.
    - intros x y []; symmetry; apply sim_is_kind; assumption.
  Qed.
  Lemma sim_c_k k l l' : sim l l' -> rr (simk k (Some l)) (c_by_k k l) (c_by_k k l').
  Proof. intro S. apply rr_must, sim_try_k, S. Qed.
  Lemma sim_cs_k k l l' : sim l l' -> rr (Forall2 (simk k (Some l))) (cs_by_k k l) (cs_by_k k l').
  Proof. intro S. unfold cs_by_k. destruct (sim_try_ks k _ _ S); cbn; [reflexivity|]. constructor; assumption. Qed.
  (* found by field *)
  Definition simf (g : string) (u : option loc) (c c' : loc) : Prop :=
    sim c c' /\ parent c = u /\ has_field g (l_node c) = true.
  Lemma sim_try_n g l l' : sim l l' -> oo (simf g (Some l)) (try_c_by_n g l) (try_c_by_n g l').
  Proof.
    intro S. unfold try_c_by_n.
    pose proof (f2_find (simp (Some l)) (fun c => has_field g (l_node c)) (fun c => has_field g (l_node c)) _ _ (sim_kids_p _ _ S)) as H.
    assert (K : forall x y, simp (Some l) x y -> has_field g (l_node x) = has_field g (l_node y))
      by (intros x y [Q _]; apply (like_has_field _ _ _ _ (sim_like _ _ Q))).
    specialize (H K). destruct (find _ _), (find _ _); cbn in *; auto. destruct H as [[H P] Q]. repeat split; assumption.
  Qed.
  Lemma sim_c_n g l l' : sim l l' -> rr (simf g (Some l)) (c_by_n g l) (c_by_n g l').
  Proof. intro S. apply rr_must, sim_try_n, S. Qed.
  Lemma sim_cs_n g l l' : sim l l' -> rr (Forall2 (simf g (Some l))) (cs_by_n g l) (cs_by_n g l').
  Proof.
    intro S. unfold cs_by_n.
    assert (H : Forall2 (simf g (Some l)) (filter (fun c => has_field g (l_node c)) (kids l))
                  (filter (fun c => has_field g (l_node c)) (kids l'))).
    { eapply f2_impl; [|apply f2_filter; [apply sim_kids_p; exact S|]].
      - intros x y [[A B] C]. repeat split; assumption.
      - intros x y [Q _]. apply (like_has_field _ _ _ _ (sim_like _ _ Q)). }
    destruct H; cbn; [reflexivity|]. constructor; assumption.
  Qed.
  Lemma sim_first l l' : sim l l' -> rr (simp (Some l)) (first_c l) (first_c l').
  Proof. intro S. apply rr_must. unfold try_first_c. apply f2_hd, sim_children_vec, S. Qed.
  Lemma sim_next_from u u' : sim u u' -> forall right right' left left',
    children (l_node u) = rev left ++ right -> children (l_node u') = rev left' ++ right' ->
    Forall2 (like (Some (l_node u))) left left' -> Forall2 (like (Some (l_node u))) right right' ->
    oo (simp (Some u)) (next_named_from left right (Some u)) (next_named_from left' right' (Some u')).
  Proof.
    intros S right right' left left' E E' HL H. revert left left' E E' HL.
    induction H as [|x y r r' Hx Hr IH]; intros left left' E E' HL; cbn [next_named_from]; [exact I|].
    rewrite <- (like_named _ _ _ Hx), <- (like_extra _ _ _ Hx).
    destruct (n_named x && negb (n_extra x)).
    - cbn. split; [econstructor; eassumption|reflexivity].
    - apply IH.
      + cbn [rev]. rewrite <- app_assoc. exact E.
      + cbn [rev]. rewrite <- app_assoc. exact E'.
      + constructor; assumption.
  Qed.
  Lemma sim_next l l' : sim l l' -> rr (simp (parent l)) (next_named l) (next_named l').
  Proof.
    intro S. unfold next_named. apply rr_must. destruct S as [n n' Ht H|u u' left left' n n' right right' S E E' HL H HR].
    - exact I.
    - cbn. apply sim_next_from; auto.
      + cbn [rev]. rewrite <- app_assoc. exact E.
      + cbn [rev]. rewrite <- app_assoc. exact E'.
  Qed.

  (* -------------------------------------------------------- contexts *)

  Lemma peek_like p r r' : Forall2 (like p) r r' -> oo (like p) (peek r) (peek r').
  Proof.
    intro H. induction H as [|x y r r' Hx Hr IH]; cbn; [exact I|].
    rewrite <- (like_extra _ _ _ Hx). destruct (n_extra x); [exact IH|exact Hx].
  Qed.
  Lemma sim_right l l' : sim l l' -> Forall2 (like (up_node l)) (l_right l) (l_right l').
  Proof. intros []; cbn; [constructor|assumption]. Qed.
  Lemma sim_punct_from l l' : sim l l' -> punct_from l' = option_map (pmap f) (punct_from l).
  Proof.
    intro S. unfold punct_from. pose proof (peek_like _ _ _ (sim_right _ _ S)) as H.
    destruct (peek (l_right l)) as [s|], (peek (l_right l')) as [s'|]; cbn in H; try contradiction; [|reflexivity].
    rewrite <- !(like_has_kind _ _ _ _ H), (like_id _ _ _ H).
    destruct (has_kind "," s); [reflexivity|]. destruct (has_kind ";" s); reflexivity.
  Qed.
  Lemma sim_punct_inner l l' : sim l l' -> punct_from_inner l' = option_map (pmap f) (punct_from_inner l).
  Proof.
    intro S. unfold punct_from_inner. pose proof (like_kids _ _ _ (sim_like _ _ S)) as H.
    pose proof (f2_find _ is_punctuation_node is_punctuation_node _ _ H) as F.
    assert (K : forall x y, like (Some (l_node l)) x y -> is_punctuation_node x = is_punctuation_node y)
      by (intros x y Q; unfold is_punctuation_node; rewrite !(like_has_kind _ _ _ _ Q); reflexivity).
    specialize (F K). destruct (find _ _) as [s|], (find _ _) as [s'|]; cbn in F; try contradiction; [|reflexivity].
    destruct F as [Q _]. cbn. rewrite (like_id _ _ _ Q), (like_has_kind _ _ _ _ Q). reflexivity.
  Qed.
  Lemma sim_with l l' : sim l l' -> with_punctuation l' = xmap f (with_punctuation l).
  Proof.
    intro S. unfold with_punctuation, xmap. cbn. rewrite (like_id _ _ _ (sim_like _ _ S)), (sim_punct_from _ _ S). reflexivity.
  Qed.
  Lemma sim_with_inner l l' : sim l l' -> with_inner_punctuation l' = xmap f (with_inner_punctuation l).
  Proof.
    intro S. unfold with_inner_punctuation, xmap. cbn. rewrite (like_id _ _ _ (sim_like _ _ S)), (sim_punct_inner _ _ S). reflexivity.
  Qed.
  Lemma sim_without l l' : sim l l' -> without_punctuation l' = xmap f (without_punctuation l).
  Proof.
    intro S. unfold without_punctuation, xmap. cbn. rewrite (like_id _ _ _ (sim_like _ _ S)). reflexivity.
  Qed.

  (* -------------------------------------------------------- texts *)

  Definition exact_kinds : list string :=
    ["identifier"; "type_identifier"; "void_type"; "int"; "decimal"; "string_literal";
     "date"; "in_type"; "field"; "using_scope_type"; "order_direction"; "order_null_direction";
     "for_type"; "assignment_operator"; "update_type"; "term"; "value_comparison_operator";
     "set_comparison_operator"; "user"; "system"; "else"].
  Lemma kind_in_in k ks : kind_in k ks = true -> In k ks.
  Proof.
    unfold kind_in. intro H. apply existsb_exists in H. destruct H as (x & Hx & E). apply String.eqb_eq in E.
    rewrite E. exact Hx.
  Qed.
  Lemma text_exact c c' : sim c c' -> kind_in (kind c) exact_kinds = true -> value c' = value c.
  Proof.
    intros S K. pose proof (like_text _ _ _ (sim_like _ _ S)) as T. unfold same_text in T. unfold value.
    destruct (word_field _ _); [symmetry; exact T|].
    unfold in_lower_case, in_upper_case, word_kind, has_kind in T. change (n_kind (l_node c)) with (kind c) in T.
    apply kind_in_in in K. cbn [In exact_kinds] in K.
    repeat (destruct K as [K|K]; [rewrite <- K in T; cbn in T; symmetry; exact T|]). contradiction.
  Qed.
  Lemma text_field g l c c' : simf g (Some l) c c' ->
    In g ["name"; "key"; "operator"; "accessor"; "function_name"; "version_num"; "field"] -> value c' = value c.
  Proof.
    intros (S & P & G) I. pose proof (like_text _ _ _ (sim_like _ _ S)) as T. unfold same_text in T. unfold value.
    assert (W : word_field (up_node c) (l_node c) = true).
    { unfold word_field. apply orb_true_iff. left. apply orb_true_iff. left. apply existsb_exists. exists g. auto. }
    rewrite W in T. symmetry. exact T.
  Qed.
  Lemma text_value l c c' : simf "value" (Some l) c c' ->
    has_field "arguments" (l_node l) || is_kind "annotation_key_value" l = true -> value c' = value c.
  Proof.
    intros (S & P & G) I. pose proof (like_text _ _ _ (sim_like _ _ S)) as T. unfold same_text in T. unfold value.
    assert (W : word_field (up_node c) (l_node c) = true).
    { unfold word_field, up_node. rewrite P. cbn [option_map parent_kind parent_field]. rewrite G. unfold is_kind, has_kind in I.
      cbn [andb]. rewrite I. rewrite orb_true_r. reflexivity. }
    rewrite W in T. symmetry. exact T.
  Qed.
  Lemma text_object l c c' : simf "object" (Some l) c c' -> is_kind "trigger_declaration" l = true -> value c' = value c.
  Proof.
    intros (S & P & G) I. pose proof (like_text _ _ _ (sim_like _ _ S)) as T. unfold same_text in T. unfold value.
    assert (W : word_field (up_node c) (l_node c) = true).
    { unfold word_field, up_node. rewrite P. cbn [option_map parent_kind parent_field]. rewrite G. unfold is_kind, has_kind in I.
      cbn [andb]. rewrite I. rewrite orb_true_r. reflexivity. }
    rewrite W in T. symmetry. exact T.
  Qed.
  Lemma text_with_type c c' : sim c c' -> is_kind "with_type" c = true -> is_nil (named_kids c) = true -> value c' = value c.
  Proof.
    intros S K E. pose proof (like_text _ _ _ (sim_like _ _ S)) as T. unfold same_text in T. unfold value.
    destruct (word_field _ _); [symmetry; exact T|].
    unfold in_lower_case, in_upper_case, word_kind in T. unfold is_kind in K. rewrite K in T.
    assert (X : existsb n_named (children (l_node c)) = false).
    { destruct (existsb _ _) eqn:X; [|reflexivity]. exfalso. apply existsb_exists in X. destruct X as (x & Hx & Nx).
      assert (Q : forall left cs, In x cs -> exists y, In y (locs_from c left cs) /\ l_node y = x).
      { intros left cs; revert left. induction cs as [|z cs IH]; intros left [].
        - subst. eexists. split; [left; reflexivity|reflexivity].
        - destruct (IH (z :: left) H) as (y & Iy & Ey). exists y. split; [right; exact Iy|exact Ey]. }
      destruct (Q [] _ Hx) as (y & Iy & Ey). unfold named_kids in E.
      assert (Z : In y (filter is_named (kids c))) by (apply filter_In; split; [exact Iy|unfold is_named; rewrite Ey; exact Nx]).
      destruct (filter is_named (kids c)); [destruct Z|discriminate E]. }
    rewrite X in T. unfold has_kind in K, T. apply String.eqb_eq in K. rewrite K in T. cbn in T. symmetry. exact T.
  Qed.
  Definition raw_parent (l : loc) : bool :=
    kind_in (kind l) ["comparison_expression"; "comparable_list"; "with_network_expression"; "with_spell_correction_expression"].
  Lemma text_literal l c c' : simp (Some l) c c' -> raw_parent l = true ->
    kind_in (kind c) ["decimal"; "int"; "string_literal"; "boolean"; "date"; "date_literal"; "null_literal"] = true ->
    value c' = value c.
  Proof.
    intros (S & P) R K. pose proof (like_text _ _ _ (sim_like _ _ S)) as T. unfold same_text in T. unfold value.
    destruct (word_field _ _); [symmetry; exact T|].
    unfold in_lower_case, in_upper_case, word_kind, has_kind in T. unfold up_node in T. rewrite P in T. cbn [option_map parent_kind] in T.
    change (n_kind (l_node l)) with (kind l) in T. unfold raw_parent in R. rewrite R in T.
    assert (D : (kind l =? "date_literal_with_param")%string = false).
    { apply kind_in_in in R. cbn [In] in R. repeat (destruct R as [R|R]; [rewrite <- R; reflexivity|]). contradiction. }
    rewrite D in T.
    change (n_kind (l_node c)) with (kind c) in T.
    apply kind_in_in in K. cbn [In] in K.
    repeat (destruct K as [K|K]; [rewrite <- K in T; cbn in T; rewrite ?andb_false_r in T; cbn in T; symmetry; exact T|]). contradiction.
  Qed.
  Lemma text_bound l c c' : simf "bound_value" (Some l) c c' -> kind l <> "date_literal_with_param" ->
    kind_in (kind c) ["decimal"; "int"; "string_literal"; "boolean"; "date"; "date_literal"; "null_literal"] = true ->
    value c' = value c.
  Proof.
    intros (S & P & G) D K. pose proof (like_text _ _ _ (sim_like _ _ S)) as T. unfold same_text in T. unfold value.
    destruct (word_field _ _); [symmetry; exact T|].
    unfold in_lower_case, in_upper_case, word_kind, has_kind in T. rewrite G in T. unfold up_node in T. rewrite P in T. cbn [option_map parent_kind] in T.
    change (n_kind (l_node l)) with (kind l) in T.
    apply String.eqb_neq in D. rewrite D in T.
    change (n_kind (l_node c)) with (kind c) in T.
    apply kind_in_in in K. cbn [In] in K.
    repeat (destruct K as [K|K]; [rewrite <- K in T; cbn in T; rewrite ?andb_false_r in T; cbn in T; symmetry; exact T|]). contradiction.
  Qed.
  Lemma text_lower c c' : sim c c' ->
    kind_in (kind c) ["boolean"; "null_literal"; "decimal_floating_point_literal"] = true ->
    to_lowercase (value c') = to_lowercase (value c).
  Proof.
    intros S K. pose proof (like_text _ _ _ (sim_like _ _ S)) as T. unfold same_text in T. unfold value.
    destruct (word_field _ _); [rewrite T; reflexivity|].
    destruct (in_lower_case _ _) eqn:L; [symmetry; exact T|].
    unfold in_lower_case, in_upper_case, word_kind, has_kind in L, T. change (n_kind (l_node c)) with (kind c) in T, L.
    apply kind_in_in in K. cbn [In] in K.
    repeat (destruct K as [K|K]; [rewrite <- K in T, L; cbn in T, L; try discriminate L; rewrite T; reflexivity|]). contradiction.
  Qed.
  Lemma text_upper c c' : sim c c' -> kind_in (kind c) ["fields_type"; "with_data_cat_filter_type"] = true ->
    to_uppercase (value c') = to_uppercase (value c).
  Proof.
    intros S K. pose proof (like_text _ _ _ (sim_like _ _ S)) as T. unfold same_text in T. unfold value.
    destruct (word_field _ _); [rewrite T; reflexivity|].
    unfold in_lower_case, in_upper_case, word_kind, has_kind in T. change (n_kind (l_node c)) with (kind c) in T.
    apply kind_in_in in K. cbn [In] in K.
    repeat (destruct K as [K|K]; [rewrite <- K in T; cbn in T; symmetry; exact T|]). contradiction.
  Qed.
  Lemma text_date l c c' : simk "date_literal" (Some l) c c' -> is_kind "date_literal_with_param" l = true ->
    to_uppercase (value c') = to_uppercase (value c).
  Proof.
    intros (S & P & K) D. pose proof (like_text _ _ _ (sim_like _ _ S)) as T. unfold same_text in T. unfold value.
    destruct (word_field _ _); [rewrite T; reflexivity|].
    unfold in_lower_case, in_upper_case, word_kind in T. unfold is_kind in K. rewrite K in T. unfold has_kind in K, T.
    apply String.eqb_eq in K. unfold up_node in T. rewrite P in T. cbn [option_map parent_kind] in T.
    unfold is_kind, has_kind in D. rewrite D in T. rewrite K in T. cbn in T. symmetry. exact T.
  Qed.
End Like.
