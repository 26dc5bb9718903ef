(* DocProofs2.v: width, column, indentation and line-break lemmas. *)
From Verif Require Import Base Doc DocBuilder SpecDoc DocProofs.
Local Arguments N.add : simpl never.
Local Arguments N.sub : simpl never.
Local Arguments N.leb : simpl never.
Local Arguments N.mul : simpl never.
Local Arguments N.eqb : simpl never.
Local Arguments N.of_nat : simpl never.

(* ------------------------------------------------------------ fits = need *)

Lemma need_app_stop a b : (need (a ++ b) = if existsb (fun p => match p with PStop => true | _ => false end) a
                                           then need a else need a + need b)%N.
Proof. induction a as [|[n| |] a IH]; simpl; auto. rewrite IH. destruct (existsb _ a); lia. Qed.

Lemma glances_app a b : glances (a ++ b) = glances a ++ glances b.
Proof. unfold glances. apply flat_map_app. Qed.

Lemma glances_map c l : glances (map (with_doc c) l) = flat_map (glance (ch_flat c)) l.
Proof. induction l as [|d l IH]; simpl; [reflexivity|]. unfold glances in *. simpl. rewrite IH. reflexivity. Qed.

Lemma glance_choice f x y : glance f (Choice x y) = glance f (if f then x else y).
Proof. destruct f; reflexivity. Qed.

(* What the loop of [fits] decides, as a function of the glances. *)
Definition verdict (s : fstate) : bool :=
  (need (glances (f_stack s) ++ glances (f_rest s)) <=? f_rem s)%N
  && negb (f_within s && forced (glances (f_stack s))).

Lemma forced_leave s : f_stack s = [] -> forced (glances (f_stack s)) = false.
Proof. intros ->. reflexivity. Qed.

(* One step on a chunk popped from the local stack. *)
Lemma fits_chunk_verdict c s :
  (f_within s = true \/ f_within s = false) ->
  let v := (need (glance (ch_flat c) (ch_doc c) ++ glances (f_stack s) ++ glances (f_rest s)) <=? f_rem s)%N
           && negb (f_within s && forced (glance (ch_flat c) (ch_doc c) ++ glances (f_stack s))) in
  match fits_chunk c s with inl b => b = v | inr s' => verdict s' = v end.
Proof.
  intros _. destruct c as [d i fl]; simpl. unfold fits_chunk, verdict; simpl.
  destruct d; simpl.
  - destruct (f_within s); simpl; symmetry; rewrite andb_true_r; apply N.leb_le; lia.
  - destruct (f_within s); simpl; symmetry; rewrite andb_true_r; apply N.leb_le; lia.
  - destruct (f_within s) eqn:E; simpl.
    + rewrite andb_false_r; reflexivity.
    + rewrite E. reflexivity.
  - destruct (width <=? f_rem s)%N eqn:E; simpl.
    + apply N.leb_le in E. f_equal.
      destruct (N.leb_spec (need (glances (f_stack s) ++ glances (f_rest s))) (f_rem s - width));
        destruct (N.leb_spec (width + need (glances (f_stack s) ++ glances (f_rest s))) (f_rem s)); auto; lia.
    + apply N.leb_gt in E. symmetry. apply andb_false_iff. left. apply N.leb_gt. lia.
  - destruct fl; simpl.
    + destruct (1 <=? f_rem s)%N eqn:E; simpl.
      * apply N.leb_le in E. f_equal.
        destruct (N.leb_spec (need (glances (f_stack s) ++ glances (f_rest s))) (f_rem s - 1));
          destruct (N.leb_spec (1 + need (glances (f_stack s) ++ glances (f_rest s))) (f_rem s));
          auto; lia.
      * apply N.leb_gt in E. symmetry. apply andb_false_iff. left. apply N.leb_gt. lia.
    + destruct (f_within s); simpl; symmetry; rewrite andb_true_r; apply N.leb_le; lia.
  - destruct fl; simpl; [reflexivity|].
    destruct (f_within s); simpl; symmetry; rewrite andb_true_r; apply N.leb_le; lia.
  - unfold glances; simpl. rewrite <- app_assoc. reflexivity.
  - unfold glances; simpl. rewrite <- app_assoc. reflexivity.
  - unfold glances; simpl. rewrite <- app_assoc. reflexivity.
  - rewrite glances_app, glances_map. simpl. rewrite <- app_assoc. reflexivity.
  - unfold glances; simpl. destruct fl; simpl; rewrite <- app_assoc; reflexivity.
Qed.

Lemma fits_step_verdict s :
  match fits_step s with inl b => b = verdict s | inr s' => verdict s' = verdict s end.
Proof.
  unfold fits_step. destruct (f_stack s) as [|c st] eqn:Hs.
  - destruct (f_rest s) as [|c r] eqn:Hr.
    + unfold verdict. rewrite Hs, Hr. simpl. rewrite andb_false_r. simpl. symmetry.
      rewrite andb_true_r. apply N.leb_le. lia.
    + pose proof (fits_chunk_verdict c
        {| f_rem := f_rem s; f_stack := []; f_rest := r; f_within := false |}
        (or_intror eq_refl)) as H.
      assert (V : verdict s = ((need (glance (ch_flat c) (ch_doc c) ++ glances r) <=? f_rem s)%N && true))
        by (unfold verdict; rewrite Hs, Hr; simpl; rewrite andb_false_r; reflexivity).
      rewrite V. exact H.
  - pose proof (fits_chunk_verdict c
      {| f_rem := f_rem s; f_stack := st; f_rest := f_rest s; f_within := f_within s |}) as H.
    assert (V : verdict s = ((need (glance (ch_flat c) (ch_doc c) ++ glances st ++ glances (f_rest s)) <=? f_rem s)%N
                 && negb (f_within s && forced (glance (ch_flat c) (ch_doc c) ++ glances st))))
      by (unfold verdict; rewrite Hs; unfold glances at 1 3; simpl; rewrite <- app_assoc; reflexivity).
    rewrite V. apply H. destruct (f_within s); auto.
Qed.

Lemma fits_loop_verdict n s b : fits_loop n s = Some b -> b = verdict s.
Proof.
  revert s; induction n as [|n IH]; intros s H; [discriminate|]. simpl in H.
  pose proof (fits_step_verdict s) as V. destruct (fits_step s) as [b'|s'].
  - congruence.
  - rewrite <- V. apply IH; exact H.
Qed.

Lemma fits_spec w col rest c :
  fits w col rest c =
  (need (glance (ch_flat c) (ch_doc c) ++ glances rest) <=? w - col)%N
  && negb (forced (glance (ch_flat c) (ch_doc c))).
Proof.
  unfold fits. destruct (fits_total w col rest c) as [b Hb]. rewrite Hb.
  apply fits_loop_verdict in Hb. rewrite Hb. unfold verdict, fits_init; simpl.
  rewrite app_nil_r. reflexivity.
Qed.

(* ------------------------------------------------------------ output grows *)

Lemma settle_grows s : exists m, settle s = fst s ++ m.
Proof. destruct s as [o [i|]]; simpl; eauto. exists []; rewrite app_nil_r; reflexivity. Qed.

Lemma put_grows o t : exists m, put o t = o ++ m.
Proof. unfold put. destruct (_ && _); eauto. exists []; rewrite app_nil_r; reflexivity. Qed.

Lemma render1_grows s a : exists m, fst (render1 s a) = fst s ++ m.
Proof.
  destruct a; simpl; eauto.
  - destruct (settle_grows s) as [m1 ->], (put_grows (fst s ++ m1) s0) as [m2 ->].
    rewrite <- app_assoc; eauto.
  - exists []; rewrite app_nil_r; reflexivity.
  - apply settle_grows.
Qed.

Lemma render_from_grows l : forall s, exists m, fst (render_from s l) = fst s ++ m.
Proof.
  induction l as [|a l IH]; intro s; simpl.
  - exists []; rewrite app_nil_r; reflexivity.
  - destruct (IH (render1 s a)) as [m1 H1], (render1_grows s a) as [m2 H2].
    exists (m2 ++ m1). unfold render_from in *. simpl. rewrite H1, H2, app_assoc. reflexivity.
Qed.

Lemma settle_render_grows l s : exists m, settle (render_from s l) = fst s ++ m.
Proof.
  destruct (settle_grows (render_from s l)) as [m1 ->], (render_from_grows l s) as [m2 ->].
  rewrite <- app_assoc; eauto.
Qed.

(* Once nothing is pending and text is out, the rest is appended. *)
Lemma settle_pending_starts o i l :
  exists k q, settle (render_from (o, Some i) l) = o ++ repeat c_sp k ++ c_nl :: q.
Proof.
  revert o i; induction l as [|a l IH]; intros o i; simpl.
  - exists 0, (repeat c_sp (N.to_nat i)). reflexivity.
  - change (render_from (o, Some i) (a :: l)) with (render_from (render1 (o, Some i) a) l).
    destruct a; cbn [render1 fst snd settle].
    + destruct (settle_render_grows l (put (o ++ c_nl :: repeat c_sp (N.to_nat i)) s, None)) as [m Hm].
      rewrite Hm. cbn [fst]. destruct (put_grows (o ++ c_nl :: repeat c_sp (N.to_nat i)) s) as [m' ->].
      exists 0. rewrite <- !app_assoc. simpl. eauto.
    + apply IH.
    + destruct (settle_render_grows l (o ++ [c_nl], None)) as [m Hm]. rewrite Hm. simpl.
      exists 0. simpl. rewrite <- app_assoc. simpl. eauto.
    + destruct (IH (o ++ [c_sp]) i) as (k & q & H). rewrite H.
      exists (S k), q. simpl. rewrite <- app_assoc. reflexivity.
    + destruct (settle_render_grows l (o ++ c_nl :: repeat c_sp (N.to_nat i), None)) as [m Hm].
      rewrite Hm. simpl. exists 0. simpl. rewrite <- app_assoc. simpl. eauto.
Qed.

(* ------------------------------------------------------------ parts *)

Lemma layouts_in l d : forall i f a, In d l -> layouts i f l a ->
  exists a1 b a2, a = a1 ++ b ++ a2 /\ layout i f d b.
Proof.
  induction l as [|x l IH]; intros i f a Hin H; [destruct Hin|].
  inversion H; subst. destruct Hin as [->|Hin].
  - exists [], a0, b. split; [reflexivity|assumption].
  - destruct (IH _ _ _ Hin H6) as (a1 & b1 & a2 & -> & Hb).
    exists (a0 ++ a1), b1, a2. rewrite <- app_assoc. auto.
Qed.

Lemma within_layout e d : within e d -> forall i f a, layout i f d a ->
  exists i' f' a1 b a2, a = a1 ++ b ++ a2 /\ layout i' f' e b.
Proof.
  induction 1 as [|d H IH|k d H IH|k d H IH|l d Hin H IH|x y Hx IHx Hy IHy]; intros i f a L.
  - exists i, f, [], a, []. rewrite app_nil_r. auto.
  - inversion L; subst; eauto.
  - inversion L; subst; eauto.
  - inversion L; subst; eauto.
  - inversion L; subst.
    match goal with HL : layouts _ _ _ _ |- _ => destruct (layouts_in _ _ _ _ _ Hin HL) as (p & b & q & -> & Hb) end.
    destruct (IH _ _ _ Hb) as (i' & f' & p' & b' & q' & -> & Hb').
    exists i', f', (p ++ p'), b', (q' ++ q). rewrite !app_assoc. auto.
  - inversion L; subst.
    + match goal with HL : layout _ _ x _ |- _ => destruct (IHx _ _ _ HL) as (i' & f' & p' & b' & q' & -> & Hb') end.
      exists i', f', (AGroup :: p'), b', q'. auto.
    + match goal with HL : layout _ _ y _ |- _ => destruct (IHy _ _ _ HL) as (i' & f' & p' & b' & q' & -> & Hb') end.
      exists i', f', (AGroup :: p'), b', q'. auto.
Qed.

Lemma within_trans a b c : within a b -> within b c -> within a c.
Proof. intros Hab Hbc. induction Hbc; eauto using within. Qed.

Lemma within_group e d : within e d -> within e (group d).
Proof. intro H. apply W_choice; [apply W_flat|]; exact H. Qed.

(* ------------------------------------------------------------ breaks *)

Lemma put_text out t : t <> [c_sp] -> put out t = out ++ t.
Proof.
  intro H. unfold put. destruct (ustr_eqb t [c_sp]) eqn:E; [|reflexivity].
  apply ustr_eqb_eq in E. contradiction.
Qed.

Lemma line_comment_render v i p q :
  v <> [c_sp] ->
  exists a k b, render (p ++ [AText v; ABreak i] ++ q) = a ++ v ++ repeat c_sp k ++ c_nl :: b.
Proof.
  intro Hv. unfold render. rewrite !render_from_app. simpl.
  rewrite put_text by exact Hv.
  destruct (settle_pending_starts (settle (render_from ([], None) p) ++ v) i q) as (k & b & H).
  rewrite H. exists (settle (render_from ([], None) p)), k, b. rewrite <- app_assoc. reflexivity.
Qed.

(* A text and a hard break next to each other anywhere in a document: in the
   printed text only spaces separate the text from the line break. *)
Lemma text_then_newline_printed d w t tw :
  t <> [c_sp] -> within (Concat [Text t tw; Newline]) d ->
  exists a k b, pretty_print d w = a ++ t ++ repeat c_sp k ++ c_nl :: b.
Proof.
  intros Ht Hw. destruct (pretty_print_layout d w) as (a & Ha & ->).
  destruct (within_layout _ _ Hw _ _ _ Ha) as (i' & f' & p & b & q & -> & Hb).
  inversion Hb; subst.
  repeat match goal with H : layouts _ _ _ _ |- _ => inversion H; subst; clear H end.
  repeat match goal with H : layout _ _ (Text _ _) _ |- _ => inversion H; subst; clear H
                       | H : layout _ _ Newline _ |- _ => inversion H; subst; clear H end.
  simpl. apply line_comment_render. exact Ht.
Qed.

(* Any number (>= 1) of hard breaks between two texts: one line break. *)
Lemma breaks_render o i n :
  render_from (o, None) (repeat (ABreak i) (S n)) = (o, Some i).
Proof.
  assert (H : forall m s, fst s = o -> snd s = Some i -> render_from s (repeat (ABreak i) m) = (o, Some i)).
  { induction m as [|m IH]; intros [o' p] H1 H2; simpl in *; subst; [reflexivity|].
    change (render_from (o, Some i) (ABreak i :: repeat (ABreak i) m))
      with (render_from (o, Some i) (repeat (ABreak i) m)). apply IH; reflexivity. }
  simpl. change (render_from (o, None) (ABreak i :: repeat (ABreak i) n))
    with (render_from (o, Some i) (repeat (ABreak i) n)). apply H; reflexivity.
Qed.

Lemma layouts_newlines i f n a :
  layouts i f (repeat Newline n) a -> a = repeat (ABreak i) n.
Proof.
  revert a; induction n as [|n IH]; simpl; intros a H; inversion H; subst; [reflexivity|].
  match goal with H : layout _ _ Newline _ |- _ => inversion H; subst end.
  simpl. f_equal. auto.
Qed.

Lemma layouts_app i f l1 l2 a : layouts i f (l1 ++ l2) a ->
  exists a1 a2, a = a1 ++ a2 /\ layouts i f l1 a1 /\ layouts i f l2 a2.
Proof.
  revert a; induction l1 as [|d l1 IH]; simpl; intros a H.
  - exists [], a. repeat split; auto. constructor.
  - inversion H; subst. destruct (IH _ H6) as (a1 & a2 & -> & H1 & H2).
    exists (a0 ++ a1), a2. rewrite app_assoc. repeat split; auto. constructor; auto.
Qed.

Lemma breaks_between_texts_printed d w s sw t tw n :
  s <> [c_sp] -> t <> [c_sp] ->
  within (Concat (Text s sw :: repeat Newline (S n) ++ [Text t tw])) d ->
  exists a i b, pretty_print d w = a ++ s ++ c_nl :: repeat c_sp (N.to_nat i) ++ t ++ b.
Proof.
  intros Hs Ht Hw. destruct (pretty_print_layout d w) as (a & Ha & ->).
  destruct (within_layout _ _ Hw _ _ _ Ha) as (i' & f' & p & b & q & -> & Hb).
  remember (repeat Newline (S n)) as nls eqn:Enls.
  inversion Hb as [| | | | | | | | | | |i f l a' HL| |]; subst i f l a'.
  inversion HL as [|i f x l a' c Hx Hl]; subst i f x l b.
  inversion Hx; subst. apply layouts_app in Hl as (a1 & a2 & -> & H1 & H2).
  apply layouts_newlines in H1 as ->. inversion H2; subst.
  match goal with H : layouts _ _ [] _ |- _ => inversion H; subst; clear H end.
  match goal with H : layout _ _ (Text _ _) _ |- _ => inversion H; subst; clear H end.
  unfold render. rewrite app_nil_r, !render_from_app.
  set (o := render_from ([], None) p).
  change (render_from o [AText s]) with (put (settle o) s, @None N).
  rewrite put_text by exact Hs. rewrite breaks_render.
  change (render_from (settle o ++ s, Some i') [AText t])
    with (put ((settle o ++ s) ++ c_nl :: repeat c_sp (N.to_nat i')) t, @None N).
  rewrite put_text by exact Ht.
  destruct (settle_render_grows q (((settle o ++ s) ++ c_nl :: repeat c_sp (N.to_nat i')) ++ t, None)) as [m ->].
  exists (settle o), i', m. simpl. rewrite <- !app_assoc. reflexivity.
Qed.

(* [empty_new_line] between two texts: exactly one blank line. *)
Lemma empty_line_between_texts_printed d w s sw t tw :
  s <> [c_sp] -> t <> [c_sp] ->
  within (Concat [Text s sw; empty_new_line; Text t tw]) d ->
  exists a i b, pretty_print d w = a ++ s ++ c_nl :: c_nl :: repeat c_sp (N.to_nat i) ++ t ++ b.
Proof.
  intros Hs Ht Hw. destruct (pretty_print_layout d w) as (a & Ha & ->).
  destruct (within_layout _ _ Hw _ _ _ Ha) as (i' & f' & p & b & q & -> & Hb).
  unfold empty_new_line, DocBuilder.concat, nl in Hb.
  inversion Hb as [| | | | | | | | | | |i f l a' HL| |]; subst.
  repeat match goal with
         | H : layouts _ _ _ _ |- _ => inversion H; subst; clear H
         | H : layout _ _ (Text _ _) _ |- _ => inversion H; subst; clear H
         | H : layout _ _ Newline _ |- _ => inversion H; subst; clear H
         | H : layout _ _ NewlineNoIndent _ |- _ => inversion H; subst; clear H
         | H : layout _ _ (Concat _) _ |- _ => inversion H; subst; clear H
         end.
  unfold render. rewrite !render_from_app.
  set (o := render_from ([], None) p).
  match goal with |- exists a i b, settle (render_from ?S q) = _ =>
    assert (HS : S = ((((settle o ++ s) ++ [c_nl]) ++ c_nl :: repeat c_sp (N.to_nat i')) ++ t, None)) end.
  { unfold render_from; cbn [fold_left app render1 fst snd settle].
    rewrite !put_text by assumption. reflexivity. }
  rewrite HS. clear HS.
  match goal with |- exists a i b, settle (render_from ?S q) = _ =>
    destruct (settle_render_grows q S) as [m ->] end.
  exists (settle o), i', m. cbn [fst]. rewrite <- !app_assoc. reflexivity.
Qed.

(* Every text other than a lone space is printed in full. *)
Lemma text_printed d w t tw :
  t <> [c_sp] -> within (Text t tw) d -> exists a b, pretty_print d w = a ++ t ++ b.
Proof.
  intros Ht Hw. destruct (pretty_print_layout d w) as (a & Ha & ->).
  destruct (within_layout _ _ Hw _ _ _ Ha) as (i' & f' & p & b & q & -> & Hb).
  inversion Hb; subst. unfold render. rewrite !render_from_app.
  set (o := render_from ([], None) p).
  change (render_from o [AText t]) with (put (settle o) t, @None N).
  rewrite put_text by exact Ht.
  destruct (settle_render_grows q (settle o ++ t, None)) as [m ->].
  cbn [fst]. rewrite <- app_assoc. eauto.
Qed.

(* A document that ends in a hard break at the left margin. *)
Lemma final_newline l w : exists a, pretty_print (Concat (l ++ [Newline])) w = a ++ [c_nl].
Proof.
  destruct (pretty_print_layout (Concat (l ++ [Newline])) w) as (a & Ha & ->).
  inversion Ha as [| | | | | | | | | | |i f l' a' HL| |]; subst.
  apply layouts_app in HL as (a1 & a2 & -> & H1 & H2).
  inversion H2; subst. match goal with H : layouts _ _ [] _ |- _ => inversion H; subst end.
  match goal with H : layout _ _ Newline _ |- _ => inversion H; subst end.
  unfold render. rewrite render_from_app. simpl. eauto.
Qed.

(* ------------------------------------------------------------ indentation *)

Scheme layout_mut := Induction for layout Sort Prop
  with layouts_mut := Induction for layouts Sort Prop.

Lemma layout_dlayout sz : forall i f d a, layout i f d a ->
  forall n, uniform sz d -> i = (N.of_nat n * sz)%N -> dlayout sz n f d a.
Proof.
  apply (layout_mut
    (fun i f d a _ => forall n, uniform sz d -> i = (N.of_nat n * sz)%N -> dlayout sz n f d a)
    (fun i f l a _ => forall n, uniform sz (Concat l) -> i = (N.of_nat n * sz)%N -> dlayouts sz n f l a));
    intros; subst; simpl in *; try (constructor; auto; fail).
  - destruct H0 as [-> H0]. constructor. apply H; [exact H0|]. lia.
  - destruct H0 as [-> H0]. constructor. apply H; [exact H0|]. destruct n; simpl; lia.
  - apply D_ChoiceL. apply H; tauto.
  - apply D_ChoiceR. apply H; tauto.
  - constructor; [apply H|apply H0]; tauto.
Qed.

Lemma pretty_print_dlayout sz d w :
  uniform sz d -> exists a, dlayout sz 0 false d a /\ pretty_print d w = render a.
Proof.
  intro U. destruct (pretty_print_layout d w) as (a & Ha & ->).
  exists a. split; [|reflexivity]. eapply layout_dlayout; eauto.
Qed.

(* ------------------------------------------------------------ columns *)

Lemma ulen_app a b : ulen (a ++ b) = (ulen a + ulen b)%N.
Proof. induction a as [|c a IH]; simpl; [reflexivity|]. rewrite IH. lia. Qed.

Lemma ulen_rev a : ulen (rev a) = ulen a.
Proof. induction a as [|c a IH]; simpl; [reflexivity|]. rewrite ulen_app, IH. simpl. lia. Qed.

Lemma ulen_spaces n : ulen (repeat c_sp n) = N.of_nat n.
Proof. induction n as [|n IH]; [reflexivity|]. simpl repeat. simpl ulen. rewrite IH. unfold ulen1, c_sp. simpl. lia. Qed.

Lemma first_line_app_no_nl s t : ~ In c_nl s -> first_line (s ++ t) = s ++ first_line t.
Proof.
  induction s as [|c s IH]; simpl; intro H; [reflexivity|].
  destruct (N.eqb_spec c c_nl) as [->|Hc]; [exfalso; apply H; auto|].
  rewrite IH; auto.
Qed.

Lemma first_line_app_nl s t : In c_nl s -> first_line (s ++ t) = first_line s.
Proof.
  induction s as [|c s IH]; simpl; intro H; [destruct H|].
  destruct (N.eqb_spec c c_nl) as [->|Hc]; [reflexivity|].
  destruct H as [H|H]; [congruence|]. rewrite IH; auto.
Qed.

Lemma last_line_app_no_nl s t : ~ In c_nl t -> last_line (s ++ t) = last_line s ++ t.
Proof.
  intro H. unfold last_line. rewrite rev_app_distr.
  rewrite first_line_app_no_nl by (rewrite <- in_rev; exact H).
  rewrite rev_app_distr, rev_involutive. reflexivity.
Qed.

Lemma last_line_nl s t : ~ In c_nl t -> last_line (s ++ c_nl :: t) = t.
Proof.
  intro H. unfold last_line. rewrite rev_app_distr. simpl. rewrite <- app_assoc. simpl.
  rewrite first_line_app_no_nl by (rewrite <- in_rev; exact H).
  simpl. rewrite app_nil_r, rev_involutive. reflexivity.
Qed.

Lemma spaces_no_nl n : ~ In c_nl (repeat c_sp n).
Proof. intro H. apply repeat_spec in H. discriminate. Qed.

Definition exact_chunks (l : list chunk) : Prop := Forall (fun c => exact_widths (ch_doc c)) l.

Lemma exact_concat l : exact_widths (Concat l) <-> Forall exact_widths l.
Proof.
  induction l as [|d l IH]; simpl.
  - split; auto.
  - split.
    + intros [H1 H2]. constructor; [exact H1|]. apply IH; exact H2.
    + intro H. inversion H; subst. split; [assumption|]. apply IH; assumption.
Qed.

(* The printer's column, when its pending break is disregarded. *)
Definition col_ok (s : pstate) : Prop := p_col s = ulen (last_line (p_out s)).

Lemma flush_col_ok s : col_ok s -> col_ok (flush s).
Proof.
  unfold col_ok, flush. destruct (p_pending s) as [i|]; [|auto]. intros _. simpl.
  unfold spaces. rewrite last_line_nl by apply spaces_no_nl.
  rewrite ulen_spaces. lia.
Qed.

Lemma exact_chunks_map c l : Forall exact_widths l -> exact_chunks (map (with_doc c) l).
Proof. induction 1; simpl; constructor; auto. Qed.

Lemma print_chunk_exact w c s :
  exact_widths (ch_doc c) -> exact_chunks (p_chunks s) -> exact_chunks (p_chunks (print_chunk w c s)).
Proof.
  intros Hc Hs. unfold print_chunk. destruct c as [d i fl]; destruct d; simpl in *; auto.
  - rewrite push_text_chunks, flush_chunks. exact Hs.
  - destruct fl; exact Hs.
  - destruct fl; exact Hs.
  - constructor; auto.
  - constructor; auto.
  - constructor; auto.
  - apply Forall_app. split; [|exact Hs]. apply exact_chunks_map. apply exact_concat. exact Hc.
  - destruct fl; [|destruct (fits _ _ _ _)]; simpl; rewrite flush_chunks; constructor; simpl; tauto.
Qed.

Lemma print_chunk_col_ok w c s :
  exact_widths (ch_doc c) -> col_ok s -> col_ok (print_chunk w c s).
Proof.
  intros Hc Hs. unfold print_chunk. destruct c as [d i fl]; destruct d; simpl in *; auto.
  - unfold col_ok; simpl. rewrite last_line_nl by (simpl; auto). reflexivity.
  - destruct Hc as [-> Hn]. pose proof (flush_col_ok s Hs) as Hf.
    unfold push_text. destruct (_ && _); [exact Hf|]. unfold col_ok in *; simpl.
    rewrite last_line_app_no_nl by exact Hn. rewrite ulen_app, Hf. reflexivity.
  - destruct fl; [|exact Hs]. unfold col_ok in *; simpl.
    rewrite last_line_app_no_nl by (simpl; intros [H|H]; [discriminate|auto]).
    rewrite ulen_app, Hs. reflexivity.
  - destruct fl; exact Hs.
  - pose proof (flush_col_ok s Hs) as Hf. destruct fl; [|destruct (fits _ _ _ _)]; exact Hf.
Qed.

(* States reached while printing a document. *)
Inductive reached (w : N) (d : doc) : pstate -> Prop :=
| R_init : reached w d (print_init d)
| R_step s s' : reached w d s -> print_step w s = Some s' -> reached w d s'.

Lemma reached_exact w d s :
  exact_widths d -> reached w d s -> exact_chunks (p_chunks s) /\ col_ok s.
Proof.
  intros Hd. induction 1 as [|s s' H IH Hs].
  - split; [constructor; [exact Hd|constructor]|reflexivity].
  - destruct IH as [IH1 IH2]. unfold print_step in Hs.
    destruct (p_chunks s) as [|c r] eqn:E; [discriminate|]. injection Hs as <-.
    inversion IH1 as [|c' r' H1 H2]; subst. split.
    + apply print_chunk_exact; [exact H1|exact H2].
    + apply print_chunk_col_ok; [exact H1|exact IH2].
Qed.

(* ------------------------------------------------------------ width *)

Lemma drop_spaces_repeat k s : drop_spaces (repeat c_sp k ++ s) = drop_spaces s.
Proof. induction k; simpl; auto. Qed.

Lemma drop_spaces_all k : drop_spaces (repeat c_sp k) = [].
Proof. induction k; simpl; auto. Qed.

Lemma strip_trailing_spaces_all k : strip_trailing_spaces (repeat c_sp k) = [].
Proof.
  unfold strip_trailing_spaces.
  assert (H : rev (repeat c_sp k) = repeat c_sp k).
  { induction k as [|k IH]; [reflexivity|]. simpl. rewrite IH.
    clear IH. induction k; simpl; [reflexivity|]. f_equal. exact IHk. }
  rewrite H, drop_spaces_all. reflexivity.
Qed.

Lemma drop_spaces_len s : (ulen (drop_spaces s) <= ulen s)%N.
Proof. induction s as [|c s IH]; simpl; [lia|]. destruct (c =? c_sp)%N; simpl; lia. Qed.

Lemma strip_len s : (ulen (strip_trailing_spaces s) <= ulen s)%N.
Proof.
  unfold strip_trailing_spaces. rewrite ulen_rev. pose proof (drop_spaces_len (rev s)).
  rewrite ulen_rev in H. exact H.
Qed.

Lemma drop_spaces_app a b :
  drop_spaces (a ++ b) = match drop_spaces a with [] => drop_spaces b | x => x ++ b end.
Proof.
  induction a as [|c a IH]; simpl; [reflexivity|].
  destruct (c =? c_sp)%N; [exact IH|]. reflexivity.
Qed.

Lemma strip_app_len a b :
  (ulen (strip_trailing_spaces (a ++ b)) <= ulen a + ulen (strip_trailing_spaces b))%N.
Proof.
  unfold strip_trailing_spaces. rewrite rev_app_distr, drop_spaces_app, !ulen_rev.
  destruct (drop_spaces (rev b)) as [|c l] eqn:E.
  - pose proof (drop_spaces_len (rev a)). rewrite ulen_rev in H. simpl. lia.
  - rewrite ulen_app, ulen_rev. lia.
Qed.

Lemma print_loop_grows n w s s' :
  print_loop n w s = Some s' -> exists m, p_out (flush s') = p_out s ++ m.
Proof.
  intro H. apply print_loop_layout in H as (a & _ & H).
  rewrite flush_out, H. destruct (settle_render_grows a (rst s)) as [m ->]. eauto.
Qed.

(* With a break pending, only spaces may still be added to the current line. *)
Lemma pending_line n w s s' i m :
  p_pending s = Some i -> print_loop n w s = Some s' -> p_out (flush s') = p_out s ++ m ->
  strip_trailing_spaces (first_line m) = [].
Proof.
  intros Hp H Hm. apply print_loop_layout in H as (a & _ & H).
  rewrite flush_out, H in Hm. unfold rst in Hm. rewrite Hp in Hm.
  destruct (settle_pending_starts (p_out s) i a) as (k & q & Hq).
  rewrite Hq in Hm. apply app_inv_head in Hm. subst m.
  rewrite first_line_app_no_nl by apply spaces_no_nl. simpl. rewrite app_nil_r.
  apply strip_trailing_spaces_all.
Qed.

Definition pending_free (s : pstate) : Prop := p_pending s = None.

Lemma need_cons_le f d l :
  True -> (need (glance f d ++ l) = need (glance f d ++ l))%N.
Proof. auto. Qed.

(* Main width invariant. *)
Lemma width_invariant n w M : forall s s' m,
  (w <= M)%N -> exact_chunks (p_chunks s) -> p_pending s = None ->
  (p_col s + need (glances (p_chunks s)) <= M)%N ->
  print_loop n w s = Some s' -> p_out (flush s') = p_out s ++ m ->
  (p_col s + ulen (strip_trailing_spaces (first_line m)) <= M)%N.
Proof.
  induction n as [|n IH]; intros s s' m HwM Hex Hp Hneed Hl Hm.
  - simpl in Hl. destruct (p_chunks s) as [|c r] eqn:E; [|discriminate].
    injection Hl as <-. unfold flush in Hm. rewrite Hp in Hm.
    assert (m = []) as ->. { apply (app_inv_head (p_out s)). rewrite app_nil_r. auto. }
    simpl. unfold strip_trailing_spaces; simpl. simpl in Hneed. lia.
  - simpl in Hl. destruct (p_chunks s) as [|c r] eqn:E.
    { injection Hl as <-. unfold flush in Hm. rewrite Hp in Hm.
      assert (m = []) as ->. { apply (app_inv_head (p_out s)). rewrite app_nil_r. auto. }
      simpl. unfold strip_trailing_spaces; simpl. simpl in Hneed. lia. }
    unfold print_step in Hl. rewrite E in Hl.
    set (s0 := {| p_chunks := r; p_col := p_col s; p_out := p_out s; p_pending := p_pending s |}) in *.
    inversion Hex as [|c' r' Hc Hr]; subst c' r'.
    assert (Hcol : (p_col s <= M)%N) by lia.
    (* a helper for the cases that only set a pending break *)
    assert (Hpend : forall i, print_loop n w (set_pending i s0) = Some s' ->
              (p_col s + ulen (strip_trailing_spaces (first_line m)) <= M)%N).
    { intros i Hl'. rewrite (pending_line n w (set_pending i s0) s' i m eq_refl Hl' Hm). simpl. lia. }
    (* a helper for the cases that only rearrange the stack *)
    assert (Hpush : forall cs, exact_chunks cs ->
              (p_col s + need (glances cs ++ glances r) <= M)%N ->
              print_loop n w (push_chunks cs s0) = Some s' ->
              (p_col s + ulen (strip_trailing_spaces (first_line m)) <= M)%N).
    { intros cs Hcs Hn Hl'. apply (IH (push_chunks cs s0) s' m HwM); auto.
      - simpl. apply Forall_app; auto.
      - simpl. rewrite glances_app. exact Hn. }
    assert (Hflush : flush s0 = s0) by (unfold flush; simpl; rewrite Hp; reflexivity).
    destruct c as [d i fl]. unfold print_chunk in Hl. unfold glances in Hneed.
    cbn [flat_map ch_doc ch_flat ch_indent] in *. fold (glances r) in Hneed.
    destruct d.
    + eapply Hpend; eauto.
    + simpl in Hl.
      apply print_loop_grows in Hl as [m' Hm']. simpl in Hm'. rewrite Hm in Hm'.
      rewrite <- app_assoc in Hm'. apply app_inv_head in Hm'. subst m.
      simpl. unfold strip_trailing_spaces; simpl. lia.
    + apply (IH s0 s' m HwM); auto.
    + rewrite Hflush in Hl. destruct Hc as [-> Hn]. unfold push_text in Hl.
      simpl in Hneed.
      destruct (ustr_eqb s1 [c_sp] && ends_with_char c_sp (p_out s0)) eqn:Ed.
      * apply (IH s0 s' m HwM); auto. simpl. lia.
      * destruct (print_loop_grows _ _ _ _ Hl) as [m' Hm']. simpl in Hm'.
        rewrite Hm in Hm'. rewrite <- app_assoc in Hm'. apply app_inv_head in Hm'. subst m.
        assert (Hi : (p_col s + ulen s1 + ulen (strip_trailing_spaces (first_line m')) <= M)%N).
        { refine (IH _ s' m' HwM _ _ _ Hl _); simpl; auto; try lia.
          rewrite Hm, app_assoc. reflexivity. }
        rewrite first_line_app_no_nl by exact Hn.
        pose proof (strip_app_len s1 (first_line m')). lia.
    + destruct fl.
      * simpl in Hl, Hneed. destruct (print_loop_grows _ _ _ _ Hl) as [m' Hm']. simpl in Hm'.
        rewrite Hm in Hm'. rewrite <- app_assoc in Hm'. apply app_inv_head in Hm'. subst m.
        assert (Hi : (p_col s + 1 + ulen (strip_trailing_spaces (first_line m')) <= M)%N).
        { refine (IH _ s' m' HwM _ _ _ Hl _); simpl; auto; try lia.
          rewrite Hm, <- app_assoc. reflexivity. }
        change ([c_sp] ++ m') with (c_sp :: m'). simpl first_line.
        pose proof (strip_app_len [c_sp] (first_line m')) as Hs. simpl app in Hs.
        assert (ulen [c_sp] = 1%N) by reflexivity. lia.
      * eapply Hpend; eauto.
    + destruct fl.
      * apply (IH s0 s' m HwM); auto.
      * eapply Hpend; eauto.
    + apply (Hpush [flattened {| ch_doc := Flat d; ch_indent := i; ch_flat := fl |} d]); auto.
      * constructor; [exact Hc|constructor].
      * unfold glances at 1; simpl. rewrite app_nil_r. exact Hneed.
    + apply (Hpush [indented {| ch_doc := Indent i0 d; ch_indent := i; ch_flat := fl |} i0 d]); auto.
      * constructor; [exact Hc|constructor].
      * unfold glances at 1; simpl. rewrite app_nil_r. exact Hneed.
    + apply (Hpush [dedented {| ch_doc := Dedent i0 d; ch_indent := i; ch_flat := fl |} i0 d]); auto.
      * constructor; [exact Hc|constructor].
      * unfold glances at 1; simpl. rewrite app_nil_r. exact Hneed.
    + apply (Hpush (map (with_doc {| ch_doc := Concat l; ch_indent := i; ch_flat := fl |}) l)); auto.
      * apply exact_chunks_map. apply exact_concat. exact Hc.
      * rewrite glances_map. exact Hneed.
    + rewrite Hflush in Hl. destruct Hc as [Hx Hy].
      set (cx := with_doc {| ch_doc := Choice d1 d2; ch_indent := i; ch_flat := fl |} d1) in *.
      set (cy := with_doc {| ch_doc := Choice d1 d2; ch_indent := i; ch_flat := fl |} d2) in *.
      destruct fl.
      * apply (Hpush [cx]); auto; [constructor; [exact Hx|constructor]|].
        unfold glances at 1; simpl. rewrite app_nil_r. exact Hneed.
      * destruct (fits w (p_col s0) (p_chunks s0) cx) eqn:Ef.
        -- apply (Hpush [cx]); auto; [constructor; [exact Hx|constructor]|].
           rewrite fits_spec in Ef. apply andb_true_iff in Ef as [Ef _].
           apply N.leb_le in Ef. simpl in Ef. unfold glances at 1; simpl. rewrite app_nil_r. lia.
        -- apply (Hpush [cy]); auto; [constructor; [exact Hy|constructor]|].
           unfold glances at 1; simpl. rewrite app_nil_r. exact Hneed.
Qed.

(* The decision at a group: flat when the first line of the flat form fits. *)
Lemma choice_width n w s s' x y i r m :
  p_chunks s = {| ch_doc := Choice x y; ch_indent := i; ch_flat := false |} :: r ->
  exact_chunks (p_chunks s) ->
  fits w (p_col (flush s)) r {| ch_doc := x; ch_indent := i; ch_flat := false |} = true ->
  print_loop n w s = Some s' -> p_out (flush s') = p_out (flush s) ++ m ->
  (p_col (flush s) + ulen (strip_trailing_spaces (first_line m)) <= N.max w (p_col (flush s)))%N.
Proof.
  intros Hc Hex Hf Hl Hm.
  destruct n as [|n]; simpl in Hl; rewrite Hc in Hl; [discriminate|].
  unfold print_step in Hl. rewrite Hc in Hl. unfold print_chunk in Hl. simpl in Hl.
  set (s0 := {| p_chunks := r; p_col := p_col s; p_out := p_out s; p_pending := p_pending s |}) in *.
  assert (H1 : p_col (flush s0) = p_col (flush s)) by (unfold flush, s0; simpl; destruct (p_pending s); reflexivity).
  assert (H2 : p_chunks (flush s0) = r) by (rewrite flush_chunks; reflexivity).
  assert (H3 : p_out (flush s0) = p_out (flush s)) by (unfold flush, s0; simpl; destruct (p_pending s); reflexivity).
  rewrite H1, H2 in Hl. unfold with_doc in Hl at 1; simpl in Hl. rewrite Hf in Hl.
  rewrite <- H1.
  rewrite fits_spec in Hf. apply andb_true_iff in Hf as [Hf _]. apply N.leb_le in Hf. simpl in Hf.
  rewrite Hc in Hex. inversion Hex as [|c' r' Hc' Hr']; subst c' r'. simpl in Hc'.
  match type of Hl with print_loop n w ?S = _ =>
    change (p_col (flush s0)) with (p_col S);
    refine (width_invariant n w (N.max w (p_col S)) S s' m _ _ _ _ Hl _) end.
  - lia.
  - simpl. rewrite H2. constructor; [tauto|exact Hr'].
  - apply flush_pending.
  - cbn [p_col p_chunks push_chunks app]. rewrite H2. unfold glances; simpl. fold (glances r). rewrite <- H1 in Hf. lia.
  - simpl. rewrite H3. exact Hm.
Qed.

(* ------------------------------------------------------------ group choice *)

Lemma layout_flat_exists d i : exists a, layout i true d a.
Proof.
  revert i; induction d as [| | |s w| | |d IH|k d IH|k d IH|l IH|x y IHx IHy] using doc_nested_ind; intro i;
    try (eexists; constructor; fail).
  - destruct (IH i) as [a Ha]. exists a. constructor; exact Ha.
  - destruct (IH (i + k)%N) as [a Ha]. exists a. constructor; exact Ha.
  - destruct (IH (i - k)%N) as [a Ha]. exists a. constructor; exact Ha.
  - assert (H : exists a, layouts i true l a).
    { induction IH as [|d l Hd Hl IHl]; [eexists; constructor|].
      destruct (Hd i) as [a Ha], IHl as [b Hb]. exists (a ++ b). constructor; auto. }
    destruct H as [a Ha]. exists a. constructor; exact Ha.
  - destruct (IHx i) as [a Ha]. exists (AGroup :: a). constructor; exact Ha.
Qed.

Lemma group_decision d w :
  let fits_flat := (need (glance true d) <=? w)%N && negb (forced (glance true d)) in
  exists a, layout 0 fits_flat d a /\ pretty_print (group d) w = render (AGroup :: a).
Proof.
  intro ff.
  destruct (print_loop_total (dsteps (group d)) w (print_init (group d))) as [s Hs]; [simpl; lia|].
  rewrite (pretty_print_eq _ _ _ _ Hs).
  remember (dsteps (group d)) as n. destruct n as [|n]; [simpl in Heqn; lia|].
  cbn [print_loop print_init p_chunks print_step] in Hs.
  unfold print_chunk in Hs. cbn [group choice flat ch_doc ch_flat ch_indent] in Hs.
  unfold flush in Hs at 1; cbn [p_pending] in Hs.
  set (s0 := {| p_chunks := []; p_col := 0; p_out := []; p_pending := None |}) in *.
  change (flush s0) with s0 in Hs.
  rewrite fits_spec in Hs. simpl in Hs. rewrite app_nil_r in Hs.
  change (if (need (glance true d) <=? w)%N && negb (forced (glance true d)) then true else false)
    with (if ff then true else false) in Hs.
  assert (E : w = (w - 0)%N) by lia.
  assert (Eff : ((need (glance true d) <=? w - 0)%N && negb (forced (glance true d))) = ff)
    by (rewrite <- E; reflexivity).
  rewrite flush_out.
  destruct ff eqn:Ef.
  - unfold ff in Ef. rewrite ?N.sub_0_r in Hs. rewrite Ef in Hs.
    apply print_loop_layout in Hs as (a & Ha & Hr). simpl in Ha.
    inversion Ha as [|c l a1 b1 H1 H2]; subst. inversion H2; subst. simpl in H1.
    inversion H1; subst. exists a1. split; [assumption|].
    rewrite Hr, app_nil_r. reflexivity.
  - unfold ff in Ef. rewrite ?N.sub_0_r in Hs. rewrite Ef in Hs.
    apply print_loop_layout in Hs as (a & Ha & Hr). simpl in Ha.
    inversion Ha as [|c l a1 b1 H1 H2]; subst. inversion H2; subst. simpl in H1.
    exists a1. split; [assumption|].
    rewrite Hr, app_nil_r. reflexivity.
Qed.
