(* PlaceProofs.v: comments keep their place relative to their neighbours. *)
From Coq Require Import Lia.
From Verif Require Import Base Doc DocBuilder SpecDoc DocProofs DocProofs2 Cst Comments SpecMembers SpecPlace
  SpecComments FormatProofs MembersProofs MembersProofs2 CollectProofs2.

(* ---- reading ---- *)

Lemma nearest_find l n : find n_named l = Some n <-> nearest l n.
Proof.
  unfold nearest. induction l as [|x r IH]; cbn [find].
  - split; [discriminate|]. intros (p & q & E & _). destruct p; discriminate.
  - destruct (n_named x) eqn:Hx; split.
    + intro H. injection H as ->. exists [], r. repeat split; auto.
    + intros (p & q & E & Hp & Hn). destruct p as [|y p]; cbn in E; injection E as -> E; [reflexivity|].
      inversion Hp; congruence.
    + intro H. apply IH in H as (p & q & -> & Hp & Hn). exists (x :: p), q. repeat split; auto.
    + intros (p & q & E & Hp & Hn). destruct p as [|y p]; cbn in E; injection E as -> E; [congruence|].
      apply IH. inversion Hp; subst. eauto 6.
Qed.

Definition gap_before (c : comment) : gap := if c_leading c then SameLine else if c_above c then BlankLine else NextLine.
Definition gap_after (c : comment) : gap := if c_trailing c then SameLine else if c_below c then BlankLine else NextLine.

Theorem gap_before_read left n right c p :
  comment_of left n right = Ok c -> nearest left p -> (n_erow p <= n_srow n)%N ->
  source_gap (n_erow p) (n_srow n) (gap_before c).
Proof.
  intros H Hp Hr. apply nearest_find in Hp.
  assert (E : c_leading c = (n_srow n =? n_erow p)%N /\ c_above c = (n_erow p + 1 <? n_srow n)%N).
  { unfold comment_of in H. rewrite Hp in H. destruct (has_kind "line_comment" n).
    - injection H as <-. split; reflexivity.
    - destruct (has_kind "block_comment" n); [injection H as <-; split; reflexivity|discriminate]. }
  destruct E as [E1 E2]. unfold gap_before. rewrite E1, E2.
  destruct (N.eqb_spec (n_srow n) (n_erow p)); [assumption|].
  destruct (N.ltb_spec (n_erow p + 1) (n_srow n)); cbn; split; auto; unfold empty_line_between.
  - exists (n_erow p + 1)%N. lia.
  - intros (row & ?). lia.
Qed.
Theorem gap_after_read left n right c x :
  comment_of left n right = Ok c -> nearest right x -> (n_erow n <= n_srow x)%N ->
  (c_line c = true -> n_erow n <> n_srow x) ->
  source_gap (n_erow n) (n_srow x) (gap_after c).
Proof.
  intros H Hp Hr Hl. apply nearest_find in Hp.
  assert (E : c_trailing c = (if c_line c then false else (n_erow n =? n_srow x)%N) /\ c_below c = (n_erow n <? n_srow x - 1)%N).
  { unfold comment_of in H. rewrite Hp in H. destruct (has_kind "line_comment" n).
    - injection H as <-. split; reflexivity.
    - destruct (has_kind "block_comment" n); [injection H as <-; split; reflexivity|discriminate]. }
  destruct E as [E1 E2]. unfold gap_after. rewrite E1, E2.
  assert (HB : (n_erow n <> n_srow x -> source_gap (n_erow n) (n_srow x) (if (n_erow n <? n_srow x - 1)%N then BlankLine else NextLine))).
  { intro Hne. destruct (N.ltb_spec (n_erow n) (n_srow x - 1)); cbn; split; auto; unfold empty_line_between.
    - exists (n_erow n + 1)%N. lia.
    - intros (row & ?). lia. }
  destruct (c_line c); [apply HB; auto|].
  destruct (N.eqb_spec (n_erow n) (n_srow x)); [cbn; auto|auto].
Qed.

(* ---- printing ---- *)

Lemma tight_ends t d : ends_tight t d -> ends_text t d.
Proof.
  induction 1; try (constructor; assumption). constructor; [|assumption].
  eapply Forall_impl; [|eassumption]. cbn. auto.
Qed.
Lemma tight_layout t d : ends_tight t d -> forall i f a, layout i f d a -> exists p, a = p ++ [AText t].
Proof.
  induction 1 as [w Ht|d H IH|k d H IH|k d H IH|pre d post Hp H IH|x y Hx IHx Hy IHy]; intros i f a L; inversion L; subst.
  - exists []. reflexivity.
  - eapply IH; eassumption.
  - eapply IH; eassumption.
  - eapply IH; eassumption.
  - match goal with HL : layouts _ _ _ _ |- _ => apply layouts_app in HL as (a1 & a2 & -> & H1 & H2) end.
    inversion H2; subst.
    match goal with HL : layout _ _ d _ |- _ => destruct (IH _ _ _ HL) as (p & ->) end.
    match goal with HL : layouts _ _ post _ |- _ => rewrite (silents_layout _ Hp _ _ _ HL) end.
    exists (a1 ++ p). rewrite app_nil_r, <- app_assoc. reflexivity.
  - match goal with HL : layout _ _ x _ |- _ => destruct (IHx _ _ _ HL) as (p & ->) end. exists (AGroup :: p). reflexivity.
  - match goal with HL : layout _ _ y _ |- _ => destruct (IHy _ _ _ HL) as (p & ->) end. exists (AGroup :: p). reflexivity.
Qed.

Definition gap_atoms (g : gap) (i : N) : list atom :=
  match g with SameLine => [AText [c_sp]] | NextLine => [ABreak i] | BlankLine => [ALineFeed; ABreak i] end.
Definition gap_doc (g : gap) : doc :=
  match g with SameLine => txt [c_sp] | NextLine => nl | BlankLine => empty_new_line end.
Lemma gap_layout g i f a : layout i f (gap_doc g) a -> a = gap_atoms g i.
Proof.
  destruct g; intro L; cbn in L.
  - unfold txt in L. inversion L; subst; reflexivity.
  - inversion L; subst. reflexivity.
  - unfold empty_new_line, concat, nl in L. inversion L as [| | | | | | | | | | |? ? ? ? HL| |]; subst.
    inversion HL as [|? ? ? ? c1 c2 M1 M2]; subst. inversion M1; subst.
    inversion M2 as [|? ? ? ? c3 c4 M3 M4]; subst. inversion M3; subst. inversion M4; subst. reflexivity.
Qed.

Lemma render_between p s bs g i k t q :
  s <> [c_sp] -> t <> [c_sp] -> Forall (fun x => exists j, x = ABreak j) bs ->
  (g = SameLine -> bs = [] /\ s <> [] /\ ends_with_char c_sp s = false) ->
  exists a b, render (p ++ (AText s :: bs) ++ gap_atoms g i ++ repeat AGroup k ++ AText t :: q) = a ++ s ++ gap_text g i ++ t ++ b.
Proof.
  intros Hs Ht Hbs Hg. unfold render. rewrite !render_from_app.
  set (o := render_from ([], None) p).
  change (render_from o (AText s :: bs)) with (render_from (put (settle o) s, None) bs).
  rewrite put_text by exact Hs.
  destruct (render_breaks bs Hbs (settle o ++ s) None) as (p' & Ep). rewrite Ep.
  assert (HK : forall m st0, settle st0 = m -> settle (render_from st0 (repeat AGroup k)) = m).
  { intros m st0 E. assert (H0 : forall k o, render_from (o, None) (repeat AGroup k) = (o, None)).
    { induction k0 as [|k0 IH]; intro o'; [reflexivity|]. cbn. apply IH. }
    destruct k as [|k']; [exact E|]. cbn [repeat].
    change (render_from st0 (AGroup :: repeat AGroup k')) with (render_from (settle st0, None) (repeat AGroup k')).
    rewrite H0. exact E. }
  assert (HG : settle (render_from (settle o ++ s, p') (gap_atoms g i)) = settle o ++ s ++ gap_text g i).
  { destruct g; cbn [gap_atoms gap_text].
    - destruct (Hg eq_refl) as (-> & Hne & He). cbn in Ep. injection Ep as <-.
      cbn [render_from fold_left render1 settle]. unfold put. change (ustr_eqb [c_sp] [c_sp]) with true. cbn [andb].
      assert (E : ends_with_char c_sp (settle o ++ s) = false).
      { rewrite <- He. unfold ends_with_char. rewrite rev_app_distr.
        destruct (rev s) as [|z zs] eqn:Er; [|reflexivity]. exfalso. apply Hne.
        rewrite <- (rev_involutive s), Er. reflexivity. }
      rewrite E, <- app_assoc. reflexivity.
    - cbn. rewrite <- app_assoc. reflexivity.
    - cbn. rewrite <- !app_assoc. reflexivity. }
  set (st1 := render_from (settle o ++ s, p') (gap_atoms g i)) in *.
  specialize (HK _ st1 HG). set (st2 := render_from st1 (repeat AGroup k)) in *.
  change (render_from st2 (AText t :: q)) with (render_from (put (settle st2) t, None) q).
  rewrite put_text by exact Ht. rewrite HK.
  destruct (settle_render_grows q ((settle o ++ s ++ gap_text g i) ++ t, None)) as [r Hr].
  rewrite Hr. cbn [fst]. exists (settle o), r. rewrite <- !app_assoc. reflexivity.
Qed.

(* [beside l d1 g d2 r]: [d1], the gap document and [d2] follow each other in the
   document list, [g] and [d2] or [d1] and [g] possibly one level deeper. *)
Definition fits_gap (g : gap) (s : ustr) (d1 : doc) : Prop :=
  ends_text s d1 /\ (g = SameLine -> ends_tight s d1 /\ s <> [] /\ ends_with_char c_sp s = false).

Lemma between_layouts d1 g d2 i f a1 a2 a3 s t :
  fits_gap g s d1 -> starts_text t d2 ->
  layout i f d1 a1 -> layout i f (gap_doc g) a2 -> layout i f d2 a3 ->
  forall p q, exists a b, render (p ++ a1 ++ a2 ++ a3 ++ q) = a ++ s ++ gap_text g i ++ t ++ b.
Proof.
  intros [He Hg] Ht L1 L2 L3 p q. apply gap_layout in L2 as ->.
  destruct (starts_layout _ _ Ht _ _ _ L3) as (k & q3 & ->).
  assert (HA : exists p1 bs, a1 = p1 ++ AText s :: bs /\ Forall (fun x => exists j, x = ABreak j) bs /\ (g = SameLine -> bs = [])).
  { destruct g.
    - destruct (Hg eq_refl) as (Ht' & _). destruct (tight_layout _ _ Ht' _ _ _ L1) as (p1 & ->).
      exists p1, []. repeat split; auto.
    - destruct (ends_layout _ _ He _ _ _ L1) as (p1 & bs & -> & Hb). exists p1, bs. repeat split; auto. discriminate.
    - destruct (ends_layout _ _ He _ _ _ L1) as (p1 & bs & -> & Hb). exists p1, bs. repeat split; auto. discriminate. }
  destruct HA as (p1 & bs & -> & Hb & Hn).
  destruct (render_between (p ++ p1) s bs g i k t (q3 ++ q)) as (a & b & E).
  - eapply ends_not_space; exact He.
  - eapply starts_not_space; exact Ht.
  - exact Hb.
  - intro H. split; [auto|]. destruct (Hg H) as (_ & ?). assumption.
  - exists a, b. rewrite <- E. f_equal. repeat (rewrite <- ?app_assoc; cbn [app]). reflexivity.
Qed.

(* A comment behind a construct. *)
Theorem post_placed D w l d c rest r s t :
  within (Concat (l ++ d :: Concat (post_comment_docs c ++ rest) :: r)) D ->
  fits_gap (gap_before c) s d -> starts_text t (comment_doc c) ->
  exists a i b, pretty_print D w = a ++ s ++ gap_text (gap_before c) i ++ t ++ b.
Proof.
  intros Hw Hs Ht. destruct (pretty_print_layout D w) as (at0 & Ha & ->).
  destruct (within_layout _ _ Hw _ _ _ Ha) as (i & f & p & m & q & -> & Hb). clear Ha Hw.
  inversion Hb as [| | | | | | | | | | |? ? ? ? HL| |]; subst. clear Hb.
  apply layouts_app in HL as (a1 & a2 & -> & _ & H2).
  inversion H2 as [|? ? ? ? b1 b2 L1 L2]; subst. inversion L2 as [|? ? ? ? b3 b4 L3 L4]; subst. clear H2 L2 L4.
  inversion L3 as [| | | | | | | | | | |? ? ? ? HL| |]; subst. clear L3.
  assert (E : post_comment_docs c = gap_doc (gap_before c) :: comment_doc c :: (if c_trailing c && negb (c_bracket c) then [txt [c_sp]] else [])).
  { unfold post_comment_docs, gap_before. destruct (c_leading c), (c_above c); reflexivity. }
  rewrite E in HL. cbn [app] in HL.
  inversion HL as [|? ? ? ? c1 c2 M1 M2]; subst. inversion M2 as [|? ? ? ? c3 c4 M3 M4]; subst.
  destruct (between_layouts _ _ _ _ _ _ _ _ _ _ Hs Ht L1 M1 M3 (p ++ a1) (c4 ++ b4 ++ q)) as (a & b & ER).
  exists a, i, b. rewrite <- ER. f_equal. rewrite <- !app_assoc. reflexivity.
Qed.
(* The last comment before a construct. *)
Theorem pre_placed D w l cs c d r s t :
  within (Concat (l ++ Concat (pre_comments_docs true (cs ++ [c])) :: d :: r)) D ->
  fits_gap (gap_after c) s (comment_doc c) -> starts_text t d ->
  exists a i b, pretty_print D w = a ++ s ++ gap_text (gap_after c) i ++ t ++ b.
Proof.
  intros Hw Hs Ht. destruct (pretty_print_layout D w) as (at0 & Ha & ->).
  destruct (within_layout _ _ Hw _ _ _ Ha) as (i & f & p & m & q & -> & Hb). clear Ha Hw.
  inversion Hb as [| | | | | | | | | | |? ? ? ? HL| |]; subst. clear Hb.
  apply layouts_app in HL as (a1 & a2 & -> & _ & H2).
  inversion H2 as [|? ? ? ? b1 b2 L1 L2]; subst. inversion L2 as [|? ? ? ? b3 b4 L3 L4]; subst. clear H2 L2 L4.
  inversion L1 as [| | | | | | | | | | |? ? ? ? HL| |]; subst. clear L1.
  assert (E : forall first, exists h, pre_comments_docs first (cs ++ [c]) = h ++ comment_doc c :: [gap_doc (gap_after c)]).
  { clear. induction cs as [|x cs IH]; intro first; cbn [app pre_comments_docs].
    - unfold pre_comment_docs, gap_after. cbn [is_nil]. rewrite app_nil_r. eexists. f_equal.
      destruct (c_trailing c), (c_below c); reflexivity.
    - destruct (IH false) as (h & ->). eexists. rewrite app_assoc. reflexivity. }
  destruct (E true) as (h & E'). rewrite E' in HL. apply layouts_app in HL as (h1 & h2 & -> & _ & M).
  inversion M as [|? ? ? ? c1 c2 M1 M2]; subst. inversion M2 as [|? ? ? ? c3 c4 M3 M4]; subst. inversion M4; subst.
  destruct (between_layouts _ _ _ _ _ _ _ _ _ _ Hs Ht M1 M3 L3 (p ++ a1 ++ h1) (b4 ++ q)) as (a & b & ER).
  exists a, i, b. rewrite <- ER. f_equal. rewrite ?app_nil_r, <- !app_assoc. reflexivity.
Qed.

(* The first and last line of a comment. *)
Lemma line_docs_last ls s : exists h, line_docs (ls ++ [s]) = h ++ [txt s].
Proof.
  induction ls as [|x ls IH]; [exists []; reflexivity|]. destruct IH as (h & E). cbn [app].
  rewrite line_docs_cons by (destruct ls; discriminate). rewrite E. exists (txt x :: nl :: h). reflexivity.
Qed.
Theorem comment_starts c t ls : normal_lines (c_line c) (c_value c) = t :: ls -> t <> [c_sp] -> starts_text t (comment_doc c).
Proof.
  intros E Ht. unfold comment_doc, concat. rewrite comment_docs_lines, E.
  assert (HS : exists q, line_docs (t :: ls) = txt t :: q) by (destruct ls; cbn; eauto). destruct HS as (q & ->).
  apply (St_concat _ [] (txt t)); [constructor|]. apply St_text. exact Ht.
Qed.
Theorem comment_ends c ls s : normal_lines (c_line c) (c_value c) = ls ++ [s] -> s <> [c_sp] ->
  ends_text s (comment_doc c) /\ (c_line c = false -> ends_tight s (comment_doc c)).
Proof.
  intros E Ht. unfold comment_doc, concat. rewrite comment_docs_lines, E.
  destruct (line_docs_last ls s) as (h & ->). split.
  - rewrite <- app_assoc. cbn [app]. apply Et_concat; [|apply Et_text; exact Ht].
    destruct (c_line c); constructor; [|constructor]. right. reflexivity.
  - intros ->. rewrite app_nil_r. apply (Ti_concat _ h (txt s) []); [constructor|]. apply Ti_text. exact Ht.
Qed.
