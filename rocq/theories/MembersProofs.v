(* MembersProofs.v: what is printed between and around the members of a body. *)
From Coq Require Import Lia.
From Verif Require Import Base Doc DocBuilder SpecDoc DocProofs DocProofs2 Cst SpecMembers SpecComments TextProofs.

Lemma silent_layout d : silent d -> forall i f a, layout i f d a -> a = [].
Proof.
  induction d using doc_nested_ind; intros Hsil; inversion Hsil; subst; intros j f a L; inversion L; subst; [reflexivity|].
  clear Hsil L. match goal with H : layouts _ _ _ _ |- _ => revert H end. generalize a.
  induction l as [|x l IH]; intros b HL; inversion HL; subst; [reflexivity|].
  repeat match goal with H : Forall _ (_ :: _) |- _ => inversion H; subst; clear H end.
  match goal with Hx : silent x -> _, Hs : silent x, HL : layout _ _ x _ |- _ => rewrite (Hx Hs _ _ _ HL) end.
  cbn. apply IH; assumption.
Qed.
Lemma silents_layout l : Forall silent l -> forall i f a, layouts i f l a -> a = [].
Proof.
  induction 1 as [|x l Hx Hl IH]; intros i f a L; inversion L; subst; [reflexivity|].
  match goal with HL : layout _ _ x _ |- _ => rewrite (silent_layout _ Hx _ _ _ HL) end. cbn. eapply IH; eassumption.
Qed.

Lemma starts_layout t d : starts_text t d -> forall i f a, layout i f d a ->
  exists g q, a = repeat AGroup g ++ AText t :: q.
Proof.
  induction 1 as [w Ht|d H IH|k d H IH|k d H IH|pre d post Hp H IH|x y Hx IHx Hy IHy]; intros i f a L; inversion L; subst.
  - exists O, []. reflexivity.
  - eapply IH; eassumption.
  - eapply IH; eassumption.
  - eapply IH; eassumption.
  - match goal with HL : layouts _ _ _ _ |- _ => apply layouts_app in HL as (a1 & a2 & -> & H1 & H2) end.
    rewrite (silents_layout _ Hp _ _ _ H1). inversion H2; subst.
    match goal with HL : layout _ _ d _ |- _ => destruct (IH _ _ _ HL) as (g & q & ->) end.
    exists g, (q ++ b). cbn. rewrite <- app_assoc. reflexivity.
  - match goal with HL : layout _ _ x _ |- _ => destruct (IHx _ _ _ HL) as (g & q & ->) end. exists (S g), q. reflexivity.
  - match goal with HL : layout _ _ y _ |- _ => destruct (IHy _ _ _ HL) as (g & q & ->) end. exists (S g), q. reflexivity.
Qed.

Lemma quiet_layout l : Forall (fun x => silent x \/ x = Newline) l -> forall i f a, layouts i f l a ->
  Forall (fun x => exists j, x = ABreak j) a.
Proof.
  induction 1 as [|x l Hx Hl IH]; intros i f a L; inversion L; subst; [constructor|].
  apply Forall_app. split; [|eapply IH; eassumption]. destruct Hx as [Hx| ->].
  - match goal with HL : layout _ _ x _ |- _ => rewrite (silent_layout _ Hx _ _ _ HL) end. constructor.
  - match goal with HL : layout _ _ Newline _ |- _ => inversion HL; subst end. repeat constructor. eauto.
Qed.
Lemma ends_layout t d : ends_text t d -> forall i f a, layout i f d a ->
  exists p bs, a = p ++ AText t :: bs /\ Forall (fun x => exists j, x = ABreak j) bs.
Proof.
  induction 1 as [w Ht|d H IH|k d H IH|k d H IH|pre d post Hp H IH|x y Hx IHx Hy IHy]; intros i f a L; inversion L; subst.
  - exists [], []. split; [reflexivity|constructor].
  - eapply IH; eassumption.
  - eapply IH; eassumption.
  - eapply IH; eassumption.
  - match goal with HL : layouts _ _ _ _ |- _ => apply layouts_app in HL as (a1 & a2 & -> & H1 & H2) end.
    inversion H2; subst.
    match goal with HL : layout _ _ d _ |- _ => destruct (IH _ _ _ HL) as (p & bs & -> & Hb) end.
    match goal with HL : layouts _ _ post _ |- _ => assert (Hq := quiet_layout _ Hp _ _ _ HL) end.
    exists (a1 ++ p), (bs ++ b). rewrite <- !app_assoc. split; [reflexivity|]. apply Forall_app. auto.
  - match goal with HL : layout _ _ x _ |- _ => destruct (IHx _ _ _ HL) as (p & bs & -> & Hb) end.
    exists (AGroup :: p), bs. split; [reflexivity|exact Hb].
  - match goal with HL : layout _ _ y _ |- _ => destruct (IHy _ _ _ HL) as (p & bs & -> & Hb) end.
    exists (AGroup :: p), bs. split; [reflexivity|exact Hb].
Qed.
Lemma ends_not_space t d : ends_text t d -> t <> [c_sp].
Proof. induction 1; assumption. Qed.
Lemma starts_not_space t d : starts_text t d -> t <> [c_sp].
Proof. induction 1; assumption. Qed.

Lemma render_breaks bs : Forall (fun x => exists j, x = ABreak j) bs -> forall o p,
  exists p', render_from (o, p) bs = (o, p').
Proof.
  induction 1 as [|x bs [j ->] Hb IH]; intros o p; [exists p; reflexivity|].
  cbn. apply IH.
Qed.
Lemma render_groups g o i : exists s, render_from (o, Some i) (repeat AGroup g) = s /\
  settle s = o ++ c_nl :: repeat c_sp (N.to_nat i).
Proof.
  assert (H : forall g o, render_from (o, None) (repeat AGroup g) = (o, None)).
  { induction g0 as [|g0 IH]; intro o'; [reflexivity|]. cbn. apply IH. }
  destruct g as [|g]; cbn; [eexists; split; [reflexivity|reflexivity]|].
  change (fold_left render1 (repeat AGroup g)) with (fun s => render_from s (repeat AGroup g)). cbv beta.
  rewrite H. eexists; split; reflexivity.
Qed.

Definition separator (tr : bool) : ustr := if tr then [c_nl; c_nl] else [c_nl].

Lemma intersperse_cons d tr d2 tr2 post :
  intersperse_members ((d, tr) :: (d2, tr2) :: post) =
  d :: (if tr then empty_new_line else nl) :: intersperse_members ((d2, tr2) :: post).
Proof. reflexivity. Qed.
Lemma intersperse_split pre d tr d2 tr2 post : exists l l',
  intersperse_members (pre ++ (d, tr) :: (d2, tr2) :: post) =
  l ++ d :: (if tr then empty_new_line else nl) :: d2 :: l'.
Proof.
  induction pre as [|[d0 tr0] pre IH].
  - cbn [app]. rewrite intersperse_cons. destruct post as [|[d3 tr3] post].
    + exists [], []. reflexivity.
    + exists []. rewrite intersperse_cons. eexists. reflexivity.
  - destruct IH as (l & l' & E). cbn [app].
    destruct (pre ++ (d, tr) :: (d2, tr2) :: post) as [|[d1 tr1] r] eqn:Er; [destruct pre; discriminate|].
    rewrite intersperse_cons, E. exists (d0 :: (if tr0 then empty_new_line else nl) :: l), l'. reflexivity.
Qed.

(* Between two consecutive members exactly one line break, or exactly one empty
   line, is printed. *)
Theorem members_printed D w pre d1 tr d2 tr2 post s t :
  within (Concat (intersperse_members (pre ++ (d1, tr) :: (d2, tr2) :: post))) D ->
  ends_text s d1 -> starts_text t d2 ->
  exists a i b, pretty_print D w = a ++ s ++ separator tr ++ repeat c_sp (N.to_nat i) ++ t ++ b.
Proof.
  intros Hw Hs Ht. destruct (pretty_print_layout D w) as (at0 & Ha & ->).
  destruct (within_layout _ _ Hw _ _ _ Ha) as (i & f & p & m & q & -> & Hb). clear Ha Hw.
  destruct (intersperse_split pre d1 tr d2 tr2 post) as (l & l' & E). rewrite E in Hb. clear E.
  inversion Hb as [| | | | | | | | | | |? ? ? ? HL| |]; subst. clear Hb.
  apply layouts_app in HL as (a1 & a2 & -> & _ & H2).
  inversion H2 as [|? ? ? ? b1 b2 L1 L2]; subst. inversion L2 as [|? ? ? ? b3 b4 L3 L4]; subst.
  inversion L4 as [|? ? ? ? b5 b6 L5 L6]; subst. clear H2 L2 L4 L6.
  destruct (ends_layout _ _ Hs _ _ _ L1) as (p1 & bs & -> & Hbs).
  destruct (starts_layout _ _ Ht _ _ _ L5) as (g & q1 & ->).
  assert (HSs := ends_not_space _ _ Hs). assert (HTt := starts_not_space _ _ Ht).
  unfold render. rewrite !render_from_app. cbn [app].
  set (o := render_from (render_from (render_from ([], None) p) a1) p1).
  change (render_from o (AText s :: bs)) with (render_from (put (settle o) s, None) bs).
  rewrite put_text by exact HSs.
  destruct (render_breaks bs Hbs (settle o ++ s) None) as (p' & ->).
  assert (Hsep : exists o', render_from (settle o ++ s, p') b3 = (o', Some i) /\
            o' ++ [c_nl] = settle o ++ s ++ separator tr).
  { destruct tr.
    - unfold empty_new_line, concat, nl in L3. inversion L3 as [| | | | | | | | | | |? ? ? ? HL| |]; subst.
      inversion HL as [|? ? ? ? c1 c2 M1 M2]; subst. inversion M1; subst.
      inversion M2 as [|? ? ? ? c3 c4 M3 M4]; subst. inversion M3; subst. inversion M4; subst.
      exists ((settle o ++ s) ++ [c_nl]). split; [reflexivity|]. rewrite <- !app_assoc. reflexivity.
    - inversion L3; subst. exists (settle o ++ s). split; [reflexivity|]. rewrite <- app_assoc. reflexivity. }
  destruct Hsep as (o' & -> & Ho').
  destruct (render_groups g o' i) as (st & -> & Hst).
  change (render_from st (AText t :: q1)) with (render_from (put (settle st) t, None) q1).
  rewrite put_text by exact HTt. rewrite Hst.
  rewrite <- !render_from_app.
  destruct (settle_render_grows (q1 ++ b6 ++ q) ((o' ++ c_nl :: repeat c_sp (N.to_nat i)) ++ t, None)) as [r Hr].
  rewrite Hr. cbn [fst].
  exists (settle o), i, r. change (c_nl :: repeat c_sp (N.to_nat i)) with ([c_nl] ++ repeat c_sp (N.to_nat i)).
  rewrite (app_assoc o'), Ho'. rewrite <- !app_assoc. reflexivity.
Qed.

(* ---- depth of lines ---- *)

Inductive deep_atoms (k : N) : list atom -> Prop :=
| Da_nil : deep_atoms k []
| Da_text s l : ~ In c_nl s -> deep_atoms k l -> deep_atoms k (AText s :: l)
| Da_break j l : (k <= j)%N -> deep_atoms k l -> deep_atoms k (ABreak j :: l)
| Da_space l : deep_atoms k l -> deep_atoms k (ASpace :: l)
| Da_group l : deep_atoms k l -> deep_atoms k (AGroup :: l)
| Da_empty j l : (k <= j)%N -> deep_atoms k l -> deep_atoms k (ALineFeed :: ABreak j :: l).
Lemma deep_app k a b : deep_atoms k a -> deep_atoms k b -> deep_atoms k (a ++ b).
Proof. induction 1; cbn; auto; constructor; auto. Qed.

Lemma shaped_deep d : shaped d -> forall k i f a, (k <= i)%N -> layout i f d a -> deep_atoms k a.
Proof.
  induction d using doc_nested_ind; intros H' k' i' f a Hk L; inversion H'; subst; inversion L; subst;
    try (repeat constructor; assumption);
    try (match goal with IHd : shaped ?d -> _, Hs : shaped ?d, HL : layout _ _ ?d _ |- _ =>
           try constructor; (eapply IHd; [exact Hs| |exact HL]); lia end).
  - match goal with HL : layouts _ _ _ _ |- _ => rename HL into M end.
    inversion M as [|? ? ? ? c1 c2 M1 M2]; subst. inversion M1; subst.
    inversion M2 as [|? ? ? ? c3 c4 M3 M4]; subst. inversion M3; subst. inversion M4; subst.
    cbn. constructor; [exact Hk|constructor].
  - clear H' L. match goal with HL : layouts _ _ _ _ |- _ => revert HL end. generalize a.
    induction l as [|x l IH]; intros b HL; inversion HL; subst; [constructor|].
    repeat match goal with H : Forall _ (_ :: _) |- _ => inversion H; subst; clear H end.
    apply deep_app; [|apply IH; assumption].
    match goal with Hx : shaped x -> _, Hs : shaped x |- _ => eapply (Hx Hs); eassumption end.
Qed.

Definition sps (n : N) : ustr := repeat c_sp (N.to_nat n).
Lemma deep_line_app k l t : (exists r, l = sps k ++ r) -> deep_line k (l ++ t).
Proof. intros (r & ->). right. exists (r ++ t). rewrite <- app_assoc. reflexivity. Qed.
Lemma sps_le k j : (k <= j)%N -> exists r, sps j = sps k ++ r.
Proof.
  intro H. exists (sps (j - k)). unfold sps. rewrite <- repeat_app. f_equal. lia.
Qed.

(* [x]: what has been printed since the opening brace; [p]: the held break. *)
Definition lines_inv (k : N) (x : ustr) (p : option N) : Prop :=
  exists ls last, split_on c_nl x = ls ++ [last] /\ Forall (deep_line k) ls /\
    match p with
    | Some j => (k <= j)%N /\ deep_line k last
    | None => exists r, last = sps k ++ r
    end.

Lemma split_snoc_line x t ls last : split_on c_nl x = ls ++ [last] -> no_nl t ->
  split_on c_nl (x ++ t) = ls ++ [last ++ t].
Proof.
  revert ls last. induction x as [|c x IH]; intros ls last H Ht.
  - cbn in H. destruct ls as [|l ls]; [injection H as <-; apply split_line; exact Ht|destruct ls; discriminate].
  - cbn [app split_on] in *. destruct (split_on c_nl x) as [|q qs] eqn:E; [exfalso; exact (split_ne _ E)|].
    destruct (c =? c_nl)%N.
    + destruct ls as [|l ls]; [discriminate|]. injection H as <- H. rewrite (IH ls last H Ht).
      destruct ls; reflexivity.
    + destruct ls as [|l ls].
      * injection H as <- ->. rewrite (IH [] q eq_refl Ht). reflexivity.
      * injection H as <- ->. rewrite (IH (q :: ls) last eq_refl Ht). reflexivity.
Qed.
Lemma split_snoc_nl x t ls last : split_on c_nl x = ls ++ [last] -> no_nl t ->
  split_on c_nl (x ++ c_nl :: t) = (ls ++ [last]) ++ [t].
Proof.
  revert ls last. induction x as [|c x IH]; intros ls last H Ht.
  - cbn in H. destruct ls as [|l ls]; [injection H as <-|destruct ls; discriminate].
    cbn [app split_on]. rewrite split_line by exact Ht. reflexivity.
  - cbn [app split_on] in *. destruct (split_on c_nl x) as [|q qs] eqn:E; [exfalso; exact (split_ne _ E)|].
    destruct (c =? c_nl)%N.
    + destruct ls as [|l ls]; [discriminate|]. injection H as <- H. rewrite (IH ls last H Ht).
      destruct ls; reflexivity.
    + destruct ls as [|l ls].
      * injection H as <- ->. rewrite (IH [] q eq_refl Ht). reflexivity.
      * injection H as <- ->. rewrite (IH (q :: ls) last eq_refl Ht). reflexivity.
Qed.

Lemma sps_no_nl j : no_nl (sps j).
Proof. apply spaces_no_nl. Qed.

Lemma settle_inv k x p : lines_inv k x p -> exists x', lines_inv k x' None /\
  forall o, settle (o ++ x, p) = o ++ x'.
Proof.
  intros (ls & last & Es & Hl & Hp). destruct p as [j|].
  - destruct Hp as [Hj Hlast]. exists (x ++ c_nl :: sps j). split.
    + exists (ls ++ [last]), (sps j). split; [apply split_snoc_nl; [exact Es|apply sps_no_nl]|].
      split; [apply Forall_app; split; [exact Hl|constructor; [exact Hlast|constructor]]|]. apply sps_le. exact Hj.
    + intro o. cbn. rewrite <- app_assoc. reflexivity.
  - exists x. split; [exists ls, last; auto|reflexivity].
Qed.

Lemma deep_render k l : deep_atoms k l -> forall o x p, lines_inv k x p ->
  exists x' p', lines_inv k x' p' /\ render_from (o ++ x, p) l = (o ++ x', p').
Proof.
  induction 1 as [|s l Hs Hl IH|j l Hj Hl IH|l Hl IH|l Hl IH|j l Hj Hl IH]; intros o x p Hi.
  - exists x, p. split; [exact Hi|reflexivity].
  - destruct (settle_inv _ _ _ Hi) as (x1 & Hi1 & Hs1).
    change (render_from (o ++ x, p) (AText s :: l)) with (render_from (put (settle (o ++ x, p)) s, None) l).
    rewrite Hs1. unfold put. destruct (ustr_eqb s [c_sp] && ends_with_char c_sp (o ++ x1)).
    + apply IH. exact Hi1.
    + rewrite <- app_assoc. apply IH.
      destruct Hi1 as (ls & last & Es & Hls & (r & ->)). exists ls, ((sps k ++ r) ++ s).
      split; [apply split_snoc_line; assumption|]. split; [exact Hls|]. exists (r ++ s). rewrite <- app_assoc. reflexivity.
  - cbn. apply IH. destruct Hi as (ls & last & Es & Hls & Hp). exists ls, last. split; [exact Es|]. split; [exact Hls|].
    split; [exact Hj|]. destruct p as [j0|]; [apply Hp|]. right. exact Hp.
  - cbn. rewrite <- app_assoc. apply IH. destruct Hi as (ls & last & Es & Hls & Hp).
    exists ls, (last ++ [c_sp]). split; [apply split_snoc_line; [exact Es|intros [H|[]]; discriminate]|].
    split; [exact Hls|]. destruct p as [j0|].
    + destruct Hp as [Hj [(m & ->)|(r & ->)]]; (split; [exact Hj|]).
      * left. exists (m + 1)%nat. rewrite repeat_app. reflexivity.
      * right. exists (r ++ [c_sp]). rewrite <- app_assoc. reflexivity.
    + destruct Hp as (r & ->). exists (r ++ [c_sp]). rewrite <- app_assoc. reflexivity.
  - cbn [render_from fold_left render1].
    destruct (settle_inv _ _ _ Hi) as (x1 & Hi1 & Hs1). rewrite Hs1. apply IH. exact Hi1.
  - cbn [render_from fold_left render1 fst]. rewrite <- app_assoc. apply IH.
    destruct Hi as (ls & last & Es & Hls & Hp). exists (ls ++ [last]), [].
    split; [apply split_snoc_nl; [exact Es|intros []]|]. split.
    + apply Forall_app. split; [exact Hls|]. constructor; [|constructor].
      destruct p; [apply Hp|right; exact Hp].
    + split; [exact Hj|]. left. exists O. reflexivity.
Qed.

Lemma intersperse_shaped ms : Forall (fun m => shaped (fst m)) ms -> Forall shaped (intersperse_members ms).
Proof.
  induction 1 as [|[d tr] ms Hd Hms IH]; [constructor|]. destruct ms as [|[d2 tr2] ms]; [constructor; [exact Hd|constructor]|].
  rewrite intersperse_cons. constructor; [exact Hd|]. constructor; [destruct tr; constructor|]. exact IH.
Qed.

(* Everything printed for the members of a body lies deeper than the line of the
   closing brace. *)
Theorem members_deeper D w cfg ms open close :
  within (surround_body_members cfg ms open close) D ->
  ms <> [] -> open <> [c_sp] -> close <> [c_sp] ->
  Forall (fun m => shaped (fst m)) ms ->
  exists a x i b,
    pretty_print D w = a ++ open ++ x ++ c_nl :: repeat c_sp (N.to_nat i) ++ close ++ b /\
    Forall (deep_line (i + indent_size cfg)) (split_on c_nl x).
Proof.
  intros Hw Hne Ho Hc Hsh. destruct (pretty_print_layout D w) as (at0 & Ha & ->).
  destruct (within_layout _ _ Hw _ _ _ Ha) as (i & f & p & m & q & -> & Hb). clear Ha Hw.
  unfold surround_body_members in Hb. destruct ms as [|m0 ms']; [congruence|].
  set (ms := m0 :: ms') in *. unfold intersperse_body_members in Hb. subst ms. cbv beta iota in Hb.
  set (ms := m0 :: ms') in *.
  unfold concat, indent, nl, txt in Hb.
  inversion Hb as [| | | | | | | | | | |? ? ? ? HL| |]; subst. clear Hb.
  inversion HL as [|? ? ? ? b1 c1 L1 HL1]; subst. inversion HL1 as [|? ? ? ? b2 c2 L2 HL2]; subst.
  inversion HL2 as [|? ? ? ? b3 c3 L3 HL3]; subst. inversion HL3 as [|? ? ? ? b4 c4 L4 HL4]; subst.
  inversion HL4 as [|? ? ? ? b5 c5 L5 HL5]; subst. inversion HL5; subst. clear HL HL1 HL2 HL3 HL4 HL5.
  inversion L1; subst. inversion L4; subst. inversion L5; subst.
  inversion L2 as [| | | | | | | | |? ? ? ? ? M2| | | |]; subst. inversion M2; subst.
  inversion L3 as [| | | | | | | | |? ? ? ? ? M3| | | |]; subst.
  assert (HD : deep_atoms (i + indent_size cfg) b3).
  { eapply shaped_deep; [|apply N.le_refl|exact M3]. constructor. exact (intersperse_shaped ms Hsh). }
  clear L1 L2 L3 L4 L5 M2 M3.
  unfold render. rewrite !render_from_app.
  set (o := render_from ([], None) p).
  change (render_from o [AText open]) with (put (settle o) open, @None N). rewrite put_text by exact Ho.
  set (o1 := settle o ++ open).
  change (render_from (o1, None) [ABreak (i + indent_size cfg)]) with (o1, Some (i + indent_size cfg)%N).
  destruct (deep_render _ _ HD o1 [] (Some (i + indent_size cfg)%N)) as (x & p' & Hx & Hr).
  { exists [], []. split; [reflexivity|]. split; [constructor|]. split; [lia|]. left. exists O. reflexivity. }
  rewrite app_nil_r in Hr. rewrite Hr.
  change (render_from (o1 ++ x, p') [ABreak i]) with (o1 ++ x, Some i).
  change (render_from (o1 ++ x, Some i) [AText close]) with (put ((o1 ++ x) ++ c_nl :: repeat c_sp (N.to_nat i)) close, @None N).
  rewrite put_text by exact Hc.
  destruct (settle_render_grows q (((o1 ++ x) ++ c_nl :: repeat c_sp (N.to_nat i)) ++ close, None)) as [r Hq].
  unfold render_from at 2. cbn [fold_left]. rewrite Hq. cbn [fst].
  exists (settle o), x, i, r. split.
  - unfold o1. rewrite <- !app_assoc. reflexivity.
  - destruct Hx as (ls & last & -> & Hls & Hp). apply Forall_app. split; [exact Hls|]. constructor; [|constructor].
    destruct p'; [apply Hp|right; exact Hp].
Qed.
