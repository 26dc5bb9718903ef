(* TextProofs2.v: reading a printed comment again; its words; its closing sign. *)
From Coq Require Import Lia.
From Verif Require Import Base Doc DocBuilder DocProofs Cst Comments SpecComments SpecText FormatProofs TextProofs.

Definition fine (x : ustr) : Prop := tight x /\ no_nl x.
Definition end_mark : ustr := U " */".

Lemma in_trim_start c s : In c (trim_start s) -> In c s.
Proof. induction s as [|x s IH]; [auto|]. cbn. destruct (is_ws x); [right; auto|auto]. Qed.
Lemma in_trim_end c s : In c (trim_end s) -> In c s.
Proof.
  induction s as [|x s IH]; [auto|]. cbn. destruct (trim_end s) as [|y t].
  - destruct (is_ws x); [intros []|]. intros [->|[]]; auto.
  - intros [->|H]; auto.
Qed.
Lemma in_trim c s : In c (trim s) -> In c s.
Proof. intro H. apply in_trim_start, in_trim_end, H. Qed.
Lemma strip_suffix_app p s r : strip_suffix p s = Some r -> s = r ++ p.
Proof.
  revert r. induction s as [|c s IH]; intros r; cbn [strip_suffix].
  - destruct (ustr_eqb [] p) eqn:E; [|discriminate]. intro H. injection H as <-.
    apply ustr_eqb_eq in E. exact E.
  - destruct (ustr_eqb (c :: s) p) eqn:E.
    + intro H. injection H as <-. apply ustr_eqb_eq in E. exact E.
    + destruct (strip_suffix p s) as [r'|]; [|discriminate]. intro H. injection H as <-.
      cbn. f_equal. apply IH. reflexivity.
Qed.
Lemma without_star_in c l : In c (without_star l) -> In c l.
Proof.
  unfold without_star. intro H. apply in_trim. destruct (trim l) as [|x r]; [exact H|].
  destruct (x =? c_star)%N; [right; apply in_trim_start; exact H|exact H].
Qed.
Lemma tight_fine l : no_nl l -> fine (trim l).
Proof. intro H. split; [apply trim_tight|]. intro Hi. apply H, in_trim, Hi. Qed.

Lemma body_form ls : ls <> [] -> Forall no_nl ls ->
  exists xs, javadoc_body ls = map starred xs ++ [end_mark] /\ Forall fine xs.
Proof.
  induction ls as [|l ls IH]; [congruence|]. intros _ H. inversion H as [|? ? Hl H']; subst.
  destruct ls as [|l' ls].
  - cbn [javadoc_body]. unfold closing. destruct (strip_suffix _ _) as [b|] eqn:E.
    + assert (Hb : no_nl b).
      { intro Hi. apply Hl, in_trim. rewrite (strip_suffix_app _ _ _ E). apply in_or_app. left. exact Hi. }
      destruct (not_empty (trim b)) eqn:En.
      * exists [trim b]. split; [cbn [map app]; unfold starred; rewrite En; reflexivity|].
        constructor; [apply tight_fine; exact Hb|constructor].
      * exists []. split; [reflexivity|constructor].
    + exists []. split; [reflexivity|constructor].
  - destruct (IH ltac:(discriminate) H') as (xs & E & F).
    exists (without_star l :: xs). split.
    + change (javadoc_body (l :: l' :: ls)) with (starred (without_star l) :: javadoc_body (l' :: ls)).
      rewrite E. reflexivity.
    + constructor; [|exact F]. split; [apply without_star_tight|].
      intro Hi. apply Hl, without_star_in, Hi.
Qed.

Lemma javadoc_form s : starts_with (U "/**") s = true ->
  normal_lines false s = [U "/**"] \/
  exists xs, normal_lines false s = U "/**" :: map starred xs ++ [end_mark] /\ Forall fine xs.
Proof.
  intro H. unfold normal_lines. rewrite H. assert (HF := split_no_nl s).
  destruct (split_on c_nl s) as [|l0 rest] eqn:Es.
  - exfalso. exact (split_ne _ Es).
  - unfold javadoc_lines. inversion HF as [|? ? Hl0 HF']; subst.
    assert (Hf : no_nl (trim (skipn 3 (trim l0)))).
    { intro Hi. apply Hl0, in_trim. apply in_trim in Hi.
      rewrite <- (firstn_skipn 3 (trim l0)). apply in_or_app. right. exact Hi. }
    destruct (not_empty _) eqn:En.
    + right. destruct (body_form (trim (skipn 3 (trim l0)) :: rest)) as (xs & E & F);
        [discriminate|constructor; assumption|]. rewrite E. eauto.
    + destruct rest as [|r rest]; [left; reflexivity|]. right.
      destruct (body_form (r :: rest)) as (xs & E & F); [discriminate|assumption|]. rewrite E. eauto.
Qed.

Lemma fine_starred_no_nl x : fine x -> no_nl (starred x).
Proof.
  intros [_ H]. unfold starred. intro Hi. destruct (not_empty x).
  - apply in_app_or in Hi as [Hi|Hi]; [|auto]. cbn in Hi. intuition discriminate.
  - cbn in Hi. intuition discriminate.
Qed.

Lemma body_reread xs rs : Forall fine xs ->
  Forall2 respaced (map starred xs ++ [end_mark]) rs ->
  javadoc_body rs = map starred xs ++ [end_mark].
Proof.
  intro F. revert rs. induction F as [|x xs [Ht Hn] F IH]; intros rs H.
  - inversion H as [|? r ? rs' Hr H']; subst. inversion H'; subst. cbn [javadoc_body].
    destruct Hr as [k ->]. unfold closing. rewrite trim_spaces. reflexivity.
  - cbn [map app] in H. inversion H as [|? r ? rs' Hr H']; subst.
    assert (Hne : rs' <> []). { intros ->. inversion H' as [E|]. destruct xs; discriminate. }
    destruct rs' as [|r' rs']; [congruence|].
    change (javadoc_body (r :: r' :: rs')) with (starred (without_star r) :: javadoc_body (r' :: rs')).
    rewrite (IH _ H'). destruct Hr as [k ->]. rewrite without_star_starred by exact Ht. reflexivity.
Qed.

Lemma text_first l ls s : text_of_lines (l :: ls) s -> exists t, s = l ++ t.
Proof. intro H. inversion H; subst; [exists []; rewrite app_nil_r; reflexivity|eauto]. Qed.
Lemma starts_with_app p t : starts_with p (p ++ t) = true.
Proof.
  unfold starts_with. induction p as [|c p IH]; [reflexivity|]. cbn. rewrite N.eqb_refl. exact IH.
Qed.

Theorem javadoc_idempotent s s' :
  starts_with (U "/**") s = true ->
  text_of_lines (normal_lines false s) s' ->
  normal_lines false (trim_end s') = normal_lines false s.
Proof.
  intros H HT. destruct (javadoc_form s H) as [E|(xs & E & F)]; rewrite E in *.
  - inversion HT; subst. reflexivity.
  - assert (Hte : trim_end s' = s').
    { change (U "/**" :: map starred xs ++ [end_mark]) with ((U "/**" :: map starred xs) ++ [end_mark]) in HT.
      apply text_ends in HT as [p ->]. change (p ++ end_mark) with (p ++ (U " *" ++ [47%N])).
      rewrite app_assoc. apply trim_end_app_last. reflexivity. }
    rewrite Hte. unfold normal_lines.
    destruct (text_first _ _ _ HT) as [t Et]. rewrite Et at 1. rewrite starts_with_app.
    destruct (split_text _ _ _ HT) as (rs & Es & F2).
    { constructor; [cbn; intro Hi; cbn in Hi; intuition discriminate|]. apply Forall_app. split.
      - apply Forall_forall. intros l Hl. apply in_map_iff in Hl as (x & <- & Hx).
        apply fine_starred_no_nl. rewrite Forall_forall in F. auto.
      - constructor; [|constructor]. intro Hi. cbn in Hi. intuition discriminate. }
    rewrite Es. unfold javadoc_lines. change (trim (skipn 3 (trim (U "/**")))) with (@nil N).
    cbn [not_empty]. f_equal. apply body_reread; assumption.
Qed.

(* ---- ordinary block comments ---- *)

Lemma map_trim_respaced ls rs : Forall2 respaced (map trim ls) rs -> map trim rs = map trim ls.
Proof.
  revert rs. induction ls as [|l ls IH]; intros rs H; inversion H as [|? r ? rs' [k ->] H']; subst; [reflexivity|].
  cbn [map]. rewrite trim_spaces, (tight_trim _ (trim_tight l)), (IH _ H'). reflexivity.
Qed.
Lemma trim_no_nl ls : Forall no_nl ls -> Forall no_nl (map trim ls).
Proof.
  intro H. apply Forall_forall. intros l Hl. apply in_map_iff in Hl as (x & <- & Hx).
  rewrite Forall_forall in H. intro Hi. apply (H _ Hx), in_trim, Hi.
Qed.

Lemma split_last_line s p c : s = p ++ [c] -> c <> c_nl -> exists ls q, split_on c_nl s = ls ++ [q ++ [c]].
Proof.
  intros -> Hc. induction p as [|x p IH]; cbn.
  - destruct (N.eqb_spec c c_nl); [contradiction|]. exists [], []. reflexivity.
  - destruct IH as (ls & q & E). rewrite E. destruct ls as [|l ls]; cbn.
    + destruct (x =? c_nl)%N; [exists [[]], q; reflexivity|exists [], (x :: q); reflexivity].
    + destruct (x =? c_nl)%N; [exists ([] :: l :: ls), q; reflexivity|exists ((x :: l) :: ls), q; reflexivity].
Qed.

Lemma last_of s : trim_end s = s -> s <> [] -> exists p c, s = p ++ [c] /\ is_ws c = false.
Proof.
  intros H Hn. destruct s as [|x t] eqn:E; [congruence|]. rewrite <- E in *.
  destruct (trim_end_last s x t) as (p & y & Hp & Hy); [congruence|]. exists p, y. split; [congruence|exact Hy].
Qed.

Lemma trim_last p c : is_ws c = false -> exists q, trim (p ++ [c]) = q ++ [c].
Proof.
  intro H. unfold trim. induction p as [|x p IH].
  - cbn. rewrite H. cbn. rewrite H. exists []. reflexivity.
  - cbn [app trim_start]. destruct (is_ws x); [exact IH|]. exists (x :: p).
    apply (trim_end_app_last (x :: p)). exact H.
Qed.

Lemma starts_split_first s : starts_with (U "/*") s = true ->
  exists x rest, split_on c_nl s = (U "/*" ++ x) :: rest /\ trim (U "/*" ++ x) = U "/*" ++ trim_end x /\
    (starts_with (U "/**") s = match x with c :: _ => (42 =? c)%N | [] => false end) .
Proof.
  intro H. apply starts_with_split in H as [r ->].
  destruct (split_on c_nl r) as [|p ps] eqn:E; [exfalso; eapply split_ne; eassumption|].
  exists p, ps. repeat split.
  - cbn. rewrite E. reflexivity.
  - unfold trim. replace (trim_start (U "/*" ++ p)) with (U "/*" ++ p) by reflexivity.
    change (U "/*" ++ p) with (47 :: 42 :: p)%N. rewrite !trim_end_cons by reflexivity. reflexivity.
  - cbn. destruct r as [|c r]; [injection E as <- <-; reflexivity|].
    cbn in E. destruct (split_on c_nl r) as [|q qs] eqn:E'; [exfalso; eapply split_ne; eassumption|].
    unfold starts_with. cbn. destruct (N.eqb_spec c c_nl) as [->|].
    + injection E as <- <-. reflexivity.
    + injection E as <- <-. destruct (42 =? c)%N eqn:Ec.
      * apply N.eqb_eq in Ec. subst c. reflexivity.
      * destruct c as [|[]]; try reflexivity; cbn in Ec |- *; rewrite ?Ec; reflexivity.
Qed.

Theorem block_idempotent s s' :
  starts_with (U "/*") s = true -> starts_with (U "/**") s = false -> trim_end s = s ->
  text_of_lines (normal_lines false s) s' ->
  normal_lines false (trim_end s') = normal_lines false s.
Proof.
  intros H HJ Hts HT. unfold normal_lines in *. rewrite HJ in *.
  assert (Hne : s <> []) by (intros ->; discriminate).
  destruct (last_of s Hts Hne) as (p & c & Hp & Hc).
  assert (Hte : trim_end s' = s').
  { destruct (split_last_line s p c Hp) as (ls & q & Esp).
    { intros ->. discriminate. }
    rewrite Esp, map_app in HT. cbn [map] in HT. apply text_ends in HT as [p' ->].
    destruct (trim_last q c Hc) as (q' & ->). rewrite app_assoc. apply trim_end_app_last. exact Hc. }
  rewrite Hte.
  destruct (starts_split_first s H) as (x & rest & Es & Htr & Hst).
  assert (HF := split_no_nl s). rewrite Es in *. cbn [map] in *.
  destruct (split_text _ _ _ HT) as (rs & Es' & F2).
  { exact (trim_no_nl _ HF). }
  assert (Hj' : starts_with (U "/**") s' = false).
  { assert (H' : starts_with (U "/*") s' = true).
    { destruct (text_first _ _ _ HT) as [t ->]. rewrite Htr, <- app_assoc. apply starts_with_app. }
    destruct (starts_split_first s' H') as (x' & rest' & Ex & _ & ->).
    rewrite Es', Htr in Ex. injection Ex as <- _. rewrite HJ in Hst.
    destruct x as [|z zs]; [reflexivity|]. cbn. destruct (trim_end zs); [destruct (is_ws z)|]; auto. }
  rewrite Hj', Es'. cbn [map]. rewrite (map_trim_respaced _ _ F2).
  rewrite (tight_trim _ (trim_tight _)). reflexivity.
Qed.
