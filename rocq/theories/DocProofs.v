(* DocProofs.v: lemmas about the layout engine. *)
From Verif Require Import Base Doc DocBuilder SpecDoc.

Lemma ustr_eqb_eq a b : ustr_eqb a b = true <-> a = b.
Proof.
  revert b; induction a as [|x a IH]; intros [|y b]; simpl; split; intro H;
    try discriminate; auto.
  - apply andb_true_iff in H as [H1 H2]. apply N.eqb_eq in H1. apply IH in H2. congruence.
  - injection H as -> ->. rewrite N.eqb_refl. apply IH; reflexivity.
Qed.

Lemma ustr_eqb_refl a : ustr_eqb a a = true.
Proof. apply ustr_eqb_eq; reflexivity. Qed.

(* ------------------------------------------------------------ termination *)

Definition lsteps (l : list doc) : nat :=
  (fix go (l : list doc) : nat := match l with [] => O | x :: t => dsteps x + go t end) l.

Lemma dsteps_pos d : 1 <= dsteps d.
Proof. destruct d; simpl; lia. Qed.

Lemma ssteps_app a b : ssteps (a ++ b) = ssteps a + ssteps b.
Proof. induction a; simpl; lia. Qed.

Lemma ssteps_map c l : ssteps (map (with_doc c) l) = lsteps l.
Proof. induction l; simpl; auto. Qed.

Definition fmeasure (s : fstate) := ssteps (f_stack s) + ssteps (f_rest s).

Lemma fits_chunk_decreases c s s' :
  fits_chunk c s = inr s' -> fmeasure s' < dsteps (ch_doc c) + fmeasure s.
Proof.
  unfold fits_chunk, fmeasure. destruct c as [d i fl]; simpl.
  destruct d; simpl; try discriminate.
  - destruct (f_within s); [discriminate|intro H; injection H as <-; simpl; lia].
  - destruct (width <=? f_rem s)%N; [|discriminate]. intro H; injection H as <-; simpl; lia.
  - destruct fl; [|discriminate]. destruct (1 <=? f_rem s)%N; [|discriminate].
    intro H; injection H as <-; simpl; lia.
  - destruct fl; [|discriminate]. intro H; injection H as <-; simpl; lia.
  - intro H; injection H as <-; simpl; lia.
  - intro H; injection H as <-; simpl; lia.
  - intro H; injection H as <-; simpl; lia.
  - intro H; injection H as <-; simpl. rewrite ssteps_app, ssteps_map. unfold lsteps. lia.
  - intro H; injection H as <-; simpl. destruct fl; simpl; lia.
Qed.

Lemma fits_step_decreases s s' : fits_step s = inr s' -> fmeasure s' < fmeasure s.
Proof.
  unfold fits_step. destruct (f_stack s) as [|c st] eqn:Hs.
  - destruct (f_rest s) as [|c r] eqn:Hr; [discriminate|].
    intro H; apply fits_chunk_decreases in H.
    unfold fmeasure in *; simpl in *. rewrite Hs, Hr. simpl. lia.
  - intro H; apply fits_chunk_decreases in H.
    unfold fmeasure in *; simpl in *. rewrite Hs. simpl. lia.
Qed.

Lemma fits_loop_total n s : fmeasure s < n -> exists b, fits_loop n s = Some b.
Proof.
  revert s; induction n as [|n IH]; intros s Hn; [lia|]. simpl.
  destruct (fits_step s) as [b|s'] eqn:E; [eauto|].
  apply IH. apply fits_step_decreases in E. lia.
Qed.

Lemma fits_total w col rest c : exists b, fits_opt w col rest c = Some b.
Proof. apply fits_loop_total. unfold fmeasure, fits_init; simpl. lia. Qed.

Lemma fits_loop_more n m s b : fits_loop n s = Some b -> n <= m -> fits_loop m s = Some b.
Proof.
  revert m s; induction n as [|n IH]; intros m s H Hm; [discriminate|].
  destruct m as [|m]; [lia|]. simpl in *.
  destruct (fits_step s) as [b'|s']; [exact H|]. apply IH; [exact H|lia].
Qed.

Lemma flush_chunks s : p_chunks (flush s) = p_chunks s.
Proof. unfold flush; destruct (p_pending s); reflexivity. Qed.

Lemma push_text_chunks t w s : p_chunks (push_text t w s) = p_chunks s.
Proof. unfold push_text. destruct (_ && _); reflexivity. Qed.

Lemma print_chunk_decreases w c s :
  ssteps (p_chunks (print_chunk w c s)) < dsteps (ch_doc c) + ssteps (p_chunks s).
Proof.
  unfold print_chunk. destruct c as [d i fl]; destruct d; simpl; try lia.
  - rewrite push_text_chunks, flush_chunks. lia.
  - destruct fl; simpl; lia.
  - destruct fl; simpl; lia.
  - rewrite ssteps_app, ssteps_map. unfold lsteps. lia.
  - destruct fl; [|destruct (fits w (p_col (flush s)) (p_chunks (flush s)) _)];
      simpl; rewrite flush_chunks; lia.
Qed.

Lemma print_loop_total n w s : ssteps (p_chunks s) <= n -> exists s', print_loop n w s = Some s'.
Proof.
  revert s; induction n as [|n IH]; intros s Hn.
  - simpl. destruct (p_chunks s) as [|c r] eqn:E; [eauto|].
    simpl in Hn. pose proof (dsteps_pos (ch_doc c)). lia.
  - simpl. destruct (p_chunks s) as [|c r] eqn:E; [eauto|].
    unfold print_step. rewrite E. apply IH.
    pose proof (print_chunk_decreases w c
      {| p_chunks := r; p_col := p_col s; p_out := p_out s; p_pending := p_pending s |}) as H.
    simpl in *. lia.
Qed.

Lemma pretty_print_total d w : exists o, pretty_print_opt d w = Some o.
Proof.
  unfold pretty_print_opt.
  destruct (print_loop_total (dsteps d) w (print_init d)) as [s Hs]; [simpl; lia|].
  rewrite Hs. eauto.
Qed.

(* The printed text in terms of the machine: any sufficient fuel gives it. *)
Lemma print_loop_done n w s : p_chunks s = [] -> print_loop n w s = Some s.
Proof. intro H. destruct n; simpl; rewrite H; reflexivity. Qed.

Lemma print_loop_more n m w s s' :
  print_loop n w s = Some s' -> n <= m -> print_loop m w s = Some s'.
Proof.
  revert m s; induction n as [|n IH]; intros m s H Hm.
  - simpl in H. destruct (p_chunks s) eqn:E; [|discriminate].
    injection H as <-. apply print_loop_done; exact E.
  - simpl in H. destruct (p_chunks s) eqn:E.
    + injection H as <-. apply print_loop_done; exact E.
    + destruct m as [|m]; [lia|]. simpl. rewrite E.
      destruct (print_step w s) eqn:E2; [|exact H]. apply IH; [exact H|lia].
Qed.

Lemma print_loop_nil n w s s' : print_loop n w s = Some s' -> p_chunks s' = [].
Proof.
  revert s; induction n as [|n IH]; intros s H; simpl in H; destruct (p_chunks s) eqn:E.
  - injection H as <-; exact E.
  - discriminate.
  - injection H as <-; exact E.
  - unfold print_step in H. rewrite E in H. eauto.
Qed.

Lemma pretty_print_eq n d w s :
  print_loop n w (print_init d) = Some s -> pretty_print d w = p_out (flush s).
Proof.
  intro H. unfold pretty_print, pretty_print_opt.
  destruct (print_loop_total (dsteps d) w (print_init d)) as [s' Hs']; [simpl; lia|].
  rewrite Hs'. apply (print_loop_more _ (max n (dsteps d))) in H; [|lia].
  apply (print_loop_more _ (max n (dsteps d))) in Hs'; [|lia]. congruence.
Qed.

(* ------------------------------------------------------------ layouts *)

Inductive stack_layout : list chunk -> list atom -> Prop :=
| SL_nil : stack_layout [] []
| SL_cons c l a b : layout (ch_indent c) (ch_flat c) (ch_doc c) a -> stack_layout l b ->
    stack_layout (c :: l) (a ++ b).

Lemma stack_layout_concat c l r a :
  stack_layout (map (with_doc c) l ++ r) a ->
  exists a1 a2, a = a1 ++ a2 /\ layouts (ch_indent c) (ch_flat c) l a1 /\ stack_layout r a2.
Proof.
  revert a; induction l as [|d l IH]; simpl; intros a H.
  - exists [], a. repeat split; auto. constructor.
  - inversion H as [|c' l' a1 b1 H1 H2]; subst.
    apply IH in H2 as (a2 & a3 & -> & H3 & H4).
    exists (a1 ++ a2), a3. rewrite app_assoc. repeat split; auto.
    constructor; auto.
Qed.

Definition rst (s : pstate) : rstate := (p_out s, p_pending s).

Lemma flush_settle s : rst (flush s) = (settle (rst s), None).
Proof. unfold flush, rst, settle, spaces. destruct (p_pending s) eqn:E; simpl; rewrite ?E; reflexivity. Qed.

Lemma flush_pending s : p_pending (flush s) = None.
Proof. unfold flush. destruct (p_pending s) eqn:E; simpl; auto. Qed.

Lemma flush_out s : p_out (flush s) = settle (rst s).
Proof. pose proof (flush_settle s) as H. unfold rst in H at 1. congruence. Qed.

Lemma render_from_app s a b : render_from s (a ++ b) = render_from (render_from s a) b.
Proof. apply fold_left_app. Qed.

Lemma push_text_rst t w s :
  p_pending s = None -> rst (push_text t w s) = (put (p_out s) t, None).
Proof.
  intro H. unfold push_text, put, rst. destruct (_ && _); simpl; rewrite H; reflexivity.
Qed.

(* One printer step on top of a stack that can be laid out. *)
Lemma print_step_layout w c r s s' a :
  p_chunks s = c :: r -> print_step w s = Some s' -> stack_layout (p_chunks s') a ->
  exists a', stack_layout (p_chunks s) a' /\ render_from (rst s) a' = render_from (rst s') a.
Proof.
  intros Hc Hs Ha. unfold print_step in Hs. rewrite Hc in *. injection Hs as <-.
  set (s0 := {| p_chunks := r; p_col := p_col s; p_out := p_out s; p_pending := p_pending s |}) in *.
  assert (E0 : rst s0 = rst s) by reflexivity.
  rewrite <- E0. clear E0.
  destruct c as [d i fl]. unfold print_chunk in *. simpl ch_doc in *; simpl ch_indent in *; simpl ch_flat in *.
  destruct d.
  - exists ([ABreak i] ++ a). split; [constructor; [constructor|exact Ha]|reflexivity].
  - exists ([ALineFeed] ++ a). split; [constructor; [constructor|exact Ha]|reflexivity].
  - exists ([] ++ a). split; [constructor; [constructor|exact Ha]|reflexivity].
  - rewrite push_text_chunks, flush_chunks in Ha.
    exists ([AText s1] ++ a). split; [constructor; [constructor|exact Ha]|].
    rewrite render_from_app. f_equal. rewrite push_text_rst by apply flush_pending.
    rewrite flush_out. reflexivity.
  - destruct fl.
    + exists ([ASpace] ++ a). split; [constructor; [constructor|exact Ha]|reflexivity].
    + exists ([ABreak i] ++ a). split; [constructor; [constructor|exact Ha]|reflexivity].
  - destruct fl.
    + exists ([] ++ a). split; [constructor; [constructor|exact Ha]|reflexivity].
    + exists ([ABreak i] ++ a). split; [constructor; [constructor|exact Ha]|reflexivity].
  - simpl in Ha. inversion Ha as [|c' l' a1 b1 H1 H2]; subst. simpl in *.
    exists (a1 ++ b1). split; [|reflexivity]. constructor; [|exact H2]. constructor; exact H1.
  - simpl in Ha. inversion Ha as [|c' l' a1 b1 H1 H2]; subst. simpl in *.
    exists (a1 ++ b1). split; [|reflexivity]. constructor; [|exact H2]. constructor; exact H1.
  - simpl in Ha. inversion Ha as [|c' l' a1 b1 H1 H2]; subst. simpl in *.
    exists (a1 ++ b1). split; [|reflexivity]. constructor; [|exact H2]. constructor; exact H1.
  - simpl in Ha. apply stack_layout_concat in Ha as (a1 & a2 & -> & H1 & H2). simpl in *.
    exists (a1 ++ a2). split; [|reflexivity]. constructor; [|exact H2]. constructor; exact H1.
  - assert (Hrst : forall cs, rst (push_chunks cs (flush s0)) = (settle (rst s0), None))
      by (intro cs; rewrite <- flush_settle; reflexivity).
    destruct fl; [|destruct (fits w _ _ _)].
    + simpl in Ha. rewrite flush_chunks in Ha. inversion Ha as [|c' l' a1 b1 H1 H2]; subst. simpl in *.
      exists ((AGroup :: a1) ++ b1). split; [constructor; [|exact H2]; constructor; exact H1|].
      rewrite Hrst. reflexivity.
    + simpl in Ha. rewrite flush_chunks in Ha. inversion Ha as [|c' l' a1 b1 H1 H2]; subst. simpl in *.
      exists ((AGroup :: a1) ++ b1). split; [constructor; [|exact H2]; constructor; exact H1|].
      rewrite Hrst. reflexivity.
    + simpl in Ha. rewrite flush_chunks in Ha. inversion Ha as [|c' l' a1 b1 H1 H2]; subst. simpl in *.
      exists ((AGroup :: a1) ++ b1). split; [constructor; [|exact H2]; constructor; exact H1|].
      rewrite Hrst. reflexivity.
Qed.

Lemma print_loop_layout n w s s' :
  print_loop n w s = Some s' ->
  exists a, stack_layout (p_chunks s) a /\ rst s' = render_from (rst s) a.
Proof.
  revert s; induction n as [|n IH]; intros s H; simpl in H; destruct (p_chunks s) as [|c r] eqn:E.
  - injection H as <-. exists []. split; [constructor|reflexivity].
  - discriminate.
  - injection H as <-. exists []. split; [constructor|reflexivity].
  - destruct (print_step w s) as [s1|] eqn:E1.
    + apply IH in H as (a & Ha & Hr).
      destruct (print_step_layout w c r s s1 a E E1 Ha) as (a' & Ha' & Hr').
      rewrite E in Ha'. exists a'. split; [exact Ha'|congruence].
    + unfold print_step in E1. rewrite E in E1. discriminate.
Qed.

(* The printed text is the rendering of a layout of the document. *)
Lemma pretty_print_layout d w :
  exists a, layout 0 false d a /\ pretty_print d w = render a.
Proof.
  destruct (print_loop_total (dsteps d) w (print_init d)) as [s Hs]; [simpl; lia|].
  rewrite (pretty_print_eq _ _ _ _ Hs).
  apply print_loop_layout in Hs as (a & Ha & Hr). simpl in Ha.
  inversion Ha as [|c l a1 b1 H1 H2]; subst. inversion H2; subst. simpl in *.
  exists a1. split; [exact H1|]. rewrite flush_out, Hr, app_nil_r. reflexivity.
Qed.

(* ------------------------------------------------------------ content *)

Lemma squeeze_app a b : squeeze (a ++ b) = squeeze a ++ squeeze b.
Proof. apply filter_app. Qed.

Lemma squeeze_spaces n : squeeze (repeat c_sp n) = [].
Proof. induction n; simpl; auto. Qed.

Lemma squeeze_settle s : squeeze (settle s) = squeeze (fst s).
Proof.
  destruct s as [out [i|]]; simpl; [|reflexivity].
  rewrite squeeze_app. simpl. rewrite squeeze_spaces, app_nil_r. reflexivity.
Qed.

Lemma squeeze_put out t : squeeze (put out t) = squeeze out ++ squeeze t.
Proof.
  unfold put. destruct (ustr_eqb t [c_sp]) eqn:E; simpl.
  - apply ustr_eqb_eq in E as ->. destruct (ends_with_char c_sp out); simpl.
    + rewrite app_nil_r; reflexivity.
    + rewrite squeeze_app. reflexivity.
  - apply squeeze_app.
Qed.

Definition atom_content (a : atom) : ustr :=
  match a with AText s => squeeze s | _ => [] end.

Lemma render1_content s a : squeeze (fst (render1 s a)) = squeeze (fst s) ++ atom_content a.
Proof.
  destruct a; simpl.
  - rewrite squeeze_put, squeeze_settle. reflexivity.
  - rewrite app_nil_r; reflexivity.
  - rewrite squeeze_app. reflexivity.
  - rewrite squeeze_app. reflexivity.
  - rewrite squeeze_settle, app_nil_r; reflexivity.
Qed.

Lemma render_from_content l s :
  squeeze (fst (render_from s l)) = squeeze (fst s) ++ flat_map atom_content l.
Proof.
  revert s; induction l as [|a l IH]; intro s; simpl.
  - rewrite app_nil_r; reflexivity.
  - change (render_from s (a :: l)) with (render_from (render1 s a) l).
    rewrite IH, render1_content, app_assoc. reflexivity.
Qed.

Lemma render_content l : squeeze (render l) = flat_map atom_content l.
Proof. unfold render. rewrite squeeze_settle, render_from_content. reflexivity. Qed.

Lemma layout_content d : forall i f a, grouped d -> layout i f d a -> flat_map atom_content a = content d.
Proof.
  induction d as [| | |s w| | |d IH|k d IH|k d IH|l IH|x y IHx IHy] using doc_nested_ind;
    intros i f a G H; inversion H; subst; simpl in *; rewrite ?app_nil_r; eauto.
  - match goal with H : layouts _ _ _ _ |- _ => revert H end. clear H.
    revert i f a. induction IH as [|d l Hd Hl IHl]; intros i f a H; inversion H; subst; simpl in *.
    + reflexivity.
    + destruct G as [G1 G2]. rewrite flat_map_app.
      match goal with H1 : layout _ _ _ _, H2 : layouts _ _ _ _ |- _ =>
        rewrite (Hd _ _ _ G1 H1), (IHl G2 _ _ _ H2) end.
      reflexivity.
  - destruct G as [-> G]. match goal with H1 : layout _ _ (Flat _) _ |- _ => inversion H1; subst end. simpl. eauto.
  - destruct G as [-> G]. simpl. eauto.
Qed.

Lemma pretty_print_content d w : grouped d -> squeeze (pretty_print d w) = content d.
Proof.
  intro G. destruct (pretty_print_layout d w) as (a & Ha & ->).
  rewrite render_content. eapply layout_content; eauto.
Qed.

(* No infinite run of either loop. *)
Lemma no_infinite_decrease (f : nat -> nat) : ~ (forall n, f (S n) < f n).
Proof.
  intro H. assert (forall n, f n + n <= f 0) as H1.
  { induction n as [|n IH]; [lia|]. specialize (H n). lia. }
  specialize (H1 (S (f 0))). lia.
Qed.

Lemma fits_no_infinite_run (f : nat -> fstate) : ~ (forall n, fits_step (f n) = inr (f (S n))).
Proof.
  intro H. apply (no_infinite_decrease (fun n => fmeasure (f n))).
  intro n. apply fits_step_decreases. apply H.
Qed.

Lemma print_step_decreases w s s' : print_step w s = Some s' -> ssteps (p_chunks s') < ssteps (p_chunks s).
Proof.
  unfold print_step. destruct (p_chunks s) as [|c r] eqn:E; [discriminate|].
  intro H; injection H as <-.
  pose proof (print_chunk_decreases w c
      {| p_chunks := r; p_col := p_col s; p_out := p_out s; p_pending := p_pending s |}) as H.
  simpl in *. lia.
Qed.

Lemma print_no_infinite_run w (f : nat -> pstate) : ~ (forall n, print_step w (f n) = Some (f (S n))).
Proof.
  intro H. apply (no_infinite_decrease (fun n => ssteps (p_chunks (f n)))).
  intro n. eapply print_step_decreases. apply H.
Qed.
