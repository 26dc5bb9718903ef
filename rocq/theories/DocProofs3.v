(* DocProofs3.v: width and decision statements in terms of the printed text. *)
From Verif Require Import Base Doc DocBuilder SpecDoc DocProofs DocProofs2.
Local Arguments N.add : simpl never.

Lemma reached_prints w d s : reached w d s ->
  exists n s', print_loop n w s = Some s' /\ pretty_print d w = p_out (flush s').
Proof.
  induction 1 as [|s s1 H IH Hs].
  - destruct (print_loop_total (dsteps d) w (print_init d)) as [s' Hs']; [simpl; lia|].
    exists (dsteps d), s'. split; [exact Hs'|]. eapply pretty_print_eq; eauto.
  - destruct IH as (n & s' & Hl & Hp).
    destruct (print_loop_total (ssteps (p_chunks s1)) w s1) as [s2 H2]; [lia|].
    exists (ssteps (p_chunks s1)), s2. split; [exact H2|]. rewrite Hp.
    pose proof (print_loop_more n (S (n + ssteps (p_chunks s1))) w s s' Hl ltac:(lia)) as Hl'.
    cbn [print_loop] in Hl'. rewrite Hs in Hl'.
    assert (p_chunks s <> []) as Hne by (unfold print_step in Hs; destruct (p_chunks s); [discriminate|congruence]).
    destruct (p_chunks s) as [|c r]; [congruence|].
    pose proof (print_loop_more _ (n + ssteps (p_chunks s1)) w s1 s2 H2 ltac:(lia)). congruence.
Qed.

(* A step of the printer at an undecided group. *)
Lemma choice_step w s s' x y i r :
  p_chunks s = {| ch_doc := Choice x y; ch_indent := i; ch_flat := false |} :: r ->
  print_step w s = Some s' ->
  p_out s' = p_out (flush s) /\ p_col s' = p_col (flush s) /\ p_pending s' = None /\
  p_chunks s' = {| ch_doc := if fits w (p_col (flush s)) r {| ch_doc := x; ch_indent := i; ch_flat := false |}
                             then x else y; ch_indent := i; ch_flat := false |} :: r.
Proof.
  intros Hc Hs. unfold print_step in Hs. rewrite Hc in Hs. injection Hs as <-.
  unfold print_chunk. cbn [ch_doc ch_flat].
  set (s0 := {| p_chunks := r; p_col := p_col s; p_out := p_out s; p_pending := p_pending s |}).
  assert (H1 : p_col (flush s0) = p_col (flush s)) by (unfold flush, s0; simpl; destruct (p_pending s); reflexivity).
  assert (H2 : p_chunks (flush s0) = r) by (rewrite flush_chunks; reflexivity).
  assert (H3 : p_out (flush s0) = p_out (flush s)) by (unfold flush, s0; simpl; destruct (p_pending s); reflexivity).
  rewrite H1, H2. unfold with_doc at 1; cbn [ch_indent ch_flat].
  destruct (fits _ _ _ _); cbn [push_chunks p_out p_col p_pending p_chunks app with_doc ch_indent ch_flat];
    rewrite H1, H2, H3, flush_pending; auto.
Qed.

Lemma reached_flush_col w d s : exact_widths d -> reached w d s ->
  p_col (flush s) = ulen (last_line (p_out (flush s))).
Proof. intros He Hr. apply flush_col_ok. exact (proj2 (reached_exact w d s He Hr)). Qed.

(* The decision at an undecided group, in terms of the text printed so far. *)
Lemma group_choice w d s s' y i r :
  exact_widths d -> reached w d s ->
  p_chunks s = {| ch_doc := group y; ch_indent := i; ch_flat := false |} :: r ->
  print_step w s = Some s' ->
  let col := ulen (last_line (p_out s')) in
  p_chunks s' =
    {| ch_doc := if (need (glance true y ++ glances r) <=? w - col)%N && negb (forced (glance true y))
                 then Flat y else y;
       ch_indent := i; ch_flat := false |} :: r.
Proof.
  intros He Hr Hc Hs col. unfold group, choice, flat in Hc.
  destruct (choice_step w s s' _ _ _ _ Hc Hs) as (H1 & H2 & H3 & H4).
  rewrite H4, fits_spec. cbn [ch_flat ch_doc glance]. unfold col. rewrite H1.
  rewrite (reached_flush_col w d s He Hr). reflexivity.
Qed.

Lemma flat_line_width w d s s' y i r m :
  exact_widths d -> reached w d s ->
  p_chunks s = {| ch_doc := group y; ch_indent := i; ch_flat := false |} :: r ->
  print_step w s = Some s' ->
  p_chunks s' = {| ch_doc := Flat y; ch_indent := i; ch_flat := false |} :: r ->
  pretty_print d w = p_out s' ++ m ->
  (ulen (last_line (p_out s')) + ulen (strip_trailing_spaces (first_line m))
     <= N.max w (ulen (last_line (p_out s'))))%N.
Proof.
  intros He Hr Hc Hs Hf Hm. unfold group, choice, flat in Hc.
  destruct (choice_step w s s' _ _ _ _ Hc Hs) as (H1 & H2 & H3 & H4).
  assert (Hfit : fits w (p_col (flush s)) r {| ch_doc := Flat y; ch_indent := i; ch_flat := false |} = true).
  { destruct (fits _ _ _ _); [reflexivity|]. rewrite H4 in Hf. exfalso.
    assert (forall d, d <> Flat d) as Hd.
    { clear. intros d H.
      assert (forall a b : doc, a = b -> dsteps a = dsteps b) as Hd by congruence.
      apply Hd in H. simpl in H. lia. }
    injection Hf as Hf. exact (Hd _ Hf). }
  destruct (reached_prints w d s Hr) as (n & s2 & Hl & Hp).
  destruct (reached_exact w d s He Hr) as [Hex _].
  rewrite H1. rewrite <- (reached_flush_col w d s He Hr).
  eapply choice_width; eauto. congruence.
Qed.

Lemma reached_loop n : forall w d s s', reached w d s -> print_loop n w s = Some s' -> reached w d s'.
Proof.
  induction n as [|n IH]; intros w d s s' Hr H; cbn [print_loop] in H.
  - destruct (p_chunks s); [injection H as <-; exact Hr|discriminate].
  - destruct (p_chunks s) eqn:E; [injection H as <-; exact Hr|].
    destruct (print_step w s) as [s1|] eqn:E1.
    + eapply IH; [|exact H]. eapply R_step; eauto.
    + injection H as <-; exact Hr.
Qed.

Lemma pretty_print_final d w :
  exists final, reached w d final /\ print_step w final = None /\ pretty_print d w = p_out (flush final).
Proof.
  destruct (print_loop_total (dsteps d) w (print_init d)) as [s Hs]; [simpl; lia|].
  exists s. split; [eapply reached_loop; [apply R_init|exact Hs]|].
  split; [|eapply pretty_print_eq; eauto].
  unfold print_step. rewrite (print_loop_nil _ _ _ _ Hs). reflexivity.
Qed.

Lemma reached_column w d s : exact_widths d -> reached w d s -> p_col s = ulen (last_line (p_out s)).
Proof. intros He Hr. exact (proj2 (reached_exact w d s He Hr)). Qed.

Lemma lone_space_step w s s' tw i f r o :
  p_chunks s = {| ch_doc := Text [c_sp] tw; ch_indent := i; ch_flat := f |} :: r ->
  p_out (flush s) = (o ++ [c_sp])%list -> print_step w s = Some s' -> p_out s' = p_out (flush s).
Proof.
  intros Hc Ho Hs. unfold print_step in Hs. rewrite Hc in Hs. injection Hs as <-.
  unfold print_chunk. cbn [ch_doc].
  set (s0 := {| p_chunks := r; p_col := p_col s; p_out := p_out s; p_pending := p_pending s |}).
  assert (H3 : p_out (flush s0) = p_out (flush s)) by (unfold flush, s0; simpl; destruct (p_pending s); reflexivity).
  unfold push_text. rewrite H3, Ho.
  assert (ends_with_char c_sp (o ++ [c_sp]) = true) as ->.
  { unfold ends_with_char. rewrite rev_app_distr. reflexivity. }
  cbn. rewrite <- Ho. exact H3.
Qed.
