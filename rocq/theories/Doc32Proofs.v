(* Doc32Proofs.v: when the 32-bit layout engine agrees with the unbounded one. *)
From Verif Require Import Base Doc DocBuilder SpecDoc DocProofs Doc32 SpecDoc32.
From Coq Require Import Lia.
Local Open Scope string_scope.

Fixpoint widths (cs : list chunk) : N := match cs with [] => 0 | c :: t => total_width (ch_doc c) + widths t end%N.
Definition deep (m : N) (c : chunk) : Prop := (ch_indent c + total_indent (ch_doc c) <= m)%N.

Lemma total_indent_in l x : In x l -> (total_indent x <= total_indent (Concat l))%N.
Proof.
  induction l as [|y l IH]; intros [].
  - subst y. change (total_indent (Concat (x :: l))) with (N.max (total_indent x) (total_indent (Concat l))). lia.
  - change (total_indent (Concat (y :: l))) with (N.max (total_indent y) (total_indent (Concat l))). specialize (IH H). lia.
Qed.
Lemma widths_app a b : widths (a ++ b) = (widths a + widths b)%N.
Proof. induction a as [|c a IH]; simpl; [reflexivity|rewrite IH; lia]. Qed.
Lemma widths_concat c l : widths (map (with_doc c) l) = total_width (Concat l).
Proof.
  induction l as [|x l IH]; [reflexivity|].
  change (total_width (Concat (x :: l))) with (total_width x + total_width (Concat l))%N. rewrite <- IH. reflexivity.
Qed.
Lemma deep_concat m c l r : ch_doc c = Concat l -> deep m c -> Forall (deep m) r -> Forall (deep m) (map (with_doc c) l ++ r).
Proof.
  intros E H Hr. apply Forall_app. split; [|exact Hr]. apply Forall_forall. intros x Hx. apply in_map_iff in Hx as (y & <- & Hy).
  apply total_indent_in in Hy. unfold deep in *. rewrite E in H. simpl ch_indent. simpl ch_doc. lia.
Qed.
Lemma add32_ok checked a b : (a + b < two32)%N -> add32 checked a b = Ok (a + b)%N.
Proof. intro H. unfold add32. apply N.ltb_lt in H. rewrite H. reflexivity. Qed.

Section Agree.
  Variables (checked : bool) (m : N).
  Hypothesis small : (m < two32)%N.

  Definition fdeep (s : fstate) : Prop := Forall (deep m) (f_stack s) /\ Forall (deep m) (f_rest s).
  Lemma fits_chunk_agrees c s : deep m c -> fdeep s ->
    fits_chunk32 checked c s = Ok (fits_chunk c s) /\ (forall s', fits_chunk c s = inr s' -> fdeep s').
  Proof.
    intros Hc [H1 H2]. unfold fits_chunk32, fits_chunk.
    destruct (ch_doc c) as [| | |t w| | |x|i x|i x|l|x y] eqn:E; unfold deep in Hc; rewrite E in Hc; cbn [total_indent] in Hc;
      try (split; [reflexivity|]; intros s' Hs; try discriminate; try (injection Hs as <-); split; assumption).
    - split; [reflexivity|]. intros s'. destruct (f_within s); intro Hs; [discriminate|injection Hs as <-; split; assumption].
    - split; [reflexivity|]. intros s'. destruct (w <=? f_rem s)%N; intro Hs; [injection Hs as <-; split; assumption|discriminate].
    - split; [reflexivity|]. intros s'. destruct (ch_flat c); [|discriminate]. destruct (1 <=? f_rem s)%N; intro Hs; [injection Hs as <-; split; assumption|discriminate].
    - split; [reflexivity|]. intros s'. destruct (ch_flat c); intro Hs; [injection Hs as <-; split; assumption|discriminate].
    - split; [reflexivity|]. intros s' Hs. injection Hs as <-. split; [constructor; [exact Hc|assumption]|assumption].
    - unfold indented32. rewrite add32_ok by lia. split; [reflexivity|]. intros s' Hs. injection Hs as <-.
      split; [constructor; [|assumption]|assumption]. unfold deep, indented. cbn [ch_indent ch_doc]. lia.
    - split; [reflexivity|]. intros s' Hs. injection Hs as <-. split; [constructor; [|assumption]|assumption].
      unfold deep, dedented. cbn [ch_indent ch_doc]. lia.
    - split; [reflexivity|]. intros s' Hs. injection Hs as <-. split; [|assumption]. cbn [f_stack].
      apply (deep_concat m c l); [exact E| |assumption]. unfold deep. rewrite E. exact Hc.
    - split; [reflexivity|]. intros s' Hs. injection Hs as <-. split; [constructor; [|assumption]|assumption].
      unfold deep, with_doc. cbn [ch_indent ch_doc]. destruct (ch_flat c); lia.
  Qed.
  Lemma fits_step_agrees s : fdeep s ->
    fits_step32 checked s = Ok (fits_step s) /\ (forall s', fits_step s = inr s' -> fdeep s').
  Proof.
    intros [H1 H2]. unfold fits_step32, fits_step. destruct (f_stack s) as [|c st].
    - destruct (f_rest s) as [|c r]; [split; [reflexivity|discriminate]|].
      inversion H2; subst. apply fits_chunk_agrees; [assumption|split; simpl; auto].
    - inversion H1; subst. apply fits_chunk_agrees; [assumption|split; simpl; auto].
  Qed.
  Lemma fits_loop_agrees n : forall s b, fdeep s -> fits_loop n s = Some b -> fits_loop32 checked n s = Ok b.
  Proof.
    induction n as [|n IH]; intros s b Hs H; [discriminate|]. cbn [fits_loop fits_loop32] in *.
    destruct (fits_step_agrees s Hs) as [-> K]. cbn [rbind]. destruct (fits_step s) as [x|s']; [congruence|]. apply IH; auto.
  Qed.
  Lemma fits_agrees w col rest c : deep m c -> Forall (deep m) rest -> fits32 checked w col rest c = Ok (fits w col rest c).
  Proof.
    intros H1 H2. unfold fits32, fits. destruct (fits_total w col rest c) as (b & Hb). rewrite Hb. unfold fits_opt in Hb.
    eapply fits_loop_agrees; [|exact Hb]. split; simpl; auto.
  Qed.

  Variable total : N.
  Hypothesis small_total : (m + total < two32)%N.
  Record bounded (s : pstate) : Prop := {
    b_deep : Forall (deep m) (p_chunks s);
    b_width : (widths (p_chunks s) <= total)%N;
    b_col : (p_col s + widths (p_chunks s) <= m + total)%N;
    b_pending : match p_pending s with Some i => (i <= m)%N | None => True end
  }.
  Lemma flush_bounded s : bounded s -> bounded (flush s).
  Proof.
    intros [H1 H2 H3 H4]. unfold flush. destruct (p_pending s) as [i|] eqn:E; [|constructor; try assumption; rewrite E; exact I].
    constructor; simpl; auto. lia.
  Qed.
  Definition with_chunk (c : chunk) (s : pstate) : pstate :=
    {| p_chunks := c :: p_chunks s; p_col := p_col s; p_out := p_out s; p_pending := p_pending s |}.
  Lemma print_chunk_agrees w c s : bounded (with_chunk c s) ->
    print_chunk32 checked w c s = Ok (print_chunk w c s) /\ bounded (print_chunk w c s).
  Proof.
    intros B. assert (Hc : deep m c) by (destruct B as [H _ _ _]; inversion H; assumption).
    assert (Bs : bounded s) by (destruct B as [H1 H2 H3 H4]; inversion H1; simpl in *; constructor; auto; lia).
    destruct B as [H1 H2 H3 H4]. unfold with_chunk in *. cbn [p_chunks p_col p_pending widths] in H1, H2, H3, H4. pose proof (Forall_inv_tail H1) as H1'.
    unfold print_chunk32, print_chunk.
    destruct (ch_doc c) as [| | |t tw| | |x|i x|i x|l|x y] eqn:E; unfold deep in Hc; rewrite E in Hc; cbn [total_indent total_width] in Hc, H2, H3.
    - split; [reflexivity|]. constructor; simpl; auto; lia.
    - split; [reflexivity|]. constructor; simpl; auto; lia.
    - split; [reflexivity|exact Bs].
    - pose proof (flush_bounded _ Bs) as Bf. assert (Hf : p_chunks (flush s) = p_chunks s) by (unfold flush; destruct (p_pending s); reflexivity).
      assert (K : (p_col (flush s) + tw + widths (p_chunks s) <= m + total)%N).
      { unfold flush. destruct (p_pending s); simpl; lia. }
      unfold push_text32, push_text. destruct (ustr_eqb t [c_sp] && ends_with_char c_sp (p_out (flush s))); [auto|].
      rewrite add32_ok by lia. split; [reflexivity|]. destruct Bf as [F1 F2 F3 F4]. constructor; simpl; auto. rewrite Hf. lia.
    - destruct (ch_flat c).
      + rewrite add32_ok by lia. split; [reflexivity|]. constructor; simpl; auto; lia.
      + split; [reflexivity|]. constructor; simpl; auto; lia.
    - split; [destruct (ch_flat c); reflexivity|]. destruct (ch_flat c); [exact Bs|]. constructor; simpl; auto; lia.
    - split; [reflexivity|]. constructor; simpl; auto.
    - unfold indented32. rewrite add32_ok by lia. split; [reflexivity|]. constructor; simpl; auto.
      constructor; [|assumption]. unfold deep, indented. simpl. lia.
    - split; [reflexivity|]. constructor; simpl; auto. constructor; [|assumption]. unfold deep, dedented. simpl. lia.
    - split; [reflexivity|]. constructor; cbn [push_chunks p_chunks p_col p_out p_pending]; auto.
      + apply (deep_concat m c l); [exact E| |assumption]. unfold deep. rewrite E. exact Hc.
      + rewrite widths_app, widths_concat. exact H2.
      + rewrite widths_app, widths_concat. cbn [total_width]. lia.
    - pose proof (flush_bounded _ Bs) as Bf. assert (Hf : p_chunks (flush s) = p_chunks s) by (unfold flush; destruct (p_pending s); reflexivity).
      assert (K : (p_col (flush s) + N.max (total_width x) (total_width y) + widths (p_chunks s) <= m + total)%N).
      { unfold flush. destruct (p_pending s); simpl; lia. }
      assert (Done : forall z, (z = x \/ z = y) -> bounded (push_chunks [with_doc c z] (flush s))).
      { intros z Hz. destruct Bf as [F1 F2 F3 F4]. constructor; simpl; auto.
        - constructor; [|rewrite Hf; assumption]. unfold deep, with_doc. simpl. destruct Hz; subst; lia.
        - rewrite Hf. destruct Hz; subst; lia.
        - rewrite Hf. destruct Hz; subst; lia. }
      destruct (ch_flat c); [split; [reflexivity|apply Done; auto]|].
      rewrite fits_agrees; [|unfold deep, with_doc; simpl; lia|rewrite Hf; assumption]. cbn [rbind].
      destruct (fits w (p_col (flush s)) (p_chunks (flush s)) (with_doc c x)); split; auto.
  Qed.
  Lemma print_loop_agrees n w : forall s s', bounded s -> print_loop n w s = Some s' -> print_loop32 checked n w s = Ok s'.
  Proof.
    induction n as [|n IH]; intros s s' B H; cbn [print_loop print_loop32] in *; unfold print_step in H;
      destruct (p_chunks s) as [|c r] eqn:E; try congruence.
    set (s0 := {| p_chunks := r; p_col := p_col s; p_out := p_out s; p_pending := p_pending s |}) in *.
    destruct (print_chunk_agrees w c s0) as [-> K].
    - destruct B as [H1 H2 H3 H4]. rewrite E in *. constructor; simpl; auto.
    - cbn [rbind]. apply IH; auto.
  Qed.
End Agree.

Lemma pretty_print32_agrees checked d w : (total_width d + total_indent d < two32)%N ->
  pretty_print32 checked d w = Ok (pretty_print d w).
Proof.
  intro H. unfold pretty_print32, pretty_print, pretty_print_opt.
  destruct (print_loop_total (dsteps d) w (print_init d)) as (s & Hs); [simpl; lia|]. rewrite Hs.
  assert (K : print_loop32 checked (dsteps d) w (print_init d) = Ok s).
  { apply (print_loop_agrees checked (total_indent d) ltac:(lia) (total_width d) ltac:(lia)); [|exact Hs].
    constructor; simpl; auto; try lia. constructor; [|constructor]. unfold deep. simpl. lia. }
  rewrite K. reflexivity.
Qed.
Lemma cast32_same d : (total_width d < two32)%N -> cast32 d = d.
Proof.
  induction d as [| | |s w| | |d IH|k d IH|k d IH|l IH|x y IHx IHy] using doc_nested_ind; intro H; cbn [cast32 total_width] in *; try reflexivity.
  - rewrite N.mod_small by exact H. reflexivity.
  - rewrite IH by exact H. reflexivity.
  - rewrite IH by exact H. reflexivity.
  - rewrite IH by exact H. reflexivity.
  - f_equal. induction l as [|x l IHl]; [reflexivity|]. inversion IH; subst. cbn [map]. f_equal.
    + apply H2. lia.
    + apply IHl; [assumption|]. lia.
  - rewrite IHx, IHy by lia. reflexivity.
Qed.
Lemma no_overflow checked d w : (total_width d + total_indent d < two32)%N ->
  pretty_print32 checked (cast32 d) w = Ok (pretty_print d w).
Proof. intro H. rewrite cast32_same by lia. apply pretty_print32_agrees. exact H. Qed.

(* Two texts in a row whose widths do not add up in 32 bits. *)
Lemma overflow_panics a b w : (ulen a < two32)%N -> (ulen b < two32)%N -> (two32 <= ulen a + ulen b)%N -> ustr_eqb b [c_sp] = false ->
  ustr_eqb a [c_sp] = false ->
  pretty_print32 true (cast32 (concat [txt a; txt b])) w = Panic "attempt to add with overflow" /\
  pretty_print32 false (cast32 (concat [txt a; txt b])) w = Ok (a ++ b)%list.
Proof.
  intros Ha Hb Hab Eb Ea. unfold concat, txt. cbn [cast32 map]. rewrite !N.mod_small by assumption.
  assert (E1 : forall ck, add32 ck 0 (ulen a) = Ok (ulen a)) by (intro ck; unfold add32; rewrite N.add_0_l; apply N.ltb_lt in Ha; rewrite Ha; reflexivity).
  assert (E2 : (ulen a + ulen b <? two32)%N = false) by (apply N.ltb_ge; exact Hab).
  assert (P : forall ck c t tw s, ch_doc c = Text t tw -> p_pending s = None -> ustr_eqb t [c_sp] = false ->
    print_chunk32 ck w c s = rbind (add32 ck (p_col s) tw) (fun n =>
      Ok {| p_chunks := p_chunks s; p_col := n; p_out := (p_out s ++ t)%list; p_pending := None |})).
  { intros ck c t tw s E N Et. unfold print_chunk32. rewrite E. unfold flush. rewrite N. unfold push_text32. rewrite Et, N. reflexivity. }
  assert (L : forall ck n c r s, p_chunks s = c :: r -> print_loop32 ck (S n) w s =
    rbind (print_chunk32 ck w c {| p_chunks := r; p_col := p_col s; p_out := p_out s; p_pending := p_pending s |}) (print_loop32 ck n w)).
  { intros ck n c r s E. cbn [print_loop32]. rewrite E. reflexivity. }
  assert (R : forall ck, pretty_print32 ck (Concat [Text a (ulen a); Text b (ulen b)]) w =
    rbind (add32 ck (ulen a) (ulen b)) (fun _ => Ok (a ++ b)%list)).
  { intro ck. unfold pretty_print32, print_init. cbn [dsteps Nat.add].
    erewrite (L ck 2) by reflexivity. cbn [print_chunk32 print_chunk ch_doc rbind].
    erewrite (L ck 1) by reflexivity. erewrite P by (try reflexivity; exact Ea). cbn [p_col push_chunks]. rewrite E1. cbn [rbind].
    erewrite (L ck 0) by reflexivity. erewrite P by (try reflexivity; exact Eb). cbn [p_col p_out p_chunks].
    destruct (add32 ck (ulen a) (ulen b)); reflexivity. }
  rewrite !R. unfold add32. rewrite E2. split; reflexivity.
Qed.
Lemma ulen_repeat n : ulen (repeat 97%N n) = N.of_nat n.
Proof. induction n as [|n IH]; [reflexivity|]. cbn [repeat ulen]. rewrite IH. change (ulen1 97) with 1%N. lia. Qed.
