(* WordsFormat.v: formatting neither joins nor splits words. *)
From Verif Require Import Base Doc DocBuilder SpecDoc DocProofs Cst Comments Term New Formatter SpecTree SpecRead
  TermProofs2 FormatProofs ReadProofs SpecWords SpecTokens BitsProofs TokensProofs TokensProofs2 TokensProofs5
  WordsProofs WordsTerm WordsSorts.
Local Open Scope string_scope.
Local Open Scope list_scope.

Lemma any_word s : existsb word_char (folded s) = existsb word_char s.
Proof.
  unfold folded. induction s as [|c s IH]; [reflexivity|]. cbn [visible filter existsb]. destruct (is_ws c) eqn:E; cbn [negb].
  - rewrite (ws_not_word c E). exact IH.
  - cbn [to_lowercase map existsb]. rewrite word_lower. f_equal. exact IH.
Qed.
Lemma wordless_sign s : existsb word_char s = false -> signlike s.
Proof.
  intro H. split.
  - destruct s as [|c s]; [reflexivity|]. cbn in *. apply Bool.orb_false_iff in H. tauto.
  - unfold ends_word. destruct (rev s) as [|c r] eqn:E; [reflexivity|].
    destruct (word_char c) eqn:W; [|reflexivity]. rewrite <- H. symmetry. apply existsb_exists.
    exists c. split; [|exact W]. apply in_rev. rewrite E. left. reflexivity.
Qed.
Lemma bits_sign s k : bits s = bits k -> existsb word_char k = false -> signlike s.
Proof.
  intros E H. apply wordless_sign. rewrite <- any_word, <- bits_folded, E, bits_folded, any_word. exact H.
Qed.

Lemma source_signs root : file_tree root -> signs_only root.
Proof.
  intro S.
  assert (HX : forall n c, In n (all_nodes root) -> In c (children n) -> n_field c <> None ->
    n_extra n = false /\ n_extra c = false /\ In c (code_children n)).
  { intros n c Hn Hc Hf.
    assert (Hx : n_extra c = false).
    { destruct (n_extra c) eqn:E; [|reflexivity].
      destruct (ft_comments _ S c (all_nodes_child _ _ _ Hn Hc) E) as (_ & _ & _ & F). congruence. }
    assert (Hs : spare n c = false).
    { destruct (spare n c) eqn:E; [|reflexivity]. apply spare_skipped in E as (_ & _ & E). contradiction. }
    split; [|split; [exact Hx|apply filter_In; rewrite Hx, Hs; auto]].
    destruct (n_extra n) eqn:E; [|reflexivity].
    destruct (ft_comments _ S n Hn E) as (_ & _ & F & _). rewrite F in Hc. destruct Hc. }
  split.
  - intros n c Hn Hk Hc Hf. destruct (HX n c Hn Hc ltac:(congruence)) as (Hxn & Hxc & Hcc). destruct (n_named n) eqn:En.
    2: { pose proof (ft_spelled _ S n Hn Hxn) as Hs. unfold spelled in Hs. rewrite En in Hs. destruct Hs as [E _]. rewrite E in Hc. destruct Hc. }
    pose proof (ft_rules _ S n Hn Hxn En) as HR. unfold follows_rules in HR.
    assert (HS : forall k, n_named c = false -> n_kind c = k -> existsb word_char (U k) = false -> signlike (n_text c)).
    { intros k H1 H2 H3. assert (Hin : In c (all_nodes root)) by (eapply all_nodes_child; eauto).
      pose proof (ft_spelled _ S c Hin Hxc) as Hs. unfold spelled in Hs. rewrite H1 in Hs. destruct Hs as [_ E].
      eapply bits_sign; [exact E|]. rewrite H2. exact H3. }
    apply Bool.orb_prop in Hk as [Hk|Hk]; [|apply Bool.orb_prop in Hk as [Hk|Hk]; [|discriminate]];
      apply String.eqb_eq in Hk; rewrite Hk in HR; destruct HR as (alt & Ha & HF); try discriminate;
      cbv [rules grammar find fst snd String.eqb Ascii.eqb Bool.eqb map In] in Ha;
      repeat (destruct Ha as [<-|Ha]; [|]); try (destruct Ha);
      cbn [fits] in HF; decompose [ex and] HF; clear HF; subst;
      match goal with E : code_children n = _ |- _ => rewrite E in Hcc end; clear Hc; rename Hcc into Hc;
      repeat (destruct Hc as [->|Hc]; [|]); try (destruct Hc);
      try match goal with B : branch _ _ _ _ c |- _ => destruct B as (_ & _ & B); unfold in_field in B; cbn in B; congruence end;
      match goal with B : sign _ _ _ _ c |- _ => destruct B as (B1 & B2 & _); eapply HS; [exact B1|exact B2|reflexivity] end.
  - intros n c Hn Hk Hc Hf. destruct (HX n c Hn Hc ltac:(congruence)) as (Hxn & Hxc & Hcc). destruct (n_named n) eqn:En.
    2: { pose proof (ft_spelled _ S n Hn Hxn) as Hs. unfold spelled in Hs. rewrite En in Hs. destruct Hs as [E _]. rewrite E in Hc. destruct Hc. }
    pose proof (ft_rules _ S n Hn Hxn En) as HR. unfold follows_rules in HR. rewrite Hk in HR.
    destruct HR as (alt & Ha & HF); [discriminate|].
    cbv [rules grammar find fst snd String.eqb Ascii.eqb Bool.eqb map In] in Ha. destruct Ha as [<-|[]].
    clear Hc; rename Hcc into Hc. remember (code_children n) as cs. clear Heqcs. cbn [fits] in HF.
    assert (HB : forall d, branch (fun c => c) (fields "explicit_constructor_invocation") "object" [] d -> False).
    { intros d (_ & B & _). discriminate. }
    repeat match goal with
    | H : _ \/ _ |- _ => destruct H
    | H : exists _, _ |- _ => destruct H
    | H : _ /\ _ |- _ => destruct H
    | H : branch _ _ "object" [] _ |- _ => exfalso; exact (HB _ H)
    end; subst;
    repeat (destruct Hc as [->|Hc]; [|]); try (destruct Hc);
    match goal with
    | B : branch _ _ _ _ c |- _ => destruct B as (_ & _ & B); unfold in_field in B; rewrite Hf in B; cbn in B; congruence
    | B : sign _ _ _ _ c |- _ => destruct B as (_ & _ & B); unfold in_field in B; rewrite Hf in B; cbn in B; congruence
    end.
Qed.

Lemma tight_words d : flat_map bits (tight d) = flat_map bits (words d).
Proof.
  induction d using doc_nested_ind; cbn [tight words flat_map]; try reflexivity; try assumption.
  - destruct (ustr_eqb s [c_sp]) eqn:E; [|reflexivity]. apply ustr_eqb_eq in E as ->. reflexivity.
  - induction H as [|x l Hx Hl IH]; [reflexivity|]. cbn [flat_map]. rewrite !flat_map_app, Hx, IH. reflexivity.
Qed.

Theorem format_bits checked stack cfg root out :
  source_tree root -> format_tree checked stack cfg root = Ok out ->
  bits out = bits_of (leaves root).
Proof.
  intros S H. apply format_ok in H as (cm & t & b & d & marks & E1 & E2 & E3 & E4 & -> & _).
  pose proof (source_empty _ _ S E1) as Hb.
  pose proof (run_texts cm _ Hb _ _ _ E4) as ET.
  assert (HF : firm false (tight d) = true).
  { rewrite ET. eapply (new_firm root cm checked stack (source_signs root (proj1 S)) Root (root_loc root) t); [|exact E2|].
    - split; [constructor|discriminate].
    - discriminate. }
  rewrite (pretty_print_bits d _ (run_grouped _ _ _ _ _ E4) HF), tight_words, <- bits_solid.
  rewrite (run_solid cm _ Hb _ _ _ E4), bits_solid.
  apply kept_bits. exact (source_pieces _ _ _ _ _ S E1 E2).
Qed.
Theorem format_bits_text checked stack cfg root out :
  file_tree root -> untouched root -> format_tree checked stack cfg root = Ok out -> bits out = bits (n_text root).
Proof.
  intros F U H. assert (S : source_tree root) by (split; [exact F|intros m Hm; apply (U m Hm)]).
  rewrite (format_bits _ _ _ _ _ S H). symmetry. apply bits_leaves; [exact U|exact (st_covered _ S)].
Qed.
