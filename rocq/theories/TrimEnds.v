(* TrimEnds.v: the output neither begins nor ends with an empty line.  Proofs only. *)
From Coq Require Import Lia.
From Verif Require Import WordsSorts.
From Verif Require Import Base Doc DocBuilder Cst Comments Term SpecTree DocProofs New ReadProofs NewProofs
  SpecTokens SpecDoc CollectProofs TokensProofs TokensProofs5 BitsProofs Formatter SeqTerm SeqComments SpecComments SpecReread SpecTrim SpecOrder CollectProofs2 TrimEdges TrimTame TrimFormat.
From Verif Require Import FormatProofs TermProofs2.
From Verif Require Reread.
Open Scope res_scope.
Local Open Scope string_scope.
Local Open Scope list_scope.

(* A text in front of everything changes nothing behind it. *)
Lemma ends_sp_app p b : ends_with_char c_sp p = false -> ends_with_char c_sp (p ++ b) = ends_with_char c_sp b.
Proof.
  intro H. unfold ends_with_char in *. rewrite rev_app_distr. destruct (rev b) as [|c r]; [exact H|reflexivity].
Qed.
Lemma settle_front p a h : settle (p ++ a, h) = p ++ settle (a, h).
Proof. destruct h; cbn [settle]; [rewrite <- app_assoc|]; reflexivity. Qed.
Lemma put_front p b w : ends_with_char c_sp p = false -> put (p ++ b) w = p ++ put b w.
Proof. intro H. unfold put. rewrite (ends_sp_app p b H). destruct (_ && _); [reflexivity|rewrite app_assoc; reflexivity]. Qed.
Lemma render_front p : ends_with_char c_sp p = false -> forall X a h,
  render_from (p ++ a, h) X = (p ++ fst (render_from (a, h) X), snd (render_from (a, h) X)).
Proof.
  intros H X. induction X as [|x X IH]; intros a h; [reflexivity|]. unfold render_from in *. cbn [fold_left].
  destruct x; cbn [render1 fst snd].
  - rewrite settle_front, (put_front p _ _ H). apply IH.
  - apply IH.
  - rewrite <- app_assoc. apply IH.
  - rewrite <- app_assoc. apply IH.
  - rewrite settle_front. apply IH.
Qed.

Section Root.
  Variable root : node.
  Variable cm : cmap.
  Let strict := Rules true false.
  Hypothesis S1 : solid root.
  Hypothesis S2 : tidy_texts root.
  Hypothesis S5 : sparse_texts root.
  Hypothesis S3 : full_clauses root.
  Hypothesis S4 : filled root.
  Hypothesis TC : tame_comments (strict:=strict) root cm.
  (* What is printed for a file may stand behind anything, unless there is nothing in it. *)
  Lemma root_anywhere checked fuel x : new cm checked fuel Root (root_loc root) = Ok x ->
    cseq cm x = [PT []; PB] \/ K1 (strict:=strict) cm Any x Open.
  Proof.
    intro H. destruct fuel as [|k]; [discriminate|].
    assert (S6 : r_single strict = true -> single_texts root) by discriminate. assert (S5' : r_sparse strict = true -> sparse_texts root) by (intros _; exact S5).
    destruct (new_trim root cm S1 S2 S5' S6 S3 S4 TC checked k) as [IH _].
    cbn [new new_step] in H. unfold new_Root in H. apply bind_inv in H as (? & _ & H). apply bind_inv in H as (ms & E & H). injection H as <-.
    eapply (r_members_vec (strict:=strict) cm root checked (new cm checked k) IH RootMember) in E; [|split; reflexivity|reflexivity|constructor].
    unfold K1. cbn [cseq node_cseq flat_map]. rewrite app_nil_r. destruct (is_nil _) eqn:N.
    - destruct ms as [|m ms]; [left; reflexivity|right].
      change (KD (strict:=strict) cm Any [TMembers (m :: ms); NL] Open). eapply (KD_cons (strict:=strict) cm); [apply K1_members1; exact E|].
      eapply KD_cons; [apply K1_run; vm_compute; reflexivity|apply KD_nil].
    - right. pose proof (tc_dangling root cm TC) as D. match type of N with is_nil (dangling (bkt cm ?i)) = _ => specialize (D i) end.
      destruct (dangling _) as [|c cs]; [discriminate|]. inversion D as [|? ? Dc Dr]; subst. cbn [map flat_map].
      eapply K_app; [apply K_comment, Dc|]. apply (K_dangling_root (strict:=strict)); [exact Dr|exact I].
  Qed.
End Root.

Definition front : ustr := [120%N; c_nl; c_nl].
Lemma feeds_front s : feeds 2 (c_nl :: s) = None.
Proof. reflexivity. Qed.
Theorem format_ends checked stack cfg root out :
  distinct_ids root -> code root = true -> trimmed_texts root -> tidy_texts root -> sparse_texts root -> full_clauses root -> filled root ->
  quiet_comments root -> full_lines root ->
  format_tree checked stack cfg root = Ok out ->
  out = [c_nl] \/ (forall rest, out <> c_nl :: rest) /\ (forall before, out <> before ++ [c_nl; c_nl]).
Proof.
  intros D Hr Tr Ti Sp Fu Fi Q F E. pose proof (format_ends_newline _ _ _ _ _ E) as (text & En).
  destruct (collect_comments root) as [cm| |] eqn:E1; [|unfold format_tree in E; rewrite E1 in E; discriminate..].
  assert (TC : tame_comments (strict:=Rules true false) root cm) by (eapply quiet_tame; try eassumption; discriminate).
  assert (So : solid root) by (intros n Hn Hk; apply Reread.ends_bordered, Tr; assumption).
  unfold format_tree in E. rewrite E1 in E. cbn [rbind] in E.
  destruct (new cm checked stack Root (root_loc root)) as [T| |] eqn:E2; try discriminate. cbn [rbind] in E.
  destruct (PrettyConfig_new (cfg_indent_size cfg)) as [b| |] eqn:E3; try discriminate. cbn [rbind] in E.
  destruct (run cm b T) as [[d w]| |] eqn:E4; try discriminate. cbn [rbind fst snd] in E.
  destruct (assert_no_missing_comments cm w) as [[]| |]; try discriminate. cbn [rbind] in E. injection E as E.
  destruct (pretty_print_layout d (max_width cfg)) as (X & Lx & Px).
  assert (Fo : follows (cseq cm T) X).
  { rewrite <- (run_cseq cm b T d w E4). eapply layout_follows; [eapply run_grouped; eassumption|exact Lx]. }
  rewrite Px in E. clear Px Lx. unfold render in E.
  destruct (root_anywhere root cm So Ti Sp Fu Fi TC checked stack T E2) as [Em|(m & S & L)].
  - rewrite Em in Fo. left. inversion Fo as [|? ? ? F1| | | | | | |]; subst. inversion F1 as [| |i ? ? F2| | | | | |]; subst. inversion F2; subst.
    cbn in En |- *. destruct i as [|p]; [reflexivity|exfalso]. revert En. change (c_nl :: repeat c_sp (N.to_nat (Npos p)) = text ++ [c_nl] -> False).
    intro En. apply (f_equal (@rev _)) in En. rewrite rev_app_distr in En. cbn [rev app] in En.
    assert (R : N.to_nat (Npos p) = Datatypes.S (pred (N.to_nat (Npos p)))) by lia. rewrite R in En. cbn [repeat] in En.
    rewrite repeat_cons, rev_app_distr in En. discriminate En.
  - right. assert (Z : holds (strict:=Rules true false) m (render_from (front, None) X)).
    { eapply steps_sound; [exact Fo|exact S|]. split; [split; [reflexivity|discriminate]|]. split; [|intro N; contradiction N; reflexivity]. intros _. exists 2%nat. split; [reflexivity|lia]. }
    apply (holds_weak m Open) in Z; [|exact L]. change front with (front ++ []) in Z. rewrite (render_front front eq_refl X [] None) in Z.
    destruct (render_from ([], None) X) as [o h]. cbn [fst snd] in Z. destruct Z as (_ & _ & Z). destruct (Z eq_refl) as (k & Hk & Lk). cbn [fst] in Hk.
    assert (k = 0)%nat as -> by lia. change (feeds 2 o = Some 0%nat) in Hk.
    assert (On : o <> []) by (intros ->; discriminate Hk). destruct o as [|c o]; [congruence|].
    assert (Hc : c <> c_nl) by (intros ->; discriminate Hk).
    split.
    + intros rest Er. rewrite Er in E. destruct h; cbn [settle app] in E; injection E as E0 _; congruence.
    + intros bf Er. rewrite Er in E. destruct (exists_last (l := c :: o)) as (o' & z & Eo); [discriminate|]. rewrite Eo in E, Hk.
      assert (Hz : z <> c_nl).
      { intros ->. clear - Hk. revert Hk. generalize 2%nat. induction o' as [|y o' IH]; intros n H; cbn [app feeds] in H.
        - rewrite N.eqb_refl in H. destruct (n <? 2)%nat; discriminate H.
        - destruct (y =? c_nl)%N; [destruct (n <? 2)%nat; [|discriminate]|]; eapply IH; exact H. }
      destruct h as [i|]; cbn [settle] in E.
      * destruct (N.to_nat i) as [|r].
        -- cbn [repeat] in E. change (bf ++ [c_nl; c_nl]) with (bf ++ [c_nl] ++ [c_nl]) in E. rewrite app_assoc in E. apply app_inj_tail in E as [E _].
           apply app_inj_tail in E as [_ E]. congruence.
        -- cbn [repeat] in E. rewrite repeat_cons in E. rewrite app_comm_cons, app_assoc in E. change (bf ++ [c_nl; c_nl]) with (bf ++ [c_nl] ++ [c_nl]) in E. rewrite (app_assoc bf) in E.
           apply app_inj_tail in E as [_ E]. discriminate E.
      * change (bf ++ [c_nl; c_nl]) with (bf ++ [c_nl] ++ [c_nl]) in E. rewrite app_assoc in E. apply app_inj_tail in E as [_ E]. congruence.
Qed.
