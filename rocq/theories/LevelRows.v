(* LevelRows.v: rows and columns of what is printed behind a line break.  Proofs only. *)
From Coq Require Import Lia.
From Verif Require Import Base Doc DocBuilder Cst Comments Term SpecDoc SpecTree DocProofs
  TermProofs TermProofs2 New SpecTokens TokensProofs SpecWords BitsProofs WordsTerm SpecReread SpecPlaces SeqTerm SeqEdges SeqRows LevelTerm.
Local Open Scope list_scope.

Fixpoint end_column (col : N) (s : ustr) : N :=
  match s with [] => col | c :: s => end_column (if (c =? c_nl)%N then 0 else col + 1)%N s end.
Lemma end_column_app a b : forall col, end_column col (a ++ b) = end_column (end_column col a) b.
Proof. induction a as [|c a IH]; intro col; [reflexivity|]. cbn. apply IH. Qed.
Lemma end_spaces n : forall col, end_column col (repeat c_sp n) = (col + N.of_nat n)%N.
Proof. induction n as [|n IH]; intro col; cbn [repeat end_column]; [lia|]. rewrite IH. change (c_sp =? c_nl)%N with false. cbn iota. lia. Qed.
Lemma column_skip o : forall r z j, column_from r (o ++ z) (List.length (visible o) + j) = column_from (end_column r o) z j.
Proof.
  induction o as [|c o IH]; intros r z j; [reflexivity|].
  cbn [app column_from visible filter end_column]. destruct (is_ws c) eqn:E; cbn [negb].
  - apply IH.
  - cbn [List.length Nat.add]. rewrite IH. f_equal. destruct (c =? c_nl)%N eqn:En; [|reflexivity].
    apply N.eqb_eq in En. subst c. discriminate.
Qed.
Lemma column_gap o1 pre g w2 : visible pre = [] -> lead w2 = true ->
  column_of (o1 ++ (pre ++ c_nl :: repeat c_sp (N.to_nat g)) ++ w2) (List.length (visible o1)) = g.
Proof.
  intros H2 H3. apply lead_inv in H3 as (d & z & -> & Hd). unfold column_of. rewrite app_assoc.
  assert (E : List.length (visible o1) = (List.length (visible (o1 ++ pre ++ c_nl :: repeat c_sp (N.to_nat g))) + 0)%nat).
  { rewrite !visible_app, H2. change (visible (c_nl :: repeat c_sp (N.to_nat g))) with (visible (repeat c_sp (N.to_nat g))).
    rewrite visible_spaces, !app_nil_r. lia. }
  rewrite E, column_skip, !end_column_app. cbn [end_column]. change (c_nl =? c_nl)%N with true. cbn iota.
  rewrite end_spaces. cbn [column_from]. rewrite Hd. lia.
Qed.

(* Between two texts that are [tight] there is a gap of one or two line feeds. *)
Lemma levels_apart b T x1 x2 tr i1 i2 g P B X : tight x1 -> tight x2 -> lfollows (lbare (lseq b 0 T)) X ->
  lseq b 0 T = P ++ lseq b i1 x1 ++ tag g (sep_seq tr) ++ lseq b i2 x2 ++ B ->
  exists k, List.length (visible (List.concat (said (untag P ++ seq x1 ++ sep_seq tr)))) = S k /\
    row_of (render X) (S k) = (row_of (render X) k + if tr then 2 else 1)%N /\ column_of (render X) (S k) = g.
Proof.
  intros T1 T2 Fo E. rewrite E in Fo. rewrite !lbare_app, lbare_tag in Fo.
  apply lfollows_split in Fo as (XA & X' & -> & FA & Fo). apply lfollows_split in Fo as (X1 & X'' & -> & F1 & Fo).
  apply lfollows_split in Fo as (Xs & X3 & -> & Fs & Fo). apply lfollows_split in Fo as (X2 & XB & -> & F2 & FB).
  apply lfollows_follows in FA, F1, F2, FB. rewrite untag_lbare in FA, F1, F2, FB. rewrite untag_lseq in F1, F2.
  unfold render. rewrite !render_from_app. set (sA := render_from ([], None) XA).
  destruct (tight_run _ _ sA T1 F1) as (w1 & E1 & L1 & L1').
  assert (N1 : visible (settle sA ++ w1) = visible (List.concat (said (untag P ++ seq x1 ++ sep_seq tr)))).
  { pose proof (visible_render _ _ (follows_app _ _ _ _ FA F1) ([], None)) as R. rewrite render_from_app in R. fold sA in R. rewrite E1 in R. cbn [fst] in R.
    rewrite R. cbn [visible filter app]. rewrite <- bare_app, said_bare. rewrite app_assoc, said_app with (b := sep_seq tr).
    assert (Q : said (sep_seq tr) = []) by (destruct tr; reflexivity). rewrite Q, app_nil_r. reflexivity. }
  rewrite <- N1. rewrite E1. set (o1 := settle sA ++ w1) in *.
  assert (Lo : last_ o1 = true) by (apply last_app; exact L1').
  assert (G : exists pre, settle (render_from (o1, None) Xs) = o1 ++ pre ++ c_nl :: repeat c_sp (N.to_nat g) /\ visible pre = [] /\ feeds pre = (if tr then 1 else 0)%N).
  { destruct tr; cbn [sep_seq bare spread flat_map expand app tag map] in Fs.
    - inversion Fs as [| | |? ? ? Fs'| | | | |]; subst. inversion Fs' as [| |i ? ? Fs2| | | | | |]; subst. inversion Fs2; subst.
      cbn [render_from fold_left render1 fst settle]. exists [c_nl]. rewrite <- app_assoc. split; [reflexivity|]. split; reflexivity.
    - inversion Fs as [| |i ? ? Fs2| | | | | |]; subst. inversion Fs2; subst.
      cbn [render_from fold_left render1 fst settle]. exists []. split; [reflexivity|]. split; reflexivity. }
  destruct G as (pre & Eg & Vg & Fg). destruct (tight_run _ _ (render_from (o1, None) Xs) T2 F2) as (w2 & E2 & L2 & _).
  rewrite E2, Eg. set (gap := pre ++ c_nl :: repeat c_sp (N.to_nat g)) in *. destruct (grows XB ((o1 ++ gap) ++ w2, None)) as [rest Er]. rewrite Er. cbn [fst].
  assert (Ea : ((o1 ++ gap) ++ w2) ++ rest = o1 ++ gap ++ (w2 ++ rest)) by (rewrite <- !app_assoc; reflexivity). rewrite Ea.
  assert (Vp : visible gap = []). { unfold gap. rewrite visible_app, Vg. change (visible (repeat c_sp (N.to_nat g)) = []). apply visible_spaces. }
  assert (Fp : feeds gap = (if tr then 2 else 1)%N).
  { unfold gap. assert (Q : forall a c, feeds (a ++ c) = (feeds a + feeds c)%N) by (intros; unfold feeds; rewrite filter_app, app_length; lia).
    rewrite Q, Fg, feeds_cons, feeds_spaces. destruct tr; reflexivity. }
  destruct (row_gap o1 gap (w2 ++ rest) Lo Vp (lead_app _ _ L2)) as (k & Ek & Rk). exists k. rewrite <- Fp. split; [exact Ek|]. split; [exact Rk|].
  rewrite <- Ek. apply column_gap; [exact Vg|apply lead_app; exact L2].
Qed.
