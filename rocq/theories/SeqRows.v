(* SeqRows.v: on which rows consecutive members are printed.  Proofs only. *)
From Coq Require Import Lia.
From Verif Require Import Base Doc DocBuilder SpecDoc DocProofs Cst Term SpecTree SpecWords SpecTokens SeqTerm SeqEdges SpecReread.
Local Open Scope string_scope.
Local Open Scope list_scope.

(* ------------------------------------------------------------ what is printed *)

Lemma visible_app a b : visible (a ++ b) = visible a ++ visible b.
Proof. apply filter_app. Qed.
Lemma visible_spaces n : visible (repeat c_sp n) = [].
Proof. induction n as [|n IH]; [reflexivity|]. exact IH. Qed.
Lemma visible_settle s : visible (settle s) = visible (fst s).
Proof.
  destruct s as [o [i|]]; [|reflexivity]. unfold settle. rewrite visible_app. cbn [fst].
  change (visible (c_nl :: repeat c_sp (N.to_nat i))) with (visible (repeat c_sp (N.to_nat i))).
  rewrite visible_spaces. apply app_nil_r.
Qed.
Lemma visible_put o t : visible (put o t) = visible o ++ visible t.
Proof.
  unfold put. destruct (ustr_eqb t [c_sp]) eqn:E; cbn [andb]; [|apply visible_app].
  apply ustr_eqb_eq in E. subst t. destruct (ends_with_char c_sp o); [symmetry; apply app_nil_r|apply visible_app].
Qed.
Lemma visible_render l a : follows l a -> forall s, visible (fst (render_from s a)) = visible (fst s) ++ visible (List.concat (said l)).
Proof.
  assert (V0 : forall s x, visible (fst (render1 s x)) = visible (fst s) ++ match x with AText t => visible t | _ => [] end).
  { intros s x. destruct x; cbn [render1 fst]; rewrite ?visible_put, ?visible_settle, ?visible_app, ?app_nil_r; reflexivity. }
  induction 1 as [|? l a H IH|? l a H IH|l a H IH|l a H IH|? l a H IH|l a H IH|? l a H IH|l a H IH]; intro s0.
  1: symmetry; apply app_nil_r.
  all: match goal with
       | |- visible (fst (render_from ?z (?x :: ?y))) = _ =>
           change (visible (fst (render_from z (x :: y)))) with (visible (fst (render_from (render1 z x) y)));
           match goal with K : forall s, visible _ = _ |- _ => rewrite K, V0 end; unfold said; cbn [flat_map text app List.concat]; rewrite ?app_nil_r; try reflexivity
       | K : forall s, visible _ = _ |- _ => apply K
       end.
  rewrite visible_app, app_assoc. reflexivity.
Qed.
Lemma grows1 s x : exists w, fst (render1 s x) = fst s ++ w.
Proof.
  assert (S0 : exists w, settle s = fst s ++ w) by (destruct s as [o [i|]]; [eexists; reflexivity|exists []; symmetry; apply app_nil_r]).
  destruct S0 as [w Hw]. destruct x; cbn [render1 fst].
  - unfold put. rewrite Hw. destruct (_ && _); [exists w; reflexivity|exists (w ++ s0); rewrite app_assoc; reflexivity].
  - exists []. symmetry. apply app_nil_r.
  - eexists. reflexivity.
  - eexists. reflexivity.
  - exists w. exact Hw.
Qed.
Lemma grows a : forall s, exists w, settle (render_from s a) = fst s ++ w.
Proof.
  induction a as [|x a IH]; intro s; cbn [render_from fold_left].
  - destruct s as [o [i|]]; [eexists; reflexivity|exists []; symmetry; apply app_nil_r].
  - destruct (grows1 s x) as [w1 E1]. destruct (IH (render1 s x)) as [w2 E2]. exists (w1 ++ w2).
    change (fold_left render1 a (render1 s x)) with (render_from (render1 s x) a). rewrite E2, E1, app_assoc. reflexivity.
Qed.
Lemma render_from_app s a b : render_from s (a ++ b) = render_from (render_from s a) b.
Proof. apply fold_left_app. Qed.

(* ------------------------------------------------------------ a part that begins and ends visibly *)

Definition inv (s : rstate) (q : seen) (st : rstate) : Prop :=
  match q with
  | Nothing => st = s \/ st = (settle s, None)
  | Visible => exists w, st = (settle s ++ w, None) /\ lead w = true /\ last_ w = true
  | Blank => exists w, fst st = settle s ++ w /\ lead w = true
  end.
Lemma lead_app a b : lead a = true -> lead (a ++ b) = true.
Proof. destruct a; [discriminate|]. exact id. Qed.
Lemma last_app a b : last_ b = true -> last_ (a ++ b) = true.
Proof. unfold last_. rewrite rev_app_distr. apply lead_app. Qed.
Lemma settle_grow st : exists w, settle st = fst st ++ w.
Proof. destruct st as [o [i|]]; [eexists; reflexivity|exists []; symmetry; apply app_nil_r]. Qed.
Lemma put_lead o t : lead t = true -> put o t = o ++ t.
Proof.
  intro H. unfold put. destruct (ustr_eqb t [c_sp]) eqn:E; [|reflexivity]. apply ustr_eqb_eq in E. subst t. discriminate.
Qed.
Lemma put_last o t : last_ t = true -> put o t = o ++ t.
Proof.
  intro H. unfold put. destruct (ustr_eqb t [c_sp]) eqn:E; [|reflexivity]. apply ustr_eqb_eq in E. subst t. discriminate.
Qed.
Lemma put_nil o : put o [] = o.
Proof. unfold put. cbn. apply app_nil_r. Qed.
Lemma put_grow o t : exists w, put o t = o ++ w.
Proof. unfold put. destruct (_ && _); [exists []; symmetry; apply app_nil_r|eexists; reflexivity]. Qed.
Lemma inv_some s q (st : rstate) : q <> Nothing -> inv s q st -> exists w, fst st = settle s ++ w /\ lead w = true.
Proof. destruct q; cbn; intros H I; [congruence| |exact I]. destruct I as (w & -> & L & _). exists w. auto. Qed.
Lemma inv_blank s (st : rstate) w0 z : (exists w, fst st = settle s ++ w /\ lead w = true) -> inv s Blank (fst st ++ w0, z).
Proof. intros (w & E & L). exists (w ++ w0). cbn. rewrite E, app_assoc. split; [reflexivity|apply lead_app; exact L]. Qed.
Lemma inv_run s l a : follows (bare l) a -> forall q st q', inv s q st -> sees q l = Some q' -> inv s q' (render_from st a).
Proof.
  revert a. induction l as [|p l IH]; intros a H q st q' I E.
  - inversion H; subst. injection E as <-. exact I.
  - cbn [sees] in E. destruct (see q p) as [q1|] eqn:E1; [|discriminate].
    assert (step : forall x a1, a = x :: a1 -> follows (bare l) a1 -> inv s q1 (render1 st x) -> inv s q' (render_from st a)).
    { intros x a1 -> F1 I1. exact (IH _ F1 _ _ _ I1 E). }
    assert (same : follows (bare l) a -> inv s q1 st -> inv s q' (render_from st a)) by (intros F1 I1; exact (IH _ F1 _ _ _ I1 E)).
    destruct p as [t|id| | | | |].
    + change (bare (PT t :: l)) with (PT t :: bare l) in H. inversion H; subst. eapply step; [reflexivity|eassumption|].
      cbn [render1]. destruct t as [|c t].
      { injection E1 as <-. rewrite put_nil. destruct q; cbn in I |- *.
        - destruct I as [->| ->]; right; reflexivity.
        - destruct I as (w & -> & L). exists w. auto.
        - destruct I as (w & E2 & L). destruct (settle_grow st) as [w1 ->]. rewrite E2. exists (w ++ w1). rewrite app_assoc.
          split; [reflexivity|apply lead_app; exact L]. }
      set (t' := c :: t) in *. assert (N : q = Nothing -> lead t' = true).
      { intros ->. cbn [see] in E1. destruct (lead t'); [reflexivity|discriminate]. }
      assert (E2 : q1 = if last_ t' then Visible else Blank).
      { unfold see in E1. destruct q; try (injection E1 as <-; reflexivity). destruct (lead t'); [injection E1 as <-; reflexivity|discriminate]. }
      destruct q eqn:Eq.
      * assert (L := N eq_refl). assert (Es : settle st = settle s) by (destruct I as [->| ->]; reflexivity).
        rewrite put_lead, Es by exact L. rewrite E2. destruct (last_ t') eqn:La.
        -- exists t'. auto.
        -- exists t'. auto.
      * destruct I as (w & -> & L & _). cbn [settle]. rewrite E2. destruct (last_ t') eqn:La.
        -- rewrite put_last by exact La. exists (w ++ t'). rewrite app_assoc. split; [reflexivity|]. split; [apply lead_app; exact L|apply last_app; exact La].
        -- destruct (put_grow (settle s ++ w) t') as [w1 ->]. exists (w ++ w1). rewrite app_assoc. split; [reflexivity|apply lead_app; exact L].
      * destruct I as (w & E3 & L). destruct (settle_grow st) as [w0 E4]. rewrite E4, E3. rewrite E2. destruct (last_ t') eqn:La.
        -- rewrite put_last by exact La. exists (w ++ w0 ++ t'). rewrite !app_assoc. split; [reflexivity|]. rewrite <- app_assoc.
           split; [apply lead_app; exact L|rewrite app_assoc; apply last_app; exact La].
        -- destruct (put_grow ((settle s ++ w) ++ w0) t') as [w1 ->]. exists (w ++ w0 ++ w1). rewrite !app_assoc. split; [reflexivity|].
           rewrite <- app_assoc. apply lead_app. exact L.
    + injection E1 as <-. apply same; assumption.
    + change (bare (PB :: l)) with (PB :: bare l) in H. inversion H; subst. eapply step; [reflexivity|eassumption|].
      destruct q; [discriminate| |]; injection E1 as <-; cbn [render1]; rewrite <- (app_nil_r (fst st)); apply inv_blank; eapply inv_some; try exact I; discriminate.
    + change (bare (PF :: l)) with (PF :: bare l) in H. inversion H; subst. eapply step; [reflexivity|eassumption|].
      destruct q; [discriminate| |]; injection E1 as <-; cbn [render1]; apply inv_blank; eapply inv_some; try exact I; discriminate.
    + change (bare (PS :: l)) with (PS :: bare l) in H. inversion H; subst; (eapply step; [reflexivity|eassumption|]);
      (destruct q; [discriminate| |]; injection E1 as <-; cbn [render1]; first [apply inv_blank|rewrite <- (app_nil_r (fst st)); apply inv_blank];
       eapply inv_some; try exact I; discriminate).
    + change (bare (PY :: l)) with (PY :: bare l) in H. inversion H; subst.
      * apply same; [assumption|]. destruct q; [discriminate| |]; injection E1 as <-; (eapply inv_some; [|exact I]; discriminate).
      * eapply step; [reflexivity|eassumption|].
        destruct q; [discriminate| |]; injection E1 as <-; cbn [render1]; rewrite <- (app_nil_r (fst st)); apply inv_blank; eapply inv_some; try exact I; discriminate.
    + change (bare (PG :: l)) with (PG :: bare l) in H. inversion H; subst. eapply step; [reflexivity|eassumption|].
      injection E1 as <-. cbn [render1]. destruct q; cbn in I |- *.
      * destruct I as [->| ->]; right; reflexivity.
      * destruct I as (w & -> & L). exists w. auto.
      * destruct I as (w & E2 & L). destruct (settle_grow st) as [w1 ->]. rewrite E2. exists (w ++ w1). rewrite app_assoc.
        split; [reflexivity|apply lead_app; exact L].
Qed.
Lemma tight_run x a s : tight x -> follows (bare (seq x)) a ->
  exists w, render_from s a = (settle s ++ w, None) /\ lead w = true /\ last_ w = true.
Proof.
  intros H Fo. destruct (H Nothing I) as (q & E & Q). cbn in Q. subst q.
  exact (inv_run s _ _ Fo Nothing s Visible (or_introl eq_refl) E).
Qed.

(* ------------------------------------------------------------ rows *)

Definition feeds (s : ustr) : N := N.of_nat (List.length (filter (fun c => (c =? c_nl)%N) s)).
Lemma feeds_cons c s : feeds (c :: s) = ((if (c =? c_nl)%N then 1 else 0) + feeds s)%N.
Proof. unfold feeds. cbn [filter]. destruct (c =? c_nl)%N; cbn [List.length]; lia. Qed.
Lemma row_skip o : forall r z j, row_from r (o ++ z) (List.length (visible o) + j) = row_from (r + feeds o) z j.
Proof.
  induction o as [|c o IH]; intros r z j; [cbn; f_equal; unfold feeds; cbn; lia|].
  rewrite feeds_cons. cbn [app row_from visible filter]. destruct (is_ws c) eqn:E; cbn [negb].
  - rewrite IH. f_equal. destruct (c =? c_nl)%N; lia.
  - cbn [List.length Nat.add]. rewrite IH. f_equal. destruct (c =? c_nl)%N eqn:En; [|lia].
    apply N.eqb_eq in En. subst c. discriminate.
Qed.
Lemma row_blank o c r z : visible o = [] -> is_ws c = false -> row_from r (o ++ c :: z) 0 = (r + feeds o)%N.
Proof.
  intros H Hc. pose proof (row_skip o r (c :: z) 0) as E. rewrite H in E. cbn [List.length Nat.add] in E. rewrite E. cbn [row_from].
  rewrite Hc. reflexivity.
Qed.
Lemma last_inv s : last_ s = true -> exists o c, s = o ++ [c] /\ is_ws c = false.
Proof.
  unfold last_. intro H. destruct (rev s) as [|c l] eqn:E; [discriminate|]. exists (rev l), c. cbn in H. apply negb_true_iff in H.
  split; [|exact H]. rewrite <- (rev_involutive s), E. reflexivity.
Qed.
Lemma lead_inv s : lead s = true -> exists c z, s = c :: z /\ is_ws c = false.
Proof. destruct s as [|c z]; [discriminate|]. intro H. exists c, z. split; [reflexivity|]. apply negb_true_iff. exact H. Qed.
Lemma row_gap o1 gap w2 : last_ o1 = true -> visible gap = [] -> lead w2 = true ->
  exists k, List.length (visible o1) = S k /\ row_of (o1 ++ gap ++ w2) (S k) = (row_of (o1 ++ gap ++ w2) k + feeds gap)%N.
Proof.
  intros H1 H2 H3. apply last_inv in H1 as (o & c & -> & Hc). apply lead_inv in H3 as (d & z & -> & Hd).
  assert (E : List.length (visible (o ++ [c])) = S (List.length (visible o))).
  { rewrite visible_app. cbn [visible filter]. rewrite Hc. cbn [negb]. rewrite app_length. cbn. lia. }
  exists (List.length (visible o)). split; [exact E|]. unfold row_of.
  assert (R1 : row_from 0 ((o ++ [c]) ++ gap ++ d :: z) (List.length (visible o)) = feeds o).
  { rewrite <- app_assoc. pose proof (row_skip o 0 ([c] ++ gap ++ d :: z) 0) as R. rewrite Nat.add_0_r in R. rewrite R. cbn [app row_from].
    rewrite Hc. lia. }
  rewrite R1. pose proof (row_skip (o ++ [c]) 0 (gap ++ d :: z) 0) as R. rewrite Nat.add_0_r, E in R. rewrite R.
  rewrite row_blank by assumption. f_equal. unfold feeds. rewrite filter_app, app_length. cbn [filter].
  destruct (c =? c_nl)%N eqn:En; [apply N.eqb_eq in En; subst c; discriminate|]. cbn. lia.
Qed.
Lemma feeds_spaces n : feeds (repeat c_sp n) = 0%N.
Proof. induction n as [|n IH]; [reflexivity|]. exact IH. Qed.

(* Between two members there is one line feed, or two. *)
Lemma members_apart T x1 x2 tr P B X : tight x1 -> tight x2 -> follows (bare (seq T)) X -> seq T = P ++ seq x1 ++ sep_seq tr ++ seq x2 ++ B ->
  exists k, List.length (visible (List.concat (said (P ++ seq x1 ++ sep_seq tr)))) = S k /\
    row_of (render X) (S k) = (row_of (render X) k + if tr then 2 else 1)%N.
Proof.
  intros T1 T2 Fo E. rewrite E in Fo. rewrite !bare_app in Fo.
  apply follows_split in Fo as (XA & X' & -> & FA & Fo). apply follows_split in Fo as (X1 & X'' & -> & F1 & Fo).
  apply follows_split in Fo as (Xs & X3 & -> & Fs & Fo). apply follows_split in Fo as (X2 & XB & -> & F2 & FB).
  unfold render. rewrite !render_from_app. set (sA := render_from ([], None) XA).
  destruct (tight_run _ _ sA T1 F1) as (w1 & E1 & L1 & L1').
  assert (N1 : visible (settle sA ++ w1) = visible (List.concat (said (P ++ seq x1 ++ sep_seq tr)))).
  { pose proof (visible_render _ _ (follows_app _ _ _ _ FA F1) ([], None)) as R. rewrite render_from_app in R. fold sA in R. rewrite E1 in R. cbn [fst] in R.
    rewrite R. cbn [visible filter app]. rewrite <- bare_app, said_bare. rewrite app_assoc, said_app with (b := sep_seq tr).
    assert (Q : said (sep_seq tr) = []) by (destruct tr; reflexivity). rewrite Q, app_nil_r. reflexivity. }
  rewrite <- N1. rewrite E1. set (o1 := settle sA ++ w1) in *.
  assert (Lo : last_ o1 = true) by (apply last_app; exact L1').
  assert (G : exists gap, settle (render_from (o1, None) Xs) = o1 ++ gap /\ visible gap = [] /\ feeds gap = (if tr then 2 else 1)%N).
  { destruct tr; cbn [sep_seq bare spread flat_map expand app] in Fs.
    - inversion Fs as [| | |? ? Fs'| | | | |]; subst. inversion Fs' as [| |i ? ? Fs2| | | | | |]; subst. inversion Fs2; subst.
      cbn [render_from fold_left render1 fst settle]. eexists. rewrite <- app_assoc. split; [reflexivity|]. split.
      + cbn [app]. change (visible (repeat c_sp (N.to_nat i)) = []). apply visible_spaces.
      + cbn [app]. rewrite !feeds_cons, feeds_spaces. reflexivity.
    - inversion Fs as [| |i ? ? Fs2| | | | | |]; subst. inversion Fs2; subst.
      cbn [render_from fold_left render1 fst settle]. eexists. split; [reflexivity|]. split.
      + change (visible (repeat c_sp (N.to_nat i)) = []). apply visible_spaces.
      + rewrite feeds_cons, feeds_spaces. reflexivity. }
  destruct G as (gap & Eg & Vg & Fg). destruct (tight_run _ _ (render_from (o1, None) Xs) T2 F2) as (w2 & E2 & L2 & _).
  rewrite E2, Eg. destruct (grows XB ((o1 ++ gap) ++ w2, None)) as [rest Er]. rewrite Er. cbn [fst].
  assert (Ea : ((o1 ++ gap) ++ w2) ++ rest = o1 ++ gap ++ (w2 ++ rest)) by (rewrite <- !app_assoc; reflexivity). rewrite Ea.
  destruct (row_gap o1 gap (w2 ++ rest) Lo Vg (lead_app _ _ L2)) as (k & Ek & Rk). exists k. rewrite <- Fg. auto.
Qed.
