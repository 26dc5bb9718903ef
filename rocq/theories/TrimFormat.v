(* TrimFormat.v: no line of the output ends with white space.  Proofs only. *)
From Coq Require Import Lia.
From Verif Require Import Base Doc DocBuilder Cst Comments Term SpecTree DocProofs New ReadProofs NewProofs
  SpecTokens SpecDoc CollectProofs TokensProofs TokensProofs5 BitsProofs Formatter SeqTerm SeqComments SpecComments SpecReread SpecTrim SpecOrder CollectProofs2 TrimEdges TrimTame.
From Verif Require Import FormatProofs TermProofs2 TokensProofs2 FiltersProofs.
From Verif Require Import ArrangeFormat.
From Verif Require TokensComments ArrangeOnce SeqEdges Reread CliProofs TextProofs TextProofs2 TextProofs3 LayoutNew.
Open Scope res_scope.
Local Open Scope string_scope.
Local Open Scope list_scope.

Definition ends_blank (s : ustr) : bool := match rev s with c :: _ => is_blank c | [] => false end.
Lemma ends_blank_app a c : c <> [] -> ends_blank (a ++ c) = ends_blank c.
Proof.
  intro N. unfold ends_blank. rewrite rev_app_distr. destruct (rev c) eqn:R; [|reflexivity].
  apply (f_equal (@rev _)) in R. rewrite rev_involutive in R. contradiction.
Qed.
Lemma tidy_join a c : forall b, tidy b a = true -> tidy (match a with [] => b | _ => ends_blank a end) c = true -> tidy b (a ++ c) = true.
Proof.
  induction a as [|x a IH]; intros b H C; [exact C|]. cbn [app tidy] in *.
  assert (E : ends_blank (x :: a) = match a with [] => is_blank x | _ => ends_blank a end).
  { destruct a as [|y a]; [reflexivity|]. change (x :: y :: a) with ([x] ++ (y :: a)). apply ends_blank_app. discriminate. }
  rewrite E in C. destruct (x =? c_nl)%N eqn:Q.
  - apply Bool.andb_true_iff in H as [-> H]. cbn [negb andb]. apply IH; [exact H|]. destruct a; [|exact C].
    unfold is_blank in C. rewrite Q, Bool.andb_false_r in C. exact C.
  - apply IH; [exact H|]. destruct a; exact C.
Qed.
Lemma tidy_weak s : tidy true s = true -> tidy false s = true.
Proof. destruct s as [|c s]; [reflexivity|]. cbn [tidy]. destruct (c =? c_nl)%N; [discriminate|exact (fun H => H)]. Qed.
Lemma tidy_put a c : tidy false a = true -> tidy true c = true -> tidy false (a ++ c) = true.
Proof.
  intros H C. apply tidy_join; [exact H|]. destruct a; [apply tidy_weak, C|]. destruct (ends_blank _); [exact C|apply tidy_weak, C].
Qed.
Lemma tidy_line a : tidy false a = true -> ends_blank a = false -> forall s, tidy false s = true -> tidy false (a ++ c_nl :: s) = true.
Proof.
  intros H E s S. apply tidy_join; [exact H|]. cbn [tidy]. rewrite N.eqb_refl. destruct a; [exact S|]. rewrite E. exact S.
Qed.
Lemma tidy_spaces n : tidy false (repeat c_sp n) = true.
Proof. apply tidy_weak. induction n as [|n IH]; [reflexivity|]. exact IH. Qed.
Lemma last_ends s : s <> [] -> last_ s = true -> ends_blank s = false.
Proof.
  unfold SeqEdges.last_, SeqEdges.lead, ends_blank, is_blank. destruct (rev s); [discriminate|]. intros _ H. apply Bool.negb_true_iff in H. rewrite H. reflexivity.
Qed.

(* ------------------------------------------------------------ empty lines in a row *)
Lemma feeds_more s : forall k k' m, (k <= k')%nat -> feeds k' s = Some m -> exists m', feeds k s = Some m' /\ (m' <= m)%nat.
Proof.
  induction s as [|c s IH]; intros k k' m L H; cbn [feeds] in *; [injection H as <-; exists k; auto|].
  destruct (c =? c_nl)%N; [|eapply IH; [|exact H]; lia]. destruct (Nat.ltb_spec k' 2); [|discriminate].
  destruct (Nat.ltb_spec k 2); [|lia]. eapply IH; [|exact H]. lia.
Qed.
Lemma feeds_text k c w m : (c =? c_nl)%N = false -> feeds 0 (c :: w) = Some m -> feeds k (c :: w) = Some m.
Proof. intros C H. cbn [feeds] in *. rewrite C in *. exact H. Qed.
Lemma feeds_spaces n : feeds 0 (repeat c_sp n) = Some 0%nat.
Proof. induction n as [|n IH]; [reflexivity|exact IH]. Qed.
Lemma feeds_last_put a k : feeds 0 (a ++ [c_sp]) = Some k -> k = 0%nat.
Proof. rewrite feeds_app. destruct (feeds 0 a); [|discriminate]. intro H. injection H as <-. reflexivity. Qed.

(* at most [n] line feeds at the end of [s] *)
Definition upto (strict : bool) (n : nat) (s : ustr) : Prop := strict = true -> exists k, feeds 0 s = Some k /\ (k <= n)%nat.
Lemma upto_weak st n m s : (n <= m)%nat -> upto st n s -> upto st m s.
Proof. intros L H E. destruct (H E) as (k & Hk & Lk). exists k. split; [exact Hk|lia]. Qed.
Lemma upto_line st n s r : (n <= 1)%nat -> upto st n s -> upto st 2 (s ++ c_nl :: repeat c_sp r).
Proof.
  intros L H E. destruct (H E) as (k & Hk & Lk). rewrite feeds_app, Hk. change (feeds k (c_nl :: repeat c_sp r)) with (if (k <? 2)%nat then feeds (S k) (repeat c_sp r) else None).
  destruct (Nat.ltb_spec k 2); [|lia]. destruct r as [|r]; [cbn; eexists; split; [reflexivity|lia]|].
  exists 0%nat. split; [apply (feeds_spaces r)|lia].
Qed.
Lemma upto_feed st s : upto st 0 s -> upto st 1 (s ++ [c_nl]).
Proof. intros H E. destruct (H E) as (k & Hk & Lk). rewrite feeds_app, Hk. replace k with 0%nat by lia. exists 1%nat. split; [reflexivity|lia]. Qed.
Lemma upto_text st n m s c w : tidy true (c :: w) = true -> (st = true -> exists k, feeds 0 (c :: w) = Some k /\ (k <= m)%nat) ->
  upto st n s -> upto st m (s ++ c :: w).
Proof.
  intros T F H E. destruct (H E) as (k & Hk & _). destruct (F E) as (j & Hj & Lj). exists j. split; [|exact Lj].
  rewrite feeds_app, Hk. apply feeds_text; [|exact Hj]. cbn [tidy] in T. destruct (c =? c_nl)%N; [discriminate|reflexivity].
Qed.
Lemma upto_space st n s : upto st n s -> upto st 0 (s ++ [c_sp]).
Proof.
  intro H. eapply upto_text; [reflexivity| |exact H]. intros _. exists 0%nat. split; [reflexivity|lia].
Qed.
Lemma upto_sparse st n s : upto st n s -> st = true -> sparse s = true.
Proof. intros H E. destruct (H E) as (k & Hk & _). unfold sparse. rewrite Hk. reflexivity. Qed.

(* ------------------------------------------------------------ spaces in a row *)
(* at the beginning of a line, behind a word, behind a space *)
Inductive place_ := Start | Word | Gap.
Fixpoint spacing (st : place_) (s : ustr) : option place_ :=
  match s with
  | [] => Some st
  | c :: s => if (c =? c_nl)%N then spacing Start s
              else if (c =? c_sp)%N then match st with Start => spacing Start s | Word => spacing Gap s | Gap => None end
              else spacing Word s
  end.
Lemma spacing_app a c : forall st, spacing st (a ++ c) = match spacing st a with Some m => spacing m c | None => None end.
Proof.
  induction a as [|x a IH]; intro st; [reflexivity|]. cbn [app spacing]. destruct (x =? c_nl)%N; [apply IH|].
  destruct (x =? c_sp)%N; [destruct st; [apply IH..|reflexivity]|apply IH].
Qed.
Lemma spacing_gap s : forall st, spacing st s = Some Gap -> s = [] \/ ends_blank s = true.
Proof.
  intros st H. destruct (rev s) as [|c r] eqn:E; [left; apply (f_equal (@rev _)) in E; rewrite rev_involutive in E; exact E|right].
  unfold ends_blank. rewrite E. apply (f_equal (@rev _)) in E. rewrite rev_involutive in E. cbn [rev] in E. rewrite E, spacing_app in H.
  destruct (spacing st (rev r)) as [m|]; [|discriminate]. cbn [spacing] in H. destruct (N.eqb_spec c c_nl) as [->|Hn]; [discriminate|].
  destruct (N.eqb_spec c c_sp) as [->|_]; [reflexivity|discriminate].
Qed.
Lemma spacing_spaces n : spacing Start (repeat c_sp n) = Some Start.
Proof. induction n as [|n IH]; [reflexivity|exact IH]. Qed.
(* a text without two spaces in a row *)
Lemma spacing_text w : forall b st, singles b w = true -> (b = false -> st <> Gap \/ starts_with [c_sp] w = false) -> (b = true -> True) ->
  (b = true -> singles true w = true) -> spacing st w <> None.
Proof.
  induction w as [|c w IH]; intros b st H G _ _; [discriminate|]. cbn [spacing singles] in *.
  destruct (N.eqb_spec c c_sp) as [->|Hs].
  - destruct b; [discriminate|]. cbn [negb andb] in H. change ((c_sp =? c_nl)%N) with false. cbn iota.
    assert (Q : starts_with [c_sp] w = false).
    { unfold starts_with. destruct w as [|d w]; [reflexivity|]. cbn [strip_prefix singles] in *. destruct (N.eqb_spec c_sp d) as [<-|]; [|reflexivity].
      change ((c_sp =? c_sp)%N) with true in H. discriminate H. }
    assert (F : singles false w = true) by (destruct w as [|d w]; [reflexivity|]; cbn [singles] in *; destruct (d =? c_sp)%N; [discriminate H|exact H]).
    destruct (G eq_refl) as [N|N]; [|discriminate N].
    destruct st; [| |congruence]; (eapply (IH false); [exact F|intros _; right; exact Q|discriminate|discriminate]).
  - destruct (c =? c_nl)%N; (eapply (IH false); [exact H|intros _; left; discriminate|discriminate|discriminate]).
Qed.
Definition lined (single : bool) (s : ustr) : Prop := single = true -> spacing Start s <> None.
Lemma lined_app sg a c : lined sg a -> (sg = true -> forall st, spacing Start a = Some st -> spacing st c <> None) -> lined sg (a ++ c).
Proof. intros H G E. rewrite spacing_app. specialize (H E). destruct (spacing Start a) as [st|]; [apply (G E st eq_refl)|congruence]. Qed.
Lemma lined_line sg a n : lined sg a -> lined sg (a ++ c_nl :: repeat c_sp n).
Proof. intro H. apply lined_app; [exact H|]. intros _ st _. cbn [spacing]. rewrite N.eqb_refl, spacing_spaces. discriminate. Qed.
Lemma lined_feed sg a : lined sg a -> lined sg (a ++ [c_nl]).
Proof. exact (lined_line sg a 0). Qed.
Lemma no_gap s st : ends_blank s = false -> spacing Start s = Some st -> st <> Gap.
Proof. intros B H ->. destruct (spacing_gap _ _ H) as [->|Q]; [discriminate H|congruence]. Qed.
Lemma lined_text sg a w : lined sg a -> (sg = true -> singles false w = true) -> ends_blank a = false \/ (sg = true -> starts_with [c_sp] w = false) -> lined sg (a ++ w).
Proof.
  intros H F G. apply lined_app; [exact H|]. intros E st Hs. apply (spacing_text w false st (F E)); [|discriminate|discriminate]. intros _.
  destruct G as [G|G]; [left; eapply no_gap; eassumption|right; exact (G E)].
Qed.
Lemma spacing_means s : forall st pre, spacing Start pre = Some st -> spacing st s <> None ->
  forall before rest, s = before ++ c_sp :: c_sp :: rest ->
  exists lines n, pre ++ before = lines ++ repeat c_sp n /\ (lines = [] \/ exists ls, lines = ls ++ [c_nl]).
Proof.
  intros st pre P H a b E. assert (Q : spacing Start ((pre ++ a) ++ c_sp :: c_sp :: b) <> None) by (rewrite <- app_assoc, spacing_app, P, <- E; exact H).
  rewrite spacing_app in Q. destruct (spacing Start (pre ++ a)) as [m|] eqn:M; [|congruence].
  assert (m = Start) as -> by (destruct m; [reflexivity|cbn in Q; congruence..]).
  clear - M. revert M. generalize (pre ++ a). clear. intro s. induction s as [|c s IH] using rev_ind; intro M; [exists [], 0%nat; split; [reflexivity|left; reflexivity]|].
  rewrite spacing_app in M. destruct (spacing Start s) as [m|]; [|discriminate]. cbn [spacing] in M.
  destruct (N.eqb_spec c c_nl) as [->|Hn]; [exists (s ++ [c_nl]), 0%nat; split; [rewrite app_nil_r; reflexivity|right; exists s; reflexivity]|].
  destruct (N.eqb_spec c c_sp) as [->|_]; [|discriminate]. destruct m; try discriminate. destruct (IH eq_refl) as (ls & n & -> & Q).
  exists ls, (S n). split; [|exact Q]. rewrite <- app_assoc. f_equal. clear. change (repeat c_sp n ++ [c_sp] = c_sp :: repeat c_sp n). rewrite <- repeat_cons. reflexivity.
Qed.
Lemma spaced_once_of s : spacing Start s <> None -> spaced_once s.
Proof. intros H a b E. exact (spacing_means s Start [] eq_refl H a b E). Qed.

Section Levels.
Context {strict : rules}.
Definition good (s : ustr) : Prop := tidy false s = true /\ lined (r_single strict) s.
Definition holds (e : lev) (s : rstate) : Prop :=
  good (fst s) /\
  match e with
  | Neat => ends_blank (fst s) = false /\ snd s = None /\ upto (r_sparse strict) 0 (fst s)
  | Open => ends_blank (fst s) = false /\ upto (r_sparse strict) 0 (fst s)
  | Wide => ends_blank (fst s) = false /\ upto (r_sparse strict) 1 (fst s)
  | Any => upto (r_sparse strict) 2 (fst s) /\ (snd s <> None -> ends_blank (fst s) = false /\ upto (r_sparse strict) 1 (fst s))
  end.
Lemma holds_weak a b s : le a b -> holds a s -> holds b s.
Proof.
  intros L [T H]. split; [exact T|]. destruct a, b; try destruct L; cbn in H |- *; repeat match goal with H : _ /\ _ |- _ => destruct H end.
  all: repeat match goal with |- _ /\ _ => split | |- _ <> None -> _ => intro end; try assumption.
  all: try (match goal with H : ?x <> None -> _, G : ?x <> None |- _ => destruct (H G) end; assumption).
  all: try congruence; try (eapply upto_weak; [|eassumption]; lia).
Qed.
Lemma holds_Any e s : holds e s -> holds Any s.
Proof. apply holds_weak, le_Any. Qed.
Lemma settle_tidy e s : holds e s -> good (settle s).
Proof.
  intro H. apply holds_Any in H. destruct s as [out [i|]]; destruct H as ((T & Li) & _ & H); cbn [settle fst snd] in *; [|split; assumption].
  split; [|apply lined_line, Li]. apply tidy_line; [exact T| |apply tidy_spaces]. apply H. discriminate.
Qed.
Lemma settle_gap e s : e <> Any -> holds e s -> forall st, spacing Start (settle s) = Some st -> st <> Gap.
Proof.
  intros N [_ H] st. destruct s as [out [i|]]; cbn [settle fst snd] in *.
  - rewrite spacing_app. destruct (spacing Start out); [|discriminate]. cbn [spacing]. rewrite N.eqb_refl, spacing_spaces. intro Q. injection Q as <-. discriminate.
  - apply no_gap. destruct e; [apply H..|congruence].
Qed.
Lemma settle_upto e s : holds e s -> upto (r_sparse strict) 2 (settle s).
Proof.
  intro H. apply holds_Any in H. destruct s as [out [i|]]; destruct H as (T & U & H); cbn [settle fst snd] in *; [|exact U].
  eapply (upto_line _ 1); [lia|]. apply H. discriminate.
Qed.
Lemma put_good out s : good out -> tidy true s = true -> (r_single strict = true -> singles false s = true) ->
  (s = [c_sp] \/ (r_single strict = true -> starts_with [c_sp] s = false) \/ (forall st, spacing Start out = Some st -> st <> Gap)) -> good (put out s).
Proof.
  intros [T Li] S F G. unfold put. destruct (_ && _) eqn:Q; [split; assumption|]. split; [apply tidy_put; assumption|].
  apply lined_app; [exact Li|]. intros E st Hs. apply (spacing_text s false st (F E)); [|discriminate|discriminate]. intros _.
  destruct G as [->|[G|G]]; [|right; exact (G E)|left; exact (G st Hs)]. left. intros ->. destruct (spacing_gap _ _ Hs) as [->|B]; [discriminate Hs|].
  assert (X : ustr_eqb [c_sp] [c_sp] = true) by reflexivity. rewrite X in Q. cbn [andb] in Q.
  clear - Hs Q. destruct (exists_last (l := out)) as (p & c & ->); [intros ->; discriminate Hs|]. rewrite spacing_app in Hs. destruct (spacing Start p) as [m|]; [|discriminate].
  cbn [spacing] in Hs. destruct (N.eqb_spec c c_nl); [discriminate|]. destruct (N.eqb_spec c c_sp) as [->|]; [|discriminate].
  unfold ends_with_char in Q. rewrite rev_app_distr in Q. cbn in Q. discriminate Q.
Qed.

Lemma step_text e w m r : step1 (strict:=strict) e (PT w) = Some m -> holds e r -> holds m (render1 r (AText w)).
Proof.
  intros H I. pose proof (settle_tidy e r I) as Z. pose proof (settle_upto e r I) as Y. cbn [render1]. destruct w as [|c w].
  - assert (P : put (settle r) [] = settle r) by (unfold put; cbn; apply app_nil_r). rewrite P. injection H as <-.
    split; [exact Z|]. destruct e; try (split; [exact Y|]; intro Q; contradiction Q; reflexivity).
    destruct r as [out h]. destruct I as (_ & E & Hh & Hu). cbn in *. subst h. auto.
  - cbn [step1] in H. unfold TrimEdges.fit in H. destruct (tidy true (c :: w)) eqn:T; cbn [andb] in H; [|discriminate H].
    destruct (sparse (c :: w) || negb (r_sparse strict)) eqn:SP; cbn [andb] in H; [|discriminate].
    destruct (singles false (c :: w) || negb (r_single strict)) eqn:SS; cbn [andb] in H; [|discriminate].
    destruct (apart e (c :: w)) eqn:AP; [|discriminate]. injection H as <-.
    split.
    { apply put_good; [exact Z|exact T|intro E; rewrite E, Bool.orb_false_r in SS; exact SS|].
      unfold apart in AP. destruct w as [|d w].
      - destruct (N.eqb_spec c c_sp) as [->|Hc]; [left; reflexivity|]. right. left. intros _. unfold starts_with. cbn [strip_prefix]. destruct (N.eqb_spec c_sp c); [congruence|reflexivity].
      - destruct (N.eqb_spec c c_sp) as [->|Hc]; [|right; left; intros _; unfold starts_with; cbn [strip_prefix]; destruct (N.eqb_spec c_sp c); [congruence|reflexivity]].
        right. cbn [negb orb] in AP. apply Bool.orb_true_iff in AP as [AP|AP]; [right|left; intro E; rewrite E in AP; discriminate AP].
        apply (settle_gap e); [destruct e; [discriminate..|discriminate AP]|exact I]. }
    assert (F : r_sparse strict = true -> exists k, feeds 0 (c :: w) = Some k).
    { intro E. rewrite E, Bool.orb_false_r in SP. unfold sparse in SP. destruct (feeds 0 (c :: w)); [eexists; reflexivity|discriminate]. }
    destruct (last_ (c :: w)) eqn:L.
    + assert (PT_ : put (settle r) (c :: w) = settle r ++ c :: w).
      { unfold put. destruct (ustr_eqb (c :: w) [c_sp] && _) eqn:Q; [|reflexivity].
        apply Bool.andb_true_iff in Q as [Q _]. apply ustr_eqb_eq in Q. rewrite Q in L. discriminate L. }
      cbn [fst snd]. rewrite PT_. split; [rewrite ends_blank_app by discriminate; apply last_ends; [discriminate|exact L]|]. split; [reflexivity|].
      eapply upto_text; [exact T| |exact Y]. intro E. destruct (F E) as (k & Hk). exists k. split; [exact Hk|].
      rewrite (feeds_last _ L _ _ Hk). lia.
    + cbn [fst snd]. split; [|intro Q; contradiction Q; reflexivity]. unfold put. destruct (_ && _); [exact Y|].
      eapply upto_text; [exact T| |exact Y]. intro E. destruct (F E) as (k & Hk). exists k. split; [exact Hk|]. eapply feeds_bound; [exact Hk|lia].
Qed.
Lemma step_group e m r : step1 (strict:=strict) e PG = Some m -> holds e r -> holds m (render1 r AGroup).
Proof.
  intros H I. pose proof (settle_tidy e r I) as Z. pose proof (settle_upto e r I) as Y. cbn [render1]. split; [exact Z|].
  destruct e; injection H as <-; try (split; [exact Y|]; intro Q; contradiction Q; reflexivity).
  destruct r as [out h]. destruct I as (_ & E & Hh & Hu). cbn in *. subst h. auto.
Qed.
Lemma steps_sound l X : follows l X -> forall e m r, steps (strict:=strict) e l = Some m -> holds e r -> holds m (render_from r X).
Proof.
  intro F. induction F as [|w l a F IH|i l a F IH|l a F IH|l a F IH|i l a F IH|l a F IH|i l a F IH|l a F IH]; intros e m r H I.
  - injection H as <-. exact I.
  - cbn [steps] in H. destruct (step1 e (PT w)) as [m1|] eqn:S; [|discriminate].
    change (holds m (render_from (render1 r (AText w)) a)). eapply IH; [exact H|]. eapply step_text; eassumption.
  - cbn [steps step1] in H. destruct I as [T I]. destruct e; try discriminate H; (eapply IH; [exact H|]); (split; [exact T|]); cbn [fst snd]; tauto.
  - cbn [steps step1] in H. destruct I as [T I]. change (holds m (render_from (fst r ++ [c_nl], None) a)).
    assert (B : ends_blank (fst r ++ [c_nl]) = false) by (rewrite ends_blank_app by discriminate; reflexivity).
    destruct e; try discriminate H; (eapply IH; [exact H|]); (split; [destruct T as [T Li]; split; [apply (tidy_line _ T); [apply I|reflexivity]|apply lined_feed, Li]|]); (split; [exact B|apply upto_feed, I]).
  - cbn [steps step1] in H. destruct I as [T I]. destruct e; try discriminate H. destruct I as (E & Hh & Hu). destruct r as [out h]. cbn [fst snd] in *. subst h.
    eapply IH; [exact H|]. split; [destruct T as [T Li]; split; [apply tidy_put; [exact T|reflexivity]|apply lined_text; [exact Li|reflexivity|left; exact E]]|]. split; [|intro Q; contradiction Q; reflexivity].
    cbn [fst]. eapply upto_weak; [|eapply upto_space; exact Hu]. lia.
  - cbn [steps step1] in H. destruct I as [T I]. destruct e; try discriminate H. destruct I as (E & Hh & Hu). eapply IH; [exact H|].
    apply (holds_weak Open Any); [exact Logic.I|]. split; [exact T|]. split; [exact E|exact Hu].
  - cbn [steps step1] in H. destruct e; try discriminate H; (eapply IH; [exact H|]); try exact I. eapply holds_weak; [|exact I]. exact Logic.I.
  - cbn [steps step1] in H. destruct I as [T I]. destruct e; try discriminate H; (eapply IH; [exact H|]); (split; [exact T|]); cbn [fst snd] in *; tauto.
  - cbn [steps] in H. destruct (step1 e PG) as [m1|] eqn:S; [|discriminate].
    change (holds m (render_from (render1 r AGroup) a)). eapply IH; [exact H|]. eapply step_group; eassumption.
Qed.
End Levels.
Lemma bare_steps strict l : forall e, steps (strict:=strict) e (bare l) = steps (strict:=strict) e l.
Proof.
  induction l as [|p l IH]; intro e; [reflexivity|]. destruct p; try apply IH;
    (match goal with |- steps e (bare (?p :: l)) = _ => change (bare (p :: l)) with (p :: bare l) end);
    cbn [steps]; match goal with |- context [step1 ?e ?p] => destruct (step1 e p); [apply IH|reflexivity] end.
Qed.

Lemma bordered_trim s : bordered s -> trim_end s = s.
Proof.
  intros [_ H]. unfold SeqEdges.last_ in H. destruct (rev s) as [|c r] eqn:E; [discriminate|]. cbn in H.
  apply (f_equal (@rev _)) in E. rewrite rev_involutive in E. cbn [rev] in E. rewrite E. apply TextProofs.trim_end_app_last, Bool.negb_true_iff, H.
Qed.
Lemma trim_last_ s : trim_end s = s -> s <> [] -> last_ s = true.
Proof.
  intros H N. destruct (exists_last N) as (p & c & ->). unfold SeqEdges.last_. rewrite rev_app_distr. cbn.
  destruct (is_ws c) eqn:W; [|reflexivity]. exfalso.
  assert (G : forall q, (List.length (trim_end (q ++ [c])) <= List.length q)%nat).
  { induction q as [|x q IH]; cbn; [rewrite W; cbn; lia|]. destruct (trim_end (q ++ [c])) eqn:E; [destruct (is_ws x); cbn; lia|]. cbn in *. lia. }
  specialize (G p). rewrite H, app_length in G. cbn in G. lia.
Qed.
Lemma trim_end_in c s : In c (trim_end s) -> In c s.
Proof.
  induction s as [|x s IH]; [exact (fun H => H)|]. cbn [trim_end]. destruct (trim_end s) eqn:E.
  - destruct (is_ws x); [intros []|]. intros [->|[]]. left. reflexivity.
  - intros [->|H]; [left; reflexivity|right; apply IH; exact H].
Qed.
Lemma fine_of strict left n right c :
  (if has_kind "line_comment" n then ~ In c_nl (n_text n) /\ trim (n_text n) <> []
   else starts_with (U "/**") (n_text n) = true \/ (forall l, In l (split_on c_nl (n_text n)) -> trim l <> [])) ->
  (has_kind "line_comment" n = false -> bordered (n_text n)) ->
  (r_single strict = true -> Forall (fun l => singles false l = true) (normal_lines (has_kind "line_comment" n) (trim_end (n_text n))) /\
    starts_with [c_sp] (hd [] (normal_lines (has_kind "line_comment" n) (trim_end (n_text n)))) = false) ->
  comment_of left n right = Ok c -> comment_fine (strict:=strict) c.
Proof.
  intros F B SG H. unfold comment_fine. rewrite (CollectProofs2.comment_of_line _ _ _ _ H), (CollectProofs2.comment_of_value _ _ _ _ H).
  split; [apply TextProofs3.normal_lines_ne|]. split; [|intro E; exact (proj2 (SG E))].
  enough (G : Forall (fun s => ~ In c_nl s /\ s <> [] /\ last_ s = true) (normal_lines (has_kind "line_comment" n) (trim_end (n_text n)))).
  { apply Forall_forall. intros s Hs. rewrite Forall_forall in G. destruct (G s Hs) as (G1 & G2 & G3). split; [exact G1|]. split; [exact G2|]. split; [exact G3|].
    intro E. destruct (SG E) as [G4 _]. rewrite Forall_forall in G4. exact (G4 s Hs). }
  clear SG. unfold normal_lines. destruct (has_kind "line_comment" n).
  - destruct F as [F1 F2]. constructor; [|constructor]. split; [intro Hi; apply F1, trim_end_in, Hi|].
    assert (N : trim_end (n_text n) <> []).
    { intro E. apply F2. unfold trim. clear - E. induction (n_text n) as [|x s IH]; [reflexivity|]. cbn [trim_start]. cbn [trim_end] in E.
      destruct (trim_end s) eqn:Es; [|discriminate]. destruct (is_ws x); [apply IH; reflexivity|discriminate]. }
    split; [exact N|]. apply trim_last_; [apply TextProofs.trim_end_idem|exact N].
  - rewrite (bordered_trim _ (B eq_refl)). destruct (starts_with (U "/**") (n_text n)) eqn:J.
    + destruct (TextProofs2.javadoc_form _ J) as [E|(xs & E & HF)]; unfold normal_lines in E; rewrite J in E; rewrite E.
      * constructor; [|constructor]. split; [|split; [discriminate|reflexivity]]. cbn. intuition discriminate.
      * constructor; [split; [|split; [discriminate|reflexivity]]; cbn; intuition discriminate|]. apply Forall_app. split.
        -- apply Forall_map. eapply Forall_impl; [|exact HF]. intros y [Ty Ny]. split; [apply TextProofs2.fine_starred_no_nl; split; assumption|].
           unfold starred. destruct y as [|z y]; [split; [discriminate|reflexivity]|]. split; [discriminate|].
           cbn [not_empty]. rewrite last_app by discriminate. apply trim_last_; [apply Ty|discriminate].
        -- constructor; [|constructor]. split; [|split; [discriminate|reflexivity]]. cbn. intuition discriminate.
    + destruct F as [F|F]; [discriminate|]. apply Forall_map, Forall_forall. intros l Hl.
      pose proof (TextProofs.split_no_nl (n_text n)) as Z. rewrite Forall_forall in Z.
      split; [apply TextProofs2.tight_fine, Z, Hl|]. split; [apply F, Hl|]. apply trim_last_; [apply TextProofs.trim_tight|apply F, Hl].
Qed.

Lemma held_bkt cm id : held cm id Leading = pre (bkt cm id) /\ held cm id Trailing = post (bkt cm id) /\ held cm id Dangling = dangling (bkt cm id).
Proof. unfold held, bkt. destruct (cm_get id cm); repeat split. Qed.
Lemma quiet_tame strict root cm : distinct_ids root -> code root = true -> collect_comments root = Ok cm ->
  trimmed_texts root -> quiet_comments root -> full_lines root ->
  (r_single strict = true -> single_comments root /\ unannounced root) -> tame_comments (strict:=strict) root cm.
Proof.
  intros D Hr HC Tr Q F SU.
  assert (FINE : forall id p c, In c (held cm id p) -> comment_fine (strict:=strict) c).
  { intros id p c Hc. destruct (held_comment root cm D Hr HC id p c Hc) as (a & Ha & Hof & _). apply filter_In in Ha as [Ha _].
    destruct (attached_in root a Ha) as [Hi Hx]. eapply fine_of; [exact (F _ Hi Hx)| |intro E; exact (proj1 (SU E) _ Hi Hx)|exact Hof].
    intro K. apply Reread.ends_bordered, Tr.
    - destruct root as [i cs]. destruct Hi as [Hi|Hi]; [|exact Hi].
      exfalso. rewrite <- Hi in Hx. unfold code, code_token in Hr. rewrite Hx in Hr. destruct (n_named _); discriminate Hr.
    - left. intro E. unfold has_kind in K. rewrite E, String.eqb_refl in K. discriminate. }
  assert (AT : forall n p, In n (all_nodes root) -> held cm (n_id n) p <> [] ->
    exists a, In a (attachments root) /\ at_node a = n /\ at_place a = p).
  { intros n p Hn N. destruct (held cm (n_id n) p) as [|c r] eqn:E; [congruence|].
    destruct (held_comment root cm D Hr HC (n_id n) p c) as (a & Ha & _); [rewrite E; left; reflexivity|].
    apply filter_In in Ha as [Ha G]. apply andb_prop in G as [G1 G2]. apply N.eqb_eq in G1. apply place_eqb_eq in G2.
    exists a. split; [exact Ha|]. split; [|exact G2]. apply (TokensComments.same_id root _ _ D); [|exact Hn|exact G1].
    apply (ArrangeOnce.attached_code root a Ha). }
  assert (TR : forall id p c, In c (held cm id p) -> exists a, In a (attachments root) /\ at_id a = id /\ at_place a = p /\
    c_trailing c = followed a).
  { intros id p c Hc. destruct (held_comment root cm D Hr HC id p c Hc) as (a & Ha & Hof & _). apply filter_In in Ha as [Ha G].
    apply andb_prop in G as [G1 G2]. apply N.eqb_eq in G1. apply place_eqb_eq in G2. exists a. split; [exact Ha|]. split; [exact G1|]. split; [exact G2|].
    unfold comment_of in Hof. unfold followed. destruct (has_kind "line_comment" (at_comment a)); [injection Hof as <-; reflexivity|].
    destruct (has_kind "block_comment" (at_comment a)); [|discriminate]. injection Hof as <-. reflexivity. }
  constructor.
  - intro id. rewrite <- (proj1 (held_bkt cm id)). split; [apply Forall_forall; intros c Hc; eapply FINE; exact Hc|].
    intros c Hc T. destruct (TR _ _ _ Hc) as (a & Ha & G1 & G2 & G3). rewrite T in G3. symmetry in G3.
    pose proof (proj2 (qc_front root Q a Ha G2) G3) as L. fold (at_id a) in L. rewrite G1, (comments_at_selected root) in L.
    pose proof (Permutation.Permutation_length (placed_selected root cm D Hr HC id Leading)) as PL. rewrite L in PL. unfold placed in PL. rewrite map_length in PL.
    destruct (held cm id Leading) as [|d [|]]; try discriminate PL. destruct Hc as [->|[]]. reflexivity.
  - intro id. rewrite <- (proj1 (proj2 (held_bkt cm id))). apply Forall_forall. intros c Hc. split; [eapply FINE; exact Hc|].
    destruct (TR _ _ _ Hc) as (a & Ha & G1 & G2 & ->). apply (qc_behind root Q a Ha G2).
  - intro id. rewrite <- (proj2 (proj2 (held_bkt cm id))). apply Forall_forall. intros c Hc. eapply FINE; exact Hc.
  - intros n Hn. rewrite <- (proj1 (proj2 (held_bkt cm (n_id n)))). intro N. destruct (AT n Trailing Hn N) as (a & Ha & <- & G).
    destruct (qc_behind root Q a Ha G) as (G1 & G2 & _). auto.
  - intros n Hn. rewrite <- (proj2 (proj2 (held_bkt cm (n_id n)))). intro N. destruct (AT n Dangling Hn N) as (a & Ha & <- & G).
    exact (qc_alone root Q a Ha G).
  - intros n Hn S. rewrite <- (proj1 (held_bkt cm (n_id n))), <- (proj1 (proj2 (held_bkt cm (n_id n)))). split.
    + destruct (held cm (n_id n) Leading) eqn:E; [reflexivity|]. exfalso. destruct (AT n Leading Hn) as (a & Ha & <- & G); [rewrite E; discriminate|].
      destruct (qc_front root Q a Ha G) as [G1 _]. congruence.
    + destruct (held cm (n_id n) Trailing) eqn:E; [reflexivity|]. exfalso. destruct (AT n Trailing Hn) as (a & Ha & <- & G); [rewrite E; discriminate|].
      destruct (qc_behind root Q a Ha G) as [G1 _]. unfold separator in S. apply LayoutNew.kind_in_in in S.
      destruct S as [S|[S|[]]]; rewrite <- S in G1; discriminate G1.
  - intros E n Hn An. rewrite <- (proj1 (held_bkt cm (n_id n))). destruct (held cm (n_id n) Leading) eqn:L; [reflexivity|]. exfalso.
    destruct (AT n Leading Hn) as (a & Ha & <- & G); [rewrite L; discriminate|]. rewrite (proj2 (SU E) a Ha G) in An. discriminate An.
Qed.

Theorem format_levels strict checked stack cfg root out cm : collect_comments root = Ok cm -> tame_comments (strict:=strict) root cm ->
  solid root -> tidy_texts root -> (r_sparse strict = true -> sparse_texts root) -> (r_single strict = true -> single_texts root) -> full_clauses root -> filled root ->
  format_tree checked stack cfg root = Ok out -> tidy false out = true /\ (r_sparse strict = true -> sparse out = true) /\ (r_single strict = true -> spaced_once out).
Proof.
  intros E1 TC Sol Ti Sp Sg Fu Fi E. unfold format_tree in E. rewrite E1 in E. cbn [rbind] in E.
  destruct (new cm checked stack Root (root_loc root)) as [T| |] eqn:E2; try discriminate. cbn [rbind] in E.
  destruct (PrettyConfig_new (cfg_indent_size cfg)) as [b| |] eqn:E3; try discriminate. cbn [rbind] in E.
  destruct (run cm b T) as [[d w]| |] eqn:E4; try discriminate. cbn [rbind fst snd] in E.
  destruct (assert_no_missing_comments cm w) as [[]| |]; try discriminate. cbn [rbind] in E. injection E as E.
  destruct (pretty_print_layout d (max_width cfg)) as (X & Lx & Px).
  assert (Fo : follows (cseq cm T) X).
  { rewrite <- (run_cseq cm b T d w E4). eapply layout_follows; [eapply run_grouped; eassumption|exact Lx]. }
  destruct (root_trim root cm Sol Ti Sp Sg Fu Fi TC checked stack T E2) as (m & S & L).
  assert (Z : holds (strict:=strict) m (render_from ([], None) X)).
  { eapply steps_sound; [exact Fo|exact S|]. split; [split; [reflexivity|discriminate]|]. split; [reflexivity|]. split; [reflexivity|]. intros _. exists 0%nat. split; [reflexivity|lia]. }
  rewrite <- E, Px. unfold render. destruct (settle_tidy m _ Z) as [Z1 Z2]. split; [exact Z1|]. split; [eapply upto_sparse, (settle_upto m _ Z)|].
  intro E5. apply spaced_once_of, Z2, E5.
Qed.
Theorem format_tame checked stack cfg root out cm : collect_comments root = Ok cm -> tame_comments (strict:=Rules false false) root cm ->
  solid root -> tidy_texts root -> full_clauses root -> filled root ->
  format_tree checked stack cfg root = Ok out -> tidy false out = true.
Proof. intros. eapply (format_levels (Rules false false)); try eassumption; discriminate. Qed.
Theorem format_trim checked stack cfg root out :
  n_named root = true -> (forall n, In n (all_nodes root) -> n_extra n = false) ->
  trimmed_nodes root -> tidy_texts root -> full_clauses root -> filled root ->
  format_tree checked stack cfg root = Ok out -> tidy false out = true.
Proof.
  intros Nm Nc Tr Ti Fu Fi E. destruct (collect_comments root) as [cm| |] eqn:E1; [|unfold format_tree in E; rewrite E1 in E; discriminate..].
  assert (Em : forall id, bkt cm id = empty_bucket).
  { intro id. unfold bkt. destruct (cm_get id cm) as [bk|] eqn:G; [|reflexivity].
    assert (Hb : get_comment_bucket cm id = Ok bk) by (unfold get_comment_bucket; rewrite G; reflexivity).
    eapply no_comments_empty in Hb; [| |exact Nc|exact E1].
    - destruct bk as [x y z]. destruct Hb as (H1 & H2 & H3). cbn in *. subst. reflexivity.
    - unfold code, code_token. rewrite (Nc root (self_in root)), Nm. reflexivity. }
  eapply format_tame; try eassumption; [|intros n Hn _; apply Reread.ends_bordered, Tr; exact Hn].
  constructor; intros; rewrite ?Em in *; cbn in *; try congruence; try (split; [constructor|intros c []]); try constructor.
  all: split; reflexivity.
Qed.
Theorem format_trim_comments checked stack cfg root out :
  distinct_ids root -> code root = true -> trimmed_texts root -> tidy_texts root -> full_clauses root -> filled root ->
  quiet_comments root -> full_lines root ->
  format_tree checked stack cfg root = Ok out -> tidy false out = true.
Proof.
  intros D Hr Tr Ti Fu Fi Q F E. destruct (collect_comments root) as [cm| |] eqn:E1; [|unfold format_tree in E; rewrite E1 in E; discriminate..].
  eapply format_tame; try eassumption; [eapply quiet_tame; try eassumption; discriminate|]. intros n Hn Hk. apply Reread.ends_bordered, Tr; assumption.
Qed.

Theorem format_sparse checked stack cfg root out :
  distinct_ids root -> code root = true -> trimmed_texts root -> tidy_texts root -> sparse_texts root -> full_clauses root -> filled root ->
  quiet_comments root -> full_lines root ->
  format_tree checked stack cfg root = Ok out -> sparse out = true.
Proof.
  intros D Hr Tr Ti Sp Fu Fi Q F E. destruct (collect_comments root) as [cm| |] eqn:E1; [|unfold format_tree in E; rewrite E1 in E; discriminate..].
  eapply (format_levels (Rules true false)); try eassumption; [eapply quiet_tame; try eassumption; discriminate| |intros _; exact Sp|discriminate|reflexivity].
  intros n Hn Hk. apply Reread.ends_bordered, Tr; assumption.
Qed.

Theorem format_spaced checked stack cfg root out :
  distinct_ids root -> code root = true -> trimmed_texts root -> tidy_texts root -> single_texts root -> full_clauses root -> filled root ->
  quiet_comments root -> full_lines root -> single_comments root -> unannounced root ->
  format_tree checked stack cfg root = Ok out -> spaced_once out.
Proof.
  intros D Hr Tr Ti Sg Fu Fi Q F Sc Un E. destruct (collect_comments root) as [cm| |] eqn:E1; [|unfold format_tree in E; rewrite E1 in E; discriminate..].
  eapply (format_levels (Rules false true)); try eassumption; [eapply quiet_tame; try eassumption; intros _; split; assumption| |discriminate|intros _; exact Sg|reflexivity].
  intros n Hn Hk. apply Reread.ends_bordered, Tr; assumption.
Qed.
