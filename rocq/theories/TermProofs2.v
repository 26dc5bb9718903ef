(* TermProofs2.v: instances of the run invariant, independence of the indent
   size, and what the marked comments guarantee. *)
From Verif Require Import Base Doc DocBuilder SpecDoc DocProofs DocProofs2 Cst Comments Term TermProofs.
Local Arguments N.add : simpl never.

(* ------------------------------------------------------------ documents *)

Lemma grouped_concat l : grouped (Concat l) <-> Forall grouped l.
Proof.
  simpl. induction l as [|x l IH]; [split; auto|]. split.
  - intros [H1 H2]. constructor; tauto.
  - intro H; inversion H; subst; tauto.
Qed.
Lemma uniform_concat sz l : uniform sz (Concat l) <-> Forall (uniform sz) l.
Proof.
  simpl. induction l as [|x l IH]; [split; auto|]. split.
  - intros [H1 H2]. constructor; tauto.
  - intro H; inversion H; subst; tauto.
Qed.

(* Every comment document consists of texts and line breaks. *)
Definition text_or_break (d : doc) : Prop := d = Newline \/ exists s, d = txt s.
Ltac sh := repeat first
  [ apply Forall_nil
  | apply Forall_cons; [solve [left; reflexivity | right; eexists; reflexivity]|] ].
Lemma comment_docs_shape c : Forall text_or_break (comment_docs c).
Proof.
  unfold comment_docs. destruct (c_line c); [sh|].
  assert (HB : forall l, Forall text_or_break (block_docs l)).
  { induction l as [|x l IH]; simpl; [sh|]. destruct l; sh. exact IH. }
  assert (HM : forall s, text_or_break (javadoc_middle s)).
  { intro s. right. unfold javadoc_middle. destruct s; [eauto|].
    destruct (strip_prefix _ _); [|eauto]. destruct (is_nil _); eauto. }
  assert (HJ : forall l, Forall text_or_break (javadoc_rest l)).
  { induction l as [|x l IH]; simpl; [sh|]. destruct l.
    - unfold javadoc_last. destruct (strip_suffix _ _); [|sh].
      destruct (is_nil _); sh.
    - constructor; [apply HM|]. constructor; [left; reflexivity|exact IH]. }
  destruct (starts_with _ _); [|apply HB].
  unfold javadoc_docs. destruct (javadoc_split_first _) as [|l0 rest]; [sh|].
  destruct rest as [|l1 rest]; [sh|]. sh. apply HJ.
Qed.

Lemma comment_doc_pred (P : doc -> Prop) c :
  (forall s, P (txt s)) -> P Newline -> (forall l, Forall P l -> P (Concat l)) -> P (comment_doc c).
Proof.
  intros Ht Hn Hc. apply Hc. eapply Forall_impl; [|apply comment_docs_shape].
  intros d [->|[s ->]]; auto.
Qed.

Lemma T_dt_true t : T_dt (fun _ => True) t.
Proof.
  induction t using dt_nested_ind; cbn [T_dt]; rewrite ?T_list, ?T_mlist; unfold T_ins, T_opt; auto;
    repeat split; auto; try (destruct (t_str _); exact I).
Qed.

Lemma run_grouped cm b t d w : run cm b t = Ok (d, w) -> grouped d.
Proof.
  apply (run_pred grouped (fun _ => True) b); intros; lazymatch goal with |- _ (comment_doc _) => idtac | |- uniform _ (comment_doc _) => idtac | _ => simpl; auto end.
  - apply grouped_concat; assumption.
  - repeat split.
  - apply comment_doc_pred; simpl; auto. intros; apply grouped_concat; assumption.
  - apply T_dt_true.
Qed.

Lemma run_uniform cm b t d w : run cm b t = Ok (d, w) -> uniform (indent_size b) d.
Proof.
  apply (run_pred (uniform (indent_size b)) (fun _ => True) b); intros; lazymatch goal with |- _ (comment_doc _) => idtac | |- uniform _ (comment_doc _) => idtac | _ => simpl; auto end.
  - apply uniform_concat; assumption.
  - repeat split.
  - apply comment_doc_pred; simpl; auto. intros; apply uniform_concat; assumption.
  - apply T_dt_true.
Qed.

Definition no_nl (s : ustr) : Prop := ~ In c_nl s.

Lemma run_exact cm b t d w :
  T_dt no_nl t ->
  (forall id bk c, cm_get id cm = Some bk -> In c (pre bk ++ post bk ++ dangling bk) ->
                   exact_widths (comment_doc c)) ->
  run cm b t = Ok (d, w) -> exact_widths d.
Proof.
  intros HT Hcm. apply (run_pred exact_widths no_nl b); intros; lazymatch goal with |- _ (comment_doc _) => idtac | |- uniform _ (comment_doc _) => idtac | _ => simpl; auto end.
  - apply exact_concat; assumption.
  - unfold no_nl; simpl. repeat split; intuition discriminate.
  - eapply Hcm; eauto.
Qed.

(* ------------------------------------------------------------ indent size *)

Fixpoint unindent (d : doc) : doc :=
  match d with
  | Flat x => Flat (unindent x)
  | Indent _ x => Indent 0 (unindent x)
  | Dedent _ x => Dedent 0 (unindent x)
  | Concat l => Concat (map unindent l)
  | Choice x y => Choice (unindent x) (unindent y)
  | d => d
  end.

Lemma content_unindent d : content (unindent d) = content d.
Proof.
  induction d using doc_nested_ind; simpl; auto.
  induction H as [|x l Hx Hl IH]; simpl; [reflexivity|]. rewrite Hx, IH. reflexivity.
Qed.

(* Two runs with the same outcome, up to a relation between the values. *)
Definition same {A} (R : A -> A -> Prop) (m m' : M A) : Prop :=
  match m, m' with
  | Ok (a, w), Ok (a', w') => R a a' /\ w = w'
  | Panic y, Panic y' => y = y'
  | Overflow, Overflow => True
  | _, _ => False
  end.
Definition ud (d d' : doc) : Prop := unindent d = unindent d'.
Definition udl (l l' : list doc) : Prop := map unindent l = map unindent l'.

Lemma same_bind {A B} (R : A -> A -> Prop) (S : B -> B -> Prop) m m' f f' :
  same R m m' -> (forall a a', R a a' -> same S (f a) (f' a')) -> same S (mbind m f) (mbind m' f').
Proof.
  unfold same, mbind. destruct m as [[a w]| |], m' as [[a' w']| |]; try tauto.
  intros [Ha ->] H. specialize (H a a' Ha).
  destruct (f a) as [[c v]| |], (f' a') as [[c' v']| |]; try tauto.
  destruct H as [H ->]. auto.
Qed.
Lemma same_map {A B} (R : A -> A -> Prop) (S : B -> B -> Prop) f f' (m m' : M A) :
  same R m m' -> (forall a a', R a a' -> S (f a) (f' a')) -> same S (mmap f m) (mmap f' m').
Proof. intros H Hf. eapply same_bind; [exact H|]. intros. simpl. auto. Qed.
Lemma same_refl {A} (R : A -> A -> Prop) m : (forall a, R a a) -> same R m m.
Proof. intro H. unfold same. destruct m as [[a w]| |]; auto. Qed.
Lemma same_lift {A} (R : A -> A -> Prop) (m m' : res A) :
  match m, m' with Ok a, Ok a' => R a a' | Panic y, Panic y' => y = y' | Overflow, Overflow => True | _, _ => False end ->
  same R (lift m) (lift m').
Proof. unfold same, lift, rbind. destruct m, m'; simpl; auto. Qed.
Lemma same_mapM {A B} (R : B -> B -> Prop) (f f' : A -> M B) l :
  Forall (fun x => same R (f x) (f' x)) l -> same (Forall2 R) (mapM f l) (mapM f' l).
Proof.
  induction 1 as [|x l Hx Hl IH]; simpl; [auto|].
  eapply same_bind; [exact Hx|]. intros y y' Hy.
  eapply same_bind; [exact IH|]. intros ys ys' Hys. simpl. auto.
Qed.
Lemma same_impl {A} (R S : A -> A -> Prop) m m' : (forall a b, R a b -> S a b) -> same R m m' -> same S m m'.
Proof. unfold same. destruct m as [[a w]| |], m' as [[a' w']| |]; intuition. Qed.

Lemma udl_F2 l l' : Forall2 ud l l' <-> udl l l'.
Proof.
  unfold udl. split.
  - induction 1; simpl; [reflexivity|]. f_equal; assumption.
  - revert l'. induction l as [|x l IH]; intros [|y l'] H; try discriminate; constructor.
    + injection H as H1 H2. exact H1.
    + injection H as H1 H2. auto.
Qed.

Section Indep.
  Variable cm : cmap.
  Variables b b' : pretty_config.

  Lemma same_seqM (l l' : list (M (list doc))) :
    Forall2 (same udl) l l' -> same udl (seqM l) (seqM l').
  Proof.
    intro H. unfold seqM. eapply (same_map (Forall2 udl)).
    - induction H as [|m m' l l' Hm Hl IH]; simpl; [auto|].
      eapply same_bind; [exact Hm|]. intros. eapply same_bind; [exact IH|]. intros. simpl. auto.
    - intros a a' Ha. unfold udl. induction Ha as [|x y l1 l2 Hx Hl IH]; simpl; [reflexivity|].
      rewrite !map_app, IH. unfold udl in Hx. rewrite Hx. reflexivity.
  Qed.

  Lemma udl_refl l : udl l l.
  Proof. reflexivity. Qed.
  Lemma ud_concat l l' : udl l l' -> ud (concat l) (concat l').
  Proof. unfold ud, udl, concat. simpl. intros ->. reflexivity. Qed.
  Lemma ud_indent d d' : ud d d' -> ud (indent b d) (indent b' d').
  Proof. unfold ud, indent. simpl. intros ->. reflexivity. Qed.

  Lemma udl_app a a' c c' : udl a a' -> udl c c' -> udl (a ++ c) (a' ++ c').
  Proof. unfold udl. rewrite !map_app. intros -> ->. reflexivity. Qed.
  Lemma udl_cons x x' l l' : ud x x' -> udl l l' -> udl (x :: l) (x' :: l').
  Proof. unfold udl, ud. simpl. intros -> ->. reflexivity. Qed.

  Lemma ud_intersperse l l' sep : udl l l' -> ud (intersperse l sep) (intersperse l' sep).
  Proof.
    intro H. apply udl_F2 in H. destruct H as [|x y l l' Hx H]; [reflexivity|].
    simpl. apply ud_concat, udl_cons; [exact Hx|].
    induction H as [|u v l l' Hu H IH]; simpl; [reflexivity|].
    apply udl_app; [reflexivity|]. apply udl_cons; auto.
  Qed.
  Lemma udl_opt_indent o : udl (opt_list (indent b) o) (opt_list (indent b') o).
  Proof. destruct o; simpl; [|reflexivity]. apply udl_cons; [|reflexivity]. apply ud_indent; reflexivity. Qed.

  Lemma ud_surround l l' sep o c :
    udl l l' ->
    match surround b l sep o c, surround b' l' sep o c with
    | Ok a, Ok a' => ud a a' | Panic y, Panic y' => y = y' | Overflow, Overflow => True | _, _ => False end.
  Proof.
    intro H. unfold surround. pose proof H as H'. apply udl_F2 in H'. destruct H' as [|x y l l' Hx H'].
    - destruct (ins_str o), (ins_str c); reflexivity.
    - apply ud_concat.
      apply udl_app; [reflexivity|]. apply udl_app; [reflexivity|].
      apply udl_app; [apply udl_opt_indent|].
      apply udl_app; [|reflexivity].
      apply udl_cons; [|reflexivity]. apply ud_indent. apply ud_intersperse. exact H.
  Qed.

  Definition udm (m m' : doc * bool) : Prop := ud (fst m) (fst m') /\ snd m = snd m'.
  Lemma udl_members ms ms' : Forall2 udm ms ms' -> udl (intersperse_members ms) (intersperse_members ms').
  Proof.
    induction 1 as [|[d tr] [d' tr'] ms ms' [H1 H2] H IH]; simpl in *; [reflexivity|]. subst tr'.
    destruct H as [|m m' ms ms' Hm H]; [apply udl_cons; [exact H1|reflexivity]|].
    apply udl_cons; [exact H1|]. apply udl_cons; [reflexivity|exact IH].
  Qed.
  Lemma ud_imembers ms ms' : Forall2 udm ms ms' -> ud (intersperse_body_members ms) (intersperse_body_members ms').
  Proof.
    intro H. pose proof (udl_members _ _ H) as HL. unfold intersperse_body_members.
    destruct H; [reflexivity|]. apply ud_concat. exact HL.
  Qed.

  Lemma same_build_node h x m m' : same udl m m' -> same udl (build_node cm b h x m) (build_node cm b' h x m').
  Proof.
    intro Hm. unfold build_node.
    eapply same_bind; [apply (same_refl eq); reflexivity|]. intros bk ? <-.
    assert (H1 : same udl (members_or_dangling bk m) (members_or_dangling bk m')).
    { unfold members_or_dangling. destruct (is_nil _); [exact Hm|]. apply same_refl. reflexivity. }
    assert (H2 : same udl (members_or_bracket b bk m) (members_or_bracket b' bk m')).
    { unfold members_or_bracket. destruct (is_nil _); [exact Hm|].
      eapply (same_bind udl); [|intros; simpl; auto].
      apply same_lift. unfold dangling_in_bracket_surround, rbind.
      destruct (handle_dangling_comments bk); [|reflexivity|exact I].
      unfold udl, indent; reflexivity. }
    assert (H0 : forall m : M (list doc), same udl m m) by (intro; apply same_refl; reflexivity).
    destruct h; try (apply same_seqM; repeat (constructor; [auto|]); constructor).
    destruct (is_nil _); [exact Hm|apply H0].
  Qed.

  Lemma run_indep t : same ud (run cm b t) (run cm b' t).
  Proof.
    assert (HL : forall l, Forall (fun t => same ud (run cm b t) (run cm b' t)) l ->
                 same udl (mapM (run cm b) l) (mapM (run cm b') l)).
    { intros l Hl. eapply same_impl; [|apply same_mapM; exact Hl]. intros; apply udl_F2; assumption. }
    assert (HLm : forall ms, Forall (fun m => same ud (run cm b (fst m)) (run cm b' (fst m))) ms ->
       same (Forall2 udm)
         (mapM (fun m : dt * bool => let (x, tr) := m in mmap (fun d => (d, tr)) (run cm b x)) ms)
         (mapM (fun m : dt * bool => let (x, tr) := m in mmap (fun d => (d, tr)) (run cm b' x)) ms)).
    { intros ms Hl. apply same_mapM. eapply Forall_impl; [|exact Hl].
      intros [x tr] H. simpl in H. eapply same_map; [exact H|]. intros; split; auto. }
    induction t using dt_nested_ind; cbn [run].
    - simpl; split; reflexivity.
    - simpl; split; reflexivity.
    - simpl; split; reflexivity.
    - eapply same_map; [apply HL; assumption|]. intros; apply ud_concat; assumption.
    - eapply same_map; [exact IHt|]. intros; apply ud_indent; assumption.
    - eapply same_map; [exact IHt|]. unfold ud, dedent; simpl. intros ? ? ->. reflexivity.
    - eapply same_map; [exact IHt|]. unfold ud, group, choice, flat; simpl. intros ? ? ->. reflexivity.
    - eapply same_map; [apply HL; assumption|]. intros; apply ud_intersperse; assumption.
    - eapply same_bind; [apply HL; assumption|]. intros. apply same_lift, ud_surround; assumption.
    - eapply same_map; [apply HLm; assumption|]. intros; apply ud_imembers; assumption.
    - eapply same_map; [apply HLm; assumption|]. intros ms1 ms2 Hms.
      pose proof (ud_imembers _ _ Hms) as Hu. unfold surround_body_members.
      destruct Hms; [reflexivity|]. apply ud_concat.
      apply udl_cons; [reflexivity|]. apply udl_cons; [apply ud_indent; reflexivity|].
      apply udl_cons; [apply ud_indent; exact Hu|]. reflexivity.
    - eapply same_map; [|intros; apply ud_concat; eassumption].
      apply same_seqM. constructor; [apply same_build_node; apply HL; assumption|].
      constructor; [apply HL; assumption|constructor].
    - apply same_refl. reflexivity.
    - reflexivity.
  Qed.
End Indep.

(* Changing the indent size changes neither the outcome nor the marked comments
   nor the non-blank content. *)
Lemma run_config cm b b' t :
  match run cm b t, run cm b' t with
  | Ok (d, w), Ok (d', w') => content d = content d' /\ w = w'
  | Panic y, Panic y' => y = y'
  | Overflow, Overflow => True
  | _, _ => False
  end.
Proof.
  pose proof (run_indep cm b b' t) as H. unfold same in H.
  destruct (run cm b t) as [[d w]| |], (run cm b' t) as [[d' w']| |]; auto.
  destruct H as [H ->]. split; [|reflexivity].
  rewrite <- (content_unindent d), <- (content_unindent d'). unfold ud in H. congruence.
Qed.

(* ------------------------------------------------------------ marks *)

Definition covers (ds : list doc) (w : list comment) : Prop :=
  forall c, In c w -> exists d, In d ds /\ within (comment_doc c) d.

Lemma covers_app a b v w : covers a v -> covers b w -> covers (a ++ b) (v ++ w).
Proof.
  intros Ha Hb c Hc. apply in_app_iff in Hc as [Hc|Hc].
  - destruct (Ha c Hc) as (d & Hd & Hw). exists d. rewrite in_app_iff; auto.
  - destruct (Hb c Hc) as (d & Hd & Hw). exists d. rewrite in_app_iff; auto.
Qed.
Lemma covers_concat ds w c : covers ds w -> In c w -> within (comment_doc c) (Concat ds).
Proof. intros H Hc. destruct (H c Hc) as (d & Hd & Hw). eapply W_concat; eauto. Qed.
Lemma covers_nil ds : covers ds [].
Proof. intros c []. Qed.
Lemma covers_one d w : (forall c, In c w -> within (comment_doc c) d) -> covers [d] w.
Proof. intros H c Hc. exists d. simpl; auto. Qed.
Lemma covers_incl a a' w : covers a w -> (forall d, In d a -> exists d', In d' a' /\ within d d') -> covers a' w.
Proof.
  intros H Hi c Hc. destruct (H c Hc) as (d & Hd & Hw). destruct (Hi d Hd) as (d' & Hd' & Hw').
  exists d'. split; [exact Hd'|]. eapply within_trans; eauto.
Qed.

Lemma mapM_covers {A} (f : A -> M doc) l :
  Forall (fun x => forall d w, f x = Ok (d, w) -> covers [d] w) l ->
  forall ds w, mapM f l = Ok (ds, w) -> covers ds w.
Proof.
  induction 1 as [|x l Hx Hl IH]; intros ds w H; simpl in H; minv; [apply covers_nil|].
  rewrite app_nil_r. match goal with |- covers (?y :: ?ys) _ => change (y :: ys) with ([y] ++ ys) end.
  apply covers_app; eauto.
Qed.
Lemma seqM_covers l ds w :
  seqM l = Ok (ds, w) ->
  Forall (fun m : M (list doc) => forall y v, m = Ok (y, v) -> covers y v) l -> covers ds w.
Proof.
  intros H HF. apply seqM_ok in H as (dss & H & ->). revert dss w H.
  induction HF as [|m l Hm Hl IH]; intros dss w H; simpl in H; minv; [apply covers_nil|].
  rewrite app_nil_r. simpl. apply covers_app; eauto.
Qed.

Lemma post_covers cs : covers (flat_map post_comment_docs cs) cs.
Proof.
  induction cs as [|c cs IH]; [apply covers_nil|]. simpl.
  change (c :: cs) with ([c] ++ cs). apply covers_app; [|exact IH].
  intros x [<-|[]]. exists (comment_doc c). split; [|constructor].
  unfold post_comment_docs. rewrite !in_app_iff. simpl; auto.
Qed.
Lemma pre_covers cs first : covers (pre_comments_docs first cs) cs.
Proof.
  revert first; induction cs as [|c cs IH]; intro first; [apply covers_nil|]. simpl.
  change (c :: cs) with ([c] ++ cs). apply covers_app; [|apply IH].
  intros x [<-|[]]. exists (comment_doc c). split; [|constructor].
  unfold pre_comment_docs. rewrite !in_app_iff. simpl; auto.
Qed.
Lemma dangling_all_covers cs : covers (flat_map dangling_comment_docs cs) cs.
Proof.
  induction cs as [|c cs IH]; [apply covers_nil|]. simpl.
  change (c :: cs) with ([c] ++ cs). apply covers_app; [|exact IH].
  intros x [<-|[]]. exists (comment_doc c). split; [|constructor].
  unfold dangling_comment_docs. rewrite !in_app_iff. simpl; auto.
Qed.
Lemma dangling_covers bk ds : handle_dangling_comments bk = Ok ds -> covers ds (dangling bk).
Proof.
  unfold handle_dangling_comments. destruct (dangling bk) as [|c cs]; [discriminate|].
  intro H. assert (E : ds = flat_map dangling_comment_docs (c :: cs)) by congruence. rewrite E.
  apply dangling_all_covers.
Qed.

Section Marks.
  Variable cm : cmap.
  Variable b : pretty_config.

  Lemma covers_punct p d w : build_punct cm p = Ok (d, w) -> covers [d] w.
  Proof.
    destruct p as [comma id]. unfold build_punct. intro H. minv.
    match goal with |- covers _ ([] ++ (pre ?bk ++ post ?bk)) => rename bk into bk0 end.
    simpl. apply covers_one. intros c Hc.
    assert (covers (punct_docs comma bk0) (pre bk0 ++ post bk0)) as HC.
    { intros x Hx. unfold punct_docs.
      destruct (in_app_or _ _ _ Hx) as [Hp|Hp].
      - destruct (c_line x) eqn:El.
        + destruct (post_covers (filter c_line (pre bk0) ++ post bk0) x) as (d & Hd & Hw).
          { rewrite in_app_iff, filter_In. auto. }
          exists d. rewrite !in_app_iff. auto.
        + destruct (post_covers (filter (fun c => negb (c_line c)) (pre bk0)) x) as (d & Hd & Hw).
          { rewrite filter_In, El. auto. }
          exists d. rewrite !in_app_iff. auto.
      - destruct (post_covers (filter c_line (pre bk0) ++ post bk0) x) as (d & Hd & Hw).
        { rewrite in_app_iff. auto. }
        exists d. rewrite !in_app_iff. auto. }
    eapply covers_concat; eauto.
  Qed.

  Lemma covers_node h x m ds w :
    (forall ds w, m = Ok (ds, w) -> covers ds w) ->
    build_node cm b h x m = Ok (ds, w) -> covers ds w.
  Proof.
    intros Hm H. unfold build_node in H. minv.
    match goal with H : get_comment_bucket _ _ = Ok ?k |- _ => rename k into bk end. simpl.
    assert (Hpre : forall y v, pre_docs bk = Ok (y, v) -> covers y v).
    { unfold pre_docs, handle_pre_comments. intros y v E. minv.
      destruct (pre bk) as [|c cs]; [apply covers_nil|]. apply covers_one. intros z Hz.
      eapply covers_concat; [apply pre_covers|exact Hz]. }
    assert (Hpost : forall y v, post_docs bk = Ok (y, v) -> covers y v).
    { unfold post_docs, handle_post_comments. intros y v E. destruct (is_nil _); minv; [|apply covers_nil].
      destruct (post bk) as [|c cs]; [apply covers_nil|]. apply covers_one. intros z Hz.
      eapply covers_concat; [apply post_covers|exact Hz]. }
    assert (Hp : forall y v, build_punct_opt cm (x_punc x) = Ok (y, v) -> covers y v).
    { unfold build_punct_opt. intros y v E. destruct (x_punc x); minv; [|apply covers_nil].
      eapply covers_punct; eauto. }
    assert (H1 : forall y v, members_or_dangling bk m = Ok (y, v) -> covers y v).
    { unfold members_or_dangling. intros y v E. destruct (is_nil _); [eauto|]. minv. simpl.
      apply covers_one. intros c Hc. eapply covers_concat; [|exact Hc]. apply dangling_covers; assumption. }
    assert (H2 : forall y v, members_or_bracket b bk m = Ok (y, v) -> covers y v).
    { unfold members_or_bracket. intros y v E. destruct (is_nil _); [eauto|]. minv. simpl.
      unfold dangling_in_bracket_surround in *.
      destruct (handle_dangling_comments bk) as [ds0| |] eqn:E0; try discriminate.
      match goal with H : rbind _ _ = Ok _ |- _ => injection H as <- end.
      apply dangling_covers in E0. intros c Hc. exists (indent b (concat ds0)). simpl. split; [auto|].
      apply W_indent. eapply covers_concat; eauto. }
    destruct h; try (eapply seqM_covers; [eassumption|]; repeat (constructor; [assumption|]); constructor).
    destruct (is_nil (dangling bk)); [eauto|]. minv. apply covers_nil.
  Qed.

  Lemma within_intersperse ds sep d : In d ds -> within d (intersperse ds sep).
  Proof.
    intro H. destruct ds as [|x ds]; [destruct H|]. simpl. destruct H as [<-|H].
    - eapply W_concat; [left; reflexivity|constructor].
    - eapply W_concat; [right|constructor]. induction ds as [|y ds IH]; simpl in *; [tauto|].
      rewrite in_app_iff. simpl. intuition.
  Qed.
  Lemma covers_intersperse ds sep w : covers ds w -> covers [intersperse ds sep] w.
  Proof.
    intro H. eapply covers_incl; [exact H|]. intros d Hd. exists (intersperse ds sep).
    simpl; split; [auto|]. apply within_intersperse; exact Hd.
  Qed.
  Lemma in_members ms d tr : In (d, tr) ms -> In d (intersperse_members ms).
  Proof.
    induction ms as [|[e t] ms IH]; simpl; [tauto|]. destruct ms as [|m ms].
    - intros [H|[]]. injection H as -> _. simpl; auto.
    - intros [H|H]; [injection H as -> _; simpl; auto|]. simpl. right. right. apply IH. exact H.
  Qed.
  Lemma covers_members ms w : covers (map fst ms) w -> covers [intersperse_body_members ms] w.
  Proof.
    intros H. eapply covers_incl; [exact H|]. intros d Hd. apply in_map_iff in Hd as ([e tr] & <- & Hin).
    exists (intersperse_body_members ms). simpl; split; [auto|].
    unfold intersperse_body_members. destruct ms as [|m ms]; [destruct Hin|].
    eapply W_concat; [eapply in_members; exact Hin|constructor].
  Qed.

  Lemma run_marks t : forall d w, run cm b t = Ok (d, w) -> covers [d] w.
  Proof.
    assert (HL : forall l, Forall (fun t => forall d w, run cm b t = Ok (d, w) -> covers [d] w) l ->
                 forall ds w, mapM (run cm b) l = Ok (ds, w) -> covers ds w).
    { intros l Hl ds w H. eapply mapM_covers; eauto. }
    assert (HLm : forall ms, Forall (fun m => forall d w, run cm b (fst m) = Ok (d, w) -> covers [d] w) ms ->
                  forall l w,
                  mapM (fun m : dt * bool => let (x, tr) := m in mmap (fun d => (d, tr)) (run cm b x)) ms = Ok (l, w) ->
                  covers (map fst l) w).
    { induction 1 as [|[x tr] ms Hx Hms IH]; intros l w H; simpl in H; minv; [apply covers_nil|].
      rewrite app_nil_r. simpl. match goal with |- covers (?y :: ?ys) _ => change (y :: ys) with ([y] ++ ys) end.
      apply covers_app; eauto. }
    assert (HI : forall d d' w, covers [d] w -> within d d' -> covers [d'] w).
    { intros d d' w H Hw. eapply covers_incl; [exact H|]. intros e [<-|[]]. exists d'; simpl; auto. }
    induction t using dt_nested_ind; intros d w E; cbn [run] in E; minv; try apply covers_nil.
    - apply covers_one. intros. eapply covers_concat; eauto.
    - eapply HI; [eauto|]. apply W_indent; constructor.
    - eapply HI; [eauto|]. apply W_dedent; constructor.
    - eapply HI; [eauto|]. apply within_group; constructor.
    - apply covers_intersperse. eauto.
    - rewrite app_nil_r. match goal with H : surround _ ?ds _ _ _ = _ |- _ => assert (HC : covers ds x0) by eauto; rename H into ES end.
      unfold surround in ES. destruct x as [|d0 ds].
      + intros z Hz. destruct (HC z Hz) as (? & [] & _).
      + injection ES as <-. eapply HI; [exact (covers_intersperse (d0 :: ds) (tins_ins s) _ HC)|].
        apply (within_trans _ (indent b (intersperse (d0 :: ds) (tins_ins s)))); [apply W_indent; constructor|].
        eapply W_concat; [|constructor]. rewrite !in_app_iff. right; right; right. left. simpl; auto.
    - apply covers_members. eauto.
    - assert (HC : covers (map fst x) w) by eauto. unfold surround_body_members.
      destruct x as [|m ms0].
      + intros z Hz. destruct (HC z Hz) as (? & [] & _).
      + eapply HI; [apply covers_members; exact HC|].
        apply (within_trans _ (indent b (intersperse_body_members (m :: ms0)))); [apply W_indent; constructor|].
        eapply W_concat; [|constructor]. simpl; auto.
    - apply covers_one. intros c Hc. eapply covers_concat; [|exact Hc].
      eapply seqM_covers; [eassumption|].
      constructor; [intros y v E; eapply covers_node; [|exact E]; apply HL; assumption|].
      constructor; [apply HL; assumption|constructor].
    - eapply covers_punct; eauto.
    - discriminate.
  Qed.

  Lemma run_marks_within t d w c : run cm b t = Ok (d, w) -> In c w -> within (comment_doc c) d.
  Proof.
    intros H Hc. destruct (run_marks t d w H c Hc) as (d' & [<-|[]] & Hw). exact Hw.
  Qed.

  (* Marked comments come from the map. *)
  Definition from_map (w : list comment) : Prop :=
    forall c, In c w -> exists id bk, cm_get id cm = Some bk /\ In c (pre bk ++ post bk ++ dangling bk).
  Lemma from_map_app v w : from_map v -> from_map w -> from_map (v ++ w).
  Proof. intros H1 H2 c Hc. apply in_app_iff in Hc as [Hc|Hc]; auto. Qed.
  Lemma from_map_nil : from_map [].
  Proof. intros c []. Qed.
  Lemma mapM_from {A B} (f : A -> M B) l :
    Forall (fun x => forall y w, f x = Ok (y, w) -> from_map w) l ->
    forall ys w, mapM f l = Ok (ys, w) -> from_map w.
  Proof.
    induction 1 as [|x l Hx Hl IH]; intros ys w H; simpl in H; minv; [apply from_map_nil|].
    rewrite app_nil_r. apply from_map_app; eauto.
  Qed.
  Lemma from_punct p d w : build_punct cm p = Ok (d, w) -> from_map w.
  Proof.
    destruct p as [comma id]. unfold build_punct. intro H. minv. intros c Hc.
    match goal with H : get_comment_bucket _ _ = Ok ?bk |- _ => apply bucket_get in H; exists id, bk end.
    split; [assumption|]. rewrite !in_app_iff. simpl in Hc. apply in_app_iff in Hc. tauto.
  Qed.
  Lemma from_node h x m ds w :
    (forall ds w, m = Ok (ds, w) -> from_map w) ->
    build_node cm b h x m = Ok (ds, w) -> from_map w.
  Proof.
    intros Hm H. unfold build_node in H. minv.
    match goal with H : get_comment_bucket _ _ = Ok ?k |- _ => apply bucket_get in H; rename k into bk; rename H into Hbk end.
    simpl.
    assert (HF : forall v, incl v (pre bk ++ post bk ++ dangling bk) -> from_map v).
    { intros v Hv c Hc. exists (x_id x), bk. auto. }
    assert (Hpre : forall y v, pre_docs bk = Ok (y, v) -> from_map v).
    { unfold pre_docs. intros y v E. minv. apply HF. apply incl_appl, incl_refl. }
    assert (Hpost : forall y v, post_docs bk = Ok (y, v) -> from_map v).
    { unfold post_docs. intros y v E. destruct (is_nil _); minv; [|apply from_map_nil].
      apply HF. apply incl_appr, incl_appl, incl_refl. }
    assert (Hp : forall y v, build_punct_opt cm (x_punc x) = Ok (y, v) -> from_map v).
    { unfold build_punct_opt. intros y v E. destruct (x_punc x); minv; [|apply from_map_nil].
      eapply from_punct; eauto. }
    assert (H1 : forall y v, members_or_dangling bk m = Ok (y, v) -> from_map v).
    { unfold members_or_dangling. intros y v E. destruct (is_nil _); [eauto|]. minv. simpl.
      apply HF. apply incl_appr, incl_appr, incl_refl. }
    assert (H2 : forall y v, members_or_bracket b bk m = Ok (y, v) -> from_map v).
    { unfold members_or_bracket. intros y v E. destruct (is_nil _); [eauto|]. minv. simpl.
      apply HF. apply incl_appr, incl_appr, incl_refl. }
    assert (HS : forall l ds w, seqM l = Ok (ds, w) ->
       Forall (fun m : M (list doc) => forall y v, m = Ok (y, v) -> from_map v) l -> from_map w).
    { intros l ds0 w0 E HF0. apply seqM_ok in E as (dss & E & _). eapply mapM_from; [|exact E]. exact HF0. }
    destruct h; try (eapply HS; [eassumption|]; repeat (constructor; [assumption|]); constructor).
    destruct (is_nil (dangling bk)); [eauto|]. minv. apply from_map_nil.
  Qed.
  Lemma run_marks_from t : forall d w, run cm b t = Ok (d, w) -> from_map w.
  Proof.
    assert (HLm : forall ms, Forall (fun m => forall d w, run cm b (fst m) = Ok (d, w) -> from_map w) ms ->
                  forall l w,
                  mapM (fun m : dt * bool => let (x, tr) := m in mmap (fun d => (d, tr)) (run cm b x)) ms = Ok (l, w) ->
                  from_map w).
    { intros ms Hms. apply mapM_from. eapply Forall_impl; [|exact Hms].
      intros [x tr] Hx y w E. minv. simpl in Hx. eauto. }
    assert (HL : forall l, Forall (fun t => forall d w, run cm b t = Ok (d, w) -> from_map w) l ->
                 forall ds w, mapM (run cm b) l = Ok (ds, w) -> from_map w).
    { intros l Hl ds w E. eapply mapM_from; [|exact E]. exact Hl. }
    induction t using dt_nested_ind; intros d w E; cbn [run] in E; minv; try apply from_map_nil; eauto.
    - rewrite app_nil_r. eauto.
    - match goal with H : seqM _ = _ |- _ => apply seqM_ok in H as (dss & H & _); simpl in H; minv end.
      match goal with H : Ok _ = Ok _ |- _ => injection H as <- <- end.
      rewrite !app_nil_r. apply from_map_app; [|eapply HL; [|eassumption]; assumption].
      eapply from_node; [|eassumption]. apply HL; assumption.
    - eapply from_punct; eassumption.
    - discriminate.
  Qed.
End Marks.
