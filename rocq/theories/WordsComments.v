(* WordsComments.v: comments neither join nor split words. *)
From Coq Require Import Lia Permutation.
From Verif Require Import Base Doc DocBuilder SpecDoc DocProofs Cst Comments Term New Formatter SpecTree SpecRead SpecComments SpecText SpecLexed
  TermProofs TermProofs2 FormatProofs CollectProofs2 SpecWords SpecTokens SpecArrange BitsProofs TokensProofs TokensProofs5
  WordsProofs WordsTerm WordsSorts WordsFormat SeqTerm SeqComments ArrangeFormat ArrangeOnce.
From Verif Require TokensComments ArrangeText TextProofs TextProofs2 TextProofs3 TextProofs4 CliProofs.
Local Open Scope string_scope.
Local Open Scope list_scope.

(* ------------------------------------------------------------ the texts of a sequence *)

Definition pt (p : piece) : list ustr := match p with PT s => [s] | PB | PF | PS => gap | PN _ | PY | PG => [] end.
Definition pts (l : list piece) : list ustr := flat_map pt l.
Lemma pts_app a b : pts (a ++ b) = pts a ++ pts b.
Proof. apply flat_map_app. Qed.
Lemma tight_pts d : tight d = pts (dseq d).
Proof.
  induction d using doc_nested_ind; cbn [tight dseq]; try reflexivity; try assumption.
  induction H as [|x l Hx Hl IH]; [reflexivity|]. cbn [flat_map]. rewrite pts_app, Hx, IH. reflexivity.
Qed.

(* [bounded a b]: wherever the texts [a] can stand, the texts [b] can stand. *)
Definition bounded (a b : list ustr) : Prop :=
  forall e e', leb e' e -> firm e a = true -> firm e' b = true /\ leb (after e' b) (after e a).
Definition sealed (b : list ustr) : Prop := forall e, firm e b = true /\ after e b = false.
Lemma bounded_refl a : bounded a a.
Proof. intros e e' L F. split; [eapply firm_mono; eassumption|apply after_mono, L]. Qed.
Lemma bounded_app a b c d : bounded a b -> bounded c d -> bounded (a ++ c) (b ++ d).
Proof.
  intros H1 H2 e e' L F. rewrite firm_app in F. apply andb_prop in F as [F1 F2]. destruct (H1 e e' L F1) as [G1 L1].
  destruct (H2 _ _ L1 F2) as [G2 L2]. rewrite firm_app, G1, !after_app. split; [exact G2|exact L2].
Qed.
Lemma sealed_bounded a b : sealed b -> bounded a b.
Proof. intros H e e' L F. destruct (H e') as [H1 H2]. rewrite H1, H2. split; [reflexivity|apply leb_false]. Qed.
(* Nothing, or something that cannot touch its neighbours. *)
Definition quiet (b : list ustr) : Prop := b = [] \/ sealed b.
Lemma quiet_bounded b : quiet b -> bounded [] b.
Proof. intros [->|H]; [apply bounded_refl|apply sealed_bounded, H]. Qed.
Lemma sealed_app a b : sealed a -> quiet b -> sealed (a ++ b).
Proof.
  intros H [->|H2]; [rewrite app_nil_r; exact H|]. intro e. destruct (H e) as [F A]. rewrite firm_app, after_app, F, A. apply H2.
Qed.
Lemma sealed_before a b : firm false a = true -> sealed b -> (forall e, firm e a = true) -> sealed (a ++ b).
Proof. intros _ H F e. rewrite firm_app, after_app, F. apply H. Qed.
Lemma quiet_app a b : quiet a -> quiet b -> quiet (a ++ b).
Proof. intros [->|H] Hb; [exact Hb|right; apply sealed_app; assumption]. Qed.
Lemma quiet_flat {A} (f : A -> list ustr) l : Forall (fun x => quiet (f x)) l -> quiet (flat_map f l).
Proof. induction 1; [left; reflexivity|]. cbn [flat_map]. apply quiet_app; assumption. Qed.
Lemma gap_sealed : sealed gap.
Proof. intro e. split; [cbn; rewrite Bool.andb_false_r|]; reflexivity. Qed.
Lemma sealed_cons_gap b : sealed b -> sealed (gap ++ b).
Proof. intro H. apply sealed_app; [apply gap_sealed|right; exact H]. Qed.
Lemma bounded_in a p b q : quiet p -> bounded a b -> quiet q -> bounded a (p ++ b ++ q).
Proof.
  intros P B Q. change a with ([] ++ a). apply bounded_app; [apply quiet_bounded, P|].
  rewrite <- (app_nil_r a). apply bounded_app; [exact B|apply quiet_bounded, Q].
Qed.

(* ------------------------------------------------------------ one comment *)

Lemma lines_firm ls : forall e, (e = true -> starts_word (hd [] ls) = false) -> firm e (flat_map tight (line_docs ls)) = true.
Proof.
  assert (G : forall l e r, (e = true -> starts_word l = false) -> (forall e, firm e r = true) -> firm e (l :: r) = true).
  { intros [|c l] e r H F; [apply F|]. cbn [firm]. rewrite F. destruct e; [rewrite (H eq_refl)|]; reflexivity. }
  induction ls as [|l [|m ls] IH]; intros e H; [reflexivity| |].
  - cbn. apply (G l e []); [exact H|reflexivity].
  - change (line_docs (l :: m :: ls)) with (txt l :: nl :: line_docs (m :: ls)). cbn [flat_map]. change (tight (txt l)) with [l]. change (tight nl) with gap.
    cbn [app]. apply G; [exact H|]. intro e'. rewrite firm_app. rewrite (proj1 (gap_sealed e')), (proj2 (gap_sealed e')). apply IH. discriminate.
Qed.
Lemma lines_after ls : forall e, ls <> [] -> (e = true -> hd [] ls <> []) -> ends_word (last ls []) = false ->
  after e (flat_map tight (line_docs ls)) = false.
Proof.
  induction ls as [|l [|m ls] IH]; intros e N H W; [congruence| |].
  - cbn in *. destruct l as [|c l]; [destruct e; [exfalso; apply H; reflexivity|reflexivity]|exact W].
  - change (line_docs (l :: m :: ls)) with (txt l :: nl :: line_docs (m :: ls)). cbn [flat_map]. change (tight (txt l)) with [l]. change (tight nl) with gap.
    rewrite !after_app, (proj2 (gap_sealed _)). apply IH; [discriminate|discriminate|exact W].
Qed.
Definition shut (c : comment) : Prop := sealed (tight (comment_doc c)).
Lemma split_first x s : x <> c_nl -> exists p ps, split_on c_nl (x :: s) = (x :: p) :: ps.
Proof.
  intro H. cbn [split_on]. destruct (split_on c_nl s) as [|p ps]; [exists [], []; reflexivity|].
  destruct (N.eqb x c_nl) eqn:E; [apply N.eqb_eq in E; congruence|eauto].
Qed.
Lemma split_last s x : x <> c_nl -> exists qs q, split_on c_nl (s ++ [x]) = qs ++ [q ++ [x]].
Proof.
  intro H. induction s as [|y s IH].
  - exists [], []. cbn. destruct (N.eqb x c_nl) eqn:E; [apply N.eqb_eq in E; congruence|reflexivity].
  - destruct IH as (qs & q & IH). cbn [app split_on]. rewrite IH. destruct qs as [|p qs]; cbn [app].
    + destruct (N.eqb y c_nl); [exists [[]], q|exists [], (y :: q)]; reflexivity.
    + destruct (N.eqb y c_nl); [exists ([] :: p :: qs), q|exists ((y :: p) :: qs), q]; reflexivity.
Qed.
(* Comments as the parser finds them. *)
Lemma shut_of left n right c :
  (if has_kind "line_comment" n then starts_with (U "//") (n_text n) = true else one_block_comment (n_text n)) ->
  comment_of left n right = Ok c -> shut c.
Proof.
  intros F H e. unfold comment_doc, concat. change (tight (Concat (comment_docs c))) with (flat_map tight (comment_docs c)).
  rewrite comment_docs_lines, (comment_of_line _ _ _ _ H), (comment_of_value _ _ _ _ H), flat_map_app, firm_app, after_app.
  destruct (has_kind "line_comment" n).
  - assert (V : exists r, trim_end (n_text n) = 47%N :: r).
    { destruct (slash_first _ (or_introl F)) as (r & ->). apply slash_trim_end. }
    destruct V as (r & V). unfold normal_lines. rewrite V. change (flat_map tight [nl]) with gap.
    rewrite (proj1 (gap_sealed _)), (proj2 (gap_sealed _)), lines_firm; [split; reflexivity|]. intros _. reflexivity.
  - cbn [flat_map firm after]. rewrite Bool.andb_true_r. destruct (TextProofs4.one_block_trim _ F) as [-> _].
    destruct F as (m & E & _).
    assert (G : exists a ls z, normal_lines false (n_text n) = (47%N :: a) :: ls /\ ends_word (last (normal_lines false (n_text n)) []) = z /\ z = false).
    { destruct (starts_with (U "/**") (n_text n)) eqn:J.
      - destruct (TextProofs2.javadoc_form _ J) as [->|(xs & -> & _)]; [exists [42%N; 42%N], [], false; repeat split|].
        exists [42%N; 42%N], (map starred xs ++ [TextProofs2.end_mark]), false. split; [reflexivity|]. split; [|reflexivity].
        rewrite app_comm_cons, last_last. reflexivity.
      - unfold normal_lines. rewrite J. destruct (split_first 47%N (42%N :: m ++ U "*/")) as (p & ps & S1); [discriminate|].
        destruct (split_last (U "/*" ++ m ++ [42%N]) 47%N) as (qs & q & S2); [discriminate|].
        assert (E1 : n_text n = 47%N :: 42%N :: m ++ U "*/") by exact E.
        assert (E2 : n_text n = (U "/*" ++ m ++ [42%N]) ++ [47%N]) by (rewrite E, <- !app_assoc; reflexivity).
        assert (T1 : trim (47%N :: p) = trim_end (47%N :: p)) by reflexivity. destruct (slash_trim_end p) as (p' & T2).
        exists p', (map trim ps), false. rewrite E1 at 1. rewrite S1. cbn [map]. rewrite T1, T2. split; [reflexivity|]. split; [|reflexivity].
        rewrite E2, S2, map_app. cbn [map]. rewrite last_last.
        assert (T3 : exists q', trim (q ++ [47%N]) = q' ++ [47%N]).
        { unfold trim. clear. induction q as [|x q IH]; [exists []; reflexivity|]. cbn [app trim_start]. destruct (is_ws x); [exact IH|].
          exists (x :: q). apply (TextProofs.trim_end_app_last (x :: q) 47%N). reflexivity. }
        destruct T3 as (q' & ->). unfold ends_word. rewrite rev_app_distr. reflexivity. }
    destruct G as (a & ls & z & G1 & G2 & G3). rewrite G3 in G2. split.
    + apply lines_firm. intros _. rewrite G1. reflexivity.
    + apply lines_after; [rewrite G1; discriminate| |exact G2]. intros _. rewrite G1. discriminate.
Qed.

(* ------------------------------------------------------------ the comments at a node *)

Section Shut.
  Variable cm : cmap.
  Hypothesis Hs : forall id, Forall shut (pre (bkt cm id)) /\ Forall shut (post (bkt cm id)) /\ Forall shut (dangling (bkt cm id)).

  Lemma space_quiet (b : bool) : quiet (flat_map tight (if b then [txt [c_sp]] else [])).
  Proof. destruct b; [right; exact gap_sealed|left; reflexivity]. Qed.
  Lemma tight_docs ds : pts (flat_map dseq ds) = flat_map tight ds.
  Proof. induction ds as [|d ds IH]; [reflexivity|]. cbn [flat_map]. rewrite pts_app, IH, tight_pts. reflexivity. Qed.
  Lemma pre_shut first lst c : shut c -> sealed (flat_map tight (pre_comment_docs first lst c)).
  Proof.
    intro H. unfold pre_comment_docs. rewrite !flat_map_app.
    assert (Q1 : quiet (flat_map tight (if c_leading c then [txt [c_sp]] else force_break :: (if first then [] else [if c_above c then empty_new_line else nl])))).
    { destruct (c_leading c); [right; exact gap_sealed|]. destruct first; [left; reflexivity|]. right. destruct (c_above c); [exact (sealed_cons_gap _ gap_sealed)|exact gap_sealed]. }
    assert (Q2 : quiet (flat_map tight (if c_trailing c then [txt [c_sp]] else if lst then [if c_below c then empty_new_line else nl] else []))).
    { destruct (c_trailing c); [right; exact gap_sealed|]. destruct lst; [|left; reflexivity]. right. destruct (c_below c); [exact (sealed_cons_gap _ gap_sealed)|exact gap_sealed]. }
    assert (Q3 : sealed (flat_map tight [comment_doc c] ++ flat_map tight (if c_trailing c then [txt [c_sp]] else if lst then [if c_below c then empty_new_line else nl] else []))).
    { apply sealed_app; [cbn [flat_map]; rewrite app_nil_r; exact H|exact Q2]. }
    destruct Q1 as [->|Q1]; [exact Q3|]. apply sealed_app; [exact Q1|right; exact Q3].
  Qed.
  Lemma post_shut c : shut c -> sealed (flat_map tight (post_comment_docs c)).
  Proof.
    intro H. unfold post_comment_docs. rewrite !flat_map_app.
    assert (Q1 : sealed (flat_map tight (if c_leading c then [txt [c_sp]] else if c_above c then [empty_new_line] else [nl]))).
    { destruct (c_leading c); [exact gap_sealed|]. destruct (c_above c); [exact (sealed_cons_gap _ gap_sealed)|exact gap_sealed]. }
    apply sealed_app; [exact Q1|right]. apply sealed_app; [cbn [flat_map]; rewrite app_nil_r; exact H|apply space_quiet].
  Qed.
  Lemma dangling_shut c : shut c -> sealed (flat_map tight (dangling_comment_docs c)).
  Proof.
    intro H. unfold dangling_comment_docs. rewrite !flat_map_app.
    assert (Q1 : quiet (flat_map tight (if c_leading c then [txt [c_sp]] else if c_above c then [empty_new_line] else if c_prev c then [nl] else []))).
    { destruct (c_leading c); [right; exact gap_sealed|]. destruct (c_above c); [right; exact (sealed_cons_gap _ gap_sealed)|].
      destruct (c_prev c); [right; exact gap_sealed|left; reflexivity]. }
    assert (Q2 : sealed (flat_map tight [comment_doc c])) by (cbn [flat_map]; rewrite app_nil_r; exact H).
    destruct Q1 as [->|Q1]; [exact Q2|]. apply sealed_app; [exact Q1|right; exact Q2].
  Qed.
  Lemma flat_docs {A} (f : A -> list doc) l : flat_map tight (flat_map f l) = flat_map (fun x => flat_map tight (f x)) l.
  Proof. induction l as [|x l IH]; [reflexivity|]. cbn [flat_map]. rewrite flat_map_app, IH. reflexivity. Qed.
  Lemma posts_quiet l : Forall shut l -> quiet (flat_map tight (flat_map post_comment_docs l)).
  Proof. intro H. rewrite flat_docs. apply quiet_flat. eapply Forall_impl; [|exact H]. intros c Hc. right. apply post_shut, Hc. Qed.
  Lemma cpre_quiet id : quiet (pts (cpre (bkt cm id))).
  Proof.
    unfold cpre, handle_pre_comments. rewrite tight_docs. destruct (Hs id) as (H & _). destruct (pre (bkt cm id)) as [|c l]; [left; reflexivity|].
    cbn [flat_map]. rewrite app_nil_r. unfold concat. change (tight (Concat ?x)) with (flat_map tight x).
    generalize true. revert H. generalize (c :: l). clear. induction l as [|x l IH]; intros H f; [left; reflexivity|]. inversion H; subst.
    cbn [pre_comments_docs]. rewrite flat_map_app. apply quiet_app; [right; apply pre_shut; assumption|apply IH; assumption].
  Qed.
  Lemma cpost_quiet id : quiet (pts (cpost (bkt cm id))).
  Proof.
    unfold cpost, handle_post_comments. destruct (is_nil _); [|left; reflexivity]. rewrite tight_docs. destruct (Hs id) as (_ & H & _).
    destruct (post (bkt cm id)) as [|c l]; [left; reflexivity|].
    cbn [flat_map]. rewrite app_nil_r. unfold concat. change (tight (Concat ?x)) with (flat_map tight x). apply (posts_quiet (c :: l)), H.
  Qed.
  Lemma cdangling_sealed id : dangling (bkt cm id) <> [] -> sealed (pts (cdangling (bkt cm id))).
  Proof.
    unfold cdangling. rewrite tight_docs, flat_docs. destruct (Hs id) as (_ & _ & H). destruct (dangling (bkt cm id)) as [|c l]; [congruence|]. intros _.
    inversion H; subst. cbn [flat_map]. apply sealed_app; [apply dangling_shut; assumption|]. apply quiet_flat. eapply Forall_impl; [|eassumption].
    intros x Hx. right. apply dangling_shut, Hx.
  Qed.
  Lemma sign_sealed (x : bool) : sealed [U (if x then "," else ";")].
  Proof. intro e. destruct x; cbn; rewrite Bool.andb_false_r; split; reflexivity. Qed.
  Lemma csign_sealed p : sealed (pts (csign cm p)).
  Proof.
    destruct p as [x id]. unfold csign, punct_docs. rewrite tight_docs, !flat_map_app. destruct (Hs id) as (H1 & H2 & _).
    assert (Q : forall f, Forall shut (filter f (pre (bkt cm id)))) by (intro f; apply Forall_forall; intros c Hc; apply filter_In in Hc as [Hc _]; rewrite Forall_forall in H1; apply H1, Hc).
    assert (Z : sealed (flat_map tight [txt (U (if x then "," else ";"))] ++ flat_map tight (flat_map post_comment_docs (filter c_line (pre (bkt cm id)))) ++ flat_map tight (flat_map post_comment_docs (post (bkt cm id))))).
    { apply sealed_app; [apply sign_sealed|]. apply quiet_app; [apply posts_quiet, Q|apply posts_quiet, H2]. }
    destruct (posts_quiet _ (Q (fun c => negb (c_line c)))) as [->|P].
    - exact Z.
    - apply sealed_app; [exact P|right; exact Z].
  Qed.
  Lemma csign_opt_bounded o : bounded (match o with Some p => sign_piece p | None => [] end) (pts (csign_opt cm o)).
  Proof. destruct o as [p|]; [apply sealed_bounded, csign_sealed|apply bounded_refl]. Qed.
  Lemma cbody_bounded id a b : bounded a (pts b) -> bounded a (pts (cbody (bkt cm id) b)).
  Proof.
    unfold cbody. pose proof (cdangling_sealed id) as D. destruct (dangling (bkt cm id)) eqn:E; cbn [is_nil]; [exact (fun H => H)|]. intros _.
    apply sealed_bounded, D. discriminate.
  Qed.
  Lemma cbraces_bounded id a b : bounded a (pts b) -> bounded a (pts (cbraces (bkt cm id) b)).
  Proof.
    unfold cbraces. pose proof (cdangling_sealed id) as D. destruct (dangling (bkt cm id)) eqn:E; cbn [is_nil]; [exact (fun H => H)|]. intros _.
    apply sealed_bounded. rewrite !pts_app.
    assert (Q1 : sealed (pts [PT (U "{"); PB])) by (intro e; cbn; rewrite Bool.andb_false_r; split; reflexivity).
    assert (Q2 : sealed (pts [PB; PT (U "}")])) by (intro e; cbn; rewrite Bool.andb_false_r; split; reflexivity).
    apply sealed_app; [exact Q1|right]. apply sealed_app; [apply D; discriminate|right; exact Q2].
  Qed.
  Lemma root_bounded id a b : bounded a (pts b) ->
    bounded a (pts (if is_nil (dangling (bkt cm id)) then b else flat_map dseq (map comment_doc (dangling (bkt cm id))))).
  Proof.
    destruct (Hs id) as (_ & _ & H). destruct (dangling (bkt cm id)) as [|c l] eqn:E; cbn [is_nil]; [exact (fun H => H)|]. intros _.
    apply sealed_bounded. rewrite tight_docs. inversion H; subst. cbn [map flat_map]. apply sealed_app; [assumption|].
    rewrite flat_map_concat_map, map_map, <- flat_map_concat_map. apply quiet_flat. eapply Forall_impl; [|eassumption]. intros x Hx. right. exact Hx.
  Qed.
  Lemma node_bounded h x a b : bounded a (pts b) ->
    bounded (a ++ (if prints_punct h then match x_punc x with Some p => sign_piece p | None => [] end else [])) (pts (node_cseq cm h x b)).
  Proof.
    intro H. pose proof (cpre_quiet (x_id x)) as P. pose proof (cpost_quiet (x_id x)) as Q. pose proof (csign_opt_bounded (x_punc x)) as G.
    unfold node_cseq. destruct h; cbn [prints_punct]; rewrite ?app_nil_r, ?pts_app.
    - apply bounded_in; [exact P|apply cbody_bounded, H|exact Q].
    - change a with ([] ++ a). rewrite <- app_assoc. apply bounded_app; [apply quiet_bounded, P|]. apply bounded_app; [apply cbody_bounded, H|].
      change (match x_punc x with Some p => sign_piece p | None => [] end) with ([] ++ match x_punc x with Some p => sign_piece p | None => [] end).
      apply bounded_app; [apply quiet_bounded, Q|exact G].
    - change a with ([] ++ a). rewrite <- app_assoc. apply bounded_app; [apply quiet_bounded, P|]. apply bounded_app; [apply cbody_bounded, H|].
      rewrite <- (app_nil_r (match x_punc x with Some p => sign_piece p | None => [] end)).
      apply bounded_app; [exact G|apply quiet_bounded, Q].
    - apply bounded_in; [exact P|apply cbraces_bounded, H|exact Q].
    - change a with ([] ++ a). apply bounded_app; [apply quiet_bounded, P|apply cbraces_bounded, H].
    - apply root_bounded, H.
  Qed.

  (* ---------------------------------------------------------- terms *)

  Lemma pts_leaf l : pts (leaf_seq l) = leaf_texts l.
  Proof. destruct l; reflexivity. Qed.
  Lemma pts_opt o : pts (opt_seq o) = opt_texts o.
  Proof. destruct o; [apply pts_leaf|reflexivity]. Qed.
  Lemma pts_str i : pts (str_seq i) = str_piece i.
  Proof. unfold str_seq, str_piece. destruct (t_str i); reflexivity. Qed.
  Lemma pts_ins i : pts (ins_seq i) = ins_texts i.
  Proof. unfold ins_seq, ins_texts. rewrite !pts_app, !pts_opt, pts_str. reflexivity. Qed.
  Definition holds (t : dt) : Prop := bounded (texts t) (pts (cseq cm t)).
  Lemma bounded_flat l : Forall holds l -> bounded (flat_map texts l) (pts (flat_map (cseq cm) l)).
  Proof. induction 1; [apply bounded_refl|]. cbn [flat_map]. rewrite pts_app. apply bounded_app; assumption. Qed.
  Lemma bounded_strung s l : Forall holds l -> bounded (strung (ins_texts s) (map texts l)) (pts (strung_seq (ins_seq s) (map (cseq cm) l))).
  Proof.
    intro H. destruct H as [|x l Hx Hl]; [apply bounded_refl|]. cbn [map strung strung_seq].
    unfold joined. rewrite pts_app. apply bounded_app; [exact Hx|].
    induction Hl as [|y l Hy Hl IH]; cbn [map flat_map]; [apply bounded_refl|].
    rewrite !pts_app, pts_ins. apply bounded_app; [|exact IH]. apply bounded_app; [apply bounded_refl|exact Hy].
  Qed.
  Definition mtexts (ms : list (dt * bool)) := member_texts (map (fun m : dt * bool => let (x, tr) := m in (texts x, tr)) ms).
  Lemma bounded_members ms : Forall (fun m => holds (fst m)) ms -> bounded (mtexts ms) (pts (cmseq cm ms)).
  Proof.
    unfold mtexts, cmseq. induction 1 as [|[x tr] ms Hx Hl IH]; [apply bounded_refl|]. cbn [map member_texts member_seq].
    destruct Hl as [|[y tr'] ms Hy Hl]; [exact Hx|]. cbn [map] in *. rewrite !pts_app. apply bounded_app; [exact Hx|]. apply bounded_app; [|exact IH].
    destruct tr; apply bounded_refl.
  Qed.
  Lemma cseq_bounded t : holds t.
  Proof.
    induction t using dt_nested_ind; unfold holds; cbn [texts cseq].
    - apply bounded_refl.
    - rewrite pts_leaf. apply bounded_refl.
    - apply bounded_refl.
    - apply bounded_flat; assumption.
    - assumption.
    - assumption.
    - assumption.
    - apply bounded_strung; assumption.
    - destruct l as [|x l]; [rewrite pts_app, !pts_str; apply bounded_refl|]. rewrite !pts_app, !pts_ins.
      apply bounded_app; [apply bounded_refl|]. apply bounded_app; [apply (bounded_strung _ (x :: l)); assumption|apply bounded_refl].
    - apply bounded_members; assumption.
    - rewrite !pts_app. change ([o] ++ gap ++ ?z) with (([o] ++ gap) ++ z). apply bounded_app; [apply bounded_refl|].
      apply bounded_app; [|apply bounded_refl]. destruct ms as [|m ms]; [apply bounded_refl|]. rewrite pts_app.
      apply bounded_app; [apply (bounded_members (m :: ms)); assumption|apply bounded_refl].
    - rewrite pts_app, app_assoc. apply bounded_app; [apply node_bounded, bounded_flat; assumption|apply bounded_flat; assumption].
    - apply sealed_bounded, csign_sealed.
    - apply bounded_refl.
  Qed.
End Shut.

(* ------------------------------------------------------------ the whole formatter *)

Lemma lexed_visible root : lexed_comments root -> visible_comments root.
Proof.
  intros H n Hn X. specialize (H n Hn X). destruct (has_kind "line_comment" n); [left; exact H|right].
  apply (TextProofs4.one_block_trim _ H).
Qed.
Theorem format_comment_bits checked stack cfg root out :
  file_tree root -> distinct_ids root -> comments_in_braces root -> simple_places root -> lexed_comments root ->
  format_tree checked stack cfg root = Ok out ->
  exists order, bits out = flat_map (fun n => bits (n_text n)) (flat_map as_lines order) /\
    filter (fun n => negb (n_extra n)) order = leaves root /\ Permutation (filter n_extra order) (comments_of root).
Proof.
  intros S D B P L H. pose proof (TokensComments.file_code _ S) as Hr.
  destruct (format_arranged_doc _ _ _ _ _ S D B P (lexed_visible root L) H) as (cm & b & x & d & marks & E1 & E2 & E4 & -> & K & T & Q).
  exists (arrangement root cm). split; [|split; assumption].
  assert (SH : forall id p, Forall shut (held cm id p)).
  { intros id p. apply Forall_forall. intros c Hc. destruct (held_comment root cm D Hr E1 id p c Hc) as (a & Ha & Hof & _). apply filter_In in Ha as [Ha _].
    destruct (attached_in root a Ha) as [Hi Hx]. eapply shut_of; [exact (L _ Hi Hx)|exact Hof]. }
  assert (SB : forall id, Forall shut (pre (bkt cm id)) /\ Forall shut (post (bkt cm id)) /\ Forall shut (dangling (bkt cm id))).
  { intro id. pose proof (SH id Leading) as H1. pose proof (SH id Trailing) as H2. pose proof (SH id Dangling) as H3. unfold held in H1, H2, H3. unfold bkt.
    destruct (cm_get id cm); [auto|]. repeat split; constructor. }
  assert (HF : firm false (texts x) = true).
  { eapply (new_firm root cm checked stack (source_signs root S) Root (root_loc root) x); [|exact E2|].
    - split; [constructor|discriminate].
    - discriminate. }
  assert (HT : firm false (tight d) = true).
  { rewrite tight_pts, (run_cseq cm b x d marks E4). destruct (cseq_bounded cm SB x false false (leb_refl _) HF) as [F _]. exact F. }
  rewrite (pretty_print_bits d _ (run_grouped _ _ _ _ _ E4) HT), tight_words. apply kept_bits. exact K.
Qed.
Theorem format_comment_words checked stack cfg root out :
  file_tree root -> distinct_ids root -> comments_in_braces root -> simple_places root -> lexed_comments root ->
  format_tree checked stack cfg root = Ok out ->
  Permutation (bits out) (flat_map (fun n => bits (n_text n)) (leaves root) ++ flat_map bits (flat_map comment_lines (comments_of root))).
Proof.
  intros S D B P L H. destruct (format_comment_bits _ _ _ _ _ S D B P L H) as (order & -> & <- & Q).
  rewrite <- (ArrangeText.flat_map_perm bits _ _ (ArrangeText.flat_map_perm comment_lines _ _ Q)). clear.
  induction order as [|n l IH]; [constructor|]. cbn [flat_map filter]. rewrite flat_map_app. unfold as_lines at 1. destruct (n_extra n); cbn [negb flat_map].
  - rewrite IH, !flat_map_app, flat_map_concat_map, map_map, <- flat_map_concat_map.
    change (fun x => bits (n_text (line_token x))) with bits. rewrite !app_assoc. apply Permutation_app_tail, Permutation_app_comm.
  - rewrite app_nil_r, <- app_assoc. apply Permutation_app_head, IH.
Qed.
