(* Loud.v: comments at all places but the mute ones are printed. *)
From Coq Require Import Lia Permutation.
From Verif Require Import Base Doc DocProofs DocBuilder SpecDoc Cst Comments Term New Formatter SpecComments SpecTree SpecRead SpecSigns
  TermProofs CollectProofs CollectProofs2 TermProofs2 FormatProofs ReadProofs SignsProofs SpecWords SpecTokens SpecOrder SpecArrange SpecLoud BitsProofs
  TokensProofs TokensMarks TokensProofs2 TokensProofs3 TokensProofs4 TokensProofs5 TokensComments ArrangeRun ArrangeItems ArrangeGrammar ArrangeFormat
  ArrangeOnce ArrangeOrder SpecSupported ReadSafe3.
Local Open Scope string_scope.
Local Open Scope list_scope.

(* ------------------------------------------------------------ one place with comments *)

Definition here (id : N) (pl q : place) (i : N) : list ustr := if (i =? id)%N && place_eqb q pl then [U "x"] else [].
Definition slot (cm : cmap) (id : N) (pl : place) : dangles :=
  {| loose := false; dangle := hollow cm; n_pre := here id pl Leading; n_post := here id pl Trailing; n_in := here id pl Dangling; n_root := fun _ => [];
     p_pre := fun i => here id pl Leading i ++ here id pl Trailing i; p_post := fun _ => [] |}.
Lemma here_cases id pl q i : here id pl q i = [] \/ (i = id /\ q = pl).
Proof.
  unfold here. destruct (i =? id)%N eqn:E1; [|auto]. destruct (place_eqb q pl) eqn:E2; [|auto].
  right. split; [apply N.eqb_eq, E1|apply place_eqb_eq, E2].
Qed.

Section Marked.
  Variable cm : cmap.
  Variable b : pretty_config.
  Variable id : N.
  Variable pl : place.
  Variable c : comment.
  Hypothesis HH : In c (held cm id pl).
  Let yes : dangles := slot cm id pl.
  Let no : dangles := dangling_in cm.

  (* Whoever prints the place marks its comments. *)
  Lemma here_marked q i w : incl (held cm i q) w -> In c w \/ here id pl q i = [].
  Proof.
    intro Hi. destruct (here_cases id pl q i) as [E|[-> ->]]; [auto|]. left. apply Hi, HH.
  Qed.
  Lemma build_punct_marked p d w : build_punct cm p = Ok (d, w) -> In c w \/ @punct_piece yes p = @punct_piece no p.
  Proof.
    destruct p as [comma i]. unfold build_punct. intro H.
    apply mbind_ok in H as (bk & w1 & w2 & H1 & H2 & ->). apply lift_ok in H1 as [H1 ->].
    apply mark_ok in H2 as [-> ->]. destruct (bucket_held cm _ _ H1) as (E1 & E2 & _). cbn [app].
    destruct (here_marked Leading i (pre bk ++ post bk)) as [M|M]; [rewrite E1; intros x Hx; apply in_or_app; auto|auto|].
    destruct (here_marked Trailing i (pre bk ++ post bk)) as [M'|M']; [rewrite E2; intros x Hx; apply in_or_app; auto|auto|].
    right. cbn [punct_piece p_pre p_post yes no slot dangling_in]. rewrite M, M'. reflexivity.
  Qed.
  Lemma build_punct_opt_marked x ds w : build_punct_opt cm (x_punc x) = Ok (ds, w) -> In c w \/ @punc_piece yes x = @punc_piece no x.
  Proof.
    unfold punc_piece. destruct (x_punc x) as [p|]; simpl; intro H; [|auto].
    apply mmap_ok in H as (d & H & ->). exact (build_punct_marked p d w H).
  Qed.
  Lemma pre_docs_marked i bk ds w : get_comment_bucket cm i = Ok bk -> pre_docs bk = Ok (ds, w) -> In c w \/ here id pl Leading i = [].
  Proof.
    intros Hb H. apply mark_ok in H as [_ ->]. apply here_marked. destruct (bucket_held cm _ _ Hb) as (-> & _). apply incl_refl.
  Qed.
  Lemma post_docs_marked x bk ds w : get_comment_bucket cm (x_id x) = Ok bk -> post_docs bk = Ok (ds, w) ->
    In c w \/ @post_piece yes x = @post_piece no x.
  Proof.
    intros Hb H. destruct (bucket_held cm _ _ Hb) as (_ & E2 & _ & E). unfold post_piece.
    change (@dangle yes) with (hollow cm). change (@dangle no) with (hollow cm). change (hollow cm (x_id x) = negb (is_nil (dangling bk))) in E.
    change (@n_post yes) with (here id pl Trailing). change (@n_post no (x_id x)) with (@nil ustr). rewrite E. unfold post_docs in H. destruct (is_nil (dangling bk)); [|auto]. apply mark_ok in H as [_ ->]. cbn [negb].
    apply here_marked. rewrite E2. apply incl_refl.
  Qed.
  Lemma in_docs_marked h x bk (members : M (list doc)) p1 p2 ds w :
    get_comment_bucket cm (x_id x) = Ok bk -> h <> HRoot ->
    (forall ms v, members = Ok (ms, v) -> In c v \/ p1 = p2) ->
    match h with HBracket | HBracketNoPost => members_or_bracket b bk members | _ => members_or_dangling bk members end = Ok (ds, w) ->
    In c w \/ @node_piece yes h x p1 = @node_piece no h x p2.
  Proof.
    intros Hb Hh HM H. destruct (bucket_held cm _ _ Hb) as (_ & _ & E3 & E). unfold node_piece.
    change (@dangle yes) with (hollow cm). change (@dangle no) with (hollow cm). change (hollow cm (x_id x) = negb (is_nil (dangling bk))) in E.
    change (@n_in yes) with (here id pl Dangling). change (@n_in no (x_id x)) with (@nil ustr). rewrite E. destruct (is_nil (dangling bk)) eqn:N; cbn [negb].
    - apply (HM ds w). destruct h; try contradiction; unfold members_or_bracket, members_or_dangling in H; rewrite N in H; exact H.
    - destruct (here_marked Dangling (x_id x) (dangling bk)) as [Q|Q]; [rewrite E3; apply incl_refl| |right; rewrite Q; reflexivity]. left.
      destruct h; try contradiction; unfold members_or_bracket, members_or_dangling in H; rewrite N in H;
        apply mbind_ok in H as (d0 & w1 & w2 & H1 & H2 & ->); apply lift_ok in H1 as [H1 ->]; apply mark_ok in H2 as [_ ->]; exact Q.
  Qed.
  Lemma build_node_marked h x (members : M (list doc)) p1 p2 ds w :
    (forall ms v, members = Ok (ms, v) -> In c v \/ p1 = p2) ->
    build_node cm b h x members = Ok (ds, w) ->
    In c w \/ @pre_piece yes h x ++ @node_piece yes h x p1 ++ @end_piece yes h x = @pre_piece no h x ++ @node_piece no h x p2 ++ @end_piece no h x.
  Proof.
    intros HM H. unfold build_node in H. apply mbind_ok in H as (bk & w1 & w2 & H1 & H & ->).
    apply lift_ok in H1 as [Hb ->]. cbn [app].
    assert (HS : forall m r bs, seqM (m :: r) = Ok bs -> exists d1 v1 d2 v2, m = Ok (d1, v1) /\
      seqM r = Ok (d2, v2) /\ bs = (d1 ++ d2, v1 ++ v2)).
    { intros m r [bs bw] Hs. unfold seqM in Hs. apply mmap_ok in Hs as (dss & Hs & ->).
      cbn [mapM] in Hs. apply mbind_ok in Hs as (d1 & v1 & v2 & E1 & E2 & ->).
      apply mbind_ok in E2 as (d2 & v3 & v4 & E2 & E3 & ->). apply ret_ok in E3 as [-> ->]. rewrite app_nil_r.
      exists d1, v1, (List.concat d2), v3. split; [exact E1|]. split; [|reflexivity]. unfold seqM, mmap. rewrite E2.
      cbn [mbind ret]. rewrite app_nil_r. reflexivity. }
    assert (HN : forall bs, seqM [] = Ok bs -> bs = ([], [])).
    { intros bs Hs. unfold seqM, mmap in Hs. cbn in Hs. congruence. }
    Ltac open_seq HS HN H := repeat match type of H with
      | seqM (_ :: _) = Ok _ =>
          let E := fresh "E" in let H' := fresh "H" in
          destruct (HS _ _ _ H) as (? & ? & ? & ? & E & H' & EQ); injection EQ as -> ->; clear H; rename H' into H
      | seqM [] = Ok _ => apply HN in H; injection H as -> ->
      end.
    Ltac take M := destruct M as [?|M]; [left; repeat (apply in_or_app; first [left; assumption|right]); try assumption|].
    destruct h; cbn [end_piece pre_piece]; open_seq HS HN H; rewrite ?app_nil_r.
    all: try (match goal with E : pre_docs _ = Ok _, Hb : get_comment_bucket _ _ = Ok _ |- _ => pose proof (pre_docs_marked _ _ _ _ Hb E) as MP; take MP end).
    all: try (match goal with E : post_docs _ = Ok _, Hb : get_comment_bucket _ _ = Ok _ |- _ => pose proof (post_docs_marked _ _ _ _ Hb E) as MQ; take MQ end).
    all: try (match goal with E : build_punct_opt _ _ = Ok _ |- _ => pose proof (build_punct_opt_marked _ _ _ E) as MR; take MR end).
    all: try (match goal with E : members_or_dangling _ _ = Ok _, Hb : get_comment_bucket _ _ = Ok _, HM : forall _ _, _ -> _ |- context [@node_piece _ ?h _ _] =>
      pose proof (in_docs_marked h _ _ _ _ _ _ _ Hb ltac:(discriminate) HM E) as MN; take MN end).
    all: try (match goal with E : members_or_bracket _ _ _ = Ok _, Hb : get_comment_bucket _ _ = Ok _, HM : forall _ _, _ -> _ |- context [@node_piece _ ?h _ _] =>
      pose proof (in_docs_marked h _ _ _ _ _ _ _ Hb ltac:(discriminate) HM E) as MN; take MN end).
    all: try (right; rewrite ?MQ, ?MR, ?MN; cbn [n_pre yes no slot dangling_in]; rewrite MP; reflexivity).
    destruct (bucket_held cm _ _ Hb) as (_ & _ & E3 & E). unfold node_piece. cbn [app].
    change (@dangle yes) with (hollow cm). change (@dangle no) with (hollow cm). change (hollow cm (x_id x) = negb (is_nil (dangling bk))) in E. rewrite E.
    destruct (is_nil (dangling bk)); cbn [negb]; [exact (HM _ _ H)|]. right. reflexivity.
  Qed.

  Definition says (x : dt) (w : list comment) : Prop := In c w \/ @pieces yes x = @pieces no x.
  Lemma says_all (rs : list (doc * list comment * dt)) : Forall (fun r => says (snd r) (snd (fst r))) rs ->
    In c (flat_map (fun r => snd (fst r)) rs) \/ map (@pieces yes) (map snd rs) = map (@pieces no) (map snd rs).
  Proof.
    induction 1 as [|r rs [H|H] HF IH]; [auto| |].
    - left. cbn [flat_map]. apply in_or_app. auto.
    - destruct IH as [IH|IH]; [left; cbn [flat_map]; apply in_or_app; auto|right]. cbn [map]. rewrite H, IH. reflexivity.
  Qed.
  Lemma run_marked x : forall d w, run cm b x = Ok (d, w) -> says x w.
  Proof.
    assert (HL : forall l ds w,
      Forall (fun x => forall d w, run cm b x = Ok (d, w) -> says x w) l ->
      mapM (run cm b) l = Ok (ds, w) -> In c w \/ map (@pieces yes) l = map (@pieces no) l).
    { intros l ds w HF H. apply mapM_steps in H as (rs & H1 & -> & -> & H4). apply says_all.
      rewrite Forall_forall in *. intros [[d' w'] x'] Hr. eapply (HF x'); [apply in_map_iff; exists (d', w', x'); auto|].
      exact (H4 _ Hr). }
    assert (HP : forall l, map (@pieces yes) l = map (@pieces no) l -> flat_map (@pieces yes) l = flat_map (@pieces no) l).
    { intros l H. rewrite !flat_map_concat_map, H. reflexivity. }
    assert (HLM : forall ms ds w,
      Forall (fun m : dt * bool => forall d w, run cm b (fst m) = Ok (d, w) -> says (fst m) w) ms ->
      mapM (fun m : dt * bool => let (x, tr) := m in mmap (fun d => (d, tr)) (run cm b x)) ms = Ok (ds, w) ->
      In c w \/ flat_map (fun m : dt * bool => let (x, _) := m in @pieces yes x) ms = flat_map (fun m : dt * bool => let (x, _) := m in @pieces no x) ms).
    { induction ms as [|[x0 tr] ms IH]; intros ds w HF H; [auto|]. inversion HF as [|? ? H0 HF']; subst.
      cbn [mapM] in H. apply mbind_ok in H as (y & w1 & w2 & H1 & H2 & ->). apply mbind_ok in H2 as (ys' & w3 & w4 & H3 & H4 & ->).
      apply ret_ok in H4 as [-> ->]. apply mmap_ok in H1 as (d0 & H1 & _). destruct (H0 _ _ H1) as [Q|Q]; [left; apply in_or_app; auto|].
      destruct (IH _ _ HF' H3) as [Q'|Q']; [left; apply in_or_app; right; apply in_or_app; auto|]. right. cbn [flat_map fst] in *. rewrite Q, Q'. reflexivity. }
    unfold says. induction x using dt_nested_ind; intros d w0 E; cbn [run] in E; cbn [pieces].
    - auto.
    - auto.
    - auto.
    - apply mmap_ok in E as (ds & E & ->). destruct (HL _ _ _ ltac:(eassumption) E) as [Q|Q]; [auto|]. right. apply HP, Q.
    - apply mmap_ok in E as (ds & E & ->). eauto.
    - apply mmap_ok in E as (ds & E & ->). eauto.
    - apply mmap_ok in E as (ds & E & ->). eauto.
    - apply mmap_ok in E as (ds & E & ->). destruct (HL _ _ _ ltac:(eassumption) E) as [Q|Q]; [auto|]. right. rewrite Q. reflexivity.
    - apply mbind_ok in E as (ds & w1 & w2 & E & E2 & ->). destruct (HL _ _ _ ltac:(eassumption) E) as [Q|Q]; [left; apply in_or_app; auto|].
      right. rewrite Q. reflexivity.
    - apply mmap_ok in E as (ds & E & ->). eapply HLM; eauto.
    - apply mmap_ok in E as (ds & E & ->). destruct (HLM _ _ _ ltac:(eassumption) E) as [Q|Q]; [auto|]. right. rewrite Q. reflexivity.
    - apply mmap_ok in E as (ds & E & ->). unfold seqM in E. apply mmap_ok in E as (dss & E & ->).
      cbn [mapM] in E. apply mbind_ok in E as (d1 & w1 & w2 & E1 & E2 & ->).
      apply mbind_ok in E2 as (d2 & w3 & w4 & E2 & E3 & ->). apply mbind_ok in E2 as (d3 & w5 & w6 & E2 & E4 & ->).
      apply mbind_ok in E4 as (d4 & w7 & w8 & E5 & E6 & ->). apply ret_ok in E5 as [-> ->].
      apply ret_ok in E6 as [-> ->]. apply ret_ok in E3 as [-> ->]. rewrite !app_nil_r in *.
      edestruct build_node_marked as [Q|Q]; [|exact E1|left; apply in_or_app; left; exact Q|].
      { intros ms v EM. destruct (HL body _ _ H EM) as [Q|Q]; [left; exact Q|right; apply HP, Q]. }
      destruct (HL tail _ _ H0 E2) as [Q'|Q']; [left; apply in_or_app; auto|]. right.
      rewrite !app_assoc in *. rewrite Q. f_equal. apply HP, Q'.
    - eapply build_punct_marked. exact E.
    - discriminate.
  Qed.
End Marked.

(* ------------------------------------------------------------ the mark of the place *)

Section Mark.
Context {DG : dangles}.
Lemma marks_in u us : In u us -> In (mark u) (marks us).
Proof. apply in_map. Qed.
Lemma mleaves_kid n k x : n_extra n = false -> In k (code_children n) -> In x (marks (ahead n k) ++ mleaves k) -> In x (mleaves n).
Proof.
  intros Hx Hk H. rewrite mleaves_inner by exact Hx. apply in_or_app. right. apply in_or_app. left. unfold inner.
  destruct (children n) as [|c0 cs0] eqn:E; [unfold code_children in Hk; rewrite E in Hk; destruct Hk|].
  apply in_flat_map. eauto.
Qed.
Lemma code_extra m : code m = true -> n_extra m = false.
Proof. unfold code. destruct (n_extra m); [discriminate|reflexivity]. Qed.
Lemma kid_code n k : In k (code_kids n) -> In k (code_children n) /\ code k = true.
Proof.
  intro H. apply filter_In in H as [H C]. split; [|exact C]. apply filter_In. split; [exact H|].
  rewrite (code_extra k C). destruct (spare n k) eqn:E; [|reflexivity]. apply spare_code in E. congruence.
Qed.
Lemma mleaves_under root n : code root = true -> code_node root n -> code n = true /\ incl (mleaves n) (mleaves root).
Proof.
  intros Hr H. induction H as [|n k H [IH1 IH2] Hk]; [split; [exact Hr|apply incl_refl]|].
  apply kid_code in Hk as [Hk C]. split; [exact C|]. intros x Hx. apply IH2.
  apply (mleaves_kid n k); [apply code_extra, IH1|exact Hk|apply in_or_app; right; exact Hx].
Qed.
Lemma opening_in n u : n_extra n = false -> In u (opening n) -> In (mark u) (mleaves n).
Proof.
  intros Hx H. destruct (existsb (late n) (code_children n)) eqn:E.
  - apply existsb_exists in E as (k & Hk & E). apply (mleaves_kid n k); [exact Hx|exact Hk|].
    apply in_or_app. left. apply marks_in. unfold ahead. rewrite E. apply in_or_app. left. exact H.
  - rewrite mleaves_inner by exact Hx. apply in_or_app. left. apply marks_in. unfold front. rewrite E. exact H.
Qed.
Lemma closing_in n u : n_extra n = false -> In u (closing n) -> In (mark u) (mleaves n).
Proof.
  intros Hx H. destruct (existsb (early n) (code_children n)) eqn:E.
  - apply existsb_exists in E as (k & Hk & E). apply (mleaves_kid n k); [exact Hx|exact Hk|].
    apply in_or_app. left. apply marks_in. unfold ahead. rewrite E. apply in_or_app. right. apply in_or_app. right. exact H.
  - rewrite mleaves_inner by exact Hx. apply in_or_app. right. apply in_or_app. right. apply marks_in. unfold behind. rewrite E. exact H.
Qed.
Lemma inner_in n k u : n_extra n = false -> In k (code_children n) -> n_kind k = "}" -> dangle (n_id n) = true -> In u (n_in (n_id n)) ->
  In (mark u) (mleaves n).
Proof.
  intros Hx Hk K D H. apply (mleaves_kid n k); [exact Hx|exact Hk|]. apply in_or_app. left. apply marks_in. unfold ahead.
  rewrite D. unfold has_kind. rewrite K. cbn [andb]. change ("}" =? "}")%string with true. cbv iota.
  apply in_or_app. right. apply in_or_app. left. exact H.
Qed.

(* Without the marks these are the tokens. *)
Lemma marks_tokens us : filter token (marks us) = [].
Proof. induction us as [|u us IH]; [reflexivity|exact IH]. Qed.
Lemma mleaves_tokens n : filter token (mleaves n) = leaves n.
Proof.
  induction n as [i cs IH] using node_nested_ind. destruct (n_extra (Node i cs)) eqn:Hx.
  { destruct cs; cbn [mleaves leaves]; rewrite Hx; reflexivity. }
  rewrite mleaves_inner by exact Hx. rewrite !filter_app, !marks_tokens, app_nil_r.
  cbn [app]. destruct cs as [|c cs].
  { rewrite leaves_leaf by (first [exact Hx|reflexivity]). unfold inner, token. cbn [children filter]. rewrite Hx. reflexivity. }
  rewrite leaves_kids by (first [exact Hx|discriminate]). unfold inner. cbn [children].
  assert (HC : forall x, In x (code_children (Node i (c :: cs))) -> In x (c :: cs)) by (intros x Hx'; apply filter_In in Hx'; apply Hx').
  revert HC. generalize (code_children (Node i (c :: cs))). intros l HC. rewrite Forall_forall in IH.
  induction l as [|x l IHl]; [reflexivity|]. cbn [flat_map].
  rewrite !filter_app, IHl by (intros y Hy; apply HC; right; exact Hy).
  rewrite marks_tokens, IH by (apply HC; left; reflexivity). reflexivity.
Qed.
Lemma shows_marked n u : In (mark u) (mleaves n) -> visible u <> [] -> (shows (leaves n) < shows (mleaves n))%nat.
Proof.
  intros H V. rewrite <- mleaves_tokens. apply in_split in H as (p & q & ->). rewrite filter_app, !shows_app. cbn [filter]. change (token (mark u)) with false.
  cbv iota. rewrite shows_cons. change (n_text (mark u)) with u.
  assert (F : forall l, (shows (filter token l) <= shows l)%nat).
  { induction l as [|x l IH]; [reflexivity|]. cbn [filter]. destruct (token x); rewrite ?shows_cons; lia. }
  pose proof (F p). pose proof (F q). destruct (visible u) as [|a v]; [congruence|]. cbn [List.length]. lia.
Qed.
End Mark.

(* ------------------------------------------------------------ every comment is printed *)

Section Loud.
Variable root : node.
Variable cm : cmap.
Hypothesis S : file_tree root.
Hypothesis D : distinct_ids root.
Hypothesis B : comments_in_braces root.
Hypothesis L : loud_places root.
Hypothesis HC : collect_comments root = Ok cm.
Let Hr : code root = true := file_code root S.
Variable id : N.
Variable pl : place.
Variable c : comment.
Hypothesis HH : In c (held cm id pl).
Local Instance slot_r : dangles := slot cm id pl.

Lemma here_none q i : held cm i q = [] -> here id pl q i = [].
Proof. intro E. destruct (here_cases id pl q i) as [H|[-> ->]]; [exact H|]. rewrite E in HH. destruct HH. Qed.
Lemma slot_sides m : held cm (n_id m) Leading = [] -> held cm (n_id m) Trailing = [] -> opening m = [] /\ closing m = [].
Proof.
  intros E1 E2. unfold opening, closing. cbn [p_pre p_post n_pre n_post slot_r slot].
  rewrite !here_none by assumption. destruct (is_punctuation_node m), (code_token m); split; reflexivity.
Qed.
Lemma none_at m : no_comments_at root m -> opening m = [] /\ closing m = [].
Proof. intros [H1 H2]. apply slot_sides; apply (held_none root cm D Hr HC); assumption. Qed.
(* A node with comments at its sides has a comment among its siblings. *)
Lemma sided_parent m n q : In m (all_nodes root) -> In n (children m) -> q <> Dangling -> held cm (n_id n) q <> [] ->
  exists x, In x (children m) /\ n_extra x = true.
Proof.
  intros Hm Hn Hq HN. destruct (held cm (n_id n) q) as [|c1 l] eqn:E; [congruence|]. clear HN.
  destruct (held_comment root cm D Hr HC (n_id n) q c1) as (a & Ha & _); [rewrite E; left; reflexivity|].
  apply filter_In in Ha as [Ha E2]. apply andb_prop in E2 as [E2 E3]. apply N.eqb_eq in E2. apply place_eqb_eq in E3.
  destruct (attached_code root a Ha) as [A1 _].
  assert (En : at_node a = n) by (exact (same_id root (at_node a) n D A1 (all_nodes_child root m n Hm Hn) E2)).
  destruct (proj1 (attachments_spec root a) Ha) as (p & (Hp & Hch & Hx) & Hb).
  pose proof (belongs_near p (at_left a) (at_comment a) (at_right a)) as HB. rewrite <- Hb in HB. cbn [fst snd] in HB.
  apply code_node_in in Hp. unfold child_at in Hch.
  assert (Hin : In n (children p)).
  { rewrite Hch. apply in_or_app. rewrite E3 in HB. destruct q; [| |congruence]; apply find_code_in in HB as [HB _]; rewrite En in HB.
    - right. right. exact HB.
    - left. apply in_rev in HB. exact HB. }
  rewrite (parent_unique root D m p n Hm Hp Hn Hin). exists (at_comment a). split; [rewrite Hch; apply in_or_app; right; left; reflexivity|exact Hx].
Qed.
Lemma slot_calm m : In m (all_nodes root) -> n_extra m = false -> calm m /\ hushed m.
Proof.
  intros Hm Hx. destruct (L m Hm Hx) as (L1 & L2 & L3 & L4).
  assert (LC : forall n, In n (children m) -> mute_child m n = true -> opening n = [] /\ closing n = []) by (intros n Hn E; apply none_at, L3; assumption).
  split.
  - split; [exact (file_calm root cm S D B HC m Hm Hx)|]. split; [|split; [|split]].
    + intro Hc. assert (Hcode : code m = false) by (unfold code; rewrite Hc; apply Bool.andb_false_r).
      cbn [n_pre n_post slot_r slot]. split; apply here_none, (quiet_token root cm S D HC m); auto; discriminate.
    + intro E. apply none_at, L1. rewrite E. reflexivity.
    + intros E n Hn Ek. apply LC; [exact Hn|]. unfold mute_child, has_kind, has_field. rewrite E, Ek. reflexivity.
    + intros E n Hn Ek. apply none_at. exact (L4 E n Hn Ek).
  - right. split; [|split; [|split]].
    + intros U0 n Hn. assert (Z : forall q, q <> Dangling -> held cm (n_id n) q = []).
      { intros q Hq. destruct (held cm (n_id n) q) eqn:E; [reflexivity|]. exfalso.
        destruct (sided_parent m n q Hm Hn Hq) as (x & Hxc & Ex); [rewrite E; discriminate|].
        destruct (U0 x) as [E' _]; [|congruence]. eapply all_nodes_child; [apply self_in|exact Hxc]. }
      apply slot_sides; apply Z; discriminate.
    + intro E. apply none_at, L1, E.
    + intro E. assert (Z : held cm (n_id m) Trailing = []).
      { apply (held_none root cm D Hr HC), L2. destruct E as [E|E]; [right|left; exact E].
        exact (dangling_lone root cm m D Hr HC Hm E). }
      unfold closing. cbn [p_post n_post slot_r slot]. rewrite (here_none _ _ Z). destruct (is_punctuation_node m), (code_token m); reflexivity.
    + exact LC.
Qed.
Lemma slot_mark : In (mark (U "x")) (mleaves root).
Proof.
  destruct (held_comment root cm D Hr HC id pl c HH) as (a & Ha & _).
  apply filter_In in Ha as [Ha E2]. apply andb_prop in E2 as [E2 E3]. apply N.eqb_eq in E2. apply place_eqb_eq in E3.
  change (n_id (at_node a) = id) in E2.
  destruct (proj1 (attachments_spec root a) Ha) as (p & (Hp & Hch & Hx) & Hb).
  pose proof (belongs_near p (at_left a) (at_comment a) (at_right a)) as HB. rewrite <- Hb in HB. cbn [fst snd] in HB.
  assert (HK : pl <> Dangling -> code_node root (at_node a)).
  { intro Hq. apply (CN_kid root p); [exact Hp|]. rewrite E3 in HB. unfold child_at in Hch.
    destruct pl; [| |congruence]; apply find_code_in in HB as [HB C]; apply filter_In; (split; [|exact C]); rewrite Hch; apply in_or_app.
    - right. right. exact HB.
    - left. apply in_rev in HB. exact HB. }
  assert (HQ : forall q, pl = q -> here id pl q id = [U "x"]) by (intros q <-; unfold here; rewrite N.eqb_refl; destruct pl; reflexivity).
  assert (HT : forall m, code m = true -> code_token m = true) by (unfold code; intros m Hm; apply andb_prop in Hm; apply Hm).
  assert (HP : pl = Leading \/ pl = Trailing \/ pl = Dangling) by (destruct pl; auto). destruct HP as [EP|[EP|EP]]; specialize (HQ _ EP).
  - destruct (mleaves_under root _ Hr (HK ltac:(congruence))) as [C I]. apply I. apply opening_in; [apply code_extra, C|].
    unfold opening. rewrite (HT _ C), E2. cbn [p_pre n_pre slot_r slot]. rewrite HQ. destruct (is_punctuation_node _); left; reflexivity.
  - destruct (mleaves_under root _ Hr (HK ltac:(congruence))) as [C I]. apply I.
    destruct (is_punctuation_node (at_node a)) eqn:PN.
    + apply opening_in; [apply code_extra, C|]. unfold opening. rewrite PN, E2. cbn [p_pre slot_r slot]. rewrite HQ. apply in_or_app. right. left. reflexivity.
    + apply closing_in; [apply code_extra, C|]. unfold closing. rewrite PN, (HT _ C), E2. cbn [n_post slot_r slot]. rewrite HQ. left. reflexivity.
  - rewrite E3, EP in HB. destruct HB as (_ & _ & EN). destruct (mleaves_under root p Hr Hp) as [C I]. apply I. rewrite EN in E2.
    assert (Hd : hollow cm (n_id p) = true).
    { rewrite E2. clear - HH EP. rewrite EP in HH. unfold hollow. unfold held in HH. destruct (cm_get id cm) as [bk|]; [|destruct HH]. destruct (dangling bk); [destruct HH|reflexivity]. }
    apply code_node_in in Hp. pose proof (dangling_lone root cm p D Hr HC Hp Hd) as LO. pose proof (B p Hp LO) as Kb.
    assert (Hc : children p <> []) by (intro Q; unfold child_at in Hch; rewrite Q in Hch; destruct (rev (at_left a)); discriminate).
    destruct (file_follows root S p Hp (code_extra _ C) Hc) as [_ HR].
    destruct (braces_children p HR Kb (lone_children p LO)) as (o & k & Ec & _ & Hk).
    apply (inner_in p k); [apply code_extra, C|rewrite Ec; right; left; reflexivity|exact Hk|exact Hd|].
    rewrite E2. cbn [n_in slot_r slot]. rewrite HQ. left. reflexivity.
Qed.
Lemma comment_marked checked stack b t d w : new cm checked stack Root (root_loc root) = Ok t -> run cm b t = Ok (d, w) -> In c w.
Proof.
  intros HN HR. destruct (run_marked cm b id pl c HH t d w HR) as [H|H]; [exact H|]. exfalso.
  pose proof (root_hushed (DG := slot cm id pl) cm checked stack root t S slot_calm HN) as K.
  apply mkept_thin in K as (ls & T & K). apply thinned_strict in T; [subst ls|reflexivity].
  assert (Q : kept (leaves root) (@pieces (dangling_in cm) t)) by (eapply quiet_pieces; [exact S| |exact HN]; exact (file_calm root cm S D B HC)).
  pose proof (kept_shows _ _ K) as K1. pose proof (kept_shows _ _ Q) as K2. rewrite H, K2 in K1.
  pose proof (shows_marked root (U "x") slot_mark ltac:(discriminate)) as K3. change slot_r with (slot cm id pl) in K3. rewrite <- K1 in K3. exact (Nat.lt_irrefl _ K3).
Qed.
End Loud.

(* No comment is missing. *)
Theorem loud_formatted checked stack cfg root :
  readable checked root -> distinct_ids root -> comments_in_braces root -> loud_places root ->
  6 * height root < stack -> cfg_indent_size cfg <> 0%N ->
  exists out, format_tree checked stack cfg root = Ok out.
Proof.
  intros R D B L HS HI. destruct (format_supported checked stack cfg root R HS HI) as (cm & t & d & w & HC & HN & HR & HF).
  destruct R as (S & _). pose proof (file_code _ S) as Hr. exists (pretty_print d (max_width cfg)). rewrite HF.
  replace (missing_comments cm w) with (@nil comment); [reflexivity|]. symmetry. unfold missing_comments. apply filter_none.
  intros c Hc. apply negb_false_iff. unfold is_printed. apply existsb_exists. exists c. split; [|apply N.eqb_refl].
  apply (Permutation_in _ (collected_all root cm Hr HC)) in Hc. apply in_flat_map in Hc as (a & Ha & Hc).
  apply (comment_marked root cm S D B L HC (at_id a) (at_place a) c) with (checked := checked) (stack := stack) (b := {| indent_size := cfg_indent_size cfg |}) (t := t) (d := d);
    [|exact HN|exact HR].
  apply (Permutation_in _ (Permutation_sym (collected_held root cm (at_id a) (at_place a) Hr HC))). apply in_flat_map. exists a. split; [|exact Hc].
  apply filter_In. split; [exact Ha|]. rewrite N.eqb_refl. destruct (at_place a); reflexivity.
Qed.
