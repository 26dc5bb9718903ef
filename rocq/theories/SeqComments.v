(* SeqComments.v: everything a term prints, in order, with its comments: texts and line
   breaks.  Proofs only. *)
From Coq Require Import Lia.
From Verif Require Import Base Doc DocBuilder Cst Comments Term SpecDoc SpecTree DocProofs
  TermProofs TermProofs2 New SpecTokens TokensProofs SpecWords BitsProofs WordsTerm SeqTerm.
Local Open Scope list_scope.

Section CommentSeq.
  Variable cm : cmap.
  Definition bkt (id : N) : bucket := match cm_get id cm with Some bk => bk | None => empty_bucket end.

  Definition csign (p : punct) : list piece := match p with Punct comma id => flat_map dseq (punct_docs comma (bkt id)) end.
  Definition csign_opt (o : option punct) : list piece := match o with Some p => csign p | None => [] end.
  Definition cpre (bk : bucket) : list piece := flat_map dseq (handle_pre_comments bk).
  Definition cpost (bk : bucket) : list piece := if is_nil (dangling bk) then flat_map dseq (handle_post_comments bk) else [].
  Definition cdangling (bk : bucket) : list piece := flat_map dseq (flat_map dangling_comment_docs (dangling bk)).
  Definition cbody (bk : bucket) (body : list piece) : list piece := if is_nil (dangling bk) then body else cdangling bk.
  Definition cbraces (bk : bucket) (body : list piece) : list piece :=
    if is_nil (dangling bk) then body else [PT (U "{"); PB] ++ cdangling bk ++ [PB; PT (U "}")].
  Definition node_cseq (h : handling) (x : context) (body : list piece) : list piece :=
    let bk := bkt (x_id x) in
    match h with
    | HPlain => cpre bk ++ cbody bk body ++ cpost bk
    | HPunc => cpre bk ++ cbody bk body ++ cpost bk ++ csign_opt (x_punc x)
    | HAttached => cpre bk ++ cbody bk body ++ csign_opt (x_punc x) ++ cpost bk
    | HBracket => cpre bk ++ cbraces bk body ++ cpost bk
    | HBracketNoPost => cpre bk ++ cbraces bk body
    | HRoot => if is_nil (dangling bk) then body else flat_map dseq (map comment_doc (dangling bk))
    end.
  Fixpoint cseq (t : dt) : list piece :=
    match t with
    | TTxt s => [PT s]
    | TLeaf l => leaf_seq l
    | TEmptyLine => [PF; PB]
    | TPanic _ => []
    | TConcat l => flat_map cseq l
    | TIndent x | TDedent x => cseq x
    | TGroup x => PG :: cseq x
    | TIntersperse l sep => strung_seq (ins_seq sep) (map cseq l)
    | TSurround l sep o c =>
        match l with
        | [] => str_seq o ++ str_seq c
        | _ => ins_seq o ++ strung_seq (ins_seq sep) (map cseq l) ++ ins_seq c
        end
    | TMembers ms => member_seq (map (fun m : dt * bool => let (x, tr) := m in (cseq x, tr)) ms)
    | TSurroundMembers ms o c =>
        [PT o; PB] ++ match ms with [] => [] | _ =>
          member_seq (map (fun m : dt * bool => let (x, tr) := m in (cseq x, tr)) ms) ++ [PB] end ++ [PT c]
    | TNode h x body tail => node_cseq h x (flat_map cseq body) ++ flat_map cseq tail
    | TPunct p => csign p
    end.

  Variable b : pretty_config.
  Definition cagree (d : doc) (t : dt) : Prop := dseq d = cseq t.
  Lemma bkt_get id bk : get_comment_bucket cm id = Ok bk -> bkt id = bk.
  Proof. unfold get_comment_bucket, bkt, must. destruct (cm_get id cm); [|discriminate]. intro H. injection H as <-. reflexivity. Qed.
  Lemma cdseq_flat ds ts : Forall2 cagree ds ts -> flat_map dseq ds = flat_map cseq ts.
  Proof. induction 1 as [|d t ds ts H HF IH]; [reflexivity|]. cbn [flat_map]. rewrite H, IH. reflexivity. Qed.
  Lemma bare_leaf l : bare (leaf_seq l) = leaf_seq l.
  Proof. destruct l; reflexivity. Qed.
  Lemma bare_opt o : bare (opt_seq o) = opt_seq o.
  Proof. destruct o; [apply bare_leaf|reflexivity]. Qed.
  Lemma bare_ins i : bare (ins_seq i) = ins_seq i.
  Proof. unfold ins_seq. rewrite !bare_app, !bare_opt, bare_str. reflexivity. Qed.
  Lemma cdseq_intersperse ds ts sep : Forall2 cagree ds ts ->
    dseq (intersperse ds (tins_ins sep)) = strung_seq (ins_seq sep) (map cseq ts).
  Proof.
    intro HF. destruct HF as [|d t ds ts H HF]; [reflexivity|].
    unfold intersperse, concat. cbn [dseq flat_map map strung_seq]. rewrite H. f_equal.
    induction HF as [|d' t' ds ts H' HF IH]; [reflexivity|]. cbn [intersperse_tail flat_map map].
    rewrite !flat_map_app. cbn [flat_map]. rewrite dseq_ins, bare_ins, H', IH, <- app_assoc. reflexivity.
  Qed.
  Lemma cdseq_surround ds ts sep o c d : Forall2 cagree ds ts ->
    surround b ds (tins_ins sep) (tins_ins o) (tins_ins c) = Ok d -> dseq d = cseq (TSurround ts sep o c).
  Proof.
    intros HF H. pose proof (cdseq_intersperse ds ts sep HF) as Hs.
    destruct o as [op os oq], c as [cp cs cq]. unfold surround in H. cbn in H. cbn [cseq].
    destruct HF as [|d0 t0 ds ts H0 HF].
    - destruct os as [os|]; [|discriminate]. destruct cs as [cs|]; [|discriminate]. injection H as <-. reflexivity.
    - injection H as <-. unfold concat. cbn [dseq]. rewrite !flat_map_app, !dseq_opt, !dseq_opti, !dseq_str, !bare_opt.
      cbn [flat_map indent]. unfold ins_seq at 1 3, str_seq. cbn [t_pre t_suf t_str].
      unfold indent. cbn [dseq]. unfold intersperse, concat in Hs. cbn [dseq flat_map] in *. rewrite Hs, !flat_map_app, !dseq_opt, dseq_str, !bare_opt.
      rewrite <- !app_assoc. destruct os, cs; reflexivity.
  Qed.
  Definition cmseq (ts : list (dt * bool)) : list piece := member_seq (map (fun m : dt * bool => let (x, tr) := m in (cseq x, tr)) ts).
  Lemma cdseq_members (ds : list (doc * bool)) (ts : list (dt * bool)) :
    Forall2 (fun d t => cagree (fst d) (fst t) /\ snd d = snd t) ds ts ->
    dseq (intersperse_body_members ds) = cmseq ts.
  Proof.
    intro HF. unfold cmseq.
    assert (HI : ds <> [] -> flat_map dseq (intersperse_members ds) =
      member_seq (map (fun m : dt * bool => let (x, tr) := m in (cseq x, tr)) ts)).
    { induction HF as [|[d tr] [t tr'] ds ts [H E] HF IH]; intro HD; [exfalso; apply HD; reflexivity|]. cbn in H, E. subst tr'.
      cbn [intersperse_members map member_seq]. destruct HF as [|d' t' ds ts H' HF].
      - cbn [flat_map map]. rewrite app_nil_r. exact H.
      - cbn [flat_map]. rewrite IH, H by discriminate. cbn [map]. destruct t' as [t' tr2]. destruct tr; reflexivity. }
    destruct ds; [inversion HF; subst; reflexivity|]. apply HI. discriminate.
  Qed.
  Lemma build_punct_cseq p d w : build_punct cm p = Ok (d, w) -> dseq d = csign p.
  Proof.
    destruct p as [comma id]. unfold build_punct. intro H.
    apply mbind_ok in H as (bk & w1 & w2 & H1 & H2 & _). apply lift_ok in H1 as [H1 _].
    apply mark_ok in H2 as [-> _]. unfold csign. rewrite (bkt_get _ _ H1). reflexivity.
  Qed.
  Lemma build_punct_opt_cseq o ds w : build_punct_opt cm o = Ok (ds, w) -> flat_map dseq ds = csign_opt o.
  Proof.
    destruct o as [p|]; simpl; intro H.
    - apply mmap_ok in H as (d & H & ->). apply build_punct_cseq in H. simpl. rewrite app_nil_r. exact H.
    - apply ret_ok in H as [-> _]. reflexivity.
  Qed.
  Lemma dangling_cseq bk ds : dangling bk <> [] -> handle_dangling_comments bk = Ok ds -> flat_map dseq ds = cdangling bk.
  Proof. unfold handle_dangling_comments, cdangling. destruct (dangling bk); [congruence|]. intros _ H. injection H as <-. reflexivity. Qed.
  Lemma members_cseq bk (members : M (list doc)) ps ds w :
    (forall ms v, members = Ok (ms, v) -> flat_map dseq ms = ps) ->
    members_or_dangling bk members = Ok (ds, w) -> flat_map dseq ds = cbody bk ps.
  Proof.
    intros HM H. unfold members_or_dangling in H. unfold cbody. destruct (is_nil (dangling bk)) eqn:E; [eapply HM; exact H|].
    apply mbind_ok in H as (xs & w1 & w2 & H1 & H2 & _). apply lift_ok in H1 as [H1 _]. apply mark_ok in H2 as [-> _].
    cbn [flat_map]. unfold concat. cbn [dseq]. rewrite app_nil_r. apply dangling_cseq; [destruct (dangling bk); discriminate|exact H1].
  Qed.
  Lemma braces_cseq bk (members : M (list doc)) ps ds w :
    (forall ms v, members = Ok (ms, v) -> flat_map dseq ms = ps) ->
    members_or_bracket b bk members = Ok (ds, w) -> flat_map dseq ds = cbraces bk ps.
  Proof.
    intros HM H. unfold members_or_bracket in H. unfold cbraces. destruct (is_nil (dangling bk)) eqn:E; [eapply HM; exact H|].
    apply mbind_ok in H as (xs & w1 & w2 & H1 & H2 & _). apply lift_ok in H1 as [H1 _]. apply mark_ok in H2 as [-> _].
    unfold dangling_in_bracket_surround in H1. destruct (handle_dangling_comments bk) as [ys| |] eqn:E2; try discriminate H1.
    cbn [rbind] in H1. injection H1 as <-. apply dangling_cseq in E2; [|destruct (dangling bk); discriminate].
    unfold indent, concat. cbn [flat_map dseq]. rewrite E2. cbn [nl txt dseq app]. rewrite <- ?app_assoc. reflexivity.
  Qed.
  Lemma build_node_cseq h x (members : M (list doc)) ps ds w :
    (forall ms v, members = Ok (ms, v) -> flat_map dseq ms = ps) ->
    build_node cm b h x members = Ok (ds, w) -> flat_map dseq ds = node_cseq h x ps.
  Proof.
    intros HM H. unfold build_node in H. apply mbind_ok in H as (bk & w1 & w2 & H1 & H & _).
    apply lift_ok in H1 as [H1 _]. unfold node_cseq. rewrite (bkt_get _ _ H1). clear H1.
    pose proof (fun ds w => build_punct_opt_cseq (x_punc x) ds w) as HP.
    pose proof (fun ds w => members_cseq bk members ps ds w HM) as HB.
    pose proof (fun ds w => braces_cseq bk members ps ds w HM) as HC.
    assert (HPre : forall ds w, pre_docs bk = Ok (ds, w) -> flat_map dseq ds = cpre bk).
    { intros xs v E. apply mark_ok in E as [-> _]. reflexivity. }
    assert (HPost : forall ds w, post_docs bk = Ok (ds, w) -> flat_map dseq ds = cpost bk).
    { intros xs v E. unfold post_docs in E. unfold cpost. destruct (is_nil (dangling bk)); [apply mark_ok in E as [-> _]; reflexivity|].
      apply ret_ok in E as [-> _]. reflexivity. }
    unfold seqM in H. destruct h;
      repeat match goal with
      | H : mmap _ _ = Ok _ |- _ => apply mmap_ok in H as (? & H & ->)
      | H : mapM _ (_ :: _) = Ok _ |- _ => cbn [mapM] in H
      | H : mbind _ _ = Ok _ |- _ => apply mbind_ok in H as (? & ? & ? & ? & H & ->)
      | H : ret _ = Ok _ |- _ => apply ret_ok in H as [-> ->]
      | H : mapM _ [] = Ok _ |- _ => cbn [mapM] in H
      | H : pre_docs _ = Ok _ |- _ => apply HPre in H
      | H : post_docs _ = Ok _ |- _ => apply HPost in H
      | H : members_or_dangling _ _ = Ok _ |- _ => apply HB in H
      | H : members_or_bracket _ _ _ = Ok _ |- _ => apply HC in H
      | H : build_punct_opt _ _ = Ok _ |- _ => apply HP in H
      end.
    all: try (cbn [List.concat app flat_map]; rewrite ?flat_map_app, ?app_nil_r; congruence).
    destruct (is_nil (dangling bk)); [eapply HM; exact H|]. apply ret_ok in H as [-> _]. cbn [flat_map].
    unfold concat. cbn [dseq]. rewrite app_nil_r. reflexivity.
  Qed.

  Lemma run_cseq t : forall d w, run cm b t = Ok (d, w) -> dseq d = cseq t.
  Proof.
    assert (HL : forall l ds w,
      Forall (fun t => forall d w, run cm b t = Ok (d, w) -> dseq d = cseq t) l ->
      mapM (run cm b) l = Ok (ds, w) -> Forall2 cagree ds l).
    { intros l ds w HF H. eapply mapM_forall2; [|exact H]. exact HF. }
    assert (HLM : forall ms ds w,
      Forall (fun m : dt * bool => forall d w, run cm b (fst m) = Ok (d, w) -> dseq d = cseq (fst m)) ms ->
      mapM (fun m : dt * bool => let (x, tr) := m in mmap (fun d => (d, tr)) (run cm b x)) ms = Ok (ds, w) ->
      Forall2 (fun d t => cagree (fst d) (fst t) /\ snd d = snd t) ds ms).
    { intros l ds w HF H. eapply mapM_forall2; [|exact H]. rewrite Forall_forall in *. intros [x tr] Hx y v E.
      apply mmap_ok in E as (d & E & ->). cbn [fst snd]. apply (HF (x, tr) Hx) in E. split; [exact E|reflexivity]. }
    induction t using dt_nested_ind; intros d w0 E; cbn [run] in E.
    - apply ret_ok in E as [-> _]. reflexivity.
    - apply ret_ok in E as [-> _]. rewrite dseq_leaf. apply bare_leaf.
    - apply ret_ok in E as [-> _]. reflexivity.
    - apply mmap_ok in E as (ds & E & ->). cbn [concat dseq cseq]. apply HL in E; [|assumption].
      apply cdseq_flat. exact E.
    - apply mmap_ok in E as (ds & E & ->). cbn. eauto.
    - apply mmap_ok in E as (ds & E & ->). cbn. eauto.
    - apply mmap_ok in E as (ds & E & ->). cbn. f_equal. eauto.
    - apply mmap_ok in E as (ds & E & ->). apply HL in E; [|assumption]. apply cdseq_intersperse. exact E.
    - apply mbind_ok in E as (ds & w1 & w2 & E & E2 & _). apply lift_ok in E2 as [E2 _].
      apply HL in E; [|assumption]. eapply cdseq_surround; eauto.
    - apply mmap_ok in E as (ds & E & ->). apply HLM in E; [|assumption]. apply cdseq_members. exact E.
    - apply mmap_ok in E as (ds & E & ->). apply HLM in E; [|assumption].
      pose proof (cdseq_members _ _ E) as Hm. unfold cmseq in Hm. cbn [cseq] in *. unfold surround_body_members. destruct ds as [|d0 ds].
      + inversion E; subst. reflexivity.
      + unfold concat. cbn [dseq flat_map]. unfold nl, indent, txt. cbn [dseq]. rewrite Hm.
        inversion E; subst. cbn [app]. rewrite <- !app_assoc. reflexivity.
    - apply mmap_ok in E as (ds & E & ->). unfold seqM in E. apply mmap_ok in E as (dss & E & ->).
      cbn [mapM] in E. apply mbind_ok in E as (d1 & w1 & w2 & E1 & E2 & _).
      apply mbind_ok in E2 as (d2 & w3 & w4 & E2 & E3 & _). apply mbind_ok in E2 as (d3 & w5 & w6 & E2 & E4 & _).
      apply mbind_ok in E4 as (d4 & w7 & w8 & E5 & E6 & _). apply ret_ok in E5 as [-> _].
      apply ret_ok in E6 as [-> _]. apply ret_ok in E3 as [-> _].
      unfold concat. cbn [dseq List.concat cseq]. rewrite app_nil_r, flat_map_app.
      assert (HB : forall ms v, mapM (run cm b) body = Ok (ms, v) -> flat_map dseq ms = flat_map cseq body).
      { intros ms v EM. apply HL in EM; [|assumption]. apply cdseq_flat. exact EM. }
      rewrite (build_node_cseq _ _ _ _ _ _ HB E1). apply HL in E2; [|assumption].
      rewrite (cdseq_flat _ _ E2). reflexivity.
    - apply build_punct_cseq in E. exact E.
    - discriminate.
  Qed.
End CommentSeq.
