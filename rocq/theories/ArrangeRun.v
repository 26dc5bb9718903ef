(* ArrangeRun.v: the texts a term prints, with those of the comments in their places. *)
From Verif Require Import Base Doc DocBuilder Cst Comments Term SpecDoc SpecTree DocProofs
  TermProofs CollectProofs CollectProofs2 New SpecWords SpecTokens BitsProofs TokensProofs.
Local Open Scope list_scope.

(* The lines of the comments of each node. *)
Definition lines_of (cs : list comment) : list ustr := solid (flat_map comment_texts cs).
Definition blocks (cs : list comment) : list comment := filter (fun c => negb (c_line c)) cs.
Definition shown_in (cm : cmap) : dangles :=
  {| loose := true; dangle := hollow cm;
     n_pre := fun id => lines_of (held cm id Leading);
     n_post := fun id => lines_of (held cm id Trailing);
     n_in := fun id => lines_of (held cm id Dangling);
     n_root := fun id => lines_of (held cm id Dangling);
     p_pre := fun id => lines_of (blocks (held cm id Leading));
     p_post := fun id => lines_of (filter c_line (held cm id Leading) ++ held cm id Trailing) |}.

Lemma solid_solid l : solid (solid l) = solid l.
Proof.
  induction l as [|w l IH]; [reflexivity|]. cbn [solid filter]. destruct (negb (is_nil (visible w))) eqn:E.
  - cbn [filter]. rewrite E. f_equal. exact IH.
  - exact IH.
Qed.

Section RunExact.
  Variable cm : cmap.
  Variable b : pretty_config.
  Local Instance shown_cm : dangles := shown_in cm.
  Definition alike (P W : list ustr) : Prop := solid W = solid P.
  Lemma alike_app P P' W W' : alike P W -> alike P' W' -> alike (P ++ P') (W ++ W').
  Proof. unfold alike. intros H H'. rewrite !solid_app, H, H'. reflexivity. Qed.
  Lemma alike_lines cs W : solid W = solid (flat_map comment_texts cs) -> alike (lines_of cs) W.
  Proof. unfold alike, lines_of. intros ->. symmetry. apply solid_solid. Qed.

  Lemma bucket_held' id bk : get_comment_bucket cm id = Ok bk ->
    held cm id Leading = pre bk /\ held cm id Trailing = post bk /\ held cm id Dangling = dangling bk /\
    dangle id = negb (is_nil (dangling bk)).
  Proof. exact (bucket_held cm id bk). Qed.

  Lemma build_punct_alike p d w : build_punct cm p = Ok (d, w) -> alike (punct_piece p) (words d).
  Proof.
    destruct p as [comma id]. unfold build_punct. intro H.
    apply mbind_ok in H as (bk & w1 & w2 & H1 & H2 & ->). apply lift_ok in H1 as [H1 ->].
    apply mark_ok in H2 as [-> ->]. destruct (bucket_held' _ _ H1) as (E1 & E2 & _). cbn [app].
    unfold punct_docs, concat. cbn [words]. rewrite 2 flat_map_app. cbn [punct_piece p_pre p_post shown_cm shown_in].
    unfold blocks. rewrite E1, E2. apply alike_app; [apply alike_lines, post_words|].
    apply alike_app; [destruct comma; reflexivity|]. apply alike_lines, post_words.
  Qed.
  Lemma build_punct_opt_alike x ds w : build_punct_opt cm (x_punc x) = Ok (ds, w) -> alike (punc_piece x) (flat_map words ds).
  Proof.
    unfold punc_piece. destruct (x_punc x) as [p|]; simpl; intro H.
    - apply mmap_ok in H as (d & H & ->). apply build_punct_alike in H. simpl. rewrite app_nil_r. exact H.
    - apply ret_ok in H as [-> ->]. reflexivity.
  Qed.
  Lemma pre_docs_alike id bk ds w : get_comment_bucket cm id = Ok bk -> pre_docs bk = Ok (ds, w) ->
    alike (n_pre id) (flat_map words ds).
  Proof.
    intros Hb H. apply mark_ok in H as [-> ->]. cbn [n_pre shown_cm shown_in]. destruct (bucket_held' _ _ Hb) as (-> & _).
    apply alike_lines. unfold handle_pre_comments. destruct (pre bk) as [|c cs]; [reflexivity|].
    change (flat_map words [concat (pre_comments_docs true (c :: cs))]) with (flat_map words (pre_comments_docs true (c :: cs)) ++ []).
    rewrite app_nil_r. apply pre_words.
  Qed.
  Lemma post_docs_alike x bk ds w : get_comment_bucket cm (x_id x) = Ok bk -> post_docs bk = Ok (ds, w) ->
    alike (post_piece x) (flat_map words ds).
  Proof.
    intros Hb H. unfold post_docs in H. destruct (bucket_held' _ _ Hb) as (_ & E2 & _ & E). unfold post_piece. rewrite E.
    destruct (is_nil (dangling bk)).
    - apply mark_ok in H as [-> ->]. cbn [negb n_post shown_cm shown_in]. rewrite E2. apply alike_lines.
      unfold handle_post_comments. destruct (post bk) as [|c cs]; [reflexivity|].
      change (flat_map words [concat (flat_map post_comment_docs (c :: cs))]) with (flat_map words (flat_map post_comment_docs (c :: cs)) ++ []).
      rewrite app_nil_r. apply post_words.
    - apply ret_ok in H as [-> ->]. reflexivity.
  Qed.
  Lemma or_dangling_alike x bk (members : M (list doc)) ps ds w h :
    get_comment_bucket cm (x_id x) = Ok bk -> match h with HBracket | HBracketNoPost => False | _ => True end ->
    (forall ms v, members = Ok (ms, v) -> alike ps (flat_map words ms)) ->
    members_or_dangling bk members = Ok (ds, w) -> alike (node_piece h x ps) (flat_map words ds).
  Proof.
    intros Hb Hh HM H. destruct (bucket_held' _ _ Hb) as (_ & _ & E3 & E). unfold node_piece. rewrite E.
    unfold members_or_dangling in H. destruct (is_nil (dangling bk)) eqn:N; cbn [negb]; [eauto|].
    apply mbind_ok in H as (d0 & w1 & w2 & H1 & H2 & ->). apply lift_ok in H1 as [H1 ->]. apply handle_dangling_inv in H1 as ->.
    apply mark_ok in H2 as [-> ->].
    assert (MM : alike (n_in (x_id x)) (flat_map words [concat (flat_map dangling_comment_docs (dangling bk))])).
    { cbn [n_in shown_cm shown_in]. rewrite E3. apply alike_lines.
      cbn [flat_map]. rewrite app_nil_r. unfold concat. cbn [words]. apply dangling_words. }
    destruct h; try destruct Hh; exact MM.
  Qed.
  Lemma or_bracket_alike x bk (members : M (list doc)) ps ds w h :
    get_comment_bucket cm (x_id x) = Ok bk -> match h with HBracket | HBracketNoPost => True | _ => False end ->
    (forall ms v, members = Ok (ms, v) -> alike ps (flat_map words ms)) ->
    members_or_bracket b bk members = Ok (ds, w) -> alike (node_piece h x ps) (flat_map words ds).
  Proof.
    intros Hb Hh HM H. destruct (bucket_held' _ _ Hb) as (_ & _ & E3 & E). unfold node_piece. rewrite E.
    unfold members_or_bracket in H. destruct (is_nil (dangling bk)) eqn:N; cbn [negb]; [eauto|].
    apply mbind_ok in H as (d0 & w1 & w2 & H1 & H2 & ->). apply lift_ok in H1 as [H1 ->].
    unfold dangling_in_bracket_surround in H1. destruct (handle_dangling_comments bk) as [ds'| |] eqn:H3; try discriminate.
    cbn [rbind] in H1. injection H1 as <-. apply handle_dangling_inv in H3 as ->.
    apply mark_ok in H2 as [-> ->].
    assert (MM : alike ([U "{"] ++ n_in (x_id x) ++ [U "}"])
      (flat_map words [txt (U "{")] ++ flat_map words (flat_map dangling_comment_docs (dangling bk)) ++ flat_map words [txt (U "}")])).
    { apply alike_app; [reflexivity|]. apply alike_app; [|reflexivity]. cbn [n_in shown_cm shown_in]. rewrite E3.
      apply alike_lines, dangling_words. }
    unfold alike in *. destruct h; try destruct Hh; rewrite <- MM;
      unfold concat, nl, indent; cbn [flat_map words app]; rewrite ?app_nil_r; reflexivity.
  Qed.
  Lemma build_node_alike h x (members : M (list doc)) ps ds w :
    (forall ms v, members = Ok (ms, v) -> alike ps (flat_map words ms)) ->
    build_node cm b h x members = Ok (ds, w) ->
    alike (pre_piece h x ++ node_piece h x ps ++ end_piece h x) (flat_map words ds).
  Proof.
    intros HM H. unfold build_node in H. apply mbind_ok in H as (bk & w1 & w2 & H1 & H & ->).
    apply lift_ok in H1 as [Hb ->]. cbn [app].
    assert (HS : forall m r bs, seqM (m :: r) = Ok bs -> exists d1 v1 d2 v2, m = Ok (d1, v1) /\
      seqM r = Ok (d2, v2) /\ bs = (d1 ++ d2, v1 ++ v2)).
    { intros m r [bs bw] Hs. unfold seqM in Hs. apply mmap_ok in Hs as (dss & Hs & ->).
      cbn [mapM] in Hs. apply mbind_ok in Hs as (d1 & v1 & v2 & E1 & E2 & ->).
      apply mbind_ok in E2 as (d2 & v3 & v4 & E2 & E3 & ->). apply ret_ok in E3 as [-> ->]. rewrite app_nil_r.
      exists d1, v1, (List.concat d2), v3. split; [exact E1|]. split; [|reflexivity]. unfold seqM, mmap. rewrite E2.
      cbn [mbind ret]. rewrite app_nil_r. reflexivity. }
    assert (HN : forall bs, seqM [] = Ok bs -> bs = ([], [])).
    { intros bs Hs. unfold seqM, mmap in Hs. cbn in Hs. congruence. }
    Ltac open_seq HS HN H := repeat match type of H with
      | seqM (_ :: _) = Ok _ =>
          let E := fresh "E" in let H' := fresh "H" in
          destruct (HS _ _ _ H) as (? & ? & ? & ? & E & H' & EQ); injection EQ as -> ->; clear H; rename H' into H
      | seqM [] = Ok _ => apply HN in H; injection H as -> ->
      end.
    destruct h; cbn [end_piece pre_piece]; open_seq HS HN H; rewrite ?flat_map_app, ?app_nil_r.
    - apply alike_app; [eapply pre_docs_alike; eauto|]. apply alike_app; [eapply or_dangling_alike; eauto|eapply post_docs_alike; eauto].
    - apply alike_app; [eapply pre_docs_alike; eauto|]. apply alike_app; [eapply or_dangling_alike; eauto|].
      apply alike_app; [eapply post_docs_alike; eauto|]. eapply build_punct_opt_alike; eauto.
    - apply alike_app; [eapply pre_docs_alike; eauto|]. apply alike_app; [eapply or_dangling_alike; eauto|].
      apply alike_app; [|eapply post_docs_alike; eauto]. eapply build_punct_opt_alike; eauto.
    - apply alike_app; [eapply pre_docs_alike; eauto|]. apply alike_app; [eapply or_bracket_alike; eauto|eapply post_docs_alike; eauto].
    - apply alike_app; [eapply pre_docs_alike; eauto|]. eapply or_bracket_alike; eauto.
    - destruct (bucket_held' _ _ Hb) as (_ & _ & E3 & E). unfold node_piece. rewrite E. cbn [app].
      destruct (is_nil (dangling bk)) eqn:N; cbn [negb]; [eauto|]. apply ret_ok in H as [-> ->].
      cbn [n_root shown_cm shown_in]. rewrite E3. apply alike_lines.
      cbn [flat_map]. rewrite app_nil_r. unfold concat. cbn [words]. rewrite flat_map_concat_map, map_map, <- flat_map_concat_map.
      reflexivity.
  Qed.

  (* lists *)
  Definition step_alike (r : doc * list comment * dt) : Prop := alike (pieces (snd r)) (words (fst (fst r))).
  Lemma alike_flat rs : Forall step_alike rs ->
    alike (flat_map pieces (map snd rs)) (flat_map words (map (fun r => fst (fst r)) rs)).
  Proof. induction 1 as [|r rs H HF IH]; [reflexivity|]. cbn. apply alike_app; assumption. Qed.
  Lemma alike_intersperse rs sep : Forall step_alike rs ->
    alike (joined (str_piece sep) (map pieces (map snd rs)))
      (words (intersperse (map (fun r => fst (fst r)) rs) (tins_ins sep))).
  Proof.
    intro HF. destruct HF as [|r rs H HF]; [reflexivity|].
    unfold intersperse, concat. cbn [words flat_map map joined]. apply alike_app; [exact H|]. clear H.
    induction HF as [|r' rs H' HF IH]; [reflexivity|]. cbn [intersperse_tail flat_map map].
    rewrite !flat_map_app. cbn [flat_map]. rewrite <- app_assoc. apply alike_app; [apply solid_ins|].
    apply alike_app; assumption.
  Qed.
  Lemma alike_surround rs sep o c d : Forall step_alike rs ->
    surround b (map (fun r => fst (fst r)) rs) (tins_ins sep) (tins_ins o) (tins_ins c) = Ok d ->
    alike (str_piece o ++ joined (str_piece sep) (map pieces (map snd rs)) ++ str_piece c) (words d).
  Proof.
    intros HF H.
    assert (Hl : forall o, solid (flat_map words (opt_list (fun d => d) (option_map leaf_doc o))) = []).
    { intros [l|]; simpl; [rewrite words_leaf|]; reflexivity. }
    assert (Hi : forall o, solid (flat_map words (opt_list (indent b) (option_map leaf_doc o))) = []).
    { intros [l|]; simpl; [rewrite words_leaf|]; reflexivity. }
    destruct o as [op os oq], c as [cp cs cq]. unfold surround in H. cbn in H.
    pose proof (alike_intersperse rs sep HF) as Hs.
    destruct HF as [|r0 rs H0 HF].
    - destruct os as [os|]; [|discriminate]. destruct cs as [cs|]; [|discriminate]. injection H as <-.
      unfold alike, concat. cbn [words flat_map map joined]. rewrite !solid_app. rewrite !solid_txt. simpl. rewrite app_nil_r. reflexivity.
    - cbn [map] in H, Hs. injection H as <-.
      assert (Ht : forall s, solid (flat_map words (opt_list txt s)) = solid (match s with Some s => [s] | None => [] end)).
      { intros [s|]; simpl; rewrite ?app_nil_r; [apply solid_txt|reflexivity]. }
      unfold alike in *. rewrite !solid_app. cbn [map]. rewrite <- Hs. unfold str_piece. cbn [t_str]. rewrite <- !Ht.
      unfold concat, intersperse. cbn [words flat_map].
      rewrite ?flat_map_app, ?solid_app, ?Hl, ?Hi. cbn [flat_map indent words concat app].
      rewrite ?flat_map_app, ?solid_app, ?Hl, ?Hi. unfold concat. cbn [words flat_map app]. rewrite ?solid_app, ?app_nil_r. reflexivity.
  Qed.
  Definition member_alike (r : doc * bool * list comment * (dt * bool)) : Prop :=
    alike (pieces (fst (snd r))) (words (fst (fst (fst r)))).
  Lemma alike_members rs : Forall member_alike rs ->
    alike (flat_map (fun m : dt * bool => let (x, _) := m in pieces x) (map snd rs))
      (words (intersperse_body_members (map (fun r => fst (fst r)) rs))).
  Proof.
    intro HF. assert (HI : alike
      (flat_map (fun m : dt * bool => let (x, _) := m in pieces x) (map snd rs))
      (flat_map words (intersperse_members (map (fun r => fst (fst r)) rs)))).
    { induction HF as [|[[[d tr] w] [x tr']] rs H HF IH]; [reflexivity|]. cbn in H. cbn [map fst snd flat_map intersperse_members] in *.
      destruct rs as [|r rs].
      - cbn [map flat_map] in *. rewrite !app_nil_r. exact H.
      - cbn [map fst snd flat_map] in *. apply alike_app; [exact H|].
        unfold alike in *. rewrite <- IH. destruct tr; reflexivity. }
    unfold intersperse_body_members. destruct rs as [|r rs]; [reflexivity|]. exact HI.
  Qed.

  Lemma run_alike t : forall d w, run cm b t = Ok (d, w) -> alike (pieces t) (words d).
  Proof.
    assert (HL : forall l ds w,
      Forall (fun t => forall d w, run cm b t = Ok (d, w) -> alike (pieces t) (words d)) l ->
      mapM (run cm b) l = Ok (ds, w) -> exists rs, ds = map (fun r => fst (fst r)) rs /\
        l = map snd rs /\ Forall step_alike rs).
    { intros l ds w HF H. apply mapM_steps in H as (rs & H1 & H2 & H3 & H4). exists rs. repeat split; try assumption.
      rewrite Forall_forall in *. intros [[d' w'] x] Hr. eapply (HF x); [rewrite H3; apply in_map_iff; exists (d', w', x); auto|].
      exact (H4 _ Hr). }
    assert (HLM : forall ms ds w,
      Forall (fun m : dt * bool => forall d w, run cm b (fst m) = Ok (d, w) -> alike (pieces (fst m)) (words d)) ms ->
      mapM (fun m : dt * bool => let (x, tr) := m in mmap (fun d => (d, tr)) (run cm b x)) ms = Ok (ds, w) ->
      exists rs, ds = map (fun r => fst (fst r)) rs /\
        ms = map snd rs /\ Forall member_alike rs).
    { intros l ds w HF H. apply mapM_steps in H as (rs & H1 & H2 & H3 & H4). exists rs. repeat split; try assumption.
      rewrite Forall_forall in *. intros [[[d' tr'] w'] [x tr]] Hr. pose proof (H4 _ Hr) as E. cbn in E.
      apply mmap_ok in E as (d0 & E & E2). injection E2 as -> ->.
      eapply (HF (x, tr)); [rewrite H3; apply in_map_iff; exists (d0, tr, w', (x, tr)); auto|]. exact E. }
    induction t using dt_nested_ind; intros d w0 E; cbn [run] in E.
    - apply ret_ok in E as [-> ->]. apply solid_txt.
    - apply ret_ok in E as [-> ->]. unfold alike. rewrite words_leaf. reflexivity.
    - apply ret_ok in E as [-> ->]. reflexivity.
    - apply mmap_ok in E as (ds & E & ->). cbn [concat words pieces]. apply HL in E as (rs & -> & -> & HR); [|assumption].
      apply alike_flat. exact HR.
    - apply mmap_ok in E as (ds & E & ->). cbn. eauto.
    - apply mmap_ok in E as (ds & E & ->). cbn. eauto.
    - apply mmap_ok in E as (ds & E & ->). cbn. eauto.
    - apply mmap_ok in E as (ds & E & ->). apply HL in E as (rs & -> & -> & HR); [|assumption]. apply alike_intersperse. exact HR.
    - apply mbind_ok in E as (ds & w1 & w2 & E & E2 & ->). apply lift_ok in E2 as [E2 ->].
      apply HL in E as (rs & -> & -> & HR); [|assumption]. cbn [pieces]. eapply alike_surround; eauto.
    - apply mmap_ok in E as (ds & E & ->). apply HLM in E as (rs & -> & -> & HR); [|assumption]. cbn [pieces]. apply alike_members. exact HR.
    - apply mmap_ok in E as (ds & E & ->). apply HLM in E as (rs & -> & -> & HR); [|assumption]. cbn [pieces].
      pose proof (alike_members _ HR) as Hm. unfold surround_body_members. destruct rs as [|r rs].
      + unfold alike, concat. cbn [map words flat_map nl]. unfold nl. cbn [words app].
        rewrite !solid_app, !solid_txt. change [o; c] with ([o] ++ [c]). rewrite solid_app, app_nil_r. reflexivity.
      + unfold alike in *. rewrite !solid_app, <- Hm, <- (solid_txt o), <- (solid_txt c), <- !solid_app.
        cbn [map]. unfold concat, nl, indent. cbn [words flat_map app]. rewrite ?app_nil_r. reflexivity.
    - apply mmap_ok in E as (ds & E & ->). unfold seqM in E. apply mmap_ok in E as (dss & E & ->).
      cbn [mapM] in E. apply mbind_ok in E as (d1 & w1 & w2 & E1 & E2 & ->).
      apply mbind_ok in E2 as (d2 & w3 & w4 & E2 & E3 & ->). apply mbind_ok in E2 as (d3 & w5 & w6 & E2 & E4 & ->).
      apply mbind_ok in E4 as (d4 & w7 & w8 & E5 & E6 & ->). apply ret_ok in E5 as [-> ->].
      apply ret_ok in E6 as [-> ->]. apply ret_ok in E3 as [-> ->].
      unfold concat. cbn [words List.concat pieces]. rewrite !app_nil_r, flat_map_app.
      match goal with |- alike (?p ++ ?q ++ ?r ++ ?z) _ => replace (p ++ q ++ r ++ z) with ((p ++ q ++ r) ++ z) by (rewrite <- !app_assoc; reflexivity) end.
      apply alike_app.
      + eapply build_node_alike; [|exact E1]. intros ms v EM. apply HL in EM as (rs & -> & -> & HR); [|assumption].
        apply alike_flat. exact HR.
      + apply HL in E2 as (rs & -> & -> & HR); [|assumption]. apply alike_flat. exact HR.
    - eapply build_punct_alike. exact E.
    - discriminate.
  Qed.
End RunExact.
