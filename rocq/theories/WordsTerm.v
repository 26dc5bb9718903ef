(* WordsTerm.v: the texts and gaps a term prints when there are no comments. *)
From Verif Require Import Base Doc DocBuilder Cst Comments Term SpecDoc SpecTree DocProofs
  TermProofs New SpecTokens TokensProofs SpecWords WordsProofs.
Local Open Scope list_scope.

Definition gap : list ustr := [[c_sp]].
Definition leaf_texts (l : leaf) : list ustr := match l with LNl | LSoft => gap | LMaybe => [] end.
Definition opt_texts (o : option leaf) : list ustr := match o with Some l => leaf_texts l | None => [] end.
Definition ins_texts (i : tins) : list ustr := opt_texts (t_pre i) ++ str_piece i ++ opt_texts (t_suf i).
Definition sign_piece (p : punct) : list ustr := match p with Punct comma _ => [U (if comma then "," else ";")] end.
Definition prints_punct (h : handling) : bool := match h with HPunc | HAttached => true | _ => false end.
Fixpoint member_texts (ms : list (list ustr * bool)) : list ustr :=
  match ms with
  | [] => [[]]
  | [(w, _)] => w
  | (w, tr) :: r => w ++ (if tr then gap ++ gap else gap) ++ member_texts r
  end.
Definition strung (s : list ustr) (l : list (list ustr)) : list ustr :=
  match l with [] => [[]] | _ => joined s l end.
Fixpoint texts (t : dt) : list ustr :=
  match t with
  | TTxt s => [s]
  | TLeaf l => leaf_texts l
  | TEmptyLine => gap ++ gap
  | TPanic _ => []
  | TConcat l => flat_map texts l
  | TIndent x | TDedent x | TGroup x => texts x
  | TIntersperse l sep => strung (ins_texts sep) (map texts l)
  | TSurround l sep o c =>
      match l with
      | [] => str_piece o ++ str_piece c
      | _ => ins_texts o ++ strung (ins_texts sep) (map texts l) ++ ins_texts c
      end
  | TMembers ms => member_texts (map (fun m : dt * bool => let (x, tr) := m in (texts x, tr)) ms)
  | TSurroundMembers ms o c =>
      [o] ++ gap ++ match ms with [] => [] | _ =>
        member_texts (map (fun m : dt * bool => let (x, tr) := m in (texts x, tr)) ms) ++ gap end ++ [c]
  | TNode h x body tail =>
      flat_map texts body
      ++ (if prints_punct h then match x_punc x with Some p => sign_piece p | None => [] end else [])
      ++ flat_map texts tail
  | TPunct p => sign_piece p
  end.

Lemma tight_leaf l : tight (leaf_doc l) = leaf_texts l.
Proof. destruct l; reflexivity. Qed.
Lemma tight_opt o : flat_map tight (opt_list (fun d => d) (option_map leaf_doc o)) = opt_texts o.
Proof. destruct o as [l|]; simpl; [rewrite tight_leaf, app_nil_r|]; reflexivity. Qed.
Lemma tight_opti b o : flat_map tight (opt_list (indent b) (option_map leaf_doc o)) = opt_texts o.
Proof. destruct o as [l|]; simpl; [rewrite tight_leaf, app_nil_r|]; reflexivity. Qed.
Lemma tight_str s : flat_map tight (opt_list txt s) = match s with Some s => [s] | None => [] end.
Proof. destruct s; reflexivity. Qed.
Lemma tight_ins i : flat_map tight (ins_docs (tins_ins i)) = ins_texts i.
Proof.
  destruct i as [p s q]. unfold ins_docs, tins_ins, ins_texts, str_piece. cbn.
  rewrite !flat_map_app, !tight_opt, tight_str. reflexivity.
Qed.
Definition agree (d : doc) (t : dt) : Prop := tight d = texts t.
Lemma tight_flat ds ts : Forall2 agree ds ts -> flat_map tight ds = flat_map texts ts.
Proof. induction 1 as [|d t ds ts H HF IH]; [reflexivity|]. cbn [flat_map]. rewrite H, IH. reflexivity. Qed.
Lemma tight_intersperse ds ts sep : Forall2 agree ds ts ->
  tight (intersperse ds (tins_ins sep)) = strung (ins_texts sep) (map texts ts).
Proof.
  intro HF. destruct HF as [|d t ds ts H HF]; [reflexivity|].
  unfold intersperse, concat. cbn [tight flat_map map joined strung]. rewrite H. f_equal.
  induction HF as [|d' t' ds ts H' HF IH]; [reflexivity|]. cbn [intersperse_tail flat_map map].
  rewrite !flat_map_app. cbn [flat_map]. rewrite tight_ins, H', IH, <- app_assoc. reflexivity.
Qed.
Lemma tight_surround b ds ts sep o c d : Forall2 agree ds ts ->
  surround b ds (tins_ins sep) (tins_ins o) (tins_ins c) = Ok d -> tight d = texts (TSurround ts sep o c).
Proof.
  intros HF H. pose proof (tight_intersperse ds ts sep HF) as Hs.
  destruct o as [op os oq], c as [cp cs cq]. unfold surround in H. cbn in H. cbn [texts].
  destruct HF as [|d0 t0 ds ts H0 HF].
  - destruct os as [os|]; [|discriminate]. destruct cs as [cs|]; [|discriminate]. injection H as <-. reflexivity.
  - injection H as <-. unfold concat. cbn [tight]. rewrite !flat_map_app, !tight_opt, !tight_opti, !tight_str.
    cbn [flat_map indent]. unfold ins_texts at 1 3, str_piece. cbn [t_pre t_suf t_str].
    unfold indent. cbn [tight]. unfold intersperse, concat in Hs. cbn [tight flat_map] in *. rewrite Hs, !flat_map_app, !tight_opt, tight_str.
    rewrite <- !app_assoc. reflexivity.
Qed.
Lemma tight_members (ds : list (doc * bool)) (ts : list (dt * bool)) :
  Forall2 (fun d t => agree (fst d) (fst t) /\ snd d = snd t) ds ts ->
  tight (intersperse_body_members ds) = texts (TMembers ts).
Proof.
  intro HF. cbn [texts].
  assert (HI : ds <> [] -> flat_map tight (intersperse_members ds) =
    member_texts (map (fun m : dt * bool => let (x, tr) := m in (texts x, tr)) ts)).
  { induction HF as [|[d tr] [t tr'] ds ts [H E] HF IH]; intro HD; [exfalso; apply HD; reflexivity|]. cbn in H, E. subst tr'.
    cbn [intersperse_members map member_texts]. destruct HF as [|d' t' ds ts H' HF].
    - cbn [flat_map map]. rewrite app_nil_r. exact H.
    - cbn [flat_map]. rewrite IH, H by discriminate. cbn [map]. destruct tr, t'; reflexivity. }
  destruct ds; [inversion HF; subst; reflexivity|]. apply HI. discriminate.
Qed.

Section RunTexts.
  Variable cm : cmap.
  Variable b : pretty_config.
  Hypothesis empty : forall id bk, get_comment_bucket cm id = Ok bk -> bucket_empty bk.

  Lemma build_punct_texts p d w : build_punct cm p = Ok (d, w) -> tight d = sign_piece p.
  Proof.
    destruct p as [comma id]. unfold build_punct. intro H.
    apply mbind_ok in H as (bk & w1 & w2 & H1 & H2 & _). apply lift_ok in H1 as [H1 _].
    apply mark_ok in H2 as [-> _]. apply empty in H1 as (Hp & Hq & _).
    unfold punct_docs. rewrite Hp, Hq. destruct comma; reflexivity.
  Qed.
  Lemma build_punct_opt_texts o ds w : build_punct_opt cm o = Ok (ds, w) ->
    flat_map tight ds = match o with Some p => sign_piece p | None => [] end.
  Proof.
    destruct o as [p|]; simpl; intro H.
    - apply mmap_ok in H as (d & H & ->). apply build_punct_texts in H. simpl. rewrite app_nil_r. exact H.
    - apply ret_ok in H as [-> _]. reflexivity.
  Qed.
  Lemma build_node_texts h x (members : M (list doc)) ps ds w :
    (forall ms v, members = Ok (ms, v) -> flat_map tight ms = ps) ->
    build_node cm b h x members = Ok (ds, w) ->
    flat_map tight ds =
    ps ++ (if prints_punct h then match x_punc x with Some p => sign_piece p | None => [] end else []).
  Proof.
    intros HM H. unfold build_node in H. apply mbind_ok in H as (bk & w1 & w2 & H1 & H & _).
    apply lift_ok in H1 as [H1 _]. apply empty in H1 as (Hp & Hq & Hd).
    unfold seqM, pre_docs, post_docs, members_or_dangling, members_or_bracket,
      handle_pre_comments, handle_post_comments in H. rewrite Hp, Hq, Hd in H. cbn [is_nil mark] in H.
    pose proof (fun ds w => build_punct_opt_texts (x_punc x) ds w) as HP.
    destruct h; cbn [prints_punct];
      repeat match goal with
      | H : mmap _ _ = Ok _ |- _ => apply mmap_ok in H as (? & H & ->)
      | H : mapM _ (_ :: _) = Ok _ |- _ => cbn [mapM] in H
      | H : mbind _ _ = Ok _ |- _ => apply mbind_ok in H as (? & ? & ? & ? & H & ->)
      | H : ret _ = Ok _ |- _ => apply ret_ok in H as [-> ->]
      | H : mark _ _ = Ok _ |- _ => apply mark_ok in H as [-> ->]
      | H : mapM _ [] = Ok _ |- _ => cbn [mapM] in H
      | H : members = Ok _ |- _ => apply HM in H
      | H : build_punct_opt _ _ = Ok _ |- _ => apply HP in H
      | H : Ok (?a, ?b) = Ok (?c, ?d) |- _ => injection H as ? ?; subst
      end;
      cbn [List.concat app flat_map]; rewrite ?flat_map_app, ?app_nil_r;
      cbn [flat_map app]; rewrite ?app_nil_r; try congruence.
  Qed.

  Lemma run_texts t : forall d w, run cm b t = Ok (d, w) -> tight d = texts t.
  Proof.
    assert (HL : forall l ds w,
      Forall (fun t => forall d w, run cm b t = Ok (d, w) -> tight d = texts t) l ->
      mapM (run cm b) l = Ok (ds, w) -> Forall2 agree ds l).
    { intros l ds w HF H. eapply mapM_forall2; [|exact H]. exact HF. }
    assert (HLM : forall ms ds w,
      Forall (fun m : dt * bool => forall d w, run cm b (fst m) = Ok (d, w) -> tight d = texts (fst m)) ms ->
      mapM (fun m : dt * bool => let (x, tr) := m in mmap (fun d => (d, tr)) (run cm b x)) ms = Ok (ds, w) ->
      Forall2 (fun d t => agree (fst d) (fst t) /\ snd d = snd t) ds ms).
    { intros l ds w HF H. eapply mapM_forall2; [|exact H]. rewrite Forall_forall in *. intros [x tr] Hx y v E.
      apply mmap_ok in E as (d & E & ->). cbn [fst snd]. apply (HF (x, tr) Hx) in E. split; [exact E|reflexivity]. }
    induction t using dt_nested_ind; intros d w0 E; cbn [run] in E.
    - apply ret_ok in E as [-> _]. reflexivity.
    - apply ret_ok in E as [-> _]. apply tight_leaf.
    - apply ret_ok in E as [-> _]. reflexivity.
    - apply mmap_ok in E as (ds & E & ->). cbn [concat tight texts]. apply HL in E; [|assumption].
      apply tight_flat. exact E.
    - apply mmap_ok in E as (ds & E & ->). cbn. eauto.
    - apply mmap_ok in E as (ds & E & ->). cbn. eauto.
    - apply mmap_ok in E as (ds & E & ->). cbn. eauto.
    - apply mmap_ok in E as (ds & E & ->). apply HL in E; [|assumption]. apply tight_intersperse. exact E.
    - apply mbind_ok in E as (ds & w1 & w2 & E & E2 & _). apply lift_ok in E2 as [E2 _].
      apply HL in E; [|assumption]. eapply tight_surround; eauto.
    - apply mmap_ok in E as (ds & E & ->). apply HLM in E; [|assumption]. apply tight_members. exact E.
    - apply mmap_ok in E as (ds & E & ->). apply HLM in E; [|assumption].
      pose proof (tight_members _ _ E) as Hm. cbn [texts] in *. unfold surround_body_members. destruct ds as [|d0 ds].
      + inversion E; subst. reflexivity.
      + unfold concat. cbn [tight flat_map]. unfold nl, indent, txt. cbn [tight]. rewrite Hm.
        inversion E; subst. cbn [app]. rewrite <- !app_assoc. reflexivity.
    - apply mmap_ok in E as (ds & E & ->). unfold seqM in E. apply mmap_ok in E as (dss & E & ->).
      cbn [mapM] in E. apply mbind_ok in E as (d1 & w1 & w2 & E1 & E2 & _).
      apply mbind_ok in E2 as (d2 & w3 & w4 & E2 & E3 & _). apply mbind_ok in E2 as (d3 & w5 & w6 & E2 & E4 & _).
      apply mbind_ok in E4 as (d4 & w7 & w8 & E5 & E6 & _). apply ret_ok in E5 as [-> _].
      apply ret_ok in E6 as [-> _]. apply ret_ok in E3 as [-> _].
      unfold concat. cbn [tight List.concat texts]. rewrite app_nil_r, flat_map_app.
      assert (HB : forall ms v, mapM (run cm b) body = Ok (ms, v) -> flat_map tight ms = flat_map texts body).
      { intros ms v EM. apply HL in EM; [|assumption]. apply tight_flat. exact EM. }
      rewrite (build_node_texts _ _ _ _ _ _ HB E1). apply HL in E2; [|assumption].
      rewrite (tight_flat _ _ E2), app_assoc. reflexivity.
    - apply build_punct_texts in E. rewrite E. reflexivity.
    - discriminate.
  Qed.
End RunTexts.
