(* LevelTerm.v: the pieces a comment-free term prints, each with the indentation in
   force where it stands.  Proofs only. *)
From Coq Require Import Lia.
From Verif Require Import Base Doc DocBuilder Cst Comments Term SpecDoc SpecTree DocProofs
  TermProofs TermProofs2 New SpecTokens TokensProofs SpecWords BitsProofs WordsTerm SeqTerm.
Local Open Scope list_scope.

Notation tp := (piece * N)%type.
Definition tag (i : N) (l : list piece) : list tp := map (fun p => (p, i)) l.
Definition untag (l : list tp) : list piece := map fst l.
Lemma untag_tag i l : untag (tag i l) = l.
Proof. unfold untag, tag. rewrite map_map. apply map_id. Qed.
Lemma untag_app a b : untag (a ++ b) = untag a ++ untag b.
Proof. apply map_app. Qed.
Lemma tag_app i a b : tag i (a ++ b) = tag i a ++ tag i b.
Proof. apply map_app. Qed.
Definition lbare1 (p : tp) : list tp := match fst p with PN _ => [] | _ => [p] end.
Definition lbare (l : list tp) : list tp := flat_map lbare1 l.
Lemma lbare_app a b : lbare (a ++ b) = lbare a ++ lbare b.
Proof. apply flat_map_app. Qed.
Lemma lbare_tag i l : lbare (tag i l) = tag i (bare l).
Proof.
  induction l as [|p l IH]; [reflexivity|]. change (lbare (tag i (p :: l))) with (lbare1 (p, i) ++ lbare (tag i l)).
  change (bare (p :: l)) with (expand (fun _ => []) p ++ bare l). rewrite IH, tag_app. destruct p; reflexivity.
Qed.
Lemma untag_lbare l : untag (lbare l) = bare (untag l).
Proof.
  induction l as [|[p i] l IH]; [reflexivity|]. change (lbare ((p, i) :: l)) with (lbare1 (p, i) ++ lbare l).
  change (bare (untag ((p, i) :: l))) with (expand (fun _ => []) p ++ bare (untag l)). rewrite untag_app, IH. destruct p; reflexivity.
Qed.
Lemma lbare_flat {A} (g : A -> list tp) l : lbare (flat_map g l) = flat_map (fun x => lbare (g x)) l.
Proof. induction l as [|x l IH]; [reflexivity|]. cbn [flat_map]. rewrite lbare_app, IH. reflexivity. Qed.
Lemma untag_flat {A} (g : A -> list tp) l : untag (flat_map g l) = flat_map (fun x => untag (g x)) l.
Proof. induction l as [|x l IH]; [reflexivity|]. cbn [flat_map]. rewrite untag_app, IH. reflexivity. Qed.

Section Step.
  Variable b : pretty_config.
  Notation step := (indent_size b).

  Fixpoint lmember (i : N) (ms : list (list tp * bool)) : list tp :=
    match ms with
    | [] => tag i [PT []]
    | [(w, _)] => w
    | (w, tr) :: r => w ++ tag i (sep_seq tr) ++ lmember i r
    end.
  Definition lstrung (i : N) (s : list piece) (l : list (list tp)) : list tp :=
    match l with [] => tag i [PT []] | x :: r => x ++ flat_map (fun y => tag i s ++ y) r end.
  Fixpoint lseq (i : N) (t : dt) : list tp :=
    match t with
    | TTxt s => tag i [PT s]
    | TLeaf l => tag i (leaf_seq l)
    | TEmptyLine => tag i [PF; PB]
    | TPanic _ => []
    | TConcat l => flat_map (lseq i) l
    | TIndent x => lseq (i + step)%N x
    | TDedent x => lseq (i - step)%N x
    | TGroup x => tag i [PG] ++ lseq i x
    | TIntersperse l sep => lstrung i (ins_seq sep) (map (lseq i) l)
    | TSurround l sep o c =>
        match l with
        | [] => tag i (str_seq o ++ str_seq c)
        | _ => tag i (opt_seq (t_pre o) ++ str_seq o) ++ tag (i + step)%N (opt_seq (t_suf o)) ++
               lstrung (i + step)%N (ins_seq sep) (map (lseq (i + step)%N) l) ++ tag i (ins_seq c)
        end
    | TMembers ms => lmember i (map (fun m : dt * bool => let (x, tr) := m in (lseq i x, tr)) ms)
    | TSurroundMembers ms o c =>
        tag i [PT o] ++ match ms with
        | [] => tag i [PB]
        | _ => tag (i + step)%N [PB] ++ lmember (i + step)%N (map (fun m : dt * bool => let (x, tr) := m in (lseq (i + step)%N x, tr)) ms) ++ tag i [PB]
        end ++ tag i [PT c]
    | TNode h x body tail => tag i (node_seq h x) ++ flat_map (lseq i) body ++ tag i (end_seq h x) ++ flat_map (lseq i) tail
    | TPunct p => tag i (sign_seq p)
    end.
  Definition lmseq (i : N) (ms : list (dt * bool)) : list tp := lmember i (map (fun m : dt * bool => let (x, tr) := m in (lseq i x, tr)) ms).

  (* Without the levels these are the pieces of before. *)
  Lemma untag_member i ms : untag (lmember i ms) = member_seq (map (fun m : list tp * bool => let (w, tr) := m in (untag w, tr)) ms).
  Proof.
    induction ms as [|[w tr] ms IH]; [reflexivity|]. cbn [lmember map member_seq]. destruct ms as [|m ms]; [reflexivity|].
    rewrite !untag_app, IH, untag_tag. reflexivity.
  Qed.
  Lemma untag_strung i s l : untag (lstrung i s l) = strung_seq s (map untag l).
  Proof.
    destruct l as [|x l]; [reflexivity|]. cbn [lstrung strung_seq map]. rewrite untag_app, untag_flat. f_equal.
    induction l as [|y l IH]; [reflexivity|]. cbn [flat_map map]. rewrite untag_app, untag_tag, IH. reflexivity.
  Qed.
  Lemma untag_lseq t : forall i, untag (lseq i t) = seq t.
  Proof.
    assert (HM : forall ms i, Forall (fun m : dt * bool => forall i, untag (lseq i (fst m)) = seq (fst m)) ms ->
      map (fun m : list tp * bool => let (w, tr) := m in (untag w, tr)) (map (fun m : dt * bool => let (x, tr) := m in (lseq i x, tr)) ms) =
      map (fun m : dt * bool => let (x, tr) := m in (seq x, tr)) ms).
    { intros ms i HF. rewrite map_map. induction HF as [|[x tr] ms H HF IH]; [reflexivity|]. cbn [map]. rewrite IH. cbn in H. rewrite H. reflexivity. }
    assert (HS : forall l i, Forall (fun t => forall i, untag (lseq i t) = seq t) l -> map untag (map (lseq i) l) = map seq l).
    { intros l i HF. rewrite map_map. induction HF as [|x l H HF IH]; [reflexivity|]. cbn [map]. rewrite IH, H. reflexivity. }
    assert (HC : forall l i, Forall (fun t => forall i, untag (lseq i t) = seq t) l -> untag (flat_map (lseq i) l) = flat_map seq l).
    { intros l i HF. rewrite untag_flat. induction HF as [|x l H HF IH]; [reflexivity|]. cbn [flat_map]. rewrite IH, H. reflexivity. }
    induction t using dt_nested_ind; intro i; cbn [lseq seq].
    - reflexivity.
    - apply untag_tag.
    - reflexivity.
    - apply HC. assumption.
    - auto.
    - auto.
    - rewrite untag_app. cbn. f_equal. auto.
    - rewrite untag_strung, HS by assumption. reflexivity.
    - destruct l as [|x l]; [apply untag_tag|]. rewrite !untag_app, !untag_tag, untag_strung, HS by assumption. unfold ins_seq at 3. rewrite <- !app_assoc. reflexivity.
    - rewrite untag_member, HM by assumption. reflexivity.
    - rewrite !untag_app, !untag_tag. destruct ms as [|m ms]; [reflexivity|]. rewrite !untag_app, !untag_tag, untag_member, HM by assumption.
      rewrite <- !app_assoc. reflexivity.
    - rewrite !untag_app, !untag_tag, !HC by assumption. reflexivity.
    - apply untag_tag.
    - reflexivity.
  Qed.

  (* ---------------------------------------------------------- what a document prints *)
  Fixpoint dlseq (i : N) (d : doc) : list tp :=
    match d with
    | Newline => tag i [PB]
    | NewlineNoIndent => tag i [PF]
    | Softline => tag i [PS]
    | Maybeline => tag i [PY]
    | ForceBreak => []
    | Text s _ => tag i [PT s]
    | Flat x => dlseq i x
    | Indent k x => dlseq (i + k)%N x
    | Dedent k x => dlseq (i - k)%N x
    | Concat l => flat_map (dlseq i) l
    | Choice x _ => tag i [PG] ++ dlseq i x
    end.
  Lemma dl_leaf i l : dlseq i (leaf_doc l) = tag i (leaf_seq l).
  Proof. destruct l; reflexivity. Qed.
  Lemma dl_opt i o : flat_map (dlseq i) (opt_list (fun d => d) (option_map leaf_doc o)) = tag i (opt_seq o).
  Proof. destruct o as [l|]; simpl; [rewrite dl_leaf, app_nil_r|]; reflexivity. Qed.
  Lemma dl_opti i o : flat_map (dlseq i) (opt_list (indent b) (option_map leaf_doc o)) = tag (i + step)%N (opt_seq o).
  Proof. destruct o as [l|]; simpl; [rewrite dl_leaf, app_nil_r|]; reflexivity. Qed.
  Lemma dl_str i s : flat_map (dlseq i) (opt_list txt s) = match s with Some s => tag i [PT s] | None => [] end.
  Proof. destruct s; reflexivity. Qed.
  Lemma dl_ins i x : flat_map (dlseq i) (ins_docs (tins_ins x)) = tag i (ins_seq x).
  Proof.
    destruct x as [p s q]. unfold ins_docs, tins_ins, ins_seq, str_seq. cbn.
    rewrite !flat_map_app, !dl_opt, dl_str, !tag_app. destruct s; reflexivity.
  Qed.
  Lemma bare_leaf l : bare (leaf_seq l) = leaf_seq l.
  Proof. destruct l; reflexivity. Qed.
  Lemma bare_opt o : bare (opt_seq o) = opt_seq o.
  Proof. destruct o; [apply bare_leaf|reflexivity]. Qed.
  Lemma bare_ins x : bare (ins_seq x) = ins_seq x.
  Proof. unfold ins_seq. rewrite !bare_app, !bare_opt, bare_str. reflexivity. Qed.
  Lemma lb_tag i l : bare l = l -> lbare (tag i l) = tag i l.
  Proof. intro H. rewrite lbare_tag, H. reflexivity. Qed.

  Definition lagree (d : doc) (t : dt) : Prop := forall i, dlseq i d = lbare (lseq i t).
  Lemma dl_flat i ds ts : Forall2 lagree ds ts -> flat_map (dlseq i) ds = lbare (flat_map (lseq i) ts).
  Proof. induction 1 as [|d t ds ts H HF IH]; [reflexivity|]. cbn [flat_map]. rewrite lbare_app, H, IH. reflexivity. Qed.
  Lemma dl_intersperse i ds ts sep : Forall2 lagree ds ts ->
    dlseq i (intersperse ds (tins_ins sep)) = lbare (lstrung i (ins_seq sep) (map (lseq i) ts)).
  Proof.
    intro HF. destruct HF as [|d t ds ts H HF]; [reflexivity|].
    unfold intersperse, concat. cbn [dlseq flat_map map lstrung]. rewrite lbare_app, H. f_equal.
    induction HF as [|d' t' ds ts H' HF IH]; [reflexivity|]. cbn [intersperse_tail flat_map map].
    rewrite !flat_map_app. cbn [flat_map]. rewrite dl_ins, H', IH, !lbare_app, lb_tag by apply bare_ins. rewrite <- app_assoc. reflexivity.
  Qed.
  Lemma dl_surround i ds ts sep o c d : Forall2 lagree ds ts ->
    surround b ds (tins_ins sep) (tins_ins o) (tins_ins c) = Ok d -> dlseq i d = lbare (lseq i (TSurround ts sep o c)).
  Proof.
    intros HF H. pose proof (dl_intersperse (i + step)%N ds ts sep HF) as Hs.
    destruct o as [op os oq], c as [cp cs cq]. unfold surround in H. cbn in H. cbn [lseq].
    destruct HF as [|d0 t0 ds ts H0 HF].
    - destruct os as [os|]; [|discriminate]. destruct cs as [cs|]; [|discriminate]. injection H as <-. reflexivity.
    - injection H as <-. unfold concat. cbn [dlseq]. rewrite !flat_map_app, !dl_opt, !dl_opti, !dl_str.
      cbn [flat_map indent]. unfold str_seq. cbn [t_pre t_suf t_str].
      unfold indent. cbn [dlseq]. rewrite !lbare_app, <- Hs, !lbare_tag, !bare_app, !bare_opt, bare_ins.
      unfold ins_seq, str_seq. cbn [t_pre t_suf t_str]. rewrite !tag_app, <- !app_assoc. unfold intersperse, concat. cbn [dlseq flat_map app].
      rewrite !flat_map_app, !dl_opt, dl_str.
      destruct os, cs; cbn [bare spread flat_map expand map app]; rewrite ?app_nil_r, <- ?app_assoc; reflexivity.
  Qed.
  Lemma dl_members i (ds : list (doc * bool)) (ts : list (dt * bool)) :
    Forall2 (fun d t => lagree (fst d) (fst t) /\ snd d = snd t) ds ts ->
    dlseq i (intersperse_body_members ds) = lbare (lmseq i ts).
  Proof.
    intro HF. unfold lmseq.
    assert (HI : ds <> [] -> flat_map (dlseq i) (intersperse_members ds) =
      lbare (lmember i (map (fun m : dt * bool => let (x, tr) := m in (lseq i x, tr)) ts))).
    { induction HF as [|[d tr] [t tr'] ds ts [H E] HF IH]; intro HD; [exfalso; apply HD; reflexivity|]. cbn in H, E. subst tr'.
      cbn [intersperse_members map lmember]. destruct HF as [|d' t' ds ts H' HF].
      - cbn [flat_map map]. rewrite app_nil_r. apply H.
      - cbn [flat_map]. rewrite IH, H by discriminate. cbn [map]. destruct t' as [t' tr2]. rewrite !lbare_app, (lb_tag i (sep_seq tr)) by apply bare_sep.
        destruct tr; reflexivity. }
    destruct ds; [inversion HF; subst; reflexivity|]. apply HI. discriminate.
  Qed.

  Section RunLevels.
    Variable cm : cmap.
    Hypothesis empty : forall id bk, get_comment_bucket cm id = Ok bk -> bucket_empty bk.
    Lemma build_punct_levels i p d w : build_punct cm p = Ok (d, w) -> dlseq i d = tag i (sign_seq p).
    Proof.
      destruct p as [comma id]. unfold build_punct. intro H.
      apply mbind_ok in H as (bk & w1 & w2 & H1 & H2 & _). apply lift_ok in H1 as [H1 _].
      apply mark_ok in H2 as [-> _]. apply empty in H1 as (Hp & Hq & _).
      unfold punct_docs. rewrite Hp, Hq. destruct comma; reflexivity.
    Qed.
    Lemma build_punct_opt_levels i o ds w : build_punct_opt cm o = Ok (ds, w) ->
      flat_map (dlseq i) ds = match o with Some p => tag i (sign_seq p) | None => [] end.
    Proof.
      destruct o as [p|]; simpl; intro H.
      - apply mmap_ok in H as (d & H & ->). apply (build_punct_levels i) in H. simpl. rewrite app_nil_r. exact H.
      - apply ret_ok in H as [-> _]. reflexivity.
    Qed.
    Lemma build_node_levels i h x (members : M (list doc)) ps ds w :
      (forall ms v, members = Ok (ms, v) -> flat_map (dlseq i) ms = ps) ->
      build_node cm b h x members = Ok (ds, w) -> flat_map (dlseq i) ds = ps ++ tag i (end_seq h x).
    Proof.
      intros HM H. unfold build_node in H. apply mbind_ok in H as (bk & w1 & w2 & H1 & H & _).
      apply lift_ok in H1 as [H1 _]. apply empty in H1 as (Hp & Hq & Hd).
      unfold seqM, pre_docs, post_docs, members_or_dangling, members_or_bracket,
        handle_pre_comments, handle_post_comments in H. rewrite Hp, Hq, Hd in H. cbn [is_nil mark] in H.
      pose proof (fun ds w => build_punct_opt_levels i (x_punc x) ds w) as HP. unfold end_seq.
      destruct h; cbn [prints_punct];
        repeat match goal with
        | H : mmap _ _ = Ok _ |- _ => apply mmap_ok in H as (? & H & ->)
        | H : mapM _ (_ :: _) = Ok _ |- _ => cbn [mapM] in H
        | H : mbind _ _ = Ok _ |- _ => apply mbind_ok in H as (? & ? & ? & ? & H & ->)
        | H : ret _ = Ok _ |- _ => apply ret_ok in H as [-> ->]
        | H : mark _ _ = Ok _ |- _ => apply mark_ok in H as [-> ->]
        | H : mapM _ [] = Ok _ |- _ => cbn [mapM] in H
        | H : members = Ok _ |- _ => apply HM in H
        | H : build_punct_opt _ _ = Ok _ |- _ => apply HP in H
        | H : Ok (?a, ?b) = Ok (?c, ?d) |- _ => injection H as ? ?; subst
        end;
        cbn [List.concat app flat_map]; rewrite ?flat_map_app, ?app_nil_r;
        cbn [flat_map app]; rewrite ?app_nil_r; try (destruct (x_punc x)); cbn [tag map] in *; repeat match goal with H : flat_map _ _ = [] |- _ => rewrite H end; rewrite ?app_nil_r; try congruence.
    Qed.
    Lemma lb_sign i p : lbare (tag i (sign_seq p)) = tag i (sign_seq p).
    Proof. destruct p as [[] id]; reflexivity. Qed.
    Lemma lb_end i h x : lbare (tag i (end_seq h x)) = tag i (end_seq h x).
    Proof. unfold end_seq. destruct (prints_punct h); [|reflexivity]. destruct (x_punc x); [apply lb_sign|reflexivity]. Qed.
    Lemma run_levels t : forall d w, run cm b t = Ok (d, w) -> lagree d t.
    Proof.
      assert (HL : forall l ds w,
        Forall (fun t => forall d w, run cm b t = Ok (d, w) -> lagree d t) l ->
        mapM (run cm b) l = Ok (ds, w) -> Forall2 lagree ds l).
      { intros l ds w HF H. eapply mapM_forall2; [|exact H]. exact HF. }
      assert (HLM : forall ms ds w,
        Forall (fun m : dt * bool => forall d w, run cm b (fst m) = Ok (d, w) -> lagree d (fst m)) ms ->
        mapM (fun m : dt * bool => let (x, tr) := m in mmap (fun d => (d, tr)) (run cm b x)) ms = Ok (ds, w) ->
        Forall2 (fun d t => lagree (fst d) (fst t) /\ snd d = snd t) ds ms).
      { intros l ds w HF H. eapply mapM_forall2; [|exact H]. rewrite Forall_forall in *. intros [x tr] Hx y v E.
        apply mmap_ok in E as (d & E & ->). cbn [fst snd]. apply (HF (x, tr) Hx) in E. split; [exact E|reflexivity]. }
      induction t using dt_nested_ind; intros d w0 E i; cbn [run] in E.
      - apply ret_ok in E as [-> _]. reflexivity.
      - apply ret_ok in E as [-> _]. cbn [lseq]. rewrite lb_tag by apply bare_leaf. apply dl_leaf.
      - apply ret_ok in E as [-> _]. reflexivity.
      - apply mmap_ok in E as (ds & E & ->). cbn [concat dlseq lseq]. apply HL in E; [|assumption].
        apply dl_flat. exact E.
      - apply mmap_ok in E as (ds & E & ->). cbn. eapply IHt. eassumption.
      - apply mmap_ok in E as (ds & E & ->). cbn. eapply IHt. eassumption.
      - apply mmap_ok in E as (ds & E & ->). cbn. f_equal. eapply IHt. eassumption.
      - apply mmap_ok in E as (ds & E & ->). apply HL in E; [|assumption]. apply dl_intersperse. exact E.
      - apply mbind_ok in E as (ds & w1 & w2 & E & E2 & _). apply lift_ok in E2 as [E2 _].
        apply HL in E; [|assumption]. eapply dl_surround; eauto.
      - apply mmap_ok in E as (ds & E & ->). apply HLM in E; [|assumption]. apply dl_members. exact E.
      - apply mmap_ok in E as (ds & E & ->). apply HLM in E; [|assumption].
        pose proof (dl_members (i + step)%N _ _ E) as Hm. unfold lmseq in Hm. cbn [lseq] in *. unfold surround_body_members. destruct ds as [|d0 ds].
        + inversion E; subst. reflexivity.
        + unfold concat. cbn [dlseq flat_map]. unfold nl, indent, txt. cbn [dlseq]. rewrite Hm.
          inversion E; subst. rewrite !lbare_app. cbn [app]. rewrite <- !app_assoc. reflexivity.
      - apply mmap_ok in E as (ds & E & ->). unfold seqM in E. apply mmap_ok in E as (dss & E & ->).
        cbn [mapM] in E. apply mbind_ok in E as (d1 & w1 & w2 & E1 & E2 & _).
        apply mbind_ok in E2 as (d2 & w3 & w4 & E2 & E3 & _). apply mbind_ok in E2 as (d3 & w5 & w6 & E2 & E4 & _).
        apply mbind_ok in E4 as (d4 & w7 & w8 & E5 & E6 & _). apply ret_ok in E5 as [-> _].
        apply ret_ok in E6 as [-> _]. apply ret_ok in E3 as [-> _].
        unfold concat. cbn [dlseq List.concat lseq]. rewrite app_nil_r, flat_map_app.
        assert (HB : forall ms v, mapM (run cm b) body = Ok (ms, v) -> flat_map (dlseq i) ms = lbare (flat_map (lseq i) body)).
        { intros ms v EM. apply HL in EM; [|assumption]. apply dl_flat. exact EM. }
        rewrite (build_node_levels i _ _ _ _ _ _ HB E1). apply HL in E2; [|assumption].
        rewrite (dl_flat i _ _ E2), !lbare_app, lb_end, <- app_assoc.
        replace (lbare (tag i (node_seq h x))) with (@nil tp) by (destruct h; reflexivity). reflexivity.
      - cbn [lseq]. rewrite lb_sign. eapply build_punct_levels. exact E.
      - discriminate.
    Qed.
  End RunLevels.
End Step.

(* ------------------------------------------------------------ laying it out *)

Inductive lfollows : list tp -> list atom -> Prop :=
| LF_nil : lfollows [] []
| LF_text s i l a : lfollows l a -> lfollows ((PT s, i) :: l) (AText s :: a)
| LF_break i l a : lfollows l a -> lfollows ((PB, i) :: l) (ABreak i :: a)
| LF_feed i l a : lfollows l a -> lfollows ((PF, i) :: l) (ALineFeed :: a)
| LF_space i l a : lfollows l a -> lfollows ((PS, i) :: l) (ASpace :: a)
| LF_soft i l a : lfollows l a -> lfollows ((PS, i) :: l) (ABreak i :: a)
| LF_none i l a : lfollows l a -> lfollows ((PY, i) :: l) a
| LF_maybe i l a : lfollows l a -> lfollows ((PY, i) :: l) (ABreak i :: a)
| LF_group i l a : lfollows l a -> lfollows ((PG, i) :: l) (AGroup :: a).
Lemma lfollows_follows l a : lfollows l a -> follows (untag l) a.
Proof. induction 1; cbn; [constructor|apply F_text|apply F_break|apply F_feed|apply F_space|apply F_soft|apply F_none|apply F_maybe|apply F_group]; assumption. Qed.
Lemma lfollows_app p q a b : lfollows p a -> lfollows q b -> lfollows (p ++ q) (a ++ b).
Proof.
  induction 1; intro; cbn [app]; [assumption|apply LF_text|apply LF_break|apply LF_feed|apply LF_space|apply LF_soft|apply LF_none|apply LF_maybe|apply LF_group]; auto.
Qed.
Lemma lfollows_split p q c : lfollows (p ++ q) c -> exists a b, c = a ++ b /\ lfollows p a /\ lfollows q b.
Proof.
  revert c. induction p as [|x p IH]; intros c H; cbn [app] in H.
  - exists [], c. repeat split; [constructor|exact H].
  - inversion H as [|? ? ? ? K|? ? ? K|? ? ? K|? ? ? K|? ? ? K|? ? ? K|? ? ? K|? ? ? K]; subst; destruct (IH _ K) as (a1 & b1 & -> & H1 & H2).
    + eexists (_ :: a1), b1. split; [reflexivity|]. split; [apply LF_text; exact H1|exact H2].
    + eexists (_ :: a1), b1. split; [reflexivity|]. split; [apply LF_break; exact H1|exact H2].
    + eexists (_ :: a1), b1. split; [reflexivity|]. split; [apply LF_feed; exact H1|exact H2].
    + eexists (_ :: a1), b1. split; [reflexivity|]. split; [apply LF_space; exact H1|exact H2].
    + eexists (_ :: a1), b1. split; [reflexivity|]. split; [apply LF_soft; exact H1|exact H2].
    + exists a1, b1. split; [reflexivity|]. split; [apply LF_none; exact H1|exact H2].
    + eexists (_ :: a1), b1. split; [reflexivity|]. split; [apply LF_maybe; exact H1|exact H2].
    + eexists (_ :: a1), b1. split; [reflexivity|]. split; [apply LF_group; exact H1|exact H2].
Qed.
Lemma layout_levels d : forall i f a, grouped d -> layout i f d a -> lfollows (dlseq i d) a.
Proof.
  induction d as [| | |s w| | |d IH|k d IH|k d IH|l IH|x y IHx IHy] using doc_nested_ind; intros i f a G H; inversion H; subst; cbn [dlseq].
  all: try (repeat constructor; fail).
  - eapply IH; eauto.
  - eapply IH; eauto.
  - eapply IH; eauto.
  - match goal with H : layouts _ _ _ _ |- _ => rename H into HL end. apply (proj1 (grouped_concat l)) in G.
    revert a H HL. clear -IH G. induction l as [|x l IHl]; intros a _ HL; inversion HL; subst; [constructor|].
    inversion IH; subst. inversion G; subst. cbn [flat_map]. apply lfollows_app; [eauto|].
    eapply IHl; eauto. constructor. eassumption.
  - constructor. destruct G as [-> G]. eapply IHx; [exact G|eassumption].
  - constructor. destruct G as [-> G]. eapply IHy; [exact G|eassumption].
Qed.
