(* SeqTerm.v: everything a comment-free term prints, in order: texts, line breaks
   and the places of nodes.  Proofs only. *)
From Coq Require Import Lia.
From Verif Require Import Base Doc DocBuilder Cst Comments Term SpecDoc SpecTree DocProofs
  TermProofs TermProofs2 New SpecTokens TokensProofs SpecWords BitsProofs WordsTerm.
Local Open Scope list_scope.

Inductive piece :=
| PT (s : ustr)       (* a text *)
| PN (id : N)         (* here begins what is printed for this node *)
| PB                  (* a line break *)
| PF                  (* a bare line feed *)
| PS                  (* a space or a line break *)
| PY                  (* nothing or a line break *)
| PG.                 (* a group begins *)

Definition leaf_seq (l : leaf) : list piece := match l with LNl => [PB] | LSoft => [PS] | LMaybe => [PY] end.
Definition opt_seq (o : option leaf) : list piece := match o with Some l => leaf_seq l | None => [] end.
Definition str_seq (i : tins) : list piece := match t_str i with Some s => [PT s] | None => [] end.
Definition ins_seq (i : tins) : list piece := opt_seq (t_pre i) ++ str_seq i ++ opt_seq (t_suf i).
Definition sign_seq (p : punct) : list piece := match p with Punct comma _ => [PT (U (if comma then "," else ";"))] end.
Definition sep_seq (tr : bool) : list piece := if tr then [PF; PB] else [PB].
Fixpoint member_seq (ms : list (list piece * bool)) : list piece :=
  match ms with
  | [] => [PT []]
  | [(w, _)] => w
  | (w, tr) :: r => w ++ sep_seq tr ++ member_seq r
  end.
Definition strung_seq (s : list piece) (l : list (list piece)) : list piece :=
  match l with [] => [PT []] | x :: r => x ++ flat_map (fun y => s ++ y) r end.
Definition node_seq (h : handling) (x : context) : list piece := match h with HRoot => [] | _ => [PN (x_id x)] end.
Definition end_seq (h : handling) (x : context) : list piece :=
  if prints_punct h then match x_punc x with Some p => sign_seq p | None => [] end else [].
Fixpoint seq (t : dt) : list piece :=
  match t with
  | TTxt s => [PT s]
  | TLeaf l => leaf_seq l
  | TEmptyLine => [PF; PB]
  | TPanic _ => []
  | TConcat l => flat_map seq l
  | TIndent x | TDedent x => seq x
  | TGroup x => PG :: seq x
  | TIntersperse l sep => strung_seq (ins_seq sep) (map seq l)
  | TSurround l sep o c =>
      match l with
      | [] => str_seq o ++ str_seq c
      | _ => ins_seq o ++ strung_seq (ins_seq sep) (map seq l) ++ ins_seq c
      end
  | TMembers ms => member_seq (map (fun m : dt * bool => let (x, tr) := m in (seq x, tr)) ms)
  | TSurroundMembers ms o c =>
      [PT o; PB] ++ match ms with [] => [] | _ =>
        member_seq (map (fun m : dt * bool => let (x, tr) := m in (seq x, tr)) ms) ++ [PB] end ++ [PT c]
  | TNode h x body tail => node_seq h x ++ flat_map seq body ++ end_seq h x ++ flat_map seq tail
  | TPunct p => sign_seq p
  end.

(* ------------------------------------------------------------ replacing the places *)

Definition expand (mk : N -> list ustr) (p : piece) : list piece := match p with PN id => map PT (mk id) | q => [q] end.
Definition spread (mk : N -> list ustr) (l : list piece) : list piece := flat_map (expand mk) l.
Definition bare : list piece -> list piece := spread (fun _ => []).
Lemma spread_app mk a b : spread mk (a ++ b) = spread mk a ++ spread mk b.
Proof. apply flat_map_app. Qed.
Lemma bare_app a b : bare (a ++ b) = bare a ++ bare b.
Proof. apply flat_map_app. Qed.
Definition text (p : piece) : list ustr := match p with PT s => [s] | _ => [] end.
Definition said (l : list piece) : list ustr := flat_map text l.
Lemma said_app a b : said (a ++ b) = said a ++ said b.
Proof. apply flat_map_app. Qed.
Lemma said_bare l : said (bare l) = said l.
Proof. induction l as [|p l IH]; [reflexivity|]. change (bare (p :: l)) with (expand (fun _ => []) p ++ bare l). rewrite said_app, IH. destruct p; reflexivity. Qed.

(* ------------------------------------------------------------ what a document prints *)

Fixpoint dseq (d : doc) : list piece :=
  match d with
  | Newline => [PB]
  | NewlineNoIndent => [PF]
  | Softline => [PS]
  | Maybeline => [PY]
  | ForceBreak => []
  | Text s _ => [PT s]
  | Flat x | Indent _ x | Dedent _ x => dseq x
  | Concat l => flat_map dseq l
  | Choice x _ => PG :: dseq x
  end.

Lemma dseq_leaf l : dseq (leaf_doc l) = bare (leaf_seq l).
Proof. destruct l; reflexivity. Qed.
Lemma dseq_opt o : flat_map dseq (opt_list (fun d => d) (option_map leaf_doc o)) = bare (opt_seq o).
Proof. destruct o as [l|]; simpl; [rewrite dseq_leaf, app_nil_r|]; reflexivity. Qed.
Lemma dseq_opti b o : flat_map dseq (opt_list (indent b) (option_map leaf_doc o)) = bare (opt_seq o).
Proof. destruct o as [l|]; simpl; [rewrite dseq_leaf, app_nil_r|]; reflexivity. Qed.
Lemma dseq_str s : flat_map dseq (opt_list txt s) = match s with Some s => [PT s] | None => [] end.
Proof. destruct s; reflexivity. Qed.
Lemma bare_str i : bare (str_seq i) = str_seq i.
Proof. unfold str_seq. destruct (t_str i); reflexivity. Qed.
Lemma dseq_ins i : flat_map dseq (ins_docs (tins_ins i)) = bare (ins_seq i).
Proof.
  destruct i as [p s q]. unfold ins_docs, tins_ins, ins_seq, str_seq. cbn.
  rewrite !flat_map_app, !dseq_opt, dseq_str, !bare_app. destruct s; reflexivity.
Qed.
Definition agree (d : doc) (t : dt) : Prop := dseq d = bare (seq t).
Lemma bare_flat {A} (g : A -> list piece) l : bare (flat_map g l) = flat_map (fun x => bare (g x)) l.
Proof. induction l as [|x l IH]; [reflexivity|]. cbn [flat_map]. rewrite bare_app, IH. reflexivity. Qed.
Lemma dseq_flat ds ts : Forall2 agree ds ts -> flat_map dseq ds = bare (flat_map seq ts).
Proof. induction 1 as [|d t ds ts H HF IH]; [reflexivity|]. cbn [flat_map]. rewrite bare_app, H, IH. reflexivity. Qed.
Lemma dseq_intersperse ds ts sep : Forall2 agree ds ts ->
  dseq (intersperse ds (tins_ins sep)) = bare (strung_seq (ins_seq sep) (map seq ts)).
Proof.
  intro HF. destruct HF as [|d t ds ts H HF]; [reflexivity|].
  unfold intersperse, concat. cbn [dseq flat_map map strung_seq]. rewrite bare_app, H. f_equal.
  induction HF as [|d' t' ds ts H' HF IH]; [reflexivity|]. cbn [intersperse_tail flat_map map].
  rewrite !flat_map_app. cbn [flat_map]. rewrite dseq_ins, H', IH, !bare_app, <- app_assoc. reflexivity.
Qed.
Lemma dseq_surround b ds ts sep o c d : Forall2 agree ds ts ->
  surround b ds (tins_ins sep) (tins_ins o) (tins_ins c) = Ok d -> dseq d = bare (seq (TSurround ts sep o c)).
Proof.
  intros HF H. pose proof (dseq_intersperse ds ts sep HF) as Hs.
  destruct o as [op os oq], c as [cp cs cq]. unfold surround in H. cbn in H. cbn [seq].
  destruct HF as [|d0 t0 ds ts H0 HF].
  - destruct os as [os|]; [|discriminate]. destruct cs as [cs|]; [|discriminate]. injection H as <-. reflexivity.
  - injection H as <-. unfold concat. cbn [dseq]. rewrite !flat_map_app, !dseq_opt, !dseq_opti, !dseq_str.
    cbn [flat_map indent]. unfold ins_seq at 1 3, str_seq. cbn [t_pre t_suf t_str].
    unfold indent. cbn [dseq]. unfold intersperse, concat in Hs. cbn [dseq flat_map] in *. rewrite !bare_app, Hs, !flat_map_app, !dseq_opt, dseq_str.
    rewrite <- !app_assoc. destruct os, cs; reflexivity.
Qed.
Lemma bare_sep tr : bare (sep_seq tr) = sep_seq tr.
Proof. destruct tr; reflexivity. Qed.
Definition mseq (ts : list (dt * bool)) : list piece := member_seq (map (fun m : dt * bool => let (x, tr) := m in (seq x, tr)) ts).
Lemma dseq_members (ds : list (doc * bool)) (ts : list (dt * bool)) :
  Forall2 (fun d t => agree (fst d) (fst t) /\ snd d = snd t) ds ts ->
  dseq (intersperse_body_members ds) = bare (mseq ts).
Proof.
  intro HF. unfold mseq.
  assert (HI : ds <> [] -> flat_map dseq (intersperse_members ds) =
    bare (member_seq (map (fun m : dt * bool => let (x, tr) := m in (seq x, tr)) ts))).
  { induction HF as [|[d tr] [t tr'] ds ts [H E] HF IH]; intro HD; [exfalso; apply HD; reflexivity|]. cbn in H, E. subst tr'.
    cbn [intersperse_members map member_seq]. destruct HF as [|d' t' ds ts H' HF].
    - cbn [flat_map map]. rewrite app_nil_r. exact H.
    - cbn [flat_map]. rewrite IH, H by discriminate. cbn [map]. destruct t' as [t' tr2]. rewrite !bare_app, bare_sep. destruct tr; reflexivity. }
  destruct ds; [inversion HF; subst; reflexivity|]. apply HI. discriminate.
Qed.

Section RunSeq.
  Variable cm : cmap.
  Variable b : pretty_config.
  Hypothesis empty : forall id bk, get_comment_bucket cm id = Ok bk -> bucket_empty bk.

  Lemma build_punct_seq p d w : build_punct cm p = Ok (d, w) -> dseq d = sign_seq p.
  Proof.
    destruct p as [comma id]. unfold build_punct. intro H.
    apply mbind_ok in H as (bk & w1 & w2 & H1 & H2 & _). apply lift_ok in H1 as [H1 _].
    apply mark_ok in H2 as [-> _]. apply empty in H1 as (Hp & Hq & _).
    unfold punct_docs. rewrite Hp, Hq. destruct comma; reflexivity.
  Qed.
  Lemma build_punct_opt_seq o ds w : build_punct_opt cm o = Ok (ds, w) ->
    flat_map dseq ds = match o with Some p => sign_seq p | None => [] end.
  Proof.
    destruct o as [p|]; simpl; intro H.
    - apply mmap_ok in H as (d & H & ->). apply build_punct_seq in H. simpl. rewrite app_nil_r. exact H.
    - apply ret_ok in H as [-> _]. reflexivity.
  Qed.
  Lemma bare_sign p : bare (sign_seq p) = sign_seq p.
  Proof. destruct p as [[] id]; reflexivity. Qed.
  Lemma bare_end h x : bare (end_seq h x) = end_seq h x.
  Proof. unfold end_seq. destruct (prints_punct h); [|reflexivity]. destruct (x_punc x); [apply bare_sign|reflexivity]. Qed.
  Lemma build_node_seq h x (members : M (list doc)) ps ds w :
    (forall ms v, members = Ok (ms, v) -> flat_map dseq ms = ps) ->
    build_node cm b h x members = Ok (ds, w) -> flat_map dseq ds = ps ++ end_seq h x.
  Proof.
    intros HM H. unfold build_node in H. apply mbind_ok in H as (bk & w1 & w2 & H1 & H & _).
    apply lift_ok in H1 as [H1 _]. apply empty in H1 as (Hp & Hq & Hd).
    unfold seqM, pre_docs, post_docs, members_or_dangling, members_or_bracket,
      handle_pre_comments, handle_post_comments in H. rewrite Hp, Hq, Hd in H. cbn [is_nil mark] in H.
    pose proof (fun ds w => build_punct_opt_seq (x_punc x) ds w) as HP. unfold end_seq.
    destruct h; cbn [prints_punct];
      repeat match goal with
      | H : mmap _ _ = Ok _ |- _ => apply mmap_ok in H as (? & H & ->)
      | H : mapM _ (_ :: _) = Ok _ |- _ => cbn [mapM] in H
      | H : mbind _ _ = Ok _ |- _ => apply mbind_ok in H as (? & ? & ? & ? & H & ->)
      | H : ret _ = Ok _ |- _ => apply ret_ok in H as [-> ->]
      | H : mark _ _ = Ok _ |- _ => apply mark_ok in H as [-> ->]
      | H : mapM _ [] = Ok _ |- _ => cbn [mapM] in H
      | H : members = Ok _ |- _ => apply HM in H
      | H : build_punct_opt _ _ = Ok _ |- _ => apply HP in H
      | H : Ok (?a, ?b) = Ok (?c, ?d) |- _ => injection H as ? ?; subst
      end;
      cbn [List.concat app flat_map]; rewrite ?flat_map_app, ?app_nil_r;
      cbn [flat_map app]; rewrite ?app_nil_r; try congruence.
  Qed.

  Lemma run_seq t : forall d w, run cm b t = Ok (d, w) -> dseq d = bare (seq t).
  Proof.
    assert (HL : forall l ds w,
      Forall (fun t => forall d w, run cm b t = Ok (d, w) -> dseq d = bare (seq t)) l ->
      mapM (run cm b) l = Ok (ds, w) -> Forall2 agree ds l).
    { intros l ds w HF H. eapply mapM_forall2; [|exact H]. exact HF. }
    assert (HLM : forall ms ds w,
      Forall (fun m : dt * bool => forall d w, run cm b (fst m) = Ok (d, w) -> dseq d = bare (seq (fst m))) ms ->
      mapM (fun m : dt * bool => let (x, tr) := m in mmap (fun d => (d, tr)) (run cm b x)) ms = Ok (ds, w) ->
      Forall2 (fun d t => agree (fst d) (fst t) /\ snd d = snd t) ds ms).
    { intros l ds w HF H. eapply mapM_forall2; [|exact H]. rewrite Forall_forall in *. intros [x tr] Hx y v E.
      apply mmap_ok in E as (d & E & ->). cbn [fst snd]. apply (HF (x, tr) Hx) in E. split; [exact E|reflexivity]. }
    induction t using dt_nested_ind; intros d w0 E; cbn [run] in E.
    - apply ret_ok in E as [-> _]. reflexivity.
    - apply ret_ok in E as [-> _]. apply dseq_leaf.
    - apply ret_ok in E as [-> _]. reflexivity.
    - apply mmap_ok in E as (ds & E & ->). cbn [concat dseq seq]. apply HL in E; [|assumption].
      apply dseq_flat. exact E.
    - apply mmap_ok in E as (ds & E & ->). cbn. eauto.
    - apply mmap_ok in E as (ds & E & ->). cbn. eauto.
    - apply mmap_ok in E as (ds & E & ->). cbn. f_equal. eauto.
    - apply mmap_ok in E as (ds & E & ->). apply HL in E; [|assumption]. apply dseq_intersperse. exact E.
    - apply mbind_ok in E as (ds & w1 & w2 & E & E2 & _). apply lift_ok in E2 as [E2 _].
      apply HL in E; [|assumption]. eapply dseq_surround; eauto.
    - apply mmap_ok in E as (ds & E & ->). apply HLM in E; [|assumption]. apply dseq_members. exact E.
    - apply mmap_ok in E as (ds & E & ->). apply HLM in E; [|assumption].
      pose proof (dseq_members _ _ E) as Hm. unfold mseq in Hm. cbn [seq] in *. unfold surround_body_members. destruct ds as [|d0 ds].
      + inversion E; subst. reflexivity.
      + unfold concat. cbn [dseq flat_map]. unfold nl, indent, txt. cbn [dseq]. rewrite Hm.
        inversion E; subst. rewrite !bare_app. cbn [app]. rewrite <- !app_assoc. reflexivity.
    - apply mmap_ok in E as (ds & E & ->). unfold seqM in E. apply mmap_ok in E as (dss & E & ->).
      cbn [mapM] in E. apply mbind_ok in E as (d1 & w1 & w2 & E1 & E2 & _).
      apply mbind_ok in E2 as (d2 & w3 & w4 & E2 & E3 & _). apply mbind_ok in E2 as (d3 & w5 & w6 & E2 & E4 & _).
      apply mbind_ok in E4 as (d4 & w7 & w8 & E5 & E6 & _). apply ret_ok in E5 as [-> _].
      apply ret_ok in E6 as [-> _]. apply ret_ok in E3 as [-> _].
      unfold concat. cbn [dseq List.concat seq]. rewrite app_nil_r, flat_map_app.
      assert (HB : forall ms v, mapM (run cm b) body = Ok (ms, v) -> flat_map dseq ms = bare (flat_map seq body)).
      { intros ms v EM. apply HL in EM; [|assumption]. apply dseq_flat. exact EM. }
      rewrite (build_node_seq _ _ _ _ _ _ HB E1). apply HL in E2; [|assumption].
      rewrite (dseq_flat _ _ E2), !bare_app, bare_end, <- app_assoc.
      replace (bare (node_seq h x)) with (@nil piece) by (destruct h; reflexivity). reflexivity.
    - apply build_punct_seq in E. rewrite E. symmetry. apply bare_sign.
    - discriminate.
  Qed.
End RunSeq.

(* ------------------------------------------------------------ laying it out *)

Inductive follows : list piece -> list atom -> Prop :=
| F_nil : follows [] []
| F_text s l a : follows l a -> follows (PT s :: l) (AText s :: a)
| F_break i l a : follows l a -> follows (PB :: l) (ABreak i :: a)
| F_feed l a : follows l a -> follows (PF :: l) (ALineFeed :: a)
| F_space l a : follows l a -> follows (PS :: l) (ASpace :: a)
| F_soft i l a : follows l a -> follows (PS :: l) (ABreak i :: a)
| F_none l a : follows l a -> follows (PY :: l) a
| F_maybe i l a : follows l a -> follows (PY :: l) (ABreak i :: a)
| F_group l a : follows l a -> follows (PG :: l) (AGroup :: a).
Lemma follows_app p q a b : follows p a -> follows q b -> follows (p ++ q) (a ++ b).
Proof.
  induction 1; intro; cbn [app]; [assumption|apply F_text|apply F_break|apply F_feed|apply F_space|apply F_soft|apply F_none|apply F_maybe|apply F_group]; auto.
Qed.
Lemma follows_split p q c : follows (p ++ q) c -> exists a b, c = a ++ b /\ follows p a /\ follows q b.
Proof.
  revert c. induction p as [|x p IH]; intros c H; cbn [app] in H.
  - exists [], c. repeat split; [constructor|exact H].
  - inversion H as [|? ? ? K|? ? ? K|? ? K|? ? K|? ? ? K|? ? K|? ? ? K|? ? K]; subst; destruct (IH _ K) as (a1 & b1 & -> & H1 & H2).
    + eexists (_ :: a1), b1. split; [reflexivity|]. split; [apply F_text; exact H1|exact H2].
    + eexists (_ :: a1), b1. split; [reflexivity|]. split; [apply F_break; exact H1|exact H2].
    + eexists (_ :: a1), b1. split; [reflexivity|]. split; [apply F_feed; exact H1|exact H2].
    + eexists (_ :: a1), b1. split; [reflexivity|]. split; [apply F_space; exact H1|exact H2].
    + eexists (_ :: a1), b1. split; [reflexivity|]. split; [apply F_soft; exact H1|exact H2].
    + exists a1, b1. split; [reflexivity|]. split; [apply F_none; exact H1|exact H2].
    + eexists (_ :: a1), b1. split; [reflexivity|]. split; [apply F_maybe; exact H1|exact H2].
    + eexists (_ :: a1), b1. split; [reflexivity|]. split; [apply F_group; exact H1|exact H2].
Qed.
Lemma layout_follows d : forall i f a, grouped d -> layout i f d a -> follows (dseq d) a.
Proof.
  induction d as [| | |s w| | |d IH|k d IH|k d IH|l IH|x y IHx IHy] using doc_nested_ind; intros i f a G H; inversion H; subst; cbn [dseq].
  all: try (repeat constructor; fail).
  - eapply IH; eauto.
  - eapply IH; eauto.
  - eapply IH; eauto.
  - match goal with H : layouts _ _ _ _ |- _ => rename H into HL end. apply (proj1 (grouped_concat l)) in G.
    revert a H HL. clear -IH G. induction l as [|x l IHl]; intros a _ HL; inversion HL; subst; [constructor|].
    inversion IH; subst. inversion G; subst. cbn [flat_map]. apply follows_app; [eauto|].
    eapply IHl; eauto. constructor. eassumption.
  - constructor. destruct G as [-> G]. eapply IHx; [exact G|eassumption].
  - constructor. destruct G as [-> G]. eapply IHy; [exact G|eassumption].
Qed.

(* ------------------------------------------------------------ parts of a term *)

Definition parts (t : dt) : list dt :=
  match t with
  | TTxt _ | TLeaf _ | TEmptyLine | TPanic _ | TPunct _ => []
  | TConcat l | TIntersperse l _ | TSurround l _ _ _ => l
  | TIndent x | TDedent x | TGroup x => [x]
  | TMembers ms | TSurroundMembers ms _ _ => map fst ms
  | TNode _ _ body tail => body ++ tail
  end.
Inductive part (d : dt) : dt -> Prop :=
| Part_self : part d d
| Part_in p t : part d p -> In p (parts t) -> part d t.
Lemma part_trans a b c : part a b -> part b c -> part a c.
Proof. intros H K. induction K as [|p c K IH Hp]; [exact H|]. eapply Part_in; eassumption. Qed.

Lemma flat_in {A} (g : A -> list piece) l x : In x l -> exists a b, flat_map g l = a ++ g x ++ b.
Proof.
  intro H. apply in_split in H as (u & v & ->). exists (flat_map g u), (flat_map g v). rewrite flat_map_app. reflexivity.
Qed.
Lemma strung_in s l x : In x l -> exists a b, strung_seq s l = a ++ x ++ b.
Proof.
  destruct l as [|y l]; [intros []|]. intros [->|H]; cbn [strung_seq].
  - exists [], (flat_map (fun y => s ++ y) l). reflexivity.
  - destruct (flat_in (fun y => s ++ y) l x H) as (a & b & ->). exists (y ++ a ++ s), b. rewrite <- !app_assoc. reflexivity.
Qed.
Lemma member_in (l : list (list piece * bool)) x tr : In (x, tr) l -> exists a b, member_seq l = a ++ x ++ b.
Proof.
  induction l as [|[y tr'] l IH]; [intros []|]. intros [E|H].
  - injection E as -> ->. destruct l as [|z l].
    + exists [], []. cbn. rewrite app_nil_r. reflexivity.
    + exists [], (sep_seq tr ++ member_seq (z :: l)). reflexivity.
  - destruct (IH H) as (a & b & E). destruct l as [|z l]; [destruct H|].
    exists (y ++ sep_seq tr' ++ a), b. change (member_seq ((y, tr') :: z :: l)) with (y ++ sep_seq tr' ++ member_seq (z :: l)).
    rewrite E, <- !app_assoc. reflexivity.
Qed.
Lemma parts_seq p t : In p (parts t) -> exists a b, seq t = a ++ seq p ++ b.
Proof.
  destruct t as [s|l| |l|x|x|x|l sep|l sep o c|ms|ms o c|h x body tail|q|w]; cbn [parts seq]; intro H; try contradiction.
  - apply flat_in. exact H.
  - destruct H as [->|[]]. exists [], []. rewrite app_nil_r. reflexivity.
  - destruct H as [->|[]]. exists [], []. rewrite app_nil_r. reflexivity.
  - destruct H as [->|[]]. exists [PG], []. rewrite app_nil_r. reflexivity.
  - apply strung_in, in_map, H.
  - destruct l as [|y l]; [destruct H|]. destruct (strung_in (ins_seq sep) (map seq (y :: l)) (seq p) (in_map seq _ _ H)) as (a & b & ->).
    exists (ins_seq o ++ a), (b ++ ins_seq c). rewrite <- !app_assoc. reflexivity.
  - apply in_map_iff in H as ([x tr] & E & H). cbn in E. subst x.
    apply (member_in _ _ tr). apply in_map_iff. exists (p, tr). auto.
  - apply in_map_iff in H as ([x tr] & E & H). cbn in E. subst x. destruct ms as [|m ms]; [destruct H|].
    destruct (member_in (map (fun m : dt * bool => let (x, tr) := m in (seq x, tr)) (m :: ms)) (seq p) tr) as (a & b & ->).
    { apply in_map_iff. exists (p, tr). auto. }
    exists (PT o :: PB :: a), (b ++ [PB] ++ [PT c]). cbn [app]. rewrite <- !app_assoc. reflexivity.
  - apply in_app_or in H as [H|H]; apply (flat_in seq) in H as (a & b & ->).
    + exists (node_seq h x ++ a), (b ++ end_seq h x ++ flat_map seq tail). rewrite <- !app_assoc. reflexivity.
    + exists (node_seq h x ++ flat_map seq body ++ end_seq h x ++ a), b. rewrite <- !app_assoc. reflexivity.
Qed.
Lemma part_seq d t : part d t -> exists a b, seq t = a ++ seq d ++ b.
Proof.
  induction 1 as [|p t H (a & b & IH) Hp]; [exists [], []; rewrite app_nil_r; reflexivity|].
  apply parts_seq in Hp as (a' & b' & ->). rewrite IH. exists (a' ++ a), (b ++ b'). rewrite <- !app_assoc. reflexivity.
Qed.

(* ------------------------------------------------------------ the places as texts *)

Definition fronts (mk : N -> list ustr) : dangles :=
  {| loose := true; dangle := fun _ => false; n_pre := mk; n_post := fun _ => []; n_in := fun _ => []; n_root := fun _ => []; p_pre := fun _ => []; p_post := fun _ => [] |}.
Section Fronts.
  Variable mk : N -> list ustr.
  Local Instance DG : dangles := fronts mk.
  Definition told (l : list piece) : list ustr := flat_map bits (said (spread mk l)).
  Lemma told_app a b : told (a ++ b) = told a ++ told b.
  Proof. unfold told. rewrite spread_app, said_app, flat_map_app. reflexivity. Qed.
  Lemma told_flat (l : list dt) : Forall (fun t => flat_map bits (pieces t) = told (seq t)) l ->
    flat_map bits (flat_map pieces l) = told (flat_map seq l).
  Proof. induction 1 as [|x l Hx Hl IH]; [reflexivity|]. cbn [flat_map]. rewrite flat_map_app, told_app, Hx, IH. reflexivity. Qed.
  Lemma told_leaf l : told (leaf_seq l) = [].
  Proof. destruct l; reflexivity. Qed.
  Lemma told_opt o : told (opt_seq o) = [].
  Proof. destruct o; [apply told_leaf|reflexivity]. Qed.
  Lemma told_str i : told (str_seq i) = flat_map bits (str_piece i).
  Proof. unfold str_seq, str_piece. destruct (t_str i); reflexivity. Qed.
  Lemma told_ins i : told (ins_seq i) = flat_map bits (str_piece i).
  Proof. unfold ins_seq. rewrite !told_app, !told_opt, told_str, app_nil_r. reflexivity. Qed.
  Lemma told_strung sep (l : list dt) : Forall (fun t => flat_map bits (pieces t) = told (seq t)) l ->
    flat_map bits (joined (str_piece sep) (map pieces l)) = told (strung_seq (ins_seq sep) (map seq l)).
  Proof.
    intro H. destruct H as [|x l Hx Hl]; [reflexivity|]. cbn [map joined strung_seq].
    rewrite told_app, flat_map_app, Hx. f_equal.
    induction Hl as [|y l Hy Hl IH]; [reflexivity|]. cbn [map flat_map].
    rewrite !told_app, !flat_map_app, Hy, IH, told_ins. reflexivity.
  Qed.
  Lemma told_sep tr : told (sep_seq tr) = [].
  Proof. destruct tr; reflexivity. Qed.
  Lemma told_members (ms : list (dt * bool)) : Forall (fun m => flat_map bits (pieces (fst m)) = told (seq (fst m))) ms ->
    flat_map bits (flat_map (fun m : dt * bool => let (x, _) := m in pieces x) ms) = told (mseq ms).
  Proof.
    unfold mseq. induction 1 as [|[x tr] ms Hx Hm IH]; [reflexivity|]. cbn [flat_map map member_seq fst] in *.
    rewrite flat_map_app, IH, Hx. destruct ms as [|m ms]; [cbn; rewrite app_nil_r; reflexivity|].
    cbn [map]. rewrite !told_app, told_sep. reflexivity.
  Qed.
  Lemma told_sign p : told (sign_seq p) = flat_map bits (punct_piece p).
  Proof. destruct p as [[] id]; reflexivity. Qed.
  Lemma told_end h x : flat_map bits (end_piece h x) = told (end_seq h x).
  Proof.
    unfold end_piece, end_seq, post_piece, punc_piece. cbn [DG fronts dangle n_post].
    destruct h; cbn [prints_punct]; try reflexivity; destruct (x_punc x) as [p|]; try reflexivity; rewrite ?app_nil_r, told_sign; reflexivity.
  Qed.
  Lemma pieces_told t : flat_map bits (pieces t) = told (seq t).
  Proof.
    induction t using dt_nested_ind; cbn [pieces seq].
    - reflexivity.
    - symmetry. apply told_leaf.
    - reflexivity.
    - apply told_flat. assumption.
    - assumption.
    - assumption.
    - assumption.
    - apply told_strung. assumption.
    - destruct l as [|y l].
      + rewrite told_app, !told_str. cbn [map joined app]. rewrite flat_map_app. reflexivity.
      + rewrite !told_app, !told_ins, !flat_map_app, told_strung by assumption. reflexivity.
    - apply told_members. assumption.
    - pose proof (told_members ms) as M. unfold mseq in M.
      rewrite !flat_map_app. rewrite M by assumption.
      destruct ms as [|m ms]; [cbn; rewrite ?app_nil_r; reflexivity|].
      rewrite !told_app. change (told [PB]) with (@nil ustr). rewrite app_nil_r. reflexivity.
    - change (node_piece h x (flat_map pieces body)) with (flat_map pieces body).
      rewrite !told_app, !flat_map_app, !told_flat, told_end by assumption. f_equal.
      unfold pre_piece, node_seq. cbn [DG fronts n_pre].
      assert (E : flat_map bits (mk (x_id x)) = told [PN (x_id x)]).
      { unfold told, spread, expand. cbn [flat_map]. rewrite app_nil_r.
        induction (mk (x_id x)) as [|w l IHl]; [reflexivity|]. cbn. rewrite IHl. reflexivity. }
      destruct h; try exact E. reflexivity.
    - symmetry. apply told_sign.
    - reflexivity.
  Qed.
End Fronts.
