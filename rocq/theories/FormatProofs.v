(* FormatProofs.v: what a successful formatting of a tree guarantees. *)
From Verif Require Import Base Doc DocBuilder SpecDoc DocProofs DocProofs2 Cst Comments
  SpecTree SpecComments Term TermProofs TermProofs2 New Formatter CollectProofs CollectProofs2.
From Coq Require Import Permutation.
Local Arguments N.add : simpl never.

(* ------------------------------------------------------------ words *)

Lemma blank_app a b : blank a -> blank b -> blank (a ++ b).
Proof. unfold blank. intros. apply Forall_app; auto. Qed.
Lemma blank_spaces n : blank (repeat c_sp n).
Proof. induction n; simpl; constructor; auto. Qed.
Lemma blank_nl : blank [c_nl].
Proof. repeat constructor. Qed.
Lemma blank_sp : blank [c_sp].
Proof. repeat constructor. Qed.
Lemma spaced_blank b ts s : blank b -> spaced ts s -> spaced ts (b ++ s).
Proof.
  intros Hb H. inversion H; subst.
  - constructor. apply blank_app; auto.
  - rewrite app_assoc. constructor; [apply blank_app; auto|assumption].
Qed.
Definition atom_words (a : atom) : list ustr :=
  match a with AText s => if ustr_eqb s [c_sp] then [] else [s] | _ => [] end.

Lemma settle_blank s : exists b, settle s = fst s ++ b /\ blank b.
Proof.
  destruct s as [o [i|]]; simpl.
  - exists (c_nl :: repeat c_sp (N.to_nat i)). split; [reflexivity|].
    constructor; [reflexivity|apply blank_spaces].
  - exists []. rewrite app_nil_r. split; [reflexivity|constructor].
Qed.
Lemma render_words l : forall s, exists m,
  settle (render_from s l) = fst s ++ m /\ spaced (flat_map atom_words l) m.
Proof.
  induction l as [|a l IH]; intro s.
  - destruct (settle_blank s) as (b & H & Hb). exists b. split; [exact H|]. constructor; exact Hb.
  - change (render_from s (a :: l)) with (render_from (render1 s a) l).
    destruct (IH (render1 s a)) as (m & Hm & Hs). rewrite Hm.
    destruct (settle_blank s) as (b & Hb1 & Hb2).
    destruct a; cbn [render1 fst flat_map atom_words app].
    + unfold put. destruct (ustr_eqb s0 [c_sp]) eqn:E; simpl.
      * apply ustr_eqb_eq in E. subst s0. destruct (ends_with_char c_sp (settle s)).
        -- rewrite Hb1. exists (b ++ m). rewrite app_assoc. split; [reflexivity|]. apply spaced_blank; auto.
        -- rewrite Hb1. exists (b ++ [c_sp] ++ m). rewrite !app_assoc. split; [reflexivity|].
           rewrite <- !app_assoc. apply spaced_blank; auto. apply spaced_blank; auto. apply blank_sp.
      * rewrite Hb1. exists (b ++ s0 ++ m). rewrite !app_assoc. split; [reflexivity|].
        rewrite <- !app_assoc. constructor; auto.
    + exists m. auto.
    + exists ([c_nl] ++ m). rewrite <- app_assoc. split; [reflexivity|]. apply spaced_blank; auto. apply blank_nl.
    + exists ([c_sp] ++ m). rewrite <- app_assoc. split; [reflexivity|]. apply spaced_blank; auto. apply blank_sp.
    + rewrite Hb1. exists (b ++ m). rewrite app_assoc. split; [reflexivity|]. apply spaced_blank; auto.
Qed.
Lemma layout_words d : forall i f a, grouped d -> layout i f d a -> flat_map atom_words a = words d.
Proof.
  induction d as [| | |s w| | |d IH|k d IH|k d IH|l IH|x y IHx IHy] using doc_nested_ind;
    intros i f a G H; inversion H; subst; simpl in *; rewrite ?app_nil_r; eauto.
  - match goal with H : layouts _ _ _ _ |- _ => revert H end. clear H.
    revert a. induction IH as [|d l Hd HF IHl]; intros a HL; inversion HL; subst; [reflexivity|].
    rewrite flat_map_app. simpl. destruct G as [G1 G2]. f_equal; eauto.
  - destruct G as [-> G]. simpl in *. eapply IHx; eauto.
  - destruct G as [-> G]. simpl in *. eapply IHy; eauto.
Qed.
Lemma pretty_print_words d w : grouped d -> spaced (words d) (pretty_print d w).
Proof.
  intro G. destruct (pretty_print_layout d w) as (a & Ha & ->).
  rewrite <- (layout_words d 0%N false a G Ha). unfold render.
  destruct (render_words a ([], None)) as (m & -> & Hm). exact Hm.
Qed.
Lemma words_unindent d : words (unindent d) = words d.
Proof.
  induction d using doc_nested_ind; simpl; auto.
  induction H as [|x l Hx Hl IH]; simpl; [reflexivity|]. rewrite Hx, IH. reflexivity.
Qed.
Lemma spaced_squeeze ts s : spaced ts s -> squeeze s = flat_map squeeze ts.
Proof.
  assert (HB : forall b, blank b -> squeeze b = []).
  { induction 1 as [|c b Hc Hb IH]; simpl; [reflexivity|]. rewrite Hc. exact IH. }
  induction 1 as [b Hb|b t ts s Hb Hs IH]; simpl; [auto|].
  rewrite !squeeze_app, IH, (HB b Hb). reflexivity.
Qed.

(* ------------------------------------------------------------ lines *)

Fixpoint line_docs (ls : list ustr) : list doc :=
  match ls with
  | [] => []
  | [l] => [txt l]
  | l :: rest => txt l :: nl :: line_docs rest
  end.

Lemma trim_start_ws c s : trim_start s = [c] -> is_ws c = false.
Proof.
  induction s as [|x s IH]; simpl; [discriminate|]. destruct (is_ws x) eqn:E; [exact IH|].
  intro H. injection H as -> _. exact E.
Qed.
Lemma trim_end_last s x t : trim_end s = x :: t -> exists p y, x :: t = p ++ [y] /\ is_ws y = false.
Proof.
  revert x t. induction s as [|c s IH]; simpl; intros x t H; [discriminate|].
  destruct (trim_end s) as [|y u] eqn:E.
  - destruct (is_ws c) eqn:W; [discriminate|]. injection H as <- <-. exists [], c. auto.
  - injection H as <- <-. destruct (IH _ _ eq_refl) as (p & z & Hp & Hz).
    exists (c :: p), z. rewrite Hp. auto.
Qed.
Lemma trim_not_space s : trim s <> [c_sp].
Proof.
  unfold trim. intro H. apply trim_end_last in H as (p & y & Hp & Hy).
  destruct p as [|a p]; simpl in Hp; injection Hp as <-.
  - discriminate.
  - destruct p; discriminate.
Qed.
Lemma trim_end_not_space s : trim_end s <> [c_sp].
Proof.
  intro H. apply trim_end_last in H as (p & y & Hp & Hy).
  destruct p as [|a p]; simpl in Hp; injection Hp as <-.
  - discriminate.
  - destruct p; discriminate.
Qed.

Lemma starred_not_space c : starred c <> [c_sp].
Proof. unfold starred. destruct c; discriminate. Qed.
Lemma closing_not_space l : Forall (fun s => s <> [c_sp]) (closing l).
Proof.
  unfold closing. destruct (strip_suffix _ _); [|repeat constructor; discriminate].
  destruct (not_empty _); repeat constructor; discriminate.
Qed.
Lemma javadoc_body_not_space ls : Forall (fun s => s <> [c_sp]) (javadoc_body ls).
Proof.
  induction ls as [|l ls IH]; simpl; [constructor|]. destruct ls; [apply closing_not_space|].
  constructor; [apply starred_not_space|exact IH].
Qed.
Lemma normal_lines_not_space line s : Forall (fun l => l <> [c_sp]) (normal_lines line (trim_end s)).
Proof.
  unfold normal_lines. destruct line; [constructor; [apply trim_end_not_space|constructor]|].
  destruct (starts_with _ _).
  - unfold javadoc_lines. destruct (split_on _ _); [constructor|]. constructor; [discriminate|].
    apply javadoc_body_not_space.
  - apply Forall_forall. intros l Hl. apply in_map_iff in Hl as (x & <- & _). apply trim_not_space.
Qed.

Lemma starts_with_split p s : starts_with p s = true -> exists r, s = p ++ r.
Proof.
  unfold starts_with. revert s. induction p as [|x p IH]; intros s H; [exists s; reflexivity|].
  destruct s as [|y s]; [discriminate|]. simpl in H. destruct (N.eqb_spec x y) as [->|]; [|discriminate].
  destruct (IH s H) as [r ->]. exists r. reflexivity.
Qed.
Lemma trim_end_cons c s : is_ws c = false -> trim_end (c :: s) = c :: trim_end s.
Proof. intro H. simpl. destruct (trim_end s); [rewrite H|]; reflexivity. Qed.

(* The first line of a text starting with "/**". *)
Lemma split_first_open v :
  starts_with (U "/**") v = true ->
  exists x rest, split_on c_nl v = (U "/**" ++ x) :: rest /\ trim (U "/**" ++ x) = U "/**" ++ trim_end x.
Proof.
  intro H. apply starts_with_split in H as [r ->].
  assert (Hs : forall s, exists p ps, split_on c_nl s = p :: ps).
  { induction s as [|c s (p & ps & E)]; simpl; [eauto|]. rewrite E. destruct (c =? c_nl)%N; eauto. }
  destruct (Hs r) as (p & ps & E). exists p, ps. split; [cbn; rewrite E; reflexivity|].
  unfold trim. replace (trim_start (U "/**" ++ p)) with (U "/**" ++ p) by reflexivity.
  change (U "/**" ++ p) with (47 :: 42 :: 42 :: p)%N. rewrite !trim_end_cons by reflexivity. reflexivity.
Qed.

Lemma javadoc_middle_starred l : javadoc_middle (trim l) = txt (starred (without_star l)).
Proof.
  unfold javadoc_middle, starred, without_star. destruct (trim l) as [|c t]; [reflexivity|].
  unfold strip_prefix. rewrite (N.eqb_sym c).
  destruct (N.eqb_spec c_star c) as [<-|Hc]; simpl.
  - destruct (trim_start t); reflexivity.
  - destruct (N.eqb_spec 42 c) as [<-|]; [congruence|reflexivity].
Qed.
Lemma javadoc_last_lines l : javadoc_last (trim l) = line_docs (closing l).
Proof.
  unfold javadoc_last, closing, javadoc_close. destruct (strip_suffix _ _) as [b|]; [|reflexivity].
  destruct (trim b); reflexivity.
Qed.
Lemma closing_not_nil l : closing l <> [].
Proof.
  unfold closing. destruct (strip_suffix _ _); [|discriminate].
  destruct (not_empty _); discriminate.
Qed.
Lemma line_docs_cons l ls : ls <> [] -> line_docs (l :: ls) = txt l :: nl :: line_docs ls.
Proof. destruct ls; [congruence|reflexivity]. Qed.
Lemma javadoc_body_not_nil l ls : javadoc_body (l :: ls) <> [].
Proof. simpl. destruct ls; [apply closing_not_nil|discriminate]. Qed.
Lemma javadoc_rest_lines ls : javadoc_rest ls = line_docs (javadoc_body ls).
Proof.
  induction ls as [|l ls IH]; [reflexivity|]. cbn [javadoc_rest javadoc_body]. destruct ls as [|l' ls].
  - apply javadoc_last_lines.
  - rewrite line_docs_cons by apply javadoc_body_not_nil. rewrite IH.
    rewrite javadoc_middle_starred. reflexivity.
Qed.
Lemma block_docs_lines ls : block_docs ls = line_docs (map trim ls).
Proof.
  induction ls as [|l ls IH]; [reflexivity|]. destruct ls as [|l' ls]; [reflexivity|].
  change (block_docs (l :: l' :: ls)) with (txt (trim l) :: nl :: block_docs (l' :: ls)). rewrite IH. reflexivity.
Qed.

Lemma ulen_nil s : ulen s = 0%N -> s = [].
Proof.
  destruct s as [|c s]; [reflexivity|]. simpl. unfold ulen1.
  destruct (c <? 128)%N, (c <? 2048)%N, (c <? 65536)%N; lia.
Qed.

Lemma comment_docs_lines c :
  comment_docs c = line_docs (normal_lines (c_line c) (c_value c)) ++ (if c_line c then [nl] else []).
Proof.
  unfold comment_docs, normal_lines. destruct (c_line c); [reflexivity|]. rewrite app_nil_r.
  unfold javadoc_open. destruct (starts_with (U "/**") (c_value c)) eqn:E; [|apply block_docs_lines].
  destruct (split_first_open _ E) as (x & rest & -> & Ht).
  unfold javadoc_docs, javadoc_split_first, javadoc_lines. rewrite Ht.
  change (skipn 3 (U "/**" ++ trim_end x)) with (trim_end x).
  assert (HU : ulen (U "/**" ++ trim_end x) = (3 + ulen (trim_end x))%N) by (rewrite ulen_app; reflexivity).
  rewrite HU.
  destruct (trim (trim_end x)) as [|c0 t0] eqn:Ec.
  - (* nothing behind the opening sign *)
    assert (Hx : trim_end x = []).
    { destruct (trim_end x) as [|y u] eqn:Ex; [reflexivity|]. exfalso.
      apply trim_end_last in Ex as (p & z & Hp & Hz). rewrite Hp in Ec. unfold trim in Ec.
      assert (HS : forall p, exists q, trim_start (p ++ [z]) = q ++ [z]).
      { induction p0 as [|w p0 [q IH]]; simpl; [rewrite Hz; exists []; reflexivity|].
        destruct (is_ws w); [eauto|]. exists (w :: p0). reflexivity. }
      destruct (HS p) as [q Hq]. rewrite Hq in Ec.
      assert (HE : forall q, trim_end (q ++ [z]) = q ++ [z]).
      { induction q0 as [|w q0 IH]; simpl; [rewrite Hz; reflexivity|]. rewrite IH. destruct q0; reflexivity. }
      rewrite HE in Ec. destruct q; discriminate. }
    rewrite Hx in *. change (U "/**" ++ []) with (U "/**") in Ht.
    change (3 <? 3 + ulen [])%N with false. cbn iota.
    destruct rest as [|l1 rest]; cbn [not_empty].
    + unfold javadoc_body, line_docs. rewrite Ht. reflexivity.
    + rewrite line_docs_cons by apply javadoc_body_not_nil. rewrite Ht, javadoc_rest_lines. reflexivity.
  - assert (Hn : (3 <? 3 + ulen (trim_end x))%N = true).
    { apply N.ltb_lt. destruct (ulen (trim_end x)) eqn:E0; [|lia].
      apply ulen_nil in E0. rewrite E0 in Ec. discriminate. }
    rewrite Hn. cbn [is_nil not_empty].
    rewrite line_docs_cons by apply javadoc_body_not_nil. rewrite javadoc_rest_lines. reflexivity.
Qed.

(* Lines in a document are printed as lines. *)
Lemma layouts_cons i f d l a :
  layouts i f (d :: l) a -> exists a1 a2, a = a1 ++ a2 /\ layout i f d a1 /\ layouts i f l a2.
Proof. intro H. inversion H; subst. eauto 6. Qed.
Lemma render_lines ls : Forall (fun l => l <> [c_sp]) ls -> forall i f a s,
  layouts i f (line_docs ls) a -> ls <> [] ->
  exists m, render_from s a = (settle s ++ m, None) /\ (forall q, starts_lines ls (m ++ q)).
Proof.
  induction 1 as [|l ls Hl Hls IH]; intros i f a s HL Hne; [congruence|].
  destruct ls as [|l' ls].
  - cbn [line_docs] in HL. inversion HL; subst.
    match goal with H : layouts _ _ [] _ |- _ => inversion H; subst end.
    match goal with H : layout _ _ (txt l) _ |- _ => inversion H; subst end.
    exists l. simpl. rewrite put_text by exact Hl. split; [reflexivity|]. intro q. constructor.
  - rewrite line_docs_cons in HL by discriminate.
    apply layouts_cons in HL as (a1 & a2 & -> & H1 & HL). inversion H1; subst.
    apply layouts_cons in HL as (a1 & a3 & -> & H2 & HL'). inversion H2; subst.
    cbn [app].
    match goal with |- context [render_from s (AText l :: ABreak i :: ?b)] =>
      change (render_from s (AText l :: ABreak i :: b)) with (render_from (put (settle s) l, Some i) b) end.
    rewrite put_text by exact Hl.
    destruct (IH _ _ _ (settle s ++ l, Some i) HL' ltac:(discriminate)) as (m & -> & Hm).
    exists (l ++ c_nl :: repeat c_sp (N.to_nat i) ++ m). split.
    + simpl. rewrite <- !app_assoc. simpl. reflexivity.
    + intro q. rewrite <- app_assoc. simpl. rewrite <- app_assoc. constructor. apply Hm.
Qed.

Lemma lines_printed d w ls tail :
  Forall (fun l => l <> [c_sp]) ls -> within (Concat (line_docs ls ++ tail)) d ->
  occurs_as_lines ls (pretty_print d w).
Proof.
  intros Hls Hw. destruct ls as [|l ls]; [exists (pretty_print d w), []; rewrite app_nil_r; split; [reflexivity|constructor]|].
  destruct (pretty_print_layout d w) as (a & Ha & ->).
  destruct (within_layout _ _ Hw _ _ _ Ha) as (i' & f' & p & b & q & -> & Hb).
  inversion Hb; subst. match goal with H : layouts _ _ _ _ |- _ => apply layouts_app in H as (a1 & a2 & -> & H1 & H2) end.
  unfold render. rewrite !render_from_app.
  destruct (render_lines _ Hls _ _ _ (render_from ([], None) p) H1 ltac:(discriminate)) as (m & -> & Hm).
  rewrite <- render_from_app. destruct (settle_render_grows (a2 ++ q) (settle (render_from ([], None) p) ++ m, None)) as [m2 ->].
  exists (settle (render_from ([], None) p)), (m ++ m2). simpl. rewrite <- app_assoc. split; [reflexivity|apply Hm].
Qed.

(* ------------------------------------------------------------ format_tree *)

Lemma format_ok checked stack cfg root out :
  format_tree checked stack cfg root = Ok out ->
  exists cm t b d marks,
    collect_comments root = Ok cm /\ new cm checked stack Root (root_loc root) = Ok t /\
    PrettyConfig_new (cfg_indent_size cfg) = Ok b /\ run cm b t = Ok (d, marks) /\
    out = pretty_print d (max_width cfg) /\ missing_comments cm marks = [].
Proof.
  unfold format_tree, rbind. intro H.
  destruct (collect_comments root) as [cm| |] eqn:E1; try discriminate.
  destruct (new cm checked stack Root (root_loc root)) as [t| |] eqn:E2; try discriminate.
  destruct (PrettyConfig_new (cfg_indent_size cfg)) as [b| |] eqn:E3; try discriminate.
  destruct (run cm b t) as [[d w]| |] eqn:E4; try discriminate.
  unfold assert_no_missing_comments in H. simpl in H.
  destruct (is_nil (missing_comments cm w)) eqn:E5; [|discriminate].
  injection H as <-. exists cm, t, b, d, w. repeat split; auto.
  destruct (missing_comments cm w); [reflexivity|discriminate].
Qed.

Lemma cm_get_in id cm bk : cm_get id cm = Some bk -> In (id, bk) cm.
Proof.
  induction cm as [|[k v] cm IH]; simpl; [discriminate|].
  destruct (N.eqb_spec k id) as [->|Hk]; [intro H; injection H as ->; auto|auto].
Qed.

(* Every attached comment is part of the printed document. *)
Lemma format_comment_within checked stack cfg root out :
  distinct_ids root -> code root = true ->
  format_tree checked stack cfg root = Ok out ->
  exists cm d, collect_comments root = Ok cm /\ out = pretty_print d (max_width cfg) /\
    forall c, In c (map_comments cm) -> within (comment_doc c) d.
Proof.
  intros Hd Hr H. apply format_ok in H as (cm & t & b & d & w & H1 & H2 & H3 & H4 & -> & H6).
  exists cm, d. split; [exact H1|]. split; [reflexivity|]. intros c Hc.
  pose proof (collected_distinct _ _ Hd Hr H1) as HN.
  assert (Hp : is_printed w c = true).
  { destruct (is_printed w c) eqn:E; [reflexivity|]. exfalso.
    assert (In c (missing_comments cm w)) by (unfold missing_comments; apply filter_In; rewrite E; auto).
    rewrite H6 in *. assumption. }
  unfold is_printed in Hp. apply existsb_exists in Hp as (c' & Hin & E). apply N.eqb_eq in E.
  destruct (run_marks_from cm b t d w H4 c' Hin) as (id & bk & Hg & Hb).
  assert (Hc' : In c' (map_comments cm)).
  { apply in_flat_map. exists (id, bk). split; [apply cm_get_in; exact Hg|exact Hb]. }
  assert (c' = c) as ->.
  { clear -HN Hc Hc' E. induction (map_comments cm) as [|x l IH]; [destruct Hc|].
    apply NoDup_cons_iff in HN as [HN1 HN2]. destruct Hc as [->|Hc], Hc' as [->|Hc']; auto.
    - exfalso. apply HN1. rewrite <- E. apply in_map. exact Hc'.
    - exfalso. apply HN1. rewrite E. apply in_map. exact Hc. }
  eapply run_marks_within; eauto.
Qed.

Lemma format_comment_lines checked stack cfg root out n left c right :
  distinct_ids root -> code root = true ->
  format_tree checked stack cfg root = Ok out ->
  comment_under root n left c right ->
  occurs_as_lines (normal_lines (has_kind "line_comment" c) (trim_end (n_text c))) out.
Proof.
  intros Hd Hr H Hu. destruct (format_comment_within _ _ _ _ _ Hd Hr H) as (cm & d & H1 & -> & HW).
  destruct (comment_placed _ _ _ _ _ _ Hr H1 Hu) as (co & Hco & Hh).
  apply held_in_map in Hh. specialize (HW _ Hh). unfold comment_doc, concat in HW.
  rewrite comment_docs_lines in HW.
  rewrite (comment_of_line _ _ _ _ Hco), (comment_of_value _ _ _ _ Hco) in HW.
  eapply lines_printed; [apply normal_lines_not_space|exact HW].
Qed.

Lemma format_line_comment checked stack cfg root out n left c right :
  distinct_ids root -> code root = true ->
  format_tree checked stack cfg root = Ok out ->
  comment_under root n left c right -> has_kind "line_comment" c = true ->
  exists before k after, out = before ++ trim_end (n_text c) ++ repeat c_sp k ++ c_nl :: after.
Proof.
  intros Hd Hr H Hu Hl. destruct (format_comment_within _ _ _ _ _ Hd Hr H) as (cm & d & H1 & -> & HW).
  destruct (comment_placed _ _ _ _ _ _ Hr H1 Hu) as (co & Hco & Hh).
  apply held_in_map in Hh. specialize (HW _ Hh). unfold comment_doc, concat, comment_docs in HW.
  rewrite (comment_of_line _ _ _ _ Hco), Hl, (comment_of_value _ _ _ _ Hco) in HW.
  eapply text_then_newline_printed; [apply trim_end_not_space|exact HW].
Qed.

(* ------------------------------------------------------------ the root *)

Lemma new_Root_eq cm checked stack l t :
  new cm checked stack Root l = Ok t ->
  exists ms, t = TNode HRoot (with_punctuation l) [TMembers ms; NL] [].
Proof.
  destruct stack as [|k]; [discriminate|]. cbn [new new_step]. unfold new_Root, rbind.
  destruct (assert_check _ _); try discriminate.
  destruct (mapR _ _) as [ms| |]; try discriminate. intro H; injection H as <-. eauto.
Qed.
Lemma run_root cm b x ms d w :
  run cm b (TNode HRoot x [TMembers ms; NL] []) = Ok (d, w) ->
  exists bk, cm_get (x_id x) cm = Some bk /\
  ((dangling bk = [] /\ exists l, d = Concat (l ++ [Newline])) \/
   (dangling bk <> [] /\ w = [])).
Proof.
  cbn [run]. intro H. minv.
  match goal with H : seqM _ = _ |- _ => apply seqM_ok in H as (dss & H & ->) end.
  cbn [mapM] in *. minv.
  match goal with H : build_node _ _ _ _ _ = _ |- _ => unfold build_node in H; minv end.
  match goal with H : get_comment_bucket _ _ = Ok ?k |- _ => apply bucket_get in H; exists k; split; [exact H|]; rename k into bk end.
  destruct (dangling bk) eqn:E; cbn [is_nil] in *; minv.
  - left. split; [reflexivity|]. cbn [List.concat app].
    match goal with H : run cm b (TMembers _) = Ok (?x, _), K : run cm b NL = Ok (?y, _) |- _ =>
      exists [x]; cbn [run] in K; apply ret_ok in K as (-> & _); reflexivity end.
  - right. split; [discriminate|]. reflexivity.
Qed.

Lemma format_ends_newline checked stack cfg root out :
  format_tree checked stack cfg root = Ok out -> exists a, out = a ++ [c_nl].
Proof.
  intro H. apply format_ok in H as (cm & t & b & d & w & H1 & H2 & H3 & H4 & -> & H6).
  apply new_Root_eq in H2 as [ms ->].
  destruct (run_root _ _ _ _ _ _ H4) as (bk & Hg & [(_ & l & ->)|(Hne & ->)]).
  - apply final_newline.
  - exfalso. destruct (dangling bk) as [|c cs] eqn:E; [congruence|].
    assert (In c (missing_comments cm [])).
    { apply filter_In. split; [|reflexivity]. apply in_flat_map. exists (x_id (with_punctuation (root_loc root)), bk).
      split; [apply cm_get_in; exact Hg|]. simpl. unfold bucket_comments. rewrite E, !in_app_iff. simpl; auto. }
    rewrite H6 in *. assumption.
Qed.

Lemma comment_only_fails checked stack cfg root out :
  code root = true -> code_kids root = [] -> (exists c, In c (children root) /\ n_extra c = true) ->
  format_tree checked stack cfg root <> Ok out.
Proof.
  intros Hr Hk (c & Hc & He) H.
  apply format_ok in H as (cm & t & b & d & w & H1 & H2 & H3 & H4 & -> & H6).
  apply new_Root_eq in H2 as [ms ->].
  apply in_split in Hc as (l & r & Hlr).
  assert (Hu : comment_under root root (rev l) c r).
  { split; [constructor|]. split; [|exact He]. unfold child_at. rewrite rev_involutive. exact Hlr. }
  assert (Hnone : forall s, (forall x, In x s -> In x (children root)) -> find code s = None).
  { intros s Hs. destruct (find code s) as [x|] eqn:E; [|reflexivity]. apply find_some in E as [E1 E2].
    assert (In x (code_kids root)) by (apply filter_In; auto). rewrite Hk in *. destruct H. }
  assert (Hb : belongs root (rev l) c r = (root, Dangling)).
  { unfold belongs, prev_code, next_code. rewrite !Hnone; [reflexivity| |].
    - intros x Hx. rewrite Hlr, in_app_iff. simpl; auto.
    - intros x Hx. rewrite <- in_rev in Hx. rewrite Hlr, in_app_iff. auto. }
  destruct (comment_placed _ _ _ _ _ _ Hr H1 Hu) as (co & Hco & Hh). rewrite Hb in Hh. simpl in Hh.
  destruct (run_root _ _ _ _ _ _ H4) as (bk & Hg & [(E & _)|(Hne & ->)]); simpl in Hg; change (l_node (root_loc root)) with root in Hg;
    unfold held in Hh; rewrite Hg in Hh.
  - rewrite E in Hh. destruct Hh.
  - assert (In co (missing_comments cm [])).
    { apply filter_In. split; [|reflexivity]. apply in_flat_map. exists (n_id root, bk).
      split; [apply cm_get_in; exact Hg|]. simpl. unfold bucket_comments. rewrite !in_app_iff. auto. }
    rewrite H6 in *. assumption.
Qed.

(* ------------------------------------------------------------ configuration *)

Lemma pretty_config_ok n b : PrettyConfig_new n = Ok b -> indent_size b = n /\ n <> 0%N.
Proof. unfold PrettyConfig_new. destruct (N.eqb_spec n 0); [discriminate|]. intro H; injection H as <-. auto. Qed.
Lemma pretty_config_pos n : n <> 0%N -> PrettyConfig_new n = Ok {| indent_size := n |}.
Proof. intro H. unfold PrettyConfig_new. destruct (N.eqb_spec n 0); [congruence|reflexivity]. Qed.

Lemma format_config_independent checked stack cfg cfg' root :
  cfg_indent_size cfg <> 0%N -> cfg_indent_size cfg' <> 0%N ->
  match format_tree checked stack cfg root, format_tree checked stack cfg' root with
  | Ok out, Ok out' => exists ts, spaced ts out /\ spaced ts out'
  | Panic y, Panic y' => y = y'
  | Overflow, Overflow => True
  | _, _ => False
  end.
Proof.
  intros H H'. unfold format_tree, rbind.
  destruct (collect_comments root) as [cm| |]; auto.
  destruct (new cm checked stack Root (root_loc root)) as [t| |]; auto.
  rewrite !pretty_config_pos by assumption.
  pose proof (run_indep cm {| indent_size := cfg_indent_size cfg |} {| indent_size := cfg_indent_size cfg' |} t) as HR.
  unfold same in HR.
  destruct (run cm {| indent_size := cfg_indent_size cfg |} t) as [[d w]| |] eqn:E1,
    (run cm {| indent_size := cfg_indent_size cfg' |} t) as [[d' w']| |] eqn:E2; auto; try (destruct HR; fail).
  destruct HR as [HR ->]. simpl. unfold assert_no_missing_comments.
  destruct (is_nil (missing_comments cm w')); [|reflexivity].
  exists (words d). split; [apply pretty_print_words; eapply run_grouped; eauto|].
  replace (words d) with (words d'); [apply pretty_print_words; eapply run_grouped; eauto|].
  rewrite <- (words_unindent d), <- (words_unindent d'). unfold ud in HR. congruence.
Qed.

(* ------------------------------------------------------------ indentation *)

Lemma format_indentation checked stack cfg root out :
  format_tree checked stack cfg root = Ok out ->
  exists d a, dlayout (cfg_indent_size cfg) 0 false d a /\ out = render a.
Proof.
  intro H. apply format_ok in H as (cm & t & b & d & w & H1 & H2 & H3 & H4 & -> & H6).
  apply pretty_config_ok in H3 as [<- _].
  destruct (pretty_print_dlayout (indent_size b) d (max_width cfg)) as (a & Ha & E).
  { eapply run_uniform; eauto. }
  exists d, a. auto.
Qed.

(* ------------------------------------------------------------ every comment *)

Lemma extra_under root : leaf_tokens root -> forall m, code m = true ->
  code_node root m -> (forall n, In n (all_nodes m) -> In n (all_nodes root)) ->
  forall c, In c (all_nodes m) -> n_extra c = true ->
  exists n left right, comment_under root n left c right.
Proof.
  intros HL m. induction m as [i cs IH] using node_nested_ind. intros Hm Hcn Hsub c Hc He.
  simpl in Hc. destruct Hc as [<-|Hc].
  - unfold code in Hm. rewrite He in Hm. discriminate.
  - apply in_flat_map in Hc as (k & Hk & Hck).
    assert (Hks : forall n, In n (all_nodes k) -> In n (all_nodes root)).
    { intros n Hn. apply Hsub. simpl. right. apply in_flat_map. eauto. }
    destruct (code k) eqn:Ek.
    + rewrite Forall_forall in IH. apply (IH k Hk Ek); auto.
      eapply CN_kid; [exact Hcn|]. apply filter_In. auto.
    + assert (Hself : In k (all_nodes k)) by (destruct k; simpl; auto).
      pose proof (HL k (Hks k Hself) Ek) as Hch.
      assert (c = k) as ->.
      { destruct k as [j ks]. simpl in Hch. subst ks. simpl in Hck. destruct Hck as [<-|[]]. reflexivity. }
      apply in_split in Hk as (l & r & Hlr). exists (Node i cs), (rev l), r.
      split; [exact Hcn|]. split; [|exact He]. unfold child_at. rewrite rev_involutive. exact Hlr.
Qed.
Lemma every_extra_under root c :
  leaf_tokens root -> code root = true -> In c (all_nodes root) -> n_extra c = true ->
  exists n left right, comment_under root n left c right.
Proof. intros HL Hr Hc He. eapply extra_under; eauto. constructor. Qed.

Lemma format_every_comment checked stack cfg root out c :
  distinct_ids root -> leaf_tokens root -> code root = true ->
  format_tree checked stack cfg root = Ok out -> In c (all_nodes root) -> n_extra c = true ->
  occurs_as_lines (normal_lines (has_kind "line_comment" c) (trim_end (n_text c))) out.
Proof.
  intros Hd HL Hr H Hc He. destruct (every_extra_under root c HL Hr Hc He) as (n & l & r & Hu).
  eapply format_comment_lines; eauto.
Qed.
Lemma format_every_line_comment checked stack cfg root out c :
  distinct_ids root -> leaf_tokens root -> code root = true ->
  format_tree checked stack cfg root = Ok out -> In c (all_nodes root) -> n_extra c = true ->
  has_kind "line_comment" c = true ->
  exists before k after, out = before ++ trim_end (n_text c) ++ repeat c_sp k ++ c_nl :: after.
Proof.
  intros Hd HL Hr H Hc He Hk. destruct (every_extra_under root c HL Hr Hc He) as (n & l & r & Hu).
  eapply format_line_comment; eauto.
Qed.

(* Success is decided by the marks. *)
Lemma format_ok_iff checked stack cfg root out cm t b d marks :
  collect_comments root = Ok cm -> new cm checked stack Root (root_loc root) = Ok t ->
  PrettyConfig_new (cfg_indent_size cfg) = Ok b -> run cm b t = Ok (d, marks) ->
  (format_tree checked stack cfg root = Ok out <->
   out = pretty_print d (max_width cfg) /\
   forall c, In c (map_comments cm) -> exists c', In c' marks /\ c_id c' = c_id c).
Proof.
  intros E1 E2 E3 E4. unfold format_tree, rbind. rewrite E1, E2, E3, E4.
  cbn [fst snd]. unfold assert_no_missing_comments. split.
  - intro H. destruct (missing_comments cm marks) eqn:E5; [|discriminate]. cbn [is_nil] in H. injection H as <-.
    split; [reflexivity|]. intros c Hc. destruct (is_printed marks c) eqn:E.
    + unfold is_printed in E. apply existsb_exists in E as (c' & Hin & E). apply N.eqb_eq in E. eauto.
    + exfalso. assert (In c (missing_comments cm marks)) by (apply filter_In; rewrite E; auto).
      rewrite E5 in *. assumption.
  - intros [-> HA]. destruct (missing_comments cm marks) as [|c l] eqn:E5; [reflexivity|].
    exfalso. assert (Hc : In c (missing_comments cm marks)) by (rewrite E5; left; reflexivity).
    apply filter_In in Hc as [Hc Hn]. destruct (HA c Hc) as (c' & Hin & E).
    unfold is_printed in Hn. apply negb_true_iff in Hn.
    enough (existsb (fun p => (c_id p =? c_id c)%N) marks = true) by congruence.
    apply existsb_exists. exists c'. split; [exact Hin|]. apply N.eqb_eq; exact E.
Qed.

(* A comment that was collected but not emitted makes formatting fail. *)
Lemma format_unmarked_fails checked stack cfg root out cm t b d marks c :
  collect_comments root = Ok cm -> new cm checked stack Root (root_loc root) = Ok t ->
  PrettyConfig_new (cfg_indent_size cfg) = Ok b -> run cm b t = Ok (d, marks) ->
  In c (map_comments cm) -> (forall c', In c' marks -> c_id c' <> c_id c) ->
  format_tree checked stack cfg root <> Ok out.
Proof.
  intros E1 E2 E3 E4 Hc Hn H. apply (format_ok_iff _ _ _ _ _ _ _ _ _ _ E1 E2 E3 E4) in H as [_ H].
  destruct (H c Hc) as (c' & Hin & E). exact (Hn c' Hin E).
Qed.

(* ------------------------------------------------------------ statements *)

Lemma format_config_squeeze checked stack cfg cfg' root :
  cfg_indent_size cfg <> 0%N -> cfg_indent_size cfg' <> 0%N ->
  match format_tree checked stack cfg root, format_tree checked stack cfg' root with
  | Ok out, Ok out' => squeeze out = squeeze out'
  | Panic y, Panic y' => y = y'
  | Overflow, Overflow => True
  | _, _ => False
  end.
Proof.
  intros H H'. pose proof (format_config_independent checked stack cfg cfg' root H H') as HI.
  destruct (format_tree checked stack cfg root), (format_tree checked stack cfg' root); auto.
  destruct HI as (ts & H1 & H2). rewrite (spaced_squeeze _ _ H1), (spaced_squeeze _ _ H2). reflexivity.
Qed.

Lemma run_words cm b b' t d m d' m' w :
  run cm b t = Ok (d, m) -> run cm b' t = Ok (d', m') ->
  words d = words d' /\ spaced (words d) (pretty_print d w).
Proof.
  intros E1 E2. split; [|apply pretty_print_words; eapply run_grouped; eauto].
  pose proof (run_indep cm b b' t) as HR. unfold same in HR. rewrite E1, E2 in HR.
  destruct HR as [HR _]. rewrite <- (words_unindent d), <- (words_unindent d'). unfold ud in HR. congruence.
Qed.

Lemma format_layout checked stack cfg root out :
  format_tree checked stack cfg root = Ok out ->
  exists cm t m d a,
    collect_comments root = Ok cm /\ new cm checked stack Root (root_loc root) = Ok t /\
    run cm {| indent_size := cfg_indent_size cfg |} t = Ok (d, m) /\
    dlayout (cfg_indent_size cfg) 0 false d a /\ out = render a.
Proof.
  intro H. apply format_ok in H as (cm & t & b & d & w & H1 & H2 & H3 & H4 & -> & H6).
  unfold PrettyConfig_new in H3. destruct (N.eqb_spec (cfg_indent_size cfg) 0); [discriminate|]. injection H3 as <-.
  destruct (pretty_print_dlayout (cfg_indent_size cfg) d (max_width cfg)) as (a & Ha & E).
  { eapply (run_uniform cm {| indent_size := cfg_indent_size cfg |}); eauto. }
  exists cm, t, w, d, a. auto.
Qed.
