(* ArrangeOrder.v: names, literals and comments are printed in the order of the source. *)
From Coq Require Import Permutation.
From Verif Require Import Base Doc DocProofs DocBuilder SpecDoc Cst Comments Term New Formatter SpecComments SpecTree SpecRead SpecSigns
  CollectProofs CollectProofs2 OrderProofs TermProofs2 FormatProofs ReadProofs SignsProofs SpecWords SpecTokens SpecOrder SpecArrange BitsProofs
  TokensProofs TokensMarks TokensProofs2 TokensProofs3 TokensProofs4 TokensProofs5 TokensComments ArrangeRun ArrangeItems ArrangeGrammar ArrangeFormat ArrangeOnce.
Local Open Scope string_scope.
Local Open Scope list_scope.

(* ------------------------------------------------------------ the comments among the children of a node *)

Fixpoint own (n : node) (left cs : list node) : list SpecTree.attached :=
  match cs with
  | [] => []
  | c :: r => (if n_extra c
               then [{| at_node := fst (belongs n left c r); at_place := snd (belongs n left c r);
                        at_left := left; at_comment := c; at_right := r |}] else []) ++ own n (c :: left) r
  end.
Lemma own_spec n a : forall cs left, In a (own n left cs) ->
  (exists s, cs = s ++ at_comment a :: at_right a /\ at_left a = rev s ++ left) /\ n_extra (at_comment a) = true /\
  (at_node a, at_place a) = belongs n (at_left a) (at_comment a) (at_right a).
Proof.
  induction cs as [|c r IH]; intros left H; [destruct H|]. cbn [own] in H. apply in_app_iff in H as [H|H].
  - destruct (n_extra c) eqn:X; [|destruct H]. destruct H as [<-|[]]. cbn. split; [exists []; split; reflexivity|]. split; [exact X|].
    destruct (belongs n left c r); reflexivity.
  - destruct (IH _ H) as ((s & -> & E) & H1). split; [|exact H1]. exists (c :: s). split; [reflexivity|].
    rewrite E. cbn [rev]. rewrite <- app_assoc. reflexivity.
Qed.
(* The comments below a node that a test finds, when it finds comments at one node only. *)
Lemma filter_none {A} (q : A -> bool) l : (forall a, In a l -> q a = false) -> filter q l = [].
Proof.
  induction l as [|x l IH]; intro H; [reflexivity|]. cbn [filter]. rewrite (H x (or_introl eq_refl)). apply IH. intros a Ha. apply H. right. exact Ha.
Qed.
Lemma own_under root m a : code_node root m -> In a (own m [] (children m)) -> In a (attachments root).
Proof.
  intros Hm Ha. apply own_spec in Ha as ((s & E1 & E2) & X & Hb). apply attachments_spec. exists m. split; [|exact Hb].
  split; [exact Hm|]. split; [|exact X]. unfold child_at. rewrite E1, E2, app_nil_r, rev_involutive. reflexivity.
Qed.
Lemma attached_own root a : In a (attachments root) -> exists m, code_node root m /\ In a (own m [] (children m)).
Proof.
  intro Ha. apply attachments_spec in Ha as (m & (Hm & Hch & X) & Hb). exists m. split; [exact Hm|]. unfold child_at in Hch. rewrite Hch.
  assert (G : forall s l, at_left a = rev s ++ l -> In a (own m l (s ++ at_comment a :: at_right a))).
  { induction s as [|x s IH]; intros l E; cbn [app own].
    - apply in_or_app. left. rewrite X. left. cbn [rev app] in E. destruct a as [an ap al ac ar]. cbn in *. subst l. rewrite <- Hb. reflexivity.
    - apply in_or_app. right. apply IH. rewrite E. cbn [rev]. rewrite <- app_assoc. reflexivity. }
  apply G. rewrite rev_involutive, app_nil_r. reflexivity.
Qed.
Lemma code_node_below root c n : In c (code_kids root) -> code_node c n -> code_node root n.
Proof. intros Hc. induction 1 as [|n k _ IH Hk]; [econstructor; [apply CN_root|exact Hc]|]. eapply CN_kid; eassumption. Qed.
Lemma code_node_cases root n : code_node root n -> n = root \/ exists c, In c (code_kids root) /\ code_node c n.
Proof.
  induction 1 as [|n k _ IH Hk]; [left; reflexivity|]. right. destruct IH as [->|(c & Hc & Hn)].
  - exists k. split; [exact Hk|constructor].
  - exists c. split; [exact Hc|]. eapply CN_kid; eassumption.
Qed.

Section Pick.
Variable q : SpecTree.attached -> bool.
Variable n : node.
Lemma pick_none root : (forall m a, code_node root m -> In a (own m [] (children m)) -> q a = true -> m = n) ->
  ~ In n (all_nodes root) -> filter q (attachments root) = [].
Proof.
  intros H Hn. apply filter_none. intros a Ha. destruct (q a) eqn:E; [|reflexivity]. exfalso. apply attached_own in Ha as (m & Hm & Ha).
  pose proof (H m a Hm Ha E). subst m. apply Hn, code_node_in, Hm.
Qed.
Lemma pick_kids p : forall cs left, (forall c, In c cs -> code c = true -> filter q (attachments c) = []) ->
  filter q (kid_attachments p left cs) = filter q (own p left cs).
Proof.
  induction cs as [|c r IH]; intros left H; [reflexivity|]. cbn [kid_attachments own]. fold (kid_attachments p). rewrite !filter_app.
  rewrite IH by (intros x Hx; apply H; right; exact Hx). f_equal. destruct (n_extra c) eqn:X; [reflexivity|].
  destruct (code c) eqn:E; [|reflexivity]. apply H; [left; reflexivity|exact E].
Qed.
Lemma pick_one p c0 : forall cs left, In c0 cs -> code c0 = true -> NoDup cs ->
  (forall c, In c cs -> code c = true -> c <> c0 -> filter q (attachments c) = []) -> filter q (own p left cs) = [] ->
  filter q (kid_attachments p left cs) = filter q (attachments c0).
Proof.
  induction cs as [|c r IH]; intros left Hin Hc D H HO; [destruct Hin|]. apply NoDup_cons_iff in D as [D1 D2].
  cbn [kid_attachments own] in *. fold (kid_attachments p). rewrite filter_app in *. apply app_eq_nil in HO as [O1 O2]. destruct Hin as [->|Hin].
  - rewrite pick_kids, O2, app_nil_r.
    + unfold code in Hc. destruct (n_extra c0) eqn:X; [discriminate|]. unfold code. rewrite X. cbn [negb andb] in *. rewrite Hc. reflexivity.
    + intros x Hx E. apply H; [right; exact Hx|exact E|]. intro; subst; contradiction.
  - rewrite IH; auto.
    + replace (filter q _) with (@nil SpecTree.attached); [reflexivity|]. symmetry. destruct (n_extra c) eqn:X; [exact O1|].
      destruct (code c) eqn:E; [|reflexivity]. apply H; [left; reflexivity|exact E|]. intro; subst; contradiction.
    + intros x Hx. apply H. right. exact Hx.
Qed.
Lemma pick_local : forall root, distinct_ids root -> code_node root n ->
  (forall m a, code_node root m -> In a (own m [] (children m)) -> q a = true -> m = n) ->
  filter q (attachments root) = filter q (own n [] (children n)).
Proof.
  induction root as [i cs IH] using node_nested_ind. intros D Hn H. rewrite attachments_eq.
  assert (D' : NoDup (map n_id (flat_map all_nodes cs))) by (unfold distinct_ids in D; cbn [all_nodes map] in D; apply NoDup_cons_iff in D; apply D).
  assert (D0 : ~ In i.(i_id) (map n_id (flat_map all_nodes cs))) by (unfold distinct_ids in D; cbn [all_nodes map] in D; apply NoDup_cons_iff in D; apply D).
  assert (Hk : forall c, In c cs -> code c = true -> In c (code_kids (Node i cs))) by (intros c Hc E; apply filter_In; auto).
  destruct (code_node_cases _ _ Hn) as [EN|(c0 & Hc0 & Hn0)].
  - rewrite EN. apply pick_kids. intros c Hc E. apply pick_none.
    + intros m a Hm Ha. apply H; [|exact Ha]. eapply code_node_below; [apply Hk|]; eauto.
    + rewrite EN. intro Hin. apply D0. change (i_id i) with (n_id (Node i cs)). apply in_map. apply in_flat_map. eauto.
  - apply filter_In in Hc0 as [Hc0 E0]. cbn [children] in Hc0. apply code_node_in in Hn0 as Hn1.
    assert (U : forall c x, In c cs -> In x (all_nodes c) -> forall c', In c' cs -> In x (all_nodes c') -> c = c').
    { clear - D'. induction cs as [|y l IHl]; intros c x Hc Hx c' Hc' Hx'; [destruct Hc|]. cbn [flat_map] in D'. rewrite map_app in D'.
      assert (Z : In x (all_nodes y) -> In x (flat_map all_nodes l) -> False).
      { intros Y1 Y2. apply (in_map n_id) in Y1, Y2. eapply NoDup_app_disj; eassumption. }
      destruct Hc as [<-|Hc], Hc' as [<-|Hc']; [reflexivity| | |].
      - exfalso. apply Z; [exact Hx|]. apply in_flat_map. eauto.
      - exfalso. apply Z; [exact Hx'|]. apply in_flat_map. eauto.
      - eapply IHl; eauto. apply NoDup_app_r in D'. exact D'. }
    rewrite (pick_one (Node i cs) c0); auto.
    + rewrite Forall_forall in IH. apply IH; auto.
      * unfold distinct_ids. apply in_split in Hc0 as (s & r & ->). rewrite flat_map_app, map_app in D'. cbn [flat_map] in D'. rewrite map_app in D'.
        apply NoDup_app_r in D'. apply NoDup_app_l in D'. exact D'.
      * intros m a Hm Ha. apply H; [|exact Ha]. eapply code_node_below; [apply Hk|]; eauto.
    + clear - D'. induction cs as [|y l IHl]; constructor.
      * intro Hy. cbn [flat_map] in D'. rewrite map_app in D'.
        apply (NoDup_app_disj _ _ (n_id y) D'); [apply in_map; destruct y; left; reflexivity|]. apply in_map. apply in_flat_map. exists y. split; [exact Hy|destruct y; left; reflexivity].
      * apply IHl. cbn [flat_map] in D'. rewrite map_app in D'. apply NoDup_app_r in D'. exact D'.
    + intros c Hc E Hne. apply pick_none.
      * intros m a Hm Ha. apply H; [|exact Ha]. eapply code_node_below; [apply Hk|]; eauto.
      * intro Hin. apply Hne. eapply U; eauto.
    + apply filter_none. intros a Ha. destruct (q a) eqn:E; [|reflexivity]. exfalso.
      pose proof (H (Node i cs) a (CN_root _) Ha E) as EN. apply D0. change (i_id i) with (n_id (Node i cs)). rewrite EN. apply in_map. apply in_flat_map. eauto.
Qed.
End Pick.

(* ------------------------------------------------------------ comments and children in order *)

Section Kids.
Variable n : node.
Definition sel (k : N) (p : place) (left cs : list node) : list node :=
  map at_comment (filter (fun a => (n_id (at_node a) =? k)%N && same_place (at_place a) p) (own n left cs)).
Lemma sel_comment k p left c r : n_extra c = true ->
  sel k p left (c :: r) = (if (n_id (fst (belongs n left c r)) =? k)%N && same_place (snd (belongs n left c r)) p then [c] else []) ++ sel k p (c :: left) r.
Proof. intro X. unfold sel. cbn [own]. rewrite X. cbn [app filter at_node at_place]. destruct (_ && _); reflexivity. Qed.
Lemma sel_other k p left c r : n_extra c = false -> sel k p left (c :: r) = sel k p (c :: left) r.
Proof. intro X. unfold sel. cbn [own]. rewrite X. reflexivity. Qed.
Lemma prev_comment c l : n_extra c = true -> prev_code (c :: l) = prev_code l.
Proof. intro X. unfold prev_code. cbn [find]. unfold code at 1. rewrite X. reflexivity. Qed.
Lemma prev_other c l : code c = false -> prev_code (c :: l) = prev_code l.
Proof. intro X. unfold prev_code. cbn [find]. rewrite X. reflexivity. Qed.
Lemma prev_here c l : code c = true -> prev_code (c :: l) = Some c.
Proof. intro X. unfold prev_code. cbn [find]. rewrite X. reflexivity. Qed.
Lemma extra_code c : n_extra c = true -> code c = false.
Proof. intro X. unfold code. rewrite X. reflexivity. Qed.

Lemma no_leading k : forall cs left, (forall x, In x cs -> code x = true -> n_id x <> k) -> sel k Leading left cs = [].
Proof.
  induction cs as [|c r IH]; intros left H; [reflexivity|]. assert (H' : forall x, In x r -> code x = true -> n_id x <> k) by (intros x Hx; apply H; right; exact Hx).
  destruct (n_extra c) eqn:X; [|rewrite sel_other by exact X; auto]. rewrite sel_comment by exact X. rewrite IH by exact H'.
  destruct (_ && _) eqn:E; [|reflexivity]. exfalso. apply andb_prop in E as [E1 E2]. apply N.eqb_eq in E1.
  pose proof (belongs_near n left c r) as B. destruct (snd (belongs n left c r)); try discriminate.
  apply find_code_in in B as [B1 B2]. exact (H' _ B1 B2 E1).
Qed.
Lemma no_trailing k : forall cs left, (forall p, prev_code left = Some p -> n_id p <> k) -> (forall x, In x cs -> code x = true -> n_id x <> k) ->
  sel k Trailing left cs = [].
Proof.
  induction cs as [|c r IH]; intros left P H; [reflexivity|]. assert (H' : forall x, In x r -> code x = true -> n_id x <> k) by (intros x Hx; apply H; right; exact Hx).
  destruct (n_extra c) eqn:X.
  - rewrite sel_comment by exact X. rewrite IH; [|rewrite prev_comment by exact X; exact P|exact H'].
    destruct (_ && _) eqn:E; [|reflexivity]. exfalso. apply andb_prop in E as [E1 E2]. apply N.eqb_eq in E1.
    pose proof (belongs_near n left c r) as B. destruct (snd (belongs n left c r)); try discriminate. exact (P _ B E1).
  - rewrite sel_other by exact X. apply IH; [|exact H']. destruct (code c) eqn:E.
    + rewrite prev_here by exact E. intros p Hp. injection Hp as <-. apply H; [left; reflexivity|exact E].
    + rewrite prev_other by exact E. exact P.
Qed.

Hypothesis HO : orderly_node n.
(* After a comment that belongs to the next node, no comment belongs to the node before. *)
Lemma leading_stays p left0 c : prev_code left0 = Some p -> n_extra c = true ->
  forall cs mid, children n = rev left0 ++ c :: mid ++ cs -> Forall (fun x => code x = false) mid ->
  snd (belongs n left0 c (mid ++ cs)) = Leading -> (forall x, In x cs -> code x = true -> n_id x <> n_id p) ->
  sel (n_id p) Trailing (rev mid ++ c :: left0) cs = [].
Proof.
  intros Hp Xc. induction cs as [|c' r IH]; intros mid E F L D; [reflexivity|].
  assert (Hprev : forall m, Forall (fun x => code x = false) m -> prev_code (rev m ++ c :: left0) = Some p).
  { intros m Fm. rewrite <- Hp. apply Forall_rev in Fm. clear - Fm Xc. induction (rev m) as [|x l IHl]; cbn [app].
    - apply prev_comment, Xc.
    - inversion Fm; subst. rewrite prev_other by assumption. auto. }
  destruct (n_extra c') eqn:X.
  - rewrite sel_comment by exact X.
    assert (F' : Forall (fun x => n_extra x = true) mid).
    { destruct HO as [O1 _]. eapply O1; [exact E|exact Xc|exact X|exact F]. }
    assert (R1 : (n_erow p <= n_erow c)%N).
    { apply prev_code_in in Hp. apply in_rev in Hp. apply in_split in Hp as (s1 & s2 & Hs). destruct HO as [_ O2].
      apply (O2 s1 p s2 c (mid ++ c' :: r)). rewrite E, Hs, <- app_assoc. reflexivity. }
    assert (R2 : (n_erow c <= n_erow c')%N).
    { destruct HO as [_ O2]. eapply O2. exact E. }
    assert (L' : snd (belongs n (rev mid ++ c :: left0) c' r) = Leading).
    { unfold belongs in *. rewrite Hp in L. rewrite (Hprev mid F).
      rewrite (next_sibling_app mid (c' :: r) F') in L. unfold next_sibling in L |- *. cbn [find] in L. rewrite X in L. cbn [negb] in L.
      destruct (find (fun s => negb (n_extra s)) r) as [s|]; [|discriminate]. destruct (separator s); [reflexivity|].
      destruct (n_erow c =? n_erow p)%N eqn:E1; [discriminate|]. apply N.eqb_neq in E1.
      replace (n_erow c' =? n_erow p)%N with false by (symmetry; apply N.eqb_neq; lia).
      assert (NC : next_code (mid ++ c' :: r) = next_code r).
      { unfold next_code. clear - F X. induction mid as [|x l IHl]; cbn [app find]; [rewrite (extra_code _ X); reflexivity|].
        inversion F; subst. rewrite H1. auto. }
      rewrite NC in L. exact L. }
    rewrite L'. cbn [same_place]. rewrite Bool.andb_false_r. cbn [app].
    specialize (IH (mid ++ [c'])). rewrite <- !app_assoc in IH. rewrite rev_app_distr in IH. cbn [rev app] in IH. apply IH; auto.
    + apply Forall_app. split; [exact F|]. constructor; [apply extra_code, X|constructor].
    + intros x Hx. apply D. right. exact Hx.
  - rewrite sel_other by exact X. destruct (code c') eqn:Ec.
    + apply no_trailing; [|intros x Hx; apply D; right; exact Hx]. rewrite prev_here by exact Ec. intros y Hy. injection Hy as <-.
      apply D; [left; reflexivity|exact Ec].
    + specialize (IH (mid ++ [c'])). rewrite <- !app_assoc in IH. rewrite rev_app_distr in IH. cbn [rev app] in IH. apply IH; auto.
      * apply Forall_app. split; [exact F|]. constructor; [exact Ec|constructor].
      * intros x Hx. apply D. right. exact Hx.
Qed.

Variable F : node -> list node.
Definition shown_kid (c : node) : list node := if n_extra c then [c] else if code c then F c else [].
Definition around (left cs : list node) (k : node) : list node := sel (n_id k) Leading left cs ++ F k ++ sel (n_id k) Trailing left cs.
Lemma around_other left c r ks : n_extra c = false -> flat_map (around left (c :: r)) ks = flat_map (around (c :: left) r) ks.
Proof. intro X. apply flat_map_ext. intro k. unfold around. rewrite !sel_other by exact X. reflexivity. Qed.
Lemma flat_map_in {A B} (f g : A -> list B) l : (forall x, In x l -> f x = g x) -> flat_map f l = flat_map g l.
Proof. induction l as [|x l IH]; intro H; [reflexivity|]. cbn [flat_map]. rewrite H, IH; auto using in_eq, in_cons. Qed.

Lemma code_filter_find cs x : next_code cs = Some x -> exists l, filter code cs = x :: l.
Proof.
  unfold next_code. induction cs as [|c r IH]; [discriminate|]. cbn [find filter]. destruct (code c); [|exact IH].
  intro E. injection E as ->. eauto.
Qed.
Definition ids (l : list node) : list N := map n_id l.
(* The comment in front of the node that follows. *)
Lemma leading_first c r left x : n_extra c = true -> belongs n left c r = (x, Leading) -> next_code r = Some x ->
  NoDup (ids (filter code r)) ->
  flat_map (around left (c :: r)) (filter code r) = c :: flat_map (around (c :: left) r) (filter code r).
Proof.
  intros X E Nx D. destruct (code_filter_find r x Nx) as (l & El). rewrite El in *. cbn [flat_map].
  assert (G : forall k, In k l -> around left (c :: r) k = around (c :: left) r k).
  { intros k Hk. unfold around. rewrite !sel_comment by exact X. rewrite E. cbn [fst snd same_place].
    rewrite Bool.andb_false_r. cbn [app]. replace (n_id x =? n_id k)%N with false; [reflexivity|]. symmetry. apply N.eqb_neq. intro Q.
    cbn [ids map] in D. apply NoDup_cons_iff in D as [D _]. apply D. rewrite Q. apply (in_map n_id). exact Hk. }
  rewrite (flat_map_in _ _ _ G). unfold around at 1 3. rewrite !sel_comment by exact X. rewrite E. cbn [fst snd same_place].
  rewrite Bool.andb_false_r, N.eqb_refl. reflexivity.
Qed.
Lemma ids_in (x : node) l : ~ In (n_id x) (ids (filter code l)) -> forall y, In y l -> code y = true -> n_id y <> n_id x.
Proof. intros H y Hy C E. apply H. rewrite <- E. apply (in_map n_id). apply filter_In. auto. Qed.

Lemma kids_after : forall cs left p, children n = rev left ++ cs -> prev_code left = Some p ->
  NoDup (ids (p :: filter code cs)) ->
  flat_map shown_kid cs = sel (n_id p) Trailing left cs ++ flat_map (around left cs) (filter code cs).
Proof.
  induction cs as [|c r IH]; intros left p E Hp D; [reflexivity|].
  assert (E' : children n = rev (c :: left) ++ r) by (cbn [rev]; rewrite <- app_assoc; exact E).
  cbn [flat_map filter] in *. unfold shown_kid at 1. destruct (n_extra c) eqn:X.
  - rewrite (extra_code _ X) in *. rewrite (IH (c :: left) p E') by (rewrite ?prev_comment by exact X; auto).
    pose proof (belongs_near n left c r) as B. destruct (belongs n left c r) as [x pl] eqn:EB. cbn [fst snd] in B. destruct pl.
    + rewrite (leading_first c r left x X EB B) by (cbn [ids map] in D; apply NoDup_cons_iff in D; apply D).
      rewrite (sel_comment _ _ left c r X), EB. cbn [fst snd same_place]. rewrite Bool.andb_false_r. cbn [app].
      assert (Z : sel (n_id p) Trailing (c :: left) r = []).
      { apply (leading_stays p left c Hp X r []); auto.
        - cbn [app]. rewrite EB. reflexivity.
        - apply ids_in. cbn [ids map] in D. apply NoDup_cons_iff in D. apply D. }
      rewrite Z. reflexivity.
    + rewrite Hp in B. injection B as <-. rewrite (sel_comment _ _ left c r X), EB. cbn [fst snd same_place]. rewrite N.eqb_refl. cbn [andb app].
      f_equal. f_equal. apply flat_map_in. intros k Hk. unfold around. rewrite !(sel_comment _ _ left c r X), EB. cbn [fst snd same_place].
      rewrite Bool.andb_false_r. replace (n_id p =? n_id k)%N with false; [reflexivity|]. symmetry. apply N.eqb_neq. intro Q.
      cbn [ids map] in D. apply NoDup_cons_iff in D as [D _]. apply D. rewrite Q. apply (in_map n_id). exact Hk.
    + destruct B as [B _]. congruence.
  - rewrite sel_other by exact X. destruct (code c) eqn:Ec.
    + cbn [ids map] in D. apply NoDup_cons_iff in D as [D1 D2]. change (NoDup (ids (c :: filter code r))) in D2.
      rewrite (IH (c :: left) c E' (prev_here _ _ Ec) D2). cbn [flat_map]. rewrite around_other by exact X.
      rewrite (no_trailing (n_id p)); [|rewrite prev_here by exact Ec; intros y Hy; injection Hy as <-; intro Q; apply D1; left; exact Q|].
      * unfold around at 2. rewrite !sel_other by exact X. rewrite no_leading; [cbn [app]; rewrite <- app_assoc; reflexivity|].
        apply ids_in. cbn [ids map] in D2. apply NoDup_cons_iff in D2. apply D2.
      * apply ids_in. intro Q. apply D1. right. exact Q.
    + rewrite around_other by exact X. rewrite (IH (c :: left) p E') by (rewrite ?prev_other by exact Ec; auto). reflexivity.
Qed.
Lemma kids_before : forall cs left, children n = rev left ++ cs -> prev_code left = None ->
  NoDup (ids (filter code cs)) -> filter code cs <> [] ->
  flat_map shown_kid cs = flat_map (around left cs) (filter code cs).
Proof.
  induction cs as [|c r IH]; intros left E Hp D HN; [contradiction|].
  assert (E' : children n = rev (c :: left) ++ r) by (cbn [rev]; rewrite <- app_assoc; exact E).
  cbn [flat_map filter] in *. unfold shown_kid at 1. destruct (n_extra c) eqn:X.
  - rewrite (extra_code _ X) in *. rewrite (IH (c :: left) E') by (rewrite ?prev_comment by exact X; auto).
    destruct (next_code r) as [x|] eqn:Nx; [|apply find_none_filter in Nx; contradiction].
    rewrite (leading_first c r left x X) ; auto. unfold belongs. rewrite Hp, Nx. reflexivity.
  - destruct (code c) eqn:Ec.
    + rewrite (kids_after r (c :: left) c E' (prev_here _ _ Ec) D). cbn [flat_map]. rewrite around_other by exact X.
      unfold around at 2. rewrite !sel_other by exact X. rewrite no_leading; [cbn [app]; rewrite <- app_assoc; reflexivity|].
      apply ids_in. cbn [ids map] in D. apply NoDup_cons_iff in D. apply D.
    + rewrite around_other by exact X. apply IH; auto. rewrite prev_other by exact Ec. exact Hp.
Qed.
(* Without code all comments dangle. *)
Lemma kids_none : forall cs left, prev_code left = None -> filter code cs = [] ->
  flat_map shown_kid cs = sel (n_id n) Dangling left cs.
Proof.
  induction cs as [|c r IH]; intros left Hp HN; [reflexivity|]. cbn [flat_map filter] in *. unfold shown_kid at 1.
  destruct (n_extra c) eqn:X.
  - rewrite (extra_code _ X) in HN. rewrite (IH (c :: left)) by (rewrite ?prev_comment by exact X; auto). rewrite sel_comment by exact X.
    unfold belongs. rewrite Hp. destruct (next_code r) as [x|] eqn:Nx; [apply code_filter_find in Nx as (l & Nx); congruence|].
    cbn [fst snd same_place]. rewrite N.eqb_refl. reflexivity.
  - destruct (code c) eqn:Ec; [discriminate|]. rewrite sel_other by exact X. apply IH; auto. rewrite prev_other by exact Ec. exact Hp.
Qed.
Lemma none_dangle : forall cs left, prev_code left <> None \/ filter code cs <> [] -> sel (n_id n) Dangling left cs = [].
Proof.
  induction cs as [|c r IH]; intros left H; [reflexivity|]. cbn [filter] in H. destruct (n_extra c) eqn:X.
  - rewrite (extra_code _ X) in H. rewrite sel_comment by exact X.
    rewrite IH by (rewrite prev_comment by exact X; exact H). pose proof (belongs_near n left c r) as B.
    destruct (snd (belongs n left c r)); cbn [same_place]; rewrite ?Bool.andb_false_r; try reflexivity.
    exfalso. destruct B as (B1 & B2 & _). destruct H as [H|H]; [congruence|]. apply find_none_filter in B2. contradiction.
  - rewrite sel_other by exact X. apply IH. destruct (code c) eqn:Ec; [left; rewrite prev_here by exact Ec; discriminate|].
    rewrite prev_other by exact Ec. exact H.
Qed.
End Kids.

(* ------------------------------------------------------------ trees with distinct numbers *)

Lemma kids_apart cs : NoDup (map n_id (flat_map all_nodes cs)) -> forall c x, In c cs -> In x (all_nodes c) -> forall c', In c' cs -> In x (all_nodes c') -> c = c'.
Proof.
  induction cs as [|y l IHl]; intros D c x Hc Hx c' Hc' Hx'; [destruct Hc|]. cbn [flat_map] in D. rewrite map_app in D.
  assert (Z : In x (all_nodes y) -> In x (flat_map all_nodes l) -> False).
  { intros Y1 Y2. apply (in_map n_id) in Y1, Y2. eapply NoDup_app_disj; eassumption. }
  destruct Hc as [<-|Hc], Hc' as [<-|Hc']; [reflexivity| | |].
  - exfalso. apply Z; [exact Hx|]. apply in_flat_map. eauto.
  - exfalso. apply Z; [exact Hx'|]. apply in_flat_map. eauto.
  - eapply IHl; eauto. apply NoDup_app_r in D. exact D.
Qed.
Lemma self_in n : In n (all_nodes n).
Proof. destruct n. left. reflexivity. Qed.
Lemma child_strict : forall c n k, In n (all_nodes c) -> In k (children n) -> In k (flat_map all_nodes (children c)).
Proof.
  induction c as [i cs IH] using node_nested_ind. intros n k Hn Hk. cbn [all_nodes children] in *. destruct Hn as [<-|Hn].
  - apply in_flat_map. exists k. split; [exact Hk|apply self_in].
  - apply in_flat_map in Hn as (c & Hc & Hn). apply in_flat_map. exists c. split; [exact Hc|]. rewrite Forall_forall in IH.
    destruct c as [j ds]. cbn [all_nodes]. right. exact (IH _ Hc n k Hn Hk).
Qed.
Lemma distinct_child root c : distinct_ids root -> In c (children root) -> distinct_ids c.
Proof.
  destruct root as [i cs]. unfold distinct_ids. cbn [all_nodes map children]. intros D Hc. apply NoDup_cons_iff in D as [_ D].
  apply in_split in Hc as (s & r & ->). rewrite flat_map_app, map_app in D. cbn [flat_map] in D. rewrite map_app in D.
  apply NoDup_app_r in D. apply NoDup_app_l in D. exact D.
Qed.
Lemma parent_unique : forall root, distinct_ids root -> forall m n k, In m (all_nodes root) -> In n (all_nodes root) ->
  In k (children m) -> In k (children n) -> m = n.
Proof.
  induction root as [i cs IH] using node_nested_ind. intros D.
  assert (D' : NoDup (map n_id (flat_map all_nodes cs))) by (unfold distinct_ids in D; cbn [all_nodes map] in D; apply NoDup_cons_iff in D; apply D).
  assert (T : forall n k, In n (flat_map all_nodes cs) -> In k (children n) -> In k cs -> False).
  { intros n k Hn Hk Hc. apply in_flat_map in Hn as (c' & Hc' & Hn). pose proof (child_strict c' n k Hn Hk) as S.
    assert (E : c' = k).
    { apply (kids_apart cs D' c' k Hc'); [destruct c'; right; exact S|exact Hc|apply self_in]. }
    subst c'. pose proof (distinct_child (Node i cs) k D Hc) as Dk. unfold distinct_ids in Dk. destruct k as [j ds]. cbn [all_nodes map children] in *.
    apply NoDup_cons_iff in Dk as [Dk _]. apply Dk. change (i_id j) with (n_id (Node j ds)). apply in_map. exact S. }
  intros m n k Hm Hn Km Kn. cbn [all_nodes] in Hm, Hn. destruct Hm as [<-|Hm], Hn as [<-|Hn]; [reflexivity| | |].
  - exfalso. eapply T; eauto.
  - exfalso. eapply T; eauto.
  - apply in_flat_map in Hm as (c & Hc & Hm). apply in_flat_map in Hn as (c' & Hc' & Hn).
    assert (E : c = c').
    { apply (kids_apart cs D' c k Hc); [|exact Hc'|].
      - pose proof (child_strict c m k Hm Km). destruct c; right; assumption.
      - pose proof (child_strict c' n k Hn Kn). destruct c'; right; assumption. }
    subst c'. rewrite Forall_forall in IH. eapply IH; eauto. eapply (distinct_child (Node i cs)); eauto.
Qed.

Lemma distinct_sub : forall root, distinct_ids root -> forall n, In n (all_nodes root) -> distinct_ids n.
Proof.
  induction root as [i cs IH] using node_nested_ind. intros D n Hn. cbn [all_nodes] in Hn. destruct Hn as [<-|Hn]; [exact D|].
  apply in_flat_map in Hn as (c & Hc & Hn). rewrite Forall_forall in IH. apply (IH c Hc); auto. eapply (distinct_child (Node i cs)); eauto.
Qed.
Lemma distinct_kids n p : distinct_ids n -> NoDup (ids (filter p (children n))).
Proof.
  destruct n as [i cs]. unfold distinct_ids, ids. cbn [all_nodes map children]. intro D. apply NoDup_cons_iff in D as [_ D].
  induction cs as [|c l IH]; [constructor|]. cbn [flat_map] in D. rewrite map_app in D. cbn [filter].
  assert (IH' : NoDup (map n_id (filter p l))) by (apply IH; apply NoDup_app_r in D; exact D). destruct (p c); [|exact IH'].
  cbn [map]. constructor; [|exact IH']. intro Q. apply in_map_iff in Q as (y & E & Hy). apply filter_In in Hy as [Hy _].
  apply (NoDup_app_disj _ _ (n_id c) D); [apply in_map, self_in|]. rewrite <- E. apply in_map. apply in_flat_map. exists y. split; [exact Hy|apply self_in].
Qed.
Lemma filter_flat_map {A C} (p : C -> bool) (f : A -> list C) l : filter p (flat_map f l) = flat_map (fun x => filter p (f x)) l.
Proof. induction l as [|x l IH]; [reflexivity|]. cbn [flat_map]. rewrite filter_app, IH. reflexivity. Qed.

Section Order.
Variable root : node.
Variable cm : cmap.
Hypothesis S : file_tree root.
Hypothesis D : distinct_ids root.
Hypothesis B : comments_in_braces root.
Hypothesis O : ordered_places root.
Hypothesis HC : collect_comments root = Ok cm.
Let Hr : code root = true := file_code root S.
Notation at_ := (placed root cm).

Lemma comments_at_in id p c : In c (comments_at root id p) -> In c (all_nodes root).
Proof. unfold comments_at. intro H. apply in_map_iff in H as (a & <- & Ha). apply filter_In in Ha as [Ha _]. apply attached_in, Ha. Qed.
Lemma placed_ordered id p : at_ id p = comments_at root id p.
Proof.
  destruct O as (O1 & _). destruct (collected_source_order root cm id p Hr O1 HC) as [E _]. unfold placed.
  assert (I : forall c, In c (comments_at root id p) -> In c (all_nodes root)) by apply comments_at_in.
  revert E I. generalize (comments_at root id p) (held cm id p). induction l as [|c l IH]; intros [|h hs] E I; try discriminate; [reflexivity|].
  cbn [map] in E |- *. injection E as E1 E2. rewrite (IH hs E2) by (intros x Hx; apply I; right; exact Hx). f_equal.
  unfold node_of. rewrite E1. destruct (find (fun m => (n_id m =? n_id c)%N) (all_nodes root)) as [m|] eqn:Ef.
  - apply find_some in Ef as [F1 F2]. apply N.eqb_eq in F2. apply (same_id root); auto. apply I. left. reflexivity.
  - exfalso. pose proof (find_none _ _ Ef c (I c (or_introl eq_refl))) as Z. cbn in Z. rewrite N.eqb_refl in Z. discriminate.
Qed.
Lemma local_sides n k p : code_node root n -> In k (children n) -> p <> Dangling ->
  at_ (n_id k) p = sel n (n_id k) p [] (children n).
Proof.
  intros Hn Hk Hp. rewrite placed_ordered. unfold comments_at, sel. f_equal. apply (pick_local _ n root D Hn).
  intros m a Hm Ha Q. apply andb_prop in Q as [Q1 Q2]. apply N.eqb_eq in Q1.
  apply own_spec in Ha as ((s & E1 & E2) & X & Hb). pose proof (belongs_near m (at_left a) (at_comment a) (at_right a)) as BN.
  rewrite <- Hb in BN. cbn [fst snd] in BN. rewrite app_nil_r in E2.
  assert (Hin : In (at_node a) (children m)).
  { rewrite E1. apply in_or_app. destruct (at_place a).
    - apply find_code_in in BN as [BN _]. right. right. exact BN.
    - apply find_code_in in BN as [BN _]. left. rewrite E2 in BN. apply in_rev in BN. exact BN.
    - destruct p; [discriminate|discriminate|congruence]. }
  apply code_node_in in Hm, Hn. assert (EK : at_node a = k).
  { apply (same_id root); auto; [eapply all_nodes_child; [exact Hm|exact Hin]|eapply all_nodes_child; [exact Hn|exact Hk]]. }
  rewrite EK in Hin. eapply parent_unique; eauto.
Qed.
Lemma local_dangle n : code_node root n -> at_ (n_id n) Dangling = sel n (n_id n) Dangling [] (children n).
Proof.
  intros Hn. rewrite placed_ordered. unfold comments_at, sel. f_equal. apply (pick_local _ n root D Hn).
  intros m a Hm Ha Q. apply andb_prop in Q as [Q1 Q2]. apply N.eqb_eq in Q1.
  apply own_spec in Ha as ((s & E1 & E2) & X & Hb). pose proof (belongs_near m (at_left a) (at_comment a) (at_right a)) as BN.
  rewrite <- Hb in BN. cbn [fst snd] in BN. destruct (at_place a); try discriminate. destruct BN as (_ & _ & BN). rewrite BN in Q1.
  apply (same_id root); auto; apply code_node_in; assumption.
Qed.

Lemma all_code_nodes : forall t, code_node root t -> forall n, In n (all_nodes t) -> code n = true -> code_node root n.
Proof.
  induction t as [i cs IH] using node_nested_ind. intros Ht n Hn C. cbn [all_nodes] in Hn. destruct Hn as [<-|Hn]; [exact Ht|].
  apply in_flat_map in Hn as (c & Hc & Hn). rewrite Forall_forall in IH. destruct (code c) eqn:Ec.
  - apply (IH c Hc); auto. eapply CN_kid; [exact Ht|]. apply filter_In. auto.
  - exfalso. assert (Hin : In c (all_nodes root)) by (eapply all_nodes_child; [apply code_node_in; exact Ht|exact Hc]).
    pose proof (file_leaf_tokens root S c Hin Ec) as L. destruct c as [j ds]. cbn [children] in L. subst ds. destruct Hn as [<-|[]]. congruence.
Qed.

Lemma fixed_comments l : comment_list l -> filter fixed l = l.
Proof. induction 1 as [|c l H _ IH]; [reflexivity|]. unfold fixed in *. cbn [filter]. rewrite H, IH. reflexivity. Qed.
Lemma not_code m : In m (all_nodes root) -> n_extra m = false -> code m = false -> n_named m = false /\ children m = [] /\ code_token m = false.
Proof.
  intros Hm Hx C. unfold code in C. rewrite Hx in C. cbn [negb andb] in C. split; [unfold code_token in C; destruct (n_named m); [discriminate|reflexivity]|].
  split; [|exact C]. apply (file_leaf_tokens root S m Hm). unfold code. rewrite C. apply Bool.andb_false_r.
Qed.
Lemma placed_comments id p : comment_list (at_ id p).
Proof. apply placed_extra; auto. Qed.

(* the two sides of a node of code *)
Lemma sides_separator m : In m (all_nodes root) -> n_extra m = false -> code m = true -> is_punctuation_node m = true -> n_named m = false ->
  iopening at_ m ++ iclosing at_ m = at_ (n_id m) Leading ++ at_ (n_id m) Trailing.
Proof.
  intros Hm Hx C Pm Nm. unfold iopening, iclosing. rewrite Pm. rewrite app_assoc. f_equal. destruct O as (_ & O2 & _).
  assert (Sm : separator m = true).
  { unfold separator, kind_in. unfold is_punctuation_node, has_kind in Pm. cbn [existsb]. rewrite Bool.orb_false_r. exact Pm. }
  rewrite placed_ordered. destruct (O2 m Hm Sm) as (a & b & -> & Fa & Fb). rewrite !filter_app.
  assert (G : forall (q : node -> bool) l, Forall (fun c => q c = true) l -> filter q l = l).
  { intros q l. induction 1 as [|x l Hq _ IH]; [reflexivity|]. cbn [filter]. rewrite Hq, IH. reflexivity. }
  assert (G0 : forall (q : node -> bool) l, Forall (fun c => q c = false) l -> filter q l = []).
  { intros q l. induction 1 as [|x l Hq _ IH]; [reflexivity|]. cbn [filter]. rewrite Hq. exact IH. }
  rewrite (G _ a) by (eapply Forall_impl; [|exact Fa]; intros x ->; reflexivity).
  rewrite (G0 (fun c => negb (line_comment c)) b) by (eapply Forall_impl; [|exact Fb]; intros x ->; reflexivity).
  rewrite (G0 _ a Fa), (G _ b Fb), app_nil_r. reflexivity.
Qed.

Definition arranged_at (n : node) : Prop :=
  filter fixed (items at_ n) = iopening at_ n ++ filter fixed (everything n) ++ iclosing at_ n.
Lemma everything_leaf n : children n = [] -> everything n = [n].
Proof. destruct n as [i [|c cs]]; [reflexivity|discriminate]. Qed.
Lemma arranged_kid m : In m (all_nodes root) -> n_extra m = false -> arranged_at m ->
  filter fixed (items at_ m) = if code m then at_ (n_id m) Leading ++ filter fixed (everything m) ++ at_ (n_id m) Trailing else [].
Proof.
  intros Hm Hx A. rewrite A. destruct (code m) eqn:C.
  - destruct (is_punctuation_node m) eqn:Pm.
    + assert (Nm : n_named m = false).
      { pose proof (ft_spelled _ S m Hm Hx) as Q. unfold spelled in Q. destruct (n_named m); [|reflexivity]. destruct Q as [Q _].
        unfold is_punctuation_node, has_kind in Pm. unfold kind_in in Q. cbn [existsb] in Q. rewrite Bool.orb_false_r in Q. congruence. }
      assert (Lm : children m = []).
      { pose proof (ft_spelled _ S m Hm Hx) as Q. unfold spelled in Q. rewrite Nm in Q. apply Q. }
      rewrite (everything_leaf m Lm). cbn [filter]. unfold fixed. rewrite Hx, Nm. cbn [orb app]. apply sides_separator; auto.
    + unfold iopening, iclosing. rewrite Pm. unfold code in C. apply andb_prop in C as [_ C]. rewrite C. reflexivity.
  - destruct (not_code m Hm Hx C) as (Nm & Lm & Tm). rewrite (everything_leaf m Lm). unfold iopening, iclosing. rewrite Tm.
    assert (Pm : is_punctuation_node m = false).
    { unfold code_token in Tm. unfold kind_in in Tm. cbn [existsb] in Tm. unfold is_punctuation_node, has_kind.
      destruct (n_named m), (String.eqb (n_kind m) ","), (String.eqb (n_kind m) ";"); try discriminate; reflexivity. }
    rewrite Pm. cbn [filter]. unfold fixed. rewrite Hx, Nm. reflexivity.
Qed.

Lemma spare_code n c : spare n c = true -> code c = false.
Proof.
  unfold spare. destruct (is_nil (spare_signs n)); [discriminate|]. intro H. apply andb_prop in H as [H _]. apply andb_prop in H as [H _].
  apply andb_prop in H as [H K]. apply andb_prop in H as [H _]. apply negb_true_iff in H.
  unfold code, code_token. rewrite H. unfold kind_in in *. cbn [existsb] in *.
  destruct (String.eqb (n_kind c) "(") eqn:E1; [apply String.eqb_eq in E1; rewrite E1; apply Bool.andb_false_r|].
  destruct (String.eqb (n_kind c) ")") eqn:E2; [apply String.eqb_eq in E2; rewrite E2; apply Bool.andb_false_r|discriminate].
Qed.
Lemma spare_extra n c : n_extra c = true -> spare n c = false.
Proof. intro X. unfold spare. destruct (is_nil _); [reflexivity|]. rewrite X. cbn [negb]. rewrite Bool.andb_false_r. reflexivity. Qed.
Lemma everything_kids n : In n (all_nodes root) -> children n <> [] ->
  filter fixed (everything n) = flat_map (shown_kid (fun k => filter fixed (everything k))) (children n).
Proof.
  intros Hn Hne. assert (E : everything n = flat_map (fun c => if spare n c then [] else everything c) (children n)) by (destruct n as [i [|c cs]]; [contradiction|reflexivity]).
  rewrite E, filter_flat_map. apply flat_map_in. intros c Hc. cbv beta.
  assert (Hin : In c (all_nodes root)) by (eapply all_nodes_child; eauto).
  unfold shown_kid. destruct (n_extra c) eqn:X.
  - rewrite (spare_extra n c X). destruct (ft_comments _ S c Hin X) as (_ & _ & L & _). rewrite (everything_leaf c L). cbn [filter]. unfold fixed. rewrite X. reflexivity.
  - destruct (code c) eqn:C.
    + destruct (spare n c) eqn:Sp; [apply spare_code in Sp; congruence|reflexivity].
    + destruct (spare n c); [reflexivity|]. destruct (not_code c Hin X C) as (Nm & L & _). rewrite (everything_leaf c L). cbn [filter]. unfold fixed. rewrite X, Nm. reflexivity.
Qed.
(* The children of a node, each with its comments. *)
Lemma kids_items n : In n (all_nodes root) -> n_extra n = false -> children n <> [] -> (forall c, In c (children n) -> n_extra c = false -> arranged_at c) ->
  flat_map (fun c => filter fixed (items at_ c)) (code_children n) ++ at_ (n_id n) Dangling = filter fixed (everything n) /\
  (at_ (n_id n) Dangling <> [] -> flat_map (fun c => filter fixed (items at_ c)) (code_children n) = []).
Proof.
  intros Hn Hx Hne IH. rewrite (everything_kids n Hn Hne).
  destruct (file_follows root S n Hn Hx Hne) as [Nn _].
  assert (Cn : code n = true) by (unfold code, code_token; rewrite Hx, Nn; reflexivity).
  assert (Hcn : code_node root n) by (apply (all_code_nodes root (CN_root root) n Hn Cn)).
  set (F := fun k => filter fixed (everything k)).
  assert (E1 : flat_map (fun c => filter fixed (items at_ c)) (code_children n) = flat_map (around n F [] (children n)) (filter code (children n))).
  { unfold code_children.
    assert (G : forall l, (forall c, In c l -> In c (children n)) ->
      flat_map (fun c => filter fixed (items at_ c)) (filter (fun c => negb (n_extra c || spare n c)) l) = flat_map (around n F [] (children n)) (filter code l)).
    { induction l as [|c l IHl]; intro I; [reflexivity|]. cbn [filter]. pose proof (I c (or_introl eq_refl)) as Hc.
      assert (Hin : In c (all_nodes root)) by (eapply all_nodes_child; eauto).
      specialize (IHl (fun x Hx => I x (or_intror Hx))). destruct (n_extra c) eqn:X; cbn [orb negb].
      - rewrite (extra_code c X). exact IHl.
      - destruct (spare n c) eqn:Sp; cbn [negb].
        + rewrite (spare_code n c Sp). exact IHl.
        + cbn [flat_map]. rewrite IHl, (arranged_kid c Hin X (IH c Hc X)). destruct (code c) eqn:C; [|reflexivity].
          cbn [flat_map]. unfold around at 2. rewrite !(local_sides n c) by (auto; discriminate). reflexivity. }
    apply G. auto. }
  assert (Dk : NoDup (ids (filter code (children n)))) by (apply distinct_kids, (distinct_sub root D n Hn)).
  assert (On : orderly_node n) by (destruct O as (O1 & _); apply O1, Hcn).
  rewrite E1. rewrite (local_dangle n Hcn). destruct (filter code (children n)) as [|k ks] eqn:Ek.
  - cbn [flat_map app]. split; [|reflexivity]. symmetry. apply kids_none; [reflexivity|exact Ek].
  - rewrite (none_dangle n (children n) []) by (right; congruence). rewrite app_nil_r. split; [|congruence].
    symmetry. rewrite <- Ek. apply kids_before; auto; rewrite Ek; [exact Dk|discriminate].
Qed.

Lemma iahead_plain n c : late n c = false -> early n c = false -> ihollow at_ n = false -> iahead at_ n c = [].
Proof. intros L E H. unfold iahead. rewrite L, E, H. reflexivity. Qed.
Lemma existsb_none {A} (p : A -> bool) l : (forall x, In x l -> p x = false) -> existsb p l = false.
Proof. induction l as [|x l IH]; intro H; [reflexivity|]. cbn [existsb]. rewrite H by (left; reflexivity). apply IH. intros y Hy. apply H. right. exact Hy. Qed.
Lemma not_for n c : n_kind n <> "for_clause" -> late n c = false.
Proof. intro H. unfold late, has_kind. destruct (String.eqb (n_kind n) "for_clause") eqn:E; [apply String.eqb_eq in E; contradiction|reflexivity]. Qed.
Lemma not_accessor n c : n_kind n <> "accessor_declaration" -> early n c = false.
Proof. intro H. unfold early, has_kind. destruct (String.eqb (n_kind n) "accessor_declaration") eqn:E; [apply String.eqb_eq in E; contradiction|reflexivity]. Qed.
Lemma code_children_in n c : In c (code_children n) -> In c (children n) /\ n_extra c = false.
Proof. intro H. apply filter_In in H as [H E]. apply negb_true_iff, orb_false_iff in E as [E _]. auto. Qed.

Lemma arranged_all : forall n, In n (all_nodes root) -> n_extra n = false -> arranged_at n.
Proof.
  induction n as [i cs IH] using node_nested_ind. intros Hn Hx. set (n := Node i cs) in *. unfold arranged_at.
  pose proof (fun m => fixed_comments _ (opening_comments at_ placed_comments m)) as FO.
  pose proof (fun m => fixed_comments _ (closing_comments at_ placed_comments m)) as FC.
  rewrite (items_inner at_ n Hx). destruct cs as [|c0 cs0].
  { unfold ifront, ibehind, iinner. subst n. cbn [code_children children filter existsb]. rewrite !filter_app, FO, FC. reflexivity. }
  assert (Hne : children n <> []) by discriminate.
  destruct (file_follows root S n Hn Hx Hne) as [Nn HR].
  assert (IH' : forall c, In c (children n) -> n_extra c = false -> arranged_at c).
  { intros c Hc X. rewrite Forall_forall in IH. apply IH; auto. eapply all_nodes_child; eauto. }
  destruct (kids_items n Hn Hx Hne IH') as [E0 E1].
  unfold iinner. change (children n) with (c0 :: cs0). cbv iota. rewrite !filter_app, filter_flat_map.
  destruct (ihollow at_ n) eqn:Hh.
  - (* comments in braces *)
    pose proof (hollow_lone root cm S D HC n Hn Hh) as L. pose proof (B n Hn L) as Kb.
    assert (K1 : n_kind n <> "for_clause") by (intro Q; rewrite Q in Kb; discriminate).
    assert (K2 : n_kind n <> "accessor_declaration") by (intro Q; rewrite Q in Kb; discriminate).
    destruct (braces_children n HR Kb (lone_children n L)) as (o & c & Ec & Ho & Hc).
    assert (Hd : at_ (n_id n) Dangling <> []) by (unfold ihollow in Hh; destruct (at_ (n_id n) Dangling); [discriminate|discriminate]).
    specialize (E1 Hd). rewrite E1 in E0. cbn [app] in E0. rewrite <- E0.
    unfold ifront, ibehind. rewrite !existsb_none by (intros x _; first [apply not_for, K1|apply not_accessor, K2]).
    rewrite FO, FC. f_equal. f_equal. rewrite Ec in *. cbn [flat_map] in *. unfold iahead. rewrite !not_for, !not_accessor by assumption.
    rewrite Hh. unfold has_kind. rewrite Ho, Hc. cbn [andb app]. change ("{" =? "}")%string with false. change ("}" =? "}")%string with true.
    cbv iota. rewrite !app_nil_r in *. apply app_eq_nil in E1 as [Z1 Z2]. cbn [app]. rewrite ?filter_app, Z1, Z2, ?app_nil_r. cbn [app]. apply fixed_comments, placed_comments.
  - assert (Hd : at_ (n_id n) Dangling = []) by (unfold ihollow in Hh; destruct (at_ (n_id n) Dangling); [reflexivity|discriminate]).
    rewrite Hd, app_nil_r in E0. clear E1 Hd. rewrite <- E0.
    destruct (string_dec (n_kind n) "for_clause") as [K|K1].
    + assert (K2 : n_kind n <> "accessor_declaration") by (rewrite K; discriminate).
      destruct (for_clause_children n HR K) as (a & x & Ea & Wa & Fa & Nx).
      assert (La : forall c, In c a -> late n c = false).
      { intros c Hc. unfold late. rewrite Forall_forall in Fa. rewrite (Fa c Hc). apply Bool.andb_false_r. }
      assert (Lx : late n x = true) by (unfold late, has_kind; rewrite K, Nx; reflexivity).
      assert (Za : flat_map (fun c => filter fixed (items at_ c)) a = []).
      { assert (G : forall c, In c a -> filter fixed (items at_ c) = []).
        { intros c Hc. assert (Hcc : In c (code_children n)) by (rewrite Ea; apply in_or_app; left; exact Hc).
          apply code_children_in in Hcc as [Hk X]. assert (Hin : In c (all_nodes root)) by (eapply all_nodes_child; eauto).
          rewrite (arranged_kid c Hin X (IH' c Hk X)). replace (code c) with false; [reflexivity|]. symmetry.
          rewrite Forall_forall in Fa. pose proof (Fa c Hc) as Nc. pose proof (ft_spelled _ S c Hin X) as Sp. unfold spelled in Sp. rewrite Nc in Sp.
          destruct Sp as [_ Sp].
          assert (SUB : forall w, In w (bits (n_text c)) -> In w (bits (U "FOR"))).
          { intros w Hw. rewrite <- Wa. unfold bits_of. apply in_flat_map. eauto. }
          rewrite Sp in SUB. unfold code, code_token. rewrite Nc, X. cbn [negb andb orb].
          destruct (kind_in (n_kind c) [","; ";"; "else"]) eqn:Kc; [|reflexivity]. exfalso.
          unfold kind_in in Kc. cbn [existsb] in Kc. rewrite !Bool.orb_true_iff, !String.eqb_eq in Kc.
          destruct Kc as [Kc|[Kc|[Kc|Kc]]]; [| | |discriminate]; rewrite Kc in SUB.
          - specialize (SUB (U ",") (or_introl eq_refl)). vm_compute in SUB. destruct SUB as [Q|[]]; discriminate.
          - specialize (SUB (U ";") (or_introl eq_refl)). vm_compute in SUB. destruct SUB as [Q|[]]; discriminate.
          - specialize (SUB (U "else") (or_introl eq_refl)). vm_compute in SUB. destruct SUB as [Q|[]]; discriminate. }
        clear - G. induction a as [|c a IHa]; [reflexivity|]. cbn [flat_map]. rewrite (G c (or_introl eq_refl)). apply IHa. intros x Hx. apply G. right. exact Hx. }
      unfold ifront, ibehind. rewrite (existsb_none (early n)) by (intros y _; apply not_accessor, K2). rewrite Ea, existsb_app. cbn [existsb]. rewrite Lx, Bool.orb_true_r.
      cbn [filter app]. rewrite FC. rewrite app_assoc. f_equal. rewrite !flat_map_app. cbn [flat_map]. rewrite !app_nil_r, Za. cbn [app].
      rewrite (flat_map_in _ (fun c => filter fixed (items at_ c)) a), Za.
      * cbn [app]. unfold iahead. rewrite Lx, Hh, (not_accessor n x K2). cbn [andb app]. rewrite app_nil_r, filter_app, FO. reflexivity.
      * intros c Hc. rewrite iahead_plain; [reflexivity|apply La, Hc|apply not_accessor, K2|exact Hh].
    + unfold ifront. rewrite (existsb_none (late n)) by (intros y _; apply not_for, K1). rewrite FO. f_equal.
      assert (Plain : (forall c, In c (code_children n) -> early n c = false) ->
        flat_map (fun c => filter fixed (iahead at_ n c ++ items at_ c)) (code_children n) ++ filter fixed (ibehind at_ n) =
        flat_map (fun c => filter fixed (items at_ c)) (code_children n) ++ iclosing at_ n).
      { intro HE. unfold ibehind. rewrite (existsb_none (early n)) by exact HE. rewrite FC. f_equal. apply flat_map_in. intros c Hc.
        rewrite iahead_plain; [reflexivity|apply not_for, K1|apply HE, Hc|exact Hh]. }
      destruct (string_dec (n_kind n) "accessor_declaration") as [K|K2]; [|apply Plain; intros c _; apply not_accessor, K2].
      destruct (accessor_children n HR K) as [Na|(a & x & Ea & Na & Kx & Nx)].
      * apply Plain. intros c Hc. unfold early, has_kind. replace (String.eqb (n_kind c) ";") with false; [apply Bool.andb_false_r|]. symmetry. apply String.eqb_neq, Na, Hc.
      * assert (Hcx : In x (code_children n)) by (rewrite Ea; apply in_or_app; right; left; reflexivity).
        apply code_children_in in Hcx as [Hkx X]. assert (Hin : In x (all_nodes root)) by (eapply all_nodes_child; eauto).
        assert (Ex : early n x = true) by (unfold early, has_kind; rewrite K, Kx; reflexivity).
        unfold ibehind. rewrite Ea, existsb_app. cbn [existsb]. rewrite Ex, Bool.orb_true_r. cbn [filter]. rewrite app_nil_r, !flat_map_app. cbn [flat_map]. rewrite !app_nil_r.
        rewrite <- app_assoc. f_equal.
        -- apply flat_map_in. intros c Hc. rewrite iahead_plain; [reflexivity|apply not_for, K1| |exact Hh].
           unfold early, has_kind. replace (String.eqb (n_kind c) ";") with false; [apply Bool.andb_false_r|]. symmetry. apply String.eqb_neq, Na, Hc.
        -- unfold iahead. rewrite (not_for n x K1), Hh, Ex. cbn [andb app]. rewrite filter_app, FC.
           destruct O as (_ & _ & O3). destruct (O3 n x Hn K Hkx Kx) as [Z|[Z1 Z2]].
           ++ replace (iclosing at_ n) with (@nil node); [rewrite app_nil_r; reflexivity|]. unfold iclosing.
              assert (Pn : is_punctuation_node n = false) by (unfold is_punctuation_node, has_kind; rewrite K; reflexivity). rewrite Pn.
              rewrite placed_ordered, Z. destruct (code_token n); reflexivity.
           ++ rewrite (arranged_kid x Hin X (IH' x Hkx X)), !placed_ordered, Z1, Z2.
              pose proof (ft_spelled _ S x Hin X) as Sp. unfold spelled in Sp. rewrite Nx in Sp. rewrite (everything_leaf x (proj1 Sp)). cbn [filter]. unfold fixed. rewrite X, Nx.
              cbn [orb app]. destruct (code x); cbn [app]; rewrite app_nil_r; reflexivity.
Qed.
Theorem arrangement_order : filter fixed (arrangement root cm) = filter fixed (everything root).
Proof.
  destruct (ft_root _ S) as (K & N & X). unfold arrangement. rewrite (arranged_all root (self_in root) X).
  assert (Z : forall p, p <> Dangling -> at_ (n_id root) p = []).
  { intros p Hp. rewrite placed_ordered. unfold comments_at. destruct (filter _ _) as [|a l] eqn:E; [reflexivity|]. exfalso.
    assert (Ha : In a (a :: l)) by (left; reflexivity). rewrite <- E in Ha. apply filter_In in Ha as [Ha Q]. apply andb_prop in Q as [Q1 Q2]. apply N.eqb_eq in Q1.
    apply attached_own in Ha as (m & Hm & Ha). apply own_spec in Ha as ((s & E1 & E2) & _ & Hb).
    pose proof (belongs_near m (at_left a) (at_comment a) (at_right a)) as BN. rewrite <- Hb in BN. cbn [fst snd] in BN. rewrite app_nil_r in E2.
    assert (Hin : In (at_node a) (children m)).
    { rewrite E1. apply in_or_app. destruct (at_place a).
      - apply find_code_in in BN as [BN _]. right. right. exact BN.
      - apply find_code_in in BN as [BN _]. left. rewrite E2 in BN. apply in_rev in BN. exact BN.
      - destruct p; [discriminate|discriminate|congruence]. }
    apply code_node_in in Hm. assert (EK : at_node a = root).
    { apply (same_id root); auto; [eapply all_nodes_child; [exact Hm|exact Hin]|apply self_in]. }
    rewrite EK in Hin. pose proof (child_strict root m root Hm Hin) as Q. unfold distinct_ids in D. destruct root as [i cs]. cbn [all_nodes map children] in *.
    apply NoDup_cons_iff in D as [D0 _]. apply D0. change (i_id i) with (n_id (Node i cs)). apply in_map. exact Q. }
  unfold iopening, iclosing.
  assert (Pn : is_punctuation_node root = false) by (unfold is_punctuation_node, has_kind; rewrite K; reflexivity). rewrite Pn.
  rewrite !Z by discriminate. destruct (code_token root); cbn [app]; rewrite ?app_nil_r; reflexivity.
Qed.
End Order.
