(* TokensProofs3.v: evaluating the accessors on children that follow the rules, and
   the tactics used for the syntax types. *)
From Coq Require Import Lia Sorting.Sorted.
From Verif Require Import Base Doc DocBuilder Cst Comments Term SpecTree New SpecWords SpecTokens SpecLoud BitsProofs TokensProofs TokensMarks TokensProofs2.
Local Open Scope string_scope.
Local Open Scope list_scope.

(* ------------------------------------------------------------ one child *)

Section Dangling1.
Context {DG : dangles}.
Lemma branch_named fs f ks c : branch l_node fs f ks c -> is_named c = true.
Proof. intros (H & _). exact H. Qed.
Lemma branch_yes fs f k c : branch l_node fs f [k] c -> is_kind k c = true.
Proof. intros (_ & H & _). apply kind_one in H. unfold is_kind, has_kind. rewrite H. apply String.eqb_refl. Qed.
Lemma branch_no fs f ks k c : branch l_node fs f ks c -> kind_in k ks = false -> is_kind k c = false.
Proof. intros (_ & H & _) E. eapply kind_no; eauto. Qed.
Lemma branch_field fs f ks g c : branch l_node fs f ks c -> String.eqb f "" = false ->
  has_field g (l_node c) = String.eqb f g.
Proof. intros (_ & _ & H) E. eapply some_field; eauto. Qed.
Lemma branch_free fs ks g c : branch l_node fs "" ks c -> kind_in g fs = true -> has_field g (l_node c) = false.
Proof. intros (_ & _ & H) E. eapply free_field; eauto. Qed.
Lemma sign_named fs f k c : sign l_node fs f k c -> is_named c = false.
Proof. intros (H & _). exact H. Qed.
Lemma sign_kind fs f k g c : sign l_node fs f k c -> is_kind g c = String.eqb k g.
Proof. intros (_ & H & _). unfold is_kind, has_kind. rewrite H. reflexivity. Qed.
Lemma sign_field fs f k g c : sign l_node fs f k c -> String.eqb f "" = false ->
  has_field g (l_node c) = String.eqb f g.
Proof. intros (_ & _ & H) E. eapply some_field; eauto. Qed.
Lemma sign_free fs k g c : sign l_node fs "" k c -> kind_in g fs = true -> has_field g (l_node c) = false.
Proof. intros (_ & _ & H) E. eapply free_field; eauto. Qed.
Lemma verb_branch fs k ks c : verb l_node fs k ks c -> branch l_node fs "" [k] c.
Proof. intros (H & _). exact H. Qed.
Lemma linked_cons p c r : linked p (c :: r) -> placed p c r /\ linked p r.
Proof. exact (fun H => H). Qed.
Lemma placed_extra p c r : placed p c r -> is_extra c = false.
Proof. intros (_ & _ & H & _). apply valid_extra. exact H. Qed.

(* ------------------------------------------------------------ several children *)

Lemma filter_all {A} (P : A -> bool) a : (forall c, In c a -> P c = true) -> filter P a = a.
Proof.
  induction a as [|c a IH]; intro H; [reflexivity|]. simpl. rewrite (H c (or_introl eq_refl)), IH; [reflexivity|].
  intros c' Hc'. apply H. right. exact Hc'.
Qed.
Lemma filter_none {A} (P : A -> bool) a : (forall c, In c a -> P c = false) -> filter P a = [].
Proof.
  induction a as [|c a IH]; intro H; [reflexivity|]. simpl. rewrite (H c (or_introl eq_refl)). apply IH.
  intros c' Hc'. apply H. right. exact Hc'.
Qed.
Lemma find_skip {A} (P : A -> bool) a t : (forall c, In c a -> P c = false) -> find P (a ++ t) = find P t.
Proof.
  induction a as [|c a IH]; intro H; [reflexivity|]. simpl. rewrite (H c (or_introl eq_refl)). apply IH.
  intros c' Hc'. apply H. right. exact Hc'.
Qed.
Lemma find_skip0 {A} (P : A -> bool) a : (forall c, In c a -> P c = false) -> find P a = None.
Proof. intro H. rewrite <- (app_nil_r a), find_skip by exact H. reflexivity. Qed.
Lemma linked_to_extra p a t c : linked_to p a t -> In c a -> negb (is_extra c) = true.
Proof.
  induction a as [|x a IH]; intros H Hin; [destruct Hin|]. destruct H as [H H']. destruct Hin as [<-|Hin]; auto.
  rewrite (placed_extra _ _ _ H). reflexivity.
Qed.
Lemma evens_in c a : In c (evens a) -> In c a.
Proof.
  assert (H : forall n a, (List.length a <= n)%nat -> In c (evens a) -> In c a).
  { induction n as [|n IH]; intros [|x [|y r]] Hl Hin; cbn [evens] in Hin; auto; [simpl in Hl; lia|].
    destruct Hin as [<-|Hin]; [left; reflexivity|]. right. right. apply IH; [simpl in Hl; lia|exact Hin]. }
  apply (H (List.length a)). lia.
Qed.
Section Segments.
  Variables (fs : list string) (f : string) (ks : list string).
  Lemma rep_named a : Forall (branch l_node fs f ks) a -> filter is_named a = a.
  Proof. intro H. apply filter_all. rewrite Forall_forall in H. intros c Hc. apply (branch_named _ _ _ _ (H c Hc)). Qed.
  Lemma rep_extra p a t : linked_to p a t -> filter (fun c => negb (is_extra c)) a = a.
  Proof. intro H. apply filter_all. intros c Hc. eapply linked_to_extra; eauto. Qed.
  Lemma evens_extra p a t : linked_to p a t -> filter (fun c => negb (is_extra c)) (evens a) = evens a.
  Proof. intro H. apply filter_all. intros c Hc. eapply linked_to_extra; eauto using evens_in. Qed.
  Lemma rep_kind_no k a : Forall (branch l_node fs f ks) a -> kind_in k ks = false -> filter (is_kind k) a = [].
  Proof. intros H E. apply filter_none. rewrite Forall_forall in H. intros c Hc. apply (branch_no _ _ _ _ _ (H c Hc) E). Qed.
  Lemma rep_find_kind_no k a t : Forall (branch l_node fs f ks) a -> kind_in k ks = false ->
    find (is_kind k) (a ++ t) = find (is_kind k) t.
  Proof. intros H E. apply find_skip. rewrite Forall_forall in H. intros c Hc. apply (branch_no _ _ _ _ _ (H c Hc) E). Qed.
  Lemma rep_find_kind_no0 k a : Forall (branch l_node fs f ks) a -> kind_in k ks = false -> find (is_kind k) a = None.
  Proof. intros H E. apply find_skip0. rewrite Forall_forall in H. intros c Hc. apply (branch_no _ _ _ _ _ (H c Hc) E). Qed.

  Lemma sep_named s a : separated l_node fs s f ks a -> filter is_named a = evens a.
  Proof. intro H. eapply sep_filter; [exact H| |]; [apply branch_named|apply sign_named]. Qed.
  Lemma sep_in s a c : separated l_node fs s f ks a -> In c a -> branch l_node fs f ks c \/ sign l_node fs "" s c.
  Proof. induction 1 as [a Ha|a x r Ha Hx HS IHs]; [intros [<-|[]]; auto|intros [<-|[<-|Hin]]; auto]. Qed.
End Segments.
Lemma rep_kind_yes fs f k a : Forall (branch l_node fs f [k]) a -> filter (is_kind k) a = a.
Proof. intro H. apply filter_all. rewrite Forall_forall in H. intros c Hc. apply (branch_yes _ _ _ _ (H c Hc)). Qed.
(* fields *)
Definition field_no (fs : list string) (f g : string) : bool :=
  if String.eqb f "" then kind_in g fs else negb (String.eqb f g).
Lemma branch_field_no fs f ks g c : branch l_node fs f ks c -> field_no fs f g = true -> has_field g (l_node c) = false.
Proof.
  unfold field_no. intros H E. destruct (String.eqb_spec f "") as [->|Hf].
  - eapply branch_free; eauto.
  - rewrite (branch_field _ _ _ g _ H). { destruct (String.eqb f g); [discriminate|reflexivity]. }
    apply String.eqb_neq. exact Hf.
Qed.
Lemma rep_find_field fs f ks g a t : Forall (branch l_node fs f ks) a -> field_no fs f g = true ->
  find (fun c => has_field g (l_node c)) (a ++ t) = find (fun c => has_field g (l_node c)) t.
Proof. intros H E. apply find_skip. rewrite Forall_forall in H. intros c Hc. eapply branch_field_no; eauto. Qed.
Lemma rep_find_field0 fs f ks g a : Forall (branch l_node fs f ks) a -> field_no fs f g = true ->
  find (fun c => has_field g (l_node c)) a = None.
Proof. intros H E. apply find_skip0. rewrite Forall_forall in H. intros c Hc. eapply branch_field_no; eauto. Qed.
Lemma sep_find_field fs s f ks g a t : separated l_node fs s f ks a -> field_no fs f g = true -> kind_in g fs = true ->
  find (fun c => has_field g (l_node c)) (a ++ t) = find (fun c => has_field g (l_node c)) t.
Proof.
  intros H E E2. apply find_skip. intros c Hc. destruct (sep_in _ _ _ _ _ _ H Hc) as [B|S].
  - eapply branch_field_no; eauto.
  - eapply sign_free; eauto.
Qed.
Lemma sep_find_field0 fs s f ks g a : separated l_node fs s f ks a -> field_no fs f g = true -> kind_in g fs = true ->
  find (fun c => has_field g (l_node c)) a = None.
Proof. intros H E E2. rewrite <- (app_nil_r a). rewrite (sep_find_field _ _ _ _ _ _ _ H E E2). reflexivity. Qed.
Lemma sep_filter_field fs s f ks a : separated l_node fs s f ks a -> String.eqb f "" = false -> kind_in f fs = true ->
  filter (fun c => has_field f (l_node c)) a = evens a.
Proof.
  intros H E E2. eapply sep_filter; [exact H| |].
  - intros c B. rewrite (branch_field _ _ _ _ _ B E). apply String.eqb_refl.
  - intros c S. eapply sign_free; eauto.
Qed.
Lemma sep_filter_field_no fs s f ks g a : separated l_node fs s f ks a -> field_no fs f g = true -> kind_in g fs = true ->
  filter (fun c => has_field g (l_node c)) a = [].
Proof.
  intros H E E2. apply filter_none. intros c Hc. destruct (sep_in _ _ _ _ _ _ H Hc) as [B|S].
  - eapply branch_field_no; eauto.
  - eapply sign_free; eauto.
Qed.
Lemma sep_nil fs s f ks a : separated l_node fs s f ks a -> is_nil (evens a) = false.
Proof. destruct 1; reflexivity. Qed.
Lemma separated_evens fs s f ks a : separated l_node fs s f ks a -> evens a <> [].
Proof. destruct 1; discriminate. Qed.

(* ------------------------------------------------------------ results of the accessors *)

Lemma cs_by_n_ok f l cs : cs_by_n f l = Ok cs -> cs = filter (fun c => has_field f (l_node c)) (kids l).
Proof. unfold cs_by_n. destruct (filter _ _); congruence. Qed.
Lemma cs_by_k_ok k l cs : cs_by_k k l = Ok cs -> cs = filter (is_kind k) (named_kids l).
Proof. unfold cs_by_k, try_cs_by_k. destruct (filter _ _); congruence. Qed.
Lemma assert_ok k l u : assert_check k l = Ok u -> kind l = k.
Proof. unfold assert_check, is_kind, has_kind. destruct (String.eqb_spec (n_kind (l_node l)) k); [auto|discriminate]. Qed.

Section Rec.
  Variable rec : sort -> loc -> res dt.
  Hypothesis IH : forall s l x, ok s l -> rec s l = Ok x -> mkept (claims s l) (pieces x).

  Definition expect_in (s : sort) (ks : list string) : bool :=
    is_nil (expect s) || forallb (fun k => kind_in k (expect s)) ks.
  Lemma expect_expected s ks c : expect_in s ks = true -> kind_in (n_kind (l_node c)) ks = true -> expected s c.
  Proof.
    unfold expect_in, expected. destruct (expect s) as [|e es] eqn:E; [intros; exact I|]. intros H1 H2.
    eapply kinds_in; eauto.
  Qed.
  Lemma rec_none p r s c d fs f ks : rec s c = Ok d -> branch l_node fs f ks c -> placed p c r ->
    follow (map l_node r) = [] -> usual s = true -> expect_in s ks = true ->
    mkept (mleaves (l_node c)) (pieces d).
  Proof.
    intros E (Bn & Bk & _) (Hr & _ & Hv & HV) Hf Hs He. rewrite <- Hr in Hf. rewrite <- (claim_none c Hf).
    eapply (rec_holds rec IH); eauto.
    - apply fine_none; auto.
    - eapply expect_expected; eauto.
  Qed.
  Lemma rec_punct p x r s c d fs f ks f' k : rec s c = Ok d -> branch l_node fs f ks c -> placed p c (x :: r) ->
    sign l_node fs f' k x -> valid (l_node x) -> kind_in k [","; ";"] = true ->
    usual s = true -> expect_in s ks = true ->
    forallb (fun k => negb (kind_in k silent_kinds)) ks = true ->
    mkept (mleaves (l_node c) ++ mleaves (l_node x)) (pieces d).
  Proof.
    intros E (Bn & Bk & _) (Hr & _ & Hv & HV) S Vx Hk Hs He Hs2.
    rewrite <- (follow_punct _ _ _ _ (map l_node r) S Hk). change (l_node x :: map l_node r) with (map l_node (x :: r)).
    rewrite <- Hr, <- (claim_follow c ks Bk Hs2). eapply (rec_holds rec IH); eauto.
    - eapply fine_kinds; eauto. rewrite forallb_forall in *. intros k' Hk'. specialize (Hs2 k' Hk').
      apply negb_true_iff in Hs2. apply negb_true_iff. destruct (kind_in k' alone_kinds) eqn:Ea; [|reflexivity].
      rewrite <- Hs2. symmetry. clear - Ea. unfold kind_in, alone_kinds in Ea. cbn [existsb] in Ea.
      unfold kind_in, silent_kinds. cbn [existsb]. rewrite !orb_true_iff in *. tauto.
    - eapply expect_expected; eauto.
  Qed.
  Lemma rec_silent p r s c d fs f ks : rec s c = Ok d -> branch l_node fs f ks c -> placed p c r ->
    usual s = true -> expect_in s ks = true ->
    forallb (fun k => kind_in k silent_kinds) ks = true ->
    forallb (fun k => negb (kind_in k alone_kinds)) ks = true ->
    mkept (mleaves (l_node c)) (pieces d).
  Proof.
    intros E (Bn & Bk & _) (Hr & _ & Hv & HV) Hs He Hs1 Hs2.
    rewrite <- (claim_silent c); [|eapply (kinds_in ks silent_kinds); eauto]. eapply (rec_holds rec IH); eauto.
    - eapply fine_kinds; eauto.
    - eapply expect_expected; eauto.
  Qed.
  Lemma expect_or s ks : expect_in s ks = true -> expect s = [] \/ forallb (fun k => kind_in k (expect s)) ks = true.
  Proof. unfold expect_in. destruct (expect s); [left; reflexivity|]. right. exact H. Qed.
  Lemma recs_rep p t fs f ks a s ds : mapR (rec s) a = Ok ds -> Forall (branch l_node fs f ks) a -> linked_to p a t ->
    follow (map l_node t) = [] -> usual s = true -> expect_in s ks = true ->
    forallb (fun k => negb (kind_in k [","; ";"])) ks = true ->
    mkept (flat_map mleaves (map l_node a)) (flat_map pieces ds).
  Proof. intros. eapply (rep_kept rec IH); eauto using expect_or. Qed.
  Lemma recs_sep p t fs sg f ks a s ds : mapR (rec s) (evens a) = Ok ds -> separated l_node fs sg f ks a -> linked_to p a t ->
    follow (map l_node t) = [] -> usual s = true -> expect_in s ks = true ->
    forallb (fun k => negb (kind_in k silent_kinds)) ks = true ->
    forallb (fun k => negb (kind_in k alone_kinds)) ks = true -> kind_in sg [","; ";"] = true ->
    mkept (flat_map mleaves (map l_node a)) (flat_map pieces ds).
  Proof.
    intros E HS HL Hf. intros. rewrite <- (app_nil_r (flat_map mleaves _)), <- Hf.
    eapply (sep_kept rec IH); eauto using expect_or.
  Qed.
  Lemma recs_sep_punct p x t fs sg f ks a s ds f' k : mapR (rec s) (evens a) = Ok ds -> separated l_node fs sg f ks a ->
    linked_to p a (x :: t) -> sign l_node fs f' k x -> valid (l_node x) -> kind_in k [","; ";"] = true ->
    usual s = true -> expect_in s ks = true ->
    forallb (fun k => negb (kind_in k silent_kinds)) ks = true ->
    forallb (fun k => negb (kind_in k alone_kinds)) ks = true -> kind_in sg [","; ";"] = true ->
    mkept (flat_map mleaves (map l_node a) ++ mleaves (l_node x)) (flat_map pieces ds).
  Proof.
    intros E HS HL S Vx Hk. intros.
    rewrite <- (follow_punct _ _ _ _ (map l_node t) S Hk). change (l_node x :: map l_node t) with (map l_node (x :: t)).
    eapply (sep_kept rec IH); eauto using expect_or.
  Qed.
  Definition member_docs (ms : list (dt * bool)) : list ustr :=
    flat_map (fun m : dt * bool => let (x, _) := m in pieces x) ms.
  Lemma members_docs cm checked s a ms : mapR (body_member cm checked rec s) a = Ok ms ->
    mapR (rec s) a = Ok (map fst ms) /\ member_docs ms = flat_map pieces (map fst ms).
  Proof.
    revert ms. induction a as [|c a IHa]; intros ms H; cbn [mapR] in *.
    - injection H as <-. split; reflexivity.
    - unfold body_member in H at 1. destruct (rec s c) as [d| |]; cbn [rbind] in *; try discriminate.
      destruct (has_trailing_newline cm checked c) as [tr| |]; cbn [rbind] in *; try discriminate.
      destruct (mapR (body_member cm checked rec s) a) as [ms'| |]; cbn [rbind] in *; try discriminate.
      injection H as <-. destruct (IHa ms' eq_refl) as [-> I2]. cbn [rbind map fst]. split; [reflexivity|].
      unfold member_docs in *. simpl. rewrite I2. reflexivity.
  Qed.
End Rec.

Lemma apart_unmoved n : kind_in (n_kind n) apart_kinds = false -> kind_in (n_kind n) moved_kinds = false.
Proof. unfold kind_in, apart_kinds, moved_kinds. cbn [existsb]. rewrite !Bool.orb_false_iff. tauto. Qed.
Lemma vn_kept p c r : placed p c r -> untouched (l_node c) -> kind_in (n_kind (l_node c)) apart_kinds = false ->
  follow (map l_node r) = [] -> mkept (mleaves (l_node c)) (pieces (vn c)).
Proof.
  intros (Hr & _ & Hv & HV) U Hk Hf. unfold vn. rewrite <- Hr in Hf.
  rewrite (node_marks _ Hv Hk), <- (app_nil_r (marks (n_post _))), <- Hf.
  apply nodeP_kept; [apply atom_calm; assumption|exact HV|]. simpl. apply kept_inner; [exact Hv|exact U|apply apart_unmoved; assumption].
Qed.
Lemma vn_kept_punct p c x r fs f' k : placed p c (x :: r) -> untouched (l_node c) -> kind_in (n_kind (l_node c)) apart_kinds = false ->
  sign l_node fs f' k x -> valid (l_node x) -> kind_in k [","; ";"] = true ->
  mkept (mleaves (l_node c) ++ mleaves (l_node x)) (pieces (vn c)).
Proof.
  intros (Hr & _ & Hv & HV) U Hk' S Vx Hk.
  rewrite <- (follow_punct _ _ _ _ (map l_node r) S Hk). change (l_node x :: map l_node r) with (map l_node (x :: r)).
  rewrite (node_marks _ Hv Hk'), <- !app_assoc.
  rewrite <- Hr. apply nodeP_kept; [apply atom_calm; assumption|exact HV|]. simpl. apply kept_inner; [exact Hv|exact U|apply apart_unmoved; assumption].
Qed.
Lemma apart_branch fs f ks c : branch l_node fs f ks c -> forallb (fun k => negb (kind_in k apart_kinds)) ks = true ->
  kind_in (n_kind (l_node c)) apart_kinds = false.
Proof. intros (_ & H & _) E. eapply kinds_not; eauto. Qed.
Lemma apart_sign fs f k c : sign l_node fs f k c -> kind_in k apart_kinds = false -> kind_in (n_kind (l_node c)) apart_kinds = false.
Proof. intros (_ & H & _) E. rewrite H. exact E. Qed.


(* Nodes that have no comments inside. *)
Definition plain_kinds (ks : list string) : bool := forallb (fun k => is_nil (rules k)) ks.
Lemma branch_atom p r fs f ks c : branch l_node fs f ks c -> placed p c r -> plain_kinds ks = true -> untouched (l_node c).
Proof.
  intros (_ & Hk & _) (_ & _ & V & _) E. apply no_rules_atom; [exact V|]. unfold plain_kinds in E.
  rewrite forallb_forall in E. unfold kind_in in Hk. apply existsb_exists in Hk as (k & Hin & Ek). apply String.eqb_eq in Ek.
  specialize (E k Hin). rewrite Ek. destruct (rules k); [reflexivity|discriminate].
Qed.
Lemma kinds_plain n ks : kind_in (n_kind n) ks = true -> plain_kinds ks = true -> rules (n_kind n) = [].
Proof.
  intros Hk E. unfold plain_kinds in E.
  rewrite forallb_forall in E. unfold kind_in in Hk. apply existsb_exists in Hk as (k & Hin & Ek). apply String.eqb_eq in Ek.
  specialize (E k Hin). rewrite Ek. destruct (rules k); [reflexivity|discriminate].
Qed.
Lemma sign_atom_at p r fs f k c : sign l_node fs f k c -> placed p c r -> untouched (l_node c).
Proof. intros (Hn & _) (_ & _ & V & _). apply sign_atom; assumption. Qed.
Lemma annotation_value l c fs ks : valid (l_node l) -> kind_in (kind l) annotation_kinds = true -> In c (ckids l) ->
  branch l_node fs "value" ks c -> untouched (l_node c).
Proof.
  intros V Hk Hc (_ & _ & Hf). eapply value_atom; [exact V|exact Hk|apply ckids_in; exact Hc|exact Hf].
Qed.
Lemma named_untouched l : untouched (l_node l) -> named_kids l = cnamed l.
Proof.
  intro U. unfold named_kids, cnamed, ckids. f_equal. symmetry. apply filter_all. intros c Hc.
  assert (HC : In (l_node c) (code_children (l_node l))).
  { rewrite untouched_children by exact U. rewrite <- kids_nodes. apply in_map. exact Hc. }
  apply filter_In in HC. apply HC.
Qed.
Lemma named_not_nil l : cnamed l <> [] -> is_nil (named_kids l) = false.
Proof.
  intro N. destruct (cnamed l) as [|c r] eqn:H; [contradiction|]. assert (Hc : In c (named_kids l)).
  { assert (Hc : In c (cnamed l)) by (rewrite H; left; reflexivity). unfold cnamed, ckids in Hc.
    apply filter_In in Hc as [Hc Hn]. apply filter_In in Hc as [Hc _]. apply filter_In. auto. }
  destruct (named_kids l); [destruct Hc|reflexivity].
Qed.
End Dangling1.
Ltac value_atoms Hk :=
  repeat match goal with
  | V : valid (l_node ?l), EK : ckids ?l = _, B : branch _ _ "value" _ ?c |- _ =>
      lazymatch goal with
      | _ : untouched (l_node c) |- _ => fail
      | _ => assert (untouched (l_node c))
               by (eapply (annotation_value l c _ _ V); [rewrite Hk; reflexivity|rewrite EK; repeat first [left; reflexivity|right]|exact B])
      end
  end.
Ltac atom :=
  lazymatch goal with |- untouched (l_node ?c) =>
    match goal with P : placed _ c _ |- _ =>
      first [ assumption
            | match goal with S : sign _ _ _ _ c |- _ => exact (sign_atom_at _ _ _ _ _ _ S P) end
            | match goal with B : branch _ _ _ _ c |- _ => exact (branch_atom _ _ _ _ _ _ B P eq_refl) end ]
    end
  end.
Section Dangling2.
Context {DG : dangles}.
Lemma find_punct_code n : valid n -> find is_punctuation_node (children n) = find is_punctuation_node (code_children n).
Proof.
  intro V. unfold code_children.
  assert (HC : forall c, In c (children n) -> plain n c = false -> is_punctuation_node c = false).
  { intros c Hc Hx. destruct (plain_skipped n c V Hc Hx) as (Hk & _). rewrite punct_is.
    exact (kinds_not skipped_kinds [","; ";"] c Hk eq_refl). }
  change (fun c => negb (n_extra c || spare n c)) with (plain n).
  induction (children n) as [|c cs IHc]; [reflexivity|]. cbn [find filter].
  destruct (plain n c) eqn:E.
  - cbn [find]. destruct (is_punctuation_node c); [reflexivity|]. apply IHc. intros c' Hc'. apply HC. right. exact Hc'.
  - rewrite (HC c (or_introl eq_refl) E). apply IHc. intros c' Hc'. apply HC. right. exact Hc'.
Qed.
Lemma inner_kept l a x fs f : valid (l_node l) -> ckids l = a ++ [x] -> (forall c, In c a -> is_punctuation_node (l_node c) = false) ->
  sign l_node fs f ";" x -> valid (l_node x) -> mkept (mleaves (l_node x)) (punc_piece (with_inner_punctuation l)).
Proof.
  intros Vl E Ha S V. destruct (sign_signed _ _ _ _ S V) as (_ & Hk & Ht & _). unfold punc_piece. cbn [x_punc with_inner_punctuation].
  unfold punct_from_inner. rewrite (find_punct_code _ Vl), <- ckids_nodes, E, map_app.
  assert (Hp : is_punctuation_node (l_node x) = true) by (rewrite punct_is; destruct S as (_ & -> & _); reflexivity).
  assert (Hs : forall b, (forall c, In c b -> is_punctuation_node (l_node c) = false) ->
    find is_punctuation_node (map l_node b ++ map l_node [x]) = Some (l_node x)).
  { intros b Hb. induction b as [|c b IHb].
    - cbn [map app find]. rewrite Hp. reflexivity.
    - cbn [map app find]. rewrite (Hb c (or_introl eq_refl)). apply IHb. intros c' Hc'. apply Hb. right. exact Hc'. }
  rewrite (Hs a Ha). unfold has_kind. destruct (valid_good _ V) as (Hx & _ & Hsp & _). unfold spelled in Hsp.
  destruct S as (Sn & Sk & _). rewrite Sn in Hsp. rewrite Sk. rewrite (mleaves_leaf _ Hx (proj1 Hsp)).
  unfold opening, closing. rewrite Hp. cbn [String.eqb Ascii.eqb Bool.eqb punct_piece].
  apply kept_app; [apply mkept_marks|]. apply kept_app; [|apply mkept_marks].
  apply (Mk_words [l_node x] [U ";"] [] []); [constructor; [exact Hk|constructor]| |constructor].
  unfold bits_of. cbn [flat_map]. rewrite app_nil_r, Ht. reflexivity.
Qed.
Lemma inner_none l : valid (l_node l) -> (forall c, In c (ckids l) -> is_punctuation_node (l_node c) = false) ->
  punc_piece (with_inner_punctuation l) = [].
Proof.
  intros Vl H. unfold punc_piece. cbn [x_punc with_inner_punctuation]. unfold punct_from_inner. rewrite (find_punct_code _ Vl), <- ckids_nodes.
  assert (Hs : forall b, (forall c, In c b -> is_punctuation_node (l_node c) = false) -> find is_punctuation_node (map l_node b) = None).
  { intros b Hb. induction b as [|c b IHb]; [reflexivity|]. cbn [map find]. rewrite (Hb c (or_introl eq_refl)).
    apply IHb. intros c' Hc'. apply Hb. right. exact Hc'. }
  rewrite (Hs _ H). reflexivity.
Qed.
Lemma not_punct_branch fs f ks c : branch l_node fs f ks c -> forallb (fun k => negb (kind_in k [","; ";"])) ks = true ->
  is_punctuation_node (l_node c) = false.
Proof. intros (_ & H & _) E. rewrite punct_is. eapply kinds_not; eauto. Qed.
Lemma not_punct_sign fs f k c : sign l_node fs f k c -> kind_in k [","; ";"] = false -> is_punctuation_node (l_node c) = false.
Proof. intros (_ & H & _) E. rewrite punct_is, H. exact E. Qed.
Lemma kept_app_nil a b p : mkept a [] -> mkept b p -> mkept (a ++ b) p.
Proof. intros H1 H2. apply (kept_app _ [] _ _ H1 H2). Qed.
Lemma dimensions_kept l x : fine l -> new_Dimensions l = Ok x -> holds l x.
Proof.
  intros F H. unfold new_Dimensions in H. destruct (assert_check "dimensions" l) eqn:E; cbn [rbind] in H; try discriminate.
  injection H as <-. apply assert_ok in E.
  destruct (use_rules l _ (f_valid l F) (f_named l F) E) as (alt & ks & Hin & EK & HF & HL); [discriminate|].
  destruct Hin as [<-|[]]. cbn [fits] in HF. destruct HF as (c1 & t1 & -> & S1 & c2 & t2 & -> & S2 & ->).
  destruct HL as (P1 & P2 & _). apply nodeP_holds; [exact F|rewrite E; vm_compute; auto|].
  apply kept_children; [exact (f_valid _ F)|rewrite E; discriminate|rewrite E; reflexivity|apply kind_calm; [exact (f_valid _ F)|rewrite E; reflexivity]|].
  rewrite (proj2 EK). cbn [map flat_map].
  apply (kept_sign2 _ _ _ _ _ _ _ (sign_signed _ _ _ _ S1 (proj1 (proj2 (proj2 P1)))) (sign_signed _ _ _ _ S2 (proj1 (proj2 (proj2 P2)))));
    [left; reflexivity|left; reflexivity|reflexivity|constructor].
Qed.
Lemma word_holds l k w : fine l -> kind l = k -> In (k, w) word_kinds -> kind_in k silent_kinds = false ->
  holds l (nodeP l [t w]).
Proof.
  intros F Hk Hin Hs. apply nodeP_holds; [exact F|rewrite Hk, Hs; discriminate|]. simpl.
  eapply word_inner; [exact (f_valid _ F)|exact (f_named _ F)| |reflexivity]. unfold kind in Hk. rewrite Hk. exact Hin.
Qed.
Lemma this_kept l x : fine l -> new_This l = Ok x -> holds l x.
Proof.
  intros F H. unfold new_This in H. destruct (assert_check "this" l) eqn:E; cbn [rbind] in H; try discriminate.
  injection H as <-. apply assert_ok in E. apply (word_holds l _ _ F E); [vm_compute; tauto|reflexivity].
Qed.
Lemma super_kept l x : fine l -> new_Super l = Ok x -> holds l x.
Proof.
  intros F H. unfold new_Super in H. destruct (assert_check "super" l) eqn:E; cbn [rbind] in H; try discriminate.
  injection H as <-. apply assert_ok in E. apply (word_holds l _ _ F E); [vm_compute; tauto|reflexivity].
Qed.
Lemma bool_kept l x : fine l -> new_BoolType l = Ok x -> holds l x.
Proof.
  intros F H. unfold new_BoolType in H. destruct (assert_check "boolean_type" l) eqn:E; cbn [rbind] in H; try discriminate.
  injection H as <-. apply assert_ok in E. apply (word_holds l _ _ F E); [vm_compute; tauto|reflexivity].
Qed.
Lemma safe_kept l x : fine l -> new_SafeNavigationOperator l = Ok x -> holds l x.
Proof.
  intros F H. unfold new_SafeNavigationOperator in H.
  destruct (assert_check "safe_navigation_operator" l) eqn:E; cbn [rbind] in H; try discriminate.
  injection H as <-. apply assert_ok in E. apply (word_holds l _ _ F E); [vm_compute; tauto|reflexivity].
Qed.
Lemma caseless_holds l p : fine l -> keyword_kind (kind l) = true -> kind_in (kind l) silent_kinds = false ->
  bits p = bits (value l) -> holds l (nodeP l [TTxt p]).
Proof.
  intros F Hk Hs E. apply nodeP_holds; [exact F|rewrite Hs; discriminate|]. simpl.
  apply caseless_inner; [exact (f_valid _ F)|exact (f_named _ F)|exact Hk|exact E].
Qed.
Lemma local_none p r (g : loc -> res dt) c d fs f ks : g c = Ok d -> (forall l x, fine l -> g l = Ok x -> holds l x) ->
  branch l_node fs f ks c -> placed p c r -> follow (map l_node r) = [] -> mkept (mleaves (l_node c)) (pieces d).
Proof.
  intros E G (Bn & Bk & _) (Hr & _ & Hv & HV) Hf. rewrite <- Hr in Hf. rewrite <- (claim_none c Hf).
  apply G; [apply fine_none; auto|exact E].
Qed.
Lemma kept_unjoin L s l Q : solid s = [] -> mkept L (List.concat l ++ Q) -> mkept L (joined s l ++ Q).
Proof.
  intros H K. eapply kept_same; [|exact K]. rewrite !solid_app. f_equal.
  rewrite joined_blank by exact H. reflexivity.
Qed.
Lemma kept_spaced L ds Q : mkept L (flat_map pieces ds ++ Q) ->
  mkept L (flat_map pieces (if is_nil ds then [] else [TIntersperse ds (sepStr " "); sp]) ++ Q).
Proof.
  intro K. destruct ds as [|d ds]; [exact K|]. cbn [is_nil flat_map pieces sp app]. rewrite <- app_assoc.
  apply kept_unjoin; [reflexivity|]. rewrite <- flat_map_concat_map. cbn [app].
  eapply kept_same; [|exact K]. change (?a ++ [c_sp] :: Q) with (a ++ [[c_sp]] ++ Q). rewrite !solid_app. reflexivity.
Qed.
Definition word_of (k : string) : option string := option_map snd (find (fun p => String.eqb (fst p) k) word_kinds).
Lemma kept_word1 p r fs f k w c v L P : branch l_node fs f [k] c -> placed p c r -> word_of k = Some w ->
  quiet (l_node c) -> bits v = bits (U w) -> mkept L P -> mkept (mleaves (l_node c) ++ L) (v :: P).
Proof.
  intros (Bn & Bk & _) (_ & _ & Hv & _) E Q Ew K. apply (kept_app _ [v]); [|exact K].
  eapply kept_word; [exact Hv|exact Bn| |exact Q|exact Ew]. unfold word_of in E.
  destruct (find _ word_kinds) as [[k' w']|] eqn:Ef; [|discriminate]. injection E as <-.
  apply find_some in Ef as [Hin Ek]. simpl in Ek. apply String.eqb_eq in Ek. subst k'.
  apply kind_one in Bk. rewrite Bk. exact Hin.
Qed.
Lemma branch_narrow fs f ks k c : branch l_node fs f ks c -> is_kind k c = true -> branch l_node fs f [k] c.
Proof.
  intros (H1 & _ & H2) E. split; [exact H1|]. split; [|exact H2]. unfold is_kind, has_kind in E. apply String.eqb_eq in E.
  rewrite E. unfold kind_in. simpl. rewrite String.eqb_refl. reflexivity.
Qed.
Lemma branch_rest fs f ks k c : branch l_node fs f ks c -> is_kind k c = false ->
  branch l_node fs f (filter (fun x => negb (String.eqb x k)) ks) c.
Proof.
  intros (H1 & H & H2) E. split; [exact H1|]. split; [|exact H2]. unfold is_kind, has_kind in E.
  unfold kind_in in *. rewrite existsb_exists in *. destruct H as (x & Hx & Ex). exists x. split; [|exact Ex].
  apply filter_In. split; [exact Hx|]. apply String.eqb_eq in Ex. rewrite <- Ex, E. reflexivity.
Qed.
Lemma kept_declarators L ds Q : mkept L (flat_map pieces ds ++ Q) -> mkept L (pieces (declarators_doc ds) ++ Q).
Proof.
  intro K. destruct ds as [|d [|d' ds]].
  - exact K.
  - simpl in K. rewrite app_nil_r in K. exact K.
  - unfold declarators_doc. cbn [pieces]. apply kept_unjoin; [reflexivity|].
    rewrite <- flat_map_concat_map. exact K.
Qed.

(* words *)
Lemma worded_named fs w a : worded l_node fs w a -> filter is_named a = [].
Proof. intros (_ & H & _). apply filter_none. rewrite Forall_forall in H. intros c Hc. apply (H c Hc). Qed.
Lemma worded_find fs w a g t : worded l_node fs w a -> kind_in g fs = true ->
  find (fun c => has_field g (l_node c)) (a ++ t) = find (fun c => has_field g (l_node c)) t.
Proof.
  intros (_ & H & _) E. apply find_skip. rewrite Forall_forall in H. intros c Hc. destruct (H c Hc) as (_ & _ & B).
  eapply free_field; eauto.
Qed.
(* optional parts *)
Lemma fits_opt fs f ks r (cs : list loc) : fits l_node fs (Opt f ks :: r) cs ->
  exists a t, cs = a ++ t /\ Forall (branch l_node fs f ks) a /\ (List.length a <= 1)%nat /\ fits l_node fs r t.
Proof.
  cbn [fits]. intros [H|(c & t & -> & B & H)].
  - exists [], cs. repeat split; auto.
  - exists [c], t. repeat split; auto.
Qed.
Lemma lone_map (rec : sort -> loc -> res dt) s a : (List.length a <= 1)%nat ->
  match hd_error a with None => Ok [] | Some c => d <- rec s c ;; Ok [d] end = mapR (rec s) a.
Proof. destruct a as [|c [|c' a]]; cbn; intro H; [reflexivity|destruct (rec s c); reflexivity|lia]. Qed.
Lemma lone_field fs f ks a t : Forall (branch l_node fs f ks) a -> String.eqb f "" = false ->
  find (fun c => has_field f (l_node c)) t = None -> find (fun c => has_field f (l_node c)) (a ++ t) = hd_error a.
Proof.
  intros H E N. destruct H as [|c a B H]; [exact N|]. cbn [app find hd_error]. rewrite (branch_field _ _ _ f _ B E).
  rewrite String.eqb_refl. reflexivity.
Qed.
Lemma lone_kind fs f k a t : Forall (branch l_node fs f [k]) a ->
  find (is_kind k) t = None -> find (is_kind k) (a ++ t) = hd_error a.
Proof.
  intros H N. destruct H as [|c a B H]; [exact N|]. cbn [app find hd_error]. rewrite (branch_yes _ _ _ _ B). reflexivity.
Qed.

(* ------------------------------------------------------------ tactics *)

(* Open the rules of [l], whose kind is [k]. *)
End Dangling2.
Ltac open_rule l F Hk :=
  let k := match type of Hk with kind _ = ?k => k end in
  let alt := fresh "alt" in let ks := fresh "ks" in let Hin := fresh "Hin" in
  let EK := fresh "EK" in let HF := fresh "HF" in let HL := fresh "HL" in
  destruct (use_rules l k (f_valid l F) (f_named l F) Hk) as (alt & ks & Hin & EK & HF & HL);
  [ discriminate |];
  let r := eval cbv -[types primaries expressions statements class_members interface_members file_members
                      binary_signs values selectable plain_literals soql_literals set_values] in (rules k) in
  let fs := eval vm_compute in (fields k) in
  change (rules k) with r in Hin; change (fields k) with fs in HF; cbn [In] in Hin;
  repeat match type of Hin with
  | _ \/ _ => destruct Hin as [Hin|Hin]
  end; [..|destruct Hin];
  (rewrite <- Hin in HF; clear Hin alt; cbn [fits] in HF; decompose [ex and or] HF; clear HF;
   repeat match goal with E : ?x = _ :: _ |- _ => is_var x; subst x | E : ?x = _ ++ _ |- _ => is_var x; subst x
          | E : ?x = [] |- _ => is_var x; subst x end;
   try match goal with H : branch _ _ _ [] _ |- _ => destruct H as (_ & H & _); discriminate H end).

(* Facts about the children. *)
Ltac links :=
  repeat match goal with
  | H : linked _ [] |- _ => clear H
  | H : linked _ (_ :: _) |- _ => let P := fresh "P" in apply linked_cons in H as [P H]
  | H : linked _ (_ ++ _) |- _ => let P := fresh "P" in apply linked_app in H as [P H]
  end;
  repeat match goal with
  | S : sign _ _ _ ?k ?c, P : placed _ ?c _ |- _ =>
      lazymatch goal with
      | _ : signed (l_node c) k |- _ => fail
      | _ => pose proof (sign_signed _ _ _ _ S (proj1 (proj2 (proj2 P))))
      end
  | V : verb _ _ ?k ?ks ?c |- _ =>
      lazymatch goal with
      | _ : branch _ _ "" [k] c |- _ => fail
      | _ => pose proof (verb_branch _ _ _ _ V)
      end
  | S : separated _ ?fs _ ?f ?ks ?a |- _ =>
      lazymatch goal with
      | _ : Forall (branch _ fs f ks) (evens a) |- _ => fail
      | _ => pose proof (sep_evens _ _ _ _ _ S)
      end
  end.

Section Dangling3.
Context {DG : dangles}.
Lemma sep_filter_kind fs s f ks k a : separated l_node fs s f ks a -> kind_in k ks = false -> String.eqb s k = false ->
  filter (is_kind k) a = [].
Proof.
  intros HS E1 E2. induction HS as [c Hc|c x r Hc Hx HS IHs]; cbn [filter]; rewrite (branch_no _ _ _ _ _ Hc E1); auto.
  rewrite (sign_kind _ _ _ k x Hx), E2. exact IHs.
Qed.
Lemma sep_first p t fs s f ks a : separated l_node fs s f ks a -> linked_to p a t ->
  exists c r, a = c :: r /\ branch l_node fs f ks c /\ placed p c (r ++ t).
Proof. intros [c Hc|c x r Hc Hx HS]; cbn [linked_to]; intros (P & _); eauto 6. Qed.
Lemma find_first fs f ks c a r t : a = c :: r -> branch l_node fs f ks c -> String.eqb f "" = false ->
  find (fun c => has_field f (l_node c)) (a ++ t) = Some c.
Proof.
  intros -> (_ & _ & H) E. cbn [app find]. unfold in_field in H. rewrite E in H. unfold has_field. rewrite H.
  rewrite String.eqb_refl. reflexivity.
Qed.
End Dangling3.
Ltac ev_step H :=
  match type of H with
  | context [is_named ?c] =>
      match goal with
      | B : branch _ _ _ _ c |- _ => rewrite (branch_named _ _ _ c B) in H
      | B : sign _ _ _ _ c |- _ => rewrite (sign_named _ _ _ c B) in H
      end
  | context [is_extra ?c] =>
      match goal with P : placed _ c _ |- _ => rewrite (placed_extra _ _ _ P) in H end
  | context [is_kind ?k ?c] =>
      match goal with
      | B : branch _ _ _ _ c |- _ => rewrite (branch_no _ _ _ k c B eq_refl) in H
      | B : branch _ _ _ [k] c |- _ => rewrite (branch_yes _ _ _ c B) in H
      | B : sign _ _ _ _ c |- _ => rewrite (sign_kind _ _ _ k c B) in H; cbn [String.eqb Ascii.eqb Bool.eqb] in H
      end
  | context [has_field ?g (l_node ?c)] =>
      match goal with
      | B : branch _ _ "" _ c |- _ => rewrite (branch_free _ _ g c B eq_refl) in H
      | B : branch _ _ ?f _ c |- _ =>
          rewrite (branch_field _ _ _ g c B eq_refl) in H; cbn [String.eqb Ascii.eqb Bool.eqb] in H
      | B : sign _ _ "" _ c |- _ => rewrite (sign_free _ _ g c B eq_refl) in H
      | B : sign _ _ ?f _ c |- _ =>
          rewrite (sign_field _ _ _ g c B eq_refl) in H; cbn [String.eqb Ascii.eqb Bool.eqb] in H
      end
  | context [filter _ (_ ++ _)] => rewrite filter_app in H
  | context [is_nil (evens ?a)] =>
      match goal with B : separated _ _ _ _ _ a |- _ => rewrite (sep_nil _ _ _ _ a B) in H end
  | context [filter is_named ?a] =>
      match goal with
      | B : Forall (branch _ _ _ _) a |- _ => rewrite (rep_named _ _ _ a B) in H
      | B : separated _ _ _ _ _ a |- _ => rewrite (sep_named _ _ _ _ a B) in H
      | B : worded _ _ _ a |- _ => rewrite (worded_named _ _ a B) in H
      end
  | context [filter (fun c => negb (is_extra c)) ?a] =>
      match a with
      | evens ?b => match goal with P : linked_to _ b _ |- _ => rewrite (evens_extra _ _ _ P) in H end
      | _ => match goal with P : linked_to _ a _ |- _ => rewrite (rep_extra _ _ _ P) in H end
      end
  | context [filter (is_kind ?k) ?a] =>
      match goal with
      | B : Forall (branch _ _ _ [k]) a |- _ => rewrite (rep_kind_yes _ _ k a B) in H
      | B : Forall (branch _ _ _ _) a |- _ => rewrite (rep_kind_no _ _ _ k a B eq_refl) in H
      | B : separated _ _ _ _ _ a |- _ => rewrite (sep_filter_kind _ _ _ _ k a B eq_refl eq_refl) in H
      end
  | context [find (is_kind ?k) (?a ++ _)] =>
      match goal with B : Forall (branch _ _ _ _) a |- _ => rewrite (rep_find_kind_no _ _ _ k a _ B eq_refl) in H end
  | context [find (is_kind ?k) ?a] =>
      match goal with B : Forall (branch _ _ _ _) a |- _ => rewrite (rep_find_kind_no0 _ _ _ k a B eq_refl) in H end
  | context [find (fun c => has_field ?g (l_node c)) (?a ++ _)] =>
      match goal with
      | B : Forall (branch _ _ _ _) a |- _ => rewrite (rep_find_field _ _ _ g a _ B eq_refl) in H
      | B : separated _ _ _ _ _ a |- _ => rewrite (sep_find_field _ _ _ _ g a _ B eq_refl eq_refl) in H
      | B : worded _ _ _ a |- _ => rewrite (worded_find _ _ a g _ B eq_refl) in H
      end
  | context [find (fun c => has_field ?g (l_node c)) ?a] =>
      match goal with
      | B : Forall (branch _ _ _ _) a |- _ => rewrite (rep_find_field0 _ _ _ g a B eq_refl) in H
      | B : separated _ _ _ _ _ a |- _ => rewrite (sep_find_field0 _ _ _ _ g a B eq_refl eq_refl) in H
      end
  | context [find (fun c => has_field ?g (l_node c)) (?a ++ _)] =>
      match goal with
      | E : a = ?c :: _, B : branch _ _ g _ ?c |- _ => rewrite (find_first _ _ _ c a _ _ E B eq_refl) in H
      end
  | context [filter (fun c => has_field ?g (l_node c)) ?a] =>
      match goal with
      | B : separated _ _ _ g _ a |- _ => rewrite (sep_filter_field _ _ _ _ a B eq_refl eq_refl) in H
      | B : separated _ _ _ _ _ a |- _ => rewrite (sep_filter_field_no _ _ _ _ g a B eq_refl eq_refl) in H
      end
  end.
Ltac ev H :=
  repeat (cbn [filter find negb andb orb hd_error must rbind rmap app rev opt_list is_nil] in H; ev_step H);
  cbn [filter find negb andb orb hd_error must rbind rmap app rev opt_list is_nil] in H;
  rewrite ?app_nil_r in H.

(* The lists of children the accessors look at. *)
Ltac kid_lists :=
  match goal with EK : kids_are ?l ?ks |- _ =>
    let V := fresh "EValid" in let K := fresh "EKids" in let N := fresh "ENamed" in
    destruct EK as [V K];
    assert (N : cnamed l = filter is_named ks) by (unfold cnamed; rewrite K; reflexivity);
    ev N
  end.
Ltac use_code H :=
  repeat match goal with
  | V : valid (l_node ?l), E : ckids ?l = _ |- _ =>
      match type of H with
      | context [children_vec l] => rewrite (code_vec l) in H
      | context [find (is_kind ?k) (named_kids l)] => rewrite (code_find_kind l k V eq_refl) in H
      | context [filter (is_kind ?k) (named_kids l)] => rewrite (code_filter_kind l k V eq_refl) in H
      | context [find (is_kind ?k) (kids l)] => rewrite (code_find_any l k V eq_refl) in H
      | context [filter (is_kind ?k) (kids l)] => rewrite (code_filter_any l k V eq_refl) in H
      | context [find (fun c => has_field ?f (l_node c)) (kids l)] => rewrite (code_find_field l f V) in H
      | context [filter (fun c => has_field ?f (l_node c)) (kids l)] => rewrite (code_filter_field l f V) in H
      end
  end.
Ltac use_lists H :=
  use_code H;
  repeat match goal with
  | E : ckids ?l = _ |- _ => progress rewrite E in H
  | E : cnamed ?l = _ |- _ => progress rewrite E in H
  end.
Ltac inv_bind H :=
  match type of H with
  | context [rbind ?m _] =>
      lazymatch m with
      | rbind _ _ => fail
      | Ok _ => fail
      | _ => let E := fresh "E" in let x := fresh "x" in
             destruct m as [x| |] eqn:E; cbn [rbind] in H; try discriminate H
      end
  | context [rmap _ ?m] =>
      lazymatch m with
      | Ok _ => fail
      | _ => let E := fresh "E" in let x := fresh "x" in
             destruct m as [x| |] eqn:E; cbn [rmap rbind] in H; try discriminate H
      end
  end.
Ltac inv_lists H :=
  match type of H with
  | cs_by_n _ _ = Ok ?x => apply cs_by_n_ok in H; use_lists H; ev H; subst x
  | cs_by_k _ _ = Ok ?x => apply cs_by_k_ok in H; use_lists H; ev H; subst x
  end.
Ltac unfold_access H :=
  unfold opt_dimensions_k, cvalue_by_k, cvalue_by_n in H;
  unfold by_n, by_k, fst_c, opt_k, opt_n, all_k, all1_k, all1_n, all_c, vn_n, vn_k, opt_vn_k, first_c, try_first_c,
    c_by_k, c_by_n, try_c_by_k, try_cs_by_k, try_c_by_n, wrap_r, wrap in H.
Section Dangling4.
Context {DG : dangles}.
Lemma mapR_app {A B} (f : A -> res B) a b ds : mapR f (a ++ b) = Ok ds ->
  exists d1 d2, ds = d1 ++ d2 /\ mapR f a = Ok d1 /\ mapR f b = Ok d2.
Proof.
  revert ds. induction a as [|c a IHa]; intros ds H; [exists [], ds; auto|]. cbn [app mapR] in H.
  destruct (f c) as [d| |] eqn:E; cbn [rbind] in H; try discriminate.
  destruct (mapR f (a ++ b)) as [ds'| |]; cbn [rbind] in H; try discriminate. injection H as <-.
  destruct (IHa ds' eq_refl) as (d1 & d2 & -> & E1 & E2). exists (d :: d1), d2. cbn [mapR]. rewrite E, E1. auto.
Qed.
Lemma mapR_cons {A B} (f : A -> res B) c a ds : mapR f (c :: a) = Ok ds ->
  exists d ds', ds = d :: ds' /\ f c = Ok d /\ mapR f a = Ok ds'.
Proof.
  cbn [mapR]. destruct (f c) as [d| |]; cbn [rbind]; try discriminate.
  destruct (mapR f a) as [ds'| |]; cbn [rbind]; try discriminate. injection 1 as <-. eauto.
Qed.
End Dangling4.
Ltac inv_maps :=
  repeat match goal with
  | E : cs_by_n _ _ = Ok _ |- _ => inv_lists E
  | E : cs_by_k _ _ = Ok _ |- _ => inv_lists E
  | E : mapR _ [] = Ok ?x |- _ => injection E as E; subst x
  | E : mapR _ (_ :: _) = Ok ?x |- _ =>
      let d := fresh "x" in let ds := fresh "x" in let E1 := fresh "E" in let E2 := fresh "E" in
      apply mapR_cons in E as (d & ds & E & E1 & E2); subst x
  | E : mapR _ (_ ++ _) = Ok ?x |- _ =>
      let d := fresh "x" in let ds := fresh "x" in let E1 := fresh "E" in let E2 := fresh "E" in
      apply mapR_app in E as (d & ds & E & E1 & E2); subst x
  end.
(* Cases for a node of one of several kinds. *)
Ltac split_kind k c :=
  let Q := fresh "Q" in
  destruct (is_kind k c) eqn:Q;
  match goal with B : branch _ _ _ _ c |- _ =>
    let B' := fresh "B" in
    first [ pose proof (branch_narrow _ _ _ _ _ B Q) as B'; clear B
          | pose proof (branch_rest _ _ _ _ _ B Q) as B'; cbn [filter String.eqb Ascii.eqb Bool.eqb negb] in B'; clear B ]
  end; clear Q.
Ltac no_kind :=
  try match goal with B : branch _ _ _ [] _ |- _ => destruct B as (_ & B & _); discriminate B end.
Ltac inv_res E :=
  ev E;
  first
    [ match type of E with
      | context [if is_kind ?k ?c then _ else _] => split_kind k c; no_kind; inv_res E
      end
    | inv_bind E; inv_res E
    | discriminate E
    | match type of E with Ok _ = Ok ?x => injection E as E; subst x end
    | idtac ].
Ltac inv_new H :=
  unfold_access H; use_lists H; ev H;
  repeat (inv_bind H; ev H; inv_maps); ev H.

Ltac follows :=
  lazymatch goal with
  | |- follow (map _ []) = [] => reflexivity
  | |- follow (map _ (?x :: _)) = [] => cbn [map];
      match goal with
      | S : sign _ _ _ _ x |- _ => exact (follow_sign _ _ _ _ _ S eq_refl)
      | B : branch _ _ _ _ x |- _ => exact (follow_branch _ _ _ _ _ B eq_refl)
      end
  | |- follow (map _ (?a ++ _)) = [] =>
      match goal with
      | B : Forall (branch _ _ _ _) a |- _ => apply (follow_rep _ _ _ _ _ B eq_refl); follows
      | B : separated _ _ _ _ _ a |- _ => exact (follow_sep _ _ _ _ _ _ B eq_refl)
      | B : worded _ _ _ a |- _ => exact (follow_word _ _ _ _ B)
      end
  | |- follow (map _ ?a) = [] =>
      rewrite <- (app_nil_r a); follows
  end.

Ltac plac c := match goal with P : placed _ c _ |- _ => P end.
Ltac rec_step IH :=
  match goal with
  | E : _ ?s ?c = Ok ?d, B : branch _ _ _ _ ?c, P : placed _ ?c ?r |- _ =>
      lazymatch type of E with @eq (res dt) _ _ => idtac end;
      let K := fresh "K" in
      first
        [ pose proof (rec_silent _ IH _ _ _ _ _ _ _ _ E B P eq_refl eq_refl eq_refl eq_refl) as K
        | let Q := fresh in
          assert (Q : follow (map l_node r) = []) by follows;
          pose proof (rec_none _ IH _ _ _ _ _ _ _ _ E B P Q eq_refl eq_refl) as K; clear Q
        | match r with ?x :: _ => match goal with
          | S : sign _ _ _ _ x, Px : placed _ x _ |- _ =>
              pose proof (rec_punct _ IH _ _ _ _ _ _ _ _ _ _ _ E B P S (proj1 (proj2 (proj2 Px))) eq_refl
                            eq_refl eq_refl eq_refl) as K
          end end ];
      clear E
  | E : ?g ?c = Ok ?d, B : branch _ _ _ _ ?c, P : placed _ ?c ?r |- _ =>
      let G := lazymatch g with
               | new_Dimensions => constr:(dimensions_kept)
               | new_This => constr:(this_kept)
               | new_Super => constr:(super_kept)
               | new_BoolType => constr:(bool_kept)
               | new_SafeNavigationOperator => constr:(safe_kept)
               end in
      let K := fresh "K" in let Q := fresh in
      assert (Q : follow (map l_node r) = []) by follows;
      pose proof (local_none _ _ _ _ _ _ _ _ E G B P Q) as K; clear Q E
  | E : mapR (_ ?s) ?a = Ok ?ds, B : Forall (branch _ _ _ _) ?a, P : linked_to _ ?a ?t |- _ =>
      let K := fresh "K" in let Q := fresh in
      assert (Q : follow (map l_node t) = []) by follows;
      pose proof (recs_rep _ IH _ _ _ _ _ _ _ _ E B P Q eq_refl eq_refl eq_refl) as K; clear Q E
  | E : mapR (_ ?s) (evens ?a) = Ok ?ds, B : separated _ _ _ _ _ ?a, P : linked_to _ ?a ?t |- _ =>
      let K := fresh "K" in
      first
        [ let Q := fresh in
          assert (Q : follow (map l_node t) = []) by follows;
          pose proof (recs_sep _ IH _ _ _ _ _ _ _ _ _ E B P Q eq_refl eq_refl eq_refl eq_refl eq_refl) as K; clear Q
        | match t with ?x :: _ => match goal with
          | S : sign _ _ _ _ x, Px : placed _ x _ |- _ =>
              pose proof (recs_sep_punct _ IH _ _ _ _ _ _ _ _ _ _ _ _ E B P S (proj1 (proj2 (proj2 Px))) eq_refl
                            eq_refl eq_refl eq_refl eq_refl eq_refl) as K
          end end ]; clear E
  end.

Ltac pc :=
  cbn [pieces flat_map app t t_ _t _t_ sp tnil SL ML NL mk_ins sepSL sepML sepNL sepStr surr gsur gparen gc gic wrap
       before after is_nil x_punc without_punctuation str_piece t_str t_pre t_suf option_map map list_rect opt_list dot_navigation];
  rewrite ?map_app, ?flat_map_app;
  cbn [pieces flat_map app t t_ _t _t_ sp tnil SL ML NL mk_ins sepSL sepML sepNL sepStr surr gsur gparen gc gic wrap
       before after is_nil x_punc without_punctuation str_piece t_str t_pre t_suf option_map map list_rect opt_list dot_navigation];
  repeat (progress (rewrite ?app_nil_r, <- ?app_assoc; cbn [app])).
Ltac word := vm_compute; reflexivity.
(* Neither a separator nor an accessor. *)
Ltac apart :=
  match goal with |- kind_in (n_kind (l_node ?c)) apart_kinds = false =>
    first [ match goal with B : branch _ _ _ _ c |- _ => exact (apart_branch _ _ _ _ B eq_refl) end
          | match goal with S : sign _ _ _ _ c |- _ => exact (apart_sign _ _ _ _ S eq_refl) end ]
  end.
(* A node whose comments are not printed. *)
Ltac hush :=
  first [ match goal with
          | P : placed ?p ?c _, B : sign _ _ _ _ ?c |- quiet (l_node ?c) =>
              refine (signed_quiet _ _ (sign_signed _ _ _ _ B (proj1 (proj2 (proj2 P)))) _); first [reflexivity|assumption]
          | P : placed ?p ?c _, B : branch _ _ _ _ ?c, K : kind ?p = _ |- quiet (l_node ?c) => exact (branch_quiet _ _ _ _ _ _ _ P B K eq_refl)
          | P : placed ?p ?c _, B : sign _ _ _ _ ?c, K : kind ?p = _ |- quiet (l_node ?c) => exact (sign_quiet _ _ _ _ _ _ _ P B K eq_refl)
          | V : valid ?n |- quiet ?n => apply (mute_quiet n V); match goal with K : kind _ = _ |- _ => unfold kind in K; rewrite K; reflexivity end
          | F : fine ?l |- quiet (l_node ?l) => apply (mute_quiet (l_node l) (f_valid _ F)); match goal with K : kind _ = _ |- _ => unfold kind in K; rewrite K; reflexivity end
          end
        ].
Ltac still := first [left; reflexivity | right; hush].
Ltac not_if := match goal with K : kind ?p = _ |- is_kind _ ?p = false => unfold is_kind, has_kind; unfold kind in K; rewrite K; reflexivity end.
Ltac kp :=
  first
  [ lazymatch goal with
    | |- mkept [] [] => exact Mk_end
    | K : mkept ?a ?p |- mkept ?a ?p => exact K
    | |- mkept _ (pieces (vn ?c) ++ _) =>
        match goal with P : placed _ c ?r |- _ =>
          first [ apply kept_app; [apply (vn_kept _ _ _ P ltac:(atom) ltac:(apart)); follows|]
                | match r with ?x :: _ => match goal with
                  | S : sign _ _ _ _ x, Px : placed _ x _ |- _ =>
                      apply kept_app2; [apply (vn_kept_punct _ _ _ _ _ _ _ P ltac:(atom) ltac:(apart) S (proj1 (proj2 (proj2 Px))) eq_refl)|]
                  end end ]
        end; kp
    | |- mkept _ (pieces (vn ?c)) => rewrite <- (app_nil_r (pieces (vn c))); kp
    | P : placed _ ?c _ |- mkept _ (n_text (l_node ?c) :: _) => apply (kept_text _ _ _ (proj1 (proj2 (proj2 P))) ltac:(atom)); [hush|]; kp
    | P : placed _ ?c _ |- mkept _ (value ?c :: _) => apply (kept_text (l_node c) _ _ (proj1 (proj2 (proj2 P))) ltac:(atom)); [hush|]; kp
    end
  | match goal with
    | K : mkept ?a ?p |- mkept (?a ++ _) (?p ++ _) => apply (kept_app _ _ _ _ K); kp
    | K : mkept (?a1 ++ ?a2) ?p |- mkept (?a1 ++ ?a2 ++ _) (?p ++ _) => apply (kept_app2 _ _ _ _ _ K); kp
    | K : mkept ?a ?p |- mkept (?a ++ _) ?p => rewrite <- (app_nil_r p); apply (kept_app _ _ _ _ K); kp
    | K : mkept ?a ?p |- mkept ?a (?p ++ _) => rewrite <- (app_nil_r a); apply (kept_app _ _ _ _ K); kp
    | K : mkept (?a1 ++ ?a2) ?p |- mkept (?a1 ++ ?a2 ++ _) ?p => rewrite <- (app_nil_r p); apply (kept_app2 _ _ _ _ _ K); kp
    | |- mkept _ (joined _ _) => rewrite <- (app_nil_r (joined _ _)); kp
    | |- mkept _ (joined _ _ ++ _) =>
        apply kept_unjoin; [reflexivity|]; cbn [List.concat]; rewrite <- ?flat_map_concat_map; pc; kp
    | |- mkept _ (flat_map pieces (if is_nil ?ds then [] else [TIntersperse ?ds (sepStr " "); sp])) =>
        rewrite <- (app_nil_r (flat_map pieces (if is_nil ds then [] else [TIntersperse ds (sepStr " "); sp]))); kp
    | |- mkept _ (flat_map pieces (if is_nil ?ds then [] else [TIntersperse ?ds (sepStr " "); sp]) ++ _) =>
        apply kept_spaced; kp
    | |- mkept _ (pieces (declarators_doc ?ds)) => rewrite <- (app_nil_r (pieces _)); kp
    | |- mkept _ (pieces (declarators_doc ?ds) ++ _) => apply kept_declarators; pc; kp
    end
  | apply Mk_blank; [word|]; kp
  | match goal with
    | S : signed ?m _ |- mkept (mleaves ?m ++ _) (_ :: _) => apply (kept_sign1 _ _ _ _ _ S); [still|word|]; kp
    | B : branch _ _ _ [_] ?c, P : placed _ ?c _ |- mkept (mleaves (l_node ?c) ++ _) (_ :: _) =>
        apply (kept_word1 _ _ _ _ _ _ _ _ _ _ B P eq_refl); [hush|word|]; kp
    | S : signed ?m _, S1 : signed ?m1 _ |- mkept (mleaves ?m ++ mleaves ?m1 ++ _) (_ :: _) =>
        apply (kept_sign2 _ _ _ _ _ _ _ S S1); [still|still|word|]; kp
    | S : signed ?m _, S1 : signed ?m1 _, S2 : signed ?m2 _ |- mkept (mleaves ?m ++ mleaves ?m1 ++ mleaves ?m2 ++ _) (_ :: _) =>
        apply (kept_sign3 _ _ _ _ _ _ _ _ _ S S1 S2); [still|still|still|word|]; kp
    | S : signed ?m _, S1 : signed ?m1 _, S2 : signed ?m2 _, S3 : signed ?m3 _
      |- mkept (mleaves ?m ++ mleaves ?m1 ++ mleaves ?m2 ++ mleaves ?m3 ++ _) (_ :: _) =>
        apply (kept_sign4 _ _ _ _ _ _ _ _ _ _ _ S S1 S2 S3); [still|still|still|still|word|]; kp
    end
  | match goal with
    | B : worded _ _ _ ?a, P : linked_to _ ?a _ |- mkept (flat_map mleaves (map l_node ?a) ++ _) (_ :: _) =>
        apply (kept_worded _ _ _ _ _ _ _ _ B P); [not_if|word|]; kp
    | B : worded _ _ _ ?a, P : linked_to _ ?a _ |- mkept (flat_map mleaves (map l_node ?a)) (_ :: _) =>
        rewrite <- (app_nil_r (flat_map mleaves (map l_node a))); apply (kept_worded _ _ _ _ _ _ _ _ B P); [not_if|word|]; kp
    end
  | match goal with
    | S : signed ?m _, S1 : signed ?m1 _ |- mkept (mleaves ?m ++ mleaves ?m1) (_ :: _) =>
        rewrite <- (app_nil_r (mleaves m1)); apply (kept_sign2 _ _ _ _ _ _ _ S S1); [still|still|word|]; kp
    | S : signed ?m _, S1 : signed ?m1 _, S2 : signed ?m2 _ |- mkept (mleaves ?m ++ mleaves ?m1 ++ mleaves ?m2) (_ :: _) =>
        rewrite <- (app_nil_r (mleaves m2)); apply (kept_sign3 _ _ _ _ _ _ _ _ _ S S1 S2); [still|still|still|word|]; kp
    end
  | lazymatch goal with |- mkept (mleaves ?m) _ => rewrite <- (app_nil_r (mleaves m)) end; progress kp
  | idtac ].

(* A node printed with its separator: its body is that of its children. *)
Ltac node_body F Hk :=
  apply nodeP_holds; [exact F|rewrite Hk; vm_compute; auto|];
  apply kept_children; [exact (f_valid _ F)|rewrite Hk; discriminate|rewrite Hk; reflexivity|apply kind_calm; [exact (f_valid _ F)|rewrite Hk; reflexivity]|];
  match goal with E : ckids _ = _ |- _ => rewrite E end; pc.

(* The kind of a node whose syntax type checks it. *)
Ltac checked_kind H Hk :=
  match type of H with rbind (assert_check _ _) _ = _ =>
    inv_bind H; match goal with E : assert_check _ _ = Ok _ |- _ => apply assert_ok in E; rename E into Hk end
  end.
Ltac done_new H := first [discriminate H | injection H as <-].
Ltac plain_sort l IH F H Hk :=
  open_rule l F Hk; links; kid_lists; inv_new H; done_new H; repeat rec_step IH; node_body F Hk; kp.

Section Braces.
Context {DG : dangles}.
(* The braces of a body with nothing but comments in them. *)
Definition bare_item (i : item) : bool := match i with Sign _ | Opt _ _ | Rep _ _ | Sep _ _ _ => true | _ => false end.
Lemma bare_fits fs its : forall cs : list node, forallb bare_item its = true -> fits (fun c => c) fs its cs ->
  (forall c, In c cs -> n_named c = false) ->
  map n_kind cs = flat_map (fun i => match i with Sign k => [k] | _ => [] end) its.
Proof.
  induction its as [|i its IH]; intros cs Hb HF Hu; cbn [fits] in HF; [subst; reflexivity|].
  cbn [forallb] in Hb. apply Bool.andb_true_iff in Hb as [Hi Hb].
  destruct i; try discriminate Hi; cbn [flat_map].
  - destruct HF as (c & r & -> & (_ & S & _) & HF). cbn [map app]. f_equal; [exact S|].
    apply IH; [exact Hb|exact HF|]. intros x Hx. apply Hu. right. exact Hx.
  - destruct HF as [HF|(c & r & -> & (B & _) & _)]; [apply IH; assumption|].
    rewrite (Hu c (or_introl eq_refl)) in B. discriminate.
  - destruct HF as (a & r & -> & FA & HF). destruct FA as [|c a (B & _) _].
    + apply IH; assumption.
    + rewrite (Hu c (or_introl eq_refl)) in B. discriminate.
  - destruct HF as (a & r & -> & FA & HF). exfalso. inversion FA as [c (B & _)|c x r' (B & _) _ _]; subst;
      rewrite (Hu c (or_introl eq_refl)) in B; discriminate.
Qed.
Definition opens_closes (i : list item) : bool :=
  match flat_map (fun i => match i with Sign k => [k] | _ => [] end) i with [o; c] => String.eqb o "{" && String.eqb c "}" | _ => false end.
Lemma body_rules k : kind_in k body_kinds = true -> rules k <> [] /\ forallb (forallb bare_item) (rules k) = true /\
  forallb opens_closes (rules k) = true.
Proof.
  unfold body_kinds, kind_in. cbn [existsb]. intro H.
  repeat (apply Bool.orb_prop in H as [H|H]; [apply String.eqb_eq in H as ->; split; [discriminate|split; reflexivity]|]). discriminate.
Qed.
Lemma body_braces n : valid n -> n_named n = true -> dangle (n_id n) = true ->
  mkept (inner n) ([U "{"] ++ n_in (n_id n) ++ [U "}"]).
Proof.
  intros V Hn Hd. destruct (valid_dangle _ V Hd) as (Hk & Hf & _).
  assert (Hu : forall c, In c (code_children n) -> n_named c = false).
  { intros c Hc. destruct (n_named c) eqn:E; [|reflexivity]. assert (Hin : In c (filter n_named (code_children n))) by (apply filter_In; auto).
    rewrite Hf in Hin. destruct Hin. }
  assert (HB : exists o c, code_children n = [o; c] /\ n_kind o = "{" /\ n_kind c = "}").
  { destruct (valid_good _ V) as (_ & _ & _ & HR & _). specialize (HR Hn). unfold follows_rules in HR.
    destruct (body_rules _ Hk) as (H1 & H2 & H3). destruct (HR H1) as (alt & Ha & HF).
    rewrite forallb_forall in H2, H3. specialize (H2 alt Ha). specialize (H3 alt Ha).
    pose proof (bare_fits _ _ _ H2 HF Hu) as E. unfold opens_closes in H3. rewrite <- E in H3.
    destruct (code_children n) as [|o [|c [|x r]]]; try discriminate. cbn [map] in H3.
    apply Bool.andb_true_iff in H3 as [H3 H4]. apply String.eqb_eq in H3, H4. eauto. }
  destruct HB as (o & c & E & O2 & C2).
  assert (HS : forall m k, In m [o; c] -> n_kind m = k -> signed m k).
  { intros m k Hm <-. rewrite <- E in Hm. pose proof (valid_kid n m V Hm) as Vm. pose proof (Hu m Hm) as Nm.
    destruct (valid_good _ Vm) as (Xm & _ & Sm & _). unfold spelled in Sm. rewrite Nm in Sm. destruct Sm as [S1 S2].
    apply unnamed_signed; assumption. }
  assert (HL : inner n = mleaves o ++ marks (n_in (n_id n)) ++ mleaves c ++ []).
  { assert (E0 : children n <> []) by (intro E0; unfold code_children in E; rewrite E0 in E; discriminate).
    unfold inner. destruct (children n) as [|x r]; [contradiction|]. rewrite E. cbn [flat_map]. unfold ahead, early.
    unfold late. rewrite (Hu o), (Hu c) by (rewrite E; cbn [In]; tauto).
    rewrite Hd. unfold has_kind. rewrite O2, C2. rewrite !Bool.andb_false_r. cbn [andb String.eqb Ascii.eqb Bool.eqb app marks map].
    rewrite ?app_nil_r, <- ?app_assoc. reflexivity. }
  rewrite HL. apply (kept_sign1 o "{"); [apply HS; [left; reflexivity|exact O2]|left; reflexivity|reflexivity|].
  apply kept_app; [apply mkept_marks|].
  apply (kept_sign1 c "}"); [apply HS; [right; left; reflexivity|exact C2]|left; reflexivity|reflexivity|constructor].
Qed.
Lemma bracket_kept h l body : valid (l_node l) -> n_named (l_node l) = true -> kind_in (kind l) body_kinds = true ->
  match h with HBracket => true | HBracketNoPost => kind_in (kind l) mute_ends | _ => false end = true ->
  (dangle (n_id (l_node l)) = false -> mkept (inner (l_node l)) (flat_map pieces body)) ->
  mkept (mleaves (l_node l)) (pieces (TNode h (with_punctuation l) body [])).
Proof.
  intros V Hn Hb Hh K. rewrite (node_marks _ V) by (eapply kinds_not; [exact Hb|reflexivity]).
  cbn [pieces flat_map]. rewrite app_nil_r.
  assert (HN : mkept (inner (l_node l)) (node_piece h (with_punctuation l) (flat_map pieces body))).
  { unfold node_piece. cbn [with_punctuation x_id]. destruct (dangle (n_id (l_node l))) eqn:Hd; [|exact (K eq_refl)].
    pose proof (body_braces _ V Hn Hd) as B. destruct h; try discriminate; exact B. }
  assert (HC : dangle (n_id (l_node l)) = true \/ kind_in (kind l) mute_ends = true -> may (n_post (n_id (l_node l)))).
  { intro H. apply (dangle_may _ V) in H. rewrite <- (proj2 (node_sides _ V ltac:(rewrite punct_is; eapply kinds_not; [exact Hb|reflexivity]))). exact H. }
  destruct h; try discriminate; cbn [pre_piece end_piece with_punctuation x_id].
  - apply kept_app; [apply mkept_marks|]. apply kept_app; [exact HN|]. unfold post_piece. cbn [with_punctuation x_id].
    destruct (dangle (n_id (l_node l))) eqn:Hd; [|apply mkept_marks].
    apply (Mk_thin _ [] _ (thinned_marks _ (HC (or_introl eq_refl)))), Mk_end.
  - rewrite app_nil_r. apply kept_app; [apply mkept_marks|]. apply mkept_skips_end; [|exact HN]. apply HC. right. exact Hh.
Qed.
(* A node with its comments, but without the separator behind it. *)
Definition attached (h : handling) (x : context) : list ustr := match h with HAttached => punc_piece x | _ => [] end.
Lemma plain_kept h x l body : valid (l_node l) -> kind_in (n_kind (l_node l)) apart_kinds = false -> dangle (n_id (l_node l)) = false ->
  x_id x = n_id (l_node l) ->
  match h with HPlain | HAttached => True | HPunc => x_punc x = None | _ => False end ->
  mkept (inner (l_node l)) (flat_map pieces body ++ attached h x) -> mkept (mleaves (l_node l)) (pieces (TNode h x body [])).
Proof.
  intros V Ha Hd Hx Hh K. rewrite (node_marks _ V Ha). cbn [pieces flat_map]. rewrite (calm_piece _ _ l) by auto. rewrite app_nil_r.
  destruct h; try contradiction; cbn [pre_piece end_piece attached] in *; rewrite ?(calm_post x l), ?Hx by auto;
    apply kept_app; try apply mkept_marks.
  - rewrite app_nil_r in K. apply kept_app; [exact K|apply mkept_marks].
  - unfold punc_piece. rewrite Hh, !app_nil_r in *. apply kept_app; [exact K|apply mkept_marks].
  - rewrite app_assoc. apply kept_app; [exact K|apply mkept_marks].
Qed.
Lemma root_kept x l body : valid (l_node l) -> quiet (l_node l) -> dangle (n_id (l_node l)) = false -> x_id x = n_id (l_node l) ->
  mkept (inner (l_node l)) (flat_map pieces body) -> mkept (mleaves (l_node l)) (pieces (TNode HRoot x body [])).
Proof.
  intros V Q Hd Hx K. cbn [pieces flat_map pre_piece end_piece]. rewrite (calm_piece _ _ l) by auto. rewrite !app_nil_r.
  apply kept_bare; [apply V|exact Q|exact K].
Qed.
(* The comments behind an accessor stand in front of its semicolon. *)
Lemma accessor_kept l a x fs f body : valid (l_node l) -> n_named (l_node l) = true -> kind l = "accessor_declaration" ->
  ckids l = a ++ [x] -> (forall c, In c a -> is_punctuation_node (l_node c) = false) ->
  sign l_node fs f ";" x -> valid (l_node x) ->
  mkept (flat_map mleaves (map l_node a)) (flat_map pieces body) ->
  mkept (mleaves (l_node l)) (pieces (TNode HPunc (with_inner_punctuation l) body [])).
Proof.
  intros V Hn Hk E Ha S Vx K. pose proof (inner_kept l a x fs f V E Ha S Vx) as KI.
  assert (Hd : dangle (n_id (l_node l)) = false) by (apply kind_calm; [exact V|rewrite Hk; reflexivity]).
  destruct (node_sides _ V) as [HO HC].
  { rewrite punct_is. unfold kind in Hk. rewrite Hk. reflexivity. }
  cbn [pieces flat_map pre_piece end_piece]. rewrite (calm_piece _ _ l), (calm_post _ l) by auto. rewrite app_nil_r.
  rewrite mleaves_inner by apply V. rewrite front_opening, HO by (unfold has_kind; unfold kind in Hk; rewrite Hk; reflexivity).
  cbn [with_inner_punctuation x_id].
  apply kept_app; [apply mkept_marks|].
  assert (EC : code_children (l_node l) = map l_node a ++ [l_node x]) by (rewrite <- ckids_nodes, E, map_app; reflexivity).
  assert (E0 : children (l_node l) <> []).
  { intro E0. unfold code_children in EC. rewrite E0 in EC. destruct a; discriminate. }
  assert (HL : forall c, late (l_node l) c = false) by (intro c; unfold late, has_kind; unfold kind in Hk; rewrite Hk; reflexivity).
  assert (HE : early (l_node l) (l_node x) = true).
  { unfold early, has_kind. unfold kind in Hk. rewrite Hk. destruct S as (_ & -> & _). reflexivity. }
  assert (HB : behind (l_node l) = []).
  { unfold behind. rewrite EC, existsb_app. cbn [existsb]. rewrite HE. rewrite orb_true_r. reflexivity. }
  rewrite HB. cbn [marks map]. rewrite app_nil_r.
  assert (HI : inner (l_node l) = flat_map mleaves (map l_node a) ++ marks (n_post (n_id (l_node l))) ++ mleaves (l_node x)).
  { unfold inner. destruct (children (l_node l)) as [|y r]; [contradiction|]. rewrite EC, flat_map_app. f_equal.
    - clear - Ha HL Hd. induction a as [|z a IH]; [reflexivity|].
      cbn [map flat_map]. rewrite IH by (intros c Hc; apply Ha; right; exact Hc). f_equal.
      unfold ahead. rewrite HL, Hd. specialize (Ha z (or_introl eq_refl)). rewrite punct_is in Ha. unfold kind_in in Ha. cbn [existsb] in Ha.
      apply Bool.orb_false_iff in Ha as [_ Ha]. apply Bool.orb_false_iff in Ha as [Ha _].
      unfold early, has_kind. rewrite Ha, Bool.andb_false_r. reflexivity.
    - cbn [flat_map]. unfold ahead. rewrite HL, Hd, HE, HC. cbn [andb app]. apply app_nil_r. }
  rewrite HI. apply kept_app; [exact K|]. apply kept_app; [apply mkept_marks|]. exact KI.
Qed.
Lemma accessor_plain l body : valid (l_node l) -> n_named (l_node l) = true -> kind l = "accessor_declaration" ->
  (forall c, In c (ckids l) -> is_punctuation_node (l_node c) = false) ->
  mkept (flat_map mleaves (map l_node (ckids l))) (flat_map pieces body) ->
  mkept (mleaves (l_node l)) (pieces (TNode HPunc (with_inner_punctuation l) body [])).
Proof.
  intros V Hn Hk Ha K.
  assert (Hd : dangle (n_id (l_node l)) = false) by (apply kind_calm; [exact V|rewrite Hk; reflexivity]).
  apply kept_ahead in K; [|exact V|rewrite Hk; discriminate|].
  2:{ intros z Hz. specialize (Ha z Hz). rewrite punct_is in Ha. unfold kind_in in Ha. cbn [existsb] in Ha.
      apply Bool.orb_false_iff in Ha as [_ Ha]. apply Bool.orb_false_iff in Ha as [Ha _].
      unfold ahead, late, early, has_kind. rewrite Hd, Ha. unfold kind in Hk. rewrite Hk, Bool.andb_false_r. reflexivity. }
  destruct (node_sides _ V) as [HO HC].
  { rewrite punct_is. unfold kind in Hk. rewrite Hk. reflexivity. }
  cbn [pieces flat_map pre_piece end_piece]. rewrite (calm_piece _ _ l), (calm_post _ l) by auto. rewrite !app_nil_r.
  rewrite (inner_none l V Ha), app_nil_r.
  rewrite mleaves_inner by apply V. rewrite front_opening, HO by (unfold has_kind; unfold kind in Hk; rewrite Hk; reflexivity).
  cbn [with_inner_punctuation x_id].
  assert (HB : behind (l_node l) = closing (l_node l)).
  { unfold behind. rewrite <- ckids_nodes. replace (existsb _ _) with false; [reflexivity|]. symmetry.
    revert Ha. generalize (ckids l). intros cl Ha. induction cl as [|c cl IH]; [reflexivity|]. cbn [map existsb].
    rewrite IH by (intros c' Hc'; apply Ha; right; exact Hc'). specialize (Ha c (or_introl eq_refl)). rewrite punct_is in Ha.
    unfold early, has_kind. unfold kind_in in Ha. cbn [existsb] in Ha. apply Bool.orb_false_iff in Ha as [_ Ha].
    apply Bool.orb_false_iff in Ha as [Ha _]. rewrite Ha, Bool.andb_false_r. reflexivity. }
  rewrite HB, HC. apply kept_app; [apply mkept_marks|]. apply kept_app; [exact K|apply mkept_marks].
Qed.
End Braces.
(* A node printed without the separator behind it. *)
Ltac silent_body F Hk :=
  unfold holds; rewrite claim_silent by (rewrite Hk; reflexivity);
  match goal with
  | |- mkept (mleaves (l_node ?l)) (pieces (TNode _ _ _ _)) =>
      first [ apply bracket_kept; [exact (f_valid _ F)|exact (f_named _ F)|rewrite Hk; reflexivity|rewrite ?Hk; reflexivity|intro]
            | apply plain_kept; [exact (f_valid _ F)|unfold kind in Hk; rewrite Hk; reflexivity|
                first [reflexivity | apply kind_calm; [exact (f_valid _ F)|rewrite Hk; reflexivity]]|reflexivity|
                first [exact I|reflexivity]|cbn [attached]]
            | apply root_kept; [exact (f_valid _ F)|hush|apply kind_calm; [exact (f_valid _ F)|rewrite Hk; reflexivity]|reflexivity|] ];
      apply kept_children
  | _ => apply bare_children
  end; [exact (f_valid _ F)|rewrite Hk; discriminate|rewrite Hk; reflexivity|
        first [assumption|reflexivity|apply kind_calm; [exact (f_valid _ F)|rewrite Hk; reflexivity]]|..];
  lazymatch goal with |- quiet _ => hush | _ => idtac end;
  match goal with E : ckids _ = _ |- _ => rewrite E end; pc.
Ltac members :=
  match goal with E : mapR (body_member _ _ _ _) _ = Ok _ |- _ =>
    let M := fresh "M" in let M' := fresh "M" in
    apply members_docs in E as [M M']; unfold member_docs in M'
  end.
Ltac to_members := repeat match goal with M : flat_map _ ?ms = flat_map pieces (map fst ?ms) |- _ => rewrite M; clear M end.

Ltac no_punct :=
  repeat match goal with
  | |- forall c, In c _ -> _ => let c := fresh "c" in let Hc := fresh "Hc" in intros c Hc; cbn [In] in Hc
  | H : _ \/ _ |- is_punctuation_node _ = false => destruct H as [<-|H]
  | H : False |- _ => destruct H
  | B : branch _ _ _ _ ?c |- is_punctuation_node (l_node ?c) = false => exact (not_punct_branch _ _ _ _ B eq_refl)
  | S : sign _ _ _ _ ?c |- is_punctuation_node (l_node ?c) = false => exact (not_punct_sign _ _ _ _ S eq_refl)
  end.
(* The separator among the node's own children. *)
Ltac inner :=
  lazymatch goal with
  | |- mkept (mleaves (l_node ?x)) (punc_piece (with_inner_punctuation ?l)) =>
      match goal with
      | V : valid (l_node l), E : ckids l = [?a; x], S : sign _ _ _ _ x, P : placed _ x _ |- _ =>
          apply (inner_kept l [a] x _ _ V E ltac:(no_punct) S (proj1 (proj2 (proj2 P))))
      | V : valid (l_node l), E : ckids l = [?a; ?b; x], S : sign _ _ _ _ x, P : placed _ x _ |- _ =>
          apply (inner_kept l [a; b] x _ _ V E ltac:(no_punct) S (proj1 (proj2 (proj2 P))))
      end
  | |- context [punc_piece (with_inner_punctuation ?l)] =>
      match goal with V : valid (l_node l) |- _ =>
        rewrite (inner_none l V) by (match goal with E : ckids l = _ |- _ => rewrite E end; no_punct) end;
      rewrite ?app_nil_r; kp
  end.

(* A syntax type that is one of several others. *)
Section Dangling5.
Context {DG : dangles}.
Lemma wrap_holds l d : holds l d -> holds l (wrap d).
Proof. unfold holds. cbn [pieces wrap flat_map]. rewrite app_nil_r. exact (fun H => H). Qed.
Lemma kind_of k l : is_kind k l = true -> kind l = k.
Proof. apply String.eqb_eq. Qed.
End Dangling5.
Ltac leaf IH F :=
  repeat apply wrap_holds;
  first
  [ assumption
  | match goal with E : _ ?s ?l = Ok ?d |- holds ?l ?d =>
      eapply (rec_holds _ IH s); [reflexivity|exact F| |exact E];
      first [exact I | unfold expected, expect; match goal with Q : kind _ = _ |- _ => rewrite Q; reflexivity end]
    end
  | apply vn_holds; [exact F|match goal with Q : kind _ = _ |- _ => rewrite Q; vm_compute; auto end|
                        match goal with Q : kind _ = _ |- _ => rewrite Q; reflexivity end]
  | match goal with Q : kind _ = _ |- _ =>
      apply caseless_holds; [exact F|rewrite Q; reflexivity|rewrite Q; reflexivity|apply bits_lower] end
  | match goal with
    | E : new_This _ = Ok _ |- _ => exact (this_kept _ _ F E)
    | E : new_Super _ = Ok _ |- _ => exact (super_kept _ _ F E)
    | E : new_BoolType _ = Ok _ |- _ => exact (bool_kept _ _ F E)
    end
  | idtac ].
Ltac dispatch IH F H :=
  unfold wrap_r, wrap in H;
  lazymatch type of H with
  | (if is_kind ?k ?l then _ else _) = _ =>
      let Q := fresh "Q" in destruct (is_kind k l) eqn:Q; [apply kind_of in Q; dispatch IH F H|clear Q; dispatch IH F H]
  | (if kind_in (kind ?l) ?ks then _ else _) = _ =>
      let Q := fresh "Q" in destruct (kind_in (kind l) ks) eqn:Q; [dispatch IH F H|clear Q; dispatch IH F H]
  | _ => repeat inv_bind H; first [discriminate H | injection H as <-; leaf IH F | idtac]
  end.
Ltac each_kind c :=
  match goal with
  | B : branch _ _ _ [?k] c |- _ => idtac
  | B : branch _ _ _ (?k :: _) c |- _ => split_kind k c; [|each_kind c]
  end.

Section Dangling6.
Context {DG : dangles}.
Lemma only_kind fs f k c : branch l_node fs f [k] c -> kind c = k.
Proof. intros (_ & H & _). apply kind_one, H. Qed.
(* The operator in front of the name of a method. *)
Definition navigation (n : loc) : res dt :=
  if is_kind "safe_navigation_operator" n then rmap (fun x : dt => TConcat [x]) (new_SafeNavigationOperator n) else Ok dot_navigation.
(* The next named neighbour. *)
Lemma next_passes q n : plain q n = false -> n_named n && negb (n_extra n) = false.
Proof.
  intro H. apply negb_false_iff, orb_true_iff in H as [H|H]; [rewrite H; apply andb_false_r|].
  rewrite (proj1 (spare_skipped _ _ H)). reflexivity.
Qed.
Lemma next_skip q up : forall r left x rs m, filter (plain q) r = x :: rs -> n_named x = false ->
  next_named_from left r up = Some m ->
  exists left' r', filter (plain q) r' = rs /\ next_named_from left' r' up = Some m.
Proof.
  induction r as [|n r IHr]; intros left x rs m E Hn H; [discriminate|]. cbn [filter next_named_from] in *.
  destruct (plain q n) eqn:Ex.
  - injection E as <- E. rewrite Hn in H. cbn [andb] in H. eauto.
  - rewrite (next_passes _ _ Ex) in H. eapply IHr; eauto.
Qed.
Lemma next_take q up : forall r left y rs m, filter (plain q) r = y :: rs -> n_named y = true ->
  next_named_from left r up = Some m -> exists left' r', m = Loc y left' r' up /\ filter (plain q) r' = rs.
Proof.
  induction r as [|n r IHr]; intros left y rs m E Hn H; [discriminate|]. cbn [filter next_named_from] in *.
  destruct (plain q n) eqn:Ex.
  - injection E as <- E. assert (n_extra n = false).
    { unfold plain in Ex. destruct (n_extra n); [discriminate|reflexivity]. }
    rewrite Hn, H0 in H. cbn [andb negb] in H. injection H as <-. eauto.
  - rewrite (next_passes _ _ Ex) in H. eapply IHr; eauto.
Qed.
Lemma next_ok c n : next_named c = Ok n -> next_named_from (l_node c :: l_left c) (l_right c) (parent c) = Some n.
Proof. unfold next_named, must. destruct (next_named_from _ _ _); congruence. Qed.
Lemma next_named_skip p c x y r n fs f f' ks : placed p c (x :: y :: r) -> sign l_node fs f "." x ->
  branch l_node fs f' ks y -> next_named c = Ok n ->
  exists left' r', n = Loc (l_node y) left' r' (Some p) /\ filter (plain (l_node p)) r' = map l_node r.
Proof.
  intros (Hr & Hp & _) (Sn & _) (Bn & _) En. apply next_ok in En. unfold cright, among in Hr. rewrite Hp in *.
  destruct (next_skip _ _ _ _ _ _ _ Hr Sn En) as (lf & r' & E1 & E2).
  exact (next_take _ _ _ _ _ _ _ E1 Bn E2).
Qed.
Lemma next_named_take p c y r n fs f ks : placed p c (y :: r) ->
  branch l_node fs f ks y -> next_named c = Ok n ->
  exists left' r', n = Loc (l_node y) left' r' (Some p) /\ filter (plain (l_node p)) r' = map l_node r.
Proof.
  intros (Hr & Hp & _) (Bn & _) En. apply next_ok in En. unfold cright, among in Hr. rewrite Hp in *.
  exact (next_take _ _ _ _ _ _ _ Hr Bn En).
Qed.
Lemma dot_next p c x y r n d fs f f' ks : placed p c (x :: y :: r) -> sign l_node fs f "." x ->
  branch l_node fs f' ks y -> placed p y r -> kind_in "safe_navigation_operator" ks = false ->
  next_named c = Ok n -> navigation n = Ok d -> d = dot_navigation.
Proof.
  intros P S B _ Ek En Hd. destruct (next_named_skip _ _ _ _ _ _ _ _ _ _ P S B En) as (lf & r' & -> & _).
  unfold navigation in Hd. rewrite (kind_no "safe_navigation_operator" ks) in Hd; [|exact (proj1 (proj2 B))|exact Ek]. injection Hd as <-. reflexivity.
Qed.
Lemma safe_next p c y r n d fs f : placed p c (y :: r) ->
  branch l_node fs f ["safe_navigation_operator"] y -> placed p y r -> follow (map l_node r) = [] ->
  next_named c = Ok n -> navigation n = Ok d -> mkept (mleaves (l_node y)) (pieces d).
Proof.
  intros P B (Hr' & Hp' & Hv & HV) Hf En Hd.
  destruct (next_named_take _ _ _ _ _ _ _ _ P B En) as (lf & r' & En' & Er). destruct B as (Bn & Bk & _).
  assert (Hm : l_node n = l_node y /\ cright n = map l_node r /\ parent n = Some p) by (rewrite En'; split; [reflexivity|split; [exact Er|reflexivity]]).
  destruct Hm as (Hm1 & Hm2 & Hm3). clear En'. unfold navigation in Hd.
  assert (Hk : is_kind "safe_navigation_operator" n = true)
    by (unfold is_kind, has_kind; rewrite Hm1, (kind_one _ _ Bk); reflexivity).
  rewrite Hk in Hd. destruct (new_SafeNavigationOperator n) as [d0| |] eqn:E; try discriminate. injection Hd as <-.
  assert (Fm : fine n).
  { apply fine_none; rewrite ?Hm1, ?Hm2; auto. unfold rightly in *. rewrite Hm1, Hm2, <- Hr', Hm3, <- Hp'. exact HV. }
  pose proof (safe_kept _ _ Fm E) as K. unfold holds in K.
  rewrite (claim_none n) in K by (rewrite Hm2; exact Hf). cbn [pieces flat_map]. rewrite app_nil_r, <- Hm1. exact K.
Qed.

Lemma verb_kind fs k v c x msg : verb l_node fs k [v] c -> must msg (hd_error (children_vec c)) = Ok x -> kind x = v.
Proof.
  intros (_ & y & E & Hk) H. rewrite code_vec in H. unfold cnamed in H.
  assert (Ek : exists y', ckids c = [y'] /\ l_node y' = y).
  { pose proof (ckids_nodes c) as Q. rewrite E in Q. destruct (ckids c) as [|y' [|? ?]]; try discriminate.
    injection Q as <-. eauto. }
  destruct Ek as (y' & Ek & <-). rewrite Ek in H. cbn [filter] in H.
  destruct (is_named y'); cbn [filter hd_error must] in H; [|discriminate].
  injection H as <-. apply kind_one, Hk.
Qed.
(* The separators of a for statement. *)
Lemma semi_new fs f x : sign l_node fs f ";" x -> punct_new (l_node x) = Ok (Punct false (n_id (l_node x))).
Proof. intros (_ & H & _). unfold punct_new, has_kind. rewrite H. reflexivity. Qed.
Lemma semi_kept p x r fs f L P : placed p x r -> sign l_node fs f ";" x -> mkept L P ->
  mkept (mleaves (l_node x) ++ L) (p_pre (n_id (l_node x)) ++ U ";" :: p_post (n_id (l_node x)) ++ P).
Proof.
  intros (_ & _ & V & _) S K. destruct (sign_signed _ _ _ _ S V) as (_ & HK & Ht & _).
  destruct (valid_good _ V) as (Hx & _ & Hsp & _). unfold spelled in Hsp. destruct S as (Sn & Sk & _). rewrite Sn in Hsp.
  rewrite (mleaves_leaf _ Hx (proj1 Hsp)). unfold opening, closing. rewrite punct_is, Sk.
  cbn [kind_in existsb String.eqb Ascii.eqb Bool.eqb orb]. rewrite <- !app_assoc. apply kept_app; [apply mkept_marks|].
  cbn [app]. apply (Mk_words [l_node x] [U ";"]); [constructor; [exact HK|constructor]| |].
  - unfold bits_of. cbn [flat_map]. rewrite app_nil_r, Ht. reflexivity.
  - apply kept_app; [apply mkept_marks|exact K].
Qed.
(* the comments of a semicolon that is printed twice *)
Lemma twice_quiet l fs f ks fs' f' c x : valid (l_node l) -> kind l = "for_statement" ->
  find (fun c => has_field "condition" (l_node c)) (ckids l) = None ->
  In c (ckids l) -> branch l_node fs f ks c -> kind_in "local_variable_declaration" ks = false -> has_field "init" (l_node c) = true ->
  In x (ckids l) -> sign l_node fs' f' ";" x -> p_pre (n_id (l_node x)) = [] /\ p_post (n_id (l_node x)) = [].
Proof.
  intros V Hk Hf Hc B Bk Hi Hx S. destruct (valid_calm _ V) as (_ & _ & _ & _ & Hq).
  destruct (Hq) with (c := l_node x) as [H1 H2].
  - split; [exact Hk|]. split.
    + rewrite <- (code_find_field l "condition" V) in Hf. rewrite <- kids_nodes.
      assert (HN : forall b, find (fun c => has_field "condition" (l_node c)) b = None -> existsb (has_field "condition") (map l_node b) = false).
      { intros b. induction b as [|y b IHb]; intro E; [reflexivity|]. cbn [find map existsb] in *.
        destruct (has_field "condition" (l_node y)); [discriminate|]. exact (IHb E). }
      exact (HN _ Hf).
    + apply existsb_exists. exists (l_node c). split; [exact (ckids_in _ _ Hc)|]. rewrite Hi.
      pose proof (branch_no _ _ _ _ _ B Bk) as E. unfold is_kind in E. rewrite E. reflexivity.
  - exact (ckids_in _ _ Hx).
  - apply S.
  - unfold opening, closing in *. rewrite punct_is in *. destruct S as (_ & Sk & _). rewrite Sk in *. split; assumption.
Qed.
Lemma kids_filter l k : valid (l_node l) -> kind_in k skipped_kinds = false ->
  filter (has_kind k) (children (l_node l)) = map l_node (filter (is_kind k) (ckids l)).
Proof.
  intros V H. rewrite <- (code_filter_any l k V H), <- kids_nodes.
  induction (kids l) as [|c a IHa]; [reflexivity|]. cbn [map filter]. unfold is_kind at 1.
  rewrite IHa. destruct (has_kind k (l_node c)); reflexivity.
Qed.
Lemma sorted_filter {A} (R : A -> A -> Prop) (P : A -> bool) l :
  Sorted.StronglySorted R l -> Sorted.StronglySorted R (filter P l).
Proof.
  induction 1 as [|a l HS IHs HF]; [constructor|]. cbn [filter]. destruct (P a); [|exact IHs]. constructor; [exact IHs|].
  rewrite Forall_forall in *. intros x Hx. apply filter_In in Hx. apply HF, Hx.
Qed.
Lemma code_order l : valid (l_node l) ->
  Sorted.StronglySorted (fun a b => (n_sbyte a < n_sbyte b)%N) (map l_node (ckids l)).
Proof. intro V. rewrite ckids_nodes. apply sorted_filter, in_order_of, V. Qed.
Section Init.
  Variable rec : sort -> loc -> res dt.
  Hypothesis IH : forall s l x, ok s l -> rec s l = Ok x -> mkept (claims s l) (pieces x).
  Lemma init_lvd p c r d fs f : rec ForInitOption c = Ok d -> branch l_node fs f ["local_variable_declaration"] c ->
    placed p c r -> filter (fun c => has_field "init" (l_node c)) (kids p) = [c] ->
    mkept (mleaves (l_node c)) (pieces d).
  Proof.
    intros E B (Hr & Hp & Hv & HV) EI.
    assert (Fc : fine c) by (eapply fine_kinds; [exact Hv|exact HV|apply B|apply B|reflexivity]).
    assert (K : mkept (claims ForInitOption c) (pieces d)).
    { apply IH; [|exact E]. split; [exact Fc|]. split; [exact I|]. cbn [special]. unfold inits. rewrite Hp, EI. constructor; auto. }
    cbn [claims] in K. rewrite (branch_yes _ _ _ _ B) in K. rewrite claim_silent in K; [exact K|].
    rewrite (only_kind _ _ _ _ B). reflexivity.
  Qed.
  Lemma init_sep p c a r x t d fs f f' sg ks : rec ForInitOption c = Ok d -> separated l_node fs sg f ks a ->
    branch l_node fs f ks c -> placed p c r ->
    linked_to p a (x :: t) -> sign l_node fs f' ";" x -> placed p x t ->
    filter (fun c => has_field "init" (l_node c)) (kids p) = evens a ->
    kind_in "local_variable_declaration" ks = false -> sg = "," ->
    forallb (fun k => negb (kind_in k silent_kinds)) ks = true ->
    forallb (fun k => negb (kind_in k alone_kinds)) ks = true ->
    mkept (flat_map mleaves (map l_node a) ++ mleaves (l_node x)) (pieces d).
  Proof.
    intros E HS B (Hr & Hp & Hv & HV) HL S (_ & _ & Vx & _) EI Ek -> E1 E2.
    destruct (sep_all p fs "," f ks a (x :: t) HL HS E1 E2 eq_refl) as [EC HF].
    assert (Fc : fine c) by (eapply fine_kinds; [exact Hv|exact HV|apply B|apply B|exact E2]).
    assert (K : mkept (claims ForInitOption c) (pieces d)).
    { apply IH; [|exact E]. split; [exact Fc|]. split; [exact I|]. cbn [special]. unfold inits. rewrite Hp, EI.
      apply Forall_forall. intros y Hy. apply HF, Hy. }
    cbn [claims] in K. rewrite (branch_no _ _ _ _ _ B Ek) in K. unfold inits in K. rewrite Hp, EI, EC in K.
    cbn [map] in K. rewrite (follow_punct _ _ _ _ (map l_node t) S eq_refl) in K.
    exact K.
  Qed.
End Init.

End Dangling6.
