(* TokensProofs2.v: children of a node that follows the rules, and what is known
   about the texts printed for them. *)
From Verif Require Import Base Doc DocBuilder Cst Comments Term SpecTree New SpecWords SpecTokens SpecLoud BitsProofs TokensProofs TokensMarks.
Local Open Scope string_scope.
Local Open Scope list_scope.

(* ------------------------------------------------------------ valid trees *)

Section Dangling1.
Context {DG : dangles}.
Definition plain (n c : node) : bool := negb (n_extra c || spare n c).
Definition good (m : node) : Prop :=
  n_extra m = false /\ covered m /\ spelled m /\ (n_named m = true -> follows_rules m) /\ in_order m.
(* A semicolon of this statement may be printed twice. *)
Definition twice (m : node) : Prop :=
  n_kind m = "for_statement" /\ existsb (has_field "condition") (children m) = false /\
  existsb (fun c => has_field "init" c && negb (has_kind "local_variable_declaration" c)) (children m) = true.
(* Comments stand alone only in the braces of these nodes; there are none at signs other than
   "," ";" and else, none at nodes that may be printed twice, and none at
   the fields of a RETURNING clause, which are printed around the other parts of the clause. *)
Definition calm (m : node) : Prop :=
  (dangle (n_id m) = true -> kind_in (n_kind m) body_kinds = true /\ filter n_named (code_children m) = [] /\ ~ untouched m) /\
  (code_token m = false -> n_pre (n_id m) = [] /\ n_post (n_id m) = []) /\
  (n_kind m = "with_type" -> opening m = [] /\ closing m = []) /\
  (n_kind m = "sobject_return" -> forall c, In c (children m) -> n_kind c = "selected_fields" -> opening c = [] /\ closing c = []) /\
  (twice m -> forall c, In c (children m) -> n_kind c = ";" -> opening c = [] /\ closing c = []).
(* Places without comments, unless comments may be left out. *)
Definition hushed (m : node) : Prop :=
  loose = true \/
  ((untouched m -> forall c, In c (children m) -> opening c = [] /\ closing c = []) /\
   (kind_in (n_kind m) mute_kinds = true -> opening m = [] /\ closing m = []) /\
   (dangle (n_id m) = true \/ kind_in (n_kind m) mute_ends = true -> closing m = []) /\
   (forall c, In c (children m) -> mute_child m c = true -> opening c = [] /\ closing c = [])).
Definition sound (m : node) : Prop :=
  covered m /\ in_order m /\
  (n_extra m = true -> comment_node m) /\
  (n_extra m = false -> spelled m /\ (n_named m = true -> follows_rules m) /\ (verbatim_kind (n_kind m) -> untouched m) /\
    (forall c, kind_in (n_kind m) annotation_kinds = true -> In c (children m) -> n_field c = Some "value" -> untouched c) /\ calm m /\ hushed m).
Definition valid (n : node) : Prop := n_extra n = false /\ forall m, In m (all_nodes n) -> sound m.

Lemma self_in n : In n (all_nodes n).
Proof. destruct n; left; reflexivity. Qed.
Lemma sound_kid n c : valid n -> In c (children n) -> forall m, In m (all_nodes c) -> sound m.
Proof. intros V H m Hm. apply V. destruct n as [i cs]. right. apply in_flat_map. eauto. Qed.
Lemma valid_kid n c : valid n -> In c (code_children n) -> valid c.
Proof.
  intros V H. apply filter_In in H as [H Hx]. apply negb_true_iff, orb_false_iff in Hx as [Hx _]. split; [exact Hx|].
  eapply sound_kid; eauto.
Qed.
Lemma valid_comment n c : valid n -> In c (children n) -> n_extra c = true -> comment_node c.
Proof. intros V H. apply (sound_kid n c V H c (self_in c)). Qed.
Lemma valid_good n : valid n -> good n.
Proof.
  intros [Hx V]. destruct (V n (self_in n)) as (H1 & H2 & _ & H3). destruct (H3 Hx) as (H4 & H5 & _).
  exact (conj Hx (conj H1 (conj H4 (conj H5 H2)))).
Qed.
Lemma valid_extra n : valid n -> n_extra n = false.
Proof. intro V. apply (valid_good n V). Qed.
Lemma in_order_of l : valid (l_node l) -> in_order (l_node l).
Proof. intro V. apply (valid_good _ V). Qed.
Lemma valid_covered n : valid n -> forall m, In m (all_nodes n) -> covered m.
Proof. intros V m Hm. apply (proj2 V m Hm). Qed.
(* Nodes without comments inside. *)
Lemma no_rules_atom n : valid n -> rules (n_kind n) = [] -> untouched n.
Proof. intros [Hx V] Hr. destruct (V n (self_in n)) as (_ & _ & _ & H). apply (proj1 (proj2 (proj2 (H Hx)))). left. exact Hr. Qed.
Lemma with_type_atom n : valid n -> n_kind n = "with_type" -> untouched n.
Proof. intros [Hx V] Hr. destruct (V n (self_in n)) as (_ & _ & _ & H). apply (proj1 (proj2 (proj2 (H Hx)))). right. exact Hr. Qed.
Lemma value_atom n c : valid n -> kind_in (n_kind n) annotation_kinds = true -> In c (children n) ->
  n_field c = Some "value" -> untouched c.
Proof. intros [Hx V] Hk Hc Hf. destruct (V n (self_in n)) as (_ & _ & _ & H). exact (proj1 (proj2 (proj2 (proj2 (H Hx)))) c Hk Hc Hf). Qed.
Lemma valid_calm n : valid n -> calm n.
Proof. intros [Hx V]. destruct (V n (self_in n)) as (_ & _ & _ & H). exact (proj1 (proj2 (proj2 (proj2 (proj2 (H Hx)))))). Qed.
Lemma valid_hushed n : valid n -> hushed n.
Proof. intros [Hx V]. destruct (V n (self_in n)) as (_ & _ & _ & H). exact (proj2 (proj2 (proj2 (proj2 (proj2 (H Hx)))))). Qed.
Lemma mute_quiet n : valid n -> kind_in (n_kind n) mute_kinds = true -> quiet n.
Proof.
  intros V K. destruct (valid_hushed n V) as [L|(_ & H & _)]; [split; left; exact L|]. destruct (H K) as [E1 E2]. unfold quiet. rewrite E1, E2. split; apply may_none.
Qed.
Lemma dangle_may n : valid n -> dangle (n_id n) = true \/ kind_in (n_kind n) mute_ends = true -> may (closing n).
Proof.
  intros V K. destruct (valid_hushed n V) as [L|(_ & _ & H & _)]; [left; exact L|]. rewrite (H K). apply may_none.
Qed.
Definition child_quiet (n c : node) : Prop := mute_child n c = true -> quiet c.
Lemma valid_child n c : valid n -> In c (children n) -> child_quiet n c.
Proof.
  intros V Hc K. destruct (valid_hushed n V) as [L|(_ & _ & _ & H)]; [split; left; exact L|]. destruct (H c Hc K) as [E1 E2]. unfold quiet. rewrite E1, E2. split; apply may_none.
Qed.
Lemma valid_dangle n : valid n -> dangle (n_id n) = true ->
  kind_in (n_kind n) body_kinds = true /\ filter n_named (code_children n) = [] /\ ~ untouched n.
Proof. intros V. apply (valid_calm n V). Qed.
Lemma untouched_calm n : valid n -> untouched n -> dangle (n_id n) = false.
Proof. intros V U. destruct (dangle (n_id n)) eqn:H; [|reflexivity]. apply (valid_dangle _ V) in H as (_ & _ & H). destruct (H U). Qed.
Lemma leaf_atom n : n_extra n = false -> children n = [] -> untouched n.
Proof. destruct n as [i cs]. intros Hx H. cbn in H. subst cs. intros m [<-|[]]. split; [exact Hx|intros c []]. Qed.
Lemma sign_atom n : valid n -> n_named n = false -> untouched n.
Proof.
  intros V Hn. destruct (valid_good _ V) as (Hx & _ & Hs & _). unfold spelled in Hs. rewrite Hn in Hs.
  apply leaf_atom; [exact Hx|apply Hs].
Qed.
Lemma no_spare n c : kind_in (n_kind n) filter_nodes = false -> spare n c = false.
Proof. intro H. unfold spare, spare_signs. rewrite H. reflexivity. Qed.
Lemma keyword_no_filter k : keyword_kind k = true -> kind_in k filter_nodes = false.
Proof.
  intro H. destruct (kind_in k filter_nodes) eqn:E; [|reflexivity]. unfold kind_in, filter_nodes in E. cbn [existsb] in E.
  rewrite !orb_true_iff in E. decompose [or] E; try discriminate;
    match goal with Q : String.eqb _ _ = true |- _ => apply String.eqb_eq in Q; subst k; discriminate H end.
Qed.
Lemma signs_atom n : valid n -> kind_in (n_kind n) filter_nodes = false ->
  Forall (fun c => n_named c = false) (children n) -> untouched n.
Proof.
  intros V HK H. destruct n as [i cs]. cbn [children] in H. rewrite Forall_forall in H. intros m Hm.
  destruct Hm as [<-|Hm]; [split; [apply V|intros; apply no_spare, HK]|]. apply in_flat_map in Hm as (c & Hc & Hm).
  assert (Hx : n_extra c = false).
  { destruct (n_extra c) eqn:E; [|reflexivity]. destruct (valid_comment _ c V Hc E) as (Hn & _).
    rewrite (H c Hc) in Hn. discriminate. }
  assert (Vc : valid c) by (split; [exact Hx|]; apply (sound_kid _ c V Hc)).
  exact (sign_atom c Vc (H c Hc) m Hm).
Qed.

(* The children and the neighbours of a node without comments. *)
Lemma locs_nodes up cs : forall left, map l_node (locs_from up left cs) = cs.
Proof. induction cs as [|c cs IH]; intro left; [reflexivity|]. simpl. rewrite IH. reflexivity. Qed.
Definition ckids (l : loc) : list loc := filter (fun c => plain (l_node l) (l_node c)) (kids l).
Lemma ckids_in l c : In c (ckids l) -> In (l_node c) (children (l_node l)).
Proof. intro H. rewrite <- (locs_nodes l _ []). apply in_map. apply filter_In in H. apply H. Qed.
Definition cnamed (l : loc) : list loc := filter is_named (ckids l).
Definition among (l : loc) : node -> bool :=
  match parent l with Some p => plain (l_node p) | None => fun c => negb (n_extra c) end.
Definition cright (l : loc) : list node := filter (among l) (l_right l).
Definition cleft (l : loc) : list node := filter (among l) (l_left l).
(* What is known of the right neighbours: in filters there are no separators. *)
Definition rightly (l : loc) : Prop :=
  Forall valid (cright l) /\
  (forall p, parent l = Some p -> kind_in (kind p) filter_nodes = true ->
     Forall (fun n => kind_in (n_kind n) [","; ";"] = false) (cright l)) /\
  (forall p, parent l = Some p -> child_quiet (l_node p) (l_node l)).

(* [c] is a child of [p] with [r] to its right. *)
Definition placed (p c : loc) (r : list loc) : Prop :=
  cright c = map l_node r /\ parent c = Some p /\ valid (l_node c) /\ rightly c.
Lemma placed_quiet p c r : placed p c r -> mute_child (l_node p) (l_node c) = true -> quiet (l_node c).
Proof. intros (_ & Hp & _ & _ & _ & H). exact (H p Hp). Qed.
Definition mute_at (pk f k : string) : bool :=
  (String.eqb k "else" && negb (String.eqb pk "if_statement")) ||
  existsb (fun e : string * string * string =>
    let '(p', f', k') := e in
    String.eqb pk p' && (String.eqb f' "" || String.eqb f f') && (String.eqb k' "" || String.eqb k k')) mute_children.
Lemma mute_at_child fs n c f k : in_field fs f c -> n_kind c = k -> mute_at (n_kind n) f k = true -> mute_child n c = true.
Proof.
  intros Hf <-. unfold mute_at, mute_child. intro H. apply orb_prop in H as [H|H].
  - unfold has_kind. rewrite H. reflexivity.
  - apply orb_true_iff. right. apply existsb_exists in H as ([[p' f'] k'] & Hin & H). apply existsb_exists. exists (p', f', k'). split; [exact Hin|].
    apply andb_prop in H as [H Hk]. apply andb_prop in H as [Hp H]. unfold has_kind. rewrite Hp, Hk. cbn [andb]. rewrite andb_true_r.
    apply orb_prop in H as [H|H]; [rewrite H; reflexivity|]. apply String.eqb_eq in H as <-. unfold in_field in Hf.
    destruct (String.eqb f ""); [reflexivity|]. unfold has_field. rewrite Hf, String.eqb_refl. reflexivity.
Qed.
Lemma branch_quiet p c r fs f ks k0 : placed p c r -> branch l_node fs f ks c -> kind p = k0 ->
  forallb (mute_at k0 f) ks = true -> quiet (l_node c).
Proof.
  intros P (_ & Bk & Bf) <- H. apply (placed_quiet _ _ _ P). unfold kind_in in Bk. apply existsb_exists in Bk as (k & Hk & E).
  apply String.eqb_eq in E. rewrite forallb_forall in H. exact (mute_at_child _ _ _ _ _ Bf E (H k Hk)).
Qed.
Lemma sign_quiet p c r fs f k k0 : placed p c r -> sign l_node fs f k c -> kind p = k0 ->
  mute_at k0 f k = true -> quiet (l_node c).
Proof.
  intros P (_ & Bk & Bf) <- H. apply (placed_quiet _ _ _ P). exact (mute_at_child _ _ _ _ _ Bf Bk H).
Qed.
Fixpoint linked (p : loc) (ls : list loc) : Prop :=
  match ls with
  | [] => True
  | c :: r => placed p c r /\ linked p r
  end.
(* the same for a list followed by [t] *)
Fixpoint linked_to (p : loc) (ls t : list loc) : Prop :=
  match ls with
  | [] => True
  | c :: r => placed p c (r ++ t) /\ linked_to p r t
  end.
Lemma linked_app p a t : linked p (a ++ t) -> linked_to p a t /\ linked p t.
Proof.
  induction a as [|c a IH]; intro H; [split; [exact I|exact H]|]. destruct H as [H1 H2].
  apply IH in H2 as [H2 H3]. split; [split; [exact H1|exact H2]|exact H3].
Qed.
Lemma filter_locs (P : node -> bool) ls : map l_node (filter (fun c => P (l_node c)) ls) = filter P (map l_node ls).
Proof. induction ls as [|c ls IH]; [reflexivity|]. cbn [filter map]. destruct (P (l_node c)); cbn [map]; rewrite IH; reflexivity. Qed.
Lemma locs_plain n up left cs : map l_node (filter (fun c => plain n (l_node c)) (locs_from up left cs)) = filter (plain n) cs.
Proof. rewrite (filter_locs (plain n)), locs_nodes. reflexivity. Qed.
Lemma locs_linked up cs : forall left, Forall valid (filter (plain (l_node up)) cs) ->
  (kind_in (kind up) filter_nodes = true ->
     Forall (fun n => kind_in (n_kind n) [","; ";"] = false) (filter (plain (l_node up)) cs)) ->
  Forall (child_quiet (l_node up)) (filter (plain (l_node up)) cs) ->
  linked up (filter (fun c => plain (l_node up) (l_node c)) (locs_from up left cs)).
Proof.
  induction cs as [|c cs IH]; intros left HF HS HQ; [exact I|]. cbn [locs_from filter l_node] in *.
  destruct (plain (l_node up) c); [|apply IH; assumption]. inversion HF; subst. inversion HQ; subst.
  assert (HS' : kind_in (kind up) filter_nodes = true ->
     Forall (fun n => kind_in (n_kind n) [","; ";"] = false) (filter (plain (l_node up)) cs)).
  { intro K. specialize (HS K). inversion HS; assumption. }
  split; [|apply IH; assumption]. unfold placed, rightly, cright, among. cbn [l_right parent l_node]. rewrite locs_plain.
  split; [reflexivity|]. split; [reflexivity|]. split; [assumption|]. split; [assumption|].
  split; intros p E; injection E as <-; [intro K; apply HS', K|assumption].
Qed.
Lemma code_valid n : valid n -> Forall valid (code_children n).
Proof. intro V. apply Forall_forall. intros c Hc. eapply valid_kid; eauto. Qed.
(* The children of a filter are no separators. *)
Lemma filter_signs n : valid n -> kind_in (n_kind n) filter_nodes = true ->
  Forall (fun c => kind_in (n_kind c) [","; ";"] = false) (code_children n).
Proof.
  intros V K. destruct (valid_good n V) as (Hx & _ & Hs & Hr & _). pose proof (code_valid n V) as VC.
  destruct (n_named n) eqn:Hn.
  2:{ unfold spelled in Hs. rewrite Hn in Hs. unfold code_children. rewrite (proj1 Hs). constructor. }
  assert (HB : forall fs f ks c, branch (fun c => c) fs f ks c -> valid c -> kind_in (n_kind c) [","; ";"] = false).
  { intros fs f ks c (Bn & _) Vc. destruct (valid_good c Vc) as (_ & _ & Sc & _). unfold spelled in Sc. rewrite Bn in Sc. apply Sc. }
  assert (HW : forall fs w a, worded (fun c => c) fs w a -> Forall (fun c => kind_in (n_kind c) [","; ";"] = false) a).
  { intros fs w a (_ & H & _). eapply Forall_impl; [|exact H]. intros c (_ & Hc & _). exact Hc. }
  assert (H1 : forall fs ps ks a, condition (fun c => c) fs ps ks a -> Forall valid a -> Forall (fun c => kind_in (n_kind c) [","; ";"] = false) a).
  { intros fs ps ks a [c Hc|o c e (_ & Ho & _) Hc (_ & He & _)] F.
    - inversion F; subst. constructor; [eauto|constructor].
    - inversion F as [|? ? _ F1]; subst. inversion F1 as [|? ? Vc _]; subst.
      constructor; [rewrite Ho; reflexivity|]. constructor; [eauto|]. constructor; [rewrite He; reflexivity|constructor]. }
  assert (HL : forall fs w ps ks a, conditions (fun c => c) fs w ps ks a -> Forall valid a -> Forall (fun c => kind_in (n_kind c) [","; ";"] = false) a).
  { intros fs w ps ks a. induction 1 as [a Ha|a x r Ha Hx1 HC IHc]; intro F; [eauto|].
    apply Forall_app in F as [F1 F]. apply Forall_app in F as [F2 F]. apply Forall_app. split; [eauto|].
    apply Forall_app. split; [eauto|auto]. }
  unfold kind_in in K. apply existsb_exists in K as (k & Hk & E). apply String.eqb_eq in E.
  destruct (Hr eq_refl) as (alt & Hin & HF).
  { rewrite E. repeat (destruct Hk as [<-|Hk]; [discriminate|]). destruct Hk. }
  rewrite E in Hin. clear E Hr. revert HF. generalize (fields (n_kind n)). intros fs HF.
  repeat (destruct Hk as [<-|Hk]); [..|destruct Hk];
    cbv [rules lookup grammar String.eqb Ascii.eqb Bool.eqb In] in Hin;
    repeat match goal with
    | H : False |- _ => destruct H
    | H : _ \/ _ |- _ => destruct H as [<-|H]
    end; cbn [fits] in HF;
    repeat match goal with
    | H : exists _, _ |- _ => destruct H
    | H : _ /\ _ |- _ => destruct H
    | H : code_children n = _ |- _ => rewrite H in *; clear H
    | H : ?x = [] |- _ => is_var x; subst x
    | H : ?x = (_ ++ _)%list |- _ => is_var x; subst x
    | H : ?x = _ :: _ |- _ => is_var x; subst x
    end;
    repeat match goal with
    | H : Forall valid (_ ++ _) |- _ => apply Forall_app in H as [? H]
    | H : Forall valid (_ :: _) |- _ => inversion H; clear H; subst
    | |- Forall _ (_ ++ _) => apply Forall_app; split
    | |- Forall _ (_ :: _) => constructor
    | |- Forall _ [] => constructor
    | S : sign _ _ _ _ ?c |- kind_in (n_kind ?c) _ = false => destruct S as (_ & -> & _); reflexivity
    end; eauto.
Qed.
Lemma ckids_linked l : valid (l_node l) -> linked l (ckids l).
Proof.
  intro V. apply locs_linked; [apply (code_valid _ V)|intro K; apply filter_signs; assumption|].
  apply Forall_forall. intros c Hc. apply filter_In in Hc as [Hc _]. apply valid_child; assumption.
Qed.
Lemma kids_nodes l : map l_node (kids l) = children (l_node l).
Proof. apply locs_nodes. Qed.
Lemma ckids_nodes l : map l_node (ckids l) = code_children (l_node l).
Proof. apply locs_plain. Qed.

(* Looking for something that neither comments nor parentheses are. *)
Definition skipped_kinds : list string := ["line_comment"; "block_comment"; "("; ")"].
Definition skipped (c : node) : Prop := kind_in (n_kind c) skipped_kinds = true /\ n_field c = None.
Lemma spare_skipped n c : spare n c = true -> n_named c = false /\ kind_in (n_kind c) ["("; ")"] = true /\ n_field c = None.
Proof.
  unfold spare. destruct (is_nil (spare_signs n)); [discriminate|]. intro H.
  apply andb_true_iff in H as [H _]. apply andb_true_iff in H as [H Hf]. apply andb_true_iff in H as [H Hk].
  apply andb_true_iff in H as [Hn _]. apply negb_true_iff in Hn. split; [exact Hn|]. split; [exact Hk|].
  destruct (n_field c); [discriminate|reflexivity].
Qed.
Lemma plain_skipped n c : valid n -> In c (children n) -> plain n c = false -> skipped c.
Proof.
  intros V Hc H. apply negb_false_iff, orb_true_iff in H as [H|H].
  - destruct (valid_comment n c V Hc H) as (_ & Hk & _ & Hf). split; [|exact Hf]. unfold kind_in in *. cbn [existsb comment_kinds skipped_kinds] in *.
    rewrite !orb_true_iff in *. tauto.
  - apply spare_skipped in H as (_ & Hk & Hf). split; [|exact Hf]. unfold kind_in in *. cbn [existsb skipped_kinds] in *.
    rewrite !orb_true_iff in *. tauto.
Qed.
Definition not_comment (P : node -> bool) : Prop := forall c, skipped c -> P c = false.
Lemma code_find l P : valid (l_node l) -> not_comment P ->
  find (fun c => P (l_node c)) (kids l) = find (fun c => P (l_node c)) (ckids l).
Proof.
  intros V H. unfold ckids.
  assert (HC : forall c, In c (kids l) -> plain (l_node l) (l_node c) = false -> P (l_node c) = false).
  { intros c Hc Hx. apply H. eapply plain_skipped; [exact V| |exact Hx]. rewrite <- kids_nodes. apply in_map. exact Hc. }
  induction (kids l) as [|c ls IH]; [reflexivity|]. cbn [find filter].
  destruct (plain (l_node l) (l_node c)) eqn:E.
  - cbn [find]. destruct (P (l_node c)); [reflexivity|]. apply IH. intros c' Hc'. apply HC. right. exact Hc'.
  - rewrite (HC c (or_introl eq_refl) E). apply IH. intros c' Hc'. apply HC. right. exact Hc'.
Qed.
Lemma code_filter l P : valid (l_node l) -> not_comment P ->
  filter (fun c => P (l_node c)) (kids l) = filter (fun c => P (l_node c)) (ckids l).
Proof.
  intros V H. unfold ckids.
  assert (HC : forall c, In c (kids l) -> plain (l_node l) (l_node c) = false -> P (l_node c) = false).
  { intros c Hc Hx. apply H. eapply plain_skipped; [exact V| |exact Hx]. rewrite <- kids_nodes. apply in_map. exact Hc. }
  induction (kids l) as [|c ls IH]; [reflexivity|]. cbn [filter].
  destruct (plain (l_node l) (l_node c)) eqn:E.
  - cbn [filter]. rewrite IH; [reflexivity|]. intros c' Hc'. apply HC. right. exact Hc'.
  - rewrite (HC c (or_introl eq_refl) E). apply IH. intros c' Hc'. apply HC. right. exact Hc'.
Qed.
Lemma find_filter {A} (P Q : A -> bool) ls : find P (filter Q ls) = find (fun c => Q c && P c) ls.
Proof.
  induction ls as [|c ls IH]; [reflexivity|]. cbn [filter find]. destruct (Q c); cbn [find andb]; rewrite IH; reflexivity.
Qed.
Lemma filter_filter {A} (P Q : A -> bool) ls : filter P (filter Q ls) = filter (fun c => Q c && P c) ls.
Proof.
  induction ls as [|c ls IH]; [reflexivity|]. cbn [filter]. destruct (Q c); cbn [filter andb]; rewrite IH; reflexivity.
Qed.
Lemma kind_not_comment k : kind_in k skipped_kinds = false -> not_comment (fun c => has_kind k c).
Proof.
  intros H c (Hk & _). unfold has_kind. destruct (String.eqb_spec (n_kind c) k) as [E|E]; [|reflexivity].
  rewrite E in Hk. congruence.
Qed.
Lemma field_not_comment f : not_comment (fun c => has_field f c).
Proof. intros c (_ & Hf). unfold has_field. rewrite Hf. reflexivity. Qed.
Lemma code_find_kind l k : valid (l_node l) -> kind_in k skipped_kinds = false ->
  find (is_kind k) (named_kids l) = find (is_kind k) (cnamed l).
Proof.
  intros V H. unfold named_kids, cnamed. rewrite !find_filter. apply (code_find l (fun n => n_named n && has_kind k n) V).
  intros c Hc. rewrite (kind_not_comment k H c Hc). apply andb_false_r.
Qed.
Lemma code_filter_kind l k : valid (l_node l) -> kind_in k skipped_kinds = false ->
  filter (is_kind k) (named_kids l) = filter (is_kind k) (cnamed l).
Proof.
  intros V H. unfold named_kids, cnamed. rewrite !filter_filter. apply (code_filter l (fun n => n_named n && has_kind k n) V).
  intros c Hc. rewrite (kind_not_comment k H c Hc). apply andb_false_r.
Qed.
Lemma code_find_any l k : valid (l_node l) -> kind_in k skipped_kinds = false ->
  find (is_kind k) (kids l) = find (is_kind k) (ckids l).
Proof. intros V H. apply (code_find l (has_kind k) V). apply kind_not_comment, H. Qed.
Lemma code_filter_any l k : valid (l_node l) -> kind_in k skipped_kinds = false ->
  filter (is_kind k) (kids l) = filter (is_kind k) (ckids l).
Proof. intros V H. apply (code_filter l (has_kind k) V). apply kind_not_comment, H. Qed.
Lemma code_find_field l f : valid (l_node l) ->
  find (fun c => has_field f (l_node c)) (kids l) = find (fun c => has_field f (l_node c)) (ckids l).
Proof. intro V. apply (code_find l (has_field f) V). apply field_not_comment. Qed.
Lemma code_filter_field l f : valid (l_node l) ->
  filter (fun c => has_field f (l_node c)) (kids l) = filter (fun c => has_field f (l_node c)) (ckids l).
Proof. intro V. apply (code_filter l (has_field f) V). apply field_not_comment. Qed.
Lemma code_vec l : children_vec l = cnamed l.
Proof.
  unfold children_vec, named_kids, cnamed, ckids. rewrite !filter_filter. apply filter_ext. intro c.
  unfold plain. change (is_extra c) with (n_extra (l_node c)). change (is_named c) with (n_named (l_node c)).
  destruct (spare (l_node l) (l_node c)) eqn:E.
  - rewrite (proj1 (spare_skipped _ _ E)). rewrite andb_false_r. reflexivity.
  - rewrite orb_false_r. apply andb_comm.
Qed.
Lemma peek_code r : peek r = hd_error (filter (fun c => negb (n_extra c)) r).
Proof. induction r as [|n r IH]; [reflexivity|]. cbn [peek filter]. destruct (n_extra n); [exact IH|reflexivity]. Qed.

Lemma fits_map fs its : forall ls, fits (fun c => c) fs its (map l_node ls) -> fits l_node fs its ls.
Proof.
  assert (HR : forall f ks (ls : list loc), Forall (branch (fun c => c) fs f ks) (map l_node ls) -> Forall (branch l_node fs f ks) ls).
  { intros f ks ls. induction ls; intro H; constructor; inversion H; subst; auto. }
  assert (HS : forall s f ks (a : list node), separated (fun c => c) fs s f ks a -> forall ls, a = map l_node ls ->
    separated l_node fs s f ks ls).
  { intros s f ks a. induction 1; intros [|c0 ls] E; try discriminate.
    - destruct ls; [|discriminate]. injection E as ->. constructor. assumption.
    - destruct ls as [|c1 ls]; [discriminate|]. injection E as -> -> ->. constructor; auto. }
  assert (HW : forall w (ls : list loc), worded (fun c => c) fs w (map l_node ls) -> worded l_node fs w ls).
  { intros w ls (H1 & H2 & H3). split; [intros ->; contradiction|]. split.
    - clear - H2. induction ls; constructor; inversion H2; subst; auto.
    - rewrite <- H3. rewrite map_id. reflexivity. }
  assert (HK : forall w f ks (a : list node), linking (fun c => c) fs w f ks a -> forall ls, a = map l_node ls ->
    linking l_node fs w f ks ls).
  { intros w f ks a. induction 1 as [c Hc|c x r Hc Hx HK IHk]; intros [|c0 ls] E; try discriminate.
    - destruct ls; [|discriminate]. injection E as ->. constructor. assumption.
    - injection E as -> E. symmetry in E. apply map_eq_app in E as (l1 & l2 & -> & <- & <-). constructor; auto. }
  assert (HC1 : forall ps ks (a : list node), condition (fun c => c) fs ps ks a -> forall ls, a = map l_node ls -> condition l_node fs ps ks ls).
  { intros ps ks a [c Hc|o c e Ho Hc He] ls E.
    - destruct ls as [|c0 [|]]; try discriminate. injection E as ->. constructor. exact Hc.
    - destruct ls as [|c0 [|c1 [|c2 [|]]]]; try discriminate. injection E as -> -> ->. constructor; assumption. }
  assert (HC : forall w ps ks (a : list node), conditions (fun c => c) fs w ps ks a -> forall ls, a = map l_node ls -> conditions l_node fs w ps ks ls).
  { intros w ps ks a. induction 1 as [a Ha|a x r Ha Hx HC IHc]; intros ls E; [apply Conds_one; eauto|].
    symmetry in E. apply map_eq_app in E as (l1 & l2 & -> & <- & E).
    apply map_eq_app in E as (l3 & l4 & -> & <- & <-). apply Conds_more; eauto. }
  induction its as [|[k|f k|f ks|f ks|f ks|s f ks|k ks|w|w f ks|w ps ks] its IH]; intros ls H; cbn [fits] in *.
  - destruct ls; [reflexivity|discriminate].
  - destruct H as (c & t & E & Hc & H). destruct ls as [|c0 ls]; [discriminate|]. injection E as <- <-. eauto 6.
  - destruct H as (c & t & E & Hc & H). destruct ls as [|c0 ls]; [discriminate|]. injection E as <- <-. eauto 6.
  - destruct H as (c & t & E & Hc & H). destruct ls as [|c0 ls]; [discriminate|]. injection E as <- <-. eauto 6.
  - destruct H as [H|(c & t & E & Hc & H)]; [left; auto|right].
    destruct ls as [|c0 ls]; [discriminate|]. injection E as <- <-. eauto 6.
  - destruct H as (a & t & E & Ha & H). apply map_eq_app in E as (l1 & l2 & -> & <- & <-). eauto 8.
  - destruct H as (a & t & E & Ha & H). apply map_eq_app in E as (l1 & l2 & -> & <- & <-). eauto 8.
  - destruct H as (c & t & E & Hc & H). destruct ls as [|c0 ls]; [discriminate|]. injection E as <- <-. eauto 6.
  - destruct H as (a & t & E & Ha & H). apply map_eq_app in E as (l1 & l2 & -> & <- & <-). eauto 8.
  - destruct H as (a & t & E & Ha & H). apply map_eq_app in E as (l1 & l2 & -> & <- & <-). eauto 8.
  - destruct H as (a & t & E & Ha & H). apply map_eq_app in E as (l1 & l2 & -> & <- & <-). eauto 8.
Qed.

Definition kids_are (l : loc) (ks : list loc) : Prop := valid (l_node l) /\ ckids l = ks.
Lemma use_rules l k : valid (l_node l) -> n_named (l_node l) = true -> kind l = k -> rules k <> [] ->
  exists alt ks, In alt (rules k) /\ kids_are l ks /\ fits l_node (fields k) alt ks /\ linked l ks.
Proof.
  intros V Hn Hk Hr. destruct (valid_good _ V) as (_ & _ & _ & Hf & _). specialize (Hf Hn).
  unfold follows_rules in Hf. unfold kind in Hk. rewrite Hk in Hf. destruct (Hf Hr) as (alt & Hin & HF).
  exists alt, (ckids l). split; [exact Hin|]. split; [split; [exact V|reflexivity]|]. split; [|apply ckids_linked; exact V].
  apply fits_map. rewrite ckids_nodes. exact HF.
Qed.

Lemma kept_leaves n : valid n -> untouched n -> mkept (leaves n) [n_text n].
Proof.
  intros V U. rewrite <- (app_nil_r (leaves n)). apply Mk_text; [| |constructor].
  - apply woven_leaves; [exact U|exact (valid_covered n V)].
  - apply bits_leaves; [exact U|exact (valid_covered n V)].
Qed.
(* Kinds of nodes whose own comments are printed between their parts. *)
Definition moved_kinds : list string := ["accessor_declaration"; "for_clause"].
Lemma ahead_none n c : kind_in (n_kind n) moved_kinds = false -> dangle (n_id n) = false -> ahead n c = [].
Proof.
  intros K D. unfold kind_in, moved_kinds in K. cbn [existsb] in K. apply orb_false_iff in K as [K1 K]. apply orb_false_iff in K as [K2 _].
  unfold ahead, late, early, has_kind. rewrite K1, K2, D. reflexivity.
Qed.
Lemma untouched_below n : valid n -> untouched n -> forall m, In m (all_nodes n) ->
  valid m /\ untouched m /\ (loose = true \/ m = n \/ (opening m = [] /\ closing m = [])).
Proof.
  induction n as [i cs IH] using node_nested_ind. intros V U m [<-|Hm]; [auto|].
  apply in_flat_map in Hm as (c & Hc & Hm). rewrite Forall_forall in IH.
  assert (Uc : untouched c) by (intros x Hx; apply U; right; apply in_flat_map; eauto).
  assert (Vc : valid c) by (eapply valid_kid; [exact V|]; rewrite untouched_children by exact U; exact Hc).
  destruct (IH c Hc Vc Uc m Hm) as (V' & U' & H'). split; [exact V'|]. split; [exact U'|].
  destruct (valid_hushed _ V) as [L|(H & _)]; [auto|]. destruct H' as [L|[->|H']]; auto.
Qed.
Lemma atom_inner n : valid n -> untouched n -> kind_in (n_kind n) moved_kinds = false -> loose = true \/ inner n = leaves n.
Proof.
  intros V U K. destruct (Bool.bool_dec loose true) as [L|L]; [left; exact L|right].
  pose proof (untouched_below n V U) as HB. destruct n as [i [|c cs]].
  { rewrite leaves_leaf by (first [exact (untouched_self _ U)|reflexivity]). reflexivity. }
  rewrite leaves_kids by (first [exact (untouched_self _ U)|discriminate]). unfold inner. cbn [children].
  rewrite (untouched_children _ U). change (children (Node i (c :: cs))) with (c :: cs).
  assert (HM : forall x, In x (c :: cs) -> mleaves x = leaves x).
  { intros x Hx. assert (Vx : valid x) by (eapply valid_kid; [exact V|]; rewrite untouched_children by exact U; exact Hx).
    assert (Ux : untouched x) by (intros y Hy; apply U; right; apply in_flat_map; eauto).
    assert (Ox : opening x = [] /\ closing x = []).
    { destruct (valid_hushed _ V) as [L'|(H & _)]; [contradiction|]. apply H; [exact U|exact Hx]. }
    apply mleaves_none. intros m Hm. destruct (untouched_below x Vx Ux m Hm) as (Vm & Um & H).
    assert (Om : opening m = [] /\ closing m = []) by (destruct H as [L'|[->|H]]; [contradiction|exact Ox|exact H]).
    destruct Om as [O C]. split; [exact O|]. split; [exact C|]. rewrite (untouched_calm m Vm Um). discriminate. }
  assert (HA : forall x, ahead (Node i (c :: cs)) x = []) by (intro x; apply ahead_none; [exact K|exact (untouched_calm _ V U)]).
  revert HM HA. generalize (Node i (c :: cs)). intros n. generalize (c :: cs). intros l HM HA.
  induction l as [|x l IHl]; [reflexivity|]. cbn [flat_map].
  rewrite (HA x), IHl by (intros y Hy; apply HM; right; exact Hy). rewrite (HM x (or_introl eq_refl)). reflexivity.
Qed.
Lemma kept_inner n : valid n -> untouched n -> kind_in (n_kind n) moved_kinds = false -> mkept (inner n) [n_text n].
Proof. intros V U K. eapply Mk_thin; [apply thinned_inner; [apply V|apply atom_inner; assumption]|apply kept_leaves; assumption]. Qed.
Lemma kept_bare n ws : n_extra n = false -> quiet n -> mkept (inner n) ws -> mkept (mleaves n) ws.
Proof.
  intros Hx [Q1 Q2] K. rewrite mleaves_inner by exact Hx. apply mkept_skips; [apply front_may, Q1|].
  apply mkept_skips_end; [apply behind_may, Q2|exact K].
Qed.
(* An untouched node without comments is printed as it is. *)
Lemma kept_node n : valid n -> untouched n -> quiet n -> mkept (mleaves n) [n_text n].
Proof.
  intros V U [Q1 Q2]. rewrite <- (app_nil_r (mleaves n)). apply mkept_tokens; [|rewrite app_nil_r; apply kept_leaves; assumption].
  destruct (Bool.bool_dec loose true) as [L|L]; [left; exact L|right].
  destruct Q1 as [Q1|Q1]; [contradiction|]. destruct Q2 as [Q2|Q2]; [contradiction|].
  apply mleaves_none. intros m Hm. destruct (untouched_below n V U m Hm) as (Vm & Um & H).
  assert (Om : opening m = [] /\ closing m = []) by (destruct H as [L'|[->|H]]; [contradiction|auto|exact H]).
  destruct Om as [O C]. split; [exact O|]. split; [exact C|]. rewrite (untouched_calm m Vm Um). discriminate.
Qed.
Lemma kept_text n ls ws : valid n -> untouched n -> quiet n -> mkept ls ws -> mkept (mleaves n ++ ls) (n_text n :: ws).
Proof. intros V U Q K. apply (kept_app _ [_]); [apply kept_node; assumption|exact K]. Qed.
Lemma kind_no k ks c : kind_in (n_kind (l_node c)) ks = true -> kind_in k ks = false -> is_kind k c = false.
Proof.
  intros H1 H2. unfold is_kind, has_kind. destruct (String.eqb_spec (n_kind (l_node c)) k) as [E|E]; [|reflexivity].
  rewrite E in H1. congruence.
Qed.
Lemma kind_one k c : kind_in (n_kind (l_node c)) [k] = true -> n_kind (l_node c) = k.
Proof. unfold kind_in. simpl. rewrite orb_false_r. apply String.eqb_eq. Qed.
Lemma kinds_not ks ss n : kind_in (n_kind n) ks = true -> forallb (fun k => negb (kind_in k ss)) ks = true ->
  kind_in (n_kind n) ss = false.
Proof.
  intros H1 H2. unfold kind_in in H1. apply existsb_exists in H1 as (k & Hk & E). apply String.eqb_eq in E.
  rewrite E. rewrite forallb_forall in H2. specialize (H2 k Hk). apply negb_true_iff in H2. exact H2.
Qed.
Lemma kinds_in ks ss n : kind_in (n_kind n) ks = true -> forallb (fun k => kind_in k ss) ks = true ->
  kind_in (n_kind n) ss = true.
Proof.
  intros H1 H2. unfold kind_in in H1. apply existsb_exists in H1 as (k & Hk & E). apply String.eqb_eq in E.
  rewrite E. rewrite forallb_forall in H2. exact (H2 k Hk).
Qed.
Lemma free_field fs f n : in_field fs "" n -> kind_in f fs = true -> has_field f n = false.
Proof.
  unfold in_field, has_field. simpl. intros H1 H2. destruct (n_field n) as [g|]; [|reflexivity].
  destruct (String.eqb_spec g f); congruence.
Qed.
Lemma some_field fs f g n : in_field fs g n -> String.eqb g "" = false -> has_field f n = String.eqb g f.
Proof. unfold in_field, has_field. intros H E. rewrite E in H. rewrite H. reflexivity. Qed.

(* A sign of the source and the word it spells. *)
Definition signed (n : node) (k : string) : Prop :=
  leaves n = [n] /\ keyword n = true /\ bits (n_text n) = bits (U k) /\
  mleaves n = marks (opening n) ++ [n] ++ marks (closing n) /\ (kind_in k [","; ";"; "else"] = false -> quiet n).
Lemma unnamed_signed n : valid n -> n_named n = false -> signed n (n_kind n).
Proof.
  intros V Hn. destruct (valid_good _ V) as (Hx & _ & Hs & _). unfold spelled in Hs. rewrite Hn in Hs.
  destruct Hs as [Hc Ht]. split; [apply leaves_leaf; assumption|].
  split; [unfold keyword; rewrite Hn; reflexivity|]. split; [rewrite Ht; reflexivity|]. split; [apply mleaves_leaf; assumption|].
  intro K. destruct (valid_calm n V) as (_ & Hq & _). assert (Hc' : code_token n = false) by (unfold code_token; rewrite Hn; exact K).
  destruct (Hq Hc') as [E1 E2]. unfold quiet, opening, closing. rewrite Hc'. unfold is_punctuation_node, has_kind.
  unfold kind_in in K. cbn [existsb] in K. apply orb_false_iff in K as [K1 K]. apply orb_false_iff in K as [K2 _].
  rewrite K1, K2. split; apply may_none.
Qed.
Lemma signed_bare n k : signed n k -> quiet n -> bare n.
Proof.
  intros (H1 & _ & _ & H2 & _) [[Q1|Q1] [Q2|Q2]]; try (left; assumption). right. rewrite H2, H1, Q1, Q2. reflexivity.
Qed.
Lemma signed_quiet n k : signed n k -> kind_in k [","; ";"; "else"] = false -> quiet n.
Proof. intros (_ & _ & _ & _ & H). exact H. Qed.
Lemma sign_signed fs f k c : sign l_node fs f k c -> valid (l_node c) -> signed (l_node c) k.
Proof. intros (Hn & Hk & _) V. rewrite <- Hk. apply unnamed_signed; assumption. Qed.
(* A sign without comments. *)
Definition still (n : node) (k : string) : Prop := kind_in k [","; ";"; "else"] = false \/ quiet n.
Lemma still_bare n k : signed n k -> still n k -> bare n.
Proof. intros S [H|H]; [|exact (signed_bare n k S H)]. apply (signed_bare n k S). apply S, H. Qed.
Lemma kept_signs (ms : list (node * string)) p L P : Forall (fun m => signed (fst m) (snd m) /\ still (fst m) (snd m)) ms ->
  bits p = flat_map (fun m => bits (U (snd m))) ms -> mkept L P -> mkept (flat_map mleaves (map fst ms) ++ L) (p :: P).
Proof.
  intros HF E K. apply mkept_tokens_all.
  { apply Forall_forall. intros x Hx. apply in_map_iff in Hx as (m & <- & Hm). rewrite Forall_forall in HF. destruct (HF m Hm) as [S Q].
    exact (still_bare _ _ S Q). }
  assert (HL : flat_map leaves (map fst ms) = map fst ms /\ Forall (fun n => keyword n = true) (map fst ms) /\
    bits_of (map fst ms) = flat_map (fun m => bits (U (snd m))) ms).
  { clear - HF. induction HF as [|m ms ((H1 & H2 & H3 & _) & _) HF (I1 & I2 & I3)]; [repeat split; constructor|].
    cbn [map flat_map]. rewrite H1, I1. unfold bits_of in *. cbn [flat_map]. rewrite H3, I3.
    split; [reflexivity|]. split; [constructor; assumption|reflexivity]. }
  destruct HL as (-> & HK & HB). apply (Mk_words (map fst ms) [p] L P); [exact HK| |exact K].
  cbn [flat_map]. rewrite app_nil_r. congruence.
Qed.
Lemma kept_sign1 m k p L P : signed m k -> still m k -> bits p = bits (U k) -> mkept L P -> mkept (mleaves m ++ L) (p :: P).
Proof.
  intros S Q E K. pose proof (kept_signs [(m, k)] p L P) as H. cbn [flat_map map fst snd] in H.
  rewrite !app_nil_r in H. apply H; [|exact E|exact K]. repeat (apply Forall_cons; [split; assumption|]). apply Forall_nil.
Qed.
Lemma kept_sign2 m k m' k' p L P : signed m k -> signed m' k' -> still m k -> still m' k' -> bits p = bits (U k) ++ bits (U k') ->
  mkept L P -> mkept (mleaves m ++ mleaves m' ++ L) (p :: P).
Proof.
  intros S S' Q Q' E K. pose proof (kept_signs [(m, k); (m', k')] p L P) as H. cbn [flat_map map fst snd] in H.
  rewrite !app_nil_r, <- !app_assoc in H. apply H; [|exact E|exact K]. repeat (apply Forall_cons; [split; assumption|]). apply Forall_nil.
Qed.
Lemma kept_sign3 m k m' k' m2 k2 p L P : signed m k -> signed m' k' -> signed m2 k2 -> still m k -> still m' k' -> still m2 k2 ->
  bits p = bits (U k) ++ bits (U k') ++ bits (U k2) ->
  mkept L P -> mkept (mleaves m ++ mleaves m' ++ mleaves m2 ++ L) (p :: P).
Proof.
  intros S S' S2 Q Q' Q2 E K. pose proof (kept_signs [(m, k); (m', k'); (m2, k2)] p L P) as H. cbn [flat_map map fst snd] in H.
  rewrite !app_nil_r, <- !app_assoc in H. apply H; [|exact E|exact K]. repeat (apply Forall_cons; [split; assumption|]). apply Forall_nil.
Qed.
Lemma kept_sign4 m k m' k' m2 k2 m3 k3 p L P : signed m k -> signed m' k' -> signed m2 k2 -> signed m3 k3 ->
  still m k -> still m' k' -> still m2 k2 -> still m3 k3 ->
  bits p = bits (U k) ++ bits (U k') ++ bits (U k2) ++ bits (U k3) ->
  mkept L P -> mkept (mleaves m ++ mleaves m' ++ mleaves m2 ++ mleaves m3 ++ L) (p :: P).
Proof.
  intros S S' S2 S3 Q Q' Q2 Q3 E K. pose proof (kept_signs [(m, k); (m', k'); (m2, k2); (m3, k3)] p L P) as H. cbn [flat_map map fst snd] in H.
  rewrite !app_nil_r, <- !app_assoc in H. apply H; [|exact E|exact K]. repeat (apply Forall_cons; [split; assumption|]). apply Forall_nil.
Qed.


(* A named node whose letters may be in any case. *)
Lemma keyword_signs n : valid n -> n_named n = true -> keyword_kind (n_kind n) = true ->
  Forall (fun c => n_named c = false) (children n).
Proof.
  intros V Hn Hk. destruct (valid_good _ V) as (_ & _ & Hs & _). unfold spelled in Hs. rewrite Hn in Hs. apply Hs, Hk.
Qed.
Lemma caseless_leaves n : valid n -> n_named n = true -> keyword_kind (n_kind n) = true ->
  Forall (fun m => keyword m = true) (leaves n).
Proof.
  intros V Hn Hk. pose proof (keyword_signs n V Hn Hk) as Hs. pose proof (signs_atom n V (keyword_no_filter _ Hk) Hs) as U.
  destruct n as [i [|c cs]].
  - rewrite leaves_leaf; [|exact (untouched_self _ U)|reflexivity].
    constructor; [|constructor]. unfold keyword. rewrite Hk, orb_true_r. reflexivity.
  - rewrite leaves_eq by exact U. change (children (Node i (c :: cs))) with (c :: cs) in Hs.
    assert (HV : forall x, In x (c :: cs) -> valid x).
    { intros x Hx. eapply valid_kid; [exact V|]. rewrite untouched_children by exact U. exact Hx. }
    clear V Hn Hk U. induction Hs as [|x l Hx Hl IH]; [constructor|]. simpl. apply Forall_app. split.
    + destruct (valid_good _ (HV x (or_introl eq_refl))) as (Hxe & _ & Hsx & _). unfold spelled in Hsx. rewrite Hx in Hsx.
      rewrite (leaves_leaf x Hxe (proj1 Hsx)). constructor; [|constructor]. unfold keyword. rewrite Hx. reflexivity.
    + apply IH. intros y Hy. apply HV. right. exact Hy.
Qed.
Lemma bits_all_leaves n : valid n -> untouched n -> bits (n_text n) = bits_of (leaves n).
Proof. intros V U. apply bits_leaves; [exact U|exact (valid_covered n V)]. Qed.
Lemma keyword_unmoved n : keyword_kind (n_kind n) = true -> kind_in (n_kind n) moved_kinds = false.
Proof.
  intro K. destruct (kind_in (n_kind n) moved_kinds) eqn:E; [|reflexivity]. unfold kind_in, moved_kinds in E. cbn [existsb] in E.
  repeat (apply orb_prop in E as [E|E]; [apply String.eqb_eq in E; rewrite E in K; discriminate K|]). discriminate E.
Qed.
Lemma caseless_inner n p : valid n -> n_named n = true -> keyword_kind (n_kind n) = true ->
  bits p = bits (n_text n) -> mkept (inner n) [p].
Proof.
  intros V Hn Hk E.
  assert (U : untouched n) by (apply signs_atom; [exact V|apply keyword_no_filter; assumption|apply keyword_signs; assumption]).
  eapply Mk_thin; [apply thinned_inner; [apply V|apply atom_inner; [assumption|assumption|]]|].
  { eapply keyword_unmoved; exact Hk. }
  rewrite <- (app_nil_r (leaves n)). apply (Mk_words (leaves n) [p] [] []); [|simpl|constructor].
  - apply caseless_leaves; assumption.
  - rewrite app_nil_r, E. symmetry. apply bits_all_leaves; assumption.
Qed.
Lemma kept_caseless n p : valid n -> n_named n = true -> keyword_kind (n_kind n) = true -> quiet n ->
  bits p = bits (n_text n) -> mkept (mleaves n) [p].
Proof. intros V Hn Hk Q E. apply kept_bare; [apply V|exact Q|]. apply caseless_inner; assumption. Qed.
Lemma word_inner n k p : valid n -> n_named n = true -> In (n_kind n, k) word_kinds ->
  bits p = bits (U k) -> mkept (inner n) [p].
Proof.
  intros V Hn Hk E.
  assert (Hkk : keyword_kind (n_kind n) = true).
  { unfold keyword_kind. apply orb_true_iff. left. unfold kind_in. apply existsb_exists. exists (n_kind n).
    split; [|apply String.eqb_refl]. apply (in_map fst) in Hk. exact Hk. }
  apply caseless_inner; auto. rewrite E. destruct (valid_good _ V) as (_ & _ & Hs & _). unfold spelled in Hs.
  rewrite Hn in Hs. symmetry. apply (proj2 (proj2 Hs)). exact Hk.
Qed.
Lemma kept_word n k p : valid n -> n_named n = true -> In (n_kind n, k) word_kinds -> quiet n ->
  bits p = bits (U k) -> mkept (mleaves n) [p].
Proof. intros V Hn Hk Q E. apply kept_bare; [apply V|exact Q|]. eapply word_inner; eassumption. Qed.
(* ------------------------------------------------------------ separators behind a node *)

Definition follow (rs : list node) : list node :=
  match rs with n :: _ => if is_punctuation_node n then mleaves n else [] | [] => [] end.

Lemma punct_is n : is_punctuation_node n = kind_in (n_kind n) [","; ";"].
Proof. unfold is_punctuation_node, has_kind, kind_in. simpl. rewrite orb_false_r. reflexivity. Qed.
Lemma follow_kind ks n r : kind_in (n_kind n) ks = true ->
  forallb (fun k => negb (kind_in k [","; ";"])) ks = true -> follow (n :: r) = [].
Proof. intros H1 H2. simpl. rewrite punct_is, (kinds_not ks [","; ";"] n H1 H2). reflexivity. Qed.
Lemma follow_sign fs f k c r : sign l_node fs f k c -> kind_in k [","; ";"] = false -> follow (l_node c :: r) = [].
Proof. intros (_ & Hk & _) E. simpl. rewrite punct_is, Hk, E. reflexivity. Qed.
Lemma follow_punct fs f k c r : sign l_node fs f k c -> kind_in k [","; ";"] = true -> follow (l_node c :: r) = mleaves (l_node c).
Proof. intros (_ & Hk & _) E. simpl. rewrite punct_is, Hk, E. reflexivity. Qed.
Lemma follow_branch fs f ks c r : branch l_node fs f ks c ->
  forallb (fun k => negb (kind_in k [","; ";"])) ks = true -> follow (l_node c :: r) = [].
Proof. intros (_ & Hk & _) E. eapply follow_kind; eauto. Qed.
Lemma follow_rep fs f ks a t : Forall (branch l_node fs f ks) a ->
  forallb (fun k => negb (kind_in k [","; ";"])) ks = true -> follow (map l_node t) = [] ->
  follow (map l_node (a ++ t)) = [].
Proof. intros HF E H. destruct HF as [|c a Hc HF]; [exact H|]. simpl app. cbn [map]. eapply follow_branch; eauto. Qed.
Lemma follow_sep fs s f ks a t : separated l_node fs s f ks a ->
  forallb (fun k => negb (kind_in k [","; ";"])) ks = true ->
  follow (map l_node (a ++ t)) = [].
Proof. intros HF E. destruct HF; simpl app; cbn [map]; eapply follow_branch; eauto. Qed.

(* words *)
Lemma piece_follow fs c r : piece_of_word l_node fs c -> follow (l_node c :: r) = [].
Proof. intros (_ & H & _). simpl. rewrite punct_is, H. reflexivity. Qed.
Lemma follow_word fs w a t : worded l_node fs w a -> follow (map l_node (a ++ t)) = [].
Proof.
  intros (H1 & H2 & _). destruct a as [|c a]; [contradiction|]. inversion H2; subst. cbn [app map].
  eapply piece_follow; eauto.
Qed.
Lemma kept_worded p t fs w a v L P : worded l_node fs w a -> linked_to p a t -> is_kind "if_statement" p = false ->
  bits v = bits (U w) ->
  mkept L P -> mkept (flat_map mleaves (map l_node a) ++ L) (v :: P).
Proof.
  intros (_ & H2 & H3) HL HP E K. apply mkept_tokens_all.
  { clear H3 E. revert HL. induction H2 as [|c a (Hn & Hc & Hf) H2 IH]; intro HL; [constructor|].
    destruct HL as [PL HL]. pose proof PL as (_ & _ & Vc & _). cbn [map]. constructor; [|apply IH, HL].
    pose proof (unnamed_signed _ Vc Hn) as S. apply (still_bare _ _ S).
    destruct (kind_in (n_kind (l_node c)) [","; ";"; "else"]) eqn:KE; [right|left; exact KE].
    apply (placed_quiet _ _ _ PL). unfold mute_child. apply orb_true_iff. left. unfold is_kind in HP. rewrite HP, andb_true_r.
    unfold kind_in in *. cbn [existsb] in *. unfold has_kind. rewrite !orb_false_r in *. rewrite !orb_assoc, Hc in KE. exact KE. }
  assert (Hs : flat_map leaves (map l_node a) = map l_node a /\ Forall (fun n => keyword n = true) (map l_node a)).
  { clear H3 E. revert HL. induction H2 as [|c a (Hn & Hc & Hf) H2 IH]; intro HL; [split; [reflexivity|constructor]|].
    destruct HL as [(_ & _ & Vc & _) HL]. destruct (IH HL) as [IH1 IH2]. destruct (valid_good _ Vc) as (Hx & _ & Hs & _).
    unfold spelled in Hs. rewrite Hn in Hs.
    cbn [map flat_map]. rewrite (leaves_leaf (l_node c) Hx (proj1 Hs)), IH1. split; [reflexivity|].
    constructor; [|exact IH2]. unfold keyword. rewrite Hn. reflexivity. }
  destruct Hs as [-> Hk]. apply (Mk_words (map l_node a) [v] L P); [exact Hk| |exact K].
  cbn [flat_map]. rewrite app_nil_r, E. exact H3.
Qed.
(* the neighbour to the left *)
Lemma locs_left up cs : forall left u c v, filter (fun c => plain (l_node up) (l_node c)) (locs_from up left cs) = u ++ c :: v ->
  cleft c = rev (map l_node u) ++ filter (plain (l_node up)) left.
Proof.
  induction cs as [|n cs IH]; intros left u c v E; [destruct u; discriminate|]. cbn [locs_from filter l_node] in E.
  destruct (plain (l_node up) n) eqn:Ex.
  - destruct u as [|x u]; cbn [app] in E; injection E as <- E; [reflexivity|].
    apply IH in E. rewrite E. cbn [map rev l_node filter]. rewrite Ex. rewrite <- app_assoc. reflexivity.
  - apply IH in E. rewrite E. cbn [filter]. rewrite Ex. reflexivity.
Qed.
Lemma kids_left p u x c v : ckids p = u ++ x :: c :: v -> exists lo, cleft c = l_node x :: lo.
Proof.
  intro E. unfold ckids, kids in E. change (u ++ x :: c :: v) with (u ++ [x] ++ c :: v) in E. rewrite app_assoc in E.
  apply locs_left in E. rewrite map_app, rev_app_distr in E. cbn [map rev app] in E. eauto.
Qed.

Lemma follow_kept l : rightly l ->
  mkept (follow (cright l)) (match punct_from l with Some p => punct_piece p | None => [] end).
Proof.
  intros (V & HS & _). unfold punct_from. rewrite peek_code.
  assert (HC : filter (fun c => negb (n_extra c)) (l_right l) = cright l \/
    (Forall (fun n => kind_in (n_kind n) [","; ";"] = false) (cright l) /\
     Forall (fun n => kind_in (n_kind n) [","; ";"] = false) (filter (fun c => negb (n_extra c)) (l_right l)))).
  { unfold cright, among in *. destruct (parent l) as [p|]; [|left; reflexivity].
    destruct (kind_in (kind p) filter_nodes) eqn:K.
    - right. specialize (HS p eq_refl K). split; [exact HS|]. apply Forall_forall. intros c Hc. apply filter_In in Hc as [Hc Hx].
      destruct (spare (l_node p) c) eqn:Sp.
      + apply spare_skipped in Sp as (_ & Hk & _). exact (kinds_not ["("; ")"] [","; ";"] c Hk eq_refl).
      + rewrite Forall_forall in HS. apply HS. apply filter_In. split; [exact Hc|]. unfold plain. rewrite Sp, orb_false_r. exact Hx.
    - left. apply filter_ext. intro c. unfold plain. rewrite (no_spare (l_node p) c K), orb_false_r. reflexivity. }
  destruct HC as [->|[H1 H2]].
  2:{ replace (follow (cright l)) with (@nil node).
      - destruct H2 as [|n r H2 _]; [constructor|]. cbn [hd_error]. unfold kind_in in H2. cbn [existsb] in H2. unfold has_kind.
        destruct (String.eqb (n_kind n) ","); [discriminate|]. destruct (String.eqb (n_kind n) ";"); [discriminate|]. constructor.
      - destruct H1 as [|n r H1 _]; [reflexivity|]. cbn [follow]. rewrite punct_is, H1. reflexivity. }
  destruct (cright l) as [|n r]; [constructor|]. inversion V as [|? ? Vn _]; subst.
  destruct (valid_good _ Vn) as (Hx & _ & Hs & _). cbn [hd_error]. simpl follow. rewrite punct_is.
  unfold has_kind. unfold kind_in. cbn [existsb].
  destruct (n_named n) eqn:En.
  - unfold spelled in Hs. rewrite En in Hs. destruct Hs as (Hs & _). unfold kind_in in Hs. cbn [existsb] in Hs.
    rewrite Hs. destruct (String.eqb (n_kind n) ","); [discriminate|].
    destruct (String.eqb (n_kind n) ";"); [discriminate|]. constructor.
  - unfold spelled in Hs. rewrite En in Hs. destruct Hs as [Hc Ht].
    assert (HW : forall p, bits p = bits (U (n_kind n)) -> is_punctuation_node n = true ->
      mkept (mleaves n) (p_pre (n_id n) ++ [p] ++ p_post (n_id n))).
    { intros p E Hp. rewrite mleaves_leaf by assumption. unfold opening, closing. rewrite Hp.
      apply kept_app; [apply mkept_marks|]. apply kept_app; [|apply mkept_marks].
      apply (Mk_words [n] [p] [] []); [constructor; [unfold keyword; rewrite En; reflexivity|constructor]| |constructor].
      unfold bits_of. simpl. rewrite !app_nil_r. congruence. }
    destruct (String.eqb_spec (n_kind n) ",") as [E|E].
    { cbn [orb]. apply HW; [rewrite E; reflexivity|]. rewrite punct_is, E. reflexivity. }
    destruct (String.eqb_spec (n_kind n) ";") as [E'|E']; [|constructor].
    cbn [orb]. apply HW; [rewrite E'; reflexivity|]. rewrite punct_is, E'. reflexivity.
Qed.
(* A node other than a body prints its members. *)
Lemma kind_calm l : valid (l_node l) -> kind_in (kind l) body_kinds = false -> dangle (n_id (l_node l)) = false.
Proof.
  intros V K. destruct (dangle (n_id (l_node l))) eqn:H; [|reflexivity].
  apply (valid_dangle _ V) in H as [H _]. unfold kind in K. congruence.
Qed.
Lemma atom_calm l : valid (l_node l) -> untouched (l_node l) -> dangle (n_id (l_node l)) = false.
Proof. apply untouched_calm. Qed.
Lemma calm_piece h x l P : dangle (n_id (l_node l)) = false -> x_id x = n_id (l_node l) -> node_piece h x P = P.
Proof. intros H E. unfold node_piece. rewrite E, H. reflexivity. Qed.
Lemma calm_post x l : dangle (n_id (l_node l)) = false -> x_id x = n_id (l_node l) -> post_piece x = n_post (n_id (l_node l)).
Proof. intros H E. unfold post_piece. rewrite E, H. reflexivity. Qed.
Lemma nodeP_kept l body A : dangle (n_id (l_node l)) = false -> rightly l -> mkept A (flat_map pieces body) ->
  mkept (marks (n_pre (n_id (l_node l))) ++ A ++ marks (n_post (n_id (l_node l))) ++ follow (cright l)) (pieces (nodeP l body)).
Proof.
  intros Hd V K. unfold nodeP. cbn [pieces]. rewrite (calm_piece _ _ l) by auto.
  cbn [pre_piece end_piece punc_piece with_punctuation x_punc flat_map]. rewrite (calm_post _ l) by auto. rewrite app_nil_r.
  apply kept_app; [apply mkept_marks|]. apply kept_app; [exact K|]. apply kept_app; [apply mkept_marks|].
  apply follow_kept; exact V.
Qed.
(* The comments around a node that is no separator. *)
Definition apart_kinds : list string := [","; ";"; "accessor_declaration"; "for_clause"].
Lemma node_sides n : valid n -> is_punctuation_node n = false -> opening n = n_pre (n_id n) /\ closing n = n_post (n_id n).
Proof.
  intros V Hp. destruct (valid_calm n V) as (_ & Hq & _). unfold opening, closing. rewrite Hp.
  destruct (code_token n); [split; reflexivity|]. destruct (Hq eq_refl) as [-> ->]. split; reflexivity.
Qed.
Lemma behind_closing n : has_kind "accessor_declaration" n = false -> behind n = closing n.
Proof.
  intro H. unfold behind. assert (E : existsb (early n) (code_children n) = false).
  { induction (code_children n) as [|c cs IH]; [reflexivity|]. cbn [existsb]. unfold early at 1. rewrite H. exact IH. }
  rewrite E. reflexivity.
Qed.
Lemma front_opening n : has_kind "for_clause" n = false -> front n = opening n.
Proof.
  intro H. unfold front. assert (E : existsb (late n) (code_children n) = false).
  { induction (code_children n) as [|c cs IH]; [reflexivity|]. cbn [existsb]. unfold late at 1. rewrite H. exact IH. }
  rewrite E. reflexivity.
Qed.
Lemma node_marks n : valid n -> kind_in (n_kind n) apart_kinds = false ->
  mleaves n = marks (n_pre (n_id n)) ++ inner n ++ marks (n_post (n_id n)).
Proof.
  intros V H. unfold kind_in, apart_kinds in H. cbn [existsb] in H.
  apply orb_false_iff in H as [H1 H]. apply orb_false_iff in H as [H2 H]. apply orb_false_iff in H as [H3 H].
  apply orb_false_iff in H as [H4 _].
  rewrite mleaves_inner by apply V. rewrite behind_closing by exact H3. rewrite front_opening by exact H4.
  destruct (node_sides n V) as [-> ->]; [|reflexivity]. rewrite punct_is. unfold kind_in. cbn [existsb]. rewrite H1, H2. reflexivity.
Qed.

(* ------------------------------------------------------------ what is claimed of each node *)

(* Nodes printed without the separator behind them. *)
Definition silent_kinds : list string :=
  ["parser_output"; "modifiers"; "class_body"; "block"; "interface_body"; "enum_body"; "constructor_body";
   "annotation_argument_list"; "dml_security_mode"; "local_variable_declaration"; "while_statement";
   "switch_label"; "find_clause"; "offset_clause"; "with_type"; "with_division_expression";
   "accessor_declaration"; "return_statement"; "break_statement"; "continue_statement"; "for_clause"].
(* Nodes that are never followed by a separator. *)
Definition alone_kinds : list string :=
  ["return_statement"; "break_statement"; "continue_statement"; "with_type"].
Definition trail (l : loc) : list node :=
  if kind_in (kind l) silent_kinds then [] else follow (cright l).
Definition claim (l : loc) : list node := mleaves (l_node l) ++ trail l.

(* The kind of node each syntax type expects without checking it. *)
Definition expect (s : sort) : list string :=
  match s with
  | AnnotationArgumentList => ["annotation_argument_list"]
  | TypeArguments => ["type_arguments"]
  | ArgumentList => ["argument_list"]
  | ParenthesizedExpression => ["parenthesized_expression"]
  | ConstructorDeclaration => ["constructor_declaration"]
  | ConstructorBody => ["constructor_body"]
  | ConstructInvocation => ["explicit_constructor_invocation"]
  | TypeParameter => ["type_parameter"]
  | EnumDeclaration => ["enum_declaration"]
  | EnumConstant => ["enum_constant"]
  | DmlSecurityMode => ["dml_security_mode"]
  | StaticInitializer => ["static_initializer"]
  | ExtendsInterface => ["extends_interfaces"]
  | ConstantDeclaration => ["constant_declaration"]
  | WhenSObjectType => ["when_sobject_type"]
  | JavaType => ["java_type"]
  | ReturningClause => ["returning_clause"]
  | UpdateClause => ["update_clause"]
  | ComparableList => ["comparable_list"]
  | SubQuery => ["subquery"]
  | BooleanExpression _ | ConditionExpression _ =>
      ["comparison_expression"; "and_expression"; "or_expression"; "not_expression"]
  | _ => []
  end.
Definition expected (s : sort) (l : loc) : Prop :=
  match expect s with [] => True | ks => kind_in (kind l) ks = true end.
Record fine (l : loc) : Prop := {
  f_valid : valid (l_node l);
  f_right : rightly l;
  f_named : n_named (l_node l) = true;
  f_alone : kind_in (kind l) alone_kinds = true -> follow (cright l) = []
}.
Definition inits (l : loc) : list loc :=
  match parent l with
  | Some p => filter (fun c => has_field "init" (l_node c)) (kids p)
  | None => []
  end.
(* A condition printed in parentheses, which are its neighbours in the source. *)
Definition grouped_by (p : option string) (l : loc) : bool :=
  negb (is_kind "comparison_expression" l) && should_parenthesize p (bool_operator l).
Definition usual (s : sort) : bool :=
  match s with ForInitOption | ConditionExpression _ | ForClause => false | _ => true end.
Definition special (s : sort) (l : loc) : Prop :=
  match s with
  | ForInitOption => Forall fine (inits l)
  | ConditionExpression p =>
      grouped_by p l = true -> exists o lo e re, cleft l = o :: lo /\ cright l = e :: re /\ signed o "(" /\ signed e ")" /\
        follow (cright l) = []
  | _ => True
  end.
Definition ok (s : sort) (l : loc) : Prop := fine l /\ expected s l /\ special s l.
Definition claims (s : sort) (l : loc) : list node :=
  match s with
  | ForInitOption => if is_kind "local_variable_declaration" l then claim l else flat_map claim (inits l)
  | ConditionExpression p =>
      if grouped_by p l then flat_map mleaves (firstn 1 (cleft l)) ++ mleaves (l_node l) ++ flat_map mleaves (firstn 1 (cright l)) else claim l
  | ForClause => marks (n_pre (n_id (l_node l))) ++ flat_map mleaves (filter n_named (code_children (l_node l))) ++
      marks (n_post (n_id (l_node l))) ++ follow (cright l)
  | _ => claim l
  end.

Lemma trail_none l : follow (cright l) = [] -> trail l = [].
Proof. intro H. unfold trail. rewrite H. destruct (kind_in _ _); reflexivity. Qed.
Lemma claim_none l : follow (cright l) = [] -> claim l = mleaves (l_node l).
Proof. intro H. unfold claim. rewrite (trail_none l H). apply app_nil_r. Qed.
Lemma claim_follow l ks : kind_in (n_kind (l_node l)) ks = true ->
  forallb (fun k => negb (kind_in k silent_kinds)) ks = true -> claim l = mleaves (l_node l) ++ follow (cright l).
Proof. intros H1 H2. unfold claim, trail, kind. rewrite (kinds_not ks silent_kinds _ H1 H2). reflexivity. Qed.
Lemma claim_silent l : kind_in (kind l) silent_kinds = true -> claim l = mleaves (l_node l).
Proof. intro H. unfold claim, trail. rewrite H. apply app_nil_r. Qed.

Lemma fine_none l : valid (l_node l) -> rightly l -> n_named (l_node l) = true ->
  follow (cright l) = [] -> fine l.
Proof. intros. constructor; auto. Qed.
Lemma fine_kinds l ks : valid (l_node l) -> rightly l -> n_named (l_node l) = true ->
  kind_in (n_kind (l_node l)) ks = true -> forallb (fun k => negb (kind_in k alone_kinds)) ks = true -> fine l.
Proof.
  intros H1 H2 H3 H4 H5. constructor; auto. intro E. unfold kind in E.
  rewrite (kinds_not ks alone_kinds _ H4 H5) in E. discriminate.
Qed.

Definition holds (l : loc) (x : dt) : Prop := mkept (claim l) (pieces x).

(* A node printed with its separator. *)
Lemma nodeP_holds l body : fine l ->
  (kind_in (kind l) silent_kinds = true -> kind_in (kind l) alone_kinds = true) ->
  mkept (inner (l_node l)) (flat_map pieces body) -> holds l (nodeP l body).
Proof.
  intros F E K. unfold holds, claim, trail.
  assert (Hb : kind_in (kind l) body_kinds = false).
  { destruct (kind_in (kind l) body_kinds) eqn:Hb; [|reflexivity]. unfold body_kinds in Hb; cbn [kind_in existsb] in Hb.
    repeat (apply Bool.orb_prop in Hb as [Hb|Hb]; [apply String.eqb_eq in Hb; rewrite Hb in E; discriminate (E eq_refl)|]). discriminate. }
  pose proof (nodeP_kept l body _ (kind_calm l (f_valid l F) Hb) (f_right l F) K) as N.
  assert (Ha : kind_in (n_kind (l_node l)) apart_kinds = false).
  { destruct (valid_good _ (f_valid l F)) as (_ & _ & Hs & _). unfold spelled in Hs. rewrite (f_named l F) in Hs.
    destruct Hs as (Hs & _). unfold kind_in, apart_kinds in *. cbn [existsb] in *.
    apply orb_false_iff in Hs as [H1 Hs]. apply orb_false_iff in Hs as [H2 _]. rewrite H1, H2. cbn [orb].
    destruct (String.eqb_spec (n_kind (l_node l)) "accessor_declaration") as [Q|Q].
    - unfold kind in E. rewrite Q in E. discriminate (E eq_refl).
    - destruct (String.eqb_spec (n_kind (l_node l)) "for_clause") as [Q'|Q']; [|reflexivity].
      unfold kind in E. rewrite Q' in E. discriminate (E eq_refl). }
  rewrite (node_marks _ (f_valid l F) Ha), <- !app_assoc.
  destruct (kind_in (kind l) silent_kinds) eqn:S; [|exact N].
  rewrite (f_alone l F (E eq_refl)) in N. exact N.
Qed.
Lemma ruleless_unmoved n : rules (n_kind n) = [] -> kind_in (n_kind n) moved_kinds = false.
Proof.
  intro K. destruct (kind_in (n_kind n) moved_kinds) eqn:E; [|reflexivity]. unfold kind_in, moved_kinds in E. cbn [existsb] in E.
  repeat (apply orb_prop in E as [E|E]; [apply String.eqb_eq in E; rewrite E in K; discriminate K|]). discriminate E.
Qed.
Lemma vn_holds l : fine l -> (kind_in (kind l) silent_kinds = true -> kind_in (kind l) alone_kinds = true) ->
  rules (kind l) = [] -> holds l (vn l).
Proof.
  intros F E Hr. apply nodeP_holds; auto. simpl. apply kept_inner; [exact (f_valid _ F)|apply no_rules_atom; [exact (f_valid _ F)|exact Hr]|].
  apply ruleless_unmoved. exact Hr.
Qed.
(* The tokens of a composite node are those of its children. *)
Lemma kept_ahead l P : valid (l_node l) -> rules (kind l) <> [] ->
  (forall c, In c (ckids l) -> ahead (l_node l) (l_node c) = []) ->
  mkept (flat_map mleaves (map l_node (ckids l))) P -> mkept (inner (l_node l)) P.
Proof.
  intros V Hr HA K. assert (HA' : forall c, In c (code_children (l_node l)) -> ahead (l_node l) c = []).
  { intros c Hc. rewrite <- ckids_nodes in Hc. apply in_map_iff in Hc as (c' & <- & Hc). exact (HA c' Hc). }
  rewrite ckids_nodes in K. unfold inner. clear HA.
  destruct (children (l_node l)) as [|c cs] eqn:E.
  - unfold code_children in K. rewrite E in K. destruct (valid_good _ V) as (Hx & Hc & _). unfold covered in Hc. rewrite E in Hc.
    specialize (Hc (or_intror Hr)). apply Mk_nothing; [|exact K]. apply proj1, woven_visible in Hc. exact Hc.
  - replace (flat_map _ _) with (flat_map mleaves (code_children (l_node l))); [exact K|].
    revert HA'. generalize (code_children (l_node l)). intros cl HA'. clear K. induction cl as [|x cl IH]; [reflexivity|].
    cbn [flat_map]. rewrite <- IH, (HA' x) by first [left; reflexivity | intros y Hy; apply HA'; right; exact Hy]. reflexivity.
Qed.
Lemma kept_children l P : valid (l_node l) -> rules (kind l) <> [] ->
  kind_in (kind l) moved_kinds = false -> dangle (n_id (l_node l)) = false ->
  mkept (flat_map mleaves (map l_node (ckids l))) P -> mkept (inner (l_node l)) P.
Proof. intros V Hr HM HD. apply kept_ahead; [exact V|exact Hr|]. intros c _. apply ahead_none; assumption. Qed.
Lemma bare_children l P : valid (l_node l) -> rules (kind l) <> [] ->
  kind_in (kind l) moved_kinds = false -> dangle (n_id (l_node l)) = false -> quiet (l_node l) ->
  mkept (flat_map mleaves (map l_node (ckids l))) P -> mkept (mleaves (l_node l)) P.
Proof. intros V Hr HM HD Q K. apply kept_bare; [apply V|exact Q|]. apply kept_children; assumption. Qed.

(* ------------------------------------------------------------ lists of children *)

Section Lists.
  Variable rec : sort -> loc -> res dt.
  Hypothesis IH : forall s l x, ok s l -> rec s l = Ok x -> mkept (claims s l) (pieces x).

  Lemma claims_claim s l : usual s = true -> claims s l = claim l.
  Proof. destruct s; try reflexivity; discriminate. Qed.
  Lemma usual_special s l : usual s = true -> special s l.
  Proof. destruct s; try discriminate; intros; exact I. Qed.
  Lemma rec_holds s c x : usual s = true -> fine c -> expected s c -> rec s c = Ok x -> holds c x.
  Proof.
    intros Hs F E H. unfold holds. rewrite <- (claims_claim s c Hs). apply (IH s c x); [|exact H].
    split; [exact F|]. split; [exact E|]. apply usual_special, Hs.
  Qed.

  Lemma mapR_kept (f : loc -> res dt) a ds :
    (forall c x, In c a -> f c = Ok x -> holds c x) -> mapR f a = Ok ds ->
    mkept (flat_map claim a) (flat_map pieces ds).
  Proof.
    revert ds. induction a as [|c a IHa]; intros ds H E; cbn [mapR] in E.
    - injection E as <-. constructor.
    - destruct (f c) as [x| |] eqn:Ec; cbn [rbind] in E; try discriminate.
      destruct (mapR f a) as [xs| |] eqn:Ea; cbn [rbind] in E; try discriminate. injection E as <-.
      simpl. apply kept_app; [apply H; [left; reflexivity|exact Ec]|]. apply IHa; [|reflexivity].
      intros c' x' Hc'. apply H. right. exact Hc'.
  Qed.

  (* any number of nodes, with nothing between or behind them *)
  Lemma rep_claim p fs f ks a t : linked_to p a t -> Forall (branch l_node fs f ks) a ->
    forallb (fun k => negb (kind_in k [","; ";"])) ks = true -> follow (map l_node t) = [] ->
    flat_map claim a = flat_map mleaves (map l_node a).
  Proof.
    intros HL HF E Ht. induction HF as [|c a Hc HF IHa]; [reflexivity|]. destruct HL as ((Hr & _) & HL).
    simpl. rewrite IHa by exact HL. rewrite claim_none; [reflexivity|]. rewrite Hr. eapply follow_rep; eauto.
  Qed.
  Lemma rep_fine p fs f ks a t : linked_to p a t -> Forall (branch l_node fs f ks) a ->
    forallb (fun k => negb (kind_in k [","; ";"])) ks = true -> follow (map l_node t) = [] ->
    forall c, In c a -> fine c /\ kind_in (n_kind (l_node c)) ks = true.
  Proof.
    intros HL HF E Ht. induction HF as [|c a Hc HF IHa]; intros c' Hin; [destruct Hin|].
    destruct HL as ((Hr & _ & Hv & HV) & HL). destruct Hin as [<-|Hin]; [|apply IHa; auto].
    destruct Hc as (Hn & Hk & _). split; [|exact Hk]. apply fine_none; auto. rewrite Hr. eapply follow_rep; eauto.
  Qed.
  Lemma rep_kept p fs f ks a t s ds : usual s = true ->
    linked_to p a t -> Forall (branch l_node fs f ks) a ->
    forallb (fun k => negb (kind_in k [","; ";"])) ks = true -> follow (map l_node t) = [] ->
    (expect s = [] \/ forallb (fun k => kind_in k (expect s)) ks = true) ->
    mapR (rec s) a = Ok ds -> mkept (flat_map mleaves (map l_node a)) (flat_map pieces ds).
  Proof.
    intros Hs HL HF E Ht He H. rewrite <- (rep_claim p fs f ks a t HL HF E Ht). eapply mapR_kept; [|exact H].
    intros c x Hin Hx. destruct (rep_fine p fs f ks a t HL HF E Ht c Hin) as [F Hk].
    eapply rec_holds; eauto. unfold expected. destruct He as [->|He]; [exact I|]. destruct (expect s) eqn:Ex; [exact I|].
    eapply kinds_in; eauto.
  Qed.

  (* the nodes of a separated list *)
  Fixpoint evens (a : list loc) : list loc :=
    match a with
    | c :: _ :: r => c :: evens r
    | _ => a
    end.
  Lemma sep_filter fs s f ks a (P : loc -> bool) : separated l_node fs s f ks a ->
    (forall c, branch l_node fs f ks c -> P c = true) -> (forall x, sign l_node fs "" s x -> P x = false) ->
    filter P a = evens a.
  Proof.
    intros HS H1 H2. induction HS as [c Hc|c x r Hc Hx HS IHs]; cbn [filter evens].
    - rewrite (H1 c Hc). reflexivity.
    - rewrite (H1 c Hc), (H2 x Hx), IHs. reflexivity.
  Qed.
  Lemma sep_evens fs s f ks a : separated l_node fs s f ks a -> Forall (branch l_node fs f ks) (evens a).
  Proof. induction 1; cbn [evens]; constructor; auto. Qed.
  Lemma sep_all p fs s f ks a t : linked_to p a t -> separated l_node fs s f ks a ->
    forallb (fun k => negb (kind_in k silent_kinds)) ks = true ->
    forallb (fun k => negb (kind_in k alone_kinds)) ks = true ->
    kind_in s [","; ";"] = true ->
    flat_map claim (evens a) = flat_map mleaves (map l_node a) ++ follow (map l_node t) /\
    (forall c, In c (evens a) -> fine c /\ kind_in (n_kind (l_node c)) ks = true).
  Proof.
    intros HL HS E1 E2 Es.
    induction HS as [c Hc|c x r Hc Hx HS IHs]; cbn [evens].
    - destruct HL as ((Hr & _ & Hv & HV) & _). destruct Hc as (Hn & Hk & Hf). simpl in Hr. split.
      + simpl. rewrite (claim_follow c ks Hk E1), Hr, !app_nil_r. reflexivity.
      + intros c' [<-|[]]. split; [|exact Hk]. eapply fine_kinds; eauto.
    - destruct HL as ((Hr & _ & Hv & HV) & (Hr' & _ & Hv' & _) & HL). destruct (IHs HL) as [I1 I2].
      destruct Hc as (Hn & Hk & Hf). split.
      + simpl. rewrite I1, (claim_follow c ks Hk E1), Hr. cbn [app map].
        rewrite (follow_punct _ _ _ _ _ Hx Es). rewrite <- !app_assoc. reflexivity.
      + intros c' [<-|Hin]; [|auto]. split; [|exact Hk]. eapply fine_kinds; eauto.
  Qed.
  Lemma sep_kept p fs s f ks a t so ds : usual so = true ->
    linked_to p a t -> separated l_node fs s f ks a ->
    forallb (fun k => negb (kind_in k silent_kinds)) ks = true ->
    forallb (fun k => negb (kind_in k alone_kinds)) ks = true ->
    kind_in s [","; ";"] = true ->
    (expect so = [] \/ forallb (fun k => kind_in k (expect so)) ks = true) ->
    mapR (rec so) (evens a) = Ok ds ->
    mkept (flat_map mleaves (map l_node a) ++ follow (map l_node t)) (flat_map pieces ds).
  Proof.
    intros Hs HL HS E1 E2 Es He H.
    destruct (sep_all p fs s f ks a t HL HS E1 E2 Es) as [<- HF]. eapply mapR_kept; [|exact H].
    intros c x Hin Hx. destruct (HF c Hin) as [F Hk]. eapply rec_holds; eauto.
    unfold expected. destruct He as [->|He]; [exact I|]. destruct (expect so) eqn:Ex; [exact I|]. eapply kinds_in; eauto.
  Qed.
End Lists.

(* Separators without visible text do not count. *)
Lemma joined_blank s l : solid s = [] -> solid (joined s l) = solid (List.concat l).
Proof.
  intro H. destruct l as [|x l]; [reflexivity|]. simpl. rewrite !solid_app. f_equal.
  induction l as [|y l IH]; [reflexivity|]. simpl. rewrite !solid_app, H, IH. reflexivity.
Qed.
Lemma kept_joined L s (ds : list dt) : solid s = [] -> mkept L (flat_map pieces ds) -> mkept L (joined s (map pieces ds)).
Proof.
  intros H K. eapply kept_same; [|exact K]. rewrite joined_blank by exact H.
  rewrite flat_map_concat_map. reflexivity.
Qed.

End Dangling1.
