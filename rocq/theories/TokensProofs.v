(* TokensProofs.v: lemmas on tokens, on the texts a term prints when there are no
   comments, and on sequences of children. *)
From Verif Require Import Base Doc DocBuilder Cst Comments Term SpecDoc SpecTree DocProofs
  TermProofs CollectProofs CollectProofs2 New SpecWords SpecTokens BitsProofs.
From Coq Require Import Permutation.
Local Open Scope list_scope.

(* ------------------------------------------------------------ texts *)

Lemma visible_app a b : visible (a ++ b) = visible a ++ visible b.
Proof. apply filter_app. Qed.
Lemma lowercase_app a b : to_lowercase (a ++ b) = to_lowercase a ++ to_lowercase b.
Proof. apply map_app. Qed.
Lemma folded_app a b : folded (a ++ b) = folded a ++ folded b.
Proof. unfold folded. rewrite visible_app. apply lowercase_app. Qed.
Lemma folded_nil a : visible a = [] -> folded a = [].
Proof. unfold folded. intros ->. reflexivity. Qed.

Lemma ws_lower c : is_ws (lower1 c) = is_ws c.
Proof.
  unfold lower1. destruct ((65 <=? c)%N && (c <=? 90)%N) eqn:E; [|reflexivity].
  apply andb_prop in E as [E1 E2]. apply N.leb_le in E1, E2.
  assert (Hf : forall x : N, (97 <= x <= 122)%N \/ (65 <= x <= 90)%N -> is_ws x = false).
  { intros x Hx. unfold is_ws.
    repeat match goal with
           | |- context [(?a <=? ?b)%N] => destruct (N.leb_spec a b); simpl
           | |- context [(?a =? ?b)%N] => destruct (N.eqb_spec a b); simpl
           end; lia || reflexivity. }
  rewrite !Hf; [reflexivity|lia|lia].
Qed.
Lemma ws_upper c : is_ws (upper1 c) = is_ws c.
Proof.
  unfold upper1. destruct ((97 <=? c)%N && (c <=? 122)%N) eqn:E; [|reflexivity].
  apply andb_prop in E as [E1 E2]. apply N.leb_le in E1, E2.
  assert (Hf : forall x : N, (97 <= x <= 122)%N \/ (65 <= x <= 90)%N -> is_ws x = false).
  { intros x Hx. unfold is_ws.
    repeat match goal with
           | |- context [(?a <=? ?b)%N] => destruct (N.leb_spec a b); simpl
           | |- context [(?a =? ?b)%N] => destruct (N.eqb_spec a b); simpl
           end; lia || reflexivity. }
  rewrite !Hf; [reflexivity|lia|lia].
Qed.
Lemma visible_map f s : (forall c, is_ws (f c) = is_ws c) -> visible (map f s) = map f (visible s).
Proof.
  intro H. induction s as [|c s IH]; [reflexivity|]. unfold visible in *. simpl. rewrite H.
  destruct (is_ws c); simpl; [exact IH|]. f_equal. exact IH.
Qed.
Lemma lower_lower c : lower1 (lower1 c) = lower1 c.
Proof.
  unfold lower1. destruct ((65 <=? c)%N && (c <=? 90)%N) eqn:E; [|rewrite E; reflexivity].
  apply andb_prop in E as [E1 E2]. apply N.leb_le in E1, E2.
  destruct (N.leb_spec (c + 32) 90); [lia|]. rewrite andb_false_r. reflexivity.
Qed.
Lemma lower_upper c : lower1 (upper1 c) = lower1 c.
Proof.
  unfold upper1. destruct ((97 <=? c)%N && (c <=? 122)%N) eqn:E; [|reflexivity].
  apply andb_prop in E as [E1 E2]. apply N.leb_le in E1, E2. unfold lower1.
  destruct (N.leb_spec 65 (c - 32)), (N.leb_spec (c - 32) 90), (N.leb_spec 65 c), (N.leb_spec c 90); simpl; lia.
Qed.
Lemma folded_lower s : folded (to_lowercase s) = folded s.
Proof.
  unfold folded, to_lowercase. rewrite (visible_map lower1 s ws_lower), map_map.
  apply map_ext. apply lower_lower.
Qed.
Lemma folded_upper s : folded (to_uppercase s) = folded s.
Proof.
  unfold folded, to_uppercase, to_lowercase. rewrite (visible_map upper1 s ws_upper), map_map.
  apply map_ext. apply lower_upper.
Qed.

Lemma bits_lower s : bits (to_lowercase s) = bits s.
Proof.
  unfold bits, to_lowercase at 2. rewrite (split_map lower1 s ws_lower word_lower), map_map. apply map_ext.
  intro w. unfold to_lowercase. rewrite map_map. apply map_ext. apply lower_lower.
Qed.
Lemma bits_upper s : bits (to_uppercase s) = bits s.
Proof.
  unfold bits, to_uppercase. rewrite (split_map upper1 s ws_upper word_upper), map_map. apply map_ext.
  intro w. unfold to_lowercase. rewrite map_map. apply map_ext. apply lower_upper.
Qed.

(* ------------------------------------------------------------ kept *)

Lemma kept_app a p b q : kept a p -> kept b q -> kept (a ++ b) (p ++ q).
Proof.
  induction 1; intro K; cbn [app]; rewrite <- ?app_assoc.
  - exact K.
  - apply Kept_blank; auto.
  - apply Kept_nothing; auto.
  - apply Kept_text; auto.
  - apply Kept_split; [assumption|]. exact (IHkept K).
  - apply Kept_words; auto.
Qed.
Lemma kept_app2 a1 a2 p b q : kept (a1 ++ a2) p -> kept b q -> kept (a1 ++ a2 ++ b) (p ++ q).
Proof. intros. rewrite app_assoc. apply kept_app; assumption. Qed.
Lemma kept_app0 p b q : kept [] p -> kept b q -> kept b (p ++ q).
Proof. apply (kept_app []). Qed.
Definition solid (ps : list ustr) : list ustr := filter (fun w => negb (is_nil (visible w))) ps.
Lemma solid_app a b : solid (a ++ b) = solid a ++ solid b.
Proof. apply filter_app. Qed.
Lemma solid_blank w : visible w = [] -> solid [w] = [].
Proof. intro H. unfold solid. simpl. rewrite H. reflexivity. Qed.
Lemma visible_concat_solid vs : visible (List.concat (solid vs)) = visible (List.concat vs).
Proof.
  induction vs as [|v vs IH]; [reflexivity|]. change (v :: vs) with ([v] ++ vs).
  rewrite solid_app, !concat_app, !visible_app, IH. f_equal.
  unfold solid. simpl. destruct (is_nil (visible v)) eqn:E; simpl; rewrite ?app_nil_r; [|reflexivity].
  destruct (visible v); [reflexivity|discriminate].
Qed.
Lemma bits_solid vs : flat_map bits (solid vs) = flat_map bits vs.
Proof.
  induction vs as [|v vs IH]; [reflexivity|]. unfold solid in *. cbn [filter flat_map].
  destruct (visible v) eqn:E; cbn [is_nil negb]; [rewrite (bits_blank v E); exact IH|].
  cbn [flat_map]. rewrite IH. reflexivity.
Qed.
Lemma solid_split q a b : solid q = a ++ b -> exists q1 q2, q = q1 ++ q2 /\ solid q1 = a /\ solid q2 = b.
Proof.
  revert a. induction q as [|w q IH]; intros a H.
  - destruct a; [|discriminate]. simpl in H. subst b. exists [], []. auto.
  - unfold solid in H. simpl in H. destruct (negb (is_nil (visible w))) eqn:E.
    + destruct a as [|x a].
      * exists [], (w :: q). repeat split. unfold solid. simpl. rewrite E. exact H.
      * simpl in H. injection H as -> H. apply IH in H as (q1 & q2 & -> & H1 & H2).
        exists (x :: q1), q2. repeat split; [|exact H2]. unfold solid. simpl. rewrite E. f_equal. exact H1.
    + apply IH in H as (q1 & q2 & -> & H1 & H2). exists (w :: q1), q2. repeat split; [|exact H2].
      unfold solid. simpl. rewrite E. exact H1.
Qed.
Lemma kept_blanks q ls ws : solid q = [] -> kept ls ws -> kept ls (q ++ ws).
Proof.
  induction q as [|w q IH]; intros H K; [exact K|]. unfold solid in H. simpl in H.
  destruct (visible w) eqn:E; simpl in H; [|discriminate]. simpl. apply Kept_blank; auto.
Qed.
Lemma woven_visible ts s : woven ts s -> visible s = visible (List.concat ts).
Proof.
  induction 1 as [b Hb|b t ts s Hb H IH]; cbn [List.concat]; [exact Hb|]. rewrite !visible_app, Hb, IH. reflexivity.
Qed.
Lemma kept_nothings ns ls ws : visible (flat_map n_text ns) = [] -> kept ls ws -> kept (ns ++ ls) ws.
Proof.
  induction ns as [|n ns IH]; intros H K; [exact K|]. cbn [flat_map] in H. rewrite visible_app in H.
  apply app_eq_nil in H as [H1 H2]. cbn [app]. apply Kept_nothing; auto.
Qed.
Lemma kept_solid ls ps : kept ls ps -> forall qs, solid qs = solid ps -> kept ls qs.
Proof.
  induction 1 as [|w ls ws Hw K IH|m ls ws Hw K IH|ns v ls ws Hv Hb K IH|v w ls ws Hvw K IH|ns vs ls ws Hn He K IH]; intros qs E.
  - rewrite <- (app_nil_r qs). apply kept_blanks; [exact E|constructor].
  - apply IH. rewrite E. change (w :: ws) with ([w] ++ ws). rewrite solid_app, solid_blank; auto.
  - apply Kept_nothing; [exact Hw|]. apply IH; exact E.
  - change (v :: ws) with ([v] ++ ws) in E. rewrite solid_app in E.
    destruct (visible v) as [|c cs] eqn:Ev.
    + rewrite solid_blank in E by exact Ev. apply kept_nothings; [|apply IH; exact E].
      rewrite flat_map_concat_map, <- (woven_visible _ _ Hv). exact Ev.
    + assert (Es : solid [v] = [v]) by (unfold solid; simpl; rewrite Ev; reflexivity).
      rewrite Es in E. apply solid_split in E as (q1 & q2 & -> & H1 & H2).
      assert (Hq : kept ns q1).
      { clear - H1 Ev Hv Hb. induction q1 as [|w q IH]; [discriminate|]. unfold solid in H1. simpl in H1.
        destruct (negb (is_nil (visible w))) eqn:E.
        - injection H1 as -> H1. rewrite <- (app_nil_r ns). apply Kept_text; [exact Hv|exact Hb|].
          rewrite <- (app_nil_r q). apply kept_blanks; [exact H1|constructor].
        - apply Kept_blank; [destruct (visible w); [reflexivity|discriminate]|]. apply IH, H1. }
      apply kept_app; auto.
  - destruct (visible (v ++ w)) as [|c cs] eqn:Ev.
    + apply IH. rewrite E. rewrite visible_app in Ev. apply app_eq_nil in Ev as [E1 E2].
      change ((v ++ w) :: ws) with ([v ++ w] ++ ws). change (v :: w :: ws) with ([v] ++ [w] ++ ws).
      rewrite !solid_app, !solid_blank; auto. rewrite visible_app, E1. exact E2.
    + change ((v ++ w) :: ws) with ([v ++ w] ++ ws) in E. rewrite solid_app in E.
      assert (Es : solid [v ++ w] = [v ++ w]) by (unfold solid; simpl; rewrite Ev; reflexivity).
      rewrite Es in E. apply solid_split in E as (q1 & q2 & -> & H1 & H2).
      assert (Hq : exists a b, q1 = a ++ [v ++ w] ++ b /\ solid a = [] /\ solid b = []).
      { clear - H1. induction q1 as [|x q IH]; [discriminate|]. unfold solid in H1. simpl in H1.
        destruct (negb (is_nil (visible x))) eqn:E.
        - injection H1 as -> H1. exists [], q. auto.
        - destruct (IH H1) as (a & b & -> & Ha & Hb). exists (x :: a), b. split; [reflexivity|]. split; [|exact Hb].
          unfold solid. simpl. rewrite E. exact Ha. }
      destruct Hq as (a & b & -> & Ha & Hb). rewrite <- !app_assoc. apply kept_blanks; [exact Ha|]. cbn [app].
      apply Kept_split; [exact Hvw|]. apply IH. change (v :: w :: b ++ q2) with ([v] ++ [w] ++ b ++ q2).
      change (v :: w :: ws) with ([v] ++ [w] ++ ws). rewrite !solid_app, Hb, H2. reflexivity.
  - rewrite solid_app in E. apply solid_split in E as (q1 & q2 & -> & H1 & H2).
    apply Kept_words; [exact Hn| |auto]. rewrite He.
    rewrite <- (bits_solid q1), <- (bits_solid vs), H1. reflexivity.
Qed.
Lemma kept_same ls ps qs : solid ps = solid qs -> kept ls ps -> kept ls qs.
Proof. intros E K. eapply kept_solid; [exact K|]. auto. Qed.

Lemma spare_extra n c : spare n c = true -> n_extra c = false.
Proof.
  unfold spare. destruct (is_nil (spare_signs n)); [discriminate|]. destruct (n_extra c); [|reflexivity].
  rewrite Bool.andb_false_r. discriminate.
Qed.
Lemma leaves_extra n : n_extra n = true -> leaves n = [].
Proof. destruct n as [i cs]. intro Hx. cbn [leaves]. rewrite Hx. reflexivity. Qed.
(* Comments have no leaves. *)
Lemma leaves_kids n : n_extra n = false -> children n <> [] -> leaves n = flat_map leaves (code_children n).
Proof.
  intros Hx H. destruct n as [i [|c cs]]; [exfalso; apply H; reflexivity|]. unfold code_children. cbn [children].
  transitivity (flat_map (fun x => if spare (Node i (c :: cs)) x then [] else leaves x) (c :: cs)).
  { cbn [leaves]. rewrite Hx. reflexivity. }
  generalize (Node i (c :: cs)). intro n. clear. induction (c :: cs) as [|x l IH]; [reflexivity|].
  cbn [filter flat_map]. rewrite IH. destruct (spare n x).
  - rewrite Bool.orb_true_r. reflexivity.
  - rewrite Bool.orb_false_r. destruct (n_extra x) eqn:E; cbn [negb flat_map]; [rewrite (leaves_extra x E)|]; reflexivity.
Qed.
Lemma leaves_leaf n : n_extra n = false -> children n = [] -> leaves n = [n].
Proof. destruct n as [i [|c cs]]; intros Hx H; [|discriminate]. cbn [leaves]. rewrite Hx. reflexivity. Qed.
Lemma untouched_kid n c : untouched n -> In c (children n) -> untouched c.
Proof. intros H Hc m Hm. apply H. destruct n as [i cs]. right. apply in_flat_map. eauto. Qed.
Lemma untouched_self n : untouched n -> n_extra n = false.
Proof. intro H. apply H. destruct n; left; reflexivity. Qed.
Lemma untouched_children n : untouched n -> code_children n = children n.
Proof.
  intro U. unfold code_children.
  assert (H : forall c, In c (children n) -> n_extra c || spare n c = false).
  { intros c Hc. rewrite (untouched_self c (untouched_kid n c U Hc)).
    destruct (U n) as [_ H]; [destruct n; left; reflexivity|]. rewrite (H c Hc). reflexivity. }
  induction (children n) as [|c l IH]; [reflexivity|]. cbn [filter]. rewrite (H c (or_introl eq_refl)). cbn [negb].
  f_equal. apply IH. intros x Hx. apply H. right. exact Hx.
Qed.
Lemma leaves_eq i c cs : untouched (Node i (c :: cs)) -> leaves (Node i (c :: cs)) = flat_map leaves (c :: cs).
Proof.
  intro U. rewrite leaves_kids; [|exact (untouched_self _ U)|discriminate]. rewrite untouched_children by exact U. reflexivity.
Qed.

(* The text of a tree is that of its leaves. *)
Lemma woven_one t : woven [t] t.
Proof. rewrite <- (app_nil_r t) at 2. apply (Woven_text [] t [] []); [reflexivity|]. constructor. reflexivity. Qed.
Lemma woven_blank b ts s : visible b = [] -> woven ts s -> woven ts (b ++ s).
Proof.
  intros Hb H. destruct H as [b' Hb'|b' t ts s Hb' H].
  - constructor. rewrite visible_app, Hb, Hb'. reflexivity.
  - rewrite app_assoc. constructor; [rewrite visible_app, Hb, Hb'; reflexivity|exact H].
Qed.
Lemma woven_app a s b t : woven a s -> woven b t -> woven (a ++ b) (s ++ t).
Proof.
  intros H1 H2. induction H1 as [g Hg|g x ts s Hg H IH]; cbn [app]; [apply woven_blank; assumption|].
  rewrite <- !app_assoc. constructor; auto.
Qed.
Lemma woven_leaves n : untouched n -> (forall m, In m (all_nodes n) -> covered m) ->
  woven (map n_text (leaves n)) (n_text n).
Proof.
  induction n as [i cs IH] using node_nested_ind. intros U H.
  destruct cs as [|c cs]; [rewrite leaves_leaf; [apply woven_one|exact (untouched_self _ U)|reflexivity]|].
  assert (HW : woven (map n_text (c :: cs)) (n_text (Node i (c :: cs)))).
  { apply (H (Node i (c :: cs))); [left; reflexivity|left; discriminate]. }
  rewrite leaves_eq by exact U.
  assert (HF : forall l s, incl l (c :: cs) -> woven (map n_text l) s -> woven (map n_text (flat_map leaves l)) s).
  { induction l as [|x l IHl]; intros s Hi W; [exact W|]. cbn [map] in W. inversion W as [|b t ts s' Hb W']; subst.
    cbn [flat_map]. rewrite map_app. apply woven_blank; [exact Hb|]. apply woven_app.
    - rewrite Forall_forall in IH. apply IH; [apply Hi; left; reflexivity| |].
      + eapply untouched_kid; [exact U|]. apply Hi. left. reflexivity.
      + intros m Hm. apply H. right. apply in_flat_map. exists x. split; [apply Hi; left; reflexivity|exact Hm].
    - apply IHl; [|exact W']. intros y Hy. apply Hi. right. exact Hy. }
  apply HF; [apply incl_refl|exact HW].
Qed.
Lemma bits_leaves n : untouched n -> (forall m, In m (all_nodes n) -> covered m) ->
  bits (n_text n) = bits_of (leaves n).
Proof.
  induction n as [i cs IH] using node_nested_ind. intros U H.
  destruct cs as [|c cs].
  { rewrite leaves_leaf; [|exact (untouched_self _ U)|reflexivity].
    unfold bits_of; cbn [flat_map]; rewrite app_nil_r; reflexivity. }
  assert (HW : bits (n_text (Node i (c :: cs))) = bits_of (c :: cs)).
  { apply (H (Node i (c :: cs))); [left; reflexivity|left; discriminate]. }
  rewrite HW, leaves_eq by exact U.
  assert (HI : forall m, In m (flat_map all_nodes (c :: cs)) -> covered m /\ n_extra m = false /\ forall c, In c (children m) -> spare m c = false).
  { intros m Hm. split; [apply H|apply U]; right; exact Hm. }
  clear HW H U. revert IH HI. generalize (c :: cs). clear. induction l as [|x l IHl]; intros IH HI; [reflexivity|].
  cbn [flat_map]. rewrite bits_of_app. inversion IH as [|? ? Hx Hl]; subst.
  change (bits_of (x :: l)) with (bits (n_text x) ++ bits_of l). f_equal.
  - apply Hx; intros m Hm; apply HI; cbn [flat_map]; apply in_or_app; left; exact Hm.
  - apply IHl; [exact Hl|]. intros m Hm. apply HI. cbn [flat_map]. apply in_or_app. right. exact Hm.
Qed.
Lemma visible_leaves n : untouched n -> (forall m, In m (all_nodes n) -> covered m) ->
  visible (n_text n) = visible (flat_map n_text (leaves n)).
Proof. intros U H. rewrite (woven_visible _ _ (woven_leaves n U H)), flat_map_concat_map. reflexivity. Qed.

(* ------------------------------------------------------------ texts of a term *)

(* What is printed for the comments of each node: in front of it, behind it and,
   if it has comments in its brackets and nothing else, in them; and the same for
   the separators.  Comments may be left out of the texts if [loose]. *)
Class dangles := {
  loose : bool;
  dangle : N -> bool;
  n_pre : N -> list ustr;
  n_post : N -> list ustr;
  n_in : N -> list ustr;
  n_root : N -> list ustr;
  p_pre : N -> list ustr;
  p_post : N -> list ustr
}.
Definition punct_piece {DG : dangles} (p : punct) : list ustr :=
  match p with Punct comma id => p_pre id ++ [U (if comma then "," else ";")] ++ p_post id end.
Definition str_piece (i : tins) : list ustr := match t_str i with Some s => [s] | None => [] end.
Definition joined (s : list ustr) (l : list (list ustr)) : list ustr :=
  match l with [] => [] | x :: r => x ++ flat_map (fun y => s ++ y) r end.
Definition node_piece {DG : dangles} (h : handling) (x : context) (body : list ustr) : list ustr :=
  if dangle (x_id x)
  then match h with HBracket | HBracketNoPost => [U "{"] ++ n_in (x_id x) ++ [U "}"] | HRoot => n_root (x_id x) | _ => n_in (x_id x) end
  else body.
Definition pre_piece {DG : dangles} (h : handling) (x : context) : list ustr :=
  match h with HRoot => [] | _ => n_pre (x_id x) end.
Definition post_piece {DG : dangles} (x : context) : list ustr :=
  if dangle (x_id x) then [] else n_post (x_id x).
Definition punc_piece {DG : dangles} (x : context) : list ustr :=
  match x_punc x with Some p => punct_piece p | None => [] end.
Definition end_piece {DG : dangles} (h : handling) (x : context) : list ustr :=
  match h with
  | HPunc => post_piece x ++ punc_piece x
  | HAttached => punc_piece x ++ post_piece x
  | HPlain | HBracket => post_piece x
  | HBracketNoPost | HRoot => []
  end.
Fixpoint pieces {DG : dangles} (t : dt) : list ustr :=
  match t with
  | TTxt s => [s]
  | TLeaf _ | TEmptyLine | TPanic _ => []
  | TConcat l => flat_map pieces l
  | TIndent x | TDedent x | TGroup x => pieces x
  | TIntersperse l sep => joined (str_piece sep) (map pieces l)
  | TSurround l sep o c => str_piece o ++ joined (str_piece sep) (map pieces l) ++ str_piece c
  | TMembers ms => flat_map (fun m : dt * bool => let (x, _) := m in pieces x) ms
  | TSurroundMembers ms o c => [o] ++ flat_map (fun m : dt * bool => let (x, _) := m in pieces x) ms ++ [c]
  | TNode h x body tail =>
      pre_piece h x ++ node_piece h x (flat_map pieces body) ++ end_piece h x ++ flat_map pieces tail
  | TPunct p => punct_piece p
  end.

Definition bucket_empty (bk : bucket) : Prop := pre bk = [] /\ post bk = [] /\ dangling bk = [].

Lemma solid_words s w : solid (words (Text s w)) = solid [s].
Proof.
  simpl. destruct (ustr_eqb s [c_sp]) eqn:E; [|reflexivity].
  destruct s as [|c [|c' s]]; simpl in E; try discriminate.
  - rewrite andb_true_r in E. apply N.eqb_eq in E. subst c. reflexivity.
  - rewrite andb_false_r in E. discriminate.
Qed.
Lemma solid_txt s : solid (words (txt s)) = solid [s].
Proof. apply solid_words. Qed.
Lemma words_leaf l : words (leaf_doc l) = [].
Proof. destruct l; reflexivity. Qed.
Lemma solid_ins i : solid (flat_map words (ins_docs (tins_ins i))) = solid (str_piece i).
Proof.
  destruct i as [p s q]. unfold ins_docs, tins_ins, str_piece. simpl.
  rewrite !flat_map_app, !solid_app.
  assert (Hl : forall o, solid (flat_map words (opt_list (fun d => d) (option_map leaf_doc o))) = []).
  { intros [l|]; simpl; [rewrite words_leaf|]; reflexivity. }
  rewrite !Hl. destruct s as [s|]; simpl; rewrite ?app_nil_r; [apply solid_txt|reflexivity].
Qed.

Lemma mapM_forall2 {A B} (P : B -> A -> Prop) (f : A -> M B) l ys w :
  Forall (fun x => forall y v, f x = Ok (y, v) -> P y x) l ->
  mapM f l = Ok (ys, w) -> Forall2 P ys l.
Proof.
  revert ys w. induction l as [|x l IH]; intros ys w HF H; cbn [mapM] in H.
  - apply ret_ok in H as [-> _]. constructor.
  - apply mbind_ok in H as (y & w1 & w2 & H1 & H2 & _). apply mbind_ok in H2 as (ys' & w3 & w4 & H3 & H4 & _).
    apply ret_ok in H4 as [-> _]. inversion HF as [|? ? Hx Hl]; subst. constructor; eauto.
Qed.
(* the results of [mapM], with what each step marks *)
Lemma mapM_steps {A B} (f : A -> M B) l ys w : mapM f l = Ok (ys, w) ->
  exists rs : list (B * list comment * A), ys = map (fun r => fst (fst r)) rs /\ w = flat_map (fun r => snd (fst r)) rs /\
    l = map snd rs /\ Forall (fun r => f (snd r) = Ok (fst r)) rs.
Proof.
  revert ys w. induction l as [|x l IH]; intros ys w H; cbn [mapM] in H.
  - apply ret_ok in H as [-> ->]. exists []. auto.
  - apply mbind_ok in H as (y & w1 & w2 & H1 & H2 & ->). apply mbind_ok in H2 as (ys' & w3 & w4 & H3 & H4 & ->).
    apply ret_ok in H4 as [-> ->]. destruct (IH _ _ H3) as (rs & -> & -> & -> & HF).
    exists ((y, w1, x) :: rs). cbn. rewrite app_nil_r. auto.
Qed.

(* ------------------------------------------------------------ texts and comments *)

Lemma shuffled_app {A} (a b c a' b' c' : list A) :
  shuffled a b c -> shuffled a' b' c' -> shuffled (a ++ a') (b ++ b') (c ++ c').
Proof. induction 1; cbn; intros; try constructor; auto. Qed.
Lemma shuffled_code {A} (a : list A) : shuffled a [] a.
Proof. induction a; constructor; auto. Qed.
Lemma shuffled_comments {A} (b : list A) : shuffled [] b b.
Proof. induction b; constructor; auto. Qed.
Lemma shuffled_only {A} (a c : list A) : shuffled a [] c -> a = c.
Proof.
  remember (@nil A) as b eqn:E. induction 1; try discriminate; [reflexivity|]. f_equal. auto.
Qed.
Definition comment_texts (c : comment) : list ustr := words (comment_doc c).
Definition hollow (cm : cmap) (id : N) : bool :=
  match cm_get id cm with Some bk => negb (is_nil (dangling bk)) | None => false end.
(* without the comments *)
Definition dangling_in (cm : cmap) : dangles :=
  {| loose := true; dangle := hollow cm; n_pre := fun _ => []; n_post := fun _ => []; n_in := fun _ => []; n_root := fun _ => []; p_pre := fun _ => []; p_post := fun _ => [] |}.

Section RunPieces.
  Variable cm : cmap.
  Variable b : pretty_config.
  Local Instance in_cm : dangles := dangling_in cm.
  Definition collected (c : comment) : Prop := exists id p, In c (held cm id p).
  (* [W]: the texts [P] of the code and those of the comments marked in [w] *)
  Definition mixed (w : list comment) (P W : list ustr) : Prop :=
    exists cs, incl w cs /\ Forall collected cs /\ shuffled (solid P) (solid (flat_map comment_texts cs)) (solid W).

  Lemma mixed_code P W : solid W = solid P -> mixed [] P W.
  Proof.
    intro E. exists []. split; [intros c []|]. split; [constructor|]. rewrite E. apply shuffled_code.
  Qed.
  Lemma mixed_nil : mixed [] [] [].
  Proof. apply mixed_code. reflexivity. Qed.
  Lemma mixed_comments w cs W : incl w cs -> Forall collected cs -> solid W = solid (flat_map comment_texts cs) -> mixed w [] W.
  Proof. intros I F E. exists cs. split; [exact I|]. split; [exact F|]. rewrite E. apply shuffled_comments. Qed.
  Lemma mixed_app w w' P P' W W' : mixed w P W -> mixed w' P' W' -> mixed (w ++ w') (P ++ P') (W ++ W').
  Proof.
    intros (cs & I & F & S) (cs' & I' & F' & S'). exists (cs ++ cs'). split; [apply incl_app_app; assumption|].
    split; [apply Forall_app; auto|]. rewrite flat_map_app, !solid_app. apply shuffled_app; assumption.
  Qed.
  Lemma mixed_same w P P' W W' : solid P = solid P' -> solid W = solid W' -> mixed w P W -> mixed w P' W'.
  Proof. intros E1 E2 (cs & I & F & S). exists cs. rewrite <- E1, <- E2. auto. Qed.
  (* code around *)
  Lemma mixed_before A B w P W : solid A = solid B -> mixed w P W -> mixed w (A ++ P) (B ++ W).
  Proof. intros E H. apply (mixed_app [] w); [apply mixed_code; congruence|exact H]. Qed.
  Lemma mixed_after A B w P W : solid A = solid B -> mixed w P W -> mixed w (P ++ A) (W ++ B).
  Proof. intros E H. rewrite <- (app_nil_r w). apply mixed_app; [exact H|apply mixed_code; congruence]. Qed.

  Lemma bucket_held id bk : get_comment_bucket cm id = Ok bk ->
    held cm id Leading = pre bk /\ held cm id Trailing = post bk /\ held cm id Dangling = dangling bk /\
    dangle id = negb (is_nil (dangling bk)).
  Proof.
    unfold get_comment_bucket, held, in_cm, dangling_in; cbn [dangle]; unfold hollow. destruct (cm_get id cm) as [bk'|]; intro H; [|discriminate].
    assert (bk' = bk) by (unfold must in H; simpl in H; congruence). subst. auto.
  Qed.
  Lemma bucket_collected id bk : get_comment_bucket cm id = Ok bk ->
    Forall collected (pre bk) /\ Forall collected (post bk) /\ Forall collected (dangling bk).
  Proof.
    intro H. destruct (bucket_held id bk H) as (E1 & E2 & E3 & _). rewrite <- E1, <- E2, <- E3.
    repeat split; apply Forall_forall; intros c Hc; unfold collected; eauto.
  Qed.

  Lemma one_comment_solid (front : list doc) c (back : list doc) :
    solid (flat_map words front) = [] -> solid (flat_map words back) = [] ->
    solid (flat_map words (front ++ [comment_doc c] ++ back)) = solid (comment_texts c).
  Proof.
    intros H1 H2. rewrite !flat_map_app, !solid_app, H1, H2. cbn [flat_map app]. rewrite !app_nil_r. reflexivity.
  Qed.
  Lemma post_words cs : solid (flat_map words (flat_map post_comment_docs cs)) = solid (flat_map comment_texts cs).
  Proof.
    induction cs as [|c cs IH]; [reflexivity|]. cbn [flat_map]. rewrite flat_map_app, !solid_app, IH. f_equal.
    unfold post_comment_docs. apply one_comment_solid.
    - destruct (c_leading c); [reflexivity|]. destruct (c_above c); reflexivity.
    - destruct (c_trailing c && negb (c_bracket c)); reflexivity.
  Qed.
  Lemma pre_words first cs : solid (flat_map words (pre_comments_docs first cs)) = solid (flat_map comment_texts cs).
  Proof.
    revert first. induction cs as [|c cs IH]; intro first; [reflexivity|]. cbn [flat_map pre_comments_docs].
    rewrite flat_map_app, !solid_app, IH. f_equal. unfold pre_comment_docs. apply one_comment_solid.
    - destruct (c_leading c); [reflexivity|]. destruct first; [reflexivity|]. destruct (c_above c); reflexivity.
    - destruct (c_trailing c); [reflexivity|]. destruct (is_nil cs); [|reflexivity]. destruct (c_below c); reflexivity.
  Qed.
  Lemma dangling_words cs : solid (flat_map words (flat_map dangling_comment_docs cs)) = solid (flat_map comment_texts cs).
  Proof.
    induction cs as [|c cs IH]; [reflexivity|]. cbn [flat_map]. rewrite flat_map_app, !solid_app, IH. f_equal.
    unfold dangling_comment_docs.
    match goal with |- context [?f ++ [comment_doc c]] => rewrite <- (one_comment_solid f c []) end.
    - reflexivity.
    - destruct (c_leading c); [reflexivity|]. destruct (c_above c); [reflexivity|]. destruct (c_prev c); reflexivity.
    - reflexivity.
  Qed.

  Lemma build_punct_mixed p d w : build_punct cm p = Ok (d, w) -> mixed w (punct_piece p) (words d).
  Proof.
    destruct p as [comma id]. unfold build_punct. intro H.
    apply mbind_ok in H as (bk & w1 & w2 & H1 & H2 & ->). apply lift_ok in H1 as [H1 ->].
    apply mark_ok in H2 as [-> ->]. destruct (bucket_collected _ _ H1) as (F1 & F2 & _). cbn [app].
    unfold punct_docs, concat. cbn [words]. rewrite 2 flat_map_app.
    set (P := pre bk) in *. set (Q := post bk) in *.
    assert (M : mixed (filter (fun c => negb (c_line c)) P ++ [] ++ (filter c_line P ++ Q))
                  ([] ++ punct_piece (Punct comma id) ++ [])
                  (flat_map words (flat_map post_comment_docs (filter (fun c => negb (c_line c)) P)) ++
                   flat_map words [txt (U (if comma then "," else ";"))] ++
                   flat_map words (flat_map post_comment_docs (filter c_line P ++ Q)))).
    { apply mixed_app; [|apply mixed_app].
      - eapply mixed_comments; [apply incl_refl| |apply post_words].
        rewrite Forall_forall in *. intros c Hc. apply filter_In in Hc as [Hc _]. auto.
      - apply mixed_code. destruct comma; reflexivity.
      - eapply mixed_comments; [apply incl_refl| |apply post_words].
        apply Forall_app. split; [|exact F2]. rewrite Forall_forall in *. intros c Hc. apply filter_In in Hc as [Hc _]. auto. }
    rewrite app_nil_r in M. destruct M as (cs & I & F & S). exists cs. split; [|split; assumption].
    intros c Hc. apply I. rewrite !in_app_iff in *. rewrite !filter_In. destruct (c_line c); cbn; tauto.
  Qed.
  Lemma build_punct_opt_mixed o ds w : build_punct_opt cm o = Ok (ds, w) ->
    mixed w match o with Some p => punct_piece p | None => [] end (flat_map words ds).
  Proof.
    destruct o as [p|]; simpl; intro H.
    - apply mmap_ok in H as (d & H & ->). apply build_punct_mixed in H. simpl. rewrite app_nil_r. exact H.
    - apply ret_ok in H as [-> ->]. apply mixed_nil.
  Qed.
  Lemma pre_docs_mixed id bk ds w : get_comment_bucket cm id = Ok bk -> pre_docs bk = Ok (ds, w) ->
    mixed w [] (flat_map words ds).
  Proof.
    intros Hb H. apply mark_ok in H as [-> ->]. eapply mixed_comments; [apply incl_refl|eapply bucket_collected; eauto|].
    unfold handle_pre_comments. destruct (pre bk) as [|c cs]; [reflexivity|].
    change (flat_map words [concat (pre_comments_docs true (c :: cs))]) with (flat_map words (pre_comments_docs true (c :: cs)) ++ []).
    rewrite app_nil_r. apply pre_words.
  Qed.
  Lemma post_docs_mixed id bk ds w : get_comment_bucket cm id = Ok bk -> post_docs bk = Ok (ds, w) ->
    mixed w [] (flat_map words ds).
  Proof.
    intros Hb H. unfold post_docs in H. destruct (is_nil (dangling bk)).
    - apply mark_ok in H as [-> ->]. eapply mixed_comments; [apply incl_refl|eapply bucket_collected; eauto|].
      unfold handle_post_comments. destruct (post bk) as [|c cs]; [reflexivity|].
      change (flat_map words [concat (flat_map post_comment_docs (c :: cs))]) with (flat_map words (flat_map post_comment_docs (c :: cs)) ++ []).
      rewrite app_nil_r. apply post_words.
    - apply ret_ok in H as [-> ->]. apply mixed_nil.
  Qed.
  Lemma handle_dangling_inv bk ds : handle_dangling_comments bk = Ok ds -> ds = flat_map dangling_comment_docs (dangling bk).
  Proof. unfold handle_dangling_comments. destruct (dangling bk); [discriminate|]. intro H. injection H as <-. reflexivity. Qed.
  Lemma or_dangling_mixed x bk (members : M (list doc)) ps ds w h :
    get_comment_bucket cm (x_id x) = Ok bk -> match h with HBracket | HBracketNoPost => False | _ => True end ->
    (forall ms v, members = Ok (ms, v) -> mixed v ps (flat_map words ms)) ->
    members_or_dangling bk members = Ok (ds, w) -> mixed w (node_piece h x ps) (flat_map words ds).
  Proof.
    intros Hb Hh HM H. destruct (bucket_held _ _ Hb) as (_ & _ & _ & E). unfold node_piece. rewrite E.
    unfold members_or_dangling in H. destruct (is_nil (dangling bk)) eqn:N; cbn [negb]; [auto|].
    apply mbind_ok in H as (d0 & w1 & w2 & H1 & H2 & ->). apply lift_ok in H1 as [H1 ->]. apply handle_dangling_inv in H1 as ->.
    apply mark_ok in H2 as [-> ->].
    assert (MM : mixed (dangling bk) [] (flat_map words [concat (flat_map dangling_comment_docs (dangling bk))])).
    { eapply mixed_comments; [apply incl_refl|eapply bucket_collected; eauto|].
      cbn [flat_map]. rewrite app_nil_r. unfold concat. cbn [words]. apply dangling_words. }
    destruct h; try destruct Hh; exact MM.
  Qed.
  Lemma or_bracket_mixed x bk (members : M (list doc)) ps ds w h :
    get_comment_bucket cm (x_id x) = Ok bk -> match h with HBracket | HBracketNoPost => True | _ => False end ->
    (forall ms v, members = Ok (ms, v) -> mixed v ps (flat_map words ms)) ->
    members_or_bracket b bk members = Ok (ds, w) -> mixed w (node_piece h x ps) (flat_map words ds).
  Proof.
    intros Hb Hh HM H. destruct (bucket_held _ _ Hb) as (_ & _ & _ & E). unfold node_piece. rewrite E.
    unfold members_or_bracket in H. destruct (is_nil (dangling bk)) eqn:N; cbn [negb]; [auto|].
    apply mbind_ok in H as (d0 & w1 & w2 & H1 & H2 & ->). apply lift_ok in H1 as [H1 ->].
    unfold dangling_in_bracket_surround in H1. destruct (handle_dangling_comments bk) as [ds'| |] eqn:H3; try discriminate.
    cbn [rbind] in H1. injection H1 as <-. apply handle_dangling_inv in H3 as ->.
    apply mark_ok in H2 as [-> ->].
    assert (MM : mixed (dangling bk) ([U "{"] ++ [] ++ [U "}"])
      (flat_map words [txt (U "{")] ++ flat_map words (flat_map dangling_comment_docs (dangling bk)) ++ flat_map words [txt (U "}")])).
    { apply mixed_before; [reflexivity|]. apply mixed_after; [reflexivity|].
      eapply mixed_comments; [apply incl_refl|eapply bucket_collected; eauto|apply dangling_words]. }
    destruct h; try destruct Hh; eapply mixed_same; [| |exact MM| | |exact MM]; try reflexivity;
      unfold concat, nl, indent; cbn [flat_map words app]; rewrite ?app_nil_r; reflexivity.
  Qed.
  Lemma build_node_mixed h x (members : M (list doc)) ps ds w :
    (forall ms v, members = Ok (ms, v) -> mixed v ps (flat_map words ms)) ->
    build_node cm b h x members = Ok (ds, w) ->
    mixed w (pre_piece h x ++ node_piece h x ps ++ end_piece h x) (flat_map words ds).
  Proof.
    intros HM H. unfold build_node in H. apply mbind_ok in H as (bk & w1 & w2 & H1 & H & ->).
    apply lift_ok in H1 as [Hb ->]. cbn [app].
    assert (HS : forall m r bs, seqM (m :: r) = Ok bs -> exists d1 v1 d2 v2, m = Ok (d1, v1) /\
      seqM r = Ok (d2, v2) /\ bs = (d1 ++ d2, v1 ++ v2)).
    { intros m r [bs bw] Hs. unfold seqM in Hs. apply mmap_ok in Hs as (dss & Hs & ->).
      cbn [mapM] in Hs. apply mbind_ok in Hs as (d1 & v1 & v2 & E1 & E2 & ->).
      apply mbind_ok in E2 as (d2 & v3 & v4 & E2 & E3 & ->). apply ret_ok in E3 as [-> ->]. rewrite app_nil_r.
      exists d1, v1, (List.concat d2), v3. split; [exact E1|]. split; [|reflexivity]. unfold seqM, mmap. rewrite E2.
      cbn [mbind ret]. rewrite app_nil_r. reflexivity. }
    assert (HN : forall bs, seqM [] = Ok bs -> bs = ([], [])).
    { intros bs Hs. unfold seqM, mmap in Hs. cbn in Hs. congruence. }
    Ltac open_seq HS HN H := repeat match type of H with
      | seqM (_ :: _) = Ok _ =>
          let E := fresh "E" in let H' := fresh "H" in
          destruct (HS _ _ _ H) as (? & ? & ? & ? & E & H' & EQ); injection EQ as -> ->; clear H; rename H' into H
      | seqM [] = Ok _ => apply HN in H; injection H as -> ->
      end.
    assert (HP : post_piece x = []) by (unfold post_piece; destruct (dangle (x_id x)); reflexivity).
    destruct h; cbn [end_piece pre_piece n_pre in_cm dangling_in]; rewrite ?HP, ?app_nil_r; cbn [app].
    - open_seq HS HN H. rewrite !flat_map_app, !app_nil_r.
      change (node_piece HPlain x ps) with ([] ++ node_piece HPlain x ps). rewrite <- (app_nil_r (node_piece HPlain x ps)).
      apply mixed_app; [eapply pre_docs_mixed; eauto|]. apply mixed_app; [|eapply post_docs_mixed; eauto].
      eapply or_dangling_mixed; eauto.
    - open_seq HS HN H. rewrite !flat_map_app, !app_nil_r.
      change (node_piece HPunc x ps) with ([] ++ node_piece HPunc x ps). rewrite <- app_assoc.
      apply mixed_app; [eapply pre_docs_mixed; eauto|]. apply mixed_app; [eapply or_dangling_mixed; eauto|].
      apply (mixed_app _ _ [] _); [eapply post_docs_mixed; eauto|]. apply build_punct_opt_mixed. assumption.
    - open_seq HS HN H. rewrite !flat_map_app, !app_nil_r.
      change (node_piece HAttached x ps) with ([] ++ node_piece HAttached x ps). rewrite <- app_assoc.
      apply mixed_app; [eapply pre_docs_mixed; eauto|]. apply mixed_app; [eapply or_dangling_mixed; eauto|].
      match goal with |- mixed _ ?p _ => rewrite <- (app_nil_r p) end.
      apply mixed_app; [apply build_punct_opt_mixed; assumption|]. eapply post_docs_mixed; eauto.
    - open_seq HS HN H. rewrite !flat_map_app, !app_nil_r.
      change (node_piece HBracket x ps) with ([] ++ node_piece HBracket x ps). rewrite <- (app_nil_r (node_piece HBracket x ps)).
      apply mixed_app; [eapply pre_docs_mixed; eauto|]. apply mixed_app; [|eapply post_docs_mixed; eauto].
      eapply or_bracket_mixed; eauto.
    - open_seq HS HN H. rewrite !flat_map_app, !app_nil_r.
      change (node_piece HBracketNoPost x ps) with ([] ++ node_piece HBracketNoPost x ps).
      apply mixed_app; [eapply pre_docs_mixed; eauto|]. eapply or_bracket_mixed; eauto.
    - destruct (bucket_held _ _ Hb) as (_ & _ & _ & E). unfold node_piece. rewrite E.
      destruct (is_nil (dangling bk)) eqn:N; cbn [negb]; [auto|]. apply ret_ok in H as [-> ->].
      eapply (mixed_comments [] (dangling bk)); [intros c []|eapply bucket_collected; eauto|].
      cbn [flat_map]. rewrite app_nil_r. unfold concat. cbn [words]. rewrite flat_map_concat_map, map_map, <- flat_map_concat_map.
      reflexivity.
  Qed.

  (* lists *)
  Definition step_mixed (r : doc * list comment * dt) : Prop := mixed (snd (fst r)) (pieces (snd r)) (words (fst (fst r))).
  Lemma mixed_flat rs : Forall step_mixed rs ->
    mixed (flat_map (fun r => snd (fst r)) rs) (flat_map pieces (map snd rs)) (flat_map words (map (fun r => fst (fst r)) rs)).
  Proof. induction 1 as [|r rs H HF IH]; [apply mixed_nil|]. cbn. apply mixed_app; assumption. Qed.
  Lemma mixed_intersperse rs sep : Forall step_mixed rs ->
    mixed (flat_map (fun r => snd (fst r)) rs) (joined (str_piece sep) (map pieces (map snd rs)))
      (words (intersperse (map (fun r => fst (fst r)) rs) (tins_ins sep))).
  Proof.
    intro HF. destruct HF as [|r rs H HF]; [apply mixed_nil|].
    unfold intersperse, concat. cbn [words flat_map map joined]. apply mixed_app; [exact H|]. clear H.
    induction HF as [|r' rs H' HF IH]; [apply mixed_nil|]. cbn [intersperse_tail flat_map map].
    rewrite !flat_map_app. cbn [flat_map]. rewrite <- app_assoc. apply mixed_before; [symmetry; apply solid_ins|].
    apply mixed_app; assumption.
  Qed.
  Lemma mixed_surround rs sep o c d : Forall step_mixed rs ->
    surround b (map (fun r => fst (fst r)) rs) (tins_ins sep) (tins_ins o) (tins_ins c) = Ok d ->
    mixed (flat_map (fun r => snd (fst r)) rs) (str_piece o ++ joined (str_piece sep) (map pieces (map snd rs)) ++ str_piece c) (words d).
  Proof.
    intros HF H.
    assert (Hl : forall o, solid (flat_map words (opt_list (fun d => d) (option_map leaf_doc o))) = []).
    { intros [l|]; simpl; [rewrite words_leaf|]; reflexivity. }
    assert (Hi : forall o, solid (flat_map words (opt_list (indent b) (option_map leaf_doc o))) = []).
    { intros [l|]; simpl; [rewrite words_leaf|]; reflexivity. }
    destruct o as [op os oq], c as [cp cs cq]. unfold surround in H. cbn in H.
    pose proof (mixed_intersperse rs sep HF) as Hs.
    destruct HF as [|r0 rs H0 HF].
    - destruct os as [os|]; [|discriminate]. destruct cs as [cs|]; [|discriminate]. injection H as <-.
      apply mixed_code. unfold concat. cbn [words flat_map map joined]. rewrite !solid_app. rewrite !solid_txt. simpl. rewrite app_nil_r. reflexivity.
    - cbn [map] in H, Hs. injection H as <-.
      assert (Ht : forall s, solid (flat_map words (opt_list txt s)) = solid (match s with Some s => [s] | None => [] end)).
      { intros [s|]; simpl; rewrite ?app_nil_r; [apply solid_txt|reflexivity]. }
      pose proof (mixed_before (str_piece {| t_pre := op; t_str := os; t_suf := oq |}) (flat_map words (opt_list txt os)) _ _ _
        (eq_sym (Ht os))
        (mixed_after (str_piece {| t_pre := cp; t_str := cs; t_suf := cq |}) (flat_map words (opt_list txt cs)) _ _ _ (eq_sym (Ht cs)) Hs)) as MM.
      eapply mixed_same; [reflexivity| |exact MM]. unfold concat, intersperse. cbn [words flat_map].
      rewrite ?flat_map_app, ?solid_app, ?Hl, ?Hi. cbn [flat_map indent words concat app].
      rewrite ?flat_map_app, ?solid_app, ?Hl, ?Hi. unfold concat. cbn [words flat_map app]. rewrite ?solid_app, ?app_nil_r. reflexivity.
  Qed.
  Definition member_mixed (r : doc * bool * list comment * (dt * bool)) : Prop :=
    mixed (snd (fst r)) (pieces (fst (snd r))) (words (fst (fst (fst r)))).
  Lemma mixed_members rs : Forall member_mixed rs ->
    mixed (flat_map (fun r => snd (fst r)) rs) (flat_map (fun m : dt * bool => let (x, _) := m in pieces x) (map snd rs))
      (words (intersperse_body_members (map (fun r => fst (fst r)) rs))).
  Proof.
    intro HF. assert (HI : mixed (flat_map (fun r => snd (fst r)) rs)
      (flat_map (fun m : dt * bool => let (x, _) := m in pieces x) (map snd rs))
      (flat_map words (intersperse_members (map (fun r => fst (fst r)) rs)))).
    { induction HF as [|[[[d tr] w] [x tr']] rs H HF IH]; [apply mixed_nil|]. cbn in H. cbn [map fst snd flat_map intersperse_members] in *.
      destruct rs as [|r rs].
      - cbn [map flat_map] in *. rewrite !app_nil_r. exact H.
      - cbn [map fst snd flat_map] in *. apply mixed_app; [exact H|].
        eapply mixed_same; [reflexivity| |exact IH]. destruct tr; reflexivity. }
    unfold intersperse_body_members. destruct rs as [|r rs]; [exact mixed_nil|]. exact HI.
  Qed.

  Lemma run_mixed t : forall d w, run cm b t = Ok (d, w) -> mixed w (pieces t) (words d).
  Proof.
    assert (HL : forall l ds w,
      Forall (fun t => forall d w, run cm b t = Ok (d, w) -> mixed w (pieces t) (words d)) l ->
      mapM (run cm b) l = Ok (ds, w) -> exists rs, ds = map (fun r => fst (fst r)) rs /\ w = flat_map (fun r => snd (fst r)) rs /\
        l = map snd rs /\ Forall step_mixed rs).
    { intros l ds w HF H. apply mapM_steps in H as (rs & H1 & H2 & H3 & H4). exists rs. repeat split; try assumption.
      rewrite Forall_forall in *. intros [[d' w'] x] Hr. apply HF; [rewrite H3; apply in_map_iff; exists (d', w', x); auto|].
      exact (H4 _ Hr). }
    assert (HLM : forall ms ds w,
      Forall (fun m : dt * bool => forall d w, run cm b (fst m) = Ok (d, w) -> mixed w (pieces (fst m)) (words d)) ms ->
      mapM (fun m : dt * bool => let (x, tr) := m in mmap (fun d => (d, tr)) (run cm b x)) ms = Ok (ds, w) ->
      exists rs, ds = map (fun r => fst (fst r)) rs /\ w = flat_map (fun r => snd (fst r)) rs /\
        ms = map snd rs /\ Forall member_mixed rs).
    { intros l ds w HF H. apply mapM_steps in H as (rs & H1 & H2 & H3 & H4). exists rs. repeat split; try assumption.
      rewrite Forall_forall in *. intros [[[d' tr'] w'] [x tr]] Hr. pose proof (H4 _ Hr) as E. cbn in E.
      apply mmap_ok in E as (d0 & E & E2). injection E2 as -> ->.
      apply (HF (x, tr)); [rewrite H3; apply in_map_iff; exists (d0, tr, w', (x, tr)); auto|]. exact E. }
    induction t using dt_nested_ind; intros d w0 E; cbn [run] in E.
    - apply ret_ok in E as [-> ->]. apply mixed_code, solid_txt.
    - apply ret_ok in E as [-> ->]. apply mixed_code. rewrite words_leaf. reflexivity.
    - apply ret_ok in E as [-> ->]. apply mixed_nil.
    - apply mmap_ok in E as (ds & E & ->). cbn [concat words pieces]. apply HL in E as (rs & -> & -> & -> & HR); [|assumption].
      apply mixed_flat. exact HR.
    - apply mmap_ok in E as (ds & E & ->). cbn. eauto.
    - apply mmap_ok in E as (ds & E & ->). cbn. eauto.
    - apply mmap_ok in E as (ds & E & ->). cbn. eauto.
    - apply mmap_ok in E as (ds & E & ->). apply HL in E as (rs & -> & -> & -> & HR); [|assumption]. apply mixed_intersperse. exact HR.
    - apply mbind_ok in E as (ds & w1 & w2 & E & E2 & ->). apply lift_ok in E2 as [E2 ->].
      apply HL in E as (rs & -> & -> & -> & HR); [|assumption]. rewrite app_nil_r. cbn [pieces]. eapply mixed_surround; eauto.
    - apply mmap_ok in E as (ds & E & ->). apply HLM in E as (rs & -> & -> & -> & HR); [|assumption]. cbn [pieces]. apply mixed_members. exact HR.
    - apply mmap_ok in E as (ds & E & ->). apply HLM in E as (rs & -> & -> & -> & HR); [|assumption]. cbn [pieces].
      pose proof (mixed_members _ HR) as Hm. unfold surround_body_members. destruct rs as [|r rs].
      + apply mixed_code. unfold concat. cbn [map words flat_map nl]. unfold nl. cbn [words app].
        rewrite !solid_app, !solid_txt. change [o; c] with ([o] ++ [c]). rewrite solid_app, app_nil_r. reflexivity.
      + pose proof (mixed_before [o] (words (txt o)) _ _ _ (eq_sym (solid_txt o)) (mixed_after [c] (words (txt c)) _ _ _ (eq_sym (solid_txt c)) Hm)) as MM.
        eapply mixed_same; [reflexivity| |exact MM].
        cbn [map]. unfold concat, nl, indent. cbn [words flat_map app]. rewrite ?app_nil_r. reflexivity.
    - apply mmap_ok in E as (ds & E & ->). unfold seqM in E. apply mmap_ok in E as (dss & E & ->).
      cbn [mapM] in E. apply mbind_ok in E as (d1 & w1 & w2 & E1 & E2 & ->).
      apply mbind_ok in E2 as (d2 & w3 & w4 & E2 & E3 & ->). apply mbind_ok in E2 as (d3 & w5 & w6 & E2 & E4 & ->).
      apply mbind_ok in E4 as (d4 & w7 & w8 & E5 & E6 & ->). apply ret_ok in E5 as [-> ->].
      apply ret_ok in E6 as [-> ->]. apply ret_ok in E3 as [-> ->].
      unfold concat. cbn [words List.concat pieces]. rewrite !app_nil_r, flat_map_app.
      match goal with |- mixed _ (?p ++ ?q ++ ?r ++ ?z) _ => replace (p ++ q ++ r ++ z) with ((p ++ q ++ r) ++ z) by (rewrite <- !app_assoc; reflexivity) end.
      apply mixed_app.
      + eapply build_node_mixed; [|exact E1]. intros ms v EM. apply HL in EM as (rs & -> & -> & -> & HR); [|assumption].
        apply mixed_flat. exact HR.
      + apply HL in E2 as (rs & -> & -> & -> & HR); [|assumption]. apply mixed_flat. exact HR.
    - apply build_punct_mixed. exact E.
    - discriminate.
  Qed.

  Hypothesis empty : forall id bk, get_comment_bucket cm id = Ok bk -> bucket_empty bk.
  Lemma run_solid t d w : run cm b t = Ok (d, w) -> solid (words d) = solid (pieces t).
  Proof.
    intro E. destruct (run_mixed t d w E) as (cs & _ & F & S). destruct cs as [|c cs].
    - symmetry. apply shuffled_only. exact S.
    - exfalso. inversion F as [|? ? (id & p & Hc) _]; subst. unfold held in Hc.
      destruct (cm_get id cm) as [bk|] eqn:Eb; [|destruct Hc].
      assert (Hb : get_comment_bucket cm id = Ok bk) by (unfold get_comment_bucket; rewrite Eb; reflexivity).
      destruct (empty id bk Hb) as (H1 & H2 & H3). destruct p; rewrite ?H1, ?H2, ?H3 in Hc; destruct Hc.
  Qed.
End RunPieces.

(* Without comments every bucket is empty. *)
Lemma no_attachments n : (forall m, In m (all_nodes n) -> n_extra m = false) -> attachments n = [].
Proof.
  induction n as [i cs IH] using node_nested_ind. intro H. cbn [attachments].
  assert (HK : forall c, In c cs -> n_extra c = false /\ attachments c = []).
  { intros c Hc. split.
    - apply H. right. apply in_flat_map. exists c. split; [exact Hc|]. destruct c; left; reflexivity.
    - rewrite Forall_forall in IH. apply IH; [exact Hc|]. intros m Hm. apply H. right. apply in_flat_map. eauto. }
  generalize (@nil node) as left. generalize (Node i cs) as nd. intro nd. clear H IH.
  induction cs as [|c cs IHc]; intro left; [reflexivity|].
  destruct (HK c (or_introl eq_refl)) as [-> ->]. destruct (code c); cbn [app]; apply IHc; intros x Hx; apply HK; right; exact Hx.
Qed.
Lemma no_comments_empty root cm : code root = true -> (forall m, In m (all_nodes root) -> n_extra m = false) ->
  collect_comments root = Ok cm -> forall id bk, get_comment_bucket cm id = Ok bk -> bucket_empty bk.
Proof.
  intros Hr Hx Hc id bk H. unfold get_comment_bucket in H. destruct (cm_get id cm) as [bk'|] eqn:E; [|discriminate].
  assert (bk' = bk) by (unfold must in H; simpl in H; congruence). subst bk'.
  assert (HH : forall p, held cm id p = []).
  { intro p. apply Permutation_nil, Permutation_sym. rewrite (collected_held root cm id p Hr Hc), no_attachments by exact Hx.
    apply Permutation_refl. }
  unfold held in HH. rewrite E in HH. split; [apply (HH Leading)|split; [apply (HH Trailing)|apply (HH Dangling)]].
Qed.
