(* TokensMarks.v: the tokens of a tree with marks for the comments.

   [mleaves] are the tokens of a tree together with marks that stand where the
   comments of a node are printed; what the marks are is left open ([dangles]).
   [mkept] is [kept] for such lists; marks may be missing in the texts if [loose]. *)
From Verif Require Import Base Doc DocBuilder Cst Comments Term SpecTree New SpecWords SpecTokens BitsProofs TokensProofs.
Local Open Scope string_scope.
Local Open Scope list_scope.

Definition mark (w : ustr) : node :=
  Node {| i_id := 0; i_kind := ""; i_named := true; i_extra := true; i_error := false; i_field := None;
          i_srow := 0; i_erow := 0; i_sbyte := 0; i_ebyte := 0; i_text := w |} [].
Definition marks (ws : list ustr) : list node := map mark ws.

Section Thin.
Context {DG : dangles}.
(* Without some of the marks. *)
Inductive thinned : list node -> list node -> Prop :=
| Thin_end : thinned [] []
| Thin_keep n a b : thinned a b -> thinned (n :: a) (n :: b)
| Thin_skip w a b : loose = true -> thinned a b -> thinned (mark w :: a) b.
Lemma thinned_refl a : thinned a a.
Proof. induction a; constructor; assumption. Qed.
Lemma thinned_app a b c d : thinned a b -> thinned c d -> thinned (a ++ c) (b ++ d).
Proof. induction 1; intro H1; cbn [app]; try constructor; auto. Qed.
Lemma thinned_same a b : thinned a b -> Forall (fun n => n_extra n = false) a -> b = a.
Proof.
  induction 1 as [|n a b H IH|w a b HL H IH]; intro F; [reflexivity| |]; inversion F as [|? ? E F']; subst.
  - f_equal. auto.
  - discriminate E.
Qed.
Lemma thinned_trans a b c : thinned a b -> thinned b c -> thinned a c.
Proof.
  intros H. revert c. induction H as [|n a b H IH|w a b HL H IH]; intros c K; [exact K| |apply Thin_skip; auto].
  inversion K; subst; [apply Thin_keep|apply Thin_skip]; auto.
Qed.
Lemma thinned_strict a b : thinned a b -> loose = false -> b = a.
Proof. induction 1 as [|n a b H IH|w a b HL H IH]; intro F; [reflexivity|f_equal; auto|congruence]. Qed.
(* Marks that may be left out. *)
Definition may (us : list ustr) : Prop := loose = true \/ us = [].
Lemma may_none : may [].
Proof. right. reflexivity. Qed.
Lemma thinned_marks us : may us -> thinned (marks us) [].
Proof. intros [H| ->]; [|constructor]. induction us; constructor; assumption. Qed.
Lemma thinned_left us a b : may us -> thinned a b -> thinned (marks us ++ a) b.
Proof. intros M H. apply (thinned_app _ [] _ b); [apply thinned_marks, M|exact H]. Qed.
Lemma thinned_right us a b : may us -> thinned a b -> thinned (a ++ marks us) b.
Proof. intros M H. rewrite <- (app_nil_r b). apply thinned_app; [exact H|apply thinned_marks, M]. Qed.

(* [kept], with some of the marks left out *)
Inductive mkept : list node -> list ustr -> Prop :=
| Mk_end : mkept [] []
| Mk_blank w ls ws : visible w = [] -> mkept ls ws -> mkept ls (w :: ws)
| Mk_nothing n ls ws : visible (n_text n) = [] -> mkept ls ws -> mkept (n :: ls) ws
| Mk_text ns v ls ws :
    woven (map n_text ns) v -> bits v = bits_of ns -> mkept ls ws -> mkept (ns ++ ls) (v :: ws)
| Mk_split v w ls ws :
    ends_word v && starts_word w = false -> mkept ls (v :: w :: ws) -> mkept ls ((v ++ w) :: ws)
| Mk_words ns vs ls ws :
    Forall (fun n => keyword n = true) ns ->
    bits_of ns = flat_map bits vs ->
    mkept ls ws -> mkept (ns ++ ls) (vs ++ ws)
| Mk_thin ls ls2 ws : thinned ls ls2 -> mkept ls2 ws -> mkept ls ws.

Lemma kept_app a p b q : mkept a p -> mkept b q -> mkept (a ++ b) (p ++ q).
Proof.
  induction 1; intro K; cbn [app]; rewrite <- ?app_assoc.
  - exact K.
  - apply Mk_blank; auto.
  - apply Mk_nothing; auto.
  - apply Mk_text; auto.
  - apply Mk_split; [assumption|]. exact (IHmkept K).
  - apply Mk_words; auto.
  - eapply Mk_thin; [|exact (IHmkept K)]. apply thinned_app; [assumption|apply thinned_refl].
Qed.
Lemma kept_app2 a1 a2 p b q : mkept (a1 ++ a2) p -> mkept b q -> mkept (a1 ++ a2 ++ b) (p ++ q).
Proof. intros. rewrite app_assoc. apply kept_app; assumption. Qed.
Lemma kept_app0 p b q : mkept [] p -> mkept b q -> mkept b (p ++ q).
Proof. apply (kept_app []). Qed.
Lemma kept_blanks q ls ws : solid q = [] -> mkept ls ws -> mkept ls (q ++ ws).
Proof.
  induction q as [|w q IH]; intros H K; [exact K|]. unfold solid in H. simpl in H.
  destruct (visible w) eqn:E; simpl in H; [|discriminate]. simpl. apply Mk_blank; auto.
Qed.
Lemma kept_nothings ns ls ws : visible (flat_map n_text ns) = [] -> mkept ls ws -> mkept (ns ++ ls) ws.
Proof.
  induction ns as [|n ns IH]; intros H K; [exact K|]. cbn [flat_map] in H. rewrite visible_app in H.
  apply app_eq_nil in H as [H1 H2]. cbn [app]. apply Mk_nothing; auto.
Qed.
Lemma kept_solid ls ps : mkept ls ps -> forall qs, solid qs = solid ps -> mkept ls qs.
Proof.
  induction 1 as [|w ls ws Hw K IH|m ls ws Hw K IH|ns v ls ws Hv Hb K IH|v w ls ws Hvw K IH|ns vs ls ws Hn He K IH|ls ls2 ws T K IH]; intros qs E.
  - rewrite <- (app_nil_r qs). apply kept_blanks; [exact E|constructor].
  - apply IH. rewrite E. change (w :: ws) with ([w] ++ ws). rewrite solid_app, solid_blank; auto.
  - apply Mk_nothing; [exact Hw|]. apply IH; exact E.
  - change (v :: ws) with ([v] ++ ws) in E. rewrite solid_app in E.
    destruct (visible v) as [|c cs] eqn:Ev.
    + rewrite solid_blank in E by exact Ev. apply kept_nothings; [|apply IH; exact E].
      rewrite flat_map_concat_map, <- (woven_visible _ _ Hv). exact Ev.
    + assert (Es : solid [v] = [v]) by (unfold solid; simpl; rewrite Ev; reflexivity).
      rewrite Es in E. apply solid_split in E as (q1 & q2 & -> & H1 & H2).
      assert (Hq : mkept ns q1).
      { clear - H1 Ev Hv Hb. induction q1 as [|w q IH]; [discriminate|]. unfold solid in H1. simpl in H1.
        destruct (negb (is_nil (visible w))) eqn:E.
        - injection H1 as -> H1. rewrite <- (app_nil_r ns). apply Mk_text; [exact Hv|exact Hb|].
          rewrite <- (app_nil_r q). apply kept_blanks; [exact H1|constructor].
        - apply Mk_blank; [destruct (visible w); [reflexivity|discriminate]|]. apply IH, H1. }
      apply kept_app; auto.
  - destruct (visible (v ++ w)) as [|c cs] eqn:Ev.
    + apply IH. rewrite E. rewrite visible_app in Ev. apply app_eq_nil in Ev as [E1 E2].
      change ((v ++ w) :: ws) with ([v ++ w] ++ ws). change (v :: w :: ws) with ([v] ++ [w] ++ ws).
      rewrite !solid_app, !solid_blank; auto. rewrite visible_app, E1. exact E2.
    + change ((v ++ w) :: ws) with ([v ++ w] ++ ws) in E. rewrite solid_app in E.
      assert (Es : solid [v ++ w] = [v ++ w]) by (unfold solid; simpl; rewrite Ev; reflexivity).
      rewrite Es in E. apply solid_split in E as (q1 & q2 & -> & H1 & H2).
      assert (Hq : exists a b, q1 = a ++ [v ++ w] ++ b /\ solid a = [] /\ solid b = []).
      { clear - H1. induction q1 as [|x q IH]; [discriminate|]. unfold solid in H1. simpl in H1.
        destruct (negb (is_nil (visible x))) eqn:E.
        - injection H1 as -> H1. exists [], q. auto.
        - destruct (IH H1) as (a & b & -> & Ha & Hb). exists (x :: a), b. split; [reflexivity|]. split; [|exact Hb].
          unfold solid. simpl. rewrite E. exact Ha. }
      destruct Hq as (a & b & -> & Ha & Hb). rewrite <- !app_assoc. apply kept_blanks; [exact Ha|]. cbn [app].
      apply Mk_split; [exact Hvw|]. apply IH. change (v :: w :: b ++ q2) with ([v] ++ [w] ++ b ++ q2).
      change (v :: w :: ws) with ([v] ++ [w] ++ ws). rewrite !solid_app, Hb, H2. reflexivity.
  - rewrite solid_app in E. apply solid_split in E as (q1 & q2 & -> & H1 & H2).
    apply Mk_words; [exact Hn| |auto]. rewrite He.
    rewrite <- (bits_solid q1), <- (bits_solid vs), H1. reflexivity.
  - eapply Mk_thin; [exact T|auto].
Qed.
Lemma kept_same ls ps qs : solid ps = solid qs -> mkept ls ps -> mkept ls qs.
Proof. intros E K. eapply kept_solid; [exact K|]. auto. Qed.

Lemma mkept_thin ls ws : mkept ls ws -> exists ls', thinned ls ls' /\ kept ls' ws.
Proof.
  induction 1 as [|w ls ws H K (l & T & IH)|m ls ws H K (l & T & IH)|ns v ls ws H1 H2 K (l & T & IH)|v w ls ws H K (l & T & IH)
    |ns vs ls ws H1 H2 K (l & T & IH)|ls ls2 ws T0 K (l & T & IH)].
  - exists []. split; constructor.
  - exists l. split; [exact T|]. apply Kept_blank; assumption.
  - exists (m :: l). split; [constructor; exact T|]. apply Kept_nothing; assumption.
  - exists (ns ++ l). split; [apply thinned_app; [apply thinned_refl|exact T]|]. apply Kept_text; assumption.
  - exists l. split; [exact T|]. apply Kept_split; assumption.
  - exists (ns ++ l). split; [apply thinned_app; [apply thinned_refl|exact T]|]. apply Kept_words; assumption.
  - exists l. split; [eapply thinned_trans; eassumption|exact IH].
Qed.

(* marks *)
Lemma mkept_skips us ls ws : may us -> mkept ls ws -> mkept (marks us ++ ls) ws.
Proof. intros M K. eapply Mk_thin; [apply thinned_left, thinned_refl; exact M|exact K]. Qed.
Lemma mkept_skips_end us ls ws : may us -> mkept ls ws -> mkept (ls ++ marks us) ws.
Proof.
  intros M K. rewrite <- (app_nil_r ws). apply kept_app; [exact K|]. rewrite <- (app_nil_r (marks us)). apply mkept_skips; [exact M|]. constructor.
Qed.
Lemma mkept_marks us : mkept (marks us) us.
Proof.
  induction us as [|u us IH]; [constructor|]. cbn [marks map]. apply (Mk_text [mark u] u); [apply woven_one| |exact IH].
  unfold bits_of. cbn [flat_map]. rewrite app_nil_r. reflexivity.
Qed.

(* What is printed in front of a node, behind it and in front of its child [c]. *)
Definition opening (n : node) : list ustr :=
  if is_punctuation_node n then p_pre (n_id n) else if code_token n then n_pre (n_id n) else [].
Definition closing (n : node) : list ustr :=
  if is_punctuation_node n then p_post (n_id n) else if code_token n then n_post (n_id n) else [].
(* The comments behind an accessor are printed in front of its semicolon. *)
Definition early (n c : node) : bool := has_kind "accessor_declaration" n && has_kind ";" c.
(* The comments in front of a FOR clause are printed behind the word FOR. *)
Definition late (n c : node) : bool := has_kind "for_clause" n && n_named c.
Definition ahead (n c : node) : list ustr :=
  (if late n c then opening n else []) ++
  (if dangle (n_id n) && has_kind "}" c then n_in (n_id n) else []) ++ (if early n c then closing n else []).
Definition front (n : node) : list ustr := if existsb (late n) (code_children n) then [] else opening n.
Definition behind (n : node) : list ustr := if existsb (early n) (code_children n) then [] else closing n.
Fixpoint mleaves (n : node) : list node :=
  if n_extra n then []
  else marks (front n) ++
       match n with
       | Node _ [] => [n]
       | Node _ cs => flat_map (fun c => if n_extra c || spare n c then [] else marks (ahead n c) ++ mleaves c) cs
       end ++ marks (behind n).
Definition inner (n : node) : list node :=
  match children n with
  | [] => [n]
  | _ => flat_map (fun c => marks (ahead n c) ++ mleaves c) (code_children n)
  end.
Lemma mleaves_inner n : n_extra n = false -> mleaves n = marks (front n) ++ inner n ++ marks (behind n).
Proof.
  intro Hx. destruct n as [i [|c cs]]; cbn [mleaves]; rewrite Hx; [reflexivity|]. f_equal. f_equal.
  unfold inner, code_children. cbn [children].
  change (flat_map (fun x => if n_extra x || spare (Node i (c :: cs)) x then [] else marks (ahead (Node i (c :: cs)) x) ++ mleaves x) (c :: cs) =
    flat_map (fun x => marks (ahead (Node i (c :: cs)) x) ++ mleaves x) (filter (fun x => negb (n_extra x || spare (Node i (c :: cs)) x)) (c :: cs))).
  generalize (Node i (c :: cs)). intro n. clear. induction (c :: cs) as [|x l IH]; [reflexivity|].
  cbn [filter flat_map]. rewrite IH. destruct (n_extra x || spare n x); reflexivity.
Qed.
Lemma mleaves_leaf n : n_extra n = false -> children n = [] -> mleaves n = marks (opening n) ++ [n] ++ marks (closing n).
Proof.
  intros Hx H. rewrite mleaves_inner by exact Hx. unfold inner, behind, front, code_children. rewrite H. reflexivity.
Qed.
(* What is printed without its comments. *)
Definition quiet (n : node) : Prop := may (opening n) /\ may (closing n).
Definition bare (n : node) : Prop := loose = true \/ mleaves n = leaves n.
Lemma front_may n : may (opening n) -> may (front n).
Proof. unfold front. destruct (existsb _ _); [intros _; apply may_none|auto]. Qed.
Lemma behind_may n : may (closing n) -> may (behind n).
Proof. unfold behind. destruct (existsb _ _); [intros _; apply may_none|auto]. Qed.
(* Without its marks this is the list of tokens. *)
Lemma thinned_kids n l : loose = true -> (forall x, In x l -> thinned (mleaves x) (leaves x)) ->
  thinned (flat_map (fun x => marks (ahead n x) ++ mleaves x) l) (flat_map leaves l).
Proof.
  intros HL HI. induction l as [|x l IHl]; [constructor|]. cbn [flat_map].
  apply thinned_app; [apply thinned_left; [left; exact HL|apply HI; left; reflexivity]|].
  apply IHl. intros y Hy. apply HI. right. exact Hy.
Qed.
Lemma thinned_loose n : loose = true -> thinned (mleaves n) (leaves n).
Proof.
  intro HL. induction n as [i cs IH] using node_nested_ind. destruct (n_extra (Node i cs)) eqn:Hx.
  { destruct cs; cbn [mleaves leaves]; rewrite Hx; constructor. }
  rewrite mleaves_inner by exact Hx. apply thinned_left; [left; exact HL|]. apply thinned_right; [left; exact HL|].
  destruct cs as [|c cs]; [rewrite leaves_leaf by (first [exact Hx|reflexivity]); apply thinned_refl|].
  rewrite leaves_kids by (first [exact Hx|discriminate]). unfold inner. cbn [children]. apply thinned_kids; [exact HL|].
  intros x H. rewrite Forall_forall in IH. apply IH. unfold code_children in H. apply filter_In in H. exact (proj1 H).
Qed.
Lemma thinned_leaves n : bare n -> thinned (mleaves n) (leaves n).
Proof. intros [H|H]; [apply thinned_loose, H|rewrite H; apply thinned_refl]. Qed.
Lemma thinned_inner n : n_extra n = false -> loose = true \/ inner n = leaves n -> thinned (inner n) (leaves n).
Proof.
  intros Hx [HL|H]; [|rewrite H; apply thinned_refl].
  destruct n as [i [|c cs]]; [rewrite leaves_leaf by (first [exact Hx|reflexivity]); apply thinned_refl|].
  rewrite leaves_kids by (first [exact Hx|discriminate]). unfold inner. cbn [children]. apply thinned_kids; [exact HL|].
  intros x _. apply thinned_loose, HL.
Qed.
Lemma mkept_tokens n ls ws : bare n -> mkept (leaves n ++ ls) ws -> mkept (mleaves n ++ ls) ws.
Proof. intro B. apply Mk_thin. apply thinned_app; [apply thinned_leaves, B|apply thinned_refl]. Qed.
Lemma mkept_tokens_all l ls ws : Forall bare l -> mkept (flat_map leaves l ++ ls) ws -> mkept (flat_map mleaves l ++ ls) ws.
Proof.
  intro HB. apply Mk_thin. apply thinned_app; [|apply thinned_refl]. induction HB as [|x l B HB IH]; [constructor|].
  cbn [flat_map]. apply thinned_app; [apply thinned_leaves, B|exact IH].
Qed.
(* No comments at all. *)
Lemma mleaves_none n : (forall m, In m (all_nodes n) -> opening m = [] /\ closing m = [] /\ (dangle (n_id m) = true -> n_in (n_id m) = [])) ->
  mleaves n = leaves n.
Proof.
  induction n as [i cs IH] using node_nested_ind. intro H. destruct (n_extra (Node i cs)) eqn:Hx.
  { destruct cs; cbn [mleaves leaves]; rewrite Hx; reflexivity. }
  destruct (H _ (or_introl eq_refl)) as (O & C & D).
  rewrite mleaves_inner by exact Hx. unfold front, behind. rewrite O, C.
  replace (if existsb (late (Node i cs)) _ then [] else []) with (@nil ustr) by (destruct (existsb _ _); reflexivity).
  replace (if existsb (early (Node i cs)) _ then [] else []) with (@nil ustr) by (destruct (existsb _ _); reflexivity).
  cbn [marks map app]. rewrite app_nil_r.
  destruct cs as [|c cs]; [rewrite leaves_leaf by (first [exact Hx|reflexivity]); reflexivity|].
  rewrite leaves_kids by (first [exact Hx|discriminate]). unfold inner. cbn [children].
  assert (HC : forall x, In x (code_children (Node i (c :: cs))) -> In x (c :: cs)) by (intros x Hx'; apply filter_In in Hx'; apply Hx').
  revert HC. generalize (code_children (Node i (c :: cs))). intros l HC. rewrite Forall_forall in IH. cbn [all_nodes] in H.
  induction l as [|x l IHl]; [reflexivity|]. cbn [flat_map]. rewrite IHl by (intros y Hy; apply HC; right; exact Hy).
  rewrite IH; [|apply HC; left; reflexivity|].
  - unfold ahead. rewrite O, C. replace (if late _ x then [] else []) with (@nil ustr) by (destruct (late _ _); reflexivity).
    replace (if early _ x then [] else []) with (@nil ustr) by (destruct (early _ _); reflexivity).
    destruct (dangle _) eqn:E; [rewrite (D eq_refl)|]; [destruct (has_kind _ _)|]; reflexivity.
  - intros m Hm. apply H. right. apply in_flat_map. exists x. split; [apply HC; left; reflexivity|exact Hm].
Qed.
Lemma leaves_code n : Forall (fun m => n_extra m = false) (leaves n).
Proof.
  induction n as [i cs IH] using node_nested_ind. destruct (n_extra (Node i cs)) eqn:Hx; [rewrite leaves_extra by exact Hx; constructor|].
  destruct cs as [|c cs]; [rewrite leaves_leaf by (first [exact Hx|reflexivity]); constructor; [exact Hx|constructor]|].
  rewrite leaves_kids by (first [exact Hx|discriminate]). apply Forall_forall. intros m Hm. apply in_flat_map in Hm as (x & Hx' & Hm).
  rewrite Forall_forall in IH. unfold code_children in Hx'. apply filter_In in Hx' as [Hx' _].
  specialize (IH x Hx'). rewrite Forall_forall in IH. apply IH, Hm.
Qed.
Lemma mkept_plain n ws : mleaves n = leaves n -> mkept (mleaves n) ws -> kept (leaves n) ws.
Proof.
  intros E K. rewrite E in K. apply mkept_thin in K as (ls & T & K). rewrite (thinned_same _ _ T (leaves_code n)) in K. exact K.
Qed.
End Thin.
