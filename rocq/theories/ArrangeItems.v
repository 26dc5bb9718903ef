(* ArrangeItems.v: the tokens of a tree together with its comments, each comment
   where it is printed. *)
From Coq Require Import Permutation.
From Verif Require Import Base Doc DocBuilder Cst Comments Term SpecTree New SpecComments SpecSigns SpecWords SpecTokens SpecOrder SpecArrange
  CollectProofs CollectProofs2 BitsProofs TokensProofs TokensMarks TokensProofs2 TokensComments ArrangeRun.
Local Open Scope string_scope.
Local Open Scope list_scope.

Section Items.
Variable at_ : N -> place -> list node.      (* the comments at each place *)
Definition ihollow (n : node) : bool := negb (is_nil (at_ (n_id n) Dangling)).
Definition iopening (n : node) : list node :=
  if is_punctuation_node n then filter (fun c => negb (line_comment c)) (at_ (n_id n) Leading)
  else if code_token n then at_ (n_id n) Leading else [].
Definition iclosing (n : node) : list node :=
  if is_punctuation_node n then filter line_comment (at_ (n_id n) Leading) ++ at_ (n_id n) Trailing
  else if code_token n then at_ (n_id n) Trailing else [].
Definition iahead (n c : node) : list node :=
  (if late n c then iopening n else []) ++
  (if ihollow n && has_kind "}" c then at_ (n_id n) Dangling else []) ++ (if early n c then iclosing n else []).
Definition ifront (n : node) : list node := if existsb (late n) (code_children n) then [] else iopening n.
Definition ibehind (n : node) : list node := if existsb (early n) (code_children n) then [] else iclosing n.
Fixpoint items (n : node) : list node :=
  if n_extra n then []
  else ifront n ++
       match n with
       | Node _ [] => [n]
       | Node _ cs => flat_map (fun c => if n_extra c || spare n c then [] else iahead n c ++ items c) cs
       end ++ ibehind n.
Definition iinner (n : node) : list node :=
  match children n with
  | [] => [n]
  | _ => flat_map (fun c => iahead n c ++ items c) (code_children n)
  end.
Lemma items_inner n : n_extra n = false -> items n = ifront n ++ iinner n ++ ibehind n.
Proof.
  intro Hx. destruct n as [i [|c cs]]; cbn [items]; rewrite Hx; [reflexivity|]. f_equal. f_equal.
  unfold iinner, code_children. cbn [children].
  change (flat_map (fun x => if n_extra x || spare (Node i (c :: cs)) x then [] else iahead (Node i (c :: cs)) x ++ items x) (c :: cs) =
    flat_map (fun x => iahead (Node i (c :: cs)) x ++ items x) (filter (fun x => negb (n_extra x || spare (Node i (c :: cs)) x)) (c :: cs))).
  generalize (Node i (c :: cs)). intro n. clear. induction (c :: cs) as [|x l IH]; [reflexivity|].
  cbn [filter flat_map]. rewrite IH. destruct (n_extra x || spare n x); reflexivity.
Qed.

Hypothesis at_extra : forall id p, Forall (fun c => n_extra c = true) (at_ id p).
Definition comment_list (l : list node) : Prop := Forall (fun c => n_extra c = true) l.
Lemma list_filter p l : comment_list l -> comment_list (filter p l).
Proof. unfold comment_list. rewrite !Forall_forall. intros H c Hc. apply filter_In in Hc as [Hc _]. auto. Qed.
Lemma list_app a b : comment_list a -> comment_list b -> comment_list (a ++ b).
Proof. intros. apply Forall_app. auto. Qed.
Lemma opening_comments n : comment_list (iopening n).
Proof. unfold iopening. destruct (is_punctuation_node n); [apply list_filter, at_extra|]. destruct (code_token n); [apply at_extra|constructor]. Qed.
Lemma closing_comments n : comment_list (iclosing n).
Proof.
  unfold iclosing. destruct (is_punctuation_node n); [apply list_app; [apply list_filter|]; apply at_extra|].
  destruct (code_token n); [apply at_extra|constructor].
Qed.
Lemma ahead_comments n c : comment_list (iahead n c).
Proof.
  unfold iahead. apply list_app; [|apply list_app].
  - destruct (late n c); [apply opening_comments|constructor].
  - destruct (_ && _); [apply at_extra|constructor].
  - destruct (early n c); [apply closing_comments|constructor].
Qed.
Lemma front_comments n : comment_list (ifront n).
Proof. unfold ifront. destruct (existsb _ _); [constructor|apply opening_comments]. Qed.
Lemma behind_comments n : comment_list (ibehind n).
Proof. unfold ibehind. destruct (existsb _ _); [constructor|apply closing_comments]. Qed.

(* Without the comments these are the tokens. *)
Definition token (n : node) : bool := negb (n_extra n).
Lemma no_tokens l : comment_list l -> filter token l = [].
Proof. induction 1 as [|c l H _ IH]; [reflexivity|]. unfold token in *. cbn [filter]. rewrite H. exact IH. Qed.
Lemma items_tokens n : filter token (items n) = leaves n.
Proof.
  induction n as [i cs IH] using node_nested_ind. destruct (n_extra (Node i cs)) eqn:Hx.
  { destruct cs; cbn [items leaves]; rewrite Hx; reflexivity. }
  rewrite items_inner by exact Hx. rewrite !filter_app, (no_tokens _ (front_comments _)), (no_tokens _ (behind_comments _)), app_nil_r.
  cbn [app]. destruct cs as [|c cs].
  { rewrite leaves_leaf by (first [exact Hx|reflexivity]). unfold iinner, token. cbn [children filter]. rewrite Hx. reflexivity. }
  rewrite leaves_kids by (first [exact Hx|discriminate]). unfold iinner. cbn [children].
  assert (HC : forall x, In x (code_children (Node i (c :: cs))) -> In x (c :: cs)) by (intros x Hx'; apply filter_In in Hx'; apply Hx').
  revert HC. generalize (code_children (Node i (c :: cs))). intros l HC. rewrite Forall_forall in IH.
  induction l as [|x l IHl]; [reflexivity|]. cbn [flat_map].
  rewrite !filter_app, IHl by (intros y Hy; apply HC; right; exact Hy).
  rewrite (no_tokens _ (ahead_comments _ _)), IH by (apply HC; left; reflexivity). reflexivity.
Qed.

(* Each comment at most once. *)
Definition slot (n : node) : list node := at_ (n_id n) Leading ++ at_ (n_id n) Trailing ++ at_ (n_id n) Dangling.
Definition most {A} (p : A -> bool) (l : list A) : Prop := (List.length (filter p l) <= 1)%nat.
Definition single (n : node) : Prop :=
  most (late n) (code_children n) /\ most (early n) (code_children n) /\
  (ihollow n = true -> most (has_kind "}") (code_children n)).
Definition part (a b : list node) : Prop := exists rest, Permutation (a ++ rest) b.
Lemma part_refl a : part a a.
Proof. exists []. rewrite app_nil_r. reflexivity. Qed.
Lemma part_nil b : part [] b.
Proof. exists b. reflexivity. Qed.
Lemma part_app a b c d : part a b -> part c d -> part (a ++ c) (b ++ d).
Proof.
  intros [r P] [s Q]. exists (r ++ s). rewrite <- P, <- Q, <- !app_assoc. apply Permutation_app_head.
  rewrite !app_assoc. apply Permutation_app_tail, Permutation_app_comm.
Qed.
Lemma part_perm a a' b b' : Permutation a a' -> Permutation b b' -> part a b -> part a' b'.
Proof. intros P Q [r R]. exists r. rewrite <- P, <- Q. exact R. Qed.
Lemma part_trans a b c : part a b -> part b c -> part a c.
Proof. intros [r P] [s Q]. exists (r ++ s). rewrite app_assoc, P. exact Q. Qed.
Lemma all_comments l : comment_list l -> filter n_extra l = l.
Proof. induction 1 as [|c l H _ IH]; [reflexivity|]. cbn [filter]. rewrite H, IH. reflexivity. Qed.
Lemma flat_once (p : node -> bool) (x : list node) l : most p l -> part (flat_map (fun c => if p c then x else []) l) (if existsb p l then x else []).
Proof.
  unfold most. induction l as [|c l IH]; intro H; [apply part_refl|]. cbn [filter flat_map existsb] in *. destruct (p c).
  - cbn [orb]. cbn [List.length] in H. replace (flat_map (fun c => if p c then x else []) l) with (@nil node); [rewrite app_nil_r; apply part_refl|].
    clear - H. induction l as [|y l IH]; [reflexivity|]. cbn [filter flat_map] in *. destruct (p y); [cbn in H; lia|]. apply IH, H.
  - cbn [orb app]. auto.
Qed.
Lemma flat_map_perm {A B} (f g : A -> list B) l : Permutation (flat_map (fun x => f x ++ g x) l) (flat_map f l ++ flat_map g l).
Proof.
  induction l as [|x l IH]; [reflexivity|]. cbn [flat_map]. rewrite IH, <- !app_assoc. apply Permutation_app_head.
  rewrite !app_assoc. apply Permutation_app_tail, Permutation_app_comm.
Qed.
Lemma filter_split (p : node -> bool) l : Permutation (filter p l ++ filter (fun c => negb (p c)) l) l.
Proof.
  induction l as [|x l IH]; [reflexivity|]. cbn [filter]. destruct (p x); cbn [negb app]; [constructor; exact IH|].
  rewrite <- Permutation_middle. constructor. exact IH.
Qed.
Lemma sides_part n : part (iopening n ++ iclosing n) (at_ (n_id n) Leading ++ at_ (n_id n) Trailing).
Proof.
  unfold iopening, iclosing. destruct (is_punctuation_node n).
  - rewrite app_assoc. apply part_app; [|apply part_refl].
    eapply part_perm; [|reflexivity|apply part_refl]. rewrite <- (filter_split line_comment (at_ (n_id n) Leading)) at 1. apply Permutation_app_comm.
  - destruct (code_token n); [apply part_refl|apply part_nil].
Qed.
Lemma flat_none {A B} (p : A -> bool) (x : list B) l : existsb p l = false -> flat_map (fun c => if p c then x else []) l = [].
Proof.
  induction l as [|c l IH]; [reflexivity|]. cbn [existsb flat_map]. destruct (p c); [discriminate|]. exact IH.
Qed.
Lemma own_part n : single n ->
  part ((ifront n ++ flat_map (iahead n) (code_children n)) ++ ibehind n) (slot n).
Proof.
  intros (HL & HE & HH). set (cc := code_children n) in *.
  set (L := flat_map (fun c => if late n c then iopening n else []) cc).
  set (D := flat_map (fun c => if ihollow n && has_kind "}" c then at_ (n_id n) Dangling else []) cc).
  set (E := flat_map (fun c => if early n c then iclosing n else []) cc).
  assert (P : Permutation (flat_map (iahead n) cc) (L ++ D ++ E)).
  { unfold iahead. rewrite (flat_map_perm _ (fun c => _ ++ _)). apply Permutation_app_head. apply flat_map_perm. }
  assert (P1 : part (ifront n ++ L) (iopening n)).
  { unfold ifront, L. fold cc. pose proof (flat_once (late n) (iopening n) cc HL) as Q. destruct (existsb (late n) cc) eqn:X.
    - exact Q.
    - rewrite (flat_none _ _ _ X), app_nil_r. apply part_refl. }
  assert (P2 : part (E ++ ibehind n) (iclosing n)).
  { unfold ibehind, E. fold cc. pose proof (flat_once (early n) (iclosing n) cc HE) as Q. destruct (existsb (early n) cc) eqn:X.
    - rewrite app_nil_r. exact Q.
    - rewrite (flat_none _ _ _ X). apply part_refl. }
  assert (P3 : part D (at_ (n_id n) Dangling)).
  { unfold D. destruct (ihollow n) eqn:X.
    - pose proof (flat_once (has_kind "}") (at_ (n_id n) Dangling) cc (HH eq_refl)) as Q. cbn [andb].
      eapply part_trans; [exact Q|]. destruct (existsb _ _); [apply part_refl|apply part_nil].
    - cbn [andb]. replace (flat_map _ cc) with (@nil node); [apply part_nil|]. clear. induction cc; auto. }
  eapply part_perm; [| |exact (part_app _ _ _ _ (part_trans _ _ _ (part_app _ _ _ _ P1 P2) (sides_part n)) P3)].
  - rewrite P, <- !app_assoc. apply Permutation_app_head. apply Permutation_app_head.
    rewrite (app_assoc E). apply Permutation_sym. rewrite (app_assoc D), (Permutation_app_comm D E), <- !app_assoc.
    apply Permutation_app_head. apply Permutation_app_comm.
  - unfold slot. rewrite <- app_assoc. reflexivity.
Qed.
Lemma items_part n : (forall m, In m (all_nodes n) -> single m) -> part (filter n_extra (items n)) (flat_map slot (all_nodes n)).
Proof.
  induction n as [i cs IH] using node_nested_ind. intro H. destruct (n_extra (Node i cs)) eqn:Hx.
  { destruct cs; cbn [items]; rewrite Hx; apply part_nil. }
  rewrite items_inner by exact Hx. rewrite !filter_app, (all_comments _ (front_comments _)), (all_comments _ (behind_comments _)).
  cbn [all_nodes]. change (flat_map slot (Node i cs :: flat_map all_nodes cs)) with (slot (Node i cs) ++ flat_map slot (flat_map all_nodes cs)).
  set (K := match cs with [] => [] | _ => flat_map (fun c => filter n_extra (items c)) (code_children (Node i cs)) end).
  assert (P : Permutation (filter n_extra (iinner (Node i cs))) (flat_map (iahead (Node i cs)) (code_children (Node i cs)) ++ K)).
  { unfold iinner. destruct cs as [|c cs]; [cbn [children]; unfold code_children; cbn [filter children flat_map app K]; rewrite Hx; reflexivity|].
    cbn [children]. unfold K. rewrite <- flat_map_perm. generalize (code_children (Node i (c :: cs))). generalize (Node i (c :: cs)).
    clear - at_extra. intros n l. induction l as [|x l IHl]; [reflexivity|]. cbn [flat_map]. rewrite !filter_app, IHl, (all_comments _ (ahead_comments _ _)).
    reflexivity. }
  eapply part_perm; [|reflexivity|apply part_app; [exact (own_part _ (H _ (or_introl eq_refl)))|]].
  - rewrite P, <- !app_assoc. apply Permutation_app_head, Permutation_app_head. apply Permutation_app_comm.
  - unfold K. destruct cs as [|c cs]; [apply part_nil|].
    unfold code_children. cbn [children]. cbn [all_nodes] in H. generalize (Node i (c :: cs)) as n. intro n.
    assert (H' : forall m, In m (flat_map all_nodes (c :: cs)) -> single m) by (intros m Hm; apply H; right; exact Hm).
    clear H Hx P K. revert IH H'. generalize (c :: cs). induction l as [|x l IHl]; intros IH H'; [apply part_refl|].
    inversion IH as [|? ? H1 H2]; subst. cbn [filter flat_map] in *. rewrite flat_map_app.
    assert (Q : part (filter n_extra (items x)) (flat_map slot (all_nodes x))) by (apply H1; intros m Hm; apply H', in_or_app; left; exact Hm).
    assert (Q2 : part (flat_map (fun c => filter n_extra (items c)) (filter (fun c => negb (n_extra c || spare n c)) l)) (flat_map slot (flat_map all_nodes l)))
      by (apply IHl; [exact H2|intros m Hm; apply H', in_or_app; right; exact Hm]).
    destruct (negb (n_extra x || spare n x)); cbn [flat_map]; [apply part_app; assumption|].
    apply (part_app [] _); [apply part_nil|exact Q2].
Qed.
End Items.
