(* SamplesArrange.v: decision procedures for the conditions of SpecArrange.v, and
   sources for the examples of PropertiesArrange.v. *)
From Verif Require Import Base Cst Comments SpecTree SpecOrder SpecTokens SpecArrange OrderProofs TokensProofs Trees Samples SamplesTokens.
Local Open Scope string_scope.
Local Open Scope list_scope.

Definition visible_commentsb (root : node) : bool :=
  forallb (fun n => if n_extra n then starts_with (U "//") (n_text n) || starts_with (U "/*") (n_text n) else true) (all_nodes root).
Lemma visible_commentsb_ok root : visible_commentsb root = true -> visible_comments root.
Proof.
  intros H n Hn Hx. apply (proj1 (forallb_forall _ _) H) in Hn. rewrite Hx in Hn. apply Bool.orb_true_iff, Hn.
Qed.

Definition nothing_at (root n : node) : bool :=
  is_nil (comments_at root (n_id n) Leading) && is_nil (comments_at root (n_id n) Trailing).
Lemma nothing_at_ok root n : nothing_at root n = true -> no_comments_at root n.
Proof.
  unfold nothing_at. intro H. apply andb_prop in H as [H1 H2]. split.
  - destruct (comments_at root (n_id n) Leading); [reflexivity|discriminate].
  - destruct (comments_at root (n_id n) Trailing); [reflexivity|discriminate].
Qed.
Definition simple_at (root n : node) : bool :=
  if has_kind "with_type" n then nothing_at root n
  else if has_kind "sobject_return" n
  then forallb (fun c => if has_kind "selected_fields" c then nothing_at root c else true) (children n)
  else if has_kind "for_statement" n
  then forallb (fun c => if has_kind ";" c then nothing_at root c else true) (children n)
  else true.
Definition simple_placesb (root : node) : bool := forallb (simple_at root) (all_nodes root).
Lemma simple_placesb_ok root : simple_placesb root = true -> simple_places root.
Proof.
  intros H n Hn Hx. apply (proj1 (forallb_forall _ _) H) in Hn. unfold simple_at, has_kind in Hn. split; [|split].
  - intro K. rewrite K in Hn. apply nothing_at_ok. exact Hn.
  - intros K c Hc Kc. rewrite K in Hn. apply (proj1 (forallb_forall _ _) Hn) in Hc. rewrite Kc in Hc. apply nothing_at_ok. exact Hc.
  - intros (K & _) c Hc Kc. rewrite K in Hn. apply (proj1 (forallb_forall _ _) Hn) in Hc. rewrite Kc in Hc. apply nothing_at_ok. exact Hc.
Qed.

Fixpoint lines_last (l : list node) : bool :=
  match l with
  | [] => true
  | c :: r => if line_comment c then forallb line_comment r else lines_last r
  end.
Lemma lines_last_ok l : lines_last l = true ->
  exists a b, l = a ++ b /\ Forall (fun c => line_comment c = false) a /\ Forall (fun c => line_comment c = true) b.
Proof.
  induction l as [|c r IH]; intro H; [exists [], []; repeat constructor|]. cbn [lines_last] in H. destruct (line_comment c) eqn:E.
  - exists [], (c :: r). split; [reflexivity|]. split; [constructor|]. constructor; [exact E|]. apply Forall_forall, forallb_forall, H.
  - destruct (IH H) as (a & b & -> & Fa & Fb). exists (c :: a), b. split; [reflexivity|]. split; [constructor; assumption|exact Fb].
Qed.
Definition ordered_at (root n : node) : bool :=
  (if separator n then lines_last (comments_at root (n_id n) Leading) else true) &&
  (if has_kind "accessor_declaration" n
   then if is_nil (comments_at root (n_id n) Trailing) then true
        else forallb (fun c => if has_kind ";" c then nothing_at root c else true) (children n)
   else true).
Definition ordered_placesb (root : node) : bool := orderly_b root && forallb (ordered_at root) (all_nodes root).
Lemma ordered_placesb_ok root : ordered_placesb root = true -> ordered_places root.
Proof.
  intro H. apply andb_prop in H as [H1 H2]. split; [apply orderly_sound; exact H1|]. split.
  - intros s Hs E. apply (proj1 (forallb_forall _ _) H2) in Hs. apply andb_prop in Hs as [Hs _]. rewrite E in Hs. apply lines_last_ok, Hs.
  - intros n c Hn K Hc Kc. apply (proj1 (forallb_forall _ _) H2) in Hn. apply andb_prop in Hn as [_ Hn]. unfold has_kind in Hn at 1. rewrite K in Hn. cbn [String.eqb] in Hn.
    change ("accessor_declaration" =? "accessor_declaration")%string with true in Hn. cbv iota in Hn.
    destruct (comments_at root (n_id n) Trailing); [left; reflexivity|right]. cbn [is_nil] in Hn.
    apply (proj1 (forallb_forall _ _) Hn) in Hc. unfold has_kind in Hc. rewrite Kc in Hc. apply nothing_at_ok. exact Hc.
Qed.

(* class Foo { Integer x { get /* a */ ; /* b */ } } *)
Definition sample_accessor : node :=
  tree (cls [br "field_declaration"
    [type_ "Integer"; brf "declarator" "variable_declarator" [tokf "name" "identifier" "x"];
     br "accessor_list" [an "{"; br "accessor_declaration" [anf "accessor" "get"; bcom "/* a */"; an ";"]; bcom "/* b */"; an "}"]]]).

(* A test that finds texts in turn whenever they are there. *)
Fixpoint strip (t s : ustr) : option ustr :=
  match t, s with
  | [], _ => Some s
  | a :: t', b :: s' => if N.eqb a b then strip t' s' else None
  | _, [] => None
  end.
Fixpoint after_first (t s : ustr) : option ustr :=
  match strip t s with
  | Some r => Some r
  | None => match s with [] => None | _ :: s' => after_first t s' end
  end.
Fixpoint in_turnb (ts : list ustr) (s : ustr) : bool :=
  match ts with
  | [] => true
  | t :: ts' => match after_first t s with Some r => in_turnb ts' r | None => false end
  end.
Lemma strip_app t s : strip t (t ++ s) = Some s.
Proof. induction t as [|a t IH]; [reflexivity|]. cbn. rewrite N.eqb_refl. exact IH. Qed.
Lemma strip_eq t : forall s r, strip t s = Some r -> s = t ++ r.
Proof.
  induction t as [|a t IH]; intros s r H; [injection H as ->; reflexivity|]. destruct s as [|b s]; [discriminate|]. cbn in H.
  destruct (N.eqb a b) eqn:E; [|discriminate]. apply N.eqb_eq in E. subst. cbn. f_equal. apply IH, H.
Qed.
Lemma after_first_ok b t s : exists c, after_first t (b ++ t ++ s) = Some (c ++ s).
Proof.
  induction b as [|x b IH].
  - exists []. cbn [app]. destruct (t ++ s) eqn:E; cbn [after_first]; rewrite <- E, strip_app; reflexivity.
  - cbn [app after_first]. destruct (strip t (x :: b ++ t ++ s)) as [r|] eqn:E; [|exact IH]. apply strip_eq in E.
    change (x :: b ++ t ++ s) with ((x :: b) ++ t ++ s) in E. rewrite app_assoc in E.
    exists (skipn (List.length t) ((x :: b) ++ t)). f_equal.
    apply (f_equal (skipn (List.length t))) in E. rewrite (skipn_app _ t r), skipn_all, Nat.sub_diag in E.
    rewrite (skipn_app (List.length t) ((x :: b) ++ t) s) in E.
    replace (List.length t - List.length ((x :: b) ++ t))%nat with 0%nat in E by (rewrite app_length; lia). symmetry. exact E.
Qed.
Lemma in_turn_more c ts s : in_turn ts s -> in_turn ts (c ++ s).
Proof. intro H. destruct H as [|b t ts s H]; [constructor|]. rewrite app_assoc. constructor. exact H. Qed.
Lemma in_turnb_complete ts : forall s, in_turn ts s -> in_turnb ts s = true.
Proof.
  induction ts as [|t ts IH]; intros s H; [reflexivity|]. inversion H as [|b t' ts' s' H']; subst.
  destruct (after_first_ok b t s') as (c & E). cbn [in_turnb]. rewrite E. apply IH, in_turn_more, H'.
Qed.
