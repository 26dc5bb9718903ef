(* TextProofs3.v: the words of a printed comment, and its closing sign. *)
From Coq Require Import Lia.
From Verif Require Import Base Doc DocBuilder DocProofs Cst Comments SpecComments SpecText FormatProofs TextProofs TextProofs2.

(* ---- words ---- *)

Lemma word_runs_app_nl cur l t c : is_ws c = true -> word_runs cur (l ++ c :: t) = word_runs cur l ++ words_of t.
Proof.
  intro Hc. revert cur. induction l as [|x l IH]; intro cur; cbn.
  - rewrite Hc. destruct cur; reflexivity.
  - destruct (is_ws x); [destruct cur; cbn; rewrite IH; reflexivity|apply IH].
Qed.
Lemma words_blank p t : Forall (fun c => is_ws c = true) p -> words_of (p ++ t) = words_of t.
Proof. induction 1 as [|c p Hc _ IH]; [reflexivity|]. unfold words_of in *. cbn. rewrite Hc. exact IH. Qed.
Lemma words_trim_start s : words_of (trim_start s) = words_of s.
Proof.
  induction s as [|c s IH]; [reflexivity|]. cbn [trim_start]. destruct (is_ws c) eqn:E; [|reflexivity].
  rewrite IH. unfold words_of. cbn. rewrite E. reflexivity.
Qed.
Lemma word_runs_cons cur c t : word_runs cur (c :: t) =
  if is_ws c then match cur with [] => word_runs [] t | _ => cur :: word_runs [] t end else word_runs (cur ++ [c]) t.
Proof. reflexivity. Qed.
Lemma word_runs_blank cur s : trim_end s = [] -> word_runs cur s = match cur with [] => [] | _ => [cur] end.
Proof.
  revert cur. induction s as [|c s IH]; intros cur; [reflexivity|]. cbn.
  destruct (trim_end s); [|discriminate]. destruct (is_ws c); [|discriminate].
  intros _. destruct cur; rewrite IH by reflexivity; reflexivity.
Qed.
Lemma word_runs_trim_end cur s : word_runs cur (trim_end s) = word_runs cur s.
Proof.
  revert cur. induction s as [|c s IH]; intro cur; [reflexivity|]. cbn [trim_end].
  destruct (trim_end s) as [|y t] eqn:E.
  - destruct (is_ws c) eqn:W.
    + cbn. rewrite W. rewrite (word_runs_blank [] s E). destruct cur; reflexivity.
    + cbn. rewrite W. rewrite (word_runs_blank _ s E). destruct (cur ++ [c]) eqn:Ec; [destruct cur; discriminate|reflexivity].
  - rewrite (word_runs_cons cur c (y :: t)), (word_runs_cons cur c s), !IH. reflexivity.
Qed.
Lemma words_trim s : words_of (trim s) = words_of s.
Proof. unfold trim, words_of. rewrite word_runs_trim_end. apply words_trim_start. Qed.


Lemma word_runs_split cur s p ps : split_on c_nl s = p :: ps ->
  word_runs cur s = word_runs cur p ++ List.concat (map words_of ps).
Proof.
  revert cur p ps. induction s as [|c s IH]; intros cur p ps H.
  - injection H as <- <-. rewrite app_nil_r. reflexivity.
  - cbn in H. destruct (split_on c_nl s) as [|q qs] eqn:E; [exfalso; exact (split_ne _ E)|].
    destruct (N.eqb_spec c c_nl) as [->|Hc].
    + injection H as <- <-. cbn. rewrite (IH [] _ _ eq_refl). destruct cur; reflexivity.
    + injection H as <- <-. cbn. destruct (is_ws c).
      * rewrite (IH [] _ _ eq_refl). destruct cur; reflexivity.
      * apply IH. reflexivity.
Qed.
Lemma words_split s : words_of s = List.concat (map words_of (split_on c_nl s)).
Proof.
  destruct (split_on c_nl s) as [|p ps] eqn:E; [exfalso; exact (split_ne _ E)|].
  unfold words_of at 1. rewrite (word_runs_split [] _ _ _ E). reflexivity.
Qed.
Lemma text_words ls s : text_of_lines ls s -> words_of s = List.concat (map words_of ls).
Proof.
  induction 1 as [l|l k l' ls s H IH]; cbn [map List.concat]; [rewrite app_nil_r; reflexivity|].
  unfold words_of at 1. rewrite word_runs_app_nl by reflexivity. f_equal.
  rewrite words_blank by apply spaces_ws. exact IH.
Qed.
Lemma at_indent_text i ls : ls <> [] -> text_of_lines ls (at_indent i ls).
Proof.
  induction ls as [|l ls IH]; [congruence|]. intros _. destruct ls as [|l' ls]; [constructor|].
  change (at_indent i (l :: l' :: ls)) with (l ++ c_nl :: repeat c_sp (N.to_nat i) ++ at_indent i (l' :: ls)).
  constructor. apply IH. discriminate.
Qed.

Lemma normal_lines_ne line s : normal_lines line s <> [].
Proof.
  unfold normal_lines. destruct line; [discriminate|].
  destruct (split_on c_nl s) as [|p ps] eqn:E; [exfalso; exact (split_ne _ E)|].
  destruct (starts_with _ _); discriminate.
Qed.
Lemma normal_lines_sp s : Forall (fun l => l <> [c_sp]) (normal_lines false s).
Proof.
  unfold normal_lines. destruct (starts_with _ _).
  - unfold javadoc_lines. destruct (split_on _ _); [constructor|]. constructor; [discriminate|].
    apply javadoc_body_not_space.
  - apply Forall_forall. intros l Hl. apply in_map_iff in Hl as (x & <- & _). apply trim_not_space.
Qed.

(* A block comment on its own, printed at indentation [i]. *)
Lemma block_printed c i w : c_line c = false ->
  pretty_print (Indent i (Concat (comment_docs c))) w = at_indent i (normal_lines false (c_value c)).
Proof.
  intro H. rewrite comment_printed; rewrite H; [rewrite app_nil_r; reflexivity|apply normal_lines_sp|apply normal_lines_ne].
Qed.

Theorem block_lines c i w :
  c_line c = false -> starts_with (U "/**") (c_value c) = false ->
  pretty_print (Indent i (Concat (comment_docs c))) w = at_indent i (map trim (split_on c_nl (c_value c))).
Proof. intros H HJ. rewrite block_printed by exact H. unfold normal_lines. rewrite HJ. reflexivity. Qed.

Theorem block_words c i w :
  c_line c = false -> starts_with (U "/**") (c_value c) = false ->
  words_of (pretty_print (Indent i (Concat (comment_docs c))) w) = words_of (c_value c).
Proof.
  intros H HJ. rewrite block_lines by assumption.
  assert (Hn : map trim (split_on c_nl (c_value c)) <> []).
  { intro E. apply map_eq_nil in E. exact (split_ne _ E). }
  rewrite (text_words _ _ (at_indent_text i _ Hn)), (words_split (c_value c)), map_map.
  f_equal. apply map_ext. intro. apply words_trim.
Qed.

(* ---- reading a printed comment again ---- *)

Theorem reread c c' i w :
  c_line c = false -> starts_with (U "/*") (c_value c) = true -> trim_end (c_value c) = c_value c ->
  c_line c' = false ->
  c_value c' = trim_end (pretty_print (Indent i (Concat (comment_docs c))) w) ->
  forall i' w', pretty_print (Indent i' (Concat (comment_docs c'))) w' = pretty_print (Indent i' (Concat (comment_docs c))) w'.
Proof.
  intros H Hs Ht H' Hv i' w'. rewrite !block_printed by assumption. f_equal.
  rewrite Hv, block_printed by assumption.
  assert (HT := at_indent_text i _ (normal_lines_ne false (c_value c))).
  destruct (starts_with (U "/**") (c_value c)) eqn:EJ.
  - apply javadoc_idempotent; assumption.
  - apply block_idempotent; assumption.
Qed.

(* ---- the closing sign ---- *)

Fixpoint has_close (s : ustr) : bool :=
  match s with
  | x :: ((y :: _) as t) => ((x =? 42)%N && (y =? 47)%N) || has_close t
  | _ => false
  end.
Lemma has_close_spec s : has_close s = true <-> exists a b, s = a ++ U "*/" ++ b.
Proof.
  split.
  - induction s as [|x [|y t] IH]; [discriminate|discriminate|].
    cbn [has_close]. intro H. apply orb_true_iff in H as [H|H].
    + apply andb_true_iff in H as [Hx Hy]. apply N.eqb_eq in Hx, Hy. subst. exists [], t. reflexivity.
    + destruct (IH H) as (a & b & ->). exists (x :: a), b. reflexivity.
  - intros (a & b & ->). induction a as [|x a IH]; [reflexivity|].
    cbn [app has_close]. destruct (a ++ U "*/" ++ b) as [|y t] eqn:E; [destruct a; discriminate|].
    rewrite IH. apply orb_true_r.
Qed.
Lemma has_close_app_l a b : has_close a = true -> has_close (a ++ b) = true.
Proof.
  intro H. apply has_close_spec in H as (x & y & ->). apply has_close_spec.
  exists x, (y ++ b). rewrite <- !app_assoc. reflexivity.
Qed.
Lemma has_close_app_r a b : has_close b = true -> has_close (a ++ b) = true.
Proof.
  intro H. apply has_close_spec in H as (x & y & ->). apply has_close_spec.
  exists (a ++ x), y. rewrite <- !app_assoc. reflexivity.
Qed.
Lemma has_close_cons x y t : has_close (x :: y :: t) = ((x =? 42)%N && (y =? 47)%N) || has_close (y :: t).
Proof. reflexivity. Qed.
Lemma has_close_sep l c t : c <> 42%N -> c <> 47%N -> has_close (l ++ c :: t) = has_close l || has_close t.
Proof.
  intros H1 H2. assert (H0 : has_close (c :: t) = has_close t).
  { destruct t as [|y t]; [reflexivity|]. rewrite has_close_cons.
    destruct (N.eqb_spec c 42); [contradiction|]. reflexivity. }
  induction l as [|x l IH]; [exact H0|]. destruct l as [|y l].
  - cbn [app]. rewrite has_close_cons, H0. destruct (N.eqb_spec c 47); [contradiction|]. rewrite andb_false_r. reflexivity.
  - change ((x :: y :: l) ++ c :: t) with (x :: y :: (l ++ c :: t)). rewrite !(has_close_cons x y).
    change (y :: l ++ c :: t) with ((y :: l) ++ c :: t). rewrite IH, orb_assoc. reflexivity.
Qed.
Lemma has_close_star m : has_close (m ++ [42%N]) = has_close m.
Proof.
  induction m as [|x m IH]; [reflexivity|]. destruct m as [|y m].
  - cbn. rewrite andb_false_r. reflexivity.
  - change ((x :: y :: m) ++ [42%N]) with (x :: y :: (m ++ [42%N])). rewrite !(has_close_cons x y).
    change (y :: m ++ [42%N]) with ((y :: m) ++ [42%N]). rewrite IH. reflexivity.
Qed.

Lemma one_block_iff s : one_block_comment s <-> exists m, s = U "/*" ++ m ++ U "*/" /\ has_close m = false.
Proof.
  split; intros (m & Hs & H); exists m; (split; [exact Hs|]).
  - destruct (has_close m) eqn:E; [|reflexivity]. apply has_close_spec in E as (a & b & ->).
    specialize (H a (b ++ U "*/")). rewrite <- !app_assoc in H. specialize (H eq_refl).
    destruct b; discriminate.
  - intros a b E. destruct b as [|c b]; [reflexivity|]. exfalso.
    destruct (exists_last (l := c :: b) ltac:(discriminate)) as (b' & z & Eb). rewrite Eb in E.
    change (U "*/") with ([42] ++ [47])%N in E at 1. rewrite !app_assoc in E.
    apply app_inj_tail in E as [E _].
    assert (Hx : has_close (m ++ [42%N]) = true).
    { rewrite E. apply has_close_spec. exists a, b'. rewrite <- !app_assoc. reflexivity. }
    rewrite has_close_star in Hx. congruence.
Qed.

(* Lines of a text whose last line ends with the closing sign. *)
Fixpoint closed_lines (ls : list ustr) : Prop :=
  match ls with
  | [] => False
  | [l] => exists m, l = m ++ U "*/" /\ has_close m = false
  | l :: rest => has_close l = false /\ closed_lines rest
  end.

Lemma closed_cons l ls : ls <> [] -> closed_lines (l :: ls) = (has_close l = false /\ closed_lines ls).
Proof. destruct ls; [congruence|reflexivity]. Qed.

Lemma closed_split m : has_close m = false -> closed_lines (split_on c_nl (m ++ U "*/")).
Proof.
  intro H. remember (List.length m) as n eqn:En. revert m H En.
  induction n as [n IH] using (well_founded_induction Wf_nat.lt_wf). intros m H En.
  destruct (in_dec N.eq_dec c_nl m) as [Hi|Hi].
  - assert (exists a b, m = a ++ c_nl :: b /\ no_nl a) as (a & b & -> & Ha).
    { clear - Hi. induction m as [|x m IH]; [destruct Hi|].
      destruct (N.eq_dec x c_nl) as [->|Hx]; [exists [], m; split; [reflexivity|intros []]|].
      destruct IH as (a & b & -> & Ha); [destruct Hi; [contradiction|assumption]|].
      exists (x :: a), b. split; [reflexivity|]. intros [->|Hi']; [congruence|exact (Ha Hi')]. }
    rewrite <- app_assoc. cbn [app]. rewrite split_app by exact Ha.
    rewrite has_close_sep in H by discriminate. apply orb_false_iff in H as [H1 H2].
    rewrite closed_cons by apply split_ne. split; [exact H1|].
    eapply IH; [|exact H2|reflexivity]. subst n. rewrite app_length. cbn. lia.
  - rewrite split_line.
    + exists m. split; [reflexivity|exact H].
    + intro Hx. apply in_app_or in Hx as [Hx|Hx]; [contradiction|]. cbn in Hx. intuition discriminate.
Qed.

Lemma closed_text ls s : text_of_lines ls s -> closed_lines ls -> exists m, s = m ++ U "*/" /\ has_close m = false.
Proof.
  induction 1 as [l|l k l' ls s H IH]; intro HC; [exact HC|].
  rewrite closed_cons in HC by discriminate. destruct HC as [H1 H2].
  destruct (IH H2) as (m & -> & Hm). exists (l ++ c_nl :: repeat c_sp k ++ m). split.
  - rewrite <- !app_assoc. cbn. rewrite <- !app_assoc. reflexivity.
  - rewrite has_close_sep by discriminate. rewrite H1. cbn [orb].
    clear - Hm. induction k as [|k IHk]; [exact Hm|]. cbn [repeat app].
    change (c_sp :: repeat c_sp k ++ m) with ([] ++ c_sp :: (repeat c_sp k ++ m)).
    rewrite has_close_sep by discriminate. exact IHk.
Qed.

Definition infix (a b : ustr) : Prop := exists p q, b = p ++ a ++ q.
Lemma infix_refl a : infix a a. Proof. exists [], []. rewrite app_nil_r. reflexivity. Qed.
Lemma infix_trans a b c : infix a b -> infix b c -> infix a c.
Proof. intros (p & q & ->) (p' & q' & ->). exists (p' ++ p), (q ++ q'). rewrite <- !app_assoc. reflexivity. Qed.
Lemma infix_trim_start s : infix (trim_start s) s.
Proof.
  induction s as [|c s IH]; [apply infix_refl|]. cbn. destruct (is_ws c); [|apply infix_refl].
  destruct IH as (p & q & E). exists (c :: p), q. cbn. f_equal. exact E.
Qed.
Lemma infix_trim_end s : exists q, s = trim_end s ++ q.
Proof.
  induction s as [|c s (q & E)]; [exists []; reflexivity|]. cbn. destruct (trim_end s) eqn:E'.
  - destruct (is_ws c); [exists (c :: s); reflexivity|exists s; reflexivity].
  - exists q. cbn. f_equal. exact E.
Qed.
Lemma infix_trim s : infix (trim s) s.
Proof.
  eapply infix_trans; [|apply infix_trim_start]. destruct (infix_trim_end (trim_start s)) as (q & E).
  exists [], q. exact E.
Qed.
Lemma infix_close a b : infix a b -> has_close b = false -> has_close a = false.
Proof.
  intros (p & q & ->) H. destruct (has_close a) eqn:E; [|reflexivity].
  rewrite has_close_app_r in H; [discriminate|]. apply has_close_app_l. exact E.
Qed.
Lemma infix_without_star l : infix (without_star l) l.
Proof.
  eapply infix_trans; [|apply infix_trim]. unfold without_star. destruct (trim l) as [|c r]; [apply infix_refl|].
  destruct (c =? c_star)%N; [|apply infix_refl].
  eapply infix_trans; [apply infix_trim_start|]. exists [c], []. rewrite app_nil_r. reflexivity.
Qed.

Lemma has_close_starred x : has_close x = false -> has_close (starred x) = false.
Proof.
  intro H. unfold starred. destruct (not_empty x); [|reflexivity].
  change (U " * " ++ x) with (U " *" ++ c_sp :: x). rewrite has_close_sep by discriminate. exact H.
Qed.

Lemma trim_closed m : trim (m ++ U "*/") = trim_start m ++ U "*/".
Proof.
  unfold trim. assert (E : trim_start (m ++ U "*/") = trim_start m ++ U "*/").
  { induction m as [|c m IH]; [reflexivity|]. cbn. destruct (is_ws c); [exact IH|reflexivity]. }
  rewrite E. apply trim_end_app_tight; [discriminate|reflexivity].
Qed.
Lemma strip_suffix_of p s : p <> [] -> strip_suffix p (s ++ p) = Some s.
Proof.
  intro Hp. induction s as [|c s IH].
  - cbn [app]. destruct p; [congruence|]. cbn [strip_suffix].
    assert (E : ustr_eqb (n :: p) (n :: p) = true) by (apply ustr_eqb_eq; reflexivity). rewrite E. reflexivity.
  - cbn [app strip_suffix]. destruct (ustr_eqb (c :: s ++ p) p) eqn:E.
    + apply ustr_eqb_eq in E. apply (f_equal (@List.length N)) in E. cbn in E. rewrite app_length in E. lia.
    + rewrite IH. reflexivity.
Qed.

Lemma closed_body ls : closed_lines ls -> closed_lines (javadoc_body ls).
Proof.
  induction ls as [|l ls IH]; [intros []|]. destruct ls as [|l' ls].
  - intros (m & -> & Hm). cbn [javadoc_body]. unfold closing. rewrite trim_closed, strip_suffix_of by discriminate.
    destruct (not_empty _) eqn:En.
    + cbn [app]. rewrite closed_cons by discriminate. split; [|exists (U " "); split; reflexivity].
      change (U " * " ++ trim (trim_start m)) with (U " *" ++ c_sp :: trim (trim_start m)).
      rewrite has_close_sep by discriminate. cbn [orb]. change (has_close (U " *")) with false. cbn [orb].
      eapply infix_close; [|exact Hm]. eapply infix_trans; [apply infix_trim|apply infix_trim_start].
    + exists (U " "). split; reflexivity.
  - rewrite closed_cons by discriminate. intros [H1 H2].
    change (javadoc_body (l :: l' :: ls)) with (starred (without_star l) :: javadoc_body (l' :: ls)).
    rewrite closed_cons by apply javadoc_body_not_nil. split; [|apply IH; exact H2].
    apply has_close_starred. eapply infix_close; [apply infix_without_star|exact H1].
Qed.

Lemma closed_trim ls : closed_lines ls -> closed_lines (map trim ls).
Proof.
  induction ls as [|l ls IH]; [intros []|]. destruct ls as [|l' ls].
  - intros (m & -> & Hm). exists (trim_start m). split; [apply trim_closed|].
    eapply infix_close; [apply infix_trim_start|exact Hm].
  - rewrite closed_cons by discriminate. intros [H1 H2]. cbn [map].
    rewrite closed_cons by discriminate. split; [|apply IH; exact H2].
    eapply infix_close; [apply infix_trim|exact H1].
Qed.

Lemma text_prefix p l ls s : text_of_lines ((p ++ l) :: ls) s -> exists s', s = p ++ s' /\ text_of_lines (l :: ls) s'.
Proof.
  intro H. inversion H as [|? k l' ls' s' H']; subst.
  - exists l. split; [reflexivity|constructor].
  - exists (l ++ c_nl :: repeat c_sp k ++ s'). split; [rewrite <- app_assoc; reflexivity|constructor; exact H'].
Qed.

Lemma trim_end_close x : has_close x = false -> has_close (trim_end x) = false.
Proof. intro H. destruct (infix_trim_end x) as (q & E). eapply infix_close; [|exact H]. exists [], q. exact E. Qed.

(* ---- the characters of a JavaDoc comment ---- *)

Lemma plain_app a b : plain_chars (a ++ b) = plain_chars a ++ plain_chars b.
Proof. apply filter_app. Qed.
Lemma plain_spaces k : plain_chars (repeat c_sp k) = [].
Proof. induction k; [reflexivity|exact IHk]. Qed.
Lemma plain_trim_start s : plain_chars (trim_start s) = plain_chars s.
Proof.
  induction s as [|c s IH]; [reflexivity|]. cbn. destruct (is_ws c) eqn:E; cbn; [exact IH|]. rewrite E. reflexivity.
Qed.
Lemma plain_trim_end s : plain_chars (trim_end s) = plain_chars s.
Proof.
  induction s as [|c s IH]; [reflexivity|]. cbn [trim_end]. destruct (trim_end s) as [|y t].
  - change (plain_chars []) with (@nil N) in IH. change (c :: s) with ([c] ++ s). rewrite plain_app, <- IH, app_nil_r.
    destruct (is_ws c) eqn:E; [|reflexivity]. cbn. rewrite E. reflexivity.
  - change (c :: s) with ([c] ++ s). change (c :: y :: t) with ([c] ++ (y :: t)). rewrite !plain_app, IH. reflexivity.
Qed.
Lemma plain_trim s : plain_chars (trim s) = plain_chars s.
Proof. unfold trim. rewrite plain_trim_end. apply plain_trim_start. Qed.
Lemma plain_starred x : plain_chars (starred x) = plain_chars x.
Proof. unfold starred. destruct x; reflexivity. Qed.
Lemma plain_without_star l : plain_chars (without_star l) = plain_chars l.
Proof.
  unfold without_star. rewrite <- (plain_trim l). destruct (trim l) as [|c r]; [reflexivity|].
  destruct (N.eqb_spec c c_star) as [->|]; [|reflexivity]. rewrite plain_trim_start. reflexivity.
Qed.
Lemma plain_body ls : closed_lines ls -> flat_map plain_chars (javadoc_body ls) = flat_map plain_chars ls.
Proof.
  induction ls as [|l ls IH]; [intros []|]. destruct ls as [|l' ls].
  - intros (m & -> & Hm). cbn [javadoc_body]. unfold closing. rewrite trim_closed, strip_suffix_of by discriminate.
    cbn [flat_map]. rewrite app_nil_r, plain_app.
    assert (E : plain_chars (trim (trim_start m)) = plain_chars m) by (rewrite plain_trim, plain_trim_start; reflexivity).
    destruct (trim (trim_start m)) as [|c t] eqn:Et.
    + cbn [not_empty app flat_map]. rewrite <- E. reflexivity.
    + cbn [not_empty app flat_map]. rewrite app_nil_r.
      change (U " * " ++ c :: t) with (starred (c :: t)). rewrite plain_starred, E. reflexivity.
  - rewrite closed_cons by discriminate. intros [H1 H2].
    change (javadoc_body (l :: l' :: ls)) with (starred (without_star l) :: javadoc_body (l' :: ls)).
    cbn [flat_map]. rewrite plain_starred, plain_without_star. f_equal. apply IH. exact H2.
Qed.
Lemma plain_split s : plain_chars s = flat_map plain_chars (split_on c_nl s).
Proof.
  induction s as [|c s IH]; [reflexivity|]. cbn [split_on].
  destruct (split_on c_nl s) as [|p ps] eqn:E; [exfalso; exact (split_ne _ E)|].
  change (c :: s) with ([c] ++ s). rewrite plain_app, IH. destruct (N.eqb_spec c c_nl) as [->|]; [reflexivity|].
  cbn [flat_map]. change (c :: p) with ([c] ++ p). rewrite plain_app, <- app_assoc. reflexivity.
Qed.
Lemma plain_text ls s : text_of_lines ls s -> plain_chars s = flat_map plain_chars ls.
Proof.
  induction 1 as [l|l k l' ls s H IH]; cbn [flat_map]; [rewrite app_nil_r; reflexivity|].
  rewrite plain_app. f_equal. change (c_nl :: repeat c_sp k ++ s) with ([c_nl] ++ repeat c_sp k ++ s).
  rewrite !plain_app, plain_spaces. exact IH.
Qed.

(* The printed lines of a closed JavaDoc comment. *)
Lemma javadoc_closed m1 : has_close m1 = false ->
  exists body, normal_lines false (U "/**" ++ m1 ++ U "*/") = U "/**" :: body /\ closed_lines body /\
    flat_map plain_chars body = plain_chars (m1 ++ U "*/").
Proof.
  intro H. assert (HC := closed_split m1 H). rewrite (plain_split (m1 ++ U "*/")).
  destruct (split_on c_nl (m1 ++ U "*/")) as [|x rest] eqn:Es; [destruct HC|].
  assert (Es' : split_on c_nl (U "/**" ++ m1 ++ U "*/") = (U "/**" ++ x) :: rest).
  { apply split_prefix; [|exact Es]. intro Hi. cbn in Hi. intuition discriminate. }
  unfold normal_lines. rewrite starts_with_app, Es'. unfold javadoc_lines.
  assert (Ht : trim (skipn 3 (trim (U "/**" ++ x))) = trim (trim_end x)).
  { unfold trim at 2. replace (trim_start (U "/**" ++ x)) with (U "/**" ++ x) by reflexivity.
    change (U "/**" ++ x) with (47 :: 42 :: 42 :: x)%N. rewrite !trim_end_cons by reflexivity. reflexivity. }
  rewrite Ht.
  assert (Hfirst : plain_chars (trim (trim_end x)) = plain_chars x) by (rewrite plain_trim, plain_trim_end; reflexivity).
  destruct rest as [|r rest].
  - destruct HC as (m & -> & Hm).
    rewrite (trim_end_app_tight m (U "*/")) in * by (discriminate || reflexivity).
    rewrite trim_closed in *.
    assert (Hne : not_empty (trim_start m ++ U "*/") = true) by (destruct (trim_start m); reflexivity).
    rewrite Hne. eexists. split; [reflexivity|].
    assert (HC : closed_lines [trim_start m ++ U "*/"]).
    { exists (trim_start m). split; [reflexivity|]. eapply infix_close; [apply infix_trim_start|exact Hm]. }
    split; [apply closed_body; exact HC|]. rewrite plain_body by exact HC.
    cbn [flat_map]. rewrite !app_nil_r. exact Hfirst.
  - rewrite closed_cons in HC by discriminate. destruct HC as [H1 H2].
    destruct (not_empty (trim (trim_end x))) eqn:En.
    + eexists. split; [reflexivity|].
      assert (HC : closed_lines (trim (trim_end x) :: r :: rest)).
      { rewrite closed_cons by discriminate. split; [|exact H2].
        eapply infix_close; [apply infix_trim|]. apply trim_end_close. exact H1. }
      split; [apply closed_body; exact HC|]. rewrite plain_body by exact HC.
      cbn [flat_map]. rewrite Hfirst. reflexivity.
    + eexists. split; [reflexivity|]. split; [apply closed_body; exact H2|].
      rewrite plain_body by exact H2. cbn [flat_map].
      rewrite <- Hfirst. destruct (trim (trim_end x)); [reflexivity|discriminate].
Qed.

Lemma javadoc_shape s : starts_with (U "/**") s = true -> one_block_comment s ->
  s = U "/**/" \/ exists m1, s = U "/**" ++ m1 ++ U "*/" /\ has_close m1 = false.
Proof.
  intros HJ H. apply one_block_iff in H as (m & -> & Hm). destruct m as [|c m1]; [left; reflexivity|].
  right. exists m1. apply starts_with_split in HJ as [r E]. injection E as -> _.
  split; [reflexivity|]. eapply infix_close; [|exact Hm]. exists [42%N], []. rewrite app_nil_r. reflexivity.
Qed.

Theorem javadoc_chars s s' :
  starts_with (U "/**") s = true -> one_block_comment s ->
  text_of_lines (normal_lines false s) s' -> plain_chars s' = plain_chars s.
Proof.
  intros HJ H HT. destruct (javadoc_shape s HJ H) as [->|(m1 & -> & Hm)].
  - rewrite (plain_text _ _ HT). reflexivity.
  - destruct (javadoc_closed m1 Hm) as (body & E & HC & HP). rewrite E in HT.
    rewrite (plain_text _ _ HT). cbn [flat_map]. rewrite HP, (plain_app (U "/**")). reflexivity.
Qed.

Theorem still_one_comment s s' :
  one_block_comment s -> text_of_lines (normal_lines false s) s' -> one_block_comment s'.
Proof.
  intros H HT. destruct (starts_with (U "/**") s) eqn:HJ.
  - assert (exists body, normal_lines false s = (U "/*" ++ [42%N]) :: body /\ closed_lines body) as (body & E & HC).
    { destruct (javadoc_shape s HJ H) as [->|(m1 & -> & Hm)].
      - exists [U " */"]. split; [reflexivity|]. exists (U " "). split; reflexivity.
      - destruct (javadoc_closed m1 Hm) as (body & E & HC & HP). exists body. split; [exact E|exact HC]. }
    rewrite E in HT. destruct (text_prefix _ _ _ _ HT) as (t & -> & HT').
    destruct (closed_text _ _ HT') as (m & -> & Hm).
    { destruct body; [destruct HC|]. rewrite closed_cons by discriminate. split; [reflexivity|exact HC]. }
    apply one_block_iff. eauto.
  - apply one_block_iff in H as (m & -> & Hm). unfold normal_lines in HT. rewrite HJ in HT.
    assert (HC := closed_split m Hm).
    destruct (split_on c_nl (m ++ U "*/")) as [|x rest] eqn:Es; [destruct HC|].
    assert (Hno : no_nl (U "/*")) by (intro Hi; cbn in Hi; intuition discriminate).
    rewrite (split_prefix (U "/*") _ _ _ Hno Es) in HT. cbn [map] in HT.
    assert (Htr : trim (U "/*" ++ x) = U "/*" ++ trim_end x).
    { unfold trim. replace (trim_start (U "/*" ++ x)) with (U "/*" ++ x) by reflexivity.
      change (U "/*" ++ x) with (47 :: 42 :: x)%N. rewrite !trim_end_cons by reflexivity. reflexivity. }
    rewrite Htr in HT. destruct (text_prefix _ _ _ _ HT) as (t & -> & HT').
    destruct (closed_text _ _ HT') as (m' & -> & Hm'); [|apply one_block_iff; eauto].
    destruct rest as [|r rest].
    + destruct HC as (m0 & -> & Hm0). exists m0. split; [|exact Hm0].
      apply trim_end_app_tight; [discriminate|reflexivity].
    + rewrite closed_cons in HC by discriminate. destruct HC as [H1 H2]. cbn [map].
      rewrite closed_cons by discriminate. split; [apply trim_end_close; exact H1|].
      apply (closed_trim (r :: rest)). exact H2.
Qed.
