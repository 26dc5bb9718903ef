(* PropertiesCounts.v: how often characters are printed, for sources with comments.
   Specification: SpecTokens.v, SpecArrange.v. *)
From Coq Require Import Permutation Lia.
From Verif Require Import Base SpecDoc Cst Formatter SpecTree SpecOrder SpecTokens SpecArrange
  Trees Samples SamplesTokens SamplesArrange PropertiesTokens PropertiesArrange.
Local Open Scope string_scope.
Local Open Scope list_scope.

(* How often [c] is in [s]. *)
Definition times (c : N) (s : ustr) : nat := List.length (filter (N.eqb c) s).
(* A sign: neither white space nor a letter of ASCII. *)
Definition is_sign (c : N) : Prop :=
  is_ws c = false /\ ~ (65 <= c <= 90)%N /\ ~ (97 <= c <= 122)%N.

Lemma times_app c a b : times c (a ++ b) = (times c a + times c b)%nat.
Proof. unfold times. rewrite filter_app, app_length. reflexivity. Qed.
Lemma times_perm c a b : Permutation a b -> times c a = times c b.
Proof.
  unfold times. induction 1 as [|x a b P IH|x y a|a b d P1 IH1 P2 IH2]; cbn; try lia.
  - destruct (N.eqb c x); cbn; lia.
  - destruct (N.eqb c x), (N.eqb c y); reflexivity.
Qed.
Lemma times_folded c s : is_sign c -> times c (folded s) = times c s.
Proof.
  intros (W & U & L). unfold times, folded, to_lowercase, visible. induction s as [|x s IH]; [reflexivity|]. cbn [filter].
  destruct (N.eqb_spec c x) as [->|Hx].
  - rewrite W. cbn [negb map filter]. replace (lower1 x) with x; [rewrite N.eqb_refl; cbn; rewrite IH; reflexivity|].
    unfold lower1. destruct (N.leb_spec 65 x), (N.leb_spec x 90); cbn; lia.
  - destruct (is_ws x); [exact IH|]. cbn [negb map filter]. replace (N.eqb c (lower1 x)) with false; [exact IH|]. symmetry. apply N.eqb_neq.
    unfold lower1. destruct (N.leb_spec 65 x), (N.leb_spec x 90); cbn; lia.
Qed.

(* Every sign is printed as often as it is in the tokens of the source and in the lines of
   its comments.  Missing: the places left out by C05_once_partial. *)
Theorem C37_signs_partial :
  forall (checked : bool) (stack : nat) (cfg : config) (root : node) (out : ustr) (c : N),
    file_tree root -> distinct_ids root -> comments_in_braces root -> simple_places root -> visible_comments root ->
    format_tree checked stack cfg root = Ok out -> is_sign c ->
    times c out = (times c (flat_map n_text (leaves root)) + times c (List.concat (flat_map comment_lines (comments_of root))))%nat.
Proof.
  intros checked stack cfg root out c Ft D Cb Sp Vc H S. pose proof (C05_characters_partial _ _ _ _ _ Ft D Cb Sp Vc H) as P.
  apply (times_perm c) in P. rewrite !times_folded in P by exact S. rewrite P. apply times_app.
Qed.
Print Assumptions C37_signs_partial.
Example C37_semicolon_sign : is_sign 59.
Proof. split; [reflexivity|lia]. Qed.
Example C37_signs_sample :
  file_tree sample_comments /\ distinct_ids sample_comments /\ comments_in_braces sample_comments /\
  times 59 (flat_map n_text (leaves sample_comments)) <> O.
Proof.
  split; [apply file_treeb_ok; vm_compute; reflexivity|]. split; [apply distinct_ids_sound; vm_compute; reflexivity|].
  split; [apply comments_in_bracesb_ok; vm_compute; reflexivity|]. vm_compute. discriminate.
Qed.

(* Two sources that differ in the characters of their tokens and comments, white space and
   the case of letters aside, have different outputs. *)
Theorem C38_characters_differ_partial :
  forall (checked checked' : bool) (stack stack' : nat) (cfg cfg' : config) (root root' : node) (out out' : ustr),
    file_tree root -> distinct_ids root -> comments_in_braces root -> simple_places root -> visible_comments root ->
    file_tree root' -> distinct_ids root' -> comments_in_braces root' -> simple_places root' -> visible_comments root' ->
    format_tree checked stack cfg root = Ok out -> format_tree checked' stack' cfg' root' = Ok out' ->
    ~ Permutation (folded (flat_map n_text (leaves root) ++ List.concat (flat_map comment_lines (comments_of root))))
                  (folded (flat_map n_text (leaves root') ++ List.concat (flat_map comment_lines (comments_of root')))) ->
    out <> out'.
Proof.
  intros checked checked' stack stack' cfg cfg' root root' out out' F1 D1 C1 S1 V1 F2 D2 C2 S2 V2 H1 H2 N E. apply N.
  pose proof (C05_characters_partial _ _ _ _ _ F1 D1 C1 S1 V1 H1) as P1. pose proof (C05_characters_partial _ _ _ _ _ F2 D2 C2 S2 V2 H2) as P2.
  rewrite <- P1, <- P2, E. reflexivity.
Qed.
Print Assumptions C38_characters_differ_partial.
(* The sources of C55_sample and C35_sample differ so. *)
Example C38_characters_sample :
  ~ Permutation (folded (flat_map n_text (leaves sample_comments) ++ List.concat (flat_map comment_lines (comments_of sample_comments))))
                (folded (flat_map n_text (leaves sample_tokens) ++ List.concat (flat_map comment_lines (comments_of sample_tokens)))).
Proof. intro P. apply Permutation_length in P. vm_compute in P. discriminate P. Qed.
