(* TextProofs4.v: the facts of TextProofs2 and 3 for comment nodes. *)
From Verif Require Import Base Doc DocBuilder DocProofs Cst Comments SpecComments SpecText CollectProofs2 FormatProofs
  TextProofs TextProofs2 TextProofs3.

Lemma block_of n c : block_comment_of n c -> c_line c = false /\ c_value c = trim_end (n_text n).
Proof.
  intros (Hk & l & r & H). split; [|eapply comment_of_value; eassumption].
  rewrite (comment_of_line _ _ _ _ H). unfold has_kind in *. apply String.eqb_eq in Hk. rewrite Hk. reflexivity.
Qed.
Lemma starts_trim p s : Forall (fun c => is_ws c = false) p -> starts_with p s = true -> starts_with p (trim_end s) = true.
Proof.
  intros HF H. apply starts_with_split in H as [r ->].
  assert (E : trim_end (p ++ r) = p ++ trim_end r).
  { induction HF as [|c p Hc HF IH]; [reflexivity|]. cbn [app]. rewrite trim_end_cons by exact Hc. f_equal. exact IH. }
  rewrite E. apply starts_with_app.
Qed.
Lemma starts_trim_back p s : starts_with p (trim_end s) = true -> starts_with p s = true.
Proof.
  intro H. destruct (infix_trim_end s) as (q & E). rewrite E. apply starts_with_split in H as [r ->].
  rewrite <- app_assoc. apply starts_with_app.
Qed.
Lemma one_block_trim s : one_block_comment s -> trim_end s = s /\ starts_with (U "/*") s = true.
Proof.
  intros (m & -> & _). split; [|apply starts_with_app].
  rewrite app_assoc. apply trim_end_app_tight; [discriminate|reflexivity].
Qed.

Theorem printed_again n c i w n' c' :
  block_comment_of n c -> starts_with (U "/*") (n_text n) = true ->
  block_comment_of n' c' -> n_text n' = printed c i w ->
  forall i' w', printed c' i' w' = printed c i' w'.
Proof.
  intros H Hs H' Ht. destruct (block_of _ _ H) as [H1 H2], (block_of _ _ H') as [H1' H2'].
  unfold printed in *. eapply reread with (i := i) (w := w).
  - exact H1.
  - rewrite H2. apply starts_trim; [repeat constructor|exact Hs].
  - rewrite H2. apply trim_end_idem.
  - exact H1'.
  - rewrite H2', Ht. reflexivity.
Qed.

Theorem javadoc_again n c i w n' c' :
  block_comment_of n c -> starts_with (U "/**") (n_text n) = true ->
  block_comment_of n' c' -> n_text n' = printed c i w ->
  forall i' w', printed c' i' w' = printed c i' w'.
Proof.
  intros H Hs. apply printed_again with (n := n); [exact H|].
  apply starts_with_split in Hs as [r ->]. reflexivity.
Qed.

Theorem block_source_lines n c i w :
  block_comment_of n c -> starts_with (U "/**") (n_text n) = false ->
  printed c i w = at_indent i (map trim (split_on c_nl (trim_end (n_text n)))).
Proof.
  intros H Hs. destruct (block_of _ _ H) as [H1 H2]. unfold printed. rewrite block_lines, H2; [reflexivity|exact H1|].
  rewrite H2. destruct (starts_with _ (trim_end _)) eqn:E; [|reflexivity].
  apply starts_trim_back in E. congruence.
Qed.
Theorem block_source_words n c i w :
  block_comment_of n c -> starts_with (U "/**") (n_text n) = false ->
  words_of (printed c i w) = words_of (n_text n).
Proof.
  intros H Hs. destruct (block_of _ _ H) as [H1 H2]. unfold printed. rewrite block_words, H2; [|exact H1|].
  - unfold words_of. apply word_runs_trim_end.
  - rewrite H2. destruct (starts_with _ (trim_end _)) eqn:E; [|reflexivity].
    apply starts_trim_back in E. congruence.
Qed.

Theorem printed_is_one_comment n c i w :
  block_comment_of n c -> one_block_comment (n_text n) -> one_block_comment (printed c i w).
Proof.
  intros H Hs. destruct (block_of _ _ H) as [H1 H2], (one_block_trim _ Hs) as [H3 _].
  unfold printed. rewrite block_printed by exact H1. rewrite H2, H3.
  eapply still_one_comment; [exact Hs|]. apply at_indent_text, normal_lines_ne.
Qed.
Theorem javadoc_source_chars n c i w :
  block_comment_of n c -> one_block_comment (n_text n) -> starts_with (U "/**") (n_text n) = true ->
  plain_chars (printed c i w) = plain_chars (n_text n).
Proof.
  intros H Hs HJ. destruct (block_of _ _ H) as [H1 H2], (one_block_trim _ Hs) as [H3 _].
  unfold printed. rewrite block_printed by exact H1. rewrite H2, H3.
  eapply javadoc_chars; [exact HJ|exact Hs|]. apply at_indent_text, normal_lines_ne.
Qed.
