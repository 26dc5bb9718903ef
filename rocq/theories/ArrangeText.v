(* ArrangeText.v: what the arrangement of tokens and comments says about the output. *)
From Coq Require Import Permutation.
From Verif Require Import Base Doc DocProofs DocBuilder SpecDoc Cst Comments Term New Formatter SpecComments SpecTree SpecRead SpecSigns
  FormatProofs ReadProofs SignsProofs SpecWords SpecTokens SpecOrder SpecArrange BitsProofs
  TokensProofs TokensMarks TokensProofs2 TokensProofs3 TokensProofs4 TokensProofs5 TokensComments ArrangeRun ArrangeItems ArrangeGrammar ArrangeFormat ArrangeOnce ArrangeOrder.
Local Open Scope string_scope.
Local Open Scope list_scope.

Theorem format_once checked stack cfg root out :
  file_tree root -> distinct_ids root -> comments_in_braces root -> simple_places root -> visible_comments root ->
  format_tree checked stack cfg root = Ok out ->
  exists order ws, spaced ws out /\ kept (flat_map as_lines order) ws /\
    filter (fun n => negb (n_extra n)) order = leaves root /\ Permutation (filter n_extra order) (comments_of root).
Proof.
  intros S D B P V H. destruct (format_arranged _ _ _ _ _ S D B P V H) as (cm & ws & _ & H1 & H2 & H3 & H4).
  exists (arrangement root cm), ws. auto.
Qed.
Theorem format_ordered checked stack cfg root out :
  file_tree root -> distinct_ids root -> comments_in_braces root -> simple_places root -> visible_comments root -> ordered_places root ->
  format_tree checked stack cfg root = Ok out ->
  exists order ws, spaced ws out /\ kept (flat_map as_lines order) ws /\
    filter (fun n => negb (n_extra n)) order = leaves root /\ filter fixed order = filter fixed (everything root).
Proof.
  intros S D B P V O H. destruct (format_arranged _ _ _ _ _ S D B P V H) as (cm & ws & HC & H1 & H2 & H3 & H4).
  exists (arrangement root cm), ws. split; [exact H1|]. split; [exact H2|]. split; [exact H3|]. apply arrangement_order; auto.
Qed.

(* The same characters. *)
Lemma partition_permutation {A} (p : A -> bool) l : Permutation (filter (fun x => negb (p x)) l ++ filter p l) l.
Proof.
  induction l as [|x l IH]; [constructor|]. cbn [filter]. destruct (p x); cbn [negb app].
  - etransitivity; [symmetry; apply Permutation_middle|]. constructor. exact IH.
  - constructor. exact IH.
Qed.
Lemma flat_map_perm {A C} (f : A -> list C) l l' : Permutation l l' -> Permutation (flat_map f l) (flat_map f l').
Proof.
  induction 1; cbn [flat_map]; [constructor|apply Permutation_app_head; assumption| |etransitivity; eassumption].
  rewrite !app_assoc. apply Permutation_app_tail, Permutation_app_comm.
Qed.
Lemma folded_perm l l' : Permutation l l' -> Permutation (folded l) (folded l').
Proof.
  intro P. unfold folded, to_lowercase. apply Permutation_map. unfold visible. clear - P. induction P; cbn [filter].
  - constructor.
  - destruct (negb (is_ws x)); [constructor|]; assumption.
  - destruct (negb (is_ws x)), (negb (is_ws y)); try reflexivity. constructor.
  - etransitivity; eassumption.
Qed.
Lemma lines_text l : flat_map n_text (flat_map as_lines (filter n_extra l)) = List.concat (flat_map comment_lines (filter n_extra l)).
Proof.
  induction l as [|n l IH]; [reflexivity|]. cbn [filter]. destruct (n_extra n) eqn:X; [|exact IH]. cbn [flat_map].
  rewrite flat_map_app, concat_app, IH. f_equal. unfold as_lines. rewrite X. clear. induction (comment_lines n) as [|w ws IH]; [reflexivity|].
  cbn [map flat_map List.concat]. rewrite IH. reflexivity.
Qed.
Lemma tokens_text l : flat_map n_text (flat_map as_lines (filter (fun n => negb (n_extra n)) l)) = flat_map n_text (filter (fun n => negb (n_extra n)) l).
Proof.
  induction l as [|n l IH]; [reflexivity|]. cbn [filter]. destruct (n_extra n) eqn:X; cbn [negb]; [exact IH|]. cbn [flat_map].
  rewrite flat_map_app, IH. unfold as_lines. rewrite X. cbn [flat_map]. rewrite app_nil_r. reflexivity.
Qed.
Lemma concat_flat {A} (l : list (list A)) : List.concat l = flat_map (fun x => x) l.
Proof. induction l as [|x l IH]; [reflexivity|]. cbn. rewrite IH. reflexivity. Qed.
Theorem format_characters checked stack cfg root out :
  file_tree root -> distinct_ids root -> comments_in_braces root -> simple_places root -> visible_comments root ->
  format_tree checked stack cfg root = Ok out ->
  Permutation (folded out) (folded (flat_map n_text (leaves root) ++ List.concat (flat_map comment_lines (comments_of root)))).
Proof.
  intros S D B P V H. destruct (format_once _ _ _ _ _ S D B P V H) as (order & ws & H1 & H2 & H3 & H4).
  rewrite (spaced_folded _ _ H1), (kept_folded _ _ H2). apply folded_perm.
  etransitivity; [apply flat_map_perm, flat_map_perm; symmetry; apply (partition_permutation n_extra)|].
  rewrite flat_map_app, flat_map_app, tokens_text, lines_text, H3. apply Permutation_app_head.
  rewrite !concat_flat. apply flat_map_perm, flat_map_perm, H4.
Qed.

(* Names and comments in order. *)
Lemma line_verbatim w : visible w <> [] -> verbatim (line_token w) = true.
Proof. intro H. unfold verbatim. change (n_text (line_token w)) with w. destruct (visible w); [contradiction|reflexivity]. Qed.
Definition landmark (n : node) : list ustr := if n_extra n then comment_lines n else if verbatim n then [n_text n] else [].
Lemma lines_landmarks l : map n_text (filter verbatim (flat_map as_lines l)) = flat_map landmark l.
Proof.
  induction l as [|n l IH]; [reflexivity|]. cbn [flat_map]. rewrite filter_app, map_app, IH. f_equal. unfold as_lines, landmark.
  destruct (n_extra n); [|cbn [filter]; destruct (verbatim n); reflexivity].
  assert (F : Forall (fun w => visible w <> []) (comment_lines n)).
  { apply Forall_forall. intros w Hw. apply filter_In in Hw as [_ Hw]. destruct (visible w); [discriminate|discriminate]. }
  induction F as [|w ws Hw _ IHF]; [reflexivity|]. cbn [map filter]. rewrite line_verbatim by exact Hw. cbn [map]. rewrite IHF. reflexivity.
Qed.
Lemma fixed_landmarks l : flat_map landmark (filter fixed l) = flat_map landmark l.
Proof.
  induction l as [|n l IH]; [reflexivity|]. cbn [filter flat_map]. destruct (fixed n) eqn:E; cbn [flat_map]; rewrite IH; [reflexivity|].
  unfold fixed in E. apply orb_false_iff in E as [E1 E2]. unfold landmark, verbatim, keyword. rewrite E1, E2. reflexivity.
Qed.
Theorem format_landmarks checked stack cfg root out :
  file_tree root -> distinct_ids root -> comments_in_braces root -> simple_places root -> visible_comments root -> ordered_places root ->
  format_tree checked stack cfg root = Ok out -> in_turn (landmarks root) out.
Proof.
  intros S D B P V O H. destruct (format_ordered _ _ _ _ _ S D B P V O H) as (order & ws & H1 & H2 & _ & H3).
  pose proof (kept_in_turn _ _ H2 _ H1) as T. rewrite lines_landmarks, <- fixed_landmarks, H3, fixed_landmarks in T. exact T.
Qed.
