(* BitsProofs.v: lemmas on the words and signs of a text. *)
From Coq Require Import Lia.
From Verif Require Import Base Cst SpecTokens SpecWords.
Local Open Scope list_scope.

Lemma ws_not_word c : is_ws c = true -> word_char c = false.
Proof.
  unfold is_ws, word_char. intro H. apply Bool.not_true_is_false. intro K.
  repeat match goal with
  | H : _ || _ = true |- _ => apply Bool.orb_prop in H as [H|H]
  | H : _ && _ = true |- _ => apply Bool.andb_true_iff in H as [? ?]
  | H : (_ <=? _)%N = true |- _ => apply N.leb_le in H
  | H : (_ =? _)%N = true |- _ => apply N.eqb_eq in H
  end; try lia.
  all: match goal with H : negb _ = true |- _ => apply Bool.negb_true_iff in H; unfold is_ws in H end.
  all: subst; try discriminate.
  all: repeat match goal with H : _ || _ = false |- _ => apply Bool.orb_false_iff in H as [? ?] end.
  all: try match goal with H : (?a <=? ?c)%N && (?c <=? ?b)%N = false, H1 : (?a <= ?c)%N, H2 : (?c <= ?b)%N |- _ =>
      apply N.leb_le in H1, H2; rewrite H1, H2 in H; discriminate H end.
  all: lia.
Qed.

Lemma ends_word_app a c b : ends_word (a ++ c :: b) = ends_word (c :: b).
Proof. unfold ends_word. rewrite rev_app_distr. destruct (rev (c :: b)) eqn:E; [|reflexivity]. simpl in E. destruct (rev b); discriminate. Qed.
Lemma ends_word_one c : ends_word [c] = word_char c.
Proof. reflexivity. Qed.
Lemma ends_word_cons c d s : ends_word (c :: d :: s) = ends_word (d :: s).
Proof. apply (ends_word_app [c]). Qed.

Lemma split_app a b : (ends_word a && starts_word b = false) ->
  split_words (a ++ b) = split_words a ++ split_words b.
Proof.
  induction a as [|c a IH]; intro H; [reflexivity|].
  destruct a as [|d a].
  - rewrite ends_word_one in H. cbn [app split_words starts_word]. rewrite Bool.andb_false_r.
    destruct (is_ws c); [reflexivity|]. rewrite H. reflexivity.
  - rewrite ends_word_cons in H. specialize (IH H). cbn [app] in *.
    remember (d :: a) as x eqn:Ex. remember (d :: a ++ b) as y eqn:Ey.
    assert (Es : starts_word y = starts_word x) by (subst; reflexivity).
    cbn [split_words]. rewrite Es, IH. destruct (is_ws c); [reflexivity|].
    destruct (word_char c && starts_word x) eqn:E; [|reflexivity].
    destruct (split_words x) eqn:Q; [|reflexivity]. exfalso.
    apply Bool.andb_true_iff in E as [_ E]. rewrite Ex in Q, E. cbn [starts_word] in E. cbn [split_words] in Q.
    destruct (is_ws d) eqn:W; [rewrite (ws_not_word d W) in E; discriminate|].
    destruct (word_char d && starts_word a); [destruct (split_words a)|]; discriminate.
Qed.
Lemma bits_app a b : (ends_word a && starts_word b = false) -> bits (a ++ b) = bits a ++ bits b.
Proof. intro H. unfold bits. rewrite (split_app a b H), map_app. reflexivity. Qed.
Lemma bits_blank s : visible s = [] -> bits s = [].
Proof.
  unfold bits. induction s as [|c s IH]; [reflexivity|]. cbn [visible filter]. destruct (is_ws c) eqn:E; cbn [negb]; [|discriminate].
  intro H. cbn [split_words]. rewrite E. apply IH, H.
Qed.
Lemma split_concat s : List.concat (split_words s) = visible s.
Proof.
  induction s as [|c s IH]; [reflexivity|]. cbn [split_words visible filter]. destruct (is_ws c); cbn [negb]; [exact IH|].
  destruct (word_char c && starts_word s) eqn:E; cbn [List.concat app]; [|f_equal; exact IH].
  destruct (split_words s); cbn [List.concat app] in *; f_equal; exact IH.
Qed.
Lemma bits_folded s : List.concat (bits s) = folded s.
Proof.
  unfold bits, folded. rewrite <- split_concat. induction (split_words s) as [|w l IH]; [reflexivity|].
  cbn [map List.concat]. rewrite IH. unfold to_lowercase. rewrite map_app. reflexivity.
Qed.
Lemma starts_blank s t : visible s = [] -> starts_word t = false -> starts_word (s ++ t) = false.
Proof.
  destruct s as [|c s]; [intros _ H; exact H|]. cbn [visible filter]. destruct (is_ws c) eqn:E; [|discriminate].
  intros _ _. apply (ws_not_word c E).
Qed.
Lemma filter_rev {A} (f : A -> bool) l : filter f (rev l) = rev (filter f l).
Proof.
  induction l as [|x l IH]; [reflexivity|]. cbn [rev filter]. rewrite filter_app, IH. cbn [filter].
  destruct (f x); cbn [rev]; [reflexivity|apply app_nil_r].
Qed.
Lemma ends_blank c s : visible (c :: s) = [] -> ends_word (c :: s) = false.
Proof.
  intro H. unfold ends_word. assert (V : visible (rev (c :: s)) = []).
  { unfold visible in *. revert H. generalize (c :: s). intros l H. apply (f_equal (@rev N)) in H. rewrite <- filter_rev in H. exact H. }
  destruct (rev (c :: s)) as [|d r]; [reflexivity|]. cbn [visible filter] in V. destruct (is_ws d) eqn:E; [|discriminate].
  apply ws_not_word, E.
Qed.

Lemma word_lower c : word_char (lower1 c) = word_char c.
Proof.
  unfold lower1. destruct ((65 <=? c)%N && (c <=? 90)%N) eqn:E; [|reflexivity].
  apply andb_prop in E as [E1 E2]. unfold word_char. rewrite E1, E2.
  apply N.leb_le in E1, E2. rewrite !Bool.orb_true_r. cbn [orb].
  assert (H1 : (97 <=? c + 32)%N = true) by (apply N.leb_le; lia).
  assert (H2 : (c + 32 <=? 122)%N = true) by (apply N.leb_le; lia).
  rewrite H1, H2. cbn [andb]. rewrite !Bool.orb_true_r. reflexivity.
Qed.
Lemma word_upper c : word_char (upper1 c) = word_char c.
Proof.
  unfold upper1. destruct ((97 <=? c)%N && (c <=? 122)%N) eqn:E; [|reflexivity].
  apply andb_prop in E as [E1 E2]. unfold word_char. rewrite E1, E2.
  apply N.leb_le in E1, E2. rewrite !Bool.orb_true_r. cbn [orb].
  assert (H1 : (65 <=? c - 32)%N = true) by (apply N.leb_le; lia).
  assert (H2 : (c - 32 <=? 90)%N = true) by (apply N.leb_le; lia).
  rewrite H1, H2. cbn [andb]. rewrite !Bool.orb_true_r. reflexivity.
Qed.
Lemma split_map f s : (forall c, is_ws (f c) = is_ws c) -> (forall c, word_char (f c) = word_char c) ->
  split_words (map f s) = map (map f) (split_words s).
Proof.
  intros H1 H2. induction s as [|c s IH]; [reflexivity|]. cbn [map split_words]. rewrite H1, H2, IH.
  destruct (is_ws c); [reflexivity|].
  assert (E : starts_word (map f s) = starts_word s) by (destruct s; [reflexivity|apply H2]). rewrite E.
  destruct (word_char c && starts_word s); [|reflexivity]. destruct (split_words s); reflexivity.
Qed.
Lemma flat_bits_folded vs : List.concat (flat_map bits vs) = folded (List.concat vs).
Proof.
  induction vs as [|v vs IH]; [reflexivity|]. cbn [flat_map List.concat]. rewrite concat_app, bits_folded, IH.
  unfold folded, visible, to_lowercase. rewrite filter_app, map_app. reflexivity.
Qed.
Lemma bits_of_folded ns : List.concat (bits_of ns) = folded (flat_map n_text ns).
Proof.
  unfold bits_of. rewrite !flat_map_concat_map, <- (map_map n_text bits), <- flat_map_concat_map. apply flat_bits_folded.
Qed.
Lemma bits_of_app a b : bits_of (a ++ b) = bits_of a ++ bits_of b.
Proof. apply flat_map_app. Qed.
