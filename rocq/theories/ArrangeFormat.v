(* ArrangeFormat.v: the formatted file is the tokens and comments of the source,
   each comment once. *)
From Coq Require Import Permutation.
From Verif Require Import Base Doc DocProofs DocBuilder SpecDoc Cst Comments Term New Formatter SpecComments SpecTree SpecRead SpecSigns
  CollectProofs CollectProofs2 TermProofs2 FormatProofs ReadProofs SignsProofs SpecWords SpecTokens SpecOrder SpecArrange BitsProofs
  TokensProofs TokensMarks TokensProofs2 TokensProofs3 TokensProofs4 TokensProofs5 TokensComments ArrangeRun ArrangeItems ArrangeGrammar.
Local Open Scope string_scope.
Local Open Scope list_scope.

(* ------------------------------------------------------------ selections by key *)

Lemma filter_other {A} (p q : A -> bool) l : (forall a, p a = true -> q a = true) -> filter p (filter q l) = filter p l.
Proof.
  intro H. induction l as [|x l IH]; [reflexivity|]. cbn [filter]. destruct (q x) eqn:E; cbn [filter]; rewrite IH; [reflexivity|].
  destruct (p x) eqn:E2; [rewrite (H x E2) in E; discriminate|reflexivity].
Qed.
Lemma keyed {A K} (eqb : K -> K -> bool) (key : A -> K) ks L : (forall a b, eqb a b = true -> a = b) -> NoDup ks ->
  exists rest, Permutation (flat_map (fun k => filter (fun a => eqb (key a) k) L) ks ++ rest) L.
Proof.
  intro S. revert L. induction ks as [|k ks IH]; intros L D; [exists L; reflexivity|].
  apply NoDup_cons_iff in D as [D1 D2]. destruct (IH (filter (fun a => negb (eqb (key a) k)) L) D2) as [rest P].
  exists rest. cbn [flat_map]. rewrite <- app_assoc.
  replace (flat_map (fun k => filter (fun a => eqb (key a) k) L) ks)
    with (flat_map (fun k' => filter (fun a => eqb (key a) k') (filter (fun a => negb (eqb (key a) k)) L)) ks).
  - rewrite P. clear. induction L as [|x L IH]; [reflexivity|]. cbn [filter]. destruct (eqb (key x) k); cbn [negb app].
    + constructor. exact IH.
    + rewrite <- Permutation_middle. constructor. exact IH.
  - clear P IH D2. induction ks as [|k' ks IH]; [reflexivity|]. cbn [flat_map]. f_equal.
    + apply filter_other. intros a Ha. apply S in Ha. destruct (eqb (key a) k) eqn:E; [|reflexivity].
      apply S in E. exfalso. apply D1. left. congruence.
    + apply IH. intro H. apply D1. right. exact H.
Qed.

(* ------------------------------------------------------------ the comments at each place *)

Section Placed.
Variable root : node.
Variable cm : cmap.
Hypothesis D : distinct_ids root.
Hypothesis Hr : code root = true.
Hypothesis HC : collect_comments root = Ok cm.

Definition node_of (c : comment) : node :=
  match find (fun m => (n_id m =? c_id c)%N) (all_nodes root) with Some m => m | None => root end.
Definition placed (id : N) (p : place) : list node := map node_of (held cm id p).

Lemma attached_in a : In a (attachments root) -> In (at_comment a) (all_nodes root) /\ n_extra (at_comment a) = true.
Proof.
  intro Ha. destruct (proj1 (attachments_spec root a) Ha) as (n & (Hn & Hch & Hx) & _). split; [|exact Hx].
  eapply all_nodes_child; [apply code_node_in; exact Hn|]. rewrite Hch. apply in_or_app. right. left. reflexivity.
Qed.
Lemma node_of_id c m : In m (all_nodes root) -> c_id c = n_id m -> node_of c = m.
Proof.
  intros Hm E. unfold node_of. destruct (find _ _) as [x|] eqn:F.
  - apply find_some in F as [Hx F]. apply N.eqb_eq in F. apply (same_id root); auto. congruence.
  - exfalso. apply (find_none _ _ F m) in Hm. rewrite E, N.eqb_refl in Hm. discriminate.
Qed.
Lemma attached_comment a : In a (attachments root) ->
  exists c, comment_of (at_left a) (at_comment a) (at_right a) = Ok c /\ at_comments a = [c] /\ node_of c = at_comment a.
Proof.
  intro Ha. destruct (proj1 (attachments_spec root a) Ha) as (n & Hu & _).
  destruct (comment_placed _ _ _ _ _ _ Hr HC Hu) as (co & Hco & _). exists co. split; [exact Hco|].
  split; [unfold at_comments, comment_at; rewrite Hco; reflexivity|].
  apply node_of_id; [apply (attached_in a Ha)|exact (comment_of_id _ _ _ _ Hco)].
Qed.
Definition selected (id : N) (p : place) : list SpecTree.attached :=
  filter (fun a => (at_id a =? id)%N && place_eqb (at_place a) p) (attachments root).
Lemma placed_selected id p : Permutation (placed id p) (map at_comment (selected id p)).
Proof.
  unfold placed. rewrite (collected_held root cm id p Hr HC). fold (selected id p).
  assert (HI : forall a, In a (selected id p) -> In a (attachments root)) by (intros a Ha; apply filter_In in Ha; apply Ha).
  revert HI. generalize (selected id p). induction l as [|a l IH]; intro HI; [reflexivity|]. cbn [flat_map map].
  destruct (attached_comment a (HI a (or_introl eq_refl))) as (c & _ & -> & E). cbn [app map]. rewrite E. constructor.
  apply IH. intros x Hx. apply HI. right. exact Hx.
Qed.
Lemma held_comment id p c : In c (held cm id p) -> exists a, In a (selected id p) /\
  comment_of (at_left a) (at_comment a) (at_right a) = Ok c /\ node_of c = at_comment a.
Proof.
  intro H. apply (Permutation_in _ (collected_held root cm id p Hr HC)) in H. fold (selected id p) in H.
  apply in_flat_map in H as (a & Ha & Hc). exists a. split; [exact Ha|]. apply filter_In in Ha as [Ha _].
  destruct (attached_comment a Ha) as (c' & H1 & H2 & H3). rewrite H2 in Hc. destruct Hc as [<-|[]]. auto.
Qed.
Lemma placed_extra id p : Forall (fun c => n_extra c = true) (placed id p).
Proof.
  apply Forall_forall. intros n Hn. apply (Permutation_in _ (placed_selected id p)) in Hn. apply in_map_iff in Hn as (a & <- & Ha).
  apply filter_In in Ha as [Ha _]. apply (attached_in a Ha).
Qed.
Lemma comments_at_selected id p : comments_at root id p = map at_comment (selected id p).
Proof.
  unfold comments_at, selected, at_id. f_equal.
Qed.
Lemma held_none id p : comments_at root id p = [] -> held cm id p = [].
Proof.
  rewrite comments_at_selected. intro H. destruct (held cm id p) as [|c l] eqn:E; [reflexivity|]. exfalso.
  destruct (held_comment id p c) as (a & Ha & _); [rewrite E; left; reflexivity|]. apply (in_map at_comment) in Ha. rewrite H in Ha. destruct Ha.
Qed.

(* Each comment is at one place. *)
Lemma slots_part : part (flat_map (slot placed) (all_nodes root)) (map at_comment (attachments root)).
Proof.
  set (keys := flat_map (fun m => [(n_id m, Leading); (n_id m, Trailing); (n_id m, Dangling)]) (all_nodes root)).
  set (eqb := fun x y : N * place => (fst x =? fst y)%N && place_eqb (snd x) (snd y)).
  assert (S : forall x y, eqb x y = true -> x = y).
  { intros [a p] [b q] H. unfold eqb in H. cbn in H. apply andb_prop in H as [H1 H2]. apply N.eqb_eq in H1. apply place_eqb_eq in H2. congruence. }
  assert (ND : NoDup keys).
  { unfold keys. unfold distinct_ids in D. revert D. generalize (all_nodes root). induction l as [|m l IH]; cbn [map flat_map]; intro H; [constructor|].
    apply NoDup_cons_iff in H as [H1 H2].
    assert (HN : forall p, ~ In (n_id m, p) (flat_map (fun m => [(n_id m, Leading); (n_id m, Trailing); (n_id m, Dangling)]) l)).
    { intros p Hp. apply H1. apply in_flat_map in Hp as (x & Hx & Hp). apply in_map_iff. exists x. split; [|exact Hx].
      destruct Hp as [Hp|[Hp|[Hp|[]]]]; congruence. }
    repeat constructor; cbn [In]; try (apply IH; exact H2).
    - intros [Hp|[Hp|Hp]]; [discriminate|discriminate|]. exact (HN _ Hp).
    - intros [Hp|Hp]; [discriminate|]. exact (HN _ Hp).
    - apply HN. }
  destruct (keyed eqb (fun a => (at_id a, at_place a)) keys (attachments root) S ND) as [rest P].
  exists (map at_comment rest). rewrite <- P, map_app. apply Permutation_app_tail.
  unfold keys. clear P ND. generalize (all_nodes root). induction l as [|m l IH]; [reflexivity|]. cbn [flat_map]. rewrite flat_map_app, map_app, IH.
  apply Permutation_app_tail. unfold slot. cbn [flat_map]. rewrite !map_app, !placed_selected. unfold selected, eqb. cbn [fst snd map].
  rewrite app_nil_r. reflexivity.
Qed.
Lemma attached_part : part (map at_comment (attachments root)) (comments_of root).
Proof.
  destruct (attachments_nodes root) as [rest P]. exists (filter n_extra rest). unfold comments_of.
  assert (Q : forall a b, Permutation a b -> Permutation (filter n_extra a) (filter n_extra b)).
  { induction 1 as [|x a b H IH|x y a|a b c H IH H' IH']; cbn [filter].
    - constructor.
    - destruct (n_extra x); [constructor|]; exact IH.
    - destruct (n_extra x), (n_extra y); try apply Permutation_refl. constructor.
    - rewrite IH. exact IH'. }
  rewrite <- (Q _ _ P), filter_app. apply Permutation_app_tail. rewrite (ArrangeItems.all_comments _); [reflexivity|].
  apply Forall_forall. intros n Hn. apply in_map_iff in Hn as (a & <- & Ha). apply (attached_in a Ha).
Qed.

(* ------------------------------------------------------------ lines *)

Lemma line_token_mark ws : map line_token ws = marks ws.
Proof. reflexivity. Qed.
Lemma held_lines id p c : In c (held cm id p) -> comment_lines (node_of c) = solid (comment_texts c) /\ line_comment (node_of c) = c_line c.
Proof.
  intro H. destruct (held_comment id p c H) as (a & _ & Hc & ->). rewrite solid_comment. unfold comment_lines.
  rewrite (comment_of_line _ _ _ _ Hc), (comment_of_value _ _ _ _ Hc). split; reflexivity.
Qed.
Definition from_held (c : comment) : Prop := exists id p, In c (held cm id p).
Lemma lines_shown cs : Forall from_held cs -> marks (lines_of cs) = flat_map as_lines (map node_of cs).
Proof.
  unfold lines_of. rewrite solid_flat. induction 1 as [|c cs (id & p & H) F IH]; [reflexivity|]. cbn [flat_map map]. unfold marks in *.
  rewrite map_app, IH. f_equal. destruct (held_lines id p c H) as [E _]. rewrite <- E. unfold as_lines.
  pose proof (placed_extra id p) as X. rewrite Forall_forall in X. rewrite (X (node_of c)) by (apply in_map; exact H). reflexivity.
Qed.
Lemma held_from id p : Forall from_held (held cm id p).
Proof. apply Forall_forall. intros c Hc. exists id, p. exact Hc. Qed.
Lemma filter_from q cs : Forall from_held cs -> Forall from_held (filter q cs).
Proof. rewrite !Forall_forall. intros H c Hc. apply filter_In in Hc as [Hc _]. auto. Qed.
Lemma filter_line cs : Forall from_held cs -> map node_of (filter c_line cs) = filter line_comment (map node_of cs).
Proof.
  induction 1 as [|c cs (id & p & H) F IH]; [reflexivity|]. cbn [filter map]. destruct (held_lines id p c H) as [_ ->].
  destruct (c_line c); cbn [map]; rewrite IH; reflexivity.
Qed.
Lemma filter_block cs : Forall from_held cs -> map node_of (blocks cs) = filter (fun c => negb (line_comment c)) (map node_of cs).
Proof.
  unfold blocks. induction 1 as [|c cs (id & p & H) F IH]; [reflexivity|]. cbn [filter map]. destruct (held_lines id p c H) as [_ ->].
  destruct (c_line c); cbn [map negb]; rewrite IH; reflexivity.
Qed.
Local Instance shown : dangles := shown_in cm.
Lemma opening_items n : marks (opening n) = flat_map as_lines (iopening placed n).
Proof.
  unfold opening, iopening. cbn [p_pre n_pre shown shown_in]. destruct (is_punctuation_node n).
  - rewrite lines_shown by (apply filter_from, held_from). rewrite filter_block by apply held_from. reflexivity.
  - destruct (code_token n); [|reflexivity]. rewrite lines_shown by apply held_from. reflexivity.
Qed.
Lemma closing_items n : marks (closing n) = flat_map as_lines (iclosing placed n).
Proof.
  unfold closing, iclosing. cbn [p_post n_post shown shown_in]. destruct (is_punctuation_node n).
  - rewrite lines_shown by (apply Forall_app; split; [apply filter_from|]; apply held_from).
    rewrite map_app, filter_line by apply held_from. reflexivity.
  - destruct (code_token n); [|reflexivity]. rewrite lines_shown by apply held_from. reflexivity.
Qed.
Lemma hollow_placed n : hollow cm (n_id n) = ihollow placed n.
Proof. unfold hollow, ihollow, placed, held. destruct (cm_get (n_id n) cm) as [bk|]; [|reflexivity]. destruct (dangling bk); reflexivity. Qed.
Lemma marks_app a b : marks (a ++ b) = marks a ++ marks b.
Proof. apply map_app. Qed.
Lemma ahead_items n c : marks (ahead n c) = flat_map as_lines (iahead placed n c).
Proof.
  unfold ahead, iahead. rewrite !marks_app, !flat_map_app. f_equal; [|f_equal].
  - destruct (late n c); [apply opening_items|reflexivity].
  - cbn [dangle n_in shown shown_in]. rewrite hollow_placed. destruct (_ && _); [|reflexivity]. apply lines_shown, held_from.
  - destruct (early n c); [apply closing_items|reflexivity].
Qed.
Lemma mleaves_items n : mleaves n = flat_map as_lines (items placed n).
Proof.
  induction n as [i cs IH] using node_nested_ind. destruct (n_extra (Node i cs)) eqn:Hx.
  { destruct cs; cbn [mleaves items]; rewrite Hx; reflexivity. }
  rewrite mleaves_inner, items_inner by exact Hx. rewrite !flat_map_app. f_equal; [|f_equal].
  - unfold front, ifront. destruct (existsb _ _); [reflexivity|apply opening_items].
  - unfold inner, iinner. destruct cs as [|c cs]; [unfold as_lines; cbn [children flat_map]; rewrite Hx; reflexivity|].
    cbn [children].
    assert (HI : forall x, In x (code_children (Node i (c :: cs))) -> In x (c :: cs)) by (intros x Hx'; apply filter_In in Hx'; apply Hx').
    revert HI. generalize (code_children (Node i (c :: cs))). intros l HI. rewrite Forall_forall in IH.
    induction l as [|x l IHl]; [reflexivity|]. cbn [flat_map]. rewrite IHl by (intros y Hy; apply HI; right; exact Hy).
    rewrite !flat_map_app, ahead_items, IH by (apply HI; left; reflexivity). reflexivity.
  - unfold behind, ibehind. destruct (existsb _ _); [reflexivity|apply closing_items].
Qed.
End Placed.

(* ------------------------------------------------------------ comments are visible *)

Lemma slash_first (s : ustr) : starts_with (U "//") s = true \/ starts_with (U "/*") s = true -> exists r, s = 47%N :: r.
Proof.
  intros [H|H]; destruct s as [|c r]; try discriminate; unfold starts_with in H; cbn in H;
    destruct c as [|q]; try discriminate; do 6 (destruct q as [q|q|]; try discriminate); eauto.
Qed.
Lemma slash_trim_end r : exists r', trim_end (47%N :: r) = 47%N :: r'.
Proof. cbn [trim_end]. destruct (trim_end r); eexists; reflexivity. Qed.
Lemma slash_visible r : visible (47%N :: r) <> [].
Proof. discriminate. Qed.
Lemma comment_has_line n : starts_with (U "//") (n_text n) = true \/ starts_with (U "/*") (n_text n) = true -> comment_lines n <> [].
Proof.
  intro H. apply slash_first in H as (r & E). unfold comment_lines. rewrite E. destruct (slash_trim_end r) as (r' & ->).
  unfold normal_lines. destruct (has_kind "line_comment" n); [discriminate|].
  cbn [split_on]. destruct (split_on c_nl r') as [|p ps] eqn:S.
  - destruct (starts_with _ _); discriminate.
  - change ((47 =? c_nl)%N) with false. cbn match. destruct (starts_with _ _); [discriminate|]. cbn [map].
    unfold trim at 1. change (trim_start (47%N :: p)) with (47%N :: p). destruct (slash_trim_end p) as (p' & ->).
    cbn [filter]. discriminate.
Qed.

(* ------------------------------------------------------------ counting visible characters *)

Definition shows (ls : list node) : nat := List.length (visible (flat_map n_text ls)).
Lemma shows_app a b : shows (a ++ b) = (shows a + shows b)%nat.
Proof. unfold shows. rewrite flat_map_app, visible_app, app_length. reflexivity. Qed.
Lemma shows_cons n l : shows (n :: l) = (List.length (visible (n_text n)) + shows l)%nat.
Proof. unfold shows. cbn [flat_map]. rewrite visible_app, app_length. reflexivity. Qed.
Lemma shows_perm a b : Permutation a b -> shows a = shows b.
Proof. induction 1; rewrite ?shows_cons in *; lia. Qed.
Lemma thinned_shows {DG : dangles} a b : thinned a b -> (shows b <= shows a)%nat.
Proof. induction 1; rewrite ?shows_cons; lia. Qed.
Lemma thinned_all {DG : dangles} a b : thinned a b -> Forall (fun n => n_extra n = true -> visible (n_text n) <> []) a -> (shows a <= shows b)%nat -> b = a.
Proof.
  induction 1 as [|n a b H IH|w a b L0 H IH]; intros F L; [reflexivity| |]; inversion F as [|? ? E F']; subst; rewrite ?shows_cons in L.
  - f_equal. apply IH; [exact F'|lia].
  - exfalso. pose proof (thinned_shows _ _ H). specialize (E eq_refl). cbn [mark n_text i_text] in *.
    change (n_text (mark w)) with w in *. destruct (visible w); [apply E; reflexivity|cbn [List.length] in L; lia].
Qed.
Lemma folded_length s : List.length (folded s) = List.length (visible s).
Proof. unfold folded, to_lowercase. apply map_length. Qed.
Lemma kept_shows ls ws : kept ls ws -> List.length (visible (List.concat ws)) = shows ls.
Proof. intro K. apply kept_folded in K. apply (f_equal (@List.length _)) in K. rewrite !folded_length in K. exact K. Qed.
Lemma shuffled_shows a b c : shuffled a b c ->
  List.length (visible (List.concat c)) = (List.length (visible (List.concat a)) + List.length (visible (List.concat b)))%nat.
Proof. induction 1; [reflexivity| |]; cbn [List.concat]; rewrite !visible_app, !app_length; lia. Qed.
Lemma lines_shows l : List.length (visible (List.concat (flat_map comment_lines l))) = shows (flat_map (fun n => map line_token (comment_lines n)) l).
Proof.
  unfold shows. do 2 f_equal. induction l as [|n l IH]; [reflexivity|]. cbn [flat_map]. rewrite concat_app, flat_map_app, IH. f_equal.
  clear. induction (comment_lines n) as [|w ws IH]; [reflexivity|]. cbn. rewrite IH. reflexivity.
Qed.
Definition weight (l : list node) : nat := List.length (visible (List.concat (flat_map comment_lines l))).
Lemma weight_app a b : weight (a ++ b) = (weight a + weight b)%nat.
Proof. unfold weight. rewrite flat_map_app, concat_app, visible_app, app_length. reflexivity. Qed.
Lemma weight_perm a b : Permutation a b -> weight a = weight b.
Proof.
  induction 1; try reflexivity.
  - change (x :: l) with ([x] ++ l). change (x :: l') with ([x] ++ l'). rewrite !weight_app. lia.
  - change (y :: x :: l) with ([y] ++ [x] ++ l). change (x :: y :: l) with ([x] ++ [y] ++ l). rewrite !weight_app. lia.
  - lia.
Qed.
Lemma weight_part a b : part a b -> (weight a <= weight b)%nat.
Proof. intros [r P]. rewrite <- (weight_perm _ _ P), weight_app. lia. Qed.
(* A list without repetitions weighs no more than a list that contains it. *)
Lemma weight_incl a : NoDup a -> forall b, incl a b -> (weight a <= weight b)%nat.
Proof.
  induction 1 as [|x a Hx D IH]; intros b I; [cbn; lia|].
  destruct (in_split x b (I x (or_introl eq_refl))) as (b1 & b2 & ->).
  change (x :: a) with ([x] ++ a). change (b1 ++ x :: b2) with (b1 ++ [x] ++ b2). rewrite !weight_app.
  assert (weight a <= weight (b1 ++ b2))%nat; [|rewrite weight_app in *; lia].
  apply IH. intros y Hy. specialize (I y (or_intror Hy)). apply in_app_iff in I as [I|[->|I]]; [apply in_or_app; left; exact I|contradiction|apply in_or_app; right; exact I].
Qed.
Lemma weight_items l : shows (flat_map as_lines l) = (shows (filter token l) + weight (filter n_extra l))%nat.
Proof.
  induction l as [|n l IH]; [reflexivity|]. cbn [flat_map filter]. rewrite shows_app, IH. unfold as_lines, token.
  destruct (n_extra n) eqn:E; cbn [negb].
  - change (n :: filter n_extra l) with ([n] ++ filter n_extra l). rewrite weight_app. unfold weight at 2. rewrite lines_shows. cbn [flat_map].
    rewrite app_nil_r. unfold token. lia.
  - change (n :: filter (fun n => negb (n_extra n)) l) with ([n] ++ filter (fun n => negb (n_extra n)) l). rewrite shows_app. unfold token. lia.
Qed.
