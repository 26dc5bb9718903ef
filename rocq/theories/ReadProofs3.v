(* ReadProofs3.v: what reading and building a tree gives for the whole program. *)
From Verif Require Import Base Doc DocBuilder SpecDoc Cst Comments SpecTree SpecComments SpecRead Term New
  Formatter DocProofs CollectProofs CollectProofs2 TermProofs TermProofs2 FormatProofs NewProofs ReadProofs ReadProofs2.
From Coq Require Import Lia.
Open Scope res_scope.
Local Open Scope string_scope.

(* ------------------------------------------------------------ no other loop *)

Definition fin {A} (m : res A) : Prop := m <> Overflow.
Lemma fin_ok {A} (a : A) : fin (Ok a).
Proof. discriminate. Qed.
Lemma fin_panic {A} y : fin (Panic y : res A).
Proof. discriminate. Qed.
Lemma fin_bind {A B} (m : res A) (f : A -> res B) : fin m -> (forall a, fin (f a)) -> fin (rbind m f).
Proof. destruct m; simpl; unfold fin; auto; congruence. Qed.
Lemma fin_mbind {A B} (m : M A) (f : A -> M B) : fin m -> (forall a, fin (f a)) -> fin (mbind m f).
Proof.
  intros H Hf. destruct m as [[a w]|y|]; simpl; [|apply fin_panic|exfalso; apply H; reflexivity].
  pose proof (Hf a). destruct (f a) as [[b w']|y|]; [discriminate|discriminate|exfalso; apply H0; reflexivity].
Qed.
Lemma fin_ret {A} (a : A) : fin (ret a).
Proof. discriminate. Qed.
Lemma fin_mmap {A B} (f : A -> B) m : fin m -> fin (mmap f m).
Proof. intro H. apply fin_mbind; [exact H|]. intro. apply fin_ret. Qed.
Lemma fin_lift {A} (m : res A) : fin m -> fin (lift m).
Proof. intro H. apply fin_bind; [exact H|]. discriminate. Qed.
Lemma fin_mapM {A B} (f : A -> M B) l : Forall (fun x => fin (f x)) l -> fin (mapM f l).
Proof.
  induction 1 as [|x l Hx Hl IH]; [apply fin_ret|]. simpl. apply fin_mbind; [exact Hx|]. intro y.
  apply fin_mbind; [exact IH|]. intro. apply fin_ret.
Qed.
Lemma fin_seqM l : Forall fin l -> fin (seqM l).
Proof. intro H. apply fin_mmap, fin_mapM. exact H. Qed.
Lemma fin_bucket cm id : fin (get_comment_bucket cm id).
Proof. unfold get_comment_bucket, must. destruct (cm_get id cm); discriminate. Qed.
Lemma fin_punct cm p : fin (build_punct cm p).
Proof. destruct p. apply fin_mbind; [apply fin_lift, fin_bucket|]. discriminate. Qed.
Lemma fin_dangling bk : fin (handle_dangling_comments bk).
Proof. unfold handle_dangling_comments. destruct (dangling bk); discriminate. Qed.
Lemma fin_or_dangling bk m : fin m -> fin (members_or_dangling bk m).
Proof.
  intro H. unfold members_or_dangling. destruct (is_nil _); [exact H|].
  apply fin_mbind; [apply fin_lift, fin_dangling|]. discriminate.
Qed.
Lemma fin_or_bracket b bk m : fin m -> fin (members_or_bracket b bk m).
Proof.
  intro H. unfold members_or_bracket. destruct (is_nil _); [exact H|].
  apply fin_mbind; [apply fin_lift|discriminate].
  unfold dangling_in_bracket_surround. apply fin_bind; [apply fin_dangling|discriminate].
Qed.
Lemma fin_node cm b h x m : fin m -> fin (build_node cm b h x m).
Proof.
  intros Hm. unfold build_node. apply fin_mbind; [apply fin_lift, fin_bucket|]. intro bk.
  assert (fin (build_punct_opt cm (x_punc x))).
  { destruct (x_punc x); [|apply fin_ret]. apply fin_mmap, fin_punct. }
  assert (fin (post_docs bk)) by (unfold post_docs; destruct (is_nil _); discriminate).
  assert (fin (pre_docs bk)) by discriminate.
  destruct h; try (apply fin_seqM; repeat constructor; auto using fin_or_dangling, fin_or_bracket).
  destruct (is_nil _); [exact Hm|discriminate].
Qed.
Lemma run_fin cm b t : fin (run cm b t).
Proof.
  induction t using dt_nested_ind; cbn [run]; try discriminate.
  - apply fin_mmap, fin_mapM. assumption.
  - apply fin_mmap. assumption.
  - apply fin_mmap. assumption.
  - apply fin_mmap. assumption.
  - apply fin_mmap, fin_mapM. assumption.
  - apply fin_mbind; [apply fin_mapM; assumption|]. intro ds. apply fin_lift.
    unfold surround. repeat (apply fin_bind; [|intro]); repeat match goal with
      | |- fin (must _ ?o) => destruct o; discriminate
      | |- fin (match ?x with _ => _ end) => destruct x
      end; try discriminate.
  - apply fin_mmap, fin_mapM. rewrite Forall_forall in *. intros [x tr] Hx. apply fin_mmap. apply (H (x, tr) Hx).
  - apply fin_mmap, fin_mapM. rewrite Forall_forall in *. intros [x tr] Hx. apply fin_mmap. apply (H (x, tr) Hx).
  - apply fin_mmap, fin_seqM. constructor; [|constructor; [|constructor]].
    + apply fin_node, fin_mapM. assumption.
    + apply fin_mapM. assumption.
  - apply fin_punct.
Qed.
Lemma fin_comment_of a b c : fin (comment_of a b c).
Proof. unfold comment_of. destruct (has_kind _ _); [discriminate|]. destruct (has_kind _ _); discriminate. Qed.
Lemma collect_go_fin i cs : Forall (fun n => forall m, fin (collect n m)) cs ->
  forall left pending last m, fin (collect_go collect i left cs pending last m).
Proof.
  induction 1 as [|n cs Hn Hcs IH]; intros left pending last m; cbn [collect_go]; [discriminate|].
  destruct (n_extra n).
  - apply fin_bind; [apply fin_comment_of|]. intro co. destruct last as [[lid lrow]|]; [|apply IH].
    destruct (peek cs) as [s|]; [|apply IH]. destruct (is_punctuation_node s); [apply IH|].
    destruct (_ =? _)%N; apply IH.
  - destruct (associable n); [|apply IH]. apply fin_bind; [apply Hn|]. intro. apply IH.
Qed.
Lemma collect_fin n : forall m, fin (collect n m).
Proof.
  induction n as [i cs HF] using node_nested_ind. intro m. rewrite collect_eq. cbv zeta.
  destruct cs; [discriminate|]. apply collect_go_fin. exact HF.
Qed.
Lemma collect_comments_fin root : fin (collect_comments root).
Proof. unfold collect_comments. destruct (_ && _); [discriminate|apply collect_fin]. Qed.

(* ------------------------------------------------------------ the whole program *)

Lemma format_tree_terminates checked stack cfg root :
  filters_known root -> 6 * height root < stack -> format_tree checked stack cfg root <> Overflow.
Proof.
  intros HF HS. unfold format_tree. apply fin_bind; [apply collect_comments_fin|]. intro cm.
  apply fin_bind; [apply new_terminates; assumption|]. intro t.
  apply fin_bind; [unfold PrettyConfig_new; destruct (_ =? _)%N; discriminate|]. intro b.
  apply fin_bind; [apply run_fin|]. intro built.
  unfold assert_no_missing_comments. destruct (is_nil _); discriminate.
Qed.

Lemma format_tree_more checked k k' cfg root :
  k <= k' -> format_tree checked k cfg root <> Overflow ->
  format_tree checked k' cfg root = format_tree checked k cfg root.
Proof.
  intros Hk H. unfold format_tree in *. destruct (collect_comments root) as [cm| |]; cbn [rbind] in *; try reflexivity.
  destruct (new_more cm checked k k' Root (root_loc root) Hk) as [E|E].
  - rewrite E in H. cbn [rbind] in H. congruence.
  - rewrite E. reflexivity.
Qed.

Lemma grammatical_collects root : grammatical root -> exists cm, collect_comments root = Ok cm.
Proof.
  intro G. apply (proj2 (collect_iff root (gr_root root G))). intros n left c right (Hn & Hc & He).
  assert (X : In n (all_nodes root)).
  { clear -Hn. induction Hn; [apply all_nodes_self|]. eapply all_nodes_child; [eassumption|].
    apply filter_In in H. tauto. }
  assert (Y : In c (all_nodes root)).
  { eapply all_nodes_child; [exact X|]. unfold child_at in Hc. rewrite Hc. apply in_or_app. simpl; auto. }
  pose proof (gr_extras root G c Y He) as K. unfold is_comment_kind, has_kind.
  unfold kind_in in K. simpl in K. rewrite orb_false_r in K. exact K.
Qed.

Lemma format_tree_outcome checked stack cfg root :
  grammatical root -> 6 * height root < stack -> cfg_indent_size cfg <> 0%N ->
  exists cm, collect_comments root = Ok cm /\
    ((exists t d marks,
        new cm checked stack Root (root_loc root) = Ok t /\
        run cm {| indent_size := cfg_indent_size cfg |} t = Ok (d, marks) /\
        format_tree checked stack cfg root =
          (if is_nil (missing_comments cm marks) then Ok (pretty_print d (max_width cfg))
           else Panic "## There are erased comment node(s)")) \/
     (exists y, new cm checked stack Root (root_loc root) = Panic y /\ y <> lookup_failure /\
        format_tree checked stack cfg root = Panic y)).
Proof.
  intros G HS HI. destruct (grammatical_collects root G) as (cm & HC). exists cm. split; [exact HC|].
  pose proof (new_strict root cm G HC checked stack HS) as N. unfold format_tree. rewrite HC. cbn [rbind].
  destruct (new cm checked stack Root (root_loc root)) as [t|y|]; cbn [spec rbind] in *; [left|right|destruct N].
  - rewrite (pretty_config_pos _ HI). cbn [rbind].
    destruct (run_good root cm {| indent_size := cfg_indent_size cfg |} t N) as (d & marks & R).
    exists t, d, marks. split; [reflexivity|]. split; [exact R|]. rewrite R. cbn [rbind snd fst].
    unfold assert_no_missing_comments. destruct (is_nil _); reflexivity.
  - exists y. auto.
Qed.

Lemma no_lookup_failure checked stack cfg root y :
  grammatical root -> 6 * height root < stack ->
  format_tree checked stack cfg root = Panic y -> y <> lookup_failure.
Proof.
  intros G HS H. destruct (N.eq_dec (cfg_indent_size cfg) 0) as [E|E].
  - destruct (grammatical_collects root G) as (cm & HC).
    pose proof (new_strict root cm G HC checked stack HS) as N. unfold format_tree in H. rewrite HC in H. cbn [rbind] in H.
    destruct (new cm checked stack Root (root_loc root)) as [t|y'|]; cbn [spec rbind] in *; [|congruence|destruct N].
    unfold PrettyConfig_new in H. rewrite E in H. simpl in H. injection H as <-. discriminate.
  - destruct (format_tree_outcome checked stack cfg root G HS E) as (cm & _ & [(t & d & w & _ & _ & F)|(y' & _ & Hy & F)]).
    + rewrite F in H. destruct (is_nil _); [discriminate|]. injection H as <-. discriminate.
    + congruence.
Qed.

(* ------------------------------------------------------------ where text comes from *)

Definition printed_piece root (s : ustr) : Prop := fixed_piece s \/ source_piece root s \/ comment_piece root s.

Lemma Forall_two {A} (P Q : A -> Prop) l :
  Forall (fun x => P x -> Q x) l -> Forall P l -> Forall Q l.
Proof. intros H1 H2. rewrite Forall_forall in *. auto. Qed.
Lemma okd_T (T : ustr -> Prop) has t (F : T [] /\ T [c_sp] /\ T (U "{") /\ T (U "}") /\ T (U ",") /\ T (U ";")) :
  okd T has t -> T_dt T t.
Proof.
  induction t using dt_nested_ind; intro D; inversion D; subst; cbn [T_dt]; auto.
  all: repeat (split; [solve [auto]|]).
  all: try (apply (proj2 (T_mlist T F _));
    solve [apply (Forall_two (fun m => okd T has (fst m)) (fun m => T_dt T (fst m))); assumption]).
  all: try split; apply (proj2 (T_list T F _)); apply (Forall_two (okd T has) (T_dt T)); assumption.
Qed.

Lemma words_line_docs ls : Forall (fun w => In w ls) (flat_map words (line_docs ls)).
Proof.
  assert (K : forall l, Forall (fun w => In w [l]) (words (txt l))).
  { intro l. unfold txt. simpl. destruct (ustr_eqb _ _); constructor; simpl; auto. }
  induction ls as [|l ls IH]; [constructor|]. destruct ls as [|l' ls].
  - simpl line_docs. simpl flat_map. rewrite app_nil_r. apply K.
  - rewrite line_docs_cons by discriminate. cbn [flat_map]. apply Forall_app. split.
    + eapply Forall_impl; [|apply K]. simpl. tauto.
    + cbn [words nl]. simpl app. eapply Forall_impl; [|exact IH]. intros a Ha. right. exact Ha.
Qed.

Lemma comment_words c : Forall (fun w => In w (normal_lines (c_line c) (c_value c))) (words (comment_doc c)).
Proof.
  unfold comment_doc, concat. cbn [words]. rewrite comment_docs_lines, flat_map_app. apply Forall_app. split.
  - apply words_line_docs.
  - destruct (c_line c); constructor.
Qed.

Lemma fixed_b s : existsb (ustr_eqb s) (map U fixed_pieces) = true -> fixed_piece s.
Proof. intro H. apply existsb_exists in H as (x & Hx & E). apply ustr_eqb_eq in E. subst. exact Hx. Qed.
Lemma run_pieces root cm has b t d w :
  code root = true -> collect_comments root = Ok cm ->
  okd (fun s => fixed_piece s \/ source_piece root s) has t ->
  run cm b t = Ok (d, w) -> Forall (printed_piece root) (words d).
Proof.
  intros HR HC HT HRun.
  assert (F : let T s := fixed_piece s \/ source_piece root s in
    T [] /\ T [c_sp] /\ T (U "{") /\ T (U "}") /\ T (U ",") /\ T (U ";")).
  { repeat split; left; apply fixed_b; vm_compute; reflexivity. }
  refine (run_pred (fun d => Forall (printed_piece root) (words d)) (fun s => fixed_piece s \/ source_piece root s)
          b _ _ _ _ _ _ _ _ _ _ _ _ _ t d w (okd_T _ _ _ F HT) HRun).
  all: try solve [simpl; constructor].
  - intros s Hs. unfold txt. simpl. destruct (ustr_eqb _ _); constructor; [|constructor]. unfold printed_piece. tauto.
  - intros l Hl. simpl. induction Hl; simpl; [constructor|]. apply Forall_app. auto.
  - simpl. auto.
  - simpl. auto.
  - simpl. auto.
  - exact F.
  - intros id bk c Hg Hin. eapply Forall_impl; [|apply comment_words]. intros s Hs. right; right.
    assert (Hm : In c (map_comments cm)).
    { apply in_flat_map. exists (id, bk). split; [apply cm_get_in; exact Hg|exact Hin]. }
    destruct (in_map_is_comment root cm c HR HC Hm) as (n & left & x & right & (Hn & Hc & He) & Ho).
    exists x. split; [|split; [exact He|]].
    + assert (X : In n (all_nodes root)).
      { clear -Hn. induction Hn; [apply all_nodes_self|]. eapply all_nodes_child; [eassumption|].
        apply filter_In in H. tauto. }
      eapply all_nodes_child; [exact X|]. unfold child_at in Hc. rewrite Hc. apply in_or_app. simpl; auto.
    + rewrite <- (comment_of_line _ _ _ _ Ho), <- (comment_of_value _ _ _ _ Ho). exact Hs.
Qed.

Lemma format_pieces checked stack cfg root out :
  grammatical root -> format_tree checked stack cfg root = Ok out ->
  exists ps, spaced ps out /\
    Forall (fun p => fixed_piece p \/ source_piece root p \/ comment_piece root p) ps.
Proof.
  intros G H. apply format_ok in H as (cm & t & b & d & w & H1 & H2 & H3 & H4 & -> & H6).
  exists (words d). split; [apply pretty_print_words; eapply run_grouped; eauto|].
  pose (k := stack + S (6 * height root)).
  assert (new cm checked k Root (root_loc root) = Ok t).
  { destruct (new_more cm checked stack k Root (root_loc root)) as [E|E]; [unfold k; lia| |]; congruence. }
  pose proof (new_strict root cm G H1 checked k ltac:(unfold k; lia)) as N. rewrite H in N. simpl in N.
  exact (run_pieces root cm _ b t d w (gr_root root G) H1 N H4).
Qed.

(* ------------------------------------------------------------ the one loop *)

Lemma filter_loop cm checked fuel : forall l, kind_in (n_kind (l_node l)) filter_kinds = false ->
  forall p, new cm checked fuel (BooleanExpression p) l = Overflow /\
            new cm checked fuel (ConditionExpression p) l = Overflow.
Proof.
  intros l Hk.
  assert (K : is_kind "and_expression" l = false /\ is_kind "or_expression" l = false /\
              is_kind "not_expression" l = false /\ is_kind "comparison_expression" l = false).
  { unfold kind_in in Hk. cbn [filter_kinds existsb] in Hk.
    rewrite !orb_false_iff in Hk. unfold is_kind, kind, has_kind. tauto. }
  destruct K as (K1 & K2 & K3 & K4).
  induction fuel as [|k IH]; intro p; [split; reflexivity|].
  cbn [new new_step]. unfold new_BooleanExpression, new_ConditionExpression. rewrite K1, K2, K3, K4.
  destruct (IH p) as [_ ->]. destruct (IH (bool_operator l)) as [-> _]. auto.
Qed.

(* Reading with some other function once the depth [n] is reached. *)
Fixpoint new_base (cm : cmap) (checked : bool) (f : sort -> loc -> res dt) (n : nat) (s : sort) (l : loc) : res dt :=
  match n with
  | O => f s l
  | S k => new_step cm checked (new_base cm checked f k) s l
  end.
Lemma new_base_eq cm checked n k : new cm checked (n + k) = new_base cm checked (new cm checked k) n.
Proof. induction n as [|n IH]; [reflexivity|]. cbn [Nat.add new new_base]. rewrite IH. reflexivity. Qed.
