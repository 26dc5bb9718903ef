(* ReadProofs2.v: for trees of the grammar, every lookup made while reading and
   building succeeds and every printed text comes from the source. *)
From Verif Require Import Base Doc DocBuilder SpecDoc Cst Comments SpecTree SpecComments SpecRead Term New
  Formatter DocProofs CollectProofs CollectProofs2 TermProofs TermProofs2 FormatProofs NewProofs ReadProofs.
From Coq Require Import Lia.
Open Scope res_scope.
Local Open Scope string_scope.

(* ------------------------------------------------------------ building after reading *)

Section Strict.
  Variable root : node.
  Variable cm : cmap.
  Hypothesis G : grammatical root.
  Hypothesis HC : collect_comments root = Ok cm.

  Definition recorded (id : N) : Prop := exists bk, cm_get id cm = Some bk.
  Lemma code_recorded n : code_node root n -> recorded (n_id n).
  Proof.
    intro H. destruct (collected_key root cm n (gr_root root G) HC H) as (bk & E).
    exists bk. unfold get_comment_bucket, must in E. destruct (cm_get _ cm); congruence.
  Qed.
  Lemma cpos_eligible l c : cpos root l -> In c (kids l) -> eligible l c -> cpos root c.
  Proof.
    intros Hl Hc He. econstructor; [exact Hl|exact Hc|].
    pose proof (pos_node _ _ (cpos_pos _ _ Hl)) as Hn.
    pose proof (kids_child _ _ Hc) as Hk.
    pose proof (all_nodes_child _ _ _ Hn Hk) as Hn'.
    assert (X : n_extra (l_node c) = true ->
                kind_in (n_kind (l_node c)) ["line_comment"; "block_comment"] = true)
      by (apply (gr_extras root G); exact Hn').
    destruct He as [H1 H2|H1 H2|f H1 H2|H1].
    - unfold code, code_token. unfold is_named in H1. unfold is_extra in H2. rewrite H1, H2. reflexivity.
    - unfold code, code_token. unfold is_named in H1. rewrite H1. unfold kind in H2.
      destruct (n_extra (l_node c)); [|reflexivity]. rewrite (X eq_refl) in H2. discriminate.
    - unfold has_field in H1. destruct (n_field (l_node c)) as [g|] eqn:Eg; [|discriminate].
      apply String.eqb_eq in H1. subst g. exact (gr_fields root G _ _ _ Hn Hk Eg H2).
    - unfold code, code_token. unfold kind in H1. destruct (n_extra (l_node c)).
      + specialize (X eq_refl). apply kind_in_spec in H1. apply kind_in_spec in X. exfalso. simpl in H1, X.
        destruct H1 as [H1|[H1|[H1|[]]]]; destruct X as [X|[X|[]]]; rewrite <- H1 in X; discriminate.
      + rewrite H1. destruct (n_named _); reflexivity.
  Qed.
  Lemma peek_in right s : peek right = Some s -> In s right /\ n_extra s = false.
  Proof.
    rewrite peek_find. intro H. apply find_some in H. destruct H as [H1 H2]. split; [exact H1|].
    apply negb_true_iff. exact H2.
  Qed.
  Lemma cpos_punct l b i : cpos root l -> punct_from l = Some (Punct b i) -> recorded i.
  Proof.
    intros Hl H. destruct Hl as [|p l Hp Hk He]; [discriminate|].
    unfold punct_from in H. destruct (peek (l_right l)) as [s|] eqn:E; [|discriminate].
    apply peek_in in E. destruct E as [E1 E2]. pose proof (kid_right _ _ _ Hk E1) as Hs.
    assert (code s = true /\ i = n_id s) as [Hc ->].
    { unfold code, code_token. rewrite E2. unfold has_kind in H. simpl.
      destruct (String.eqb (n_kind s) ","); [injection H as _ <-; split; [apply orb_true_r|reflexivity]|].
      destruct (String.eqb (n_kind s) ";"); [injection H as _ <-; split; [apply orb_true_r|reflexivity]|discriminate]. }
    apply code_recorded. econstructor; [apply cpos_code; exact Hp|]. apply filter_In. auto.
  Qed.
  Lemma recorded_bucket id : recorded id -> exists bk, get_comment_bucket cm id = Ok bk.
  Proof. intros (bk & E). exists bk. unfold get_comment_bucket. rewrite E. reflexivity. Qed.

  Definition piece (s : ustr) : Prop := fixed_piece s \/ source_piece root s.

  Lemma new_strict checked fuel : 6 * height root < fuel ->
    spec (fun y => y <> lookup_failure) (okd piece recorded) (new cm checked fuel Root (root_loc root)).
  Proof.
    intro H. assert (SP : forall l, cpos root l -> In (l_node l) (all_nodes root))
      by (intros l Hl; apply pos_node, cpos_pos; exact Hl).
    apply (new_frame cm checked (cpos root)).
    - intros y Hy ->. discriminate.
    - apply cpos_eligible.
    - intros l c Hl Hc Hk Hn He. eapply (gr_filters root G); [apply SP; exact Hl|apply kids_child; exact Hc| | |]; assumption.
    - intros l Hl. apply code_recorded, cpos_code. exact Hl.
    - apply cpos_punct.
    - intros l Hl. destruct (recorded_bucket (n_id (l_node l))) as (bk & ->); [apply code_recorded, cpos_code; exact Hl|exact I].
    - intros s Hs. left. exact Hs.
    - intros l Hl. right. apply SP_text. auto.
    - intros l Hl. right. apply SP_lower. auto.
    - intros l Hl. right. apply SP_upper. auto.
    - intros l c Hl Hc. right. apply SP_text. eapply all_nodes_child; [apply SP; exact Hl|apply kids_child; exact Hc].
    - intros l Hl. right. apply SP_quoted. auto.
    - intros l Hl. right. change (c_sp :: value l ++ [c_sp])%list with (U " " ++ n_text (l_node l) ++ U " ")%list.
      apply SP_spaced. auto.
    - intros l l' Hl Hl'. right. apply SP_date; auto.
    - constructor.
    - exact I.
    - unfold weight, rank. simpl l_node. lia.
  Qed.

  (* ---- building never fails ---- *)
  Definition good {A} (m : M A) : Prop := exists a w, m = Ok (a, w).
  Lemma good_bind {A B} (m : M A) (f : A -> M B) : good m -> (forall a, good (f a)) -> good (mbind m f).
  Proof. intros (a & w & ->) H. destruct (H a) as (b & w' & E). unfold mbind. rewrite E. exists b, (w ++ w')%list. reflexivity. Qed.
  Lemma good_ret {A} (a : A) w : good (Ok (a, w)).
  Proof. exists a, w. reflexivity. Qed.
  Lemma good_map {A B} (f : A -> B) m : good m -> good (mmap f m).
  Proof. intro H. apply good_bind; [exact H|]. intro. apply good_ret. Qed.
  Lemma good_mapM {A B} (f : A -> M B) l : Forall (fun x => good (f x)) l -> good (mapM f l).
  Proof.
    induction 1 as [|x l Hx Hl IH]; [apply good_ret|]. simpl. apply good_bind; [exact Hx|]. intro y.
    apply good_bind; [exact IH|]. intro. apply good_ret.
  Qed.
  Lemma good_lift {A} (a : A) : good (lift (Ok a)).
  Proof. apply good_ret. Qed.
  Lemma good_seqM l : Forall good l -> good (seqM l).
  Proof. intro H. apply good_map. apply good_mapM. exact H. Qed.
  Lemma good_bucket id : recorded id -> good (lift (get_comment_bucket cm id)).
  Proof. intro H. destruct (recorded_bucket id H) as (bk & ->). apply good_lift. Qed.
  Lemma good_punct p : okpunct recorded p -> good (build_punct cm p).
  Proof. destruct p as [c i]. intro H. apply good_bind; [apply good_bucket; exact H|]. intro. apply good_ret. Qed.
  Lemma good_dangling bk : is_nil (dangling bk) = false -> exists ds, handle_dangling_comments bk = Ok ds.
  Proof. unfold handle_dangling_comments. destruct (dangling bk); [discriminate|eauto]. Qed.
  Lemma good_or_dangling bk m : good m -> good (members_or_dangling bk m).
  Proof.
    intro H. unfold members_or_dangling. destruct (is_nil _) eqn:E; [exact H|].
    destruct (good_dangling bk E) as (ds & ->). apply good_ret.
  Qed.
  Lemma good_or_bracket b bk m : good m -> good (members_or_bracket b bk m).
  Proof.
    intro H. unfold members_or_bracket. destruct (is_nil _) eqn:E; [exact H|].
    destruct (good_dangling bk E) as (ds & Ed). unfold dangling_in_bracket_surround. rewrite Ed. apply good_ret.
  Qed.
  Lemma good_pre bk : good (pre_docs bk).
  Proof. apply good_ret. Qed.
  Lemma good_post bk : good (post_docs bk).
  Proof. unfold post_docs. destruct (is_nil _); apply good_ret. Qed.
  Lemma good_node b h x m : okx recorded x -> good m -> good (build_node cm b h x m).
  Proof.
    intros [H1 H2] Hm. unfold build_node. apply good_bind; [apply good_bucket; exact H1|]. intro bk.
    assert (good (build_punct_opt cm (x_punc x))).
    { destruct (x_punc x); [|apply good_ret]. apply good_map, good_punct. exact H2. }
    destruct h; try (apply good_seqM; repeat constructor;
      auto using good_pre, good_post, good_or_dangling, good_or_bracket).
    destruct (is_nil _); [exact Hm|apply good_ret].
  Qed.
  Lemma run_good b t : okd piece recorded t -> good (run cm b t).
  Proof.
    induction t using dt_nested_ind; intro D; inversion D; subst; cbn [run].
    - apply good_ret.
    - apply good_ret.
    - apply good_ret.
    - apply good_map, good_mapM. rewrite Forall_forall in *. auto.
    - apply good_map; auto.
    - apply good_map; auto.
    - apply good_map; auto.
    - apply good_map, good_mapM. rewrite Forall_forall in *. auto.
    - apply good_bind; [apply good_mapM; rewrite Forall_forall in *; auto|]. intro ds.
      unfold surround, tins_ins. destruct (t_str o) as [so|]; [|congruence]. destruct (t_str c) as [sc|]; [|congruence].
      cbn. destruct ds; apply good_ret.
    - apply good_map, good_mapM. rewrite Forall_forall in *. intros [x tr] Hx. apply good_map.
      apply (H (x, tr) Hx). apply (H1 (x, tr) Hx).
    - apply good_map, good_mapM. rewrite Forall_forall in *. intros [x tr] Hx. apply good_map.
      apply (H (x, tr) Hx). apply (H3 (x, tr) Hx).
    - apply good_map, good_seqM. constructor; [|constructor; [|constructor]].
      + apply good_node; [assumption|]. apply good_mapM. rewrite Forall_forall in *. auto.
      + apply good_mapM. rewrite Forall_forall in *. auto.
    - apply good_punct. assumption.
  Qed.
End Strict.
