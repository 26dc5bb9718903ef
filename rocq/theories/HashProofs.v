(* HashProofs.v: the order of the comment map's entries does not matter. *)
From Coq Require Import Lia Permutation.
From Verif Require Import Base Doc DocBuilder Cst Comments Term TermProofs New Formatter SpecTree
  CollectProofs CollectProofs2 ReadProofs HashOrder.

Definition same_map (cm cm' : cmap) : Prop := forall id, cm_get id cm = cm_get id cm'.

Lemma cm_get_in id v m : NoDup (map fst m) -> In (id, v) m -> cm_get id m = Some v.
Proof.
  induction m as [|[k x] m IH]; intros HN Hi; [destruct Hi|]. cbn in *. inversion HN as [|? ? Hk HN']; subst.
  destruct Hi as [E|Hi].
  - injection E as -> ->. rewrite N.eqb_refl. reflexivity.
  - destruct (N.eqb_spec k id) as [->|]; [|auto]. exfalso. apply Hk. apply (in_map fst) in Hi. exact Hi.
Qed.
Lemma cm_get_some id v m : cm_get id m = Some v -> In (id, v) m.
Proof.
  induction m as [|[k x] m IH]; cbn; [discriminate|]. destruct (N.eqb_spec k id) as [->|].
  - intro H. injection H as ->. left. reflexivity.
  - right. auto.
Qed.
Lemma permuted_same m m' : NoDup (map fst m) -> Permutation m m' -> same_map m m'.
Proof.
  intros HN HP id. assert (HN' : NoDup (map fst m')) by (apply (Permutation_NoDup (Permutation_map fst HP)); exact HN).
  destruct (cm_get id m) as [v|] eqn:E.
  - symmetry. apply cm_get_in; [exact HN'|]. apply (Permutation_in _ HP), cm_get_some, E.
  - destruct (cm_get id m') as [v|] eqn:E'; [|reflexivity]. exfalso.
    apply cm_get_some in E'. apply (Permutation_in _ (Permutation_sym HP)) in E'.
    apply (cm_get_in _ _ _ HN) in E'. congruence.
Qed.

Section Ext.
  Variables cm cm' : cmap.
  Hypothesis HM : same_map cm cm'.
  Variable checked : bool.
  Lemma bucket_same id : get_comment_bucket cm id = get_comment_bucket cm' id.
  Proof. unfold get_comment_bucket. rewrite HM. reflexivity. Qed.
  Section Step.
    Variables r r' : sort -> loc -> res dt.
    Hypothesis HR : forall s l, le (r s l) (r' s l).
    Lemma trailing_same l : le (has_trailing_newline cm checked l) (has_trailing_newline cm' checked l).
    Proof. right. unfold has_trailing_newline. rewrite bucket_same. reflexivity. Qed.
    Ltac mono :=
      repeat first
        [ apply HR | apply le_refl | apply trailing_same
        | match goal with
          | |- le (rbind _ _) (rbind _ _) => apply le_bind; [|intro]
          | |- le (mapR _ _) (mapR _ _) => apply le_mapR; intro
          | |- le (rmap _ _) (rmap _ _) => apply le_rmap
          | |- le (wrap_r _) (wrap_r _) => apply le_rmap
          | |- le (by_n _ _ _ _) _ => unfold by_n
          | |- le (by_k _ _ _ _) _ => unfold by_k
          | |- le (fst_c _ _ _) _ => unfold fst_c
          | |- le (opt_k _ _ _ _) _ => unfold opt_k
          | |- le (opt_n _ _ _ _) _ => unfold opt_n
          | |- le (all_k _ _ _ _) _ => unfold all_k
          | |- le (all1_k _ _ _ _) _ => unfold all1_k
          | |- le (all1_n _ _ _ _) _ => unfold all1_n
          | |- le (all_c _ _ _) _ => unfold all_c
          | |- le (body_member _ _ _ _ _) _ => unfold body_member
          | |- le (get_comparsion _ _) _ => unfold get_comparsion
          | |- le (group_by_item _ _) _ => unfold group_by_item
          | |- le (if ?b then _ else _) _ => destruct b
          | |- le (match ?x with _ => _ end) _ => destruct x
          end ].
    Lemma new_step_same s l : le (new_step cm checked r s l) (new_step cm' checked r' s l).
    Proof.
      destruct s; cbn [new_step];
      match goal with |- le ?a _ =>
        let h := (let rec hd t := match t with ?f _ => hd f | _ => t end in hd a) in unfold h end;
      mono.
    Qed.
  End Step.
  Lemma new_le k : forall s l, le (new cm checked k s l) (new cm' checked k s l).
  Proof. induction k as [|k IH]; intros s l; [left; reflexivity|]. apply new_step_same. exact IH. Qed.
End Ext.
Lemma new_same cm cm' checked k s l : same_map cm cm' -> new cm checked k s l = new cm' checked k s l.
Proof.
  intro H. assert (H' : same_map cm' cm) by (intro id; symmetry; apply H).
  destruct (new_le _ _ H checked k s l) as [E|E]; [|exact E].
  destruct (new_le _ _ H' checked k s l) as [E'|E']; congruence.
Qed.

Lemma mapM_same {A B} (f g : A -> M B) l : Forall (fun x => f x = g x) l -> mapM f l = mapM g l.
Proof.
  induction 1 as [|x l Hx Hl IH]; [reflexivity|].
  change (mbind (f x) (fun y => mbind (mapM f l) (fun ys => ret (y :: ys))) =
          mbind (g x) (fun y => mbind (mapM g l) (fun ys => ret (y :: ys)))).
  rewrite Hx, IH. reflexivity.
Qed.
Lemma run_same cm cm' b t : same_map cm cm' -> run cm b t = run cm' b t.
Proof.
  intro H. assert (HP : forall p, build_punct cm p = build_punct cm' p).
  { intros [c id]. unfold build_punct. rewrite (bucket_same _ _ H). reflexivity. }
  assert (HPo : forall p, build_punct_opt cm p = build_punct_opt cm' p).
  { intros [p|]; cbn; [rewrite HP|]; reflexivity. }
  assert (HB : forall h x m, build_node cm b h x m = build_node cm' b h x m).
  { intros h x m. unfold build_node. rewrite (bucket_same _ _ H). destruct h; rewrite ?HPo; reflexivity. }
  induction t using dt_nested_ind; cbn [run]; try reflexivity.
  - rewrite (mapM_same _ _ _ H0). reflexivity.
  - rewrite IHt. reflexivity.
  - rewrite IHt. reflexivity.
  - rewrite IHt. reflexivity.
  - rewrite (mapM_same _ _ _ H0). reflexivity.
  - rewrite (mapM_same _ _ _ H0). reflexivity.
  - erewrite mapM_same; [reflexivity|]. eapply Forall_impl; [|exact H0]. intros [x tr] Hx. cbn in *. rewrite Hx. reflexivity.
  - erewrite mapM_same; [reflexivity|]. eapply Forall_impl; [|exact H0]. intros [x tr] Hx. cbn in *. rewrite Hx. reflexivity.
  - rewrite HB, (mapM_same _ _ _ H0), (mapM_same _ _ _ H1). reflexivity.
  - apply HP.
Qed.

Lemma missing_permuted cm cm' marks : Permutation cm cm' ->
  Permutation (missing_comments cm marks) (missing_comments cm' marks).
Proof.
  intro H. unfold missing_comments. assert (HP : Permutation (map_comments cm) (map_comments cm')).
  { unfold map_comments. induction H; cbn; [constructor| | |eapply perm_trans; eassumption].
    - apply Permutation_app_head. assumption.
    - rewrite !app_assoc. apply Permutation_app_tail, Permutation_app_comm. }
  induction HP; cbn; [constructor| | |eapply perm_trans; eassumption].
  - destruct (negb _); [constructor|]; assumption.
  - destruct (negb (is_printed marks x)), (negb (is_printed marks y)); try apply perm_swap; apply Permutation_refl.
Qed.

Lemma collected_keys root cm : collect_comments root = Ok cm -> NoDup (map fst cm).
Proof.
  unfold collect_comments. destruct (_ && _); [intro H; injection H as <-; constructor|].
  intro H. apply collect_adds in H. destruct H as [_ _ _ H]. apply H. constructor.
Qed.

Lemma hashed_result order checked stack cfg root : (forall m, Permutation (order m) m) ->
  snd (format_tree_hashed order checked stack cfg root) = format_tree checked stack cfg root.
Proof.
  intro HO. unfold format_tree_hashed, format_tree. destruct (collect_comments root) as [cm|y|] eqn:Hc; cbn [rbind]; [|reflexivity..].
  assert (HP : Permutation cm (order cm)) by (symmetry; apply HO).
  assert (HS : same_map cm (order cm)) by (apply permuted_same; [eapply collected_keys; eassumption|exact HP]).
  rewrite <- (new_same _ _ checked stack Root (root_loc root) HS).
  destruct (new cm checked stack Root (root_loc root)) as [d|y|]; cbn [rbind]; [|reflexivity..].
  destruct (PrettyConfig_new (cfg_indent_size cfg)) as [b|y|]; cbn [rbind]; [|reflexivity..].
  rewrite <- (run_same _ _ b d HS).
  destruct (run cm b d) as [[o marks]|y|]; cbn [rbind fst snd]; [|reflexivity..].
  unfold assert_no_missing_comments.
  pose proof (missing_permuted _ _ marks HP) as HM.
  destruct (missing_comments cm marks) as [|c l].
  - apply Permutation_nil in HM. rewrite HM. reflexivity.
  - destruct (missing_comments (order cm) marks) as [|c' l'] eqn:E; [|reflexivity].
    symmetry in HM. apply Permutation_nil in HM. discriminate.
Qed.
Lemma hashed_reports o1 o2 checked stack cfg root :
  (forall m, Permutation (o1 m) m) -> (forall m, Permutation (o2 m) m) ->
  Permutation (fst (format_tree_hashed o1 checked stack cfg root)) (fst (format_tree_hashed o2 checked stack cfg root)).
Proof.
  intros H1 H2. unfold format_tree_hashed. destruct (collect_comments root) as [cm|y|] eqn:Hc; [|constructor..].
  assert (P1 : Permutation cm (o1 cm)) by (symmetry; apply H1).
  assert (P2 : Permutation cm (o2 cm)) by (symmetry; apply H2).
  pose proof (collected_keys _ _ Hc) as HN.
  pose proof (permuted_same _ _ HN P1) as S1. pose proof (permuted_same _ _ HN P2) as S2.
  rewrite <- (new_same _ _ checked stack Root (root_loc root) S1), <- (new_same _ _ checked stack Root (root_loc root) S2).
  destruct (new cm checked stack Root (root_loc root)) as [d|y|]; cbn [rbind]; [|constructor..].
  destruct (PrettyConfig_new (cfg_indent_size cfg)) as [b|y|]; cbn [rbind]; [|constructor..].
  rewrite <- (run_same _ _ b d S1), <- (run_same _ _ b d S2).
  destruct (run cm b d) as [[o marks]|y|]; cbn [rbind fst snd]; [|constructor..].
  apply Permutation_map. apply missing_permuted. eapply perm_trans; [symmetry; exact P1|exact P2].
Qed.
