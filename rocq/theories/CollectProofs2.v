(* CollectProofs2.v: the attachments of a tree, and what collection yields. *)
From Verif Require Import Base Cst Comments SpecTree Formatter CollectProofs.
From Coq Require Import Permutation.

(* ------------------------------------------------------------ attachments *)

Lemma kid_attachments_in n : forall cs left a,
  In a (kid_attachments n left cs) <->
  (exists s c r, cs = s ++ c :: r /\ n_extra c = true /\
     a = {| at_node := fst (belongs n (rev s ++ left) c r); at_place := snd (belongs n (rev s ++ left) c r);
            at_left := rev s ++ left; at_comment := c; at_right := r |}) \/
  (exists c, In c cs /\ code c = true /\ In a (attachments c)).
Proof.
  induction cs as [|c r IH]; intros left a; cbn [kid_attachments]; fold (kid_attachments n).
  - split; [intros []|]. intros [(s & c & r & H & _)|(c & [] & _)]. destruct s; discriminate.
  - rewrite in_app_iff, IH. split.
    + intros [H|[(s & c' & r' & -> & He & ->)|(c' & Hin & Hc & Ha)]].
      * destruct (n_extra c) eqn:Ex.
        -- destruct H as [<-|[]]. left. exists [], c, r. auto.
        -- destruct (code c) eqn:Ec; [|destruct H]. right. exists c. simpl; auto.
      * left. exists (c :: s), c', r'. split; [reflexivity|]. split; [exact He|].
        simpl. rewrite <- app_assoc. reflexivity.
      * right. exists c'. simpl; auto.
    + intros [(s & c' & r' & E & He & ->)|(c' & Hin & Hc & Ha)].
      * destruct s as [|x s]; injection E as -> ->.
        -- left. rewrite He. simpl; auto.
        -- right. left. exists s, c', r'. split; [reflexivity|]. split; [exact He|].
           simpl. rewrite <- app_assoc. reflexivity.
      * destruct Hin as [->|Hin].
        -- left. assert (n_extra c' = false) as Ex.
           { unfold code in Hc. destruct (n_extra c'); [discriminate|reflexivity]. }
           rewrite Ex, Hc. exact Ha.
        -- right. right. exists c'. auto.
Qed.

Lemma attachments_spec n : forall a,
  In a (attachments n) <->
  exists p, comment_under n p (at_left a) (at_comment a) (at_right a)
            /\ (at_node a, at_place a) = belongs p (at_left a) (at_comment a) (at_right a).
Proof.
  induction n as [i cs HF] using node_nested_ind. intro a. rewrite attachments_eq, kid_attachments_in.
  rewrite Forall_forall in HF. split.
  - intros [(s & c & r & -> & He & ->)|(c & Hin & Hc & Ha)].
    + exists (Node i (s ++ c :: r)). simpl. rewrite app_nil_r. split.
      * split; [constructor|]. split; [|exact He]. unfold child_at. simpl. rewrite rev_involutive. reflexivity.
      * destruct (belongs _ _ _ _); reflexivity.
    + apply HF in Ha; [|exact Hin]. destruct Ha as (p & (H1 & H2) & H3). exists p. split; [|exact H3].
      split; [|exact H2]. apply code_node_kid. right. exists c. split; [|exact H1].
      unfold code_kids. apply filter_In. auto.
  - intros (p & (H1 & H2 & H3) & H4). apply code_node_kid in H1 as [->|(c & Hc & H1)].
    + left. exists (rev (at_left a)), (at_comment a), (at_right a). unfold child_at in H2. simpl in H2.
      split; [exact H2|]. split; [exact H3|]. rewrite rev_involutive, app_nil_r.
      rewrite <- H4. simpl. destruct a; reflexivity.
    + unfold code_kids in Hc. simpl in Hc. apply filter_In in Hc as [Hin Hcode].
      right. exists c. split; [exact Hin|]. split; [exact Hcode|].
      apply HF; [exact Hin|]. exists p. split; [|exact H4]. split; auto.
Qed.

(* The comment nodes are distinct nodes of the tree. *)
Lemma attachments_nodes n : exists rest,
  Permutation (map at_comment (attachments n) ++ rest) (all_nodes n).
Proof.
  induction n as [i cs HF] using node_nested_ind. rewrite attachments_eq.
  assert (HG : forall l left, Forall (fun n => exists rest, Permutation (map at_comment (attachments n) ++ rest) (all_nodes n)) l ->
     exists rest, Permutation (map at_comment (kid_attachments (Node i cs) left l) ++ rest) (flat_map all_nodes l)).
  { induction l as [|c r IH]; intros left HF'; [exists []; reflexivity|].
    inversion HF' as [|? ? Hc Hr]; subst. destruct (IH (c :: left) Hr) as [rest1 H1]. destruct Hc as [rest2 H2].
    cbn [kid_attachments]. fold (kid_attachments (Node i cs)). cbn [flat_map]. rewrite map_app.
    destruct (n_extra c).
    - simpl. destruct c as [ic cc]. simpl. exists (flat_map all_nodes cc ++ rest1). constructor.
      rewrite <- H1. rewrite !app_assoc. apply Permutation_app_tail, Permutation_app_comm.
    - destruct (code c).
      + exists (rest2 ++ rest1). rewrite <- H2, <- H1.
        rewrite <- !app_assoc. apply Permutation_app_head.
        rewrite !app_assoc. apply Permutation_app_tail, Permutation_app_comm.
      + simpl. exists (all_nodes c ++ rest1). rewrite <- H1.
        rewrite !app_assoc. apply Permutation_app_tail, Permutation_app_comm. }
  destruct (HG cs [] HF) as [rest H]. exists (Node i cs :: rest). simpl.
  rewrite <- Permutation_middle. constructor. exact H.
Qed.

Lemma NoDup_app_l {A} (l l' : list A) : NoDup (l ++ l') -> NoDup l.
Proof. induction l as [|x l IH]; simpl; intro H; [constructor|]. inversion H; subst. constructor; [|auto]. rewrite in_app_iff in *; tauto. Qed.

Lemma attachments_distinct root : distinct_ids root -> NoDup (map n_id (map at_comment (attachments root))).
Proof.
  intro H. destruct (attachments_nodes root) as [rest HP]. unfold distinct_ids in H.
  apply (Permutation_map n_id) in HP. symmetry in HP. apply (Permutation_NoDup HP) in H.
  rewrite map_app in H. apply NoDup_app_l in H. exact H.
Qed.

(* ------------------------------------------------------------ comments *)

Lemma comment_of_id left n right c : comment_of left n right = Ok c -> c_id c = n_id n.
Proof.
  unfold comment_of. destruct (has_kind "line_comment" n); [intro H; injection H as <-; reflexivity|].
  destruct (has_kind "block_comment" n); [intro H; injection H as <-; reflexivity|discriminate].
Qed.
Lemma comment_of_value left n right c : comment_of left n right = Ok c -> c_value c = trim_end (n_text n).
Proof.
  unfold comment_of. destruct (has_kind "line_comment" n); [intro H; injection H as <-; reflexivity|].
  destruct (has_kind "block_comment" n); [intro H; injection H as <-; reflexivity|discriminate].
Qed.
Lemma comment_of_line left n right c :
  comment_of left n right = Ok c -> c_line c = has_kind "line_comment" n.
Proof.
  unfold comment_of. destruct (has_kind "line_comment" n); [intro H; injection H as <-; reflexivity|].
  destruct (has_kind "block_comment" n); [intro H; injection H as <-; reflexivity|discriminate].
Qed.
Definition is_comment_kind (n : node) : bool := has_kind "line_comment" n || has_kind "block_comment" n.
Lemma comment_of_ok left n right : (exists c, comment_of left n right = Ok c) <-> is_comment_kind n = true.
Proof.
  unfold comment_of, is_comment_kind. destruct (has_kind "line_comment" n); simpl; [split; eauto|].
  destruct (has_kind "block_comment" n); [split; eauto|]. split; [intros (c & H); discriminate|discriminate].
Qed.

(* Collection succeeds exactly when every comment is of a known kind. *)
Definition known (a : attached) : Prop := is_comment_kind (at_comment a) = true.

Lemma collect_go_known i cs0 : forall cs left pending last m m',
  Forall (fun n => forall m m', collect n m = Ok m' -> Forall known (attachments n)) cs ->
  collect_go collect i left cs pending last m = Ok m' ->
  Forall known (kid_attachments (Node i cs0) left cs).
Proof.
  induction cs as [|c r IH]; intros left pending last m m' HF H; [constructor|].
  inversion HF as [|? ? Hc HF']; subst.
  cbn [kid_attachments]. fold (kid_attachments (Node i cs0)).
  cbn [collect_go] in H. fold (collect_go collect i) in H. apply Forall_app.
  destruct (n_extra c) eqn:Ex.
  - destruct (comment_of left c r) eqn:E; try discriminate. cbn [rbind] in H. split.
    + constructor; [|constructor]. unfold known; simpl. apply (comment_of_ok left c r). eauto.
    + destruct last as [[lid lrow]|]; [|eapply IH; eauto].
      destruct (peek r) as [s|]; [|eapply IH; eauto].
      destruct (is_punctuation_node s); [eapply IH; eauto|].
      destruct (_ =? _)%N; eapply IH; eauto.
  - rewrite (code_plain _ Ex). destruct (associable c).
    + destruct (collect c _) as [m1| |] eqn:E1; try discriminate. cbn [rbind] in H.
      split; [eapply Hc; eauto|eapply IH; eauto].
    + split; [constructor|eapply IH; eauto].
Qed.
Lemma collect_known n : forall m m', collect n m = Ok m' -> Forall known (attachments n).
Proof.
  induction n as [i cs HF] using node_nested_ind. intros m m' H. rewrite collect_eq in H. cbv zeta in H.
  rewrite attachments_eq. destruct cs as [|c cs]; [constructor|].
  eapply collect_go_known; [exact HF|exact H].
Qed.
Lemma collect_go_succeeds i cs0 : forall cs left pending last m,
  Forall (fun n => Forall known (attachments n) -> forall m, exists m', collect n m = Ok m') cs ->
  Forall known (kid_attachments (Node i cs0) left cs) ->
  exists m', collect_go collect i left cs pending last m = Ok m'.
Proof.
  induction cs as [|c r IH]; intros left pending last m HF H; [simpl; eauto|].
  inversion HF as [|? ? Hc HF']; subst.
  cbn [kid_attachments] in H. fold (kid_attachments (Node i cs0)) in H.
  cbn [collect_go]. fold (collect_go collect i). apply Forall_app in H as [H1 H2].
  destruct (n_extra c) eqn:Ex.
  - inversion H1 as [|? ? Hk _]; subst. unfold known in Hk; simpl in Hk.
    apply (comment_of_ok left c r) in Hk as [co ->]. cbn [rbind].
    destruct last as [[lid lrow]|]; [|eapply IH; eauto].
    destruct (peek r) as [s|]; [|eapply IH; eauto].
    destruct (is_punctuation_node s); [eapply IH; eauto|].
    destruct (_ =? _)%N; eapply IH; eauto.
  - rewrite (code_plain _ Ex) in H1. destruct (associable c); [|eapply IH; eauto].
    destruct (Hc H1 (if is_nil pending then m else cm_update (n_id c) (add_pre pending) m)) as [m1 ->].
    cbn [rbind]. eapply IH; eauto.
Qed.
Lemma collect_succeeds n : Forall known (attachments n) -> forall m, exists m', collect n m = Ok m'.
Proof.
  induction n as [i cs HF] using node_nested_ind. intros H m. rewrite collect_eq. cbv zeta.
  rewrite attachments_eq in H. destruct cs as [|c cs]; [eauto|].
  eapply collect_go_succeeds; eauto.
Qed.

(* ------------------------------------------------------------ the whole map *)

Lemma collect_comments_code root cm :
  code root = true -> collect_comments root = Ok cm -> collect root [] = Ok cm.
Proof.
  unfold collect_comments. rewrite code_eq. unfold associable. intro H.
  destruct (n_extra root); [discriminate|]. simpl in H. destruct (n_named root); simpl in *; [auto|].
  rewrite H. auto.
Qed.

Lemma sel_events id p l :
  sel id p (events l) =
  flat_map at_comments (filter (fun a => (at_id a =? id)%N && place_eqb (at_place a) p) l).
Proof.
  assert (H1 : forall a, sel id p (event_of a) =
    if (at_id a =? id)%N && place_eqb (at_place a) p then at_comments a else []).
  { intro a. unfold event_of. induction (at_comments a) as [|c cs IHc]; [destruct (_ && _); reflexivity|].
    change (map (fun c0 => (at_id a, at_place a, c0)) (c :: cs))
      with ([(at_id a, at_place a, c)] ++ map (fun c0 => (at_id a, at_place a, c0)) cs).
    rewrite sel_app, IHc. unfold sel; simpl. destruct ((at_id a =? id)%N && place_eqb (at_place a) p); reflexivity. }
  induction l as [|a l IH]; [reflexivity|].
  change (events (a :: l)) with (event_of a ++ events l). rewrite sel_app, IH, H1.
  simpl. destruct ((at_id a =? id)%N && place_eqb (at_place a) p); reflexivity.
Qed.
Lemma collected_held root cm id p :
  code root = true -> collect_comments root = Ok cm ->
  Permutation (held cm id p)
    (flat_map at_comments (filter (fun a => (at_id a =? id)%N && place_eqb (at_place a) p) (attachments root))).
Proof.
  intros Hr H. apply collect_comments_code in H; [|exact Hr].
  apply collect_adds in H. destruct H as [H _ _ _]. rewrite H. cbn [held cm_get app].
  apply Permutation_refl', sel_events.
Qed.
Lemma snd_events l : map snd (events l) = flat_map at_comments l.
Proof.
  induction l as [|a l IH]; [reflexivity|].
  change (events (a :: l)) with (event_of a ++ events l). rewrite map_app, IH.
  unfold event_of. rewrite map_map. simpl. rewrite map_id. reflexivity.
Qed.
Lemma collected_all root cm :
  code root = true -> collect_comments root = Ok cm ->
  Permutation (map_comments cm) (flat_map at_comments (attachments root)).
Proof.
  intros Hr H. apply collect_comments_code in H; [|exact Hr].
  apply collect_adds in H. destruct H as [_ H _ _]. rewrite H. cbn [map_comments flat_map app].
  apply Permutation_refl', snd_events.
Qed.
Lemma collected_nodup_keys root cm :
  code root = true -> collect_comments root = Ok cm -> NoDup (map fst cm).
Proof.
  intros Hr H. apply collect_comments_code in H; [|exact Hr].
  apply collect_adds in H. destruct H as [_ _ _ H]. apply H. constructor.
Qed.

Lemma at_comments_ids l : Forall known l -> map c_id (flat_map at_comments l) = map n_id (map at_comment l).
Proof.
  induction 1 as [|a l Ha Hl IH]; simpl; [reflexivity|]. rewrite map_app, IH.
  unfold at_comments, comment_at. apply (comment_of_ok (at_left a) (at_comment a) (at_right a)) in Ha as [c Hc].
  rewrite Hc. simpl. rewrite (comment_of_id _ _ _ _ Hc). reflexivity.
Qed.
Lemma collected_distinct root cm :
  distinct_ids root -> code root = true -> collect_comments root = Ok cm -> NoDup (map c_id (map_comments cm)).
Proof.
  intros Hd Hr H. pose proof (collected_all _ _ Hr H) as HP. apply (Permutation_map c_id) in HP.
  symmetry in HP. apply (Permutation_NoDup HP).
  rewrite at_comments_ids; [apply attachments_distinct; exact Hd|].
  apply collect_comments_code in H; [|exact Hr]. eapply collect_known; eauto.
Qed.

Lemma held_in_map cm id p c : In c (held cm id p) -> In c (map_comments cm).
Proof.
  unfold held, map_comments. destruct (cm_get id cm) as [bk|] eqn:E; [|intros []].
  intro H. apply in_flat_map. exists (id, bk). split.
  - clear H. induction cm as [|[k v] cm IH]; simpl in *; [discriminate|].
    destruct (N.eqb_spec k id) as [->|Hk]; [injection E as ->; auto|]. right; auto.
  - unfold bucket_comments. simpl. rewrite !in_app_iff. destruct p; auto.
Qed.
Lemma in_map_held cm c : NoDup (map fst cm) -> In c (map_comments cm) -> exists id p, In c (held cm id p).
Proof.
  unfold map_comments. intros Hn H. apply in_flat_map in H as ([id bk] & Hin & H).
  assert (E : cm_get id cm = Some bk).
  { clear H. induction cm as [|[k v] cm IH]; simpl in *; [destruct Hin|]. inversion Hn; subst.
    destruct Hin as [E|Hin].
    - injection E as -> ->. rewrite N.eqb_refl. reflexivity.
    - destruct (N.eqb_spec k id) as [->|Hk]; [|auto]. exfalso. apply H1. apply (in_map fst) in Hin. exact Hin. }
  unfold bucket_comments in H. rewrite !in_app_iff in H. simpl in H.
  unfold held. destruct H as [H|[H|H]]; exists id; [exists Leading|exists Trailing|exists Dangling]; rewrite E; exact H.
Qed.

(* One place for each comment id. *)
Lemma NoDup_app_disj {A} (l l' : list A) x : NoDup (l ++ l') -> In x l -> In x l' -> False.
Proof.
  induction l as [|y l IH]; simpl; intros H H1 H2; [destruct H1|]. inversion H; subst.
  destruct H1 as [->|H1]; [|eauto]. apply H4. rewrite in_app_iff; auto.
Qed.
Lemma NoDup_app_r {A} (l l' : list A) : NoDup (l ++ l') -> NoDup l'.
Proof. induction l as [|x l IH]; simpl; intro H; [exact H|]. inversion H; auto. Qed.

Lemma held_unique cm id p c id' p' c' :
  NoDup (map c_id (map_comments cm)) ->
  In c (held cm id p) -> In c' (held cm id' p') -> c_id c = c_id c' -> id = id' /\ p = p' /\ c = c'.
Proof.
  intros Hn Hc Hc' Hid.
  assert (HB : forall bk p p' c c', NoDup (map c_id (bucket_comments bk)) ->
     In c (match p with Leading => pre bk | Trailing => post bk | Dangling => dangling bk end) ->
     In c' (match p' with Leading => pre bk | Trailing => post bk | Dangling => dangling bk end) ->
     c_id c = c_id c' -> p = p' /\ c = c').
  { clear. intros bk p p' c c' Hn H H' E. unfold bucket_comments in Hn. rewrite !map_app in Hn.
    assert (HU : forall l, NoDup (map c_id l) -> In c l -> In c' l -> c = c').
    { intros l. induction l as [|x l IH]; simpl; [tauto|]; intros HN [->|H1] [->|H2]; auto; apply NoDup_cons_iff in HN as [HN1 HN2].
      - exfalso. apply HN1. rewrite E. apply in_map. exact H2.
      - exfalso. apply HN1. rewrite <- E. apply in_map. exact H1.
      - auto. }
    pose proof (NoDup_app_l _ _ Hn) as N1. pose proof (NoDup_app_r _ _ Hn) as N23.
    pose proof (NoDup_app_l _ _ N23) as N2. pose proof (NoDup_app_r _ _ N23) as N3.
    assert (D : forall l l', NoDup (map c_id l ++ map c_id l') -> In c l -> In c' l' -> False).
    { intros l l' HN H1 H2. eapply NoDup_app_disj; [exact HN|apply in_map; exact H1|]. rewrite E. apply in_map; exact H2. }
    assert (D' : forall l l', NoDup (map c_id l ++ map c_id l') -> In c' l -> In c l' -> False).
    { intros l l' HN H1 H2. eapply NoDup_app_disj; [exact HN|apply in_map; exact H1|]. rewrite <- E. apply in_map; exact H2. }
    rewrite <- map_app in Hn.
    destruct p, p'; split; auto; try (exfalso; first
      [ eapply (D _ _ Hn); [eassumption|rewrite in_app_iff; tauto]
      | eapply (D' _ _ Hn); [eassumption|rewrite in_app_iff; tauto]
      | eapply (D _ _ N23); eassumption | eapply (D' _ _ N23); eassumption ]); eauto. }
  unfold held in Hc, Hc'.
  revert Hn Hc Hc'. unfold map_comments. induction cm as [|[k v] cm IH]; simpl; [tauto|].
  intros Hn. rewrite map_app in Hn.
  pose proof (NoDup_app_l _ _ Hn) as N1. pose proof (NoDup_app_r _ _ Hn) as N2.
  assert (Hsub : forall id p c, In c (held cm id p) -> In (c_id c) (map c_id (flat_map (fun e => bucket_comments (snd e)) cm))).
  { intros i q x Hx. apply in_map. exact (held_in_map cm i q x Hx). }
  assert (Hbk : forall p c, In c (match p with Leading => pre v | Trailing => post v | Dangling => dangling v end) ->
                In (c_id c) (map c_id (bucket_comments v))).
  { intros q x Hx. apply in_map. unfold bucket_comments. rewrite !in_app_iff. destruct q; auto. }
  destruct (N.eqb_spec k id') as [Hk'|Hk']; destruct (N.eqb_spec k id) as [Hk|Hk]; intros Hc Hc'.
  - destruct (HB v p p' c c' N1 Hc Hc' Hid) as [-> ->]; split; [congruence|auto].
  - exfalso. eapply NoDup_app_disj; [exact Hn|eapply Hbk; exact Hc'|rewrite <- Hid; eapply Hsub; exact Hc].
  - exfalso. eapply NoDup_app_disj; [exact Hn|eapply Hbk; exact Hc|rewrite Hid; eapply Hsub; exact Hc'].
  - apply IH; auto.
Qed.

(* ---- the statements used in PropertiesComments.v ---- *)

Lemma comment_placed root cm n left c right :
  code root = true -> collect_comments root = Ok cm ->
  comment_under root n left c right ->
  exists co, comment_of left c right = Ok co /\
             In co (held cm (n_id (fst (belongs n left c right))) (snd (belongs n left c right))).
Proof.
  intros Hr H Hu.
  set (a := {| at_node := fst (belongs n left c right); at_place := snd (belongs n left c right);
               at_left := left; at_comment := c; at_right := right |}).
  assert (Ha : In a (attachments root)).
  { apply attachments_spec. exists n. simpl. split; [exact Hu|]. destruct (belongs n left c right); reflexivity. }
  assert (Hk : known a).
  { pose proof (collect_comments_code _ _ Hr H) as H'. apply collect_known in H'.
    rewrite Forall_forall in H'. auto. }
  apply (comment_of_ok left c right) in Hk as [co Hco]. exists co. split; [exact Hco|].
  eapply Permutation_in; [symmetry; apply collected_held; eauto|].
  apply in_flat_map. exists a. split.
  - apply filter_In. split; [exact Ha|]. unfold at_id; simpl. rewrite N.eqb_refl.
    destruct (snd (belongs n left c right)); reflexivity.
  - unfold at_comments, comment_at; simpl. rewrite Hco. simpl; auto.
Qed.

Lemma held_is_comment root cm id p co :
  code root = true -> collect_comments root = Ok cm -> In co (held cm id p) ->
  exists n left c right, comment_under root n left c right /\ comment_of left c right = Ok co /\
    n_id (fst (belongs n left c right)) = id /\ snd (belongs n left c right) = p.
Proof.
  intros Hr H Hin. eapply Permutation_in in Hin; [|apply collected_held; eauto].
  apply in_flat_map in Hin as (a & Ha & Hco). apply filter_In in Ha as [Ha E].
  apply andb_prop in E as [E1 E2]. apply N.eqb_eq in E1. apply place_eqb_eq in E2.
  apply attachments_spec in Ha as (n & Hu & Hb).
  exists n, (at_left a), (at_comment a), (at_right a). rewrite <- Hb. simpl. repeat split; try apply Hu; auto.
  unfold at_comments, comment_at in Hco. destruct (comment_of _ _ _); simpl in Hco; try tauto.
  destruct Hco as [->|[]]. reflexivity.
Qed.
Lemma in_map_is_comment root cm co :
  code root = true -> collect_comments root = Ok cm -> In co (map_comments cm) ->
  exists n left c right, comment_under root n left c right /\ comment_of left c right = Ok co.
Proof.
  intros Hr H Hin. apply in_map_held in Hin as (id & p & Hin); [|eapply collected_nodup_keys; eauto].
  destruct (held_is_comment _ _ _ _ _ Hr H Hin) as (n & l & c & r & H1 & H2 & _). eauto 8.
Qed.

Lemma collected_key root cm n :
  code root = true -> collect_comments root = Ok cm -> code_node root n ->
  exists bk, get_comment_bucket cm (n_id n) = Ok bk.
Proof.
  intros Hr H Hn. apply collect_comments_code in H; [|exact Hr].
  pose proof (collect_keys root _ _ H n Hn) as Hk. unfold get_comment_bucket, must.
  destruct (cm_get (n_id n) cm); [eauto|congruence].
Qed.

Lemma collect_iff root : code root = true ->
  ((exists cm, collect_comments root = Ok cm) <->
   forall n left c right, comment_under root n left c right -> is_comment_kind c = true).
Proof.
  intro Hr. split.
  - intros [cm H] n left c right Hu. apply (comment_of_ok left c right).
    destruct (comment_placed _ _ _ _ _ _ Hr H Hu) as (co & Hco & _). eauto.
  - intro H. destruct (collect_succeeds root) with (m := @nil (N * bucket)) as [m' Hm].
    + apply Forall_forall. intros a Ha. apply attachments_spec in Ha as (p & Hu & _). unfold known. eauto.
    + exists m'. unfold collect_comments. rewrite code_eq in Hr. unfold associable in Hr.
      destruct (n_extra root); [discriminate|]. simpl in Hr.
      destruct (n_named root); simpl in *; [exact Hm|]. rewrite Hr. exact Hm.
Qed.

Lemma collected_ids root cm :
  code root = true -> collect_comments root = Ok cm ->
  Permutation (map c_id (map_comments cm)) (map (fun a => n_id (at_comment a)) (attachments root)) /\
  (distinct_ids root -> NoDup (map c_id (map_comments cm))).
Proof.
  intros Hr H. split; [|intro Hd; eapply collected_distinct; eauto].
  rewrite <- (map_map at_comment n_id), <- at_comments_ids; [apply Permutation_map; apply collected_all; auto|].
  apply collect_comments_code in H; [|exact Hr]. eapply collect_known; eauto.
Qed.
Lemma held_at_one_place root cm id1 p1 id2 p2 c1 c2 :
  distinct_ids root -> code root = true -> collect_comments root = Ok cm ->
  In c1 (held cm id1 p1) -> In c2 (held cm id2 p2) -> c_id c1 = c_id c2 ->
  id1 = id2 /\ p1 = p2 /\ c1 = c2.
Proof. intros Hd Hr H. apply held_unique. eapply collected_distinct; eauto. Qed.
