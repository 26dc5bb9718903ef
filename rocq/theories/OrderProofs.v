(* OrderProofs.v: a node's comments are collected in source order. *)
From Coq Require Import Lia.
From Verif Require Import Base Cst Comments SpecTree Formatter SpecOrder CollectProofs CollectProofs2.

(* [m'] is [m] with the events [es] appended in order. *)
Definition appends (m m' : list (N * bucket)) (es : list (N * place * comment)) : Prop :=
  forall id p, held m' id p = held m id p ++ sel id p es.
Lemma appends_refl m : appends m m [].
Proof. intros id p. symmetry. apply app_nil_r. Qed.
Lemma appends_trans m m' m'' a b : appends m m' a -> appends m' m'' b -> appends m m'' (a ++ b).
Proof. intros H K id p. rewrite K, H, sel_app, app_assoc. reflexivity. Qed.
Lemma appends_put id p cs m : appends m (cm_update id (put_at p cs) m) (map (fun c => (id, p, c)) cs).
Proof.
  intros id' q. rewrite held_update. f_equal. unfold sel.
  induction cs as [|c cs IH]; simpl; [destruct (_ && _); reflexivity|].
  destruct ((id =? id')%N && place_eqb p q); simpl in *; [f_equal; exact IH|exact IH].
Qed.
Lemma appends_touch id m : appends m (cm_update id (fun b => b) m) [].
Proof. intros id' p. rewrite held_touch. symmetry. apply app_nil_r. Qed.

(* A comment that waits for the next node, on its own row, with a token that is
   no separator behind it. *)
Definition waiting (left cs : list node) (pending : list comment) : Prop :=
  pending <> [] -> forall p, prev_code left = Some p ->
  exists l1 a l2, left = l1 ++ a :: l2 /\ n_extra a = true /\ Forall (fun x => code x = false) l1 /\
    n_erow a <> n_erow p /\ In p l2 /\
    exists s, next_sibling (rev l1 ++ cs) = Some s /\ separator s = false.

Lemma next_sibling_app l r : Forall (fun x => n_extra x = true) l -> next_sibling (l ++ r) = next_sibling r.
Proof. intro H. induction H as [|x l Hx _ IH]; [reflexivity|]. unfold next_sibling in *. cbn. rewrite Hx. exact IH. Qed.
Lemma next_sibling_keep l c r s : next_sibling (l ++ c :: r) = Some s -> next_sibling ((l ++ [c]) ++ r) = Some s.
Proof. rewrite <- app_assoc. auto. Qed.
Lemma prev_code_in left p : prev_code left = Some p -> In p left.
Proof. unfold prev_code. intro H. apply find_some in H. tauto. Qed.

Definition appends_ok (n : node) : Prop := orderly n -> forall m m',
  collect n m = Ok m' -> appends m m' (events (attachments n)).

Lemma collect_go_appends i cs0 : let n := Node i cs0 in orderly_node n ->
  forall cs left pending m m',
  cs0 = rev left ++ cs ->
  waiting left cs pending ->
  Forall (fun x => code x = true -> forall m m', collect x m = Ok m' -> appends m m' (events (attachments x))) cs ->
  collect_go collect i left cs pending (last_of left) m = Ok m' ->
  appends m m' (map (fun c => (pending_place n left cs, c)) pending
             ++ events (kid_attachments n left cs)).
Proof.
  intros n Hn. induction cs as [|c r IH]; intros left pending m m' E0 HW HF H.
  - simpl in H. unfold last_of in H. unfold pending_place. simpl. rewrite app_nil_r.
    destruct (prev_code left) as [p|]; simpl in H; injection H as <-.
    + apply (appends_put (n_id p) Trailing).
    + apply (appends_put (i_id i) Dangling).
  - inversion HF as [|? ? Hc HF']; subst. cbn [collect_go] in H. fold (collect_go collect i) in H.
    cbn [kid_attachments]. fold (kid_attachments n).
    assert (E1 : rev left ++ c :: r = rev (c :: left) ++ r) by (simpl; rewrite <- app_assoc; reflexivity).
    destruct (n_extra c) eqn:Ex.
    + (* a comment *)
      destruct (comment_of left c r) as [co| |] eqn:Eco; try discriminate. cbn [rbind] in H.
      assert (Hcode : code c = false) by (unfold code; rewrite Ex; reflexivity).
      assert (Hprev : prev_code (c :: left) = prev_code left) by (unfold prev_code; simpl; rewrite Hcode; reflexivity).
      assert (Hlast : last_of (c :: left) = last_of left) by (unfold last_of; rewrite Hprev; reflexivity).
      assert (Hpp : pending_place n left (c :: r) = pending_place n (c :: left) r).
      { unfold pending_place. rewrite Hprev. unfold next_code. simpl. rewrite Hcode. reflexivity. }
      rewrite Hpp.
      assert (Hev : forall to pl q,
        events ({| at_node := to; at_place := pl; at_left := left; at_comment := c; at_right := r |} :: q)
        = (n_id to, pl, co) :: events q).
      { intros. unfold events at 1. simpl. unfold event_of, at_comments, comment_at; simpl. rewrite Eco. reflexivity. }
      cbn [app]. rewrite Hev.
      (* a comment stored at once: nothing is waiting *)
      assert (Direct : forall to pl,
        pending = [] -> belongs n left c r = (to, pl) ->
        collect_go collect i (c :: left) r pending (last_of left) (cm_update (n_id to) (put_at pl [co]) m) = Ok m' ->
        appends m m' (map (fun x => (pending_place n (c :: left) r, x)) pending
                   ++ (n_id (fst (belongs n left c r)), snd (belongs n left c r), co)
                      :: events (kid_attachments n (c :: left) r))).
      { intros to pl -> Hb HG. rewrite Hb; simpl. rewrite <- Hlast in HG.
        apply IH in HG; [|exact E1|intro K; congruence|exact HF'].
        exact (appends_trans _ _ _ _ _ (appends_put (n_id to) pl [co] m) HG). }
      assert (Wait : waiting (c :: left) r (pending ++ [co]) ->
        (n_id (fst (belongs n left c r)), snd (belongs n left c r)) = pending_place n (c :: left) r ->
        collect_go collect i (c :: left) r (pending ++ [co]) (last_of left) m = Ok m' ->
        appends m m' (map (fun x => (pending_place n (c :: left) r, x)) pending
                   ++ (n_id (fst (belongs n left c r)), snd (belongs n left c r), co)
                      :: events (kid_attachments n (c :: left) r))).
      { intros Hw Hb HG. rewrite <- Hlast in HG. apply IH in HG; [|exact E1|exact Hw|exact HF'].
        rewrite map_app, <- app_assoc in HG. simpl in HG. rewrite <- Hb in *. exact HG. }
      (* what waiting comments say about this one *)
      assert (Wl : forall p, prev_code left = Some p -> pending <> [] ->
        (exists s, next_sibling r = Some s /\ separator s = false) /\ n_erow c <> n_erow p).
      { intros p Ep Hne. destruct (HW Hne p Ep) as (l1 & a & l2 & -> & Ha & Hl1 & Hrow & Hin & s & Hs & Hsep).
        destruct Hn as [Hgap Hrows]. cbn [children] in Hgap, Hrows. unfold n in Hgap, Hrows. cbn in Hgap, Hrows.
        assert (E2 : rev (l1 ++ a :: l2) ++ c :: r = rev l2 ++ a :: rev l1 ++ c :: r).
        { rewrite rev_app_distr. simpl. rewrite <- !app_assoc. reflexivity. }
        assert (Hex : Forall (fun x => n_extra x = true) (rev l1)).
        { apply (Hgap (rev l2) a (rev l1) c r); auto. apply Forall_rev. exact Hl1. }
        split.
        - exists s. split; [|exact Hsep]. rewrite next_sibling_app in Hs by exact Hex.
          unfold next_sibling in *. cbn in Hs. rewrite Ex in Hs. exact Hs.
        - intro Er. apply Hrow.
          assert (R1 : (n_erow a <= n_erow c)%N) by (apply (Hrows (rev l2) a (rev l1) c r); exact E2).
          assert (R2 : (n_erow p <= n_erow a)%N).
          { apply in_rev in Hin. apply in_split in Hin as (u & v & Huv).
            apply (Hrows u p v a (rev l1 ++ c :: r)). rewrite E2, Huv, <- app_assoc. reflexivity. }
          lia. }
      unfold last_of in H at 1. unfold belongs in Direct, Wait |- *.
      rewrite peek_find in H.
      destruct (prev_code left) as [p|] eqn:Ep; cbn [option_map] in H.
      * specialize (Wl p eq_refl).
        destruct (next_sibling r) as [s|] eqn:Es.
        -- rewrite <- separator_eq in H. destruct (separator s) eqn:Esep.
           ++ eapply Direct; [|reflexivity|].
              ** destruct pending as [|x y]; [reflexivity|]. destruct Wl as [(s' & Hs' & Hsep) _]; [discriminate|]. congruence.
              ** simpl. unfold last_of in *. rewrite Ep in *. exact H.
           ++ destruct (N.eqb_spec (n_erow c) (n_erow p)).
              ** eapply Direct; [|reflexivity|].
                 { destruct pending as [|x y]; [reflexivity|]. destruct Wl as [_ Hr]; [discriminate|]. congruence. }
                 simpl. unfold last_of in *. rewrite Ep in *. exact H.
              ** apply Wait; [| |unfold last_of in *; rewrite Ep in *; exact H].
                 { intros _ p' Ep'. rewrite Hprev in Ep'. injection Ep' as <-.
                   exists [], c, left. repeat split; auto; [apply prev_code_in; exact Ep|]. exists s. split; [exact Es|exact Esep]. }
                 unfold pending_place. rewrite Hprev. destruct (next_code r); reflexivity.
        -- eapply Direct; [|reflexivity|].
           ** destruct pending as [|x y]; [reflexivity|]. destruct Wl as [(s' & Hs' & Hsep) _]; [discriminate|]. congruence.
           ** simpl. unfold last_of in *. rewrite Ep in *. exact H.
      * apply Wait; [| |unfold last_of in *; rewrite Ep in *; exact H].
        { intros _ p' Ep'. rewrite Hprev in Ep'. discriminate. }
        unfold pending_place. rewrite Hprev. destruct (next_code r); reflexivity.
    + (* not a comment *)
      rewrite (code_plain _ Ex). destruct (associable c) eqn:Ea.
      * assert (Hcode : code c = true) by (rewrite code_plain; assumption).
        destruct (collect c _) as [m1| |] eqn:Em; try discriminate. cbn [rbind] in H.
        assert (Hlast : last_of (c :: left) = Some (n_id c, n_erow c))
          by (unfold last_of, prev_code; simpl; rewrite Hcode; reflexivity).
        rewrite <- Hlast in H. apply IH in H; [|exact E1|intro K; congruence|exact HF']. simpl in H.
        apply (Hc Hcode) in Em.
        assert (Hpp : pending_place n left (c :: r) = (n_id c, Leading)).
        { unfold pending_place, next_code. simpl. rewrite Hcode. reflexivity. }
        rewrite Hpp. unfold events. rewrite flat_map_app. fold (events (attachments c)).
        eapply appends_trans; [|eapply appends_trans; [exact Em|exact H]].
        destruct pending as [|p0 ps]; simpl is_nil; cbv iota; [apply appends_refl|].
        exact (appends_put (n_id c) Leading (p0 :: ps) m).
      * assert (Hcode : code c = false) by (rewrite code_plain; assumption).
        assert (Hprev : prev_code (c :: left) = prev_code left) by (unfold prev_code; simpl; rewrite Hcode; reflexivity).
        assert (Hlast : last_of (c :: left) = last_of left) by (unfold last_of; rewrite Hprev; reflexivity).
        rewrite <- Hlast in H. apply IH in H; [|exact E1| |exact HF'].
        -- assert (Hpp : pending_place n left (c :: r) = pending_place n (c :: left) r).
           { unfold pending_place, next_code, prev_code. simpl. rewrite Hcode. reflexivity. }
           rewrite Hpp. exact H.
        -- intros Hne p Ep. rewrite Hprev in Ep.
           destruct (HW Hne p Ep) as (l1 & a & l2 & -> & Ha & Hl1 & Hrow & Hin & s & Hs & Hsep).
           exists (c :: l1), a, l2. repeat split; auto. exists s. split; [|exact Hsep].
           simpl. rewrite <- app_assoc. exact Hs.
Qed.

Lemma collect_appends n : appends_ok n.
Proof.
  induction n as [i cs HF] using node_nested_ind. intros HO m m' H. rewrite collect_eq in H.
  cbv zeta in H. rewrite attachments_eq.
  change (events (kid_attachments (Node i cs) [] cs)) with ([] ++ events (kid_attachments (Node i cs) [] cs)).
  eapply appends_trans; [apply (appends_touch (i_id i))|].
  destruct cs as [|c cs]; [injection H as <-; apply appends_refl|].
  change None with (last_of []) in H. apply (collect_go_appends i (c :: cs)) in H.
  - exact H.
  - apply HO. apply code_node_kid. left. reflexivity.
  - reflexivity.
  - intro K. congruence.
  - apply Forall_forall. intros x Hx Hcode. rewrite Forall_forall in HF. apply HF; [exact Hx|].
    intros y Hy. apply HO. apply code_node_kid. right. exists x. split; [|exact Hy].
    unfold code_kids. apply filter_In. auto.
Qed.

Theorem collected_in_order root cm id p :
  code root = true -> orderly root -> collect_comments root = Ok cm ->
  held cm id p =
  flat_map at_comments (filter (fun a => (at_id a =? id)%N && place_eqb (at_place a) p) (attachments root)).
Proof.
  intros Hr HO H. apply collect_comments_code in H; [|exact Hr].
  pose proof (collect_appends root HO _ _ H id p) as E. rewrite E. cbn [held cm_get app]. apply sel_events.
Qed.

Lemma same_place_eqb p q : same_place p q = place_eqb p q.
Proof. destruct p, q; reflexivity. Qed.
Theorem collected_source_order root cm id p :
  code root = true -> orderly root -> collect_comments root = Ok cm ->
  map c_id (held cm id p) = map n_id (comments_at root id p) /\
  map c_value (held cm id p) = map (fun n => trim_end (n_text n)) (comments_at root id p).
Proof.
  intros Hr HO H. rewrite (collected_in_order _ _ id p Hr HO H).
  apply collect_comments_code in H; [|exact Hr]. apply collect_known in H.
  unfold comments_at, at_id. induction (attachments root) as [|a l IH]; [split; reflexivity|].
  inversion H as [|? ? Hk Hl]; subst. cbn [filter]. change (same_place (at_place a) p) with (place_eqb (at_place a) p).
  destruct ((n_id (at_node a) =? id)%N && place_eqb (at_place a) p); [|apply IH; exact Hl].
  cbn [flat_map map]. destruct (IH Hl) as [I1 I2].
  apply (comment_of_ok (at_left a) _ (at_right a)) in Hk as [co Hco].
  rewrite !map_app, I1, I2. unfold at_comments, comment_at. rewrite Hco. cbn [app map].
  rewrite (comment_of_id _ _ _ _ Hco), (comment_of_value _ _ _ _ Hco). split; reflexivity.
Qed.

(* A decision procedure, for examples.  [gap]: 0 no comment since the last code
   node, 1 only comments since a comment, 2 a token behind a comment. *)
Fixpoint gap_free (gap : N) (cs : list node) : bool :=
  match cs with
  | [] => true
  | c :: r => if n_extra c then negb (gap =? 2)%N && gap_free 1 r
              else if code c then gap_free 0 r
              else gap_free (if (gap =? 0)%N then 0 else 2) r
  end.
Fixpoint rows_sorted (low : N) (cs : list node) : bool :=
  match cs with [] => true | c :: r => (low <=? n_erow c)%N && rows_sorted (n_erow c) r end.
Fixpoint orderly_b (n : node) : bool :=
  match n with
  | Node i cs => gap_free 0 cs && rows_sorted 0 cs &&
      (fix go (l : list node) : bool := match l with [] => true | c :: r => orderly_b c && go r end) cs
  end.
Lemma gap_two mid : forall b r g, (g = 1 \/ g = 2)%N -> n_extra b = true -> Forall (fun x => code x = false) mid ->
  gap_free g (mid ++ b :: r) = true -> g = 1%N /\ Forall (fun x => n_extra x = true) mid.
Proof.
  induction mid as [|c mid IH]; intros b r g Hg Hb HF H.
  - cbn in H. rewrite Hb in H. apply andb_prop in H as [H _]. split; [|constructor].
    destruct Hg as [->| ->]; [reflexivity|discriminate].
  - inversion HF as [|? ? Hc HF']; subst. cbn in H. destruct (n_extra c) eqn:Ec.
    + apply andb_prop in H as [H1 H2]. destruct (IH b r 1%N (or_introl eq_refl) Hb HF' H2) as [_ H3].
      split; [destruct Hg as [->| ->]; [reflexivity|discriminate]|constructor; auto].
    + rewrite Hc in H. assert (E : (if (g =? 0)%N then 0%N else 2%N) = 2%N) by (destruct Hg as [->| ->]; reflexivity).
      rewrite E in H. destruct (IH b r 2%N (or_intror eq_refl) Hb HF' H) as [H1 _]. discriminate.
Qed.
Lemma gap_sound cs : forall g, gap_free g cs = true -> forall s a mid b r, cs = s ++ a :: mid ++ b :: r ->
  n_extra a = true -> n_extra b = true -> Forall (fun x => code x = false) mid -> Forall (fun x => n_extra x = true) mid.
Proof.
  induction cs as [|c cs IH]; intros g H s a mid b r E Ha Hb HF; [destruct s; discriminate|].
  destruct s as [|x s]; cbn in E; injection E as -> E.
  - cbn in H. rewrite Ha in H. apply andb_prop in H as [_ H]. rewrite E in H.
    apply (gap_two mid b r 1%N); auto.
  - cbn in H. destruct (n_extra x); [apply andb_prop in H as [_ H]; eapply IH; eauto|].
    destruct (code x); eapply IH; eauto.
Qed.
Lemma rows_low cs : forall low, rows_sorted low cs = true -> Forall (fun c => (low <= n_erow c)%N) cs.
Proof.
  induction cs as [|c cs IH]; intros low H; [constructor|]. cbn in H. apply andb_prop in H as [H1 H2].
  apply N.leb_le in H1. constructor; [exact H1|]. eapply Forall_impl; [|apply IH; exact H2]. cbn. lia.
Qed.
Lemma rows_sound cs : forall low, rows_sorted low cs = true -> forall s a mid b r, cs = s ++ a :: mid ++ b :: r ->
  (n_erow a <= n_erow b)%N.
Proof.
  induction cs as [|c cs IH]; intros low H s a mid b r E; [destruct s; discriminate|].
  cbn in H. apply andb_prop in H as [_ H].
  destruct s as [|x s]; cbn in E; injection E as -> E; [|eapply IH; eauto].
  apply rows_low in H. rewrite Forall_forall in H. apply H. rewrite E. apply in_or_app. right. left. reflexivity.
Qed.
Lemma orderly_kids (cs : list node) :
  (fix go (l : list node) : bool := match l with [] => true | c :: r => orderly_b c && go r end) cs = true ->
  forall c, In c cs -> orderly_b c = true.
Proof.
  induction cs as [|c cs IH]; intros H x Hx; [destruct Hx|]. apply andb_prop in H as [H1 H2].
  destruct Hx as [<-|Hx]; auto.
Qed.
Lemma orderly_sound root : orderly_b root = true -> orderly root.
Proof.
  intros HR n Hn. assert (Hc : orderly_b n = true).
  { induction Hn as [|[i cs] c _ IH Hc]; [exact HR|]. cbn [orderly_b] in IH. apply andb_prop in IH as [_ IH].
    unfold code_kids in Hc. cbn in Hc. apply filter_In in Hc as [Hc _]. eapply orderly_kids; eauto. }
  destruct n as [i cs]. cbn [orderly_b] in Hc. apply andb_prop in Hc as [Hc _]. apply andb_prop in Hc as [H1 H2].
  split; cbn [children]; [eapply gap_sound; exact H1|eapply rows_sound; exact H2].
Qed.
