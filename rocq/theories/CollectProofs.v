(* CollectProofs.v: comment collection against the rule of SpecTree.v. *)
From Verif Require Import Base Cst Comments SpecTree Formatter.
From Coq Require Import Permutation.

Local Arguments N.add : simpl never.

Lemma code_eq n : code n = negb (n_extra n) && associable n.
Proof.
  unfold code, code_token, associable, is_associable_unnamed_node, is_punctuation_node, has_kind, kind_in.
  simpl. rewrite orb_false_r, !orb_assoc. reflexivity.
Qed.
Lemma code_plain c : n_extra c = false -> code c = associable c.
Proof. intro H. rewrite code_eq, H. reflexivity. Qed.
Lemma separator_eq n : separator n = is_punctuation_node n.
Proof. unfold separator, is_punctuation_node, has_kind, kind_in. simpl. rewrite orb_false_r. reflexivity. Qed.
Lemma peek_find r : peek r = next_sibling r.
Proof.
  unfold next_sibling. induction r as [|s r IH]; simpl; [reflexivity|].
  destruct (n_extra s); simpl; [exact IH|reflexivity].
Qed.

(* ------------------------------------------------------------ the map *)

Definition put_at (p : place) (cs : list comment) : bucket -> bucket :=
  match p with Leading => add_pre cs | Trailing => add_post cs | Dangling => add_dangling cs end.

Lemma cm_get_update id f m id' :
  cm_get id' (cm_update id f m) =
  if (id =? id')%N then Some (f match cm_get id m with Some b => b | None => empty_bucket end)
  else cm_get id' m.
Proof.
  induction m as [|[k v] m IH]; simpl.
  - reflexivity.
  - destruct (N.eqb_spec k id) as [->|Hk]; simpl.
    + destruct (N.eqb_spec id id'); reflexivity.
    + rewrite IH. destruct (N.eqb_spec k id') as [->|Hk'].
      * destruct (N.eqb_spec id id'); [congruence|reflexivity].
      * reflexivity.
Qed.

Definition place_eqb (p q : place) : bool :=
  match p, q with Leading, Leading | Trailing, Trailing | Dangling, Dangling => true | _, _ => false end.
Lemma place_eqb_eq p q : place_eqb p q = true <-> p = q.
Proof. destruct p, q; simpl; intuition congruence. Qed.

Lemma held_update id p cs m id' q :
  held (cm_update id (put_at p cs) m) id' q =
  held m id' q ++ (if (id =? id')%N && place_eqb p q then cs else []).
Proof.
  unfold held. rewrite cm_get_update. destruct (N.eqb_spec id id') as [->|H]; simpl.
  - destruct (cm_get id' m) as [bk|]; destruct p, q; simpl; rewrite ?app_nil_r; reflexivity.
  - destruct (cm_get id' m) as [bk|]; rewrite app_nil_r; reflexivity.
Qed.
Lemma held_touch id m id' q : held (cm_update id (fun b => b) m) id' q = held m id' q.
Proof.
  unfold held. rewrite cm_get_update. destruct (N.eqb_spec id id') as [->|H]; [|reflexivity].
  destruct (cm_get id' m); [reflexivity|destruct q; reflexivity].
Qed.

Lemma bucket_put p cs bk : Permutation (bucket_comments (put_at p cs bk)) (bucket_comments bk ++ cs).
Proof.
  unfold bucket_comments. destruct p; simpl; rewrite <- !app_assoc.
  - apply Permutation_app_head. rewrite !app_assoc. rewrite <- app_assoc. apply Permutation_app_comm.
  - apply Permutation_app_head, Permutation_app_head. apply Permutation_app_comm.
  - reflexivity.
Qed.
Lemma map_update id p cs m :
  Permutation (map_comments (cm_update id (put_at p cs) m)) (map_comments m ++ cs).
Proof.
  unfold map_comments. induction m as [|[k v] m IH]; simpl.
  - rewrite app_nil_r. apply (bucket_put p cs empty_bucket).
  - destruct (k =? id)%N; simpl.
    + rewrite bucket_put, <- !app_assoc. apply Permutation_app_head, Permutation_app_comm.
    + rewrite IH, app_assoc. reflexivity.
Qed.
Lemma map_touch id m : map_comments (cm_update id (fun b => b) m) = map_comments m.
Proof.
  unfold map_comments. induction m as [|[k v] m IH]; simpl; [reflexivity|].
  destruct (k =? id)%N; simpl; [reflexivity|]. rewrite IH. reflexivity.
Qed.

Lemma keys_update id f m : forall k, In k (map fst (cm_update id f m)) -> k = id \/ In k (map fst m).
Proof.
  induction m as [|[k0 v] m IH]; simpl; intros k H; [intuition|].
  destruct (N.eqb_spec k0 id) as [->|Hk]; simpl in *; [tauto|].
  destruct H as [H|H]; [auto|]. apply IH in H. tauto.
Qed.
Lemma keys_nodup_update id f m : NoDup (map fst m) -> NoDup (map fst (cm_update id f m)).
Proof.
  induction m as [|[k0 v] m IH]; simpl; intro H; [repeat constructor; auto|].
  inversion H; subst. destruct (N.eqb_spec k0 id) as [->|Hk]; simpl; [constructor; auto|].
  constructor; [|auto]. intro Hin. apply keys_update in Hin as [->|Hin]; auto.
Qed.
Lemma has_key_get m id : In id (map fst m) <-> cm_get id m <> None.
Proof.
  induction m as [|[k v] m IH]; simpl; [intuition congruence|].
  destruct (N.eqb_spec k id) as [->|Hk]; [intuition congruence|]. rewrite <- IH. intuition.
Qed.

(* ------------------------------------------------------------ steps *)

Definition comment_at (left : list node) (n : node) (right : list node) : list comment :=
  match comment_of left n right with Ok c => [c] | _ => [] end.
Definition at_comments (a : attached) : list comment :=
  comment_at (at_left a) (at_comment a) (at_right a).
Definition at_id (a : attached) : N := n_id (at_node a).
Definition sel (id : N) (p : place) (l : list (N * place * comment)) : list comment :=
  map snd (filter (fun e => (fst (fst e) =? id)%N && place_eqb (snd (fst e)) p) l).
Definition event_of (a : attached) : list (N * place * comment) :=
  map (fun c => (at_id a, at_place a, c)) (at_comments a).

(* [m'] is [m] with the events [es] added, in some order. *)
Record adds (m m' : list (N * bucket)) (es : list (N * place * comment)) : Prop := {
  adds_held : forall id p, Permutation (held m' id p) (held m id p ++ sel id p es);
  adds_all : Permutation (map_comments m') (map_comments m ++ map snd es);
  adds_keys : forall id, cm_get id m <> None -> cm_get id m' <> None;
  adds_nodup : NoDup (map fst m) -> NoDup (map fst m') }.

Lemma sel_app id p a b : sel id p (a ++ b) = sel id p a ++ sel id p b.
Proof. unfold sel. rewrite filter_app, map_app. reflexivity. Qed.
Lemma adds_refl m : adds m m [].
Proof. split; intros; simpl; rewrite ?app_nil_r; auto. Qed.
Lemma adds_trans m m' m'' a b : adds m m' a -> adds m' m'' b -> adds m m'' (a ++ b).
Proof.
  intros [H1 H2 H3 H4] [K1 K2 K3 K4]. split; intros.
  - rewrite sel_app, app_assoc, <- H1. apply K1.
  - rewrite map_app, app_assoc, <- H2. exact K2.
  - auto.
  - auto.
Qed.
Lemma adds_perm m m' a b : adds m m' a -> Permutation a b -> adds m m' b.
Proof.
  intros [H1 H2 H3 H4] HP. split; auto.
  - intros. rewrite (H1 id p). apply Permutation_app_head. unfold sel. apply Permutation_map.
    clear -HP. induction HP; simpl; auto.
    + destruct (_ && _); auto.
    + destruct (_ && _), (_ && _); auto. apply perm_swap.
    + etransitivity; eauto.
  - rewrite H2. apply Permutation_app_head, Permutation_map. exact HP.
Qed.
Lemma adds_put id p cs m : adds m (cm_update id (put_at p cs) m) (map (fun c => (id, p, c)) cs).
Proof.
  split.
  - intros id' q. rewrite held_update. apply Permutation_app_head. unfold sel.
    induction cs as [|c cs IH]; simpl; [destruct (_ && _); reflexivity|].
    destruct ((id =? id')%N && place_eqb p q); simpl in *; [constructor; exact IH|exact IH].
  - rewrite map_map. simpl. rewrite map_id. apply map_update.
  - intros id' H. rewrite cm_get_update. destruct (id =? id')%N; [discriminate|exact H].
  - apply keys_nodup_update.
Qed.
Lemma adds_touch id m : adds m (cm_update id (fun b => b) m) [].
Proof.
  split.
  - intros. rewrite held_touch, app_nil_r. reflexivity.
  - rewrite map_touch, app_nil_r. reflexivity.
  - intros id' H. rewrite cm_get_update. destruct (id =? id')%N; [discriminate|exact H].
  - apply keys_nodup_update.
Qed.

(* ------------------------------------------------------------ the loop *)

(* The loop of [collect] over the children of [i], for a given recursive call. *)
Definition collect_go (coll : node -> list (N * bucket) -> res (list (N * bucket))) (i : ninfo) :=
  fix go (left cs : list node) (pending : list comment)
         (last : option (N * N)) (m : list (N * bucket)) {struct cs} : res (list (N * bucket)) :=
    match cs with
    | [] =>
        Ok match last with
           | Some (lid, _) => cm_update lid (add_post pending) m
           | None => cm_update (i_id i) (add_dangling pending) m
           end
    | c :: r =>
        if n_extra c then
          rbind (comment_of left c r) (fun co =>
          match last with
          | Some (lid, lrow) =>
              match peek r with
              | None => go (c :: left) r pending last (cm_update lid (add_post [co]) m)
              | Some s =>
                  if is_punctuation_node s
                  then go (c :: left) r pending last (cm_update (n_id s) (add_pre [co]) m)
                  else if (n_erow c =? lrow)%N
                  then go (c :: left) r pending last (cm_update lid (add_post [co]) m)
                  else go (c :: left) r (pending ++ [co]) last m
              end
          | None => go (c :: left) r (pending ++ [co]) last m
          end)
        else if associable c then
          rbind (coll c (if is_nil pending then m
                         else cm_update (n_id c) (add_pre pending) m)) (fun m' =>
          go (c :: left) r [] (Some (n_id c, n_erow c)) m')
        else go (c :: left) r pending last m
    end.
Lemma collect_eq i cs m :
  collect (Node i cs) m =
  let m := cm_update (i_id i) (fun b => b) m in
  match cs with [] => Ok m | _ => collect_go collect i [] cs [] None m end.
Proof. destruct cs; reflexivity. Qed.

Definition kid_attachments (n : node) :=
  fix go (left cs : list node) {struct cs} : list attached :=
    match cs with
    | [] => []
    | c :: r =>
        (if n_extra c
         then [{| at_node := fst (belongs n left c r); at_place := snd (belongs n left c r);
                  at_left := left; at_comment := c; at_right := r |}]
         else if code c then attachments c else [])
        ++ go (c :: left) r
    end.
Lemma attachments_eq i cs : attachments (Node i cs) = kid_attachments (Node i cs) [] cs.
Proof. reflexivity. Qed.

(* Where pending comments will go. *)
Definition pending_place (n : node) (left right : list node) : N * place :=
  match next_code right with
  | Some x => (n_id x, Leading)
  | None => match prev_code left with Some p => (n_id p, Trailing) | None => (n_id n, Dangling) end
  end.
Definition last_of (left : list node) : option (N * N) :=
  option_map (fun p => (n_id p, n_erow p)) (prev_code left).

Definition events (l : list attached) : list (N * place * comment) := flat_map event_of l.

Definition adds_ok (n : node) : Prop := forall m m',
  collect n m = Ok m' -> adds m m' (events (attachments n)).

Lemma collect_go_adds i cs0 : let n := Node i cs0 in
  forall cs left pending m m',
  Forall adds_ok cs ->
  collect_go collect i left cs pending (last_of left) m = Ok m' ->
  adds m m' (map (fun c => (pending_place n left cs, c)) pending
             ++ events (kid_attachments n left cs)).
Proof.
  intro n. induction cs as [|c r IH]; intros left pending m m' HF H.
  - simpl in H. unfold last_of in H. unfold pending_place. simpl. rewrite app_nil_r.
    destruct (prev_code left) as [p|]; simpl in H; injection H as <-.
    + apply (adds_put (n_id p) Trailing).
    + apply (adds_put (i_id i) Dangling).
  - inversion HF as [|? ? Hc HF']; subst. cbn [collect_go] in H. fold (collect_go collect i) in H.
    cbn [kid_attachments]. fold (kid_attachments n).
    destruct (n_extra c) eqn:Ex.
    + (* a comment *)
      destruct (comment_of left c r) as [co| |] eqn:Eco; try discriminate. cbn [rbind] in H.
      assert (Hcode : code c = false) by (unfold code; rewrite Ex; reflexivity).
      assert (Hprev : prev_code (c :: left) = prev_code left) by (unfold prev_code; simpl; rewrite Hcode; reflexivity).
      assert (Hlast : last_of (c :: left) = last_of left) by (unfold last_of; rewrite Hprev; reflexivity).
      assert (Hpp : pending_place n left (c :: r) = pending_place n (c :: left) r).
      { unfold pending_place. rewrite Hprev. unfold next_code. simpl. rewrite Hcode. reflexivity. }
      rewrite Hpp.
      assert (Hev : forall to pl q,
        events ({| at_node := to; at_place := pl; at_left := left; at_comment := c; at_right := r |} :: q)
        = (n_id to, pl, co) :: events q).
      { intros. unfold events at 1. simpl. unfold event_of, at_comments, comment_at; simpl. rewrite Eco. reflexivity. }
      cbn [app]. rewrite Hev.
      (* the two ways to go on *)
      assert (Direct : forall to pl,
        belongs n left c r = (to, pl) ->
        collect_go collect i (c :: left) r pending (last_of left) (cm_update (n_id to) (put_at pl [co]) m) = Ok m' ->
        adds m m' (map (fun x => (pending_place n (c :: left) r, x)) pending
                   ++ (n_id (fst (belongs n left c r)), snd (belongs n left c r), co)
                      :: events (kid_attachments n (c :: left) r))).
      { intros to pl Hb HG. rewrite Hb; simpl. rewrite <- Hlast in HG. apply IH in HG; [|exact HF'].
        eapply adds_perm; [eapply adds_trans; [apply (adds_put (n_id to) pl [co])|exact HG]|].
        simpl. apply Permutation_middle. }
      assert (Wait : (n_id (fst (belongs n left c r)), snd (belongs n left c r)) = pending_place n (c :: left) r ->
        collect_go collect i (c :: left) r (pending ++ [co]) (last_of left) m = Ok m' ->
        adds m m' (map (fun x => (pending_place n (c :: left) r, x)) pending
                   ++ (n_id (fst (belongs n left c r)), snd (belongs n left c r), co)
                      :: events (kid_attachments n (c :: left) r))).
      { intros Hb HG. rewrite <- Hlast in HG. apply IH in HG; [|exact HF'].
        rewrite map_app, <- app_assoc in HG. simpl in HG. rewrite <- Hb in *. exact HG. }
      unfold last_of in H at 1. unfold belongs in Direct, Wait |- *.
      rewrite peek_find in H.
      destruct (prev_code left) as [p|] eqn:Ep; cbn [option_map] in H.
      * destruct (next_sibling r) as [s|] eqn:Es.
        -- rewrite <- separator_eq in H. destruct (separator s).
           ++ eapply Direct; [reflexivity|]. simpl. unfold last_of in *. rewrite Ep in *. exact H.
           ++ destruct (n_erow c =? n_erow p)%N.
              ** eapply Direct; [reflexivity|]. simpl. unfold last_of in *. rewrite Ep in *. exact H.
              ** apply Wait; [|unfold last_of in *; rewrite Ep in *; exact H].
                 unfold pending_place. rewrite Hprev. destruct (next_code r); reflexivity.
        -- eapply Direct; [reflexivity|]. simpl. unfold last_of in *. rewrite Ep in *. exact H.
      * apply Wait; [|unfold last_of in *; rewrite Ep in *; exact H].
        unfold pending_place. rewrite Hprev. destruct (next_code r); reflexivity.
    + (* not a comment *)
      rewrite (code_plain _ Ex). destruct (associable c) eqn:Ea.
      * assert (Hcode : code c = true) by (rewrite code_plain; assumption).
        destruct (collect c _) as [m1| |] eqn:E1; try discriminate. cbn [rbind] in H.
        assert (Hlast : last_of (c :: left) = Some (n_id c, n_erow c))
          by (unfold last_of, prev_code; simpl; rewrite Hcode; reflexivity).
        rewrite <- Hlast in H. apply IH in H; [|exact HF']. simpl in H.
        apply Hc in E1.
        assert (Hpp : pending_place n left (c :: r) = (n_id c, Leading)).
        { unfold pending_place, next_code. simpl. rewrite Hcode. reflexivity. }
        rewrite Hpp. unfold events. rewrite flat_map_app. fold (events (attachments c)).
        eapply adds_trans; [|eapply adds_trans; [exact E1|exact H]].
        destruct pending as [|p0 ps]; simpl is_nil; cbv iota; [apply adds_refl|].
        exact (adds_put (n_id c) Leading (p0 :: ps) m).
      * assert (Hcode : code c = false) by (rewrite code_plain; assumption).
        assert (Hlast : last_of (c :: left) = last_of left)
          by (unfold last_of, prev_code; simpl; rewrite Hcode; reflexivity).
        rewrite <- Hlast in H. apply IH in H; [|exact HF'].
        assert (Hpp : pending_place n left (c :: r) = pending_place n (c :: left) r).
        { unfold pending_place, next_code, prev_code. simpl. rewrite Hcode. reflexivity. }
        rewrite Hpp. exact H.
Qed.

Lemma collect_adds n : adds_ok n.
Proof.
  induction n as [i cs HF] using node_nested_ind. intros m m' H. rewrite collect_eq in H.
  cbv zeta in H. rewrite attachments_eq.
  change (events (kid_attachments (Node i cs) [] cs)) with ([] ++ events (kid_attachments (Node i cs) [] cs)).
  eapply adds_trans; [apply (adds_touch (i_id i))|].
  destruct cs as [|c cs]; [injection H as <-; apply adds_refl|].
  change None with (last_of []) in H. apply (collect_go_adds i (c :: cs)) in H; [|exact HF].
  exact H.
Qed.

(* Keys: every code node has an entry. *)
Lemma code_node_kid n : forall x, code_node n x <-> x = n \/ exists c, In c (code_kids n) /\ code_node c x.
Proof.
  intro x. split.
  - induction 1 as [|y z Hy IH Hz]; [auto|]. right. destruct IH as [->|(c & Hc & Hcy)].
    + exists z. split; [exact Hz|constructor].
    + exists c. split; [exact Hc|]. econstructor; eauto.
  - intros [->|(c & Hc & Hx)]; [constructor|]. induction Hx as [|y z Hy IH Hz].
    + econstructor; [constructor|exact Hc].
    + econstructor; eauto.
Qed.

Definition keys_ok (n : node) : Prop := forall m m',
  collect n m = Ok m' -> forall x, code_node n x -> cm_get (n_id x) m' <> None.

Lemma collect_go_keeps i cs : forall left pending last m m' id,
  collect_go collect i left cs pending last m = Ok m' -> cm_get id m <> None -> cm_get id m' <> None.
Proof.
  assert (HU : forall id f m x, cm_get x m <> None -> cm_get x (cm_update id f m) <> None).
  { intros. rewrite cm_get_update. destruct (_ =? _)%N; [discriminate|assumption]. }
  induction cs as [|c r IH]; intros left pending last m m' id H Hk.
  - simpl in H. injection H as <-. destruct last as [[lid lrow]|]; apply HU; exact Hk.
  - cbn [collect_go] in H. fold (collect_go collect i) in H. destruct (n_extra c).
    + destruct (comment_of left c r); try discriminate. cbn [rbind] in H.
      destruct last as [[lid lrow]|]; [|eapply IH; eauto].
      destruct (peek r) as [s|]; [|eapply IH; eauto].
      destruct (is_punctuation_node s); [eapply IH; eauto|].
      destruct (_ =? _)%N; eapply IH; eauto.
    + destruct (associable c); [|eapply IH; eauto].
      destruct (collect c _) as [m1| |] eqn:E1; try discriminate. cbn [rbind] in H.
      eapply IH; [exact H|]. apply collect_adds in E1. eapply adds_keys; [exact E1|].
      destruct (is_nil pending); auto.
Qed.

Lemma collect_go_keys i cs : forall left pending last m m',
  Forall keys_ok cs ->
  collect_go collect i left cs pending last m = Ok m' ->
  forall c x, In c cs -> code c = true -> code_node c x -> cm_get (n_id x) m' <> None.
Proof.
  induction cs as [|c0 r IH]; intros left pending last m m' HF H c x Hin Hcode Hx; [destruct Hin|].
  inversion HF as [|? ? Hc0 HF']; subst.
  cbn [collect_go] in H. fold (collect_go collect i) in H. destruct (n_extra c0) eqn:Ex.
  - destruct Hin as [->|Hin]; [unfold code in Hcode; rewrite Ex in Hcode; discriminate|].
    destruct (comment_of left c0 r); try discriminate. cbn [rbind] in H.
    destruct last as [[lid lrow]|]; [|eapply IH; eauto].
    destruct (peek r) as [s|]; [|eapply IH; eauto].
    destruct (is_punctuation_node s); [eapply IH; eauto|].
    destruct (_ =? _)%N; eapply IH; eauto.
  - rewrite <- (code_plain _ Ex) in H. destruct (code c0) eqn:Ec.
    + destruct (collect c0 _) as [m1| |] eqn:E1; try discriminate. cbn [rbind] in H.
      destruct Hin as [->|Hin]; [|eapply IH; eauto].
      eapply collect_go_keeps; [exact H|]. eapply Hc0; eauto.
    + destruct Hin as [->|Hin]; [congruence|]. eapply IH; eauto.
Qed.

Lemma collect_keys n : keys_ok n.
Proof.
  induction n as [i cs HF] using node_nested_ind. intros m m' H x Hx. rewrite collect_eq in H. cbv zeta in H.
  assert (H0 : cm_get (i_id i) (cm_update (i_id i) (fun b => b) m) <> None)
    by (rewrite cm_get_update, N.eqb_refl; discriminate).
  apply code_node_kid in Hx as [->|(c & Hc & Hx)].
  - destruct cs as [|c cs]; [injection H as <-; exact H0|]. eapply collect_go_keeps; [exact H|exact H0].
  - unfold code_kids in Hc. simpl in Hc. apply filter_In in Hc as [Hin Hcode].
    destruct cs as [|c1 cs]; [destruct Hin|]. eapply collect_go_keys; eauto.
Qed.
