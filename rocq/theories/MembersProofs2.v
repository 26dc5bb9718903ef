(* MembersProofs2.v: the blank-line flag of a body member, and the order of the
   members in the built document. *)
From Coq Require Import Lia.
From Verif Require Import Base Doc DocBuilder Cst Comments Term New SpecMembers ReadProofs.

Lemma find_next c n : find n_named (l_right c) = Some n <-> next_named c n.
Proof.
  unfold next_named. induction (l_right c) as [|x r IH]; cbn [find].
  - split; [discriminate|]. intros (p & q & E & _). destruct p; discriminate.
  - destruct (n_named x) eqn:Hx; split.
    + intro H. injection H as ->. exists [], r. repeat split; auto.
    + intros (p & q & E & Hp & Hn). destruct p as [|y p]; cbn in E; injection E as -> E; [reflexivity|].
      inversion Hp; congruence.
    + intro H. apply IH in H as (p & q & -> & Hp & Hn). exists (x :: p), q. repeat split; auto.
    + intros (p & q & E & Hp & Hn). destruct p as [|y p]; cbn in E; injection E as -> E; [congruence|].
      apply IH. inversion Hp; subst. eauto 6.
Qed.
Lemma trailing_kept cm checked l tr : has_trailing_newline cm checked l = Ok tr ->
  exists bk, cm_get (n_id (l_node l)) cm = Some bk /\ blank_kept (post bk) l tr.
Proof.
  unfold has_trailing_newline, get_comment_bucket, must. destruct (cm_get _ cm) as [bk|]; cbn [rbind]; [|discriminate].
  intro H. exists bk. split; [reflexivity|]. unfold blank_kept. destruct (rev (post bk)) as [|co r]; [|injection H as <-; reflexivity].
  destruct (find n_named (l_right l)) as [n|] eqn:E.
  - split.
    + intros n' Hn' H1. apply find_next in Hn'. rewrite E in Hn'. injection Hn' as <-.
      destruct (N.eqb_spec (n_srow n) 0); [lia|]. injection H as <-. unfold empty_line_between.
      rewrite N.ltb_lt. split; [intro; exists (n_erow (l_node l) + 1)%N; lia|intros (row & ?); lia].
    + intro Hno. exfalso. apply (Hno n). apply find_next. exact E.
  - injection H as <-. split; [|reflexivity]. intros n' Hn'. apply find_next in Hn'. congruence.
Qed.

Lemma members_kept cm checked r s cs : forall ms, mapR (body_member cm checked r s) cs = Ok ms ->
  Forall2 (fun c m => r s c = Ok (fst m) /\
    exists bk, cm_get (n_id (l_node c)) cm = Some bk /\ blank_kept (post bk) c (snd m)) cs ms.
Proof.
  induction cs as [|c cs IH]; intros ms H.
  - injection H as <-. constructor.
  - change (rbind (body_member cm checked r s c) (fun y => rbind (mapR (body_member cm checked r s) cs) (fun ys => Ok (y :: ys))) = Ok ms) in H.
    unfold body_member at 1 in H. destruct (r s c) as [d| |] eqn:Hd; try discriminate. cbn [rbind] in H.
    destruct (has_trailing_newline cm checked c) as [tr| |] eqn:Ht; try discriminate. cbn [rbind] in H.
    destruct (mapR (body_member cm checked r s) cs) as [ys| |] eqn:Hm; try discriminate. cbn [rbind] in H. injection H as <-.
    constructor; [|apply IH; reflexivity]. split; [exact Hd|]. apply (trailing_kept _ _ _ _ Ht).
Qed.

Definition member_sort (s : sort) : option sort :=
  match s with
  | Root => Some RootMember | ClassBody => Some ClassMember
  | Block => Some Statement | InterfaceBody => Some InterfaceMember
  | _ => None
  end.
Definition member_term (s : sort) (ms : list (dt * bool)) : list dt :=
  match s with
  | Root => [TMembers ms; TLeaf LNl]
  | _ => [TSurroundMembers ms (U "{") (U "}")]
  end.

Lemma bodies_kept cm checked k s s' l t :
  member_sort s = Some s' -> new cm checked (S k) s l = Ok t ->
  exists h ms, t = TNode h (with_punctuation l) (member_term s ms) [] /\
    Forall2 (fun c m => new cm checked k s' c = Ok (fst m) /\
      exists bk, cm_get (n_id (l_node c)) cm = Some bk /\ blank_kept (post bk) c (snd m)) (children_vec l) ms.
Proof.
  intros Hs H. destruct s; try discriminate; injection Hs as <-; cbn [new new_step] in H;
    unfold new_Root, new_ClassBody, new_Block, new_InterfaceBody in H;
    (destruct (assert_check _ l); try discriminate); cbn [rbind] in H;
    (destruct (mapR _ (children_vec l)) as [ms| |] eqn:Hm; try discriminate); cbn [rbind] in H; injection H as <-;
    apply members_kept in Hm; eexists; exists ms; (split; [reflexivity|exact Hm]).
Qed.
