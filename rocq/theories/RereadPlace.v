(* RereadPlace.v: the members of a body in a source and in the formatted source.
   Proofs only. *)
From Coq Require Import Lia.
From Verif Require Import Base Doc DocBuilder Cst Comments Term SpecTree New SpecWords SpecTokens BitsProofs TokensProofs
  CollectProofs TokensProofs2 TokensProofs5 NewProofs ReadProofs SpecLayout LayoutNew LayoutStep SeqTerm SeqPlace SpecReread.
Local Open Scope string_scope.
Local Open Scope list_scope.

(* ------------------------------------------------------------ bodies *)

Lemma pos_shape root l : pos root l -> tips root = ahead_of l ++ tips (l_node l) ++ behind_of l.
Proof.
  induction 1 as [|u x P IH Hx]; [cbn; rewrite app_nil_r; reflexivity|].
  apply kid_shape in Hx as (lf & rg & E & Ec). rewrite IH.
  assert (Ea : ahead_of x = ahead_of u ++ flat_map tips (rev lf)) by (rewrite E; reflexivity).
  assert (Eb : behind_of x = flat_map tips rg ++ behind_of u) by (rewrite E; reflexivity).
  rewrite Ea, Eb. rewrite tips_kids by (rewrite Ec; destruct (rev lf); discriminate). rewrite Ec, flat_map_app. cbn [flat_map].
  rewrite <- !app_assoc. reflexivity.
Qed.

Definition signs_only (ns : list node) : Prop := Forall (fun n => n_named n = false) ns.
Definition members_only (ns : list node) : Prop := Forall (fun n => n_named n = true /\ n_extra n = false) ns.
Definition plain_member (n : node) : Prop := kind_in (n_kind n) ["for_clause"; "with_type"; "selected_fields"; ";"; ","] = false.

Lemma plain_in ks n : forallb (fun k => negb (kind_in k ["for_clause"; "with_type"; "selected_fields"; ";"; ","])) ks = true ->
  kind_in (n_kind n) ks = true -> plain_member n.
Proof.
  intros H K. apply kind_in_in in K. rewrite forallb_forall in H. specialize (H _ K). apply negb_true_iff in H. exact H.
Qed.
Lemma reps fs ks a : forallb (fun k => negb (kind_in k ["for_clause"; "with_type"; "selected_fields"; ";"; ","])) ks = true ->
  Forall (branch (fun c : node => c) fs "" ks) a -> Forall (fun n => n_named n = true /\ plain_member n) a.
Proof. intros H F. induction F as [|n a (Hn & Hk & _) F IH]; constructor; [|exact IH]. split; [exact Hn|]. eapply plain_in; eassumption. Qed.
Lemma sign_named fs k n : sign (fun c : node => c) fs "" k n -> n_named n = false.
Proof. intros (H & _). exact H. Qed.

Section Body.
  Variable root : node.
  Hypothesis S : file_tree root.
  Hypothesis U : untouched root.

  Lemma rules_of n : In n (all_nodes root) -> n_named n = true -> rules (n_kind n) <> [] ->
    exists alt, In alt (rules (n_kind n)) /\ fits (fun c => c) (fields (n_kind n)) alt (children n).
  Proof.
    intros H Hn Hr. destruct (ft_rules _ S n H) as (alt & H1 & H2); [apply (U n H)|exact Hn|exact Hr|].
    rewrite untouched_kids in H2 by (apply (untouched_sub root U); exact H). eauto.
  Qed.
  Lemma leaf_of n : In n (all_nodes root) -> n_named n = false -> children n = [].
  Proof. intros H Hn. pose proof (ft_spelled _ S n H (proj1 (U n H))) as Sp. unfold spelled in Sp. rewrite Hn in Sp. apply Sp. Qed.

  Lemma body_kinds_shape l : In l (all_nodes root) -> kind_in (n_kind l) ["parser_output"; "class_body"; "interface_body"; "block"; "constructor_body"] = true ->
    exists a b c, children l = a ++ b ++ c /\ signs_only a /\ Forall (fun n => n_named n = true /\ plain_member n) b /\ signs_only c.
  Proof.
    intros H K. destruct (n_named l) eqn:Hn.
    2: { exists [], [], []. rewrite (leaf_of l H Hn). repeat split; constructor. }
    apply kind_in_in in K. destruct (rules_of l H Hn) as (alt & Ha & Hf).
    { repeat (destruct K as [<-|K]; [discriminate|]). destruct K. }
    destruct K as [K|[K|[K|[K|[K|[]]]]]]; rewrite <- K in Ha, Hf.
    - cbn in Ha. destruct Ha as [<-|[]]. cbn [fits] in Hf. destruct Hf as (a & t & E & F & ->). exists [], a, [].
      split; [exact E|]. split; [constructor|]. split; [eapply reps; [|exact F]; reflexivity|constructor].
    - cbn in Ha. destruct Ha as [<-|[]]. cbn [fits] in Hf. destruct Hf as (o & t & E & So & a & t' & -> & F & z & t2 & -> & Sz & ->).
      exists [o], a, [z]. split; [exact E|]. split; [repeat constructor; eapply sign_named; exact So|].
      split; [eapply reps; [|exact F]; reflexivity|repeat constructor; eapply sign_named; exact Sz].
    - cbn in Ha. destruct Ha as [<-|[]]. cbn [fits] in Hf. destruct Hf as (o & t & E & So & a & t' & -> & F & z & t2 & -> & Sz & ->).
      exists [o], a, [z]. split; [exact E|]. split; [repeat constructor; eapply sign_named; exact So|].
      split; [eapply reps; [|exact F]; reflexivity|repeat constructor; eapply sign_named; exact Sz].
    - cbn in Ha. destruct Ha as [<-|[]]. cbn [fits] in Hf. destruct Hf as (o & t & E & So & a & t' & -> & F & z & t2 & -> & Sz & ->).
      exists [o], a, [z]. split; [exact E|]. split; [repeat constructor; eapply sign_named; exact So|].
      split; [eapply reps; [|exact F]; reflexivity|repeat constructor; eapply sign_named; exact Sz].
    - cbn in Ha. destruct Ha as [<-|[]]. cbn [fits] in Hf.
      destruct Hf as (o & t & E & So & [(a & t' & -> & F & z & t2 & -> & Sz & ->)|(i & t0 & -> & Bi & a & t' & -> & F & z & t2 & -> & Sz & ->)]).
      + exists [o], a, [z]. split; [exact E|]. split; [repeat constructor; eapply sign_named; exact So|].
        split; [eapply reps; [|exact F]; reflexivity|repeat constructor; eapply sign_named; exact Sz].
      + exists [o], (i :: a), [z]. split; [exact E|]. split; [repeat constructor; eapply sign_named; exact So|].
        split; [constructor; [|eapply reps; [|exact F]; reflexivity]|repeat constructor; eapply sign_named; exact Sz].
        destruct Bi as (B1 & B2 & _). split; [exact B1|]. eapply plain_in; [|exact B2]. reflexivity.
  Qed.
  Lemma body_field u n : In u (all_nodes root) -> In n (children u) -> n_kind u = "constructor_declaration" ->
    has_field "body" n = true -> n_kind n = "constructor_body".
  Proof.
    intros Hu Hn Hk Hb. destruct (n_named u) eqn:Nu; [|rewrite (leaf_of u Hu Nu) in Hn; destruct Hn].
    destruct (rules_of u Hu Nu) as (alt & Ha & Hf); [rewrite Hk; discriminate|]. rewrite Hk in Ha, Hf. cbn in Ha. destruct Ha as [<-|[]].
    assert (Q : forall f ks, f <> "body" -> branch (fun c : node => c) (fields "constructor_declaration") f ks n -> False).
    { intros f ks Nf (_ & _ & B). unfold in_field in B. unfold has_field in Hb. destruct (n_field n) as [g|]; [|discriminate].
      apply String.eqb_eq in Hb. subst g. destruct (String.eqb f "") eqn:Ef.
      - discriminate B.
      - injection B as B. congruence. }
    cbn [fits] in Hf.
    assert (E : exists pre0 x, children u = pre0 ++ [x] /\ kind_in (n_kind x) ["constructor_body"] = true /\
      Forall (fun y => exists f ks, f <> "body" /\ branch (fun c : node => c) (fields "constructor_declaration") f ks y) pre0).
    { 
      destruct Hf as [Hf|(c1 & t1 & E1 & B1 & Hf)].
      - destruct Hf as [Hf|(c2 & t2 & E2 & B2 & Hf)].
        + destruct Hf as (c3 & t3 & E3 & B3 & c4 & t4 & -> & B4 & c5 & t5 & -> & B5 & ->).
          exists [c3; c4], c5. split; [exact E3|]. split; [apply B5|].
          repeat constructor; eexists _, _; (split; [|eassumption]); discriminate.
        + destruct Hf as (c3 & t3 & -> & B3 & c4 & t4 & -> & B4 & c5 & t5 & -> & B5 & ->).
          exists [c2; c3; c4], c5. split; [exact E2|]. split; [apply B5|].
          repeat constructor; eexists _, _; (split; [|eassumption]); discriminate.
      - destruct Hf as [Hf|(c2 & t2 & -> & B2 & Hf)].
        + destruct Hf as (c3 & t3 & -> & B3 & c4 & t4 & -> & B4 & c5 & t5 & -> & B5 & ->).
          exists [c1; c3; c4], c5. split; [exact E1|]. split; [apply B5|].
          repeat constructor; eexists _, _; (split; [|eassumption]); discriminate.
        + destruct Hf as (c3 & t3 & -> & B3 & c4 & t4 & -> & B4 & c5 & t5 & -> & B5 & ->).
          exists [c1; c2; c3; c4], c5. split; [exact E1|]. split; [apply B5|].
          repeat constructor; eexists _, _; (split; [|eassumption]); discriminate. }
    destruct E as (pre0 & x & E & Kx & F). rewrite E in Hn. apply in_app_or in Hn as [Hn|[<-|[]]].
    - rewrite Forall_forall in F. destruct (F n Hn) as (f & ks & Nf & B). exfalso. exact (Q f ks Nf B).
    - apply kind_in_in in Kx as [<-|[]]. reflexivity.
  Qed.
  Lemma body_shape l : pos root l -> bodied l ->
    exists a b c, children (l_node l) = a ++ b ++ c /\ signs_only a /\ Forall (fun n => n_named n = true /\ plain_member n) b /\ signs_only c.
  Proof.
    intros P [K|(Hb & u & Hu & Ku)]; apply body_kinds_shape; try (apply pos_node; exact P); [exact K|].
    destruct P as [|u0 l P Hl]; [discriminate|]. rewrite (kids_parent _ _ Hl) in Hu. injection Hu as ->.
    rewrite (body_field (l_node u) (l_node l)); [reflexivity|apply pos_node; exact P|apply kids_child; exact Hl| |exact Hb].
    apply String.eqb_eq. exact Ku.
  Qed.
End Body.

(* ------------------------------------------------------------ one member behind the other *)

Fixpoint chain (u : loc) (z : list node) (cs : list loc) : Prop :=
  match cs with
  | [] => True
  | c :: r => match r with
              | [] => l_right c = z
              | d :: _ => exists n lf m rg, c = Loc n lf (m :: rg) (Some u) /\ d = Loc m (n :: lf) rg (Some u)
              end /\ chain u z r
  end.
Definition wanted (c : loc) : bool := is_named c && negb (is_extra c).
Lemma children_vec_wanted l : children_vec l = filter wanted (kids l).
Proof.
  unfold children_vec, named_kids, wanted. induction (kids l) as [|c cs IH]; [reflexivity|]. cbn [filter].
  destruct (is_named c); cbn [andb filter]; rewrite IH; reflexivity.
Qed.
Lemma locs_unwanted u a : signs_only a -> forall left r, filter wanted (locs_from u left (a ++ r)) = filter wanted (locs_from u (rev a ++ left) r).
Proof.
  induction 1 as [|n a Hn F IH]; intros left r; [reflexivity|]. cbn [app locs_from filter rev]. unfold wanted at 1, is_named. cbn [l_node].
  rewrite Hn. cbn [andb]. rewrite IH, <- app_assoc. reflexivity.
Qed.
Lemma locs_chain u z : signs_only z -> forall b left, members_only b -> chain u z (filter wanted (locs_from u left (b ++ z))).
Proof.
  intros Hz. assert (Z : forall left, filter wanted (locs_from u left z) = []).
  { intro left. rewrite <- (app_nil_r z), locs_unwanted by exact Hz. reflexivity. }
  induction b as [|n b IH]; intros left F; cbn [app]; [rewrite Z; exact I|].
  inversion F as [|? ? [Hn Hx] F']; subst. cbn [locs_from filter]. unfold wanted at 1, is_named, is_extra. cbn [l_node]. rewrite Hn, Hx. cbn [andb negb].
  specialize (IH (n :: left) F'). destruct b as [|m b]; cbn [app] in *.
  - rewrite Z. cbn [chain]. split; [reflexivity|exact I].
  - inversion F' as [|? ? [Hm Hy] F2]; subst. cbn [locs_from filter] in *. unfold wanted at 1 in IH. unfold wanted at 1. unfold is_named, is_extra in *. cbn [l_node] in *.
    rewrite Hm, Hy in *. cbn [andb negb] in *. split; [|exact IH]. eexists _, _, _, _. split; reflexivity.
Qed.
Lemma children_chain l a b z : children (l_node l) = a ++ b ++ z -> signs_only a -> members_only b -> signs_only z ->
  chain l z (children_vec l).
Proof.
  intros E Ha Hb Hz. rewrite children_vec_wanted. unfold kids. rewrite E, locs_unwanted by exact Ha. apply locs_chain; assumption.
Qed.
