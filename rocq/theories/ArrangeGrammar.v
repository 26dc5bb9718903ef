(* ArrangeGrammar.v: the nodes whose comments are not printed around them. *)
From Verif Require Import Base Cst SpecTree SpecSigns SpecWords SpecTokens TokensProofs TokensMarks TokensProofs2 TokensProofs3.
Local Open Scope string_scope.
Local Open Scope list_scope.

Lemma for_clause_children n : follows_rules n -> n_kind n = "for_clause" ->
  exists a x, code_children n = a ++ [x] /\ bits_of a = bits (U "FOR") /\ Forall (fun c => n_named c = false) a /\ n_named x = true.
Proof.
  unfold follows_rules. intros H E. rewrite E in H. destruct H as (alt & Ha & F); [discriminate|].
  cbn in Ha. destruct Ha as [<-|[]]. cbn [fits] in F. destruct F as (a & r & E1 & W & c & r' & -> & B & ->).
  exists a, c. split; [exact E1|]. split; [|split; [|apply B]].
  - destruct W as (_ & _ & W). rewrite map_id in W. exact W.
  - destruct W as (_ & W & _). eapply Forall_impl; [|exact W]. intros y Hy. apply Hy.
Qed.
Lemma accessor_children n : follows_rules n -> n_kind n = "accessor_declaration" ->
  (forall c, In c (code_children n) -> n_kind c <> ";") \/
  exists a x, code_children n = a ++ [x] /\ (forall c, In c a -> n_kind c <> ";") /\ n_kind x = ";" /\ n_named x = false.
Proof.
  unfold follows_rules. intros H E. rewrite E in H. destruct H as (alt & Ha & F); [discriminate|].
  assert (HK : forall fs f k c, sign (fun c : node => c) fs f k c -> k <> ";" -> n_kind c <> ";").
  { intros fs f k c (_ & S & _) N. congruence. }
  assert (HB : forall fs f ks c, branch (fun c : node => c) fs f ks c -> kind_in ";" ks = false -> n_kind c <> ";").
  { intros fs f ks c (_ & B & _) N Q. rewrite Q in B. congruence. }
  cbn in Ha. destruct Ha as [<-|[<-|[<-|[<-|[]]]]]; cbn [fits] in F.
  1,2: right; destruct F as [(c & r & E1 & S1 & c2 & r2 & -> & S2 & ->)|(m & r0 & E0 & B & c & r & -> & S1 & c2 & r2 & -> & S2 & ->)];
    [exists [c], c2|exists [m; c], c2]; (split; [assumption|]); (split; [|split; [apply S2|apply S2]]);
    intros y Hy; cbn [In] in Hy;
    repeat match type of Hy with _ \/ _ => destruct Hy as [<-|Hy] | False => destruct Hy end;
    first [eapply HK; [exact S1|discriminate]|eapply HB; [exact B|reflexivity]].
  1,2: left; intros y Hy;
    destruct F as [(c & r & E1 & S1 & c2 & r2 & -> & B2 & ->)|(m & r0 & E0 & B & c & r & -> & S1 & c2 & r2 & -> & B2 & ->)];
    match goal with E : code_children _ = _ |- _ => rewrite E in Hy end; cbn [In] in Hy;
    repeat match type of Hy with _ \/ _ => destruct Hy as [<-|Hy] | False => destruct Hy end;
    first [eapply HK; [exact S1|discriminate]|eapply HB; [exact B|reflexivity]|eapply HB; [exact B2|reflexivity]].
Qed.
Lemma braces_children n : follows_rules n -> kind_in (n_kind n) body_kinds = true ->
  (forall c, In c (code_children n) -> n_named c = false) ->
  exists o c, code_children n = [o; c] /\ n_kind o = "{" /\ n_kind c = "}".
Proof.
  unfold follows_rules. intros HR Hk Hu.
  destruct (body_rules _ Hk) as (H1 & H2 & H3). destruct (HR H1) as (alt & Ha & HF).
  rewrite forallb_forall in H2, H3. specialize (H2 alt Ha). specialize (H3 alt Ha).
  pose proof (bare_fits _ _ _ H2 HF Hu) as E. unfold opens_closes in H3. rewrite <- E in H3.
  destruct (code_children n) as [|o [|c [|x r]]]; try discriminate. cbn [map] in H3.
  apply Bool.andb_true_iff in H3 as [H3 H4]. apply String.eqb_eq in H3, H4. eauto.
Qed.
