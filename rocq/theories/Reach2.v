(* Reach2.v: bodies and loops among the declarations and statements of Reach.  Proofs only. *)
From Coq Require Import Sorting.Sorted Lia.
From Verif Require Import Base Doc DocBuilder Cst Comments Term SpecTree New SpecWords SpecTokens BitsProofs TokensProofs TokensMarks TokensProofs2 TokensProofs3
  SpecReread SpecPlaces SeqTerm LevelTerm Reach.
Local Open Scope string_scope.
Local Open Scope list_scope.

Section Shown2.
  Context {DG : dangles}.
  Variable cm : cmap.
  Variable checked : bool.
  Variable b : pretty_config.
  Variable rec : sort -> loc -> res dt.
  Notation shows := (shows b rec).
  Lemma outer_semi (c : loc) : kind_in (kind c) outer = true -> is_semicolumn c = false.
  Proof.
    intro K. unfold is_semicolumn, is_kind, has_kind. unfold kind in *. destruct (String.eqb (n_kind (l_node c)) ";") eqn:E; [|reflexivity]. apply String.eqb_eq in E.
    rewrite E in K. vm_compute in K. discriminate K.
  Qed.
  Ltac fields := repeat match goal with
    | H : branch _ _ _ _ ?c |- context [has_field _ (l_node ?c)] => rewrite (some_field _ _ _ _ (proj2 (proj2 H)) eq_refl)
    end; cbn [String.eqb Ascii.eqb Bool.eqb orb andb].
  Ltac blk := match goal with |- context [is_kind "block" ?c] => unfold is_kind, has_kind; destruct (String.eqb (n_kind (l_node c)) "block") eqn:?; cbn [app] end.
  Lemma r_IfStatement l x c : fine l -> new_IfStatement rec l = Ok x -> In c (ckids l) -> is_named c = true -> kind_in (kind c) outer = true -> shows l x c.
  Proof.
    intros F H. unfold new_IfStatement in H. checked_kind H Hk. reach l F H Hk. all: finish Hk.
    all: fields; repeat blk; insd.
  Qed.
  Lemma r_EnhancedForStatement l x c : fine l -> new_EnhancedForStatement rec l = Ok x -> In c (ckids l) -> is_named c = true -> kind_in (kind c) outer = true -> shows l x c.
  Proof.
    intros F H. unfold new_EnhancedForStatement in H. checked_kind H Hk. reach l F H Hk. all: finish Hk.
    all: unfold loop_body; rewrite outer_semi by assumption; insd.
  Qed.
  Lemma r_WhileStatement l x c : fine l -> new_WhileStatement rec l = Ok x -> In c (ckids l) -> is_named c = true -> kind_in (kind c) outer = true -> shows l x c.
  Proof.
    intros F H. unfold new_WhileStatement in H. checked_kind H Hk. reach l F H Hk. all: finish Hk.
    all: rewrite outer_semi by assumption; insd.
  Qed.
  Lemma r_AccessorDeclaration l x c : fine l -> new_AccessorDeclaration rec l = Ok x -> In c (ckids l) -> is_named c = true -> kind_in (kind c) outer = true -> shows l x c.
  Proof. intros F H. unfold new_AccessorDeclaration in H. checked_kind H Hk. reach l F H Hk. all: finish Hk. Qed.
  Lemma r_AccessorList l x c : fine l -> new_AccessorList rec l = Ok x -> In c (ckids l) -> is_named c = true -> kind_in (kind c) outer = true -> shows l x c.
  Proof.
    intros F H. unfold new_AccessorList in H. checked_kind H Hk. reach l F H Hk. all: finish Hk.
    all: destruct (existsb _ _); insd.
  Qed.
  Lemma r_ForStatement l x c : fine l -> new_ForStatement rec l = Ok x -> In c (ckids l) -> is_named c = true -> kind_in (kind c) outer = true -> shows l x c.
  Proof.
    intros F H. unfold new_ForStatement in H. checked_kind H Hk. rewrite (kids_filter l ";" (f_valid l F) eq_refl) in H.
    open_rule l F Hk; links; kid_lists.
    all: assert (EI : filter (fun c => has_field "init" (l_node c)) (kids l) = filter (fun c => has_field "init" (l_node c)) (ckids l)) by (apply code_filter_field; assumption).
    all: rewrite EKids in EI; ev EI.
    all: try match goal with HS : separated _ _ _ _ _ ?a, HL : linked_to _ ?a _ |- _ =>
           destruct (sep_first _ _ _ _ _ _ _ HS HL) as (c0 & r0 & Ea & Bc0 & Pc0) end.
    all: inv_new H.
    all: match goal with E : mapR punct_new _ = Ok _ |- _ => cbn [map mapR app] in E; 
      repeat match goal with S : sign _ _ _ ";" ?x |- _ => rewrite (semi_new _ _ _ S) in E end;
      cbn [rbind mapR] in E; injection E as <- end.
    all: cbn [List.length Nat.ltb Nat.leb Nat.add] in H; try discriminate H.
    all: done_new H.
    all: finish Hk.
    all: unfold loop_body; rewrite ?outer_semi by assumption; insd.
  Qed.

  (* Bodies. *)
  Lemma member_in s a ms c : mapR (body_member cm checked rec s) a = Ok ms -> In c a -> exists y tr, rec s c = Ok y /\ In (y, tr) ms.
  Proof.
    intros H Hc. destruct (mapR_in _ _ _ _ H Hc) as ([y tr] & E & Hin). unfold body_member in E.
    destruct (rec s c) as [d| |]; cbn [rbind] in E; try discriminate. destruct (has_trailing_newline _ _ _) as [t0| |]; cbn [rbind] in E; try discriminate.
    injection E as -> ->. eauto.
  Qed.
  Ltac body_kid IC Hk :=
    match goal with E : mapR (body_member _ _ _ _) ?a = Ok _, B : Forall (branch _ _ _ _) ?a |- Reach.shows _ _ _ _ ?c =>
      let y := fresh "y" in let tr := fresh "tr" in let Ey := fresh "Ey" in let Iy := fresh "Iy" in
      destruct (member_in _ _ _ _ E IC) as (y & tr & Ey & Iy); pose proof (proj1 (Forall_forall _ _) B _ IC) end; this_kid Hk.
  Ltac body Hk :=
    let IC := fresh "IC" in let N := fresh "N" in let K := fresh "K" in
    intros IC N K; match goal with EK : ckids _ = _ |- _ => rewrite EK in IC end; kid_cases IC; first [drop_kid IC N K | body_kid IC Hk].
  Lemma r_ClassBody l x c : fine l -> new_ClassBody cm checked rec l = Ok x -> In c (ckids l) -> is_named c = true -> kind_in (kind c) outer = true -> shows l x c.
  Proof. intros F H. unfold new_ClassBody in H. checked_kind H Hk. reach l F H Hk. all: body Hk. Qed.
  Lemma r_InterfaceBody l x c : fine l -> new_InterfaceBody cm checked rec l = Ok x -> In c (ckids l) -> is_named c = true -> kind_in (kind c) outer = true -> shows l x c.
  Proof. intros F H. unfold new_InterfaceBody in H. checked_kind H Hk. reach l F H Hk. all: body Hk. Qed.
  Lemma r_Block l x c : fine l -> new_Block cm checked rec l = Ok x -> In c (ckids l) -> is_named c = true -> kind_in (kind c) outer = true -> shows l x c.
  Proof. intros F H. unfold new_Block in H. checked_kind H Hk. reach l F H Hk. all: body Hk. Qed.
  Lemma r_Root l x c : fine l -> new_Root cm checked rec l = Ok x -> In c (ckids l) -> is_named c = true -> kind_in (kind c) outer = true -> shows l x c.
  Proof. intros F H. unfold new_Root in H. checked_kind H Hk. reach l F H Hk. all: body Hk. Qed.
  Lemma r_ConstructorBody l x c : kind l = "constructor_body" -> fine l -> new_ConstructorBody cm checked rec l = Ok x -> In c (ckids l) -> is_named c = true -> kind_in (kind c) outer = true -> shows l x c.
  Proof.
    intros Hk F H. unfold new_ConstructorBody in H. open_rule l F Hk; links; kid_lists; inv_new H.
    - done_new H.
      assert (Q : x1 = None /\ mapR (body_member cm checked rec Statement) x2 = Ok x3).
      { destruct x2 as [|d x2]; [injection E as <-; auto|]. inversion H2; subst. ev E. ev E0.
        injection E as <-. auto. }
      destruct Q as [-> E']. clear E E0. body Hk.
      destruct x3 as [|m ms]; [destruct Iy|]. insd.
    - unfold rmap in E. destruct (body_member cm checked rec ConstructInvocation x2) as [[d tr0]| |]; cbn [rbind] in E; try discriminate E. injection E as <-.
      done_new H. body Hk.
  Qed.
End Shown2.
