(* SamplesTokens.v: a file whose tree follows the rules of SpecTokens.v.  Nothing
   here models afmt: [source_treeb] decides (one way) whether a concrete tree is a
   [source_tree], so that the hypotheses of the theorems can be shown to hold. *)
From Coq Require Import Sorting.Sorted.
From Verif Require Import Base Cst SpecTree SpecWords SpecTokens TokensProofs Trees Samples.
Local Open Scope string_scope.
Local Open Scope list_scope.

Definition bits_eqb (a b : list ustr) : bool := if list_eq_dec (list_eq_dec N.eq_dec) a b then true else false.
Lemma bits_eqb_eq a b : bits_eqb a b = true -> a = b.
Proof. unfold bits_eqb. destruct (list_eq_dec _ a b); [auto|discriminate]. Qed.

Section Fitsb.
  Context {A : Type}.
  Variable nd : A -> node.
  Variable fs : list string.
  Definition in_fieldb (f : string) (n : node) : bool :=
    if String.eqb f "" then match n_field n with Some g => negb (kind_in g fs) | None => true end
    else match n_field n with Some g => String.eqb g f | None => false end.
  Definition signb (f k : string) (a : A) : bool :=
    negb (n_named (nd a)) && String.eqb (n_kind (nd a)) k && in_fieldb f (nd a).
  Definition branchb (f : string) (ks : list string) (a : A) : bool :=
    n_named (nd a) && kind_in (n_kind (nd a)) ks && in_fieldb f (nd a).
  Definition verbb (k : string) (ks : list string) (a : A) : bool :=
    branchb "" [k] a && match code_children (nd a) with [c] => kind_in (n_kind c) ks | _ => false end.
  Fixpoint separatedb (s f : string) (ks : list string) (l : list A) : bool :=
    match l with
    | [] => false
    | a :: t => branchb f ks a && match t with [] => true | x :: r => signb "" s x && separatedb s f ks r end
    end.
  Definition splits (l : list A) : list (list A * list A) :=
    map (fun k => (firstn k l, skipn k l)) (seq 0 (S (List.length l))).
  Definition wordedb (w : string) (l : list A) : bool :=
    negb (is_nil l) &&
    forallb (fun a => negb (n_named (nd a)) && negb (kind_in (n_kind (nd a)) [","; ";"]) && in_fieldb "" (nd a)) l &&
    bits_eqb (bits_of (map nd l)) (bits (U w)).
  Fixpoint linkingb (fuel : nat) (w f : string) (ks : list string) (l : list A) : bool :=
    match fuel, l with
    | S n, a :: t => branchb f ks a &&
        (is_nil t || existsb (fun p => if wordedb w (fst p) then linkingb n w f ks (snd p) else false) (splits t))
    | _, _ => false
    end.
  Definition conditionb (ps ks : list string) (l : list A) : bool :=
    match l with
    | [c] => branchb "" ps c
    | [o; c; e] => signb "" "(" o && branchb "" ks c && signb "" ")" e
    | _ => false
    end.
  Fixpoint conditionsb (fuel : nat) (w : string) (ps ks : list string) (l : list A) : bool :=
    match fuel with
    | S n => conditionb ps ks l ||
        existsb (fun p => if conditionb ps ks (fst p) then
          existsb (fun q => if wordedb w (fst q) then conditionsb n w ps ks (snd q) else false) (splits (snd p)) else false) (splits l)
    | 0%nat => false
    end.
  Fixpoint fitsb (its : list item) (cs : list A) {struct its} : bool :=
    match its with
    | [] => match cs with [] => true | _ => false end
    | Sign k :: r => match cs with c :: t => signb "" k c && fitsb r t | [] => false end
    | SignF f k :: r => match cs with c :: t => signb f k c && fitsb r t | [] => false end
    | One f ks :: r => match cs with c :: t => branchb f ks c && fitsb r t | [] => false end
    | Verb k ks :: r => match cs with c :: t => verbb k ks c && fitsb r t | [] => false end
    | Opt f ks :: r => fitsb r cs || match cs with c :: t => branchb f ks c && fitsb r t | [] => false end
    | Rep f ks :: r => existsb (fun p => if forallb (branchb f ks) (fst p) then fitsb r (snd p) else false) (splits cs)
    | Sep s f ks :: r => existsb (fun p => if separatedb s f ks (fst p) then fitsb r (snd p) else false) (splits cs)
    | Word w :: r => existsb (fun p => if wordedb w (fst p) then fitsb r (snd p) else false) (splits cs)
    | Link w f ks :: r => existsb (fun p => if linkingb 20 w f ks (fst p) then fitsb r (snd p) else false) (splits cs)
    | Logic w ps ks :: r => existsb (fun p => if conditionsb 20 w ps ks (fst p) then fitsb r (snd p) else false) (splits cs)
    end.

  Ltac bools := repeat match goal with
    | H : (if ?a then ?b else false) = true |- _ => change (a && b = true) in H
    | H : _ && _ = true |- _ => apply Bool.andb_true_iff in H as [? ?]
    | H : negb _ = true |- _ => apply Bool.negb_true_iff in H
    | H : String.eqb _ _ = true |- _ => apply String.eqb_eq in H
    end.
  Lemma in_fieldb_ok f n : in_fieldb f n = true -> in_field fs f n.
  Proof.
    unfold in_fieldb, in_field. destruct (String.eqb f ""), (n_field n) as [g|]; intro H; bools; try discriminate; auto.
    subst; reflexivity.
  Qed.
  Lemma signb_ok f k a : signb f k a = true -> sign nd fs f k a.
  Proof. unfold signb, sign. intro H. bools. auto using in_fieldb_ok. Qed.
  Lemma branchb_ok f ks a : branchb f ks a = true -> branch nd fs f ks a.
  Proof. unfold branchb, branch. intro H. bools. auto using in_fieldb_ok. Qed.
  Lemma verbb_ok k ks a : verbb k ks a = true -> verb nd fs k ks a.
  Proof.
    unfold verbb, verb. intro H. bools. split; [apply branchb_ok; assumption|].
    destruct (code_children (nd a)) as [|c [|]]; try discriminate. exists c. auto.
  Qed.
  Lemma separatedb_ok s f ks l : separatedb s f ks l = true -> separated nd fs s f ks l.
  Proof.
    remember (List.length l) as n eqn:E. assert (Hn : (List.length l <= n)%nat) by lia. clear E.
    revert l Hn. induction n as [|n IH]; intros [|a t] Hn H; try discriminate; [cbn in Hn; lia|].
    cbn [separatedb] in H. bools. destruct t as [|x r]; [constructor; apply branchb_ok; assumption|].
    bools. constructor; [apply branchb_ok|apply signb_ok|apply IH]; try assumption. cbn in Hn. lia.
  Qed.
  Lemma splits_ok l p : In p (splits l) -> l = fst p ++ snd p.
  Proof.
    unfold splits. intro H. apply in_map_iff in H as (k & <- & _). symmetry. apply firstn_skipn.
  Qed.
  Lemma wordedb_ok w l : wordedb w l = true -> worded nd fs w l.
  Proof.
    unfold wordedb, worded. intro H. bools. split; [destruct l; discriminate|]. split; [|apply bits_eqb_eq; assumption].
    apply Forall_forall. intros a Ha. match goal with H : forallb _ _ = true |- _ => apply (proj1 (forallb_forall _ _) H) in Ha end.
    bools. unfold piece_of_word. auto using in_fieldb_ok.
  Qed.
  Lemma linkingb_ok n w f ks : forall l, linkingb n w f ks l = true -> linking nd fs w f ks l.
  Proof.
    induction n as [|n IH]; intros [|a t] H; try discriminate. cbn [linkingb] in H. bools.
    match goal with H : _ || _ = true |- _ => apply Bool.orb_prop in H as [H|H] end.
    - destruct t; [|discriminate]. constructor. apply branchb_ok. assumption.
    - match goal with H : existsb _ _ = true |- _ => apply existsb_exists in H as (p & Hp & H) end. bools.
      apply splits_ok in Hp as ->. constructor; [apply branchb_ok|apply wordedb_ok|apply IH]; assumption.
  Qed.
  Lemma conditionb_ok ps ks l : conditionb ps ks l = true -> condition nd fs ps ks l.
  Proof.
    destruct l as [|a [|b [|c [|d l]]]]; cbn; intro H; try discriminate.
    - constructor. apply branchb_ok. exact H.
    - bools. constructor; [apply signb_ok|apply branchb_ok|apply signb_ok]; assumption.
  Qed.
  Lemma conditionsb_ok n w ps ks : forall l, conditionsb n w ps ks l = true -> conditions nd fs w ps ks l.
  Proof.
    induction n as [|n IH]; intros l H; [discriminate|]. cbn [conditionsb] in H. apply Bool.orb_prop in H as [H|H].
    - apply Conds_one, conditionb_ok, H.
    - apply existsb_exists in H as (p & Hp & H). bools.
      match goal with H : existsb _ _ = true |- _ => apply existsb_exists in H as (q & Hq & H) end. bools.
      apply splits_ok in Hp. apply splits_ok in Hq. rewrite Hp, Hq.
      apply Conds_more; [apply conditionb_ok|apply wordedb_ok|apply IH]; assumption.
  Qed.
  Lemma fitsb_ok its : forall cs, fitsb its cs = true -> fits nd fs its cs.
  Proof.
    induction its as [|i r IH]; intros cs H; [destruct cs; [reflexivity|discriminate]|].
    destruct i; cbn [fitsb fits] in *.
    1, 2, 3, 7: destruct cs as [|c t]; [discriminate|]; bools; exists c, t;
      split; [reflexivity|]; split; auto using signb_ok, branchb_ok, verbb_ok.
    - apply Bool.orb_prop in H as [H|H]; [left; auto|right].
      destruct cs as [|c t]; [discriminate|]; bools; exists c, t; auto using branchb_ok.
    - apply existsb_exists in H as (p & Hp & H). bools. exists (fst p), (snd p).
      split; [apply splits_ok; exact Hp|]. split; [|auto].
      apply Forall_forall. intros x Hx. apply branchb_ok. eapply forallb_forall; eassumption.
    - apply existsb_exists in H as (p & Hp & H). bools. exists (fst p), (snd p).
      split; [apply splits_ok; exact Hp|]. split; [apply separatedb_ok; assumption|auto].
    - apply existsb_exists in H as (p & Hp & H). bools. exists (fst p), (snd p).
      split; [apply splits_ok; exact Hp|]. split; [apply wordedb_ok; assumption|auto].
    - apply existsb_exists in H as (p & Hp & H). bools. exists (fst p), (snd p).
      split; [apply splits_ok; exact Hp|]. split; [eapply linkingb_ok; eassumption|auto].
    - apply existsb_exists in H as (p & Hp & H). bools. exists (fst p), (snd p).
      split; [apply splits_ok; exact Hp|]. split; [eapply conditionsb_ok; eassumption|auto].
  Qed.
End Fitsb.

Definition follows_rulesb (n : node) : bool :=
  is_nil (rules (n_kind n)) ||
  existsb (fun alt => fitsb (fun c => c) (fields (n_kind n)) alt (code_children n)) (rules (n_kind n)).
Lemma follows_rulesb_ok n : follows_rulesb n = true -> follows_rules n.
Proof.
  unfold follows_rulesb, follows_rules. intros H HN. apply Bool.orb_prop in H as [H|H].
  - destruct (rules (n_kind n)); [contradiction|discriminate].
  - apply existsb_exists in H as (alt & Ha & H). exists alt. split; [exact Ha|apply fitsb_ok; exact H].
Qed.

Definition spelledb (n : node) : bool :=
  if n_named n
  then negb (kind_in (n_kind n) [","; ";"]) &&
       (negb (keyword_kind (n_kind n)) || forallb (fun c => negb (n_named c)) (children n)) &&
       forallb (fun p => if String.eqb (fst p) (n_kind n) then bits_eqb (bits (n_text n)) (bits (U (snd p))) else true)
               word_kinds
  else is_nil (children n) && bits_eqb (bits (n_text n)) (bits (U (n_kind n))).
Lemma spelledb_ok n : spelledb n = true -> spelled n.
Proof.
  unfold spelledb, spelled. destruct (n_named n); intro H.
  - apply Bool.andb_true_iff in H as [H H3]. apply Bool.andb_true_iff in H as [H1 H2].
    split; [apply Bool.negb_true_iff; exact H1|]. split.
    + intro K. rewrite K in H2. cbn [negb orb] in H2. apply Forall_forall. intros c Hc.
      apply Bool.negb_true_iff. apply (proj1 (forallb_forall _ _) H2 c Hc).
    + intros w Hw. apply (proj1 (forallb_forall _ _) H3) in Hw. cbn [fst snd] in Hw.
      rewrite String.eqb_refl in Hw. apply bits_eqb_eq. exact Hw.
  - apply Bool.andb_true_iff in H as [H1 H2]. split; [destruct (children n); [reflexivity|discriminate]|].
    apply bits_eqb_eq. exact H2.
Qed.

Fixpoint drop_ws (s : ustr) : ustr := match s with c :: r => if is_ws c then drop_ws r else s | [] => [] end.
Fixpoint drop_text (t s : ustr) : option ustr :=
  match t, s with
  | [], _ => Some s
  | x :: t', y :: s' => if (x =? y)%N then drop_text t' s' else None
  | _ :: _, [] => None
  end.
Fixpoint wovenb (ts : list ustr) (s : ustr) : bool :=
  match ts with
  | [] => is_nil (visible s)
  | t :: r => match drop_text t (drop_ws s) with Some s' => wovenb r s' | None => false end
  end.
Lemma drop_ws_ok s : exists b, visible b = [] /\ s = b ++ drop_ws s.
Proof.
  induction s as [|c s (b & Hb & E)]; [exists []; auto|]. cbn [drop_ws]. destruct (is_ws c) eqn:Ec.
  - exists (c :: b). cbn. rewrite Ec. cbn. split; [exact Hb|f_equal; exact E].
  - exists []. auto.
Qed.
Lemma drop_text_ok t : forall s r, drop_text t s = Some r -> s = t ++ r.
Proof.
  induction t as [|x t IH]; intros [|y s] r H; cbn in H; try discriminate; try (injection H as <-; reflexivity).
  destruct (x =? y)%N eqn:E; [|discriminate]. apply N.eqb_eq in E as ->. cbn. f_equal. auto.
Qed.
Lemma wovenb_ok ts : forall s, wovenb ts s = true -> woven ts s.
Proof.
  induction ts as [|t r IH]; intros s H; cbn [wovenb] in H.
  - constructor. destruct (visible s); [reflexivity|discriminate].
  - destruct (drop_text t (drop_ws s)) as [s'|] eqn:E; [|discriminate].
    destruct (drop_ws_ok s) as (b & Hb & ->). rewrite (drop_text_ok _ _ _ E). constructor; auto.
Qed.
Definition coveredb (n : node) : bool :=
  (is_nil (children n) && is_nil (rules (n_kind n))) ||
  (wovenb (map n_text (children n)) (n_text n) && bits_eqb (bits (n_text n)) (bits_of (children n))).
Lemma coveredb_ok n : coveredb n = true -> covered n.
Proof.
  unfold coveredb, covered. intros H HN. apply Bool.orb_prop in H as [H|H];
    [|apply Bool.andb_true_iff in H as [H1 H2]; split; [apply wovenb_ok; exact H1|apply bits_eqb_eq; exact H2]].
  apply Bool.andb_true_iff in H as [H1 H2]. destruct (children n); [|discriminate].
  destruct (rules (n_kind n)); [|discriminate]. destruct HN; contradiction.
Qed.

Fixpoint in_orderb (l : list node) : bool :=
  match l with [] => true | a :: r => forallb (fun b => (n_sbyte a <? n_sbyte b)%N) r && in_orderb r end.
Lemma in_orderb_ok l : in_orderb l = true -> StronglySorted (fun a b => (n_sbyte a < n_sbyte b)%N) l.
Proof.
  induction l as [|a r IH]; intro H; [constructor|]. cbn in H. apply Bool.andb_true_iff in H as [H1 H2].
  constructor; [auto|]. apply Forall_forall. intros b Hb. apply N.ltb_lt. apply (proj1 (forallb_forall _ _) H1 b Hb).
Qed.

Definition uncommentedb (n : node) : bool := forallb (fun m => negb (n_extra m)) (all_nodes n).
Lemma uncommentedb_ok n : uncommentedb n = true -> uncommented n.
Proof. intros H m Hm. apply Bool.negb_true_iff. exact (proj1 (forallb_forall _ _) H m Hm). Qed.
Definition untouchedb (n : node) : bool :=
  forallb (fun m => negb (n_extra m) && forallb (fun c => negb (spare m c)) (children m)) (all_nodes n).
Lemma untouchedb_ok n : untouchedb n = true -> untouched n.
Proof.
  intros H m Hm. pose proof (proj1 (forallb_forall _ _) H m Hm) as K. apply Bool.andb_true_iff in K as [K1 K2].
  split; [apply Bool.negb_true_iff; exact K1|]. intros c Hc. apply Bool.negb_true_iff.
  exact (proj1 (forallb_forall _ _) K2 c Hc).
Qed.
Definition commentb (n : node) : bool :=
  n_named n && kind_in (n_kind n) comment_kinds && is_nil (children n) &&
  match n_field n with None => true | Some _ => false end.
Lemma commentb_ok n : commentb n = true -> comment_node n.
Proof.
  unfold commentb. intro H. repeat (apply Bool.andb_true_iff in H as [H ?]). split; [assumption|]. split; [assumption|].
  split; [destruct (children n); [reflexivity|discriminate]|destruct (n_field n); [discriminate|reflexivity]].
Qed.
Definition nodeb (n : node) : bool :=
  coveredb n && in_orderb (children n) &&
  (if n_extra n then commentb n
   else spelledb n && (negb (n_named n) || follows_rulesb n) &&
        (if is_nil (rules (n_kind n)) || String.eqb (n_kind n) "with_type" then untouchedb n else true)) &&
  (if kind_in (n_kind n) annotation_kinds
   then forallb (fun c => negb (has_field "value" c) || untouchedb c) (children n) else true).
Definition file_treeb (root : node) : bool :=
  String.eqb (n_kind root) "parser_output" && n_named root && negb (n_extra root) && forallb nodeb (all_nodes root).
Lemma file_treeb_ok root : file_treeb root = true -> file_tree root.
Proof.
  unfold file_treeb. intro H. apply Bool.andb_true_iff in H as [H H4]. apply Bool.andb_true_iff in H as [H H3].
  apply Bool.andb_true_iff in H as [H1 H2].
  assert (HA : forall n, In n (all_nodes root) -> covered n /\ in_order n /\ (n_extra n = true -> comment_node n) /\
     (n_extra n = false -> spelled n /\ (n_named n = true -> follows_rules n) /\
        (verbatim_kind (n_kind n) -> untouched n)) /\
     (kind_in (n_kind n) annotation_kinds = true -> forall c, In c (children n) -> n_field c = Some "value" -> untouched c)).
  { intros n Hn. apply (proj1 (forallb_forall _ _) H4) in Hn. unfold nodeb in Hn.
    apply Bool.andb_true_iff in Hn as [Hn N4]. apply Bool.andb_true_iff in Hn as [Hn N3].
    apply Bool.andb_true_iff in Hn as [N1 N2].
    split; [apply coveredb_ok; exact N1|]. split; [apply in_orderb_ok; exact N2|]. split; [|split].
    - intro Hx. rewrite Hx in N3. apply commentb_ok. exact N3.
    - intro Hx. rewrite Hx in N3. apply Bool.andb_true_iff in N3 as [N3 N6]. apply Bool.andb_true_iff in N3 as [N3 N5].
      split; [apply spelledb_ok; exact N3|]. split; [intro Nm; rewrite Nm in N5; apply follows_rulesb_ok; exact N5|].
      intros [K|K]; rewrite K in N6; [|change (String.eqb "with_type" "with_type") with true in N6; rewrite Bool.orb_true_r in N6];
        apply untouchedb_ok; exact N6.
    - intros K c Hc Hf. rewrite K in N4. apply (proj1 (forallb_forall _ _) N4) in Hc. unfold has_field in Hc. rewrite Hf in Hc.
      cbn in Hc. apply untouchedb_ok. exact Hc. }
  split.
  - split; [apply String.eqb_eq; exact H1|]. split; [exact H2|apply Bool.negb_true_iff; exact H3].
  - intros n Hn Hx. apply (HA n Hn); exact Hx.
  - intros n Hn Hx. apply (HA n Hn); exact Hx.
  - intros n c Hn Hk. apply (HA n Hn). exact Hk.
  - intros n Hn. apply (HA n Hn).
  - intros n Hn. apply (HA n Hn).
  - intros n Hn Hx. apply (HA n Hn); exact Hx.
  - intros n Hn Hx. apply (HA n Hn); exact Hx.
Qed.
Definition source_treeb (root : node) : bool := file_treeb root && uncommentedb root.
Lemma source_treeb_ok root : source_treeb root = true -> source_tree root.
Proof.
  unfold source_treeb. intro H. apply Bool.andb_true_iff in H as [H1 H2].
  split; [apply file_treeb_ok; exact H1|apply uncommentedb_ok; exact H2].
Qed.

(* ------------------------------------------------------------ a file *)

Definition id_ (s : string) : sketch := tok "identifier" s.
Definition block_ (l : list sketch) : sketch := brf "body" "block" ([an "{"] ++ l ++ [an "}"]).
Definition type_ (s : string) : sketch := tokf "type" "type_identifier" s.
Definition paren_ (f : string) (e : sketch) : sketch := brf f "parenthesized_expression" [an "("; e; an ")"].
Definition eq_ : sketch := tok "assignment_operator" "=".
Definition var_ (x : string) (v : list sketch) : sketch :=
  brf "declarator" "variable_declarator" (tokf "name" "identifier" x :: v).
(* @IsTest
   PUBLIC Static class Demo extends Base implements A, B { field; method } *)
Definition sample_tokens : node :=
  tree (br "parser_output"
    [br "class_declaration"
       [br "modifiers" [br "annotation" [an "@"; tokf "name" "identifier" "IsTest"]; Row 1;
                        br "modifier" [tok "public" "PUBLIC"]; br "modifier" [tok "with_sharing" "With  SHARING"]];
        an "class"; tokf "name" "identifier" "Demo";
        br "superclass" [an "extends"; tok "type_identifier" "Base"];
        br "interfaces" [an "implements"; br "type_list" [tok "type_identifier" "A"; an ","; tok "type_identifier" "B"]];
        brf "body" "class_body"
          [an "{"; Row 1;
           (* private Map<Id, String> names = new Map<Id, String>{ 'a' => 'B c', k => null }; *)
           br "field_declaration"
             [br "modifiers" [br "modifier" [tok "private" "private"]];
              brf "type" "generic_type"
                [tok "type_identifier" "Map";
                 br "type_arguments" [an "<"; tok "type_identifier" "Id"; an ","; tok "type_identifier" "String"; an ">"]];
              var_ "names" [eq_; brf "value" "map_creation_expression"
                [an "new";
                 brf "type" "generic_type"
                   [tok "type_identifier" "Map";
                    br "type_arguments" [an "<"; tok "type_identifier" "Id"; an ","; tok "type_identifier" "String"; an ">"]];
                 brf "value" "map_initializer"
                   [an "{"; br "map_key_initializer" [tok "string_literal" "'a'"; an "=>"; tok "string_literal" "'B c'"]; an ",";
                    br "map_key_initializer" [id_ "k"; an "=>"; tok "null_literal" "NULL"]; an "}"]]];
              an ";"]; Row 2;
           (* public Integer run(final List<A> xs) { ... } *)
           br "method_declaration"
             [br "modifiers" [br "modifier" [tok "public" "public"]]; type_ "Integer"; tokf "name" "identifier" "run";
              brf "parameters" "formal_parameters"
                [an "("; br "formal_parameter"
                   [br "modifiers" [br "modifier" [tok "final" "final"]];
                    brf "type" "generic_type"
                      [tok "type_identifier" "List"; br "type_arguments" [an "<"; tok "type_identifier" "A"; an ">"]];
                    tokf "name" "identifier" "xs"]; an ")"];
              block_
                [Row 1;
                 (* for (Integer i = 0, n = xs.size(); i < n; i++) { if (i != -1) f(i); else { return 1; } } *)
                 br "for_statement"
                   [an "for"; an "(";
                    brf "init" "local_variable_declaration"
                      [type_ "Integer"; var_ "i" [eq_; tokf "value" "int" "0"]; an ",";
                       var_ "n" [eq_; brf "value" "method_invocation"
                                        [tokf "object" "identifier" "xs"; an "."; tokf "name" "identifier" "size";
                                         brf "arguments" "argument_list" [an "("; an ")"]]]; an ";"];
                    brf "condition" "binary_expression"
                      [tokf "left" "identifier" "i"; anf "operator" "<"; tokf "right" "identifier" "n"];
                    an ";"; brf "update" "update_expression" [tokf "operand" "identifier" "i"; anf "operator" "++"]; an ")";
                    block_
                      [Row 1;
                       br "if_statement"
                         [an "if";
                          paren_ "condition" (br "binary_expression"
                            [tokf "left" "identifier" "i"; anf "operator" "!=";
                             brf "right" "unary_expression" [anf "operator" "-"; tokf "operand" "int" "1"]]);
                          brf "consequence" "expression_statement"
                            [br "method_invocation" [tokf "name" "identifier" "f";
                               brf "arguments" "argument_list" [an "("; id_ "i"; an ")"]]; an ";"];
                          an "else";
                          brf "alternative" "block" [an "{"; br "return_statement" [an "return"; tok "int" "1"; an ";"]; an "}"]]]];
                 Row 2;
                 (* a?.b(x, 1.5D).c.d(); *)
                 br "expression_statement"
                   [br "method_invocation"
                      [brf "object" "field_access"
                         [brf "object" "method_invocation"
                            [tokf "object" "identifier" "a"; tok "safe_navigation_operator" "?.";
                             tokf "name" "identifier" "b";
                             brf "arguments" "argument_list"
                               [an "("; id_ "x"; an ","; tok "decimal_floating_point_literal" "1.5D"; an ")"]];
                          an "."; tokf "field" "identifier" "c"];
                       an "."; tokf "name" "identifier" "d"; brf "arguments" "argument_list" [an "("; an ")"]];
                    an ";"]; Row 1;
                 (* try { upsert as user a Ext__c; } catch (Exception e) { throw e; } *)
                 br "try_statement"
                   [an "try";
                    block_ [br "expression_statement"
                              [br "dml_expression"
                                 [br "dml_type" [tok "upsert" "UPSERT"]; br "dml_security_mode" [an "as"; tok "user" "user"];
                                  tokf "target" "identifier" "a"; tokf "upsert_key" "type_identifier" "Ext__c"]; an ";"]];
                    br "catch_clause"
                      [an "catch"; an "("; br "formal_parameter" [type_ "Exception"; tokf "name" "identifier" "e"]; an ")";
                       block_ [br "throw_statement" [an "throw"; id_ "e"; an ";"]]]]; Row 1;
                 (* switch on a { when 1, 2 { b = c ? d : e; } when else { } } *)
                 br "switch_expression"
                   [an "switch"; an "on"; tokf "condition" "identifier" "a";
                    brf "body" "switch_block"
                      [an "{";
                       br "switch_rule"
                         [br "switch_label" [an "when"; tok "int" "1"; an ","; tok "int" "2"];
                          br "block" [an "{"; br "expression_statement"
                            [br "assignment_expression"
                               [tokf "left" "identifier" "b"; tokf "operator" "assignment_operator" "=";
                                brf "right" "ternary_expression"
                                  [tokf "condition" "identifier" "c"; an "?"; tokf "consequence" "identifier" "d"; an ":";
                                   tokf "alternative" "identifier" "e"]]; an ";"]; an "}"]];
                       br "switch_rule" [br "switch_label" [an "when"; an "else"]; br "block" [an "{"; an "}"]];
                       an "}"]]]];
           Row 1; an "}"]]]).

(* A query and a search. *)
Definition fld_ (x : string) : sketch := br "field_identifier" [tok "identifier" x].
Definition cmp_ (x op : string) (v : sketch) : sketch :=
  br "comparison_expression" [fld_ x; tok "value_comparison_operator" op; v].
Definition bound_ (x : string) : sketch := br "bound_apex_expression" [an ":"; id_ x].
(* [select Id, Owner.Name, Count(Id) n, (SELECT Id FROM Notes) FROM Account a
     WHERE x = 1 and (y IN :ys Or (z < last_n_days:3 AND w != 'q')) With USER_MODE
     GROUP BY x HAVING Count(Id) > 2 ORDER By x desc NULLS last LIMIT :n OFFSET 5 ALL ROWS FOR view] *)
Definition query_tokens : sketch :=
  br "soql_query_body"
    [brf "select_clause" "select_clause"
       [an "select"; fld_ "Id"; an ",";
        br "field_identifier" [br "dotted_identifier" [id_ "Owner"; an "."; id_ "Name"]]; an ",";
        br "alias_expression"
          [br "function_expression" [tokf "function_name" "identifier" "Count"; an "("; fld_ "Id"; an ")"]; id_ "n"]; an ",";
        br "subquery"
          [an "(";
           br "soql_query_body"
             [brf "select_clause" "select_clause" [an "SELECT"; fld_ "Id"];
              brf "from_clause" "from_clause" [an "FROM"; br "storage_identifier" [id_ "Notes"]]];
           an ")"]];
     brf "from_clause" "from_clause" [an "FROM"; br "storage_alias" [br "storage_identifier" [id_ "Account"]; id_ "a"]];
     Row 1;
     brf "where_clause" "where_clause"
       [an "WHERE";
        br "and_expression"
          [cmp_ "x" "=" (tok "int" "1"); an "and"; an "(";
           br "or_expression"
             [br "comparison_expression" [fld_ "y"; tok "set_comparison_operator" "IN"; bound_ "ys"];
              an "Or"; an "(";
              br "and_expression"
                [cmp_ "z" "<" (br "date_literal_with_param" [tok "date_literal" "last_n_days"; an ":"; tok "int" "3"]);
                 an "AND"; cmp_ "w" "!=" (tok "string_literal" "'q'")];
              an ")"];
           an ")"]];
     brf "with_clause" "with_clause" [an "With"; br "with_type" [an "USER_MODE"]];
     brf "group_by_clause" "group_by_clause"
       [an "GROUP"; an "BY"; fld_ "x";
        br "having_clause"
          [an "HAVING";
           br "comparison_expression"
             [br "function_expression" [tokf "function_name" "identifier" "Count"; an "("; fld_ "Id"; an ")"];
              tok "value_comparison_operator" ">"; tok "int" "2"]]];
     brf "order_by_clause" "order_by_clause"
       [an "ORDER"; an "By";
        br "order_expression" [fld_ "x"; tok "order_direction" "desc"; tok "order_null_direction" "NULLS last"]];
     brf "limit_clause" "limit_clause" [an "LIMIT"; bound_ "n"];
     brf "offset_clause" "offset_clause" [an "OFFSET"; tok "int" "5"];
     brf "all_rows_clause" "all_rows_clause" [an "ALL"; an "ROWS"];
     br "for_clause" [an "FOR"; tok "for_type" "view"]].
(* [FIND :q IN Name Fields RETURNING Account(Id, Name WHERE x = 1 LIMIT 3), Contact
     WITH SNIPPET (target_length = 120) WITH DATA CATEGORY G AT (a, b) AND H above c LIMIT 20] *)
Definition search_tokens : sketch :=
  br "sosl_query_body"
    [br "find_clause" [an "FIND"; bound_ "q"];
     br "in_clause" [an "IN"; tok "in_type" "Name"; an "Fields"];
     br "returning_clause"
       [an "RETURNING";
        br "sobject_return"
          [id_ "Account"; an "("; br "selected_fields" [fld_ "Id"; an ","; fld_ "Name"];
           br "where_clause" [an "WHERE"; cmp_ "x" "=" (tok "int" "1")]; br "limit_clause" [an "LIMIT"; tok "int" "3"]; an ")"];
        an ","; br "sobject_return" [id_ "Contact"]];
     br "with_clause"
       [an "WITH"; br "with_type"
          [br "with_snippet_expression"
             [an "SNIPPET"; an "("; an "target_length"; an "="; tok "int" "120"; an ")"]]];
     br "with_clause"
       [an "WITH"; br "with_type"
          [br "with_data_cat_expression"
             [an "DATA"; an "CATEGORY";
              br "with_data_cat_filter"
                [id_ "G"; tok "with_data_cat_filter_type" "AT"; an "("; id_ "a"; an ","; id_ "b"; an ")"];
              an "AND"; br "with_data_cat_filter" [id_ "H"; tok "with_data_cat_filter_type" "above"; id_ "c"]]]];
     br "limit_clause" [an "LIMIT"; tok "int" "20"]].
Definition sample_queries : node :=
  tree (cls [meth
    [br "local_variable_declaration"
       [type_ "A"; var_ "x" [eq_; brf "value" "query_expression" [an "["; query_tokens; an "]"]]; an ";"]; Row 1;
     br "expression_statement"
       [br "assignment_expression"
          [tokf "left" "identifier" "y"; tokf "operator" "assignment_operator" "=";
           brf "right" "query_expression" [an "["; search_tokens; an "]"]]; an ";"]]]).

(* ------------------------------------------------------------ files outside the rules *)

(* A tree of which [source_tree] holds but for the rules of the grammar. *)
Definition outsideb (root : node) : bool :=
  String.eqb (n_kind root) "parser_output" && n_named root &&
  forallb (fun n => negb (n_extra n) && negb (n_error n) && coveredb n && in_orderb (children n) && spelledb n) (all_nodes root).
Definition outside (root : node) : Prop :=
  (n_kind root = "parser_output" /\ n_named root = true) /\
  forall n, In n (all_nodes root) ->
    n_extra n = false /\ n_error n = false /\ covered n /\ in_order n /\ spelled n.
Lemma outsideb_ok root : outsideb root = true -> outside root.
Proof.
  unfold outsideb. intro H. apply Bool.andb_true_iff in H as [H H3]. apply Bool.andb_true_iff in H as [H1 H2].
  split; [split; [apply String.eqb_eq; exact H1|exact H2]|].
  intros n Hn. apply (proj1 (forallb_forall _ _) H3) in Hn.
  apply Bool.andb_true_iff in Hn as [Hn N5]. apply Bool.andb_true_iff in Hn as [Hn N4].
  apply Bool.andb_true_iff in Hn as [Hn N3]. apply Bool.andb_true_iff in Hn as [N1 N2].
  split; [apply Bool.negb_true_iff; exact N1|]. split; [apply Bool.negb_true_iff; exact N2|].
  split; [apply coveredb_ok; exact N3|]. split; [apply in_orderb_ok; exact N4|apply spelledb_ok; exact N5].
Qed.

(* A[][] x; *)
Definition sample_dimensions : node :=
  tree (cls [meth [br "local_variable_declaration"
    [brf "type" "array_type"
       [tokf "element" "type_identifier" "A"; brf "dimensions" "dimensions" [an "["; an "]"; an "["; an "]"]];
     var_ "x" []; an ";"]]]).
(* for (;; i++, j++) {} *)
Definition sample_updates : node :=
  tree (cls [meth [br "for_statement"
    [an "for"; an "("; an ";"; an ";";
     brf "update" "update_expression" [tokf "operand" "identifier" "i"; anf "operator" "++"]; an ",";
     brf "update" "update_expression" [tokf "operand" "identifier" "j"; anf "operator" "++"]; an ")"; block_ []]]]).
(* for (final A a : xs) {} *)
Definition sample_final : node :=
  tree (cls [meth [br "enhanced_for_statement"
    [an "for"; an "("; br "modifiers" [br "modifier" [tok "final" "final"]]; type_ "A"; tokf "name" "identifier" "a";
     an ":"; tokf "value" "identifier" "xs"; an ")"; block_ []]]]).
(* if (a) ; *)
Definition sample_empty_if : node :=
  tree (cls [meth [br "if_statement" [an "if"; paren_ "condition" (id_ "a"); anf "consequence" ";"]]]).
(* public @A class F { } *)
Definition sample_annotation : node :=
  tree (br "parser_output"
    [br "class_declaration"
       [br "modifiers" [br "modifier" [tok "public" "public"]; br "annotation" [an "@"; tokf "name" "identifier" "A"]];
        an "class"; tokf "name" "identifier" "F"; brf "body" "class_body" [an "{"; an "}"]]]).
(* [SELECT Id FROM A, B]; *)
Definition sample_from : node :=
  tree (cls [meth
    [br "expression_statement"
       [br "query_expression"
          [an "[";
           br "soql_query_body"
             [brf "select_clause" "select_clause" [an "SELECT"; fld_ "Id"];
              brf "from_clause" "from_clause"
                [an "FROM"; br "storage_identifier" [id_ "A"]; an ","; br "storage_identifier" [id_ "B"]]];
           an "]"]; an ";"]]]).
(* [SELECT Id FROM A WHERE NOT (NOT x = 1)]; *)
Definition sample_not : node :=
  tree (cls [meth
    [query
       [brf "where_clause" "where_clause"
          [an "WHERE";
           br "not_expression"
             [an "NOT"; an "("; br "not_expression" [an "NOT"; cmp_ "x" "=" (tok "int" "1")]; an ")"]]]]]).

(* ------------------------------------------------------------ a file with comments *)

Definition lone_commentsb (n : node) : bool :=
  existsb n_extra (children n) && is_nil (code_kids n).
Definition comments_in_bracesb (root : node) : bool :=
  forallb (fun n => negb (lone_commentsb n) || kind_in (n_kind n) body_kinds) (all_nodes root).
Lemma comments_in_bracesb_ok root : comments_in_bracesb root = true -> comments_in_braces root.
Proof.
  intros H n Hn [(c & Hc & Hx) HK]. apply (proj1 (forallb_forall _ _) H) in Hn. apply Bool.orb_true_iff in Hn as [Hn|Hn]; [|exact Hn].
  unfold lone_commentsb in Hn. rewrite HK in Hn. apply Bool.negb_true_iff, Bool.andb_false_iff in Hn as [Hn|Hn]; [|discriminate].
  assert (existsb n_extra (children n) = true) by (apply existsb_exists; eauto). congruence.
Qed.
(* A class with line, block and JavaDoc comments before, behind and inside a method,
   in a condition, in the arguments of a call and alone in a block. *)
Definition sample_comments : node :=
  tree (br "parser_output"
    [bcom ("/**" ++ String "010" "  * A demo." ++ String "010" "  */"); Row 1;
     br "class_declaration"
       [br "modifiers" [br "modifier" [tok "public" "PUBLIC"]]; an "class"; bcom "/* the */"; tokf "name" "identifier" "Demo";
        brf "body" "class_body"
          [an "{"; Row 1; lcom "// runs"; Row 1;
           br "method_declaration"
             [type_ "Integer"; tokf "name" "identifier" "run";
              brf "parameters" "formal_parameters" [an "("; an ")"];
              block_
                [Row 1;
                 br "if_statement"
                   [an "if";
                    paren_ "condition" (br "binary_expression"
                      [tokf "left" "identifier" "i"; bcom "/* not */"; anf "operator" "!="; tokf "right" "int" "1"]);
                    brf "consequence" "block" [an "{"; Row 1; lcom "// nothing"; Row 1; lcom "// at all  "; Row 1; an "}"]];
                 Row 2;
                 inv [id_ "a"; an ","; bcom "/* x */"; tok "int" "12"]; lcom "// called"; Row 1;
                 br "return_statement" [an "return"; lcom "// soon"; Row 1; tok "null_literal" "NULL"; an ";"]; Row 1;
                 lcom "// end"; Row 1]]; Row 1; an "}"]]; Row 1;
     lcom "// bye"]).
(* foo(/* c */); *)
Definition sample_lone_comment : node := tree (cls [meth [inv [bcom "/* c */"]]]).
