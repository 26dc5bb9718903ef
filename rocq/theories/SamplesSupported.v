(* SamplesSupported.v: tests deciding [supported] and [later_rows], and files that are read
   to no end. *)
From Verif Require Import Base Doc DocBuilder Cst Comments Term New Formatter SpecTree SpecComments SpecRead SpecTokens SpecSupported
  Trees Samples SamplesRead SamplesTokens.
Local Open Scope string_scope.
Local Open Scope list_scope.

Definition has_field (f : string) (c : node) : bool :=
  match n_field c with Some g => String.eqb g f | None => false end.
Definition su_typeb (n : node) : bool :=
  negb (kind_in (n_kind n) ["array_creation_expression"; "map_creation_expression"]) ||
  forallb (fun c => negb (has_field "type" c) || negb (String.eqb (n_kind c) "array_type")) (children n).
Definition su_accessorb (n : node) : bool :=
  negb (String.eqb (n_kind n) "accessor_list") ||
  existsb (fun c => n_named c && String.eqb (n_kind c) "accessor_declaration") (children n).
Definition su_mergeb (n : node) : bool :=
  negb (String.eqb (n_kind n) "dml_expression") ||
  forallb (fun v => negb (String.eqb (n_kind v) "dml_type") ||
    forallb (fun m => negb (String.eqb (n_kind m) "merge") || existsb (has_field "merge_with") (children n)) (children v))
    (children n).
Definition su_queryb (q : node) : bool :=
  negb (String.eqb (n_kind q) "soql_query_body") ||
  forallb (fun w => negb (String.eqb (n_kind w) "with_clause") ||
    forallb (fun v => negb (String.eqb (n_kind v) "with_type") ||
      forallb (fun c => negb (n_named c) || String.eqb (n_kind c) "with_user_id_type") (children v)) (children w)) (children q).
Definition su_searchb (q : node) : bool :=
  negb (String.eqb (n_kind q) "sosl_query_body") ||
  forallb (fun w => negb (String.eqb (n_kind w) "with_clause") ||
    forallb (fun v => negb (String.eqb (n_kind v) "with_type") ||
      existsb (fun c => n_named c && negb (n_extra c) && negb (String.eqb (n_kind c) "with_user_id_type")) (children v))
      (children w)) (children q).
Definition supportedb (root : node) : bool :=
  forallb (fun n => su_typeb n && su_accessorb n && su_mergeb n && su_queryb n && su_searchb n) (all_nodes root).

Lemma has_field_some f c : n_field c = Some f -> has_field f c = true.
Proof. intro H. unfold has_field. rewrite H. apply String.eqb_refl. Qed.
Lemma has_field_is f c : has_field f c = true -> n_field c = Some f.
Proof. unfold has_field. destruct (n_field c) as [g|]; [|discriminate]. intro H. apply String.eqb_eq in H. congruence. Qed.
Lemma neg_or {a b} : negb a || b = true -> a = true -> b = true.
Proof. destruct a, b; auto. Qed.
Lemma kind_is n k : n_kind n = k -> String.eqb (n_kind n) k = true.
Proof. intros <-. apply String.eqb_refl. Qed.
Lemma all_in {A} (f : A -> bool) l x : forallb f l = true -> In x l -> f x = true.
Proof. intros H Hx. exact (proj1 (forallb_forall f l) H x Hx). Qed.

Lemma supportedb_ok root : supportedb root = true -> supported root.
Proof.
  unfold supportedb. intro H.
  assert (A : forall n, In n (all_nodes root) ->
    su_typeb n = true /\ su_accessorb n = true /\ su_mergeb n = true /\ su_queryb n = true /\ su_searchb n = true).
  { intros n Hn. apply (all_in _ _ n H) in Hn. rewrite !Bool.andb_true_iff in Hn. tauto. }
  constructor.
  - intros n c Hn K Hc Hf. apply A in Hn as (Hn & _). apply (fun h => neg_or h ltac:(exact K)) in Hn. apply (all_in _ _ c Hn) in Hc.
    apply (fun h => neg_or h ltac:(apply has_field_some; exact Hf)) in Hc. apply Bool.negb_true_iff, String.eqb_neq in Hc. exact Hc.
  - intros n Hn K. apply A in Hn as (_ & Hn & _). apply (fun h => neg_or h ltac:(apply kind_is, K)) in Hn.
    apply existsb_exists in Hn as (c & Hc & Hx). apply Bool.andb_true_iff in Hx as [N Q]. apply String.eqb_eq in Q. eauto.
  - intros n v m Hn K Hv Kv Hm Km. apply A in Hn as (_ & _ & Hn & _). apply (fun h => neg_or h ltac:(apply kind_is, K)) in Hn.
    apply (all_in _ _ v Hn) in Hv. apply (fun h => neg_or h ltac:(apply kind_is, Kv)) in Hv. apply (all_in _ _ m Hv) in Hm.
    apply (fun h => neg_or h ltac:(apply kind_is, Km)) in Hm. apply existsb_exists in Hm as (c & Hc & Hx). exists c. split; [exact Hc|]. apply has_field_is, Hx.
  - intros q w v c Hq K Hw Kw Hv Kv Hc N. apply A in Hq as (_ & _ & _ & Hq & _). apply (fun h => neg_or h ltac:(apply kind_is, K)) in Hq.
    apply (all_in _ _ w Hq) in Hw. apply (fun h => neg_or h ltac:(apply kind_is, Kw)) in Hw. apply (all_in _ _ v Hw) in Hv.
    apply (fun h => neg_or h ltac:(apply kind_is, Kv)) in Hv. apply (all_in _ _ c Hv) in Hc. apply (fun h => neg_or h ltac:(exact N)) in Hc. apply String.eqb_eq, Hc.
  - intros q w v Hq K Hw Kw Hv Kv. apply A in Hq as (_ & _ & _ & _ & Hq). apply (fun h => neg_or h ltac:(apply kind_is, K)) in Hq.
    apply (all_in _ _ w Hq) in Hw. apply (fun h => neg_or h ltac:(apply kind_is, Kw)) in Hw. apply (all_in _ _ v Hw) in Hv.
    apply (fun h => neg_or h ltac:(apply kind_is, Kv)) in Hv. apply existsb_exists in Hv as (c & Hc & Hx). rewrite !Bool.andb_true_iff in Hx.
    destruct Hx as [[X1 X2] X3]. exists c. split; [exact Hc|]. split; [exact X1|]. split; [apply Bool.negb_true_iff, X2|].
    apply Bool.negb_true_iff, String.eqb_neq in X3. exact X3.
Qed.

Fixpoint later_afterb (seen : bool) (l : list node) : bool :=
  match l with
  | [] => true
  | c :: rest => (negb (seen && n_named c) || negb (N.eqb (n_srow c) 0)) && later_afterb (seen || n_named c && negb (n_extra c)) rest
  end.
Definition later_rowsb (root : node) : bool :=
  forallb (fun n => negb (kind_in (n_kind n) member_bodies) || later_afterb false (children n)) (all_nodes root).
Lemma later_seen l : later_afterb true l = true -> forall y, In y l -> n_named y = true -> n_srow y <> 0%N.
Proof.
  induction l as [|c l IH]; intros H y Hy N; [destruct Hy|]. cbn [later_afterb] in H. apply Bool.andb_true_iff in H as [H1 H2].
  destruct Hy as [->|Hy]; [|exact (IH H2 y Hy N)]. rewrite N in H1. apply Bool.negb_true_iff, N.eqb_neq in H1. exact H1.
Qed.
Lemma later_split a x b : forall seen, later_afterb seen (a ++ x :: b) = true -> n_named x = true -> n_extra x = false ->
  later_afterb true b = true.
Proof.
  induction a as [|c a IH]; intros seen H N E; cbn [app later_afterb] in H; apply Bool.andb_true_iff in H as [_ H].
  - rewrite N, E, Bool.orb_true_r in H. exact H.
  - exact (IH _ H N E).
Qed.
Lemma later_rowsb_ok root : later_rowsb root = true -> later_rows root.
Proof.
  intros H n a x b y Hn K E N X Hy Ny. apply (all_in _ _ n H) in Hn. apply (fun h => neg_or h ltac:(exact K)) in Hn. rewrite E in Hn.
  exact (later_seen b (later_split a x b false Hn N X) y Hy Ny).
Qed.

(* [SELECT Id FROM A WITH DATA CATEGORY G AT a]; *)
Definition sample_category : node :=
  tree (cls [meth [query [brf "with_clause" "with_clause"
    [an "WITH"; br "with_type" [br "with_data_cat_expression"
       [an "DATA"; an "CATEGORY";
        br "with_data_cat_filter" [id_ "G"; tok "with_data_cat_filter_type" "AT"; id_ "a"]]]]]]]).
(* Integer x { } *)
Definition sample_property : node :=
  tree (cls [br "field_declaration" [type_ "Integer"; brf "declarator" "variable_declarator" [tokf "name" "identifier" "x"];
    br "accessor_list" [an "{"; an "}"]]]).
(* merge a; *)
Definition sample_merge : node :=
  tree (cls [meth [br "expression_statement"
    [br "dml_expression" [br "dml_type" [tok "merge" "merge"]; tokf "target" "identifier" "a"]; an ";"]]]).
(* enum A { } enum B { } *)
Definition sample_row : node :=
  tree (br "parser_output"
    [br "enum_declaration" [an "enum"; tokf "name" "identifier" "A"; brf "body" "enum_body" [an "{"; an "}"]];
     br "enum_declaration" [an "enum"; tokf "name" "identifier" "B"; brf "body" "enum_body" [an "{"; an "}"]]]).
