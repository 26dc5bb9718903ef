(* SamplesLoud.v: a test deciding [loud_places], and files with comments that are lost. *)
From Verif Require Import Base Cst Comments SpecTree SpecOrder SpecTokens SpecArrange SpecLoud Trees Samples SamplesTokens SamplesArrange.
Local Open Scope string_scope.
Local Open Scope list_scope.

Definition loud_at (root n : node) : bool :=
  (if kind_in (n_kind n) mute_kinds then nothing_at root n else true) &&
  (if kind_in (n_kind n) mute_ends || lone_commentsb n then is_nil (comments_at root (n_id n) Trailing) else true) &&
  forallb (fun c => if mute_child n c || has_kind ";" c && has_kind "for_statement" n && negb (existsb (has_field "condition") (children n))
                    then nothing_at root c else true) (children n).
Definition loud_placesb (root : node) : bool := forallb (loud_at root) (all_nodes root).
Lemma loud_placesb_ok root : loud_placesb root = true -> loud_places root.
Proof.
  intros H n Hn _. apply (proj1 (forallb_forall _ _) H) in Hn. unfold loud_at in Hn.
  apply andb_prop in Hn as [Hn H3]. apply andb_prop in Hn as [H1 H2]. split; [|split; [|split]].
  - intro K. rewrite K in H1. apply nothing_at_ok, H1.
  - intro K. assert (E : kind_in (n_kind n) mute_ends || lone_commentsb n = true).
    { apply orb_true_iff. destruct K as [K|[(c & Hc & Hx) K]]; [left; exact K|right]. unfold lone_commentsb. rewrite K.
      apply andb_true_intro. split; [apply existsb_exists; eauto|reflexivity]. }
    rewrite E in H2. destruct (comments_at _ _ _); [reflexivity|discriminate].
  - intros c Hc K. apply (proj1 (forallb_forall _ _) H3) in Hc. rewrite K in Hc. apply nothing_at_ok, Hc.
  - intros (K1 & K2 & _) c Hc K. apply (proj1 (forallb_forall _ _) H3) in Hc. unfold has_kind in Hc at 1 2. rewrite K, K1, K2, orb_true_r in Hc. apply nothing_at_ok, Hc.
Qed.

(* for (i = 0; /* c */; i++) { foo(); } *)
Definition sample_mute_for : node :=
  tree (cls [meth [br "for_statement"
    [an "for"; an "(";
     brf "init" "assignment_expression" [tokf "left" "identifier" "i"; tokf "operator" "assignment_operator" "="; tokf "right" "int" "0"]; an ";";
     bcom "/* c */"; an ";";
     brf "update" "update_expression" [tokf "operand" "identifier" "i"; anf "operator" "++"]; an ")"; block_ [inv []]]]]).
(* List /* c */ <A> a; *)
Definition sample_mute_list : node :=
  tree (cls [meth [br "local_variable_declaration"
    [brf "type" "generic_type"
       [tok "type_identifier" "List"; bcom "/* c */"; br "type_arguments" [an "<"; tok "type_identifier" "A"; an ">"]];
     var_ "a" []; an ";"]]]).
(* if (a) { /* c */ } /* d */ else { } *)
Definition sample_mute_block : node :=
  tree (cls [meth [br "if_statement"
    [an "if"; paren_ "condition" (id_ "a"); brf "consequence" "block" [an "{"; bcom "/* c */"; an "}"]; bcom "/* d */";
     an "else"; brf "alternative" "block" [an "{"; an "}"]]]]).
(* when 1 { } when else /* c */ { } *)
Definition sample_mute_switch : node :=
  tree (cls [meth [br "switch_expression"
    [an "switch"; an "on"; tokf "condition" "identifier" "a";
     brf "body" "switch_block"
       [an "{"; br "switch_rule" [br "switch_label" [an "when"; an "else"]; bcom "/* c */"; br "block" [an "{"; an "}"]]; an "}"]]]]).
