(* PropertiesFilters.v: C33, the filters of queries keep their meaning.
   Specification: SpecFilters.v ([truth], the meaning of a condition in the source;
   [reads] and [satisfied], the meaning of printed lexemes under SOQL's grouping
   rules) and SpecTokens.v ([source_tree]). *)
From Coq Require Import Permutation.
From Verif Require Import Base SpecDoc DocProofs Cst Formatter SpecTree SpecWords SpecTokens SpecFilters SpecArrange SpecLexed FiltersProofs
  WordsComments ReadProofs BitsProofs TokensProofs5 Trees Samples
  SamplesTokens SamplesArrange PropertiesTokens PropertiesWords.
Local Open Scope string_scope.
Local Open Scope list_scope.

(* For every file of the grammar without comments, every clause WHERE and HAVING in
   it and the condition [c] of the clause, at any depth of nesting: where the clause
   stands in the source the output has WHERE or HAVING and lexemes [ls] with the
   comparisons of [c] in their order; SOQL's grammar can read them, and however it
   reads them they have the truth table of [c].  Parentheses that the source has
   but the meaning does not need may be absent.
   Missing for the full claim: comments (see the next theorem), and NOT in front of NOT,
   for which the claim is false (below). *)
Theorem C33_filters_partial :
  forall (checked : bool) (stack : nat) (cfg : config) (root : node) (out : ustr),
    source_tree root -> format_tree checked stack cfg root = Ok out ->
    forall n c,
      In n (all_nodes root) -> n_named n = true -> kind_in (n_kind n) ["where_clause"; "having_clause"] = true ->
      In c (children n) -> n_named c = true ->
      exists a b w ls,
        leaves root = a ++ leaves n ++ b /\ In w ["WHERE"; "HAVING"] /\
        bits out = bits_of a ++ (bits (U w) ++ flat_map lexeme_bits ls) ++ bits_of b /\
        compared ls = comparisons c /\
        (exists f, reads ls f) /\
        forall f, reads ls f -> forall v, satisfied v f = truth v c.
Proof. exact format_filters. Qed.
Print Assumptions C33_filters_partial.

(* With comments: the words of the output are those of the tokens and comments [order];
   without the comments they are the same as above.  What is in the source a comment in a
   filter is in the output a comment as well.
   Missing for the full claim: the places of C05 ([simple_places]), comments alone in
   brackets, NOT in front of NOT. *)
Theorem C33_filters_comments_partial :
  forall (checked : bool) (stack : nat) (cfg : config) (root : node) (out : ustr),
    file_tree root -> distinct_ids root -> comments_in_braces root -> simple_places root -> lexed_comments root ->
    format_tree checked stack cfg root = Ok out ->
    exists order,
      bits out = bits_of (flat_map as_lines order) /\ Permutation (filter n_extra order) (comments_of root) /\
      forall n c,
        In n (all_nodes root) -> n_named n = true -> n_extra n = false -> kind_in (n_kind n) ["where_clause"; "having_clause"] = true ->
        In c (children n) -> n_named c = true -> n_extra c = false ->
        exists a b w ls,
          leaves root = a ++ leaves n ++ b /\ In w ["WHERE"; "HAVING"] /\
          bits_of (filter (fun m => negb (n_extra m)) order) = bits_of a ++ (bits (U w) ++ flat_map lexeme_bits ls) ++ bits_of b /\
          compared ls = comparisons c /\
          (exists f, reads ls f) /\
          forall f, reads ls f -> forall v, satisfied v f = truth v c.
Proof.
  intros checked stack cfg root out S D B P L H. destruct (format_comment_bits _ _ _ _ _ S D B P L H) as (order & E1 & E2 & E3).
  exists order. split; [exact E1|]. split; [exact E3|]. intros n c Hn Nn Xn K Hc Nc Xc.
  destruct (file_part root n S Hn Nn Xn) as (a & b & E).
  destruct (filter_read root n c S Hn Xn Nn K Hc Nc Xc) as (w & ls & f & Hw & Q & C & R & T).
  exists a, b, w, ls. split; [exact E|]. split; [exact Hw|]. split; [rewrite E2, E, !bits_of_app, Q; reflexivity|].
  split; [exact C|]. split; [exists f; exact R|]. intros g G v. rewrite <- (one_reading _ _ _ R G). apply T.
Qed.
Print Assumptions C33_filters_comments_partial.

(* The reader leaves no choice. *)
Theorem C33_one_reading : forall ls f g, reads ls f -> reads ls g -> f = g.
Proof. exact one_reading. Qed.
Print Assumptions C33_one_reading.

(* WHERE ((a = 1)) AND ((b = 2 AND (c = 3 OR ((d = 4) OR e = 5))) AND (NOT (f = 6))) AND ((NOT (g = 7 OR h = 8))) *)
Definition one_ (x v : string) : sketch := cmp_ x "=" (tok "int" v).
Definition sample_filters : node :=
  tree (cls [meth
    [br "expression_statement"
       [br "query_expression"
          [an "[";
           br "soql_query_body"
             [brf "select_clause" "select_clause" [an "SELECT"; fld_ "Id"];
              brf "from_clause" "from_clause" [an "FROM"; br "storage_identifier" [id_ "A"]];
              brf "where_clause" "where_clause"
                [an "WHERE";
                 br "and_expression"
                   [an "("; an "("; one_ "a" "1"; an ")"; an ")"; an "AND";
                    an "(";
                    br "and_expression"
                      [an "(";
                       br "and_expression"
                         [one_ "b" "2"; an "AND"; an "(";
                          br "or_expression"
                            [one_ "c" "3"; an "OR"; an "(";
                             br "or_expression" [an "("; one_ "d" "4"; an ")"; an "OR"; one_ "e" "5"]; an ")"];
                          an ")"];
                       an ")"; an "AND"; an "("; br "not_expression" [an "NOT"; an "("; one_ "f" "6"; an ")"]; an ")"];
                    an ")"; an "AND"; an "("; an "(";
                    br "not_expression" [an "NOT"; an "("; br "or_expression" [one_ "g" "7"; an "OR"; one_ "h" "8"]; an ")"];
                    an ")"; an ")"]]];
           an "]"]; an ";"]]]).
Example C33_sample : source_tree sample_filters.
Proof. apply source_treeb_ok. vm_compute. reflexivity. Qed.
Example C33_printed : printed sample_filters
  = ["public class Foo {"; "  void bar() {"; "    ["; "      SELECT Id"; "      FROM A"; "      WHERE"; "        a = 1";
     "        AND b = 2"; "        AND (c = 3"; "        OR d = 4"; "        OR e = 5)"; "        AND (NOT f = 6)";
     "        AND (NOT (g = 7"; "        OR h = 8))"; "    ];"; "  }"; "}"; ""].
Proof. vm_compute. reflexivity. Qed.

(* WHERE // first
   (a = 1 OR /* second */ b = 2) AND c = 3 *)
Definition sample_filter_comments : node :=
  tree (cls [meth
    [br "expression_statement"
       [br "query_expression"
          [an "[";
           br "soql_query_body"
             [brf "select_clause" "select_clause" [an "SELECT"; fld_ "Id"];
              brf "from_clause" "from_clause" [an "FROM"; br "storage_identifier" [id_ "A"]];
              brf "where_clause" "where_clause"
                [an "WHERE"; lcom "// first"; Row 1;
                 br "and_expression"
                   [an "("; br "or_expression" [one_ "a" "1"; an "OR"; bcom "/* second */"; one_ "b" "2"]; an ")"; an "AND"; one_ "c" "3"]]];
           an "]"]; an ";"]]]).
Example C33_sample_comments :
  file_tree sample_filter_comments /\ distinct_ids sample_filter_comments /\ comments_in_braces sample_filter_comments /\
  simple_places sample_filter_comments /\ lexed_comments sample_filter_comments.
Proof.
  split; [apply file_treeb_ok; vm_compute; reflexivity|]. split; [apply distinct_ids_sound; vm_compute; reflexivity|].
  split; [apply comments_in_bracesb_ok; vm_compute; reflexivity|]. split; [apply simple_placesb_ok; vm_compute; reflexivity|].
  apply lexedb_ok; vm_compute; reflexivity.
Qed.
Example C33_printed_comments : printed sample_filter_comments
  = ["public class Foo {"; "  void bar() {"; "    ["; "      SELECT Id"; "      FROM A"; "      WHERE"; "        // first";
     "        (a = 1 /* second */ "; "        OR b = 2)"; "        AND c = 3"; "    ];"; "  }"; "}"; ""].
Proof. vm_compute. reflexivity. Qed.

(* WHERE NOT (NOT x = 1) is printed as WHERE NOT NOT x = 1.  However one divides
   this into lexemes with the one comparison of the condition, SOQL's grammar does
   not allow it. *)
Theorem C33_not_refuted :
  exists root out n c before printed_condition after,
    outside root /\ format_tree true 100 narrow root = Ok out /\
    In n (all_nodes root) /\ n_kind n = "where_clause" /\ In c (children n) /\ n_kind c = "not_expression" /\
    bits out = before ++ (bits (U "WHERE") ++ printed_condition) ++ after /\
    forall ls, flat_map lexeme_bits ls = printed_condition -> compared ls = comparisons c -> forall f, ~ reads ls f.
Proof.
  set (n := hd sample_not (filter (has_kind "where_clause") (all_nodes sample_not))).
  set (c := hd sample_not (filter n_named (children n))).
  set (o := match format_tree true 100 narrow sample_not with Ok o => o | _ => [] end).
  exists sample_not, o, n, c, (firstn 14 (bits o)), (map U ["not"; "not"; "x"; "="; "1"]), (skipn 20 (bits o)).
  split; [apply outsideb_ok; vm_compute; reflexivity|]. split; [vm_compute; reflexivity|].
  split; [apply (proj1 (filter_In (has_kind "where_clause") n (all_nodes sample_not))); vm_compute; left; reflexivity|].
  split; [vm_compute; reflexivity|].
  split; [apply (proj1 (filter_In n_named c (children n))); vm_compute; left; reflexivity|].
  split; [vm_compute; reflexivity|]. split; [vm_compute; reflexivity|].
  intros ls E C f R.
  assert (Hm : exists m, comparisons c = [m] /\ lexeme_bits (Compared m) = map U ["x"; "="; "1"]).
  { eexists. split; vm_compute; reflexivity. }
  destruct Hm as (m & Hm & Bm). rewrite Hm in C. clear Hm. clearbody n c o.
  assert (Step : forall ls r, flat_map lexeme_bits ls = U "not" :: r -> (compared ls = [m]) ->
    exists ls', ls = Negate :: ls' /\ flat_map lexeme_bits ls' = r /\ compared ls' = [m]).
  { intros [|[| |[|]| |d] l] r E1 C1; cbn [flat_map lexeme_bits app] in E1; try discriminate.
    - injection E1 as E1. eauto.
    - injection C1 as -> _. change (bits_of (leaves m)) with (lexeme_bits (Compared m)) in E1. rewrite Bm in E1. discriminate. }
  destruct (Step _ _ E C) as (l1 & -> & E1 & C1). destruct (Step _ _ E1 C1) as (l2 & -> & E2 & C2).
  assert (Sg : forall k g, ~ single (Negate :: k) g) by (intros k g H; inversion H).
  inversion R as [j l g H|l g H]; subst; [|exact (Sg _ _ H)].
  inversion H as [j' l g' H'|j' l g' r g'' H' _ E3]; subst; [exact (Sg _ _ H')|].
  destruct (single_head _ _ H') as (y & q & -> & [->|(d & ->)]); discriminate.
Qed.
Print Assumptions C33_not_refuted.
