(* PropertiesComments.v: the properties of comment collection
   (src/utility.rs:151-278) and of the comment normaliser (src/context.rs).
   Statements only.  The vocabulary is in SpecTree.v and SpecComments.v:
   [code_node root n]: [n] is reached from the root through code children;
   [comment_under root n left c right]: [c] is a comment among the children of
   such a node; [belongs]: the rule that names the place of a comment;
   [held cm id p]: the comments the collected map holds for node [id] at place
   [p].  [comment_of left c right] is the record kept for comment [c]. *)
From Verif Require Import Base Cst Comments SpecTree SpecComments Term New Formatter
  CollectProofs CollectProofs2 FormatProofs Trees Samples.
From Coq Require Import Permutation.
Local Open Scope string_scope.

(* ------------------------------------------------------------------ C06 *)
(* All comments below code nodes are in the map, each once, and nothing else. *)
Theorem C06_every_comment_attached_once :
  forall (root : node) (cm : list (N * bucket)),
    code root = true -> collect_comments root = Ok cm ->
    Permutation (map c_id (map_comments cm)) (map (fun a => n_id (at_comment a)) (attachments root)) /\
    (distinct_ids root -> NoDup (map c_id (map_comments cm))).
Proof. exact collected_ids. Qed.
Print Assumptions C06_every_comment_attached_once.

(* [attachments] lists exactly the comments below code nodes. *)
Theorem C06_attachments_are_the_comments :
  forall (root : node) (a : attached),
    In a (attachments root) <->
    exists n, comment_under root n (at_left a) (at_comment a) (at_right a) /\
              (at_node a, at_place a) = belongs n (at_left a) (at_comment a) (at_right a).
Proof. exact attachments_spec. Qed.
Print Assumptions C06_attachments_are_the_comments.

(* With distinct node ids a comment is held at one node and one place only. *)
Theorem C06_one_place :
  forall (root : node) (cm : list (N * bucket)) id1 p1 id2 p2 (c1 c2 : comment),
    distinct_ids root -> code root = true -> collect_comments root = Ok cm ->
    In c1 (held cm id1 p1) -> In c2 (held cm id2 p2) -> c_id c1 = c_id c2 ->
    id1 = id2 /\ p1 = p2 /\ c1 = c2.
Proof. exact held_at_one_place. Qed.
Print Assumptions C06_one_place.

(* When tokens and comments have no children every comment of the tree is below
   a code node. *)
Theorem C06_no_comment_elsewhere :
  forall (root c : node),
    leaf_tokens root -> code root = true -> In c (all_nodes root) -> n_extra c = true ->
    exists n left right, comment_under root n left c right.
Proof. exact every_extra_under. Qed.
Print Assumptions C06_no_comment_elsewhere.

Example C06_case :
  distinct_ids sample /\ leaf_tokens sample /\ code sample = true /\
  exists cm, collect_comments sample = Ok cm /\
             map (fun c => show (c_value c)) (map_comments cm) = ["// hello"; "// post"; "/* x */"].
Proof.
  split; [apply distinct_ids_sound; vm_compute; reflexivity|].
  split; [apply leaf_tokens_sound; vm_compute; reflexivity|].
  split; [reflexivity|]. eexists. split; vm_compute; reflexivity.
Qed.

(* ------------------------------------------------------------------ C07 *)
(* Every comment is held at the place the rule names, and every comment held
   there is one the rule sends there. *)
Theorem C07_attachment_rule :
  forall (root : node) (cm : list (N * bucket)) (n : node) left c right,
    code root = true -> collect_comments root = Ok cm -> comment_under root n left c right ->
    exists co, comment_of left c right = Ok co /\
               In co (held cm (n_id (fst (belongs n left c right))) (snd (belongs n left c right))).
Proof. exact comment_placed. Qed.
Print Assumptions C07_attachment_rule.

Theorem C07_nothing_else_attached :
  forall (root : node) (cm : list (N * bucket)) id p (co : comment),
    code root = true -> collect_comments root = Ok cm -> In co (held cm id p) ->
    exists n left c right,
      comment_under root n left c right /\ comment_of left c right = Ok co /\
      n_id (fst (belongs n left c right)) = id /\ snd (belongs n left c right) = p.
Proof. exact held_is_comment. Qed.
Print Assumptions C07_nothing_else_attached.

(* Collection succeeds exactly when every comment is a line or block comment. *)
Theorem C07_collection_succeeds_iff :
  forall root : node, code root = true ->
    ((exists cm, collect_comments root = Ok cm) <->
     forall n left c right, comment_under root n left c right ->
       has_kind "line_comment" c || has_kind "block_comment" c = true).
Proof. exact collect_iff. Qed.
Print Assumptions C07_collection_succeeds_iff.

(* The comment before `12` in the sample call is on the row of the comma before
   it, so the rule makes it trail that comma. *)
Example C07_case :
  exists n left c right,
    comment_under sample n left c right /\
    ustr_eqb (n_text c) (U "/* x */") && has_kind "," (fst (belongs n left c right)) &&
    match snd (belongs n left c right) with Trailing => true | _ => false end = true.
Proof.
  assert (H : existsb (fun a => ustr_eqb (n_text (at_comment a)) (U "/* x */") && has_kind "," (at_node a) &&
                match at_place a with Trailing => true | _ => false end) (attachments sample) = true)
    by (vm_compute; reflexivity).
  apply existsb_exists in H as (a & Ha & H). apply (proj1 (C06_attachments_are_the_comments sample a)) in Ha as (n & Hu & Hb).
  exists n, (at_left a), (at_comment a), (at_right a). split; [exact Hu|]. rewrite <- Hb. cbn [fst snd]. exact H.
Qed.

(* ------------------------------------------------------------------ C41 *)
(* Every code node has a comment record. *)
Theorem C41_every_code_node_has_a_record :
  forall (root : node) (cm : list (N * bucket)) (n : node),
    code root = true -> collect_comments root = Ok cm -> code_node root n ->
    exists bk, get_comment_bucket cm (n_id n) = Ok bk.
Proof. exact collected_key. Qed.
Print Assumptions C41_every_code_node_has_a_record.

Example C41_case :
  exists n, code_node sample n /\ has_kind ";" n && negb (n_named n) = true.
Proof. apply (code_node_exists sample (fun n => has_kind ";" n && negb (n_named n))). vm_compute. reflexivity. Qed.
