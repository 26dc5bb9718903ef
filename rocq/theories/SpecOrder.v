(* SpecOrder.v: trees whose comments stand in a plain order.  A tree-sitter tree
   has the row condition by construction; the other one excludes two comments
   around a bracket, such as `x /* a */ ) /* b */`. *)
From Verif Require Import Base Cst SpecTree.

Definition orderly_node (n : node) : Prop :=
  (* between two comments without code between them there are only comments *)
  (forall s a mid b r, children n = s ++ a :: mid ++ b :: r ->
     n_extra a = true -> n_extra b = true -> Forall (fun x => code x = false) mid ->
     Forall (fun x => n_extra x = true) mid) /\
  (* later siblings do not end on earlier rows *)
  (forall s a mid b r, children n = s ++ a :: mid ++ b :: r -> (n_erow a <= n_erow b)%N).

Definition orderly (root : node) : Prop := forall n, code_node root n -> orderly_node n.

(* The comments attached to the node numbered [id] at place [p], in source order. *)
Definition same_place (p q : place) : bool :=
  match p, q with
  | Leading, Leading | Trailing, Trailing | Dangling, Dangling => true
  | _, _ => false
  end.
Definition comments_at (root : node) (id : N) (p : place) : list node :=
  map at_comment (filter (fun a => (n_id (at_node a) =? id)%N && same_place (at_place a) p) (attachments root)).
