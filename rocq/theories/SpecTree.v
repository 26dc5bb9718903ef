(* SpecTree.v: what the properties say about syntax trees and comments,
   independently of the functions of afmt that walk them. *)
From Verif Require Import Base Cst Comments.

(* ---- the code part of a tree ---- *)

(* A child that carries code: not a comment, and either a named node or one of
   the tokens `,` `;` `else`. *)
Definition code_token (n : node) : bool :=
  n_named n || kind_in (n_kind n) [","; ";"; "else"]%string.
Definition code (n : node) : bool := negb (n_extra n) && code_token n.

Definition code_kids (n : node) : list node := filter code (children n).

(* The nodes reached from the root through code children. *)
Inductive code_node (root : node) : node -> Prop :=
| CN_root : code_node root root
| CN_kid n c : code_node root n -> In c (code_kids n) -> code_node root c.

(* [comment_under root n left c right]: the extra node [c] is a child of the code
   node [n], between the siblings [left] (nearest first) and [right]. *)
Definition child_at (n : node) (left : list node) (c : node) (right : list node) : Prop :=
  children n = rev left ++ c :: right.
Definition comment_under (root n : node) (left : list node) (c : node) (right : list node) : Prop :=
  code_node root n /\ child_at n left c right /\ n_extra c = true.

(* ---- where a comment belongs (the rule of C07) ---- *)

Inductive place : Set := Leading | Trailing | Dangling.

Definition next_code (right : list node) : option node := find code right.
Definition prev_code (left : list node) : option node := find code left.
(* the next sibling that is not a comment *)
Definition next_sibling (right : list node) : option node := find (fun s => negb (n_extra s)) right.
Definition separator (n : node) : bool := kind_in (n_kind n) [","; ";"]%string.

Definition belongs (n : node) (left : list node) (c : node) (right : list node) : node * place :=
  match prev_code left with
  | None =>
      match next_code right with
      | Some x => (x, Leading)
      | None => (n, Dangling)
      end
  | Some p =>
      match next_sibling right with
      | None => (p, Trailing)
      | Some s =>
          if separator s then (s, Leading)
          else if (n_erow c =? n_erow p)%N then (p, Trailing)
          else match next_code right with
               | Some x => (x, Leading)
               | None => (p, Trailing)
               end
      end
  end.

(* All comments below code nodes, in source order, with the place they belong to. *)
Record attached := { at_node : node; at_place : place; at_left : list node; at_comment : node; at_right : list node }.
Fixpoint attachments (n : node) : list attached :=
  match n with
  | Node i cs =>
      (fix go (left cs : list node) {struct cs} : list attached :=
         match cs with
         | [] => []
         | c :: r =>
             (if n_extra c
              then [{| at_node := fst (belongs n left c r); at_place := snd (belongs n left c r);
                       at_left := left; at_comment := c; at_right := r |}]
              else if code c then attachments c else [])
             ++ go (c :: left) r
         end) [] cs
  end.

(* The comments a node holds at a place. *)
Definition held (cm : list (N * bucket)) (id : N) (p : place) : list comment :=
  match cm_get id cm with
  | None => []
  | Some bk => match p with Leading => pre bk | Trailing => post bk | Dangling => dangling bk end
  end.

(* Distinct node ids, a guarantee of tree-sitter. *)
Fixpoint all_nodes (n : node) : list node :=
  match n with Node _ cs => n :: flat_map all_nodes cs end.
Definition distinct_ids (root : node) : Prop := NoDup (map n_id (all_nodes root)).

(* Tokens and comments have no children, a guarantee of the grammar. *)
Definition leaf_tokens (root : node) : Prop :=
  forall n, In n (all_nodes root) -> code n = false -> children n = [].

Section NodeInd.
  Variable P : node -> Prop.
  Hypothesis H : forall i cs, Forall P cs -> P (Node i cs).
  Fixpoint node_nested_ind (n : node) : P n :=
    match n with
    | Node i cs => H i cs ((fix go (l : list node) : Forall P l :=
                              match l with
                              | [] => Forall_nil P
                              | x :: r => Forall_cons x (node_nested_ind x) (go r)
                              end) cs)
    end.
End NodeInd.
