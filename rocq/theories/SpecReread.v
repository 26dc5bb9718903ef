(* SpecReread.v: what it means that a syntax tree is the tree of a printed text.
   Specification only.

   The parser is not part of the model.  Printed text is read back to the tree of the
   source if the parser finds the same nodes and words in it; where they stand in the
   text then gives their rows. *)
From Verif Require Import Base Cst SpecTree SpecLayout SpecTokens.
Local Open Scope list_scope.

(* The leaves of a tree, in order. *)
Fixpoint tips (n : node) : list node :=
  match n with
  | Node _ [] => [n]
  | Node _ cs => flat_map tips cs
  end.
(* How many visible characters they have. *)
Definition width (ns : list node) : nat := List.length (flat_map (fun n => visible (n_text n)) ns).

(* The row of the visible character number [k] of a text, where the count of rows and
   of visible characters starts with 0. *)
Fixpoint row_from (r : N) (s : ustr) (k : nat) : N :=
  match s with
  | [] => r
  | c :: s => if is_ws c then row_from (if (c =? c_nl)%N then r + 1 else r)%N s k
              else match k with O => r | S k => row_from r s k end
  end.
Definition row_of (s : ustr) (k : nat) : N := row_from 0 s k.

Example row_of_1 : map (row_of (U "ab c" ++ [c_nl; c_nl] ++ U "  d")) [0; 1; 2; 3]%nat = [0; 0; 0; 2]%N.
Proof. vm_compute. reflexivity. Qed.

(* The node [n] stands at the visible characters of [out] from number [k] on, and so do
   the nodes in it, one behind the other. *)
Section Stands.
  Variable out : ustr.
  Fixpoint stands (k : nat) (n : node) : Prop :=
    (forall w, width (tips n) = S w -> n_srow n = row_of out k /\ n_erow n = row_of out (k + w)) /\
    match n with
    | Node _ cs => (fix go (k : nat) (cs : list node) : Prop :=
                      match cs with [] => True | c :: r => stands k c /\ go (k + width (tips c))%nat r end) k cs
    end.
  Fixpoint standing (k : nat) (cs : list node) : Prop :=
    match cs with [] => True | c :: r => stands k c /\ standing (k + width (tips c))%nat r end.
End Stands.

(* The same words leaf by leaf, up to the case of letters. *)
Definition same_words (root root' : node) : Prop :=
  Forall2 (fun a b => folded (n_text a) = folded (n_text b)) (tips root) (tips root').

(* [root'] is [root] found again in the text [out]: the same tree with the same words,
   whose nodes stand in [out]. *)
Record found_again (root : node) (out : ustr) (root' : node) : Prop := {
  fa_tree : alike_by (fun _ _ _ => (0, 0)) None root root';
  fa_words : same_words root root';
  fa_place : standing out 0 (children root')
}.

(* The text of every node but the root begins and ends with a visible character. *)
Definition visible_ends (s : ustr) : Prop :=
  exists c m, s = c :: m /\ is_ws c = false /\ is_ws (last s c) = false.
Definition trimmed_nodes (root : node) : Prop :=
  forall n, In n (flat_map all_nodes (children root)) -> visible_ends (n_text n).
