(* SpecFilters.v: what the property about the filters of queries says.

   The meaning of a condition is its truth value for every valuation of its
   comparisons.  The reader below is SOQL's: conditions joined by AND or by OR, but
   not by both without parentheses, and NOT in front of a single condition or a
   pair of parentheses. *)
From Verif Require Import Base Cst SpecTree SpecWords SpecTokens.
Local Open Scope string_scope.
Local Open Scope list_scope.

(* ------------------------------------------------------------ the source *)

(* The truth value of a condition of the syntax tree. *)
Fixpoint truth (v : node -> bool) (n : node) : bool :=
  match n with
  | Node _ cs =>
      let parts := flat_map (fun c => if n_named c && negb (n_extra c) then [truth v c] else []) cs in
      if has_kind "and_expression" n then forallb (fun b => b) parts
      else if has_kind "or_expression" n then existsb (fun b => b) parts
      else if has_kind "not_expression" n then negb (hd false parts)
      else v n
  end.
(* Its comparisons, from left to right. *)
Fixpoint comparisons (n : node) : list node :=
  match n with
  | Node _ cs =>
      if kind_in (n_kind n) ["and_expression"; "or_expression"; "not_expression"]
      then flat_map (fun c => if n_named c && negb (n_extra c) then comparisons c else []) cs
      else [n]
  end.

(* ------------------------------------------------------------ the printed text *)

Inductive joint : Type := And | Or.
Inductive lexeme : Type :=
| Open
| Close
| Join (j : joint)
| Negate
| Compared (c : node).
(* The words and signs of a lexeme. *)
Definition lexeme_bits (x : lexeme) : list ustr :=
  match x with
  | Open => [U "("]
  | Close => [U ")"]
  | Join And => [U "and"]
  | Join Or => [U "or"]
  | Negate => [U "not"]
  | Compared c => bits_of (leaves c)
  end.
Definition compared (ls : list lexeme) : list node :=
  flat_map (fun x => match x with Compared c => [c] | _ => [] end) ls.

Inductive formula : Type :=
| FCompare (c : node)
| FJoin (j : joint) (f g : formula)
| FNot (f : formula).
Fixpoint satisfied (v : node -> bool) (f : formula) : bool :=
  match f with
  | FCompare c => v c
  | FJoin And f g => satisfied v f && satisfied v g
  | FJoin Or f g => satisfied v f || satisfied v g
  | FNot f => negb (satisfied v f)
  end.

(* [reads ls f]: the lexemes [ls] are a condition with the meaning [f]. *)
Inductive single : list lexeme -> formula -> Prop :=
| Single_comparison c : single [Compared c] (FCompare c)
| Single_group ls f : reads ls f -> single (Open :: ls ++ [Close]) f
with chain : joint -> list lexeme -> formula -> Prop :=
| Chain_last j ls f : single ls f -> chain j ls f
| Chain_more j ls f r g : single ls f -> chain j r g -> chain j (ls ++ Join j :: r) (FJoin j f g)
with reads : list lexeme -> formula -> Prop :=
| Reads_chain j ls f : chain j ls f -> reads ls f
| Reads_not ls f : single ls f -> reads (Negate :: ls) (FNot f).
