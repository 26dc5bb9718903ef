(* SpecDoc32.v: how wide and how deep a document can get. *)
From Verif Require Import Base Doc.

(* Total width of the texts and spaces of a document, and its deepest
   indentation; of two alternatives the larger counts. *)
Fixpoint total_width (d : doc) : N :=
  match d with
  | Text _ w => w
  | Softline => 1
  | Flat x | Indent _ x | Dedent _ x => total_width x
  | Concat l => (fix go (l : list doc) : N := match l with [] => 0 | x :: t => total_width x + go t end) l
  | Choice x y => N.max (total_width x) (total_width y)
  | _ => 0
  end%N.
Fixpoint total_indent (d : doc) : N :=
  match d with
  | Indent i x => i + total_indent x
  | Flat x | Dedent _ x => total_indent x
  | Concat l => (fix go (l : list doc) : N := match l with [] => 0 | x :: t => N.max (total_indent x) (go t) end) l
  | Choice x y => N.max (total_indent x) (total_indent y)
  | _ => 0
  end%N.
