(* SpecText.v: what it means for a text to consist of given lines, and for a
   comment to be closed exactly once; independent of the formatter. *)
From Verif Require Import Base Doc Cst Comments.

(* [text_of_lines ls s]: [s] is exactly the lines [ls], each but the first after
   a line feed and some spaces. *)
Inductive text_of_lines : list ustr -> ustr -> Prop :=
| TL_one l : text_of_lines [l] l
| TL_more l k l' ls s :
    text_of_lines (l' :: ls) s -> text_of_lines (l :: l' :: ls) (l ++ c_nl :: repeat c_sp k ++ s).

(* The lines [ls], all but the first indented by [i] spaces. *)
Fixpoint at_indent (i : N) (ls : list ustr) : ustr :=
  match ls with
  | [] => []
  | [l] => l
  | l :: rest => l ++ c_nl :: repeat c_sp (N.to_nat i) ++ at_indent i rest
  end.

(* The words of a text: its maximal runs without white space. *)
Fixpoint word_runs (cur : ustr) (s : ustr) : list ustr :=
  match s with
  | [] => match cur with [] => [] | _ => [cur] end
  | c :: t =>
      if is_ws c then match cur with [] => word_runs [] t | _ => cur :: word_runs [] t end
      else word_runs (cur ++ [c]) t
  end.
Definition words_of (s : ustr) : list ustr := word_runs [] s.

(* A block comment as a lexer reads it: the opening sign, then a text in which
   the closing sign occurs at the end and nowhere before. *)
Definition one_block_comment (s : ustr) : Prop :=
  exists m, s = U "/*" ++ m ++ U "*/" /\
            forall a b, m ++ U "*/" = a ++ U "*/" ++ b -> b = [].

(* The characters of a text that are neither white space nor a star. *)
Definition plain_chars (s : ustr) : ustr :=
  filter (fun c => negb (is_ws c) && negb (c =? c_star)%N) s.

(* A comment printed on its own, at an indentation of [i], with width limit [w]. *)
Definition printed (c : comment) (i w : N) : ustr := pretty_print (Indent i (Concat (comment_docs c))) w.

(* [c] is what the formatter makes of the block comment node [n] (between some
   siblings). *)
Definition block_comment_of (n : node) (c : comment) : Prop :=
  has_kind "block_comment" n = true /\ exists left right, comment_of left n right = Ok c.
