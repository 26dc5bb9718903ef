(* SpecComments.v: the printed form of a comment and what it means for it to
   occur in a text, independently of the functions that build documents. *)
From Verif Require Import Base.

(* ---- the lines a comment is printed as ---- *)

Definition not_empty (s : ustr) : bool := match s with [] => false | _ => true end.

(* An ordinary line of a JavaDoc comment: its content behind one star. *)
Definition starred (content : ustr) : ustr :=
  if not_empty content then U " * " ++ content else U " *".
Definition without_star (line : ustr) : ustr :=
  match trim line with
  | [] => []
  | c :: rest => if (c =? c_star)%N then trim_start rest else c :: rest
  end.
(* Its last line: the closing sign on a line of its own. *)
Definition closing (line : ustr) : list ustr :=
  match strip_suffix (U "*/") (trim line) with
  | Some before => (if not_empty (trim before) then [U " * " ++ trim before] else []) ++ [U " */"]
  | None => [U " */"]
  end.
Fixpoint javadoc_body (lines : list ustr) : list ustr :=
  match lines with
  | [] => []
  | [last] => closing last
  | l :: rest => starred (without_star l) :: javadoc_body rest
  end.
(* Text behind the opening sign moves to a line of its own. *)
Definition javadoc_lines (lines : list ustr) : list ustr :=
  match lines with
  | [] => []
  | l0 :: rest =>
      let first := trim (skipn 3 (trim l0)) in
      U "/**" :: javadoc_body (if not_empty first then first :: rest else rest)
  end.

(* The printed lines of a comment whose text, without trailing white space, is [s]. *)
Definition normal_lines (line_comment : bool) (s : ustr) : list ustr :=
  if line_comment then [s]
  else if starts_with (U "/**") s then javadoc_lines (split_on c_nl s)
  else map trim (split_on c_nl s).

(* ---- occurrence in a text ---- *)

(* [starts_lines ls s]: [s] starts with the lines [ls], separated by a line feed
   and spaces. *)
Inductive starts_lines : list ustr -> ustr -> Prop :=
| SL_nil s : starts_lines [] s
| SL_last l s : starts_lines [l] (l ++ s)
| SL_more l k l' ls s :
    starts_lines (l' :: ls) s -> starts_lines (l :: l' :: ls) (l ++ c_nl :: repeat c_sp k ++ s).
Definition occurs_as_lines (ls : list ustr) (out : ustr) : Prop :=
  exists before rest, out = before ++ rest /\ starts_lines ls rest.
