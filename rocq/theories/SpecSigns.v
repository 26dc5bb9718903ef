(* SpecSigns.v: vocabulary for separators, operators and the order of comments. *)
From Verif Require Import Base Cst Comments SpecComments.

(* The lines a comment is printed as (a line that is one space counts as white
   space). *)
Definition shown (c : comment) : list ustr :=
  filter (fun l => negb (ustr_eqb l [c_sp])) (normal_lines (c_line c) (c_value c)).

(* Apex operators and how strongly they bind. *)
Definition operators : list (string * N) :=
  [("=", 1); ("+=", 1); ("-=", 1); ("*=", 1); ("/=", 1); ("&=", 1); ("|=", 1); ("^=", 1); ("%=", 1);
   ("<<=", 1); (">>=", 1); (">>>=", 1);
   ("?", 2); (":", 2);
   ("||", 3); ("??", 3);
   ("&&", 5);
   ("|", 6); ("^", 7); ("&", 8);
   ("==", 9); ("!=", 9); ("===", 9); ("!==", 9); ("<>", 9);
   (">", 10); ("<", 10); (">=", 10); ("<=", 10); ("instanceof", 10);
   ("<<", 11); (">>", 11); (">>>", 11);
   ("+", 12); ("-", 12);
   ("*", 13); ("/", 13); ("%", 13);
   ("!", 14); ("~", 14); ("++", 14); ("--", 14)]%string%N.
