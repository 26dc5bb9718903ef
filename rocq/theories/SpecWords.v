(* SpecWords.v: the words and signs of a text. *)
From Verif Require Import Base.

(* A character of a word: an ASCII letter or digit, the underscore, or any other
   character beyond ASCII that is not white space. *)
Definition word_char (c : uchar) : bool :=
  ((48 <=? c)%N && (c <=? 57)%N) || ((65 <=? c)%N && (c <=? 90)%N) || ((97 <=? c)%N && (c <=? 122)%N)
  || (c =? 95)%N || ((128 <=? c)%N && negb (is_ws c)).

Definition starts_word (s : ustr) : bool := match s with c :: _ => word_char c | [] => false end.

Definition ends_word (s : ustr) : bool := match rev s with c :: _ => word_char c | [] => false end.

(* The words of a text (its longest runs of word characters) and its signs (all
   other visible characters, one by one), in order. *)
Fixpoint split_words (s : ustr) : list ustr :=
  match s with
  | [] => []
  | c :: r =>
      if is_ws c then split_words r
      else if word_char c && starts_word r
      then match split_words r with w :: ws => (c :: w) :: ws | [] => [[c]] end
      else [c] :: split_words r
  end.
(* ... up to the case of letters. *)
Definition bits (s : ustr) : list ustr := map to_lowercase (split_words s).

Example bits_1 : bits (U "Return x1+ foo_B('a b');")
  = map U ["return"; "x1"; "+"; "foo_b"; "("; "'"; "a"; "b"; "'"; ")"; ";"]%string.
Proof. vm_compute. reflexivity. Qed.
