(* Base.v: Rust strings and panics, as far as afmt uses them.

   A Rust [String]/[&str] is modelled as the list of its Unicode scalar values;
   its byte length is recovered by [ulen] (UTF-8).  A Rust panic is the explicit
   value [Panic]; exhausting the recursion fuel (a stack overflow in Rust) is the
   explicit value [Overflow]. *)
From Coq Require Export List NArith ZArith Bool String Ascii Lia.
Export ListNotations.
Open Scope list_scope.

(* ---------------------------------------------------------------- results *)

(* Outcome of a Rust call that may panic (unwinding, caught by catch_unwind in
   src/formatter.rs:112) or overflow the stack (aborts the process). *)
Inductive res (A : Type) : Type :=
| Ok (a : A)
| Panic (why : string)
| Overflow.
Arguments Ok {A} a.
Arguments Panic {A} why.
Arguments Overflow {A}.

Definition rbind {A B} (m : res A) (f : A -> res B) : res B :=
  match m with
  | Ok a => f a
  | Panic w => Panic w
  | Overflow => Overflow
  end.

Definition rmap {A B} (f : A -> B) (m : res A) : res B := rbind m (fun a => Ok (f a)).

Declare Scope res_scope.
Delimit Scope res_scope with res.
Notation "x <- m ;; k" := (rbind m (fun x => k))
  (at level 61, m at next level, right associativity) : res_scope.

(* [mapR f l]: [l.into_iter().map(f).collect()] where [f] may panic. *)
Definition mapR {A B} (f : A -> res B) : list A -> res (list B) :=
  fix go (l : list A) : res (list B) :=
    match l with
    | [] => Ok []
    | x :: t => rbind (f x) (fun y => rbind (go t) (fun ys => Ok (y :: ys)))
    end.

(* [optR f o]: [o.map(f)] where [f] may panic. *)
Definition optR {A B} (f : A -> res B) (o : option A) : res (option B) :=
  match o with
  | None => Ok None
  | Some x => rbind (f x) (fun y => Ok (Some y))
  end.

(* ---------------------------------------------------------------- texts *)

(* A Unicode scalar value, and a Rust string as the list of its [chars()]. *)
Notation uchar := N (only parsing).
Notation ustr := (list N) (only parsing).

(* An ASCII string literal of the Rust source. *)
Definition U (s : string) : ustr := map N_of_ascii (list_ascii_of_string s).

Definition c_nl : uchar := 10%N.       (* '\n' *)
Definition c_sp : uchar := 32%N.       (* ' '  *)
Definition c_star : uchar := 42%N.     (* '*'  *)

Fixpoint ustr_eqb (a b : ustr) : bool :=
  match a, b with
  | [], [] => true
  | x :: a', y :: b' => N.eqb x y && ustr_eqb a' b'
  | _, _ => false
  end.

(* UTF-8 length of one scalar value ([char::len_utf8]). *)
Definition ulen1 (c : uchar) : N :=
  if (c <? 128)%N then 1%N
  else if (c <? 2048)%N then 2%N
  else if (c <? 65536)%N then 3%N
  else 4%N.

(* [str::len]: length in bytes. *)
Fixpoint ulen (s : ustr) : N :=
  match s with
  | [] => 0%N
  | c :: t => (ulen1 c + ulen t)%N
  end.

(* [char::is_whitespace]: the Unicode White_Space property. *)
Definition is_ws (c : uchar) : bool :=
  ((9 <=? c)%N && (c <=? 13)%N) || (c =? 32)%N || (c =? 133)%N || (c =? 160)%N
  || (c =? 5760)%N || ((8192 <=? c)%N && (c <=? 8202)%N)
  || (c =? 8232)%N || (c =? 8233)%N || (c =? 8239)%N || (c =? 8287)%N || (c =? 12288)%N.

(* [str::trim_start], [str::trim_end], [str::trim]. *)
Fixpoint trim_start (s : ustr) : ustr :=
  match s with
  | [] => []
  | c :: t => if is_ws c then trim_start t else s
  end.
Fixpoint trim_end (s : ustr) : ustr :=
  match s with
  | [] => []
  | c :: t =>
      match trim_end t with
      | [] => if is_ws c then [] else [c]
      | t' => c :: t'
      end
  end.
Definition trim (s : ustr) : ustr := trim_end (trim_start s).

(* [str::strip_prefix] / [str::starts_with]. *)
Fixpoint strip_prefix (p s : ustr) : option ustr :=
  match p, s with
  | [], _ => Some s
  | x :: p', y :: s' => if N.eqb x y then strip_prefix p' s' else None
  | _ :: _, [] => None
  end.
Definition starts_with (p s : ustr) : bool :=
  match strip_prefix p s with Some _ => true | None => false end.

(* [str::strip_suffix]. *)
Fixpoint strip_suffix (p s : ustr) : option ustr :=
  if ustr_eqb s p then Some []
  else match s with
       | [] => None
       | c :: t => match strip_suffix p t with
                   | Some r => Some (c :: r)
                   | None => None
                   end
       end.

(* [str::split(c)]: always at least one piece. *)
Fixpoint split_on (c : uchar) (s : ustr) : list ustr :=
  match s with
  | [] => [[]]
  | x :: t =>
      match split_on c t with
      | [] => [[x]]                                   (* unreachable *)
      | p :: ps => if N.eqb x c then [] :: p :: ps else (x :: p) :: ps
      end
  end.

(* [result.ends_with(' ')] and the like. *)
Definition ends_with_char (c : uchar) (s : ustr) : bool :=
  match rev s with
  | x :: _ => N.eqb x c
  | [] => false
  end.

Definition is_nil {A} (l : list A) : bool :=
  match l with [] => true | _ => false end.

(* [str::to_lowercase], for ASCII letters only (the values it is applied to in
   afmt are Apex keywords and identifiers); other characters are unchanged. *)
Definition lower1 (c : uchar) : uchar :=
  if ((65 <=? c)%N && (c <=? 90)%N) then (c + 32)%N else c.
Definition to_lowercase (s : ustr) : ustr := map lower1 s.

(* Membership of a tree-sitter kind (a static ASCII string) in a list of literals. *)
Definition kind_in (k : string) (l : list string) : bool := existsb (String.eqb k) l.

(* [str::to_uppercase], for ASCII letters only, as above. *)
Definition upper1 (c : uchar) : uchar :=
  if ((97 <=? c)%N && (c <=? 122)%N) then (c - 32)%N else c.
Definition to_uppercase (s : ustr) : ustr := map upper1 s.
