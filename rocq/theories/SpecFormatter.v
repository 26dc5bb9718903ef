(* SpecFormatter.v: what the properties of error reports say. *)
From Verif Require Import Base Cst Formatter.

(* [e] is found from [n] by following the last erroneous child as far as possible. *)
Inductive last_error : node -> node -> Prop :=
| last_error_here n :
    n_error n = true -> Forall (fun c => n_error c = false) (children n) -> last_error n n
| last_error_below n before c after e :
    n_error n = true -> children n = (before ++ c :: after)%list ->
    n_error c = true -> Forall (fun c => n_error c = false) after ->
    last_error c e -> last_error n e.

(* [t] shows [s]: all of it, or its first 80 bytes and a mark. *)
Definition snippet_of (s t : ustr) : Prop :=
  (ulen s <= 80)%N /\ t = s \/
  (80 < ulen s)%N /\ exists p q, s = (p ++ q)%list /\ ulen p = 80%N /\ t = (p ++ [8230%N])%list.
(* Byte 80 of [s] is not inside a character. *)
Definition boundary_at_80 (s : ustr) : Prop := exists p q, s = (p ++ q)%list /\ ulen p = 80%N.
