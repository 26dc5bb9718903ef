(* SpecSchedule.v: what the result for one file is. *)
From Verif Require Import Base Cst Formatter Schedule SpecCli.
Local Open Scope string_scope.

(* The result for a file of which reading gave [c]. *)
Inductive gives (ts : ustr -> node) (checked : bool) (stack : nat) (cfg : config) : reading -> result -> Prop :=
| gives_text src v : formats ts checked stack cfg src v -> gives ts checked stack cfg (inl src) (inl v)
| gives_failure src why : snd (format_source ts checked stack cfg src) = Panic why ->
    gives ts checked stack cfg (inl src) (inr (U "Thread panicked"))
| gives_unreadable e : gives ts checked stack cfg (inr e) (inr (U "Thread panicked")).
(* Formatting needs more stack than there is. *)
Definition too_deep (ts : ustr -> node) (checked : bool) (stack : nat) (cfg : config) (c : reading) : Prop :=
  exists src, c = inl src /\ snd (format_source ts checked stack cfg src) = Overflow.
