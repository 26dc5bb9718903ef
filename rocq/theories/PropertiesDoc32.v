(* PropertiesDoc32.v: the 32-bit arithmetic of the layout engine.  Statements
   only; proofs are in Doc32Proofs.v.  [pretty_print32 checked] is the engine with
   u32 additions that panic on overflow (debug build) or wrap (release build);
   [cast32 d] is the document with its widths cut to 32 bits. *)
From Verif Require Import Base Doc DocBuilder Doc32 SpecDoc32 Doc32Proofs.
Local Open Scope string_scope.

(* ------------------------------------------------------------------ C15 *)
Theorem C15_no_overflow :
  forall (checked : bool) (d : doc) (w : N),
    (total_width d + total_indent d < two32)%N ->
    pretty_print32 checked (cast32 d) w = Ok (pretty_print d w).
Proof. exact no_overflow. Qed.
Print Assumptions C15_no_overflow.

Example C15_case :
  let d := Indent 4 (concat [txt (U "f("); group (concat [maybeline; txt (U "a,"); softline; txt (U "b")]); txt (U ")")]) in
  (total_width d + total_indent d < two32)%N /\ pretty_print32 true (cast32 d) 5 = Ok (U "f(
    a,
    b)").
Proof. split; [vm_compute; reflexivity|vm_compute; reflexivity]. Qed.

(* Beyond the bound a debug build panics where a release build prints. *)
Theorem C15_overflow_possible :
  forall (a b : ustr) (w : N),
    (ulen a < two32)%N -> (ulen b < two32)%N -> (two32 <= ulen a + ulen b)%N ->
    ustr_eqb b [c_sp] = false -> ustr_eqb a [c_sp] = false ->
    pretty_print32 true (cast32 (concat [txt a; txt b])) w = Panic "attempt to add with overflow" /\
    pretty_print32 false (cast32 (concat [txt a; txt b])) w = Ok (a ++ b)%list.
Proof. exact overflow_panics. Qed.
Print Assumptions C15_overflow_possible.

Example C15_overflow_case :
  let a := repeat 97%N (N.to_nat (two32 - 1)) in
  (ulen a < two32)%N /\ (ulen (U "b") < two32)%N /\ (two32 <= ulen a + ulen (U "b"))%N /\ ustr_eqb (U "b") [c_sp] = false.
Proof.
  cbv zeta. rewrite ulen_repeat, N2Nat.id. repeat split; vm_compute; congruence.
Qed.
