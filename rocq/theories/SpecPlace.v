(* SpecPlace.v: where a comment stands relative to its neighbours. *)
From Verif Require Import Base Doc DocBuilder Cst SpecMembers.

(* The nearest named sibling before, or behind, a node. *)
Definition nearest (l : list node) (n : node) : Prop :=
  exists p q, l = p ++ n :: q /\ Forall (fun x => n_named x = false) p /\ n_named n = true.

(* What separates two texts in the output: a space, a line break, or an empty
   line; the next line is indented by [i]. *)
Inductive gap := SameLine | NextLine | BlankLine.
Definition gap_text (g : gap) (i : N) : ustr :=
  match g with
  | SameLine => [c_sp]
  | NextLine => c_nl :: repeat c_sp (N.to_nat i)
  | BlankLine => c_nl :: c_nl :: repeat c_sp (N.to_nat i)
  end.
(* ... and in the source, between a thing ending on row [r] and one starting on
   row [r']. *)
Definition source_gap (r r' : N) (g : gap) : Prop :=
  match g with
  | SameLine => r' = r
  | NextLine => r' <> r /\ ~ empty_line_between r r'
  | BlankLine => r' <> r /\ empty_line_between r r'
  end.

(* [ends_tight t d]: whatever the layout, [t] is the very last thing [d] prints. *)
Inductive ends_tight (t : ustr) : doc -> Prop :=
| Ti_text w : t <> [c_sp] -> ends_tight t (Text t w)
| Ti_flat d : ends_tight t d -> ends_tight t (Flat d)
| Ti_indent k d : ends_tight t d -> ends_tight t (Indent k d)
| Ti_dedent k d : ends_tight t d -> ends_tight t (Dedent k d)
| Ti_concat pre d post : Forall silent post -> ends_tight t d -> ends_tight t (Concat (pre ++ d :: post))
| Ti_choice x y : ends_tight t x -> ends_tight t y -> ends_tight t (Choice x y).
