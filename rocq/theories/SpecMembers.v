(* SpecMembers.v: vocabulary for the members of a body: the text a document
   starts or ends with, blank lines in the source, and depth of lines. *)
From Verif Require Import Base Doc DocBuilder Cst Comments.

(* Documents that print nothing. *)
Inductive silent : doc -> Prop :=
| Si_force : silent ForceBreak
| Si_concat l : Forall silent l -> silent (Concat l).

(* [starts_text t d]: whatever the layout, [t] is the first thing [d] prints. *)
Inductive starts_text (t : ustr) : doc -> Prop :=
| St_text w : t <> [c_sp] -> starts_text t (Text t w)
| St_flat d : starts_text t d -> starts_text t (Flat d)
| St_indent k d : starts_text t d -> starts_text t (Indent k d)
| St_dedent k d : starts_text t d -> starts_text t (Dedent k d)
| St_concat pre d post : Forall silent pre -> starts_text t d -> starts_text t (Concat (pre ++ d :: post))
| St_choice x y : starts_text t x -> starts_text t y -> starts_text t (Choice x y).

(* [ends_text t d]: whatever the layout, [t] is the last thing [d] prints, except
   for hard line breaks (a line comment asks for one behind itself). *)
Inductive ends_text (t : ustr) : doc -> Prop :=
| Et_text w : t <> [c_sp] -> ends_text t (Text t w)
| Et_flat d : ends_text t d -> ends_text t (Flat d)
| Et_indent k d : ends_text t d -> ends_text t (Indent k d)
| Et_dedent k d : ends_text t d -> ends_text t (Dedent k d)
| Et_concat pre d post :
    Forall (fun x => silent x \/ x = Newline) post -> ends_text t d -> ends_text t (Concat (pre ++ d :: post))
| Et_choice x y : ends_text t x -> ends_text t y -> ends_text t (Choice x y).

(* Source side: there is an empty line between a node ending on row [r] and the
   next thing, starting on row [r']. *)
Definition empty_line_between (r r' : N) : Prop := exists row, (r < row)%N /\ (row < r')%N.

(* Printed lines: blank, or indented by at least [k]. *)
Definition deep_line (k : N) (l : ustr) : Prop :=
  (exists j, l = repeat c_sp j) \/ (exists r, l = repeat c_sp (N.to_nat k) ++ r).

(* Documents without dedents, without line feeds inside texts, and with bare line
   feeds only as part of an empty line. *)
Inductive shaped : doc -> Prop :=
| Sh_newline : shaped Newline
| Sh_force : shaped ForceBreak
| Sh_soft : shaped Softline
| Sh_maybe : shaped Maybeline
| Sh_text s w : ~ In c_nl s -> shaped (Text s w)
| Sh_flat d : shaped d -> shaped (Flat d)
| Sh_indent k d : shaped d -> shaped (Indent k d)
| Sh_empty : shaped empty_new_line
| Sh_concat l : Forall shaped l -> shaped (Concat l)
| Sh_choice x y : shaped x -> shaped y -> shaped (Choice x y).

(* [next_named c n]: [n] is the next named sibling of the node at [c] (comments
   are named). *)
Definition next_named (c : loc) (n : node) : Prop :=
  exists p q, l_right c = p ++ n :: q /\ Forall (fun x => n_named x = false) p /\ n_named n = true.

(* [blank_kept post c tr]: [tr] says whether the source has an empty line behind
   the member at [c]: below the last comment [post] attached behind it, else
   before its next sibling. *)
Definition blank_kept (post : list comment) (c : loc) (tr : bool) : Prop :=
  match rev post with
  | co :: _ => tr = c_below co
  | [] => (forall n, next_named c n -> (1 <= n_srow n)%N ->
                     (tr = true <-> empty_line_between (n_erow (l_node c)) (n_srow n))) /\
          ((forall n, ~ next_named c n) -> tr = false)
  end.
