(* Doc.v: model of src/doc.rs, the layout engine.  Definitions only. *)
From Verif Require Import Base.

(* src/doc.rs:9-22  enum Doc.  References into the arena become values. *)
Inductive doc : Type :=
| Newline
| NewlineNoIndent                       (* NewlineWithNoIndent *)
| ForceBreak
| Text (s : ustr) (width : N)
| Softline
| Maybeline
| Flat (d : doc)
| Indent (i : N) (d : doc)
| Dedent (i : N) (d : doc)
| Concat (l : list doc)
| Choice (x y : doc).

(* src/doc.rs:30-42  PrettyConfig::new panics on 0. *)
Record pretty_config := { indent_size : N }.
Definition PrettyConfig_new (n : N) : res pretty_config :=
  if (n =? 0)%N then Panic "indent_size must be greater than 0"
  else Ok {| indent_size := n |}.

(* src/doc.rs:45-50  struct Chunk. *)
Record chunk := { ch_doc : doc; ch_indent : N; ch_flat : bool }.

(* src/doc.rs:52-80.  [u32] additions are unbounded here; Doc32.v has the
   machine version. *)
Definition with_doc (c : chunk) (d : doc) : chunk :=
  {| ch_doc := d; ch_indent := ch_indent c; ch_flat := ch_flat c |}.
Definition indented (c : chunk) (i : N) (d : doc) : chunk :=
  {| ch_doc := d; ch_indent := ch_indent c + i; ch_flat := ch_flat c |}.
Definition dedented (c : chunk) (i : N) (d : doc) : chunk :=      (* saturating_sub *)
  {| ch_doc := d; ch_indent := ch_indent c - i; ch_flat := ch_flat c |}.
Definition flattened (c : chunk) (d : doc) : chunk :=
  {| ch_doc := d; ch_indent := ch_indent c; ch_flat := true |}.

(* ------------------------------------------------------------- fits *)

(* Local state of the loop in src/doc.rs:204-275.  Stacks have their top first
   (Rust pushes at the back of a Vec). *)
Record fstate := {
  f_rem : N;                 (* remaining_width *)
  f_stack : list chunk;      (* stack *)
  f_rest : list chunk;       (* chunks: what the printer still has to print *)
  f_within : bool            (* within_group *)
}.

(* src/doc.rs:221-273  one iteration after a chunk [c] was popped. *)
Definition fits_chunk (c : chunk) (s : fstate) : bool + fstate :=
  match ch_doc c with
  | Newline | NewlineNoIndent => inl true
  | ForceBreak => if f_within s then inl false else inr s
  | Softline =>
      if ch_flat c then
        if (1 <=? f_rem s)%N
        then inr {| f_rem := f_rem s - 1; f_stack := f_stack s; f_rest := f_rest s; f_within := f_within s |}
        else inl false
      else inl true
  | Maybeline => if ch_flat c then inr s else inl true
  | Text _ w =>
      if (w <=? f_rem s)%N
      then inr {| f_rem := f_rem s - w; f_stack := f_stack s; f_rest := f_rest s; f_within := f_within s |}
      else inl false
  | Flat x =>
      inr {| f_rem := f_rem s; f_stack := flattened c x :: f_stack s; f_rest := f_rest s; f_within := f_within s |}
  | Indent i x =>
      inr {| f_rem := f_rem s; f_stack := indented c i x :: f_stack s; f_rest := f_rest s; f_within := f_within s |}
  | Dedent i x =>
      inr {| f_rem := f_rem s; f_stack := dedented c i x :: f_stack s; f_rest := f_rest s; f_within := f_within s |}
  | Concat l =>
      inr {| f_rem := f_rem s; f_stack := map (with_doc c) l ++ f_stack s; f_rest := f_rest s; f_within := f_within s |}
  | Choice x y =>
      inr {| f_rem := f_rem s;
             f_stack := with_doc c (if ch_flat c then x else y) :: f_stack s;
             f_rest := f_rest s; f_within := f_within s |}
  end.

(* src/doc.rs:210-219  pop from the local stack, else look at the rest (and leave
   the group for good), else everything fitted. *)
Definition fits_step (s : fstate) : bool + fstate :=
  match f_stack s with
  | c :: st =>
      fits_chunk c {| f_rem := f_rem s; f_stack := st; f_rest := f_rest s; f_within := f_within s |}
  | [] =>
      match f_rest s with
      | c :: r =>
          fits_chunk c {| f_rem := f_rem s; f_stack := []; f_rest := r; f_within := false |}
      | [] => inl true
      end
  end.

(* The loop of src/doc.rs:210, on fuel. *)
Fixpoint fits_loop (fuel : nat) (s : fstate) : option bool :=
  match fuel with
  | O => None
  | S n => match fits_step s with
           | inl b => Some b
           | inr s' => fits_loop n s'
           end
  end.

(* Number of loop iterations a document can cause; a group shares its document
   between both branches and only one of them is entered. *)
Fixpoint dsteps (d : doc) : nat :=
  match d with
  | Flat x | Indent _ x | Dedent _ x => S (dsteps x)
  | Concat l => S ((fix go (l : list doc) : nat :=
                      match l with [] => O | x :: t => dsteps x + go t end) l)
  | Choice x y => S (Nat.max (dsteps x) (dsteps y))
  | _ => 1
  end.
Fixpoint ssteps (l : list chunk) : nat :=
  match l with [] => O | c :: t => dsteps (ch_doc c) + ssteps t end.

(* src/doc.rs:204-209  fits(chunk) with [max_width], [col] and the printer's
   remaining chunks. *)
Definition fits_init (w col : N) (rest : list chunk) (c : chunk) : fstate :=
  {| f_rem := w - col; f_stack := [c]; f_rest := rest; f_within := true |}.
Definition fits_opt (w col : N) (rest : list chunk) (c : chunk) : option bool :=
  fits_loop (S (ssteps (c :: rest))) (fits_init w col rest c).
(* The fuel is always enough (DocProofs.fits_total), so the default is never used. *)
Definition fits (w col : N) (rest : list chunk) (c : chunk) : bool :=
  match fits_opt w col rest c with Some b => b | None => false end.

(* ------------------------------------------------------------- print *)

(* src/doc.rs:24-28 and 97-101: printer state; the NewlineBuffer
   (src/doc.rs:278-308) is [Some indent] when a newline is pending. *)
Record pstate := {
  p_chunks : list chunk;
  p_col : N;
  p_out : ustr;
  p_pending : option N
}.

Definition spaces (n : N) : ustr := repeat c_sp (N.to_nat n).

(* src/doc.rs:134-138, 157-160, 179-182 with insert_newline_with_indent 187-193. *)
Definition flush (s : pstate) : pstate :=
  match p_pending s with
  | Some i => {| p_chunks := p_chunks s; p_col := i;
                 p_out := p_out s ++ c_nl :: spaces i; p_pending := None |}
  | None => s
  end.

Definition push_chunks (cs : list chunk) (s : pstate) : pstate :=
  {| p_chunks := cs ++ p_chunks s; p_col := p_col s; p_out := p_out s; p_pending := p_pending s |}.
Definition set_pending (i : N) (s : pstate) : pstate :=
  {| p_chunks := p_chunks s; p_col := p_col s; p_out := p_out s; p_pending := Some i |}.

(* src/doc.rs:140-146  push a text unless it is a lone space after a space. *)
Definition push_text (t : ustr) (w : N) (s : pstate) : pstate :=
  if ustr_eqb t [c_sp] && ends_with_char c_sp (p_out s) then s
  else {| p_chunks := p_chunks s; p_col := p_col s + w; p_out := p_out s ++ t; p_pending := p_pending s |}.

(* src/doc.rs:104-175  the body of the loop, for a popped chunk [c]; [s] holds
   the remaining chunks. *)
Definition print_chunk (w : N) (c : chunk) (s : pstate) : pstate :=
  match ch_doc c with
  | Newline => set_pending (ch_indent c) s
  | NewlineNoIndent =>
      {| p_chunks := p_chunks s; p_col := 0; p_out := p_out s ++ [c_nl]; p_pending := None |}
  | Softline =>
      if ch_flat c
      then {| p_chunks := p_chunks s; p_col := p_col s + 1; p_out := p_out s ++ [c_sp]; p_pending := p_pending s |}
      else set_pending (ch_indent c) s
  | Maybeline => if ch_flat c then s else set_pending (ch_indent c) s
  | ForceBreak => s
  | Text t tw => push_text t tw (flush s)
  | Flat x => push_chunks [flattened c x] s
  | Indent i x => push_chunks [indented c i x] s
  | Dedent i x => push_chunks [dedented c i x] s
  | Concat l => push_chunks (map (with_doc c) l) s
  | Choice x y =>
      let s := flush s in
      if ch_flat c then push_chunks [with_doc c x] s
      else if fits w (p_col s) (p_chunks s) (with_doc c x)
           then push_chunks [with_doc c x] s
           else push_chunks [with_doc c y] s
  end.

Definition print_step (w : N) (s : pstate) : option pstate :=
  match p_chunks s with
  | [] => None
  | c :: r =>
      Some (print_chunk w c {| p_chunks := r; p_col := p_col s; p_out := p_out s; p_pending := p_pending s |})
  end.

(* src/doc.rs:103  while let Some(chunk) = self.chunks.pop() *)
Fixpoint print_loop (fuel : nat) (w : N) (s : pstate) : option pstate :=
  match p_chunks s with
  | [] => Some s
  | _ => match fuel with
         | O => None
         | S n => match print_step w s with
                  | Some s' => print_loop n w s'
                  | None => Some s
                  end
         end
  end.

(* src/doc.rs:83-95  PrettyPrinter::new *)
Definition print_init (d : doc) : pstate :=
  {| p_chunks := [{| ch_doc := d; ch_indent := 0; ch_flat := false |}];
     p_col := 0; p_out := []; p_pending := None |}.

(* src/doc.rs:3-6, 97-185  pretty_print; [None] is excluded by DocProofs. *)
Definition pretty_print_opt (d : doc) (w : N) : option ustr :=
  match print_loop (dsteps d) w (print_init d) with
  | Some s => Some (p_out (flush s))
  | None => None
  end.
Definition pretty_print (d : doc) (w : N) : ustr :=
  match pretty_print_opt d w with Some o => o | None => [] end.
