(* Doc32.v: the layout engine of src/doc.rs with its 32-bit arithmetic: the same
   functions as in Doc.v, where [u32] additions panic on overflow ([checked], a
   debug build) or wrap around (a release build).  Definitions only. *)
From Verif Require Import Base Doc.
Open Scope res_scope.
Local Open Scope string_scope.

Definition two32 : N := 4294967296.
Definition add32 (checked : bool) (a b : N) : res N :=
  if (a + b <? two32)%N then Ok (a + b)%N
  else if checked then Panic "attempt to add with overflow" else Ok ((a + b) mod two32)%N.

(* src/doc_builder.rs:192-214: `s.len() as u32` drops the high bits of a width;
   indents are u32 from the start. *)
Fixpoint cast32 (d : doc) : doc :=
  match d with
  | Text s w => Text s (w mod two32)
  | Flat x => Flat (cast32 x)
  | Indent i x => Indent i (cast32 x)
  | Dedent i x => Dedent i (cast32 x)
  | Concat l => Concat (map cast32 l)
  | Choice x y => Choice (cast32 x) (cast32 y)
  | d => d
  end.

Section Machine.
  Variable checked : bool.
  Notation add := (add32 checked).

  (* src/doc.rs:58-63 *)
  Definition indented32 (c : chunk) (i : N) (d : doc) : res chunk :=
    n <- add (ch_indent c) i ;;
    Ok {| ch_doc := d; ch_indent := n; ch_flat := ch_flat c |}.

  (* src/doc.rs:221-273: subtractions are guarded, the only addition is [indented32]. *)
  Definition fits_chunk32 (c : chunk) (s : fstate) : res (bool + fstate) :=
    match ch_doc c with
    | Indent i x =>
        c' <- indented32 c i x ;;
        Ok (inr {| f_rem := f_rem s; f_stack := c' :: f_stack s; f_rest := f_rest s; f_within := f_within s |})
    | _ => Ok (fits_chunk c s)
    end.
  (* src/doc.rs:210-219 *)
  Definition fits_step32 (s : fstate) : res (bool + fstate) :=
    match f_stack s with
    | c :: st =>
        fits_chunk32 c {| f_rem := f_rem s; f_stack := st; f_rest := f_rest s; f_within := f_within s |}
    | [] =>
        match f_rest s with
        | c :: r => fits_chunk32 c {| f_rem := f_rem s; f_stack := []; f_rest := r; f_within := false |}
        | [] => Ok (inl true)
        end
    end.
  (* The loop of src/doc.rs:210; running out of fuel is [Overflow], which
     Doc32Proofs.v excludes. *)
  Fixpoint fits_loop32 (fuel : nat) (s : fstate) : res bool :=
    match fuel with
    | O => Overflow
    | S n => r <- fits_step32 s ;;
             match r with
             | inl b => Ok b
             | inr s' => fits_loop32 n s'
             end
    end.
  Definition fits32 (w col : N) (rest : list chunk) (c : chunk) : res bool :=
    fits_loop32 (S (ssteps (c :: rest))) (fits_init w col rest c).

  (* src/doc.rs:140-146 *)
  Definition push_text32 (t : ustr) (w : N) (s : pstate) : res pstate :=
    if ustr_eqb t [c_sp] && ends_with_char c_sp (p_out s) then Ok s
    else n <- add (p_col s) w ;;
         Ok {| p_chunks := p_chunks s; p_col := n; p_out := p_out s ++ t; p_pending := p_pending s |}.
  (* src/doc.rs:104-175 *)
  Definition print_chunk32 (w : N) (c : chunk) (s : pstate) : res pstate :=
    match ch_doc c with
    | Softline =>
        if ch_flat c
        then n <- add (p_col s) 1 ;;
             Ok {| p_chunks := p_chunks s; p_col := n; p_out := p_out s ++ [c_sp]; p_pending := p_pending s |}
        else Ok (set_pending (ch_indent c) s)
    | Text t tw => push_text32 t tw (flush s)
    | Indent i x => c' <- indented32 c i x ;; Ok (push_chunks [c'] s)
    | Choice x y =>
        let s := flush s in
        if ch_flat c then Ok (push_chunks [with_doc c x] s)
        else f <- fits32 w (p_col s) (p_chunks s) (with_doc c x) ;;
             Ok (push_chunks [with_doc c (if f then x else y)] s)
    | _ => Ok (print_chunk w c s)
    end.
  (* src/doc.rs:103 *)
  Fixpoint print_loop32 (fuel : nat) (w : N) (s : pstate) : res pstate :=
    match p_chunks s with
    | [] => Ok s
    | c :: r =>
        match fuel with
        | O => Overflow
        | S n => s' <- print_chunk32 w c {| p_chunks := r; p_col := p_col s; p_out := p_out s; p_pending := p_pending s |} ;;
                 print_loop32 n w s'
        end
    end.
  (* src/doc.rs:3-6, 97-185 *)
  Definition pretty_print32 (d : doc) (w : N) : res ustr :=
    s <- print_loop32 (dsteps d) w (print_init d) ;;
    Ok (p_out (flush s)).
End Machine.
