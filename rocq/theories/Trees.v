(* Trees.v: a short notation for the concrete syntax trees used in examples.
   Nothing here models afmt: [tree] numbers the nodes of a sketch in preorder and
   fills in rows, bytes and texts the way tree-sitter does. *)
From Verif Require Import Base Cst SpecWords.

Open Scope N_scope.
Inductive sketch : Type :=
| Tok (kind : string) (named extra error : bool) (field : option string) (text : string)
| Br (kind : string) (field : option string) (kids : list sketch)
| Row (k : N).                   (* k line feeds *)

Definition tok (k s : string) := Tok k true false false None s.          (* named leaf *)
Definition tokf (f k s : string) := Tok k true false false (Some f) s.   (* ... in a field *)
Definition an (s : string) := Tok s false false false None s.            (* anonymous leaf *)
Definition anf (f s : string) := Tok s false false false (Some f) s.
Definition lcom (s : string) := Tok "line_comment" true true false None s.
Definition bcom (s : string) := Tok "block_comment" true true false None s.
Definition err (s : string) := Tok "ERROR" true false true None s.
Definition br (k : string) (l : list sketch) := Br k None l.
Definition brf (f k : string) (l : list sketch) := Br k (Some f) l.

Definition line_feeds (s : ustr) : N :=
  N.of_nat (List.length (filter (N.eqb c_nl) s)).

(* Texts one behind the other, with a blank where two words would touch. *)
Definition glue (a b : ustr) : ustr := (if ends_word a && starts_word b then a ++ c_sp :: b else a ++ b)%list.

(* state: next id, row, byte *)
Record num := { m_id : N; m_row : N; m_byte : N }.
Fixpoint number (t : sketch) (s : num) : list node * num :=
  match t with
  | Row k => ([], {| m_id := m_id s; m_row := m_row s + k; m_byte := m_byte s + k |})
  | Tok k nm ex er f x =>
      let u := U x in
      let e := m_row s + line_feeds u in
      ([Node {| i_id := m_id s; i_kind := k; i_named := nm; i_extra := ex; i_error := er;
                i_field := f; i_srow := m_row s; i_erow := e;
                i_sbyte := m_byte s; i_ebyte := m_byte s + ulen u; i_text := u |} []],
       {| m_id := m_id s + 1; m_row := e; m_byte := m_byte s + ulen u + 1 |})
  | Br k f l =>
      let s1 := {| m_id := m_id s + 1; m_row := m_row s; m_byte := m_byte s |} in
      let (cs, s2) := (fix go (l : list sketch) (s : num) : list node * num :=
                         match l with
                         | [] => ([], s)
                         | x :: r => let (a, s') := number x s in
                                     let (b, s'') := go r s' in ((a ++ b)%list, s'')
                         end) l s1 in
      let first := match cs with c :: _ => n_srow c | [] => m_row s end in
      let firstb := match cs with c :: _ => n_sbyte c | [] => m_byte s end in
      let last := match rev cs with c :: _ => n_erow c | [] => m_row s2 end in
      let lastb := match rev cs with c :: _ => n_ebyte c | [] => m_byte s2 end in
      ([Node {| i_id := m_id s; i_kind := k; i_named := true; i_extra := false;
                i_error := existsb n_error cs; i_field := f; i_srow := first; i_erow := last;
                i_sbyte := firstb; i_ebyte := lastb;
                i_text := fold_right (fun c s => glue (n_text c) s) [] cs |} cs], s2)
  end.
Definition tree (t : sketch) : node :=
  match fst (number t {| m_id := 1; m_row := 0; m_byte := 0 |}) with
  | n :: _ => n
  | [] => Node {| i_id := 0; i_kind := ""; i_named := false; i_extra := false; i_error := false;
                  i_field := None; i_srow := 0; i_erow := 0; i_sbyte := 0; i_ebyte := 0; i_text := [] |} []
  end.
