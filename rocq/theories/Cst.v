(* Cst.v: the concrete syntax tree handed over by tree-sitter, and the node
   accessors of src/accessor.rs.  Definitions only.

   A tree is any finite ordered tree whose nodes carry what afmt reads of a
   tree_sitter::Node.  The grammar is not modelled: kinds, fields, flags and
   positions are arbitrary.  A child carries at most one field name. *)
From Verif Require Import Base.

Record ninfo := {
  i_id : N;                  (* Node::id *)
  i_kind : string;           (* Node::kind *)
  i_named : bool;            (* Node::is_named *)
  i_extra : bool;            (* Node::is_extra *)
  i_error : bool;            (* Node::has_error *)
  i_field : option string;   (* field name under which the parent holds it *)
  i_srow : N; i_erow : N;    (* start_position().row, end_position().row *)
  i_sbyte : N; i_ebyte : N;  (* start_byte, end_byte *)
  i_text : ustr              (* utf8_text of its byte range *)
}.
Inductive node : Type := Node (i : ninfo) (cs : list node).

Definition info (n : node) : ninfo := match n with Node i _ => i end.
Definition children (n : node) : list node := match n with Node _ cs => cs end.
Definition n_id (n : node) : N := i_id (info n).
Definition n_kind (n : node) : string := i_kind (info n).
Definition n_named (n : node) : bool := i_named (info n).
Definition n_extra (n : node) : bool := i_extra (info n).
Definition n_error (n : node) : bool := i_error (info n).
Definition n_field (n : node) : option string := i_field (info n).
Definition n_srow (n : node) : N := i_srow (info n).
Definition n_erow (n : node) : N := i_erow (info n).
Definition n_sbyte (n : node) : N := i_sbyte (info n).
Definition n_ebyte (n : node) : N := i_ebyte (info n).
Definition n_text (n : node) : ustr := i_text (info n).

Definition has_kind (k : string) (n : node) : bool := String.eqb (n_kind n) k.
Definition has_field (f : string) (n : node) : bool :=
  match n_field n with Some g => String.eqb g f | None => false end.

(* A node together with its siblings (nearest first on the left) and its
   parent: what Node::parent and the sibling accessors can see. *)
Inductive loc : Type := Loc (n : node) (left right : list node) (up : option loc).
Definition l_node (l : loc) : node := match l with Loc n _ _ _ => n end.
Definition l_left (l : loc) : list node := match l with Loc _ x _ _ => x end.
Definition l_right (l : loc) : list node := match l with Loc _ _ x _ => x end.
Definition parent (l : loc) : option loc := match l with Loc _ _ _ u => u end.
Definition root_loc (n : node) : loc := Loc n [] [] None.

Fixpoint locs_from (up : loc) (left cs : list node) : list loc :=
  match cs with
  | [] => []
  | c :: r => Loc c left r (Some up) :: locs_from up (c :: left) r
  end.
(* Node::children *)
Definition kids (l : loc) : list loc := locs_from l [] (children (l_node l)).

Definition kind (l : loc) : string := n_kind (l_node l).
Definition is_kind (k : string) (l : loc) : bool := has_kind k (l_node l).
Definition is_named (l : loc) : bool := n_named (l_node l).
Definition is_extra (l : loc) : bool := n_extra (l_node l).

(* src/accessor.rs:52-59 *)
Definition value (l : loc) : ustr := n_text (l_node l).

(* Node::named_children *)
Definition named_kids (l : loc) : list loc := filter is_named (kids l).

(* src/accessor.rs:61-66 *)
Definition children_vec (l : loc) : list loc :=
  filter (fun c => negb (is_extra c)) (named_kids l).

(* src/accessor.rs:73-84 *)
Definition try_c_by_k (k : string) (l : loc) : option loc := find (is_kind k) (named_kids l).
Definition try_cs_by_k (k : string) (l : loc) : list loc := filter (is_kind k) (named_kids l).

(* src/accessor.rs:86-88  Node::child_by_field_name: the first child with that field. *)
Definition try_c_by_n (f : string) (l : loc) : option loc :=
  find (fun c => has_field f (l_node c)) (kids l).

Definition must {A} (why : string) (o : option A) : res A :=
  match o with Some x => Ok x | None => Panic why end.

(* src/accessor.rs:90-99, 151-160 *)
Definition c_by_k (k : string) (l : loc) : res loc :=
  must "missing mandatory kind child" (try_c_by_k k l).
Definition c_by_n (f : string) (l : loc) : res loc :=
  must "missing mandatory name child" (try_c_by_n f l).

(* src/accessor.rs:101-124 *)
Definition try_first_c (l : loc) : option loc := hd_error (children_vec l).
Definition first_c (l : loc) : res loc :=
  must "missing a mandatory child in first_c()" (try_first_c l).

(* src/accessor.rs:126-149 *)
Definition cvalue_by_k (k : string) (l : loc) : res ustr := rmap value (c_by_k k l).
Definition cvalue_by_n (f : string) (l : loc) : res ustr := rmap value (c_by_n f l).

(* src/accessor.rs:162-187 *)
Definition cs_by_n (f : string) (l : loc) : res (list loc) :=
  match filter (fun c => has_field f (l_node c)) (kids l) with
  | [] => Panic "missing mandatory name children"
  | cs => Ok cs
  end.
Definition cs_by_k (k : string) (l : loc) : res (list loc) :=
  match try_cs_by_k k l with
  | [] => Panic "missing mandatory kind children"
  | cs => Ok cs
  end.

(* src/accessor.rs:41-50  the next named sibling that is not a comment. *)
Fixpoint next_named_from (left right : list node) (up : option loc) : option loc :=
  match right with
  | [] => None
  | n :: r => if n_named n && negb (n_extra n) then Some (Loc n left r up)
              else next_named_from (n :: left) r up
  end.
Definition next_named (l : loc) : res loc :=
  must "next_named node missing." (next_named_from (l_node l :: l_left l) (l_right l) (parent l)).

(* src/utility.rs:143-149 *)
Definition is_punctuation_node (n : node) : bool := has_kind "," n || has_kind ";" n.
Definition is_associable_unnamed_node (n : node) : bool :=
  is_punctuation_node n || has_kind "else" n.

(* src/utility.rs:592-597 *)
Definition is_bracket_composite_node (n : node) : bool :=
  kind_in (n_kind n) ["trigger_body"; "class_body"; "block"; "enum_body"]%string.
