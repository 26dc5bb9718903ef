(* DocBuilder.v: model of src/doc_builder.rs.  Definitions only.
   The arena (src/doc_builder.rs:8-19) is dropped: documents are values. *)
From Verif Require Import Base Doc.

(* src/doc_builder.rs:192-196 *)
Definition txt (s : ustr) : doc := Text s (ulen s).
(* src/doc_builder.rs:198-202  _txt: leading space *)
Definition sp_txt (s : ustr) : doc := txt (c_sp :: s).
(* src/doc_builder.rs:204-208  txt_: trailing space *)
Definition txt_sp (s : ustr) : doc := txt (s ++ [c_sp]).
(* src/doc_builder.rs:210-214  _txt_ *)
Definition sp_txt_sp (s : ustr) : doc := txt (c_sp :: s ++ [c_sp]).

(* src/doc_builder.rs:164-182 *)
Definition nil_doc : doc := txt [].
Definition nl : doc := Newline.
Definition force_break : doc := ForceBreak.
Definition softline : doc := Softline.
Definition maybeline : doc := Maybeline.
(* src/doc_builder.rs:234-237 *)
Definition concat (l : list doc) : doc := Concat l.
(* src/doc_builder.rs:184-190 *)
Definition empty_new_line : doc := concat [NewlineNoIndent; nl].
(* src/doc_builder.rs:216-218 *)
Definition flat (d : doc) : doc := Flat d.
(* src/doc_builder.rs:220-228 *)
Definition indent (b : pretty_config) (d : doc) : doc := Indent (indent_size b) d.
Definition dedent (b : pretty_config) (d : doc) : doc := Dedent (indent_size b) d.
(* src/doc_builder.rs:239-245 *)
Definition choice (x y : doc) : doc := Choice x y.
Definition group (d : doc) : doc := choice (flat d) d.
(* src/doc_builder.rs:149-162 *)
Definition group_concat (l : list doc) : doc := group (concat l).
Definition group_indent (b : pretty_config) (d : doc) : doc := group (indent b d).
Definition group_indent_concat (b : pretty_config) (l : list doc) : doc := group_indent b (concat l).

(* src/doc_builder.rs:248-266  struct Insertable *)
Record insertable := { ins_pre : option doc; ins_str : option ustr; ins_suf : option doc }.
Definition ins (p : option doc) (s : option ustr) (q : option doc) : insertable :=
  {| ins_pre := p; ins_str := s; ins_suf := q |}.

Definition opt_list {A B} (f : A -> B) (o : option A) : list B :=
  match o with Some x => [f x] | None => [] end.

(* src/doc_builder.rs:268-280 (and 81-89): what an Insertable pushes. *)
Definition ins_docs (i : insertable) : list doc :=
  opt_list (fun d => d) (ins_pre i) ++ opt_list txt (ins_str i) ++ opt_list (fun d => d) (ins_suf i).

(* src/doc_builder.rs:73-94 *)
Fixpoint intersperse_tail (elems : list doc) (sep : insertable) : list doc :=
  match elems with
  | [] => []
  | e :: t => ins_docs sep ++ e :: intersperse_tail t sep
  end.
Definition intersperse (elems : list doc) (sep : insertable) : doc :=
  match elems with
  | [] => nil_doc
  | e :: t => concat (e :: intersperse_tail t sep)
  end.

(* src/doc_builder.rs:32-71; [unwrap] on a missing bracket string panics. *)
Definition surround (b : pretty_config) (elems : list doc) (sep open close : insertable) : res doc :=
  match elems with
  | [] =>
      match ins_str open, ins_str close with
      | Some o, Some c => Ok (concat [txt o; txt c])
      | _, _ => Panic "called `Option::unwrap()` on a `None` value"
      end
  | _ =>
      Ok (concat
        (opt_list (fun d => d) (ins_pre open) ++ opt_list txt (ins_str open)
         ++ opt_list (indent b) (ins_suf open)
         ++ [indent b (intersperse elems sep)]
         ++ opt_list (fun d => d) (ins_pre close) ++ opt_list txt (ins_str close)
         ++ opt_list (fun d => d) (ins_suf close)))
  end.

(* src/doc_builder.rs:22-30 *)
Definition group_surround (b : pretty_config) (elems : list doc) (sep open close : insertable) : res doc :=
  rmap group (surround b elems sep open close).

(* src/doc_builder.rs:119-140, on already built members: a member document and
   its has_trailing_newline flag. *)
Fixpoint intersperse_members (ms : list (doc * bool)) : list doc :=
  match ms with
  | [] => []
  | [(d, _)] => [d]
  | (d, tr) :: t => d :: (if tr then empty_new_line else nl) :: intersperse_members t
  end.
Definition intersperse_body_members (ms : list (doc * bool)) : doc :=
  match ms with
  | [] => nil_doc
  | _ => concat (intersperse_members ms)
  end.

(* src/doc_builder.rs:96-117 *)
Definition surround_body_members (b : pretty_config) (ms : list (doc * bool)) (open close : ustr) : doc :=
  match ms with
  | [] => concat [txt open; nl; txt close]
  | _ => concat [txt open; indent b nl; indent b (intersperse_body_members ms); nl; txt close]
  end.
