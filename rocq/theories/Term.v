(* Term.v: the build phase (DocBuild::build, src/data_model.rs:14-19, and the
   comment wrappers of src/utility.rs).  Definitions only.

   In afmt every syntax type has a constructor `new` reading the tree and a
   `build_inner` pushing documents.  The fields of a struct are only read by its
   own `build_inner`, so the model lets `new` (New.v) return the sequence of
   builder calls that `build_inner` makes, as a term, and [run] executes them.
   `new` runs completely before any `build`, as in src/formatter.rs:151-156. *)
From Verif Require Import Base Doc DocBuilder Cst Comments.
Open Scope res_scope.

(* The line-break documents used in an Insertable. *)
Inductive leaf := LNl | LSoft | LMaybe.
Definition leaf_doc (l : leaf) : doc :=
  match l with LNl => nl | LSoft => softline | LMaybe => maybeline end.
(* src/doc_builder.rs:248-266 *)
Record tins := { t_pre : option leaf; t_str : option ustr; t_suf : option leaf }.
Definition tins_ins (t : tins) : insertable :=
  ins (option_map leaf_doc (t_pre t)) (t_str t) (option_map leaf_doc (t_suf t)).

(* How a node combines its comments with its members. *)
Inductive handling :=
| HPlain          (* build_with_comments, src/utility.rs:280-299 *)
| HPunc           (* build_with_comments_and_punc, src/utility.rs:319-337 *)
| HAttached       (* build_with_comments_and_punc_attached, src/utility.rs:340-359 *)
| HBracket        (* ClassBody, Block, InterfaceBody, EnumBody: e.g. src/data_model.rs:439-456 *)
| HBracketNoPost  (* ConstructorBody and an empty EnumBody: src/data_model.rs:1799-1837 *)
| HRoot.          (* Root: src/data_model.rs:45-63 *)

(* One builder call. *)
Inductive dt : Type :=
| TTxt (s : ustr)                                    (* b.txt *)
| TLeaf (l : leaf)                                   (* b.nl, b.softline, b.maybeline *)
| TEmptyLine                                         (* b.empty_new_line *)
| TConcat (l : list dt)                              (* b.concat *)
| TIndent (x : dt)                                   (* b.indent *)
| TDedent (x : dt)                                   (* b.dedent *)
| TGroup (x : dt)                                    (* b.group *)
| TIntersperse (l : list dt) (sep : tins)            (* b.intersperse *)
| TSurround (l : list dt) (sep open close : tins)    (* b.surround *)
| TMembers (ms : list (dt * bool))                   (* b.intersperse_body_members *)
| TSurroundMembers (ms : list (dt * bool)) (open close : ustr)  (* b.surround_body_members *)
| TNode (h : handling) (x : context) (body tail : list dt)
     (* build of a node: comments around [body], then [tail] *)
| TPunct (p : punct)                                 (* Punctuation::build *)
| TPanic (why : string).                             (* an unwrap failing while building *)

(* What a build yields: a value and the comments marked as printed meanwhile
   (Comment::mark_as_printed; nothing reads the marks before the end). *)
Definition M (A : Type) : Type := res (A * list comment).
Definition ret {A} (a : A) : M A := Ok (a, []).
Definition mbind {A B} (m : M A) (f : A -> M B) : M B :=
  match m with
  | Ok (a, w) => match f a with
                 | Ok (b, w') => Ok (b, w ++ w')
                 | Panic y => Panic y
                 | Overflow => Overflow
                 end
  | Panic y => Panic y
  | Overflow => Overflow
  end.
Definition lift {A} (m : res A) : M A := rbind m (fun a => Ok (a, [])).
Definition mark {A} (a : A) (cs : list comment) : M A := Ok (a, cs).
Definition mmap {A B} (f : A -> B) (m : M A) : M B := mbind m (fun a => ret (f a)).
Definition mapM {A B} (f : A -> M B) : list A -> M (list B) :=
  fix go (l : list A) : M (list B) :=
    match l with
    | [] => ret []
    | x :: t => mbind (f x) (fun y => mbind (go t) (fun ys => ret (y :: ys)))
    end.

Section Run.
  Variable cm : cmap.
  Variable b : pretty_config.

  (* src/context.rs:342-403 *)
  Definition build_punct (p : punct) : M doc :=
    match p with
    | Punct comma id =>
        mbind (lift (get_comment_bucket cm id)) (fun bk =>
        mark (concat (punct_docs comma bk)) (pre bk ++ post bk))
    end.
  Definition build_punct_opt (o : option punct) : M (list doc) :=
    match o with
    | None => ret []
    | Some p => mmap (fun d => [d]) (build_punct p)
    end.

  (* The members of a node, run only when it has no dangling comments, in which
     case the dangling comments are printed instead (src/utility.rs:310-316). *)
  Definition members_or_dangling (bk : bucket) (members : M (list doc)) : M (list doc) :=
    if is_nil (dangling bk) then members
    else mbind (lift (handle_dangling_comments bk)) (fun ds =>
         mark [concat ds] (dangling bk)).
  Definition members_or_bracket (bk : bucket) (members : M (list doc)) : M (list doc) :=
    if is_nil (dangling bk) then members
    else mbind (lift (dangling_in_bracket_surround b bk)) (fun ds =>
         mark ds (dangling bk)).
  Definition pre_docs (bk : bucket) : M (list doc) := mark (handle_pre_comments bk) (pre bk).
  Definition post_docs (bk : bucket) : M (list doc) :=
    if is_nil (dangling bk) then mark (handle_post_comments bk) (post bk) else ret [].
  Definition seqM (l : list (M (list doc))) : M (list doc) :=
    mmap (@List.concat doc) (mapM (fun m => m) l).

  (* src/utility.rs:280-359; src/data_model.rs:45-63, 439-456, 1799-1837 *)
  Definition build_node (h : handling) (x : context) (members : M (list doc)) : M (list doc) :=
    mbind (lift (get_comment_bucket cm (x_id x))) (fun bk =>
    match h with
    | HPlain => seqM [pre_docs bk; members_or_dangling bk members; post_docs bk]
    | HPunc => seqM [pre_docs bk; members_or_dangling bk members; post_docs bk; build_punct_opt (x_punc x)]
    | HAttached => seqM [pre_docs bk; members_or_dangling bk members; build_punct_opt (x_punc x); post_docs bk]
    | HBracket => seqM [pre_docs bk; members_or_bracket bk members; post_docs bk]
    | HBracketNoPost => seqM [pre_docs bk; members_or_bracket bk members]
    | HRoot =>
        if is_nil (dangling bk) then members
        else ret [concat (map comment_doc (dangling bk))]        (* not marked *)
    end).

  Fixpoint run (t : dt) {struct t} : M doc :=
    match t with
    | TTxt s => ret (txt s)
    | TLeaf l => ret (leaf_doc l)
    | TEmptyLine => ret empty_new_line
    | TConcat l => mmap concat (mapM run l)
    | TIndent x => mmap (indent b) (run x)
    | TDedent x => mmap (dedent b) (run x)
    | TGroup x => mmap group (run x)
    | TIntersperse l sep => mmap (fun ds => intersperse ds (tins_ins sep)) (mapM run l)
    | TSurround l sep open close =>
        mbind (mapM run l) (fun ds =>
        lift (surround b ds (tins_ins sep) (tins_ins open) (tins_ins close)))
    | TMembers ms =>
        mmap intersperse_body_members
          (mapM (fun m : dt * bool => let (x, tr) := m in mmap (fun d => (d, tr)) (run x)) ms)
    | TSurroundMembers ms open close =>
        mmap (fun l => surround_body_members b l open close)
          (mapM (fun m : dt * bool => let (x, tr) := m in mmap (fun d => (d, tr)) (run x)) ms)
    | TNode h x body tail =>
        mmap concat (seqM [build_node h x (mapM run body); mapM run tail])
    | TPunct p => build_punct p
    | TPanic why => Panic why
    end.
End Run.
