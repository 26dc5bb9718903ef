(* Comments.v: model of src/context.rs and of the comment collection and
   printing of src/utility.rs.  Definitions only. *)
From Verif Require Import Base Doc DocBuilder Cst.
Open Scope res_scope.

(* ------------------------------------------------------------ comments *)

(* src/context.rs:67-78 and 225-233: Comment with its CommentMetadata.  [c_id]
   is the id of the comment node (commented out in the Rust struct): it stands
   for the identity of the Comment object, whose is_printed cell is modelled by
   the list of marked comments threaded through Term.v. *)
Record comment := {
  c_id : N;
  c_value : ustr;
  c_line : bool;         (* comment_type == Line *)
  c_leading : bool;      (* has_leading_content *)
  c_trailing : bool;     (* has_trailing_content *)
  c_above : bool;        (* has_empty_line_above *)
  c_below : bool;        (* has_empty_line_below *)
  c_prev : bool;         (* has_prev_node *)
  c_bracket : bool       (* is_followed_by_bracket_composite_node *)
}.

(* src/context.rs:80-100 with CommentMetadata::from, 235-285.  [left] are the
   preceding siblings, nearest first, [right] the following ones. *)
Definition comment_of (left : list node) (n : node) (right : list node) : res comment :=
  let prev := find n_named left in
  let next := find n_named right in
  let mk (line : bool) : comment :=
    {| c_id := n_id n;
       c_value := trim_end (n_text n);
       c_line := line;
       c_leading := match prev with Some p => (n_srow n =? n_erow p)%N | None => false end;
       c_trailing := if line then false
                     else match next with Some x => (n_erow n =? n_srow x)%N | None => false end;
       c_above := match prev with Some p => (n_erow p + 1 <? n_srow n)%N | None => false end;
       c_below := match next with Some x => (n_erow n <? n_srow x - 1)%N | None => false end;
       c_prev := match prev with Some _ => true | None => false end;
       c_bracket := match next with Some x => is_bracket_composite_node x | None => false end |} in
  if has_kind "line_comment" n then Ok (mk true)
  else if has_kind "block_comment" n then Ok (mk false)
  else Panic "unknown node kind in Comment".

(* src/context.rs:138-223  Comment::build_inner. *)
Definition javadoc_open : ustr := U "/**".
Definition javadoc_close : ustr := U "*/".

(* src/context.rs:150-163: split the first line into "/**" and its content. *)
Definition javadoc_split_first (lines : list ustr) : list ustr :=
  match lines with
  | [] => []
  | l0 :: rest =>
      let first := trim l0 in
      if (3 <? ulen first)%N then
        let content := trim (skipn 3 first) in        (* first_line[3..] : "/**" is ASCII *)
        if is_nil content then l0 :: rest else javadoc_open :: content :: rest
      else l0 :: rest
  end.

(* src/context.rs:172-185 the last line, 186-204 the others; without the final nl. *)
Definition javadoc_last (trimmed : ustr) : list doc :=
  match strip_suffix javadoc_close trimmed with
  | Some before =>
      let content := trim before in
      if is_nil content then [txt (U " */")]
      else [txt (U " * " ++ content); nl; txt (U " */")]
  | None => [txt (U " */")]
  end.
Definition javadoc_middle (trimmed : ustr) : doc :=
  match trimmed with
  | [] => txt (U " *")
  | _ =>
      match strip_prefix [c_star] trimmed with
      | Some after =>
          let content := trim_start after in
          if is_nil content then txt (U " *") else txt (U " * " ++ content)
      | None => txt (U " * " ++ trimmed)
      end
  end.
Fixpoint javadoc_rest (lines : list ustr) : list doc :=
  match lines with
  | [] => []
  | [l] => javadoc_last (trim l)
  | l :: t => javadoc_middle (trim l) :: nl :: javadoc_rest t
  end.
Definition javadoc_docs (lines : list ustr) : list doc :=
  match javadoc_split_first lines with
  | [] => []
  | [l0] => [txt (trim l0)]
  | l0 :: rest => txt (trim l0) :: nl :: javadoc_rest rest
  end.

(* src/context.rs:210-219 *)
Fixpoint block_docs (lines : list ustr) : list doc :=
  match lines with
  | [] => []
  | [l] => [txt (trim l)]
  | l :: t => txt (trim l) :: nl :: block_docs t
  end.

Definition comment_docs (c : comment) : list doc :=
  if c_line c then [txt (c_value c); nl]
  else
    let lines := split_on c_nl (c_value c) in
    if starts_with javadoc_open (c_value c) then javadoc_docs lines else block_docs lines.

(* Comment::build (src/data_model.rs:14-19 applied to Comment). *)
Definition comment_doc (c : comment) : doc := concat (comment_docs c).

(* ------------------------------------------------------------ buckets *)

(* src/context.rs:48-64 *)
Record bucket := { pre : list comment; post : list comment; dangling : list comment }.
Definition empty_bucket : bucket := {| pre := []; post := []; dangling := [] |}.

(* src/context.rs:14  HashMap<usize, CommentBucket>, as an association list. *)
Notation cmap := (list (N * bucket)) (only parsing).

Fixpoint cm_get (id : N) (m : cmap) : option bucket :=
  match m with
  | [] => None
  | (k, v) :: t => if (k =? id)%N then Some v else cm_get id t
  end.
(* entry(id).or_insert_with(CommentBucket::new), then update in place. *)
Fixpoint cm_update (id : N) (f : bucket -> bucket) (m : cmap) : cmap :=
  match m with
  | [] => [(id, f empty_bucket)]
  | (k, v) :: t => if (k =? id)%N then (k, f v) :: t else (k, v) :: cm_update id f t
  end.

Definition add_pre (cs : list comment) (b : bucket) : bucket :=
  {| pre := pre b ++ cs; post := post b; dangling := dangling b |}.
Definition add_post (cs : list comment) (b : bucket) : bucket :=
  {| pre := pre b; post := post b ++ cs; dangling := dangling b |}.
Definition add_dangling (cs : list comment) (b : bucket) : bucket :=
  {| pre := pre b; post := post b; dangling := dangling b ++ cs |}.

(* src/utility.rs:188-230: the sibling found by the peeking cursor. *)
Fixpoint peek (right : list node) : option node :=
  match right with
  | [] => None
  | s :: r => if n_extra s then peek r else Some s
  end.

Definition associable (n : node) : bool := n_named n || is_associable_unnamed_node n.

(* src/utility.rs:151-278  collect_comments, past its entry test (which a
   recursive call always passes, see collect_comments below).  The loop over the
   children carries the preceding siblings, the pending comments, the last
   associable node (id and end row) and the map. *)
Fixpoint collect (n : node) (m : cmap) {struct n} : res cmap :=
  match n with
  | Node i cs =>
      let m := cm_update (i_id i) (fun b => b) m in
      match cs with
      | [] => Ok m
      | _ =>
        (fix go (left cs : list node) (pending : list comment)
                (last : option (N * N)) (m : cmap) {struct cs} : res cmap :=
           match cs with
           | [] =>
               Ok match last with
                  | Some (lid, _) => cm_update lid (add_post pending) m
                  | None => cm_update (i_id i) (add_dangling pending) m
                  end
           | c :: r =>
               if n_extra c then
                 co <- comment_of left c r ;;
                 match last with
                 | Some (lid, lrow) =>
                     match peek r with
                     | None => go (c :: left) r pending last (cm_update lid (add_post [co]) m)
                     | Some s =>
                         if is_punctuation_node s
                         then go (c :: left) r pending last (cm_update (n_id s) (add_pre [co]) m)
                         else if (n_erow c =? lrow)%N
                         then go (c :: left) r pending last (cm_update lid (add_post [co]) m)
                         else go (c :: left) r (pending ++ [co]) last m
                     end
                 | None => go (c :: left) r (pending ++ [co]) last m
                 end
               else if associable c then
                 m' <- collect c (if is_nil pending then m
                                  else cm_update (n_id c) (add_pre pending) m) ;;
                 go (c :: left) r [] (Some (n_id c, n_erow c)) m'
               else go (c :: left) r pending last m
           end) [] cs [] None m
      end
  end.

(* src/utility.rs:151-156 *)
Definition collect_comments (n : node) : res cmap :=
  if (negb (n_named n) || n_extra n) && negb (is_associable_unnamed_node n)
  then Ok [] else collect n [].

(* src/utility.rs:69-80  get_comment_bucket *)
Definition get_comment_bucket (m : cmap) (id : N) : res bucket :=
  must "comment map missing bucket for node" (cm_get id m).

(* ------------------------------------------------------------ printing *)

(* src/utility.rs:373-400 *)
Definition dangling_comment_docs (c : comment) : list doc :=
  (if c_leading c then [txt [c_sp]]
   else if c_above c then [empty_new_line]
   else if c_prev c then [nl] else [])
  ++ [comment_doc c].
Definition handle_dangling_comments (bk : bucket) : res (list doc) :=
  match dangling bk with
  | [] => Panic "handle_dangling_comments() should not have empty dangling_comments input"
  | cs => Ok (flat_map dangling_comment_docs cs)
  end.

(* src/utility.rs:361-371 *)
Definition dangling_in_bracket_surround (b : pretty_config) (bk : bucket) : res (list doc) :=
  ds <- handle_dangling_comments bk ;;
  Ok [txt (U "{"); indent b nl; indent b (concat ds); nl; txt (U "}")].

(* src/utility.rs:412-439: one pre comment; [first]: i == 0, [last]: i == len - 1. *)
Definition pre_comment_docs (first last : bool) (c : comment) : list doc :=
  (if c_leading c then [txt [c_sp]]
   else force_break :: (if first then [] else [if c_above c then empty_new_line else nl]))
  ++ [comment_doc c]
  ++ (if c_trailing c then [txt [c_sp]]
      else if last then [if c_below c then empty_new_line else nl] else []).
Fixpoint pre_comments_docs (first : bool) (cs : list comment) : list doc :=
  match cs with
  | [] => []
  | c :: t => pre_comment_docs first (is_nil t) c ++ pre_comments_docs false t
  end.
(* src/utility.rs:402-444 *)
Definition handle_pre_comments (bk : bucket) : list doc :=
  match pre bk with
  | [] => []
  | cs => [concat (pre_comments_docs true cs)]
  end.

(* src/utility.rs:457-472, and src/context.rs:349-363, 370-384 *)
Definition post_comment_docs (c : comment) : list doc :=
  (if c_leading c then [txt [c_sp]]
   else if c_above c then [empty_new_line] else [nl])
  ++ [comment_doc c]
  ++ (if c_trailing c && negb (c_bracket c) then [txt [c_sp]] else []).
(* src/utility.rs:446-474 *)
Definition handle_post_comments (bk : bucket) : list doc :=
  match post bk with
  | [] => []
  | cs => [concat (flat_map post_comment_docs cs)]
  end.

(* ------------------------------------------------------------ punctuation *)

(* src/context.rs:287-309: the kind of punctuation is its text. *)
Inductive punct := Punct (comma : bool) (id : N).
Definition punct_new (n : node) : res punct :=
  if has_kind "," n then Ok (Punct true (n_id n))
  else if has_kind ";" n then Ok (Punct false (n_id n))
  else Panic "unknown node kind in Puncuation".

(* src/context.rs:311-328  Punctuation::from: the first following sibling that is
   not a comment, when it is punctuation. *)
Definition punct_from (l : loc) : option punct :=
  match peek (l_right l) with
  | Some s => if has_kind "," s then Some (Punct true (n_id s))
              else if has_kind ";" s then Some (Punct false (n_id s)) else None
  | None => None
  end.
(* src/context.rs:330-339  Punctuation::from_inner *)
Definition punct_from_inner (l : loc) : option punct :=
  match find is_punctuation_node (children (l_node l)) with
  | Some s => Some (Punct (has_kind "," s) (n_id s))
  | None => None
  end.

(* src/context.rs:342-403  Punctuation::build_inner: block comments before the
   sign, then line comments before it and all comments after it. *)
Definition punct_docs (comma : bool) (bk : bucket) : list doc :=
  flat_map post_comment_docs (filter (fun c => negb (c_line c)) (pre bk))
  ++ [txt (U (if comma then "," else ";"))]
  ++ flat_map post_comment_docs (filter c_line (pre bk) ++ post bk).

(* src/context.rs:16-46  NodeContext *)
Record context := { x_id : N; x_punc : option punct }.
Definition with_punctuation (l : loc) : context :=
  {| x_id := n_id (l_node l); x_punc := punct_from l |}.
Definition with_inner_punctuation (l : loc) : context :=
  {| x_id := n_id (l_node l); x_punc := punct_from_inner l |}.
Definition without_punctuation (l : loc) : context :=
  {| x_id := n_id (l_node l); x_punc := None |}.
