(* New.v: model of the `new` constructors and `build_inner` functions of
   src/data_model.rs and src/enum_def.rs.  Definitions only.

   For every syntax type T of afmt, [new_T l] reads the tree at [l] as T::new
   does (same children, same panics) and returns the builder calls T::build
   makes on the result (Term.v).  Recursive calls go through [rec], tied at the
   end on fuel: running out of fuel stands for Rust's stack overflow.

   Simplifications: the struct fields are not kept as a separate value (they are
   only read by the same type's build_inner); field initialisers run in the order
   written here, which can only change which of two panics is raised. *)
From Verif Require Import Base Doc DocBuilder Cst Comments Term.
Open Scope res_scope.
Local Open Scope string_scope.

(* ------------------------------------------------------------ builder calls *)

Definition t (s : string) : dt := TTxt (U s).                       (* b.txt *)
Definition t_ (s : string) : dt := TTxt (U s ++ [c_sp])%list.       (* b.txt_ *)
Definition _t (s : string) : dt := TTxt (c_sp :: U s)%list.         (* b._txt *)
Definition _t_ (s : string) : dt := TTxt (c_sp :: U s ++ [c_sp])%list. (* b._txt_ *)
Definition sp : dt := TTxt [c_sp].                                  (* b.txt(" ") *)
Definition tnil : dt := TTxt [].                                    (* b.nil() *)
Definition SL : dt := TLeaf LSoft.
Definition ML : dt := TLeaf LMaybe.
Definition NL : dt := TLeaf LNl.
Definition mk_ins (p : option leaf) (s : option string) (q : option leaf) : tins :=
  {| t_pre := p; t_str := option_map U s; t_suf := q |}.
Definition sepSL : tins := mk_ins None None (Some LSoft).
Definition sepML : tins := mk_ins None None (Some LMaybe).
Definition sepNL : tins := mk_ins None None (Some LNl).
Definition sepStr (s : string) : tins := mk_ins None (Some s) None.
Definition surr (l : list dt) (sep : tins) (o : string) (lf : leaf) (c : string) : dt :=
  TSurround l sep (mk_ins None (Some o) (Some lf)) (mk_ins (Some lf) (Some c) None).
(* group_surround with a soft line between elements *)
Definition gsur (o : string) (lf : leaf) (c : string) (l : list dt) : dt :=
  TGroup (surr l sepSL o lf c).
Definition gparen (l : list dt) : dt := gsur "(" LMaybe ")" l.
Definition gc (l : list dt) : dt := TGroup (TConcat l).              (* group_concat *)
Definition gic (l : list dt) : dt := TGroup (TIndent (TConcat l)).   (* group_indent_concat *)
Definition wrap (x : dt) : dt := TConcat [x].                        (* enum: result.push(n.build(b)) *)
Definition nodeP (l : loc) (body : list dt) : dt := TNode HPunc (with_punctuation l) body [].

(* src/utility.rs:482-492 *)
Definition assert_check (k : string) (l : loc) : res unit :=
  if is_kind k l then Ok tt else Panic "unexpected node kind in assert_check".
Definition unknown {A} (where_ : string) : res A := Panic ("unknown node in " ++ where_).

(* src/data_model.rs:5580-5605  ValueNode; 5607-5646 the two case variants. *)
Definition vn (l : loc) : dt := nodeP l [TTxt (value l)].
Definition vn_lower (l : loc) : dt := nodeP l [TTxt (to_lowercase (value l))].
Definition vn_upper (l : loc) : dt := nodeP l [TTxt (to_uppercase (value l))].

(* src/utility.rs:494-512 *)
Definition get_precedence (op : string) : res N :=
  if kind_in op ["="; "+="; "-="; "*="; "/="; "&="; "|="; "^="; "%="; "<<="; ">>="; ">>>="] then Ok 1%N
  else if kind_in op ["?"; ":"] then Ok 2%N
  else if kind_in op ["||"; "??"] then Ok 3%N
  else if kind_in op ["&&"] then Ok 5%N
  else if kind_in op ["|"] then Ok 6%N
  else if kind_in op ["^"] then Ok 7%N
  else if kind_in op ["&"] then Ok 8%N
  else if kind_in op ["=="; "!="; "==="; "!=="; "<>"] then Ok 9%N
  else if kind_in op [">"; "<"; ">="; "<="; "instanceof"] then Ok 10%N
  else if kind_in op ["<<"; ">>"; ">>>"] then Ok 11%N
  else if kind_in op ["+"; "-"] then Ok 12%N
  else if kind_in op ["*"; "/"; "%"] then Ok 13%N
  else if kind_in op ["!"; "~"; "++"; "--"] then Ok 14%N
  else Panic "Unknown operator".

(* src/utility.rs:549-590: [Some (is_parent_a_chaining_node, is_top_most_in_a_chain)]. *)
Definition chaining_kinds : list string :=
  ["method_invocation"; "array_access"; "field_access"; "query_expression"].
Definition build_chaining_context (l : loc) : res (option (bool * bool)) :=
  p <- must "node must have parent node in build_chaining_context()" (parent l) ;;
  let par := kind_in (kind p) chaining_kinds in
  let chl := match try_c_by_n "object" l with
             | Some o => kind_in (kind o) chaining_kinds
             | None => false
             end in
  Ok (if negb par && negb chl then None else Some (par, chl && negb par)).

(* The syntax types of afmt that are built recursively. *)
Inductive sort : Set :=
| Root | RootMember | ClassMember | ClassDeclaration | MethodDeclaration | FormalParameters
| FormalParameter | SuperClass | Modifiers | Modifier | Annotation | AnnotationArgumentList
| AnnotationKeyValue | ClassBody | FieldDeclaration | ArrayInitializer | AssignmentExpression
| AssignmentLeft | Block | Interface_ | TypeList | ObjectExpression | MethodInvocation
| TypeArguments | ArgumentList | BinaryExpression | LocalVariableDeclaration | VariableDeclarator
| GenericType | IfStatement | ParenthesizedExpression | ForInitOption | ForStatement
| EnhancedForStatement | UpdateExpression | ScopedTypeIdentifier | ConstructorDeclaration
| ConstructorBody | ConstructInvocation | TypeParameters | TypeParameter
| ObjectCreationExpression | RunAsStatement | DoStatement | WhileStatement | UnaryExpression
| FieldAccess | EnumDeclaration | EnumBody | EnumConstant | DmlExpression | DmlSecurityMode
| DmlType | ArrayAccess | ArrayCreationExpression | DimensionsExpr | ReturnStatement
| TernaryExpression | TryStatement | CatchClause | FinallyClause | StaticInitializer
| InterfaceDeclaration | ExtendsInterface | InterfaceBody | InterfaceMember
| ConstantDeclaration | AccessorList | AccessorDeclaration | CastExpression | ThrowStatement
| BreakStatement | ContinueStatement | SwitchExpression | SwitchBlock | SwitchRule | SwitchLabel
| WhenSObjectType | InstanceOfExpression | VersionExpression | JavaFieldAccess | JavaType
| ArrayType | TriggerDeclaration | TriggerEvent | TriggerBody | QueryExpression | SoslQueryBody
| FindClause | InClause | ReturningClause | SObjectReturn | SoqlQueryBody | FromClause
| StorageAlias | LimitClause | UpdateClause | BoundApexExpression | SoslUsingClause
| UsingClause | UsingScopeClause | UsingLookupClause | UsingLookupBindClause
| UsingLookupBindExpression | UsingListviewClause | WhereClause | HavingClause
| ComparisonExpression | ComparableList | OrderByClause | OrderExpression | SubQuery
| MapCreationExpression | MapInitializer | MapKeyInitializer | GroupByClause | SoslWithClause
| SoqlWithClause | SoqlWithType | SoslWithType | WithDataCatExpression | WithDataCatFilter
| WithDivisionExpression | WithSnippetExpression | WithNetworkExpression
| WithMetadataExpression | WithSpellCorrectionExpression | WithPriceBookExpression
| DottedIdentifier | ExpressionStatement | CountExpression | FunctionExpression
| FieldIdentifier | GeoLocationType | SelectClause | StorageIdentifier | AndExpression
| OrExpression | NotExpression | ForClause
| BooleanExpression (parent : option string) | ConditionExpression (parent : option string)
| UnannotatedType | SimpleType | VariableInitializer | Expression | PrimaryExpression
| ClassLiteral | Statement | Type_ | SelectableExpression | FieldsExpression | AliasExpression
| StorageVariant | LimitValue | ValueExpression | SoqlLiteral | SetValue
| ComparableListValue | OffsetClause.

Section New.
  Variable cm : cmap.           (* the thread's comment map *)
  Variable checked : bool.      (* overflow checks on (debug) or off (release) *)
  Variable rec : sort -> loc -> res dt.

  (* Reading children: the accessors of src/accessor.rs followed by T::new. *)
  Definition by_n (f : string) (s : sort) (l : loc) : res dt := c <- c_by_n f l ;; rec s c.
  Definition by_k (k : string) (s : sort) (l : loc) : res dt := c <- c_by_k k l ;; rec s c.
  Definition fst_c (s : sort) (l : loc) : res dt := c <- first_c l ;; rec s c.
  Definition opt_k (k : string) (s : sort) (l : loc) : res (list dt) :=
    match try_c_by_k k l with None => Ok [] | Some c => d <- rec s c ;; Ok [d] end.
  Definition opt_n (f : string) (s : sort) (l : loc) : res (list dt) :=
    match try_c_by_n f l with None => Ok [] | Some c => d <- rec s c ;; Ok [d] end.
  Definition all_k (k : string) (s : sort) (l : loc) : res (list dt) :=
    mapR (rec s) (try_cs_by_k k l).
  Definition all1_k (k : string) (s : sort) (l : loc) : res (list dt) :=
    cs <- cs_by_k k l ;; mapR (rec s) cs.
  Definition all1_n (f : string) (s : sort) (l : loc) : res (list dt) :=
    cs <- cs_by_n f l ;; mapR (rec s) cs.
  Definition all_c (s : sort) (l : loc) : res (list dt) := mapR (rec s) (children_vec l).
  Definition vn_n (f : string) (l : loc) : res dt := rmap vn (c_by_n f l).
  Definition vn_k (k : string) (l : loc) : res dt := rmap vn (c_by_k k l).
  Definition opt_vn_k (k : string) (l : loc) : list dt := opt_list vn (try_c_by_k k l).
  (* documents pushed around an optional member, only when it is there *)
  Definition before (x : dt) (l : list dt) : list dt := if is_nil l then [] else x :: l.
  Definition after (l : list dt) (x : dt) : list dt := if is_nil l then [] else l ++ [x].
  Definition wrap_r (r : res dt) : res dt := rmap wrap r.

  (* src/enum_def.rs:797-824  BodyMember::new and has_trailing_new_line.  The row
     subtraction underflows when the next sibling is on row 0: a panic with
     overflow checks, otherwise it wraps to the largest usize. *)
  Definition has_trailing_newline (l : loc) : res bool :=
    bk <- get_comment_bucket cm (n_id (l_node l)) ;;
    match rev (post bk) with
    | c :: _ => Ok (c_below c)
    | [] =>
        match find n_named (l_right l) with
        | None => Ok false
        | Some n =>
            if (n_srow n =? 0)%N
            then if checked then Panic "attempt to subtract with overflow" else Ok true
            else Ok (n_erow (l_node l) <? n_srow n - 1)%N
        end
    end.
  Definition body_member (s : sort) (l : loc) : res (dt * bool) :=
    d <- rec s l ;; tr <- has_trailing_newline l ;; Ok (d, tr).

  (* ---------------------------------------------------- src/data_model.rs *)

  (* src/data_model.rs:24-64 *)
  Definition new_Root (l : loc) : res dt :=
    _ <- assert_check "parser_output" l ;;
    ms <- mapR (body_member RootMember) (children_vec l) ;;
    Ok (TNode HRoot (with_punctuation l) [TMembers ms; NL] []).

  (* src/data_model.rs:67-132 *)
  Definition new_ClassDeclaration (l : loc) : res dt :=
    _ <- assert_check "class_declaration" l ;;
    mods <- opt_k "modifiers" Modifiers l ;;
    name <- vn_n "name" l ;;
    tps <- opt_k "type_parameters" TypeParameters l ;;
    sup <- opt_k "superclass" SuperClass l ;;
    ifs <- opt_k "interfaces" Interface_ l ;;
    body <- by_n "body" ClassBody l ;;
    Ok (nodeP l
      (mods ++
       [gic ([t_ "class"; name] ++ tps
             ++ (if is_nil sup && is_nil ifs then [] else [SL])
             ++ sup ++ (if is_nil sup || is_nil ifs then [] else [sp])
             ++ ifs ++ [sp]);
        body])).

  (* src/data_model.rs:135-179 *)
  Definition new_MethodDeclaration (l : loc) : res dt :=
    _ <- assert_check "method_declaration" l ;;
    mods <- opt_k "modifiers" Modifiers l ;;
    ty <- by_n "type" UnannotatedType l ;;
    name <- vn_n "name" l ;;
    ps <- by_n "parameters" FormalParameters l ;;
    body <- opt_n "body" Block l ;;
    Ok (nodeP l (mods ++ [ty; sp; name; ps] ++ before sp body)).

  (* src/data_model.rs:182-216 *)
  Definition new_FormalParameters (l : loc) : res dt :=
    _ <- assert_check "formal_parameters" l ;;
    ps <- all_k "formal_parameter" FormalParameter l ;;
    Ok (nodeP l [gparen ps]).

  (* src/data_model.rs:2688-2708 *)
  Definition new_Dimensions (l : loc) : res dt :=
    _ <- assert_check "dimensions" l ;; Ok (nodeP l [t "[]"]).
  Definition opt_dimensions_k (l : loc) : res (list dt) :=
    match try_c_by_k "dimensions" l with None => Ok [] | Some c => d <- new_Dimensions c ;; Ok [d] end.

  (* src/data_model.rs:219-256 *)
  Definition new_FormalParameter (l : loc) : res dt :=
    _ <- assert_check "formal_parameter" l ;;
    mods <- opt_k "modifiers" Modifiers l ;;
    ty <- by_n "type" UnannotatedType l ;;
    name <- vn_n "name" l ;;
    dims <- opt_dimensions_k l ;;
    Ok (nodeP l (mods ++ [ty; sp; name] ++ before sp dims)).

  (* src/data_model.rs:259-282 *)
  Definition new_SuperClass (l : loc) : res dt :=
    _ <- assert_check "superclass" l ;;
    ty <- fst_c Type_ l ;;
    Ok (nodeP l [t_ "extends"; ty]).

  (* src/data_model.rs:285-328: annotations before modifiers, no punctuation *)
  Definition new_Modifiers (l : loc) : res dt :=
    _ <- assert_check "modifiers" l ;;
    anns <- all_k "annotation" Annotation l ;;
    mods <- all_k "modifier" Modifier l ;;
    Ok (TNode HPlain (with_punctuation l)
          (anns ++ (if is_nil mods then [] else [TIntersperse mods (sepStr " "); sp])) []).

  (* src/enum_def.rs:480-572  ModifierKind: printed in normalised spelling *)
  Definition modifier_text (k : string) : res string :=
    if kind_in k ["abstract"; "final"; "global"; "override"; "private"; "protected"; "public";
                  "static"; "transient"; "virtual"] then Ok k
    else if String.eqb k "testMethod" then Ok "testMethod"
    else if String.eqb k "webservice" then Ok "webService"
    else if String.eqb k "with_sharing" then Ok "with sharing"
    else if String.eqb k "without_sharing" then Ok "without sharing"
    else if String.eqb k "inherited_sharing" then Ok "inherited sharing"
    else unknown "ModifierKind".

  (* src/data_model.rs:331-353 *)
  Definition new_Modifier (l : loc) : res dt :=
    _ <- assert_check "modifier" l ;;
    c <- first_c l ;;
    s <- modifier_text (kind c) ;;
    Ok (nodeP l [wrap (t s)]).

  (* src/data_model.rs:356-390 *)
  Definition new_Annotation (l : loc) : res dt :=
    _ <- assert_check "annotation" l ;;
    args <- opt_n "arguments" AnnotationArgumentList l ;;
    name <- vn_n "name" l ;;
    Ok (TNode HPunc (with_punctuation l) ([t "@"; name] ++ args) [NL]).

  (* src/enum_def.rs:746-793  no node context: comments of the list itself are not printed *)
  Definition new_AnnotationArgumentList (l : loc) : res dt :=
    if is_nil (named_kids l) then Ok (TConcat [])
    else
      kvs <- all_k "annotation_key_value" AnnotationKeyValue l ;;
      if is_nil kvs then v <- vn_n "value" l ;; Ok (TConcat [t "("; v; t ")"])
      else Ok (TConcat [gparen kvs]).

  (* src/data_model.rs:393-419 *)
  Definition new_AnnotationKeyValue (l : loc) : res dt :=
    _ <- assert_check "annotation_key_value" l ;;
    k <- vn_n "key" l ;;
    v <- vn_n "value" l ;;
    Ok (nodeP l [k; t "="; v]).

  (* src/data_model.rs:422-457 *)
  Definition new_ClassBody (l : loc) : res dt :=
    _ <- assert_check "class_body" l ;;
    ms <- mapR (body_member ClassMember) (children_vec l) ;;
    Ok (TNode HBracket (with_punctuation l) [TSurroundMembers ms (U "{") (U "}")] []).

  (* src/data_model.rs:506-513 *)
  Definition declarators_doc (ds : list dt) : dt :=
    match ds with
    | [d] => d
    | _ => TGroup (TIndent (TIntersperse ds sepSL))
    end.

  (* src/data_model.rs:460-521 *)
  Definition new_FieldDeclaration (l : loc) : res dt :=
    _ <- assert_check "field_declaration" l ;;
    mods <- opt_k "modifiers" Modifiers l ;;
    ds <- all1_n "declarator" VariableDeclarator l ;;
    acc <- opt_k "accessor_list" AccessorList l ;;
    ty <- by_n "type" UnannotatedType l ;;
    Ok (nodeP l (mods ++ [ty; sp; declarators_doc ds] ++ before sp acc)).

  (* src/data_model.rs:524-558 *)
  Definition new_ArrayInitializer (l : loc) : res dt :=
    _ <- assert_check "array_initializer" l ;;
    xs <- all_c VariableInitializer l ;;
    Ok (nodeP l [gsur "{" LSoft "}" xs]).

  (* src/data_model.rs:561-600 *)
  Definition new_AssignmentExpression (l : loc) : res dt :=
    _ <- assert_check "assignment_expression" l ;;
    rc <- c_by_n "right" l ;;
    left <- by_n "left" AssignmentLeft l ;;
    op <- vn_n "operator" l ;;
    right <- rec Expression rc ;;
    Ok (nodeP l
      [if is_kind "query_expression" rc
       then TConcat [left; sp; op; sp; right]
       else gic [left; sp; op; SL; right]]).

  (* src/data_model.rs:603-635 *)
  Definition new_AssignmentLeft (l : loc) : res dt :=
    if is_kind "identifier" l then Ok (wrap (vn l))
    else if is_kind "field_access" l then wrap_r (rec FieldAccess l)
    else if is_kind "array_access" l then wrap_r (rec ArrayAccess l)
    else unknown "AssignmentLeft".

  (* src/data_model.rs:637-657 *)
  Definition new_BoolType (l : loc) : res dt :=
    _ <- assert_check "boolean_type" l ;; Ok (nodeP l [t "boolean"]).

  (* src/data_model.rs:660-697 *)
  Definition new_Block (l : loc) : res dt :=
    _ <- assert_check "block" l ;;
    ms <- mapR (body_member Statement) (children_vec l) ;;
    Ok (TNode HBracket (with_punctuation l) [TSurroundMembers ms (U "{") (U "}")] []).

  (* src/data_model.rs:700-724 *)
  Definition new_Interface (l : loc) : res dt :=
    _ <- assert_check "interfaces" l ;;
    tl <- by_k "type_list" TypeList l ;;
    Ok (nodeP l [TConcat [t_ "implements"; tl]]).

  (* src/data_model.rs:727-758 *)
  Definition new_TypeList (l : loc) : res dt :=
    _ <- assert_check "type_list" l ;;
    ts <- all_c Type_ l ;;
    Ok (nodeP l [TIntersperse ts (sepStr " ")]).

  (* src/data_model.rs:1007-1027, 1030-1050 *)
  Definition new_Super (l : loc) : res dt :=
    _ <- assert_check "super" l ;; Ok (nodeP l [t "super"]).
  Definition new_This (l : loc) : res dt :=
    _ <- assert_check "this" l ;; Ok (nodeP l [t "this"]).

  (* src/data_model.rs:767-793 *)
  Definition new_ObjectExpression (l : loc) : res dt :=
    if is_kind "super" l then wrap_r (new_Super l)
    else wrap_r (rec PrimaryExpression l).

  (* src/data_model.rs:5675-5696  SafeNavigationOperator; src/enum_def.rs:727-743 *)
  Definition new_SafeNavigationOperator (l : loc) : res dt :=
    _ <- assert_check "safe_navigation_operator" l ;; Ok (nodeP l [t "?."]).
  Definition dot_navigation : dt := wrap (t ".").

  (* src/data_model.rs:796-862, 865-916 *)
  Definition new_MethodInvocation (l : loc) : res dt :=
    _ <- assert_check "method_invocation" l ;;
    name <- vn_n "name" l ;;
    args <- by_n "arguments" ArgumentList l ;;
    match try_c_by_n "object" l with
    | Some obj =>
        o <- rec ObjectExpression obj ;;
        nx <- next_named obj ;;
        nav <- (if is_kind "safe_navigation_operator" nx
                then wrap_r (new_SafeNavigationOperator nx) else Ok dot_navigation) ;;
        targs <- opt_k "type_arguments" TypeArguments l ;;
        ctx <- build_chaining_context l ;;
        Ok (nodeP l [wrap
          match ctx with
          | Some (par, top) =>
              let docs := ([o] ++ (if par || top then [ML] else []) ++ [nav] ++ targs ++ [name; args])%list in
              if top then gic docs else TConcat docs
          | None => TConcat ([o; nav] ++ targs ++ [name; args])
          end])
    | None => Ok (nodeP l [TConcat [name; args]])
    end.

  (* src/data_model.rs:938-969 *)
  Definition new_TypeArguments (l : loc) : res dt :=
    ts <- all_c Type_ l ;;
    Ok (nodeP l [TSurround ts (sepStr " ") (mk_ins None (Some "<") None) (mk_ins None (Some ">") None)]).

  (* src/data_model.rs:972-1004 *)
  Definition new_ArgumentList (l : loc) : res dt :=
    es <- all_c Expression l ;; Ok (nodeP l [gparen es]).

  (* src/data_model.rs:1060-1142 *)
  Definition new_BinaryExpression (l : loc) : res dt :=
    _ <- assert_check "binary_expression" l ;;
    left <- by_n "left" Expression l ;;
    opn <- c_by_n "operator" l ;;
    right <- by_n "right" Expression l ;;
    prec <- get_precedence (kind opn) ;;
    p <- must "BinaryExpression node should always have a parent" (parent l) ;;
    let inner := is_kind "binary_expression" p in
    same <- (if inner then po <- c_by_n "operator" p ;;
                           pp <- get_precedence (kind po) ;; Ok (prec =? pp)%N
             else Ok false) ;;
    let ret := is_kind "return_statement" p in
    let docs := [left; SL; t (kind opn); sp; right] in
    Ok (nodeP l [if (same : bool) then TConcat docs
                 else if negb inner && negb ret then gc docs
                 else gic docs]).

  (* src/data_model.rs:1145-1197: without_punctuation *)
  Definition new_LocalVariableDeclaration (l : loc) : res dt :=
    _ <- assert_check "local_variable_declaration" l ;;
    mods <- opt_k "modifiers" Modifiers l ;;
    ty <- by_n "type" UnannotatedType l ;;
    ds <- all1_n "declarator" VariableDeclarator l ;;
    Ok (TNode HPunc (without_punctuation l) (mods ++ [ty; sp; declarators_doc ds]) []).

  (* src/data_model.rs:1200-1258 *)
  Definition new_VariableDeclarator (l : loc) : res dt :=
    _ <- assert_check "variable_declarator" l ;;
    name <- vn_n "name" l ;;
    match try_c_by_n "value" l with
    | None => Ok (nodeP l [TConcat [name]])
    | Some v =>
        e <- rec Expression v ;;
        let head := ([name; sp] ++ opt_vn_k "assignment_operator" l)%list in
        Ok (nodeP l
          [if is_kind "query_expression" v then TConcat (head ++ [sp; wrap e])
           else gic (head ++ [SL; wrap e])])
    end.

  (* src/data_model.rs:1261-1294, 1297-1318 *)
  Definition new_GenericType (l : loc) : res dt :=
    _ <- assert_check "generic_type" l ;;
    base <- match try_c_by_k "type_identifier" l with
            | Some c => Ok (wrap (TTxt (value c)))
            | None => match try_c_by_k "scoped_type_identifier" l with
                      | Some c => wrap_r (rec ScopedTypeIdentifier c)
                      | None => unknown "GenericType"
                      end
            end ;;
    targs <- by_k "type_arguments" TypeArguments l ;;
    Ok (nodeP l [base; targs]).

  Definition is_semicolumn (l : loc) : bool := is_kind ";" l.

  (* src/data_model.rs:1322-1390 *)
  Definition new_IfStatement (l : loc) : res dt :=
    _ <- assert_check "if_statement" l ;;
    alt <- match try_c_by_n "alternative" l with
           | None => Ok None
           | Some a =>
               e <- must "a mandatory `else` node is missing" (find (is_kind "else") (kids l)) ;;
               s <- rec Statement a ;;
               Ok (Some (vn e, s, kind_in (kind a) ["if_statement"; "block"]))
           end ;;
    cond <- by_n "condition" ParenthesizedExpression l ;;
    cn <- c_by_n "consequence" l ;;
    cons <- rec Statement cn ;;
    let blk := is_kind "block" cn in
    Ok (nodeP l
      ([t "if "; cond]
       ++ (if blk then [sp; cons] else [TIndent NL; TIndent cons])
       ++ match alt with
          | None => []
          | Some (e, s, inline) =>
              (if blk then [sp; e; sp]
               else [NL; e; if (inline : bool) then sp else TIndent NL])
              ++ [s]
          end)).

  (* src/data_model.rs:1393-1421 *)
  Definition new_ParenthesizedExpression (l : loc) : res dt :=
    e <- fst_c Expression l ;;
    Ok (nodeP l [t "("; TGroup (TConcat [TIndent ML; TIndent e; ML]); t ")"]).

  (* src/data_model.rs:1424-1459 *)
  Definition new_ForInitOption (l : loc) : res dt :=
    if is_kind "local_variable_declaration" l then wrap_r (rec LocalVariableDeclaration l)
    else
      p <- must "node must have parent in ForInitOption" (parent l) ;;
      es <- all1_n "init" Expression p ;;
      Ok (TConcat [TGroup (TIntersperse es sepSL)]).

  (* src/data_model.rs:1462-1554 *)
  Definition next_semicolon (ps : list punct) : dt * list punct :=
    match ps with
    | p :: r => (TPunct p, r)
    | [] => (TPanic "called `Option::unwrap()` on a `None` value", [])
    end.
  Definition loop_body (bn : loc) (body : dt) : list dt :=
    if is_semicolumn bn then [t ";"] else [sp; body].
  Definition new_ForStatement (l : loc) : res dt :=
    _ <- assert_check "for_statement" l ;;
    init <- opt_n "init" ForInitOption l ;;
    cond <- opt_n "condition" Expression l ;;
    upd <- opt_n "update" Expression l ;;
    puncs <- mapR punct_new (filter (has_kind ";") (children (l_node l))) ;;
    if Nat.ltb (List.length puncs) ((if is_nil init then 1 else 0) + (if is_nil cond then 1 else 0))
    then Panic "## ForStatement missing semicolons."
    else
      bn <- c_by_n "body" l ;;
      body <- rec Statement bn ;;
      let (d1, ps1) := match init with i :: _ => (i, puncs) | [] => next_semicolon puncs end in
      let (d2, _) := match cond with c :: _ => (TConcat [sp; c], ps1) | [] => next_semicolon ps1 end in
      let d3 := match upd with u :: _ => TConcat [sp; u] | [] => tnil end in
      Ok (nodeP l ([t "for "; TGroup (surr [d1; d2; d3] sepML "(" LMaybe ")")] ++ loop_body bn body)).

  (* src/data_model.rs:1557-1603 *)
  Definition new_EnhancedForStatement (l : loc) : res dt :=
    _ <- assert_check "enhanced_for_statement" l ;;
    ty <- by_n "type" UnannotatedType l ;;
    name <- vn_n "name" l ;;
    v <- by_n "value" Expression l ;;
    bn <- c_by_n "body" l ;;
    body <- rec Statement bn ;;
    Ok (nodeP l ([t "for ("; ty; sp; name; _t_ ":"; v; t ")"] ++ loop_body bn body)).

  (* src/data_model.rs:1605-1650, 6022-6044 *)
  Definition new_UpdateExpression (l : loc) : res dt :=
    _ <- assert_check "update_expression" l ;;
    opn <- c_by_n "operator" l ;;
    on <- c_by_n "operand" l ;;
    o <- rec Expression on ;;
    let op := TTxt (value opn) in
    Ok (nodeP l [TConcat (if (n_sbyte (l_node opn) <? n_sbyte (l_node on))%N then [op; o] else [o; op])]).

  (* src/data_model.rs:1653-1729 *)
  Definition new_ScopedTypeIdentifier (l : loc) : res dt :=
    _ <- assert_check "scoped_type_identifier" l ;;
    p <- first_c l ;;
    choice <- (if is_kind "type_identifier" p then Ok (wrap (TTxt (value p)))
               else if is_kind "scoped_type_identifier" p then wrap_r (rec ScopedTypeIdentifier p)
               else if is_kind "generic_type" p then wrap_r (rec GenericType p)
               else unknown "ScopedTypeIdentifier") ;;
    anns <- all_k "annotation" Annotation l ;;
    tis <- cs_by_k "type_identifier" l ;;
    ti <- must "## mandatory node type_identifier missing" (hd_error (rev tis)) ;;
    Ok (nodeP l ([choice; t "."]
                 ++ (if is_nil anns then [] else [TIntersperse anns (sepStr " "); sp])
                 ++ [TTxt (value ti)])).

  (* src/data_model.rs:1732-1775 *)
  Definition new_ConstructorDeclaration (l : loc) : res dt :=
    mods <- opt_k "modifiers" Modifiers l ;;
    tps <- opt_k "type_parameters" TypeParameters l ;;
    name <- vn_n "name" l ;;
    ps <- by_n "parameters" FormalParameters l ;;
    body <- by_n "body" ConstructorBody l ;;
    Ok (nodeP l (mods ++ tps ++ [name; ps; sp; body])).

  (* src/data_model.rs:1778-1838: comments after the body are not printed *)
  Definition new_ConstructorBody (l : loc) : res dt :=
    let cs := children_vec l in
    let is_inv (c : loc) := is_kind "explicit_constructor_invocation" c in
    inv <- match cs with
           | c :: _ => if is_inv c then rmap Some (body_member ConstructInvocation c) else Ok None
           | [] => Ok None
           end ;;
    stmts <- mapR (body_member Statement)
               (match cs with
                | c :: r => if is_inv c then r else cs
                | [] => []
                end) ;;
    let body :=
      match inv, stmts with
      | None, [] => [TConcat [t "{"; NL; t "}"]]
      | _, _ =>
          ([t "{"]
           ++ match inv with
              | Some (d, tr) =>
                  TIndent (TConcat [NL; d])
                  :: (if is_nil stmts then [] else [if (tr : bool) then TEmptyLine else TIndent NL])
              | None => [TIndent NL]
              end
           ++ [TIndent (TMembers stmts); NL; t "}"])%list
      end in
    Ok (TNode HBracketNoPost (with_punctuation l) body []).

  (* src/data_model.rs:1841-1908 *)
  Definition new_ConstructInvocation (l : loc) : res dt :=
    obj <- opt_n "object" PrimaryExpression l ;;
    targs <- opt_k "type_arguments" TypeArguments l ;;
    ctor <- match try_c_by_n "constructor" l with
            | None => Ok []
            | Some c => if is_kind "this" c then Ok [wrap (t "this")]
                        else if is_kind "super" c then Ok [wrap (t "super")]
                        else unknown "Constructor"
            end ;;
    args <- by_n "arguments" ArgumentList l ;;
    Ok (nodeP l (obj ++ targs ++ ctor ++ [args])).

  (* src/data_model.rs:1911-1945 *)
  Definition new_TypeParameters (l : loc) : res dt :=
    _ <- assert_check "type_parameters" l ;;
    ps <- all1_k "type_parameter" TypeParameter l ;;
    Ok (nodeP l [gsur "<" LMaybe ">" ps]).

  (* src/data_model.rs:1948-1982 *)
  Definition new_TypeParameter (l : loc) : res dt :=
    anns <- all_k "annotation" Annotation l ;;
    ti <- cvalue_by_k "type_identifier" l ;;
    Ok (nodeP l ((if is_nil anns then [] else [TIntersperse anns (sepStr " "); sp]) ++ [TTxt ti])).

  (* src/data_model.rs:1985-2029 *)
  Definition new_ObjectCreationExpression (l : loc) : res dt :=
    _ <- assert_check "object_creation_expression" l ;;
    targs <- opt_k "type_arguments" TypeArguments l ;;
    cb <- opt_k "class_body" ClassBody l ;;
    ty <- by_n "type" UnannotatedType l ;;
    args <- by_n "arguments" ArgumentList l ;;
    Ok (nodeP l ([t "new"] ++ targs ++ [sp; ty; args] ++ cb)).

  (* src/data_model.rs:2032-2059 *)
  Definition new_RunAsStatement (l : loc) : res dt :=
    _ <- assert_check "run_as_statement" l ;;
    user <- by_n "user" ParenthesizedExpression l ;;
    blk <- by_k "block" Block l ;;
    Ok (nodeP l [t "System.runAs"; user; sp; blk]).

  (* src/data_model.rs:2062-2090 *)
  Definition new_DoStatement (l : loc) : res dt :=
    _ <- assert_check "do_statement" l ;;
    body <- by_n "body" Block l ;;
    cond <- by_n "condition" ParenthesizedExpression l ;;
    Ok (nodeP l [t_ "do"; body; _t_ "while"; cond]).

  (* src/data_model.rs:2093-2126: no punctuation; a lone `;` body is left to the
     condition's own punctuation *)
  Definition new_WhileStatement (l : loc) : res dt :=
    _ <- assert_check "while_statement" l ;;
    cond <- by_n "condition" ParenthesizedExpression l ;;
    bn <- c_by_n "body" l ;;
    body <- rec Statement bn ;;
    Ok (TNode HPlain (with_punctuation l)
          ([t_ "while"; cond] ++ (if is_semicolumn bn then [] else [sp; body])) []).

  (* src/data_model.rs:2129-2155 *)
  Definition new_UnaryExpression (l : loc) : res dt :=
    _ <- assert_check "unary_expression" l ;;
    op <- cvalue_by_n "operator" l ;;
    e <- by_n "operand" Expression l ;;
    Ok (nodeP l [TTxt op; e]).

  (* src/data_model.rs:2158-2252 (with MethodObject 919-935, FieldOption 2227-2252) *)
  Definition new_FieldAccess (l : loc) : res dt :=
    _ <- assert_check "field_access" l ;;
    on <- c_by_n "object" l ;;
    o <- (if is_kind "super" on then wrap_r (new_Super on) else wrap_r (rec PrimaryExpression on)) ;;
    nav <- match try_c_by_k "safe_navigation_operator" l with
           | Some n => wrap_r (new_SafeNavigationOperator n)
           | None => Ok dot_navigation
           end ;;
    fn <- c_by_n "field" l ;;
    f <- (if is_kind "this" fn then wrap_r (new_This fn) else Ok (wrap (vn fn))) ;;
    ctx <- build_chaining_context l ;;
    Ok (nodeP l
      [match ctx with
       | Some (par, top) =>
           let docs := ([o] ++ (if par || top then [ML] else []) ++ [nav; f])%list in
           if top then gic docs else TConcat docs
       | None => TConcat [o; nav; f]
       end]).

  (* src/data_model.rs:2255-2294 *)
  Definition new_EnumDeclaration (l : loc) : res dt :=
    mods <- opt_k "modifiers" Modifiers l ;;
    ifs <- opt_k "interfaces" Interface_ l ;;
    name <- vn_n "name" l ;;
    body <- by_n "body" EnumBody l ;;
    Ok (nodeP l (mods ++ [t_ "enum"; name; sp] ++ ifs ++ [body])).

  (* src/data_model.rs:2297-2341 *)
  Definition new_EnumBody (l : loc) : res dt :=
    _ <- assert_check "enum_body" l ;;
    cs <- all_k "enum_constant" EnumConstant l ;;
    Ok (if is_nil cs
        then TNode HBracketNoPost (with_punctuation l) [TConcat [t "{"; NL; t "}"]] []
        else TNode HBracket (with_punctuation l) [TGroup (surr cs sepNL "{" LNl "}")] []).

  (* src/data_model.rs:2344-2372 *)
  Definition new_EnumConstant (l : loc) : res dt :=
    mods <- opt_k "modifiers" Modifiers l ;;
    name <- vn_n "name" l ;;
    Ok (nodeP l (mods ++ [name])).

  (* src/data_model.rs:2494-2518 *)
  Definition new_DmlSecurityMode (l : loc) : res dt :=
    c <- first_c l ;;
    if kind_in (kind c) ["user"; "system"] then Ok (TConcat [t_ "as"; TTxt (value c)])
    else unknown "DmlSecurityMode".

  (* src/data_model.rs:2521-2557, 6072-6094 *)
  Definition new_DmlType (l : loc) : res dt :=
    _ <- assert_check "dml_type" l ;;
    c <- first_c l ;;
    if kind_in (kind c) ["insert"; "update"; "delete"; "undelete"; "merge"; "upsert"]
    then Ok (nodeP l [wrap (t (kind c))])
    else unknown "DmlTypeVariant".

  (* src/data_model.rs:2375-2491, 6047-6069 *)
  Definition new_DmlExpression (l : loc) : res dt :=
    _ <- assert_check "dml_expression" l ;;
    sec <- opt_k "dml_security_mode" DmlSecurityMode l ;;
    target <- by_n "target" Expression l ;;
    tn <- c_by_k "dml_type" l ;;
    ty <- rec DmlType tn ;;
    v <- first_c tn ;;
    docs <- (if is_kind "merge" v then
               w <- by_n "merge_with" Expression l ;;
               Ok ([ty; sp] ++ after sec sp ++ [TGroup (TIndent (TIntersperse [target; w] sepSL))])%list
             else if is_kind "upsert" v then
               u <- opt_n "upsert_key" UnannotatedType l ;;
               Ok [ty; sp; TGroup (TIndent (TIntersperse (sec ++ [target] ++ u) sepSL))]
             else Ok ([ty; sp] ++ after sec sp ++ [target])%list) ;;
    Ok (nodeP l [TConcat (docs ++ [tnil])]).

  (* src/data_model.rs:2560-2587 *)
  Definition new_ArrayAccess (l : loc) : res dt :=
    _ <- assert_check "array_access" l ;;
    a <- by_n "array" PrimaryExpression l ;;
    i <- by_n "index" Expression l ;;
    Ok (nodeP l [a; t "["; i; t "]"]).

  (* src/data_model.rs:2590-2685 *)
  Definition new_ArrayCreationExpression (l : loc) : res dt :=
    _ <- assert_check "array_creation_expression" l ;;
    variant <- match try_c_by_n "value" l, try_c_by_n "dimensions" l with
               | None, _ =>
                   es <- all1_k "dimensions_expr" DimensionsExpr l ;;
                   d <- opt_dimensions_k l ;;
                   Ok (es ++ before sp d)%list
               | Some v, None => x <- rec ArrayInitializer v ;; Ok [x]
               | Some v, Some dn => x <- rec ArrayInitializer v ;; d <- new_Dimensions dn ;; Ok [d; x]
               end ;;
    ty <- by_n "type" SimpleType l ;;
    Ok (nodeP l [t_ "new"; ty; TConcat variant]).

  (* src/data_model.rs:2711-2735 *)
  Definition new_DimensionsExpr (l : loc) : res dt :=
    _ <- assert_check "dimensions_expr" l ;;
    e <- fst_c Expression l ;;
    Ok (nodeP l [t "["; e; t "]"]).

  (* src/data_model.rs:2738-2772 *)
  Definition new_ReturnStatement (l : loc) : res dt :=
    _ <- assert_check "return_statement" l ;;
    match try_first_c l with
    | None => Ok (TNode HAttached (with_inner_punctuation l) [t "return"] [])
    | Some c => e <- rec Expression c ;; Ok (nodeP l [t "return"; sp; e])
    end.

  (* src/data_model.rs:2775-2810 *)
  Definition new_TernaryExpression (l : loc) : res dt :=
    _ <- assert_check "ternary_expression" l ;;
    c <- by_n "condition" Expression l ;;
    a <- by_n "consequence" Expression l ;;
    e <- by_n "alternative" Expression l ;;
    Ok (nodeP l [gc [c; SL; t_ "?"; a; SL; t_ ":"; e]]).

  (* src/data_model.rs:2813-2879 *)
  Definition new_TryStatement (l : loc) : res dt :=
    _ <- assert_check "try_statement" l ;;
    tail <- match try_c_by_k "finally_clause" l with
            | Some fc =>
                cs <- all_k "catch_clause" CatchClause l ;;
                f <- rec FinallyClause fc ;;
                Ok [TConcat cs; f]
            | None => cs <- all1_k "catch_clause" CatchClause l ;; Ok [TConcat cs]
            end ;;
    body <- by_n "body" Block l ;;
    Ok (nodeP l [t_ "try"; body; TConcat tail]).

  (* src/data_model.rs:2882-2911 *)
  Definition new_CatchClause (l : loc) : res dt :=
    _ <- assert_check "catch_clause" l ;;
    p <- by_k "formal_parameter" FormalParameter l ;;
    body <- by_n "body" Block l ;;
    Ok (nodeP l [_t_ "catch"; t "("; p; t_ ")"; body]).

  (* src/data_model.rs:2914-2937 *)
  Definition new_FinallyClause (l : loc) : res dt :=
    _ <- assert_check "finally_clause" l ;;
    body <- by_k "block" Block l ;;
    Ok (nodeP l [_t_ "finally"; body]).

  (* src/data_model.rs:2940-2961 *)
  Definition new_StaticInitializer (l : loc) : res dt :=
    body <- by_k "block" Block l ;;
    Ok (nodeP l [t_ "static"; body]).

  (* src/data_model.rs:2964-3017 *)
  Definition new_InterfaceDeclaration (l : loc) : res dt :=
    _ <- assert_check "interface_declaration" l ;;
    mods <- opt_k "modifiers" Modifiers l ;;
    tps <- opt_k "type_parameters" TypeParameters l ;;
    ext <- opt_k "extends_interfaces" ExtendsInterface l ;;
    name <- vn_n "name" l ;;
    body <- by_n "body" InterfaceBody l ;;
    Ok (nodeP l (mods ++ [t_ "interface"; name] ++ tps ++ ext ++ [sp; body])).

  (* src/data_model.rs:3020-3042 *)
  Definition new_ExtendsInterface (l : loc) : res dt :=
    tl <- by_k "type_list" TypeList l ;;
    Ok (nodeP l [TConcat [_t_ "extends"; tl]]).

  (* src/data_model.rs:3045-3094 *)
  Definition new_InterfaceBody (l : loc) : res dt :=
    _ <- assert_check "interface_body" l ;;
    ms <- mapR (body_member InterfaceMember) (children_vec l) ;;
    Ok (TNode HBracket (with_punctuation l) [TSurroundMembers ms (U "{") (U "}")] []).
  (* src/data_model.rs:3058-3069, 3097-3126 *)
  Definition new_InterfaceMember (l : loc) : res dt :=
    if is_kind "constant_declaration" l then wrap_r (rec ConstantDeclaration l)
    else if is_kind "enum_declaration" l then wrap_r (rec EnumDeclaration l)
    else if is_kind "method_declaration" l then wrap_r (rec MethodDeclaration l)
    else if is_kind "class_declaration" l then wrap_r (rec ClassDeclaration l)
    else if is_kind "interface_declaration" l then wrap_r (rec InterfaceDeclaration l)
    else unknown "InterfaceBody".

  (* src/data_model.rs:3129-3170 *)
  Definition new_ConstantDeclaration (l : loc) : res dt :=
    mods <- opt_k "modifiers" Modifiers l ;;
    ds <- all1_n "declarator" VariableDeclarator l ;;
    ty <- by_n "type" UnannotatedType l ;;
    Ok (nodeP l (mods ++ [ty; sp; TGroup (TIntersperse ds sepSL)])).

  (* src/data_model.rs:3173-3225 *)
  Definition new_AccessorList (l : loc) : res dt :=
    _ <- assert_check "accessor_list" l ;;
    ns <- cs_by_k "accessor_declaration" l ;;
    ds <- mapR (rec AccessorDeclaration) ns ;;
    let has_body := existsb (fun n => match try_c_by_n "body" n with Some _ => true | None => false end) ns in
    Ok (nodeP l
      [if has_body
       then TConcat [t "{"; TIndent NL; TIndent (TIntersperse ds sepNL); NL; t "}"]
       else gsur "{" LSoft "}" ds]).

  (* src/data_model.rs:3228-3262 *)
  Definition new_AccessorDeclaration (l : loc) : res dt :=
    _ <- assert_check "accessor_declaration" l ;;
    mods <- opt_k "modifiers" Modifiers l ;;
    a <- cvalue_by_n "accessor" l ;;
    body <- opt_n "body" Block l ;;
    Ok (TNode HPunc (with_inner_punctuation l) (mods ++ [TTxt a] ++ before sp body) []).

  (* src/data_model.rs:3265-3292 *)
  Definition new_CastExpression (l : loc) : res dt :=
    _ <- assert_check "cast_expression" l ;;
    ty <- by_n "type" Type_ l ;;
    v <- by_n "value" Expression l ;;
    Ok (nodeP l [t "("; ty; t_ ")"; v]).

  (* src/data_model.rs:3295-3318 *)
  Definition new_ThrowStatement (l : loc) : res dt :=
    _ <- assert_check "throw_statement" l ;;
    e <- fst_c Expression l ;;
    Ok (nodeP l [t "throw "; e]).

  (* src/data_model.rs:3321-3359 *)
  Definition new_BreakStatement (l : loc) : res dt :=
    _ <- assert_check "break_statement" l ;;
    match try_c_by_k "identifier" l with
    | None => Ok (TNode HAttached (with_inner_punctuation l) [t "break"] [])
    | Some c => Ok (nodeP l [t "break"; sp; vn c])
    end.
  (* src/data_model.rs:3362-3400 *)
  Definition new_ContinueStatement (l : loc) : res dt :=
    _ <- assert_check "continue_statement" l ;;
    match try_c_by_k "identifier" l with
    | None => Ok (TNode HAttached (with_inner_punctuation l) [t "continue"] [])
    | Some c => Ok (nodeP l [t "continue"; sp; vn c])
    end.

  (* src/data_model.rs:3403-3431 *)
  Definition new_SwitchExpression (l : loc) : res dt :=
    _ <- assert_check "switch_expression" l ;;
    c <- by_n "condition" Expression l ;;
    body <- by_n "body" SwitchBlock l ;;
    Ok (nodeP l [gic [t "switch on"; SL; c]; sp; body]).

  (* src/data_model.rs:3434-3468 *)
  Definition new_SwitchBlock (l : loc) : res dt :=
    _ <- assert_check "switch_block" l ;;
    rs <- all1_k "switch_rule" SwitchRule l ;;
    Ok (nodeP l [surr rs (mk_ins None (Some "") (Some LNl)) "{" LNl "}"]).

  (* src/data_model.rs:3471-3497 *)
  Definition new_SwitchRule (l : loc) : res dt :=
    _ <- assert_check "switch_rule" l ;;
    lb <- by_k "switch_label" SwitchLabel l ;;
    blk <- by_k "block" Block l ;;
    Ok (nodeP l [lb; sp; blk]).

  (* src/data_model.rs:3500-3543: no node context, comments of the label itself are not printed *)
  Definition new_SwitchLabel (l : loc) : res dt :=
    _ <- assert_check "switch_label" l ;;
    if is_nil (children_vec l) then Ok (TConcat [t_ "when"; t "else"])
    else match try_c_by_k "when_sobject_type" l with
         | Some w => d <- rec WhenSObjectType w ;; Ok (TConcat [t_ "when"; d])
         | None =>
             es <- all_c Expression l ;;
             Ok (TConcat [t_ "when"; TGroup (TIndent (TIntersperse es sepSL))])
         end.

  (* src/data_model.rs:3546-3585 *)
  Definition new_WhenSObjectType (l : loc) : res dt :=
    let cs := children_vec l in
    tys <- mapR (rec UnannotatedType) (filter (fun c => negb (is_kind "identifier" c)) cs) ;;
    ty <- must "Missing unannotated_type in WhenSObjectType" (hd_error (rev tys)) ;;
    idn <- must "Missing identifier in WhenSObjectType" (hd_error (rev (filter (is_kind "identifier") cs))) ;;
    Ok (nodeP l [ty; sp; TTxt (value idn)]).

  (* src/data_model.rs:3588-3614 *)
  Definition new_InstanceOfExpression (l : loc) : res dt :=
    _ <- assert_check "instanceof_expression" l ;;
    e <- by_n "left" Expression l ;;
    ty <- by_n "right" Type_ l ;;
    Ok (nodeP l [e; _t_ "instanceof"; ty]).

  (* src/data_model.rs:3617-3645 *)
  Definition new_VersionExpression (l : loc) : res dt :=
    _ <- assert_check "version_expression" l ;;
    Ok (nodeP l [t "Package.Version.";
                 match try_c_by_n "version_num" l with Some n => vn n | None => t "Request" end]).

  (* src/data_model.rs:3648-3671 *)
  Definition new_JavaFieldAccess (l : loc) : res dt :=
    _ <- assert_check "java_field_access" l ;;
    f <- by_k "field_access" FieldAccess l ;;
    Ok (nodeP l [t "java:"; f]).

  (* src/data_model.rs:3674-3698 *)
  Definition new_JavaType (l : loc) : res dt :=
    s <- by_k "scoped_type_identifier" ScopedTypeIdentifier l ;;
    Ok (nodeP l [t "java:"; s]).

  (* src/data_model.rs:3701-3726 *)
  Definition new_ArrayType (l : loc) : res dt :=
    _ <- assert_check "array_type" l ;;
    e <- by_n "element" UnannotatedType l ;;
    dn <- c_by_n "dimensions" l ;;
    d <- new_Dimensions dn ;;
    Ok (nodeP l [e; d]).

  (* src/data_model.rs:3729-3776 *)
  Definition new_TriggerDeclaration (l : loc) : res dt :=
    _ <- assert_check "trigger_declaration" l ;;
    evs <- all1_k "trigger_event" TriggerEvent l ;;
    name <- vn_n "name" l ;;
    obj <- vn_n "object" l ;;
    body <- by_n "body" TriggerBody l ;;
    Ok (nodeP l [t_ "trigger"; name; _t_ "on"; obj; gparen evs; sp; body]).

  (* src/enum_def.rs:827-878  TriggerEventVariant *)
  Definition trigger_event_text (k : string) : res string :=
    if String.eqb k "before_insert" then Ok "before insert"
    else if String.eqb k "before_update" then Ok "before update"
    else if String.eqb k "before_delete" then Ok "before delete"
    else if String.eqb k "after_insert" then Ok "after insert"
    else if String.eqb k "after_update" then Ok "after update"
    else if String.eqb k "after_delete" then Ok "after delete"
    else if String.eqb k "after_undelete" then Ok "after undelete"
    else unknown "TriggerEvent".

  (* src/data_model.rs:3779-3801 *)
  Definition new_TriggerEvent (l : loc) : res dt :=
    _ <- assert_check "trigger_event" l ;;
    c <- first_c l ;;
    s <- trigger_event_text (kind c) ;;
    Ok (nodeP l [wrap (t s)]).

  (* src/data_model.rs:3804-3826 *)
  Definition new_TriggerBody (l : loc) : res dt :=
    _ <- assert_check "trigger_body" l ;;
    blk <- by_k "block" Block l ;;
    Ok (nodeP l [blk]).

  (* src/data_model.rs:3829-3899 *)
  Definition new_QueryExpression (l : loc) : res dt :=
    _ <- assert_check "query_expression" l ;;
    body <- match try_c_by_k "soql_query_body" l with
            | Some c => wrap_r (rec SoqlQueryBody c)
            | None => c <- c_by_k "sosl_query_body" l ;; wrap_r (rec SoslQueryBody c)
            end ;;
    ctx <- build_chaining_context l ;;
    Ok (nodeP l
      [match ctx with
       | Some _ => gc [t "["; ML; TIntersperse [body] sepSL; TDedent ML; t "]"]
       | None => gsur "[" LMaybe "]" [body]
       end]).

  (* src/data_model.rs:3902-3982 *)
  Definition new_SoslQueryBody (l : loc) : res dt :=
    _ <- assert_check "sosl_query_body" l ;;
    find_ <- by_k "find_clause" FindClause l ;;
    in_ <- opt_k "in_clause" InClause l ;;
    ret <- opt_k "returning_clause" ReturningClause l ;;
    withs <- all_k "with_clause" SoslWithClause l ;;
    usin <- opt_k "sosl_using_clause" SoslUsingClause l ;;
    lim <- opt_k "limit_clause" LimitClause l ;;
    upd <- opt_k "update_clause" UpdateClause l ;;
    Ok (nodeP l [TIntersperse
      ([find_] ++ in_ ++ ret ++ (if is_nil withs then [] else [TIntersperse withs sepSL])
       ++ usin ++ lim ++ upd) sepSL]).

  (* src/data_model.rs:3985-4014: no node context *)
  Definition new_FindClause (l : loc) : res dt :=
    _ <- assert_check "find_clause" l ;;
    match try_c_by_k "bound_apex_expression" l with
    | Some c => d <- rec BoundApexExpression c ;; Ok (TConcat [t_ "FIND"; d])
    | None => v <- cvalue_by_k "term" l ;; Ok (TConcat [t_ "FIND"; TTxt (U "'" ++ v ++ U "'")%list])
    end.

  (* src/data_model.rs:4017-4042 *)
  Definition new_InClause (l : loc) : res dt :=
    _ <- assert_check "in_clause" l ;;
    ty <- vn_k "in_type" l ;;
    Ok (nodeP l [t_ "IN"; ty; sp; t "FIELDS"]).

  (* src/data_model.rs:4045-4075 *)
  Definition new_ReturningClause (l : loc) : res dt :=
    rs <- all1_k "sobject_return" SObjectReturn l ;;
    Ok (nodeP l [t "RETURNING"; TGroup (TIndent (TConcat [SL; TIntersperse rs sepSL]))]).

  (* src/data_model.rs:4081-4129, and SObjectReturnQuery 4132-4175 *)
  Definition new_SObjectReturn (l : loc) : res dt :=
    _ <- assert_check "sobject_return" l ;;
    q <- match try_c_by_k "selected_fields" l with
         | None => Ok []
         | Some sf =>
             fs <- all_c SelectableExpression sf ;;
             usin <- opt_k "using_clause" UsingClause l ;;
             wh <- opt_k "where_clause" WhereClause l ;;
             ord <- opt_k "order_by_clause" OrderByClause l ;;
             lim <- opt_k "limit_clause" LimitClause l ;;
             off <- opt_k "offset_clause" OffsetClause l ;;
             Ok [nodeP sf
               [TGroup (TSurround ([TIntersperse fs sepSL] ++ usin ++ wh ++ ord ++ lim ++ off) sepSL
                  (mk_ins None (Some "(") (Some LMaybe)) (mk_ins None (Some ")") None))]]
         end ;;
    idn <- vn_k "identifier" l ;;
    Ok (nodeP l ([idn] ++ q)).

  (* src/data_model.rs:5999-6019 *)
  Definition new_AllRowsClause (l : loc) : res dt :=
    _ <- assert_check "all_rows_clause" l ;; Ok (nodeP l [t "ALL ROWS"]).

  (* src/data_model.rs:4178-4280 *)
  Definition new_SoqlQueryBody (l : loc) : res dt :=
    _ <- assert_check "soql_query_body" l ;;
    wh <- opt_n "where_clause" WhereClause l ;;
    wi <- opt_n "with_clause" SoqlWithClause l ;;
    gb <- opt_n "group_by_clause" GroupByClause l ;;
    ob <- opt_n "order_by_clause" OrderByClause l ;;
    lim <- opt_n "limit_clause" LimitClause l ;;
    off <- opt_n "offset_clause" OffsetClause l ;;
    ar <- match try_c_by_n "all_rows_clause" l with
          | None => Ok [] | Some c => d <- new_AllRowsClause c ;; Ok [d] end ;;
    fors <- all_k "for_clause" ForClause l ;;
    sel <- by_n "select_clause" SelectClause l ;;
    frm <- by_n "from_clause" FromClause l ;;
    Ok (nodeP l [TIntersperse
      ([sel; frm] ++ wh ++ wi ++ gb ++ ob ++ lim ++ off ++ ar
       ++ (if is_nil fors then [] else [TConcat [t_ "FOR"; TIntersperse fors (sepStr " ")]])) sepSL]).

  (* src/data_model.rs:4283-4306 *)
  Definition new_FromClause (l : loc) : res dt :=
    _ <- assert_check "from_clause" l ;;
    s <- fst_c StorageVariant l ;;
    Ok (nodeP l [t_ "FROM"; s]).

  (* src/data_model.rs:4309-4335 *)
  Definition new_StorageAlias (l : loc) : res dt :=
    _ <- assert_check "storage_alias" l ;;
    s <- by_k "storage_identifier" StorageIdentifier l ;;
    i <- vn_k "identifier" l ;;
    Ok (nodeP l [s; sp; i]).

  (* src/data_model.rs:4338-4361 *)
  Definition new_LimitClause (l : loc) : res dt :=
    _ <- assert_check "limit_clause" l ;;
    v <- fst_c LimitValue l ;;
    Ok (nodeP l [t_ "LIMIT"; v]).

  (* src/data_model.rs:4364-4395 *)
  Definition new_UpdateClause (l : loc) : res dt :=
    us <- cs_by_k "update_type" l ;;
    Ok (nodeP l [t_ "UPDATE"; TIntersperse (map vn us) (sepStr " ")]).

  (* src/data_model.rs:4398-4421 *)
  Definition new_BoundApexExpression (l : loc) : res dt :=
    _ <- assert_check "bound_apex_expression" l ;;
    e <- fst_c Expression l ;;
    Ok (nodeP l [t ":"; e]).

  (* src/data_model.rs:4424-4476 *)
  Definition new_SoslUsingClause (l : loc) : res dt :=
    _ <- assert_check "sosl_using_clause" l ;;
    c <- first_c l ;;
    s <- (if is_kind "using_phrase_search" c then Ok "PHRASE SEARCH"
          else if is_kind "using_advanced_search" c then Ok "ADVANCED SEARCH"
          else unknown "UsingSearch") ;;
    Ok (nodeP l [t_ "USING"; wrap (t s)]).

  (* src/data_model.rs:4479-4536 *)
  Definition new_UsingClause (l : loc) : res dt :=
    _ <- assert_check "using_clause" l ;;
    c <- first_c l ;;
    d <- (if is_kind "using_scope_clause" c then rec UsingScopeClause c
          else if is_kind "using_lookup_clause" c then rec UsingLookupClause c
          else if is_kind "using_listview_clause" c then rec UsingListviewClause c
          else unknown "UsingClauseOption") ;;
    Ok (nodeP l [t_ "USING"; wrap d]).

  (* src/data_model.rs:4539-4562 *)
  Definition new_UsingScopeClause (l : loc) : res dt :=
    _ <- assert_check "using_scope_clause" l ;;
    v <- vn_k "using_scope_type" l ;;
    Ok (nodeP l [t_ "SCOPE"; v]).

  (* src/data_model.rs:4565-4599 *)
  Definition new_UsingLookupClause (l : loc) : res dt :=
    _ <- assert_check "using_lookup_clause" l ;;
    f <- by_n "using_lookup_clause" DottedIdentifier l ;;
    bd <- opt_k "using_lookup_bind_clause" UsingLookupBindClause l ;;
    Ok (nodeP l ([t_ "LOOKUP"; f; sp] ++ bd)).

  (* src/data_model.rs:4602-4625 *)
  Definition new_UsingListviewClause (l : loc) : res dt :=
    _ <- assert_check "using_listview_clause" l ;;
    i <- vn_k "identifier" l ;;
    Ok (nodeP l [t_ "ListView ="; i]).

  (* src/data_model.rs:4628-4662 *)
  Definition new_UsingLookupBindClause (l : loc) : res dt :=
    _ <- assert_check "using_lookup_bind_clause" l ;;
    es <- all_k "using_lookup_bind_expression" UsingLookupBindExpression l ;;
    Ok (nodeP l [t_ "BIND"; TIntersperse es (sepStr " ")]).

  (* src/data_model.rs:4665-4691 *)
  Definition new_UsingLookupBindExpression (l : loc) : res dt :=
    _ <- assert_check "using_lookup_bind_expression" l ;;
    f <- vn_k "field" l ;;
    v <- by_n "bound_value" SoqlLiteral l ;;
    Ok (nodeP l [f; _t_ "="; v]).

  (* src/data_model.rs:4694-4721 *)
  Definition new_WhereClause (l : loc) : res dt :=
    _ <- assert_check "where_clause" l ;;
    e <- fst_c (BooleanExpression None) l ;;
    Ok (nodeP l [gic [t "WHERE"; SL; e]]).

  (* src/data_model.rs:5098-5125 *)
  Definition new_HavingClause (l : loc) : res dt :=
    _ <- assert_check "having_clause" l ;;
    e <- fst_c (BooleanExpression None) l ;;
    Ok (nodeP l [gic [t "HAVING"; SL; e]]).

  (* src/utility.rs:524-547 with src/enum_def.rs:1344-1380, src/data_model.rs:4752-4775:
     the operator is printed as plain text, its own comments are not *)
  Definition get_comparsion (l : loc) : res dt :=
    match try_c_by_k "value_comparison_operator" l with
    | Some op =>
        nx <- next_named op ;;
        v <- (if is_kind "bound_apex_expression" nx then rec BoundApexExpression nx
              else rec SoqlLiteral nx) ;;
        Ok (wrap (TConcat [TTxt (c_sp :: value op ++ [c_sp])%list; wrap v]))
    | None =>
        match try_c_by_k "set_comparison_operator" l with
        | Some op =>
            nx <- next_named op ;;
            v <- rec SetValue nx ;;
            Ok (wrap (TConcat [TTxt (c_sp :: value op ++ [c_sp])%list; v]))
        | None => Panic "internal error: entered unreachable code"
        end
    end.

  (* src/data_model.rs:4724-4749 *)
  Definition new_ComparisonExpression (l : loc) : res dt :=
    _ <- assert_check "comparison_expression" l ;;
    v <- fst_c ValueExpression l ;;
    c <- get_comparsion l ;;
    Ok (nodeP l [v; c]).

  (* src/data_model.rs:4778-4810 *)
  Definition new_ComparableList (l : loc) : res dt :=
    vs <- all_c ComparableListValue l ;; Ok (nodeP l [gparen vs]).

  (* src/data_model.rs:4813-4846 *)
  Definition new_OrderByClause (l : loc) : res dt :=
    _ <- assert_check "order_by_clause" l ;;
    es <- all1_k "order_expression" OrderExpression l ;;
    Ok (nodeP l [t_ "ORDER BY"; TIntersperse es (sepStr " ")]).

  (* src/data_model.rs:4849-4891 *)
  Definition new_OrderExpression (l : loc) : res dt :=
    _ <- assert_check "order_expression" l ;;
    v <- fst_c ValueExpression l ;;
    Ok (nodeP l ([v] ++ before sp (opt_vn_k "order_direction" l)
                     ++ before sp (opt_vn_k "order_null_direction" l))).

  (* src/data_model.rs:4894-4920 *)
  Definition new_SubQuery (l : loc) : res dt :=
    q <- by_k "soql_query_body" SoqlQueryBody l ;; Ok (nodeP l [gparen [q]]).

  (* src/data_model.rs:4923-4949 *)
  Definition new_MapCreationExpression (l : loc) : res dt :=
    _ <- assert_check "map_creation_expression" l ;;
    ty <- by_n "type" SimpleType l ;;
    v <- by_n "value" MapInitializer l ;;
    Ok (nodeP l [t_ "new"; ty; v]).

  (* src/data_model.rs:4952-4986 *)
  Definition new_MapInitializer (l : loc) : res dt :=
    _ <- assert_check "map_initializer" l ;;
    xs <- all_c MapKeyInitializer l ;;
    Ok (nodeP l [gsur "{" LSoft "}" xs]).

  (* src/data_model.rs:4989-5020 *)
  Definition new_MapKeyInitializer (l : loc) : res dt :=
    _ <- assert_check "map_key_initializer" l ;;
    match children_vec l with
    | [a; b] => x <- rec Expression a ;; y <- rec Expression b ;; Ok (nodeP l [x; _t_ "=>"; y])
    | _ => Panic "### must be exactly 2 child nodes in MapKeyInitializer"
    end.

  (* src/data_model.rs:5023-5095: [inl] an expression, [inr] the having clause (the last one wins) *)
  Definition group_by_item (c : loc) : res (dt + dt) :=
    if is_kind "field_identifier" c then d <- rec FieldIdentifier c ;; Ok (inl (wrap d))
    else if is_kind "function_expression" c then d <- rec FunctionExpression c ;; Ok (inl (wrap d))
    else if is_kind "having_clause" c then d <- rec HavingClause c ;; Ok (inr d)
    else unknown "GroupByClause".
  Definition lefts (l : list (dt + dt)) : list dt :=
    flat_map (fun x => match x with inl d => [d] | inr _ => [] end) l.
  Definition rights (l : list (dt + dt)) : list dt :=
    flat_map (fun x => match x with inl _ => [] | inr d => [d] end) l.
  Definition new_GroupByClause (l : loc) : res dt :=
    _ <- assert_check "group_by_clause" l ;;
    items <- mapR group_by_item (children_vec l) ;;
    Ok (nodeP l ([t_ "GROUP BY"; TIntersperse (lefts items) (sepStr " ")]
                 ++ match rev (rights items) with h :: _ => [SL; h] | [] => [] end)).

  (* src/data_model.rs:5128-5151 *)
  Definition new_SoslWithClause (l : loc) : res dt :=
    _ <- assert_check "with_clause" l ;;
    ty <- by_k "with_type" SoslWithType l ;;
    Ok (nodeP l [gc [t_ "WITH"; ty]]).

  (* src/data_model.rs:5154-5177 *)
  Definition new_SoqlWithClause (l : loc) : res dt :=
    _ <- assert_check "with_clause" l ;;
    ty <- by_k "with_type" SoqlWithType l ;;
    Ok (nodeP l [t_ "WITH"; ty]).

  (* src/data_model.rs:5180-5214, 5949-5971: the plain variant wraps the same node twice *)
  Definition new_SoqlWithType (l : loc) : res dt :=
    _ <- assert_check "with_type" l ;;
    v <- (if is_nil (named_kids l) then Ok (wrap (vn l))
          else
            c <- first_c l ;;
            if is_kind "with_user_id_type" c
            then s <- vn_k "string_literal" c ;; Ok (TConcat [t_ "UserId ="; s])
            else unknown "WithType") ;;
    Ok (nodeP l [v]).

  (* src/data_model.rs:5217-5278: no node context *)
  Definition new_SoslWithType (l : loc) : res dt :=
    _ <- assert_check "with_type" l ;;
    c <- first_c l ;;
    if is_kind "with_data_cat_expression" c then wrap_r (rec WithDataCatExpression c)
    else if is_kind "with_division_expression" c then wrap_r (rec WithDivisionExpression c)
    else if is_kind "with_snippet_expression" c then wrap_r (rec WithSnippetExpression c)
    else if is_kind "with_network_expression" c then wrap_r (rec WithNetworkExpression c)
    else if is_kind "with_metadata_expression" c then wrap_r (rec WithMetadataExpression c)
    else if is_kind "with_spell_correction_expression" c then wrap_r (rec WithSpellCorrectionExpression c)
    else if is_kind "with_highlight" c then Ok (wrap (t "HIGHLIGHT"))
    else if is_kind "with_pricebook_expression" c then wrap_r (rec WithPriceBookExpression c)
    else unknown "SoslWithType".

  (* src/data_model.rs:5281-5315 *)
  Definition new_WithDataCatExpression (l : loc) : res dt :=
    _ <- assert_check "with_data_cat_expression" l ;;
    fs <- all1_k "with_data_cat_filter" WithDataCatFilter l ;;
    Ok (nodeP l [t "DATA CATEGORY"; TIndent SL;
                 TIndent (TIntersperse fs (mk_ins (Some LSoft) (Some "AND ") None))]).

  (* src/data_model.rs:5318-5371 *)
  Definition new_WithDataCatFilter (l : loc) : res dt :=
    _ <- assert_check "with_data_cat_filter" l ;;
    ids <- cs_by_k "identifier" l ;;
    match ids with
    | a :: b :: r =>
        ft <- rmap vn_upper (c_by_k "with_data_cat_filter_type" l) ;;
        Ok (nodeP l [vn a; sp; ft; sp;
                     match r with [] => vn b | _ => gparen (map vn (b :: r)) end])
    | _ => Panic "At least 2 identifier nodes should exist in WithDataCatFilter"
    end.

  (* src/data_model.rs:5374-5404: no node context *)
  Definition new_WithDivisionExpression (l : loc) : res dt :=
    _ <- assert_check "with_division_expression" l ;;
    c <- first_c l ;;
    if is_kind "bound_apex_expression" c
    then d <- rec BoundApexExpression c ;; Ok (TConcat [t "DIVISION = "; d])
    else if is_kind "string_literal" c then Ok (TConcat [t "DIVISION = "; TTxt (value c)])
    else unknown "WithDivisionExpression".

  (* src/data_model.rs:5407-5437 *)
  Definition new_WithSnippetExpression (l : loc) : res dt :=
    _ <- assert_check "with_snippet_expression" l ;;
    Ok (nodeP l (t "SNIPPET" :: after (before (t "(TARGET_LENGTH = ") (opt_vn_k "int" l)) (t ")"))).

  (* src/data_model.rs:5440-5463 *)
  Definition new_WithNetworkExpression (l : loc) : res dt :=
    _ <- assert_check "with_network_expression" l ;;
    c <- get_comparsion l ;; Ok (nodeP l [t "NETWORK"; c]).

  (* src/data_model.rs:5466-5489 *)
  Definition new_WithMetadataExpression (l : loc) : res dt :=
    _ <- assert_check "with_metadata_expression" l ;;
    s <- vn_k "string_literal" l ;; Ok (nodeP l [t "METADATA = "; s]).

  (* src/data_model.rs:5492-5515 *)
  Definition new_WithSpellCorrectionExpression (l : loc) : res dt :=
    _ <- assert_check "with_spell_correction_expression" l ;;
    s <- vn_k "boolean" l ;; Ok (nodeP l [t "SPELL_CORRECTION = "; s]).

  (* src/data_model.rs:5518-5541 *)
  Definition new_WithPriceBookExpression (l : loc) : res dt :=
    _ <- assert_check "with_pricebook_expression" l ;;
    s <- vn_k "string_literal" l ;; Ok (nodeP l [t_ "PriceBookId ="; s]).

  (* src/data_model.rs:5544-5574 *)
  Definition new_DottedIdentifier (l : loc) : res dt :=
    _ <- assert_check "dotted_identifier" l ;;
    is_ <- cs_by_k "identifier" l ;;
    Ok (nodeP l [TIntersperse (map vn is_) (sepStr ".")]).

  (* src/data_model.rs:5649-5671 *)
  Definition new_ExpressionStatement (l : loc) : res dt :=
    _ <- assert_check "expression_statement" l ;;
    e <- fst_c Expression l ;; Ok (nodeP l [e]).

  (* src/data_model.rs:5697-5720 *)
  Definition new_CountExpression (l : loc) : res dt :=
    _ <- assert_check "count_expression" l ;;
    f <- vn_n "function_name" l ;; Ok (nodeP l [f; t "()"]).

  (* src/data_model.rs:5723-5745, src/enum_def.rs:1566-1651 *)
  Definition new_FunctionExpression (l : loc) : res dt :=
    _ <- assert_check "function_expression" l ;;
    f <- vn_n "function_name" l ;;
    v <- (match try_c_by_k "geo_location_type" l with
          | Some _ =>
              fld <- opt_k "field_identifier" FieldIdentifier l ;;
              bnd <- opt_k "bound_apex_expression" BoundApexExpression l ;;
              geo <- by_k "geo_location_type" GeoLocationType l ;;
              s <- vn_k "string_literal" l ;;
              Ok (TConcat ([f; t "("] ++ fld ++ bnd ++ [sp; geo; sp; s; t ")"]))
          | None =>
              vs <- mapR (rec ValueExpression) (tl (children_vec l)) ;;
              Ok (TConcat [f; gparen vs])
          end) ;;
    Ok (nodeP l [v]).

  (* src/data_model.rs:5748-5770, src/enum_def.rs:1026-1055 *)
  Definition new_FieldIdentifier (l : loc) : res dt :=
    _ <- assert_check "field_identifier" l ;;
    c <- first_c l ;;
    v <- (if is_kind "identifier" c then Ok (wrap (vn c))
          else if is_kind "dotted_identifier" c then wrap_r (rec DottedIdentifier c)
          else unknown "FieldIdentifier") ;;
    Ok (nodeP l [v]).

  (* src/data_model.rs:5773-5795, src/enum_def.rs:1281-1341 *)
  Definition new_GeoLocationType (l : loc) : res dt :=
    _ <- assert_check "geo_location_type" l ;;
    c <- first_c l ;;
    v <- (if is_kind "field_identifier" c then wrap_r (rec FieldIdentifier c)
          else if is_kind "bound_apex_expression" c then wrap_r (rec BoundApexExpression c)
          else if is_kind "identifier" c then
            ds <- cs_by_k "decimal" l ;;
            match ds with
            | [d1; d2] => Ok (TConcat [vn c; t "("; vn d1; sp; vn d2; t ")"])
            | _ => Panic "expect 2 decimal nodes in GeoLocationType"
            end
          else unknown "GeoLocationType") ;;
    Ok (nodeP l [v]).

  (* src/data_model.rs:5798-5820, src/enum_def.rs:881-924 *)
  Definition new_SelectClause (l : loc) : res dt :=
    _ <- assert_check "select_clause" l ;;
    v <- (match try_c_by_k "count_expression" l with
          | Some c => d <- rec CountExpression c ;; Ok [d]
          | None => ds <- all_c SelectableExpression l ;; Ok [TIndent (TIntersperse ds sepSL)]
          end) ;;
    Ok (nodeP l [wrap (gc ([t "SELECT"; TIndent SL] ++ v))]).

  (* src/data_model.rs:5823-5845, src/enum_def.rs:1087-1124 *)
  Definition new_StorageIdentifier (l : loc) : res dt :=
    _ <- assert_check "storage_identifier" l ;;
    c <- first_c l ;;
    v <- (if is_kind "identifier" c then Ok (wrap (vn c))
          else if is_kind "dotted_identifier" c then
            ids <- cs_by_k "identifier" c ;;
            Ok (wrap (TIntersperse (map vn ids) (sepStr ".")))
          else unknown "StorageIdentifier") ;;
    Ok (nodeP l [v]).

  (* src/data_model.rs:5848-5882 *)
  Definition new_AndExpression (l : loc) : res dt :=
    _ <- assert_check "and_expression" l ;;
    cs <- all_c (ConditionExpression (Some "AND")) l ;;
    Ok (nodeP l [TIntersperse cs (mk_ins (Some LSoft) (Some "AND ") None)]).

  (* src/data_model.rs:5885-5919 *)
  Definition new_OrExpression (l : loc) : res dt :=
    _ <- assert_check "or_expression" l ;;
    cs <- all_c (ConditionExpression (Some "OR")) l ;;
    Ok (nodeP l [TIntersperse cs (mk_ins (Some LSoft) (Some "OR ") None)]).

  (* src/data_model.rs:5922-5946 *)
  Definition new_NotExpression (l : loc) : res dt :=
    _ <- assert_check "not_expression" l ;;
    c <- fst_c (ConditionExpression (Some "NOT")) l ;;
    Ok (nodeP l [TConcat [t_ "NOT"; c]]).

  (* src/data_model.rs:5974-5996 *)
  Definition new_ForClause (l : loc) : res dt :=
    _ <- assert_check "for_clause" l ;;
    v <- vn_k "for_type" l ;; Ok (nodeP l [v]).

  (* ---------------------------------------------------- src/enum_def.rs *)

  (* src/enum_def.rs:1156-1201.  [operator] reads the variant, which the kind of
     the node decides. *)
  Definition bool_operator (l : loc) : option string :=
    if is_kind "and_expression" l then Some "AND"
    else if is_kind "or_expression" l then Some "OR"
    else if is_kind "not_expression" l then Some "NOT"
    else None.
  Definition new_BooleanExpression (parent_op : option string) (l : loc) : res dt :=
    if is_kind "and_expression" l then rec AndExpression l
    else if is_kind "or_expression" l then rec OrExpression l
    else if is_kind "not_expression" l then rec NotExpression l
    else rec (ConditionExpression parent_op) l.

  (* src/enum_def.rs:1204-1249 *)
  Definition should_parenthesize (p c : option string) : bool :=
    match p, c with Some x, Some y => negb (String.eqb x y) | _, _ => true end.
  Definition new_ConditionExpression (parent_op : option string) (l : loc) : res dt :=
    if is_kind "comparison_expression" l then rec ComparisonExpression l
    else
      let child_op := bool_operator l in
      d <- rec (BooleanExpression child_op) l ;;
      Ok (if should_parenthesize parent_op child_op then TConcat [t "("; d; t ")"] else d).

  (* src/enum_def.rs:12-48 *)
  Definition new_RootMember (l : loc) : res dt :=
    if is_kind "class_declaration" l then wrap_r (rec ClassDeclaration l)
    else if is_kind "enum_declaration" l then wrap_r (rec EnumDeclaration l)
    else if is_kind "trigger_declaration" l then wrap_r (rec TriggerDeclaration l)
    else if is_kind "interface_declaration" l then wrap_r (rec InterfaceDeclaration l)
    else unknown "Root".

  (* src/enum_def.rs:51-108 *)
  Definition new_ClassMember (l : loc) : res dt :=
    if is_kind "field_declaration" l then wrap_r (rec FieldDeclaration l)
    else if is_kind "class_declaration" l then wrap_r (rec ClassDeclaration l)
    else if is_kind "method_declaration" l then wrap_r (rec MethodDeclaration l)
    else if is_kind "interface_declaration" l then wrap_r (rec InterfaceDeclaration l)
    else if is_kind "block" l then wrap_r (rec Block l)
    else if is_kind "constructor_declaration" l then wrap_r (rec ConstructorDeclaration l)
    else if is_kind "enum_declaration" l then wrap_r (rec EnumDeclaration l)
    else if is_kind "static_initializer" l then wrap_r (rec StaticInitializer l)
    else unknown "ClassMember".

  (* src/enum_def.rs:111-138 *)
  Definition new_UnannotatedType (l : loc) : res dt :=
    if kind_in (kind l) ["type_identifier"; "void_type"; "boolean_type"; "generic_type";
                         "java_type"; "scoped_type_identifier"]
    then wrap_r (rec SimpleType l)
    else if is_kind "array_type" l then wrap_r (rec ArrayType l)
    else unknown "UnnanotatedType".

  (* src/enum_def.rs:141-187 *)
  Definition new_SimpleType (l : loc) : res dt :=
    if is_kind "type_identifier" l then Ok (wrap (vn l))
    else if is_kind "void_type" l then Ok (wrap (vn l))
    else if is_kind "boolean_type" l then wrap_r (new_BoolType l)
    else if is_kind "java_type" l then wrap_r (rec JavaType l)
    else if is_kind "generic_type" l then wrap_r (rec GenericType l)
    else if is_kind "scoped_type_identifier" l then wrap_r (rec ScopedTypeIdentifier l)
    else unknown "SimpleType".

  (* src/enum_def.rs:190-215 *)
  Definition new_VariableInitializer (l : loc) : res dt :=
    if is_kind "array_initializer" l then wrap_r (rec ArrayInitializer l)
    else wrap_r (rec Expression l).

  (* src/enum_def.rs:218-296 *)
  Definition new_Expression (l : loc) : res dt :=
    if is_kind "assignment_expression" l then wrap_r (rec AssignmentExpression l)
    else if is_kind "binary_expression" l then wrap_r (rec BinaryExpression l)
    else if kind_in (kind l)
      ["int"; "decimal_floating_point_literal"; "query_expression"; "boolean"; "identifier";
       "null_literal"; "class_literal"; "method_invocation"; "parenthesized_expression";
       "object_creation_expression"; "map_creation_expression"; "array_access"; "field_access";
       "string_literal"; "version_expression"; "java_field_access"; "this";
       "array_creation_expression"]
    then wrap_r (rec PrimaryExpression l)
    else if is_kind "update_expression" l then wrap_r (rec UpdateExpression l)
    else if is_kind "unary_expression" l then wrap_r (rec UnaryExpression l)
    else if is_kind "dml_expression" l then wrap_r (rec DmlExpression l)
    else if is_kind "ternary_expression" l then wrap_r (rec TernaryExpression l)
    else if is_kind "cast_expression" l then wrap_r (rec CastExpression l)
    else if is_kind "instanceof_expression" l then wrap_r (rec InstanceOfExpression l)
    else unknown "Expression".

  (* src/enum_def.rs:436-477 *)
  Definition new_Literal_ (l : loc) : res dt :=
    if is_kind "boolean" l then Ok (wrap (vn_lower l))
    else if is_kind "null_literal" l then Ok (wrap (vn_lower l))
    else if is_kind "int" l then Ok (wrap (vn l))
    else if is_kind "string_literal" l then Ok (wrap (vn l))
    else if is_kind "decimal_floating_point_literal" l then Ok (wrap (vn_lower l))
    else unknown "Literal_".

  (* src/enum_def.rs:317-407 *)
  Definition new_PrimaryExpression (l : loc) : res dt :=
    if kind_in (kind l) ["int"; "decimal_floating_point_literal"; "boolean"; "null_literal"; "string_literal"]
    then wrap_r (new_Literal_ l)
    else if is_kind "identifier" l then Ok (wrap (vn l))
    else if is_kind "class_literal" l then wrap_r (rec ClassLiteral l)
    else if is_kind "method_invocation" l then wrap_r (rec MethodInvocation l)
    else if is_kind "parenthesized_expression" l then wrap_r (rec ParenthesizedExpression l)
    else if is_kind "object_creation_expression" l then wrap_r (rec ObjectCreationExpression l)
    else if is_kind "map_creation_expression" l then wrap_r (rec MapCreationExpression l)
    else if is_kind "field_access" l then wrap_r (rec FieldAccess l)
    else if is_kind "array_access" l then wrap_r (rec ArrayAccess l)
    else if is_kind "array_creation_expression" l then wrap_r (rec ArrayCreationExpression l)
    else if is_kind "version_expression" l then wrap_r (rec VersionExpression l)
    else if is_kind "query_expression" l then wrap_r (rec QueryExpression l)
    else if is_kind "java_field_access" l then wrap_r (rec JavaFieldAccess l)
    else if is_kind "this" l then wrap_r (new_This l)
    else unknown "PrimaryExpression".

  (* src/enum_def.rs:410-433 *)
  Definition new_ClassLiteral (l : loc) : res dt :=
    _ <- assert_check "class_literal" l ;;
    ty <- fst_c UnannotatedType l ;; Ok (nodeP l [ty; t ".class"]).

  (* src/enum_def.rs:595-694 *)
  Definition new_Statement (l : loc) : res dt :=
    if is_kind "if_statement" l then wrap_r (rec IfStatement l)
    else if is_kind "expression_statement" l then wrap_r (rec ExpressionStatement l)
    else if is_kind "local_variable_declaration" l then wrap_r (rec LocalVariableDeclaration l)
    else if is_kind "block" l then wrap_r (rec Block l)
    else if is_kind "for_statement" l then wrap_r (rec ForStatement l)
    else if is_kind "enhanced_for_statement" l then wrap_r (rec EnhancedForStatement l)
    else if is_kind "run_as_statement" l then wrap_r (rec RunAsStatement l)
    else if is_kind "do_statement" l then wrap_r (rec DoStatement l)
    else if is_kind "while_statement" l then wrap_r (rec WhileStatement l)
    else if is_kind "return_statement" l then wrap_r (rec ReturnStatement l)
    else if is_kind "try_statement" l then wrap_r (rec TryStatement l)
    else if is_kind "throw_statement" l then wrap_r (rec ThrowStatement l)
    else if is_kind "break_statement" l then wrap_r (rec BreakStatement l)
    else if is_kind "continue_statement" l then wrap_r (rec ContinueStatement l)
    else if is_kind "switch_expression" l then wrap_r (rec SwitchExpression l)
    else if is_kind ";" l then Ok (wrap (t ";"))
    else unknown "Statement".

  (* src/enum_def.rs:697-724: builds UnannotatedType::Simple / ::Array itself *)
  Definition new_Type (l : loc) : res dt :=
    if kind_in (kind l) ["type_identifier"; "void_type"; "boolean_type"; "generic_type";
                         "scoped_type_identifier"; "java_type"]
    then wrap_r (wrap_r (rec SimpleType l))
    else if is_kind "array_type" l then wrap_r (wrap_r (rec ArrayType l))
    else unknown "Type".

  (* src/enum_def.rs:1252-1278 *)
  Definition new_ValueExpression (l : loc) : res dt :=
    if is_kind "field_identifier" l then wrap_r (rec FieldIdentifier l)
    else if is_kind "function_expression" l then wrap_r (rec FunctionExpression l)
    else unknown "ValueExpression".

  (* src/enum_def.rs:927-967 *)
  Definition new_SelectableExpression (l : loc) : res dt :=
    if is_kind "field_identifier" l then wrap_r (wrap_r (rec FieldIdentifier l))
    else if is_kind "function_expression" l then wrap_r (wrap_r (rec FunctionExpression l))
    else if is_kind "alias_expression" l then wrap_r (rec AliasExpression l)
    else if is_kind "fields_expression" l then wrap_r (rec FieldsExpression l)
    else if is_kind "subquery" l then wrap_r (rec SubQuery l)
    else unknown "SelectableExpression".

  (* src/enum_def.rs:970-994 *)
  Definition new_FieldsExpression (l : loc) : res dt :=
    _ <- assert_check "fields_expression" l ;;
    v <- rmap vn_upper (c_by_k "fields_type" l) ;;
    Ok (nodeP l [t "FIELDS("; v; t ")"]).

  (* src/enum_def.rs:997-1023 *)
  Definition new_AliasExpression (l : loc) : res dt :=
    _ <- assert_check "alias_expression" l ;;
    v <- fst_c ValueExpression l ;;
    i <- vn_k "identifier" l ;;
    Ok (nodeP l [v; sp; i]).

  (* src/enum_def.rs:1058-1084 *)
  Definition new_StorageVariant (l : loc) : res dt :=
    if is_kind "storage_alias" l then wrap_r (rec StorageAlias l)
    else if is_kind "storage_identifier" l then wrap_r (rec StorageIdentifier l)
    else unknown "StorageVariant".

  (* src/enum_def.rs:1127-1153 *)
  Definition new_LimitValue (l : loc) : res dt :=
    if is_kind "int" l then Ok (wrap (vn l))
    else if is_kind "bound_apex_expression" l then wrap_r (rec BoundApexExpression l)
    else unknown "LimitValue".

  (* src/enum_def.rs:1443-1467 *)
  Definition new_DateLiteralWithParam (l : loc) : res dt :=
    _ <- assert_check "date_literal_with_param" l ;;
    d <- cvalue_by_k "date_literal" l ;;
    p <- cvalue_by_k "int" l ;;
    Ok (nodeP l [TTxt (to_uppercase d ++ U ":" ++ p)%list]).

  (* src/enum_def.rs:1382-1440 *)
  Definition new_SoqlLiteral (l : loc) : res dt :=
    if kind_in (kind l) ["decimal"; "int"; "string_literal"; "boolean"; "date"; "date_literal"; "null_literal"]
    then Ok (wrap (vn l))
    else if is_kind "date_literal_with_param" l then wrap_r (new_DateLiteralWithParam l)
    else unknown "SoqlLiteral".

  (* src/enum_def.rs:1470-1501 *)
  Definition new_SetValue (l : loc) : res dt :=
    if is_kind "subquery" l then wrap_r (rec SubQuery l)
    else if is_kind "comparable_list" l then wrap_r (rec ComparableList l)
    else if is_kind "bound_apex_expression" l then wrap_r (rec BoundApexExpression l)
    else unknown "SetValue".

  (* src/enum_def.rs:1504-1529 *)
  Definition new_ComparableListValue (l : loc) : res dt :=
    if is_kind "bound_apex_expression" l then wrap_r (rec BoundApexExpression l)
    else wrap_r (rec SoqlLiteral l).

  (* src/enum_def.rs:1532-1563: no node context *)
  Definition new_OffsetClause (l : loc) : res dt :=
    _ <- assert_check "offset_clause" l ;;
    c <- first_c l ;;
    if is_kind "int" c then Ok (TConcat [t_ "OFFSET"; vn c])
    else if is_kind "bound_apex_expression" c
    then d <- rec BoundApexExpression c ;; Ok (TConcat [t_ "OFFSET"; d])
    else unknown "OffsetClause".

  (* The call T::new(node) of each syntax type. *)
  Definition new_step (s : sort) (l : loc) : res dt :=
    match s with
    | Root => new_Root l
    | RootMember => new_RootMember l
    | ClassMember => new_ClassMember l
    | ClassDeclaration => new_ClassDeclaration l
    | MethodDeclaration => new_MethodDeclaration l
    | FormalParameters => new_FormalParameters l
    | FormalParameter => new_FormalParameter l
    | SuperClass => new_SuperClass l
    | Modifiers => new_Modifiers l
    | Modifier => new_Modifier l
    | Annotation => new_Annotation l
    | AnnotationArgumentList => new_AnnotationArgumentList l
    | AnnotationKeyValue => new_AnnotationKeyValue l
    | ClassBody => new_ClassBody l
    | FieldDeclaration => new_FieldDeclaration l
    | ArrayInitializer => new_ArrayInitializer l
    | AssignmentExpression => new_AssignmentExpression l
    | AssignmentLeft => new_AssignmentLeft l
    | Block => new_Block l
    | Interface_ => new_Interface l
    | TypeList => new_TypeList l
    | ObjectExpression => new_ObjectExpression l
    | MethodInvocation => new_MethodInvocation l
    | TypeArguments => new_TypeArguments l
    | ArgumentList => new_ArgumentList l
    | BinaryExpression => new_BinaryExpression l
    | LocalVariableDeclaration => new_LocalVariableDeclaration l
    | VariableDeclarator => new_VariableDeclarator l
    | GenericType => new_GenericType l
    | IfStatement => new_IfStatement l
    | ParenthesizedExpression => new_ParenthesizedExpression l
    | ForInitOption => new_ForInitOption l
    | ForStatement => new_ForStatement l
    | EnhancedForStatement => new_EnhancedForStatement l
    | UpdateExpression => new_UpdateExpression l
    | ScopedTypeIdentifier => new_ScopedTypeIdentifier l
    | ConstructorDeclaration => new_ConstructorDeclaration l
    | ConstructorBody => new_ConstructorBody l
    | ConstructInvocation => new_ConstructInvocation l
    | TypeParameters => new_TypeParameters l
    | TypeParameter => new_TypeParameter l
    | ObjectCreationExpression => new_ObjectCreationExpression l
    | RunAsStatement => new_RunAsStatement l
    | DoStatement => new_DoStatement l
    | WhileStatement => new_WhileStatement l
    | UnaryExpression => new_UnaryExpression l
    | FieldAccess => new_FieldAccess l
    | EnumDeclaration => new_EnumDeclaration l
    | EnumBody => new_EnumBody l
    | EnumConstant => new_EnumConstant l
    | DmlExpression => new_DmlExpression l
    | DmlSecurityMode => new_DmlSecurityMode l
    | DmlType => new_DmlType l
    | ArrayAccess => new_ArrayAccess l
    | ArrayCreationExpression => new_ArrayCreationExpression l
    | DimensionsExpr => new_DimensionsExpr l
    | ReturnStatement => new_ReturnStatement l
    | TernaryExpression => new_TernaryExpression l
    | TryStatement => new_TryStatement l
    | CatchClause => new_CatchClause l
    | FinallyClause => new_FinallyClause l
    | StaticInitializer => new_StaticInitializer l
    | InterfaceDeclaration => new_InterfaceDeclaration l
    | ExtendsInterface => new_ExtendsInterface l
    | InterfaceBody => new_InterfaceBody l
    | InterfaceMember => new_InterfaceMember l
    | ConstantDeclaration => new_ConstantDeclaration l
    | AccessorList => new_AccessorList l
    | AccessorDeclaration => new_AccessorDeclaration l
    | CastExpression => new_CastExpression l
    | ThrowStatement => new_ThrowStatement l
    | BreakStatement => new_BreakStatement l
    | ContinueStatement => new_ContinueStatement l
    | SwitchExpression => new_SwitchExpression l
    | SwitchBlock => new_SwitchBlock l
    | SwitchRule => new_SwitchRule l
    | SwitchLabel => new_SwitchLabel l
    | WhenSObjectType => new_WhenSObjectType l
    | InstanceOfExpression => new_InstanceOfExpression l
    | VersionExpression => new_VersionExpression l
    | JavaFieldAccess => new_JavaFieldAccess l
    | JavaType => new_JavaType l
    | ArrayType => new_ArrayType l
    | TriggerDeclaration => new_TriggerDeclaration l
    | TriggerEvent => new_TriggerEvent l
    | TriggerBody => new_TriggerBody l
    | QueryExpression => new_QueryExpression l
    | SoslQueryBody => new_SoslQueryBody l
    | FindClause => new_FindClause l
    | InClause => new_InClause l
    | ReturningClause => new_ReturningClause l
    | SObjectReturn => new_SObjectReturn l
    | SoqlQueryBody => new_SoqlQueryBody l
    | FromClause => new_FromClause l
    | StorageAlias => new_StorageAlias l
    | LimitClause => new_LimitClause l
    | UpdateClause => new_UpdateClause l
    | BoundApexExpression => new_BoundApexExpression l
    | SoslUsingClause => new_SoslUsingClause l
    | UsingClause => new_UsingClause l
    | UsingScopeClause => new_UsingScopeClause l
    | UsingLookupClause => new_UsingLookupClause l
    | UsingLookupBindClause => new_UsingLookupBindClause l
    | UsingLookupBindExpression => new_UsingLookupBindExpression l
    | UsingListviewClause => new_UsingListviewClause l
    | WhereClause => new_WhereClause l
    | HavingClause => new_HavingClause l
    | ComparisonExpression => new_ComparisonExpression l
    | ComparableList => new_ComparableList l
    | OrderByClause => new_OrderByClause l
    | OrderExpression => new_OrderExpression l
    | SubQuery => new_SubQuery l
    | MapCreationExpression => new_MapCreationExpression l
    | MapInitializer => new_MapInitializer l
    | MapKeyInitializer => new_MapKeyInitializer l
    | GroupByClause => new_GroupByClause l
    | SoslWithClause => new_SoslWithClause l
    | SoqlWithClause => new_SoqlWithClause l
    | SoqlWithType => new_SoqlWithType l
    | SoslWithType => new_SoslWithType l
    | WithDataCatExpression => new_WithDataCatExpression l
    | WithDataCatFilter => new_WithDataCatFilter l
    | WithDivisionExpression => new_WithDivisionExpression l
    | WithSnippetExpression => new_WithSnippetExpression l
    | WithNetworkExpression => new_WithNetworkExpression l
    | WithMetadataExpression => new_WithMetadataExpression l
    | WithSpellCorrectionExpression => new_WithSpellCorrectionExpression l
    | WithPriceBookExpression => new_WithPriceBookExpression l
    | DottedIdentifier => new_DottedIdentifier l
    | ExpressionStatement => new_ExpressionStatement l
    | CountExpression => new_CountExpression l
    | FunctionExpression => new_FunctionExpression l
    | FieldIdentifier => new_FieldIdentifier l
    | GeoLocationType => new_GeoLocationType l
    | SelectClause => new_SelectClause l
    | StorageIdentifier => new_StorageIdentifier l
    | AndExpression => new_AndExpression l
    | OrExpression => new_OrExpression l
    | NotExpression => new_NotExpression l
    | ForClause => new_ForClause l
    | BooleanExpression p => new_BooleanExpression p l
    | ConditionExpression p => new_ConditionExpression p l
    | UnannotatedType => new_UnannotatedType l
    | SimpleType => new_SimpleType l
    | VariableInitializer => new_VariableInitializer l
    | Expression => new_Expression l
    | PrimaryExpression => new_PrimaryExpression l
    | ClassLiteral => new_ClassLiteral l
    | Statement => new_Statement l
    | Type_ => new_Type l
    | SelectableExpression => new_SelectableExpression l
    | FieldsExpression => new_FieldsExpression l
    | AliasExpression => new_AliasExpression l
    | StorageVariant => new_StorageVariant l
    | LimitValue => new_LimitValue l
    | ValueExpression => new_ValueExpression l
    | SoqlLiteral => new_SoqlLiteral l
    | SetValue => new_SetValue l
    | ComparableListValue => new_ComparableListValue l
    | OffsetClause => new_OffsetClause l
    end.
End New.

(* Rust's recursion; a result [Overflow] means the stack of depth [fuel] was exhausted. *)
Fixpoint new (cm : cmap) (checked : bool) (fuel : nat) (s : sort) (l : loc) : res dt :=
  match fuel with
  | O => Overflow
  | S k => new_step cm checked (new cm checked k) s l
  end.
