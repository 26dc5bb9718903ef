(* Formatter.v: model of src/formatter.rs and of the thread state of
   src/utility.rs.  Definitions only.

   The tree-sitter parser is outside the model: it is a function [ts] from a
   source text to a tree, passed as an argument.  The same holds for the depth
   of the stack ([stack] nested calls of `new`). *)
From Verif Require Import Base Doc DocBuilder Cst Comments Term New.
Open Scope res_scope.
Local Open Scope string_scope.

(* src/formatter.rs:19-51  Config *)
Record config := { max_width : N; cfg_indent_size : N }.
Definition default_max_width : N := 80.
Definition default_indent_size : N := 2.
Definition Config_default : config :=
  {| max_width := default_max_width; cfg_indent_size := default_indent_size |}.
Definition Config_new (w : N) : config := {| max_width := w; cfg_indent_size := 2 |}.

(* src/formatter.rs:53-59 with the serde attributes 21-25.  [toml] is the parsed
   document: the fields it sets, or an error message.  Other keys are ignored
   (no deny_unknown_fields).  [file] is the content of the config file. *)
Record toml_fields := { toml_max_width : option N; toml_indent_size : option N }.
Definition config_of_toml (t : toml_fields) : config :=
  {| max_width := match toml_max_width t with Some w => w | None => default_max_width end;
     cfg_indent_size := match toml_indent_size t with Some i => i | None => default_indent_size end |}.
Definition Config_from_file (toml : ustr -> toml_fields + ustr) (file : ustr + ustr) : config + ustr :=
  match file with
  | inr e => inr (U "Failed to read config file: " ++ e)%list
  | inl s => match toml s with
             | inr e => inr (U "Failed to parse config file: " ++ e)%list
             | inl t => inl (config_of_toml t)
             end
  end.

(* ------------------------------------------------------------ error report *)

(* src/formatter.rs:207-223 *)
Fixpoint find_last_error_node (n : node) : option node :=
  if n_error n then
    (fix go (cs : list node) (last : option node) : option node :=
       match cs with
       | [] => last
       | c :: r => go r (if n_error c then find_last_error_node c else last)
       end) (children n) (Some n)
  else None.

(* The first [k] bytes of a text, when they end at a character boundary. *)
Fixpoint take_bytes (k : N) (s : ustr) : option ustr :=
  if (k =? 0)%N then Some []
  else match s with
       | [] => None
       | c :: t => if (ulen1 c <=? k)%N
                   then option_map (cons c) (take_bytes (k - ulen1 c) t)
                   else None
       end.
(* src/utility.rs:13-21; slicing inside a character panics. *)
Definition snippet_max_len : N := 80.
Definition truncate_snippet (s : ustr) : res ustr :=
  if (ulen s <=? snippet_max_len)%N then Ok s
  else match take_bytes snippet_max_len s with
       | Some p => Ok (p ++ [8230%N])%list                        (* '…' *)
       | None => Panic "byte index is not a char boundary"
       end.

(* src/formatter.rs:182-199: one printed line; colours are left out. *)
Record report := { r_parent : bool; r_kind : string; r_sbyte : N; r_ebyte : N; r_snippet : ustr }.
Definition report_of (is_parent : bool) (n : node) : res report :=
  s <- truncate_snippet (n_text n) ;;
  Ok {| r_parent := is_parent; r_kind := n_kind n; r_sbyte := n_sbyte n; r_ebyte := n_ebyte n; r_snippet := s |}.

(* The parent of the node found by find_last_error_node: the last node entered
   before it on the same descent (Node::parent). *)
Fixpoint find_last_error_parent (n : node) (p : option node) : option node :=
  if n_error n then
    (fix go (cs : list node) (last : option node) : option node :=
       match cs with
       | [] => last
       | c :: r => go r (if n_error c then find_last_error_parent c (Some n) else last)
       end) (children n) p
  else None.

(* src/formatter.rs:168-205: the lines printed on the standard output and the
   tree, or a panic. *)
Definition parse_report (root : node) : list report * res unit :=
  match find_last_error_node root with
  | None => ([], Ok tt)
  | Some e =>
      match report_of false e with
      | Ok r1 =>
          match find_last_error_parent root None with
          | None => ([r1], Ok tt)
          | Some p => match report_of true p with
                      | Ok r2 => ([r1; r2], Ok tt)
                      | Panic y => ([r1], Panic y)
                      | Overflow => ([r1], Overflow)
                      end
          end
      | Panic y => ([], Panic y)
      | Overflow => ([], Overflow)
      end
  end.
Definition parse (ts : ustr -> node) (src : ustr) : list report * res node :=
  let root := ts src in
  if n_error root then
    let (log, r) := parse_report root in
    (log, rbind r (fun _ => Panic "Parser encounters an error node in the tree."))
  else ([], Ok root).

(* ------------------------------------------------------------ format_one *)

(* src/utility.rs:122-141: the comments of all buckets, and the check that each
   was marked as printed. *)
Definition bucket_comments (b : bucket) : list comment := (pre b ++ post b ++ dangling b)%list.
Definition map_comments (m : cmap) : list comment := flat_map (fun e => bucket_comments (snd e)) m.
Definition is_printed (marks : list comment) (c : comment) : bool :=
  existsb (fun d => (c_id d =? c_id c)%N) marks.
Definition missing_comments (m : cmap) (marks : list comment) : list comment :=
  filter (fun c => negb (is_printed marks c)) (map_comments m).
Definition assert_no_missing_comments (m : cmap) (marks : list comment) : res unit :=
  if is_nil (missing_comments m marks) then Ok tt
  else Panic "## There are erased comment node(s)".

(* src/formatter.rs:145-165, after the tree was accepted: [checked] says whether
   arithmetic overflow panics. *)
Definition format_tree (checked : bool) (stack : nat) (cfg : config) (root : node) : res ustr :=
  cm <- collect_comments root ;;
  d <- new cm checked stack Root (root_loc root) ;;
  b <- PrettyConfig_new (cfg_indent_size cfg) ;;
  built <- run cm b d ;;
  let out := pretty_print (fst built) (max_width cfg) in
  _ <- assert_no_missing_comments cm (snd built) ;;
  Ok out.

(* src/formatter.rs:141-166 on a fresh thread *)
Definition format_source (ts : ustr -> node) (checked : bool) (stack : nat) (cfg : config)
    (src : ustr) : list report * res ustr :=
  let (log, r) := parse ts src in
  (log, rbind r (format_tree checked stack cfg)).

(* src/utility.rs:23-67: the two thread-local cells. *)
Record thread_state := { th_source : option ustr; th_map : option cmap }.
Definition fresh_thread : thread_state := {| th_source := None; th_map := None |}.
Definition set_thread_source_code (src : ustr) (s : thread_state) : res thread_state :=
  match th_source s with
  | Some _ => Panic "Source code is already set for this thread"
  | None => Ok {| th_source := Some src; th_map := th_map s |}
  end.
Definition set_thread_comment_map (m : cmap) (s : thread_state) : res thread_state :=
  match th_map s with
  | Some _ => Panic "CommentMap is already set for this thread"
  | None => Ok {| th_source := th_source s; th_map := Some m |}
  end.

(* src/formatter.rs:141-166 on any thread: result and thread state after the
   call, which keeps what was set before a panic. *)
Definition format_one (ts : ustr -> node) (checked : bool) (stack : nat) (cfg : config)
    (src : ustr) (s0 : thread_state) : thread_state * list report * res ustr :=
  match parse ts src with
  | (log, Ok root) =>
      match set_thread_source_code src s0 with
      | Ok s1 =>
          match collect_comments root with
          | Ok cm =>
              match set_thread_comment_map cm s1 with
              | Ok s2 =>
                  (s2, log,
                   d <- new cm checked stack Root (root_loc root) ;;
                   b <- PrettyConfig_new (cfg_indent_size cfg) ;;
                   built <- run cm b d ;;
                   let out := pretty_print (fst built) (max_width cfg) in
                   _ <- assert_no_missing_comments cm (snd built) ;;
                   Ok out)
              | Panic y => (s1, log, Panic y)
              | Overflow => (s1, log, Overflow)
              end
          | Panic y => (s1, log, Panic y)
          | Overflow => (s1, log, Overflow)
          end
      | Panic y => (s0, log, Panic y)
      | Overflow => (s0, log, Overflow)
      end
  | (log, Panic y) => (s0, log, Panic y)
  | (log, Overflow) => (s0, log, Overflow)
  end.
