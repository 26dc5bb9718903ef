(* Cli.v: model of the command line program (src/main.rs, src/args.rs) over a
   file system that the outside may change at any time.  Definitions only.

   The program is a machine: its next step is chosen from outside, together with
   what the operating system answers.  A crash is an execution that stops at any
   state.

   Simplifications: a file is a text or cannot be read; a partial write ends at a
   character; distinct paths are distinct files; printing does not fail; of the
   messages on the standard error only the fact that they exist is left. *)
From Verif Require Import Base Cst Comments Term New Formatter Schedule.
Local Open Scope string_scope.

(* src/args.rs:3-10 *)
Record args := { a_path : ustr; a_config : option ustr; a_write : bool; a_time : bool; a_check : bool }.
(* src/args.rs:17-58: clap's conflicts_with refuses --check with --write. *)
Definition accepted_args (a : args) : bool := negb (a_check a && a_write a).

Definition files : Type := ustr -> option ustr.
Definition upd (f : files) (p : ustr) (c : option ustr) : files :=
  fun q => if ustr_eqb q p then c else f q.

(* One thing printed on the standard output. *)
Inductive line : Type :=
| Println (s : ustr)             (* the text and a line feed *)
| Report (r : report)            (* printed by a worker, see Formatter.v *)
| Elapsed.                       (* src/main.rs:15-16 *)

(* Where the program is. *)
Inductive pc : Type :=
| At_start                                                (* src/main.rs:29 *)
| At_format (cfg : config) (s : Schedule.state)           (* src/main.rs:30 *)
| At_result (index : nat) (rs : list result)              (* src/main.rs:32-61 *)
| At_write (rest : ustr) (index : nat) (rs : list result) (* inside fs::write, src/main.rs:48; the file was truncated *)
| At_exit (code : N).

Record cli := { c_fs : files; c_out : list line; c_pc : pc }.
Definition cli_init (fs : files) : cli := {| c_fs := fs; c_out := []; c_pc := At_start |}.

Inductive cli_op : Type :=
| Start (r : reading)            (* src/formatter.rs:90-100; [r]: the config file, if there is one *)
| Thread (o : Schedule.op)       (* a step of Formatter::format *)
| Collected                      (* src/main.rs:30-32: format returned, or the process was aborted *)
| Check (r : reading)            (* src/main.rs:35-45; [r]: the file read again *)
| Create (ok : bool)             (* src/main.rs:47: open and truncate *)
| Write (k : nat)                (* one write system call, of k+1 characters *)
| WriteFails
| Print                          (* src/main.rs:53 *)
| Finish                         (* src/main.rs:50 after the last write; 56-61; 13-24 *)
| Env (p : ustr) (c : option ustr).  (* something else changes a file *)

(* What reading a file may answer: its content if it has one, or an error. *)
Definition may_read (fs : files) (p : ustr) (r : reading) : bool :=
  match r with
  | inr _ => true
  | inl c => match fs p with Some c' => ustr_eqb c c' | None => false end
  end.

Section Cli.
  Variables (ts : ustr -> node) (checked : bool) (stack : nat) (toml : ustr -> toml_fields + ustr).
  Variable a : args.

  Definition goto (s : cli) (p : pc) : option cli := Some {| c_fs := c_fs s; c_out := c_out s; c_pc := p |}.
  (* src/main.rs:12-25 *)
  Definition exit_ok (s : cli) (more : list line) : option cli :=
    Some {| c_fs := c_fs s; c_out := c_out s ++ more ++ (if a_time a then [Elapsed] else []);
            c_pc := At_exit 0 |}.
  Definition exit_err (s : cli) : option cli := goto s (At_exit 1).

  Definition cli_step (s : cli) (o : cli_op) : option cli :=
    match o with
    | Env p c => Some {| c_fs := upd (c_fs s) p c; c_out := c_out s; c_pc := c_pc s |}
    | _ =>
      match c_pc s, o with
      | At_start, Start r =>
          match a_config a with
          | None => goto s (At_format Config_default (Schedule.init [a_path a]))
          | Some p =>
              if may_read (c_fs s) p r then
                match Config_from_file toml r with
                | inl cfg => goto s (At_format cfg (Schedule.init [a_path a]))
                | inr _ => exit_err s
                end
              else None
          end
      | At_format cfg st, Thread o =>
          let ok := match o with Read _ r => may_read (c_fs s) (a_path a) r | _ => true end in
          if ok then
            match Schedule.step ts checked stack cfg st o with
            | Some st' => goto s (At_format cfg st')
            | None => None
            end
          else None
      | At_format _ st, Collected =>
          if returned st then
            Some {| c_fs := c_fs s; c_out := c_out s ++ map Report (printed st);
                    c_pc := At_result 0 (got st) |}
          else if aborted st then
            Some {| c_fs := c_fs s; c_out := c_out s ++ map Report (printed st);
                    c_pc := At_exit 134 |}
          else None
      | At_result _ [], Finish => exit_ok s []
      | At_result _ (inr _ :: _), Finish => exit_err s
      | At_result i (inl v :: rest), _ =>
          if a_check a then
            match o with
            | Check r =>
                if may_read (c_fs s) (a_path a) r then
                  match r with
                  | inl c => if ustr_eqb c v
                             then exit_ok s [Println (U "File is already formatted: " ++ a_path a)%list]
                             else exit_err s
                  | inr _ => exit_err s
                  end
                else None
            | _ => None
            end
          else if a_write a then
            match o with
            | Create true =>
                Some {| c_fs := upd (c_fs s) (a_path a) (Some []); c_out := c_out s;
                        c_pc := At_write v i rest |}
            | Create false => exit_err s
            | _ => None
            end
          else
            match o with
            | Print => Some {| c_fs := c_fs s; c_out := c_out s ++ [Println v];
                               c_pc := At_result (S i) rest |}
            | _ => None
            end
      | At_write v i rest, Write k =>
          if Nat.ltb k (List.length v) then
            Some {| c_fs := upd (c_fs s) (a_path a)
                       (Some (match c_fs s (a_path a) with Some c => c | None => [] end
                              ++ firstn (S k) v)%list);
                    c_out := c_out s; c_pc := At_write (skipn (S k) v) i rest |}
          else None
      | At_write _ _ _, WriteFails => exit_err s
      | At_write [] i rest, Finish =>
          Some {| c_fs := c_fs s;
                  c_out := c_out s ++ [Println (U "Formatted content written back to: " ++ a_path a ++ [c_nl])%list];
                  c_pc := At_result (S i) rest |}
      | _, _ => None
      end
    end.

  Fixpoint cli_run (s : cli) (ops : list cli_op) : option cli :=
    match ops with
    | [] => Some s
    | o :: r => match cli_step s o with Some s' => cli_run s' r | None => None end
    end.
End Cli.
