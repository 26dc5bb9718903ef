(* SpecCli.v: what the properties of the command line program say. *)
From Verif Require Import Base Cst Formatter Schedule Cli.

(* The files as they are if only others write: the changes made by [Env]. *)
Fixpoint outside (ops : list cli_op) (fs : files) : files :=
  match ops with
  | [] => fs
  | Env p c :: r => outside r (upd fs p c)
  | _ :: r => outside r fs
  end.
Definition same (f g : files) : Prop := forall q, f q = g q.
Definition same_but (p : ustr) (f g : files) : Prop := forall q, q <> p -> f q = g q.
(* Nobody else changes [p]. *)
Definition untouched (p : ustr) (ops : list cli_op) : Prop := forall c, ~ In (Env p c) ops.

(* The configuration: the defaults, or what the configuration file said when it was read. *)
Definition loaded (toml : ustr -> toml_fields + ustr) (a : args) (ops : list cli_op) (cfg : config) : Prop :=
  match a_config a with
  | None => cfg = Config_default
  | Some _ => exists c, In (Start (inl c)) ops /\ Config_from_file toml (inl c) = inl cfg
  end.
(* [src] is what reading the file gave. *)
Definition source (ops : list cli_op) (c : reading) : Prop := In (Thread (Read 0 c)) ops.
(* Formatting [src] gives the text [v]. *)
Definition formats (ts : ustr -> node) (checked : bool) (stack : nat) (cfg : config) (src v : ustr) : Prop :=
  snd (format_source ts checked stack cfg src) = Ok v.

(* An execution in which nobody else writes and reading never fails on a file that exists. *)
Definition calm (a : args) (fs : files) (ops : list cli_op) : Prop :=
  forall o, In o ops ->
    match o with
    | Env _ _ => False
    | Start (inr _) => match a_config a with Some p => fs p = None | None => True end
    | Thread (Read _ (inr _)) => fs (a_path a) = None
    | Check (inr _) => fs (a_path a) = None
    | Create false | WriteFails => False
    | _ => True
    end.

(* The configuration, from the files as they are. *)
Definition configured (toml : ustr -> toml_fields + ustr) (a : args) (fs : files) (cfg : config) : Prop :=
  match a_config a with
  | None => cfg = Config_default
  | Some p => exists c, fs p = Some c /\ Config_from_file toml (inl c) = inl cfg
  end.
(* A step of the program itself. *)
Definition own (o : cli_op) : Prop := match o with Env _ _ => False | _ => True end.
