(* Schedule.v: model of Formatter::format (src/formatter.rs:102-139), its worker
   threads and its channel, as a machine whose next step a scheduler chooses.
   Definitions only.

   Not modelled: a failing thread::spawn, a closed standard output (println!
   would panic). *)
From Verif Require Import Base Cst Comments Term New Formatter.
Local Open Scope string_scope.

(* The outcome of one file: the text or an error message. *)
Definition result : Type := (ustr + ustr)%type.
(* What reading a file gives: its content or an error message. *)
Definition reading : Type := (ustr + ustr)%type.

Section Format.
  (* parser, arithmetic mode and stack depth, see Formatter.v *)
  Variables (ts : ustr -> node) (checked : bool) (stack : nat) (cfg : config).

  (* src/formatter.rs:112-133: the closure of a worker, after its file was read.
     catch_unwind turns a panic, also of the `unwrap` on a read error, into
     "Thread panicked"; a stack overflow cannot be caught and aborts the process.
     A worker is a new thread, so its thread-local cells are empty. *)
  Definition work (c : reading) : list report * res result :=
    match c with
    | inr _ => ([], Ok (inr (U "Thread panicked")))
    | inl src =>
        match format_one ts checked stack cfg src fresh_thread with
        | (_, log, Ok s) => (log, Ok (inl s))
        | (_, log, Panic _) => (log, Ok (inr (U "Thread panicked")))
        | (_, log, Overflow) => (log, Overflow)
        end
    end.

  (* Where a worker is: about to read, to format, to send, to drop its sender, gone. *)
  Inductive phase : Type :=
  | W_read | W_format (c : reading) | W_send (r : result) | W_drop | W_end.
  Record worker := { w_file : ustr; w_phase : phase }.

  Record state := {
    todo : list ustr;                (* files no thread was spawned for yet *)
    tx_open : bool;                  (* the sender of the main thread *)
    workers : list worker;           (* in spawning order *)
    chan : list result;              (* sent and not received *)
    got : list result;               (* received *)
    returned : bool;                 (* format returned [got] *)
    aborted : bool;                  (* a worker overflowed its stack *)
    printed : list report            (* lines on the standard output *)
  }.
  Definition init (files : list ustr) : state :=
    {| todo := files; tx_open := true; workers := []; chan := []; got := [];
       returned := false; aborted := false; printed := [] |}.

  Inductive op : Type :=
  | Spawn                            (* main: src/formatter.rs:106-111 *)
  | DropTx                           (* main: 136 *)
  | Receive                          (* main: 138, an element is in the channel *)
  | Return                           (* main: 138, the channel is empty and closed *)
  | Read (i : nat) (c : reading)     (* worker i: 113-121; the outside decides [c] *)
  | Format (i : nat)                 (* worker i: 123 *)
  | Send (i : nat)                   (* worker i: 125-132 *)
  | Drop (i : nat).                  (* worker i: its end, the sender is dropped *)

  Fixpoint set_worker (i : nat) (w : worker) (l : list worker) : list worker :=
    match l, i with
    | [], _ => []
    | _ :: r, O => w :: r
    | x :: r, S j => x :: set_worker j w r
    end.
  Definition with_phase (w : worker) (p : phase) : worker := {| w_file := w_file w; w_phase := p |}.
  Definition is_end (w : worker) : bool := match w_phase w with W_end => true | _ => false end.
  Definition put_workers (st : state) (l : list worker) : state :=
    {| todo := todo st; tx_open := tx_open st; workers := l; chan := chan st; got := got st;
       returned := returned st; aborted := aborted st; printed := printed st |}.

  Definition step (st : state) (o : op) : option state :=
    if returned st || aborted st then None else
    match o with
    | Spawn =>
        match todo st with
        | f :: r =>
            Some {| todo := r; tx_open := tx_open st;
                    workers := workers st ++ [{| w_file := f; w_phase := W_read |}];
                    chan := chan st; got := got st; returned := false; aborted := false;
                    printed := printed st |}
        | [] => None
        end
    | DropTx =>
        if is_nil (todo st) && tx_open st
        then Some {| todo := []; tx_open := false; workers := workers st; chan := chan st; got := got st;
                     returned := false; aborted := false; printed := printed st |}
        else None
    | Receive =>
        if tx_open st then None
        else match chan st with
             | [] => None
             | r :: rest =>
                 Some {| todo := todo st; tx_open := false; workers := workers st; chan := rest;
                         got := got st ++ [r]; returned := false; aborted := false;
                         printed := printed st |}
             end
    | Return =>
        if negb (tx_open st) && is_nil (chan st) && forallb is_end (workers st)
        then Some {| todo := todo st; tx_open := false; workers := workers st; chan := []; got := got st;
                     returned := true; aborted := false; printed := printed st |}
        else None
    | Read i c =>
        match nth_error (workers st) i with
        | Some w =>
            match w_phase w with
            | W_read => Some (put_workers st (set_worker i (with_phase w (W_format c)) (workers st)))
            | _ => None
            end
        | None => None
        end
    | Format i =>
        match nth_error (workers st) i with
        | Some w =>
            match w_phase w with
            | W_format c =>
                let (log, r) := work c in
                Some {| todo := todo st; tx_open := tx_open st;
                        workers := match r with
                                   | Ok x => set_worker i (with_phase w (W_send x)) (workers st)
                                   | _ => workers st
                                   end;
                        chan := chan st; got := got st; returned := false;
                        aborted := match r with Ok _ => false | _ => true end;
                        printed := printed st ++ log |}
            | _ => None
            end
        | None => None
        end
    | Send i =>
        match nth_error (workers st) i with
        | Some w =>
            match w_phase w with
            | W_send r =>
                Some {| todo := todo st; tx_open := tx_open st;
                        workers := set_worker i (with_phase w W_drop) (workers st);
                        chan := chan st ++ [r]; got := got st; returned := false; aborted := false;
                        printed := printed st |}
            | _ => None
            end
        | None => None
        end
    | Drop i =>
        match nth_error (workers st) i with
        | Some w =>
            match w_phase w with
            | W_drop => Some (put_workers st (set_worker i (with_phase w W_end) (workers st)))
            | _ => None
            end
        | None => None
        end
    end.

  (* A schedule, if every step of it is possible. *)
  Fixpoint schedule (st : state) (ops : list op) : option state :=
    match ops with
    | [] => Some st
    | o :: r => match step st o with Some st' => schedule st' r | None => None end
    end.
End Format.
