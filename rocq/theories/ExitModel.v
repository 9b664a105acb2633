(** How a new process ends that does not get to its program: [libc::exit],
    linux-entrypoint/src/error.rs:38 and linux-entrypoint/src/entry.rs:251, in a process that
    is a copy of the broker's program (clone without CLONE_VM). *)
From stdpp Require Import prelude gmap.
From Coq Require Import Strings.Byte.
From Verif Require Import Bytes FdModel EntryModel.
Local Open Scope N_scope.

(** What the C library of the program keeps in memory when Worker::new is called: the
    streams of stdio with the text not yet written, and the functions registered with
    atexit, by number. *)
Record stdio := mkStdio {
  io_streams : list (N * str);
  io_handlers : list N }.

Inductive exit_event :=
  | XHandler (h : N)
  | XWrite (file : N) (bytes : str).
Global Instance exit_event_eq_dec : EqDecision exit_event.
Proof. solve_decision. Defined.

(** fflush(3) at exit: nothing happens without text or if the file cannot be written.
    [wr] tells the open files that can be written to. *)
Definition flush (wr : N → bool) (t : fdtab) (x : N * str) : option exit_event :=
  match x.2 with
  | [] => None
  | b => match t !! x.1 with
         | Some ent => if wr (fd_file ent) then Some (XWrite (fd_file ent) b) else None
         | None => None
         end
  end.
(** exit(3): the handlers, the last one registered first, then all streams. *)
Definition exit_events (wr : N → bool) (io : stdio) (t : fdtab) : list exit_event :=
  (XHandler <$> rev (io_handlers io)) ++ omap (flush wr t) (io_streams io).

(** What the new process does with the copy of [io]. execve replaces the memory. The state
    of [EpExited] is the one at the end, except that a step that failed halfway has not
    changed it. *)
Definition child_end (wr : N → bool) (io : stdio) (r : ep_result) : list exit_event :=
  match r with
  | EpStarted _ => []
  | EpExited s => exit_events wr io (ep_tab s)
  end.
