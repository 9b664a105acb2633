(** Terminals opened for a worker: broker/src/linux/brokered_syscalls.rs:18-20 opens in the
    broker's process, whose session may have no controlling terminal yet. The kernel's side
    is open(2) (O_NOCTTY) and drivers/tty/tty_jobctrl.c (tty_open_proc_set_tty); it is not
    code of the repository. *)
From stdpp Require Import prelude gmap.
From Verif Require Import Bytes PolicyModel LinuxPolicyModel FifoModel.
Local Open Scope N_scope.

(** [c_session]: the session of each process, named after its leader. [c_ctty]: the
    controlling terminal of each session that has one. *)
Record cstate := mkC { c_session : N → N; c_ctty : gmap N N }.
Definition taken (tty : N) (s : cstate) : bool :=
  existsb (λ x, bool_decide (snd x = tty)) (map_to_list (c_ctty s)).
(** A process [p] opens a terminal: if it leads a session without a controlling terminal,
    and the terminal controls no session, it does now, unless O_PATH (bit 21) or O_NOCTTY
    (bit 8) was given or the descriptor cannot read. *)
Definition open_tty (p tty : N) (flags : Z) (s : cstate) : cstate :=
  if Z.testbit flags 21 || Z.testbit flags 8 || (flags mod 4 =? 1)%Z then s
  else if bool_decide (c_session s p = p) && bool_decide (c_ctty s !! p = None) && negb (taken tty s)
  then mkC (c_session s) (<[p := tty]> (c_ctty s))
  else s.

(** [ttys] tells which paths are terminals. A call of the worker [p] without the sandbox
    (only open opens), and with the broker [b]. *)
Definition plain_call (ttys : str → option N) (p : N) (s : cstate) (c : call) : cstate :=
  match c with
  | COpen path flags => match ttys path with Some t => open_tty p t flags s | None => s end
  | _ => s
  end.
Definition boxed_call (ttys : str → option N) (pol : policy) (b : N) (s : cstate) (c : call) : cstate :=
  let '(path, flags) := asked c in
  if granted pol path flags then
    match ttys path with Some t => open_tty b t flags s | None => s end
  else s.
