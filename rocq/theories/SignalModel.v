(** Model of the ways in which a worker under the broker's filter can make the kernel send signals:
    kill, tgkill, and the owner of an open file set by fcntl. The rules are those of
    broker/src/linux/seccomp.rs:8-190 ([SeccompModel]), the flags those of
    broker/src/linux/process.rs:104-106. The rest is the kernel: kill(2), tgkill(2), F_SETOWN,
    F_SETSIG and O_ASYNC of fcntl(2), pid_namespaces(7). Left out: signals of terminals, timers
    (they reach the caller only), audit mode, and files whose owner was set before the worker had
    them. *)
From stdpp Require Import prelude gmap.
From Coq Require Import Strings.Byte.
From Verif Require Import Bytes PolicyModel SeccompModel.
Local Open Scope N_scope.

(** A process of the host: its number and that of its group in the broker's namespace, and its
    user. *)
Record proc := mkProc { pc_pid : N; pc_group : N; pc_user : N }.

(** An open file of the worker: F_SETOWN (0: nobody), F_SETSIG (0: SIGIO) and O_ASYNC. *)
Record afile := mkAfile { af_owner : Z; af_signal : N; af_async : bool }.
Record sigstate := mkSig {
  sg_files : gmap N afile;
  sg_sent : list (N * N) }.            (* process and signal *)

(** A register as the kernel reads an int from it. *)
Definition as_int (x : N) : Z :=
  let y := x mod 2 ^ 32 in if y <? 2 ^ 31 then Z.of_N y else (Z.of_N y - 2 ^ 32)%Z.

(** The number by which the worker [self] can address a process. In a namespace of its own it is
    number 1 and nobody else has one: it cannot make processes (C44). *)
Definition number (fl : clone_flags) (self : proc) (p : proc) : option Z :=
  if newpid fl then if pc_pid p =? pc_pid self then Some 1%Z else None
  else Some (Z.of_N (pc_pid p)).
(** Groups are addressed by the number of a process; in its own namespace the worker is in the
    group of the broker, which has no number there. *)
Definition in_group (fl : clone_flags) (z : Z) (p : proc) : bool :=
  if newpid fl then false else (Z.of_N (pc_group p) =? z)%Z.
(** The processes that a number means to kill. *)
Definition kill_targets (fl : clone_flags) (self : proc) (procs : list proc) (z : Z) : list proc :=
  if (0 <? z)%Z then filter (λ p, number fl self p = Some z) procs
  else if (z =? 0)%Z then filter (λ p, pc_group p = pc_group self) procs
  else if (z =? -1)%Z then filter (λ p, is_Some (number fl self p)) procs
  else filter (λ p, in_group fl (- z) p = true) procs.
(** The processes that a number means to F_SETOWN. *)
Definition owner_targets (fl : clone_flags) (self : proc) (procs : list proc) (z : Z) : list proc :=
  if (0 <? z)%Z then filter (λ p, number fl self p = Some z) procs
  else if (z =? 0)%Z then []
  else filter (λ p, in_group fl (- z) p = true) procs.
(** A process may signal those of the same user. *)
Definition send (self : proc) (ps : list proc) (sig : N) (s : sigstate) : sigstate :=
  mkSig (sg_files s)
    (sg_sent s ++ ((λ p, (pc_pid p, sig)) <$> filter (λ p, pc_user p = pc_user self) ps)).

Definition F_SETFL : N := 4.
Definition F_SETOWN : N := 8.
Definition F_SETSIG : N := 10.
Definition F_SETOWN_EX : N := 15.
Definition SIGIO : N := 29.
Definition O_ASYNC_bit : N := 13.

(** The structure F_SETOWN_EX points to is given as the number F_SETOWN would take. A file is taken
    for its descriptor: duplicates keep their own owner. F_SETLEASE and F_NOTIFY, which make the
    caller the owner, are left out. *)
Definition fcntl (args : list N) (s : sigstate) : sigstate :=
  let fd := arg args 0 mod 2 ^ 32 in
  let cmd := arg args 1 mod 2 ^ 32 in
  let v := arg args 2 in
  let f := default (mkAfile 0 0 false) (sg_files s !! fd) in
  let put f := mkSig (<[fd := f]> (sg_files s)) (sg_sent s) in
  if (cmd =? F_SETOWN) || (cmd =? F_SETOWN_EX) then put (mkAfile (as_int v) (af_signal f) (af_async f))
  else if cmd =? F_SETSIG then put (mkAfile (af_owner f) v (af_async f))
  else if cmd =? F_SETFL then put (mkAfile (af_owner f) (af_signal f) (N.testbit v O_ASYNC_bit))
  else s.

(** What a worker does: system calls, and making a file ready, for instance by writing to the
    other end of a pair of sockets. *)
Inductive deed := Call (a : arch) (name : str) (args : list N) | Ready (fd : N).
(** Calls that are not allowed trap and, outside audit mode, are never made (C39). *)
Definition act (rs : list rule) (fl : clone_flags) (self : proc) (procs : list proc)
  (s : sigstate) (d : deed) : sigstate :=
  match d with
  | Call a name args =>
      match decision rs a name args with
      | Trap => s
      | Allow =>
          if bool_decide (name = lit "kill") then
            send self (kill_targets fl self procs (as_int (arg args 0))) (arg args 1) s
          else if bool_decide (name = lit "tgkill") then
            (* one thread of the process, which must have a number *)
            send self (filter (λ p, number fl self p = Some (as_int (arg args 0))) procs) (arg args 2) s
          else if bool_decide (name = lit "fcntl") then fcntl args s
          else s
      end
  | Ready fd =>
      match sg_files s !! fd with
      | Some f =>
          if af_async f
          then send self (owner_targets fl self procs (af_owner f))
                 (if af_signal f =? 0 then SIGIO else af_signal f) s
          else s
      | None => s
      end
  end.
Definition deeds (rs : list rule) (fl : clone_flags) (self : proc) (procs : list proc)
  (ds : list deed) : sigstate := foldl (act rs fl self procs) (mkSig ∅ []) ds.
