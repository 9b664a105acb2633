(** Record locks (fcntl F_SETLK) and the descriptors opened on the way of a trapped call:
    broker/src/linux/brokered_syscalls.rs:18-35 and ipc_loop.rs:56-71 (the broker opens,
    sends and closes), worker/src/linux/lockdown.rs:339-381 (access, stat and chdir close
    what they got). The kernel's side is POSIX fcntl() and fs/locks.c: closing any
    descriptor of a file takes all locks of the process on that file, except a descriptor
    made with O_PATH. It is not code of the repository.

    Simplifications: every open succeeds when the name exists; nothing else happens
    during a trapped call. *)
From stdpp Require Import prelude gmap.
From Verif Require Import Bytes PolicyModel LinuxPolicyModel FifoModel.
Local Open Scope N_scope.

(** A lock of a process on the bytes [lk_from..lk_to] of a file. *)
Record lock := mkLock { lk_pid : N; lk_ino : N; lk_from : N; lk_to : N; lk_excl : bool }.
(** [w_fds]: descriptors by process and number: the file, and whether O_PATH was given. *)
Record world := mkWorld { w_fds : gmap (N * N) (N * bool); w_locks : list lock }.

Definition k_open (p fd i : N) (path_only : bool) (w : world) : world :=
  mkWorld (<[(p, fd) := (i, path_only)]> (w_fds w)) (w_locks w).
Definition k_close (p fd : N) (w : world) : world :=
  match w_fds w !! (p, fd) with
  | None => w
  | Some (i, path_only) =>
      mkWorld (delete (p, fd) (w_fds w))
        (if path_only : bool then w_locks w
         else filter (λ l : lock, ¬ (lk_pid l = p ∧ lk_ino l = i)) (w_locks w))
  end.
(** F_SETLK: None when another process holds a lock that excludes this one. *)
Definition conflicts (l l' : lock) : bool :=
  bool_decide (lk_pid l ≠ lk_pid l') && bool_decide (lk_ino l = lk_ino l') &&
  bool_decide (lk_from l ≤ lk_to l') && bool_decide (lk_from l' ≤ lk_to l) &&
  (lk_excl l || lk_excl l').
Definition k_lock (l : lock) (w : world) : option world :=
  if existsb (conflicts l) (w_locks w) then None else Some (mkWorld (w_fds w) (l :: w_locks w)).

(** One trapped call of the worker [p] with the broker [b]; [look]: the file a path leads
    to; [pick]: the number the kernel gives to a new descriptor of a process. *)
Definition trapped (look : str → option N) (pick : world → N → N) (pol : policy) (b p : N)
    (w : world) (c : call) : world :=
  let '(path, flags) := asked c in
  if granted pol path flags then
    match look path with
    | None => w
    | Some i =>
        let path_only := Z.testbit flags 21 in
        (* brokered_syscalls.rs:20 *)
        let bfd := pick w b in
        let w1 := k_open b bfd i path_only w in
        (* ipc_loop.rs:68, lockdown.rs:300: the descriptor is sent *)
        let wfd := pick w1 p in
        let w2 := k_open p wfd i path_only w1 in
        (* ipc_loop.rs:71: the end of the round drops the handle *)
        let w3 := k_close b bfd w2 in
        match c with
        | COpen _ _ => w3
        (* lockdown.rs:345, 365, 381: so does the end of the handler *)
        | CAccess _ _ | CStat _ | CChdir _ => k_close p wfd w3
        end
    end
  else w.
