(** Lock rights on Linux: policy/src/policy.rs:144-191 has rules to let a worker block other
    readers and writers; the filter allows fcntl whatever its arguments
    (broker/src/linux/seccomp.rs:81), so the worker locks by itself what it has opened
    through the broker. fcntl(2) is the kernel's side, as in RecordLockModel. *)
From stdpp Require Import prelude gmap.
From Verif Require Import Bytes PolicyModel LinuxPolicyModel FifoModel RecordLockModel.
Local Open Scope N_scope.

(** The worker's descriptors (file and open flags) and the locks of all processes. *)
Record rights := mkRights { r_fds : gmap N (N * Z); r_locks : list lock }.
(** fcntl(2): F_WRLCK needs a descriptor that can write, F_RDLCK one that can read. *)
Definition lockable (flags : Z) (excl : bool) : bool :=
  negb (Z.testbit flags 21) &&
  ((flags mod 4 =? 2)%Z || (flags mod 4 =? (if excl then 1 else 0))%Z).
Inductive wop :=
  | WOpen (path : str) (flags : Z) (fd : N)     (* lockdown.rs:305-337 *)
  | WDup (fd fd' : N)
  | WClose (fd : N)
  | WLock (fd from to : N) (excl : bool)
  | Other (l : lock).                           (* another process takes a lock *)
Definition wstep (look : str → option N) (pol : policy) (p : N) (s : rights) (o : wop) : rights :=
  match o with
  | WOpen path flags fd =>
      if granted pol path flags then
        match look path with
        | Some i => mkRights (<[fd := (i, flags)]> (r_fds s)) (r_locks s)
        | None => s
        end
      else s
  | WDup fd fd' =>
      match r_fds s !! fd with
      | Some x => mkRights (<[fd' := x]> (r_fds s)) (r_locks s)
      | None => s
      end
  | WClose fd =>
      match r_fds s !! fd with
      | Some (i, flags) =>
          mkRights (delete fd (r_fds s))
            (if Z.testbit flags 21 then r_locks s
             else filter (λ l : lock, ¬ (lk_pid l = p ∧ lk_ino l = i)) (r_locks s))
      | None => s
      end
  | WLock fd from to excl =>
      match r_fds s !! fd with
      | Some (i, flags) =>
          let l := mkLock p i from to excl in
          if lockable flags excl && negb (existsb (conflicts l) (r_locks s))
          then mkRights (r_fds s) (l :: r_locks s) else s
      | None => s
      end
  | Other l =>
      if bool_decide (lk_pid l ≠ p) && negb (existsb (conflicts l) (r_locks s))
      then mkRights (r_fds s) (l :: r_locks s) else s
  end.
