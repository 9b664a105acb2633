(** The locks that the handler of trapped calls takes on the thread of the program:
    worker/src/linux/lockdown.rs. The messages written by debug! are not modelled. *)
From stdpp Require Import prelude gmap.
From Verif Require Import LockModel.
Local Open Scope N_scope.

(** The allocator of the worker, and the mutex around the channel (lockdown.rs:32-35). *)
Inductive wlock := LHeap | LChannel.
Global Instance wlock_eq_dec : EqDecision wlock.
Proof. solve_decision. Defined.

(** The calls that trap, as lockdown.rs:241-282 tells them apart: access or stat, open or openat
    (of a relative path or not), chdir, and all others. *)
Inductive trapped := TAccess | TStat | TOpen (relative : bool) | TChdir | TOther.

(** One use of the allocator: malloc or free. *)
Definition heap_use : list (lock_op wlock) := [Take LHeap; Give LHeap].
(** lockdown.rs:292-303: one exchange with the broker. The mutex is given back at the end; neither
    ipc/src/linux/channel.rs:52-117 nor 119-212 allocates. *)
Definition exchange : list (lock_op wlock) := [Take LChannel; Give LChannel].
(** lockdown.rs:198-290. The path is copied into a String (186-192), which is freed at the end.
    A relative path of open: current_dir allocates a buffer and calls getcwd, which is forwarded
    to the broker as a trapped call of its own; the absolute path is another String (312-324).
    chdir: fchdir (375) is forwarded as well. *)
Definition handler_ops (c : trapped) : list (lock_op wlock) :=
  match c with
  | TAccess | TStat => heap_use ++ exchange ++ heap_use
  | TOpen relative =>
      heap_use ++
      (if relative then heap_use ++ exchange ++ heap_use else []) ++
      exchange ++
      (if relative then heap_use else []) ++ heap_use
  | TChdir => heap_use ++ exchange ++ exchange ++ heap_use
  | TOther => exchange
  end.

(** What a thread of the program does: trapped calls, and uses of the allocator during which,
    holding its lock, the allocator itself makes trapped calls. *)
Inductive pact := PCall (c : trapped) | PAlloc (inside : list trapped).
Definition pact_ops (a : pact) : list (lock_op wlock) :=
  match a with
  | PCall c => handler_ops c
  | PAlloc inside => Take LHeap :: concat (map handler_ops inside) ++ [Give LHeap]
  end.
Definition prog_ops (prog : list pact) : list (lock_op wlock) := concat (map pact_ops prog).
(** A worker whose threads run these programs; nobody holds a lock. *)
Definition worker_mem (progs : gmap N (list pact)) : lock_mem wlock :=
  mkLockMem (λ _, None) (prog_ops <$> progs).
