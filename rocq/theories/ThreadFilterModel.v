(** The seccomp filters of all threads of a worker, while one of them locks the process down:
    worker/src/linux/lockdown.rs:150-181, and the kernel's rules for filters and threads. *)
From stdpp Require Import prelude gmap.
Local Open Scope N_scope.

(** The filters of a thread, the newest first; every filter that is installed has a number of its
    own. seccomp(2): the kernel asks all of them. *)
Notation chain := (list N).
Notation threads := (gmap N (list N)).

(** What other code of the program may do: clone(2) (the filters are inherited), exit, and
    installing filters of its own. *)
Inductive top :=
  | TClone (t new : N)
  | TExit (t : N)
  | TInstall (t filter : N)
  | TInstallAll (t filter : N).   (* SECCOMP_FILTER_FLAG_TSYNC *)

(** kernel/seccomp.c, is_ancestor: [p] is where [c] was some filters ago. *)
Fixpoint is_ancestor (p c : chain) : bool :=
  bool_decide (p = c) || match c with [] => false | _ :: c => is_ancestor p c end.
(** seccomp_can_sync_threads: the filters of every other thread are an older state of those of
    the caller. *)
Definition can_sync (t : N) (ch : chain) (ts : threads) : bool :=
  forallb (λ p : N * chain, bool_decide (p.1 = t) || is_ancestor p.2 ch) (map_to_list ts).
(** seccomp_attach_filter and seccomp_sync_threads *)
Definition install (t f : N) (ts : threads) : threads :=
  match ts !! t with None => ts | Some ch => <[t := f :: ch]> ts end.
Definition install_all (t f : N) (ts : threads) : option threads :=
  match ts !! t with
  | None => None
  | Some ch => if can_sync t ch ts then Some ((λ _, f :: ch) <$> ts) else None
  end.

Definition tstep (o : top) (ts : threads) : threads :=
  match o with
  | TClone t new =>
      match ts !! t, ts !! new with Some ch, None => <[new := ch]> ts | _, _ => ts end
  | TExit t => delete t ts
  | TInstall t f => install t f ts
  | TInstallAll t f => default ts (install_all t f ts)
  end.
Definition tsteps (ts : threads) (os : list top) : threads := foldl (λ ts o, tstep o ts) ts os.

(** How the lockdown ended: all threads at once, only the caller, or a panic. *)
Inductive locked := AllThreads | OneThread | LockPanic.
(** lockdown.rs:156-163 by thread [t]: the system call seccomp exists from Linux 3.17 on; [kernel]
    is whether it is there. If it fails, for whatever reason, lines 166-179 follow; what other
    threads do in between is [between]. [prctl] is whether prctl succeeds. *)
Definition lock_threads (kernel prctl : bool) (t f : N) (between : list top) (ts : threads)
  : locked * threads :=
  match (if kernel then install_all t f ts else None) with
  | Some ts => (AllThreads, ts)
  | None =>
      let ts := tsteps ts between in
      if prctl then (OneThread, install t f ts) else (LockPanic, ts)
  end.
