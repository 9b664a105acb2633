(** Delivery of the SIGSYS by which the filter of a worker reports a call: the signal mask, which
    the worker has from the thread that called Worker::new, and the action of SIGSYS, which
    worker/src/linux/lockdown.rs:81-124 sets. The filter lets the worker change both
    (broker/src/linux/seccomp.rs:34-35).

    One thread is followed; a mask is that of a thread, so with more threads the same holds for
    each. Left out: audit mode, and what the library's handler does (WorkerModel). *)
From stdpp Require Import prelude.
From Coq Require Import Strings.Byte.
From Verif Require Import Bytes PolicyModel SeccompModel.
Local Open Scope N_scope.

(** sigaction(2): what is done on SIGSYS. *)
Inductive sysact := ActDefault | ActIgnored | ActLibrary | ActOwn.

(** Whether SIGSYS is blocked, its action, and the masks to which the handlers that are running
    return, the innermost first. *)
Record sigthread := mkSt { st_blocked : bool; st_action : sysact; st_saved : list bool }.

(** sigprocmask(2) *)
Inductive how := HowBlock | HowUnblock | HowSet.
(** What the program does: a change of the mask by a set that has SIGSYS or has not, a change of
    the action of SIGSYS, another call, the start of a handler of another signal whose sa_mask has
    SIGSYS or has not, and the return of that handler. *)
Inductive deed :=
  | DMask (h : how) (has : bool) (args : list N)
  | DAction (act : sysact) (args : list N)
  | DCall (name : str) (args : list N)
  | DEnter (has : bool)
  | DLeave.

Definition deed_call (d : deed) : option (str * list N) :=
  match d with
  | DMask _ _ args => Some (lit "rt_sigprocmask", args)
  | DAction _ args => Some (lit "rt_sigaction", args)
  | DCall name args => Some (name, args)
  | DEnter _ => None
  | DLeave => Some (lit "rt_sigreturn", [])
  end.

Definition new_mask (h : how) (has blocked : bool) : bool :=
  match h with
  | HowBlock => blocked || has
  | HowUnblock => blocked && negb has
  | HowSet => has
  end.
(** The kernel, for a call that the filter allows. *)
Definition effect (d : deed) (st : sigthread) : sigthread :=
  match d with
  | DMask h has _ => mkSt (new_mask h has (st_blocked st)) (st_action st) (st_saved st)
  | DAction act _ => mkSt (st_blocked st) act (st_saved st)
  | DCall _ _ => st
  | DEnter has => mkSt (st_blocked st || has) (st_action st) (st_blocked st :: st_saved st)
  | DLeave =>
      match st_saved st with
      | [] => st
      | b :: rest => mkSt b (st_action st) rest
      end
  end.

(** The call is carried out; the library's handler answers it; another handler runs; the process
    is dead. *)
Inductive seen := SeenDone | SeenAnswered | SeenOther | SeenKilled.

(** seccomp(2), SECCOMP_RET_TRAP: the signal is forced. A thread that blocks or ignores it is
    killed. The handler of lockdown.rs:91-99 has an empty sa_mask and SA_NODEFER; it returns by
    rt_sigreturn, and if that traps as well there is no way back. *)
Definition trapped_call (rs : list rule) (a : arch) (st : sigthread) : seen :=
  if st_blocked st then SeenKilled
  else match st_action st with
       | ActDefault | ActIgnored => SeenKilled
       | ActOwn => SeenOther
       | ActLibrary =>
           match decision rs a (lit "rt_sigreturn") [] with
           | Allow => SeenAnswered
           | Trap => SeenKilled
           end
       end.
Definition deed_step (rs : list rule) (a : arch) (d : deed) (st : sigthread) : seen * sigthread :=
  match deed_call d with
  | None => (SeenDone, effect d st)
  | Some (name, args) =>
      match decision rs a name args with
      | Allow => (SeenDone, effect d st)
      | Trap => (trapped_call rs a st, st)
      end
  end.
(** What comes of each deed, up to the death of the process. *)
Fixpoint deeds_run (rs : list rule) (a : arch) (ds : list deed) (st : sigthread) : list seen :=
  match ds with
  | [] => []
  | d :: ds =>
      match deed_step rs a d st with
      | (SeenKilled, _) => [SeenKilled]
      | (s, st') => s :: deeds_run rs a ds st'
      end
  end.

(** clone(2) and execve(2): the worker keeps the mask of the thread that called Worker::new
    (broker/src/linux/process.rs:148-178 and linux-entrypoint/src/entry.rs:1-295 change no mask);
    of the actions only that of an ignored signal. *)
Definition inherited (blocked : bool) (act : sysact) : sigthread :=
  mkSt blocked (match act with ActIgnored => ActIgnored | _ => ActDefault end) [].
(** lockdown.rs:91-124, with a sigaction that works: a panic if somebody had a handler. *)
Definition install (st : sigthread) : option sigthread :=
  match st_action st with
  | ActDefault | ActIgnored => Some (mkSt (st_blocked st) ActLibrary (st_saved st))
  | ActLibrary | ActOwn => None
  end.
(** A worker: what it does before it calls lower_final_sandbox_privileges, when there is no
    filter, and what it does afterwards. None: the panic. *)
Definition worker_deeds (rs : list rule) (a : arch) (blocked : bool) (act : sysact)
    (before after : list deed) : option (list seen) :=
  match install (fold_left (λ st d, effect d st) before (inherited blocked act)) with
  | None => None
  | Some st => Some (deeds_run rs a after st)
  end.
