(** Ended workers in the process table (Linux): broker/src/linux/process.rs:97-178 with
    clone(2), wait4(2) and what execve(2) does to the exit signal. The library itself never
    waits for a process; the program may. *)
From stdpp Require Import prelude gmap.
From Coq Require Import Strings.Byte.
From Verif Require Import Bytes PolicyModel LinuxPolicyModel FdModel ChannelModel BrokerModel
  SeccompModel EntryModel ProcessModel.
Local Open Scope Z_scope.

Definition SIGCHLD : Z := 17.
Definition WALL : Z := 0x40000000.
Definition WCLONE : Z := 0x80000000.

(** process.rs:104-106, 157-162: the flags given to clone(2). *)
Definition clone_word (fl : clone_flags) : Z :=
  Z.lor (if newuser fl then 0x10000000 else 0) (if newpid fl then 0x20000000 else 0).
(** The signal sent at the end of the process: the low byte of the flags, until execve(2)
    makes it SIGCHLD (fs/exec.c, de_thread). *)
Definition exit_signal (fl : clone_flags) (r : ep_result) : Z :=
  match r with
  | EpExited _ => Z.land (clone_word fl) 0xff
  | EpStarted _ => SIGCHLD
  end.

(** A child of the program. *)
Record kid := mkKid { k_pid : N; k_signal : Z; k_ended : bool }.
(** What the program does with SIGCHLD; [SigIgnored] is also SA_NOCLDWAIT. *)
Inductive disposition := SigDefault | SigHandled | SigIgnored.

(** exit(2): the child stays until it is waited for, unless it is one of those that the
    program does not want to hear of (kernel/signal.c, do_notify_parent). *)
Definition at_end (d : disposition) (k : kid) : list kid :=
  match d with
  | SigIgnored => if k_signal k =? SIGCHLD then [] else [mkKid (k_pid k) (k_signal k) true]
  | _ => [mkKid (k_pid k) (k_signal k) true]
  end.
(** wait4(2) (kernel/exit.c, eligible_child); [None] stands for the pid -1. *)
Definition eligible (who : option N) (opts : Z) (k : kid) : bool :=
  match who with None => true | Some pid => N.eqb (k_pid k) pid end &&
  (negb (Z.land opts WALL =? 0) ||
   Bool.eqb (negb (k_signal k =? SIGCHLD)) (negb (Z.land opts WCLONE =? 0))).

(** What happens to the children of the program. *)
Inductive kid_event :=
  | KNew (ne : new_env) (c : config) (p : policy) (evs : list sock_event) (t : fdtab)
                                      (* a call of Worker::new *)
  | KEnds (pid : N)                   (* the child ends *)
  | KWait (who : option N) (opts : Z).
Fixpoint reap_one (who : option N) (opts : Z) (ks : list kid) : list kid :=
  match ks with
  | [] => []
  | k :: ks => if k_ended k && eligible who opts k then ks else k :: reap_one who opts ks
  end.
Definition kid_step (d : disposition) (ks : list kid) (e : kid_event) : list kid :=
  match e with
  | KNew ne c p evs t =>
      match wo_child (worker_new ne c p evs t) with
      | None => ks
      | Some (fl, r) =>
          let k := mkKid (pe_pid (ne_proc ne)) (exit_signal fl r) false in
          match r with
          | EpExited _ => ks ++ at_end d k
          | EpStarted _ => ks ++ [k]
          end
      end
  | KEnds pid =>
      ks ≫= (λ k, if N.eqb (k_pid k) pid && negb (k_ended k) then at_end d k else [k])
  | KWait who opts => reap_one who opts ks
  end.
Definition kids (d : disposition) (es : list kid_event) : list kid := foldl (kid_step d) [] es.

(** A loop of waitpid(-1, ...) until it finds nothing. *)
Fixpoint wait_loop (fuel : nat) (opts : Z) (ks : list kid) : list kid :=
  match fuel with
  | O => ks
  | S fuel => wait_loop fuel opts (reap_one None opts ks)
  end.
