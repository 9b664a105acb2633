(** Several workers of one program, each with its policy, and the descriptors they pass to each
    other: the filter allows sendmsg, recvmsg and socketpair whatever their arguments
    (broker/src/linux/seccomp.rs:13-14, 88) and neither socket nor connect nor bind, so the
    sockets of a worker are those it was given (linux-entrypoint/src/entry.rs:230-255,
    broker/src/linux/process.rs:60-95: redirected streams and inherited handles), those it
    received and the pairs it made. Files come from the broker
    (broker/src/linux/ipc_loop.rs:45-72, brokered_syscalls.rs:9-30), or were given or received.
    The kernel's side is unix(7); it is not code of the repository.

    Simplifications: a worker's descriptors are a list of what they refer to; a message
    carries one descriptor; the sockets to the broker, which passes nothing on (C28, C119),
    are left out, and so are messages to a name (UnixSendModel, C172): no worker is given a datagram socket
    that has one. *)
From stdpp Require Import prelude gmap.
From Verif Require Import Bytes PolicyModel LinuxPolicyModel FifoModel OfdModel.
Local Open Scope N_scope.

(** What a descriptor refers to: a file open for reading or writing, or one end of a pair of
    connected sockets. *)
Inductive obj :=
  | OFile (i : N) (rd wr : bool)
  | OSock (s : N) (side : bool).
Global Instance obj_eq_dec : EqDecision obj.
Proof. solve_decision. Defined.

(** Descriptors of each worker; what was sent from an end of a socket and not yet received; the
    next socket. *)
Record pworld := mkP {
  p_has : list (list obj); p_queue : gmap (N * bool) (list obj); p_next : N }.

Inductive pop :=
  | POpen (path : str) (flags : Z)
  | PPair
  | PSend (s : N) (side : bool) (o : obj)
  | PRecv (s : N) (side : bool)
  | PClose (o : obj).

Definition of (w : nat) (p : pworld) : list obj := default [] (p_has p !! w).
Definition give (w : nat) (os : list obj) (p : pworld) : pworld :=
  mkP (alter (λ l, os ++ l) w (p_has p)) (p_queue p) (p_next p).
Definition sent (s : N) (side : bool) (p : pworld) : list obj := default [] (p_queue p !! (s, side)).

(** What an open gives: as [open_ofd]. *)
Definition file_obj (i : N) (flags : Z) : obj :=
  OFile i (o_read (open_ofd i flags)) (o_write (open_ofd i flags)).

(** What worker [w], with policy [pol], does. *)
Definition pstep (look : str → option N) (pols : nat → policy) (p : pworld) (x : nat * pop) : pworld :=
  let '(w, o) := x in
  match o with
  | POpen path flags =>
      if granted (pols w) path flags then
        match look path with Some i => give w [file_obj i flags] p | None => p end
      else p
  | PPair =>
      let p1 := give w [OSock (p_next p) false; OSock (p_next p) true] p in
      mkP (p_has p1) (p_queue p1) (p_next p + 1)
  | PSend s side o =>
      if bool_decide (OSock s side ∈ of w p) && bool_decide (o ∈ of w p) then
        mkP (p_has p) (<[(s, side) := sent s side p ++ [o]]> (p_queue p)) (p_next p)
      else p
  | PRecv s side =>
      if bool_decide (OSock s side ∈ of w p) then
        match sent s (negb side) p with
        | o :: rest =>
            give w [o] (mkP (p_has p) (<[(s, negb side) := rest]> (p_queue p)) (p_next p))
        | [] => p
        end
      else p
  | PClose o => mkP (alter (filter (λ o', o' ≠ o)) w (p_has p)) (p_queue p) (p_next p)
  end.
Definition prun (look : str → option N) (pols : nat → policy) (p : pworld) (xs : list (nat * pop)) :
    pworld :=
  foldl (pstep look pols) p xs.
