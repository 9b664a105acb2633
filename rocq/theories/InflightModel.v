(** Descriptors on their way in sockets, which the kernel counts per user, and the answers of
    the brokers of several workers of that user: ipc/src/linux/messagepipe.rs:165-221 (answers
    with a descriptor), broker/src/linux/ipc_loop.rs:68-72 (a send that fails ends the
    session). The filter lets a worker make sockets and pass descriptors to itself
    (broker/src/linux/seccomp.rs:14, 88: sendmsg and socketpair). The workers keep the user of
    the program (C114).

    The kernel's side is unix(7) and net/unix/scm.c (too_many_unix_fds): a message with
    descriptors is refused with ETOOMANYREFS when more than RLIMIT_NOFILE descriptors of the
    user are on their way already, unless the sender has CAP_SYS_RESOURCE or CAP_SYS_ADMIN.
    It is not code of the repository.

    Simplifications: one limit for all processes; every open is allowed by the rules and
    succeeds; socket buffers are large enough. *)
From stdpp Require Import prelude.

Record wk := mkWk {
  k_own : nat;        (* descriptors in sockets of the worker's own *)
  k_unread : nat;     (* answers with a descriptor it has not read *)
  k_alive : bool }.   (* its session goes on *)
Definition on_the_way (ws : list wk) : nat := sum_list ((λ w, k_own w + k_unread w) <$> ws).
Definition too_many (limit : nat) (capable : bool) (ws : list wk) : bool :=
  negb capable && bool_decide (limit < on_the_way ws).

Inductive iop :=
  | Pass (i n : nat)     (* worker [i] sends [n] descriptors into a socket of its own *)
  | Drain (i n : nat)    (* and reads [n] of them, or closes that socket *)
  | Ask (i : nat)        (* the broker answers an open of worker [i] *)
  | Read (i : nat).      (* worker [i] reads an answer *)
Definition istep (limit : nat) (capable : bool) (ws : list wk) (o : iop) : list wk :=
  match o with
  | Pass i n =>
      match ws !! i with
      | Some w =>
          (* a worker has no capabilities (C51) *)
          if too_many limit false ws then ws
          else <[i := mkWk (k_own w + n) (k_unread w) (k_alive w)]> ws
      | None => ws
      end
  | Drain i n =>
      match ws !! i with
      | Some w => <[i := mkWk (k_own w - n) (k_unread w) (k_alive w)]> ws
      | None => ws
      end
  | Ask i =>
      match ws !! i with
      | Some w =>
          if negb (k_alive w) then ws
          else if too_many limit capable ws then <[i := mkWk (k_own w) (k_unread w) false]> ws
          else <[i := mkWk (k_own w) (S (k_unread w)) true]> ws
      | None => ws
      end
  | Read i =>
      match ws !! i with
      | Some w => <[i := mkWk (k_own w) (k_unread w - 1) (k_alive w)]> ws
      | None => ws
      end
  end.
Definition irun (limit : nat) (capable : bool) (ws : list wk) (ops : list iop) : list wk :=
  foldl (istep limit capable) ws ops.
(** [n] workers that have just started. *)
Definition fresh_workers (n : nat) : list wk := replicate n (mkWk 0 0 true).
