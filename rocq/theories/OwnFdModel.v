(** A worker's own use of descriptor numbers and the channel of its trapped calls, which is
    one of its descriptors: worker/src/lib.rs:13-24 (number from the environment),
    worker/src/linux/lockdown.rs:292-303 (every exchange uses that number). The filter allows
    close, close_range, dup, dup2, dup3 and socketpair whatever their arguments
    (broker/src/linux/seccomp.rs:26, 42, 78-80, 88).

    Simplifications: a trapped call is an open that the rules allow; no limit on the number of
    descriptors; the other end of a socket of the program's own stays open and nobody answers on
    it. *)
From stdpp Require Import prelude gmap.
Local Open Scope N_scope.

Inductive object := Channel | Socket (n : N) | Plain.
(** What a worker does. *)
Inductive op :=
  | OClose (fd : N)
  | OCloseRange (first last : N)
  | ODup (fd : N)
  | ODup2 (fd fd' : N)
  | OPair (n : N)          (* a pair of new sockets, called [n] *)
  | OTrapped.
(** What it sees of it: the numbers it gets, an error, the end of a trapped call. *)
Inductive seen :=
  | Got (fds : list N)
  | Failed
  | Panicked               (* lockdown.rs:298-299: the request could not be sent *)
  | Misdirected (n : N).   (* the request went into a socket, and nobody answers *)

(** POSIX: the lowest number that is free. *)
Fixpoint lowest_from (fuel : nat) (fds : gmap N object) (n : N) : N :=
  match fuel with
  | O => n
  | S fuel => match fds !! n with None => n | Some _ => lowest_from fuel fds (n + 1) end
  end.
Definition lowest (fds : gmap N object) : N := lowest_from (size fds) fds 0.

Definition do_op (ch : N) (fds : gmap N object) (o : op) : gmap N object * seen :=
  match o with
  | OClose fd =>
      match fds !! fd with Some _ => (delete fd fds, Got []) | None => (fds, Failed) end
  | OCloseRange first last => (filter (λ x, ¬ (first ≤ x.1 ≤ last)) fds, Got [])
  | ODup fd =>
      match fds !! fd with
      | Some x => (<[lowest fds := x]> fds, Got [lowest fds])
      | None => (fds, Failed)
      end
  | ODup2 fd fd' =>
      match fds !! fd with
      | Some x => (<[fd' := x]> fds, Got [fd'])
      | None => (fds, Failed)
      end
  | OPair n =>
      let a := lowest fds in
      let fds1 := <[a := Socket n]> fds in
      let b := lowest fds1 in
      (<[b := Socket n]> fds1, Got [a; b])
  | OTrapped =>
      match fds !! ch with
      | Some Channel => (<[lowest fds := Plain]> fds, Got [lowest fds])
      | Some (Socket n) => (fds, Misdirected n)
      | Some Plain | None => (fds, Panicked)
      end
  end.
(** A run: what it saw at each step. A panic or a call that never ends is the end of it. *)
Fixpoint run_ops (ch : N) (fds : gmap N object) (ops : list op) : gmap N object * list seen :=
  match ops with
  | [] => (fds, [])
  | o :: ops =>
      match do_op ch fds o with
      | (fds, Panicked) => (fds, [Panicked])
      | (fds, Misdirected n) => (fds, [Misdirected n])
      | (fds, r) => let '(fds, rs) := run_ops ch fds ops in (fds, r :: rs)
      end
  end.
