(** A worker program that starts processes before it calls the lowering function:
    worker/src/lib.rs:10-27 and worker/src/linux/lockdown.rs:47-75 (handshake),
    worker/src/linux/lockdown.rs:36-45 and 292-303 (trapped calls),
    broker/src/linux/ipc_loop.rs:22-72. Before the lowering nothing is filtered, so fork works;
    the child has a copy of the variable, of the descriptor and of all memory, and the socket
    is the same. After it, fork, vfork, clone and execve are trapped and answered with ENOSYS
    (C44, C26).

    Simplifications: a process has one thread; the filter is one step and does not fail
    (SeccompModel); only requests of the library are sent. *)
From stdpp Require Import prelude.

Inductive request := Init | Ask (k : nat).
(** [InitAnswer]: an InitializationResponse. [Refusal]: SyscallResult(-EINVAL), without a
    descriptor. [Answer k]: the outcome of the request [k]. *)
Inductive response := InitAnswer | Refusal | Answer (k : nat).
Global Instance response_eq_dec : EqDecision response.
Proof. solve_decision. Defined.

Inductive proc :=
  | Fresh                (* has not called the lowering function; nothing is filtered *)
  | Asking               (* lockdown.rs:59-61: waits for the handshake's answer *)
  | Lowered              (* the filter is loaded *)
  | Calling (k : nat)    (* the filter is loaded; lockdown.rs:300: waits for an answer *)
  | Gone.                (* panicked *)
Record fstate := mkF {
  f_procs : list proc;
  f_reqs : list request; f_resps : list response;   (* in the socket, either way *)
  f_greeted : bool;                   (* the broker's thread has answered its first request *)
  f_next : nat;                       (* trapped calls so far *)
  f_lowered : nat;                    (* times the lowering function has returned *)
  f_got : list (nat * response) }.    (* trapped calls and what they got *)

Inductive label := LFork (i : nat) | LOther.
Inductive fstep : label → fstate → fstate → Prop :=
  | F_fork i ps qs rs g n d got :
      ps !! i = Some Fresh →
      fstep (LFork i) (mkF ps qs rs g n d got) (mkF (ps ++ [Fresh]) qs rs g n d got)
  (* lib.rs:13-23, lockdown.rs:59 *)
  | F_lower i ps qs rs g n d got :
      ps !! i = Some Fresh →
      fstep LOther (mkF ps qs rs g n d got) (mkF (<[i := Asking]> ps) (qs ++ [Init]) rs g n d got)
  (* lockdown.rs:61-75 *)
  | F_lowered i ps qs rs g n d got :
      ps !! i = Some Asking →
      fstep LOther (mkF ps qs (InitAnswer :: rs) g n d got) (mkF (<[i := Lowered]> ps) qs rs g n (S d) got)
  | F_panic i ps qs r rs g n d got :
      ps !! i = Some Asking → r ≠ InitAnswer →
      fstep LOther (mkF ps qs (r :: rs) g n d got) (mkF (<[i := Gone]> ps) qs rs g n d got)
  (* lockdown.rs:298 *)
  | F_call i ps qs rs g n d got :
      ps !! i = Some Lowered →
      fstep LOther (mkF ps qs rs g n d got)
        (mkF (<[i := Calling n]> ps) (qs ++ [Ask n]) rs g (S n) d got)
  (* lockdown.rs:300-302, 41-43 *)
  | F_answer i k ps qs r rs g n d got :
      ps !! i = Some (Calling k) → r ≠ InitAnswer →
      fstep LOther (mkF ps qs (r :: rs) g n d got)
        (mkF (<[i := Lowered]> ps) qs rs g n d (got ++ [(k, r)]))
  | F_bad_answer i k ps qs rs g n d got :
      ps !! i = Some (Calling k) →
      fstep LOther (mkF ps qs (InitAnswer :: rs) g n d got)
        (mkF (<[i := Gone]> ps) qs rs g n d (got ++ [(k, InitAnswer)]))
  (* ipc_loop.rs:22-42: the first request; anything else than Init ends the session (C27) *)
  | F_greet ps qs rs n d got :
      fstep LOther (mkF ps (Init :: qs) rs false n d got) (mkF ps qs (rs ++ [InitAnswer]) true n d got)
  (* ipc_loop.rs:61-68 *)
  | F_serve k ps qs rs n d got :
      fstep LOther (mkF ps (Ask k :: qs) rs true n d got) (mkF ps qs (rs ++ [Answer k]) true n d got)
  | F_refuse ps qs rs n d got :
      fstep LOther (mkF ps (Init :: qs) rs true n d got) (mkF ps qs (rs ++ [Refusal]) true n d got).
Definition fany (s s' : fstate) : Prop := ∃ l, fstep l s s'.
Definition alone (s s' : fstate) : Prop := fstep LOther s s'.
(** The worker as execve starts it. *)
Definition f_start : fstate := mkF [Fresh] [] [] false 0 0 [].
