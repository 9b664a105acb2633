(** Opens that wait: the threads of a worker share one channel and one thread of the broker
    (worker/src/linux/lockdown.rs:292-303, broker/src/linux/ipc_loop.rs:45-72), and the
    open(2) of broker/src/linux/brokered_syscalls.rs:20 waits on a FIFO for the other end
    (fifo(7)). ThreadsModel shows that the exchanges follow one another; here each is one
    or two steps. Paths are absolute.

    Simplification: an end of a FIFO, once somebody opened it or waits with it, stays. *)
From stdpp Require Import prelude gmap.
From Verif Require Import Bytes PolicyModel LinuxPolicyModel.
Local Open Scope N_scope.

(** The trapped calls that name a path. *)
Inductive call :=
  | COpen (path : str) (flags : Z)
  | CAccess (path : str) (mode : Z)
  | CStat (path : str)
  | CChdir (path : str).
(** What the worker asks the broker for: lockdown.rs:329 (open), 341 (access: the mode is
    taken as the flags), 352 and 368 (stat and chdir). *)
Definition asked (c : call) : str * Z :=
  match c with
  | COpen path flags => (path, flags)
  | CAccess path mode => (path, mode)
  | CStat path | CChdir path => (path, O_PATH)
  end.

Inductive fend := ReadEnd | WriteEnd.
Definition other (e : fend) : fend := match e with ReadEnd => WriteEnd | WriteEnd => ReadEnd end.
Global Instance fend_eq_dec : EqDecision fend.
Proof. solve_decision. Defined.
Global Instance fend_countable : Countable fend.
Proof.
  refine (inj_countable' (λ e, match e with ReadEnd => true | WriteEnd => false end)
    (λ b, if b : bool then ReadEnd else WriteEnd) _).
  by intros [].
Defined.

(** fifo(7): with which end an open of a FIFO waits for the other one, if it does. Bit 21:
    path only. Bit 11: do not wait. The two lowest bits: 0 read, 1 write, else both. *)
Definition waits_with (flags : Z) : option fend :=
  if Z.testbit flags 21 || Z.testbit flags 11 then None
  else if (flags mod 4 =? 0)%Z then Some ReadEnd
  else if (flags mod 4 =? 1)%Z then Some WriteEnd
  else None.
(** [kind] tells which paths are FIFOs. *)
Definition open_waits (kind : str → option N) (path : str) (flags : Z) : option (N * fend) :=
  match kind path, waits_with flags with
  | Some f, Some e => Some (f, e)
  | _, _ => None
  end.

(* ---------------------------------------------------------------- without the sandbox *)

(** A thread: the end it waits with, and the calls to come. *)
Notation thread := (option (N * fend) * list call)%type.
Record dstate := mkD { d_ends : gset (N * fend); d_threads : list thread }.
(** Only open waits. *)
Definition direct_waits (kind : str → option N) (c : call) : option (N * fend) :=
  match c with COpen path flags => open_waits kind path flags | _ => None end.
Inductive dstep (kind : str → option N) : dstate → dstate → Prop :=
  | D_call s i c p :
      d_threads s !! i = Some (None, c :: p) →
      dstep kind s
        (mkD (match direct_waits kind c with Some x => {[x]} ∪ d_ends s | None => d_ends s end)
             (<[i := (direct_waits kind c, p)]> (d_threads s)))
  | D_opened s i f e p :
      d_threads s !! i = Some (Some (f, e), p) → (f, other e) ∈ d_ends s →
      dstep kind s (mkD (d_ends s) (<[i := (None, p)]> (d_threads s))).

(* ---------------------------------------------------------------- with the sandbox *)

(** [b_open]: the broker's thread is in open(2) for this thread of the worker. [b_alive]:
    the worker lives. [b_served]: the broker's thread has not ended. [b_answers] counts the
    answers each thread got. *)
Record bstate := mkB {
  b_ends : gset (N * fend);
  b_open : option (nat * (N * fend));
  b_threads : list (list call);
  b_answers : nat → nat;
  b_alive : bool;
  b_served : bool }.
Definition granted (p : policy) (path : str) (flags : Z) : bool :=
  match fst (evaluate_request p (FileOpen path flags)) with Granted => true | _ => false end.
Definition asked_waits (kind : str → option N) (p : policy) (c : call) : option (N * fend) :=
  let '(path, flags) := asked c in
  if granted p path flags then open_waits kind path flags else None.
Definition answer (i : nat) (a : nat → nat) : nat → nat :=
  λ j, if decide (i = j) then S (a j) else a j.

(** [out]: what a program outside does at this step: it opens an end of a FIFO. *)
Inductive bstep (kind : str → option N) (p : policy) : option (N * fend) → bstate → bstate → Prop :=
  (* ipc_loop.rs:47-61: a request that is answered at once *)
  | B_answer ends ts a i c r :
      ts !! i = Some (c :: r) → asked_waits kind p c = None →
      bstep kind p None (mkB ends None ts a true true)
        (mkB ends None (<[i := r]> ts) (answer i a) true true)
  (* brokered_syscalls.rs:20: open(2) is entered; the thread keeps the lock of the channel *)
  | B_enter ends ts a i c r x :
      ts !! i = Some (c :: r) → asked_waits kind p c = Some x →
      bstep kind p None (mkB ends None ts a true true)
        (mkB ({[x]} ∪ ends) (Some (i, x)) (<[i := r]> ts) a true true)
  (* open(2) returns, and the answer is sent *)
  | B_opened ends ts a i f e alive :
      (f, other e) ∈ ends →
      bstep kind p None (mkB ends (Some (i, (f, e))) ts a alive true)
        (mkB ends None ts (if alive then answer i a else a) alive true)
  | B_killed ends o ts a served :
      bstep kind p None (mkB ends o ts a true served) (mkB ends o [] a false served)
  (* ipc_loop.rs:49-52: the channel is closed *)
  | B_end ends ts a :
      bstep kind p None (mkB ends None ts a false true) (mkB ends None ts a false false)
  | B_outside ends o ts a alive served x :
      bstep kind p (Some x) (mkB ends o ts a alive served) (mkB ({[x]} ∪ ends) o ts a alive served).

Definition d_init (ends : gset (N * fend)) (progs : list (list call)) : dstate :=
  mkD ends (map (λ p, (None, p)) progs).
Definition b_init (ends : gset (N * fend)) (progs : list (list call)) : bstate :=
  mkB ends None progs (λ _, 0%nat) true true.
