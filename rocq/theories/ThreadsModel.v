(** Model of several worker threads sharing one channel to the broker:
    worker/src/linux/lockdown.rs:22-35 (lock and recursion flag), 198-290 (handler) and
    292-303 (exchange under the lock). The broker is any total server; BrokerModel.v is
    put in later. Interleaving is arbitrary. *)
From stdpp Require Import prelude.

(** A server: state after start, and the reply and next state for a request
    (broker/src/linux/ipc_loop.rs:22-79 answers each datagram with one). *)
Record server (Q R : Type) := mkServer {
  sv_state : Type;
  sv_init : sv_state;
  sv_serve : sv_state → Q → R * sv_state }.
Arguments mkServer {Q R} sv_state sv_init sv_serve.
Arguments sv_state {Q R} s.
Arguments sv_init {Q R} s.
Arguments sv_serve {Q R} s _ _.

(** One activation of the signal handler and the exchanges it still has to make.
    [Run]: outside [send_recv]; [Want]: at [get_ipc_channel] (lock, line 297);
    [Hold]: has the lock, before [send] (298); [Wait]: sent, in [recv] (300). *)
Inductive frame (Q : Type) :=
  | Run (todo : list Q)
  | Want (m : Q) (todo : list Q)
  | Hold (m : Q) (todo : list Q)
  | Wait (m : Q) (todo : list Q).
Arguments Run {Q} todo.
Arguments Want {Q} m todo.
Arguments Hold {Q} m todo.
Arguments Wait {Q} m todo.
Definition locked {Q} (f : frame Q) : Prop :=
  match f with Hold _ _ | Wait _ _ => True | _ => False end.

(** The stack of a thread lists its handler activations, the innermost last.
    [ts_flag] is the thread-local [IN_SIGSYS_HANDLER]; [ts_panicked] tells that the
    handler saw it set. The histories [ts_sent] and [ts_recvd] are for stating
    properties and influence nothing. *)
Record tstate {Q R : Type} (sv : server Q R) := mkTs {
  ts_stacks : list (list (frame Q));
  ts_flag : nat → bool;
  ts_panicked : bool;
  ts_mutex : option nat;
  ts_to_broker : list Q;
  ts_to_worker : list R;
  ts_broker : sv_state sv;
  ts_sent : list (nat * Q);
  ts_recvd : list (nat * Q * R) }.
Arguments mkTs {Q R sv}.
Arguments ts_stacks {Q R sv} t.
Arguments ts_flag {Q R sv} t.
Arguments ts_panicked {Q R sv} t.
Arguments ts_mutex {Q R sv} t.
Arguments ts_to_broker {Q R sv} t.
Arguments ts_to_worker {Q R sv} t.
Arguments ts_broker {Q R sv} t.
Arguments ts_sent {Q R sv} t.
Arguments ts_recvd {Q R sv} t.

Definition ts_init {Q R} (sv : server Q R) (threads : nat) : tstate sv :=
  mkTs (replicate threads []) (λ _, false) false None [] [] (sv_init sv) [] [].

(** Replacing the stack of one thread. *)
Definition set_stack {Q R} {sv : server Q R} (t : nat) (st : list (frame Q)) (s : tstate sv)
  : tstate sv :=
  mkTs (<[t := st]> (ts_stacks s)) (ts_flag s) (ts_panicked s) (ts_mutex s) (ts_to_broker s)
    (ts_to_worker s) (ts_broker s) (ts_sent s) (ts_recvd s).

(** worker/src/linux/lockdown.rs:229-236. [*b.borrow_mut() = &true] overwrites the
    closure's own reference; the thread-local stays as it was. *)
Definition guard_flag_after (flag : bool) : bool := flag.

(** Steps of threads that are inside the handler, and of the broker. *)
Inductive work {Q R} {sv : server Q R} : tstate sv → tstate sv → Prop :=
  | W_want s t st m todo :
      ts_stacks s !! t = Some (st ++ [Run (m :: todo)]) →
      work s (set_stack t (st ++ [Want m todo]) s)
  | W_lock s t st m todo :
      ts_stacks s !! t = Some (st ++ [Want m todo]) → ts_mutex s = None →
      work s (mkTs (<[t := st ++ [Hold m todo]]> (ts_stacks s)) (ts_flag s) (ts_panicked s)
        (Some t) (ts_to_broker s) (ts_to_worker s) (ts_broker s) (ts_sent s) (ts_recvd s))
  | W_send s t st m todo :
      ts_stacks s !! t = Some (st ++ [Hold m todo]) →
      work s (mkTs (<[t := st ++ [Wait m todo]]> (ts_stacks s)) (ts_flag s) (ts_panicked s)
        (ts_mutex s) (ts_to_broker s ++ [m]) (ts_to_worker s) (ts_broker s)
        (ts_sent s ++ [(t, m)]) (ts_recvd s))
  | W_recv s t st m todo r rs :
      ts_stacks s !! t = Some (st ++ [Wait m todo]) → ts_to_worker s = r :: rs →
      work s (mkTs (<[t := st ++ [Run todo]]> (ts_stacks s)) (ts_flag s) (ts_panicked s)
        None (ts_to_broker s) rs (ts_broker s) (ts_sent s) (ts_recvd s ++ [(t, m, r)]))
  | W_return s t st :
      ts_stacks s !! t = Some (st ++ [Run []]) → work s (set_stack t st s)
  | W_serve s m ms r b :
      ts_to_broker s = m :: ms → sv_serve sv (ts_broker s) m = (r, b) →
      work s (mkTs (ts_stacks s) (ts_flag s) (ts_panicked s) (ts_mutex s) ms
        (ts_to_worker s ++ [r]) b (ts_sent s) (ts_recvd s)).

(** May a trap hit a thread whose innermost activation is [f]? The code of the handler
    traps only outside [send_recv] (in getcwd and fchdir); another signal of the
    program, which the handler does not block ([sa_mask] is empty, lines 97-98), can
    bring in code that traps anywhere: [anywhere = true]. *)
Definition interruptible {Q} (anywhere : bool) (st : list (frame Q)) : Prop :=
  match last st with None | Some (Run _) => True | Some _ => anywhere = true end.

Inductive step {Q R} {sv : server Q R} (anywhere : bool) : tstate sv → tstate sv → Prop :=
  | S_work s s' : work s s' → step anywhere s s'
  | S_trap s t st todo :
      ts_stacks s !! t = Some st → interruptible anywhere st →
      step anywhere s
        (mkTs (<[t := st ++ [Run todo]]> (ts_stacks s))
          (λ t', if decide (t' = t) then guard_flag_after (ts_flag s t) else ts_flag s t')
          (ts_panicked s || ts_flag s t) (ts_mutex s) (ts_to_broker s) (ts_to_worker s)
          (ts_broker s) (ts_sent s) (ts_recvd s)).

Definition reachable {Q R} {sv : server Q R} (anywhere : bool) (threads : nat) : tstate sv → Prop :=
  rtc (step anywhere) (ts_init sv threads).
