(** A Windows worker and its broker thread together: the hooks of worker/src/windows/lockdown.rs
    at one end of the pipe, the loop of broker/src/windows/ipc_loop.rs at the other. *)
From stdpp Require Import prelude gmap.
From Coq Require Import Strings.Byte.
From Verif Require Import Bytes PolicyModel PostcardModel TrampolineModel WinPolicyModel
  WinBrokerModel WinHookModel.
Local Open Scope Z_scope.

(** A call of a hooked function, lockdown.rs:512-728. *)
Inductive hcall := HFile (a : file_args) | HOpen (a : open_args) | HKey (a : key_args).
Definition hook (w : width) (tr : pipe) (c : hcall) : list str * hook_end :=
  match c with
  | HFile a => hook_ntcreatefile w tr a
  | HOpen a => hook_ntopenfile w tr a
  | HKey a => hook_ntcreatekey w tr a
  end.

(** The last message written to the pipe. *)
Fixpoint last_sent (tr : list wevent) : option str :=
  match tr with
  | [] => None
  | WSent b :: r => Some (default b (last_sent r))
  | _ :: r => last_sent r
  end.
Definition new_events (s s' : wstate) : list wevent := drop (length (ws_trace s)) (ws_trace s').

(** ipc_loop.rs:34-99: what the worker reads after message [b]: the answer, or the end of the
    pipe when the thread ends; its channel is dropped then. *)
Definition broker_answer (env : wenv) (p : policy) (ch : N) (ph : option N) (b : str) (s : wstate)
  : wread * (wstatus * wstate) :=
  match win_step env p (RdMessage b) s with
  | (WServing, s') =>
      (match last_sent (new_events s s') with Some b' => RdMessage b' | None => RdBroken end,
       (WServing, s'))
  | (st, s') => (RdBroken, (st, win_end ch ph s'))
  end.

(** The thread of the broker while the worker runs. *)
Definition world : Type := wstatus * wstate.
(** The pipe of the worker: writing fails once the thread has ended. *)
Definition world_pipe (env : wenv) (p : policy) (ch : N) (ph : option N) (x : world) : pipe := λ b,
  match x with
  | (WServing, s) => Some (fst (broker_answer env p ch ph b s))
  | _ => None
  end.
Definition world_step (env : wenv) (p : policy) (ch : N) (ph : option N) (x : world)
  (sent : list str) : world :=
  match x, sent with
  | (WServing, s), b :: _ => snd (broker_answer env p ch ph b s)
  | _, _ => x
  end.

(** A hooked call: lockdown.rs:730-743 sends one message at most, under a mutex. *)
Definition world_call (w : width) (env : wenv) (p : policy) (ch : N) (ph : option N) (c : hcall)
  (x : world) : hook_end * world :=
  let '(sent, r) := hook w (world_pipe env p ch ph x) c in
  (r, world_step env p ch ph x sent).

(** A worker makes calls one after the other; a panic ends it. *)
Fixpoint world_run (w : width) (env : wenv) (p : policy) (ch : N) (ph : option N)
  (cs : list hcall) (x : world) : list hook_end * world :=
  match cs with
  | [] => ([], x)
  | c :: cs =>
      match world_call w env p ch ph c x with
      | (Panicked, x) => ([Panicked], x)
      | (r, x) => let '(rs, x) := world_run w env p ch ph cs x in (r :: rs, x)
      end
  end.

(** ipc_loop.rs:17-32 and lockdown.rs:744-771: the handshake comes first; no function is hooked,
    and no call made, before it is over. [None]: it failed, the worker panicked. *)
Definition world_start (env : wenv) (p : policy) (o : policy_order) (ch : N) (ph : option N)
  (t : gmap N N) : option world :=
  let tr : pipe := λ b,
    Some (match win_thread env p o ch ph [RdMessage b] (mkWst t []) with
          | (WServing, s) => match last_sent (ws_trace s) with Some b' => RdMessage b' | None => RdBroken end
          | _ => RdBroken
          end) in
  match win_worker_init tr with
  | (b :: _, true) => Some (win_thread env p o ch ph [RdMessage b] (mkWst t []))
  | _ => None
  end.
Definition world_session (w : width) (env : wenv) (p : policy) (o : policy_order) (ch : N)
  (ph : option N) (t : gmap N N) (cs : list hcall) : option (list hook_end * world) :=
  match world_start env p o ch ph t with
  | Some x => Some (world_run w env p ch ph cs x)
  | None => None
  end.
