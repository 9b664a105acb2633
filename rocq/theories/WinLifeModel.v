(** Workers on Windows from their start to their end: broker/src/worker.rs:18-85 together
    with the thread of broker/src/windows/ipc_loop.rs:9-107, while other threads of the
    program start programs of their own. See [win_worker_new] in WinStartModel for the call
    and [win_thread] in WinBrokerModel for the thread. *)
From stdpp Require Import prelude gmap.
From Coq Require Import Strings.Byte.
From Verif Require Import Bytes PolicyModel EntryModel ProcessModel WinPolicyModel PostcardModel
  TrampolineModel BrokerModel WinBrokerModel WinProcessModel WinStartModel.
Local Open Scope N_scope.

(** worker.rs:80 and ipc_loop.rs:15-104: the thread is spawned and the call returns. What
    the thread returns is lost: its JoinHandle is dropped at line 104. The thread reads
    [rds]. [t] is what its own handles refer to, see [wstate]. *)
Definition win_worker_run (fuel : nat) (env : senv) (we : wenv) (o : policy_order) (c : config)
  (p : policy) (s : sstate) (rds : list wread) (t : gmap N N)
  : option (result win_process broker_error * option (wstatus * wstate)) :=
  match win_worker_new fuel env c p s with
  | None => None
  | Some (Err e, _) => Some (Err e, None)
  | Some (Ok w, s') =>
      Some (Ok w,
        match last (ss_threads s') with
        | None => None
        | Some b => Some (win_thread we (bt_policy b) o (bt_pipe b) (bt_remote b) rds (mkWst t []))
        end)
  end.

(** Another program: when it is started, and the handles it is given: with bInheritHandles
    set and no list, all the inheritable ones, otherwise those on the list. *)
Inductive wstage := WBeforePipe | WBeforeInherit | WBeforeDrop | WAfterDrop.
Record other_program := mkOp { op_when : wstage; op_list : option (list N) }.

(** The broker's handles then: before IpcChannel::new (worker.rs:19), before
    set_inheritable (line 34), before the worker's end is dropped (line 77; handles of
    processes are left out), or later. *)
Definition win_stage_table (fuel : nat) (env : senv) (s : sstate) (st : wstage) : gmap N hentry :=
  match win_channel_new fuel env s with
  | Some (Ok (h1, h2), s1) =>
      let s2 := if se_inherit env then set_inherit h2 s1 else s1 in
      match st with
      | WBeforePipe => ss_tab s
      | WBeforeInherit => ss_tab s1
      | WBeforeDrop => ss_tab s2
      | WAfterDrop => delete h2 (ss_tab s2)
      end
  | _ => ss_tab s
  end.
Definition has_client (t : gmap N hentry) : bool :=
  existsb (λ x : N * hentry, match he_obj x.2 with OClient => true | _ => false end) (map_to_list t).
Definition given_to (op : other_program) (h : N) : bool :=
  match op_list op with None => true | Some l => bool_decide (h ∈ l) end.
Definition program_handles (op : other_program) (t : gmap N hentry) : gmap N hentry :=
  filter (λ x, he_inherit x.2 = true ∧ given_to op x.1 = true) t.

(** ReadFile on the broker's end once all messages are read and the worker has ended: it
    fails with ERROR_BROKEN_PIPE when nobody has the other end any more (ipc/src/windows/channel.rs:225-229),
    otherwise it waits. *)
Definition win_nobody_left (fuel : nat) (env : senv) (s : sstate) (broker : gmap N hentry)
  (others : list other_program) : bool :=
  negb (has_client broker ||
    existsb (λ op, has_client (program_handles op (win_stage_table fuel env s (op_when op)))) others).

(** A worker that writes [sent] and then ends, whatever ends it. The programs in [others]
    run on. *)
Definition win_worker_ended (fuel : nat) (env : senv) (we : wenv) (o : policy_order) (c : config)
  (p : policy) (s : sstate) (sent : list str) (others : list other_program) (t : gmap N N)
  : option (result win_process broker_error * option (wstatus * wstate)) :=
  match win_worker_new fuel env c p s with
  | Some (Ok _, s') =>
      win_worker_run fuel env we o c p s
        ((RdMessage <$> sent) ++
         if win_nobody_left fuel env s (ss_tab s') others then [RdBroken] else []) t
  | _ => win_worker_run fuel env we o c p s [] t
  end.
