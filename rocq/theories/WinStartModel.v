(** Model of starting a worker on Windows: broker/src/worker.rs with ipc/src/windows/channel.rs,
    ipc/src/windows/handle.rs and broker/src/windows/process.rs, over the broker's handle table.
    Also of the named pipe that [IpcChannel::new] makes, with other processes that use its name. *)
From stdpp Require Import prelude gmap.
From Coq Require Import Strings.Byte.
From Verif Require Import Bytes PolicyModel FdModel EntryModel ProcessModel WinProcessModel.
Local Open Scope N_scope.

(* ---------------------------------------------------------------- state *)

(** What a handle of the broker refers to. *)
Inductive hobj :=
  | OServer                 (* the end of the pipe that CreateNamedPipe gives *)
  | OClient                 (* the end that CreateFile gives *)
  | OProcess (p : N)
  | OOther (n : N).
Record hentry := mkHe { he_obj : hobj; he_inherit : bool }.

(** A thread of start_ipc_loop: its channel and policy. *)
Record bthread := mkBth { bt_pipe : N; bt_remote : option N; bt_policy : policy }.

(** Handles of the broker, processes running, what each was given at its creation, threads of
    the broker, and the events of process creation. *)
Record sstate := mkSst {
  ss_tab : gmap N hentry; ss_running : list N; ss_given : list (N * cp_args * gmap N hentry);
  ss_threads : list bthread; ss_events : pstate }.
Definition with_tab (s : sstate) (t : gmap N hentry) : sstate :=
  mkSst t (ss_running s) (ss_given s) (ss_threads s) (ss_events s).

(** Answers of the OS. [se_pick]: the value of a new handle. [se_open]: what OpenProcess finds for
    a process id, with the handles open at that time. *)
Record senv := mkSenv {
  se_pick : gset N → N;
  se_names : str → pipe_answer;
  se_client : bool;                  (* CreateFileA *)
  se_connect : bool;                 (* ConnectNamedPipe *)
  se_mode : bool;                    (* SetNamedPipeHandleState *)
  se_inherit : bool;                 (* SetHandleInformation *)
  se_process : penv;
  se_sys : str → option str;
  se_windir : option str;
  se_open : gmap N hentry → N → option N;
  se_thread : bool }.                (* std::thread::Builder::spawn *)

Definition new_handle (env : senv) (e : hentry) (t : gmap N hentry) : N * gmap N hentry :=
  let h := se_pick env (dom t) in (h, <[h := e]> t).
(** handle.rs:68-82: CloseHandle. *)
Definition close_handle (h : N) (s : sstate) : sstate := with_tab s (delete h (ss_tab s)).

(* ---------------------------------------------------------------- IpcChannel::new *)

(** channel.rs:33-124. Handles are made without security attributes, so they are not inheritable.
    An error drops those made before. [None]: no name is found with [fuel] tries. *)
Definition win_channel_new (fuel : nat) (env : senv) (s : sstate)
  : option (result (N * N) broker_error * sstate) :=
  match find_pipe fuel (se_names env) (pe_own_pid (se_process env)) 0 with
  | None => None
  | Some (Err e) => Some (Err (OsFailed (lit "CreateNamedPipe() failed") e), s)
  | Some (Ok _) =>
      let '(h1, t) := new_handle env (mkHe OServer false) (ss_tab s) in
      let s := with_tab s t in
      if negb (se_client env) then
        Some (Err (OsFailed (lit "CreateFile() failed") 0), close_handle h1 s)
      else
        let '(h2, t) := new_handle env (mkHe OClient false) (ss_tab s) in
        let s := with_tab s t in
        if negb (se_connect env) then
          Some (Err (OsFailed (lit "ConnectNamedPipe() failed") 0), close_handle h1 (close_handle h2 s))
        else if negb (se_mode env) then
          Some (Err (OsFailed (lit "SetNamedPipeHandleState() failed") 0),
                close_handle h1 (close_handle h2 s))
        else Some (Ok (h1, h2), s)
  end.

(* ---------------------------------------------------------------- OSSandboxedProcess *)

(** handle.rs:25-44: [set_inheritable(true)] *)
Definition set_inherit (h : N) (s : sstate) : sstate :=
  with_tab s (alter (λ e, mkHe (he_obj e) true) h (ss_tab s)).
(** handle.rs:46-56: an invalid handle is an error, which also ends Worker::new. *)
Definition inheritable (s : sstate) (h : N) : bool :=
  match ss_tab s !! h with Some e => he_inherit e | None => false end.

(** What a process gets: the inheritable handles on its list, or all if it has none. *)
Definition listed (c : cp_args) (h : N) : bool :=
  forallb (λ a, match a with AHandles l => bool_decide (h ∈ l) | _ => true end) (cp_attrs c).
Definition given_handles (c : cp_args) (t : gmap N hentry) : gmap N hentry :=
  filter (λ x, he_inherit x.2 = true ∧ listed c x.1 = true) t.

(** The process that a trace of events created. *)
Fixpoint created (es : list pevent) : option (cp_args * N) :=
  match es with
  | [] => None
  | PCreate c (Some p) :: _ => Some (c, p)
  | _ :: es => created es
  end.

(** process.rs:174-534 over the handle table; [pe_create] gives the process, [wp_handle] of the
    result the handle to it. The handle of its thread is closed at once (lines 499-501). It stays
    open when the process id cannot be had (lines 502-508). [se_process] answers for this worker,
    so it sees its events only. *)
Definition start_process (fuel : nat) (env : senv) (c : config) (handles : list N) (s : sstate)
  : option (result win_process broker_error * sstate) :=
  match win_process_new fuel (se_process env) (se_sys env) (se_windir env) c handles
          (mkPst [] (ps_next (ss_events s))) with
  | None => None
  | Some (r, ev) =>
      let evs := mkPst (ps_trace (ss_events s) ++ ps_trace ev) (ps_next ev) in
      match created (ps_trace ev) with
      | None => Some (r, mkSst (ss_tab s) (ss_running s) (ss_given s) (ss_threads s) evs)
      | Some (a, p) =>
          let '(hp, t) := new_handle env (mkHe (OProcess p) false) (ss_tab s) in
          Some (match r with Ok w => Ok (mkWp (wp_pid w) hp (wp_container w)) | Err e => Err e end,
                mkSst t (ss_running s ++ [p]) (ss_given s ++ [(p, a, given_handles a (ss_tab s))])
                  (ss_threads s) evs)
      end
  end.
(** process.rs:156-171: the handle is closed and the profile deleted; the process goes on. *)
Definition drop_worker (env : senv) (w : win_process) (s : sstate) : sstate :=
  let s := close_handle (wp_handle w) s in
  mkSst (ss_tab s) (ss_running s) (ss_given s) (ss_threads s)
    (drop_process (se_process env) w (ss_events s)).

(* ---------------------------------------------------------------- Worker::new *)

(** worker.rs:18-85. Errors drop, besides what is said, the channel [h1] and the worker's end
    [h2]. The process id is a DWORD, so channel.rs:137-140 never fails. [permitted] are the
    handles of the policy; search handles for DLLs (C106) are left out. *)
Definition win_worker_new (fuel : nat) (env : senv) (c : config) (p : policy) (s : sstate)
  : option (result win_process broker_error * sstate) :=
  match win_channel_new fuel env s with
  | None => None
  | Some (Err e, s) => Some (Err e, s)
  | Some (Ok (h1, h2), s) =>
      let fail e s := Some (Err e, close_handle h1 (close_handle h2 s)) in
      if negb (se_inherit env) then fail (OsFailed (lit "SetHandleInformation() failed") 0) s
      else
        let s := set_inherit h2 s in
        match win_worker_config (inheritable s) h2 c (elements (inherit_handles p)) with
        | Err e => fail e s
        | Ok (c, handles) =>
            match start_process fuel env c handles s with
            | None => None
            | Some (Err e, s) => fail e s
            | Some (Ok w, s) =>
                match se_open env (ss_tab s) (wp_pid w) with
                | None => fail (OsFailed (lit "unknown OS operation failed, IPC channel does not accept worker PID") 0)
                            (drop_worker env w s)
                | Some q =>
                    let '(hr, t) := new_handle env (mkHe (OProcess q) false) (ss_tab s) in
                    let s := close_handle h2 (with_tab s t) in
                    if negb (se_thread env) then
                      (* the closure of the thread is dropped with the channel *)
                      Some (Err (OsFailed (lit "spawn failed") 0),
                            drop_worker env w (close_handle hr (close_handle h1 s)))
                    else
                      Some (Ok w, mkSst (ss_tab s) (ss_running s) (ss_given s)
                                    (ss_threads s ++ [mkBth h1 (Some hr) (get_runtime_policy p)])
                                    (ss_events s))
                end
            end
        end
  end.

(* ---------------------------------------------------------------- the named pipe *)

(** Instances of a pipe's name: who serves it, who connected. Besides the broker, other processes
    of the same user may serve and connect: the name can be guessed and has the default security
    descriptor (channel.rs:47-58, 72-81). *)
Inductive who := Broker | Other.
Record instance := mkInst { in_server : who; in_client : option who }.
(** The broker allows two instances (channel.rs:52). *)
Definition MAX_INSTANCES : nat := 2.
Inductive other_step := OtherServes | OtherConnects (i : nat).
Definition take_instance (w : who) (i : nat) (l : list instance) : option (list instance) :=
  match l !! i with
  | Some (mkInst o None) => Some (<[i := mkInst o (Some w)]> l)
  | _ => None
  end.
Definition other_act (max : nat) (l : list instance) (a : other_step) : list instance :=
  match a with
  | OtherServes => if decide (length l < max)%nat then l ++ [mkInst Other None] else l
  | OtherConnects i => default l (take_instance Other i l)
  end.

Inductive pipe_end :=
  | PipeMade (l : list instance) (i : nat)     (* the broker serves 0; its other end is on [i] *)
  | PipeFailed
  | PipeWaits.                                 (* ConnectNamedPipe does not return *)

(** channel.rs:46-108: CreateNamedPipe as the first instance, CreateFile, which the OS lets take
    instance [i] if nobody has it, and ConnectNamedPipe, which waits for a client; others act
    before, in between, and while it waits. *)
Definition win_pipe (max : nat) (before between waiting : list other_step) (i : nat) : pipe_end :=
  let l := foldl (other_act max) [mkInst Broker None] before in
  match take_instance Broker i l with
  | None => PipeFailed
  | Some l =>
      let l := foldl (other_act max) l (between ++ waiting) in
      match l !! 0%nat with
      | Some (mkInst _ (Some _)) => PipeMade l i
      | _ => PipeWaits
      end
  end.
