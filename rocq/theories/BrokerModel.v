(** Model of broker/src/linux/ipc_loop.rs and broker/src/linux/brokered_syscalls.rs.
    One broker thread and its descriptor table; other threads of the process are in
    ShareModel. *)
From stdpp Require Import prelude gmap.
From Coq Require Import Strings.Byte.
From Verif Require Import Bytes PolicyModel LinuxPolicyModel PostcardModel FdModel ChannelModel.
Local Open Scope N_scope.

Definition EACCES : Z := 13.
Definition ENOSYS : Z := 38.
Definition EINVAL_ : Z := 22.
Definition EMFILE : N := 24.

(** What the broker does that others can see. *)
Inductive bevent :=
  | BCallback (cb : N) (req : lx_request) (v : verdict)  (* a policy log callback ran *)
  | BOpen (path : str) (flags : Z) (mode : Z) (res : result N N) (* open(2) and its answer *)
  | BSent (payload : str) (files : list N)               (* a datagram reached the socket *)
  | BSendFailed.

(** The environment: word size, descriptor limit, largest datagram, the answer of
    open(2) (an open file or an errno) and whether sending works; both may depend on
    everything that happened before. *)
Record benv := mkBenv {
  be_abi : abi;
  be_limit : N;
  be_sndbuf : N;
  be_open : list bevent → str → Z → result N N;
  be_send : list bevent → option N }.

Record bstate := mkBst { bs_tab : fdtab; bs_trace : list bevent }.

Definition log_events (p : policy) (req : lx_request) : list bevent :=
  map (λ '(cb, r, v), BCallback cb r v) (snd (evaluate_request p req)).

(** open(2): O_CLOEXEC (bit 19) sets the descriptor flag; a full table is EMFILE. *)
Definition sys_open (env : benv) (path : str) (flags mode : Z) (s : bstate)
  : result N N * bstate :=
  match be_open env (bs_trace s) path flags with
  | Err e => (Err e, mkBst (bs_tab s) (bs_trace s ++ [BOpen path flags mode (Err e)]))
  | Ok file =>
      match fd_install (be_limit env)
              (mkFd file (if Z.testbit flags 19 then FD_CLOEXEC else 0%Z)) (bs_tab s) with
      | None => (Err EMFILE, mkBst (bs_tab s) (bs_trace s ++ [BOpen path flags mode (Err EMFILE)]))
      | Some (n, t) => (Ok n, mkBst t (bs_trace s ++ [BOpen path flags mode (Ok file)]))
      end
  end.

(** S_IRUSR | S_IWUSR *)
Definition MODE_RW : Z := 384.

(** broker/src/linux/brokered_syscalls.rs:8-35. [CString::new(path).unwrap()] (line
    18) panics when the path holds a NUL byte. *)
Definition proxied_open_file (env : benv) (p : policy) (path : str) (flags : Z) (s : bstate)
  : outcome (Z * option N) * bstate :=
  let s := mkBst (bs_tab s) (bs_trace s ++ log_events p (FileOpen path flags)) in
  match fst (evaluate_request p (FileOpen path flags)) with
  | Granted =>
      if contains [x00] path then (Panicked, s)
      else
        match sys_open env path flags MODE_RW s with
        | (Err e, s) => (Done ((- Z.of_N e)%Z, None), s)
        | (Ok fd, s) =>
            match handle_from_raw fd with
            | None => (Panicked, s)
            | Some h => (Done (0%Z, Some h), s)
            end
        end
  | _ => (Done ((- EACCES)%Z, None), s)
  end.

(** broker/src/linux/brokered_syscalls.rs:37-46 *)
Definition proxied_syscall (p : policy) (nb : Z) (args : list Z) (ip : Z) (s : bstate)
  : outcome (Z * option N) * bstate :=
  (Done ((- ENOSYS)%Z, None),
   mkBst (bs_tab s) (bs_trace s ++ log_events p (Syscall nb args ip))).

(** broker/src/linux/ipc_loop.rs:61-68 *)
Definition dispatch (env : benv) (p : policy) (m : ipc_request) (s : bstate)
  : outcome (Z * option N) * bstate :=
  match m with
  | ReqOpenFile path flags => proxied_open_file env p path flags s
  | ReqSyscall nb args ip => proxied_syscall p nb args ip s
  | ReqInitialization => (Done ((- EINVAL_)%Z, None), s)
  end.

(** channel.send of a response (ipc/src/linux/channel.rs:52-117), the kernel being
    free to refuse (peer gone, ...). *)
Definition broker_send (env : benv) (m : ipc_response_out) (h : option N) (s : bstate)
  : bool * bstate :=
  match be_send env (bs_trace s) with
  | Some _ => (false, mkBst (bs_tab s) (bs_trace s ++ [BSendFailed]))
  | None =>
      match channel_send enc_response (be_abi env) (be_sndbuf env) (bs_tab s) m h
              IPC_MESSAGE_MAX_SIZE with
      | Err _ => (false, mkBst (bs_tab s) (bs_trace s ++ [BSendFailed]))
      | Ok d => (true, mkBst (bs_tab s) (bs_trace s ++ [BSent (dg_payload d) (dg_files d)]))
      end
  end.

(** What became of the thread. *)
Inductive bstatus := Serving | Exited | Crashed.

(** The end of an iteration: the [Handle] is dropped
    (ipc/src/linux/handle.rs:78-90). *)
Definition drop_handle (h : option N) (s : bstate) : outcome bstate :=
  match h with
  | None => Done s
  | Some n =>
      match handle_drop n (bs_tab s) with
      | Done t => Done (mkBst t (bs_trace s))
      | Failed => Failed
      | Panicked => Panicked
      end
  end.

(** One iteration of broker/src/linux/ipc_loop.rs:45-74 on what the socket gives. *)
Definition broker_step (env : benv) (p : policy) (ev : sock_event) (s : bstate)
  : bstatus * bstate :=
  let '(r, t) := channel_recv dec_request (be_abi env) (be_limit env) IPC_MESSAGE_MAX_SIZE
                   ev (bs_tab s) in
  let s := mkBst t (bs_trace s) in
  match r with
  | Ok (Some (m, None)) =>
      match dispatch env p m s with
      | (Done (code, h), s) =>
          let '(sent, s) := broker_send env (OutSyscallResult code) h s in
          match drop_handle h s with
          | Done s => (if sent then Serving else Exited, s)
          | _ => (Crashed, s)
          end
      | (_, s) => (Crashed, s)
      end
  | Ok (Some (_, Some h)) =>
      (* the received handle is dropped with [other] *)
      match drop_handle (Some h) s with
      | Done s => (Exited, s)
      | _ => (Crashed, s)
      end
  | Ok None => (Exited, s)
  | Err _ => (Exited, s)
  end.

(** The loop. Running out of events means waiting for the worker. When the loop ends
    the channel (descriptor [ch]) is dropped. *)
Fixpoint broker_loop (env : benv) (p : policy) (ch : N) (evs : list sock_event) (s : bstate)
  : bstatus * bstate :=
  match evs with
  | [] => (Serving, s)
  | ev :: evs =>
      match broker_step env p ev s with
      | (Serving, s) => broker_loop env p ch evs s
      | (st, s) => (st, mkBst (delete ch (bs_tab s)) (bs_trace s))
      end
  end.

(** broker/src/linux/ipc_loop.rs errors *)
Inductive start_error :=
  | UnexpectedWorkerMessage
  | ProcessExitedDuringInitialization
  | WorkerCommunicationError
  | ThreadCreationFailed.

(** Where a call of [start_ipc_loop] is: still waiting for the first datagram,
    returned an error, panicked, or returned Ok and the thread is in some status. *)
Inductive start_outcome :=
  | StWaiting
  | StErr (e : start_error)
  | StPanic
  | StOk (st : bstatus).

(** broker/src/linux/ipc_loop.rs:8-81. [filter] is the result of
    [compute_seccomp_filter]; an error gives the empty filter (line 28-31). [order]
    is the enumeration order of the policy's maps. [spawn_ok] is the answer of
    thread creation. *)
Definition start_ipc_loop (env : benv) (p : policy) (order : policy_order)
  (filter : result str N) (spawn_ok : bool) (ch : N) (evs : list sock_event) (s : bstate)
  : start_outcome * bstate :=
  let fail e s := (StErr e, mkBst (delete ch (bs_tab s)) (bs_trace s)) in
  match evs with
  | [] => (StWaiting, s)
  | ev :: evs =>
      let '(r, t) := channel_recv dec_request (be_abi env) (be_limit env)
                       IPC_MESSAGE_MAX_SIZE ev (bs_tab s) in
      let s := mkBst t (bs_trace s) in
      match r with
      | Ok (Some (ReqInitialization, None)) =>
          let f := match filter with Ok b => b | Err _ => [] end in
          match broker_send env (OutInitialization order (audit_only p) f) None s with
          | (false, s) => fail WorkerCommunicationError s
          | (true, s) =>
              if spawn_ok then
                let '(st, s) := broker_loop env p ch evs s in (StOk st, s)
              else fail ThreadCreationFailed s
          end
      | Ok (Some (_, h)) =>
          match drop_handle h s with
          | Done s => fail UnexpectedWorkerMessage s
          | _ => (StPanic, s)
          end
      | Ok None => fail ProcessExitedDuringInitialization s
      | Err _ => fail WorkerCommunicationError s
      end
  end.
