(** The broker's request loop on i686-unknown-linux-gnu: BrokerModel.v with the policy of
    LargeFileModel.v, where O_LARGEFILE is a flag of its own. *)
From stdpp Require Import prelude gmap.
From Coq Require Import Strings.Byte.
From Verif Require Import Bytes PolicyModel LinuxPolicyModel PostcardModel FdModel ChannelModel
  BrokerModel LargeFileModel.
Local Open Scope N_scope.

(** policy/src/linux/policy.rs:27-39 and policy/src/policy.rs: the log callbacks. *)
Definition log_events32 (p : policy) (req : lx_request) : list bevent :=
  map (λ '(cb, r, v), BCallback cb r v) (snd (evaluate_request32 p req)).

(** broker/src/linux/brokered_syscalls.rs:8-35, as [proxied_open_file]. *)
Definition proxied_open_file32 (env : benv) (p : policy) (path : str) (flags : Z) (s : bstate)
  : outcome (Z * option N) * bstate :=
  let s := mkBst (bs_tab s) (bs_trace s ++ log_events32 p (FileOpen path flags)) in
  match fst (evaluate_request32 p (FileOpen path flags)) with
  | Granted =>
      if contains [x00] path then (Panicked, s)
      else
        match sys_open env path flags MODE_RW s with
        | (Err e, s) => (Done ((- Z.of_N e)%Z, None), s)
        | (Ok fd, s) =>
            match handle_from_raw fd with
            | None => (Panicked, s)
            | Some h => (Done (0%Z, Some h), s)
            end
        end
  | _ => (Done ((- EACCES)%Z, None), s)
  end.

(** broker/src/linux/brokered_syscalls.rs:37-46 *)
Definition proxied_syscall32 (p : policy) (nb : Z) (args : list Z) (ip : Z) (s : bstate)
  : outcome (Z * option N) * bstate :=
  (Done ((- ENOSYS)%Z, None),
   mkBst (bs_tab s) (bs_trace s ++ log_events32 p (Syscall nb args ip))).

(** broker/src/linux/ipc_loop.rs:61-68 *)
Definition dispatch32 (env : benv) (p : policy) (m : ipc_request) (s : bstate)
  : outcome (Z * option N) * bstate :=
  match m with
  | ReqOpenFile path flags => proxied_open_file32 env p path flags s
  | ReqSyscall nb args ip => proxied_syscall32 p nb args ip s
  | ReqInitialization => (Done ((- EINVAL_)%Z, None), s)
  end.

(** broker/src/linux/ipc_loop.rs:45-74, one iteration, as [broker_step]. *)
Definition broker_step32 (env : benv) (p : policy) (ev : sock_event) (s : bstate)
  : bstatus * bstate :=
  let '(r, t) := channel_recv dec_request (be_abi env) (be_limit env) IPC_MESSAGE_MAX_SIZE
                   ev (bs_tab s) in
  let s := mkBst t (bs_trace s) in
  match r with
  | Ok (Some (m, None)) =>
      match dispatch32 env p m s with
      | (Done (code, h), s) =>
          let '(sent, s) := broker_send env (OutSyscallResult code) h s in
          match drop_handle h s with
          | Done s => (if sent then Serving else Exited, s)
          | _ => (Crashed, s)
          end
      | (_, s) => (Crashed, s)
      end
  | Ok (Some (_, Some h)) =>
      match drop_handle (Some h) s with
      | Done s => (Exited, s)
      | _ => (Crashed, s)
      end
  | Ok None => (Exited, s)
  | Err _ => (Exited, s)
  end.

(** The loop, as [broker_loop]. *)
Fixpoint broker_loop32 (env : benv) (p : policy) (ch : N) (evs : list sock_event) (s : bstate)
  : bstatus * bstate :=
  match evs with
  | [] => (Serving, s)
  | ev :: evs =>
      match broker_step32 env p ev s with
      | (Serving, s) => broker_loop32 env p ch evs s
      | (st, s) => (st, mkBst (delete ch (bs_tab s)) (bs_trace s))
      end
  end.
