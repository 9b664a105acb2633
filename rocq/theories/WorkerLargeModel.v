(** The worker's handler on i686-unknown-linux-gnu: WorkerModel.v against the broker of
    BrokerLargeModel.v. The worker's code is the same; every definition is that of WorkerModel.v
    without the "32" in its name. *)
From stdpp Require Import prelude gmap.
From Coq Require Import Strings.Byte.
From Verif Require Import Bytes PolicyModel LinuxPolicyModel PostcardModel FdModel ChannelModel
  BrokerModel WorkerModel LargeFileModel BrokerLargeModel.
Local Open Scope N_scope.

(** worker/src/linux/lockdown.rs:292-303 and the broker's iteration that answers it.
    The lock is free (one thread). *)
Definition send_recv32 (env : wenv) (m : ipc_request) (w : world)
  : hres (ipc_response * option N) * world :=
  let a := be_abi (we_broker env) in
  match channel_send enc_request a (we_sndbuf env) (w_tab w) m None IPC_MESSAGE_MAX_SIZE with
  | Err _ => (HPanic, w)
  | Ok d =>
      let '(st, bs) := broker_step32 (we_broker env) (we_policy env) (EvDatagram d) (w_broker w) in
      let w := mkWorld (w_tab w) bs (w_sent w ++ [m]) (w_dir w) in
      let '(r, t) := channel_recv dec_response a (we_limit env) IPC_MESSAGE_MAX_SIZE
                       (reply_event st (bs_trace bs)) (w_tab w) in
      match r with
      | Ok (Some x) => (HRet x, set_tab w t)
      | _ => (HPanic, set_tab w t)
      end
  end.

(** worker/src/linux/lockdown.rs:37-48: [inl] is a handle, [inr] a negative code. *)
Definition get_fd_for_path_with_perms32 (env : wenv) (path : str) (flags : Z) (w : world)
  : hres (N + Z) * world :=
  match send_recv32 env (ReqOpenFile path flags) w with
  | (HRet (RespSyscallResult _, Some fd), w) => (HRet (inl fd), w)
  | (HRet (RespSyscallResult code, None), w) =>
      if (code <? 0)%Z then (HRet (inr (as_isize (be_abi (we_broker env)) code)), w)
      else (HPanic, w)
  | (HRet (RespInitialization _ _, _), w) => (HPanic, w)
  | (HPanic, w) => (HPanic, w)
  | (HFault, w) => (HFault, w)
  end.

(** worker/src/linux/lockdown.rs:339-345 *)
Definition handle_access32 (env : wenv) (path : str) (mode : Z) (w : world) : hres Z * world :=
  match get_fd_for_path_with_perms32 env path mode w with
  | (HRet (inl fd), w) => drop_and_return fd 0 w
  | (HRet (inr e), w) => (HRet e, w)
  | (HPanic, w) => (HPanic, w)
  | (HFault, w) => (HFault, w)
  end.

(** worker/src/linux/lockdown.rs:347-365. fstat is allowed by the filter; what it
    stores is not modelled. *)
Definition handle_stat32 (env : wenv) (path : str) (w : world) : hres Z * world :=
  match get_fd_for_path_with_perms32 env path O_PATH w with
  | (HRet (inl fd), w) =>
      drop_and_return fd
        (match w_tab w !! fd with
         | None => (- Z.of_N EBADF)%Z
         | Some e => match we_fstat env (fd_file e) with
                     | Some err => (- Z.of_N err)%Z | None => 0%Z end
         end) w
  | (HRet (inr e), w) => (HRet e, w)
  | (HPanic, w) => (HPanic, w)
  | (HFault, w) => (HFault, w)
  end.

(** worker/src/linux/lockdown.rs:383-419 *)
Definition handle_syscall32 (env : wenv) (nb : Z) (args : list Z) (ip : Z) (w : world)
  : hres Z * world :=
  let a := be_abi (we_broker env) in
  match send_recv32 env (ReqSyscall nb args ip) w with
  | (HRet (RespSyscallResult code, h), w) =>
      let response := match h with Some fd => Z.of_N fd | None => as_isize a code end in
      if we_audit env && (response =? - ENOSYS)%Z then (HRet (we_rerun env nb args), w)
      else (HRet response, w)
  | (HRet (RespInitialization _ _, _), w) => (HPanic, w)
  | (HPanic, w) => (HPanic, w)
  | (HFault, w) => (HFault, w)
  end.

(** worker/src/linux/lockdown.rs:367-381. The nested trap of fchdir is forwarded as a
    raw system call (line 278-281); libc turns a negative answer into errno, and the
    handler turns it back. *)
Definition handle_chdir32 (env : wenv) (path : str) (w : world) : hres Z * world :=
  match get_fd_for_path_with_perms32 env path O_PATH w with
  | (HRet (inl fd), w) =>
      let kernel w :=
        match w_tab w !! fd with
        | None => ((- Z.of_N EBADF)%Z, w)
        | Some e => match we_fchdir env (fd_file e) with
                    | Some err => ((- Z.of_N err)%Z, w)
                    | None => (0%Z, mkWorld (w_tab w) (w_broker w) (w_sent w) (fd_file e))
                    end
        end in
      if we_filtered env then
        match send_recv32 env (ReqSyscall (SYS_fchdir (be_abi (we_broker env)))
                (Z.of_N fd :: tail (we_getcwd_args env)) (we_getcwd_ip env)) w with
        | (HRet (RespSyscallResult code, None), w) =>
            if we_audit env && (code =? - ENOSYS)%Z
            then let '(v, w) := kernel w in drop_and_return fd v w
            else drop_and_return fd (as_isize (be_abi (we_broker env)) code) w
        | (HFault, w) => (HFault, w)
        | (_, w) => (HPanic, w)
        end
      else let '(v, w) := kernel w in drop_and_return fd v w
  | (HRet (inr e), w) => (HRet e, w)
  | (HPanic, w) => (HPanic, w)
  | (HFault, w) => (HFault, w)
  end.

(** Rust std [env::current_dir] calls glibc's getcwd. With a filter loaded its system
    call traps and is forwarded; only the audit mode runs it in the end. Without one
    the kernel answers. *)
Definition current_dir32 (env : wenv) (w : world) : hres (option str) * world :=
  if we_filtered env then
    match send_recv32 env (ReqSyscall (nr_getcwd (nos (be_abi (we_broker env))))
            (we_getcwd_args env) (we_getcwd_ip env)) w with
    | (HRet (RespSyscallResult code, None), w) =>
        (HRet (if we_audit env && (code =? - ENOSYS)%Z then we_cwd env else None), w)
    | (HFault, w) => (HFault, w)
    | (_, w) => (HPanic, w)
    end
  else (HRet (we_cwd env), w).

(** worker/src/linux/lockdown.rs:305-337. The mode is not used. *)
Definition openat_request32 (env : wenv) (path : str) (flags : Z) (w : world) : hres Z * world :=
  match send_recv32 env (ReqOpenFile path flags) w with
  | (HRet (RespSyscallResult _, Some h), w) => (HRet (Z.of_N h), w)
  | (HRet (RespSyscallResult code, None), w) =>
      (HRet (as_isize (be_abi (we_broker env)) code), w)
  | (HRet (RespInitialization _ _, _), w) => (HPanic, w)
  | (HPanic, w) => (HPanic, w)
  | (HFault, w) => (HFault, w)
  end.
Definition handle_openat32 (env : wenv) (path : str) (flags mode : Z) (w : world)
  : hres Z * world :=
  if starts_with_byte slash path then openat_request32 env path flags w
  else
    match current_dir32 env w with
    | (HRet cwd, w) => openat_request32 env (absolute cwd path) flags w
    | (HPanic, w) => (HPanic, w)
    | (HFault, w) => (HFault, w)
    end.

(** worker/src/linux/lockdown.rs:198-290 for a genuine seccomp signal: [nr], [a0]..[a5]
    and [ip] are the saved registers; the result is what is stored in the result
    register. The recursion flag has no effect (see ThreadsModel.v). *)
Definition sigsys_handler32 (env : wenv) (nr a0 a1 a2 a3 a4 a5 ip : Z) (w : world)
  : hres Z * world :=
  let n := nos (be_abi (we_broker env)) in
  let with_path ptr k :=
    match read_string_from_ptr env ptr with
    | None => (HFault, w)
    | Some path => k path
    end in
  if (nr =? nr_access n)%Z then with_path a0 (λ p, handle_access32 env p (as_i32 a1) w)
  else if (nr =? nr_stat n)%Z then with_path a0 (λ p, handle_stat32 env p w)
  else if (nr =? nr_open n)%Z then
    with_path a0 (λ p, handle_openat32 env p (as_i32 a1) (as_i32 a2) w)
  else
    let other := handle_syscall32 env nr [a0; a1; a2; a3; a4; a5] ip w in
    if (nr =? nr_openat n)%Z then
      if (as_i32 a0 =? AT_FDCWD)%Z then
        with_path a1 (λ p, handle_openat32 env p (as_i32 a2) (as_i32 a3) w)
      else
        match we_mem env a1 with
        | None => (HFault, w)
        | Some s =>
            if starts_with_byte slash s
            then with_path a1 (λ p, handle_openat32 env p (as_i32 a2) (as_i32 a3) w)
            else other
        end
    else if (nr =? nr_chdir n)%Z then with_path a0 (λ p, handle_chdir32 env p w)
    else other.
