(** The thread's [errno] while a trapped system call is handled:
    worker/src/linux/lockdown.rs:198-419. The signal handler runs on the thread that made the
    call, so what the C library stores there is what the program finds. *)
From stdpp Require Import prelude gmap.
From Verif Require Import Bytes PolicyModel LinuxPolicyModel PostcardModel FdModel ChannelModel
  BrokerModel WorkerModel.
Local Open Scope Z_scope.

(** A function of the C library around a system call that returned [v]: it stores the code of
    a failure and leaves [errno] alone otherwise. *)
Definition libc_errno (v e : Z) : Z := if (-4095 <=? v) && (v <=? -1) then - v else e.

(** lockdown.rs:352-363: 0 is stored before fstat. sendmsg, recvmsg and close do not fail in a
    handler that returns. *)
Definition errno_stat (env : wenv) (path : str) (w : world) (e : Z) : Z :=
  match get_fd_for_path_with_perms env path O_PATH w with
  | (HRet (inl fd), w) =>
      libc_errno (match w_tab w !! fd with
                  | None => - Z.of_N EBADF
                  | Some x => match we_fstat env (fd_file x) with
                              | Some err => - Z.of_N err | None => 0 end
                  end) 0
  | _ => e
  end.

(** lockdown.rs:367-381: the same with fchdir; if it traps, its own handler leaves [errno]
    alone (397-400). *)
Definition errno_chdir (env : wenv) (path : str) (w : world) (e : Z) : Z :=
  match get_fd_for_path_with_perms env path O_PATH w with
  | (HRet (inl fd), w) =>
      let kernel w :=
        match w_tab w !! fd with
        | None => - Z.of_N EBADF
        | Some x => match we_fchdir env (fd_file x) with
                    | Some err => - Z.of_N err | None => 0 end
        end in
      if we_filtered env then
        match send_recv env (ReqSyscall (SYS_fchdir (be_abi (we_broker env)))
                (Z.of_N fd :: tail (we_getcwd_args env)) (we_getcwd_ip env)) w with
        | (HRet (RespSyscallResult code, None), w) =>
            if we_audit env && (code =? - ENOSYS) then libc_errno (kernel w) 0
            else libc_errno (as_isize (be_abi (we_broker env)) code) 0
        | _ => e
        end
      else libc_errno (kernel w) 0
  | _ => e
  end.

(** lockdown.rs:313-316: getcwd. [gerr] is the error of the kernel's getcwd if it fails. *)
Definition errno_cwd (env : wenv) (gerr : Z) (w : world) (e : Z) : Z :=
  let kernel := match we_cwd env with Some _ => e | None => gerr end in
  if we_filtered env then
    match send_recv env (ReqSyscall (nr_getcwd (nos (be_abi (we_broker env))))
            (we_getcwd_args env) (we_getcwd_ip env)) w with
    | (HRet (RespSyscallResult code, None), _) =>
        if we_audit env && (code =? - ENOSYS) then kernel
        else libc_errno (as_isize (be_abi (we_broker env)) code) e
    | _ => e
    end
  else kernel.
Definition errno_openat (env : wenv) (gerr : Z) (path : str) (w : world) (e : Z) : Z :=
  if starts_with_byte slash path then e else errno_cwd env gerr w e.

(** lockdown.rs:198-290: [errno] when the handler returns. [rerun_syscall] is not a function of
    the C library. *)
Definition handler_errno (env : wenv) (gerr : Z) (nr a0 a1 : Z) (w : world) (e : Z) : Z :=
  let n := nos (be_abi (we_broker env)) in
  let with_path ptr k :=
    match read_string_from_ptr env ptr with None => e | Some path => k path end in
  if nr =? nr_access n then e
  else if nr =? nr_stat n then with_path a0 (λ p, errno_stat env p w e)
  else if nr =? nr_open n then with_path a0 (λ p, errno_openat env gerr p w e)
  else if nr =? nr_openat n then
    if as_i32 a0 =? AT_FDCWD then with_path a1 (λ p, errno_openat env gerr p w e)
    else e
  else if nr =? nr_chdir n then with_path a0 (λ p, errno_chdir env p w e)
  else e.
