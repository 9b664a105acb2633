(** Model of the worker's SIGSYS handler, worker/src/linux/lockdown.rs:186-419, run
    against the broker of BrokerModel.v. One thread; several threads are in
    ThreadsModel.v. *)
From stdpp Require Import prelude gmap.
From Coq Require Import Strings.Byte.
From Verif Require Import Bytes PolicyModel LinuxPolicyModel PostcardModel FdModel ChannelModel
  BrokerModel.
Local Open Scope N_scope.

(** Rust [x as i32] and, on the two targets, [x as isize]. *)
Definition wrap (bits : Z) (z : Z) : Z := ((z + 2 ^ (bits - 1)) mod 2 ^ bits - 2 ^ (bits - 1))%Z.
Definition as_i32 (z : Z) : Z := wrap 32 z.
Definition as_isize (a : abi) (z : Z) : Z := match a with Abi64 => wrap 64 z | Abi32 => wrap 32 z end.

(** Rust core [String::from_utf8_lossy] (core/src/str/lossy.rs): an invalid sequence is
    replaced by U+FFFD; it extends over the bytes that could still start a character. *)
Definition second3_ok (a b : byte) : bool :=
  if in_range 0xE0 0xE0 a then in_range 0xA0 0xBF b
  else if in_range 0xED 0xED a then in_range 0x80 0x9F b
  else in_range 0x80 0xBF b.
Definition second4_ok (a b : byte) : bool :=
  if in_range 0xF0 0xF0 a then in_range 0x90 0xBF b
  else if in_range 0xF4 0xF4 a then in_range 0x80 0x8F b
  else in_range 0x80 0xBF b.
Definition bad_len (s : str) : nat :=
  match s with
  | a :: b :: r =>
      if in_range 0xE0 0xEF a then if second3_ok a b then 2%nat else 1%nat
      else if in_range 0xF0 0xF4 a then
        if second4_ok a b then
          match r with
          | c :: _ => if in_range 0x80 0xBF c then 3%nat else 2%nat
          | [] => 2%nat
          end
        else 1%nat
      else 1%nat
  | _ => 1%nat
  end.
Definition replacement : str := [xef; xbf; xbd].
Fixpoint lossy_aux (fuel : nat) (s : str) : str :=
  match s, fuel with
  | [], _ => []
  | _, O => []
  | _, S f =>
      match utf8_head s with
      | Some n => take n s ++ lossy_aux f (drop n s)
      | None => replacement ++ lossy_aux f (drop (bad_len s) s)
      end
  end.
Definition lossy (s : str) : str := lossy_aux (length s) s.

(** System call numbers of the target (libc crate). *)
Record sysnos := mkNos {
  nr_access : Z; nr_stat : Z; nr_open : Z; nr_openat : Z; nr_chdir : Z; nr_getcwd : Z }.
Definition nos (a : abi) : sysnos :=
  match a with
  | Abi64 => mkNos 21 4 2 257 80 79
  | Abi32 => mkNos 33 106 5 295 12 183
  end.
Definition AT_FDCWD : Z := (-100)%Z.

(** The surroundings of the worker. [we_mem] gives the C string at an address, without
    its NUL ([None]: not mapped). [we_cwd] is what the kernel's getcwd would answer.
    [we_filtered]: a seccomp filter is loaded. [we_getcwd_args] are the register values
    at the time glibc's getcwd traps. *)
Record wenv := mkWenv {
  we_broker : benv;
  we_policy : policy;
  we_audit : bool;
  we_filtered : bool;
  we_limit : N;
  we_sndbuf : N;
  we_mem : Z → option str;
  we_cwd : option str;
  we_getcwd_args : list Z;
  we_getcwd_ip : Z;
  we_fstat : N → option N;      (* of an open file: [Some errno] is a failure *)
  we_fchdir : N → option N;
  we_rerun : Z → list Z → Z }.  (* answer of a re-run system call *)

(** The worker's descriptors, the broker, the requests sent so far, and the open file
    that is the current directory. *)
Record world := mkWorld { w_tab : fdtab; w_broker : bstate; w_sent : list ipc_request; w_dir : N }.
Definition set_tab (w : world) (t : fdtab) : world := mkWorld t (w_broker w) (w_sent w) (w_dir w).

(** How a piece of handler code ends. A panic in an [extern "C"] function aborts the
    process; so does a read of unmapped memory. *)
Inductive hres (A : Type) := HRet (a : A) | HPanic | HFault.
Arguments HRet {A} a.
Arguments HPanic {A}.
Arguments HFault {A}.

(** What the worker's socket yields after the broker handled a datagram. *)
Definition reply_event (st : bstatus) (tr : list bevent) : sock_event :=
  match st with
  | Serving => match last tr with
               | Some (BSent p fs) => EvDatagram (mkDgram p fs)
               | _ => EvEof
               end
  | _ => EvEof
  end.

(** worker/src/linux/lockdown.rs:292-303 and the broker's iteration that answers it.
    The lock is free (one thread). *)
Definition send_recv (env : wenv) (m : ipc_request) (w : world)
  : hres (ipc_response * option N) * world :=
  let a := be_abi (we_broker env) in
  match channel_send enc_request a (we_sndbuf env) (w_tab w) m None IPC_MESSAGE_MAX_SIZE with
  | Err _ => (HPanic, w)
  | Ok d =>
      let '(st, bs) := broker_step (we_broker env) (we_policy env) (EvDatagram d) (w_broker w) in
      let w := mkWorld (w_tab w) bs (w_sent w ++ [m]) (w_dir w) in
      let '(r, t) := channel_recv dec_response a (we_limit env) IPC_MESSAGE_MAX_SIZE
                       (reply_event st (bs_trace bs)) (w_tab w) in
      match r with
      | Ok (Some x) => (HRet x, set_tab w t)
      | _ => (HPanic, set_tab w t)
      end
  end.

(** worker/src/linux/lockdown.rs:37-48: [inl] is a handle, [inr] a negative code. *)
Definition get_fd_for_path_with_perms (env : wenv) (path : str) (flags : Z) (w : world)
  : hres (N + Z) * world :=
  match send_recv env (ReqOpenFile path flags) w with
  | (HRet (RespSyscallResult _, Some fd), w) => (HRet (inl fd), w)
  | (HRet (RespSyscallResult code, None), w) =>
      if (code <? 0)%Z then (HRet (inr (as_isize (be_abi (we_broker env)) code)), w)
      else (HPanic, w)
  | (HRet (RespInitialization _ _, _), w) => (HPanic, w)
  | (HPanic, w) => (HPanic, w)
  | (HFault, w) => (HFault, w)
  end.

(** Dropping a [Handle] (ipc/src/linux/handle.rs:78-90) and returning [v]. *)
Definition drop_and_return (fd : N) (v : Z) (w : world) : hres Z * world :=
  match handle_drop fd (w_tab w) with
  | Done t => (HRet v, set_tab w t)
  | _ => (HPanic, w)
  end.

(** worker/src/linux/lockdown.rs:339-345 *)
Definition handle_access (env : wenv) (path : str) (mode : Z) (w : world) : hres Z * world :=
  match get_fd_for_path_with_perms env path mode w with
  | (HRet (inl fd), w) => drop_and_return fd 0 w
  | (HRet (inr e), w) => (HRet e, w)
  | (HPanic, w) => (HPanic, w)
  | (HFault, w) => (HFault, w)
  end.

(** worker/src/linux/lockdown.rs:347-365. fstat is allowed by the filter; what it
    stores is not modelled. *)
Definition handle_stat (env : wenv) (path : str) (w : world) : hres Z * world :=
  match get_fd_for_path_with_perms env path O_PATH w with
  | (HRet (inl fd), w) =>
      drop_and_return fd
        (match w_tab w !! fd with
         | None => (- Z.of_N EBADF)%Z
         | Some e => match we_fstat env (fd_file e) with
                     | Some err => (- Z.of_N err)%Z | None => 0%Z end
         end) w
  | (HRet (inr e), w) => (HRet e, w)
  | (HPanic, w) => (HPanic, w)
  | (HFault, w) => (HFault, w)
  end.

(** worker/src/linux/lockdown.rs:383-419 *)
Definition handle_syscall (env : wenv) (nb : Z) (args : list Z) (ip : Z) (w : world)
  : hres Z * world :=
  let a := be_abi (we_broker env) in
  match send_recv env (ReqSyscall nb args ip) w with
  | (HRet (RespSyscallResult code, h), w) =>
      let response := match h with Some fd => Z.of_N fd | None => as_isize a code end in
      if we_audit env && (response =? - ENOSYS)%Z then (HRet (we_rerun env nb args), w)
      else (HRet response, w)
  | (HRet (RespInitialization _ _, _), w) => (HPanic, w)
  | (HPanic, w) => (HPanic, w)
  | (HFault, w) => (HFault, w)
  end.

(** [fchdir] traps when a filter is loaded (it is not in the list of
    broker/src/linux/seccomp.rs:8-93), which enters the handler again. *)
Definition SYS_fchdir (a : abi) : Z := match a with Abi64 => 81 | Abi32 => 133 end.

(** worker/src/linux/lockdown.rs:367-381. The nested trap of fchdir is forwarded as a
    raw system call (line 278-281); libc turns a negative answer into errno, and the
    handler turns it back. *)
Definition handle_chdir (env : wenv) (path : str) (w : world) : hres Z * world :=
  match get_fd_for_path_with_perms env path O_PATH w with
  | (HRet (inl fd), w) =>
      let kernel w :=
        match w_tab w !! fd with
        | None => ((- Z.of_N EBADF)%Z, w)
        | Some e => match we_fchdir env (fd_file e) with
                    | Some err => ((- Z.of_N err)%Z, w)
                    | None => (0%Z, mkWorld (w_tab w) (w_broker w) (w_sent w) (fd_file e))
                    end
        end in
      if we_filtered env then
        match send_recv env (ReqSyscall (SYS_fchdir (be_abi (we_broker env)))
                (Z.of_N fd :: tail (we_getcwd_args env)) (we_getcwd_ip env)) w with
        | (HRet (RespSyscallResult code, None), w) =>
            if we_audit env && (code =? - ENOSYS)%Z
            then let '(v, w) := kernel w in drop_and_return fd v w
            else drop_and_return fd (as_isize (be_abi (we_broker env)) code) w
        | (HFault, w) => (HFault, w)
        | (_, w) => (HPanic, w)
        end
      else let '(v, w) := kernel w in drop_and_return fd v w
  | (HRet (inr e), w) => (HRet e, w)
  | (HPanic, w) => (HPanic, w)
  | (HFault, w) => (HFault, w)
  end.

(** Rust std [env::current_dir] calls glibc's getcwd. With a filter loaded its system
    call traps and is forwarded; only the audit mode runs it in the end. Without one
    the kernel answers. *)
Definition current_dir (env : wenv) (w : world) : hres (option str) * world :=
  if we_filtered env then
    match send_recv env (ReqSyscall (nr_getcwd (nos (be_abi (we_broker env))))
            (we_getcwd_args env) (we_getcwd_ip env)) w with
    | (HRet (RespSyscallResult code, None), w) =>
        (HRet (if we_audit env && (code =? - ENOSYS)%Z then we_cwd env else None), w)
    | (HFault, w) => (HFault, w)
    | (_, w) => (HPanic, w)
    end
  else (HRet (we_cwd env), w).

(** worker/src/linux/lockdown.rs:311-324 *)
Definition ends_with_byte (sep : byte) (s : str) : bool :=
  match last s with Some c => bool_decide (c = sep) | None => false end.
Definition absolute (cwd : option str) (path : str) : str :=
  let d := match cwd with Some d => lossy d | None => [] end in
  (if ends_with_byte slash d then d else d ++ [slash]) ++ path.

(** worker/src/linux/lockdown.rs:305-337. The mode is not used. *)
Definition openat_request (env : wenv) (path : str) (flags : Z) (w : world) : hres Z * world :=
  match send_recv env (ReqOpenFile path flags) w with
  | (HRet (RespSyscallResult _, Some h), w) => (HRet (Z.of_N h), w)
  | (HRet (RespSyscallResult code, None), w) =>
      (HRet (as_isize (be_abi (we_broker env)) code), w)
  | (HRet (RespInitialization _ _, _), w) => (HPanic, w)
  | (HPanic, w) => (HPanic, w)
  | (HFault, w) => (HFault, w)
  end.
Definition handle_openat (env : wenv) (path : str) (flags mode : Z) (w : world)
  : hres Z * world :=
  if starts_with_byte slash path then openat_request env path flags w
  else
    match current_dir env w with
    | (HRet cwd, w) => openat_request env (absolute cwd path) flags w
    | (HPanic, w) => (HPanic, w)
    | (HFault, w) => (HFault, w)
    end.

(** worker/src/linux/lockdown.rs:186-192 *)
Definition read_string_from_ptr (env : wenv) (ptr : Z) : option str := lossy <$> we_mem env ptr.

(** worker/src/linux/lockdown.rs:198-290 for a genuine seccomp signal: [nr], [a0]..[a5]
    and [ip] are the saved registers; the result is what is stored in the result
    register. The recursion flag has no effect (see ThreadsModel.v). *)
Definition sigsys_handler (env : wenv) (nr a0 a1 a2 a3 a4 a5 ip : Z) (w : world)
  : hres Z * world :=
  let n := nos (be_abi (we_broker env)) in
  let with_path ptr k :=
    match read_string_from_ptr env ptr with
    | None => (HFault, w)
    | Some path => k path
    end in
  if (nr =? nr_access n)%Z then with_path a0 (λ p, handle_access env p (as_i32 a1) w)
  else if (nr =? nr_stat n)%Z then with_path a0 (λ p, handle_stat env p w)
  else if (nr =? nr_open n)%Z then
    with_path a0 (λ p, handle_openat env p (as_i32 a1) (as_i32 a2) w)
  else
    let other := handle_syscall env nr [a0; a1; a2; a3; a4; a5] ip w in
    if (nr =? nr_openat n)%Z then
      if (as_i32 a0 =? AT_FDCWD)%Z then
        with_path a1 (λ p, handle_openat env p (as_i32 a2) (as_i32 a3) w)
      else
        match we_mem env a1 with
        | None => (HFault, w)
        | Some s =>
            if starts_with_byte slash s
            then with_path a1 (λ p, handle_openat env p (as_i32 a2) (as_i32 a3) w)
            else other
        end
    else if (nr =? nr_chdir n)%Z then with_path a0 (λ p, handle_chdir env p w)
    else other.
