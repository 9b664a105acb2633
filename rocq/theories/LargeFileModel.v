(** policy/src/linux/policy.rs on i686-unknown-linux-gnu. The libc constants are those of
    LinuxPolicyModel but for [O_LARGEFILE], which is a flag of its own there. *)
From stdpp Require Import prelude gmap.
From Verif Require Import Bytes PolicyModel LinuxPolicyModel.
Local Open Scope Z_scope.

(** libc crate, i686-unknown-linux-gnu *)
Definition O_LARGEFILE32 : Z := 32768.

(** policy/src/linux/policy.rs:8-18 *)
Definition SUPPORTED_FILE_OPEN_FLAGS32 : Z :=
  foldr Z.lor 0 [O_RDONLY; O_WRONLY; O_RDWR; O_TRUNC; O_CREAT; O_EXCL; O_DIRECTORY;
    O_APPEND; O_PATH; O_CLOEXEC; O_LARGEFILE32].

(** policy/src/linux/policy.rs:41-96 *)
Definition check_file_open32 (p : policy) (path : str) (flags : Z) : verdict :=
  let unsupported := Z.land flags (Z.lnot SUPPORTED_FILE_OPEN_FLAGS32) in
  if negb (unsupported =? 0) then
    DelegationToSandboxNotSupported
      (lit "open flag " ++ fmt_hex_i32 unsupported ++ lit " not supported")
  else if negb (path_is_sane path) then
    InvalidRequestParameters (lit "path")
      (lit "path to open """ ++ path ++ lit """ is not in canonical form")
  else
    let flags := effective_flags flags in
    let rr := requests_read flags in
    let rw := requests_write flags in
    let a := get_filepath_allowed_access slash p path in
    if negb (a_read a || a_write a) || (rr && negb (a_read a)) || (rw && negb (a_write a))
    then DeniedByPolicy (denial_reason rr rw (a_read a) (a_write a))
    else Granted.

(** policy/src/linux/policy.rs:27-39 *)
Definition evaluate_request32 (p : policy) (req : lx_request)
  : verdict * list (N * lx_request * verdict) :=
  let res := match req with
             | FileOpen path flags => check_file_open32 p path flags
             | Syscall _ _ _ => DelegationToSandboxNotSupported (lit "unsupported system call")
             end in
  (if audit_only p then Granted else res, log_verdict p req res).
