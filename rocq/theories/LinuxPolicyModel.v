(** Model of policy/src/linux/path.rs and policy/src/linux/policy.rs. *)
From stdpp Require Import prelude gmap.
From Verif Require Import Bytes PolicyModel.
Local Open Scope Z_scope.

(** libc constants on x86_64-unknown-linux-gnu. [O_LARGEFILE] is 0 there. *)
Definition O_RDONLY : Z := 0.
Definition O_WRONLY : Z := 1.
Definition O_RDWR : Z := 2.
Definition O_CREAT : Z := 64.
Definition O_EXCL : Z := 128.
Definition O_TRUNC : Z := 512.
Definition O_APPEND : Z := 1024.
Definition O_DIRECTORY : Z := 65536.
Definition O_NOFOLLOW : Z := 131072.
Definition O_CLOEXEC : Z := 524288.
Definition O_PATH : Z := 2097152.
Definition O_LARGEFILE : Z := 0.

(** policy/src/linux/policy.rs:8-18 *)
Definition SUPPORTED_FILE_OPEN_FLAGS : Z :=
  foldr Z.lor 0 [O_RDONLY; O_WRONLY; O_RDWR; O_TRUNC; O_CREAT; O_EXCL; O_DIRECTORY;
    O_APPEND; O_PATH; O_CLOEXEC; O_LARGEFILE].

(** policy/src/linux/policy.rs:20-24. [c_int] and [i64] are [Z]. *)
Inductive lx_request :=
  | FileOpen (path : str) (flags : Z)
  | Syscall (nb : Z) (args : list Z) (ip : Z).

(** policy/src/linux/path.rs:3 *)
Definition OS_PATH_SEPARATOR : byte := slash.

(** The body of the loop at policy/src/linux/path.rs:10-17. *)
Definition component_ok (c : str) : bool :=
  negb (bool_decide (c = [])) &&
  negb (bool_decide (c = lit ".") || bool_decide (c = lit "..")).

(** policy/src/linux/path.rs:5-19 *)
Definition path_is_sane (path : str) : bool :=
  match strip_prefix slash path with
  | None => false
  | Some rest => forallb component_ok (split slash (strip_suffix_or_self slash rest))
  end.

(** policy/src/linux/path.rs:21-33 *)
Definition derive_all_file_paths_from_path (path : str) : result (list str) policy_error :=
  if starts_with_byte slash path then Ok [path]
  else Err (UnsupportedFilesystemPath path).

Definition has_flag (flags mask : Z) : bool := negb (Z.land flags mask =? 0).

(** policy/src/linux/policy.rs:58-62: the flags the decision is taken on. *)
Definition effective_flags (flags : Z) : Z :=
  Z.lor
    (if has_flag flags O_PATH
     then Z.land flags (Z.lor (Z.lor O_PATH O_DIRECTORY) O_NOFOLLOW)
     else flags)
    O_CLOEXEC.

(** policy/src/linux/policy.rs:64 *)
Definition requests_read (flags : Z) : bool := Z.land flags (Z.lor O_WRONLY O_PATH) =? 0.

(** policy/src/linux/policy.rs:65-67 *)
Definition requests_write (flags : Z) : bool :=
  has_flag flags (foldr Z.lor 0 [O_WRONLY; O_RDWR; O_TRUNC; O_CREAT; O_EXCL; O_APPEND]) &&
  negb (has_flag flags O_PATH).

(** policy/src/linux/policy.rs:73-91 *)
Definition denial_reason (rr rw can_read can_write : bool) : str :=
  lit "requests " ++
  (if rr && rw then lit "read-write"
   else if rr then lit "read-only"
   else if rw then lit "write-only"
   else lit "read or write") ++
  lit " access, but " ++
  (if can_read then lit "can only read"
   else if can_write then lit "can only write"
   else lit "has no access to that path").

(** policy/src/linux/policy.rs:41-96 *)
Definition check_file_open (p : policy) (path : str) (flags : Z) : verdict :=
  let unsupported := Z.land flags (Z.lnot SUPPORTED_FILE_OPEN_FLAGS) in
  if negb (unsupported =? 0) then
    DelegationToSandboxNotSupported
      (lit "open flag " ++ fmt_hex_i32 unsupported ++ lit " not supported")
  else if negb (path_is_sane path) then
    InvalidRequestParameters (lit "path")
      (lit "path to open """ ++ path ++ lit """ is not in canonical form")
  else
    let flags := effective_flags flags in
    let rr := requests_read flags in
    let rw := requests_write flags in
    let a := get_filepath_allowed_access slash p path in
    if negb (a_read a || a_write a) || (rr && negb (a_read a)) || (rw && negb (a_write a))
    then DeniedByPolicy (denial_reason rr rw (a_read a) (a_write a))
    else Granted.

(** The match at policy/src/linux/policy.rs:28-33. *)
Definition raw_verdict (p : policy) (req : lx_request) : verdict :=
  match req with
  | FileOpen path flags => check_file_open p path flags
  | Syscall _ _ _ => DelegationToSandboxNotSupported (lit "unsupported system call")
  end.

(** policy/src/linux/policy.rs:27-39. The second component is the trace of
    callback calls. *)
Definition evaluate_request (p : policy) (req : lx_request)
  : verdict * list (N * lx_request * verdict) :=
  let res := raw_verdict p req in
  let calls := log_verdict p req res in
  (if audit_only p then Granted else res, calls).

(** The public rule-adding API, policy/src/policy.rs:71-190, as data. *)
Inductive rule :=
  | AllowFileRead (p : str)
  | AllowFileWrite (p : str)
  | AllowFileLock (p : str) (readers writers deleters : bool)
  | AllowDirRead (p : str)
  | AllowDirWrite (p : str)
  | AllowDirLock (p : str) (readers writers deleters : bool).

(** policy/src/policy.rs:136-190 with the Linux path derivation. *)
Definition apply_rule (p : policy) (r : rule) : result policy policy_error :=
  let go dir path a :=
    allow_file_access slash (derive_all_file_paths_from_path path) dir a p in
  match r with
  | AllowFileRead x => go false x (mkAccess true false false false false)
  | AllowFileWrite x => go false x (mkAccess false true false false false)
  | AllowFileLock x a b c => go false x (mkAccess false false a b c)
  | AllowDirRead x => go true x (mkAccess true false false false false)
  | AllowDirWrite x => go true x (mkAccess false true false false false)
  | AllowDirLock x a b c => go true x (mkAccess false false a b c)
  end.

(** A caller that makes a list of calls and ignores the errors. *)
Definition apply_rule_ignore (p : policy) (r : rule) : policy :=
  match apply_rule p r with Ok q => q | Err _ => p end.
Definition apply_rules (p : policy) (rs : list rule) : policy :=
  foldl apply_rule_ignore p rs.

(** The public API that builds a policy (policy/src/policy.rs:35-190). An
    [allow_inherit_handle] call carries the kernel's answer about the handle. *)
Inductive api_call :=
  | CallRule (r : rule)
  | CallAddLogCallback (cb : N)
  | CallInherit (raw : N) (inh : result bool policy_error).

Definition apply_call (p : policy) (c : api_call) : result policy policy_error :=
  match c with
  | CallRule r => apply_rule p r
  | CallAddLogCallback cb => Ok (add_log_callback p cb)
  | CallInherit raw inh => allow_inherit_handle p raw inh
  end.

(** A caller that goes on after a failed call: the policy keeps its old value,
    because every error is returned before the first write
    (policy/src/policy.rs:81-85 and 102). *)
Definition apply_call_ignore (p : policy) (c : api_call) : policy :=
  match apply_call p c with Ok q => q | Err _ => p end.

Definition initial_policy (audit : bool) : policy :=
  if audit then unsafe_testing_audit_only else nothing_allowed.

Definition build (audit : bool) (calls : list api_call) : policy :=
  foldl apply_call_ignore (initial_policy audit) calls.
