(** Model of policy/src/windows/policy.rs and policy/src/windows/path.rs, on top of
    PolicyModel.v. 32-bit words are integers; [Z.lnot] agrees with Rust's [!] under
    [Z.land] with a 32-bit word. *)
From stdpp Require Import prelude gmap.
From Verif Require Import Bytes PolicyModel LinuxPolicyModel.
Local Open Scope Z_scope.

(** winapi constants (winnt.h, winbase.h). *)
Definition GENERIC_READ : Z := 0x80000000.
Definition GENERIC_WRITE : Z := 0x40000000.
Definition GENERIC_ALL : Z := 0x10000000.
Definition DELETE : Z := 0x10000.
Definition READ_CONTROL : Z := 0x20000.
Definition WRITE_DAC : Z := 0x40000.
Definition WRITE_OWNER : Z := 0x80000.
Definition SYNCHRONIZE : Z := 0x100000.
Definition FILE_READ_DATA : Z := 0x1.
Definition FILE_WRITE_DATA : Z := 0x2.
Definition FILE_APPEND_DATA : Z := 0x4.
Definition FILE_READ_EA : Z := 0x8.
Definition FILE_WRITE_EA : Z := 0x10.
Definition FILE_READ_ATTRIBUTES : Z := 0x80.
Definition FILE_WRITE_ATTRIBUTES : Z := 0x100.
Definition KEY_QUERY_VALUE : Z := 0x1.
Definition KEY_SET_VALUE : Z := 0x2.
Definition KEY_CREATE_SUB_KEY : Z := 0x4.
Definition KEY_ENUMERATE_SUB_KEYS : Z := 0x8.
Definition KEY_NOTIFY : Z := 0x10.
Definition KEY_WOW64_64KEY : Z := 0x100.
Definition KEY_WOW64_32KEY : Z := 0x200.
Definition REG_OPTION_NON_VOLATILE : Z := 0x0.
Definition REG_OPTION_VOLATILE : Z := 0x1.
Definition FILE_SHARE_READ : Z := 0x1.
Definition FILE_SHARE_WRITE : Z := 0x2.
Definition FILE_SHARE_DELETE : Z := 0x4.
Definition FILE_ATTRIBUTE_NORMAL : Z := 0x80.
Definition FILE_FLAG_WRITE_THROUGH : Z := 0x80000000.
Definition FILE_FLAG_NO_BUFFERING : Z := 0x20000000.
Definition FILE_FLAG_RANDOM_ACCESS : Z := 0x10000000.
Definition FILE_FLAG_SEQUENTIAL_SCAN : Z := 0x08000000.
Definition FILE_FLAG_DELETE_ON_CLOSE : Z := 0x04000000.
Definition FILE_FLAG_BACKUP_SEMANTICS : Z := 0x02000000.
Definition FILE_FLAG_OPEN_REPARSE_POINT : Z := 0x00200000.
Definition FILE_FLAG_OPEN_NO_RECALL : Z := 0x00100000.

Definition ors (l : list Z) : Z := foldr Z.lor 0 l.

(** policy/src/windows/policy.rs:19-40 *)
Definition FILE_ALWAYS_GRANTED_RIGHTS : Z := ors [READ_CONTROL; SYNCHRONIZE].
Definition FILE_READ_RIGHTS : Z :=
  ors [GENERIC_READ; GENERIC_ALL; FILE_READ_DATA; FILE_READ_ATTRIBUTES; FILE_READ_EA].
Definition FILE_WRITE_RIGHTS : Z :=
  ors [GENERIC_WRITE; GENERIC_ALL; FILE_WRITE_DATA; FILE_APPEND_DATA; FILE_WRITE_EA;
       FILE_WRITE_ATTRIBUTES; DELETE; WRITE_DAC; WRITE_OWNER].
Definition KEY_ALWAYS_GRANTED_RIGHTS : Z :=
  ors [READ_CONTROL; SYNCHRONIZE; KEY_NOTIFY; KEY_WOW64_32KEY; KEY_WOW64_64KEY].
Definition KEY_READ_RIGHTS : Z :=
  ors [KEY_ENUMERATE_SUB_KEYS; KEY_QUERY_VALUE; KEY_ALWAYS_GRANTED_RIGHTS].
Definition KEY_WRITE_RIGHTS : Z :=
  ors [KEY_CREATE_SUB_KEY; KEY_SET_VALUE; DELETE; WRITE_DAC; WRITE_OWNER;
       KEY_ALWAYS_GRANTED_RIGHTS].

(** policy.rs:43-66 *)
Definition FILE_DELETE_ON_CLOSE : Z := 0x1000.
Definition FILE_SUPERSEDE : Z := 0.
Definition FILE_OPEN : Z := 1.
Definition FILE_CREATE : Z := 2.
Definition FILE_OPEN_IF : Z := 3.
Definition FILE_OVERWRITE : Z := 4.
Definition FILE_OVERWRITE_IF : Z := 5.
Definition SUPPORTED_FILE_CREATE_DISPOSITIONS : list Z :=
  [FILE_SUPERSEDE; FILE_CREATE; FILE_OPEN; FILE_OPEN_IF; FILE_OVERWRITE; FILE_OVERWRITE_IF].
Definition SUPPORTED_FILE_ATTRIBUTES : Z :=
  ors [FILE_ATTRIBUTE_NORMAL; FILE_FLAG_BACKUP_SEMANTICS; FILE_FLAG_DELETE_ON_CLOSE;
       FILE_FLAG_NO_BUFFERING; FILE_FLAG_OPEN_NO_RECALL; FILE_FLAG_RANDOM_ACCESS;
       FILE_FLAG_SEQUENTIAL_SCAN; FILE_FLAG_WRITE_THROUGH].

(** policy.rs:68-85 *)
Record file_request := mkFileReq {
  fr_path : str; fr_access : Z; fr_attributes : Z; fr_share : Z;
  fr_disposition : Z; fr_options : Z; fr_ea : str }.
Inductive win_request :=
  | WinFileOpen (f : file_request)
  | WinRegKeyOpen (path : str) (desired_access create_options : Z) (do_create : bool).

Definition contains_z (l : list Z) (x : Z) : bool := existsb (Z.eqb x) l.

(** path.rs:16-24 *)
Definition win_path_is_sane (path : str) : bool := starts_with_byte backslash path.

(** policy.rs:161-174 *)
Definition file_requests_read (f : file_request) : bool :=
  has_flag (fr_access f) FILE_READ_RIGHTS &&
  negb (contains_z [FILE_SUPERSEDE; FILE_CREATE; FILE_OVERWRITE; FILE_OVERWRITE_IF]
          (fr_disposition f)).
Definition file_requests_write (f : file_request) : bool :=
  has_flag (fr_access f) FILE_WRITE_RIGHTS || negb (fr_disposition f =? FILE_OPEN) ||
  has_flag (fr_options f) FILE_DELETE_ON_CLOSE ||
  match fr_ea f with [] => false | _ => true end.

(** policy.rs:186-204 *)
Definition file_denial_reason (rr rw can_read can_write : bool) : str :=
  lit "requests " ++
  (if rr && rw then lit "read and write"
   else if rr then lit "read-only"
   else if rw then lit "write-only"
   else lit "read or write") ++
  lit ", but " ++
  (if can_read then lit "can only read"
   else if can_write then lit "can only write"
   else lit "has no access to that path").
(** policy.rs:209-236 *)
Definition block_words (r w d : bool) : str :=
  (if r then lit " readers" else []) ++ (if w then lit " writers" else []) ++
  (if d then lit " deleters" else []).
Definition lock_denial_reason (br bw bd : bool) (a : access) : str :=
  lit "requests to block other" ++ block_words br bw bd ++ lit " but " ++
  (if a_block_readers a || a_block_writers a || a_block_deleters a
   then lit "can only block" ++
        block_words (a_block_readers a) (a_block_writers a) (a_block_deleters a)
   else lit "has no lock right").

(** policy.rs:121-241. [debug]: the build has debug assertions. *)
Definition win_check_file_open (debug : bool) (p : policy) (f : file_request) : verdict :=
  if debug && contains (lit ".pdb") (fr_path f) then Granted
  else
    let unsupported_access := Z.land (fr_access f)
      (Z.lnot (ors [FILE_ALWAYS_GRANTED_RIGHTS; FILE_READ_RIGHTS; FILE_WRITE_RIGHTS])) in
    let unsupported_attributes :=
      Z.land (fr_attributes f) (Z.lnot SUPPORTED_FILE_ATTRIBUTES) in
    if negb (unsupported_access =? 0) then
      DelegationToSandboxNotSupported
        (lit "access right " ++ fmt_hex_i32 unsupported_access ++ lit " not supported")
    else if negb (unsupported_attributes =? 0) then
      DelegationToSandboxNotSupported
        (lit "file attribute " ++ fmt_hex_i32 unsupported_attributes ++ lit " not supported")
    else if Z.land (fr_options f) FILE_FLAG_OPEN_REPARSE_POINT =? 0 then
      DelegationToSandboxNotSupported
        (lit "opening files with reparse points enabled is not supported")
    else if negb (contains_z SUPPORTED_FILE_CREATE_DISPOSITIONS (fr_disposition f)) then
      DelegationToSandboxNotSupported
        (lit "file creation disposition " ++ fmt_hex_i32 (fr_disposition f) ++
         lit " not supported")
    else if negb (win_path_is_sane (fr_path f)) then
      InvalidRequestParameters (lit "path")
        (lit "path to open """ ++ fr_path f ++ lit """ is not in canonical form")
    else
      let rr := file_requests_read f in
      let rw := file_requests_write f in
      let br := Z.land (fr_share f) FILE_SHARE_READ =? 0 in
      let bw := Z.land (fr_share f) FILE_SHARE_WRITE =? 0 in
      let bd := Z.land (fr_share f) FILE_SHARE_DELETE =? 0 in
      let a := get_filepath_allowed_access backslash p (fr_path f) in
      if negb (a_read a || a_write a || a_block_readers a || a_block_writers a ||
               a_block_deleters a)
      then DeniedByPolicy (lit "has no access to that path")
      else if (rr && negb (a_read a)) || (rw && negb (a_write a))
      then DeniedByPolicy (file_denial_reason rr rw (a_read a) (a_write a))
      else if (br && negb (a_block_readers a)) || (bw && negb (a_block_writers a)) ||
              (bd && negb (a_block_deleters a))
      then DeniedByPolicy (lock_denial_reason br bw bd a)
      else Granted.

(** The loop at policy.rs:281-290; [fuel] as in [walk]. *)
Definition or2 (a b : bool * bool) : bool * bool := (a.1 || b.1, a.2 || b.2).
Definition reg_lookup (m : gmap str (bool * bool)) (k : str) (a : bool * bool) : bool * bool :=
  match m !! k with Some b => or2 a b | None => a end.
Fixpoint reg_walk (fuel : nat) (m : gmap str (bool * bool)) (cur : str) (a : bool * bool)
  : bool * bool :=
  match fuel with
  | O => a
  | S f =>
      if a.1 && a.2 then a
      else
        let a := reg_lookup m cur a in
        match strip_one_component backslash cur with
        | Some parent => reg_walk f m parent a
        | None => a
        end
  end.
(** policy.rs:274-292 *)
Definition get_regkey_allowed_access (p : policy) (path : str) : bool * bool :=
  let path := strip_suffix_or_self backslash path in
  reg_walk (S (length path)) (regkey_access p) path (false, false).

(** policy.rs:294-345; the reason has the words of [denial_reason]. *)
Definition check_reg_key_open (p : policy) (path : str) (desired create_options : Z)
  (do_create : bool) : verdict :=
  let unsupported := Z.land desired
    (Z.lnot (ors [KEY_READ_RIGHTS; KEY_WRITE_RIGHTS; KEY_ALWAYS_GRANTED_RIGHTS])) in
  let unsupported_options := Z.land create_options
    (Z.lnot (ors [REG_OPTION_VOLATILE; REG_OPTION_NON_VOLATILE])) in
  if negb (unsupported =? 0) then
    DelegationToSandboxNotSupported
      (lit "access right " ++ fmt_hex_i32 unsupported ++ lit " not supported")
  else if negb (unsupported_options =? 0) then
    DelegationToSandboxNotSupported
      (lit "creation option " ++ fmt_hex_i32 unsupported_options ++ lit " not supported")
  else
    let rr := has_flag desired KEY_READ_RIGHTS in
    let rw := has_flag desired KEY_WRITE_RIGHTS || do_create in
    let '(can_read, can_write) := get_regkey_allowed_access p path in
    if negb (can_read || can_write) || (rr && negb can_read) || (rw && negb can_write)
    then DeniedByPolicy (denial_reason rr rw can_read can_write)
    else Granted.

(** policy.rs:88-119 *)
Definition win_raw_verdict (debug : bool) (p : policy) (req : win_request) : verdict :=
  match req with
  | WinFileOpen f => win_check_file_open debug p f
  | WinRegKeyOpen path desired options do_create =>
      check_reg_key_open p path desired options do_create
  end.
Definition win_evaluate_request (debug : bool) (p : policy) (req : win_request)
  : verdict * list (N * win_request * verdict) :=
  let res := win_raw_verdict debug p req in
  (if audit_only p then Granted else res, log_verdict p req res).

(* ---------------------------------------------------------------- paths of rules *)

(** path.rs:26-65. [full] is what the two calls of GetFullPathNameW gave: a string, or
    nothing when one failed or the result was not valid UTF-16; the path itself is then
    used. [absolute.get(1..3)] is a slice of bytes 1 and 2 (both ASCII when it matches,
    so the slice falls on character boundaries). *)
Definition win_derive_file_paths (path : str) (full : option str) : result (list str) policy_error :=
  let absolute := default path full in
  Ok (if bool_decide (take 2 (drop 1 absolute) = lit ":\") then [lit "\??\" ++ absolute] else []).

(** Rust core [str::strip_prefix(&str)]. *)
Definition strip_prefix_str (pre s : str) : option str :=
  if starts_with pre s then Some (drop (length pre) s) else None.

(** path.rs:67-92. [sid] is the answer of [get_current_user_sid] (94-144), whose panics
    on failing system calls are in WinSidModel.v. *)
Definition derive_reg_key_paths (sid path : str) : result (list str) policy_error :=
  match strip_prefix_str (lit "HKEY_CURRENT_USER") path with
  | Some rest => Ok [lit "\REGISTRY\USER\" ++ sid ++ rest]
  | None =>
  match strip_prefix_str (lit "HKEY_USERS") path with
  | Some rest => Ok [lit "\REGISTRY\USER" ++ rest]
  | None =>
  match strip_prefix_str (lit "HKEY_LOCAL_MACHINE") path with
  | Some rest => Ok [lit "\REGISTRY\MACHINE" ++ rest]
  | None =>
  match strip_prefix_str (lit "HKEY_CLASSES_ROOT") path with
  | Some rest => Ok [lit "\REGISTRY\MACHINE\SOFTWARE\Classes" ++ rest]
  | None =>
  match strip_prefix_str (lit "HKEY_CURRENT_CONFIG") path with
  | Some rest =>
      Ok [lit "\REGISTRY\MACHINE\SYSTEM\CurrentControlSet\Hardware Profiles\Current" ++ rest]
  | None => Err (UnsupportedRegistryPath path)
  end end end end end.

(* ---------------------------------------------------------------- building a policy *)

(** One iteration of policy.rs:253-270. *)
Definition reg_one (a : bool * bool) (p : policy) (path : str) : policy :=
  let key := strip_suffix_or_self backslash path in
  mkPolicy (log_callbacks p) (inherit_handles p) (file_access p) (dir_access p)
    (<[ key := or2 (default (false, false) (regkey_access p !! key)) a ]> (regkey_access p))
    (audit_only p).
(** policy.rs:243-272 *)
Definition allow_regkey_access (sid path : str) (a : bool * bool) (p : policy)
  : result policy policy_error :=
  match derive_reg_key_paths sid path with
  | Err e => Err e
  | Ok paths => Ok (foldl (reg_one a) p paths)
  end.

(** policy/src/policy.rs:136-190 with the Windows path derivation. *)
Definition win_apply_rule (p : policy) (r : rule) (full : option str) : result policy policy_error :=
  let go dir path a :=
    allow_file_access backslash (win_derive_file_paths path full) dir a p in
  match r with
  | AllowFileRead x => go false x (mkAccess true false false false false)
  | AllowFileWrite x => go false x (mkAccess false true false false false)
  | AllowFileLock x a b c => go false x (mkAccess false false a b c)
  | AllowDirRead x => go true x (mkAccess true false false false false)
  | AllowDirWrite x => go true x (mkAccess false true false false false)
  | AllowDirLock x a b c => go true x (mkAccess false false a b c)
  end.

(** The public API; each call carries the answers of the OS. *)
Inductive win_call :=
  | WinRule (r : rule) (full : option str)
  | WinRegRead (path sid : str)
  | WinRegWrite (path sid : str)
  | WinAddLogCallback (cb : N)
  | WinInherit (raw : N) (inh : result bool policy_error).
Definition win_apply_call (p : policy) (c : win_call) : result policy policy_error :=
  match c with
  | WinRule r full => win_apply_rule p r full
  | WinRegRead path sid => allow_regkey_access sid path (true, false) p
  | WinRegWrite path sid => allow_regkey_access sid path (false, true) p
  | WinAddLogCallback cb => Ok (add_log_callback p cb)
  | WinInherit raw inh => allow_inherit_handle p raw inh
  end.
(** A caller that goes on after a failed call. *)
Definition win_apply_call_ignore (p : policy) (c : win_call) : policy :=
  match win_apply_call p c with Ok q => q | Err _ => p end.
Definition win_build (audit : bool) (calls : list win_call) : policy :=
  foldl win_apply_call_ignore (initial_policy audit) calls.
