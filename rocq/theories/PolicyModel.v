(** Model of policy/src/policy.rs and policy/src/lib.rs (the OS-independent part
    of the policy), parameterised by the path separator. *)
From stdpp Require Import prelude gmap.
From Verif Require Import Bytes.

(** policy/src/policy.rs:28-29, the value type of [file_access] and
    [dir_access]: (read, write, block_readers, block_writers, block_deleters). *)
Record access := mkAccess {
  a_read : bool; a_write : bool;
  a_block_readers : bool; a_block_writers : bool; a_block_deleters : bool }.

Global Instance access_eq_dec : EqDecision access.
Proof. solve_decision. Defined.

Definition no_access : access := mkAccess false false false false false.

(** The five [|=] at policy/src/policy.rs:125-129, 202-206 and 218-222. *)
Definition access_or (a b : access) : access :=
  mkAccess (a_read a || a_read b) (a_write a || a_write b)
    (a_block_readers a || a_block_readers b)
    (a_block_writers a || a_block_writers b)
    (a_block_deleters a || a_block_deleters b).

Definition access_full (a : access) : bool :=
  a_read a && a_write a && a_block_readers a && a_block_writers a && a_block_deleters a.

(** policy/src/policy.rs:11-18 *)
Inductive verdict :=
  | Granted
  | DeniedByPolicy (why : str)
  | DelegationToSandboxNotSupported (why : str)
  | InvalidRequestParameters (argument_name why : str).

Global Instance verdict_eq_dec : EqDecision verdict.
Proof. solve_decision. Defined.

(** policy/src/error.rs:4-10. The OS error description string is left out. *)
Inductive policy_error :=
  | InvalidHandleValue (raw : N)
  | HandleNotInheritable (raw : N)
  | UnsupportedFilesystemPath (path : str)
  | UnsupportedRegistryPath (path : str)
  | InternalOsOperationFailed (os_code : N).

Inductive result (A E : Type) := Ok (a : A) | Err (e : E).
Arguments Ok {A E} a.
Arguments Err {A E} e.

(** policy/src/policy.rs:22-32. Callbacks are opaque closures: they are
    represented by a number. [HashSet<&Handle>] compares handles by their raw
    value (ipc/src/linux/handle.rs:8), so it is a set of raw values. *)
Record policy := mkPolicy {
  log_callbacks : list N;
  inherit_handles : gset N;
  file_access : gmap str access;
  dir_access : gmap str access;
  regkey_access : gmap str (bool * bool);
  audit_only : bool }.

(** policy/src/policy.rs:35-44 *)
Definition nothing_allowed : policy := mkPolicy [] ∅ ∅ ∅ ∅ false.

(** policy/src/policy.rs:46-50 *)
Definition unsafe_testing_audit_only : policy := mkPolicy [] ∅ ∅ ∅ ∅ true.

(** policy/src/policy.rs:52-61 *)
Definition get_runtime_policy (p : policy) : policy :=
  mkPolicy (log_callbacks p) ∅ (file_access p) (dir_access p) (regkey_access p) (audit_only p).

(** policy/src/policy.rs:63-65 *)
Definition is_audit_only (p : policy) : bool := audit_only p.

(** policy/src/policy.rs:71-73 *)
Definition add_log_callback (p : policy) (cb : N) : policy :=
  mkPolicy (log_callbacks p ++ [cb]) (inherit_handles p) (file_access p)
    (dir_access p) (regkey_access p) (audit_only p).

(** policy/src/policy.rs:75-88. [inh] is the result of [is_inheritable], a kernel
    answer; its error is converted by policy/src/error.rs:12-26. *)
Definition allow_inherit_handle (p : policy) (raw : N) (inh : result bool policy_error)
  : result policy policy_error :=
  match inh with
  | Err e => Err e
  | Ok false => Err (HandleNotInheritable raw)
  | Ok true =>
      Ok (mkPolicy (log_callbacks p) ({[ raw ]} ∪ inherit_handles p) (file_access p)
            (dir_access p) (regkey_access p) (audit_only p))
  end.

(** policy/src/policy.rs:90-92 *)
Definition get_inherited_handles (p : policy) : gset N := inherit_handles p.

(** policy/src/policy.rs:112-131: OR the new rights into the entry. *)
Definition map_or (m : gmap str access) (k : str) (a : access) : gmap str access :=
  <[ k := access_or (default no_access (m !! k)) a ]> m.

(** One iteration of the loop at policy/src/policy.rs:102-132. *)
Definition allow_one (sep : byte) (dir : bool) (a : access) (p : policy) (path : str)
  : policy :=
  let key := strip_suffix_or_self sep path in
  if dir then
    mkPolicy (log_callbacks p) (inherit_handles p) (file_access p)
      (map_or (dir_access p) key a) (regkey_access p) (audit_only p)
  else
    mkPolicy (log_callbacks p) (inherit_handles p) (map_or (file_access p) key a)
      (dir_access p) (regkey_access p) (audit_only p).

(** policy/src/policy.rs:94-134. [derived] is the result of
    [derive_all_file_paths_from_path]. *)
Definition allow_file_access (sep : byte) (derived : result (list str) policy_error)
  (dir : bool) (a : access) (p : policy) : result policy policy_error :=
  match derived with
  | Err e => Err e
  | Ok paths => Ok (foldl (allow_one sep dir a) p paths)
  end.

(** policy/src/lib.rs:21-36 *)
Definition strip_one_component (sep : byte) (path : str) : option str :=
  let path := match strip_suffix sep path with Some s => s | None => path end in
  match rsplit_once sep path with
  | Some (rest, _) => match rest with [] => None | _ => Some rest end
  | None => None
  end.

Definition or_lookup (m : gmap str access) (k : str) (a : access) : access :=
  match m !! k with Some b => access_or a b | None => a end.

(** The [while] loop at policy/src/policy.rs:209-228. Each iteration shortens the
    path; [fuel] bounds the iterations and [walk_unfold] (PolicyProofs.v) shows
    that the bound used below is never reached. *)
Fixpoint walk (fuel : nat) (sep : byte) (m : gmap str access) (cur : str) (a : access)
  : access :=
  match fuel with
  | O => a
  | S f =>
      if access_full a then a
      else
        let a := or_lookup m cur a in
        match strip_one_component sep cur with
        | Some parent => walk f sep m parent a
        | None => a
        end
  end.

(** policy/src/policy.rs:192-236 *)
Definition get_filepath_allowed_access (sep : byte) (p : policy) (path : str) : access :=
  let path := strip_suffix_or_self sep path in
  let a := or_lookup (file_access p) path no_access in
  walk (S (length path)) sep (dir_access p) path a.

(** policy/src/policy.rs:238-265, the callback part: each callback is called with
    the request and the verdict. The result is the trace of calls. The log-crate
    output is not modelled. *)
Definition log_verdict {R} (p : policy) (r : R) (v : verdict) : list (N * R * verdict) :=
  map (fun cb => (cb, r, v)) (log_callbacks p).

(** policy/src/policy.rs:324-349: equality ignores the callbacks. *)
Definition policy_eqb (p q : policy) : bool :=
  bool_decide (inherit_handles p = inherit_handles q) &&
  bool_decide (file_access p = file_access q) &&
  bool_decide (dir_access p = dir_access q) &&
  bool_decide (regkey_access p = regkey_access q) &&
  eqb (audit_only p) (audit_only q).
