(** Vocabulary for the C interface properties: histories of calls with their results,
    and who owns which descriptor. *)
From stdpp Require Import prelude gmap.
From Coq Require Import Strings.Byte.
From Verif Require Import Bytes PolicyModel LinuxPolicyModel LinuxPolicySpec PostcardModel
  PostcardSpec FdModel ChannelModel BrokerModel ProcessModel CApiModel.
Local Open Scope N_scope.

(* ---------------------------------------------------------------- statuses *)

(** The same error, whatever its details. *)
Definition same_policy_error (e f : policy_error) : Prop :=
  match e, f with
  | InvalidHandleValue _, InvalidHandleValue _
  | HandleNotInheritable _, HandleNotInheritable _
  | UnsupportedFilesystemPath _, UnsupportedFilesystemPath _
  | UnsupportedRegistryPath _, UnsupportedRegistryPath _
  | InternalOsOperationFailed _, InternalOsOperationFailed _ => True
  | _, _ => False
  end.
Definition same_broker_error (e f : broker_error) : Prop :=
  match e, f with
  | ConflictingEnvironmentVariable, ConflictingEnvironmentVariable
  | MissingCommandLine, MissingCommandLine
  | (OsFailed _ _ | StartFailed ThreadCreationFailed),
    (OsFailed _ _ | StartFailed ThreadCreationFailed) => True
  | CannotBuildPolicyForWorker e, CannotBuildPolicyForWorker f => same_policy_error e f
  | StartFailed e, StartFailed f => e = f
  | _, _ => False
  end.
Definition same_ipc_err (e f : ipc_err) : Prop :=
  match e, f with
  | IUnexpectedHandleWithPayload _, IUnexpectedHandleWithPayload _
  | IInvalidProcessID _, IInvalidProcessID _
  | IUnableToOpenProcessOnTheOtherEnd _ _, IUnableToOpenProcessOnTheOtherEnd _ _
  | IPayloadTooBigToTransmit _, IPayloadTooBigToTransmit _
  | IPayloadTooBigToSerialize _, IPayloadTooBigToSerialize _
  | IPayloadTooBigToDeserialize _, IPayloadTooBigToDeserialize _
  | IInternalSerializationError, IInternalSerializationError
  | IInternalDeserializationError _, IInternalDeserializationError _
  | IInternalOsOperationFailed _, IInternalOsOperationFailed _
  | IInvalidHandleValueReceived _, IInvalidHandleValueReceived _ => True
  | _, _ => False
  end.

(* ---------------------------------------------------------------- histories *)

Notation history := (list (c_call * c_ret)).

(** What a successful call asked of the policy [ptr]. *)
Definition asked (ptr : N) (x : c_call * c_ret) : option api_call :=
  let on (p : N) (a : api_call) := if decide (p = ptr) then Some a else None in
  match x with
  | (c, (SSuccess, _)) =>
      match c with
      | PolicyFileRead p (Some w) => on p (CallRule (AllowFileRead w))
      | PolicyFileWrite p (Some w) => on p (CallRule (AllowFileWrite w))
      | PolicyFileLock p (Some w) x y z => on p (CallRule (AllowFileLock w x y z))
      | PolicyDirRead p (Some w) => on p (CallRule (AllowDirRead w))
      | PolicyDirWrite p (Some w) => on p (CallRule (AllowDirWrite w))
      | PolicyDirLock p (Some w) x y z => on p (CallRule (AllowDirLock w x y z))
      | PolicyLog p cb => on p (CallAddLogCallback cb)
      | PolicyInherit p h => on p (CallInherit h (Ok true))
      | _ => None
      end
  | _ => None
  end.
Definition asked_of (ptr : N) (h : history) : list api_call := omap (asked ptr) h.

(** Which call made the policy. *)
Definition made_by (audit : bool) : c_call := if audit then PolicyNewAudit else PolicyNew.

(* ---------------------------------------------------------------- handles *)

(** Calls that offer the policy [ptr] a descriptor number. *)
Definition offers (ptr : N) (c : c_call) : bool :=
  match c with PolicyInherit p h => (p =? ptr) && (h <? 2 ^ 31) | _ => false end.
Definition offered (ptr : N) (cs : list c_call) : nat := length (filter (λ c, offers ptr c) cs).
(** A program that offers no policy more than 32. *)
Definition few_handles (cs : list c_call) : Prop := ∀ ptr, (offered ptr cs ≤ 32)%nat.

(** What the user sees of an object: the library's policy, configuration or worker in
    it. *)
Inductive seen := SeePolicy (p : policy) | SeeConfig (c : config) | SeeWorker (pid : N).
Definition see (o : c_obj) : seen :=
  match o with
  | OPolicy p => SeePolicy (cp_inner p)
  | OConfig c => SeeConfig (cc_inner c)
  | OWorker pid => SeeWorker pid
  end.

(* ---------------------------------------------------------------- ownership *)

(** The descriptor that a redirection passes; u64::MAX means none. *)
Definition passes (c : c_call) : option N :=
  match c with
  | ConfigStdin _ h | ConfigStdout _ h | ConfigStderr _ h =>
      if decide (h = 18446744073709551615) then None else Some h
  | _ => None
  end.

(** The caller's own descriptors and what they refer to: it owns what it opens, until it
    closes it or a redirection takes it. *)
Definition owns_after (own : fdtab) (x : c_call * c_ret) : fdtab :=
  match x with
  | (HostOpen _ file flags, (SSuccess, Some n)) => <[n := mkFd file flags]> own
  | (HostClose fd, (SSuccess, _)) => delete fd own
  | (c, (SSuccess, _)) => match passes c with Some h => delete h own | None => own end
  | _ => own
  end.
Definition owns (own : fdtab) (h : history) : fdtab := foldl owns_after own h.

(** A program that closes, and passes to redirections, only descriptors it owns. *)
Fixpoint hands_over (cs : list c_call) (s : c_state) (own : fdtab) : Prop :=
  match cs with
  | [] => True
  | c :: cs =>
      (∀ h, passes c = Some h → is_Some (own !! h)) ∧
      (∀ fd, c = HostClose fd → is_Some (own !! fd)) ∧
      ∀ r s', c_step c s = CDone (r, s') → hands_over cs s' (owns_after own (c, r))
  end.

(** What the documentation asks: the descriptor passed is valid; and the program closes
    only descriptors it owns. *)
Fixpoint as_documented (cs : list c_call) (s : c_state) (own : fdtab) : Prop :=
  match cs with
  | [] => True
  | c :: cs =>
      (∀ h, passes c = Some h → is_Some (c_tab s !! h)) ∧
      (∀ fd, c = HostClose fd → is_Some (own !! fd)) ∧
      ∀ r s', c_step c s = CDone (r, s') → as_documented cs s' (owns_after own (c, r))
  end.

(* ---------------------------------------------------------------- C strings *)

(** The memory holds the C string [w]. *)
Definition holds_string (mem w : str) : Prop := x00 ∉ w ∧ ∃ rest, mem = w ++ x00 :: rest.

Definition request_passed (r : lx_request) (f : ffi_request) : Prop :=
  match r, f with
  | FileOpen path flags, FfiFileOpen mem fl => holds_string mem path ∧ fl = flags
  | Syscall nb args ip, FfiSyscall n a b c d e f i =>
      n = nb ∧ args = [a; b; c; d; e; f] ∧ i = ip
  | _, _ => False
  end.
Definition verdict_passed (v : verdict) (f : ffi_verdict) : Prop :=
  match v, f with
  | Granted, FfiGranted => True
  | DeniedByPolicy why, FfiDenied mem => holds_string mem why
  | DelegationToSandboxNotSupported why, FfiUnsupported mem => holds_string mem why
  | InvalidRequestParameters a why, FfiInvalid mem mem' =>
      holds_string mem a ∧ holds_string mem' why
  | _, _ => False
  end.
