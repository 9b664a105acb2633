(** Model of bindings/C/broker/src (the C interface of the broker), on Linux, and of
    the conversions for the log callbacks on both systems. *)
From stdpp Require Import prelude gmap.
From Coq Require Import Strings.Byte.
From Verif Require Import Bytes PolicyModel LinuxPolicyModel PostcardModel FdModel ChannelModel
  BrokerModel ProcessModel WinPolicyModel.
Local Open Scope N_scope.

(* ---------------------------------------------------------------- statuses *)

(** error.rs:5-41 *)
Inductive iris_status :=
  | SSuccess | SInvalidArguments | STooManyHandles | SNonUtf8Path
  | SPolicyHandleNotInheritable | SPolicyUnsupportedFilesystemPath
  | SPolicyUnsupportedRegistryPath | SPolicyInvalidHandle | SPolicyHandleOsOperationFailed
  | SBrokerConflictingEnvironmentVariable | SBrokerMissingCommandLine
  | SBrokerInternalOsOperationFailed | SProcessExitedDuringInitialization
  | SWorkerCommunicationError | SUnexpectedWorkerMessage
  | SIpcUnexpectedHandleWithPayload | SIpcInvalidProcessID
  | SIpcUnableToOpenProcessOnTheOtherEnd | SIpcPayloadTooBigToTransmit
  | SIpcPayloadTooBigToSerialize | SIpcPayloadTooBigToDeserialize
  | SIpcInternalSerializationError | SIpcInternalDeserializationError
  | SIpcInternalOsOperationFailed | SIpcHandleOperationFailed | SIpcInvalidHandleValueReceived
  | SHandleInvalidValue | SHandleInternalOsOperationFailed.
Global Instance iris_status_eq_dec : EqDecision iris_status.
Proof. solve_decision. Defined.

(** error.rs:7-40, the numbers the C caller sees. *)
Definition status_code (s : iris_status) : N :=
  match s with
  | SSuccess => 0
  | SInvalidArguments => 1
  | STooManyHandles => 2
  | SNonUtf8Path => 3
  | SPolicyHandleNotInheritable => 1001
  | SPolicyUnsupportedFilesystemPath => 1002
  | SPolicyUnsupportedRegistryPath => 1003
  | SPolicyInvalidHandle => 1004
  | SPolicyHandleOsOperationFailed => 1005
  | SBrokerConflictingEnvironmentVariable => 2001
  | SBrokerMissingCommandLine => 2002
  | SBrokerInternalOsOperationFailed => 2003
  | SProcessExitedDuringInitialization => 2004
  | SWorkerCommunicationError => 2005
  | SUnexpectedWorkerMessage => 2006
  | SIpcUnexpectedHandleWithPayload => 3001
  | SIpcInvalidProcessID => 3003
  | SIpcUnableToOpenProcessOnTheOtherEnd => 3004
  | SIpcPayloadTooBigToTransmit => 3005
  | SIpcPayloadTooBigToSerialize => 3006
  | SIpcPayloadTooBigToDeserialize => 3007
  | SIpcInternalSerializationError => 3008
  | SIpcInternalDeserializationError => 3009
  | SIpcInternalOsOperationFailed => 3010
  | SIpcHandleOperationFailed => 3011
  | SIpcInvalidHandleValueReceived => 3012
  | SHandleInvalidValue => 4001
  | SHandleInternalOsOperationFailed => 4002
  end.

(** ipc/src/error.rs:1-11 and 13-50. The description texts are left out. *)
Inductive handle_err :=
  | HInvalidHandleValue (raw : N)
  | HInternalOsOperationFailed (raw os_code : N).
Inductive ipc_err :=
  | IUnexpectedHandleWithPayload (payload : str)
  | IInvalidProcessID (pid : N)
  | IUnableToOpenProcessOnTheOtherEnd (pid os_code : N)
  | IPayloadTooBigToTransmit (payload : str)
  | IPayloadTooBigToSerialize (payload : str)
  | IPayloadTooBigToDeserialize (payload : str)
  | IInternalSerializationError
  | IInternalDeserializationError (payload : str)
  | IInternalOsOperationFailed (os_code : N)
  | IInvalidHandleValueReceived (raw : N).

(** error.rs:43-59 *)
Definition status_of_policy_error (e : policy_error) : iris_status :=
  match e with
  | HandleNotInheritable _ => SPolicyHandleNotInheritable
  | InvalidHandleValue _ => SPolicyInvalidHandle
  | InternalOsOperationFailed _ => SPolicyHandleOsOperationFailed
  | UnsupportedFilesystemPath _ => SPolicyUnsupportedFilesystemPath
  | UnsupportedRegistryPath _ => SPolicyUnsupportedRegistryPath
  end.

(** error.rs:61-80. The errors of [start_ipc_loop] have a type of their own in
    BrokerModel.v; a thread that cannot be created is an OS failure
    (broker/src/linux/ipc_loop.rs:75-78). *)
Definition status_of_broker_error (e : broker_error) : iris_status :=
  match e with
  | ConflictingEnvironmentVariable => SBrokerConflictingEnvironmentVariable
  | MissingCommandLine => SBrokerMissingCommandLine
  | CannotBuildPolicyForWorker e => status_of_policy_error e
  | StartFailed WorkerCommunicationError => SWorkerCommunicationError
  | StartFailed UnexpectedWorkerMessage => SUnexpectedWorkerMessage
  | StartFailed ProcessExitedDuringInitialization => SProcessExitedDuringInitialization
  | StartFailed ThreadCreationFailed | OsFailed _ _ => SBrokerInternalOsOperationFailed
  end.

(** error.rs:82-106 *)
Definition status_of_ipc_err (e : ipc_err) : iris_status :=
  match e with
  | IUnexpectedHandleWithPayload _ => SIpcUnexpectedHandleWithPayload
  | IInvalidProcessID _ => SIpcInvalidProcessID
  | IUnableToOpenProcessOnTheOtherEnd _ _ => SIpcUnableToOpenProcessOnTheOtherEnd
  | IPayloadTooBigToTransmit _ => SIpcPayloadTooBigToTransmit
  | IPayloadTooBigToSerialize _ => SIpcPayloadTooBigToSerialize
  | IPayloadTooBigToDeserialize _ => SIpcPayloadTooBigToDeserialize
  | IInternalSerializationError => SIpcInternalSerializationError
  | IInternalDeserializationError _ => SIpcInternalDeserializationError
  | IInternalOsOperationFailed _ => SIpcInternalOsOperationFailed
  | IInvalidHandleValueReceived _ => SIpcInvalidHandleValueReceived
  end.

(** error.rs:108-117 *)
Definition status_of_handle_err (e : handle_err) : iris_status :=
  match e with
  | HInvalidHandleValue _ => SHandleInvalidValue
  | HInternalOsOperationFailed _ _ => SHandleInternalOsOperationFailed
  end.

(* ---------------------------------------------------------------- objects *)

(** policy.rs:15-18. The references that [inner] holds point into [referenced_handles],
    whose entries never change once filled; they are represented by the raw values. *)
Record c_policy := mkCPolicy { cp_inner : policy; cp_slots : list (option N) }.

(** process_config.rs:10-15. [inner] refers to the three slots. *)
Record c_config := mkCConfig {
  cc_inner : config; cc_stdin : option N; cc_stdout : option N; cc_stderr : option N }.

(** What a pointer given to C can point to. A worker is its pid
    (broker/src/linux/process.rs:18-24). *)
Inductive c_obj :=
  | OPolicy (p : c_policy)
  | OConfig (c : c_config)
  | OWorker (pid : N).

(** The process using the library: its heap (address 0 is NULL; addresses are not used
    again, which only makes dangling pointers easier to spot), its descriptors, every
    close(2) the library made and whether the descriptor was open, and the processes of
    successfully created workers that were not killed. *)
Record c_state := mkC {
  c_heap : gmap N c_obj;
  c_next : N;
  c_tab : fdtab;
  c_closes : list (N * bool);
  c_running : list N }.

Definition c_put (ptr : N) (o : c_obj) (s : c_state) : c_state :=
  mkC (<[ptr := o]> (c_heap s)) (c_next s) (c_tab s) (c_closes s) (c_running s).
Definition c_del (ptr : N) (s : c_state) : c_state :=
  mkC (delete ptr (c_heap s)) (c_next s) (c_tab s) (c_closes s) (c_running s).
Definition c_new (o : c_obj) (s : c_state) : N * c_state :=
  (c_next s, mkC (<[c_next s := o]> (c_heap s)) (c_next s + 1) (c_tab s) (c_closes s)
               (c_running s)).
Definition c_set_tab (t : fdtab) (s : c_state) : c_state :=
  mkC (c_heap s) (c_next s) t (c_closes s) (c_running s).

(** Dropping a [Handle] (ipc/src/linux/handle.rs:78-90), a release build: a failing
    close(2) is only logged. A debug build panics. *)
Definition c_close (h : N) (s : c_state) : c_state :=
  mkC (c_heap s) (c_next s) (delete h (c_tab s))
    (c_closes s ++ [(h, bool_decide (is_Some (c_tab s !! h)))]) (c_running s).
Definition c_drop (o : option N) (s : c_state) : c_state :=
  match o with Some h => c_close h s | None => s end.

(** How a call ends: with a status and possibly a result (pointer, pid, descriptor), with
    a use of memory that is not what the pointer claims, or not at all. *)
Inductive c_end (A : Type) := CDone (a : A) | CUndefined | CHangs.
Arguments CDone {A} a.
Arguments CUndefined {A}.
Arguments CHangs {A}.
Definition c_ret : Type := iris_status * option N.

Definition ok (s : c_state) : c_end (c_ret * c_state) := CDone ((SSuccess, None), s).
Definition fails (e : iris_status) (s : c_state) : c_end (c_ret * c_state) :=
  CDone ((e, None), s).

(** [Box::from_raw] on the pointer. *)
Definition with_policy (ptr : N) (s : c_state)
  (f : c_policy → c_end (c_ret * c_state)) : c_end (c_ret * c_state) :=
  match c_heap s !! ptr with Some (OPolicy p) => f p | _ => CUndefined end.
Definition with_config (ptr : N) (s : c_state)
  (f : c_config → c_end (c_ret * c_state)) : c_end (c_ret * c_state) :=
  match c_heap s !! ptr with Some (OConfig c) => f c | _ => CUndefined end.

(* ---------------------------------------------------------------- policies *)

(** lib.rs:21 *)
Definition IRIS_MAX_HANDLES_PER_POLICY : nat := 32.

(** policy.rs:20-36 *)
Definition iris_policy_new_nothing_allowed (s : c_state) : c_end (c_ret * c_state) :=
  let '(ptr, s) := c_new (OPolicy (mkCPolicy nothing_allowed
                     (replicate IRIS_MAX_HANDLES_PER_POLICY None))) s in
  CDone ((SSuccess, Some ptr), s).
Definition iris_policy_new_audit (s : c_state) : c_end (c_ret * c_state) :=
  let '(ptr, s) := c_new (OPolicy (mkCPolicy unsafe_testing_audit_only
                     (replicate IRIS_MAX_HANDLES_PER_POLICY None))) s in
  CDone ((SSuccess, Some ptr), s).

(** policy.rs:42-55: the handles are leaked. *)
Definition iris_policy_free (ptr : N) (s : c_state) : c_end (c_ret * c_state) :=
  with_policy ptr s (λ _, ok (c_del ptr s)).

(** The slot search at policy.rs:74-77. *)
Fixpoint fill_slot (h : N) (slots : list (option N)) : option (list (option N)) :=
  match slots with
  | [] => None
  | None :: slots => Some (Some h :: slots)
  | Some x :: slots => match fill_slot h slots with
                       | Some slots => Some (Some x :: slots)
                       | None => None
                       end
  end.

(** Dropping a [SelfContainedPolicy] without going through [iris_policy_free]: the
    handles it holds are closed, in order. *)
Definition drop_policy (ptr : N) (p : c_policy) (s : c_state) : c_state :=
  foldl (λ s o, c_drop o s) (c_del ptr s) (cp_slots p).

(** policy.rs:62-92. The early return at line 79 drops the boxed policy (line 73 took it
    back from the caller) and then the new handle. A call that [inner] refuses keeps the
    handle in its slot. *)
Definition iris_policy_allow_inherit_handle (ptr h : N) (s : c_state)
  : c_end (c_ret * c_state) :=
  if ptr =? 0 then fails SInvalidArguments s
  else
    match handle_from_raw h with
    | None => fails (status_of_handle_err (HInvalidHandleValue h)) s
    | Some fd =>
        with_policy ptr s (λ p,
          match fill_slot fd (cp_slots p) with
          | None => fails STooManyHandles (c_close fd (drop_policy ptr p s))
          | Some slots =>
              match allow_inherit_handle (cp_inner p) fd (inherit_answer fd (c_tab s)) with
              | Ok q => ok (c_put ptr (OPolicy (mkCPolicy q slots)) s)
              | Err e => fails (status_of_policy_error e)
                           (c_put ptr (OPolicy (mkCPolicy (cp_inner p) slots)) s)
              end
          end)
    end.

(** The common part of the six functions below: the two null checks, the conversion to
    UTF-8 and the call. C strings are given by the bytes before their NUL, a null pointer
    is [None]. *)
Definition path_call (ptr : N) (path : option str) (r : str → rule) (s : c_state)
  : c_end (c_ret * c_state) :=
  match path with
  | None => fails SInvalidArguments s
  | Some w =>
      if ptr =? 0 then fails SInvalidArguments s
      else if negb (utf8_valid w) then fails SNonUtf8Path s
      else
        with_policy ptr s (λ p,
          match apply_rule (cp_inner p) (r w) with
          | Ok q => ok (c_put ptr (OPolicy (mkCPolicy q (cp_slots p))) s)
          | Err e => fails (status_of_policy_error e) s
          end)
  end.

(** policy.rs:97-116 *)
Definition iris_policy_allow_file_read (ptr : N) (path : option str) (s : c_state) :=
  path_call ptr path AllowFileRead s.
(** policy.rs:122-141 *)
Definition iris_policy_allow_file_write (ptr : N) (path : option str) (s : c_state) :=
  path_call ptr path AllowFileWrite s.
(** policy.rs:147-174 *)
Definition iris_policy_allow_file_lock (ptr : N) (path : option str) (a b c : bool)
  (s : c_state) :=
  path_call ptr path (λ w, AllowFileLock w a b c) s.
(** policy.rs:180-199 *)
Definition iris_policy_allow_dir_read (ptr : N) (path : option str) (s : c_state) :=
  path_call ptr path AllowDirRead s.
(** policy.rs:205-224 *)
Definition iris_policy_allow_dir_write (ptr : N) (path : option str) (s : c_state) :=
  path_call ptr path AllowDirWrite s.
(** policy.rs:230-257 *)
Definition iris_policy_allow_dir_lock (ptr : N) (path : option str) (a b c : bool)
  (s : c_state) :=
  path_call ptr path (λ w, AllowDirLock w a b c) s.

(** policy.rs:325-349. What the closure does is [ffi_call] below. *)
Definition iris_policy_add_log_callback (ptr cb : N) (s : c_state) : c_end (c_ret * c_state) :=
  if ptr =? 0 then fails SInvalidArguments s
  else with_policy ptr s (λ p,
    ok (c_put ptr (OPolicy (mkCPolicy (add_log_callback (cp_inner p) cb) (cp_slots p))) s)).

(* ---------------------------------------------------------------- process configurations *)

(** process_config.rs:22-48. [argv] is the array of [argc] strings; [None] is a null
    array, [out] tells whether the result pointer is non-null. *)
Definition iris_process_config_new (exe : option str) (argv : option (list str)) (out : bool)
  (s : c_state) : c_end (c_ret * c_state) :=
  match exe, argv with
  | Some e, Some (a :: args) =>
      if out then
        let '(ptr, s) := c_new (OConfig (mkCConfig (config_new e (a :: args)) None None None)) s in
        CDone ((SSuccess, Some ptr), s)
      else fails SInvalidArguments s
  | _, _ => fails SInvalidArguments s
  end.

(** process_config.rs:54-59: the slots are dropped in the order of the fields. *)
Definition iris_process_config_free (ptr : N) (s : c_state) : c_end (c_ret * c_state) :=
  with_config ptr s (λ c,
    ok (c_drop (cc_stderr c) (c_drop (cc_stdout c) (c_drop (cc_stdin c) (c_del ptr s))))).

(** process_config.rs:64-87 *)
Definition iris_process_config_current_working_directory (ptr : N) (cwd : option str)
  (s : c_state) : c_end (c_ret * c_state) :=
  if ptr =? 0 then fails SInvalidArguments s
  else with_config ptr s (λ c,
    ok (c_put ptr (OConfig (mkCConfig (set_current_working_directory cwd (cc_inner c))
                     (cc_stdin c) (cc_stdout c) (cc_stderr c))) s)).

(** process_config.rs:93-112 *)
Definition iris_process_config_environment_variable (ptr : N) (var : option str)
  (s : c_state) : c_end (c_ret * c_state) :=
  match var with
  | None => fails SInvalidArguments s
  | Some v =>
      if ptr =? 0 then fails SInvalidArguments s
      else with_config ptr s (λ c,
        match set_environment_variable v (cc_inner c) with
        | Ok i => ok (c_put ptr (OConfig (mkCConfig i (cc_stdin c) (cc_stdout c)
                                                    (cc_stderr c))) s)
        | Err e => fails (status_of_broker_error e) s
        end)
  end.

(** The conversion at process_config.rs:125-132, 161-168 and 197-204: u64::MAX is "no
    redirection". *)
Definition new_stream (h : N) : result (option N) iris_status :=
  if h =? 2 ^ 64 - 1 then Ok None
  else match handle_from_raw h with
       | None => Err (status_of_handle_err (HInvalidHandleValue h))
       | Some fd => Ok (Some fd)
       end.

(** process_config.rs:117-148: the assignment to the slot drops the previous handle. *)
Definition iris_process_config_redirect_stdin (ptr h : N) (s : c_state)
  : c_end (c_ret * c_state) :=
  if ptr =? 0 then fails SInvalidArguments s
  else match new_stream h with
       | Err e => fails e s
       | Ok o => with_config ptr s (λ c,
           ok (c_put ptr (OConfig (mkCConfig (redirect_stdin o (cc_inner c))
                 o (cc_stdout c) (cc_stderr c))) (c_drop (cc_stdin c) s)))
       end.
(** process_config.rs:153-184 *)
Definition iris_process_config_redirect_stdout (ptr h : N) (s : c_state)
  : c_end (c_ret * c_state) :=
  if ptr =? 0 then fails SInvalidArguments s
  else match new_stream h with
       | Err e => fails e s
       | Ok o => with_config ptr s (λ c,
           ok (c_put ptr (OConfig (mkCConfig (redirect_stdout o (cc_inner c))
                 (cc_stdin c) o (cc_stderr c))) (c_drop (cc_stdout c) s)))
       end.
(** process_config.rs:189-219 *)
Definition iris_process_config_redirect_stderr (ptr h : N) (s : c_state)
  : c_end (c_ret * c_state) :=
  if ptr =? 0 then fails SInvalidArguments s
  else match new_stream h with
       | Err e => fails e s
       | Ok o => with_config ptr s (λ c,
           ok (c_put ptr (OConfig (mkCConfig (redirect_stderr o (cc_inner c))
                 (cc_stdin c) (cc_stdout c) o)) (c_drop (cc_stderr c) s)))
       end.

(* ---------------------------------------------------------------- workers *)

(** broker.rs:16-38. [out] tells whether the result pointer is non-null. The environment
    of Worker::new is that of [worker_new]. *)
Definition iris_worker_new (cfg pol : N) (out : bool) (ne : new_env) (evs : list sock_event)
  (s : c_state) : c_end (c_ret * c_state) :=
  if (cfg =? 0) || (pol =? 0) || negb out then fails SInvalidArguments s
  else with_config cfg s (λ c, with_policy pol s (λ p,
    let o := worker_new ne (cc_inner c) (cp_inner p) evs (c_tab s) in
    match wo_result o with
    | WnOk pid _ =>
        let '(ptr, s) := c_new (OWorker pid) (c_set_tab (wo_tab o) s) in
        CDone ((SSuccess, Some ptr),
               mkC (c_heap s) (c_next s) (c_tab s) (c_closes s) (pid :: c_running s))
    | WnErr e => fails (status_of_broker_error e) (c_set_tab (wo_tab o) s)
    | WnPanic => CUndefined          (* a panic crosses the C boundary *)
    | WnBlocked | WnWaiting => CHangs
    end)).

(** broker.rs:44-57 *)
Definition iris_worker_get_pid (ptr : N) (out : bool) (s : c_state) : c_end (c_ret * c_state) :=
  if (ptr =? 0) || negb out then fails SInvalidArguments s
  else match c_heap s !! ptr with
       | Some (OWorker pid) => CDone ((SSuccess, Some pid), s)
       | _ => CUndefined
       end.

(** broker.rs:59-65. Neither [Worker] nor [OSSandboxedProcess] implements Drop: only
    memory is freed. *)
Definition iris_worker_free (ptr : N) (s : c_state) : c_end (c_ret * c_state) :=
  match c_heap s !! ptr with
  | Some (OWorker _) => ok (c_del ptr s)
  | _ => CUndefined
  end.

(* ---------------------------------------------------------------- programs *)

(** A program using the interface: calls of the library, and opening and closing
    descriptors of its own ([HostOpen] is any system call that returns a new one). *)
Inductive c_call :=
  | PolicyNew | PolicyNewAudit
  | PolicyFree (p : N)
  | PolicyInherit (p h : N)
  | PolicyFileRead (p : N) (path : option str)
  | PolicyFileWrite (p : N) (path : option str)
  | PolicyFileLock (p : N) (path : option str) (readers writers deleters : bool)
  | PolicyDirRead (p : N) (path : option str)
  | PolicyDirWrite (p : N) (path : option str)
  | PolicyDirLock (p : N) (path : option str) (readers writers deleters : bool)
  | PolicyLog (p cb : N)
  | ConfigNew (exe : option str) (argv : option (list str)) (out : bool)
  | ConfigFree (c : N)
  | ConfigCwd (c : N) (cwd : option str)
  | ConfigEnv (c : N) (var : option str)
  | ConfigStdin (c h : N)
  | ConfigStdout (c h : N)
  | ConfigStderr (c h : N)
  | WorkerNew (c p : N) (out : bool) (ne : new_env) (evs : list sock_event)
  | WorkerGetPid (w : N) (out : bool)
  | WorkerFree (w : N)
  | HostOpen (limit file : N) (flags : Z)
  | HostClose (fd : N).

Definition c_step (c : c_call) (s : c_state) : c_end (c_ret * c_state) :=
  match c with
  | PolicyNew => iris_policy_new_nothing_allowed s
  | PolicyNewAudit => iris_policy_new_audit s
  | PolicyFree p => iris_policy_free p s
  | PolicyInherit p h => iris_policy_allow_inherit_handle p h s
  | PolicyFileRead p w => iris_policy_allow_file_read p w s
  | PolicyFileWrite p w => iris_policy_allow_file_write p w s
  | PolicyFileLock p w x y z => iris_policy_allow_file_lock p w x y z s
  | PolicyDirRead p w => iris_policy_allow_dir_read p w s
  | PolicyDirWrite p w => iris_policy_allow_dir_write p w s
  | PolicyDirLock p w x y z => iris_policy_allow_dir_lock p w x y z s
  | PolicyLog p cb => iris_policy_add_log_callback p cb s
  | ConfigNew e a out => iris_process_config_new e a out s
  | ConfigFree c => iris_process_config_free c s
  | ConfigCwd c d => iris_process_config_current_working_directory c d s
  | ConfigEnv c v => iris_process_config_environment_variable c v s
  | ConfigStdin c h => iris_process_config_redirect_stdin c h s
  | ConfigStdout c h => iris_process_config_redirect_stdout c h s
  | ConfigStderr c h => iris_process_config_redirect_stderr c h s
  | WorkerNew c p out ne evs => iris_worker_new c p out ne evs s
  | WorkerGetPid w out => iris_worker_get_pid w out s
  | WorkerFree w => iris_worker_free w s
  | HostOpen limit file flags =>
      match fd_install limit (mkFd file flags) (c_tab s) with
      | Some (n, t) => CDone ((SSuccess, Some n), c_set_tab t s)
      | None => fails SInvalidArguments s
      end
  | HostClose fd =>
      match sys_close fd (c_tab s) with
      | Some t => ok (c_set_tab t s)
      | None => fails SInvalidArguments s
      end
  end.

Fixpoint c_run (cs : list c_call) (s : c_state) : c_end (list c_ret * c_state) :=
  match cs with
  | [] => CDone ([], s)
  | c :: cs =>
      match c_step c s with
      | CDone (r, s) =>
          match c_run cs s with
          | CDone (rs, s) => CDone (r :: rs, s)
          | CUndefined => CUndefined
          | CHangs => CHangs
          end
      | CUndefined => CUndefined
      | CHangs => CHangs
      end
  end.

(** A process that has not called the library yet. *)
Definition c_init (t : fdtab) : c_state := mkC ∅ 1 t [] [].

(* ---------------------------------------------------------------- log callbacks *)

(** [CString::new(s).unwrap().into_raw()]: the bytes at the pointer, or a panic when the
    text holds a NUL. *)
Definition c_string (w : str) : outcome str :=
  if contains [x00] w then Panicked else Done (w ++ [x00]).

(** linux/mod.rs:6-21 and policy.rs:259-272, with the memory behind the pointers. *)
Inductive ffi_request :=
  | FfiFileOpen (path : str) (flags : Z)
  | FfiSyscall (nb arg0 arg1 arg2 arg3 arg4 arg5 ip : Z).
Inductive ffi_verdict :=
  | FfiGranted
  | FfiDenied (why : str)
  | FfiUnsupported (why : str)
  | FfiInvalid (argument_name why : str).

(** linux/mod.rs:23-42. [args] has six entries by its Rust type. *)
Definition ffi_of_request (r : lx_request) : outcome ffi_request :=
  match r with
  | FileOpen path flags =>
      match c_string path with Done b => Done (FfiFileOpen b flags) | _ => Panicked end
  | Syscall nb args ip =>
      match args with
      | [a0; a1; a2; a3; a4; a5] => Done (FfiSyscall nb a0 a1 a2 a3 a4 a5 ip)
      | _ => Panicked
      end
  end.

(** policy.rs:274-294 *)
Definition ffi_of_verdict (v : verdict) : outcome ffi_verdict :=
  match v with
  | Granted => Done FfiGranted
  | DeniedByPolicy why =>
      match c_string why with Done b => Done (FfiDenied b) | _ => Panicked end
  | DelegationToSandboxNotSupported why =>
      match c_string why with Done b => Done (FfiUnsupported b) | _ => Panicked end
  | InvalidRequestParameters a why =>
      match c_string a, c_string why with
      | Done b, Done c => Done (FfiInvalid b c)
      | _, _ => Panicked
      end
  end.

(** The closure at policy.rs:338-346. *)
Definition ffi_call (r : lx_request) (v : verdict) : outcome (ffi_request * ffi_verdict) :=
  match ffi_of_request r with
  | Done fr => match ffi_of_verdict v with Done fv => Done (fr, fv) | _ => Panicked end
  | _ => Panicked
  end.

(** policy/src/policy.rs:262-264 with closures made by [iris_policy_add_log_callback]:
    every callback of [calls] runs, until one panics. *)
Fixpoint ffi_calls (calls : list (N * lx_request * verdict))
  : outcome (list (N * ffi_request * ffi_verdict)) :=
  match calls with
  | [] => Done []
  | (cb, r, v) :: calls =>
      match ffi_call r v with
      | Done (fr, fv) =>
          match ffi_calls calls with
          | Done l => Done ((cb, fr, fv) :: l)
          | _ => Panicked
          end
      | _ => Panicked
      end
  end.

(** broker/src/linux/brokered_syscalls.rs:8-46 for a policy whose callbacks all come from
    C: the callbacks run inside [evaluate_request] (lines 14 and 44), on the broker's
    thread. *)
Definition ffi_dispatch (env : benv) (p : policy) (m : ipc_request) (s : bstate)
  : outcome (Z * option N) * bstate :=
  let req := match m with
             | ReqOpenFile path flags => Some (FileOpen path flags)
             | ReqSyscall nb args ip => Some (Syscall nb args ip)
             | ReqInitialization => None
             end in
  match req with
  | Some r => match ffi_calls (snd (evaluate_request p r)) with
              | Done _ => dispatch env p m s
              | _ => (Panicked, s)
              end
  | None => dispatch env p m s
  end.

(** windows/mod.rs:7-27 and 29-78. Asking [std::alloc::alloc] for zero bytes is undefined
    behaviour (its documentation), and the extended attributes of a request are usually
    empty. *)
Inductive win_ffi_request :=
  | WFfiFileOpen (path : str) (access attributes share disposition options : Z) (ea : str)
      (ea_length : N)
  | WFfiRegKeyOpen (path : str) (access options : Z) (do_create : bool).
Definition win_ffi_of_request (r : win_request) : c_end win_ffi_request :=
  match r with
  | WinFileOpen f =>
      if Nat.eqb (length (fr_ea f)) 0 then CUndefined
      else match c_string (fr_path f) with
           | Done b => CDone (WFfiFileOpen b (fr_access f) (fr_attributes f) (fr_share f)
                         (fr_disposition f) (fr_options f) (fr_ea f)
                         (N.of_nat (length (fr_ea f))))
           | _ => CHangs          (* a panic *)
           end
  | WinRegKeyOpen path access options create =>
      match c_string path with
      | Done b => CDone (WFfiRegKeyOpen b access options create)
      | _ => CHangs
      end
  end.
