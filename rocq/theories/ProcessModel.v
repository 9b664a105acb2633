(** Model of broker/src/process_config.rs, broker/src/linux/process.rs and
    broker/src/worker.rs on Linux: from a configuration to a running worker. *)
From stdpp Require Import prelude gmap.
From Coq Require Import Strings.Byte.
From Verif Require Import Bytes PolicyModel PostcardModel FdModel ChannelModel BrokerModel
  BpfModel SeccompModel EntryModel.
Local Open Scope N_scope.

(* ---------------------------------------------------------------- configuration *)

(** broker/src/error.rs:9-18. The name in the first error is a lossy copy of the
    variable's name and is not modelled. The errors of [start_ipc_loop] are in
    [start_error]. *)
Inductive broker_error :=
  | ConflictingEnvironmentVariable
  | MissingCommandLine
  | CannotBuildPolicyForWorker (e : policy_error)
  | OsFailed (description : str) (os_code : N)
  | StartFailed (e : start_error).

(** broker/src/process_config.rs:6-14. Handles are references to descriptors the caller
    owns. *)
Record config := mkConfig {
  cf_exe : str; cf_argv : list str; cf_envp : list str; cf_cwd : option str;
  cf_stdin : option N; cf_stdout : option N; cf_stderr : option N }.

(** process_config.rs:26-36 *)
Definition config_new (exe : str) (argv : list str) : config :=
  mkConfig exe argv [] None None None None.

(** process_config.rs:16-23 *)
Fixpoint name_from_env (v : str) : str :=
  match v with
  | [] => []
  | b :: v => if decide (b = x3d) then [] else b :: name_from_env v
  end.

(** process_config.rs:46-59: the first variable of the same name is an error. *)
Definition set_environment_variable (v : str) (c : config) : result config broker_error :=
  if existsb (λ prev, bool_decide (name_from_env prev = name_from_env v)) (cf_envp c)
  then Err ConflictingEnvironmentVariable
  else Ok (mkConfig (cf_exe c) (cf_argv c) (cf_envp c ++ [v]) (cf_cwd c)
             (cf_stdin c) (cf_stdout c) (cf_stderr c)).

(** process_config.rs:38-44 *)
Definition set_current_working_directory (d : option str) (c : config) : config :=
  mkConfig (cf_exe c) (cf_argv c) (cf_envp c) d (cf_stdin c) (cf_stdout c) (cf_stderr c).
(** process_config.rs:61-84 *)
Definition redirect_stdin (h : option N) (c : config) : config :=
  mkConfig (cf_exe c) (cf_argv c) (cf_envp c) (cf_cwd c) h (cf_stdout c) (cf_stderr c).
Definition redirect_stdout (h : option N) (c : config) : config :=
  mkConfig (cf_exe c) (cf_argv c) (cf_envp c) (cf_cwd c) (cf_stdin c) h (cf_stderr c).
Definition redirect_stderr (h : option N) (c : config) : config :=
  mkConfig (cf_exe c) (cf_argv c) (cf_envp c) (cf_cwd c) (cf_stdin c) (cf_stdout c) h.

(* ---------------------------------------------------------------- clone *)

(** broker/src/linux/process.rs:148-178. [answer] is None for success, or the errno. *)
Definition try_clone (answer : clone_flags → option N) (fl : clone_flags)
  : result clone_flags broker_error :=
  match answer fl with
  | None => Ok fl
  | Some errno => Err (OsFailed (lit "clone() failed") errno)
  end.
(** process.rs:104-106; the second part lists the clone calls made. *)
Definition clone_chain (answer : clone_flags → option N)
  : result clone_flags broker_error * list clone_flags :=
  let f1 := mkFlags true true in
  let f2 := mkFlags false true in
  let f3 := mkFlags false false in
  match try_clone answer f1 with
  | Ok fl => (Ok fl, [f1])
  | Err _ =>
      match try_clone answer f2 with
      | Ok fl => (Ok fl, [f1; f2])
      | Err _ => (try_clone answer f3, [f1; f2; f3])
      end
  end.

(* ---------------------------------------------------------------- process *)

(** pipe(2) and socketpair(2): two new descriptors or none. *)
Definition install2 (limit f1 f2 : N) (t : fdtab) : option (N * N * fdtab) :=
  match fd_install limit (mkFd f1 0) t with
  | None => None
  | Some (n1, t1) =>
      match fd_install limit (mkFd f2 0) t1 with
      | None => None
      | Some (n2, t2) => Some (n1, n2, t2)
      end
  end.

(** Answers of the kernel and what the new process inherits from the broker. *)
Record proc_env := mkProcEnv {
  pe_limit : N;
  pe_pipe : result (N * N) N;            (* open files of the pipe (read, write), or errno *)
  pe_clone : clone_flags → option N;     (* None: the clone succeeds *)
  pe_pid : N;                            (* the new process as the broker sees it *)
  pe_uid : N; pe_gid : N;
  pe_nnp : bool; pe_umask : N; pe_cwd : str;
  pe_caps : clone_flags → caps;          (* a new user namespace gives other ones *)
  pe_child : ep_env;                     (* the kernel's answers to the new process *)
  pe_read : option N }.                  (* errno if read(2) of the pipe fails, e.g. EINTR *)

(** What a file holds after the process's writes (only the new process writes to the
    pipe). *)
Definition written (f : N) (tr : list ep_event) : str :=
  concat (omap (λ v, match v with
                     | EpWrite g b => if g =? f then Some b else None
                     | _ => None
                     end) tr).
Definition final_state (r : ep_result) : ep_state :=
  match r with EpExited s => s | EpStarted s => s end.
(** Does the process, when it ended or its program started, hold the open file? *)
Definition holds_file (f : N) (r : ep_result) : bool :=
  match r with
  | EpExited _ => false
  | EpStarted s => existsb (λ x : N * fdent, fd_file x.2 =? f) (map_to_list (ep_tab s))
  end.

Inductive new_result := NewOk (pid : N) | NewErr (e : broker_error) | NewBlocked.

(** u32::from_be_bytes of a zeroed buffer into which [b] was read. *)
Definition be_value (b : str) : N := n_of_bytes (rev (take 4 (b ++ replicate 4 x00))).

(** process.rs:75-78 *)
Definition id_map (id : N) : str := fmt_dec id ++ lit " " ++ fmt_dec id ++ lit " 1" ++ [x0a].

(** broker/src/linux/process.rs:27-146. Closing the handles of the pipe cannot fail, they
    are open. Descriptor numbers are below 2^31, so the conversions to and from c_int
    succeed. [read] waits until the pipe has bytes or no writer is left. The stack and the
    leaked box on a failed clone are not modelled. *)
Definition process_new (pe : proc_env) (p : policy) (c : config) (t : fdtab)
  : new_result * fdtab * option (clone_flags * ep_result) :=
  if bool_decide (cf_argv c = []) then (NewErr MissingCommandLine, t, None) else
  match pe_pipe pe with
  | Err e => (NewErr (OsFailed (lit "pipe() failed") e), t, None)
  | Ok (fr, fw) =>
      match install2 (pe_limit pe) fr fw t with
      | None => (NewErr (OsFailed (lit "pipe() failed") EMFILE), t, None)
      | Some (rd, wr, t1) =>
          match handle_set_inheritable wr false t1 with
          | Done t2 =>
              match clone_chain (pe_clone pe) with
              | (Err e, _) => (NewErr e, delete wr (delete rd t2), None)
              | (Ok fl, _) =>
                  let params := mkParams (id_map (pe_uid pe)) (id_map (pe_gid pe))
                    (elements (get_inherited_handles p)) wr
                    (cf_stdin c) (cf_stdout c) (cf_stderr c)
                    (cf_exe c) (cf_argv c) (cf_envp c) in
                  let child := clone_entrypoint (pe_child pe) params
                    (mkEp t2 (pe_nnp pe) (pe_caps pe fl) [] (pe_umask pe) [] (pe_cwd pe)) in
                  let t3 := delete wr t2 in
                  let t4 := delete rd t3 in
                  let bytes := written fw (ep_trace (final_state child)) in
                  match pe_read pe with
                  | Some _ => (NewOk (pe_pid pe), t4, Some (fl, child))
                  | None =>
                      match bytes with
                      | [] =>
                          if holds_file fw child then (NewBlocked, t3, Some (fl, child))
                          else (NewOk (pe_pid pe), t4, Some (fl, child))
                      | _ => (NewErr (OsFailed (lit "execve()") (be_value bytes)), t4,
                              Some (fl, child))
                      end
                  end
              end
          | _ => (NewErr (OsFailed (lit "fcntl(F_GETFD) failed") 9), delete wr (delete rd t1), None)
          end
      end
  end.

(* ---------------------------------------------------------------- Worker::new *)

(** policy.allow_inherit_handle (policy/src/policy.rs:75-88) with the answer of the
    descriptor table; EBADF is 9. *)
Definition inherit_answer (h : N) (t : fdtab) : result bool policy_error :=
  match handle_is_inheritable h t with
  | Done b => Ok b
  | _ => Err (InternalOsOperationFailed 9)
  end.
Fixpoint allow_all (hs : list N) (t : fdtab) (p : policy) : result policy policy_error :=
  match hs with
  | [] => Ok p
  | h :: hs =>
      match allow_inherit_handle p h (inherit_answer h t) with
      | Ok p => allow_all hs t p
      | Err e => Err e
      end
  end.
Definition opt_list {A} (o : option A) : list A := match o with Some a => [a] | None => [] end.

(** ipc/src/lib.rs:23 *)
Definition IPC_HANDLE_ENV_NAME : str := lit "SANDBOX_IPC_HANDLE".
Definition ipc_variable (h : N) : str := IPC_HANDLE_ENV_NAME ++ lit "=" ++ fmt_dec h.

(** The rest of the environment of a call: the sockets of the channel (the broker's end
    first), the process, and the broker thread. *)
Record new_env := mkNewEnv {
  ne_sockets : result (N * N) N;
  ne_proc : proc_env;
  ne_broker : benv;
  ne_order : policy_order;
  ne_filter : result str N;
  ne_spawn : bool }.

(** Where the call is; [WnOk] comes with the state of the broker thread. *)
Inductive worker_result :=
  | WnOk (pid : N) (st : bstatus)
  | WnErr (e : broker_error)
  | WnPanic
  | WnBlocked          (* waiting for the error pipe *)
  | WnWaiting.         (* waiting for the first message *)
Record worker_out := mkOut {
  wo_result : worker_result;
  wo_tab : fdtab;
  wo_trace : list bevent;
  wo_child : option (clone_flags * ep_result) }.

(** broker/src/worker.rs:18-79. [evs] is what the broker's end of the channel gives.
    [set_remote_process] (50-68) does nothing on Linux. *)
Definition worker_new (ne : new_env) (c : config) (p : policy) (evs : list sock_event)
  (t : fdtab) : worker_out :=
  let pe := ne_proc ne in
  match ne_sockets ne with
  | Err e => mkOut (WnErr (OsFailed (lit "socketpair() failed") e)) t [] None
  | Ok (fb, fw) =>
      match install2 (pe_limit pe) fb fw t with
      | None => mkOut (WnErr (OsFailed (lit "socketpair() failed") EMFILE)) t [] None
      | Some (ch, wh, t1) =>
          let close t := delete ch (delete wh t) in
          match handle_set_inheritable wh true t1 with
          | Done t2 =>
              match allow_all (wh :: opt_list (cf_stdin c) ++ opt_list (cf_stdout c)
                                 ++ opt_list (cf_stderr c)) t2 p with
              | Err e => mkOut (WnErr (CannotBuildPolicyForWorker e)) (close t2) [] None
              | Ok p =>
                  match set_environment_variable (ipc_variable wh) c with
                  | Err e => mkOut (WnErr e) (close t2) [] None
                  | Ok c =>
                      match process_new pe p c t2 with
                      | (NewErr e, t3, child) => mkOut (WnErr e) (close t3) [] child
                      | (NewBlocked, t3, child) => mkOut WnBlocked t3 [] child
                      | (NewOk pid, t3, child) =>
                          match start_ipc_loop (ne_broker ne) (get_runtime_policy p)
                                  (ne_order ne) (ne_filter ne) (ne_spawn ne) ch evs
                                  (mkBst (delete wh t3) []) with
                          | (StWaiting, s) => mkOut WnWaiting (bs_tab s) (bs_trace s) child
                          | (StErr e, s) => mkOut (WnErr (StartFailed e)) (bs_tab s) (bs_trace s) child
                          | (StPanic, s) => mkOut WnPanic (bs_tab s) (bs_trace s) child
                          | (StOk st, s) => mkOut (WnOk pid st) (bs_tab s) (bs_trace s) child
                          end
                      end
                  end
              end
          | _ => mkOut (WnErr (OsFailed (lit "fcntl(F_GETFD) failed") 9)) (close t1) [] None
          end
      end
  end.

(** worker/src/lib.rs:10-27: the channel's descriptor from the environment; None is a
    panic. getenv(3) takes the first entry that starts with the name and '='. *)
Fixpoint after_prefix (pre s : str) : option str :=
  match pre, s with
  | [], _ => Some s
  | a :: pre, b :: s => if decide (a = b) then after_prefix pre s else None
  | _, _ => None
  end.
Fixpoint getenv (name : str) (envp : list str) : option str :=
  match envp with
  | [] => None
  | v :: envp =>
      match after_prefix (name ++ lit "=") v with
      | Some val => Some val
      | None => getenv name envp
      end
  end.
Definition worker_channel (envp : list str) : option N :=
  match getenv IPC_HANDLE_ENV_NAME envp with
  | None => None
  | Some v => match parse_u64 v with None => None | Some n => handle_from_raw n end
  end.
