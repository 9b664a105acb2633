(** Model of broker/src/windows/process.rs, broker/src/windows/proc_thread_attribute_list.rs,
    the part of broker/src/worker.rs that prepares a Windows worker, and [IpcChannel::new] of
    ipc/src/windows/channel.rs. *)
From stdpp Require Import prelude gmap sorting.
From Coq Require Import Strings.Byte.
From Verif Require Import Bytes PolicyModel LinuxPolicyModel FdModel BpfModel SeccompModel
  PostcardModel ChannelModel BrokerModel EntryModel ProcessModel.
Local Open Scope N_scope.

Definition dquote : byte := x22.
Definition space : byte := x20.
Definition equals : byte := x3d.

(* ---------------------------------------------------------------- command line *)

(** process.rs:182-192, one argument. *)
Definition cmdline_arg (a : str) : str :=
  let q := if bool_decide (space ∈ a) then [dquote] else [] in
  space :: q ++ a ++ q.
(** process.rs:179-193. The arguments are CStrings, so [CString::new] never fails. *)
Definition win_cmdline (exe : str) (argv : list str) : str :=
  dquote :: exe ++ [dquote] ++ concat (map cmdline_arg (tail argv)).

(* ---------------------------------------------------------------- environment *)

(** process.rs:67-98 *)
Definition sanitized_environment : list (str * option str) :=
  [(lit "COMPUTERNAME", Some (lit "PC"));
   (lit "LOGONSERVER", Some (lit "\\PC"));
   (lit "USERDOMAIN", Some (lit "PC"));
   (lit "USERDOMAIN_ROAMINGPROFILE", Some (lit "PC"));
   (lit "USERNAME", Some (lit "User"));
   (lit "COMMONPROGRAMFILES", None);
   (lit "COMMONPROGRAMFILES(X86)", None);
   (lit "COMMONPROGRAMW6432", None);
   (lit "COMSPEC", None);
   (lit "DRIVERDATA", None);
   (lit "HOMEDRIVE", None);
   (lit "OS", None);
   (lit "PATHEXT", None);
   (lit "PROGRAMDATA", None);
   (lit "PROGRAMFILES", None);
   (lit "PROGRAMFILES(X86)", None);
   (lit "PROGRAMW6432", None);
   (lit "PUBLIC", None);
   (lit "SESSIONNAME", None);
   (lit "SYSTEMDRIVE", None);
   (lit "SYSTEMROOT", None);
   (lit "WINDIR", None);
   (lit "NUMBER_OF_PROCESSORS", None);
   (lit "PROCESSOR_ARCHITECTURE", None);
   (lit "PROCESSOR_IDENTIFIER", None);
   (lit "PROCESSOR_LEVEL", None);
   (lit "PROCESSOR_REVISION", None);
   (lit "LOCALAPPDATA", None)].

(** process.rs:204-213 *)
Definition explicitly_set (name : str) (env : list str) : bool :=
  existsb (λ e : str, bool_decide (take (length name) e = name) &&
                bool_decide (e !! length name = Some equals)) env.
(** process.rs:202-221. [sys] is [std::env::var]; values of the OS have no NUL, so
    [CString::new] does not fail. *)
Definition merge_step (sys : str → option str) (env : list str) (v : str * option str) : list str :=
  let '(name, forced) := v in
  if explicitly_set name env then env
  else match forced with
       | Some val => env ++ [name ++ [equals] ++ val]
       | None => match sys name with
                 | Some val => env ++ [name ++ [equals] ++ val]
                 | None => env
                 end
       end.
Definition merged_env (sys : str → option str) (envp : list str) : list str :=
  foldl (merge_step sys) envp sanitized_environment.
(** process.rs:222-227 *)
Definition env_block (env : list str) : str := concat (map (λ s, s ++ [x00]) env) ++ [x00].

(* ---------------------------------------------------------------- directories *)

(** process.rs:244-249: characters are removed until the last one is a backslash. *)
Fixpoint pop_name (rev_path : str) : str :=
  match rev_path with
  | [] => []
  | b :: r => if decide (b = backslash) then b :: r else pop_name r
  end.
Definition executable_directory (exe : str) : str := rev (pop_name (rev exe)).
(** process.rs:579-586: the pattern given to FindFirstFile. *)
Definition dll_pattern (folder : str) : str :=
  (match last folder with
   | Some b => if decide (b = backslash) then folder else folder ++ [backslash]
   | None => folder ++ [backslash]
   end) ++ lit "*.dll".

(* ---------------------------------------------------------------- creation *)

(** Attributes for CreateProcess (process.rs:51-55), with their values. *)
Inductive win_attr :=
  | ACapabilities (profile : str)
  | ALessPrivileged (v : N)
  | AHandles (l : list N)
  | AChildPolicy (v : N)
  | AMitigations (v : N).

(** Arguments of CreateProcessA: the attribute slots allocated, the attributes set, and the
    rest. *)
Record cp_args := mkCp {
  cp_slots : N; cp_attrs : list win_attr; cp_cmdline : str; cp_envblock : str; cp_dir : str;
  cp_std : N * N * N }.

Inductive pevent :=
  | PList (slots : N)
  | PProfile (name : str) (hr : Z)
  | PUnprofile (name : str)
  | PSet (a : win_attr) (ok : bool)
  | PCreate (c : cp_args) (process : option N)     (* the process handle *)
  | PPid (pid : N).

(** Answers of the OS; each may depend on what happened before. *)
Record penv := mkPenv {
  pe_list : list pevent → N → bool;
  pe_appcontainers : bool;             (* APPCONTAINER_PROFILE_FN *)
  pe_own_pid : N;
  pe_profile : list pevent → str → Z;
  pe_set : list pevent → win_attr → bool;
  pe_create : list pevent → cp_args → option N;
  pe_pid : list pevent → N }.

(** The events so far and the next AppContainer number; other threads that start workers at
    the same time are left out. *)
Record pstate := mkPst { ps_trace : list pevent; ps_next : N }.
Definition plog (s : pstate) (e : pevent) : pstate := mkPst (ps_trace s ++ [e]) (ps_next s).

(** process.rs:275-279 *)
Record popts := mkOpts {
  po_container : bool; po_less : bool; po_handles : bool; po_child : bool; po_mitigations : bool }.
Definition all_opts : popts := mkOpts true true true true true.
Definition no_container (o : popts) : popts :=
  mkOpts false (po_less o) (po_handles o) (po_child o) (po_mitigations o).
Definition no_less (o : popts) : popts :=
  mkOpts (po_container o) false (po_handles o) (po_child o) (po_mitigations o).
Definition no_handles (o : popts) : popts :=
  mkOpts (po_container o) (po_less o) false (po_child o) (po_mitigations o).
Definition no_child (o : popts) : popts :=
  mkOpts (po_container o) (po_less o) (po_handles o) false (po_mitigations o).
Definition no_mitigations (o : popts) : popts :=
  mkOpts (po_container o) (po_less o) (po_handles o) (po_child o) false.
(** process.rs:285-294 *)
Definition count_opts (o : popts) : N :=
  N.of_nat (length (filter (λ b, b = true)
    [po_container o; po_less o; po_handles o; po_child o; po_mitigations o])).

(** process.rs:58-65 and 425-437 *)
Definition mitigation_policy : N :=
  foldl N.lor 0 [1; 4; 0x100; 0x300; 0x10000; 0x100000; 0x1000; 0x10000000].

(** process.rs:394-395: [sort] and [dedup]. *)
Fixpoint dedup (l : list N) : list N :=
  match l with
  | [] => []
  | a :: r => match r with
              | [] => [a]
              | b :: _ => if a =? b then dedup r else a :: dedup r
              end
  end.
Definition handle_list (handles : list N) : list N := dedup (merge_sort N.le handles).

Definition ALREADY_EXISTS : Z := -2147024713. (* HRESULT_FROM_WIN32(183) *)
Definition INVALID_HANDLE : N := 2 ^ 64 - 1.

(** What stays the same between attempts. *)
Record pinput := mkPin {
  pi_handles : list N; pi_cmdline : str; pi_envblock : str; pi_dir : str; pi_std : N * N * N }.

(** [OSSandboxedProcess] *)
Record win_process := mkWp { wp_pid : N; wp_handle : N; wp_container : option str }.

Inductive attempt_result := Again (o : popts) | Done (r : result win_process broker_error).

(** process.rs:306-310 *)
Definition container_name (pid id : N) : str :=
  lit "IrisAppContainer_" ++ fmt_dec pid ++ lit "_" ++ fmt_dec id.

Definition do_set (env : penv) (a : win_attr) (s : pstate) : bool * pstate :=
  let ok := pe_set env (ps_trace s) a in (ok, plog s (PSet a ok)).

(** process.rs:456-532 *)
Definition try_create (env : penv) (inp : pinput) (o : popts) (slots : N) (name : option str)
  (attrs : list win_attr) (s : pstate) : attempt_result * pstate :=
  let c := mkCp slots attrs (pi_cmdline inp) (pi_envblock inp) (pi_dir inp) (pi_std inp) in
  let res := pe_create env (ps_trace s) c in
  let s := plog s (PCreate c res) in
  match res with
  | None =>
      if po_mitigations o then (Again (no_mitigations o), s)
      else (Done (Err (OsFailed (lit "CreateProcess() failed") 0)), s)
  | Some h =>
      let pid := pe_pid env (ps_trace s) in
      let s := plog s (PPid pid) in
      if pid =? 0 then (Done (Err (OsFailed (lit "GetProcessId() failed") 0)), s)
      else (Done (Ok (mkWp pid h name)), s)
  end.

(** process.rs:423-454 *)
Definition try_mitigations (env : penv) (inp : pinput) (o : popts) (slots : N) (name : option str)
  (attrs : list win_attr) (s : pstate) : attempt_result * pstate :=
  if po_mitigations o then
    let a := AMitigations mitigation_policy in
    let '(ok, s) := do_set env a s in
    if ok then try_create env inp o slots name (attrs ++ [a]) s else (Again (no_mitigations o), s)
  else try_create env inp o slots name attrs s.

(** process.rs:408-421 *)
Definition try_child (env : penv) (inp : pinput) (o : popts) (slots : N) (name : option str)
  (attrs : list win_attr) (s : pstate) : attempt_result * pstate :=
  if po_child o then
    let a := AChildPolicy 1 in
    let '(ok, s) := do_set env a s in
    if ok then try_mitigations env inp o slots name (attrs ++ [a]) s else (Again (no_child o), s)
  else try_mitigations env inp o slots name attrs s.

(** process.rs:386-406 *)
Definition try_handles (env : penv) (inp : pinput) (o : popts) (slots : N) (name : option str)
  (attrs : list win_attr) (s : pstate) : attempt_result * pstate :=
  if po_handles o then
    let a := AHandles (handle_list (pi_handles inp)) in
    let '(ok, s) := do_set env a s in
    if ok then try_child env inp o slots name (attrs ++ [a]) s else (Again (no_handles o), s)
  else try_child env inp o slots name attrs s.

(** process.rs:368-381 *)
Definition try_less (env : penv) (inp : pinput) (o : popts) (slots : N) (name : str)
  (attrs : list win_attr) (s : pstate) : attempt_result * pstate :=
  if po_less o then
    let a := ALessPrivileged 1 in
    let '(ok, s) := do_set env a s in
    if ok then try_handles env inp o slots (Some name) (attrs ++ [a]) s else (Again (no_less o), s)
  else try_handles env inp o slots (Some name) attrs s.

(** process.rs:315-338: an old profile of the same name is deleted first. *)
Definition create_profile (env : penv) (name : str) (s : pstate) : Z * pstate :=
  let hr := pe_profile env (ps_trace s) name in
  let s := plog s (PProfile name hr) in
  if (hr =? ALREADY_EXISTS)%Z then
    let s := plog s (PUnprofile name) in
    let hr := pe_profile env (ps_trace s) name in
    (hr, plog s (PProfile name hr))
  else (hr, s).

(** One pass of the loop, process.rs:282-533 *)
Definition attempt (env : penv) (inp : pinput) (o : popts) (s : pstate) : attempt_result * pstate :=
  let o := if po_container o then o else no_less o in
  let slots := count_opts o in
  let ok := pe_list env (ps_trace s) slots in
  let s := plog s (PList slots) in
  if negb ok then (Done (Err (OsFailed (lit "InitializeProcThreadAttributeList()") 0)), s)
  else if po_container o then
    if pe_appcontainers env then
      let name := container_name (pe_own_pid env) (ps_next s) in
      let s := mkPst (ps_trace s) (ps_next s + 1) in
      let '(hr, s) := create_profile env name s in
      if negb (hr =? 0)%Z then (Again (no_container o), s)
      else
        let a := ACapabilities name in
        let '(ok, s) := do_set env a s in
        if ok then try_less env inp o slots name [a] s else (Again (no_container o), s)
    else (Again (no_container o), s)
  else try_handles env inp o slots None [] s.

(** process.rs:281-533; [None] when [fuel] passes are not enough. *)
Fixpoint create_loop (fuel : nat) (env : penv) (inp : pinput) (o : popts) (s : pstate)
  : option (result win_process broker_error * pstate) :=
  match fuel with
  | O => None
  | S fuel =>
      match attempt env inp o s with
      | (Done r, s) => Some (r, s)
      | (Again o, s) => create_loop fuel env inp o s
      end
  end.

(** process.rs:156-171: when a worker object is dropped its profile is deleted. *)
Definition drop_process (env : penv) (p : win_process) (s : pstate) : pstate :=
  match wp_container p with
  | Some name => if pe_appcontainers env then plog s (PUnprofile name) else s
  | None => s
  end.

Definition std_handle (h : option N) : N := default INVALID_HANDLE h.

(** process.rs:174-534. [handles] are the elements of [get_inherited_handles] in the order of
    the hash set; [windir] is the answer of GetSystemWindowsDirectory. The access control lists
    of DLLs (lines 260-268) are modelled in WinDllModel. *)
Definition win_process_new (fuel : nat) (env : penv) (sys : str → option str)
  (windir : option str) (c : config) (handles : list N) (s : pstate)
  : option (result win_process broker_error * pstate) :=
  match cf_argv c with
  | [] => Some (Err MissingCommandLine, s)
  | _ =>
      match windir with
      | None => Some (Err (OsFailed (lit "GetSystemDirectory() failed") 0), s)
      | Some dir =>
          create_loop fuel env
            (mkPin handles (win_cmdline (cf_exe c) (cf_argv c))
               (env_block (merged_env sys (cf_envp c))) dir
               (std_handle (cf_stdin c), std_handle (cf_stdout c), std_handle (cf_stderr c)))
            all_opts s
      end
  end.

(* ---------------------------------------------------------------- worker.rs on Windows *)

(** worker.rs:34-53: the handles and the configuration given to the process. [inheritable]
    tells which handles of the broker are; channel handle [wch]. *)
Definition win_worker_config (inheritable : N → bool) (wch : N) (c : config) (permitted : list N)
  : result (config * list N) broker_error :=
  let wanted := wch :: omap id [cf_stdin c; cf_stdout c; cf_stderr c] in
  if forallb inheritable wanted then
    match set_environment_variable (ipc_variable wch) c with
    | Err e => Err e
    | Ok c => Ok (c, permitted ++ wanted)
    end
  else Err (OsFailed (lit "handle not inheritable") 0).

(* ---------------------------------------------------------------- IpcChannel::new *)

(** Answers to CreateNamedPipe: created, name in use (ERROR_ACCESS_DENIED), or an error. *)
Inductive pipe_answer := PipeOk | PipeInUse | PipeError (code : N).
(** channel.rs:36-45: [pipe_id] is an i32; release builds wrap it around. *)
Definition next_id (id : Z) : Z := ((id + 1 + 2 ^ 31) mod 2 ^ 32 - 2 ^ 31)%Z.
Definition fmt_i32 (z : Z) : str :=
  if (z <? 0)%Z then lit "-" ++ fmt_dec (Z.to_N (- z)) else fmt_dec (Z.to_N z).
Definition pipe_path (pid : N) (id : Z) : str :=
  lit "\\.\pipe\ipc-" ++ fmt_dec pid ++ lit "-" ++ fmt_i32 id ++ [x00].
(** channel.rs:36-69 up to the first pipe created; the result is its number. The path is
    written into 100 bytes. *)
Fixpoint find_pipe (fuel : nat) (os : str → pipe_answer) (pid : N) (id : Z) : option (result Z N) :=
  match fuel with
  | O => None
  | S fuel =>
      let id := next_id id in
      if 100 <? N.of_nat (length (pipe_path pid id)) then Some (Err 0)
      else match os (pipe_path pid id) with
           | PipeOk => Some (Ok id)
           | PipeInUse => find_pipe fuel os pid id
           | PipeError e => Some (Err e)
           end
  end.
