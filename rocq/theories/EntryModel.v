(** Model of linux-entrypoint/src: the function the new process runs between clone and
    execve. The process has one thread and its own copy of the descriptor table (clone is
    called without CLONE_FILES or CLONE_VM). *)
From stdpp Require Import prelude gmap.
From Coq Require Import Strings.Byte.
From Verif Require Import Bytes FdModel BpfModel.
Local Open Scope N_scope.

(* ---------------------------------------------------------------- capabilities *)

(** capabilities(7): the five sets of a thread. *)
Record caps := mkCaps {
  c_perm : gset N; c_eff : gset N; c_inh : gset N; c_amb : gset N; c_bound : gset N }.
(** linux-entrypoint/src/capabilities.rs:11 *)
Definition CAP_SETPCAP : N := 8.

(** Answers of libcap and the kernel to drop_capabilities. *)
Record cap_env := mkCapEnv {
  ce_get_proc : bool;            (* cap_get_proc gave a state *)
  ce_get_flag : bool;            (* cap_get_flag *)
  ce_set_flag : bool;            (* cap_set_flag *)
  ce_raise : bool;               (* cap_set_proc after raising CAP_SETPCAP *)
  ce_count : N;                  (* how many capabilities the kernel knows *)
  ce_refuse : N → bool;          (* the kernel refuses to drop this one *)
  ce_clear : bool;               (* cap_clear *)
  ce_final : bool }.             (* cap_set_proc of the empty state *)

(** prctl(PR_CAPBSET_DROP): needs CAP_SETPCAP in the effective set. *)
Definition cap_drop_bound (e : cap_env) (cap : N) (c : caps) : option caps :=
  if (cap <? ce_count e) && bool_decide (CAP_SETPCAP ∈ c_eff c) && negb (ce_refuse e cap)
  then Some (mkCaps (c_perm c) (c_eff c) (c_inh c) (c_amb c) (c_bound c ∖ {[ cap ]}))
  else None.
(** capabilities.rs:89-95; the kernel refuses the number [ce_count], so that many rounds
    are enough. *)
Fixpoint drop_loop (fuel : nat) (e : cap_env) (cap : N) (c : caps) : caps :=
  match fuel with
  | O => c
  | S fuel =>
      match cap_drop_bound e cap c with
      | None => c
      | Some c => drop_loop fuel e (cap + 1) c
      end
  end.
(** capabilities.rs:48-116. Lowering the permitted and inheritable sets lowers the
    ambient set as well. *)
Definition drop_capabilities (e : cap_env) (c : caps) : caps :=
  if negb (ce_get_proc e) then c
  else
    let c :=
      if negb (ce_get_flag e) then c
      else if bool_decide (CAP_SETPCAP ∈ c_perm c) then
        if negb (ce_set_flag e) then c
        else if negb (ce_raise e) then c
        else
          let c := mkCaps (c_perm c) (c_eff c ∪ {[ CAP_SETPCAP ]}) (c_inh c) (c_amb c)
                     (c_bound c) in
          drop_loop (S (N.to_nat (ce_count e))) e 0 c
      else c in
    if negb (ce_clear e) then c
    else if ce_final e then mkCaps ∅ ∅ ∅ ∅ (c_bound c)
    else c.

(* ---------------------------------------------------------------- process state *)

Inductive namespace := NsIpc | NsNet | NsUts | NsCgroup | NsMount.
Global Instance namespace_eq_dec : EqDecision namespace.
Proof. solve_decision. Defined.

(** Effects outside the process that matter: files opened (with flags), what is written
    to an open file, and the call of execve with its answer (None is success). *)
Inductive ep_event :=
  | EpOpen (path : str) (flags : Z) (file : N)
  | EpWrite (file : N) (bytes : str)
  | EpExecve (exe : str) (argv envp : list str) (answer : option N).

Record ep_state := mkEp {
  ep_tab : fdtab;
  ep_nnp : bool;
  ep_caps : caps;
  ep_unshared : list namespace;
  ep_umask : N;
  ep_trace : list ep_event;
  ep_cwd : str }.
Definition set_tab (t : fdtab) (s : ep_state) : ep_state :=
  mkEp t (ep_nnp s) (ep_caps s) (ep_unshared s) (ep_umask s) (ep_trace s) (ep_cwd s).
Definition add_event (v : ep_event) (s : ep_state) : ep_state :=
  mkEp (ep_tab s) (ep_nnp s) (ep_caps s) (ep_unshared s) (ep_umask s) (ep_trace s ++ [v])
    (ep_cwd s).
Definition set_caps (c : caps) (s : ep_state) : ep_state :=
  mkEp (ep_tab s) (ep_nnp s) c (ep_unshared s) (ep_umask s) (ep_trace s) (ep_cwd s).
Definition add_ns (n : namespace) (s : ep_state) : ep_state :=
  mkEp (ep_tab s) (ep_nnp s) (ep_caps s) (ep_unshared s ++ [n]) (ep_umask s) (ep_trace s) (ep_cwd s).

(** entry.rs:9-24; the fields that matter. *)
Record ep_params := mkParams {
  pr_uid_map : str; pr_gid_map : str;
  pr_allowed : list N;
  pr_pipe : N;
  pr_stdin : option N; pr_stdout : option N; pr_stderr : option N;
  pr_exe : str; pr_argv : list str; pr_envp : list str }.

(** Answers of the kernel. An open gives a new open file (its number) or fails. *)
Record ep_env := mkEpEnv {
  ee_limit : N;                        (* RLIMIT_NOFILE *)
  ee_nnp : bool;                       (* prctl(PR_SET_NO_NEW_PRIVS) *)
  ee_setgroups : option N;             (* open of /proc/self/setgroups *)
  ee_uid_map : option N;
  ee_gid_map : option N;
  ee_unshare : namespace → bool;
  ee_caps : cap_env;
  ee_fds : option N;                   (* open of /proc/self/fd/ *)
  ee_opendir : bool;                   (* fdopendir *)
  ee_listing : fdtab → list N;         (* order in which the directory lists descriptors *)
  ee_readdir : option nat;             (* readdir fails after so many entries *)
  ee_close : N → bool;                 (* close of this descriptor reports success *)
  ee_dup : N → bool;                   (* dup for this standard stream is not refused *)
  ee_devnull : N → option N;           (* open of /dev/null for this standard stream *)
  ee_execve : option N }.              (* None: success; Some errno *)

Definition O_RDONLY : Z := 0.
Definition O_WRONLY : Z := 1.
Definition O_DIRECTORY : Z := 65536.
Definition O_CLOEXEC : Z := 524288.

(** open(2) that creates a new open file [file]. *)
Definition ep_open (e : ep_env) (path : str) (flags : Z) (file : option N) (s : ep_state)
  : option (N * ep_state) :=
  match file with
  | None => None
  | Some f =>
      match fd_install (ee_limit e)
              (mkFd f (if Z.testbit flags 19 then FD_CLOEXEC else 0%Z)) (ep_tab s) with
      | None => None
      | Some (n, t) => Some (n, add_event (EpOpen path flags f) (set_tab t s))
      end
  end.
(** close(2) whose result is not looked at. *)
Definition ep_close (fd : N) (s : ep_state) : ep_state :=
  match sys_close fd (ep_tab s) with Some t => set_tab t s | None => s end.
(** write(2) to a descriptor. *)
Definition ep_write (fd : N) (bytes : str) (s : ep_state) : ep_state :=
  match ep_tab s !! fd with
  | Some ent => add_event (EpWrite (fd_file ent) bytes) s
  | None => s
  end.

(** entry.rs:47-60, 64-79 and 80-95: open, write, close; failures are only logged. *)
Definition write_proc (e : ep_env) (path : str) (file : option N) (bytes : str) (s : ep_state)
  : ep_state :=
  match ep_open e path O_WRONLY file s with
  | None => s
  | Some (fd, s) => ep_close fd (ep_write fd bytes s)
  end.

(** The result: the process ended, or the program started in this state. *)
Inductive ep_result := EpExited (s : ep_state) | EpStarted (s : ep_state).

(** entry.rs:202-214. The loop over the allowed list; with an empty list nothing is
    kept. *)
Definition keep (p : ep_params) (fds_fd fd : N) : bool :=
  existsb (λ a, (fd <=? 2) || (fd =? a) || (fd =? fds_fd) || (fd =? pr_pipe p)) (pr_allowed p).
(** entry.rs:174-223 on the listed descriptors; None is log_fatal. The entries "." and
    ".." are skipped (186-188) and all others parse as numbers. At the end readdir needs
    the directory's descriptor. *)
Fixpoint cleanup (e : ep_env) (p : ep_params) (fds_fd : N) (count : nat) (fds : list N)
  (s : ep_state) : option ep_state :=
  if bool_decide (ee_readdir e = Some count) then None else
  match fds with
  | [] => match ep_tab s !! fds_fd with None => None | Some _ => Some s end
  | fd :: fds =>
      if keep p fds_fd fd then cleanup e p fds_fd (S count) fds s
      else
        match sys_close fd (ep_tab s) with
        | Some t => if ee_close e fd then cleanup e p fds_fd (S count) fds (set_tab t s) else None
        | None => None
        end
  end.

(** entry.rs:265-295; None is log_fatal. *)
Definition setup_std (e : ep_env) (num : N) (replace_with : option N) (s : ep_state)
  : option ep_state :=
  let s := ep_close num s in
  match replace_with with
  | Some fd =>
      if ee_dup e num then
        match sys_dup (ee_limit e) fd (ep_tab s) with
        | Some (res, t) => if res =? num then Some (set_tab t s) else None
        | None => None
        end
      else None
  | None =>
      match ep_open e (lit "/dev/null") O_RDONLY (ee_devnull e num) s with
      | Some (res, s) => if res =? num then Some s else None
      | None => None
      end
  end.

(** execve(2): descriptors with the close-on-exec flag are closed. *)
Definition close_on_exec (t : fdtab) : fdtab :=
  filter (λ x, Z.testbit (fd_flags x.2) 0 = false) t.

(** entry.rs:97-152 *)
Definition unshare (e : ep_env) (n : namespace) (s : ep_state) : ep_state :=
  if ee_unshare e n then add_ns n s else s.

(** entry.rs:29-253. Messages on the debug descriptor are not modelled, nor is the
    mounting of /proc and the host name. *)
Definition clone_entrypoint (e : ep_env) (p : ep_params) (s : ep_state) : ep_result :=
  let s := mkEp (ep_tab s) (ep_nnp s) (ep_caps s) (ep_unshared s) 0x180 (ep_trace s) (ep_cwd s) in
  if negb (ee_nnp e) then EpExited s else
  let s := mkEp (ep_tab s) true (ep_caps s) (ep_unshared s) (ep_umask s) (ep_trace s) (ep_cwd s) in
  let s := write_proc e (lit "/proc/self/setgroups") (ee_setgroups e) (lit "deny") s in
  let s := match pr_uid_map p with
           | [] => s
           | m => write_proc e (lit "/proc/self/uid_map") (ee_uid_map e) m s
           end in
  let s := match pr_gid_map p with
           | [] => s
           | m => write_proc e (lit "/proc/self/gid_map") (ee_gid_map e) m s
           end in
  let s := unshare e NsIpc s in
  let s := unshare e NsNet s in
  let s := unshare e NsUts s in
  let s := unshare e NsCgroup s in
  let s := unshare e NsMount s in
  let s := set_caps (drop_capabilities (ee_caps e) (ep_caps s)) s in
  match ep_open e (lit "/proc/self/fd/") (Z.lor O_RDONLY (Z.lor O_DIRECTORY O_CLOEXEC))
          (ee_fds e) s with
  | None => EpExited s
  | Some (fds_fd, s) =>
      if negb (ee_opendir e) then EpExited s else
      match cleanup e p fds_fd 0 (ee_listing e (ep_tab s)) s with
      | None => EpExited s
      | Some s =>
          let s := ep_close fds_fd s in
          match setup_std e 0 (pr_stdin p) s with
          | None => EpExited s
          | Some s =>
              match setup_std e 1 (pr_stdout p) s with
              | None => EpExited s
              | Some s =>
                  match setup_std e 2 (pr_stderr p) s with
                  | None => EpExited s
                  | Some s =>
                      let s := add_event (EpExecve (pr_exe p) (pr_argv p) (pr_envp p)
                                            (ee_execve e)) s in
                      match ee_execve e with
                      | None => EpStarted (set_tab (close_on_exec (ep_tab s)) s)
                      | Some errno =>
                          (* [to_be_bytes], 244-250 *)
                          EpExited (ep_write (pr_pipe p) (rev (n_bytes 4 errno)) s)
                      end
                  end
              end
          end
      end
  end.
