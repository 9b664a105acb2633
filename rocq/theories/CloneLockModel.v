(** The new process of a call of Worker::new, in a program with several threads. clone(2)
    copies the memory of the program, with the words of the C library's locks, but only the
    calling thread (docs/architecture.md:19). The raw clone of process.rs:157-162 runs none of
    the handlers that fork(3) runs to set these locks free in the new process. *)
From stdpp Require Import prelude gmap.
From Coq Require Import Strings.Byte.
From Verif Require Import Bytes PolicyModel FdModel ChannelModel BrokerModel SeccompModel
  EntryModel ProcessModel LockModel.
Local Open Scope N_scope.

(** The locks of the C library that the entry point takes: the allocator's (malloc and free)
    and those of exit(3) (the list of exit functions and the open streams). *)
Inductive clock := LAlloc | LExit.
Global Instance clock_eq_dec : EqDecision clock.
Proof. solve_decision. Defined.

(** broker/src/linux/process.rs:156-163: the memory of the new process, whose only thread has
    the number [tid]. *)
Definition clone_mem (tid : N) (ops : list (lock_op clock)) (m : lock_mem clock)
  : lock_mem clock :=
  mkLockMem (lm_word m) {[ tid := ops ]}.

(* ---------------------------------------------------------------- the entry point *)

(** linux-entrypoint/src/entry.rs:29-152 without a failure of prctl: the state at the call of
    drop_capabilities. *)
Definition before_caps (e : ep_env) (p : ep_params) (s : ep_state) : ep_state :=
  let s := mkEp (ep_tab s) true (ep_caps s) (ep_unshared s) 0x180 (ep_trace s) (ep_cwd s) in
  let s := write_proc e (lit "/proc/self/setgroups") (ee_setgroups e) (lit "deny") s in
  let s := match pr_uid_map p with
           | [] => s
           | m => write_proc e (lit "/proc/self/uid_map") (ee_uid_map e) m s
           end in
  let s := match pr_gid_map p with
           | [] => s
           | m => write_proc e (lit "/proc/self/gid_map") (ee_gid_map e) m s
           end in
  let s := unshare e NsIpc s in
  let s := unshare e NsNet s in
  let s := unshare e NsUts s in
  let s := unshare e NsCgroup s in
  unshare e NsMount s.
(** linux-entrypoint/src/error.rs:38 and entry.rs:251: every way the entry point ends without
    a program is a call of exit(3). *)
Definition exit_use (r : ep_result) : list (clock * ep_state) :=
  match r with EpExited s => [(LExit, s)] | EpStarted _ => [] end.
(** entry.rs:29-253: the locks the entry point takes, in order, with the state of the process
    at each. cap_get_proc allocates (capabilities.rs:50), cap_free gives the memory back
    (113-115), fdopendir allocates the directory stream (entry.rs:170). A lock is given back
    before the next one is taken. *)
Definition entry_uses (e : ep_env) (p : ep_params) (s : ep_state) : list (clock * ep_state) :=
  let r := clone_entrypoint e p s in
  if negb (ee_nnp e) then exit_use r else
  let s1 := before_caps e p s in
  let s2 := set_caps (drop_capabilities (ee_caps e) (ep_caps s1)) s1 in
  (LAlloc, s1) :: (if ce_get_proc (ee_caps e) then [(LAlloc, s2)] else []) ++
  match ep_open e (lit "/proc/self/fd/") (Z.lor O_RDONLY (Z.lor O_DIRECTORY O_CLOEXEC))
          (ee_fds e) s2 with
  | None => []
  | Some (_, s3) => [(LAlloc, s3)]
  end ++ exit_use r.
Definition use_ops (uses : list (clock * ep_state)) : list (lock_op clock) :=
  concat (map (λ u, [Take u.1; Give u.1]) uses).

(** Where the new process waits, if one of the locks it takes is held. *)
Fixpoint waits (w : clock → option N) (uses : list (clock * ep_state)) : option ep_state :=
  match uses with
  | [] => None
  | (l, s) :: uses => match w l with Some _ => Some s | None => waits w uses end
  end.

(** The new process: it waits in a state, or it comes to an end as in EntryModel. *)
Inductive locked_child := ChWaits (s : ep_state) | ChEnds (r : ep_result).
Definition entry_locks (w : clock → option N) (e : ep_env) (p : ep_params) (s : ep_state)
  : locked_child :=
  match waits w (entry_uses e p s) with
  | Some s => ChWaits s
  | None => ChEnds (clone_entrypoint e p s)
  end.
Definition child_trace (ch : locked_child) : list ep_event :=
  match ch with ChWaits s => ep_trace s | ChEnds r => ep_trace (final_state r) end.
(** Does the process still hold the open file? *)
Definition child_holds (f : N) (ch : locked_child) : bool :=
  match ch with
  | ChWaits s => existsb (λ x : N * fdent, fd_file x.2 =? f) (map_to_list (ep_tab s))
  | ChEnds r => holds_file f r
  end.

(* ---------------------------------------------------------------- the broker *)

(** broker/src/linux/process.rs:27-146 as in ProcessModel; [w] are the locks at the clone. The
    read of 121-127 waits until the pipe has bytes or no writer is left. *)
Definition process_new_locks (w : clock → option N) (pe : proc_env) (p : policy) (c : config)
  (t : fdtab) : new_result * fdtab * option (clone_flags * locked_child) :=
  if bool_decide (cf_argv c = []) then (NewErr MissingCommandLine, t, None) else
  match pe_pipe pe with
  | Err e => (NewErr (OsFailed (lit "pipe() failed") e), t, None)
  | Ok (fr, fw) =>
      match install2 (pe_limit pe) fr fw t with
      | None => (NewErr (OsFailed (lit "pipe() failed") EMFILE), t, None)
      | Some (rd, wr, t1) =>
          match handle_set_inheritable wr false t1 with
          | Done t2 =>
              match clone_chain (pe_clone pe) with
              | (Err e, _) => (NewErr e, delete wr (delete rd t2), None)
              | (Ok fl, _) =>
                  let params := mkParams (id_map (pe_uid pe)) (id_map (pe_gid pe))
                    (elements (get_inherited_handles p)) wr
                    (cf_stdin c) (cf_stdout c) (cf_stderr c)
                    (cf_exe c) (cf_argv c) (cf_envp c) in
                  let child := entry_locks w (pe_child pe) params
                    (mkEp t2 (pe_nnp pe) (pe_caps pe fl) [] (pe_umask pe) [] (pe_cwd pe)) in
                  let t3 := delete wr t2 in
                  let t4 := delete rd t3 in
                  let bytes := written fw (child_trace child) in
                  match pe_read pe with
                  | Some _ => (NewOk (pe_pid pe), t4, Some (fl, child))
                  | None =>
                      match bytes with
                      | [] =>
                          if child_holds fw child then (NewBlocked, t3, Some (fl, child))
                          else (NewOk (pe_pid pe), t4, Some (fl, child))
                      | _ => (NewErr (OsFailed (lit "execve()") (be_value bytes)), t4,
                              Some (fl, child))
                      end
                  end
              end
          | _ => (NewErr (OsFailed (lit "fcntl(F_GETFD) failed") 9), delete wr (delete rd t1), None)
          end
      end
  end.

(** What a call of Worker::new came to, with the new process. *)
Record locked_out := mkLockedOut {
  lo_result : worker_result;
  lo_child : option (clone_flags * locked_child) }.
(** broker/src/worker.rs:18-79 as in ProcessModel. *)
Definition worker_new_locks (w : clock → option N) (ne : new_env) (c : config) (p : policy)
  (evs : list sock_event) (t : fdtab) : locked_out :=
  let pe := ne_proc ne in
  match ne_sockets ne with
  | Err e => mkLockedOut (WnErr (OsFailed (lit "socketpair() failed") e)) None
  | Ok (fb, fw) =>
      match install2 (pe_limit pe) fb fw t with
      | None => mkLockedOut (WnErr (OsFailed (lit "socketpair() failed") EMFILE)) None
      | Some (ch, wh, t1) =>
          match handle_set_inheritable wh true t1 with
          | Done t2 =>
              match allow_all (wh :: opt_list (cf_stdin c) ++ opt_list (cf_stdout c)
                                 ++ opt_list (cf_stderr c)) t2 p with
              | Err e => mkLockedOut (WnErr (CannotBuildPolicyForWorker e)) None
              | Ok p =>
                  match set_environment_variable (ipc_variable wh) c with
                  | Err e => mkLockedOut (WnErr e) None
                  | Ok c =>
                      match process_new_locks w pe p c t2 with
                      | (NewErr e, _, child) => mkLockedOut (WnErr e) child
                      | (NewBlocked, _, child) => mkLockedOut WnBlocked child
                      | (NewOk pid, t3, child) =>
                          match start_ipc_loop (ne_broker ne) (get_runtime_policy p)
                                  (ne_order ne) (ne_filter ne) (ne_spawn ne) ch evs
                                  (mkBst (delete wh t3) []) with
                          | (StWaiting, _) => mkLockedOut WnWaiting child
                          | (StErr e, _) => mkLockedOut (WnErr (StartFailed e)) child
                          | (StPanic, _) => mkLockedOut WnPanic child
                          | (StOk st, _) => mkLockedOut (WnOk pid st) child
                          end
                      end
                  end
              end
          | _ => mkLockedOut (WnErr (OsFailed (lit "fcntl(F_GETFD) failed") 9)) None
          end
      end
  end.
