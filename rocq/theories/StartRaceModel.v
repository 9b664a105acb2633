(** broker/src/linux/process.rs:27-146 while other threads of the program start programs
    of their own (fork and execve), which inherit every descriptor without FD_CLOEXEC.
    See [process_new] in ProcessModel for the call alone. *)
From stdpp Require Import prelude gmap.
From Coq Require Import Strings.Byte.
From Verif Require Import Bytes PolicyModel LinuxPolicyModel FdModel ChannelModel BrokerModel
  SeccompModel EntryModel ProcessModel.
Local Open Scope N_scope.

(** When another program is started: before pipe(2) (line 36), between pipe(2) and
    fcntl(2) (line 50), between fcntl(2) and the broker's close of the write end
    (line 118), or later. *)
Inductive moment := BeforePipe | BeforeFcntl | BeforeClose | AfterClose.

(** A program started with this table keeps the open file. *)
Definition keeps (f : N) (t : fdtab) : bool :=
  existsb (λ x : N * fdent, (fd_file x.2 =? f) && negb (Z.testbit (fd_flags x.2) 0))
    (map_to_list t).

(** The broker's table at that moment (broker/src/linux/process.rs:36, 50, 118). *)
Definition table_at (t t1 t2 t3 : fdtab) (m : moment) : fdtab :=
  match m with BeforePipe => t | BeforeFcntl => t1 | BeforeClose => t2 | AfterClose => t3 end.

(** broker/src/linux/process.rs:27-146; the programs in [others] run on. [read] waits
    until the pipe has bytes or no writer is left. *)
Definition process_new_beside (pe : proc_env) (p : policy) (c : config) (others : list moment)
  (t : fdtab) : new_result * fdtab * option (clone_flags * ep_result) :=
  if bool_decide (cf_argv c = []) then (NewErr MissingCommandLine, t, None) else
  match pe_pipe pe with
  | Err e => (NewErr (OsFailed (lit "pipe() failed") e), t, None)
  | Ok (fr, fw) =>
      match install2 (pe_limit pe) fr fw t with
      | None => (NewErr (OsFailed (lit "pipe() failed") EMFILE), t, None)
      | Some (rd, wr, t1) =>
          match handle_set_inheritable wr false t1 with
          | Done t2 =>
              match clone_chain (pe_clone pe) with
              | (Err e, _) => (NewErr e, delete wr (delete rd t2), None)
              | (Ok fl, _) =>
                  let params := mkParams (id_map (pe_uid pe)) (id_map (pe_gid pe))
                    (elements (get_inherited_handles p)) wr
                    (cf_stdin c) (cf_stdout c) (cf_stderr c)
                    (cf_exe c) (cf_argv c) (cf_envp c) in
                  let child := clone_entrypoint (pe_child pe) params
                    (mkEp t2 (pe_nnp pe) (pe_caps pe fl) [] (pe_umask pe) [] (pe_cwd pe)) in
                  let t3 := delete wr t2 in
                  let t4 := delete rd t3 in
                  let bytes := written fw (ep_trace (final_state child)) in
                  match pe_read pe with
                  | Some _ => (NewOk (pe_pid pe), t4, Some (fl, child))
                  | None =>
                      match bytes with
                      | [] =>
                          if holds_file fw child || existsb (λ m, keeps fw (table_at t t1 t2 t3 m)) others
                          then (NewBlocked, t3, Some (fl, child))
                          else (NewOk (pe_pid pe), t4, Some (fl, child))
                      | _ => (NewErr (OsFailed (lit "execve()") (be_value bytes)), t4,
                              Some (fl, child))
                      end
                  end
              end
          | _ => (NewErr (OsFailed (lit "fcntl(F_GETFD) failed") 9), delete wr (delete rd t1), None)
          end
      end
  end.
