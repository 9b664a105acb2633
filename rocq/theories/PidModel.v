(** The number of a worker's process, and the process found by that number.

    Windows: broker/src/worker.rs:53-90, broker/src/windows/process.rs:157-161, 505-538 and
    ipc/src/windows/channel.rs:136-154 with the kernel's rule for process numbers: a process
    object is deleted when its process has ended and no handle to it is open, and its number
    is not given to another process before that.

    Linux: broker/src/worker.rs:53-90 and broker/src/linux/process.rs:143-145 with the
    kernel's rule: the number of an ended process is free once its parent has waited for it,
    or at once if the parent ignores SIGCHLD.

    Simplifications: process objects have names of their own ([N], never used twice); what
    else a start does (C55, C112) is left out; handle values and process numbers are chosen by
    the kernel, here by the event, and an event the kernel would not let happen changes
    nothing. *)
From stdpp Require Import prelude gmap.
Local Open Scope N_scope.

(** ** Windows *)

Record kproc := mkKproc { kp_pid : N; kp_alive : bool }.

(** A worker the library has started: worker.rs:53-90. [pw_hproc]: the handle that
    CreateProcess returned, process.rs:505-533 ([h_process]), [None] once the [Worker] is
    dropped. [pw_remote]: the handle of the channel, channel.rs:141-152
    ([remote_process_handle]), [None] before it is opened and after the thread has ended. *)
Record pworker := mkPworker { pw_pid : N; pw_hproc : option N; pw_remote : option N }.

(** [k_objs]: the process objects that exist. [k_next]: a name no object has had.
    [k_mine]: the handles of the broker to process objects. [k_other]: the objects that
    other processes have handles to. [k_workers]: the workers, by their object. *)
Record pworld := mkPworld {
  k_objs : gmap N kproc; k_next : N; k_mine : gmap N N; k_other : gset N;
  k_workers : gmap N pworker }.

Definition held (s : pworld) (o : N) : bool :=
  bool_decide (o ∈ k_other s) || bool_decide (o ∈ map snd (map_to_list (k_mine s))).

(** The kernel deletes the objects nothing needs any more. *)
Definition collect (s : pworld) : pworld :=
  mkPworld (filter (λ x : N * kproc, kp_alive x.2 || held s x.1 = true) (k_objs s))
    (k_next s) (k_mine s) (k_other s) (k_workers s).

Definition with_mine (s : pworld) (m : gmap N N) : pworld :=
  mkPworld (k_objs s) (k_next s) m (k_other s) (k_workers s).
Definition with_worker (s : pworld) (w : N) (x : pworker) : pworld :=
  mkPworld (k_objs s) (k_next s) (k_mine s) (k_other s) (<[w := x]> (k_workers s)).

(** No object that exists has this number. *)
Definition free_pid (s : pworld) (pid : N) : bool :=
  forallb (λ p, negb (N.eqb (kp_pid p) pid)) (map snd (map_to_list (k_objs s))).
Definition free_handle (s : pworld) (h : N) : bool := bool_decide (k_mine s !! h = None).

Definition new_object (s : pworld) (pid : N) : pworld :=
  mkPworld (<[k_next s := mkKproc pid true]> (k_objs s)) (k_next s + 1) (k_mine s) (k_other s)
    (k_workers s).

(** CloseHandle. *)
Definition close_handle (s : pworld) (h : N) : pworld :=
  collect (with_mine s (delete h (k_mine s))).

Inductive pevent :=
  | EStart (pid : N)              (* some other program starts *)
  | EExit (o : N)                 (* a process ends *)
  | EOthers (x : gset N)          (* other processes open and close handles *)
  | EOwn (h o : N)                (* the broker opens a handle of its own to a process *)
  | EClose (h : N)                (* the broker closes a handle: its own, or another (C69) *)
  | ENew (h pid : N)              (* CreateProcess of OSSandboxedProcess::new *)
  | EBind (w h o : N)             (* set_remote_process: OpenProcess finds object [o] *)
  | EDrop (w : N)                 (* the Worker is dropped, or Worker::new returns early *)
  | EEnd (w : N).                 (* the channel is dropped at the end of the thread *)

(** One event. *)
Definition pstep (s : pworld) (e : pevent) : pworld :=
  match e with
  | EStart pid => if free_pid s pid then new_object s pid else s
  | EExit o =>
      match k_objs s !! o with
      | Some p => collect (mkPworld (<[o := mkKproc (kp_pid p) false]> (k_objs s)) (k_next s)
                             (k_mine s) (k_other s) (k_workers s))
      | None => s
      end
  | EOthers x => collect (mkPworld (k_objs s) (k_next s) (k_mine s) x (k_workers s))
  | EOwn h o =>
      match k_objs s !! o with
      | Some _ => if free_handle s h then with_mine s (<[h := o]> (k_mine s)) else s
      | None => s
      end
  | EClose h => close_handle s h
  | ENew h pid =>
      (* process.rs:505-533: CreateProcess, GetProcessId(hProcess) *)
      if free_pid s pid && free_handle s h then
        let o := k_next s in
        let s := new_object s pid in
        with_worker (with_mine s (<[h := o]> (k_mine s))) o (mkPworker pid (Some h) None)
      else s
  | EBind w h o =>
      (* worker.rs:54-57, channel.rs:141-152: OpenProcess(PROCESS_DUP_HANDLE, 0, pid) *)
      match k_workers s !! w, k_objs s !! o with
      | Some (mkPworker pid (Some hp) None), Some p =>
          if N.eqb (kp_pid p) pid && free_handle s h then
            with_worker (with_mine s (<[h := o]> (k_mine s))) w
              (mkPworker pid (Some hp) (Some h))
          else s
      | _, _ => s
      end
  | EDrop w =>
      (* process.rs:157-161 *)
      match k_workers s !! w with
      | Some (mkPworker pid (Some hp) r) =>
          close_handle (with_worker s w (mkPworker pid None r)) hp
      | _ => s
      end
  | EEnd w =>
      match k_workers s !! w with
      | Some (mkPworker pid hp (Some h)) =>
          close_handle (with_worker s w (mkPworker pid hp None)) h
      | _ => s
      end
  end.

Definition prun (s : pworld) (es : list pevent) : pworld := foldl pstep s es.

(** ** Linux *)

(** [lp_id]: the process, named apart from its number. *)
Record lproc := mkLproc { lp_id : N; lp_child : bool; lp_running : bool }.
(** [l_procs]: the process table, by number. [l_ignores]: the program ignores SIGCHLD.
    [l_workers]: the workers (process and [OSSandboxedProcess::pid]). *)
Record lworld := mkLworld {
  l_procs : gmap N lproc; l_next : N; l_ignores : bool; l_workers : gmap N N }.

Inductive levent :=
  | LStart (pid : N) (child : bool)   (* some process is made, by the program or another *)
  | LExit (pid : N)                   (* a process ends *)
  | LReap (pid : N)                   (* its parent waits for it *)
  | LNew (pid : N).                   (* clone(2) of OSSandboxedProcess::new *)

Definition lnew_proc (s : lworld) (pid : N) (child : bool) (ws : gmap N N) : lworld :=
  mkLworld (<[pid := mkLproc (l_next s) child true]> (l_procs s)) (l_next s + 1)
    (l_ignores s) ws.

Definition lstep (s : lworld) (e : levent) : lworld :=
  match e with
  | LStart pid child =>
      match l_procs s !! pid with
      | None => lnew_proc s pid child (l_workers s)
      | Some _ => s
      end
  | LExit pid =>
      match l_procs s !! pid with
      | Some (mkLproc i c true) =>
          if c && l_ignores s then
            mkLworld (delete pid (l_procs s)) (l_next s) (l_ignores s) (l_workers s)
          else
            mkLworld (<[pid := mkLproc i c false]> (l_procs s)) (l_next s) (l_ignores s)
              (l_workers s)
      | _ => s
      end
  | LReap pid =>
      match l_procs s !! pid with
      | Some (mkLproc i c false) =>
          mkLworld (delete pid (l_procs s)) (l_next s) (l_ignores s) (l_workers s)
      | _ => s
      end
  | LNew pid =>
      match l_procs s !! pid with
      | None => lnew_proc s pid true (<[l_next s := pid]> (l_workers s))
      | Some _ => s
      end
  end.

Definition lrun (s : lworld) (es : list levent) : lworld := foldl lstep s es.
