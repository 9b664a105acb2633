(** Handles that processes inherit on Windows while workers are started by several threads:
    broker/src/worker.rs:18-85, ipc/src/windows/channel.rs:33-154, ipc/src/windows/handle.rs:24-44,
    broker/src/windows/process.rs:380-535, broker/src/windows/brokered_syscalls.rs:58-238.

    Each event is a system call of one of the threads, or the few that make a pipe, which make
    no inheritable handle. Any number of threads start workers, serve workers and start other
    programs, in any order. What the calls of one start do is in [WinStartModel]; here only the
    handles are followed. A thread closes its own handles only (C69 is about the others). An
    event that cannot happen changes nothing. *)
From stdpp Require Import prelude gmap.
Local Open Scope N_scope.

(** What a handle of the broker is for. *)
Inductive howner :=
  | HOwn (n : N)        (* the program's own *)
  | HEnd (w : N)        (* the end of the pipe that worker [w] is to get *)
  | HServer (w : N)     (* the other end *)
  | HProc (w : N)       (* a handle to the process *)
  | HFile (w : N).      (* a file or key opened for the worker, until it is sent *)
Global Instance howner_eq_dec : EqDecision howner.
Proof. solve_decision. Defined.
Definition of_worker (o : howner) : option N :=
  match o with HOwn _ => None | HEnd w | HServer w | HProc w | HFile w => Some w end.

Record hent := mkHent { hn_owner : howner; hn_inherit : bool }.

(** How far the start of a worker is. *)
Inductive hphase :=
  | HMade (h1 h2 : N)                 (* worker.rs:19-32 *)
  | HMarked (h1 h2 : N)               (* worker.rs:33: the worker's end is inheritable *)
  | HStarted (h1 h2 hp : N)           (* worker.rs:53 *)
  | HBound (h1 h2 hp hr : N)          (* worker.rs:56-72 *)
  | HRunning (h1 hp hr : N)           (* worker.rs:74-84: the worker's end is closed *)
  | HGone.

Inductive hrecv := RWorker (w : N) | RProgram (n : N).
Global Instance hrecv_eq_dec : EqDecision hrecv.
Proof. solve_decision. Defined.

(** [hs_got]: what the processes started so far were given. [hs_ended]: those that ended. *)
Record hstate := mkHs {
  hs_tab : gmap N hent; hs_phase : gmap N hphase; hs_got : list (hrecv * list howner);
  hs_ended : list hrecv }.

Definition h_tab (s : hstate) (t : gmap N hent) : hstate :=
  mkHs t (hs_phase s) (hs_got s) (hs_ended s).
Definition h_phase (s : hstate) (w : N) (p : hphase) : hstate :=
  mkHs (hs_tab s) (<[w := p]> (hs_phase s)) (hs_got s) (hs_ended s).
Definition h_give (s : hstate) (r : hrecv) (os : list howner) : hstate :=
  mkHs (hs_tab s) (hs_phase s) (hs_got s ++ [(r, os)]) (hs_ended s).

(** CreateProcess with bInheritHandles: the inheritable handles, all of them or those on the
    list of PROC_THREAD_ATTRIBUTE_HANDLE_LIST. *)
Definition inherits (l : option (list N)) (t : gmap N hent) : list howner :=
  map (λ x, hn_owner x.2) (map_to_list (filter (λ x : N * hent, hn_inherit x.2 = true ∧
    match l with Some l => bool_decide (x.1 ∈ l) | None => true end = true) t)).

Inductive hevent :=
  | VMake (w h1 h2 : N)                          (* IpcChannel::new *)
  | VMark (w : N)                                (* set_inheritable(true) *)
  | VCreate (w hp : N) (wanted : list N) (listed : bool)
  | VBind (w hr : N)                             (* set_remote_process *)
  | VCloseEnd (w : N)                            (* drop(worker_channel_handle) *)
  | VFail (w : N)                                (* Worker::new returns an error *)
  | VServe (w h : N)                             (* a thread opens a file for its worker *)
  | VServed (w h : N)                            (* and closes it after the reply *)
  | VOpen (h n : N) (inherit : bool)             (* the program's own handles *)
  | VSet (h : N) (inherit : bool)
  | VClose (h : N)
  | VSpawn (n : N) (l : option (list N))         (* the program starts another program *)
  | VEnd (r : hrecv).                            (* a process ends *)

Definition unused (s : hstate) (h : N) : bool := bool_decide (hs_tab s !! h = None).
Definition closes (hs : list N) (t : gmap N hent) : gmap N hent := foldr delete t hs.
(** The handles a start holds. *)
Definition phase_handles (p : hphase) : list N :=
  match p with
  | HMade h1 h2 | HMarked h1 h2 => [h1; h2]
  | HStarted h1 h2 hp => [h1; h2; hp]
  | HBound h1 h2 hp hr => [h1; h2; hp; hr]
  | HRunning h1 hp hr => [h1; hp; hr]
  | HGone => []
  end.

Definition hstep (s : hstate) (e : hevent) : hstate :=
  match e with
  | VMake w h1 h2 =>
      (* channel.rs:46-121: no security attributes, so not inheritable *)
      match hs_phase s !! w with
      | None =>
          if unused s h1 && unused s h2 && negb (N.eqb h1 h2) then
            h_phase (h_tab s (<[h2 := mkHent (HEnd w) false]>
              (<[h1 := mkHent (HServer w) false]> (hs_tab s)))) w (HMade h1 h2)
          else s
      | Some _ => s
      end
  | VMark w =>
      (* handle.rs:24-44 *)
      match hs_phase s !! w with
      | Some (HMade h1 h2) =>
          h_phase (h_tab s (<[h2 := mkHent (HEnd w) true]> (hs_tab s))) w (HMarked h1 h2)
      | _ => s
      end
  | VCreate w hp wanted listed =>
      (* process.rs:427-498: the list has the worker's end and what the policy lets inherit; it
         is left out if the system refuses it (C88) *)
      match hs_phase s !! w with
      | Some (HMarked h1 h2) =>
          if unused s hp then
            let os := inherits (if listed then Some (h2 :: wanted) else None) (hs_tab s) in
            h_phase (h_tab (h_give s (RWorker w) os)
              (<[hp := mkHent (HProc w) false]> (hs_tab s))) w (HStarted h1 h2 hp)
          else s
      | _ => s
      end
  | VBind w hr =>
      (* channel.rs:141-152: bInheritHandle is 0 *)
      match hs_phase s !! w with
      | Some (HStarted h1 h2 hp) =>
          if unused s hr then
            h_phase (h_tab s (<[hr := mkHent (HProc w) false]> (hs_tab s))) w (HBound h1 h2 hp hr)
          else s
      | _ => s
      end
  | VCloseEnd w =>
      match hs_phase s !! w with
      | Some (HBound h1 h2 hp hr) =>
          h_phase (h_tab s (delete h2 (hs_tab s))) w (HRunning h1 hp hr)
      | _ => s
      end
  | VFail w =>
      match hs_phase s !! w with
      | Some p => h_phase (h_tab s (closes (phase_handles p) (hs_tab s))) w HGone
      | None => s
      end
  | VServe w h =>
      (* brokered_syscalls.rs:101-108, 181-189, 207-215: without OBJ_INHERIT *)
      match hs_phase s !! w with
      | Some (HRunning _ _ _) =>
          if unused s h then h_tab s (<[h := mkHent (HFile w) false]> (hs_tab s)) else s
      | _ => s
      end
  | VServed w h =>
      match hs_tab s !! h with
      | Some (mkHent (HFile w') _) =>
          if N.eqb w w' then h_tab s (delete h (hs_tab s)) else s
      | _ => s
      end
  | VOpen h n i => if unused s h then h_tab s (<[h := mkHent (HOwn n) i]> (hs_tab s)) else s
  | VSet h i =>
      match hs_tab s !! h with
      | Some (mkHent (HOwn n) _) => h_tab s (<[h := mkHent (HOwn n) i]> (hs_tab s))
      | _ => s
      end
  | VClose h =>
      match hs_tab s !! h with
      | Some (mkHent (HOwn n) _) => h_tab s (delete h (hs_tab s))
      | _ => s
      end
  | VSpawn n l => h_give s (RProgram n) (inherits l (hs_tab s))
  | VEnd r => mkHs (hs_tab s) (hs_phase s) (hs_got s) (r :: hs_ended s)
  end.

Definition hrun (s : hstate) (es : list hevent) : hstate := foldl hstep s es.
