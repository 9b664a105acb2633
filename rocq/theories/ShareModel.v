(** Several workers of one Linux program: every [Worker::new] leaves a thread that
    serves one worker, and all of them share the descriptor table of the process with
    the program itself. Threads take turns at system calls. The work of one thread is
    that of BrokerModel, cut at its system calls. *)
From stdpp Require Import prelude gmap.
From Coq Require Import Strings.Byte.
From Verif Require Import Bytes PolicyModel LinuxPolicyModel PostcardModel FdModel
  ChannelModel BrokerModel.
Local Open Scope N_scope.

(** Where a serving thread is (broker/src/linux/ipc_loop.rs:45-74): in recvmsg, back
    from it, with a decoded request, with an answer to send, with a handle to drop
    (and whether it then goes on), out of the loop, or over. *)
Inductive place :=
  | PWait
  | PParse (r : recv_result)
  | PAsked (m : ipc_request)
  | PAnswer (code : Z) (h : option N)
  | PDrop (h : option N) (go_on : bool)
  | PLeave
  | PGone.

(** A serving thread: the user's policy (audit mode and rules), the number of its
    channel, the socket it was given under that number, what it did (as in
    BrokerModel), and where it is. *)
Record thread := mkThread {
  th_audit : bool; th_calls : list api_call; th_chan : N; th_sock : N;
  th_trace : list bevent; th_at : place }.

(** broker/src/worker.rs:75 and 82: the thread gets the runtime policy. *)
Definition th_policy (th : thread) : policy :=
  get_runtime_policy (build (th_audit th) (th_calls th)).

Definition th_do (th : thread) (evs : list bevent) (p : place) : thread :=
  mkThread (th_audit th) (th_calls th) (th_chan th) (th_sock th) evs p.

(** A datagram that left: the thread that sent it, the socket it went to, the open
    files it carried. *)
Record sent := mkSent { sn_by : nat; sn_to : N; sn_files : list N }.

(** The process: descriptor table, the next new open file, the descriptors the program
    regards as its own, the serving threads, and all datagrams sent. *)
Record share := mkShare {
  sh_tab : fdtab; sh_next : N; sh_own : list N; sh_threads : gmap nat thread;
  sh_sent : list sent }.

(** ipc/src/linux/channel.rs:150-211: [recv] once recvmsg has returned; the rest of
    [channel_recv] (see [recv_cut] in ShareProps). *)
Definition recv_rest {A} (dec : parser A) (r : recv_result) (t : fdtab)
  : result (option (A * option N)) ipc_error * fdtab :=
  match (match rr_fds r with
         | [] => Some None
         | fd :: _ => match handle_from_raw fd with
                      | Some h => Some (Some h) | None => None end
         end) with
  | None => (Err IpcHandle, t)
  | Some handle =>
      if rr_trunc r || rr_ctrunc r then (Err IpcTooBig, drop_opt handle t)
      else if Nat.eqb (length (rr_bytes r)) 0 then (Ok None, drop_opt handle t)
      else
        match deserialize dec (rr_bytes r) with
        | None => (Err IpcDeserialization, drop_opt handle t)
        | Some m => (Ok (Some (m, handle)), t)
        end
  end.

(** Whose turn it is and what the kernel answers.
    - [HOpen]: the program (or a library it uses) opens something; [flags] are the
      flags of the new descriptor.
    - [HClose]: the program closes one of its own descriptors.
    - [HForget]: bindings/C/broker/src/process_config.rs:117-219: a configuration
      closes a descriptor that the program still regards as its own (see C77).
    - [HSpawn]: broker/src/worker.rs:82 hands a channel of the broker to a new
      serving thread.
    - [TRecv], [TParse], [TServe], [TSend], [TClose]: a thread goes one step. *)
Inductive turn :=
  | HOpen (flags : Z)
  | HClose (n : N)
  | HForget (n : N)
  | HSpawn (i : nat) (audit : bool) (calls : list api_call) (n : N)
  | TRecv (i : nat) (ev : sock_event)
  | TParse (i : nat)
  | TServe (i : nat) (refusal : option N)
  | TSend (i : nat) (refusal : option N)
  | TClose (i : nat).

(** The environment of one step of a thread: a successful open(2) makes the open file
    [next]. *)
Definition step_env (a : abi) (limit sndbuf next : N) (refusal : option N) : benv :=
  mkBenv a limit sndbuf
    (λ _ _ _, match refusal with None => Ok next | Some e => Err e end) (λ _, refusal).

(** The program gives up one of its claims to a number; after a second close it may
    have two. *)
Fixpoint remove_one (n : N) (l : list N) : list N :=
  match l with
  | [] => []
  | m :: l => if m =? n then l else m :: remove_one n l
  end.

Definition set_thread (s : share) (t : fdtab) (next : N) (i : nat) (th : thread)
  (out : list sent) : share :=
  mkShare t next (sh_own s) (<[i := th]> (sh_threads s)) (sh_sent s ++ out).

(** One turn; [None] when it cannot happen now. *)
Definition turn_step (a : abi) (limit sndbuf : N) (s : share) (x : turn) : option share :=
  let t := sh_tab s in
  match x with
  | HOpen flags =>
      match fd_install limit (mkFd (sh_next s) flags) t with
      | None => None
      | Some (n, t) =>
          Some (mkShare t (sh_next s + 1) (n :: sh_own s) (sh_threads s) (sh_sent s))
      end
  | HClose n =>
      if bool_decide (n ∈ sh_own s) then
        Some (mkShare (delete n t) (sh_next s) (remove_one n (sh_own s)) (sh_threads s)
                (sh_sent s))
      else None
  | HForget n =>
      if bool_decide (n ∈ sh_own s) then
        Some (mkShare (delete n t) (sh_next s) (sh_own s) (sh_threads s) (sh_sent s))
      else None
  | HSpawn i audit calls n =>
      match sh_threads s !! i, t !! n with
      | None, Some e =>
          if bool_decide (n ∈ sh_own s) then
            Some (mkShare t (sh_next s) (remove_one n (sh_own s))
                    (<[i := mkThread audit calls n (fd_file e) [] PWait]> (sh_threads s))
                    (sh_sent s))
          else None
      | _, _ => None
      end
  | TRecv i ev =>
      match sh_threads s !! i with
      | Some th =>
          match th_at th with
          | PWait =>
              match ev with
              | EvDatagram d =>
                  let '(r, t) := sys_recvmsg a limit IPC_MESSAGE_MAX_SIZE (CMSG_SIZE a) d t in
                  Some (set_thread s t (sh_next s) i (th_do th (th_trace th) (PParse r)) [])
              | _ => Some (set_thread s t (sh_next s) i (th_do th (th_trace th) PLeave) [])
              end
          | _ => None
          end
      | None => None
      end
  | TParse i =>
      match sh_threads s !! i with
      | Some th =>
          match th_at th with
          | PParse r =>
              let '(res, t) := recv_rest dec_request r t in
              let p := match res with
                       | Ok (Some (m, None)) => PAsked m
                       | Ok (Some (_, Some h)) => PDrop (Some h) false
                       | _ => PLeave
                       end in
              Some (set_thread s t (sh_next s) i (th_do th (th_trace th) p) [])
          | _ => None
          end
      | None => None
      end
  | TServe i refusal =>
      match sh_threads s !! i with
      | Some th =>
          match th_at th with
          | PAsked m =>
              let '(o, b) := dispatch (step_env a limit sndbuf (sh_next s) refusal)
                               (th_policy th) m (mkBst t (th_trace th)) in
              let p := match o with Done (code, h) => PAnswer code h | _ => PLeave end in
              Some (set_thread s (bs_tab b) (sh_next s + 1) i (th_do th (bs_trace b) p) [])
          | _ => None
          end
      | None => None
      end
  | TSend i refusal =>
      match sh_threads s !! i with
      | Some th =>
          match th_at th with
          | PAnswer code h =>
              match t !! th_chan th with
              | None =>
                  Some (set_thread s t (sh_next s) i
                          (th_do th (th_trace th ++ [BSendFailed]) (PDrop h false)) [])
              | Some e =>
                  let '(ok, b) := broker_send (step_env a limit sndbuf (sh_next s) refusal)
                                    (OutSyscallResult code) h (mkBst t (th_trace th)) in
                  let out := match last (bs_trace b) with
                             | Some (BSent _ files) =>
                                 if ok then [mkSent i (fd_file e) files] else []
                             | _ => []
                             end in
                  Some (set_thread s t (sh_next s) i (th_do th (bs_trace b) (PDrop h ok)) out)
              end
          | _ => None
          end
      | None => None
      end
  | TClose i =>
      match sh_threads s !! i with
      | Some th =>
          match th_at th with
          | PDrop h go_on =>
              match drop_handle h (mkBst t (th_trace th)) with
              | Done b =>
                  Some (set_thread s (bs_tab b) (sh_next s) i
                          (th_do th (th_trace th) (if go_on then PWait else PLeave)) [])
              | _ => Some (set_thread s t (sh_next s) i (th_do th (th_trace th) PLeave) [])
              end
          | PLeave =>
              Some (set_thread s (delete (th_chan th) t) (sh_next s) i
                      (th_do th (th_trace th) PGone) [])
          | _ => None
          end
      | None => None
      end
  end.

Fixpoint turns (a : abi) (limit sndbuf : N) (s : share) (xs : list turn) : option share :=
  match xs with
  | [] => Some s
  | x :: xs =>
      match turn_step a limit sndbuf s x with
      | None => None
      | Some s => turns a limit sndbuf s xs
      end
  end.

(** A program before it starts any worker: it owns open descriptors, each once, and
    open files to come are new. *)
Definition fresh_program (s : share) : Prop :=
  sh_threads s = ∅ ∧ sh_sent s = [] ∧ NoDup (sh_own s) ∧
  (∀ n, n ∈ sh_own s → is_Some (sh_tab s !! n)) ∧
  (∀ n e, sh_tab s !! n = Some e → fd_file e < sh_next s).
