(** Calls of the lowering function by several threads of a worker, and the trapped calls
    they make afterwards: worker/src/lib.rs:10-27, worker/src/linux/lockdown.rs:32-75 and
    292-303, broker/src/linux/ipc_loop.rs:22-72. Any thread may call the function at any
    time and as often as it likes; a thread that panics may catch it and go on.

    Simplifications: the filter is one step and does not fail (SeccompModel, StartRaceModel);
    sending into another descriptor than the channel's fails; a trapped call makes one
    exchange (ThreadsModel). *)
From stdpp Require Import prelude.
From Verif Require Import Bytes FdModel EntryModel ProcessModel.

Inductive request := Init | Ask (k : nat).
(** [InitAnswer]: an InitializationResponse. [Refusal]: SyscallResult(-EINVAL). [Answer k]:
    the outcome of the request [k]. *)
Inductive response := InitAnswer | Refusal | Answer (k : nat).
Global Instance response_eq_dec : EqDecision response.
Proof. solve_decision. Defined.
Inductive event :=
  | Returned (t : nat)          (* the lowering function returned *)
  | Aborted (t : nat)           (* the lowering function panicked *)
  | Served (t k : nat) (r : response)  (* the trapped call [k] got [r] *)
  | Broken (t k : nat).         (* the trapped call [k] panicked *)

Inductive pc :=
  | Idle
  (* worker/src/lib.rs: after line 14 (variable read), 15 (removed), 24 (channel made) *)
  | LRead (v : str) | LRemoved (v : str) | LOwner (fd : N)
  (* lockdown.rs: after line 54 (stored), 58 (locked), 60 (sent), 75 (unlocked) *)
  | LStored | LHolds (m : nat) | LWaits (m : nat) | LFilter
  (* lockdown.rs: before line 297, after 297 (locked), after 299 (sent) *)
  | TWant (k : nat) | THolds (m k : nat) | TWaits (m k : nat).

(** A [Mutex<IpcChannel>], never freed (Box::leak, lockdown.rs:54). *)
Record mutex := mkM { m_fd : N; m_held : bool; m_poisoned : bool }.
Record lstate := mkL {
  l_var : option str;          (* SANDBOX_IPC_HANDLE *)
  l_single : option nat;       (* IPC_CHANNEL_SINGLETON *)
  l_muts : list mutex;
  l_threads : list pc;
  l_filter : bool;             (* the filter is loaded *)
  l_next : nat;                (* trapped calls so far *)
  l_reqs : list request;
  l_resps : list response;
  l_greeted : bool;            (* the broker has answered an InitializationRequest *)
  l_events : list event }.

Definition with_thread (t : nat) (p : pc) (s : lstate) : lstate :=
  mkL (l_var s) (l_single s) (l_muts s) (<[t := p]> (l_threads s)) (l_filter s) (l_next s)
    (l_reqs s) (l_resps s) (l_greeted s) (l_events s).
Definition with_mutex (m : nat) (x : mutex) (s : lstate) : lstate :=
  mkL (l_var s) (l_single s) (<[m := x]> (l_muts s)) (l_threads s) (l_filter s) (l_next s)
    (l_reqs s) (l_resps s) (l_greeted s) (l_events s).
Definition happened (e : event) (s : lstate) : lstate :=
  mkL (l_var s) (l_single s) (l_muts s) (l_threads s) (l_filter s) (l_next s)
    (l_reqs s) (l_resps s) (l_greeted s) (l_events s ++ [e]).
Definition with_resps (r : list response) (s : lstate) : lstate :=
  mkL (l_var s) (l_single s) (l_muts s) (l_threads s) (l_filter s) (l_next s)
    (l_reqs s) r (l_greeted s) (l_events s).
Definition with_reqs (r : list request) (s : lstate) : lstate :=
  mkL (l_var s) (l_single s) (l_muts s) (l_threads s) (l_filter s) (l_next s)
    r (l_resps s) (l_greeted s) (l_events s).

(** The number in the variable, lib.rs:16-23; None is a panic. *)
Definition channel_of (v : str) : option N :=
  match parse_u64 v with None => None | Some n => handle_from_raw n end.

Inductive lstep (ch : N) : lstate → lstate → Prop :=
  (* lib.rs:13-14 *)
  | L_read s t v :
      l_threads s !! t = Some Idle → l_var s = Some v →
      lstep ch s (with_thread t (LRead v) s)
  | L_missing s t :
      l_threads s !! t = Some Idle → l_var s = None →
      lstep ch s (happened (Aborted t) s)
  (* lib.rs:15 *)
  | L_remove s t v :
      l_threads s !! t = Some (LRead v) →
      lstep ch s (mkL None (l_single s) (l_muts s) (<[t := LRemoved v]> (l_threads s))
        (l_filter s) (l_next s) (l_reqs s) (l_resps s) (l_greeted s) (l_events s))
  (* lib.rs:16-24 *)
  | L_parse s t v fd :
      l_threads s !! t = Some (LRemoved v) → channel_of v = Some fd →
      lstep ch s (with_thread t (LOwner fd) s)
  | L_invalid s t v :
      l_threads s !! t = Some (LRemoved v) → channel_of v = None →
      lstep ch s (happened (Aborted t) (with_thread t Idle s))
  (* lockdown.rs:52-55 *)
  | L_store s t fd :
      l_threads s !! t = Some (LOwner fd) →
      lstep ch s (mkL (l_var s) (Some (length (l_muts s))) (l_muts s ++ [mkM fd false false])
        (<[t := LStored]> (l_threads s)) (l_filter s) (l_next s) (l_reqs s) (l_resps s)
        (l_greeted s) (l_events s))
  (* lockdown.rs:58 and 34 *)
  | L_lock s t m fd :
      l_threads s !! t = Some LStored → l_single s = Some m →
      l_muts s !! m = Some (mkM fd false false) →
      lstep ch s (with_thread t (LHolds m) (with_mutex m (mkM fd true false) s))
  | L_poisoned s t m fd :
      l_threads s !! t = Some LStored → l_single s = Some m →
      l_muts s !! m = Some (mkM fd false true) →
      lstep ch s (happened (Aborted t) (with_thread t Idle s))
  (* lockdown.rs:59-60 *)
  | L_send s t m x :
      l_threads s !! t = Some (LHolds m) → l_muts s !! m = Some x → m_fd x = ch →
      lstep ch s (with_thread t (LWaits m) (with_reqs (l_reqs s ++ [Init]) s))
  | L_send_fails s t m x :
      l_threads s !! t = Some (LHolds m) → l_muts s !! m = Some x → m_fd x ≠ ch →
      lstep ch s (happened (Aborted t)
        (with_thread t Idle (with_mutex m (mkM (m_fd x) false true) s)))
  (* lockdown.rs:61-75 *)
  | L_recv s t m x rs :
      l_threads s !! t = Some (LWaits m) → l_muts s !! m = Some x → l_resps s = InitAnswer :: rs →
      lstep ch s (with_thread t LFilter
        (with_mutex m (mkM (m_fd x) false (m_poisoned x)) (with_resps rs s)))
  (* a panic drops the guard, which poisons the lock *)
  | L_recv_other s t m x r rs :
      l_threads s !! t = Some (LWaits m) → l_muts s !! m = Some x → l_resps s = r :: rs →
      r ≠ InitAnswer →
      lstep ch s (happened (Aborted t) (with_thread t Idle
        (with_mutex m (mkM (m_fd x) false true) (with_resps rs s))))
  (* lockdown.rs:77-184 *)
  | L_filter s t :
      l_threads s !! t = Some LFilter →
      lstep ch s (mkL (l_var s) (l_single s) (l_muts s) (<[t := Idle]> (l_threads s)) true
        (l_next s) (l_reqs s) (l_resps s) (l_greeted s) (l_events s ++ [Returned t]))
  (* a trapped call *)
  | T_call s t :
      l_threads s !! t = Some Idle → l_filter s = true →
      lstep ch s (mkL (l_var s) (l_single s) (l_muts s) (<[t := TWant (l_next s)]> (l_threads s))
        (l_filter s) (S (l_next s)) (l_reqs s) (l_resps s) (l_greeted s) (l_events s))
  | T_lock s t k m fd :
      l_threads s !! t = Some (TWant k) → l_single s = Some m →
      l_muts s !! m = Some (mkM fd false false) →
      lstep ch s (with_thread t (THolds m k) (with_mutex m (mkM fd true false) s))
  | T_poisoned s t k m fd :
      l_threads s !! t = Some (TWant k) → l_single s = Some m →
      l_muts s !! m = Some (mkM fd false true) →
      lstep ch s (happened (Broken t k) (with_thread t Idle s))
  | T_send s t m k x :
      l_threads s !! t = Some (THolds m k) → l_muts s !! m = Some x → m_fd x = ch →
      lstep ch s (with_thread t (TWaits m k) (with_reqs (l_reqs s ++ [Ask k]) s))
  | T_send_fails s t m k x :
      l_threads s !! t = Some (THolds m k) → l_muts s !! m = Some x → m_fd x ≠ ch →
      lstep ch s (happened (Broken t k)
        (with_thread t Idle (with_mutex m (mkM (m_fd x) false true) s)))
  (* lockdown.rs:300-303: the lock is dropped before the answer is looked at *)
  | T_recv s t m k x r rs :
      l_threads s !! t = Some (TWaits m k) → l_muts s !! m = Some x → l_resps s = r :: rs →
      lstep ch s (happened (if decide (r = InitAnswer) then Broken t k else Served t k r)
        (with_thread t Idle (with_mutex m (mkM (m_fd x) false (m_poisoned x)) (with_resps rs s))))
  (* ipc_loop.rs:22-42: the first request; 61-66: unexpected ones afterwards *)
  | B_init s rs :
      l_reqs s = Init :: rs →
      lstep ch s (mkL (l_var s) (l_single s) (l_muts s) (l_threads s) (l_filter s) (l_next s)
        rs (l_resps s ++ [if l_greeted s then Refusal else InitAnswer]) true (l_events s))
  | B_ask s k rs :
      l_reqs s = Ask k :: rs → l_greeted s = true →
      lstep ch s (mkL (l_var s) (l_single s) (l_muts s) (l_threads s) (l_filter s) (l_next s)
        rs (l_resps s ++ [Answer k]) true (l_events s)).

Definition l_init (v : option str) (threads : nat) : lstate :=
  mkL v None [] (replicate threads Idle) false 0 [] [] false [].
