(** The memory behind the attributes given to CreateProcess: an attribute list holds addresses of
    values, which are local variables and buffers of the loop in broker/src/windows/process.rs:281-533.
    Code: that loop and broker/src/windows/proc_thread_attribute_list.rs. *)
From stdpp Require Import prelude gmap.
From Coq Require Import Strings.Byte.
From Verif Require Import Bytes WinProcessModel.
Local Open Scope N_scope.

(** Values that attributes point to: SECURITY_CAPABILITIES holds the address of a SID itself. *)
Inductive value := VCaps (sid : N) | VWord (v : N) | VHandles (l : list N).
Inductive attribute := TCaps | TLess | THandles | TChild | TMitigations.
(** Blocks of memory: a local variable or buffer, an attribute list, a SID that the OS allocated. *)
Inductive cell :=
  | CVal (v : value)
  | CList (slots : N) (set : list (attribute * N))
  | CSid (name : str).
(** What happens: CreateProcess with the values it reads; [None] for an address where nothing is
    alive. *)
Inductive mevent :=
  | MInit (at_ : N)
  | MDelete (at_ : N)
  | MSid (at_ : N)
  | MCreate (slots : N) (read : list (attribute * option value)) (sids : list (option cell)).
Record mem := mkMem { m_cells : gmap N cell; m_next : N; m_log : list mevent }.
Definition mlog (m : mem) (e : mevent) : mem := mkMem (m_cells m) (m_next m) (m_log m ++ [e]).
Definition store (a : N) (c : cell) (m : mem) : mem :=
  mkMem (<[a := c]> (m_cells m)) (m_next m) (m_log m).
(** No address is used twice. *)
Definition alloc (c : cell) (m : mem) : N * mem :=
  (m_next m, mkMem (<[m_next m := c]> (m_cells m)) (m_next m + 1) (m_log m)).
Definition release (a : N) (m : mem) : mem := mkMem (delete a (m_cells m)) (m_next m) (m_log m).

(** Answers of the OS during one pass: whether the first call of InitializeProcThreadAttributeList
    asks for a buffer, whether the second one succeeds, whether CreateAppContainerProfile exists and
    succeeds in the end, which attributes are accepted, whether CreateProcess and GetProcessId
    succeed. *)
Record answers := mkAns {
  a_size : bool; a_init : bool; a_supported : bool; a_profile : bool; a_set : attribute → bool;
  a_create : bool; a_pid : bool }.

(** proc_thread_attribute_list.rs:25-56. The buffer is freed if the second call fails. *)
Definition list_new (ans : answers) (slots : N) (m : mem) : option N * mem :=
  if a_size ans then
    let '(a, m) := alloc (CList slots []) m in
    if a_init ans then (Some a, mlog m (MInit a)) else (None, release a m)
  else (None, m).
(** proc_thread_attribute_list.rs:66-91: the list keeps the address. *)
Definition list_set (ans : answers) (l : N) (t : attribute) (v : N) (m : mem) : bool * mem :=
  if a_set ans t then
    match m_cells m !! l with
    | Some (CList n set) => (true, store l (CList n (set ++ [(t, v)])) m)
    | _ => (false, m)
    end
  else (false, m).
(** End of a scope: values in the reverse order of their declarations, the list last
    (proc_thread_attribute_list.rs:16-22; it is declared first). *)
Definition drop_locals (l : N) (locals : list N) (m : mem) : mem :=
  release l (mlog (foldr release m locals) (MDelete l)).

(** What CreateProcess finds behind the list. *)
Definition sid_of (m : mem) (p : attribute * N) : option (option cell) :=
  match m_cells m !! p.2 with Some (CVal (VCaps s)) => Some (m_cells m !! s) | _ => None end.
Definition value_at (m : mem) (a : N) : option value :=
  match m_cells m !! a with Some (CVal v) => Some v | _ => None end.
Definition create_event (l : N) (m : mem) : mevent :=
  match m_cells m !! l with
  | Some (CList n set) => MCreate n (map (λ p : attribute * N, (p.1, value_at m p.2)) set) (omap (sid_of m) set)
  | _ => MCreate 0 [] []
  end.

Inductive next := NAgain (o : popts) | NDone (ok : bool).
(** process.rs:456-532: the process and what the broker keeps of it are modelled in
    WinProcessModel. *)
Definition m_create (ans : answers) (o : popts) (l : N) (locals : list N) (m : mem) : next * mem :=
  let m := mlog m (create_event l m) in
  (if a_create ans then NDone (a_pid ans)
   else if po_mitigations o then NAgain (no_mitigations o) else NDone false,
   drop_locals l locals m).
(** process.rs:423-454: the variable is declared whether it is used or not. *)
Definition m_mitigations (ans : answers) (o : popts) (l : N) (locals : list N) (m : mem) : next * mem :=
  let '(v, m) := alloc (CVal (VWord (if po_mitigations o then mitigation_policy else 0))) m in
  if po_mitigations o then
    let '(ok, m) := list_set ans l TMitigations v m in
    if ok then m_create ans o l (locals ++ [v]) m
    else (NAgain (no_mitigations o), drop_locals l (locals ++ [v]) m)
  else m_create ans o l (locals ++ [v]) m.
(** process.rs:408-421 *)
Definition m_child (ans : answers) (o : popts) (l : N) (locals : list N) (m : mem) : next * mem :=
  let '(v, m) := alloc (CVal (VWord 1)) m in
  if po_child o then
    let '(ok, m) := list_set ans l TChild v m in
    if ok then m_mitigations ans o l (locals ++ [v]) m
    else (NAgain (no_child o), drop_locals l (locals ++ [v]) m)
  else m_mitigations ans o l (locals ++ [v]) m.
(** process.rs:386-406 *)
Definition m_handles (ans : answers) (handles : list N) (o : popts) (l : N) (locals : list N) (m : mem)
  : next * mem :=
  let '(v, m) := alloc (CVal (VHandles (handle_list handles))) m in
  if po_handles o then
    let '(ok, m) := list_set ans l THandles v m in
    if ok then m_child ans o l (locals ++ [v]) m
    else (NAgain (no_handles o), drop_locals l (locals ++ [v]) m)
  else m_child ans o l (locals ++ [v]) m.
(** process.rs:368-381 *)
Definition m_less (ans : answers) (handles : list N) (o : popts) (l lp : N) (locals : list N) (m : mem)
  : next * mem :=
  if po_less o then
    let '(ok, m) := list_set ans l TLess lp m in
    if ok then m_handles ans handles o l locals m
    else (NAgain (no_less o), drop_locals l locals m)
  else m_handles ans handles o l locals m.
(** process.rs:282-367: one pass. CreateAppContainerProfile stores the address of a SID that it
    allocates; nothing calls FreeSid. *)
Definition m_pass (ans : answers) (name : str) (handles : list N) (o : popts) (m : mem) : next * mem :=
  let o := if po_container o then o else no_less o in
  let '(r, m) := list_new ans (count_opts o) m in
  match r with
  | None => (NDone false, m)
  | Some l =>
      let '(sc, m) := alloc (CVal (VCaps 0)) m in
      let '(lp, m) := alloc (CVal (VWord 1)) m in
      let locals := [sc; lp] in
      if po_container o then
        if a_supported ans && a_profile ans then
          let '(sid, m) := alloc (CSid name) m in
          let m := mlog (store sc (CVal (VCaps sid)) m) (MSid sid) in
          let '(ok, m) := list_set ans l TCaps sc m in
          if ok then m_less ans handles o l lp locals m
          else (NAgain (no_container o), drop_locals l locals m)
        else (NAgain (no_container o), drop_locals l locals m)
      else m_handles ans handles o l locals m
  end.
(** The loop, for the answers and AppContainer names of each pass; [None] if there are more
    passes. *)
Fixpoint m_loop (passes : list (answers * str)) (handles : list N) (o : popts) (m : mem)
  : option (bool * mem) :=
  match passes with
  | [] => None
  | (ans, name) :: rest =>
      match m_pass ans name handles o m with
      | (NDone ok, m) => Some (ok, m)
      | (NAgain o, m) => m_loop rest handles o m
      end
  end.
