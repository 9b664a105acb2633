(** Model of ipc-messages/src/windows/mod.rs (the same text as ipc/src/windows/messages.rs),
    ipc/src/windows/channel.rs, ipc/src/windows/handle.rs, broker/src/windows/ipc_loop.rs
    and broker/src/windows/brokered_syscalls.rs. One broker thread and the handle table of
    its process; other threads are not modelled. *)
From stdpp Require Import prelude gmap.
From Coq Require Import Strings.Byte.
From Verif Require Import Bytes PolicyModel LinuxPolicyModel PostcardModel WinPolicyModel.
Local Open Scope N_scope.

(* ---------------------------------------------------------------- messages *)

(** ipc-messages/src/windows/mod.rs:9-33. u32 fields are integers. *)
Inductive win_msg :=
  | WReqInit
  | WReqFile (access : Z) (path : str) (alloc attributes share disposition options : Z) (ea : str)
  | WReqKey (access : Z) (path : str) (title : Z) (class : option str) (options : Z)
      (do_create : bool).
(** ipc-messages/src/windows/mod.rs:36-49; the policy as it is sent and as it is decoded. *)
Inductive win_reply :=
  | WRepFile (info : N) (code : Z)
  | WRepKey (disposition : N) (code : Z)
  | WRepStatus (code : Z).
Inductive win_reply_out := WOutInit (o : policy_order) (audit : bool) | WOut (r : win_reply).
Inductive win_reply_in := WInInit (p : policy) | WIn (r : win_reply).

Definition enc_dw (z : Z) : str := enc_u32 (Z.to_N z).
Definition dec_dw : parser Z := fun s =>
  match dec_u32 s with Some (n, r) => Some (Z.of_N n, r) | None => None end.

Definition enc_wreq (m : win_msg) : str :=
  match m with
  | WReqInit => enc_u32 0
  | WReqFile access path alloc attributes share disposition options ea =>
      enc_u32 1 ++ enc_dw access ++ enc_str path ++ enc_i64 alloc ++ enc_dw attributes ++
      enc_dw share ++ enc_dw disposition ++ enc_dw options ++ enc_bytes ea
  | WReqKey access path title class options do_create =>
      enc_u32 2 ++ enc_dw access ++ enc_str path ++ enc_dw title ++
      enc_option enc_str class ++ enc_dw options ++ enc_bool do_create
  end.

(** Chaining of parsers. *)
Definition dbind {A B} (d : parser A) (f : A → parser B) : parser B := fun s =>
  match d s with Some (a, r) => f a r | None => None end.
Definition dret {A} (a : A) : parser A := fun s => Some (a, s).

Definition dec_wreq : parser win_msg :=
  dbind dec_u32 (λ v,
    if v =? 0 then dret WReqInit
    else if v =? 1 then
      dbind dec_dw (λ access, dbind dec_str (λ path, dbind dec_i64 (λ alloc,
      dbind dec_dw (λ attributes, dbind dec_dw (λ share, dbind dec_dw (λ disposition,
      dbind dec_dw (λ options, dbind dec_bytes (λ ea,
        dret (WReqFile access path alloc attributes share disposition options ea)))))))))
    else if v =? 2 then
      dbind dec_dw (λ access, dbind dec_str (λ path, dbind dec_dw (λ title,
      dbind (dec_option dec_str) (λ class, dbind dec_dw (λ options, dbind dec_bool (λ b,
        dret (WReqKey access path title class options b)))))))
    else fun _ => None).

Definition enc_wrep (m : win_reply_out) : str :=
  match m with
  | WOutInit o audit => enc_u32 0 ++ enc_policy o audit
  | WOut (WRepFile info code) => enc_u32 1 ++ enc_u64 info ++ enc_i32 code
  | WOut (WRepKey disposition code) => enc_u32 2 ++ enc_u32 disposition ++ enc_i32 code
  | WOut (WRepStatus code) => enc_u32 3 ++ enc_i32 code
  end.
Definition dec_wrep : parser win_reply_in :=
  dbind dec_u32 (λ v,
    if v =? 0 then dbind dec_policy (λ p, dret (WInInit p))
    else if v =? 1 then dbind dec_u64 (λ i, dbind dec_i32 (λ c, dret (WIn (WRepFile i c))))
    else if v =? 2 then dbind dec_u32 (λ d, dbind dec_i32 (λ c, dret (WIn (WRepKey d c))))
    else if v =? 3 then dbind dec_i32 (λ c, dret (WIn (WRepStatus c)))
    else fun _ => None).

(** channel.rs:190 and 235: the message and an optional raw handle, as a pair. *)
Definition enc_wrapped {A} (e : A → str) (x : A * option N) : str :=
  enc_pair e (enc_option enc_u64) x.
Definition dec_wrapped {A} (d : parser A) : parser (A * option N) :=
  dec_pair d (dec_option dec_u64).

(* ---------------------------------------------------------------- UTF-16 *)

(** Rust core [char::encode_utf16] *)
Definition utf16_of_char (c : N) : list N :=
  if c <? 0x10000 then [c]
  else [0xD800 + (c - 0x10000) / 1024; 0xDC00 + (c - 0x10000) mod 1024].
(** Rust core [str::chars]: the value of the scalar that starts [s] and takes [n] bytes. *)
Definition char_value (n : nat) (s : str) : N :=
  let b i := Byte.to_N (default x00 (s !! i)) in
  match n with
  | 1%nat => b 0%nat
  | 2%nat => (b 0%nat - 0xC0) * 64 + (b 1%nat - 0x80)
  | 3%nat => (b 0%nat - 0xE0) * 4096 + (b 1%nat - 0x80) * 64 + (b 2%nat - 0x80)
  | _ => (b 0%nat - 0xF0) * 262144 + (b 1%nat - 0x80) * 4096 + (b 2%nat - 0x80) * 64 +
         (b 3%nat - 0x80)
  end.
(** Rust core [str::encode_utf16]; the argument is valid UTF-8. *)
Fixpoint encode_utf16_aux (fuel : nat) (s : str) : list N :=
  match fuel with
  | O => []
  | S f =>
      match s with
      | [] => []
      | _ =>
          match utf8_head s with
          | Some n => utf16_of_char (char_value n s) ++ encode_utf16_aux f (drop n s)
          | None => []
          end
      end
  end.
Definition encode_utf16 (s : str) : list N := encode_utf16_aux (length s) s.

(** A UNICODE_STRING: length in bytes, a u16, and the units its buffer holds. *)
Record unicode_string := mkUS { us_length : N; us_buffer : list N }.
(** brokered_syscalls.rs:85-91, 155-161 and 162-171 *)
Definition unicode_of (s : str) : unicode_string :=
  let units := encode_utf16 s in
  mkUS ((N.of_nat (length units) * 2) mod 2 ^ 16) (units ++ [0]).
(** What the kernel reads of it. *)
Definition us_units (u : unicode_string) : list N :=
  take (N.to_nat (us_length u / 2)) (us_buffer u).

(* ---------------------------------------------------------------- the broker thread *)

Definition STATUS_ACCESS_DENIED : Z := -1073741790. (* 0xC0000022 as an i32 *)
Definition REG_OPENED_EXISTING_KEY : N := 2.

(** The three system calls, with the arguments that reach the kernel. *)
Inductive nt_call :=
  | NtCreateFile (name : list N) (access alloc attributes share disposition options : Z) (ea : str)
  | NtCreateKey (name : list N) (access title : Z) (class : option (list N)) (options : Z)
  | NtOpenKey (name : list N) (access : Z).
(** Status, the 'information' or 'disposition' output, and the object opened. *)
Record nt_answer := mkNt { nt_status : Z; nt_info : N; nt_object : N }.

(** What the broker does that others can see. *)
Inductive wevent :=
  | WCallback (cb : N) (req : win_request) (v : verdict)
  | WCalled (c : nt_call) (a : nt_answer)
  | WDuplicated (local remote object : N)   (* into the worker's table *)
  | WSent (payload : str)
  | WSendFailed
  | WClosed (h : N).                        (* CloseHandle *)

(** The environment: answers of the kernel, each may depend on what happened before.
    [we_pick] chooses the value of a new handle among those not in use. *)
Record wenv := mkWenv {
  we_debug : bool;
  we_call : list wevent → nt_call → nt_answer;
  we_pick : list wevent → gset N → N;
  we_dup : list wevent → option N;     (* handle value in the worker, or failure *)
  we_write : list wevent → bool;
  we_remote : bool }.                  (* set_remote_process was called *)

Record wstate := mkWst { ws_tab : gmap N N; ws_trace : list wevent }.
Definition wlog (s : wstate) (es : list wevent) : wstate := mkWst (ws_tab s) (ws_trace s ++ es).

Definition wlog_events (debug : bool) (p : policy) (req : win_request) : list wevent :=
  map (λ '(cb, r, v), WCallback cb r v) (snd (win_evaluate_request debug p req)).

(** winapi NT_SUCCESS *)
Definition nt_success (status : Z) : bool := (0 <=? status)%Z.

(** A call that stores a new handle when it succeeds. [Handle::from_raw] never fails
    (handle.rs:20-24). *)
Definition do_nt_call (env : wenv) (c : nt_call) (s : wstate) : nt_answer * option N * wstate :=
  let a := we_call env (ws_trace s) c in
  if nt_success (nt_status a) then
    let h := we_pick env (ws_trace s) (dom (ws_tab s)) in
    (a, Some h, mkWst (<[ h := nt_object a ]> (ws_tab s)) (ws_trace s ++ [WCalled c a]))
  else (a, None, wlog s [WCalled c a]).

(** brokered_syscalls.rs:57-135 *)
Definition proxied_ntcreatefile (env : wenv) (p : policy) (access : Z) (path : str)
  (alloc attributes share disposition options : Z) (ea : str) (s : wstate)
  : win_reply * option N * wstate :=
  let options := Z.lor options FILE_FLAG_OPEN_REPARSE_POINT in
  let req := WinFileOpen (mkFileReq path access attributes share disposition options ea) in
  let s := wlog s (wlog_events (we_debug env) p req) in
  match fst (win_evaluate_request (we_debug env) p req) with
  | Granted =>
      let '(a, h, s) := do_nt_call env
        (NtCreateFile (us_units (unicode_of path)) access alloc FILE_ATTRIBUTE_NORMAL share
           disposition options ea) s in
      (WRepFile (nt_info a) (nt_status a), h, s)
  | _ => (WRepStatus STATUS_ACCESS_DENIED, None, s)
  end.

(** brokered_syscalls.rs:137-237 *)
Definition proxied_ntcreatekey (env : wenv) (p : policy) (access : Z) (path : str)
  (title : Z) (class : option str) (options : Z) (do_create : bool) (s : wstate)
  : win_reply * option N * wstate :=
  let req := WinRegKeyOpen path access options do_create in
  let s := wlog s (wlog_events (we_debug env) p req) in
  match fst (win_evaluate_request (we_debug env) p req) with
  | Granted =>
      let name := us_units (unicode_of path) in
      if do_create then
        let '(a, h, s) := do_nt_call env
          (NtCreateKey name access title (option_map (λ c, us_units (unicode_of c)) class) options) s in
        (WRepKey (if nt_success (nt_status a) then nt_info a else 0) (nt_status a), h, s)
      else
        let '(a, h, s) := do_nt_call env (NtOpenKey name access) s in
        (WRepKey (if nt_success (nt_status a) then REG_OPENED_EXISTING_KEY else 0) (nt_status a), h, s)
  | _ => (WRepStatus STATUS_ACCESS_DENIED, None, s)
  end.

(** channel.rs:155-209. [None]: the [expect] at line 166 panics. *)
Definition win_send (env : wenv) (m : win_reply_out) (h : option N) (s : wstate)
  : option (bool * wstate) :=
  let write remote s :=
    match serialize (enc_wrapped enc_wrep) (m, remote) IPC_MESSAGE_MAX_SIZE with
    | None => (false, wlog s [WSendFailed])
    | Some b =>
        if we_write env (ws_trace s) then (true, wlog s [WSent b]) else (false, wlog s [WSendFailed])
    end in
  match h with
  | None => Some (write None s)
  | Some local =>
      if we_remote env then
        match we_dup env (ws_trace s) with
        | None => Some (false, wlog s [WSendFailed])
        | Some remote =>
            let obj := default 0 (ws_tab s !! local) in
            Some (write (Some remote) (wlog s [WDuplicated local remote obj]))
        end
      else None
  end.

(** What ReadFile gives: a message of at most the buffer's size, the end of the pipe, or
    another error (a longer message included). *)
Inductive wread := RdMessage (b : str) | RdBroken | RdError (code : N).
(** channel.rs:211-247 *)
Definition win_recv {A} (d : parser A) (r : wread) : result (option (A * option N)) unit :=
  match r with
  | RdBroken => Ok None
  | RdError _ => Err tt
  | RdMessage b =>
      match deserialize (dec_wrapped d) b with
      | None => Err tt
      | Some (m, h) => Ok (Some (m, h))
      end
  end.

(** handle.rs:73-86: CloseHandle on whatever value the Handle holds. CloseHandle returns 0
    or 1, so the test [res < 0] never holds. *)
Definition win_drop (h : option N) (s : wstate) : wstate :=
  match h with
  | None => s
  | Some v => mkWst (delete v (ws_tab s)) (ws_trace s ++ [WClosed v])
  end.

(** The thread is waiting, returned, or panicked. *)
Inductive wstatus := WServing | WExited | WCrashed.

(** ipc_loop.rs:50-91 *)
Definition win_dispatch (env : wenv) (p : policy) (m : win_msg) (s : wstate)
  : option (win_reply * option N * wstate) :=
  match m with
  | WReqFile access path alloc attributes share disposition options ea =>
      Some (proxied_ntcreatefile env p access path alloc attributes share disposition options ea s)
  | WReqKey access path title class options do_create =>
      Some (proxied_ntcreatekey env p access path title class options do_create s)
  | WReqInit => None
  end.

(** One iteration of ipc_loop.rs:34-99 *)
Definition win_step (env : wenv) (p : policy) (rd : wread) (s : wstate) : wstatus * wstate :=
  match win_recv dec_wreq rd with
  | Ok (Some (m, None)) =>
      match win_dispatch env p m s with
      | None => (WExited, s)
      | Some (rep, h, s) =>
          match win_send env (WOut rep) h s with
          | None => (WCrashed, win_drop h s)
          | Some (ok, s) => (if ok then WServing else WExited, win_drop h s)
          end
      end
  | Ok (Some (_, h)) => (WExited, win_drop h s)     (* [other] is dropped *)
  | Ok None => (WExited, s)
  | Err _ => (WExited, s)
  end.

(** The loop; when the thread ends the channel is dropped: the pipe handle [ch] and the
    process handle [ph]. *)
Definition win_end (ch : N) (ph : option N) (s : wstate) : wstate :=
  win_drop ph (win_drop (Some ch) s).
Fixpoint win_loop (env : wenv) (p : policy) (ch : N) (ph : option N) (rds : list wread)
  (s : wstate) : wstatus * wstate :=
  match rds with
  | [] => (WServing, s)
  | rd :: rds =>
      match win_step env p rd s with
      | (WServing, s) => win_loop env p ch ph rds s
      | (st, s) => (st, win_end ch ph s)
      end
  end.

(** The thread of ipc_loop.rs:17-101, from the handshake on. *)
Definition win_thread (env : wenv) (p : policy) (o : policy_order) (ch : N) (ph : option N)
  (rds : list wread) (s : wstate) : wstatus * wstate :=
  match rds with
  | [] => (WServing, s)
  | rd :: rds =>
      match win_recv dec_wreq rd with
      | Ok (Some (WReqInit, None)) =>
          match win_send env (WOutInit o (audit_only p)) None s with
          | None => (WCrashed, win_end ch ph s)
          | Some (false, s) => (WExited, win_end ch ph s)
          | Some (true, s) => win_loop env p ch ph rds s
          end
      | Ok (Some (_, h)) => (WExited, win_end ch ph (win_drop h s))
      | Ok None => (WExited, win_end ch ph s)
      | Err _ => (WExited, win_end ch ph s)
      end
  end.

(* ---------------------------------------------------------------- Handle *)

(** handle.rs:88-112. [dup] is the answer of DuplicateHandle: the BOOL and the new value;
    the result is the value in the [Handle]; [None] is a panic. *)
Definition win_handle_clone (cur : N) (dup : Z * N) : option N :=
  let '(res, new_raw) := dup in
  if (res <? 0)%Z then None else Some (Z.to_N res).
