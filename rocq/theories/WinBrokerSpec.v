(** Specification vocabulary for the Windows broker thread. *)
From stdpp Require Import prelude gmap.
From Verif Require Import Bytes PolicyModel LinuxPolicyModel PostcardModel PostcardSpec
  WinPolicyModel WinBrokerModel.
Local Open Scope N_scope.

(** UTF-16 of one scalar value (RFC 2781): one unit, or a surrogate pair. *)
Definition utf16_char (c : N) (us : list N) : Prop :=
  (c < 0x10000 ∧ us = [c]) ∨
  (0x10000 ≤ c ∧ ∃ hi lo, us = [hi; lo] ∧ 0xD800 ≤ hi < 0xDC00 ∧ 0xDC00 ≤ lo < 0xE000 ∧
     c = 0x10000 + (hi - 0xD800) * 0x400 + (lo - 0xDC00)).
(** [us] is the UTF-16 form of the UTF-8 text [s]. *)
Definition utf16_of (s : str) (us : list N) : Prop :=
  ∃ cs uss, Forall scalar cs ∧ s = concat (map utf8_encode cs) ∧ Forall2 utf16_char cs uss ∧
    us = concat uss.

(** Values the message types can hold. *)
Definition is_u32 (z : Z) : Prop := (0 ≤ z < 2 ^ 32)%Z.
Definition wmsg_ok (m : win_msg) : Prop :=
  match m with
  | WReqInit => True
  | WReqFile access path alloc attributes share disposition options ea =>
      is_u32 access ∧ is_rust_str path ∧ is_i64 alloc ∧ is_u32 attributes ∧ is_u32 share ∧
      is_u32 disposition ∧ is_u32 options ∧ is_usize (length ea)
  | WReqKey access path title class options do_create =>
      is_u32 access ∧ is_rust_str path ∧ is_u32 title ∧
      (∀ c, class = Some c → is_rust_str c) ∧ is_u32 options
  end.
Definition wreply_ok (r : win_reply) : Prop :=
  match r with
  | WRepFile info code => info < 2 ^ 64 ∧ is_i32 code
  | WRepKey disposition code => disposition < 2 ^ 32 ∧ is_i32 code
  | WRepStatus code => is_i32 code
  end.

(** What arrives: a message without, or with, a handle value. *)
Definition plain_read (rd : wread) (m : win_msg) : Prop :=
  ∃ b rest, rd = RdMessage b ∧ dec_wreq b = Some (m, x00 :: rest).
Definition handle_read (rd : wread) (h : N) : Prop :=
  ∃ b m r rest, rd = RdMessage b ∧ dec_wreq b = Some (m, x01 :: r) ∧ dec_u64 r = Some (h, rest).

(** The policy question a request stands for. *)
Definition question (m : win_msg) (q : win_request) : Prop :=
  match m with
  | WReqInit => False
  | WReqFile access path alloc attributes share disposition options ea =>
      q = WinFileOpen (mkFileReq path access attributes share disposition (Z.setbit options 21) ea)
  | WReqKey access path title class options do_create =>
      q = WinRegKeyOpen path access options do_create
  end.

(** The name of a UNICODE_STRING whose length field is the wrapped byte count of [us]:
    only the first [length us mod 32768] units. *)
Definition wrapped_name (us : list N) : list N := take (N.to_nat (N.of_nat (length us) mod 32768)) us.
Definition name_for (path : str) (name : list N) : Prop :=
  ∃ us, utf16_of path us ∧ name = wrapped_name us.

(** The system call a request stands for. *)
Definition call_for (m : win_msg) (c : nt_call) : Prop :=
  match m with
  | WReqInit => False
  | WReqFile access path alloc attributes share disposition options ea =>
      ∃ name, name_for path name ∧
        c = NtCreateFile name access alloc 0x80 share disposition (Z.setbit options 21) ea
  | WReqKey access path title class options true =>
      ∃ name cname, name_for path name ∧ c = NtCreateKey name access title cname options ∧
        match class with
        | None => cname = None
        | Some cl => ∃ n, name_for cl n ∧ cname = Some n
        end
  | WReqKey access path title class options false =>
      ∃ name, name_for path name ∧ c = NtOpenKey name access
  end.

(** The answer that tells the worker the outcome [a] of its system call. *)
Definition reply_for (m : win_msg) (a : nt_answer) (r : win_reply) : Prop :=
  match m with
  | WReqInit => False
  | WReqFile _ _ _ _ _ _ _ _ => r = WRepFile (nt_info a) (nt_status a)
  | WReqKey _ _ _ _ _ true =>
      ∃ d, r = WRepKey d (nt_status a) ∧ ((0 ≤ nt_status a)%Z → d = nt_info a) ∧
        ((nt_status a < 0)%Z → d = 0)
  | WReqKey _ _ _ _ _ false =>
      ∃ d, r = WRepKey d (nt_status a) ∧ ((0 ≤ nt_status a)%Z → d = 2) ∧
        ((nt_status a < 0)%Z → d = 0)
  end.

Definition is_callback (e : wevent) : Prop := match e with WCallback _ _ _ => True | _ => False end.
Definition reply_bytes (r : win_reply) (h : option N) : str := enc_wrapped enc_wrep (WOut r, h).

(** Everything that happens for a served request: callbacks; then either a refusal, or the
    system call; if it fails its status alone goes back; if it succeeds the new object is
    duplicated into the worker, announced, and the broker's own handle closed. [t] is the
    handle table before. *)
Definition exchange (t : gmap N N) (granted : Prop) (m : win_msg) (es : list wevent) : Prop :=
  ∃ cbs, Forall is_callback cbs ∧
  ((¬ granted ∧ es = cbs ++ [WSent (reply_bytes (WRepStatus (-1073741790)) None)]) ∨
   (granted ∧ ∃ c a r, call_for m c ∧ reply_for m a r ∧
      (((nt_status a < 0)%Z ∧ es = cbs ++ [WCalled c a; WSent (reply_bytes r None)]) ∨
       ((0 ≤ nt_status a)%Z ∧ ∃ local remote, t !! local = None ∧
          es = cbs ++ [WCalled c a; WDuplicated local remote (nt_object a);
                       WSent (reply_bytes r (Some remote)); WClosed local])))).
(** The same, cut short because the answer could not be sent. *)
Definition cut_exchange (t : gmap N N) (granted : Prop) (m : win_msg) (es : list wevent) : Prop :=
  ∃ cbs, Forall is_callback cbs ∧
  ((¬ granted ∧ es = cbs ++ [WSendFailed]) ∨
   (granted ∧ ∃ c a, call_for m c ∧
      (((nt_status a < 0)%Z ∧ es = cbs ++ [WCalled c a; WSendFailed]) ∨
       ((0 ≤ nt_status a)%Z ∧ ∃ local tail, t !! local = None ∧
          es = cbs ++ WCalled c a :: tail ∧
          (tail = [WSendFailed; WClosed local] ∨ tail = [WClosed local] ∨
           ∃ remote, tail = [WDuplicated local remote (nt_object a); WSendFailed;
                             WClosed local]))))).

(** New handles get values that are not in use. *)
Definition wenv_ok (env : wenv) : Prop := ∀ tr X, we_pick env tr X ∉ X.

Definition calls_of (tr : list wevent) : list (nt_call * nt_answer) :=
  omap (λ e, match e with WCalled c a => Some (c, a) | _ => None end) tr.
Definition sends_of (tr : list wevent) : list str :=
  omap (λ e, match e with WSent b => Some b | _ => None end) tr.
