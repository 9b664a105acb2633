(** Vocabulary for the broker properties: what an outside observer sees. *)
From stdpp Require Import prelude gmap.
From Verif Require Import Bytes PolicyModel LinuxPolicyModel LinuxPolicySpec PostcardModel
  FdModel ChannelModel BrokerModel.
Local Open Scope N_scope.

(** open(2) calls in a trace: path, flags, mode, answer. *)
Definition opens (tr : list bevent) : list (str * Z * Z * result N N) :=
  omap (λ e, match e with BOpen p f m r => Some (p, f, m, r) | _ => None end) tr.
(** Datagrams sent to the worker: bytes and attached files. *)
Definition replies (tr : list bevent) : list (str * list N) :=
  omap (λ e, match e with BSent p fs => Some (p, fs) | _ => None end) tr.

(** The bytes of a reply with a given code. *)
Definition reply_bytes (code : Z) : str := enc_response (OutSyscallResult code).

(** A datagram without descriptors that fits the buffer and decodes to [m]. *)
Definition plain_request (ev : sock_event) (m : ipc_request) : Prop :=
  ∃ p rest, ev = EvDatagram (mkDgram p []) ∧ N.of_nat (length p) ≤ 65536 ∧
    dec_request p = Some (m, rest).

(** What the user allowed: everything in audit mode, else what the rules say. *)
Definition user_allows (audit : bool) (h : list rule) (path : str) (flags : Z) : Prop :=
  audit = true ∨ should_grant h path flags.

(** Files attached to a reply that carries [file]. On x86_64 the sender's descriptor 0
    goes along (see C20). *)
Definition attached (a : abi) (t : fdtab) (file : N) (files : list N) : Prop :=
  match a with
  | Abi32 => files = [file]
  | Abi64 => ∃ f0, files = [file; f0] ∧
      ((∃ e, t !! 0 = Some e ∧ fd_file e = f0) ∨ (t !! 0 = None ∧ f0 = file))
  end.

(** What a correct broker does for one request: the opens it makes, the code and the
    files of its one reply. *)
Definition right_answer (a : abi) (t : fdtab) (audit : bool) (h : list rule)
  (m : ipc_request) (os : list (str * Z * Z * result N N)) (code : Z) (files : list N) : Prop :=
  match m with
  | ReqInitialization => os = [] ∧ code = (-22)%Z ∧ files = []
  | ReqSyscall _ _ _ => os = [] ∧ code = (-38)%Z ∧ files = []
  | ReqOpenFile path flags =>
      (¬ user_allows audit h path flags ∧ os = [] ∧ code = (-13)%Z ∧ files = []) ∨
      (user_allows audit h path flags ∧ ∃ res, os = [(path, flags, 384%Z, res)] ∧
         match res with
         | Err e => code = (- Z.of_N e)%Z ∧ files = []
         | Ok file => code = 0%Z ∧ attached a t file files
         end)
  end.

(** The trace of one served request: the reply comes last. *)
Definition right_segment (a : abi) (t : fdtab) (audit : bool) (h : list rule)
  (m : ipc_request) (seg : list bevent) : Prop :=
  ∃ pre code files, seg = pre ++ [BSent (reply_bytes code) files] ∧ replies pre = [] ∧
    right_answer a t audit h m (opens seg) code files.
