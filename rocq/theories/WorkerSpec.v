(** Vocabulary for the worker properties: assumptions on kernel and memory, and what
    the answer to one exchange with the broker must be. *)
From stdpp Require Import prelude gmap.
From Coq Require Import Strings.Byte.
From Verif Require Import Bytes PolicyModel LinuxPolicyModel LinuxPolicySpec PostcardModel
  PostcardSpec FdModel ChannelModel BrokerModel BrokerSpec WorkerModel.
Local Open Scope N_scope.

(** A worker set up by [Worker::new] with a policy built by [calls]. *)
Definition set_up (env : wenv) (audit : bool) (calls : list api_call) : Prop :=
  we_policy env = get_runtime_policy (build audit calls) ∧ we_audit env = audit.

(** The kernel behaves: descriptor numbers are C ints, errno values are 1..4095, the
    socket works and takes a message of the largest size; C strings end at their NUL;
    system call arguments are machine words. *)
Record kernel_ok (env : wenv) : Prop := mkKok {
  ko_limit_b : be_limit (we_broker env) ≤ 2 ^ 31;
  ko_limit_w : we_limit env ≤ 2 ^ 31;
  ko_errno : ∀ tr p f e, be_open (we_broker env) tr p f = Err e → 0 < e < 4096;
  ko_fstat : ∀ file e, we_fstat env file = Some e → 0 < e < 4096;
  ko_fchdir : ∀ file e, we_fchdir env file = Some e → 0 < e < 4096;
  ko_send : ∀ tr, be_send (we_broker env) tr = None;
  ko_sndbuf_b : 65536 ≤ be_sndbuf (we_broker env);
  ko_sndbuf_w : 65536 ≤ we_sndbuf env;
  ko_mem : ∀ a s, we_mem env a = Some s → x00 ∉ s;
  ko_cwd : ∀ s, we_cwd env = Some s → x00 ∉ s;
  ko_args : length (we_getcwd_args env) = 6%nat ∧ Forall is_i64 (we_getcwd_args env);
  ko_ip : is_i64 (we_getcwd_ip env) }.

(** The worker can take two more descriptors. *)
Definition has_room (env : wenv) (w : world) : Prop :=
  N.of_nat (size (w_tab w)) + 2 ≤ we_limit env.

(** A request that fits in a message. *)
Definition fits (m : ipc_request) : Prop := N.of_nat (length (enc_request m)) ≤ 65536.
(** A path short enough for any open request. *)
Definition short (path : str) : Prop := N.of_nat (length path) ≤ 65000.

(** The new descriptor [n] in [t'] refers to [file]; nothing else that existed
    changed. *)
Definition received (t t' : fdtab) (file n : N) : Prop :=
  n = lowest_free t ∧ t' !! n = Some (mkFd file FD_CLOEXEC) ∧
  ∀ k e, t !! k = Some e → t' !! k = Some e.

(** One exchange: code, descriptor and files opened by the broker. *)
Definition exchange (audit : bool) (h : list rule) (m : ipc_request)
  (os : list (str * Z * Z * result N N)) (code : Z) (hd : option N) (t t' : fdtab) : Prop :=
  (hd = None → t' = t ∧ (- 4096 < code < 0)%Z) ∧
  match m with
  | ReqInitialization => os = [] ∧ code = (-22)%Z ∧ hd = None
  | ReqSyscall _ _ _ => os = [] ∧ code = (-38)%Z ∧ hd = None
  | ReqOpenFile path flags =>
      (¬ user_allows audit h path flags ∧ os = [] ∧ code = (-13)%Z ∧ hd = None) ∨
      (user_allows audit h path flags ∧ ∃ res, os = [(path, flags, 384%Z, res)] ∧
         match res with
         | Err e => code = (- Z.of_N e)%Z ∧ hd = None
         | Ok file => code = 0%Z ∧ ∃ n, hd = Some n ∧ received t t' file n
         end)
  end.

(** What the outside sees of a handler run: requests sent, files the broker opened; the
    broker's table is as before. *)
Definition effect (w w' : world) (ms : list ipc_request)
  (os : list (str * Z * Z * result N N)) : Prop :=
  w_sent w' = w_sent w ++ ms ∧
  opens (bs_trace (w_broker w')) = opens (bs_trace (w_broker w)) ++ os ∧
  bs_tab (w_broker w') = bs_tab (w_broker w).

(** No descriptor the program had is lost or changed. *)
Definition kept (t t' : fdtab) : Prop := ∀ k e, t !! k = Some e → t' !! k = Some e.

(** The answer to an open for [path] and [flags]. *)
Definition open_answer (audit : bool) (h : list rule) (path : str) (flags : Z)
  (os : list (str * Z * Z * result N N)) (v : Z) (t t' : fdtab) : Prop :=
  (¬ user_allows audit h path flags ∧ os = [] ∧ v = (-13)%Z ∧ t' = t) ∨
  (user_allows audit h path flags ∧ ∃ res, os = [(path, flags, 384%Z, res)] ∧
     match res with
     | Err e => v = (- Z.of_N e)%Z ∧ 0 < e < 4096 ∧ t' = t
     | Ok file => v = Z.of_N (lowest_free t) ∧ received t t' file (lowest_free t)
     end).

(** The answer to a call that opens [path] for its own use and then returns [fin]. *)
Definition probe_answer (audit : bool) (h : list rule) (path : str) (flags : Z)
  (os : list (str * Z * Z * result N N)) (v : Z) (fin : N → Z → Prop) : Prop :=
  (¬ user_allows audit h path flags ∧ os = [] ∧ v = (-13)%Z) ∨
  (user_allows audit h path flags ∧ ∃ res, os = [(path, flags, 384%Z, res)] ∧
     match res with
     | Err e => v = (- Z.of_N e)%Z ∧ 0 < e < 4096
     | Ok file => fin file v
     end).

(** The path a system call is about: relative paths start at the current directory. *)
Definition meant (cwd path : str) : str :=
  if starts_with_byte slash path then path
  else if ends_with_byte slash cwd then cwd ++ path else cwd ++ [slash] ++ path.
