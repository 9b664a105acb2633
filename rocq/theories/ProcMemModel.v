(** Model of the memory [OSSandboxedProcess::new] uses on Linux to hand the new process its
    parameters (broker/src/linux/process.rs:27-146 and 148-178), and of what the entry point
    reads through the pointers it is given (linux-entrypoint/src/entry.rs:9-30, 66-91,
    201-210, 232-247).

    The memory of the program is a map from addresses to blocks. Other threads of the
    program allocate, change and free blocks of their own between any two operations of this
    one. Simplifications: a vector is one block from the start (it does not grow, and an empty
    one is a block too); the strings of errors, which belong to who gets the error, are left
    out; integers are any numbers and the conversions of descriptors either all fit or panic. *)
From stdpp Require Import prelude gmap.
From Coq Require Import Strings.Byte.
From Verif Require Import Bytes PolicyModel.
Local Open Scope N_scope.

(** linux-entrypoint/src/entry.rs:9-24; pointers are addresses. *)
Record params := mkParams {
  p_uid : N; p_uid_len : nat; p_gid : N; p_gid_len : nat;
  p_exe : N; p_argv : N; p_envp : N;
  p_fds : N; p_nfds : nat; p_pipe : Z;
  p_std : list (option Z) }.

(** What a block holds. A [CString] owns its bytes with the NUL. *)
Inductive blk :=
  | BBytes (s : str)
  | BPtrs (l : list N)
  | BInts (l : list Z)
  | BParams (p : params)
  | BStack (size : N).
Notation memory := (gmap N blk).

(** The [ProcessConfig] and the policy the function borrows: addresses of C strings that
    belong to the caller, and numbers. [c_uid] and [c_gid] are the formatted maps. *)
Record config := mkConfig {
  c_exe : N; c_argv : list N; c_envp : list N;
  c_fds : list Z; c_uid : str; c_gid : str; c_pipe : Z; c_std : list (option Z) }.
Definition c_addrs (c : config) : gset N := list_to_set (c_exe c :: c_argv c ++ c_envp c).

(** The locals that own memory: [clone_error_pipes] (line 36), [argv] (54), [envp] (60),
    [allowed_file_descriptors] (66), [uid_map] (73), [gid_map] (74), the box of line 98, and
    the stack of [try_clone] (153). *)
Inductive var := VPipes | VArgv | VEnvp | VFds | VUid | VGid | VParams | VStack.
Global Instance var_eq : EqDecision var.
Proof. solve_decision. Defined.

(** lines 14-15 *)
Definition DEFAULT_CLONE_STACK_SIZE : N := 1024 * 1024.
(** libc crate, x86_64 and i686 *)
Definition CLONE_VM : Z := 0x100.
Definition CLONE_NEWUSER : Z := 0x10000000.
Definition CLONE_NEWPID : Z := 0x20000000.

(** What each local is filled with, lines 36, 54-98, 153; [env] gives the address of the
    block of each local. *)
Definition content (c : config) (env : var → N) (v : var) : blk :=
  match v with
  | VPipes => BInts [-1; -1]%Z
  | VArgv => BPtrs (c_argv c ++ [0])
  | VEnvp => BPtrs (c_envp c ++ [0])
  | VFds => BInts (c_fds c)
  | VUid => BBytes (c_uid c ++ [x00])
  | VGid => BBytes (c_gid c ++ [x00])
  | VParams => BParams
      (mkParams (env VUid) (length (c_uid c)) (env VGid) (length (c_gid c))
         (c_exe c) (env VArgv) (env VEnvp) (env VFds) (length (c_fds c)) (c_pipe c) (c_std c))
  | VStack => BStack DEFAULT_CLONE_STACK_SIZE
  end.

(** What the operating system answers: pipe() works, the descriptor could be made
    close-on-exec, the numbers of the handles fit an int (the [unwrap]s of lines 69 and
    87-95 do not panic), whether clone() works with each set of flags, and whether an error
    number came through the pipe. *)
Record answers := mkAnswers {
  a_argv : bool; a_pipe : bool; a_set : bool; a_fds_fit : bool; a_std_fit : bool;
  a_clone1 : bool; a_clone2 : bool; a_clone3 : bool; a_errno : bool }.

(** Operations: a local is filled with a new block; it is dropped; [Box::leak] lets go of
    the box; [Box::from_raw] and [drop]; clone(); a local is moved into the value that is
    returned; the function is left (by [return], [?] or a panic), which drops the locals that
    still own something, the last one first. *)
Inductive op :=
  | New (v : var) | Drop (v : var) | Leak (v : var) | Reclaim (v : var)
  | Clone (flags : Z) (ok : bool) | Give (v : var) | Leave.

(** lines 148-185: on an error the stack is dropped, otherwise it is moved to the caller *)
Definition attempt (flags : Z) (ok : bool) : list op :=
  [New VStack; Clone flags ok] ++ if ok then [] else [Drop VStack].
(** lines 115-141 *)
Definition after_clone (r : answers) : list op :=
  [Reclaim VParams] ++ if a_errno r then [Leave] else [Give VStack; Leave].
(** lines 27-141 *)
Definition program (r : answers) : list op :=
  if negb (a_argv r) then [] else
  [New VPipes] ++
  if negb (a_pipe r) then [Leave] else
  [Drop VPipes] ++
  if negb (a_set r) then [Leave] else
  [New VArgv; New VEnvp] ++
  if negb (a_fds_fit r) then [Leave] else
  [New VFds; New VUid; New VGid] ++
  if negb (a_std_fit r) then [Leave] else
  [New VParams; Leak VParams] ++
  attempt (Z.lor CLONE_NEWUSER CLONE_NEWPID) (a_clone1 r) ++
  if a_clone1 r then after_clone r else
  attempt CLONE_NEWPID (a_clone2 r) ++
  if a_clone2 r then after_clone r else
  attempt 0 (a_clone3 r) ++
  if a_clone3 r then after_clone r else [Leave].

(** The allocator, and what other threads do to memory before the [n]-th operation, told
    which addresses are not theirs. *)
Record world := mkWorld {
  w_malloc : memory → N;
  w_others : nat → gset N → memory → memory }.

Inductive event := EMalloc (a : N) | EFree (a : N).
(** Blocks that were allocated and not freed. *)
Definition live (tr : list event) : gset N :=
  foldl (λ s e, match e with EMalloc a => s ∪ {[a]} | EFree a => s ∖ {[a]} end) ∅ tr.

(** A process made by clone(): the flags, its argument, its stack, and the memory at that
    moment. *)
Record child := mkChild { ch_flags : Z; ch_arg : N; ch_stack : N; ch_memory : memory }.

Record state := mkState {
  s_mem : memory;
  s_env : var → N;
  s_scope : list var;             (* locals that own their block, the latest first *)
  s_given : list N;               (* blocks of the value returned *)
  s_trace : list event;
  s_children : list child }.

Definition free (a : N) (s : state) : state :=
  mkState (delete a (s_mem s)) (s_env s) (s_scope s) (s_given s) (s_trace s ++ [EFree a])
    (s_children s).
Definition forget (v : var) (s : state) : state :=
  mkState (s_mem s) (s_env s) (filter (λ w, w ≠ v) (s_scope s)) (s_given s) (s_trace s)
    (s_children s).
Definition new (w : world) (c : config) (v : var) (s : state) : state :=
  let a := w_malloc w (s_mem s) in
  mkState (<[a := content c (s_env s) v]> (s_mem s))
    (λ u, if decide (u = v) then a else s_env s u)
    (v :: s_scope s) (s_given s) (s_trace s ++ [EMalloc a]) (s_children s).

Definition exec_op (w : world) (c : config) (o : op) (s : state) : state :=
  match o with
  | New v => new w c v s
  | Drop v => forget v (free (s_env s v) s)
  | Leak v => forget v s
  | Reclaim v => free (s_env s v) s
  | Clone f ok =>
      mkState (s_mem s) (s_env s) (s_scope s) (s_given s) (s_trace s)
        (s_children s ++
         if ok then [mkChild f (s_env s VParams) (s_env s VStack) (s_mem s)] else [])
  | Give v =>
      forget v (mkState (s_mem s) (s_env s) (s_scope s) (s_given s ++ [s_env s v]) (s_trace s)
                  (s_children s))
  | Leave => foldl (λ s v, forget v (free (s_env s v) s)) s (s_scope s)
  end.

(** The addresses other threads leave alone: what this thread has, and the strings that are
    borrowed. *)
Definition others (w : world) (c : config) (n : nat) (s : state) : state :=
  mkState (w_others w n (live (s_trace s) ∪ c_addrs c) (s_mem s)) (s_env s) (s_scope s)
    (s_given s) (s_trace s) (s_children s).
Fixpoint exec (w : world) (c : config) (n : nat) (l : list op) (s : state) : state :=
  match l with
  | [] => s
  | o :: l => exec w c (S n) l (exec_op w c o (others w c n s))
  end.

(** A start in a program whose memory is [h] and whose thread had allocated and freed what
    [tr] says before. *)
Definition begin (h : memory) (tr : list event) : state :=
  mkState h (λ _, 0) [] [] tr [].
Definition start (w : world) (c : config) (r : answers) (h : memory) (tr : list event)
  : state :=
  exec w c 0 (program r) (begin h tr).

(** The memory a new process has while it reads its parameters: its own copy, or the memory
    of the program, which goes on, when they share it. *)
Definition child_memory (s : state) (k : child) : memory :=
  if Z.testbit (ch_flags k) 8 then s_mem s else ch_memory k.
