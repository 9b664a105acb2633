(** C141: in audit mode, calls that start threads, processes and programs do what they do without
    the library. *)
From stdpp Require Import prelude.
From Coq Require Import Strings.Byte ZifyNat ZifyBool.
From Verif Require Import Bytes PolicyModel SeccompModel SeccompProps SigMaskModel SigMaskProps
  TrampolineModel TrampolineProofs TrampolineProps AuditCloneModel.
Local Open Scope Z_scope.

(** How far above the stack pointer at the system call the trampoline finds its return address. *)
Definition ret_offset (w : width) : Z := match w with W64 => 88 | W32 => 16 end.

Lemma split_rerun w : split_syscall (rerun_syscall w) = (before_syscall w ++ [SysCall], after_syscall w).
Proof. by destruct w. Qed.
Lemma steps_run w k is : ∀ pc rest c, Ret ∉ is →
  run w k pc (is ++ rest) c = run w k (steps w k pc is c).1 rest (steps w k pc is c).2.
Proof.
  induction is as [|i is IH]; intros pc rest c H; [done|].
  cbn [app steps]. rewrite run_step by set_solver. apply IH. set_solver.
Qed.
Lemma no_ret w : Ret ∉ before_syscall w ++ [SysCall].
Proof. apply (bool_decide_unpack _). by destruct w; vm_compute. Qed.
Lemma run_split w k pc c :
  run w k pc (rerun_syscall w) c =
  run w k (steps w k pc (before_syscall w ++ [SysCall]) c).1 (after_syscall w)
    (steps w k pc (before_syscall w ++ [SysCall]) c).2.
Proof.
  rewrite <-steps_run by apply no_ret. by destruct w.
Qed.

Local Arguments run : simpl never.
Local Arguments load : simpl never.
Local Arguments store : simpl never.
Local Arguments wmod : simpl never.
Local Arguments Z.modulo : simpl never.
Local Arguments Z.add : simpl never.
Local Arguments Z.sub : simpl never.

(** The end of the trampoline, from any state. *)
Lemma after_run w k pc c :
  ∃ c', run w k pc (after_syscall w) c
    = Some (load w (c_mem c) (c_regs c RSP + ret_offset w), c').
Proof.
  destruct c as [[rax rcx rdx rbx rsp rbp rsi rdi r8 r9 r10 r11 r12 r13 r14 r15] m sn].
  destruct w; unfold after_syscall; cbn.
  - step. step. step. unfold run. eexists. cbn. unfold c_regs; cbn. f_equal. f_equal.
    rewrite (load_store_other W64 m (rsp + 32) _ _ rsp 32 88);
      [|done|by rewrite Zmod_mod|cbn; lia|lia].
    apply load_mod. by rewrite Zmod_mod.
  - step. change (Z.of_nat 4) with 4.
    step. change (Z.of_nat 4) with 4. rewrite wrap.
    step. change (Z.of_nat 4) with 4. rewrite wrap.
    step. change (Z.of_nat 4) with 4. rewrite wrap. unfold run.
    eexists. cbn. unfold c_regs; cbn. f_equal. f_equal. apply load_mod.
    rewrite Zmod_mod. f_equal. lia.
Qed.
(** The stack pointer and the memory after the system call. *)
Lemma before_sp w k pc c :
  c_regs (steps w k pc (before_syscall w ++ [SysCall]) c).2 RSP
    = (c_regs c RSP - ret_offset w) mod wmod w.
Proof.
  destruct c as [[rax rcx rdx rbx rsp rbp rsi rdi r8 r9 r10 r11 r12 r13 r14 r15] m sn].
  destruct w; unfold before_syscall, c_regs; cbn.
  - by destruct (k _) as [[[? ?] ?] ?].
  - change (Z.of_nat 4) with 4. destruct (k _) as [[[? ?] ?] ?]. cbn.
    rewrite !wrap_sub. set (x := (rsp - 4 - 4) mod wmod W32).
    replace (x - 4 - 4) with (x - 8) by lia. unfold x. rewrite wrap_sub. f_equal. lia.
Qed.
Lemma before_seen w k pc c : ∃ s,
  c_seen (steps w k pc (before_syscall w ++ [SysCall]) c).2 = c_seen c ++ [s] ∧
  c_mem (steps w k pc (before_syscall w ++ [SysCall]) c).2 = (k s).1.1.2.
Proof.
  destruct c as [[rax rcx rdx rbx rsp rbp rsi rdi r8 r9 r10 r11 r12 r13 r14 r15] m sn].
  destruct w; unfold before_syscall; cbn.
  - match goal with |- context [k ?s] => exists s; destruct (k s) as [[[? ?] ?] ?] end. done.
  - match goal with |- context [k ?s] => exists s; destruct (k s) as [[[? ?] ?] ?] end. done.
Qed.

(** What the trampoline returns to, for any kernel, in terms of the memory after the call. *)
Lemma rerun_ret w k start c : cpu_ok w c → ∃ s c',
  run w k start (rerun_syscall w) c = Some (load w (k s).1.1.2 (c_regs c RSP), c').
Proof.
  intros Hok. rewrite run_split.
  pose proof (before_sp w k start c) as Hsp. destruct (before_seen w k start c) as (s & _ & Hm).
  set (p := steps w k start _ c) in *. clearbody p. destruct p as [pc c1]. cbn [fst snd] in *.
  destruct (after_run w k pc c1) as [c' Hr]. exists s, c'. rewrite Hr, Hm, Hsp.
  f_equal. f_equal. apply load_mod. rewrite wrap. f_equal. lia.
Qed.
Lemma rerun_child_same w start mem rcx r11 c :
  rerun_child w start 0 mem rcx r11 c =
  run w (child_kernel mem rcx r11) start (rerun_syscall w) c.
Proof.
  unfold rerun_child. rewrite split_rerun, run_split.
  by destruct (steps w (child_kernel mem rcx r11) start (before_syscall w ++ [SysCall]) c).
Qed.

(** The trampoline works in the new thread or process: it comes back to the trampoline's caller
    with 0, with the stack and the registers of the caller. *)
Definition comes_back (w : width) (c : cpu) (res : Z) (out : option (Z * cpu)) : Prop :=
  ∃ c', out = Some (load w (c_mem c) (c_regs c RSP), c') ∧
    c_regs c' RAX = res ∧
    c_regs c' RSP = (c_regs c RSP + Z.of_nat (wbytes w)) mod wmod w ∧
    ∀ r, r ∈ callee_saved w → c_regs c' r = c_regs c r.
(** The kernel leaves the frame of the trampoline alone when it makes the new process. *)
Definition frame_kept (w : width) (c : cpu) (mem : syscall_seen → memory) : Prop :=
  ∀ s x, frame w (c_regs c RSP) x → mem s x = ss_mem s x.

(** The full statement, in three parts; all three are false. *)
Definition C141_clone_full : Prop := ∀ w start stack mem rcx r11 c nr args,
  cpu_ok w c → called_with w c nr args → frame_kept w c mem → 0 ≤ stack < wmod w →
  ∃ c', rerun_child w start stack mem rcx r11 c = Some (load w (c_mem c) (c_regs c RSP), c').
Definition C141_vfork_full : Prop := ∀ w start pid v mem rcx r11 c nr args,
  cpu_ok w c → called_with w c nr args → frame_kept w c mem →
  0 < pid < wmod w → 0 ≤ v < wmod w →
  comes_back w c pid (rerun_vfork w start pid v mem rcx r11 c).
Definition C141_exec_full : Prop := ∀ l pid rs a site st calls,
  build_rules l pid = Ok rs → lib_known l (lit "rt_sigreturn") = true →
  SeenKilled ∉ audit_calls rs a site st calls →
  audit_calls rs a site (after_execve st) calls = audit_calls rs a site st calls.

(** Missing from the first part: a stack of its own for the child. fork works. *)
Theorem C141_fork_partial w start mem rcx r11 c nr args :
  cpu_ok w c → called_with w c nr args → frame_kept w c mem →
  comes_back w c 0 (rerun_child w start 0 mem rcx r11 c).
Proof.
  intros Hok Hc Hf. rewrite rerun_child_same.
  destruct (C40_replays w (child_kernel mem rcx r11) start c nr args Hok Hc)
    as (s & ret & c' & Hr & _ & _ & _ & _ & H).
  unfold child_kernel at 1 in H. cbn in H. destruct (H (Hf s)) as (Hrax & -> & Hsp & Hcs & _).
  exists c'. rewrite Hr. by split_and!.
Qed.
Print Assumptions C141_fork_partial.

(** With a stack of its own, as the C library starts threads, the child goes to the address that
    stands 88 bytes (i686: 16 bytes) above the top of its new stack, whatever that is; never to
    the code that made the call. *)
Theorem C141_stack_refuted w start stack mem rcx r11 c :
  0 < stack < wmod w →
  ∃ s c', rerun_child w start stack mem rcx r11 c =
    Some (load w (mem s) (stack + ret_offset w), c').
Proof.
  intros Hs. unfold rerun_child. rewrite split_rerun.
  destruct (before_seen w (child_kernel mem rcx r11) start c) as (s & _ & Hm).
  destruct (steps _ _ _ _ _) as [pc c1]. cbn [snd] in Hm.
  rewrite (proj2 (Z.eqb_neq stack 0)) by lia.
  destruct (after_run w (child_kernel mem rcx r11) pc (set_reg RSP stack c1)) as [c' Hr].
  exists s, c'. rewrite Hr. unfold set_reg, c_regs. cbn. rewrite Hm. cbn.
  by destruct c1 as [[] ? ?].
Qed.
Print Assumptions C141_stack_refuted.

(** After a vfork the caller goes to whatever the child wrote there: the return address of the
    first function that the child called. *)
Theorem C141_vfork_refuted w start pid v mem rcx r11 c nr args :
  cpu_ok w c → called_with w c nr args → frame_kept w c mem → 0 ≤ v < wmod w →
  ∃ c', rerun_vfork w start pid v mem rcx r11 c = Some (v, c').
Proof.
  intros Hok Hc Hf Hv. unfold rerun_vfork.
  destruct (C141_fork_partial w start mem rcx r11 c nr args Hok Hc Hf) as (c1 & -> & _ & Hsp & _).
  destruct (rerun_ret w (λ _, (pid, store w (c_mem c1)
    ((c_regs c1 RSP - Z.of_nat (wbytes w)) mod wmod w) v, rcx, r11)) start c Hok) as (s & c' & Hr).
  exists c'. rewrite Hr. cbn [fst snd]. f_equal. f_equal.
  rewrite (load_store_same' w); [by apply Z.mod_small|].
  rewrite Hsp, wrap_sub, wrap0. f_equal. lia.
Qed.
Print Assumptions C141_vfork_refuted.

(** Any program that the worker starts dies of its first call outside the trampoline that the
    filter traps: in audit mode too the filter stays, but the handler is gone. *)
Theorem C141_exec_refuted rs a site st pre ip name args rest :
  Forall (λ c, audit_decision site c.1.1 rs a c.1.2 c.2 = Allow) pre →
  ip ≠ site → decision rs a name args = Trap →
  audit_calls rs a site (after_execve st) (pre ++ (ip, name, args) :: rest)
    = map (λ _, SeenDone) pre ++ [SeenKilled].
Proof.
  intros Hpre Hip Hd. induction pre as [|[[i n] g] pre IH].
  - cbn [app audit_calls map]. unfold audit_decision. rewrite (proj2 (Z.eqb_neq ip site) Hip), Hd.
    unfold trapped_call, after_execve, inherited. cbn. by destruct (st_blocked st), (st_action st).
  - apply Forall_cons_1 in Hpre as [Hp Hpre]. cbn [fst snd] in Hp.
    cbn [app audit_calls map]. rewrite Hp. f_equal. by apply IH.
Qed.
Print Assumptions C141_exec_refuted.
(** The same calls made by the worker itself are all answered. *)
Theorem C141_worker rs a site saved calls :
  decision rs a (lit "rt_sigreturn") [] = Allow →
  audit_calls rs a site (mkSt false ActLibrary saved) calls =
    map (λ c : Z * str * list N,
           match audit_decision site c.1.1 rs a c.1.2 c.2 with Allow => SeenDone | Trap => SeenAnswered end)
      calls.
Proof.
  intros Hret. induction calls as [|[[i n] g] calls IH]; [done|].
  cbn [audit_calls map fst snd]. destruct (audit_decision _ _ _ _ _ _); [by rewrite IH|].
  unfold trapped_call. cbn [st_blocked st_action]. by rewrite Hret, IH.
Qed.
Print Assumptions C141_worker.

(** A word in memory leaves memory made of bytes. *)
Lemma store_bytes_ok M bs : ∀ m a, (∀ x, 0 ≤ m x < 256) → Forall (λ b, 0 ≤ b < 256) bs →
  ∀ x, 0 ≤ store_bytes M m a bs x < 256.
Proof.
  induction bs as [|b bs IH]; intros m a Hm Hbs x; [apply Hm|].
  apply Forall_cons_1 in Hbs as [Hb Hbs]. cbn [store_bytes]. apply IH; [|done].
  intros y. destruct (decide _); [done|apply Hm].
Qed.
Lemma le_bytes_ok n : ∀ v, Forall (λ b, 0 ≤ b < 256) (le_bytes n v).
Proof.
  induction n as [|n IH]; intros v; [constructor|]. cbn [le_bytes].
  constructor; [apply Z.mod_pos_bound; lia|apply IH].
Qed.
Lemma store_ok w m a v : (∀ x, 0 ≤ m x < 256) → ∀ x, 0 ≤ store w m a v x < 256.
Proof. intros Hm. apply store_bytes_ok; [done|apply le_bytes_ok]. Qed.

(** The processor of the example of C40: the stack at 1000, 77 the return address. *)
Lemma ex_called : cpu_ok W64 ex_cpu64 ∧ called_with W64 ex_cpu64 1 [10; 20; 30; 40; 50; 60].
Proof.
  split; [|exists 10, 20, 30, 40, 50, 60; by vm_compute].
  split.
  - intros []; by vm_compute.
  - intros x. unfold ex_cpu64. cbn [c_mem]. apply store_ok, store_ok. lia.
Qed.
Lemma ex_frame c : frame_kept W64 c ss_mem.
Proof. by intros s x _. Qed.

Theorem C141_refuted : ¬ C141_clone_full ∧ ¬ C141_vfork_full ∧ ¬ C141_exec_full.
Proof.
  destruct ex_called as [Hok Hc]. split_and!.
  - intros H. unfold C141_clone_full in H.
    destruct (H W64 4096 5000 ss_mem 0 0 ex_cpu64 _ _ Hok Hc (ex_frame _)) as [c' Hr]; [by vm_compute|].
    assert (E : fst <$> rerun_child W64 4096 5000 ss_mem 0 0 ex_cpu64 = Some 0) by (by vm_compute).
    rewrite Hr in E. vm_compute in E. discriminate.
  - intros H. unfold C141_vfork_full in H.
    assert (H9 : 0 < 9 < wmod W64) by (by vm_compute).
    assert (H4 : 0 ≤ 4242 < wmod W64) by (by vm_compute).
    assert (E77 : load W64 (c_mem ex_cpu64) (c_regs ex_cpu64 RSP) = 77) by (by vm_compute).
    pose proof (H W64 4096 9 4242 ss_mem 0 0 ex_cpu64 _ _ Hok Hc (ex_frame _) H9 H4) as (c' & Hr & _).
    pose proof (C141_vfork_refuted W64 4096 9 4242 ss_mem 0 0 ex_cpu64 _ _ Hok Hc (ex_frame _) H4)
      as [c2 Hr2].
    rewrite E77 in Hr. congruence.
  - intros H. unfold C141_exec_full in H.
    specialize (H lib0 77%N _ X8664 0 (mkSt false ActLibrary [])
      [(4096, lit "openat", [])] (build0 77)).
    assert (E : audit_calls (rules0 77) X8664 0 (mkSt false ActLibrary []) [(4096, lit "openat", [])]
      = [SeenAnswered]) by (by vm_compute).
    rewrite E in H. feed specialize H; [done|by intros X%elem_of_list_singleton|].
    vm_compute in H. discriminate.
Qed.
Print Assumptions C141_refuted.

Example C141_example :
  (** fork: back at 77 with the result 0 and the stack at 1008. *)
  (λ x, (x.1, c_regs x.2 RAX, c_regs x.2 RSP)) <$> rerun_child W64 4096 0 ss_mem 0 0 ex_cpu64
    = Some (77, 0, 1008) ∧
  (** A thread whose stack is at 5000, with 123 at 5088 (i686: at 5016). *)
  fst <$> rerun_child W64 4096 5000 (λ s, store W64 (ss_mem s) 5088 123) 0 0 ex_cpu64 = Some 123 ∧
  fst <$> rerun_child W32 4096 5000 (λ s, store W32 (ss_mem s) 5016 123) 0 0 ex_cpu32 = Some 123 ∧
  (** vfork: the caller goes where its child went. *)
  fst <$> rerun_vfork W64 4096 9 4242 ss_mem 0 0 ex_cpu64 = Some 4242 ∧
  fst <$> rerun_vfork W32 4096 9 4242 ss_mem 0 0 ex_cpu32 = Some 4242 ∧
  (** A program that reads, opens and reads: in the worker, and started by it. *)
  audit_calls (rules0 77) X8664 91 (mkSt false ActLibrary [])
    [(4096, lit "read", []); (4200, lit "openat", []); (91, lit "openat", []); (4300, lit "read", [])]
    = [SeenDone; SeenAnswered; SeenDone; SeenDone] ∧
  audit_calls (rules0 77) X8664 91 (after_execve (mkSt false ActLibrary []))
    [(4096, lit "read", []); (4200, lit "openat", []); (91, lit "openat", []); (4300, lit "read", [])]
    = [SeenDone; SeenKilled].
Proof. split_and!; by vm_compute. Qed.
