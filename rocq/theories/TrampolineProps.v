(** Properties C40 and C41: the audit mode trampolines. *)
From stdpp Require Import prelude.
From Coq Require Import ZifyNat ZifyBool.
From Verif Require Import TrampolineModel TrampolineProofs.
Local Open Scope Z_scope.

(** C calling convention: where the callee finds [nr] and the six arguments when it
    starts. On x86_64 six values are in registers and the seventh on the stack above
    the return address; on i686 all are on the stack. *)
Definition called_with (w : width) (c : cpu) (nr : Z) (args : list Z) : Prop :=
  match w with
  | W64 => ∃ a0 a1 a2 a3 a4 a5, args = [a0; a1; a2; a3; a4; a5] ∧
      c_regs c RDI = nr ∧ c_regs c RSI = a0 ∧ c_regs c RDX = a1 ∧ c_regs c RCX = a2 ∧
      c_regs c R8 = a3 ∧ c_regs c R9 = a4 ∧ load W64 (c_mem c) (c_regs c RSP + 8) = a5
  | W32 => length args = 6%nat ∧
      ∀ i v, (nr :: args) !! i = Some v →
        load W32 (c_mem c) (c_regs c RSP + 4 * (Z.of_nat i + 1)) = v
  end.
(** Registers the callee must give back unchanged. *)
Definition callee_saved (w : width) : list reg :=
  match w with W64 => [RBX; RBP; R12; R13; R14; R15] | W32 => [RBX; RSI; RDI; RBP] end.
(** Registers hold machine words and memory holds bytes. *)
Definition cpu_ok (w : width) (c : cpu) : Prop :=
  (∀ r, 0 ≤ c_regs c r < wmod w) ∧ ∀ x, 0 ≤ c_mem c x < 256.
(** Bytes the callee may write: the 88 bytes below the stack pointer. *)
Definition below_stack (w : width) (sp x : Z) : Prop :=
  ∃ i, -88 ≤ i < 0 ∧ x = (sp + i) mod wmod w.
(** Bytes of the callee's frame, return address included. *)
Definition frame (w : width) (sp x : Z) : Prop :=
  ∃ i, -88 ≤ i < 8 ∧ x = (sp + i) mod wmod w.

Lemma reg_read w c r : cpu_ok w c → c_regs c r mod wmod w = c_regs c r.
Proof. intros [H _]. apply Z.mod_small, H. Qed.

Local Arguments run : simpl never.
Local Arguments load : simpl never.
Local Arguments store : simpl never.
Local Arguments wmod : simpl never.
Local Arguments Z.modulo : simpl never.
Local Arguments Z.add : simpl never.
Local Arguments Z.sub : simpl never.

(** Where the n-th instruction ends, relative to the start. *)
Definition code_size (w : width) (is : list instr) : Z :=
  Z.of_nat (length (mjoin (encode w <$> is))).

Lemma run_step w k pc i is c :
  i ≠ Ret →
  run w k pc (i :: is) c =
  run w k (pc + Z.of_nat (length (encode w i))) is
    (exec w k (pc + Z.of_nat (length (encode w i))) i c).
Proof. by destruct i. Qed.

Lemma wrap w x y : (x mod wmod w + y) mod wmod w = (x + y) mod wmod w.
Proof. apply Zplus_mod_idemp_l. Qed.
Lemma wrap_sub w x y : (x mod wmod w - y) mod wmod w = (x - y) mod wmod w.
Proof. apply Zminus_mod_idemp_l. Qed.
Lemma wrap0 w x : (x mod wmod w) mod wmod w = x mod wmod w.
Proof. apply Zmod_mod. Qed.
(* Equal addresses modulo the word size. *)
Ltac addr := rewrite ?wrap_sub, ?wrap, ?wrap_sub, ?wrap, ?wrap0; f_equal; lia.
(* One instruction. *)
Ltac step :=
  rewrite run_step by done;
  match goal with |- context [run ?w ?k (?pc + ?l)] =>
    let l' := eval vm_compute in l in change (pc + l) with (pc + l')
  end;
  cbn; unfold set_reg, set_mem; cbn.

(** What the caller of the trampoline gets. *)
Definition replays (w : width) (k : kernel) (start : Z) (c : cpu) (nr : Z) (args : list Z) : Prop :=
  ∃ seen ret c',
    run w k start (rerun_syscall w) c = Some (ret, c') ∧
    (* one system call, with this number and these arguments *)
    c_seen c' = c_seen c ++ [seen] ∧ ss_nr seen = nr ∧ ss_args seen = args ∧
    (* it sees the caller's memory *)
    (∀ x, ¬ below_stack w (c_regs c RSP) x → ss_mem seen x = c_mem c x) ∧
    (* if the call leaves the stack frame alone *)
    let '(res, m, _, _) := k seen in
    (∀ x, frame w (c_regs c RSP) x → m x = ss_mem seen x) →
    c_regs c' RAX = res mod wmod w ∧
    ret = load w (c_mem c) (c_regs c RSP) ∧
    c_regs c' RSP = (c_regs c RSP + Z.of_nat (wbytes w)) mod wmod w ∧
    (∀ r, r ∈ callee_saved w → c_regs c' r = c_regs c r) ∧
    (∀ x, ¬ below_stack w (c_regs c RSP) x → c_mem c' x = m x).

Definition outside (w : width) (sp : Z) (m' m : memory) : Prop :=
  ∀ x, ¬ below_stack w sp x → m' x = m x.
Lemma outside_store w sp m m' a i v :
  outside w sp m' m → a mod wmod w = (sp + i) mod wmod w →
  -88 ≤ i → i + Z.of_nat (wbytes w) ≤ 0 → outside w sp (store w m' a v) m.
Proof.
  intros H Ha H1 H2 x Hx. rewrite (store_other w m' a v sp i); [by apply H|done|].
  intros j Hj ->. apply Hx. exists j. split; [lia|done].
Qed.
Lemma outside_load w sp m m' a i :
  outside w sp m' m → a mod wmod w = (sp + i) mod wmod w → 0 ≤ i < 100 →
  load w m' a = load w m a.
Proof.
  intros H Ha Hi. apply load_same. intros j Hj. apply H. intros (z & Hz & E).
  rewrite Zplus_mod, Ha, <-Zplus_mod, <-Z.add_assoc in E. pose proof (wmod_big w).
  apply mod_near in E; destruct w; simpl in *; lia.
Qed.

Lemma run64 (k : kernel) (start : Z) c nr args :
  cpu_ok W64 c → called_with W64 c nr args → replays W64 k start c nr args.
Proof.
  intros Hok (a0 & a1 & a2 & a3 & a4 & a5 & -> & Hnr & H0 & H1 & H2 & H3 & H4 & H5).
  pose proof (reg_read W64 c RSP Hok) as Ksp. pose proof (reg_read W64 c RCX Hok) as Krcx.
  pose proof (reg_read W64 c RDX Hok) as Krdx. pose proof (reg_read W64 c RSI Hok) as Krsi.
  pose proof (reg_read W64 c R9 Hok) as Kr9.
  destruct c as [[rax rcx rdx rbx rsp rbp rsi rdi r8 r9 r10 r11 r12 r13 r14 r15] m sn].
  unfold replays, rerun_syscall, rerun_syscall64. cbn in *. subst.
  set (a := (rsp - 88) mod wmod W64) in *.
  assert (∀ o, (a + o) mod wmod W64 = (rsp + (o - 88)) mod wmod W64) as Ha.
  { intros o. unfold a. addr. }
  assert (∀ m' v o, outside W64 rsp m' m → 0 ≤ o ≤ 80 →
    outside W64 rsp (store W64 m' (a + o) v) m) as Hout.
  { intros m' v o H Ho. eapply outside_store; [done|apply Ha|lia|cbn; lia]. }
  step. fold a. step. step. step. rewrite load_store_same, Kr9.
  step. step. step. rewrite load_store_same, Krcx.
  step. step. step. rewrite load_store_same, Krdx.
  step. step. step. rewrite load_store_same, Krsi.
  match goal with |- context [mkCpu _ ?mm _] => assert (outside W64 rsp mm m) as O1 end.
  { repeat (apply Hout; [|lia]). done. }
  step. rewrite (outside_load _ _ _ _ (a + 96) 8 O1); [|rewrite Ha; f_equal; lia|lia].
  rewrite (load_mod W64 m (a + 96) (rsp + 8)) by (rewrite Ha; f_equal; lia).
  step. step. step. step. step. step.
  match goal with |- context [mkCpu _ ?mm _] => set (mc := mm) end.
  assert (outside W64 rsp mc m) as O2.
  { unfold mc. repeat (apply Hout; [|lia]). done. }
  clearbody mc. clear O1.
  step.
  match goal with |- context [k ?s] => set (seen := s) end.
  destruct (k seen) as [[[res m'] rcx'] r11'] eqn:Ek.
  cbn. unfold set_reg, set_mem. cbn.
  step. step. rewrite load_store_same, wrap0. step.
  exists seen. do 2 eexists. split; [reflexivity|]. rewrite Ek. cbn.
  split; [done|]. split; [done|]. split; [done|]. split; [done|].
  intros Hfr. split; [done|].
  assert ((a + 88) mod wmod W64 = rsp) as Ersp.
  { rewrite Ha. replace (rsp + (88 - 88)) with rsp by lia. done. }
  assert (load W64 m' rsp = load W64 m rsp) as Eret.
  { rewrite <-(outside_load _ _ _ _ rsp 0 O2); [|f_equal; lia|lia].
    apply load_same. intros i Hi. apply Hfr. exists i. cbn in Hi. split; [lia|done]. }
  split.
  { rewrite Ersp. rewrite (load_store_other W64 m' (a + 32) rsp _ rsp (-56) 0); [done| |f_equal; lia| |].
    - rewrite Ha; f_equal; lia.
    - clear. cbn. lia.
    - clear. lia. }
  rewrite Ersp. split; [done|]. split.
  - intros r Hr. repeat (apply elem_of_cons in Hr as [->|Hr]; [done|]). by apply elem_of_nil in Hr.
  - change (outside W64 rsp (store W64 m' (a + 32) (res mod wmod W64)) m').
    apply (outside_store _ _ _ _ _ (-56)); [by intros ? ?|rewrite Ha; f_equal; clear; lia|clear; lia|clear; cbn; lia].
Qed.

Lemma run32 (k : kernel) (start : Z) c nr args :
  cpu_ok W32 c → called_with W32 c nr args → replays W32 k start c nr args.
Proof.
  intros Hok [Hlen Hargs].
  destruct args as [|a0 [|a1 [|a2 [|a3 [|a4 [|a5 [|? ?]]]]]]]; try done. clear Hlen.
  pose proof (Hargs 0%nat _ eq_refl) as Anr. pose proof (Hargs 1%nat _ eq_refl) as A0.
  pose proof (Hargs 2%nat _ eq_refl) as A1. pose proof (Hargs 3%nat _ eq_refl) as A2.
  pose proof (Hargs 4%nat _ eq_refl) as A3. pose proof (Hargs 5%nat _ eq_refl) as A4.
  pose proof (Hargs 6%nat _ eq_refl) as A5. clear Hargs.
  pose proof (reg_read W32 c RSP Hok) as Ksp. pose proof (reg_read W32 c RBX Hok) as Krbx.
  pose proof (reg_read W32 c RSI Hok) as Krsi. pose proof (reg_read W32 c RDI Hok) as Krdi.
  pose proof (reg_read W32 c RBP Hok) as Krbp. clear Hok.
  destruct c as [[eax ecx edx ebx esp ebp esi edi r8 r9 r10 r11 r12 r13 r14 r15] m sn].
  unfold replays, rerun_syscall, rerun_syscall32. cbn in *.
  change (Z.of_nat 4) with 4 in *.
  step. change (Z.of_nat 4) with 4.
  step. step. change (Z.of_nat 4) with 4. rewrite wrap_sub.
  step. change (Z.of_nat 4) with 4. rewrite wrap_sub.
  step. change (Z.of_nat 4) with 4. rewrite wrap_sub.
  match goal with |- context [mkCpu _ ?mm _] => set (mc := mm) end.
  assert (outside W32 esp mc m) as O.
  { unfold mc. clear.
    apply (outside_store _ _ _ _ _ (-16)); [|addr|lia|cbn; lia].
    apply (outside_store _ _ _ _ _ (-12)); [|addr|lia|cbn; lia].
    apply (outside_store _ _ _ _ _ (-8)); [|addr|lia|cbn; lia].
    apply (outside_store _ _ _ _ _ (-4)); [|addr|lia|cbn; lia]. done. }
  assert (∀ i o v, 0 ≤ i ≤ 6 → o = 8 + 4 * i → load W32 m (esp + 4 * (i + 1)) = v →
    load W32 mc ((esp - 4) mod wmod W32 + o) = v) as Harg.
  { intros i o v Hi -> <-. rewrite (outside_load _ _ _ _ _ (4 * (i + 1)) O).
    - apply load_mod. clear. addr.
    - clear. addr.
    - clear -Hi. lia. }
  assert (load W32 mc ((esp - 4 - 4 - 4 - 4) mod wmod W32) = edi ∧
    load W32 mc ((esp - 4 - 4 - 4 - 4 + 4) mod wmod W32) = esi ∧
    load W32 mc ((esp - 4 - 4 - 4 - 4 + 4 + 4) mod wmod W32) = ebx ∧
    load W32 mc ((esp - 4 - 4 - 4 - 4 + 4 + 4 + 4) mod wmod W32) = ebp) as (L1 & L2 & L3 & L4).
  { unfold mc. clear -Krbx Krsi Krdi Krbp.
    assert (∀ (m : memory) (a b v i j : Z), a mod wmod W32 = (esp + i) mod wmod W32 →
      b mod wmod W32 = (esp + j) mod wmod W32 → -16 ≤ i < j → 4 ≤ j - i → j < 0 →
      load W32 (store W32 m a v) b = load W32 m b) as Hs.
    { clear. intros m a b v i j Ha Hb H1 H2 H3.
      apply (load_store_other _ _ _ _ _ esp i j); [done|done| |]; cbn; lia. }
    split_and!.
    - rewrite load_store_same. done.
    - rewrite (Hs _ _ _ _ (-16) (-12)); [|clear; addr|clear; addr|lia..].
      rewrite load_store_same'; [done|clear; addr].
    - rewrite (Hs _ _ _ _ (-16) (-8)); [|clear; addr|clear; addr|lia..].
      rewrite (Hs _ _ _ _ (-12) (-8)); [|clear; addr|clear; addr|lia..].
      rewrite load_store_same'; [done|clear; addr].
    - rewrite (Hs _ _ _ _ (-16) (-4)); [|clear; addr|clear; addr|lia..].
      rewrite (Hs _ _ _ _ (-12) (-4)); [|clear; addr|clear; addr|lia..].
      rewrite (Hs _ _ _ _ (-8) (-4)); [|clear; addr|clear; addr|lia..].
      rewrite load_store_same'; [done|clear; addr]. }
  clearbody mc. clear Krbx Krsi Krdi Krbp.
  step. rewrite (Harg 0 8 _ ltac:(lia) eq_refl Anr).
  step. rewrite (Harg 1 12 _ ltac:(lia) eq_refl A0).
  step. rewrite (Harg 2 16 _ ltac:(lia) eq_refl A1).
  step. rewrite (Harg 3 20 _ ltac:(lia) eq_refl A2).
  step. rewrite (Harg 4 24 _ ltac:(lia) eq_refl A3).
  step. rewrite (Harg 5 28 _ ltac:(lia) eq_refl A4).
  step. rewrite (Harg 6 32 _ ltac:(lia) eq_refl A5).
  clear Harg.
  step.
  match goal with |- context [k ?s] => set (seen := s) end.
  destruct (k seen) as [[[res m'] rcx'] r11'] eqn:Ek.
  cbn. unfold set_reg, set_mem. cbn.
  step. change (Z.of_nat 4) with 4. rewrite wrap.
  step. change (Z.of_nat 4) with 4. rewrite wrap.
  step. change (Z.of_nat 4) with 4. rewrite wrap.
  step. change (Z.of_nat 4) with 4. rewrite wrap. unfold run.
  exists seen. do 2 eexists. split; [reflexivity|]. rewrite Ek. cbn.
  split; [done|]. split; [done|]. split; [done|]. split; [done|].
  intros Hfr.
  assert (∀ b i, b mod wmod W32 = (esp + i) mod wmod W32 → -16 ≤ i ≤ 0 → load W32 m' b = load W32 mc b) as Hk.
  { intros b i Hb Hi. apply load_same. intros j Hj. apply Hfr. exists (i + j). cbn in Hj.
    split; [clear -Hi Hj; lia|]. clear -Hb.
    by rewrite Zplus_mod, Hb, <-Zplus_mod, Z.add_assoc. }
  assert ((esp - 4 - 4 - 4 - 4 + 4 + 4 + 4 + 4) mod wmod W32 = esp) as Eesp.
  { rewrite <-Ksp. f_equal. clear -Ksp. lia. }
  split; [done|]. split.
  { rewrite Eesp. rewrite (Hk esp 0); [|f_equal; clear; lia|clear; lia].
    apply (outside_load _ _ _ _ esp 0 O); [f_equal; clear; lia|clear; lia]. }
  split; [rewrite Eesp; done|]. split.
  - intros r Hr. cbn in Hr.
    rewrite <-(Hk _ (-16)) in L1; [|clear; addr|clear; lia].
    rewrite <-(Hk _ (-12)) in L2; [|clear; addr|clear; lia].
    rewrite <-(Hk _ (-8)) in L3; [|clear; addr|clear; lia].
    rewrite <-(Hk _ (-4)) in L4; [|clear; addr|clear; lia].
    repeat (apply elem_of_cons in Hr as [->|Hr]; [unfold c_regs; cbn; done|]).
    by apply elem_of_nil in Hr.
  - done.
Qed.

(* ---------------------------------------------------------------- C40 *)

(** The trampoline makes exactly one system call, the one it was asked for; if that call
    leaves the trampoline's stack frame alone, the trampoline returns its result to its
    caller with stack pointer and callee-saved registers restored. *)
Theorem C40_replays (w : width) (k : kernel) (start : Z) (c : cpu) (nr : Z) (args : list Z) :
  cpu_ok w c → called_with w c nr args → replays w k start c nr args.
Proof. destruct w; [apply run64|apply run32]. Qed.
Print Assumptions C40_replays.

(* ---------------------------------------------------------------- C41 *)

Lemma exec_seen w k next i c : i ≠ SysCall → c_seen (exec w k next i c) = c_seen c.
Proof. by destruct i. Qed.
Lemma run_seen w k is pc c ret c' :
  SysCall ∉ is → run w k pc is c = Some (ret, c') → c_seen c' = c_seen c.
Proof.
  revert pc c. induction is as [|i is IH]; intros pc c Hin H; [done|].
  destruct (decide (i = Ret)) as [->|Hi]; [by injection H as <- <-|].
  rewrite run_step in H by done. apply IH in H; [|set_solver]. rewrite H.
  apply exec_seen. set_solver.
Qed.
Lemma code_size_app w a b : code_size w (a ++ b) = code_size w a + code_size w b.
Proof.
  unfold code_size. induction a as [|i a IH]; [done|].
  rewrite <-app_comm_cons, !fmap_cons. cbn [mjoin list_join].
  rewrite !app_length, !Nat2Z.inj_add, <-Z.add_assoc. by f_equal.
Qed.
Lemma run_prefix w k pre rest pc c :
  SysCall ∉ pre → Ret ∉ pre →
  ∃ c1, run w k pc (pre ++ rest) c = run w k (pc + code_size w pre) rest c1 ∧
    c_seen c1 = c_seen c.
Proof.
  revert pc c. induction pre as [|i pre IH]; intros pc c H1 H2.
  - exists c. unfold code_size. cbn. by rewrite Z.add_0_r.
  - cbn [app]. rewrite run_step by set_solver.
    destruct (IH (pc + Z.of_nat (length (encode w i)))
      (exec w k (pc + Z.of_nat (length (encode w i))) i c)) as (c1 & -> & Hs);
      [set_solver..|].
    exists c1. split; [|rewrite Hs; apply exec_seen; set_solver].
    f_equal. unfold code_size. rewrite fmap_cons. cbn [mjoin list_join].
    by rewrite app_length, Nat2Z.inj_add, Z.add_assoc.
Qed.

(** The instructions of the trampoline up to its system call, and the rest. *)
Definition before_syscall (w : width) : list instr :=
  match w with W64 => take 20 rerun_syscall64 | W32 => take 12 rerun_syscall32 end.
Definition after_syscall (w : width) : list instr :=
  match w with W64 => drop 21 rerun_syscall64 | W32 => drop 13 rerun_syscall32 end.

(** Whatever the registers and memory, the one system call of the trampoline has the
    instruction pointer that the worker puts in the filter; it is the address after the
    encoded bytes of the instructions up to and including the system call. *)
Theorem C41_call_site (w : width) (k : kernel) (start : Z) (c : cpu) (ret : Z) (c' : cpu) :
  (rerun_syscall w = before_syscall w ++ [SysCall] ++ after_syscall w ∧
   SysCall ∉ before_syscall w ++ after_syscall w ∧
   actual_call_site w start =
     start + Z.of_nat (length (mjoin (encode w <$> before_syscall w ++ [SysCall])))) ∧
  (run w k start (rerun_syscall w) c = Some (ret, c') →
   ∃ seen, c_seen c' = c_seen c ++ [seen] ∧
     ss_ip seen = actual_call_site w start mod wmod w).
Proof.
  assert (rerun_syscall w = before_syscall w ++ [SysCall] ++ after_syscall w) as E
    by (by destruct w).
  assert (SysCall ∉ before_syscall w ++ after_syscall w) as Hno.
  { apply (bool_decide_unpack _). by destruct w; vm_compute. }
  assert (Ret ∉ before_syscall w) as Hret.
  { apply (bool_decide_unpack _). by destruct w; vm_compute. }
  assert (actual_call_site w start =
     start + Z.of_nat (length (mjoin (encode w <$> before_syscall w ++ [SysCall])))) as Hs.
  { unfold actual_call_site. f_equal. by destruct w; vm_compute. }
  split; [done|]. intros H. rewrite E in H.
  destruct (run_prefix w k (before_syscall w) ([SysCall] ++ after_syscall w) start c)
    as (c1 & E1 & Hc1); [set_solver..|].
  rewrite E1 in H. cbn [app] in H. rewrite run_step in H by done.
  apply run_seen in H; [|set_solver].
  rewrite H, <-Hc1. cbn -[encode].
  destruct (k _) as [[[res m'] rcx'] r11']. eexists. split; [by destruct w|].
  cbn. f_equal. rewrite Hs.
  fold (code_size w (before_syscall w ++ [SysCall])).
  rewrite code_size_app, Z.add_assoc. by destruct w.
Qed.
Print Assumptions C41_call_site.

(* ---------------------------------------------------------------- examples *)

(** A stack at 1000 with return address 77 and the seventh argument above it, and a
    kernel that answers the sum of the arguments and clears nothing. *)
Definition ex_kernel : kernel := λ s, (ss_nr s + foldr Z.add 0 (ss_args s), ss_mem s, 0, 0).
Definition ex_cpu64 : cpu :=
  mkCpu (mkRegs 5 30 20 8 1000 9 10 1 40 50 6 7 12 13 14 15)
    (store W64 (store W64 (λ _, 0) 1000 77) 1008 60) [].
Definition ex_cpu32 : cpu :=
  mkCpu (mkRegs 5 6 7 8 1000 9 10 11 0 0 0 0 0 0 0 0)
    (foldl (λ m '(a, v), store W32 m a v) (λ _, 0)
       [(1000, 77); (1004, 1); (1008, 10); (1012, 20); (1016, 30); (1020, 40); (1024, 50);
        (1028, 60)]) [].
Definition ex_out (w : width) (c : cpu) :=
  match run w ex_kernel 4096 (rerun_syscall w) c with
  | Some (ret, c') =>
      Some (ret, c_regs c' RAX, c_regs c' RSP, c_regs c' <$> callee_saved w,
            (λ s, (ss_nr s, ss_args s, ss_ip s)) <$> c_seen c')
  | None => None
  end.
Example C40_example :
  called_with W64 ex_cpu64 1 [10; 20; 30; 40; 50; 60] ∧
  ex_out W64 ex_cpu64 =
    Some (77, 211, 1008, [8; 9; 12; 13; 14; 15], [(1, [10; 20; 30; 40; 50; 60], 4187)]) ∧
  ex_out W32 ex_cpu32 =
    Some (77, 211, 1004, [8; 10; 11; 9], [(1, [10; 20; 30; 40; 50; 60], 4125)]).
Proof.
  split; [|by vm_compute]. exists 10, 20, 30, 40, 50, 60. by vm_compute.
Qed.
(** The encodings: [sub rsp,0x58; mov [rsp],r9; mov r10,r8; mov r8,[rsp]; ...]. *)
Example C41_example :
  mjoin (encode W64 <$> take 5 rerun_syscall64) =
    [72; 131; 236; 88; 76; 137; 12; 36; 77; 137; 194; 76; 139; 4; 36; 72; 137; 76; 36; 8] ∧
  mjoin (encode W32 <$> take 6 rerun_syscall32) = [85; 137; 229; 83; 86; 87; 139; 69; 8] ∧
  actual_call_site W64 4096 = 4187.
Proof. by vm_compute. Qed.
