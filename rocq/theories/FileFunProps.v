(** C177: functions on files on i686 and on x86_64. *)
From stdpp Require Import prelude gmap.
From Coq Require Import Strings.Byte.
From Verif Require Import Bytes PolicyModel LinuxPolicyModel PostcardModel PostcardSpec FdModel
  ChannelModel BrokerModel BrokerSpec WorkerModel WorkerSpec WorkerProofs WorkerProps
  BrokerLargeModel WorkerLargeModel WorkerLargeProps SeccompModel SeccompProps FileFunModel.
Local Open Scope N_scope.

(* ---------------------------------------------------------------- specification *)

(** The calls that the handler turns into requests for a file. *)
Definition handled_calls : list str := map lit ["access"; "stat"; "open"; "openat"; "chdir"]%string.
(** A function works in a worker: the filter lets its call through to the kernel, or the
    worker asks the broker for the file. *)
Definition works (rs : list SeccompModel.rule) (a : abi) (f : file_fun) (args : list N) : Prop :=
  decision rs (arch_of a) (libc_call a f).1 args = Allow ∨ (libc_call a f).1 ∈ handled_calls.

(** Full statement of C177; false. *)
Definition C177_full : Prop := ∀ l pid rs f args,
  build_rules l pid = Ok rs → (∀ n, lib_known l n = true) → Forall (λ x, x < 2 ^ 32) args →
  works rs Abi64 f args → works rs Abi32 f args.

(** The functions whose call on i686 is not in the list. *)
Definition forgotten : list file_fun := [FStat; FFcntl; FFtruncate; FSendfile].

(* ---------------------------------------------------------------- helpers *)

Lemma listed_allow l pid rs a name args :
  build_rules l pid = Ok rs → lib_known l name = true → name ∈ SYSCALLS_ALLOWED_BY_DEFAULT →
  decision rs a name args = Allow.
Proof.
  intros Hb Hk Hn. apply decision_allow. exists (SeccompModel.mkRule name []).
  split; [|split; [done|intros c Hc; by apply elem_of_nil in Hc]].
  eapply build_all; [done| |done]. apply elem_of_app. left.
  apply elem_of_list_fmap. by exists name.
Qed.
Lemma unlisted_trap l pid rs a name args :
  build_rules l pid = Ok rs → name ∉ SYSCALLS_ALLOWED_BY_DEFAULT →
  name ∉ map lit ["mmap"; "mmap2"; "mprotect"; "kill"; "tgkill"; "ioctl"]%string →
  decision rs a name args = Trap.
Proof.
  intros Hb H1 H2. apply decision_trap. intros Hd.
  by destruct (C44_default_trap_partial _ _ _ _ _ _ Hb Hd).
Qed.
Local Ltac listed := apply (bool_decide_unpack _); by vm_compute.

Lemma small_word a x : x < 2 ^ 32 → word a x = x.
Proof. intros. unfold word. destruct a; apply N.mod_small; lia. Qed.
Lemma low_land x d : x < 2 ^ 32 → d < 2 ^ 64 → N.land x (word X86 d) = N.land x (word X8664 d).
Proof.
  intros Hx Hd. unfold word. rewrite (N.mod_small d (2 ^ 64)) by done.
  apply N.bits_inj. intros b. rewrite !N.land_spec.
  destruct (N.lt_ge_cases b 32) as [Hb|Hb].
  - by rewrite N.mod_pow2_bits_low.
  - destruct (N.eq_dec x 0) as [->|Hne]; [by rewrite N.bits_0|].
    rewrite (N.bits_above_log2 x b); [done|].
    apply N.log2_lt_pow2 in Hx; lia.
Qed.
Lemma denied_word : denied_page_protection_flags < 2 ^ 64.
Proof. by vm_compute. Qed.
Lemma prot_rule l pid rs a name args :
  build_rules l pid = Ok rs → lib_known l name = true →
  name ∈ map lit ["mmap"; "mmap2"; "mprotect"]%string →
  decision rs a name args = Allow ↔
  cond_holds a args (MaskedEqual 2 denied_page_protection_flags 0) = true.
Proof.
  intros Hb Hk Hn.
  assert (SeccompModel.mkRule name [MaskedEqual 2 denied_page_protection_flags 0] ∈ wanted_rules pid) as Hin.
  { apply elem_of_app. right. unfold memory_calls in Hn. simpl in Hn.
    rewrite !elem_of_cons in Hn. destruct Hn as [->|[->|[->|Hn]]]; [set_solver..|].
    by apply elem_of_nil in Hn. }
  split.
  - intros Hd. apply decision_allow in Hd as (r & Hr & Hname & Hc).
    assert (r ∈ wanted_rules pid) as Hw by (by eapply build_subset).
    apply elem_of_app in Hw as [Hw|Hw].
    + exfalso. apply elem_of_list_fmap in Hw as (n & -> & Hn'). cbn in Hname. subst n.
      assert (∀ x, x ∈ map lit ["mmap"; "mmap2"; "mprotect"]%string → x ∉ SYSCALLS_ALLOWED_BY_DEFAULT)
        as Hno; [|by apply (Hno name)].
      apply Forall_forall. listed.
    + apply Hc. rewrite !elem_of_cons in Hw.
      destruct Hw as [->|[->|[->|[->|[->|[->|Hw]]]]]]; try (cbn; apply elem_of_list_singleton; done).
      all: exfalso; try (by apply elem_of_nil in Hw); cbn in Hname; subst name; revert Hn; listed.
  - intros Hc. apply decision_allow. eexists. split; [by eapply build_all|]. split; [done|].
    intros c Hcc. apply elem_of_list_singleton in Hcc. by subst c.
Qed.

(* ---------------------------------------------------------------- C177 *)

(** The other functions work on both targets alike. *)
Theorem C177_partial l pid rs f args :
  build_rules l pid = Ok rs → (∀ n, lib_known l n = true) → Forall (λ x, x < 2 ^ 32) args →
  f ∉ forgotten → works rs Abi64 f args ↔ works rs Abi32 f args.
Proof.
  intros Hb Hk Hargs Hf.
  assert (arg args 2 < 2 ^ 32) as H2.
  { unfold arg. destruct (args !! 2%nat) as [x|] eqn:E; [|done].
    by eapply Forall_lookup_1 in Hargs. }
  assert (cond_holds X86 args (MaskedEqual 2 denied_page_protection_flags 0) =
          cond_holds X8664 args (MaskedEqual 2 denied_page_protection_flags 0)) as Hc.
  { unfold cond_holds. rewrite !(small_word _ (arg args 2)) by done.
    by rewrite (low_land _ _ H2 denied_word). }
  destruct f; try (exfalso; apply Hf; unfold forgotten; rewrite !elem_of_cons; by auto 10); unfold works; cbn [libc_call fst arch_of].
  1-3: split; intros _; right; listed.
  all: try (split; intros _; left; (apply (listed_allow l pid); [exact Hb|apply Hk|listed])).
  - rewrite !(prot_rule l pid) by (done || apply Hk || listed). rewrite Hc.
    split; (intros [H|H]; [by left|]); exfalso; revert H; listed.
  - rewrite !(prot_rule l pid) by (done || apply Hk || listed). by rewrite Hc.
Qed.
Print Assumptions C177_partial.

(** stat, fcntl, ftruncate and sendfile work on x86_64; on i686 their call is trapped and
    answered with ENOSYS, whatever the rules and whatever the arguments. *)
Theorem C177_forgotten_refuted l pid rs f args env calls r w :
  build_rules l pid = Ok rs → (∀ n, lib_known l n = true) → f ∈ forgotten →
  ready env false calls w → be_abi (we_broker env) = Abi32 → regs_ok r →
  r_nr r = (libc_call Abi32 f).2 →
  works rs Abi64 f args ∧
  decision rs X86 (libc_call Abi32 f).1 args = Trap ∧
  ∃ w', trap32 env r w = (HRet (-38)%Z, w') ∧
    effect w w' [ReqSyscall (r_nr r) (r_args r) (r_ip r)] [] ∧ w_tab w' = w_tab w.
Proof.
  intros Hb Hk Hf (K & Hs & Hroom) H32 (Hnr & Hargs & Hip) Hr.
  split; [|split].
  - unfold forgotten in Hf. rewrite !elem_of_cons in Hf.
    destruct Hf as [->|[->|[->|[->|Hf]]]]; [right; listed| | | |by apply elem_of_nil in Hf];
      left; (apply (listed_allow l pid); [exact Hb|apply Hk|listed]).
  - unfold forgotten in Hf. rewrite !elem_of_cons in Hf.
    destruct Hf as [->|[->|[->|[->|Hf]]]]; [..|by apply elem_of_nil in Hf];
      (apply (unlisted_trap l pid); [exact Hb|listed|listed]).
  - assert (trap32 env r w = handle_syscall32 env (r_nr r) (r_args r) (r_ip r) w) as ->.
    { unfold trap32, sigsys_handler32. rewrite H32. unfold forgotten in Hf. rewrite !elem_of_cons in Hf.
      destruct Hf as [->|[->|[->|[->|Hf]]]]; [..|by apply elem_of_nil in Hf]; rewrite Hr; done. }
    destruct (handle_syscall_spec env false calls (r_nr r) (r_args r) (r_ip r) w)
      as (w' & E & He & _ & Ht); [done..|].
    exists w'. split; [|done]. rewrite <-E. unfold handle_syscall32, handle_syscall.
    by rewrite send_recv_same.
Qed.
Print Assumptions C177_forgotten_refuted.

(** In audit mode they are run in the end. *)
Theorem C177_audit f env calls r w :
  f ∈ forgotten → ready env true calls w → be_abi (we_broker env) = Abi32 → regs_ok r →
  r_nr r = (libc_call Abi32 f).2 →
  (trap32 env r w).1 = HRet (we_rerun env (r_nr r) (r_args r)).
Proof.
  intros Hf (K & Hs & Hroom) H32 (Hnr & Hargs & Hip) Hr.
  assert (trap32 env r w = handle_syscall32 env (r_nr r) (r_args r) (r_ip r) w) as ->.
  { unfold trap32, sigsys_handler32. rewrite H32. unfold forgotten in Hf. rewrite !elem_of_cons in Hf.
    destruct Hf as [->|[->|[->|[->|Hf]]]]; [..|by apply elem_of_nil in Hf]; rewrite Hr; done. }
  destruct (handle_syscall_spec env true calls (r_nr r) (r_args r) (r_ip r) w)
    as (w' & E & _); [done..|].
  unfold handle_syscall32. rewrite send_recv_same by done.
  unfold handle_syscall in E. by rewrite E.
Qed.
Print Assumptions C177_audit.

Theorem C177_refuted : ¬ C177_full.
Proof.
  intros H. destruct (H lib0 77 _ FFcntl [] (build0 77) (λ _, eq_refl) (Forall_nil_2 _)) as [Hd|Hd].
  - left. eapply listed_allow; [apply build0|done|listed].
  - vm_compute in Hd. discriminate.
  - revert Hd. listed.
Qed.
Print Assumptions C177_refuted.

(* stat("/f") on i686, a file the rules allow: ENOSYS, and fcntl(3, F_DUPFD_CLOEXEC) too; open works. *)
Example C177_example :
  let env := exw_env false true (lit "/f") in
  (trap32 env (call 195 4096 0) exw_world).1 = HRet (-38)%Z ∧
  (trap32 env (call 221 3 0) exw_world).1 = HRet (-38)%Z ∧
  (trap32 env (call 5 4096 0x8000) exw_world).1 = HRet 3%Z ∧
  ready env false exw_calls exw_world ∧ regs_ok (call 195 4096 0) ∧
  works (rules0 77) Abi64 FFcntl [3; 1030; 0] ∧ ¬ works (rules0 77) Abi32 FFcntl [3; 1030; 0] ∧
  works (rules0 77) Abi32 FMmap [0; 4096; 3; 34; 0; 0] ∧
  ¬ works (rules0 77) Abi32 FMmap [0; 4096; 7; 34; 0; 0].
Proof.
  do 3 (split; [by vm_compute|]).
  split; [apply exw_ready; listed|].
  split.
  { split; [unfold is_i64; simpl; lia|]. split; [|unfold is_i64; simpl; lia].
    repeat (constructor; [unfold is_i64; simpl; lia|]). constructor. }
  split; [left; by vm_compute|].
  split. { intros [H|H]; [by vm_compute in H|]. revert H. listed. }
  split; [left; by vm_compute|].
  intros [H|H]; [by vm_compute in H|]. revert H. listed.
Qed.
