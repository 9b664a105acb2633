(** C143: a trapped call is treated as the call that was made. *)
From stdpp Require Import prelude gmap.
From Coq Require Import Strings.Byte ZifyBool.
From Verif Require Import Bytes PolicyModel LinuxPolicyModel LinuxPolicySpec PostcardModel PostcardSpec FdModel
  ChannelModel BrokerModel WorkerModel WorkerSpec WorkerProofs WorkerProps CompatModel.
From Verif Require SeccompModel.
Local Open Scope Z_scope.

(** The full statement, for an x86_64 worker. In audit mode a call that is not one of the five
    with paths gives what the kernel answers to it; outside of audit mode an open asks the broker
    for its path. *)
Definition names_path (a : SeccompModel.arch) (nr : Z) : Prop :=
  call_name a nr ∈ (λ s, Some (lit s)) <$> ["open"; "openat"; "access"; "stat"; "chdir"]%string.
Definition C143_full : Prop := ∀ env audit calls g f w answer,
  be_abi (we_broker env) = Abi64 → ready env audit calls w → readable env →
  regs_ok (handler_view f) → (∀ nr args, we_rerun env nr args = rerun_by answer nr args) →
  let '(a, nr, args) := made g f in
  (audit = true → ¬ names_path a nr →
     ∃ w', trap env (handler_view f) w = (HRet (answer a nr args), w')) ∧
  (∀ path, call_name a nr = Some (lit "open") → we_mem env (default 0 (args !! 0%nat)) = Some path →
     is_utf8 path → starts_with_byte slash path = true →
     ∃ v w', trap env (handler_view f) w = (HRet v, w') ∧
       w_sent w' = w_sent w ++ [ReqOpenFile path (as_i32 (default 0 (args !! 1%nat)))]).

(** The numbers the handler looks for. *)
Definition looked_for (nr : Z) : Prop := nr ∈ [2; 4; 21; 80; 257].
Lemma trap_other env r w :
  be_abi (we_broker env) = Abi64 → ¬ looked_for (r_nr r) →
  trap env r w = handle_syscall env (r_nr r) (r_args r) (r_ip r) w.
Proof.
  intros Habi Hn. unfold looked_for in Hn. rewrite !not_elem_of_cons in Hn.
  unfold trap, sigsys_handler. rewrite Habi. cbn [nos nr_access nr_stat nr_open nr_openat nr_chdir].
  destruct Hn as (H1 & H2 & H3 & H4 & H5 & _).
  rewrite (proj2 (Z.eqb_neq (r_nr r) 21) H3), (proj2 (Z.eqb_neq (r_nr r) 4) H2),
    (proj2 (Z.eqb_neq (r_nr r) 2) H1), (proj2 (Z.eqb_neq (r_nr r) 257) H5),
    (proj2 (Z.eqb_neq (r_nr r) 80) H4). done.
Qed.

Lemma open_number nr : call_name SeccompModel.X8664 nr = Some (lit "open") → nr = 2.
Proof.
  unfold call_name. cbn [find fst].
  repeat match goal with
  | |- context [?k =? nr] =>
      destruct (Z.eqb_spec k nr) as [<-|_]; [intros H; first [done|by vm_compute in H]|]
  end. done.
Qed.

(** The kernel's answers to the call that the handler re-runs. *)
Lemma trap_raw env audit calls f w answer :
  be_abi (we_broker env) = Abi64 → ready env audit calls w → regs_ok (handler_view f) →
  (∀ nr args, we_rerun env nr args = rerun_by answer nr args) → ¬ looked_for (f_ax f) →
  ∃ w', trap env (handler_view f) w =
      (HRet (if audit then rerun_by answer (f_ax f) (r_args (handler_view f)) else -38), w') ∧
    w_sent w' = w_sent w ++ [ReqSyscall (f_ax f) (r_args (handler_view f)) (f_ip f)].
Proof.
  intros Habi (K & Hs & _) (Hnr & Hargs & Hip) Hk Hn.
  rewrite trap_other by done.
  destruct (handle_syscall_spec env audit calls (r_nr (handler_view f)) (r_args (handler_view f))
    (r_ip (handler_view f)) w) as (w' & E & (Hsent & _) & _); [done..|].
  exists w'. rewrite E, Hk. done.
Qed.

(** A call made by the syscall instruction with a number of x86_64 is treated as itself. *)
Theorem C143_native_partial env audit calls f w answer :
  be_abi (we_broker env) = Abi64 → ready env audit calls w → readable env →
  regs_ok (handler_view f) → (∀ nr args, we_rerun env nr args = rerun_by answer nr args) →
  Z.testbit (f_ax f) 30 = false →
  ∃ nr args, made GSyscall f = (SeccompModel.X8664, nr, args) ∧
  (audit = true → ¬ names_path SeccompModel.X8664 nr →
     ∃ w', trap env (handler_view f) w = (HRet (answer SeccompModel.X8664 nr args), w')) ∧
  (∀ path, call_name SeccompModel.X8664 nr = Some (lit "open") →
     we_mem env (default 0 (args !! 0%nat)) = Some path →
     is_utf8 path → starts_with_byte slash path = true →
     ∃ v w', trap env (handler_view f) w = (HRet v, w') ∧
       w_sent w' = w_sent w ++ [ReqOpenFile path (as_i32 (default 0 (args !! 1%nat)))]).
Proof.
  intros Habi Hr Hread Hok Hk Hb. eexists _, _. unfold made. rewrite Hb. split; [done|]. split.
  - intros -> Hn.
    destruct (trap_raw env true calls f w answer) as (w' & E & _); [done..| |].
    { intros Hl. apply Hn. unfold looked_for in Hl. unfold names_path.
      rewrite !elem_of_cons in Hl.
      destruct Hl as [-> | [-> | [-> | [-> | [-> | Hl]]]]]; [..|by apply elem_of_nil in Hl];
        apply (bool_decide_unpack _); vm_compute; exact I. }
    exists w'. rewrite E. unfold rerun_by. rewrite Hb. done.
  - intros path Hname Hmem Hutf Habs.
    assert (f_ax f = 2) as Hnr.
    { by apply open_number. }
    destruct Hread as (Hm & Hre & Hc).
    destruct (C37_bytes env audit calls (handler_view f) path (as_i32 (f_si f)) (as_i32 (f_dx f)) w)
      as (v & w' & req & E & Hsent & Hreq); try done.
    + left. rewrite Habi. done.
    + by eapply Hre.
    + exists v, w'. split; [done|]. rewrite Hsent. apply Hreq in Hutf as ->. done.
Qed.
Print Assumptions C143_native_partial.

(** In audit mode a call made by int 0x80 is re-run as another call: the one of x86_64 with the
    same number, with arguments from other registers. Outside of audit mode it is refused. *)
Theorem C143_int80_refuted env audit calls f w answer :
  be_abi (we_broker env) = Abi64 → ready env audit calls w → regs_ok (handler_view f) →
  (∀ nr args, we_rerun env nr args = rerun_by answer nr args) →
  0 ≤ f_ax f < 2 ^ 30 → ¬ looked_for (f_ax f) →
  ∃ args w', made GInt80 f = (SeccompModel.X86, f_ax f, args) ∧
    trap env (handler_view f) w =
      (HRet (if audit
             then answer SeccompModel.X8664 (f_ax f) [f_di f; f_si f; f_dx f; f_10 f; f_8 f; f_9 f]
             else -38), w') ∧
    (∀ path flags, w_sent w' ≠ w_sent w ++ [ReqOpenFile path flags]).
Proof.
  intros Habi Hr Hok Hk Hn Hl.
  destruct (trap_raw env audit calls f w answer) as (w' & E & Hs); [done..|].
  eexists _, w'. split; [|split].
  - unfold made. rewrite Z.mod_small by lia. done.
  - rewrite E. unfold rerun_by.
    assert (Z.testbit (f_ax f) 30 = false) as ->; [|done].
    apply Z.bits_above_log2; [lia|]. destruct (decide (f_ax f = 0)) as [->|]; [done|].
    apply Z.log2_lt_pow2; lia.
  - intros path flags H. rewrite Hs in H. apply app_inv_head in H. done.
Qed.
Print Assumptions C143_int80_refuted.

(** So an open by int 0x80 gets -ENOSYS under every policy. *)
Theorem C143_int80_open_refuted env calls f w answer :
  be_abi (we_broker env) = Abi64 → ready env false calls w → regs_ok (handler_view f) →
  (∀ nr args, we_rerun env nr args = rerun_by answer nr args) → f_ax f = 5 →
  ∃ args w', made GInt80 f = (SeccompModel.X86, 5, args) ∧
    call_name SeccompModel.X86 5 = Some (lit "open") ∧
    trap env (handler_view f) w = (HRet (-38), w').
Proof.
  intros Habi Hr Hok Hk H5.
  destruct (C143_int80_refuted env false calls f w answer) as (args & w' & Hm & E & _);
    [done..|lia| |].
  { rewrite H5. apply (bool_decide_unpack _). vm_compute. exact I. }
  exists args, w'. rewrite Hm, H5. done.
Qed.
Print Assumptions C143_int80_open_refuted.

(** A fork by int 0x80 opens the file whose name is where a register happens to point. *)
Theorem C143_int80_fork_refuted env audit calls f w path :
  be_abi (we_broker env) = Abi64 → ready env audit calls w → readable env →
  f_ax f = 2 → we_mem env (f_di f) = Some path → is_utf8 path →
  starts_with_byte slash path = true →
  ∃ args v w', made GInt80 f = (SeccompModel.X86, 2, args) ∧
    call_name SeccompModel.X86 2 = Some (lit "fork") ∧
    trap env (handler_view f) w = (HRet v, w') ∧
    w_sent w' = w_sent w ++ [ReqOpenFile path (as_i32 (f_si f))].
Proof.
  intros Habi Hr (_ & Hre & Hc) H2 Hm Hutf Habs.
  destruct (C37_bytes env audit calls (handler_view f) path (as_i32 (f_si f)) (as_i32 (f_dx f)) w)
    as (v & w' & req & E & Hsent & Hreq); try done.
  - left. rewrite Habi. done.
  - by eapply Hre.
  - eexists _, v, w'. unfold made. rewrite H2. split; [done|]. split; [done|]. split; [done|].
    rewrite Hsent. apply Hreq in Hutf as ->. done.
Qed.
Print Assumptions C143_int80_fork_refuted.

(** Calls of x32 are re-run as themselves in audit mode, and all refused outside of it. *)
Theorem C143_x32 env audit calls f w answer :
  be_abi (we_broker env) = Abi64 → ready env audit calls w → regs_ok (handler_view f) →
  (∀ nr args, we_rerun env nr args = rerun_by answer nr args) → Z.testbit (f_ax f) 30 = true →
  ∃ nr args w', made GSyscall f = (SeccompModel.X32, nr, args) ∧
    trap env (handler_view f) w = (HRet (if audit then answer SeccompModel.X32 nr args else -38), w').
Proof.
  intros Habi Hr Hok Hk Hb.
  destruct (trap_raw env audit calls f w answer) as (w' & E & Hs); [done..| |].
  { intros Hl. unfold looked_for in Hl. rewrite !elem_of_cons in Hl.
    destruct Hl as [Hl | [Hl | [Hl | [Hl | [Hl | Hl]]]]]; [rewrite Hl in Hb; done..|].
    by apply elem_of_nil in Hl. }
  eexists _, _, w'. unfold made. rewrite Hb. split; [done|]. rewrite E. unfold rerun_by. rewrite Hb.
  done.
Qed.
Print Assumptions C143_x32.

(** A worker where every address holds the name of one file. *)
Definition exc_answer (a : SeccompModel.arch) (nr : Z) (args : list Z) : Z :=
  match a with SeccompModel.X86 => 86 | SeccompModel.X8664 => 64 | SeccompModel.X32 => 32 end.
Definition exc_env (audit : bool) : wenv :=
  mkWenv (mkBenv Abi64 1024 200000 (λ _ _ _, Ok 44%N) (λ _, None))
    (get_runtime_policy (build audit exw_calls)) audit true 1024 200000
    (λ _, Some (lit "/home/u/f")) None [0; 0; 0; 0; 0; 0] 0 (λ _, None) (λ _, None)
    (rerun_by exc_answer).
Definition exc_frame (nr : Z) : frame := mkFrame nr 4096 0 0 0 8192 0 0 0 0 0.
Lemma exc_ready audit : ready (exc_env audit) audit exw_calls exw_world.
Proof.
  split; [|split; [done|by vm_compute]].
  constructor; simpl; try done; try lia.
  - intros a s' [= <-]. apply (bool_decide_unpack _). by vm_compute.
  - split; [done|]. repeat (constructor; [unfold is_i64; lia|]). constructor.
Qed.
Lemma exc_readable audit : readable (exc_env audit).
Proof.
  split; [by eexists|]. split; [|done]. intros a s [= <-]. by vm_compute.
Qed.

Theorem C143_refuted : ¬ C143_full.
Proof.
  intros H. unfold C143_full in H.
  pose proof (H (exc_env true) true exw_calls GInt80 (exc_frame 10) exw_world exc_answer) as H1.
  destruct H1 as [H1 _]; [done|apply exc_ready|apply exc_readable| |done|].
  - split; [|split]; [|repeat (constructor; [unfold is_i64; cbn; lia|]); constructor|];
      unfold is_i64; cbn; lia.
  - destruct H1 as [w' E]; [done| |].
    + unfold names_path. apply (bool_decide_unpack _). vm_compute. exact I.
    + apply (f_equal fst) in E. vm_compute in E. done.
Qed.
Print Assumptions C143_refuted.

(** The same number by the two instructions; unlink(2) by int 0x80 runs mprotect(2). *)
Example C143_example :
  call_name SeccompModel.X86 10 = Some (lit "unlink") ∧
  call_name SeccompModel.X8664 10 = Some (lit "mprotect") ∧
  made GInt80 (exc_frame 10) = (SeccompModel.X86, 10, [4096; 0; 0; 0; 8192; 0]) ∧
  made GSyscall (exc_frame 10) = (SeccompModel.X8664, 10, [8192; 0; 0; 0; 0; 0]) ∧
  fst (trap (exc_env true) (handler_view (exc_frame 10)) exw_world) = HRet 64 ∧
  fst (trap (exc_env true) (handler_view (exc_frame (2 ^ 30 + 10))) exw_world) = HRet 32 ∧
  fst (trap (exc_env false) (handler_view (exc_frame 2)) exw_world) = HRet 3 ∧
  fst (trap (exc_env false) (handler_view (exc_frame 5)) exw_world) = HRet (-38) ∧
  fst (trap (exc_env false) (handler_view (exc_frame (2 ^ 30 + 2))) exw_world) = HRet (-38).
Proof. by vm_compute. Qed.
