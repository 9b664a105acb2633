(** Lemmas for the C interface. *)
From stdpp Require Import prelude gmap.
From Coq Require Import Strings.Byte.
From Verif Require Import Bytes PolicyModel LinuxPolicyModel LinuxPolicySpec LinuxPolicyProofs
  PostcardModel PostcardSpec PostcardProofs FdModel FdProofs ChannelModel ChannelProofs BrokerModel BrokerSpec
  BrokerProofs ProcessModel ProcessProofs CApiModel CApiSpec.
Local Open Scope N_scope.

(* ---------------------------------------------------------------- Worker::new *)

Lemma sub_lookup (t t' : fdtab) : (∀ n e, t !! n = Some e → t' !! n = Some e) → t ⊆ t'.
Proof. intros H. by apply map_subseteq_spec. Qed.

Lemma recv_keeps {A} (dec : parser A) a limit bs ev t r t' :
  channel_recv dec a limit bs ev t = (r, t') →
  t ⊆ t' ∧ ∀ h, owned_by_result r = Some h → t !! h = None.
Proof.
  destruct ev as [d| |e]; cbn [channel_recv]; [|by intros [= <- <-]|by intros [= <- <-]].
  destruct (sys_recvmsg _ _ _ _ _ _) as [rr t1] eqn:E.
  unfold sys_recvmsg in E.
  destruct (install_files _ _ _ _) as [ns t2] eqn:Ei. injection E as <- <-.
  cbn [rr_fds rr_bytes rr_trunc rr_ctrunc].
  destruct (install_files_spec _ _ _ _ _ _ Ei) as (_ & _ & Hns & _ & Hold & _).
  assert (Hsub : t ⊆ t2).
  { apply sub_lookup. intros n e Hn. rewrite Hold; [done|]. intros Hin.
    apply Hns in Hin as [Hin _]. congruence. }
  assert (Hdel : ∀ n, n ∈ ns → t ⊆ delete n t2).
  { intros n Hn. apply sub_lookup. intros m e Hm. rewrite lookup_delete_ne.
    - by eapply lookup_weaken.
    - intros ->. apply Hns in Hn as [Hn _]. congruence. }
  destruct ns as [|n ns].
  - cbn. destruct (_ || _); [by intros [= <- <-]|].
    destruct (Nat.eqb _ 0); [by intros [= <- <-]|].
    destruct (deserialize dec _); by intros [= <- <-].
  - unfold handle_from_raw. destruct (n <? 2 ^ 31); [|by intros [= <- <-]].
    specialize (Hdel n (elem_of_list_here _ _)).
    destruct (_ || _); [by intros [= <- <-]|].
    destruct (Nat.eqb _ 0); [by intros [= <- <-]|].
    destruct (deserialize dec _); intros [= <- <-]; [|done].
    split; [done|]. cbn. intros h [= <-]. apply (Hns n). left.
Qed.

Lemma dispatch_keeps env p m s o s' :
  dispatch env p m s = (o, s') →
  bs_tab s ⊆ bs_tab s' ∧ ∀ code h, o = Done (code, Some h) → bs_tab s !! h = None.
Proof.
  destruct m as [|path flags|nb args ip]; cbn [dispatch].
  - by intros [= <- <-].
  - unfold proxied_open_file. cbv zeta. destruct (fst _).
    2-4: by intros [= <- <-].
    destruct (contains _ _); [by intros [= <- <-]|].
    unfold sys_open. cbn [bs_tab bs_trace].
    destruct (be_open _ _ _ _) as [file|e]; [|by intros [= <- <-]].
    destruct (fd_install _ _ _) as [[n t]|] eqn:E; [|by intros [= <- <-]].
    apply fd_install_Some in E as (_ & _ & Hn & ->).
    assert (bs_tab s ⊆ <[n := mkFd file (if Z.testbit flags 19 then FD_CLOEXEC else 0%Z)]> (bs_tab s))
      by by apply insert_subseteq.
    unfold handle_from_raw. destruct (n <? 2 ^ 31); intros [= <- <-]; [|done].
    split; [done|]. intros code h [= _ <-]. done.
  - unfold proxied_syscall. by intros [= <- <-].
Qed.

Lemma delete_keeps (t t' : fdtab) n : t ⊆ t' → t !! n = None → t ⊆ delete n t'.
Proof.
  intros Hs Hn. apply sub_lookup. intros m e Hm. rewrite lookup_delete_ne.
  - by eapply lookup_weaken.
  - intros ->. congruence.
Qed.

Lemma drop_keeps (t : fdtab) h s s' :
  t ⊆ bs_tab s → (∀ n, h = Some n → t !! n = None) → drop_handle h s = Done s' → t ⊆ bs_tab s'.
Proof.
  intros Hs Hn. destruct h as [n|]; cbn [drop_handle].
  - unfold handle_drop, sys_close. destruct (bs_tab s !! n); [|done].
    intros [= <-]. cbn [bs_tab]. apply delete_keeps; auto.
  - by intros [= <-].
Qed.

Lemma broker_step_keeps env p ev s st s' :
  broker_step env p ev s = (st, s') → bs_tab s ⊆ bs_tab s'.
Proof.
  unfold broker_step.
  destruct (channel_recv _ _ _ _ _ _) as [r t] eqn:Er.
  apply recv_keeps in Er as [Hsub Hown].
  destruct r as [[[m [n|]]|]|e].
  - cbn in Hown. specialize (Hown n eq_refl).
    destruct (drop_handle (Some n) (mkBst t (bs_trace s))) as [s1| |] eqn:Ed.
    + intros [= <- <-]. eapply (drop_keeps _ (Some n) (mkBst t (bs_trace s))); [exact Hsub| |exact Ed].
      by intros ? [= <-].
    + by intros [= <- <-].
    + by intros [= <- <-].
  - destruct (dispatch env p m (mkBst t (bs_trace s))) as [o s1] eqn:Ed.
    apply dispatch_keeps in Ed as [Hs1 Hfresh]. cbn [bs_tab] in Hs1, Hfresh.
    assert (H1 : bs_tab s ⊆ bs_tab s1) by (by etransitivity).
    destruct o as [[code h]| |]; [|by intros [= <- <-]|by intros [= <- <-]].
    pose proof (broker_send_spec env (OutSyscallResult code) h s1) as (e & Hs2 & _).
    destruct (broker_send env (OutSyscallResult code) h s1) as [sent s2]. cbn [snd] in Hs2. subst s2.
    destruct (drop_handle h _) as [s3| |] eqn:Edr.
    + intros [= <- <-]. eapply drop_keeps; [|..|exact Edr]; [exact H1|].
      intros n ->. specialize (Hfresh code n eq_refl).
      destruct (bs_tab s !! n) eqn:En; [|done].
      rewrite (lookup_weaken _ _ _ _ En Hsub) in Hfresh. done.
    + intros [= <- <-]. exact H1.
    + intros [= <- <-]. exact H1.
  - by intros [= <- <-].
  - by intros [= <- <-].
Qed.

Lemma broker_loop_keeps env p ch evs (t : fdtab) : ∀ s st s',
  t ⊆ bs_tab s → t !! ch = None →
  broker_loop env p ch evs s = (st, s') → t ⊆ bs_tab s'.
Proof.
  induction evs as [|ev evs IH]; intros s st s' Hs Hch; cbn [broker_loop].
  { by intros [= <- <-]. }
  destruct (broker_step env p ev s) as [st1 s1] eqn:E.
  apply broker_step_keeps in E. assert (t ⊆ bs_tab s1) by (by etransitivity).
  destruct st1.
  - by apply IH.
  - intros [= <- <-]. cbn [bs_tab]. by apply delete_keeps.
  - intros [= <- <-]. cbn [bs_tab]. by apply delete_keeps.
Qed.

Lemma start_keeps env p order filter spawn ch evs s (t : fdtab) so s' :
  t ⊆ bs_tab s → t !! ch = None →
  start_ipc_loop env p order filter spawn ch evs s = (so, s') → t ⊆ bs_tab s'.
Proof.
  intros Hs Hch. unfold start_ipc_loop. destruct evs as [|ev evs].
  { by intros [= <- <-]. }
  destruct (channel_recv _ _ _ _ _ _) as [r t1] eqn:Er.
  apply recv_keeps in Er as [Hsub Hown].
  assert (H1 : t ⊆ t1) by (by etransitivity).
  assert (Hbad : ∀ h, owned_by_result r = h →
    match drop_handle h (mkBst t1 (bs_trace s)) with
    | Done s0 => (StErr UnexpectedWorkerMessage, mkBst (delete ch (bs_tab s0)) (bs_trace s0))
    | _ => (StPanic, mkBst t1 (bs_trace s))
    end = (so, s') → t ⊆ bs_tab s').
  { intros h Hh. destruct (drop_handle h _) as [s1| |] eqn:Ed.
    - intros [= <- <-]. cbn [bs_tab]. apply delete_keeps; [|done].
      eapply drop_keeps; [|..|exact Ed]; [exact H1|]. intros n ->.
      specialize (Hown n Hh). destruct (t !! n) eqn:En; [|done].
      rewrite (lookup_weaken _ _ _ _ En Hs) in Hown. done.
    - by intros [= <- <-].
    - by intros [= <- <-]. }
  destruct r as [[[m h]|]|e].
  - destruct m as [|path flags|nb args ip]; [destruct h as [n|]|..];
      try (apply Hbad; reflexivity).
    match goal with |- context [broker_send ?a ?b ?d ?f] =>
      pose proof (broker_send_spec a b d f) as (ev' & Hsnd & _);
      destruct (broker_send a b d f) as [[] s1] end; cbn [snd bs_tab] in Hsnd; subst s1.
    + destruct spawn.
      * destruct (broker_loop _ _ _ _ _) as [st s2] eqn:El. intros [= <- <-].
        by eapply broker_loop_keeps; [..|exact El].
      * intros [= <- <-]. cbn [bs_tab]. by apply delete_keeps.
    + intros [= <- <-]. cbn [bs_tab]. by apply delete_keeps.
  - intros [= <- <-]. cbn [bs_tab]. by apply delete_keeps.
  - intros [= <- <-]. cbn [bs_tab]. by apply delete_keeps.
Qed.

(** Starting a worker, and serving it, leaves the descriptors that were open as they
    were. *)
Lemma worker_new_keeps ne c p evs t :
  wo_result (worker_new ne c p evs t) ≠ WnBlocked →
  t ⊆ wo_tab (worker_new ne c p evs t).
Proof.
  intros Hnb.
  destruct (worker_new_cases ne c p evs t) as
    [(e & _ & -> & _)|(fb & fc & ch & wh & t2 & p' & c' & nr & t3 & Hr & Hp & Hm)]; [done|].
  destruct Hr as (_ & F1 & F2 & Hlt & _ & _ & Ht2 & _ & _).
  assert (Hwh : delete wh t2 = <[ch := mkFd fb 0]> t).
  { subst t2. rewrite delete_insert; [done|]. by rewrite lookup_insert_ne by lia. }
  assert (Ht3 : nr ≠ NewBlocked → t3 = t2).
  { destruct (process_new_cases _ _ _ _ _ _ _ Hp) as [(e & _ & ? & _)|H]; [done|].
    by destruct H as (? & ? & ? & ? & ? & _ & _ & _ & _ & _ & _ & _ & _ & ?). }
  destruct nr as [pid|e|].
  - destruct Hm as (so & s & Hst & -> & _ & _). rewrite Ht3, Hwh in Hst by done.
    eapply start_keeps; [..|exact Hst]; [|done]. cbn [bs_tab]. by apply insert_subseteq.
  - destruct Hm as (_ & -> & _). rewrite Ht3, Hwh, delete_insert by done. done.
  - done.
Qed.

(* ---------------------------------------------------------------- what a call does *)

Definition stream_slot (c : c_config) (i : nat) : option N :=
  match i with 0%nat => cc_stdin c | 1%nat => cc_stdout c | 2%nat => cc_stderr c | _ => None end.

Inductive effect (c : c_call) (s : c_state) : c_ret → c_state → Prop :=
  | EffFail st out : st ≠ SSuccess → effect c s (st, out) s
  | EffPid w o pid : c = WorkerGetPid w o → effect c s (SSuccess, Some pid) s
  | EffNewPolicy audit :
      c = made_by audit →
      effect c s (SSuccess, Some (c_next s))
        (snd (c_new (OPolicy (mkCPolicy (initial_policy audit) (replicate 32 None))) s))
  | EffNewConfig e a :
      c = ConfigNew (Some e) (Some a) true →
      effect c s (SSuccess, Some (c_next s))
        (snd (c_new (OConfig (mkCConfig (config_new e a) None None None)) s))
  | EffFreePolicy ptr p :
      c = PolicyFree ptr → c_heap s !! ptr = Some (OPolicy p) →
      effect c s (SSuccess, None) (c_del ptr s)
  | EffFreeWorker ptr pid :
      c = WorkerFree ptr → c_heap s !! ptr = Some (OWorker pid) →
      effect c s (SSuccess, None) (c_del ptr s)
  | EffAsk ptr p q a :
      c_heap s !! ptr = Some (OPolicy p) → ptr ≠ 0 →
      (∀ x, asked x (c, (SSuccess, None)) = if decide (ptr = x) then Some a else None) →
      (∀ x, offers x c = false) → (∀ raw i, a ≠ CallInherit raw i) →
      apply_call (cp_inner p) a = Ok q →
      effect c s (SSuccess, None) (c_put ptr (OPolicy (mkCPolicy q (cp_slots p))) s)
  | EffInherit ptr p h slots :
      c = PolicyInherit ptr h → ptr ≠ 0 → h < 2 ^ 31 → c_heap s !! ptr = Some (OPolicy p) →
      fill_slot h (cp_slots p) = Some slots →
      effect c s (SSuccess, None)
        (c_put ptr (OPolicy (mkCPolicy (apply_call_ignore (cp_inner p) (CallInherit h (Ok true)))
                               slots)) s)
  | EffRefused ptr p h slots st :
      c = PolicyInherit ptr h → ptr ≠ 0 → h < 2 ^ 31 → c_heap s !! ptr = Some (OPolicy p) →
      fill_slot h (cp_slots p) = Some slots → st ≠ SSuccess →
      effect c s (st, None) (c_put ptr (OPolicy (mkCPolicy (cp_inner p) slots)) s)
  | EffOverflow ptr p h :
      c = PolicyInherit ptr h → ptr ≠ 0 → h < 2 ^ 31 → c_heap s !! ptr = Some (OPolicy p) →
      fill_slot h (cp_slots p) = None →
      effect c s (STooManyHandles, None) (c_close h (drop_policy ptr p s))
  | EffConfig ptr cc inner :
      c_heap s !! ptr = Some (OConfig cc) → ptr ≠ 0 → passes c = None →
      (∀ x, asked x (c, (SSuccess, None)) = None) → (∀ x, offers x c = false) →
      (∀ fd, c ≠ HostClose fd) → (∀ l f g, c ≠ HostOpen l f g) →
      effect c s (SSuccess, None)
        (c_put ptr (OConfig (mkCConfig inner (cc_stdin cc) (cc_stdout cc) (cc_stderr cc))) s)
  | EffRedirect ptr cc cc' i h o :
      c = (match i with 0%nat => ConfigStdin | 1%nat => ConfigStdout | _ => ConfigStderr end) ptr h →
      (i < 3)%nat → c_heap s !! ptr = Some (OConfig cc) → ptr ≠ 0 →
      o = passes c → (∀ n, o = Some n → n = h ∧ h < 2 ^ 31) →
      (∀ j, stream_slot cc' j = if decide (i = j) then o else stream_slot cc j) →
      effect c s (SSuccess, None) (c_put ptr (OConfig cc') (c_drop (stream_slot cc i) s))
  | EffFreeConfig ptr cc :
      c = ConfigFree ptr → c_heap s !! ptr = Some (OConfig cc) →
      effect c s (SSuccess, None)
        (c_drop (cc_stderr cc) (c_drop (cc_stdout cc) (c_drop (cc_stdin cc) (c_del ptr s))))
  | EffWorker cfg pol cc cp ne evs pid st :
      c = WorkerNew cfg pol true ne evs →
      c_heap s !! cfg = Some (OConfig cc) → c_heap s !! pol = Some (OPolicy cp) →
      wo_result (worker_new ne (cc_inner cc) (cp_inner cp) evs (c_tab s)) = WnOk pid st →
      effect c s (SSuccess, Some (c_next s))
        (mkC (<[c_next s := OWorker pid]> (c_heap s)) (c_next s + 1)
           (wo_tab (worker_new ne (cc_inner cc) (cp_inner cp) evs (c_tab s))) (c_closes s)
           (pid :: c_running s))
  | EffNoWorker cfg pol cc cp ne evs e st :
      c = WorkerNew cfg pol true ne evs →
      c_heap s !! cfg = Some (OConfig cc) → c_heap s !! pol = Some (OPolicy cp) →
      wo_result (worker_new ne (cc_inner cc) (cp_inner cp) evs (c_tab s)) = WnErr e →
      st ≠ SSuccess →
      effect c s (st, None)
        (c_set_tab (wo_tab (worker_new ne (cc_inner cc) (cp_inner cp) evs (c_tab s))) s)
  | EffOpen limit file flags n :
      c = HostOpen limit file flags → c_tab s !! n = None →
      effect c s (SSuccess, Some n) (c_set_tab (<[n := mkFd file flags]> (c_tab s)) s)
  | EffClose fd :
      c = HostClose fd → is_Some (c_tab s !! fd) →
      effect c s (SSuccess, None) (c_set_tab (delete fd (c_tab s)) s).

Lemma status_of_policy_error_fails e : status_of_policy_error e ≠ SSuccess.
Proof. by destruct e. Qed.
Lemma status_of_broker_error_fails e : status_of_broker_error e ≠ SSuccess.
Proof. destruct e as [| |e|? ?|[]]; try done. apply status_of_policy_error_fails. Qed.

Lemma path_call_effect c ptr path r s x s' :
  (∀ q, asked q (c, (SSuccess, None)) =
     match path with Some w => if decide (ptr = q) then Some (CallRule (r w)) else None
                | None => None end) →
  (∀ q, offers q c = false) →
  path_call ptr path r s = CDone (x, s') → effect c s x s'.
Proof.
  intros Ha Ho. unfold path_call, fails, with_policy.
  destruct path as [w|]; [|intros [= <- <-]; by apply EffFail].
  destruct (N.eqb_spec ptr 0); [intros [= <- <-]; by apply EffFail|].
  destruct (utf8_valid w); cbn [negb]; [|intros [= <- <-]; by apply EffFail].
  destruct (c_heap s !! ptr) as [[p| |]|] eqn:Ep; try done.
  destruct (apply_rule (cp_inner p) (r w)) as [q|e] eqn:Er.
  - intros [= <- <-]. by eapply EffAsk.
  - intros [= <- <-]. apply EffFail, status_of_policy_error_fails.
Qed.

Lemma redirect_effect c ptr h i s x s' :
  c = (match i with 0%nat => ConfigStdin | 1%nat => ConfigStdout | _ => ConfigStderr end) ptr h →
  (i < 3)%nat →
  c_step c s = CDone (x, s') → effect c s x s'.
Proof.
  intros Hc Hi.
  assert (∀ o, new_stream h = Ok o → passes c = o ∧ (∀ n, o = Some n → n = h ∧ h < 2 ^ 31)) as Hn.
  { intros o. unfold new_stream, handle_from_raw.
    assert (passes c = if decide (h = 18446744073709551615) then None else Some h) as ->.
    { subst c. by destruct i as [|[|[|]]]. }
    change (2 ^ 64 - 1) with 18446744073709551615.
    destruct (N.eqb_spec h 18446744073709551615) as [->|Hne].
    - intros [= <-]. rewrite decide_True by done. done.
    - rewrite decide_False by done. destruct (N.ltb_spec h (2 ^ 31)); [|done].
      intros [= <-]. split; [done|]. by intros n [= <-]. }
  assert (∀ e, new_stream h = Err e → e ≠ SSuccess) as He.
  { intros e. unfold new_stream, handle_from_raw. destruct (_ =? _); [done|].
    destruct (_ <? _); [done|]. by intros [= <-]. }
  destruct i as [|[|[|]]]; [..|lia]; rewrite Hc; cbn [c_step];
    unfold iris_process_config_redirect_stdin, iris_process_config_redirect_stdout,
      iris_process_config_redirect_stderr, fails, with_config;
    (destruct (N.eqb_spec ptr 0); [intros [= <- <-]; by apply EffFail|]);
    (destruct (new_stream h) as [o|e]; [|intros [= <- <-]; apply EffFail; by apply He]);
    (destruct (c_heap s !! ptr) as [[|cc|]|] eqn:Ep; try done);
    intros [= <- <-]; rewrite <-Hc; destruct (Hn o eq_refl) as [Ho1 Ho2].
  - apply (EffRedirect c s ptr cc _ 0 h o); try done. by intros [|[|[|j]]].
  - apply (EffRedirect c s ptr cc _ 1 h o); try done. by intros [|[|[|j]]].
  - apply (EffRedirect c s ptr cc _ 2 h o); try done. by intros [|[|[|j]]].
Qed.

Lemma c_step_effect c s x s' : c_step c s = CDone (x, s') → effect c s x s'.
Proof.
  destruct c; cbn [c_step].
  - intros [= <- <-]. by apply (EffNewPolicy _ _ false).
  - intros [= <- <-]. by apply (EffNewPolicy _ _ true).
  - unfold iris_policy_free, with_policy, ok.
    destruct (c_heap s !! p) as [[q| |]|] eqn:Ep; try done. intros [= <- <-].
    by eapply EffFreePolicy.
  - unfold iris_policy_allow_inherit_handle, fails, with_policy, ok, handle_from_raw.
    destruct (N.eqb_spec p 0); [intros [= <- <-]; by apply EffFail|].
    destruct (N.ltb_spec h (2 ^ 31)); [|intros [= <- <-]; by apply EffFail].
    destruct (c_heap s !! p) as [[q| |]|] eqn:Ep; try done.
    destruct (fill_slot h (cp_slots q)) as [slots|] eqn:Ef.
    + destruct (inherit_answer h (c_tab s)) as [[]|e]; cbn [allow_inherit_handle].
      * intros [= <- <-]. by eapply (EffInherit _ _ p q h slots).
      * intros [= <- <-]. by eapply (EffRefused _ _ p q h slots).
      * intros [= <- <-]. eapply (EffRefused _ _ p q h slots); try done.
        apply status_of_policy_error_fails.
    + intros [= <- <-]. by eapply EffOverflow.
  - apply path_call_effect; [|done]. intros q. by destruct path.
  - apply path_call_effect; [|done]. intros q. by destruct path.
  - apply path_call_effect; [|done]. intros q. by destruct path.
  - apply path_call_effect; [|done]. intros q. by destruct path.
  - apply path_call_effect; [|done]. intros q. by destruct path.
  - apply path_call_effect; [|done]. intros q. by destruct path.
  - unfold iris_policy_add_log_callback, fails, with_policy, ok.
    destruct (N.eqb_spec p 0); [intros [= <- <-]; by apply EffFail|].
    destruct (c_heap s !! p) as [[q| |]|] eqn:Ep; try done.
    intros [= <- <-]. by eapply EffAsk with (a := CallAddLogCallback cb).
  - unfold iris_process_config_new, fails.
    destruct exe as [e|]; [|intros [= <- <-]; by apply EffFail].
    destruct argv as [[|a l]|]; [intros [= <- <-]; by apply EffFail| |intros [= <- <-]; by apply EffFail].
    destruct out; intros [= <- <-]; [by eapply EffNewConfig|by apply EffFail].
  - unfold iris_process_config_free, with_config, ok.
    destruct (c_heap s !! c) as [[|cc|]|] eqn:Ep; try done. intros [= <- <-].
    by eapply EffFreeConfig.
  - unfold iris_process_config_current_working_directory, fails, with_config, ok.
    destruct (N.eqb_spec c 0); [intros [= <- <-]; by apply EffFail|].
    destruct (c_heap s !! c) as [[|cc|]|] eqn:Ep; try done. intros [= <- <-].
    by apply EffConfig.
  - unfold iris_process_config_environment_variable, fails, with_config, ok.
    destruct var as [v|]; [|intros [= <- <-]; by apply EffFail].
    destruct (N.eqb_spec c 0); [intros [= <- <-]; by apply EffFail|].
    destruct (c_heap s !! c) as [[|cc|]|] eqn:Ep; try done.
    destruct (set_environment_variable v (cc_inner cc)); intros [= <- <-].
    + by apply EffConfig.
    + apply EffFail, status_of_broker_error_fails.
  - by apply (redirect_effect (ConfigStdin c h) c h 0); [|lia].
  - by apply (redirect_effect (ConfigStdout c h) c h 1); [|lia].
  - by apply (redirect_effect (ConfigStderr c h) c h 2); [|lia].
  - unfold iris_worker_new, fails, with_config, with_policy.
    destruct (c =? 0); [intros [= <- <-]; by apply EffFail|].
    destruct (p =? 0); [intros [= <- <-]; by apply EffFail|].
    destruct out; cbn [orb negb]; [|intros [= <- <-]; by apply EffFail].
    destruct (c_heap s !! c) as [[|cc|]|] eqn:Ec; try done.
    destruct (c_heap s !! p) as [[cp| |]|] eqn:Ep; try done. cbv zeta.
    destruct (wo_result _) as [pid st|e| | |] eqn:Er; try done.
    + intros [= <- <-]. by eapply EffWorker.
    + intros [= <- <-]. eapply EffNoWorker; try done. apply status_of_broker_error_fails.
  - unfold iris_worker_get_pid, fails.
    destruct (_ || _); [intros [= <- <-]; by apply EffFail|].
    destruct (c_heap s !! w) as [[| |pid]|] eqn:Ep; try done. intros [= <- <-].
    by eapply EffPid.
  - unfold iris_worker_free, ok.
    destruct (c_heap s !! w) as [[| |pid]|] eqn:Ep; try done. intros [= <- <-].
    by eapply EffFreeWorker.
  - unfold fails. destruct (fd_install _ _ _) as [[n t]|] eqn:E.
    + intros [= <- <-]. apply fd_install_Some in E as (_ & _ & Hn & ->). by eapply EffOpen.
    + intros [= <- <-]. by apply EffFail.
  - unfold fails, ok, sys_close. destruct (c_tab s !! fd) eqn:E.
    + intros [= <- <-]. eapply EffClose; [done|by eexists].
    + intros [= <- <-]. by apply EffFail.
Qed.

(* ---------------------------------------------------------------- runs *)

Lemma c_run_ind (P : history → c_state → Prop) s0 :
  P [] s0 →
  (∀ h s c r s', P h s → c_step c s = CDone (r, s') → P (h ++ [(c, r)]) s') →
  ∀ cs rs s, c_run cs s0 = CDone (rs, s) → P (zip cs rs) s.
Proof.
  intros H0 Hs.
  assert (∀ cs h s1 rs s, P h s1 → c_run cs s1 = CDone (rs, s) → P (h ++ zip cs rs) s) as H.
  { induction cs as [|c cs IH]; intros h s1 rs s Hp; cbn [c_run].
    { intros [= <- <-]. cbn. by rewrite app_nil_r. }
    destruct (c_step c s1) as [[r s2]| |] eqn:Es; try done.
    destruct (c_run cs s2) as [[rs' s3]| |] eqn:Er; try done.
    intros [= <- <-]. cbn [zip]. specialize (IH (h ++ [(c, r)]) s2 rs' s3).
    rewrite <-app_assoc in IH. apply IH; [|done]. by eapply Hs. }
  intros cs rs s. by apply (H cs []).
Qed.

Lemma c_run_length cs : ∀ s rs s', c_run cs s = CDone (rs, s') → length rs = length cs.
Proof.
  induction cs as [|c cs IH]; intros s rs s'; cbn [c_run].
  { by intros [= <- <-]. }
  destruct (c_step c s) as [[r s1]| |]; try done.
  destruct (c_run cs s1) as [[rs1 s2]| |] eqn:E; try done.
  intros [= <- <-]. cbn. f_equal. by eapply IH.
Qed.

Lemma asked_of_app ptr h h' : asked_of ptr (h ++ h') = asked_of ptr h ++ asked_of ptr h'.
Proof. apply omap_app. Qed.
Lemma asked_of_none ptr h x : asked ptr x = None → asked_of ptr (h ++ [x]) = asked_of ptr h.
Proof. intros Hx. rewrite asked_of_app. unfold asked_of. cbn. rewrite Hx. apply app_nil_r. Qed.
Lemma asked_of_some ptr h x a :
  asked ptr x = Some a → asked_of ptr (h ++ [x]) = asked_of ptr h ++ [a].
Proof. intros Hx. rewrite asked_of_app. unfold asked_of at 2. cbn. by rewrite Hx. Qed.
Lemma asked_fail ptr c st out : st ≠ SSuccess → asked ptr (c, (st, out)) = None.
Proof. by destruct st. Qed.

Lemma fill_slot_spec h slots slots' :
  fill_slot h slots = Some slots' →
  length slots' = length slots ∧ Some h ∈ slots' ∧
  (∀ x, Some x ∈ slots → Some x ∈ slots') ∧ (∀ x, Some x ∈ slots' → x = h ∨ Some x ∈ slots) ∧
  length (filter (λ o, o = None) slots) = S (length (filter (λ o, o = None) slots')).
Proof.
  revert slots'. induction slots as [|[x|] slots IH]; intros slots'; cbn [fill_slot]; [done|..].
  - destruct (fill_slot h slots) as [l|]; [|done]. intros [= <-].
    destruct (IH l eq_refl) as (H1 & H2 & H3 & H4 & H5). split_and!.
    + cbn. by rewrite H1.
    + by right.
    + intros y [E|Hy]%elem_of_cons; [rewrite E; left|right; by apply H3].
    + intros y [E|Hy]%elem_of_cons; [right; rewrite E; left|].
      destruct (H4 y Hy); [by left|right; by right].
    + rewrite !filter_cons, !decide_False by done. done.
  - intros [= <-]. split_and!.
    + done.
    + left.
    + intros y [E|Hy]%elem_of_cons; [done|by right].
    + intros y [E|Hy]%elem_of_cons; [left; congruence|right; by right].
    + rewrite !filter_cons, decide_True, decide_False by done. done.
Qed.

(** What is known of the heap after a history. *)
Record heap_inv (h : history) (s : c_state) : Prop := {
  hi_next : 0 < c_next s;
  hi_null : c_heap s !! 0 = None;
  hi_fresh : ∀ ptr, c_next s ≤ ptr →
    c_heap s !! ptr = None ∧ asked_of ptr h = [] ∧
    ∀ audit, (made_by audit, (SSuccess, Some ptr)) ∉ h;
  hi_made : ∀ ptr p, c_heap s !! ptr = Some (OPolicy p) →
    ∃ audit, (∀ audit', (made_by audit', (SSuccess, Some ptr)) ∈ h ↔ audit' = audit) ∧
      cp_inner p = build audit (asked_of ptr h) ∧
      length (cp_slots p) = 32%nat ∧
      ∀ raw, raw ∈ inherit_handles (cp_inner p) → Some raw ∈ cp_slots p }.

Lemma inherit_of_call p a q :
  apply_call p a = Ok q → (∀ raw i, a ≠ CallInherit raw i) →
  inherit_handles q = inherit_handles p.
Proof.
  destruct a as [r|cb|raw [[]|e]]; cbn [apply_call]; [| |naive_solver|done|done].
  - intros H _. destruct (apply_rule_ignore_frame p r) as (_ & K & _). unfold apply_rule_ignore in K.
    by rewrite H in K.
  - by intros [= <-] _.
Qed.

Lemma made_snoc (h : history) (c : c_call) (r : c_ret) audit (ptr : N) :
  c ≠ made_by audit ∨ r ≠ (SSuccess, Some ptr) →
  (made_by audit, (SSuccess, Some ptr)) ∈ h ++ [(c, r)] ↔ (made_by audit, (SSuccess, Some ptr)) ∈ h.
Proof.
  intros Hn. rewrite elem_of_app, elem_of_list_singleton. split; [|by left].
  intros [H|[= <- <-]]; [done|]. by destruct Hn.
Qed.

(** Calls that touch no policy. *)
Lemma heap_inv_frame h s c r s' :
  heap_inv h s → c_next s' = c_next s →
  (∀ ptr, c_heap s !! ptr = None → c_heap s' !! ptr = None) →
  (∀ ptr p, c_heap s' !! ptr = Some (OPolicy p) → c_heap s !! ptr = Some (OPolicy p)) →
  (∀ ptr, asked ptr (c, r) = None) →
  (∀ audit ptr, c ≠ made_by audit ∨ r ≠ (SSuccess, Some ptr)) →
  heap_inv (h ++ [(c, r)]) s'.
Proof.
  intros [I1 I2 I3 I4] Hn Hnone Hpol Hask Hmade. split.
  - by rewrite Hn.
  - by apply Hnone.
  - intros ptr Hp. rewrite Hn in Hp. destruct (I3 ptr Hp) as (F1 & F2 & F3). split_and!.
    + by apply Hnone.
    + by rewrite asked_of_none.
    + intros audit. rewrite made_snoc by done. done.
  - intros ptr p Hp. apply Hpol in Hp. destruct (I4 ptr p Hp) as (audit & A1 & A2 & A3 & A4).
    exists audit. split_and!; [|by rewrite asked_of_none|done|done].
    intros audit'. rewrite made_snoc by done. apply A1.
Qed.

(** New objects that are not policies. *)
Lemma heap_inv_new h s c r s' o :
  heap_inv h s → c_next s' = c_next s + 1 → c_heap s' = <[c_next s := o]> (c_heap s) →
  (∀ p, o ≠ OPolicy p) →
  (∀ ptr, asked ptr (c, r) = None) → (∀ audit, c ≠ made_by audit) →
  heap_inv (h ++ [(c, r)]) s'.
Proof.
  intros [I1 I2 I3 I4] Hn Hh Ho Hask Hmade. split.
  - lia.
  - rewrite Hh, lookup_insert_ne by lia. done.
  - intros ptr Hp. destruct (I3 ptr ltac:(lia)) as (F1 & F2 & F3). split_and!.
    + rewrite Hh, lookup_insert_ne by lia. done.
    + by rewrite asked_of_none.
    + intros audit. rewrite made_snoc by auto. done.
  - intros ptr p Hp. rewrite Hh in Hp. apply lookup_insert_Some in Hp as [[_ ->]|[_ Hp]].
    { by destruct (Ho p). }
    destruct (I4 ptr p Hp) as (audit & A1 & A2 & A3 & A4).
    exists audit. split_and!; [|by rewrite asked_of_none|done|done].
    intros audit'. rewrite made_snoc by auto. apply A1.
Qed.

(** Calls that change one policy. *)
Lemma heap_inv_put h s c r ptr p q (a : option api_call) :
  heap_inv h s → c_heap s !! ptr = Some (OPolicy p) →
  (∀ x, asked x (c, r) = if decide (ptr = x) then a else None) →
  cp_inner q = foldl apply_call_ignore (cp_inner p) (opt_list a) →
  length (cp_slots q) = 32%nat →
  (∀ raw, raw ∈ inherit_handles (cp_inner q) → Some raw ∈ cp_slots q) →
  (∀ audit ptr, c ≠ made_by audit ∨ r ≠ (SSuccess, Some ptr)) →
  heap_inv (h ++ [(c, r)]) (c_put ptr (OPolicy q) s).
Proof.
  intros [I1 I2 I3 I4] Hp Hask Hq Hlen Hin Hmade.
  assert (Hlt : ptr < c_next s).
  { destruct (N.lt_ge_cases ptr (c_next s)) as [|Hge]; [done|].
    destruct (I3 ptr Hge) as (F1 & _). congruence. }
  assert (Hne : ∀ x, ptr ≠ x → asked x (c, r) = None).
  { intros x Hx. rewrite Hask. by rewrite decide_False. }
  split; cbn [c_put c_next c_heap].
  - done.
  - rewrite lookup_insert_ne; [done|]. intros ->. congruence.
  - intros x Hx. destruct (I3 x Hx) as (F1 & F2 & F3). split_and!.
    + rewrite lookup_insert_ne by lia. done.
    + rewrite asked_of_none; [done|]. apply Hne. lia.
    + intros audit. rewrite made_snoc by done. done.
  - intros x p' Hx. apply lookup_insert_Some in Hx as [[<- [= ->]]|[Hx1 Hx]].
    + destruct (I4 ptr p Hp) as (audit & A1 & A2 & A3 & A4).
      exists audit. split_and!; [| |done|done].
      { intros audit'. rewrite made_snoc by done. apply A1. }
      rewrite Hq, A2. unfold build. destruct a as [a|]; cbn [opt_list].
      * rewrite (asked_of_some _ _ _ a), foldl_app; [done|]. by rewrite Hask, decide_True.
      * rewrite asked_of_none; [done|]. by rewrite Hask, decide_True.
    + destruct (I4 x p' Hx) as (audit & A1 & A2 & A3 & A4).
      exists audit. split_and!; [|rewrite asked_of_none; auto|done|done].
      intros audit'. rewrite made_snoc by done. apply A1.
Qed.

Lemma c_close_heap h s : c_heap (c_close h s) = c_heap s ∧ c_next (c_close h s) = c_next s.
Proof. done. Qed.
Lemma c_drop_heap o s : c_heap (c_drop o s) = c_heap s ∧ c_next (c_drop o s) = c_next s.
Proof. by destruct o. Qed.
Lemma drop_slots_heap l : ∀ s,
  c_heap (foldl (λ s o, c_drop o s) s l) = c_heap s ∧
  c_next (foldl (λ s o, c_drop o s) s l) = c_next s.
Proof.
  induction l as [|o l IH]; intros s; cbn [foldl]; [done|].
  destruct (IH (c_drop o s)) as [-> ->]. apply c_drop_heap.
Qed.

Lemma made_by_inj a b : made_by a = made_by b → a = b.
Proof. by destruct a, b. Qed.

Lemma heap_inv_step h s c r s' :
  heap_inv h s → c_step c s = CDone (r, s') → heap_inv (h ++ [(c, r)]) s'.
Proof.
  intros Hi Hs. apply c_step_effect in Hs. destruct Hs.
  - apply (heap_inv_frame h s); try done; [intros; by apply asked_fail|].
    intros audit ptr. right. congruence.
  - subst c. by apply (heap_inv_frame h s); try done; intros [] ?; left.
  - (* a new policy *)
    destruct Hi as [I1 I2 I3 I4]. destruct (I3 (c_next s) ltac:(lia)) as (F1 & F2 & F3).
    assert (Hask : ∀ x, asked x (c, (SSuccess, Some (c_next s))) = None).
    { intros x. subst c. by destruct audit. }
    split; cbn [c_new snd c_next c_heap].
    + lia.
    + rewrite lookup_insert_ne by lia. done.
    + intros ptr Hp. destruct (I3 ptr ltac:(lia)) as (G1 & G2 & G3). split_and!.
      * rewrite lookup_insert_ne by lia. done.
      * by rewrite asked_of_none.
      * intros audit'. rewrite made_snoc; [done|]. right. intros [= E]. rewrite <-E in Hp. lia.
    + intros ptr p Hp. apply lookup_insert_Some in Hp as [[<- [= <-]]|[Hne Hp]].
      * exists audit. split_and!.
        -- intros audit'. rewrite elem_of_app, elem_of_list_singleton. split.
           ++ intros [Hx|[= Hx]]; [by destruct (F3 audit')|]. subst c. by apply made_by_inj.
           ++ intros ->. right. by subst c.
        -- rewrite asked_of_none, F2 by done. done.
        -- done.
        -- cbn. intros raw Hraw. exfalso. destruct audit; cbn in Hraw; set_solver.
      * destruct (I4 ptr p Hp) as (audit' & A1 & A2 & A3 & A4).
        exists audit'. split_and!; [|by rewrite asked_of_none|done|done].
        intros audit''. rewrite made_snoc; [apply A1|]. right. congruence.
  - subst c. by eapply (heap_inv_new h s); try done; intros [].
  - subst c. apply (heap_inv_frame h s); try done; cbn [c_del c_heap].
    + intros x Hx. rewrite lookup_delete_None. by right.
    + intros x q Hx. by apply lookup_delete_Some in Hx as [_ Hx].
    + intros [] ?; by left.
  - subst c. apply (heap_inv_frame h s); try done; cbn [c_del c_heap].
    + intros x Hx. rewrite lookup_delete_None. by right.
    + intros x q Hx. by apply lookup_delete_Some in Hx as [_ Hx].
    + intros [] ?; by left.
  - destruct (hi_made h s Hi ptr p) as (audit & A1 & A2 & A3 & A4); [done|].
    apply (heap_inv_put h s c _ ptr p _ (Some a)); try done.
    + cbn. unfold apply_call_ignore. by rewrite H4.
    + cbn [cp_inner cp_slots]. intros raw. rewrite (inherit_of_call _ _ _ H4); [apply A4|done].
    + intros audit' x. by right.
  - subst c. destruct (hi_made h s Hi ptr p) as (audit & A1 & A2 & A3 & A4); [done|].
    destruct (fill_slot_spec _ _ _ H3) as (L1 & L2 & L3 & _).
    apply (heap_inv_put h s _ _ ptr p _ (Some (CallInherit h0 (Ok true)))); try done.
    + cbn [cp_slots]. by rewrite L1.
    + cbn [cp_inner cp_slots apply_call_ignore apply_call allow_inherit_handle inherit_handles].
      intros raw [Hr|Hr]%elem_of_union.
      * apply elem_of_singleton in Hr as ->. done.
      * by apply L3, A4.
    + intros [] ?; by left.
  - subst c. destruct (hi_made h s Hi ptr p) as (audit & A1 & A2 & A3 & A4); [done|].
    destruct (fill_slot_spec _ _ _ H3) as (L1 & L2 & L3 & _).
    apply (heap_inv_put h s _ _ ptr p _ None); try done.
    + intros x. rewrite asked_fail by done. by case_decide.
    + cbn [cp_slots]. by rewrite L1.
    + cbn [cp_inner cp_slots]. intros raw Hr. by apply L3, A4.
    + intros [] ?; by left.
  - subst c.
    assert (Hh : c_heap (c_close h0 (drop_policy ptr p s)) = delete ptr (c_heap s) ∧
                 c_next (c_close h0 (drop_policy ptr p s)) = c_next s).
    { destruct (drop_slots_heap (cp_slots p) (c_del ptr s)) as [E1 E2].
      split; [exact E1|exact E2]. }
    destruct Hh as [Hh Hn]. apply (heap_inv_frame h s); try done; rewrite ?Hh.
    + intros x Hx. rewrite lookup_delete_None. by right.
    + intros x q Hx. by apply lookup_delete_Some in Hx as [_ Hx].
    + intros [] ?; by left.
  - apply (heap_inv_frame h s); try done; cbn [c_put c_heap].
    + intros x Hx. apply lookup_insert_None. split; [done|]. intros ->. congruence.
    + intros x q Hx. by apply lookup_insert_Some in Hx as [[_ Hx]|[_ Hx]].
    + intros audit x. by right.
  - destruct (c_drop_heap (stream_slot cc i) s) as [E1 E2].
    apply (heap_inv_frame h s); try done; cbn [c_put c_heap c_next]; rewrite ?E1, ?E2; try done.
    + intros x Hx. apply lookup_insert_None. split; [done|]. intros ->. congruence.
    + intros x q Hx. by apply lookup_insert_Some in Hx as [[_ Hx]|[_ Hx]].
    + intros x. subst c. by destruct i as [|[|]].
    + intros audit x. by right.
  - subst c.
    set (s1 := c_del ptr s). set (s2 := c_drop (cc_stdin cc) s1).
    set (s3 := c_drop (cc_stdout cc) s2).
    destruct (c_drop_heap (cc_stderr cc) s3) as [E1 E2].
    destruct (c_drop_heap (cc_stdout cc) s2) as [E3 E4].
    destruct (c_drop_heap (cc_stdin cc) s1) as [E5 E6].
    fold s2 in E5, E6. fold s3 in E3, E4.
    apply (heap_inv_frame h s); try done; rewrite ?E1, ?E2, ?E3, ?E4, ?E5, ?E6; try done;
      cbn [s1 c_del c_heap].
    + intros x Hx. rewrite lookup_delete_None. by right.
    + intros x q Hx. by apply lookup_delete_Some in Hx as [_ Hx].
    + intros [] ?; by left.
  - subst c. by eapply (heap_inv_new h s); try done; intros [].
  - subst c. apply (heap_inv_frame h s); try done; [intros; by apply asked_fail|].
    intros [] ?; by left.
  - subst c. apply (heap_inv_frame h s); try done. intros [] ?; by left.
  - subst c. apply (heap_inv_frame h s); try done. intros [] ?; by left.
Qed.

Lemma heap_inv_init t : heap_inv [] (c_init t).
Proof.
  split; cbn.
  - lia.
  - apply lookup_empty.
  - intros ptr _. split_and!; [apply lookup_empty|done|]. intros audit. apply not_elem_of_nil.
  - intros ptr p. by rewrite lookup_empty.
Qed.

Lemma run_heap_inv cs t rs s :
  c_run cs (c_init t) = CDone (rs, s) → heap_inv (zip cs rs) s.
Proof. apply c_run_ind; [apply heap_inv_init|apply heap_inv_step]. Qed.

(* ---------------------------------------------------------------- ownership *)

(** The descriptors of the configurations, of the caller and the table. *)
Record own_ok (own tab : fdtab) (slot : N → nat → option N) (closes : list (N * bool)) : Prop := {
  oo_own : own ⊆ tab;
  oo_slot : ∀ p i h, slot p i = Some h → is_Some (tab !! h) ∧ own !! h = None;
  oo_inj : ∀ p i p' i' h, slot p i = Some h → slot p' i' = Some h → p = p' ∧ i = i';
  oo_closes : ∀ h b, (h, b) ∈ closes → b = true }.

Lemma own_ok_ext own tab f g cl :
  (∀ p i, f p i = g p i) → own_ok own tab f cl → own_ok own tab g cl.
Proof.
  intros E [A B C D]. split; [done| | |done].
  - intros p i h. rewrite <-E. apply B.
  - intros p i p' i' h. rewrite <-!E. apply C.
Qed.

Lemma own_ok_tab own tab tab' f cl : tab ⊆ tab' → own_ok own tab f cl → own_ok own tab' f cl.
Proof.
  intros E [A B C D]. split; [by etransitivity| |done|done].
  intros p i h Hs. destruct (B p i h Hs) as [[e He] Ho]. split; [|done].
  exists e. by eapply lookup_weaken.
Qed.

Definition without (f : N → nat → option N) (p : N) (i : nat) : N → nat → option N :=
  λ p' i', if decide (p' = p ∧ i' = i) then None else f p' i'.
Definition holding (f : N → nat → option N) (p : N) (i : nat) (o : option N)
  : N → nat → option N :=
  λ p' i', if decide (p' = p ∧ i' = i) then o else f p' i'.

(** A configuration lets go of a descriptor. *)
Lemma own_ok_drop own s f p i o :
  own_ok own (c_tab s) f (c_closes s) → f p i = o →
  own_ok own (c_tab (c_drop o s)) (without f p i) (c_closes (c_drop o s)).
Proof.
  intros [A B C D] Hf. destruct o as [h|]; cbn [c_drop].
  - destruct (B p i h Hf) as [Ht Ho]. cbn [c_close c_tab c_closes]. split.
    + by apply delete_keeps.
    + intros p' i' h'. unfold without. case_decide as E; [done|]. intros Hs.
      destruct (B p' i' h' Hs) as [? ?]. split; [|done].
      rewrite lookup_delete_ne; [done|]. intros ->. apply E. by eapply C.
    + intros p1 i1 p2 i2 h'. unfold without. case_decide; [done|]. case_decide; [done|]. apply C.
    + intros h' b [Hin|Hin]%elem_of_app; [by eapply D|].
      apply elem_of_list_singleton in Hin as [= -> ->]. by apply bool_decide_eq_true.
  - split; [done| | |done].
    + intros p' i' h'. unfold without. case_decide; [done|]. apply B.
    + intros p1 i1 p2 i2 h'. unfold without. case_decide; [done|]. case_decide; [done|]. apply C.
Qed.

(** A configuration takes a descriptor from the caller. *)
Lemma own_ok_take own tab f p i h cl :
  own_ok own tab f cl → f p i = None → is_Some (own !! h) →
  own_ok (delete h own) tab (holding f p i (Some h)) cl.
Proof.
  intros [A B C D] Hf [e He]. split; [| | |done].
  - etransitivity; [apply delete_subseteq|done].
  - intros p' i' h'. unfold holding. case_decide as E.
    + intros [= <-]. split; [exists e; by eapply lookup_weaken|]. apply lookup_delete.
    + intros Hs. destruct (B p' i' h' Hs) as [? Ho]. split; [done|].
      by apply lookup_delete_None; right.
  - assert (∀ p' i', f p' i' ≠ Some h) as Hno.
    { intros p' i' Hs. destruct (B _ _ _ Hs) as [_ Ho]. congruence. }
    intros p1 i1 p2 i2 h'. unfold holding.
    case_decide as E1; case_decide as E2.
    + destruct E1, E2. subst. done.
    + intros [= <-] Hs. by destruct (Hno p2 i2).
    + intros Hs [= <-]. by destruct (Hno p1 i1).
    + apply C.
Qed.

Lemma own_ok_open own tab f n e cl :
  own_ok own tab f cl → tab !! n = None → own_ok (<[n := e]> own) (<[n := e]> tab) f cl.
Proof.
  intros [A B C D] Hn. split; [|..|done|done].
  - by apply insert_mono.
  - intros p i h Hs. destruct (B p i h Hs) as [[x Hx] Ho].
    assert (n ≠ h) by (intros ->; congruence). rewrite !lookup_insert_ne by done. eauto.
Qed.

Lemma own_ok_close own tab f n cl :
  own_ok own tab f cl → is_Some (own !! n) → own_ok (delete n own) (delete n tab) f cl.
Proof.
  intros [A B C D] [e Hn]. split; [|..|done|done].
  - by apply delete_mono.
  - intros p i h Hs. destruct (B p i h Hs) as [Ht Ho].
    assert (n ≠ h) by (intros ->; congruence). rewrite !lookup_delete_ne by done. done.
Qed.

Definition slot_in (hp : gmap N c_obj) (p : N) (i : nat) : option N :=
  match hp !! p with Some (OConfig c) => stream_slot c i | _ => None end.

(** Objects that are not configurations can come and go. *)
Lemma slot_insert hp ptr o :
  (∀ c, hp !! ptr ≠ Some (OConfig c)) → (∀ c, o ≠ OConfig c) →
  ∀ p i, slot_in hp p i = slot_in (<[ptr := o]> hp) p i.
Proof.
  intros H1 H2 p i. unfold slot_in. destruct (decide (ptr = p)) as [->|Hne].
  - rewrite lookup_insert. destruct o as [q|c|w].
    + destruct (hp !! p) as [[]|] eqn:E; try done. by destruct (H1 c).
    + by destruct (H2 c).
    + destruct (hp !! p) as [[]|] eqn:E; try done. by destruct (H1 c).
  - by rewrite lookup_insert_ne.
Qed.
Lemma slot_delete hp ptr :
  (∀ c, hp !! ptr ≠ Some (OConfig c)) → ∀ p i, slot_in hp p i = slot_in (delete ptr hp) p i.
Proof.
  intros H1 p i. unfold slot_in. destruct (decide (ptr = p)) as [->|Hne].
  - rewrite lookup_delete. destruct (hp !! p) as [[]|] eqn:E; try done. by destruct (H1 c).
  - by rewrite lookup_delete_ne.
Qed.
(** A configuration without descriptors appears. *)
Lemma slot_new hp ptr cfg :
  hp !! ptr = None →
  ∀ p i, slot_in hp p i = slot_in (<[ptr := OConfig (mkCConfig cfg None None None)]> hp) p i.
Proof.
  intros H p i. unfold slot_in. destruct (decide (ptr = p)) as [->|Hne].
  - rewrite lookup_insert, H. by destruct i as [|[|[|]]].
  - by rewrite lookup_insert_ne.
Qed.

(** Room for the handles still to be offered. *)
Record room_inv (s : c_state) (cs : list c_call) : Prop := {
  ri_policy : ∀ ptr p, c_heap s !! ptr = Some (OPolicy p) →
    (offered ptr cs ≤ length (filter (λ o, o = None) (cp_slots p)))%nat;
  ri_new : ∀ ptr, c_next s ≤ ptr → (offered ptr cs ≤ 32)%nat;
  ri_fresh : ∀ ptr, c_next s ≤ ptr → c_heap s !! ptr = None }.

Lemma offered_cons ptr c cs :
  offered ptr (c :: cs) = ((if offers ptr c then 1 else 0) + offered ptr cs)%nat.
Proof.
  unfold offered. rewrite filter_cons. by destruct (offers ptr c).
Qed.
Lemma fill_slot_room h slots :
  (1 ≤ length (filter (λ o, o = None) slots))%nat → fill_slot h slots ≠ None.
Proof.
  induction slots as [|[x|] slots IH]; cbn [fill_slot].
  - cbn. lia.
  - rewrite filter_cons, decide_False by done. intros Hl.
    specialize (IH Hl). by destruct (fill_slot h slots).
  - done.
Qed.

(** Whatever the effect, policies keep their room. *)
Lemma room_step s c r s' cs :
  effect c s r s' → room_inv s (c :: cs) → room_inv s' cs.
Proof.
  intros He [R1 R2 R3].
  assert (Hc : ∀ ptr, (offered ptr cs ≤ offered ptr (c :: cs))%nat)
    by (intros ptr; rewrite offered_cons; lia).
  assert (Hframe : c_next s' = c_next s →
    (∀ ptr, c_heap s !! ptr = None → c_heap s' !! ptr = None) →
    (∀ ptr p, c_heap s' !! ptr = Some (OPolicy p) →
       ∃ q, c_heap s !! ptr = Some (OPolicy q) ∧ cp_slots q = cp_slots p) →
    room_inv s' cs).
  { intros Hn Hnone Hp. split.
    - intros ptr p E. destruct (Hp _ _ E) as (q & Eq & Hs). specialize (R1 _ _ Eq).
      rewrite Hs in R1. specialize (Hc ptr). lia.
    - intros ptr Hge. rewrite Hn in Hge. specialize (R2 _ Hge). specialize (Hc ptr). lia.
    - intros ptr Hge. rewrite Hn in Hge. auto. }
  assert (Hfill : ∀ ptr p h slots inner, c = PolicyInherit ptr h → h < 2 ^ 31 →
    c_heap s !! ptr = Some (OPolicy p) → fill_slot h (cp_slots p) = Some slots →
    s' = c_put ptr (OPolicy (mkCPolicy inner slots)) s → room_inv s' cs).
  { intros ptr p h slots inner -> Hh Hp Hf ->.
    destruct (fill_slot_spec _ _ _ Hf) as (_ & _ & _ & _ & Hl).
    assert (Hlt : ptr < c_next s).
    { destruct (N.lt_ge_cases ptr (c_next s)) as [|Hge]; [done|].
      specialize (R3 _ Hge). congruence. }
    split; cbn [c_put c_heap c_next].
    - intros x q Hx. apply lookup_insert_Some in Hx as [[<- [= <-]]|[Hne Hx]].
      + cbn [cp_slots]. specialize (R1 _ _ Hp). rewrite offered_cons in R1. cbn [offers] in R1.
        rewrite N.eqb_refl in R1. replace (h <? 2 ^ 31) with true in R1 by lia.
        cbn in R1. lia.
      + specialize (R1 _ _ Hx). specialize (Hc x). lia.
    - intros x Hx. specialize (R2 _ Hx). specialize (Hc x). lia.
    - intros x Hx. rewrite lookup_insert_ne by lia. by apply R3. }
  destruct He.
  - apply Hframe; eauto.
  - apply Hframe; eauto.
  - split; cbn [c_new snd c_heap c_next].
    + intros ptr p Hx. apply lookup_insert_Some in Hx as [[<- [= <-]]|[Hne Hx]].
      * cbn [cp_slots]. specialize (R2 (c_next s) ltac:(lia)). specialize (Hc (c_next s)).
        change (offered (c_next s) cs ≤ 32)%nat. lia.
      * specialize (R1 _ _ Hx). specialize (Hc ptr). lia.
    + intros ptr Hx. specialize (R2 ptr ltac:(lia)). specialize (Hc ptr). lia.
    + intros ptr Hx. rewrite lookup_insert_ne; [apply R3; lia|].
      intros <-. lia.
  - split; cbn [c_new snd c_heap c_next].
    + intros ptr p Hx. apply lookup_insert_Some in Hx as [[<- [=]]|[Hne Hx]].
      specialize (R1 _ _ Hx). specialize (Hc ptr). lia.
    + intros ptr Hx. specialize (R2 ptr ltac:(lia)). specialize (Hc ptr). lia.
    + intros ptr Hx. rewrite lookup_insert_ne; [apply R3; lia|]. intros <-. lia.
  - apply Hframe; cbn [c_del c_heap c_next]; [done| |].
    + intros x Hx. rewrite lookup_delete_None. by right.
    + intros x q Hx. apply lookup_delete_Some in Hx as [_ Hx]. eauto.
  - apply Hframe; cbn [c_del c_heap c_next]; [done| |].
    + intros x Hx. rewrite lookup_delete_None. by right.
    + intros x q Hx. apply lookup_delete_Some in Hx as [_ Hx]. eauto.
  - apply Hframe; cbn [c_put c_heap c_next]; [done| |].
    + intros x Hx. apply lookup_insert_None. split; [done|]. intros ->. congruence.
    + intros x q' Hx. apply lookup_insert_Some in Hx as [[<- [= <-]]|[_ Hx]]; [|eauto].
      exists p. by split.
  - by eapply Hfill.
  - by eapply Hfill.
  - exfalso. subst c. specialize (R1 _ _ H2). rewrite offered_cons in R1. cbn [offers] in R1.
    rewrite N.eqb_refl in R1. replace (h <? 2 ^ 31) with true in R1 by lia. cbn in R1.
    by apply (fill_slot_room h (cp_slots p)); [lia|].
  - apply Hframe; cbn [c_put c_heap c_next]; [done| |].
    + intros x Hx. apply lookup_insert_None. split; [done|]. intros ->. congruence.
    + intros x q' Hx. apply lookup_insert_Some in Hx as [[_ Hx]|[_ Hx]]; [done|eauto].
  - destruct (c_drop_heap (stream_slot cc i) s) as [E1 E2].
    apply Hframe; cbn [c_put c_heap c_next]; rewrite ?E1, ?E2; [done| |].
    + intros x Hx. apply lookup_insert_None. split; [done|]. intros ->. congruence.
    + intros x q' Hx. apply lookup_insert_Some in Hx as [[_ Hx]|[_ Hx]]; [done|eauto].
  - set (s1 := c_del ptr s) in *. set (s2 := c_drop (cc_stdin cc) s1) in *.
    set (s3 := c_drop (cc_stdout cc) s2) in *.
    destruct (c_drop_heap (cc_stderr cc) s3) as [E1 E2].
    destruct (c_drop_heap (cc_stdout cc) s2) as [E3 E4].
    destruct (c_drop_heap (cc_stdin cc) s1) as [E5 E6].
    fold s2 in E5, E6. fold s3 in E3, E4.
    apply Hframe; rewrite ?E1, ?E2, ?E3, ?E4, ?E5, ?E6; cbn [s1 c_del c_heap c_next]; [done| |].
    + intros x Hx. rewrite lookup_delete_None. by right.
    + intros x q Hx. apply lookup_delete_Some in Hx as [_ Hx]. eauto.
  - split; cbn [c_heap c_next].
    + intros ptr p Hx. apply lookup_insert_Some in Hx as [[<- [=]]|[Hne Hx]].
      specialize (R1 _ _ Hx). specialize (Hc ptr). lia.
    + intros ptr Hx. specialize (R2 ptr ltac:(lia)). specialize (Hc ptr). lia.
    + intros ptr Hx. rewrite lookup_insert_ne; [apply R3; lia|]. intros <-. lia.
  - apply Hframe; eauto.
  - apply Hframe; eauto.
  - apply Hframe; eauto.
Qed.

Lemma owns_after_fail own c st out : st ≠ SSuccess → owns_after own (c, (st, out)) = own.
Proof. intros H. destruct c; try done; by destruct st. Qed.

Lemma owns_after_keep own (c : c_call) (r : c_ret) :
  (∀ fd, c ≠ HostClose fd) → (∀ l f g, c ≠ HostOpen l f g) → passes c = None →
  owns_after own (c, r) = own.
Proof.
  intros H1 H2 H3. destruct r as [st out].
  destruct c; cbn [owns_after]; rewrite ?H3; try (by destruct st).
  - by destruct (H2 limit file flags).
  - by destruct (H1 fd).
Qed.
Lemma owns_after_pass own (c : c_call) out :
  (∀ fd, c ≠ HostClose fd) ∧ (∀ l f g, c ≠ HostOpen l f g) →
  owns_after own (c, (SSuccess, out)) =
  match passes c with Some h => delete h own | None => own end.
Proof.
  intros [H1 H2]. destruct c; try done.
  - by destruct (H2 limit file flags).
  - by destruct (H1 fd).
Qed.

Lemma own_step own s c r s' cs :
  effect c s r s' → room_inv s (c :: cs) →
  (∀ h, passes c = Some h → is_Some (own !! h)) →
  (∀ fd, c = HostClose fd → is_Some (own !! fd)) →
  own_ok own (c_tab s) (slot_in (c_heap s)) (c_closes s) →
  own_ok (owns_after own (c, r)) (c_tab s') (slot_in (c_heap s')) (c_closes s').
Proof.
  intros He [R1 R2 R3] Hpass Hcl Ho.
  assert (Hnew : ∀ o, (∀ c, o ≠ OConfig c) →
    ∀ p i, slot_in (c_heap s) p i = slot_in (<[c_next s := o]> (c_heap s)) p i).
  { intros o Hno. apply slot_insert; [|done]. intros c'. rewrite R3; [done|lia]. }
  destruct He.
  - by rewrite owns_after_fail.
  - by subst c.
  - assert (∀ fd, c ≠ HostClose fd) by (subst c; by destruct audit).
    rewrite owns_after_keep; [|done|subst c; by destruct audit..].
    cbn [c_new snd c_tab c_heap c_closes]. eapply own_ok_ext; [by apply Hnew|done].
  - subst c. cbn [owns_after passes c_new snd c_tab c_heap c_closes].
    eapply own_ok_ext; [|exact Ho]. apply slot_new, R3. lia.
  - subst c. cbn [owns_after passes c_del c_tab c_heap c_closes].
    eapply own_ok_ext; [|exact Ho]. apply slot_delete. intros c'. congruence.
  - subst c. cbn [owns_after passes c_del c_tab c_heap c_closes].
    eapply own_ok_ext; [|exact Ho]. apply slot_delete. intros c'. congruence.
  - specialize (H1 ptr). rewrite decide_True in H1 by done.
    rewrite owns_after_keep by by destruct c.
    cbn [c_put c_tab c_heap c_closes]. eapply own_ok_ext; [|exact Ho].
    apply slot_insert; [|done]. intros c'. congruence.
  - subst c. cbn [owns_after passes c_put c_tab c_heap c_closes].
    eapply own_ok_ext; [|exact Ho]. apply slot_insert; [|done]. intros c'. congruence.
  - rewrite owns_after_fail by done. cbn [c_put c_tab c_heap c_closes].
    eapply own_ok_ext; [|exact Ho]. apply slot_insert; [|done]. intros c'. congruence.
  - exfalso. subst c. specialize (R1 _ _ H2). rewrite offered_cons in R1. cbn [offers] in R1.
    rewrite N.eqb_refl in R1. replace (h <? 2 ^ 31) with true in R1 by lia. cbn in R1.
    by apply (fill_slot_room h (cp_slots p)); [lia|].
  - rewrite owns_after_keep by done.
    cbn [c_put c_tab c_heap c_closes]. eapply own_ok_ext; [|exact Ho].
    intros p i. unfold slot_in. destruct (decide (ptr = p)) as [<-|Hne].
    + rewrite lookup_insert, H. by destruct i as [|[|[|]]].
    + by rewrite lookup_insert_ne.
  - (* redirection *)
    rewrite owns_after_pass by (subst c; by destruct i as [|[|]]).
    rewrite <-H3. cbn [c_put c_tab c_heap c_closes].
    destruct (c_drop_heap (stream_slot cc i) s) as [E1 _]. rewrite E1.
    assert (Hd := own_ok_drop own s _ ptr i (stream_slot cc i) Ho).
    assert (Hsl : slot_in (c_heap s) ptr i = stream_slot cc i) by (unfold slot_in; by rewrite H1).
    specialize (Hd Hsl).
    assert (Hext : ∀ p j, holding (without (slot_in (c_heap s)) ptr i) ptr i o p j =
      slot_in (<[ptr := OConfig cc']> (c_heap s)) p j).
    { intros p j. unfold holding, without, slot_in. destruct (decide (ptr = p)) as [<-|Hne].
      - rewrite lookup_insert, H1, H5. destruct (decide (i = j)) as [<-|Hij].
        + by rewrite decide_True.
        + rewrite !decide_False; [done|naive_solver|naive_solver].
      - rewrite lookup_insert_ne by done. rewrite !decide_False by naive_solver. done. }
    eapply own_ok_ext; [exact Hext|].
    destruct o as [n|].
    + apply own_ok_take; [done| |].
      * unfold without. by rewrite decide_True.
      * by apply Hpass.
    + eapply own_ok_ext; [|exact Hd]. intros p j. unfold holding, without.
      by case_decide.
  - subst c. cbn [owns_after passes].
    set (f := slot_in (c_heap s)) in *.
    assert (H1 := own_ok_drop own (c_del ptr s) f ptr 0 (cc_stdin cc) Ho).
    assert (∀ i, f ptr i = stream_slot cc i) as Hf by (intros i; unfold f, slot_in; by rewrite H0).
    specialize (H1 (Hf 0%nat)).
    set (s2 := c_drop (cc_stdin cc) (c_del ptr s)) in *.
    assert (H2 := own_ok_drop own s2 _ ptr 1 (cc_stdout cc) H1).
    assert (without f ptr 0 ptr 1 = cc_stdout cc) as K1.
    { unfold without. rewrite decide_False by naive_solver. apply (Hf 1%nat). }
    specialize (H2 K1). set (s3 := c_drop (cc_stdout cc) s2) in *.
    assert (H3 := own_ok_drop own s3 _ ptr 2 (cc_stderr cc) H2).
    assert (without (without f ptr 0) ptr 1 ptr 2 = cc_stderr cc) as K2.
    { unfold without. rewrite !decide_False by naive_solver. apply (Hf 2%nat). }
    specialize (H3 K2).
    destruct (c_drop_heap (cc_stderr cc) s3) as [E1 _].
    destruct (c_drop_heap (cc_stdout cc) s2) as [E3 _].
    destruct (c_drop_heap (cc_stdin cc) (c_del ptr s)) as [E5 _].
    fold s2 in E5. fold s3 in E3. rewrite E1, E3, E5. cbn [c_del c_heap].
    eapply own_ok_ext; [|exact H3]. intros p j. unfold without.
    destruct (decide (ptr = p)) as [<-|Hne].
    + unfold slot_in. rewrite lookup_delete.
      case_decide; [done|]. case_decide; [done|]. case_decide; [done|]. rewrite Hf.
      destruct j as [|[|[|]]]; naive_solver.
    + rewrite !decide_False by naive_solver. unfold f, slot_in. by rewrite lookup_delete_ne.
  - subst c. cbn [owns_after passes c_tab c_heap c_closes].
    eapply own_ok_ext; [by apply Hnew|]. eapply own_ok_tab; [|exact Ho].
    apply worker_new_keeps. congruence.
  - rewrite owns_after_fail by done. cbn [c_set_tab c_tab c_heap c_closes].
    eapply own_ok_tab; [|exact Ho]. apply worker_new_keeps. congruence.
  - subst c. cbn [owns_after c_set_tab c_tab c_heap c_closes]. by apply own_ok_open.
  - subst c. cbn [owns_after c_set_tab c_tab c_heap c_closes]. apply own_ok_close; [done|].
    by apply Hcl.
Qed.

Lemma own_run cs : ∀ s own rs s',
  room_inv s cs → own_ok own (c_tab s) (slot_in (c_heap s)) (c_closes s) →
  hands_over cs s own → c_run cs s = CDone (rs, s') →
  own_ok (owns own (zip cs rs)) (c_tab s') (slot_in (c_heap s')) (c_closes s').
Proof.
  induction cs as [|c cs IH]; intros s own rs s' Hr Ho Hh; cbn [c_run].
  { intros [= <- <-]. done. }
  destruct (c_step c s) as [[r s1]| |] eqn:Es; try done.
  destruct (c_run cs s1) as [[rs1 s2]| |] eqn:Er; try done.
  intros [= <- <-]. cbn [zip owns foldl]. destruct Hh as (H1 & H2 & H3).
  pose proof (c_step_effect _ _ _ _ Es) as He.
  eapply (IH s1 (owns_after own (c, r)) rs1 s2); [by eapply room_step|by eapply own_step|by apply H3|done].
Qed.

Lemma room_init t cs : few_handles cs → room_inv (c_init t) cs.
Proof.
  intros H. split; cbn.
  - intros ptr p. by rewrite lookup_empty.
  - intros ptr _. apply H.
  - intros ptr _. apply lookup_empty.
Qed.
Lemma own_init t : own_ok t (c_tab (c_init t)) (slot_in (c_heap (c_init t))) (c_closes (c_init t)).
Proof.
  split; cbn; [done|..].
  - intros p i h. unfold slot_in. by rewrite lookup_empty.
  - intros p i p' i' h. unfold slot_in. by rewrite lookup_empty.
  - intros h b Hin. by apply elem_of_nil in Hin.
Qed.
Lemma room_run cs cs' : ∀ s rs s',
  room_inv s (cs ++ cs') → c_run cs s = CDone (rs, s') → room_inv s' cs'.
Proof.
  induction cs as [|c cs IH]; intros s rs s' Hr; cbn [c_run].
  { intros [= <- <-]. done. }
  destruct (c_step c s) as [[r s1]| |] eqn:Es; try done.
  destruct (c_run cs s1) as [[rs1 s2]| |] eqn:Er; try done.
  intros [= <- <-]. eapply IH; [|done]. eapply room_step; [by apply c_step_effect|done].
Qed.

(* ---------------------------------------------------------------- the slots of a policy *)

(** Every offer that came to a live policy took a slot. *)
Record used_inv (s : c_state) (past : list c_call) : Prop := {
  ui_policy : ∀ ptr p, c_heap s !! ptr = Some (OPolicy p) →
    (length (filter (λ o, o = None) (cp_slots p)) + offered ptr past = 32)%nat;
  ui_new : ∀ ptr, c_next s ≤ ptr → c_heap s !! ptr = None ∧ offered ptr past = 0%nat;
  ui_next : 0 < c_next s;
  ui_null : c_heap s !! 0 = None }.

Lemma offered_snoc ptr c cs :
  offered ptr (cs ++ [c]) = (offered ptr cs + (if offers ptr c then 1 else 0))%nat.
Proof.
  unfold offered. rewrite filter_app, app_length, filter_cons.
  destruct (offers ptr c); reflexivity.
Qed.

Lemma drop_all_heap l : ∀ s,
  c_heap (foldl (λ s o, c_drop o s) s l) = c_heap s ∧
  c_next (foldl (λ s o, c_drop o s) s l) = c_next s ∧
  ∀ n, c_tab (foldl (λ s o, c_drop o s) s l) !! n =
       if decide (Some n ∈ l) then None else c_tab s !! n.
Proof.
  induction l as [|o l IH]; intros s; cbn [foldl].
  { split; [done|]. split; [done|]. intros n. rewrite decide_False; [done|].
    intros H. by apply elem_of_nil in H. }
  destruct (IH (c_drop o s)) as (H1 & H2 & H3). destruct (c_drop_heap o s) as [E1 E2].
  split; [congruence|]. split; [congruence|]. intros n. rewrite H3.
  destruct (decide (Some n ∈ l)) as [Hin|Hin].
  - rewrite decide_True; [done|]. by right.
  - destruct o as [h|]; cbn [c_drop c_close c_tab].
    + destruct (decide (h = n)) as [->|Hne].
      * rewrite lookup_delete, decide_True; [done|]. by left.
      * rewrite lookup_delete_ne, decide_False; [done| |done].
        intros H. apply elem_of_cons in H as [[= ->]|H]; done.
    + rewrite decide_False; [done|]. intros H. by apply elem_of_cons in H as [?|H].
Qed.

(** The call that finds no slot. *)
Lemma overflow_step ptr h p s :
  ptr ≠ 0 → h < 2 ^ 31 → c_heap s !! ptr = Some (OPolicy p) → fill_slot h (cp_slots p) = None →
  ∃ s', c_step (PolicyInherit ptr h) s = CDone ((STooManyHandles, None), s') ∧
    c_heap s' = delete ptr (c_heap s) ∧ c_next s' = c_next s ∧
    ∀ n, c_tab s' !! n = if decide (n = h ∨ Some n ∈ cp_slots p) then None else c_tab s !! n.
Proof.
  intros Hz Hh Hp Hf. eexists. split.
  { cbn [c_step]. unfold iris_policy_allow_inherit_handle. rewrite (proj2 (N.eqb_neq _ _) Hz).
    unfold handle_from_raw. rewrite (proj2 (N.ltb_lt _ _) Hh). unfold with_policy.
    rewrite Hp, Hf. reflexivity. }
  unfold drop_policy. destruct (drop_all_heap (cp_slots p) (c_del ptr s)) as (H1 & H2 & H3).
  cbn [c_close c_heap c_next c_tab]. split; [by rewrite H1|]. split; [by rewrite H2|].
  intros n. destruct (decide (h = n)) as [->|Hne].
  - rewrite lookup_delete, decide_True; [done|]. by left.
  - rewrite lookup_delete_ne, H3 by done. destruct (decide (Some n ∈ cp_slots p)) as [Hin|Hin].
    + rewrite decide_True; [done|]. by right.
    + rewrite decide_False; [done|]. intros [->|?]; done.
Qed.

Lemma used_step s c r s' past :
  c_step c s = CDone (r, s') → used_inv s past → used_inv s' (past ++ [c]).
Proof.
  intros Hs [U1 U2 U3 U4].
  assert (Hlive : ∀ x o, c_heap s !! x = Some o → x < c_next s ∧ x ≠ 0).
  { intros x o Hx. split; [|intros ->; congruence].
    destruct (N.lt_ge_cases x (c_next s)) as [|Hge]; [done|].
    destruct (U2 _ Hge). congruence. }
  assert ((∃ ptr h, c = PolicyInherit ptr h ∧ ptr ≠ 0 ∧ h < 2 ^ 31) ∨
          ¬ (∃ ptr h, c = PolicyInherit ptr h ∧ ptr ≠ 0 ∧ h < 2 ^ 31)) as [Hoff|Hoff].
  { destruct c; try (right; by intros (? & ? & ? & _)).
    destruct (decide (p ≠ 0 ∧ h < 2 ^ 31)) as [Hd|Hd]; [left; eauto|].
    right. intros (? & ? & [= <- <-] & ?). done. }
  - destruct Hoff as (ptr & h & -> & Hz & Hh).
    destruct (c_heap s !! ptr) as [[p| |]|] eqn:Hp.
    2-4: revert Hs; unfold c_step, iris_policy_allow_inherit_handle, handle_from_raw, with_policy;
      rewrite (proj2 (N.eqb_neq _ _) Hz), (proj2 (N.ltb_lt _ _) Hh), Hp; done.
    destruct (Hlive _ _ Hp) as [Hlt _].
    assert (Hcnt : ∀ x, offered x (past ++ [PolicyInherit ptr h]) =
      (offered x past + if decide (ptr = x) then 1 else 0)%nat).
    { intros x. rewrite offered_snoc. cbn [offers]. rewrite (proj2 (N.ltb_lt _ _) Hh).
      destruct (N.eqb_spec ptr x) as [->|]; [by rewrite decide_True|by rewrite decide_False]. }
    destruct (fill_slot h (cp_slots p)) as [slots|] eqn:Hf.
    + destruct (fill_slot_spec _ _ _ Hf) as (_ & _ & _ & _ & Hl).
      assert (∃ q, s' = c_put ptr (OPolicy (mkCPolicy q slots)) s) as [q ->].
      { revert Hs. unfold c_step, iris_policy_allow_inherit_handle, handle_from_raw, with_policy.
        rewrite (proj2 (N.eqb_neq _ _) Hz), (proj2 (N.ltb_lt _ _) Hh), Hp, Hf.
        destruct (allow_inherit_handle _ _ _); intros [= <- <-]; eauto. }
      split; cbn [c_put c_heap c_next].
      * intros x o Hx. rewrite Hcnt. apply lookup_insert_Some in Hx as [[<- [= <-]]|[Hne Hx]].
        -- rewrite decide_True by done. specialize (U1 _ _ Hp). cbn [cp_slots]. lia.
        -- rewrite decide_False by done. specialize (U1 _ _ Hx). lia.
      * intros x Hx. rewrite Hcnt, decide_False, lookup_insert_ne by lia.
        destruct (U2 _ Hx) as [-> ->]. done.
      * done.
      * by rewrite lookup_insert_ne.
    + destruct (overflow_step ptr h p s Hz Hh Hp Hf) as (s1 & E & Hh1 & Hn1 & _).
      rewrite Hs in E. injection E as -> ->. split; rewrite ?Hh1, ?Hn1.
      * intros x o Hx. rewrite Hcnt. apply lookup_delete_Some in Hx as [Hne Hx].
        rewrite decide_False by done. specialize (U1 _ _ Hx). lia.
      * intros x Hx. rewrite Hcnt, decide_False by lia. destruct (U2 _ Hx) as [E1 ->].
        rewrite lookup_delete_ne by lia. done.
      * done.
      * by rewrite lookup_delete_None; right.
  - assert (Ho : ∀ x, x ≠ 0 → offers x c = false).
    { intros x Hx. destruct c; try done. cbn [offers].
      destruct (N.eqb_spec p x) as [->|]; [|done]. destruct (N.ltb_spec h (2 ^ 31)); [|done].
      exfalso. apply Hoff. by exists x, h. }
    assert (Hno : ∀ x, x ≠ 0 → offered x (past ++ [c]) = offered x past).
    { intros x Hx. rewrite offered_snoc, Ho by done. lia. }
    pose proof (c_step_effect _ _ _ _ Hs) as He. clear Hs.
    assert (Hframe : c_next s' = c_next s →
      (∀ ptr, c_heap s !! ptr = None → c_heap s' !! ptr = None) →
      (∀ ptr p, c_heap s' !! ptr = Some (OPolicy p) →
         ∃ q, c_heap s !! ptr = Some (OPolicy q) ∧ cp_slots q = cp_slots p) →
      used_inv s' (past ++ [c])).
    { intros Hn Hnone Hp. split; rewrite ?Hn; [..|done|by apply Hnone].
      - intros ptr p E. destruct (Hp _ _ E) as (q & Eq & Hs). pose proof (U1 _ _ Eq) as K.
        destruct (Hlive _ _ Eq) as [_ Hz]. rewrite Hs in K. by rewrite Hno.
      - intros ptr Hge. destruct (U2 _ Hge) as [E1 E2]. rewrite Hno by lia. auto. }
    assert (Hnew : ∀ s1 o, c_heap s1 = <[c_next s := o]> (c_heap s) → c_next s1 = c_next s + 1 →
      (∀ p, o = OPolicy p → cp_slots p = replicate 32 None) → used_inv s1 (past ++ [c])).
    { intros s1 o Eh En Hp. split; rewrite ?Eh, ?En.
      - intros x q Hx. apply lookup_insert_Some in Hx as [[<- ->]|[Hne Hx]].
        + rewrite (Hp _ eq_refl), Hno by lia. destruct (U2 (c_next s)) as [_ ->]; [lia|]. done.
        + rewrite Hno; [by apply U1|]. by destruct (Hlive _ _ Hx).
      - intros x Hx. rewrite lookup_insert_ne, Hno by lia. apply U2. lia.
      - lia.
      - rewrite lookup_insert_ne by lia. done. }
    destruct He.
    + apply Hframe; eauto.
    + apply Hframe; eauto.
    + eapply Hnew; [done|done|]. by intros p [= <-].
    + eapply Hnew; [done|done|]. done.
    + apply Hframe; cbn [c_del c_heap c_next]; [done| |].
      * intros x Hx. rewrite lookup_delete_None. by right.
      * intros x q Hx. apply lookup_delete_Some in Hx as [_ Hx]. eauto.
    + apply Hframe; cbn [c_del c_heap c_next]; [done| |].
      * intros x Hx. rewrite lookup_delete_None. by right.
      * intros x q Hx. apply lookup_delete_Some in Hx as [_ Hx]. eauto.
    + apply Hframe; cbn [c_put c_heap c_next]; [done| |].
      * intros x Hx. apply lookup_insert_None. split; [done|]. intros ->. congruence.
      * intros x q' Hx. apply lookup_insert_Some in Hx as [[<- [= <-]]|[_ Hx]]; [|eauto].
        exists p. by split.
    + exfalso. apply Hoff. eauto.
    + exfalso. apply Hoff. eauto.
    + exfalso. apply Hoff. eauto.
    + apply Hframe; cbn [c_put c_heap c_next]; [done| |].
      * intros x Hx. apply lookup_insert_None. split; [done|]. intros ->. congruence.
      * intros x q' Hx. apply lookup_insert_Some in Hx as [[_ Hx]|[_ Hx]]; [done|eauto].
    + destruct (c_drop_heap (stream_slot cc i) s) as [E1 E2].
      apply Hframe; cbn [c_put c_heap c_next]; rewrite ?E1, ?E2; [done| |].
      * intros x Hx. apply lookup_insert_None. split; [done|]. intros ->. congruence.
      * intros x q' Hx. apply lookup_insert_Some in Hx as [[_ Hx]|[_ Hx]]; [done|eauto].
    + set (s1 := c_del ptr s) in *. set (s2 := c_drop (cc_stdin cc) s1) in *.
      set (s3 := c_drop (cc_stdout cc) s2) in *.
      destruct (c_drop_heap (cc_stderr cc) s3) as [E1 E2].
      destruct (c_drop_heap (cc_stdout cc) s2) as [E3 E4].
      destruct (c_drop_heap (cc_stdin cc) s1) as [E5 E6].
      fold s2 in E5, E6. fold s3 in E3, E4.
      apply Hframe; rewrite ?E1, ?E2, ?E3, ?E4, ?E5, ?E6; cbn [s1 c_del c_heap c_next]; [done| |].
      * intros x Hx. rewrite lookup_delete_None. by right.
      * intros x q Hx. apply lookup_delete_Some in Hx as [_ Hx]. eauto.
    + eapply Hnew; [done|done|]. done.
    + apply Hframe; eauto.
    + apply Hframe; eauto.
    + apply Hframe; eauto.
Qed.

Lemma used_run cs : ∀ s past rs s',
  used_inv s past → c_run cs s = CDone (rs, s') → used_inv s' (past ++ cs).
Proof.
  induction cs as [|c cs IH]; intros s past rs s' Hr; cbn [c_run].
  { intros [= <- <-]. by rewrite app_nil_r. }
  destruct (c_step c s) as [[r s1]| |] eqn:Es; try done.
  destruct (c_run cs s1) as [[rs1 s2]| |] eqn:Er; try done.
  intros [= <- <-]. rewrite cons_middle, app_assoc. eapply IH; [|done]. by eapply used_step.
Qed.
Lemma used_init t : used_inv (c_init t) [].
Proof.
  split; cbn; [|..|done|apply lookup_empty].
  - intros ptr p. by rewrite lookup_empty.
  - intros ptr _. by rewrite lookup_empty.
Qed.
Lemma fill_slot_full h slots :
  length (filter (λ o, o = None) slots) = 0%nat → fill_slot h slots = None.
Proof.
  induction slots as [|[x|] slots IH]; cbn [fill_slot]; [done| |].
  - rewrite filter_cons, decide_False by done. intros Hl. by rewrite IH.
  - rewrite filter_cons, decide_True by done. done.
Qed.

(* ---------------------------------------------------------------- processes *)

Lemma c_drop_running o s : c_running (c_drop o s) = c_running s.
Proof. by destruct o. Qed.
Lemma drop_all_running l : ∀ s,
  c_running (foldl (λ s o, c_drop o s) s l) = c_running s.
Proof.
  induction l as [|o l IH]; intros s; cbn [foldl]; [done|]. rewrite IH. apply c_drop_running.
Qed.
Lemma running_step (c : c_call) s (r : c_ret) s' :
  c_step c s = CDone (r, s') →
  (∀ w pid, c_heap s' !! w = Some (OWorker pid) →
     c_heap s !! w = Some (OWorker pid) ∨ pid ∈ c_running s') ∧
  (∀ pid, pid ∈ c_running s → pid ∈ c_running s').
Proof.
  intros Hs. pose proof (c_step_effect _ _ _ _ Hs) as He. clear Hs. destruct He.
  - split; [by left|done].
  - split; [by left|done].
  - split; [|done]. intros w pid. cbn [c_new snd c_heap]. intros Hx.
    apply lookup_insert_Some in Hx as [[_ ?]|[_ ?]]; [done|by left].
  - split; [|done]. intros w pid. cbn [c_new snd c_heap]. intros Hx.
    apply lookup_insert_Some in Hx as [[_ ?]|[_ ?]]; [done|by left].
  - split; [|done]. intros w pid. cbn [c_del c_heap]. intros [_ Hx]%lookup_delete_Some. by left.
  - split; [|done]. intros w pid'. cbn [c_del c_heap]. intros [_ Hx]%lookup_delete_Some. by left.
  - split; [|done]. intros w pid. cbn [c_put c_heap]. intros Hx.
    apply lookup_insert_Some in Hx as [[_ ?]|[_ ?]]; [done|by left].
  - split; [|done]. intros w pid. cbn [c_put c_heap]. intros Hx.
    apply lookup_insert_Some in Hx as [[_ ?]|[_ ?]]; [done|by left].
  - split; [|done]. intros w pid. cbn [c_put c_heap]. intros Hx.
    apply lookup_insert_Some in Hx as [[_ ?]|[_ ?]]; [done|by left].
  - assert (c_running (drop_policy ptr p s) = c_running s) as Hr.
    { unfold drop_policy. by rewrite drop_all_running. }
    unfold drop_policy in Hr. cbn [c_close c_running c_heap]. unfold drop_policy. rewrite Hr.
    destruct (drop_all_heap (cp_slots p) (c_del ptr s)) as (-> & _).
    split; [|done]. intros w pid. cbn [c_del c_heap]. intros [_ Hx]%lookup_delete_Some. by left.
  - split; [|done]. intros w pid. cbn [c_put c_heap]. intros Hx.
    apply lookup_insert_Some in Hx as [[_ ?]|[_ ?]]; [done|by left].
  - cbn [c_put c_running c_heap]. rewrite c_drop_running.
    destruct (c_drop_heap (stream_slot cc i) s) as [-> _]. split; [|done].
    intros w pid Hx. apply lookup_insert_Some in Hx as [[_ ?]|[_ ?]]; [done|by left].
  - rewrite !c_drop_running. set (s1 := c_del ptr s) in *. set (s2 := c_drop (cc_stdin cc) s1) in *.
    set (s3 := c_drop (cc_stdout cc) s2) in *.
    destruct (c_drop_heap (cc_stderr cc) s3) as [-> _].
    destruct (c_drop_heap (cc_stdout cc) s2) as [E3 _].
    destruct (c_drop_heap (cc_stdin cc) s1) as [E5 _].
    fold s2 in E5. fold s3 in E3. rewrite E3, E5. unfold s1. cbn [c_del c_heap c_running].
    split; [|done]. intros w pid [_ Hx]%lookup_delete_Some. by left.
  - cbn [c_heap c_running]. split; [|by right].
    intros w pid' Hx. apply lookup_insert_Some in Hx as [[_ [= <-]]|[_ ?]]; [right; by left|by left].
  - split; [by left|done].
  - split; [by left|done].
  - split; [by left|done].
Qed.
