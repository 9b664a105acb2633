(** Property C137: starting a worker in a program with several threads. [w] tells who holds the
    locks of the C library in the program at the moment of the clone; the calling thread holds
    none. *)
From stdpp Require Import prelude gmap relations.
From Coq Require Import Strings.Byte ZifyN ZifyNat ZifyBool.
From Verif Require Import Bytes PolicyModel PolicySpec LinuxPolicyModel PostcardModel FdModel
  FdProofs ChannelModel ChannelProofs BrokerModel BrokerSpec BrokerProofs BrokerProps BpfModel SeccompModel
  EntryModel EntryProofs EntryProps ProcessModel ProcessProofs ProcessProps LockModel
  CloneLockModel.
Local Open Scope N_scope.

(* ---------------------------------------------------------------- a lock held at the clone *)

Lemma waits_ext w w' uses : (∀ l, w l = w' l) → waits w uses = waits w' uses.
Proof.
  intros H. induction uses as [|[l s] uses IH]; [done|]. cbn [waits]. rewrite H.
  by destruct (w' l).
Qed.
Lemma waits_in w uses s :
  waits w uses = Some s → ∃ l o, (l, s) ∈ uses ∧ w l = Some o.
Proof.
  induction uses as [|[l s'] uses IH]; [done|]. cbn [waits]. destruct (w l) as [o|] eqn:E.
  - intros [= ->]. exists l, o. split; [left|done].
  - intros H. destruct (IH H) as (l' & o & Hin & Hw). exists l', o. split; [by right|done].
Qed.
Lemma use_ops_take uses l s : (l, s) ∈ uses → Take l ∈ use_ops uses.
Proof.
  unfold use_ops. induction uses as [|[l' s'] uses IH].
  { intros H. by apply elem_of_nil in H. }
  rewrite elem_of_cons. cbn [map concat app fst]. intros [[= -> ->]|Hin]; [left|].
  right. right. by apply IH.
Qed.

Lemma never_done tid uses m s m' :
  (∀ l, lm_word m l ≠ Some tid) → waits (lm_word m) uses = Some s →
  rtc lock_step (clone_mem tid (use_ops uses) m) m' → lm_threads m' !! tid ≠ Some [].
Proof.
  intros Hf Hw Hr. destruct (waits_in _ _ _ Hw) as (l0 & o & Hin & Hl0).
  assert (Ho : o ≠ tid) by (intros ->; by eapply Hf).
  set (I := λ x : lock_mem clock, ∃ ops, lm_threads x = {[ tid := ops ]} ∧ lm_word x l0 = Some o ∧
    Take l0 ∈ ops).
  assert (I m') as (ops & -> & _ & Ht).
  { assert (I (clone_mem tid (use_ops uses) m)) as H0.
    { eexists. split; [done|]. split; [done|]. by eapply use_ops_take. }
    revert H0. clear -Hr Ho. induction Hr as [|x y z Hs _ IH]; [done|]. intros (ops & E1 & E2 & E3).
    apply IH. clear IH. destruct Hs as [x t l ops' Ht Hl|x t l ops' Ht Hl]; rewrite E1 in Ht;
      apply lookup_singleton_Some in Ht as [<- ->]; exists ops'; cbn [lm_threads lm_word];
      rewrite E1, insert_singleton; (split; [done|]).
    - assert (l0 ≠ l) by congruence. split; [unfold set_word; by rewrite decide_False|].
      apply elem_of_cons in E3 as [[= ->]|]; done.
    - assert (l0 ≠ l) by congruence. split; [unfold set_word; by rewrite decide_False|].
      by apply elem_of_cons in E3 as [|]. }
  rewrite lookup_singleton. intros [= ->]. by apply elem_of_nil in Ht.
Qed.
Lemma can_finish tid uses : ∀ w,
  waits w uses = None →
  ∃ m', rtc lock_step (mkLockMem w {[ tid := use_ops uses ]}) m' ∧ lm_threads m' !! tid = Some [].
Proof.
  induction uses as [|[l s] uses IH]; intros w H.
  { eexists. split; [apply rtc_refl|]. cbn [lm_threads]. by rewrite lookup_singleton. }
  cbn [waits] in H. destruct (w l) eqn:El; [done|].
  destruct (IH (set_word l None (set_word l (Some tid) w))) as (m' & Hr & Hd).
  { rewrite <- H. apply waits_ext. intros k. unfold set_word. destruct (decide (k = l)); congruence. }
  exists m'. split; [|done]. change (use_ops ((l, s) :: uses)) with (Take l :: Give l :: use_ops uses).
  eapply rtc_l.
  { apply (StepTake _ tid l (Give l :: use_ops uses)); cbn [lm_threads lm_word]; [|done].
    by rewrite lookup_singleton. }
  cbn [lm_threads lm_word]. rewrite insert_singleton. eapply rtc_l.
  { apply (StepGive _ tid l (use_ops uses)); cbn [lm_threads lm_word].
    - by rewrite lookup_singleton.
    - unfold set_word. by rewrite decide_True. }
  cbn [lm_threads lm_word]. by rewrite insert_singleton.
Qed.

(** A lock held by a thread that does not exist in the new process is never given back: the new
    process waits for ever exactly where [waits] says so. *)
Theorem C137_forever tid uses m :
  (∀ l, lm_word m l ≠ Some tid) →
  (is_Some (waits (lm_word m) uses) ↔
   ∀ m', rtc lock_step (clone_mem tid (use_ops uses) m) m' → lm_threads m' !! tid ≠ Some []).
Proof.
  intros Hf. split.
  - intros [s Hs] m' Hr. by eapply never_done.
  - intros H. destruct (waits (lm_word m) uses) eqn:E; [done|]. exfalso.
    destruct (can_finish tid uses _ E) as (m' & Hr & Hd). by eapply H.
Qed.
Print Assumptions C137_forever.

(* ---------------------------------------------------------------- the state of a process that waits *)

Lemma before_caps_spec e p s :
  set_caps (drop_capabilities (ee_caps e) (ep_caps (before_caps e p s))) (before_caps e p s) =
  prepared e p s.
Proof. done. Qed.
Lemma before_caps_tab e p s :
  ep_tab (before_caps e p s) = ep_tab s ∧ writes_ok e s (before_caps e p s).
Proof.
  destruct (prepared_spec e p s) as (T & _ & _ & _ & W). rewrite <- before_caps_spec in T, W.
  split; [exact T|]. intros v Hv. by apply W.
Qed.

Lemma entry_uses_free w e p s :
  w LAlloc = None → (w LExit = None ∨ ∃ s', clone_entrypoint e p s = EpStarted s') →
  waits w (entry_uses e p s) = None.
Proof.
  intros Ha He. unfold entry_uses.
  assert (Hx : waits w (exit_use (clone_entrypoint e p s)) = None).
  { destruct (clone_entrypoint e p s) eqn:E; [|done]. cbn [exit_use waits].
    destruct He as [->|[s' ?]]; done. }
  destruct (ee_nnp e); cbn [negb]; [|done].
  cbn [waits]. rewrite Ha.
  destruct (ce_get_proc (ee_caps e)); cbn [app waits]; rewrite ?Ha;
    (destruct (ep_open _ _ _ _ _) as [[]|]; cbn [app waits]; rewrite ?Ha; exact Hx).
Qed.

Definition ends (x : clone_flags * ep_result) : clone_flags * locked_child := (x.1, ChEnds x.2).

Lemma process_free w pe p c t r t' child :
  process_new pe p c t = (r, t', child) → w LAlloc = None →
  (w LExit = None ∨ ∃ fl s', child = Some (fl, EpStarted s')) →
  process_new_locks w pe p c t = (r, t', ends <$> child).
Proof.
  unfold process_new, process_new_locks. intros H Ha He.
  case_bool_decide; [by injection H as <- <- <-|].
  destruct (pe_pipe pe) as [[fr fw]|e]; [|by injection H as <- <- <-].
  destruct (install2 _ _ _ _) as [[[rd wr] t1]|]; [|by injection H as <- <- <-].
  destruct (handle_set_inheritable wr false t1) as [t2| |]; [|by injection H as <- <- <-..].
  destruct (clone_chain (pe_clone pe)) as [[fl|e] calls]; [|by injection H as <- <- <-].
  cbv zeta in *. unfold entry_locks.
  set (params := mkParams _ _ _ _ _ _ _ _ _ _) in *.
  set (s0 := mkEp _ _ _ _ _ _ _) in *.
  rewrite entry_uses_free; [|done|].
  2:{ destruct He as [|(fl' & s' & ->)]; [by left|right]. exists s'.
      destruct (pe_read pe); [by injection H|]. destruct (written _ _); [|by injection H].
      destruct (holds_file _ _); by injection H. }
  cbn [child_trace child_holds].
  destruct (pe_read pe); [by injection H as <- <- <-|].
  destruct (written _ _); [|by injection H as <- <- <-].
  destruct (holds_file _ _); by injection H as <- <- <-.
Qed.

Lemma worker_free w ne c p evs t :
  w LAlloc = None →
  (w LExit = None ∨ ∃ fl s', wo_child (worker_new ne c p evs t) = Some (fl, EpStarted s')) →
  lo_result (worker_new_locks w ne c p evs t) = wo_result (worker_new ne c p evs t) ∧
  lo_child (worker_new_locks w ne c p evs t) = ends <$> wo_child (worker_new ne c p evs t).
Proof.
  unfold worker_new, worker_new_locks. cbv zeta. intros Ha He.
  destruct (ne_sockets ne) as [[fb fc]|e]; [|done].
  destruct (install2 _ _ _ _) as [[[ch wh] t1]|]; [|done].
  destruct (handle_set_inheritable wh true t1) as [t2| |]; [|done..].
  destruct (allow_all _ _ _) as [p'|e]; [|done].
  destruct (set_environment_variable _ _) as [c'|e]; [|done].
  destruct (process_new (ne_proc ne) p' c' t2) as [[r t3] child] eqn:En.
  rewrite (process_free w _ _ _ _ _ _ _ En Ha).
  - destruct r; [|done..]. by destruct (start_ipc_loop _ _ _ _ _ _ _ _) as [[] s].
  - destruct He as [|He]; [by left|right].
    destruct r; [|exact He..]. by destruct (start_ipc_loop _ _ _ _ _ _ _ _) as [[] s].
Qed.

(* ---------------------------------------------------------------- C137 *)

(** Starting a worker comes to an end, whatever the other threads of the program are doing
    (C81_pipe_wait_ends for a program with one thread). *)
Definition C137_full : Prop := ∀ w ne c p evs t,
  kernel_ok ne t → lo_result (worker_new_locks w ne c p evs t) ≠ WnBlocked.

(** It does when no other thread is allocating, and either none is ending the program or
    writing to a stream, or the worker's program starts. What is missing: a lock that another
    thread holds. *)
Theorem C137_partial w ne c p evs t :
  kernel_ok ne t → w LAlloc = None →
  (w LExit = None ∨ ∃ fl s', wo_child (worker_new ne c p evs t) = Some (fl, EpStarted s')) →
  lo_result (worker_new_locks w ne c p evs t) = wo_result (worker_new ne c p evs t) ∧
  lo_result (worker_new_locks w ne c p evs t) ≠ WnBlocked ∧
  ∀ fl s, lo_child (worker_new_locks w ne c p evs t) ≠ Some (fl, ChWaits s).
Proof.
  intros Hk Ha He. destruct (worker_free w ne c p evs t Ha He) as [E1 E2].
  split; [done|]. rewrite E1, E2. split; [by apply C81_pipe_wait_ends|].
  intros fl s. by destruct (wo_child _) as [[]|].
Qed.
Print Assumptions C137_partial.

Lemma written_nil f tr : (∀ b, EpWrite f b ∉ tr) → written f tr = [].
Proof.
  unfold written. induction tr as [|v tr IH]; intros H; [done|]. cbn [omap list_omap].
  assert (IH' := IH ltac:(intros b Hb; apply (H b); by right)).
  destruct v as [| |]; try done. destruct (N.eqb_spec file f) as [->|]; [|done].
  exfalso. apply (H bytes). left.
Qed.

(** Another thread is allocating at the clone: each such call that gets as far as a new process
    waits for ever, in the read of the error pipe. The new process waits in cap_get_proc, before
    execve, and keeps the pipe. *)
Theorem C137_allocator_refuted w ne c p evs t o child :
  kernel_ok ne t → w LAlloc = Some o →
  ee_nnp (pe_child (ne_proc ne)) = true → pe_read (ne_proc ne) = None →
  wo_child (worker_new ne c p evs t) = Some child →
  lo_result (worker_new_locks w ne c p evs t) = WnBlocked ∧
  ∃ fl s, lo_child (worker_new_locks w ne c p evs t) = Some (fl, ChWaits s) ∧
    ∀ exe argv envp a, EpExecve exe argv envp a ∉ ep_trace s.
Proof.
  intros (_ & _ & _ & Hnew) Ha Hn Hrd Hc.
  destruct child as [fl r].
  unfold worker_new in Hc. unfold worker_new_locks. cbv zeta in *.
  destruct (ne_sockets ne) as [[fb fc]|e]; [|done].
  destruct (install2 _ fb _ _) as [[[ch wh] t1]|]; [|done].
  destruct (handle_set_inheritable wh true t1) as [t2| |]; [|done..].
  destruct (allow_all _ _ _) as [p'|e]; [|done].
  destruct (set_environment_variable _ _) as [c'|e]; [|done].
  assert (∃ nr t3, process_new (ne_proc ne) p' c' t2 = (nr, t3, Some (fl, r))) as (nr & t3 & Hp).
  { destruct (process_new (ne_proc ne) p' c' t2) as [[nr t3] child].
    exists nr, t3. f_equal. destruct nr; [|exact Hc..].
    by destruct (start_ipc_loop _ _ _ _ _ _ _ _) as [[] s]. }
  clear Hc.
  assert (∃ t4 s, process_new_locks w (ne_proc ne) p' c' t2 = (NewBlocked, t4, Some (fl, ChWaits s)) ∧
    ∀ exe argv envp a, EpExecve exe argv envp a ∉ ep_trace s) as (t4 & s & E & Hs).
  2:{ rewrite E. split; [done|]. eauto. }
  unfold process_new in Hp. unfold process_new_locks.
  case_bool_decide; [done|].
  destruct (pe_pipe (ne_proc ne)) as [[fr fw]|e]; [|done].
  destruct (Hnew _ _ eq_refl) as (_ & _ & _ & Hf & _).
  destruct (install2 _ _ _ _) as [[[rd wr] t5]|] eqn:Ei; [|done].
  destruct (install2_spec _ _ _ _ _ _ _ Ei) as (_ & _ & _ & _ & _ & _ & Ht5).
  rewrite (set_inheritable_new wr false fw) in Hp |- * by (by rewrite Ht5, lookup_insert).
  destruct (clone_chain (pe_clone (ne_proc ne))) as [[fl'|e] calls]; [|done].
  cbv zeta in *. rewrite Hrd in *.
  set (params := mkParams _ _ _ _ _ _ _ _ _ _) in *.
  set (t6 := <[wr := _]> t5) in *.
  set (s0 := mkEp _ _ _ _ _ _ _) in *.
  assert (fl' = fl) as ->.
  { destruct (written _ _); [destruct (holds_file _ _)|]; by injection Hp. }
  unfold entry_locks.
  assert (waits w (entry_uses (pe_child (ne_proc ne)) params s0) =
    Some (before_caps (pe_child (ne_proc ne)) params s0)) as ->.
  { unfold entry_uses. rewrite Hn. cbn [negb]. cbn [waits]. by rewrite Ha. }
  destruct (before_caps_tab (pe_child (ne_proc ne)) params s0) as [Et Ew].
  cbn [child_trace child_holds].
  set (s1 := before_caps _ _ _) in *. clearbody s1.
  rewrite written_nil.
  2:{ intros b Hb. destruct (Ew _ Hb) as [H'|H']; [by apply elem_of_nil in H'|]. by apply Hf. }
  assert (existsb (λ x : N * fdent, fd_file x.2 =? fw) (map_to_list (ep_tab s1)) = true) as ->.
  { rewrite Et. change (ep_tab s0) with t6. apply existsb_exists. exists (wr, mkFd fw 1%Z). split.
    - apply elem_of_list_In, elem_of_map_to_list. unfold t6. by rewrite lookup_insert.
    - cbn. apply N.eqb_refl. }
  eexists _, s1. split; [done|].
  intros exe argv envp a Hin. destruct (Ew _ Hin) as [H'|H']; [by apply elem_of_nil in H'|done].
Qed.
Print Assumptions C137_allocator_refuted.

Definition ex_held (l : clock) : clock → option N := λ k, if decide (k = l) then Some 77 else None.
Theorem C137_refuted : ¬ C137_full.
Proof.
  intros H. apply (H (ex_held LAlloc) (ex_new None None) ex_config ex_pol [] ex_table (ex_new_ok _ _)).
  by vm_compute.
Qed.
Print Assumptions C137_refuted.

(** The same program with nobody in the allocator starts its worker. A lock of exit(3) is only
    met when the start fails: after a failed execve the error arrives, but the process stays. *)
Example C137_example : ∃ fl s,
  let out w exec := worker_new_locks w (ex_new exec None) ex_config ex_pol
                      [dgram ReqInitialization] ex_table in
  (∃ st, lo_result (out (λ _, None) None) = WnOk 4321 st) ∧
  lo_result (out (ex_held LAlloc) None) = WnBlocked ∧
  (∃ st, lo_result (out (ex_held LExit) None) = WnOk 4321 st) ∧
  lo_result (out (ex_held LExit) (Some 2)) = WnErr (OsFailed (lit "execve()") 2) ∧
  lo_child (out (ex_held LExit) (Some 2)) = Some (fl, ChWaits s).
Proof.
  eexists _, _. cbv zeta. split; [eexists; by vm_compute|]. split; [by vm_compute|].
  split; [eexists; by vm_compute|]. split; by vm_compute.
Qed.
