(** Lock rights on Linux: C155. *)
From stdpp Require Import prelude gmap.
From Verif Require Import Bytes PolicyModel PolicySpec LinuxPolicyModel LinuxPolicySpec
  LinuxPolicyProofs LinuxPolicyProps FifoModel RecordLockModel RecordLockProps LockRightModel.
From Verif Require SeccompModel SeccompProps SigMaskProps.
Local Open Scope N_scope.

(** A file the worker has the right [x] on. *)
Definition has_right (look : str → option N) (rules : list rule) (i : N) (x : right) : Prop :=
  ∃ path cs, look path = Some i ∧ canonical cs ∧ names slash path cs ∧ entitled rules cs x.

(** A worker that starts without descriptors locks files only as its lock rules say: an
    exclusive lock keeps readers and writers out, a shared one keeps writers out. *)
Definition C155_full : Prop :=
  ∀ look calls p ops l s,
    s = foldl (wstep look (build false calls) p) (mkRights ∅ []) ops →
    l ∈ r_locks s → lk_pid l = p →
    has_right look (rules_of calls) (lk_ino l) RBlockWriters ∧
    (lk_excl l = true → has_right look (rules_of calls) (lk_ino l) RBlockReaders).

Definition fds_ok (look : str → option N) (rules : list rule) (fds : gmap N (N * Z)) : Prop :=
  ∀ fd i flags, fds !! fd = Some (i, flags) → ∃ path, look path = Some i ∧ should_grant rules path flags.
Definition lock_ok (look : str → option N) (rules : list rule) (p : N) (l : lock) : Prop :=
  lk_pid l = p →
  has_right look rules (lk_ino l) (if lk_excl l then RWrite else RRead).

Lemma mod4_bit0 flags : (flags mod 4 = 0 ∨ flags mod 4 = 2)%Z → ¬ bit flags 0.
Proof.
  unfold bit. rewrite Z.bit0_odd. intros H Ho. rewrite Zodd_mod in Ho. apply Zeq_bool_eq in Ho.
  assert (flags mod 2 = (flags mod 4) mod 2)%Z as E.
  { rewrite (Z.div_mod flags 4) at 1 by lia.
    replace (4 * (flags / 4) + flags mod 4)%Z with (flags mod 4 + (2 * (flags / 4)) * 2)%Z by lia.
    by rewrite Z_mod_plus_full. }
  rewrite E in Ho. destruct H as [H|H]; rewrite H in Ho; done.
Qed.
Lemma mod4_write flags : (flags mod 4 = 1 ∨ flags mod 4 = 2)%Z → bit flags 0 ∨ bit flags 1.
Proof.
  unfold bit. intros H.
  assert (∀ n, (0 ≤ n < 2)%Z → Z.testbit flags n = Z.testbit (flags mod 4) n) as Hm.
  { intros n Hn. change 4%Z with (2 ^ 2)%Z. rewrite Z.mod_pow2_bits_low by lia. done. }
  destruct H as [H|H].
  - left. rewrite Hm by lia. by rewrite H.
  - right. rewrite Hm by lia. by rewrite H.
Qed.
Lemma lockable_right look rules path flags i excl :
  lockable flags excl = true → look path = Some i → should_grant rules path flags →
  has_right look rules i (if excl then RWrite else RRead).
Proof.
  unfold lockable. intros Hl Hi (_ & cs & Hcan & Hn & _ & Hr & Hw).
  apply andb_true_iff in Hl as [H21 Hm]. apply negb_true_iff in H21.
  assert (¬ path_only flags) as Hp by (unfold path_only, bit; by rewrite H21).
  exists path, cs. split; [done|]. split; [done|]. split; [done|].
  apply orb_true_iff in Hm. rewrite !Z.eqb_eq in Hm. destruct excl.
  - apply Hw. split; [done|]. destruct (mod4_write flags) as [?|?]; [destruct Hm; auto|auto|auto].
  - apply Hr. split; [done|]. apply mod4_bit0. destruct Hm; auto.
Qed.

Lemma step_ok look calls p s o :
  fds_ok look (rules_of calls) (r_fds s) → (∀ l, l ∈ r_locks s → lock_ok look (rules_of calls) p l) →
  let s' := wstep look (build false calls) p s o in
  fds_ok look (rules_of calls) (r_fds s') ∧ ∀ l, l ∈ r_locks s' → lock_ok look (rules_of calls) p l.
Proof.
  intros Hf Hl. destruct o as [path flags fd|fd fd'|fd|fd from to excl|l0]; cbn [wstep].
  - destruct (granted _ _ _) eqn:Hg; [|done]. apply granted_iff in Hg.
    destruct (look path) as [i|] eqn:Ei; [|done]. split; [|done]. cbn [r_fds].
    intros fd' i' flags' H. apply lookup_insert_Some in H as [[_ [= <- <-]]|[_ H]]; [by exists path|by eapply Hf].
  - destruct (r_fds s !! fd) as [[i flags]|] eqn:E; [|done]. split; [|done]. cbn [r_fds].
    intros fd'' i' flags' H. apply lookup_insert_Some in H as [[_ [= <- <-]]|[_ H]]; by eapply Hf.
  - destruct (r_fds s !! fd) as [[i flags]|] eqn:E; [|done]. split; cbn [r_fds r_locks].
    + intros fd'' i' flags' H. apply lookup_delete_Some in H as [_ H]. by eapply Hf.
    + intros l Hin. apply Hl. destruct (Z.testbit flags 21); [done|]. by apply elem_of_list_filter in Hin as [_ ?].
  - destruct (r_fds s !! fd) as [[i flags]|] eqn:E; [|done].
    destruct (lockable flags excl) eqn:Elk; cbn [andb]; [|done].
    destruct (negb _); [|done]. split; [done|]. cbn [r_locks]. intros l Hin.
    apply elem_of_cons in Hin as [->|Hin]; [|by apply Hl]. intros _. cbn [lk_ino lk_excl].
    destruct (Hf fd i flags E) as (path & Hi & Hs). by eapply lockable_right.
  - destruct (bool_decide (lk_pid l0 ≠ p)) eqn:Ep; cbn [andb]; [|done].
    destruct (negb _); [|done]. split; [done|]. cbn [r_locks]. intros l Hin.
    apply elem_of_cons in Hin as [->|Hin]; [|by apply Hl]. intros H. by apply bool_decide_eq_true in Ep.
Qed.

(** What is true: an exclusive lock needs a write rule, a shared one a read rule. *)
Theorem C155_partial look calls p ops l s :
  s = foldl (wstep look (build false calls) p) (mkRights ∅ []) ops →
  l ∈ r_locks s → lk_pid l = p →
  has_right look (rules_of calls) (lk_ino l) (if lk_excl l then RWrite else RRead).
Proof.
  intros Es Hl Hp.
  assert (∀ ops s0, fds_ok look (rules_of calls) (r_fds s0) →
    (∀ l, l ∈ r_locks s0 → lock_ok look (rules_of calls) p l) →
    ∀ l, l ∈ r_locks (foldl (wstep look (build false calls) p) s0 ops) → lock_ok look (rules_of calls) p l) as Hall.
  { clear. intros ops. induction ops as [|o ops IH]; intros s0 Hf Hl; [done|]. cbn [foldl].
    destruct (step_ok look calls p s0 o Hf Hl) as [Hf' Hl']. by apply IH. }
  refine (Hall ops (mkRights ∅ []) _ _ l _ Hp).
  - intros fd i flags H. cbn in H. by rewrite lookup_empty in H.
  - intros l' H. by apply elem_of_nil in H.
  - by rewrite <- Es.
Qed.
Print Assumptions C155_partial.

Definition lock_look (path : str) : option N := if bool_decide (path = lit "/log") then Some 7 else None.
Definition reader : list api_call := [CallRule (AllowFileRead (lit "/log"))].
Definition reader_ops : list wop := [WOpen (lit "/log") 0 3; WLock 3 0 99 false].

(** A worker that may only read keeps writers out, without any lock rule. *)
Theorem C155_refuted : ¬ C155_full.
Proof.
  intros H.
  assert (∃ l, l ∈ r_locks (foldl (wstep lock_look (build false reader) 2) (mkRights ∅ []) reader_ops) ∧
    lk_pid l = 2 ∧ lk_ino l = 7) as (l & Hl & Hp & Hi).
  { exists (mkLock 2 7 0 99 false).
    assert (r_locks (foldl (wstep lock_look (build false reader) 2) (mkRights ∅ []) reader_ops) =
      [mkLock 2 7 0 99 false]) as -> by by vm_compute. by split; [left|]. }
  destruct (H lock_look reader 2 reader_ops l _ eq_refl Hl Hp) as [(path & cs & _ & _ & _ & r & Hr & _ & Hg) _].
  apply elem_of_list_singleton in Hr as ->. done.
Qed.
Print Assumptions C155_refuted.

(** fcntl is allowed by the filter, whatever its arguments. *)
Theorem C155_fcntl l pid rs a args :
  SeccompModel.build_rules l pid = Ok rs → SeccompModel.lib_known l (lit "fcntl") = true →
  SeccompModel.decision rs a (lit "fcntl") args = SeccompModel.Allow.
Proof.
  intros H Hk. refine (SigMaskProps.allowed_by_name l pid rs a (lit "fcntl") args H _ Hk).
  by apply (bool_decide_unpack _); vm_compute.
Qed.
Print Assumptions C155_fcntl.

(** The lock works against other programs: a writer is kept out. *)
Theorem C155_blocks :
  ∃ look calls p ops l,
    (∀ i x, has_right look (rules_of calls) i x → x = RRead) ∧ lk_pid l ≠ p ∧
    r_locks (wstep look (build false calls) p (mkRights ∅ []) (Other l)) = [l] ∧
    let s := foldl (wstep look (build false calls) p) (mkRights ∅ []) ops in
    wstep look (build false calls) p s (Other l) = s.
Proof.
  exists lock_look, reader, 2, reader_ops, (mkLock 3 7 5 5 true).
  split; [|split; [done|split; [by vm_compute|]]].
  - intros i x (path & cs & _ & _ & _ & r & Hr & _ & Hg). apply elem_of_list_singleton in Hr as ->.
    by destruct x.
  - cbn [wstep]. 
    assert (existsb (conflicts (mkLock 3 7 5 5 true))
      (r_locks (foldl (wstep lock_look (build false reader) 2) (mkRights ∅ []) reader_ops)) = true) as ->
      by by vm_compute. by rewrite andb_false_r.
Qed.
Print Assumptions C155_blocks.

(** A worker is not kept out by its own locks. *)
Theorem C155_own look pol p s fd i flags from to excl :
  r_fds s !! fd = Some (i, flags) → Z.testbit flags 21 = false → (flags mod 4 = 2)%Z →
  (∀ l, l ∈ r_locks s → lk_pid l = p ∨ lk_ino l ≠ i) →
  mkLock p i from to excl ∈ r_locks (wstep look pol p s (WLock fd from to excl)).
Proof.
  intros Hfd H21 Hm Hl. cbn [wstep]. rewrite Hfd.
  assert (lockable flags excl = true) as -> by (unfold lockable; by rewrite H21, Hm).
  assert (existsb (conflicts (mkLock p i from to excl)) (r_locks s) = false) as ->.
  { apply not_true_iff_false. intros (l & Hin & Hc)%existsb_exists.
    apply elem_of_list_In in Hin. unfold conflicts in Hc. cbn [lk_pid lk_ino] in Hc.
    rewrite !andb_true_iff, !bool_decide_eq_true in Hc.
    destruct Hc as ((((H1 & H2) & _) & _) & _). destruct (Hl l Hin); congruence. }
  cbn. by left.
Qed.
Print Assumptions C155_own.

Example C155_example :
  (** a worker that may only read cannot lock exclusively; one that may write can *)
  r_locks (foldl (wstep lock_look (build false reader) 2) (mkRights ∅ [])
    [WOpen (lit "/log") 0 3; WLock 3 0 99 true; WOpen (lit "/log") 1 4; WLock 4 0 99 true]) = [] ∧
  r_locks (foldl (wstep lock_look (build false [CallRule (AllowFileWrite (lit "/log"))]) 2) (mkRights ∅ [])
    [WOpen (lit "/log") 1 3; WDup 3 9; WLock 9 0 99 true]) = [mkLock 2 7 0 99 true] ∧
  (** a lock rule alone gives nothing *)
  r_locks (foldl (wstep lock_look (build false [CallRule (AllowFileLock (lit "/log") true true true)]) 2)
    (mkRights ∅ []) [WOpen (lit "/log") 0 3; WLock 3 0 99 false]) = [] ∧
  (** the lock goes when any descriptor of the file is closed *)
  r_locks (foldl (wstep lock_look (build false reader) 2) (mkRights ∅ [])
    (reader_ops ++ [WOpen (lit "/log") 0 4; WClose 4])) = [].
Proof. by vm_compute. Qed.
