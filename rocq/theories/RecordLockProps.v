(** Record locks under trapped calls: C153. *)
From stdpp Require Import prelude gmap.
From Verif Require Import Bytes PolicyModel PolicySpec LinuxPolicyModel LinuxPolicySpec
  LinuxPolicyProofs LinuxPolicyProps FifoModel RecordLockModel.
Local Open Scope N_scope.

(** The kernel gives free numbers. *)
Definition fresh_fds (pick : world → N → N) : Prop := ∀ w p, w_fds w !! (p, pick w p) = None.

(** Without the sandbox open, access, stat and chdir leave all record locks alone. In the
    sandbox: *)
Definition C153_full : Prop :=
  ∀ look pick calls b p w cs, fresh_fds pick → b ≠ p →
    w_locks (foldl (trapped look pick (build false calls) b p) w cs) = w_locks w.

(** The locks that a trapped call releases: on the file it names, when the rules allow the
    request and it is not path-only, all of the broker's process, and for access(2) all of
    the worker's. *)
Definition lost (look : str → option N) (rules : list rule) (b p : N) (c : call) (l : lock) : Prop :=
  look (asked c).1 = Some (lk_ino l) ∧ should_grant rules (asked c).1 (asked c).2 ∧
  ¬ bit (asked c).2 21 ∧
  (lk_pid l = b ∨ lk_pid l = p ∧ match c with CAccess _ _ => True | _ => False end).

Lemma granted_iff calls path flags :
  granted (build false calls) path flags = true ↔ should_grant (rules_of calls) path flags.
Proof.
  rewrite <- C02_exact_grant. unfold granted. by destruct (evaluate_request _ _).1.
Qed.

Theorem C153_exact look pick calls b p w c l :
  fresh_fds pick → b ≠ p →
  l ∈ w_locks (trapped look pick (build false calls) b p w c) ↔
  l ∈ w_locks w ∧ ¬ lost look (rules_of calls) b p c l.
Proof.
  intros Hf Hbp. unfold trapped, lost. pose proof (granted_iff calls (asked c).1 (asked c).2) as Hg.
  destruct (asked c) as [path flags] eqn:Ea. cbn [fst snd] in *.
  destruct (granted (build false calls) path flags).
  2: { split; [|by intros [? _]]. intros H. split; [done|]. intros (_ & Hs & _). by apply Hg in Hs. }
  assert (should_grant (rules_of calls) path flags) as Hs by by apply Hg.
  destruct (look path) as [i|] eqn:El; [|split; [intros H; split; [done|]; by intros [? _]|by intros [? _]]].
  set (w1 := k_open b (pick w b) i (Z.testbit flags 21) w).
  assert (w_fds w1 !! (p, pick w1 p) = None) as Hfr by apply Hf.
  set (wfd := pick w1 p) in *. clearbody wfd.
  set (bfd := pick w b) in *. clearbody bfd.
  set (w2 := k_open p wfd i (Z.testbit flags 21) w1).
  assert (w_fds w2 !! (b, bfd) = Some (i, Z.testbit flags 21)) as E2.
  { unfold w2, w1, k_open; cbn [w_fds]. rewrite lookup_insert_ne by congruence. by rewrite lookup_insert. }
  assert (k_close b bfd w2 = mkWorld (delete (b, bfd) (w_fds w2))
    (if Z.testbit flags 21 then w_locks w
     else filter (λ l : lock, ¬ (lk_pid l = b ∧ lk_ino l = i)) (w_locks w))) as E3.
  { unfold k_close. by rewrite E2. }
  rewrite E3. clear E3.
  assert (w_fds (mkWorld (delete (b, bfd) (w_fds w2))
    (if Z.testbit flags 21 then w_locks w
     else filter (λ l : lock, ¬ (lk_pid l = b ∧ lk_ino l = i)) (w_locks w))) !! (p, wfd) =
    Some (i, Z.testbit flags 21)) as E4.
  { cbn [w_fds]. rewrite lookup_delete_ne by congruence. unfold w2, k_open; cbn [w_fds].
    by rewrite lookup_insert. }
  unfold bit. destruct (Z.testbit flags 21) eqn:E21.
  - assert (∀ l, l ∈ w_locks w ↔ l ∈ w_locks w ∧ ¬ (Some i = Some (lk_ino l) ∧
      should_grant (rules_of calls) path flags ∧ true ≠ true ∧
      (lk_pid l = b ∨ lk_pid l = p ∧ match c with CAccess _ _ => True | _ => False end))) as Hsame.
    { intros l'. split; [|by intros [? _]]. intros H. split; [done|]. by intros (_ & _ & ? & _). }
    destruct c; cbn [w_locks]; [apply Hsame| | |];
      unfold k_close; rewrite E4; cbn [w_locks]; apply Hsame.
  - destruct c; cbn [w_locks].
    + rewrite elem_of_list_filter. split.
      * intros [H1 H2]. split; [done|]. intros ([= H3] & _ & _ & [H4|[_ []]]). by apply H1.
      * intros [H1 H2]. split; [|done]. intros [H3 H4]. apply H2. split; [congruence|]. auto.
    + unfold k_close. rewrite E4. cbn [w_locks]. rewrite !elem_of_list_filter. split.
      * intros (H1 & H2 & H3). split; [done|]. intros ([= H4] & _ & _ & [H5|[H5 _]]);
          [by apply H2|by apply H1].
      * intros [H1 H2]. split_and!; [| |done].
        -- intros [H3 H4]. apply H2. split; [congruence|]. auto.
        -- intros [H3 H4]. apply H2. split; [congruence|]. auto.
    + injection Ea as _ <-. done.
    + injection Ea as _ <-. done.
Qed.
Print Assumptions C153_exact.

(** A refused request, stat and chdir release nothing; an open releases no lock of the
    worker's own. *)
Theorem C153_partial look pick calls b p w cs :
  fresh_fds pick → b ≠ p →
  (∀ c l, c ∈ cs → l ∈ w_locks w → look (asked c).1 = Some (lk_ino l) →
     match c with
     | CStat _ | CChdir _ => True
     | COpen path flags =>
         lk_pid l ≠ b ∨ bit flags 21 ∨ ¬ should_grant (rules_of calls) path flags
     | CAccess path mode =>
         (lk_pid l ≠ b ∧ lk_pid l ≠ p) ∨ bit mode 21 ∨ ¬ should_grant (rules_of calls) path mode
     end) →
  ∀ l, l ∈ w_locks (foldl (trapped look pick (build false calls) b p) w cs) ↔ l ∈ w_locks w.
Proof.
  intros Hf Hbp. revert w. induction cs as [|c cs IH]; intros w H l; [done|]. cbn [foldl].
  assert (∀ l, l ∈ w_locks (trapped look pick (build false calls) b p w c) ↔ l ∈ w_locks w) as Hc.
  { intros l'. rewrite C153_exact by done. split; [by intros [? _]|]. intros Hl. split; [done|].
    intros (H1 & H2 & H3 & H4). specialize (H c l' (elem_of_list_here _ _) Hl H1).
    destruct c; cbn [asked fst snd] in *.
    - destruct H as [H|[H|H]]; [|done|done]. by destruct H4 as [H4|[_ []]].
    - destruct H as [[H H']|[H|H]]; [|done|done]. by destruct H4 as [H4|[H4 _]].
    - done.
    - done. }
  rewrite IH, Hc; [done|]. intros c' l' Hin Hl. apply H; [by right|]. by apply Hc.
Qed.
Print Assumptions C153_partial.

(* ---------------------------------------------------------------- what is not true *)

Definition ex_calls : list api_call :=
  [CallRule (AllowFileRead (lit "/db")); CallRule (AllowFileWrite (lit "/db"))].
Definition ex_look (path : str) : option N := if bool_decide (path = lit "/db") then Some 7 else None.
(** Process 1 is the broker, 2 the worker, 3 another program. *)
Definition one_above (w : world) (p : N) : N :=
  fresh (set_map snd (dom (w_fds w)) : gset N).
Lemma one_above_fresh : fresh_fds one_above.
Proof.
  intros w p. apply not_elem_of_dom. intros H. unfold one_above in H.
  eapply (is_fresh (set_map snd (dom (w_fds w)) : gset N)). apply elem_of_map.
  exists (p, fresh (set_map snd (dom (w_fds w)) : gset N)). split; [done|exact H].
Qed.
Lemma ex_granted : should_grant (rules_of ex_calls) (lit "/db") 0.
Proof. apply granted_iff. by vm_compute. Qed.

(** access(2) takes the worker's own locks. *)
Theorem C153_refuted : ¬ C153_full.
Proof.
  intros H.
  specialize (H ex_look one_above ex_calls 1 2 (mkWorld {[(2, 5) := (7, false)]} [mkLock 2 7 0 99 true])
    [CAccess (lit "/db") 0] one_above_fresh ltac:(done)). cbn [foldl] in H.
  pose proof (proj1 (C153_exact ex_look one_above ex_calls 1 2
    (mkWorld {[(2, 5) := (7, false)]} [mkLock 2 7 0 99 true]) (CAccess (lit "/db") 0) (mkLock 2 7 0 99 true)
    one_above_fresh ltac:(done))) as He.
  rewrite H in He. cbn [w_locks] in He. destruct He as [_ He]; [by left|]. apply He.
  split; [done|]. split; [apply ex_granted|]. split; [done|]. by right.
Qed.
Print Assumptions C153_refuted.

(** An open by the worker takes the locks that the program around the broker holds: another
    program that was kept out gets in, though nobody unlocked anything. *)
Theorem C153_host_refuted :
  ∃ look pick calls b p w c l,
    fresh_fds pick ∧ b ≠ p ∧ match c with COpen _ _ => True | _ => False end ∧
    lk_pid l ≠ b ∧ lk_pid l ≠ p ∧
    k_lock l w = None ∧ k_lock l (trapped look pick (build false calls) b p w c) ≠ None.
Proof.
  exists ex_look, one_above, ex_calls, 1, 2, (mkWorld {[(1, 5) := (7, false)]} [mkLock 1 7 0 99 true]),
    (COpen (lit "/db") 0), (mkLock 3 7 10 10 true).
  split; [apply one_above_fresh|]. split; [done|]. split; [done|]. split; [done|]. split; [done|].
  split; [by vm_compute|]. unfold k_lock. 
  destruct (existsb _ _) eqn:E; [|done]. apply existsb_exists in E as (l & Hl & Hc).
  apply elem_of_list_In in Hl. apply C153_exact in Hl as [Hl Hn]; [|apply one_above_fresh|done].
  cbn [w_locks] in Hl. apply elem_of_list_singleton in Hl as ->.
  destruct Hn. split; [done|]. split; [apply ex_granted|]. split; [done|]. by left.
Qed.
Print Assumptions C153_host_refuted.

Example C153_example :
  let w := mkWorld {[(2, 5) := (7, false)]} [mkLock 2 7 0 99 true; mkLock 3 8 0 0 false] in
  (** stat, chdir, an open by the worker and a refused access keep its lock, and another
      program stays out *)
  (∀ l, l ∈ w_locks (foldl (trapped ex_look one_above (build false ex_calls) 1 2) w
     [CStat (lit "/db"); CChdir (lit "/db"); COpen (lit "/db") 2; CAccess (lit "/db") 4]) ↔ l ∈ w_locks w) ∧
  k_lock (mkLock 3 7 10 10 false) w = None ∧
  k_lock (mkLock 3 7 100 100 true) w ≠ None ∧
  (** a descriptor of the file is closed directly: the lock is gone *)
  w_locks (k_close 2 5 w) = [mkLock 3 8 0 0 false].
Proof.
  split; [|split; [by vm_compute|split; [by vm_compute|by vm_compute]]].
  apply C153_partial; [apply one_above_fresh|done|].
  intros c l Hc Hl Hlook. rewrite !elem_of_cons, elem_of_nil in Hc.
  destruct Hc as [->|[->|[->|[->|[]]]]]; [done|done| |].
  - left. cbn in Hl. rewrite !elem_of_cons, elem_of_nil in Hl. by destruct Hl as [->|[->|[]]].
  - right; right. intros Hs. apply granted_iff in Hs. by vm_compute in Hs.
Qed.
