(** Leases of workers on Linux: C169. *)
From stdpp Require Import prelude gmap.
From Verif Require Import Bytes PolicyModel PolicySpec LinuxPolicyModel LinuxPolicySpec
  LinuxPolicyProofs LinuxPolicyProps FifoModel RecordLockProps LockRightProps LeaseModel.
Local Open Scope N_scope.

(** ** What is claimed *)

Definition no_leases : leases := mkLeases ∅ ∅ 0.

(** The open(2) that makes description [id] has not returned: a lease is in its way. *)
Definition waits (s : leases) (id : N) : Prop :=
  ∃ o id' l, ls_ods s !! id = Some o ∧ id ≠ id' ∧ ls_leases s !! id' = Some l ∧
    le_ino l = od_ino o ∧ ¬ bit (od_flags o) 21 ∧
    (le_excl l = true ∨ (od_flags o mod 4 ≠ 0)%Z).

(** A worker makes others wait only as its lock rules say: a lease that lets readers pass
    keeps writers out, the other keeps out both. *)
Definition C169_full : Prop :=
  ∀ T own look calls p ops id o l, 0 < T →
    let s := lease_run T own look (build false calls) p no_leases ops in
    ls_ods s !! id = Some o → od_proc o = p → ls_leases s !! id = Some l →
    has_right look (rules_of calls) (od_ino o) RBlockWriters ∧
    (le_excl l = true → has_right look (rules_of calls) (od_ino o) RBlockReaders).

(** ** Proof *)

Lemma some_lease_false P m : some_lease P m = false →
  ∀ id l, m !! id = Some l → P id l = false.
Proof.
  unfold some_lease. intros H id l Hl. apply not_true_iff_false. intros Ht.
  apply not_true_iff_false in H. apply H. apply existsb_exists. exists (id, l). split; [|done].
  by apply elem_of_list_In, elem_of_map_to_list.
Qed.
Lemma some_od_false P m : some_od P m = false →
  ∀ id o, m !! id = Some o → P id o = false.
Proof.
  unfold some_od. intros H id o Ho. apply not_true_iff_false. intros Ht.
  apply not_true_iff_false in H. apply H. apply existsb_exists. exists (id, o). split; [|done].
  by apply elem_of_list_In, elem_of_map_to_list.
Qed.

Section proofs.
Context (T : N) (own : N → N → bool) (look : str → option N) (calls : list api_call) (p : N).
Context (HT : 0 < T).

(** [o] in the way of [l]: when the wait ends. *)
Definition told (s : leases) (o : odesc) (l : lease) : Prop :=
  ∃ d, (le_brk l = Some d ∨ le_down l = Some d ∧ want_write (od_flags o) = false) ∧
    d ≤ od_since o + T ∧ ls_now s < d.

Record linv (s : leases) : Prop := mkLinv {
  li_grant : ∀ id o, ls_ods s !! id = Some o → od_proc o = p →
    ∃ path, look path = Some (od_ino o) ∧ should_grant (rules_of calls) path (od_flags o);
  li_lease : ∀ id l, ls_leases s !! id = Some l →
    ∃ o, ls_ods s !! id = Some o ∧ od_ino o = le_ino l ∧ o_path (od_flags o) = false ∧
      own (od_proc o) (od_ino o) = true;
  li_brk : ∀ id l d, ls_leases s !! id = Some l → le_brk l = Some d ∨ le_down l = Some d →
    ls_now s < d ∧ d ≤ ls_now s + T;
  li_wait : ∀ id o id' l, ls_ods s !! id = Some o → counted (od_flags o) = true →
    ls_leases s !! id' = Some l → id ≠ id' → breaks l (od_ino o) (od_flags o) = true →
    told s o l }.

Lemma tell_ino now i f l : le_ino (tell T now i f l) = le_ino l.
Proof.
  unfold tell. destruct (breaks l i f); [|done]. destruct (want_write f); [done|].
  by destruct (le_down l), (le_brk l).
Qed.
Lemma tell_excl now i f l : le_excl (tell T now i f l) = le_excl l.
Proof.
  unfold tell. destruct (breaks l i f); [|done]. destruct (want_write f); [done|].
  by destruct (le_down l), (le_brk l).
Qed.
Lemma tell_breaks now i f l j g : breaks (tell T now i f l) j g = breaks l j g.
Proof. unfold breaks. by rewrite tell_ino, tell_excl. Qed.
Lemma tell_brk now i f l d : le_brk l = Some d → le_brk (tell T now i f l) = Some d.
Proof.
  intros H. unfold tell. destruct (breaks l i f); [|done]. destruct (want_write f); cbn [le_brk].
  - by rewrite H.
  - rewrite H. by destruct (le_down l).
Qed.
Lemma tell_down now i f l d : le_down l = Some d → le_down (tell T now i f l) = Some d.
Proof.
  intros H. unfold tell. destruct (breaks l i f); [|done]. destruct (want_write f); cbn [le_down].
  - done.
  - rewrite H. by destruct (le_brk l).
Qed.
Lemma tell_bound now i f l d :
  le_brk (tell T now i f l) = Some d ∨ le_down (tell T now i f l) = Some d →
  le_brk l = Some d ∨ le_down l = Some d ∨ d = now + T.
Proof.
  unfold tell. destruct (breaks l i f); [|tauto]. destruct (want_write f); cbn [le_brk le_down].
  - destruct (le_brk l); cbn [default]; intros [[= <-]|H]; auto.
  - destruct (le_down l) as [d1|] eqn:E1, (le_brk l) as [d2|] eqn:E2; cbn [le_brk le_down];
      rewrite ?E1, ?E2; try tauto.
    intros [H|[= <-]]; [done|auto].
Qed.
Lemma tell_told now i f l : breaks l i f = true →
  ∃ d, le_brk (tell T now i f l) = Some d ∨ le_down (tell T now i f l) = Some d ∧ want_write f = false.
Proof.
  intros H. unfold tell. rewrite H. destruct (want_write f); cbn [le_brk le_down]; [eauto|].
  destruct (le_down l) as [d1|] eqn:E1, (le_brk l) as [d2|] eqn:E2; cbn [le_brk le_down];
    rewrite ?E1, ?E2; eauto.
Qed.

Lemma linv_open s q i f id :
  linv s →
  (q = p → ∃ path, look path = Some i ∧ should_grant (rules_of calls) path f) →
  linv (k_open T q i f id s).
Proof.
  intros [H1 H2 H3 H4] Hq. unfold k_open. destruct (ls_ods s !! id) as [o0|] eqn:E; [done|].
  set (ods := if _ && _ then _ else _).
  assert (∀ id' o, ods !! id' = Some o →
    ls_ods s !! id' = Some o ∨ (id' = id ∧ o = mkOd q i f (ls_now s))) as Hods.
  { intros id' o. subst ods. destruct (_ && _); [auto|].
    intros [[<- <-]|[_ H]]%lookup_insert_Some; auto. }
  assert (∀ id' o, ls_ods s !! id' = Some o → ods !! id' = Some o) as Hkeep.
  { intros id' o Ho. subst ods. destruct (_ && _); [done|]. rewrite lookup_insert_ne; [done|congruence]. }
  clearbody ods.
  assert (∀ id' l, (tell T (ls_now s) i f <$> ls_leases s) !! id' = Some l →
    ∃ l0, ls_leases s !! id' = Some l0 ∧ l = tell T (ls_now s) i f l0) as Hls.
  { intros id' l H. rewrite lookup_fmap in H.
    destruct (ls_leases s !! id') as [l0|]; [|done]. cbn in H. injection H as <-. eauto. }
  constructor; cbn [ls_ods ls_leases ls_now].
  - intros id' o Ho Hp. destruct (Hods _ _ Ho) as [Ho'|[-> ->]]; [eauto|]. cbn [od_proc] in Hp. auto.
  - intros id' l Hl. destruct (Hls _ _ Hl) as (l0 & Hl0 & ->). rewrite tell_ino.
    destruct (H2 _ _ Hl0) as (o & Ho & Hx). exists o. split; [by apply Hkeep|done].
  - intros id' l d Hl Hd. destruct (Hls _ _ Hl) as (l0 & Hl0 & ->).
    apply tell_bound in Hd as [Hd|[Hd| ->]].
    + apply (H3 _ _ d Hl0). auto.
    + apply (H3 _ _ d Hl0). auto.
    + lia.
  - intros id1 o id' l Ho Hc Hl Hne Hb. destruct (Hls _ _ Hl) as (l0 & Hl0 & ->).
    rewrite tell_breaks in Hb. destruct (Hods _ _ Ho) as [Ho'|[-> ->]].
    + destruct (H4 _ _ _ _ Ho' Hc Hl0 Hne Hb) as (d & Hd & Hle & Hlt). exists d.
      split; [|done]. destruct Hd as [Hd|[Hd Hw]].
      * left. by apply tell_brk.
      * right. split; [by apply tell_down|done].
    + cbn [od_ino od_flags od_since] in *. destruct (tell_told (ls_now s) _ _ _ Hb) as [d Hd].
      exists d. split; [done|]. cbn [od_since ls_now].
      assert (le_brk l0 = Some d ∨ le_down l0 = Some d ∨ d = ls_now s + T) as Hx.
      { apply (tell_bound (ls_now s) i f). destruct Hd as [Hd|[Hd _]]; auto. }
      assert (ls_now s < d ∧ d ≤ ls_now s + T) as [? ?]; [|done].
      destruct Hx as [Hx|[Hx| ->]]; [eauto|eauto|lia].
Qed.

Lemma linv_set s id excl : linv s → linv (k_setlease own id excl s).
Proof.
  intros [H1 H2 H3 H4]. unfold k_setlease. destruct (ls_ods s !! id) as [o|] eqn:E; [|done].
  destruct (may_lease own id o excl s) eqn:Em; [|done]. unfold may_lease in Em.
  apply andb_true_iff in Em as [Em Hc]. apply andb_true_iff in Em as [Hp Ho].
  apply negb_true_iff in Hp.
  set (l' := mkLease _ _ _ _).
  assert (le_ino l' = od_ino o ∧ le_excl l' = excl) as [Hi' He'] by done.
  assert (∀ d, le_brk l' = Some d ∨ le_down l' = Some d → ls_now s < d ∧ d ≤ ls_now s + T) as Hd'.
  { intros d. subst l'. cbn [le_brk le_down].
    destruct (ls_leases s !! id) as [l0|] eqn:El; cbn.
    - intros [H|H]; [eauto|]. destruct excl; [eauto|done].
    - intros [H|H]; [done|]. by destruct excl. }
  clearbody l'. constructor; cbn [ls_ods ls_leases ls_now].
  - done.
  - intros id' l [[<- <-]|[_ H]]%lookup_insert_Some; [|eauto]. exists o. by rewrite Hi'.
  - intros id' l d [[<- <-]|[_ H]]%lookup_insert_Some; [apply Hd'|eauto].
  - intros id1 o1 id' l Ho1 Hct [[<- <-]|[_ H]]%lookup_insert_Some Hne Hb.
    2: { destruct (H4 _ _ _ _ Ho1 Hct H Hne Hb) as (d & Hd). by exists d. }
    exfalso. unfold breaks in Hb. rewrite Hi', He' in Hb.
    apply andb_true_iff in Hb as [Hb Hw]. apply andb_true_iff in Hb as [Hi _].
    apply N.eqb_eq in Hi. destruct excl.
    + apply andb_true_iff in Hc as [Hc _]. apply negb_true_iff in Hc.
      pose proof (some_od_false _ _ Hc _ _ Ho1) as Hx. cbn beta in Hx.
      rewrite Hct, Hi, N.eqb_refl in Hx. apply not_eq_sym, N.eqb_neq in Hne. by rewrite Hne in Hx.
    + cbn [orb] in Hw. apply andb_true_iff in Hc as [Hc _]. apply negb_true_iff in Hc.
      pose proof (some_od_false _ _ Hc _ _ Ho1) as Hx. cbn beta in Hx.
      unfold writer in Hx. unfold want_write in Hw. rewrite Hct, Hi, N.eqb_refl, Hw in Hx. done.
Qed.

Lemma linv_fewer s ods ls :
  linv s → (∀ id o, ods !! id = Some o → ls_ods s !! id = Some o) →
  (∀ id l, ls !! id = Some l → ls_leases s !! id = Some l ∧ ods !! id = ls_ods s !! id) →
  linv (mkLeases ods ls (ls_now s)).
Proof.
  intros [H1 H2 H3 H4] Ho Hl. constructor; cbn [ls_ods ls_leases ls_now].
  - eauto.
  - intros id l H. destruct (Hl _ _ H) as [H' He]. rewrite He. eauto.
  - intros id l d H. destruct (Hl _ _ H) as [H' _]. eauto.
  - intros id o id' l H Hc H'. destruct (Hl _ _ H') as [H'' _].
    intros Hne Hb. destruct (H4 _ _ _ _ (Ho _ _ H) Hc H'' Hne Hb) as (d & Hd). by exists d.
Qed.

Lemma time_out_Some now l l' : time_out now l = Some l' →
  (∀ d, le_brk l = Some d → now < d) ∧ le_brk l' = le_brk l ∧ le_ino l' = le_ino l ∧
  ((l' = l ∧ ∀ d, le_down l = Some d → now < d) ∨ (le_excl l' = false ∧ le_down l' = None)).
Proof.
  unfold time_out. destruct (match le_brk l with Some d => d <=? now | None => false end) eqn:E1; [done|].
  assert (∀ d, le_brk l = Some d → now < d) as Hb.
  { intros d H. rewrite H in E1. apply N.leb_gt in E1. done. }
  destruct (match le_down l with Some d => d <=? now | None => false end) eqn:E2; intros [= <-].
  - split_and!; [done|done|done|]. right. done.
  - split_and!; [done|done|done|]. left. split; [done|]. intros d H. rewrite H in E2.
    by apply N.leb_gt in E2.
Qed.

Lemma linv_tick s : linv s → linv (k_tick s).
Proof.
  intros [H1 H2 H3 H4].
  assert (∀ id l, omap (time_out (ls_now s + 1)) (ls_leases s) !! id = Some l →
    ∃ l0, ls_leases s !! id = Some l0 ∧ time_out (ls_now s + 1) l0 = Some l) as Hls.
  { intros id l H. rewrite lookup_omap in H. destruct (ls_leases s !! id) as [l0|]; [|done]. eauto. }
  constructor; cbn [k_tick ls_ods ls_leases ls_now].
  - done.
  - intros id l H. destruct (Hls _ _ H) as (l0 & Hl0 & (_ & _ & -> & _)%time_out_Some). eauto.
  - intros id l d H Hd. destruct (Hls _ _ H) as (l0 & Hl0 & (Hb & Eb & _ & Hx)%time_out_Some).
    assert ((le_brk l0 = Some d ∨ le_down l0 = Some d) ∧ ls_now s + 1 < d) as [Hor Hlt].
    { destruct Hd as [Hd|Hd].
      - rewrite Eb in Hd. split; [auto|]. by apply Hb.
      - destruct Hx as [[-> Hx]|[_ Hx]]; [|congruence]. split; [auto|]. by apply Hx. }
    destruct (H3 _ _ _ Hl0 Hor). lia.
  - intros id o id' l Ho Hc H Hne Hbr. destruct (Hls _ _ H) as (l0 & Hl0 & (Hb & Eb & Ei & Hx)%time_out_Some).
    assert (breaks l0 (od_ino o) (od_flags o) = true) as Hbr0.
    { destruct Hx as [[<- _]|[He _]]; [done|]. unfold breaks in *. rewrite Ei in Hbr. rewrite He in Hbr.
      cbn [orb] in Hbr. apply andb_true_iff in Hbr as [Hbr ->]. rewrite Hbr. by rewrite orb_true_r. }
    destruct (H4 _ _ _ _ Ho Hc Hl0 Hne Hbr0) as (d & Hd & Hle & Hlt). exists d. cbn [ls_now].
    destruct Hd as [Hd|[Hd Hw]].
    + split; [left; congruence|]. split; [done|]. by apply Hb.
    + destruct Hx as [[-> Hx]|[He _]].
      * split; [by right|]. split; [done|]. by apply Hx.
      * exfalso. unfold breaks in Hbr. rewrite He, Hw in Hbr. by rewrite andb_false_r in Hbr.
Qed.

Lemma linv_step s o : linv s → linv (lease_step T own look (build false calls) p s o).
Proof.
  intros I. destruct o as [path f id|q i f id|id excl|id|id|]; cbn [lease_step].
  - destruct (granted _ _ _) eqn:Hg; [|done]. destruct (look path) as [i|] eqn:El; [|done].
    apply linv_open; [done|]. intros _. exists path. split; [done|]. by apply granted_iff.
  - destruct (N.eqb_spec q p); [done|]. by apply linv_open.
  - by apply linv_set.
  - apply linv_fewer; [done|done|]. intros id' l [_ H]%lookup_delete_Some. done.
  - apply linv_fewer; [done|..].
    + intros id' o [_ H]%lookup_delete_Some. done.
    + intros id' l [Hne H]%lookup_delete_Some. by rewrite lookup_delete_ne.
  - by apply linv_tick.
Qed.

Lemma linv_run ops : linv (lease_run T own look (build false calls) p no_leases ops).
Proof.
  unfold lease_run. assert (linv no_leases) as I.
  { constructor; cbn [no_leases ls_ods ls_leases]; intros *; rewrite !lookup_empty; done. }
  revert I. generalize no_leases. induction ops as [|o ops IH]; intros s I; [done|].
  apply IH. by apply linv_step.
Qed.
End proofs.

(** ** The results *)

(** Partial: a lease needs a file of the worker's own user and a rule to read or write it.
    Missing: the lock rights, which are not looked at. *)
Theorem C169_partial T own look calls p ops id o l :
  0 < T →
  let s := lease_run T own look (build false calls) p no_leases ops in
  ls_ods s !! id = Some o → od_proc o = p → ls_leases s !! id = Some l →
  own p (od_ino o) = true ∧ le_ino l = od_ino o ∧
  (has_right look (rules_of calls) (od_ino o) RRead ∨
   has_right look (rules_of calls) (od_ino o) RWrite).
Proof.
  intros HT s Ho Hp Hl. pose proof (linv_run T own look calls p HT ops) as I. fold s in I.
  destruct (li_lease _ _ _ _ _ _ I _ _ Hl) as (o' & Ho' & Hi & H21 & Hown).
  rewrite Ho in Ho'. injection Ho' as <-. split; [by rewrite <- Hp|]. split; [done|].
  destruct (li_grant _ _ _ _ _ _ I _ _ Ho Hp) as (path & Hlk & (_ & cs & Hcan & Hn & _ & Hr & Hw)).
  assert (¬ path_only (od_flags o)) as Hpo by (unfold path_only, bit, o_path in *; by rewrite H21).
  destruct (Z.testbit (od_flags o) 0) eqn:E0.
  - right. exists path, cs. split_and!; [done|done|done|]. apply Hw. split; [done|]. left. exact E0.
  - left. exists path, cs. split_and!; [done|done|done|]. apply Hr. split; [done|].
    unfold bit. by rewrite E0.
Qed.
Print Assumptions C169_partial.

(** Nobody waits longer than the system's lease-break-time, however often the worker asks for
    leases again: an open that was called that long ago has returned. (Not for the access mode
    3, which the kernel does not count.) *)
Theorem C169_bounded T own look calls p ops id o :
  0 < T →
  let s := lease_run T own look (build false calls) p no_leases ops in
  ls_ods s !! id = Some o → (od_flags o mod 4 ≠ 3)%Z → od_since o + T ≤ ls_now s → ¬ waits s id.
Proof.
  intros HT s Ho Hc Ht (o' & id' & l & Ho' & Hne & Hl & Hi & H21 & Hx).
  rewrite Ho in Ho'. injection Ho' as <-.
  pose proof (linv_run T own look calls p HT ops) as I. fold s in I.
  assert (o_path (od_flags o) = false) as Hp.
  { unfold bit in H21. unfold o_path. by apply not_true_iff_false. }
  assert (counted (od_flags o) = true) as Hct.
  { unfold counted. rewrite Hp. apply Z.eqb_neq in Hc. by rewrite Hc. }
  assert (breaks l (od_ino o) (od_flags o) = true) as Hb.
  { unfold breaks. rewrite Hi, N.eqb_refl, Hp. cbn [negb andb]. apply orb_true_iff.
    destruct Hx as [->|Hx]; [auto|]. right. unfold want_write. apply Z.eqb_neq in Hx. by rewrite Hx. }
  destruct (li_wait _ _ _ _ _ _ I _ _ _ _ Ho Hct Hl Hne Hb) as (d & _ & Hle & Hlt). lia.
Qed.
Print Assumptions C169_bounded.

(** Worker 2 may read /log, which is file 7, and nothing else; process 9 is another program or
    the broker on behalf of another worker. *)
Definition lease_look (path : str) : option N := if bool_decide (path = lit "/log") then Some 7 else None.
Definition lease_reader : list api_call := [CallRule (AllowFileRead (lit "/log"))].
Definition lease_ops (n : nat) : list lop :=
  [LWorker (lit "/log") 0 1; LLease 1 true; LOther 9 7 0 2] ++ repeat LTick n.
Definition lease_ex (n : nat) : leases :=
  lease_run 45 (λ _ _, true) lease_look (build false lease_reader) 2 no_leases (lease_ops n).

(** False: a worker that may only read keeps every other program from opening the file, even
    for reading, for 45 seconds, without any lock rule; they need not cooperate. *)
Theorem C169_refuted :
  ¬ C169_full ∧ waits (lease_ex 0) 2 ∧ waits (lease_ex 44) 2 ∧ ¬ waits (lease_ex 45) 2.
Proof.
  assert (∀ n, ls_ods (lease_ex n) !! 2 = Some (mkOd 9 7 0 0) →
    ls_leases (lease_ex n) !! 1 = Some (mkLease 7 true (Some 45) None) → waits (lease_ex n) 2) as Hw.
  { intros n H1 H2. exists (mkOd 9 7 0 0), 1, (mkLease 7 true (Some 45) None).
    split_and!; [done|done|done|done|done|]. by left. }
  split_and!.
  - intros H.
    specialize (H 45 (λ _ _, true) lease_look lease_reader 2 (lease_ops 0) 1 (mkOd 2 7 0 0)
      (mkLease 7 true (Some 45) None) ltac:(done)). cbv zeta in H.
    destruct H as [(path & cs & _ & _ & _ & r & Hr & _ & Hg) _]; [by vm_compute|done|by vm_compute|].
    apply elem_of_list_singleton in Hr as ->. done.
  - apply Hw; by vm_compute.
  - apply Hw; by vm_compute.
  - apply (C169_bounded 45 (λ _ _, true) lease_look lease_reader 2 (lease_ops 45) 2 (mkOd 9 7 0 0));
      [done|by vm_compute|done|by vm_compute].
Qed.
Print Assumptions C169_refuted.

(** A lease for readers does not stop readers; a writer waits until it is given up. A worker
    without a rule for the file gets no lease. *)
Example C169_example :
  let run calls ops := lease_run 45 (λ _ _, true) lease_look (build false calls) 2 no_leases ops in
  let ops := [LWorker (lit "/log") 0 1; LLease 1 false; LOther 9 7 0 2; LOther 8 7 1 3] in
  ls_leases (run lease_reader ops) !! 1 = Some (mkLease 7 false None (Some 45)) ∧
  ls_ods (run lease_reader ops) !! 3 = Some (mkOd 8 7 1 0) ∧
  ls_leases (run lease_reader (ops ++ [LUnlease 1])) !! 1 = None ∧
  ls_leases (run lease_reader (ops ++ [LUnlease 1; LLease 1 false])) !! 1 = None ∧
  ls_leases (run [] ops) !! 1 = None.
Proof. by vm_compute. Qed.
