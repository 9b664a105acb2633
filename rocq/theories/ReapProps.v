(** Property C130: ended workers leave the process table. *)
From stdpp Require Import prelude gmap.
From Coq Require Import Strings.Byte.
From Verif Require Import Bytes PolicyModel PolicySpec LinuxPolicyModel LinuxPolicySpec FdModel
  ChannelModel BrokerModel BrokerProps SeccompModel EntryModel ProcessModel ProcessProps ReapModel.
Local Open Scope Z_scope.

(** No child that has ended is left. *)
Definition none_left (ks : list kid) : Prop := ∀ k, k ∈ ks → k_ended k = false.

(** Full statement: a program that ignores SIGCHLD, or that waits for its children as
    usual until there are no more, has no ended worker left. *)
Definition C130_full : Prop := ∀ d es,
  (d = SigIgnored → none_left (kids d es)) ∧
  none_left (wait_loop (length (kids d es)) 0 (kids d es)).

(** All processes that were made have started their program. *)
Definition all_started (es : list kid_event) : Prop := ∀ ne c p evs t fl r,
  KNew ne c p evs t ∈ es → wo_child (worker_new ne c p evs t) = Some (fl, r) → ∃ s, r = EpStarted s.

(* ---------------------------------------------------------------- proofs *)

Lemma reap_sub who opts ks k : k ∈ reap_one who opts ks → k ∈ ks.
Proof.
  induction ks as [|k' ks IH]; [done|]. cbn [reap_one].
  destruct (_ && _); rewrite !elem_of_cons; [by right|]. intros [->|H]; auto.
Qed.
Lemma reap_keeps who opts ks k :
  k ∈ ks → k_ended k && eligible who opts k = false → k ∈ reap_one who opts ks.
Proof.
  intros H Hk. induction ks as [|k' ks IH]; [by apply elem_of_nil in H|]. cbn [reap_one].
  apply elem_of_cons in H as [<-|H].
  - rewrite Hk. left.
  - destruct (k_ended k' && _); [done|]. right. by apply IH.
Qed.
Lemma wait_sub fuel opts k : ∀ ks, k ∈ wait_loop fuel opts ks → k ∈ ks.
Proof.
  induction fuel as [|fuel IH]; intros ks; [done|]. cbn [wait_loop]. intros H.
  by apply IH, reap_sub in H.
Qed.
(** Enough calls reap all that can be reaped. *)
Definition waiting (opts : Z) (ks : list kid) : nat :=
  length (filter (λ k, k_ended k && eligible None opts k = true) ks).
Lemma waiting_reap opts ks : waiting opts (reap_one None opts ks) = Nat.pred (waiting opts ks).
Proof.
  unfold waiting. induction ks as [|k ks IH]; [done|]. cbn [reap_one].
  destruct (k_ended k && eligible None opts k) eqn:E.
  - rewrite filter_cons_True by done. done.
  - rewrite !filter_cons_False by (by rewrite E). exact IH.
Qed.
Lemma waiting_none opts ks k :
  waiting opts ks = O → k ∈ ks → k_ended k && eligible None opts k = false.
Proof.
  intros H Hk. apply not_true_iff_false. intros Ht. unfold waiting in H.
  apply nil_length_inv in H.
  assert (k ∈ filter (λ k, k_ended k && eligible None opts k = true) ks) as Hf
    by (by apply elem_of_list_filter).
  rewrite H in Hf. by apply elem_of_nil in Hf.
Qed.
Lemma waiting_loop opts fuel : ∀ ks, (waiting opts ks ≤ fuel)%nat →
  waiting opts (wait_loop fuel opts ks) = O.
Proof.
  induction fuel as [|fuel IH]; intros ks H; cbn [wait_loop]; [lia|]. apply IH.
  rewrite waiting_reap. lia.
Qed.
Lemma waiting_le opts ks : (waiting opts ks ≤ length ks)%nat.
Proof. apply filter_length. Qed.
Lemma wait_done opts ks k :
  k ∈ wait_loop (length ks) opts ks → k_ended k = true → eligible None opts k = false.
Proof.
  intros H He. assert (waiting opts (wait_loop (length ks) opts ks) = O) as Hw.
  { apply waiting_loop, waiting_le. }
  pose proof (waiting_none _ _ _ Hw H) as Hx. by rewrite He in Hx.
Qed.

Lemma at_end_spec d k k' :
  k' ∈ at_end d k ↔ k' = mkKid (k_pid k) (k_signal k) true ∧ (d = SigIgnored → k_signal k ≠ SIGCHLD).
Proof.
  unfold at_end. destruct d; rewrite ?elem_of_list_singleton; [naive_solver..|].
  destruct (Z.eqb_spec (k_signal k) SIGCHLD) as [E|E].
  - split; [by intros ?%elem_of_nil|]. intros [_ H]. by destruct H.
  - rewrite elem_of_list_singleton. naive_solver.
Qed.
Lemma kids_snoc d es e : kids d (es ++ [e]) = kid_step d (kids d es) e.
Proof. unfold kids. by rewrite foldl_app. Qed.

(** Signals of children. *)
Definition made (es : list kid_event) (k : kid) : Prop := ∃ ne c p evs t fl r,
  KNew ne c p evs t ∈ es ∧ wo_child (worker_new ne c p evs t) = Some (fl, r) ∧
  k_pid k = pe_pid (ne_proc ne) ∧ k_signal k = exit_signal fl r.
Lemma kids_made d es k :
  k ∈ kids d es → made es k ∧ (d = SigIgnored → k_ended k = true → k_signal k ≠ SIGCHLD).
Proof.
  revert k. induction es as [|e es IH] using rev_ind; intros k; [by intros ?%elem_of_nil|].
  assert (∀ k, made es k → made (es ++ [e]) k) as Hup.
  { intros k' (ne & c & p & evs & t & fl & r & H & ?). exists ne, c, p, evs, t, fl, r.
    split; [|done]. apply elem_of_app. by left. }
  assert (∀ k, k ∈ kids d es → made (es ++ [e]) k ∧
    (d = SigIgnored → k_ended k = true → k_signal k ≠ SIGCHLD)) as Hold.
  { intros k' [H1 H2]%IH. auto. }
  rewrite kids_snoc. destruct e as [ne c p evs t|pid|who opts]; cbn [kid_step].
  - destruct (wo_child (worker_new ne c p evs t)) as [[fl r]|] eqn:Ec; [|auto].
    assert (∀ b, made (es ++ [KNew ne c p evs t]) (mkKid (pe_pid (ne_proc ne)) (exit_signal fl r) b)) as Hm.
    { intros b. exists ne, c, p, evs, t, fl, r. split; [|done]. apply elem_of_app. right. left. }
    destruct r as [s|s]; intros [H|H]%elem_of_app; try auto.
    + apply at_end_spec in H as [-> H]. cbn [k_pid k_signal k_ended] in *. split; [apply Hm|]. auto.
    + apply elem_of_list_singleton in H as ->. split; [apply Hm|]. done.
  - intros (k0 & Hk & Hk0)%elem_of_list_bind.
    destruct (N.eqb (k_pid k0) pid && negb (k_ended k0)).
    + apply at_end_spec in Hk as [-> H]. destruct (Hold _ Hk0) as [Hm _]. cbn [k_signal].
      split; [exact Hm|]. auto.
    + apply elem_of_list_singleton in Hk as ->. auto.
  - intros H%reap_sub. auto.
Qed.

(** Partial: true if every process that was made has started its program. *)
Theorem C130_started_partial d es :
  all_started es →
  (d = SigIgnored → none_left (kids d es)) ∧
  none_left (wait_loop (length (kids d es)) 0 (kids d es)).
Proof.
  intros Hs.
  assert (∀ k, k ∈ kids d es → k_signal k = SIGCHLD) as Hsig.
  { intros k [(ne & c & p & evs & t & fl & r & Hin & Hc & _ & ->) _]%kids_made.
    by destruct (Hs _ _ _ _ _ _ _ Hin Hc) as [s ->]. }
  split.
  - intros -> k Hk. apply not_true_iff_false. intros He.
    destruct (kids_made _ _ _ Hk) as [_ H]. by apply H, Hsig.
  - intros k Hk. apply not_true_iff_false. intros He.
    pose proof (wait_done _ _ _ Hk He) as Hx. apply wait_sub in Hk. apply Hsig in Hk.
    unfold eligible in Hx. by rewrite Hk in Hx.
Qed.
Print Assumptions C130_started_partial.

(** A program that waits with __WALL has none left. *)
Theorem C130_wall opts d es :
  Z.testbit opts 30 = true →
  none_left (wait_loop (length (kids d es)) opts (kids d es)).
Proof.
  intros Ho k Hk. apply not_true_iff_false. intros He.
  pose proof (wait_done _ _ _ Hk He) as Hx. unfold eligible in Hx. cbn [andb] in Hx.
  assert (Z.land opts WALL ≠ 0) as Hne.
  { intros H. apply (f_equal (λ z, Z.testbit z 30)) in H. rewrite Z.land_spec, Ho in H. done. }
  apply Z.eqb_neq in Hne. by rewrite Hne in Hx.
Qed.
Print Assumptions C130_wall.

(** A process that ends before its program starts has the exit signal 0. *)
Lemma exited_signal fl s : exit_signal fl (EpExited s) = 0.
Proof. by destruct fl as [[] []]. Qed.
Definition plain_waits (es : list kid_event) : Prop := ∀ who opts,
  KWait who opts ∈ es → Z.testbit opts 30 = false ∧ Z.testbit opts 31 = false.
Lemma plain_not_eligible who opts k :
  Z.testbit opts 30 = false → Z.testbit opts 31 = false → k_signal k ≠ SIGCHLD →
  eligible who opts k = false.
Proof.
  intros H30 H31 Hk. unfold eligible.
  assert (Z.land opts WALL = 0) as ->.
  { change WALL with (2 ^ 30). apply Z.bits_inj'. intros n Hn. rewrite Z.land_spec, Z.pow2_bits_eqb, Z.bits_0 by done.
    destruct (Z.eqb_spec 30 n) as [<-|]; [by rewrite H30|by rewrite andb_false_r]. }
  assert (Z.land opts WCLONE = 0) as ->.
  { change WCLONE with (2 ^ 31). apply Z.bits_inj'. intros n Hn. rewrite Z.land_spec, Z.pow2_bits_eqb, Z.bits_0 by done.
    destruct (Z.eqb_spec 31 n) as [<-|]; [by rewrite H31|by rewrite andb_false_r]. }
  apply Z.eqb_neq in Hk. rewrite Hk. cbn. by rewrite andb_false_r.
Qed.
Lemma kept_on d k es : ∀ ks, plain_waits es → k ∈ ks → k_ended k = true → k_signal k ≠ SIGCHLD →
  k ∈ foldl (kid_step d) ks es.
Proof.
  induction es as [|e es IH]; intros ks Hp Hk He Hs; [done|]. cbn [foldl].
  apply IH; [intros who opts H; apply (Hp who); by right| |done|done].
  destruct e as [ne c p evs t|pid|who opts]; cbn [kid_step].
  - destruct (wo_child _) as [[fl [s|s]]|]; [apply elem_of_app; by left..|done].
  - apply elem_of_list_bind. exists k. split; [|done]. rewrite He, andb_false_r. left.
  - apply reap_keeps; [done|]. destruct (Hp who opts) as [H1 H2]; [left|].
    by rewrite plain_not_eligible, andb_false_r.
Qed.

(** Each process that ended before its program started stays, whatever the program does
    with SIGCHLD and however often it waits without __WALL and __WCLONE; the error that
    Worker::new returned does not say which it was. *)
Theorem C130_failed_refuted d es ne c p evs t es' fl s opts fuel :
  wo_child (worker_new ne c p evs t) = Some (fl, EpExited s) → plain_waits es' →
  Z.testbit opts 30 = false → Z.testbit opts 31 = false →
  let k := mkKid (pe_pid (ne_proc ne)) 0 true in
  k ∈ kids d (es ++ [KNew ne c p evs t] ++ es') ∧
  k ∈ wait_loop fuel opts (kids d (es ++ [KNew ne c p evs t] ++ es')).
Proof.
  intros Hc Hp H30 H31 k.
  assert (k ∈ kids d (es ++ [KNew ne c p evs t] ++ es')) as Hk.
  { unfold kids. rewrite !foldl_app. apply kept_on; [done| |done|done].
    cbn [foldl kid_step]. rewrite Hc. apply elem_of_app. right. apply at_end_spec.
    cbn [k_pid k_signal]. rewrite exited_signal. done. }
  split; [done|]. revert Hk. generalize (kids d (es ++ [KNew ne c p evs t] ++ es')).
  induction fuel as [|fuel IH]; intros ks Hk; [done|]. cbn [wait_loop]. apply IH.
  apply reap_keeps; [done|]. by rewrite plain_not_eligible, andb_false_r.
Qed.
Print Assumptions C130_failed_refuted.

(** Such processes are those of every error before the handshake (C55). *)
Theorem C130_which_errors ne c p evs t e fl r :
  kernel_ok ne t → wo_result (worker_new ne c p evs t) = WnErr e → (∀ se, e ≠ StartFailed se) →
  wo_child (worker_new ne c p evs t) = Some (fl, r) → ∃ s, r = EpExited s.
Proof.
  intros Hk He Hns Hc. destruct r as [s|s]; [eauto|].
  by destruct (C55_no_process_partial _ _ _ _ _ _ fl s Hk He Hns).
Qed.
Print Assumptions C130_which_errors.

Lemma ex_failed : ∃ fl s,
  wo_child (worker_new (ex_new (Some 2%N) None) ex_config ex_pol [] ex_table) = Some (fl, EpExited s).
Proof. eexists _, _. by vm_compute. Qed.
Lemma no_waits : plain_waits [].
Proof. by intros who opts ?%elem_of_nil. Qed.
Theorem C130_refuted : ¬ C130_full.
Proof.
  intros H. destruct ex_failed as (fl & s & E).
  destruct (C130_failed_refuted SigIgnored [] _ _ _ _ _ [] _ _ 0 0%nat E no_waits eq_refl eq_refl) as [Hk _].
  destruct (H SigIgnored [KNew (ex_new (Some 2%N) None) ex_config ex_pol [] ex_table]) as [H1 _].
  pose proof (H1 eq_refl _ Hk) as Hx. clear -Hx. discriminate Hx.
Qed.
Print Assumptions C130_refuted.

(* A worker that starts and ends, and one whose program does not exist. *)
Example C130_example :
  let good := KNew (ex_new None None) ex_config ex_pol [] ex_table in
  let bad := KNew (ex_new (Some 2%N) None) ex_config ex_pol [] ex_table in
  kids SigIgnored [good; KEnds 4321%N] = [] ∧
  kids SigDefault [good; KEnds 4321%N] = [mkKid 4321%N 17 true] ∧
  kids SigDefault [good; KEnds 4321%N; KWait None 0] = [] ∧
  kids SigIgnored [bad] = [mkKid 4321%N 0 true] ∧
  kids SigDefault [bad; KWait None 0; KWait (Some 4321%N) 0] = [mkKid 4321%N 0 true] ∧
  kids SigDefault [bad; KWait None WALL] = [].
Proof. split_and!; by vm_compute. Qed.
