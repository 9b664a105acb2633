(** C167: the process found by a worker's number is the worker. *)
From stdpp Require Import prelude gmap.
From Coq Require Import Strings.Byte.
From Verif Require Import Bytes PolicyModel PidModel WinBrokerModel WinBrokerProps.
Local Open Scope N_scope.

(** ** What is claimed, on Windows *)

(** A system before the first worker: the numbers of the existing processes differ. *)
Definition fresh_world (s : pworld) : Prop :=
  k_workers s = ∅ ∧
  (∀ o p, k_objs s !! o = Some p → o < k_next s) ∧
  (∀ h o, k_mine s !! h = Some o → is_Some (k_objs s !! o)) ∧
  (∀ o o' p p', k_objs s !! o = Some p → k_objs s !! o' = Some p' → kp_pid p = kp_pid p' → o = o').

(** The handle the channel duplicates into (channel.rs:170-178) is one to the worker. *)
Definition right_process (s : pworld) : Prop :=
  ∀ w x h, k_workers s !! w = Some x → pw_remote x = Some h → k_mine s !! h = Some w.

(** The number that Worker::get_pid returns is the worker's, and nobody else's, as long as
    the Worker exists or its thread runs. *)
Definition right_number (s : pworld) : Prop :=
  ∀ w x, k_workers s !! w = Some x → (pw_hproc x ≠ None ∨ pw_remote x ≠ None) →
    (∃ p, k_objs s !! w = Some p ∧ kp_pid p = pw_pid x) ∧
    ∀ o p, k_objs s !! o = Some p → kp_pid p = pw_pid x → o = w.

Definition C167_full : Prop :=
  ∀ s es, fresh_world s → right_process (prun s es) ∧ right_number (prun s es).

(** The handle belongs to a worker that was started. *)
Definition of_a_worker (s : pworld) (h : N) : Prop :=
  ∃ w x, k_workers s !! w = Some x ∧ (pw_hproc x = Some h ∨ pw_remote x = Some h).
(** No other part of the program closes such a handle. *)
Definition lets_be (s : pworld) (es : list pevent) : Prop :=
  ∀ es1 h es2, es = es1 ++ EClose h :: es2 → ¬ of_a_worker (prun s es1) h.

(** ** Proof *)

Record pinv (s : pworld) : Prop := mkPinv {
  pi_next : ∀ o p, k_objs s !! o = Some p → o < k_next s;
  pi_mine : ∀ h o, k_mine s !! h = Some o → is_Some (k_objs s !! o);
  pi_pids : ∀ o o' p p', k_objs s !! o = Some p → k_objs s !! o' = Some p' →
    kp_pid p = kp_pid p' → o = o';
  pi_known : ∀ w x, k_workers s !! w = Some x → w < k_next s;
  pi_hproc : ∀ w x h, k_workers s !! w = Some x → pw_hproc x = Some h → k_mine s !! h = Some w;
  pi_remote : ∀ w x h, k_workers s !! w = Some x → pw_remote x = Some h → k_mine s !! h = Some w;
  pi_same : ∀ w x h h', k_workers s !! w = Some x → pw_hproc x = Some h →
    pw_remote x = Some h' → h ≠ h';
  pi_pid : ∀ w x p, k_workers s !! w = Some x → k_objs s !! w = Some p → kp_pid p = pw_pid x }.

Lemma held_mine s h o : k_mine s !! h = Some o → held s o = true.
Proof.
  intros H. unfold held. apply orb_true_iff. right. apply bool_decide_eq_true.
  apply elem_of_list_fmap. exists (h, o). split; [done|]. by apply elem_of_map_to_list.
Qed.

Lemma free_pid_spec s pid : free_pid s pid = true →
  ∀ o p, k_objs s !! o = Some p → kp_pid p ≠ pid.
Proof.
  unfold free_pid. intros H o p Ho Heq. rewrite forallb_forall in H.
  assert (In p (map snd (map_to_list (k_objs s)))) as Hin.
  { apply elem_of_list_In, elem_of_list_fmap. exists (o, p). split; [done|].
    by apply elem_of_map_to_list. }
  apply H in Hin. subst pid. by rewrite N.eqb_refl in Hin.
Qed.

Lemma collect_Some s o p : k_objs (collect s) !! o = Some p → k_objs s !! o = Some p.
Proof. cbn [collect k_objs]. intros H. by apply map_filter_lookup_Some in H as [? _]. Qed.
Lemma collect_keeps s h o p :
  k_mine s !! h = Some o → k_objs s !! o = Some p → k_objs (collect s) !! o = Some p.
Proof.
  intros Hm Ho. cbn [collect k_objs]. apply map_filter_lookup_Some. split; [done|].
  cbn [fst snd]. rewrite (held_mine _ _ _ Hm). by destruct (kp_alive p).
Qed.

(** Deleting what nothing needs changes none of it. *)
Lemma pinv_collect s : pinv s → pinv (collect s).
Proof.
  intros []. constructor; cbn [collect k_next k_mine k_workers].
  - intros o p H%collect_Some. eauto.
  - intros h o H. destruct (pi_mine0 _ _ H) as [p Hp]. exists p.
    by apply (collect_keeps s h).
  - intros o o' p p' H1%collect_Some H2%collect_Some. eauto.
  - done.
  - done.
  - done.
  - done.
  - intros w x p Hw H%collect_Some. eauto.
Qed.

(** Closing a handle that no worker has. *)
Lemma pinv_close s h : pinv s → ¬ of_a_worker s h → pinv (close_handle s h).
Proof.
  intros [] Hno. apply pinv_collect. constructor; cbn [with_mine k_objs k_next k_mine k_workers].
  - done.
  - intros h' o H. apply lookup_delete_Some in H as [_ H]. eauto.
  - done.
  - done.
  - intros w x h' Hw Hx. rewrite lookup_delete_ne; [eauto|]. intros ->. apply Hno.
    exists w, x. tauto.
  - intros w x h' Hw Hx. rewrite lookup_delete_ne; [eauto|]. intros ->. apply Hno.
    exists w, x. tauto.
  - done.
  - done.
Qed.

Lemma free_handle_spec s h : free_handle s h = true → k_mine s !! h = None.
Proof. apply bool_decide_eq_true. Qed.

Lemma pinv_drop s w pid hp r :
  pinv s → k_workers s !! w = Some (mkPworker pid (Some hp) r) →
  pinv (close_handle (with_worker s w (mkPworker pid None r)) hp).
Proof.
  intros I Hw. pose proof (pi_hproc _ I _ _ _ Hw eq_refl) as Hhp. apply pinv_close.
  - destruct I. constructor; cbn [with_worker k_objs k_next k_mine k_workers]; try done.
    + intros w' x' [[<- <-]|[_ H]]%lookup_insert_Some; eauto.
    + intros w' x' h [[<- <-]|[_ H]]%lookup_insert_Some; [done|eauto].
    + intros w' x' h [[<- <-]|[_ H]]%lookup_insert_Some; [|eauto].
      cbn [pw_remote]. intros ->. by eapply pi_remote0.
    + intros w' x' h h' [[<- <-]|[_ H]]%lookup_insert_Some; [done|eauto].
    + intros w' x' p [[<- <-]|[_ H]]%lookup_insert_Some; [|eauto].
      intros Hp. exact (pi_pid0 _ _ _ Hw Hp).
  - intros (w' & x' & Hin & Hor). cbn [with_worker k_workers] in Hin.
    apply lookup_insert_Some in Hin as [[<- <-]|[Hne H]]; cbn [pw_hproc pw_remote] in Hor.
    + destruct Hor as [?|Hr]; [done|]. by apply (pi_same _ I _ _ hp hp Hw).
    + assert (k_mine s !! hp = Some w') as Hx.
      { destruct Hor; [by eapply (pi_hproc _ I)|by eapply (pi_remote _ I)]. }
      congruence.
Qed.

Lemma pinv_end s w pid hp h :
  pinv s → k_workers s !! w = Some (mkPworker pid hp (Some h)) →
  pinv (close_handle (with_worker s w (mkPworker pid hp None)) h).
Proof.
  intros I Hw. pose proof (pi_remote _ I _ _ _ Hw eq_refl) as Hhp. apply pinv_close.
  - destruct I. constructor; cbn [with_worker k_objs k_next k_mine k_workers]; try done.
    + intros w' x' [[<- <-]|[_ H]]%lookup_insert_Some; eauto.
    + intros w' x' h' [[<- <-]|[_ H]]%lookup_insert_Some; [|eauto].
      cbn [pw_hproc]. intros ->. by eapply pi_hproc0.
    + intros w' x' h' [[<- <-]|[_ H]]%lookup_insert_Some; [done|eauto].
    + intros w' x' h' h'' [[<- <-]|[_ H]]%lookup_insert_Some; [done|eauto].
    + intros w' x' p [[<- <-]|[_ H]]%lookup_insert_Some; [|eauto].
      intros Hp. exact (pi_pid0 _ _ _ Hw Hp).
  - intros (w' & x' & Hin & Hor). cbn [with_worker k_workers] in Hin.
    apply lookup_insert_Some in Hin as [[<- <-]|[Hne H]]; cbn [pw_hproc pw_remote] in Hor.
    + destruct Hor as [->|?]; [|done]. by apply (pi_same _ I _ _ h h Hw).
    + assert (k_mine s !! h = Some w') as Hx.
      { destruct Hor; [by eapply (pi_hproc _ I)|by eapply (pi_remote _ I)]. }
      congruence.
Qed.

Lemma pinv_object s pid : pinv s → free_pid s pid = true → pinv (new_object s pid).
Proof.
  intros [] Hf. pose proof (free_pid_spec _ _ Hf) as Hfree.
  constructor; cbn [new_object k_objs k_next k_mine k_workers].
  - intros o p [[<- _]|[_ H]]%lookup_insert_Some; [lia|]. apply pi_next0 in H. lia.
  - intros h o H. destruct (pi_mine0 _ _ H) as [p Hp]. pose proof (pi_next0 _ _ Hp).
    exists p. rewrite lookup_insert_ne by lia. done.
  - intros o o' p p' [[<- <-]|[Hn H]]%lookup_insert_Some [[<- <-]|[Hn' H']]%lookup_insert_Some;
      cbn [kp_pid]; intros E.
    + done.
    + by destruct (Hfree _ _ H').
    + by destruct (Hfree _ _ H).
    + eauto.
  - intros w x H. apply pi_known0 in H. lia.
  - done.
  - done.
  - done.
  - intros w x p Hw. pose proof (pi_known0 _ _ Hw). rewrite lookup_insert_ne by lia. eauto.
Qed.

Lemma pinv_own s h o p : pinv s → k_mine s !! h = None → k_objs s !! o = Some p →
  pinv (with_mine s (<[h := o]> (k_mine s))).
Proof.
  intros [] Hh Ho. constructor; cbn [with_mine k_objs k_next k_mine k_workers]; try done.
  - intros h' o' [[<- <-]|[_ H]]%lookup_insert_Some; eauto.
  - intros w x h' Hw Hx. pose proof (pi_hproc0 _ _ _ Hw Hx) as H. rewrite lookup_insert_ne; congruence.
  - intros w x h' Hw Hx. pose proof (pi_remote0 _ _ _ Hw Hx) as H. rewrite lookup_insert_ne; congruence.
Qed.

Lemma pinv_step s e :
  pinv s → (∀ h, e = EClose h → ¬ of_a_worker s h) → pinv (pstep s e).
Proof.
  intros I Hno. destruct e as [pid|o|x|h o|h|h pid|w h o|w|w]; cbn [pstep].
  - destruct (free_pid s pid) eqn:E; [|done]. by apply pinv_object.
  - destruct (k_objs s !! o) as [p|] eqn:E; [|done]. apply pinv_collect. destruct I.
    constructor; cbn [k_objs k_next k_mine k_workers]; try done.
    + intros o' p' [[<- <-]|[_ H]]%lookup_insert_Some; eauto.
    + intros h o' H. destruct (decide (o = o')) as [->|Hne].
      * rewrite lookup_insert. eauto.
      * rewrite lookup_insert_ne by done. eauto.
    + intros o1 o2 p1 p2 [[<- <-]|[Hn H]]%lookup_insert_Some [[<- <-]|[Hn' H']]%lookup_insert_Some;
        cbn [kp_pid]; intros Hp; eauto.
    + intros w x' p' Hw [[<- <-]|[_ H]]%lookup_insert_Some; cbn [kp_pid]; eauto.
  - apply pinv_collect. by destruct I; constructor.
  - destruct (k_objs s !! o) as [p|] eqn:E; [|done].
    destruct (free_handle s h) eqn:Ef; [|done]. apply free_handle_spec in Ef.
    by eapply pinv_own.
  - apply pinv_close; [done|]. by apply Hno.
  - destruct (free_pid s pid) eqn:E; [|done]. destruct (free_handle s h) eqn:Ef; [|done].
    cbn [andb]. apply free_handle_spec in Ef.
    pose proof (pinv_object _ _ I E) as I1.
    assert (k_objs (new_object s pid) !! k_next s = Some (mkKproc pid true)) as Ho.
    { cbn [new_object k_objs]. by rewrite lookup_insert. }
    pose proof (pinv_own _ h _ _ I1 Ef Ho) as I2.
    assert (k_workers s !! k_next s = None) as Hnone.
    { destruct (k_workers s !! k_next s) as [x|] eqn:Ex; [|done].
      pose proof (pi_known _ I _ _ Ex). lia. }
    destruct I2. constructor;
      cbn [with_worker k_objs k_next k_mine k_workers with_mine new_object] in *; try done.
    + intros w x [[<- <-]|[_ H]]%lookup_insert_Some; [lia|eauto].
    + intros w x h' [[<- <-]|[_ H]]%lookup_insert_Some; [|eauto].
      cbn [pw_hproc]. intros [= <-]. by rewrite lookup_insert.
    + intros w x h' [[<- <-]|[_ H]]%lookup_insert_Some; [done|eauto].
    + intros w x h' h'' [[<- <-]|[_ H]]%lookup_insert_Some; [done|eauto].
    + intros w x p [[<- <-]|[_ H]]%lookup_insert_Some; [|eauto].
      rewrite lookup_insert. by intros [= <-].
  - destruct (k_workers s !! w) as [[pid [hp|] [r|]]|] eqn:Ew; try done.
    destruct (k_objs s !! o) as [p|] eqn:Eo; [|done].
    destruct (N.eqb_spec (kp_pid p) pid) as [Ep|]; [|done].
    destruct (free_handle s h) eqn:Ef; [|done]. cbn [andb]. apply free_handle_spec in Ef.
    pose proof (pi_hproc _ I _ _ _ Ew eq_refl) as Hhp. cbn [pw_hproc] in Hhp.
    destruct (pi_mine _ I _ _ Hhp) as [pw Hpw].
    assert (o = w) as ->.
    { apply (pi_pids _ I o w p pw Eo Hpw). rewrite Ep. symmetry.
      exact (pi_pid _ I _ _ _ Ew Hpw). }
    pose proof (pinv_own _ h _ _ I Ef Eo) as I2. destruct I2. constructor;
      cbn [with_worker k_objs k_next k_mine k_workers with_mine] in *; try done.
    + intros w' x [[<- <-]|[_ H]]%lookup_insert_Some; eauto.
    + intros w' x h' [[<- <-]|[_ H]]%lookup_insert_Some; [|eauto].
      cbn [pw_hproc]. intros [= <-]. exact (pi_hproc0 _ _ _ Ew eq_refl).
    + intros w' x h' [[<- <-]|[_ H]]%lookup_insert_Some; [|eauto].
      cbn [pw_remote]. intros [= <-]. by rewrite lookup_insert.
    + intros w' x h' h'' [[<- <-]|[_ H]]%lookup_insert_Some; [|eauto].
      cbn [pw_hproc pw_remote]. intros [= <-] [= <-] ->. congruence.
    + intros w' x p' [[<- <-]|[_ H]]%lookup_insert_Some; [|eauto].
      intros Hp. exact (pi_pid0 _ _ _ Ew Hp).
  - destruct (k_workers s !! w) as [[pid [hp|] r]|] eqn:Ew; try done. by apply pinv_drop.
  - destruct (k_workers s !! w) as [[pid hp [h|]]|] eqn:Ew; try done. by apply pinv_end.
Qed.

Lemma pinv_run es : ∀ s, pinv s → lets_be s es → pinv (prun s es).
Proof.
  induction es as [|e es IH] using rev_ind; intros s I Hl; [done|].
  unfold prun. rewrite foldl_app. cbn [foldl]. apply pinv_step.
  - apply IH; [done|]. intros es1 h es2 ->. apply (Hl es1 h (es2 ++ [e])).
    by rewrite <- app_assoc.
  - intros h ->. apply (Hl es h []). done.
Qed.

Lemma pinv_fresh s : fresh_world s → pinv s.
Proof.
  intros (Hw & Hn & Hm & Hp). constructor; try done; rewrite Hw; intros w x;
    rewrite lookup_empty; done.
Qed.

(** ** The results on Windows *)

(** Partial: true as long as no other part of the program closes a handle of a worker.
    Missing: that it does not; a worker's message can make a thread of the library close one
    (C69). *)
Theorem C167_partial s es :
  fresh_world s → lets_be s es → right_process (prun s es) ∧ right_number (prun s es).
Proof.
  intros Hf Hl. pose proof (pinv_run es s (pinv_fresh _ Hf) Hl) as I. split.
  - intros w x h. apply (pi_remote _ I).
  - intros w x Hw Hor.
    assert (∃ h, k_mine (prun s es) !! h = Some w) as [h Hh].
    { destruct x as [pid [hp|] [r|]]; cbn in Hor.
      - exists hp. by apply (pi_hproc _ I _ _ _ Hw).
      - exists hp. by apply (pi_hproc _ I _ _ _ Hw).
      - exists r. by apply (pi_remote _ I _ _ _ Hw).
      - by destruct Hor. }
    destruct (pi_mine _ I _ _ Hh) as [p Hp]. pose proof (pi_pid _ I _ _ _ Hw Hp) as Ep. split.
    + eauto.
    + intros o p' Ho Ep'. apply (pi_pids _ I o w p' p Ho Hp). congruence.
Qed.
Print Assumptions C167_partial.

(** The moments that count: whatever OpenProcess finds by the number of a worker whose Worker
    exists is the worker, even if that has ended in the meantime and any number of other
    processes were started and have ended. *)
Theorem C167_found_partial s es w x o p :
  fresh_world s → lets_be s es → k_workers (prun s es) !! w = Some x → pw_hproc x ≠ None →
  k_objs (prun s es) !! o = Some p → kp_pid p = pw_pid x → o = w.
Proof.
  intros Hf Hl Hw Hx. destruct (C167_partial s es Hf Hl) as [_ Hn].
  destruct (Hn w x Hw) as [_ H]; [by left|]. apply H.
Qed.
Print Assumptions C167_found_partial.

(** A system with a program (object 0, number 4) whose broker is object 1, number 8. *)
Definition pid_start : pworld :=
  mkPworld {[0 := mkKproc 4 true; 1 := mkKproc 8 true]} 2 ∅ {[0; 1]} ∅.

Lemma pid_start_fresh : fresh_world pid_start.
Proof.
  assert (∀ o p, k_objs pid_start !! o = Some p →
    (o = 0 ∧ p = mkKproc 4 true) ∨ (o = 1 ∧ p = mkKproc 8 true)) as H.
  { intros o p H. cbn [pid_start k_objs] in H.
    apply lookup_insert_Some in H as [[<- <-]|[_ [<- <-]%lookup_singleton_Some]]; auto. }
  split_and!.
  - done.
  - intros o p Ho. destruct (H _ _ Ho) as [[-> _]|[-> _]]; cbn [pid_start k_next]; lia.
  - intros h o Ho. cbn [pid_start k_mine] in Ho. by rewrite lookup_empty in Ho.
  - intros o o' p p' H1 H2.
    destruct (H _ _ H1) as [[-> ->]|[-> ->]], (H _ _ H2) as [[-> ->]|[-> ->]]; done.
Qed.

(** The start of a worker (object 2, number 12, handle 40). Before OpenProcess is reached,
    a thread serving another worker closes handle 40, the new worker ends and another program
    (object 3) gets the number. *)
Definition stray_events : list pevent :=
  [ENew 40 12; EClose 40; EExit 2; EStart 12; EBind 2 44 3].

(** False: such a close is what a worker's message does (C69), and then the handles meant for
    the new worker go to the other program. *)
Theorem C167_refuted :
  ¬ C167_full ∧
  WClosed 40 ∈ ws_trace (win_session (ex_env 0 (Some 9)) false [] no_order 100 (Some 104)
    [ex_init; ex_read WReqInit (Some 40)] {[40 := 5]}).2 ∧
  k_workers (prun pid_start stray_events) !! 2 = Some (mkPworker 12 (Some 40) (Some 44)) ∧
  k_mine (prun pid_start stray_events) !! 44 = Some 3.
Proof.
  assert (k_workers (prun pid_start stray_events) !! 2 = Some (mkPworker 12 (Some 40) (Some 44)))
    as H1 by (by vm_compute).
  assert (k_mine (prun pid_start stray_events) !! 44 = Some 3) as H2 by (by vm_compute).
  split_and!; [|..|done|done].
  - intros H. destruct (H pid_start stray_events pid_start_fresh) as [Hr _].
    specialize (Hr _ _ 44 H1 eq_refl). congruence.
  - replace (ws_trace _) with [WSent (enc_wrapped enc_wrep (WOutInit no_order false, None));
      WClosed 40; WClosed 100; WClosed 104] by (by vm_compute).
    apply elem_of_list_further, elem_of_list_here.
Qed.
Print Assumptions C167_refuted.

(** Without the stray close, the same events leave the number taken: the other program gets
    another one and OpenProcess finds the ended worker. After the drop of the Worker and the
    end of the thread the number is free. *)
Example C167_example :
  let es := [ENew 40 12; EExit 2; EStart 12; EStart 16; EBind 2 44 3; EBind 2 44 2] in
  lets_be pid_start es ∧
  k_objs (prun pid_start es) !! 2 = Some (mkKproc 12 false) ∧
  k_objs (prun pid_start es) !! 3 = Some (mkKproc 16 true) ∧
  k_mine (prun pid_start es) !! 44 = Some 2 ∧
  k_objs (prun pid_start (es ++ [EDrop 2; EStart 12])) !! 4 = None ∧
  k_objs (prun pid_start (es ++ [EDrop 2; EEnd 2; EStart 12])) !! 4 = Some (mkKproc 12 true).
Proof.
  cbv zeta. split; [|by vm_compute].
  intros es1 h es2 H.
  assert (EClose h ∈ [ENew 40 12; EExit 2; EStart 12; EStart 16; EBind 2 44 3; EBind 2 44 2]) as Hin.
  { rewrite H. apply elem_of_app. right. apply elem_of_list_here. }
  by repeat (apply elem_of_cons in Hin as [?|Hin]; [done|]); apply elem_of_nil in Hin.
Qed.

(** ** Linux *)

(** A system before the first worker: no process has a name still to be given. *)
Definition lfresh (s : lworld) : Prop :=
  l_workers s = ∅ ∧ ∀ pid p, l_procs s !! pid = Some p → lp_id p < l_next s.

(** What has the number that Worker::get_pid returns is the worker. *)
Definition lright (s : lworld) : Prop :=
  ∀ i pid p, l_workers s !! i = Some pid → l_procs s !! pid = Some p → lp_id p = i.

Definition C167_linux_full : Prop := ∀ s es, lfresh s → lright (lrun s es).

(** The program waits for no worker. *)
Definition waits_for_none (s : lworld) (es : list levent) : Prop :=
  ∀ es1 pid es2, es = es1 ++ LReap pid :: es2 → ∀ i, l_workers (lrun s es1) !! i ≠ Some pid.

Record linv (s : lworld) : Prop := mkLinv {
  li_known : ∀ i pid, l_workers s !! i = Some pid → i < l_next s;
  li_there : ∀ i pid, l_workers s !! i = Some pid →
    ∃ r, l_procs s !! pid = Some (mkLproc i true r) }.

Lemma linv_step s e : l_ignores s = false → linv s →
  (∀ pid, e = LReap pid → ∀ i, l_workers s !! i ≠ Some pid) →
  linv (lstep s e) ∧ l_ignores (lstep s e) = false.
Proof.
  intros Hg [Hk Ht] Hno. destruct e as [pid c|pid|pid|pid]; cbn [lstep].
  - destruct (l_procs s !! pid) as [p|] eqn:E; [done|]. split; [|done].
    constructor; cbn [lnew_proc l_workers l_next l_procs].
    + intros i pid' H. apply Hk in H. lia.
    + intros i pid' H. destruct (Ht _ _ H) as [r Hr]. exists r.
      rewrite lookup_insert_ne; [done|congruence].
  - destruct (l_procs s !! pid) as [[i c [|]]|] eqn:E; [|done|done].
    rewrite Hg, andb_false_r. split; [|done]. constructor; cbn [l_workers l_next l_procs]; [done|].
    intros i' pid' H. destruct (Ht _ _ H) as [r Hr]. destruct (decide (pid = pid')) as [<-|Hne].
    + exists false. rewrite lookup_insert. congruence.
    + exists r. by rewrite lookup_insert_ne.
  - destruct (l_procs s !! pid) as [[i c [|]]|] eqn:E; [done| |done].
    split; [|done]. constructor; cbn [l_workers l_next l_procs]; [done|].
    intros i' pid' H. destruct (Ht _ _ H) as [r Hr]. exists r.
    rewrite lookup_delete_ne; [done|]. intros ->. by destruct (Hno pid' eq_refl i').
  - destruct (l_procs s !! pid) as [p|] eqn:E; [done|]. split; [|done].
    constructor; cbn [lnew_proc l_workers l_next l_procs].
    + intros i pid' [[<- <-]|[_ H]]%lookup_insert_Some; [lia|]. apply Hk in H. lia.
    + intros i pid' [[<- <-]|[_ H]]%lookup_insert_Some.
      * exists true. by rewrite lookup_insert.
      * destruct (Ht _ _ H) as [r Hr]. exists r. rewrite lookup_insert_ne; [done|congruence].
Qed.

(** Partial: true if the program does not ignore SIGCHLD and waits for no worker; the library
    itself never waits. The number then stays the worker's for ever, also after the Worker
    is dropped. Missing: programs that do either. *)
Theorem C167_linux_partial s es :
  lfresh s → l_ignores s = false → waits_for_none s es →
  lright (lrun s es) ∧
  ∀ i pid, l_workers (lrun s es) !! i = Some pid →
    ∃ r, l_procs (lrun s es) !! pid = Some (mkLproc i true r).
Proof.
  intros [Hw _] Hg Hl.
  assert (linv (lrun s es) ∧ l_ignores (lrun s es) = false) as [[Hk Ht] _].
  { revert Hl. induction es as [|e es IH] using rev_ind; intros Hl.
    - split; [|done]. constructor; cbn; rewrite Hw; intros i pid; rewrite lookup_empty; done.
    - unfold lrun. rewrite foldl_app. cbn [foldl]. destruct IH as [I Hi].
      { intros es1 pid es2 ->. apply (Hl es1 pid (es2 ++ [e])). by rewrite <- app_assoc. }
      apply linv_step; [done|done|]. intros pid ->. by apply (Hl es pid []). }
  split; [|done]. intros i pid p Hi Hp. destruct (Ht _ _ Hi) as [r Hr]. rewrite Hr in Hp.
  by injection Hp as <-.
Qed.
Print Assumptions C167_linux_partial.

Definition lstart (ign : bool) : lworld :=
  mkLworld {[1 := mkLproc 0 false true; 50 := mkLproc 1 false true]} 2 ign ∅.

Lemma lstart_fresh b : lfresh (lstart b).
Proof.
  split; [done|]. intros pid p H. cbn [lstart l_procs] in H.
  by apply lookup_insert_Some in H as [[<- <-]|[_ [<- <-]%lookup_singleton_Some]].
Qed.

(** False: the program waits for its children, or ignores SIGCHLD, and the number of an ended
    worker is given to another process. The Worker goes on to return it. *)
Theorem C167_linux_refuted :
  ¬ C167_linux_full ∧
  (let s := lrun (lstart false) [LNew 60; LExit 60; LReap 60; LStart 60 false] in
   l_workers s !! 2 = Some 60 ∧ l_procs s !! 60 = Some (mkLproc 3 false true)) ∧
  (let s := lrun (lstart true) [LNew 60; LExit 60; LStart 60 false] in
   l_workers s !! 2 = Some 60 ∧ l_procs s !! 60 = Some (mkLproc 3 false true)).
Proof.
  split; [|by vm_compute].
  intros H. specialize (H _ [LNew 60; LExit 60; LReap 60; LStart 60 false] (lstart_fresh false)).
  specialize (H 2 60 (mkLproc 3 false true)). assert (3 = 2) as Hx; [|done].
  apply H; by vm_compute.
Qed.
Print Assumptions C167_linux_refuted.

(** The number of an ended worker that nobody waited for is not given away. *)
Example C167_linux_example :
  l_procs (lrun (lstart false) [LNew 60; LExit 60; LStart 60 false; LStart 61 true]) !! 60
    = Some (mkLproc 2 true false).
Proof. by vm_compute. Qed.
