(** Property C127: the broker notices that a worker has ended. *)
From stdpp Require Import prelude gmap.
From Coq Require Import Strings.Byte ZifyN ZifyNat ZifyBool.
From Verif Require Import Bytes PolicyModel PolicySpec LinuxPolicyModel LinuxPolicySpec
  LinuxPolicyProofs PostcardModel FdModel FdProofs ChannelModel
  ChannelProofs BrokerModel BrokerSpec BrokerProofs BrokerProps BpfModel BpfProofs SeccompModel
  EntryModel EntryProofs EntryProps ProcessModel ProcessProofs ProcessProps WorkerNewProps
  StartRaceModel StartRaceProps LifeModel.
Local Open Scope N_scope.

(** socketpair(2) makes two new open files. *)
Definition new_channel (ne : new_env) (t : fdtab) : Prop :=
  ∀ fb fc, ne_sockets ne = Ok (fb, fc) →
    fb ≠ fc ∧ ∀ n ent, t !! n = Some ent → fd_file ent ≠ fc.

(** Nobody waits for the worker any more: Worker::new has returned and, if it returned a
    worker, the thread that served it has ended. *)
Definition noticed (r : worker_result) : Prop :=
  r ≠ WnWaiting ∧ r ≠ WnBlocked ∧ ∀ pid, r ≠ WnOk pid Serving.

(** Full statement: whatever a worker sent before it ended, however it ended, and whatever
    programs are started meanwhile. *)
Definition C127_full : Prop := ∀ ne c audit calls sent reset others t,
  kernel_ok ne t → new_channel ne t →
  noticed (wo_result (worker_ended ne c (build audit calls) sent reset others t)).

(** The moments at which the broker itself has the worker's end. *)
Definition in_between (s : stage) : Prop := s = BeforeInheritable ∨ s = BeforeDrop.

(* ---------------------------------------------------------------- proofs *)

Lemma has_file_spec f t : has_file f t = true ↔ ∃ n e, t !! n = Some e ∧ fd_file e = f.
Proof.
  unfold has_file. rewrite existsb_exists. split.
  - intros ([n e] & Hin%elem_of_list_In%elem_of_map_to_list & H). cbn [snd] in H.
    exists n, e. split; [done|lia].
  - intros (n & e & Hn & H1). exists (n, e).
    split; [by apply elem_of_list_In, elem_of_map_to_list|]. cbn [snd]. lia.
Qed.

(** What a call does before it listens does not depend on what it hears. *)
Lemma worker_new_listens ne c p t :
  (∃ r, (∀ evs, wo_result (worker_new ne c p evs t) = r) ∧
        (r = WnBlocked ∨ ∃ e, r = WnErr e)) ∨
  (∃ fb fc ch wh t2 p' c' pid t3 child,
     reached ne c p t fb fc ch wh t2 p' c' ∧
     install2 (pe_limit (ne_proc ne)) fb fc t = Some (ch, wh, t2) ∧
     process_new (ne_proc ne) p' c' t2 = (NewOk pid, t3, child) ∧
     ∀ evs so s,
       start_ipc_loop (ne_broker ne) (get_runtime_policy p') (ne_order ne) (ne_filter ne)
         (ne_spawn ne) ch evs (mkBst (delete wh t3) []) = (so, s) →
       wo_tab (worker_new ne c p evs t) = bs_tab s ∧
       wo_result (worker_new ne c p evs t) =
         match so with
         | StWaiting => WnWaiting
         | StErr e => WnErr (StartFailed e)
         | StPanic => WnPanic
         | StOk st => WnOk pid st
         end).
Proof.
  unfold worker_new.
  destruct (ne_sockets ne) as [[fb fc]|e] eqn:Es; [|left; eauto].
  destruct (install2 _ _ _ _) as [[[ch wh] t1]|] eqn:Ei; [|left; eauto 10].
  destruct (install2_spec _ _ _ _ _ _ _ Ei) as (F1 & F2 & Hlt & _ & Hl & Hmin & Ht1). subst t1.
  rewrite (set_inheritable_new wh true fc) by by rewrite lookup_insert.
  rewrite insert_insert. cbv zeta.
  set (t2 := <[wh := _]> (<[ch := _]> t)).
  fold (streams c).
  destruct (allow_all (wh :: streams c) t2 p) as [p'|e] eqn:Ea; [|left; eauto 10].
  destruct (set_environment_variable (ipc_variable wh) c) as [c'|e] eqn:Ee; [|left; eauto 10].
  destruct (process_new (ne_proc ne) p' c' t2) as [[r t3] child] eqn:En.
  destruct r as [pid|e|]; [|left; eauto 10|left; eauto 10].
  right. exists fb, fc, ch, wh, t2, p', c', pid, t3, child. split; [by repeat split|].
  do 2 (split; [done|]). intros evs so s E. rewrite E. by destruct so.
Qed.

(** Hearing more. *)
Lemma start_more env p order fl sp ch evs evs' s s' :
  start_ipc_loop env p order fl sp ch evs s = (StOk Serving, s') →
  start_ipc_loop env p order fl sp ch (evs ++ evs') s =
  let '(st, s'') := broker_loop env p ch evs' s' in (StOk st, s'').
Proof.
  unfold start_ipc_loop. destruct evs as [|ev evs]; [done|]. cbn [app].
  destruct (channel_recv _ _ _ _ _ _) as [r t'].
  destruct r as [[[m h]|]|e]; [|done|done].
  assert (∀ x : bstate, (match drop_handle h x with
     | Done s0 => (StErr UnexpectedWorkerMessage, mkBst (delete ch (bs_tab s0)) (bs_trace s0))
     | _ => (StPanic, x) end) ≠ (StOk Serving, s')) as Hno.
  { intros x. by destruct (drop_handle h x). }
  destruct m as [|path flags|nb args ip]; [destruct h as [h|]| |]; try (intros H; by apply Hno in H).
  destruct (broker_send _ _ _ _) as [[] s1]; [|done].
  destruct sp; [|done]. rewrite broker_loop_app.
  destruct (broker_loop _ _ _ evs s1) as [st s2]. intros [= -> ->]. done.
Qed.

(** A thread that still serves has left the table as it was. *)
Lemma start_serving_tab env audit calls order fl sp ch evs t s' :
  env_ok env →
  start_ipc_loop env (get_runtime_policy (build audit calls)) order fl sp ch evs (mkBst t []) =
    (StOk Serving, s') → bs_tab s' = t.
Proof.
  intros Hl. unfold start_ipc_loop. destruct evs as [|ev evs]; [done|].
  cbn [bs_tab bs_trace].
  destruct (channel_recv _ _ _ _ _ _) as [r t'] eqn:Er.
  destruct r as [[[m h]|]|e]; [|done|done].
  assert (∀ x : bstate, (match drop_handle h x with
     | Done s0 => (StErr UnexpectedWorkerMessage, mkBst (delete ch (bs_tab s0)) (bs_trace s0))
     | _ => (StPanic, x) end) ≠ (StOk Serving, s')) as Hno.
  { intros x. by destruct (drop_handle h x). }
  destruct m as [|path flags|nb args ip]; [destruct h as [h|]| |]; try (intros H; by apply Hno in H).
  apply recv_plain_inv in Er as [_ ->]; [|done].
  match goal with |- context [broker_send ?a ?b ?d ?f] =>
    pose proof (broker_send_spec a b d f) as (ev' & Hsnd & _);
    destruct (broker_send a b d f) as [[] s1] end; cbn [snd bs_tab] in Hsnd; subst s1; [|done].
  destruct sp; [|done].
  destruct (broker_loop _ _ _ _ _) as [st s2] eqn:El. intros [= -> ->].
  pose proof (broker_loop_spec _ _ _ _ _ _ _ _ _ Hl (runtime_decides audit calls) El)
    as (ms & segs & tail & _ & _ & _ & _ & _ & _ & _ & _ & H). done.
Qed.

(** Who has the worker's end while the broker listens. *)
Lemma nobody ne c p t fb fc ch wh t2 p' c' broker others :
  new_channel ne t → reached ne c p t fb fc ch wh t2 p' c' →
  install2 (pe_limit (ne_proc ne)) fb fc t = Some (ch, wh, t2) →
  broker = <[ch := mkFd fb 0]> t →
  nobody_left ne t broker others = true ↔ ∀ s, s ∈ others → ¬ in_between s.
Proof.
  intros Hnew (Hs & F1 & F2 & Hlt & Hlim & Hmin & Ht2 & _ & _) Hi ->.
  destruct (Hnew _ _ Hs) as [Hne Hf].
  assert (has_file fc (<[ch := mkFd fb 0]> t) = false) as Hb.
  { apply not_true_iff_false. intros (n & e & Hn & He)%has_file_spec.
    apply lookup_insert_Some in Hn as [[<- <-]|[_ Hn]]; [done|]. by apply (Hf n e). }
  unfold nobody_left. rewrite Hs, Hb. cbn [orb]. rewrite negb_true_iff, <-not_true_iff_false.
  rewrite existsb_exists.
  assert (∀ s, keeps fc (stage_table ne t s) = true ↔ in_between s) as Hk.
  { intros s. rewrite keeps_spec. unfold stage_table. rewrite Hs, Hi.
    rewrite (set_inheritable_new wh true fc) by (by rewrite Ht2, lookup_insert).
    assert (∃ n e, t2 !! n = Some e ∧ fd_file e = fc ∧ Z.testbit (fd_flags e) 0 = false) as Hw.
    { exists wh, (mkFd fc 0). by rewrite Ht2, lookup_insert. }
    assert (<[wh := mkFd fc 0]> t2 = t2) as Hid by (by rewrite Ht2, insert_insert).
    unfold in_between. destruct s.
    - split; [|by intros [?|?]]. intros (n & e & Hn & He & _). by destruct (Hf n e).
    - split; [by left|done].
    - split; [by right|]. intros _. cbn [fd_flags]. by rewrite Hid.
    - split; [|by intros [?|?]]. rewrite Hid, Ht2. rewrite delete_insert by
        (by rewrite lookup_insert_ne by lia).
      intros (n & e & [[<- <-]|[_ Hn]]%lookup_insert_Some & He & _); [done|]. by destruct (Hf n e). }
  split.
  - intros H s Hs' Hi'. apply H. exists s. split; [by apply elem_of_list_In|by apply Hk].
  - intros H (s & Hin%elem_of_list_In & Hi'%Hk). by apply (H s).
Qed.

(** Partial: true unless another program is started while the broker has the worker's
    end of the channel. *)
Theorem C127_noticed_partial ne c audit calls sent reset others t :
  kernel_ok ne t → new_channel ne t → (∀ s, s ∈ others → ¬ in_between s) →
  noticed (wo_result (worker_ended ne c (build audit calls) sent reset others t)).
Proof.
  intros Hk Hnew Ho. pose proof Hk as (_ & _ & Hb & _).
  unfold worker_ended. set (p := build audit calls).
  destruct (worker_new_listens ne c p t) as [(r & Hr & Hr')|
    (fb & fc & ch & wh & t2 & p' & c' & pid & t3 & child & Hre & Hi & Hp & Hl)].
  { rewrite Hr. destruct Hr' as [->|[e ->]]; [|rewrite Hr; by split_and!].
    destruct (C81_pipe_wait_ends ne c p [] t Hk). apply Hr. }
  assert (Ht3 : delete wh t3 = <[ch := mkFd fb 0]> t).
  { assert (t3 = t2) as ->.
    { destruct (process_new_cases _ _ _ _ _ _ _ Hp) as [(e & _ & ? & _)|H]; [done|].
      by destruct H as (? & ? & ? & ? & ? & _ & _ & _ & _ & _ & _ & _ & _ & ->). }
    destruct Hre as (_ & F1 & F2 & Hlt & _ & _ & -> & _).
    rewrite delete_insert; [done|]. by rewrite lookup_insert_ne by lia. }
  rewrite Ht3 in Hl.
  assert (get_runtime_policy p' = get_runtime_policy p) as Hpp.
  { destruct Hre as (_ & _ & _ & _ & _ & _ & _ & Hall & _).
    by destruct (allow_all_spec _ _ _ _ Hall) as (_ & _ & Hrp). }
  rewrite Hpp in Hl. clear Hpp Ht3 Hp.
  set (evs := EvDatagram <$> sent).
  destruct (start_ipc_loop (ne_broker ne) (get_runtime_policy p) (ne_order ne) (ne_filter ne)
    (ne_spawn ne) ch evs (mkBst (<[ch := mkFd fb 0]> t) [])) as [so s] eqn:Es.
  destruct (Hl _ _ _ Es) as [Htab Hres]. rewrite Hres, Htab.
  assert (∀ o, wo_result o = WnErr (StartFailed ProcessExitedDuringInitialization) ∨
    wo_result o = WnErr (StartFailed WorkerCommunicationError) → noticed (wo_result o)) as Hfail.
  { intros o [-> | ->]; by split_and!. }
  destruct so as [|e| |st]; [|rewrite Hres; by split_and!|rewrite Hres; by split_and!|].
  - (* nothing heard yet *)
    assert (evs = [] ∧ bs_tab s = <[ch := mkFd fb 0]> t) as [Hevs Hst].
    { destruct evs as [|ev evs']; [by injection Es as <-|].
      destruct (C27_handshake_first _ _ _ _ _ _ _ _ _ _ _ Hb Es) as (_ & _ & H & _). done. }
    rewrite (proj2 (nobody _ _ _ _ _ _ _ _ _ _ _ _ _ Hnew Hre Hi Hst) Ho), Hevs. cbn [app].
    apply Hfail.
    destruct (start_ipc_loop (ne_broker ne) (get_runtime_policy p) (ne_order ne) (ne_filter ne)
      (ne_spawn ne) ch [last_event reset] (mkBst (<[ch := mkFd fb 0]> t) [])) as [so' s'] eqn:E'.
    destruct (Hl _ _ _ E') as [_ ->].
    destruct reset; cbn in E'; injection E' as <- <-; auto.
  - destruct st; [|rewrite Hres; by split_and!|rewrite Hres; by split_and!].
    assert (bs_tab s = <[ch := mkFd fb 0]> t) as Hst by (by eapply start_serving_tab).
    rewrite (proj2 (nobody _ _ _ _ _ _ _ _ _ _ _ _ _ Hnew Hre Hi Hst) Ho).
    pose proof (start_more _ _ _ _ _ _ _ [last_event reset] _ _ Es) as E'.
    assert (broker_loop (ne_broker ne) (get_runtime_policy p) ch [last_event reset] s =
      (Exited, mkBst (delete ch (bs_tab s)) (bs_trace s))) as El by (by destruct reset, s).
    rewrite El in E'. destruct (Hl _ _ _ E') as [_ ->]. by split_and!.
Qed.
Print Assumptions C127_noticed_partial.

(** A program started in between keeps the worker's end: a worker that ends before its
    first message is then waited for by Worker::new itself, and one that ends later by its
    thread, until the other program has ended too. *)
Theorem C127_between_refuted ne c audit calls sent reset others t s :
  kernel_ok ne t → new_channel ne t → s ∈ others → in_between s →
  let alone := worker_new ne c (build audit calls) (EvDatagram <$> sent) t in
  (wo_result alone = WnWaiting ∨ ∃ pid, wo_result alone = WnOk pid Serving) →
  worker_ended ne c (build audit calls) sent reset others t = alone ∧
  ¬ noticed (wo_result (worker_ended ne c (build audit calls) sent reset others t)).
Proof.
  intros Hk Hnew Hs Hin. cbv zeta. pose proof Hk as (_ & _ & Hb & _).
  unfold worker_ended. set (p := build audit calls). intros Hw.
  destruct (worker_new_listens ne c p t) as [(r & Hr & Hr')|
    (fb & fc & ch & wh & t2 & p' & c' & pid & t3 & child & Hre & Hi & Hp & Hl)].
  { rewrite Hr in Hw. exfalso.
    destruct Hw as [->|[pid ->]]; destruct Hr' as [?|[e ?]]; done. }
  assert (Ht3 : delete wh t3 = <[ch := mkFd fb 0]> t).
  { assert (t3 = t2) as ->.
    { destruct (process_new_cases _ _ _ _ _ _ _ Hp) as [(e & _ & ? & _)|H]; [done|].
      by destruct H as (? & ? & ? & ? & ? & _ & _ & _ & _ & _ & _ & _ & _ & ->). }
    destruct Hre as (_ & F1 & F2 & Hlt & _ & _ & -> & _).
    rewrite delete_insert; [done|]. by rewrite lookup_insert_ne by lia. }
  rewrite Ht3 in Hl.
  assert (get_runtime_policy p' = get_runtime_policy p) as Hpp.
  { destruct Hre as (_ & _ & _ & _ & _ & _ & _ & Hall & _).
    by destruct (allow_all_spec _ _ _ _ Hall) as (_ & _ & Hrp). }
  rewrite Hpp in Hl. clear Hpp Ht3 Hp.
  set (evs := EvDatagram <$> sent) in *.
  destruct (start_ipc_loop (ne_broker ne) (get_runtime_policy p) (ne_order ne) (ne_filter ne)
    (ne_spawn ne) ch evs (mkBst (<[ch := mkFd fb 0]> t) [])) as [so s1] eqn:Es.
  destruct (Hl _ _ _ Es) as [Htab Hres].
  assert (bs_tab s1 = <[ch := mkFd fb 0]> t) as Hst.
  { rewrite Hres in Hw. destruct so as [|e| |st].
    - destruct evs as [|ev evs']; [by injection Es as <-|].
      destruct (C27_handshake_first _ _ _ _ _ _ _ _ _ _ _ Hb Es) as (_ & _ & H & _). done.
    - by destruct Hw as [?|[? ?]].
    - by destruct Hw as [?|[? ?]].
    - destruct Hw as [?|[pid' [= _ ->]]]; [done|]. by eapply start_serving_tab. }
  assert (nobody_left ne t (wo_tab (worker_new ne c p evs t)) others = false) as Hn.
  { apply not_true_iff_false. rewrite Htab.
    rewrite (nobody _ _ _ _ _ _ _ _ _ _ _ _ _ Hnew Hre Hi Hst). intros H. by apply (H s). }
  rewrite Hn.
  destruct Hw as [Hw|[pid' Hw]]; rewrite Hw; (split; [done|]); intros (H1 & H2 & H3).
  - done.
  - by apply (H3 pid').
Qed.
Print Assumptions C127_between_refuted.

(** Another worker started in between does not keep it, if the handles it was given were
    open before. [t1] is the table its Worker::new starts with. *)
Theorem C127_other_worker ne c audit calls evs t1 wh fc fl s' :
  kernel_ok ne t1 → (∀ fb f, ne_sockets ne = Ok (fb, f) → f ≠ fc) →
  (∀ n, fd_file <$> t1 !! n = Some fc → n = wh) →
  (∀ raw, raw ∈ streams c ∨ accepted_handle calls raw → is_Some (t1 !! raw) ∧ raw ≠ wh) →
  wo_child (worker_new ne c (build audit calls) evs t1) = Some (fl, EpStarted s') →
  EpOpen (lit "/dev/null") O_RDONLY fc ∉ ep_trace s' →
  holds_file fc (EpStarted s') = false.
Proof.
  intros Hk Hf Hwh Hacc Hc Hnull. apply not_true_iff_false. cbn [holds_file].
  intros (n & e & Hn & He)%(has_file_spec fc (ep_tab s')).
  destruct (C102_files_partial ne c audit calls evs t1 fl s' n fc Hk) as [H|H]; [|done|by rewrite Hn, <-He| |done].
  { intros raw Hr. by apply Hacc. }
  destruct H as [[fb Hs]|(m & Hm & Hr)].
  - by apply (Hf fb fc).
  - apply Hwh in Hm as ->. by destruct (Hacc wh Hr).
Qed.
Print Assumptions C127_other_worker.

Lemma ex_new_channel : new_channel (ex_new None None) ex_table.
Proof.
  intros fb fc [= <- <-]. split; [done|].
  apply (map_Forall_lookup (λ _ ent, fd_file ent ≠ 105)).
  apply (bool_decide_unpack _). vm_compute. exact I.
Qed.

Theorem C127_refuted : ¬ C127_full.
Proof.
  intros H.
  destruct (C127_between_refuted (ex_new None None) ex_config false ex_policy_calls [] None
    [BeforeDrop] ex_table BeforeDrop) as [_ Hn].
  - apply (ex_new_ok None None).
  - apply ex_new_channel.
  - left.
  - by right.
  - left. by vm_compute.
  - apply Hn. unfold C127_full in H. apply H; [apply (ex_new_ok None None)|apply ex_new_channel].
Qed.
Print Assumptions C127_refuted.

(* A worker that ends at once, one that ends after a request, one whose reply was left
   unread; and the first two with another program around. *)
Example C127_example :
  let ended sent reset others :=
    wo_result (worker_ended (ex_new None None) ex_config ex_pol sent reset others ex_table) in
  let hello := mkDgram (enc_request ReqInitialization) [] in
  let ask := mkDgram (enc_request (ReqOpenFile (lit "/tmp/f") 0)) [] in
  ended [] None [BeforeSockets; AfterDrop] = WnErr (StartFailed ProcessExitedDuringInitialization) ∧
  ended [hello; ask] None [] = WnOk 4321 Exited ∧
  ended [hello; ask] (Some 104) [] = WnOk 4321 Exited ∧
  ended [] None [BeforeInheritable] = WnWaiting ∧
  ended [hello; ask] None [BeforeDrop] = WnOk 4321 Serving.
Proof. by vm_compute. Qed.
