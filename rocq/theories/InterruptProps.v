(** Property C139: signals that the program handles. *)
From stdpp Require Import prelude gmap.
From Coq Require Import Strings.Byte ZifyN ZifyNat ZifyBool.
From Verif Require Import Bytes PolicyModel PolicySpec PolicyProofs LinuxPolicyModel LinuxPolicySpec
  LinuxPolicyProofs PostcardModel PostcardSpec PostcardProofs FdModel FdProofs ChannelModel
  ChannelProofs BrokerModel BrokerSpec BrokerProofs BrokerProps WorkerModel WorkerSpec WorkerProofs
  WorkerProps SeccompModel EntryModel ProcessModel ProcessProofs ProcessProps InterruptModel.
Local Open Scope N_scope.

(** Signals that are ignored, or handled with SA_RESTART. *)
Definition harmless (sigs : list disposition) : Prop := SigPlain ∉ sigs.

Lemma harmless_spec sigs : harmless sigs ↔ existsb interrupts sigs = false.
Proof.
  unfold harmless. induction sigs as [|d sigs IH]; cbn [existsb].
  - split; [done|]. intros _ H. by apply elem_of_nil in H.
  - rewrite elem_of_cons. destruct d; cbn [interrupts].
    1,2: change (false || existsb interrupts sigs) with (existsb interrupts sigs); rewrite <- IH;
      (split; [by intros H ?; apply H; right|by intros H [|]]).
    split; [intros H; exfalso; apply H; by left|done].
Qed.
Lemma harmful_spec sigs : SigPlain ∈ sigs → existsb interrupts sigs = true.
Proof.
  intros H. destruct (existsb interrupts sigs) eqn:E; [done|]. by apply harmless_spec in E.
Qed.

(* ---------------------------------------------------------------- the broker's thread *)

Lemma delivered_harmless waits :
  (∀ sigs ev, (sigs, ev) ∈ waits → harmless sigs) → delivered waits = waits.*2.
Proof.
  unfold delivered. induction waits as [|[sigs ev] waits IH]; intros H; [done|].
  cbn [map concat fst snd fmap list_fmap].
  rewrite (proj1 (harmless_spec sigs)) by (eapply H; left). cbn [app]. f_equal.
  apply IH. intros s e Hin. eapply H. by right.
Qed.
Lemma delivered_app w1 w2 : delivered (w1 ++ w2) = delivered w1 ++ delivered w2.
Proof. unfold delivered. by rewrite map_app, concat_app. Qed.
Lemma delivered_harmful sigs ev waits :
  SigPlain ∈ sigs → delivered ((sigs, ev) :: waits) = EvError EINTR :: ev :: delivered waits.
Proof. intros H. unfold delivered. cbn [map concat fst snd]. by rewrite harmful_spec. Qed.

Lemma loop_app env p ch evs1 evs2 s s1 :
  broker_loop env p ch evs1 s = (Serving, s1) →
  broker_loop env p ch (evs1 ++ evs2) s = broker_loop env p ch evs2 s1.
Proof.
  revert s. induction evs1 as [|ev evs1 IH]; intros s H; cbn [broker_loop app] in *.
  - by injection H as <-.
  - destruct (broker_step env p ev s) as [st s'] eqn:E. destruct st; [by apply IH|done..].
Qed.

(* ---------------------------------------------------------------- the worker's handler *)

Lemma send_recv_sent env m w x w' :
  send_recv env m w = (HRet x, w') → w_sent w' = w_sent w ++ [m].
Proof.
  unfold send_recv. destruct (channel_send _ _ _ _ _ _ _) as [d|]; [|done].
  destruct (broker_step _ _ _ _) as [st bs]. cbv zeta.
  destruct (channel_recv _ _ _ _ _ _) as [r t]. destruct r as [[y|]|]; try done.
  by intros [= _ <-].
Qed.
Lemma drop_sent fd v w x w' : drop_and_return fd v w = (x, w') → w_sent w' = w_sent w.
Proof. unfold drop_and_return. destruct (handle_drop _ _); by intros [= _ <-]. Qed.
Lemma get_fd_sent env path flags w x w' :
  get_fd_for_path_with_perms env path flags w = (HRet x, w') →
  w_sent w' = w_sent w ++ [ReqOpenFile path flags].
Proof.
  unfold get_fd_for_path_with_perms.
  destruct (send_recv _ _ _) as [[[[| ] [fd|]]| |] w1] eqn:E; try done.
  1,2: apply send_recv_sent in E.
  - by intros [= _ <-].
  - destruct (_ <? _)%Z; [|done]. by intros [= _ <-].
Qed.

(** Every call that returns asked the broker at least once. *)
Lemma trap_sent env r w v w' :
  trap env r w = (HRet v, w') → (length (w_sent w) < length (w_sent w'))%nat.
Proof.
  assert (Hone : ∀ m w1, w_sent w1 = w_sent w ++ [m] → (length (w_sent w) < length (w_sent w1))%nat).
  { intros m w1 ->. rewrite app_length. cbn. lia. }
  assert (Hreq : ∀ w0 path flags, openat_request env path flags w0 = (HRet v, w') →
    (length (w_sent w0) < length (w_sent w'))%nat).
  { intros w0 path flags. unfold openat_request.
    destruct (send_recv _ _ _) as [[[[|] [h|]]| |] w1] eqn:E; try done; apply send_recv_sent in E;
      intros [= _ <-]; rewrite E, app_length; cbn; lia. }
  assert (Hopen : ∀ path flags mode, handle_openat env path flags mode w = (HRet v, w') →
    (length (w_sent w) < length (w_sent w'))%nat).
  { intros path flags mode. unfold handle_openat. destruct (starts_with_byte slash path); [apply Hreq|].
    destruct (current_dir env w) as [[cwd| |] w1] eqn:E; try done. intros H. apply Hreq in H.
    assert (length (w_sent w) ≤ length (w_sent w1))%nat; [|lia].
    unfold current_dir in E. destruct (we_filtered env).
    - destruct (send_recv _ _ _) as [[[[|] [h|]]| |] w2] eqn:E2; try done. apply send_recv_sent in E2.
      injection E as _ <-. rewrite E2, app_length. cbn. lia.
    - by injection E as _ <-. }
  assert (Hsys : ∀ nb args ip, handle_syscall env nb args ip w = (HRet v, w') →
    (length (w_sent w) < length (w_sent w'))%nat).
  { intros nb args ip. unfold handle_syscall.
    destruct (send_recv _ _ _) as [[[[|] h]| |] w1] eqn:E; try done. apply send_recv_sent in E. cbv zeta.
    destruct (_ && _); intros [= _ <-]; by eapply Hone. }
  assert (Hacc : ∀ path mode, handle_access env path mode w = (HRet v, w') →
    (length (w_sent w) < length (w_sent w'))%nat).
  { intros path mode. unfold handle_access.
    destruct (get_fd_for_path_with_perms _ _ _ _) as [[[fd|e]| |] w1] eqn:E; try done;
      apply get_fd_sent in E.
    - intros H. apply drop_sent in H. eapply Hone. rewrite H. exact E.
    - intros [= _ <-]. by eapply Hone. }
  assert (Hst : ∀ path, handle_stat env path w = (HRet v, w') →
    (length (w_sent w) < length (w_sent w'))%nat).
  { intros path. unfold handle_stat.
    destruct (get_fd_for_path_with_perms _ _ _ _) as [[[fd|e]| |] w1] eqn:E; try done;
      apply get_fd_sent in E.
    - intros H. apply drop_sent in H. eapply Hone. rewrite H. exact E.
    - intros [= _ <-]. by eapply Hone. }
  assert (Hcd : ∀ path, handle_chdir env path w = (HRet v, w') →
    (length (w_sent w) < length (w_sent w'))%nat).
  { intros path. unfold handle_chdir.
    destruct (get_fd_for_path_with_perms _ _ _ _) as [[[fd|e]| |] w1] eqn:E; try done;
      apply get_fd_sent in E.
    2:{ intros [= _ <-]. by eapply Hone. }
    assert (Hk : ∀ x (k : Z * world), w_sent k.2 = w_sent x →
      (let '(v', y) := k in drop_and_return fd v' y) = (HRet v, w') → w_sent w' = w_sent x).
    { intros x [v' y] Hx H. apply drop_sent in H. by rewrite H. }
    destruct (we_filtered env).
    - destruct (send_recv _ _ w1) as [[[[|] [h|]]| |] w2] eqn:E2; try done. apply send_recv_sent in E2.
      assert (Hl : (length (w_sent w) < length (w_sent w2))%nat).
      { rewrite E2, E, !app_length. cbn. lia. }
      destruct (we_audit env && _).
      + intros H. apply (Hk w2) in H; [by rewrite H|].
        destruct (w_tab w2 !! fd); [|done]. by destruct (we_fchdir _ _).
      + intros H. apply drop_sent in H. by rewrite H.
    - intros H. apply (Hk w1) in H; [rewrite H, E, app_length; cbn; lia|].
      destruct (w_tab w1 !! fd); [|done]. by destruct (we_fchdir _ _). }
  unfold trap, sigsys_handler. cbv zeta.
  destruct (_ =? _)%Z; [destruct (read_string_from_ptr _ _); [apply Hacc|done]|].
  destruct (_ =? _)%Z; [destruct (read_string_from_ptr _ _); [apply Hst|done]|].
  destruct (_ =? _)%Z; [destruct (read_string_from_ptr _ _); [apply Hopen|done]|].
  destruct (_ =? _)%Z.
  - destruct (_ =? _)%Z; [destruct (read_string_from_ptr _ _); [apply Hopen|done]|].
    destruct (we_mem _ _); [|done]. destruct (starts_with_byte _ _); [|apply Hsys].
    destruct (read_string_from_ptr _ _); [apply Hopen|done].
  - destruct (_ =? _)%Z; [destruct (read_string_from_ptr _ _); [apply Hcd|done]|]. apply Hsys.
Qed.

(* ---------------------------------------------------------------- C139 *)

(** Signals that the program handles change neither what the broker answers nor what a trapped
    call of the worker returns. *)
Definition C139_full : Prop :=
  (∀ env p order filter spawn ch waits s,
     start_ipc_loop env p order filter spawn ch (delivered waits) s =
     start_ipc_loop env p order filter spawn ch (waits.*2) s) ∧
  (∀ sigs env r w, trap_signals sigs env r w = (trap env r w).1).

(** True of signals that are ignored or handled with SA_RESTART. *)
Theorem C139_partial :
  (∀ env p order filter spawn ch waits s,
     (∀ sigs ev, (sigs, ev) ∈ waits → harmless sigs) →
     start_ipc_loop env p order filter spawn ch (delivered waits) s =
     start_ipc_loop env p order filter spawn ch (waits.*2) s) ∧
  (∀ sigs env r w, Forall harmless sigs → trap_signals sigs env r w = (trap env r w).1).
Proof.
  split.
  - intros env p order filter spawn ch waits s H. by rewrite delivered_harmless.
  - intros sigs env r w H. unfold trap_signals. destruct (trap env r w) as [res w']. cbv zeta.
    set (k := (_ - _)%nat). clearbody k.
    assert (existsb (existsb interrupts) (take k sigs) = false) as ->; [|done].
    revert k. induction H as [|d sigs Hd _ IH]; intros k; [by destruct k|].
    destruct k; [done|]. cbn [take existsb]. apply harmless_spec in Hd. rewrite Hd. apply IH.
Qed.
Print Assumptions C139_partial.

(** The broker's thread of a running session ends at the first signal with a plain handler:
    nothing that arrives then or later is answered, and the channel is closed. *)
Theorem C139_broker_refuted env p ch before sigs ev after s s1 :
  broker_loop env p ch (delivered before) s = (Serving, s1) → SigPlain ∈ sigs →
  broker_loop env p ch (delivered (before ++ (sigs, ev) :: after)) s =
  (Exited, mkBst (delete ch (bs_tab s1)) (bs_trace s1)).
Proof.
  intros H Hs. rewrite delivered_app, (loop_app _ _ _ _ _ _ _ H), delivered_harmful by done.
  cbn [broker_loop]. unfold broker_step. cbn [channel_recv]. done.
Qed.
Print Assumptions C139_broker_refuted.

(** From then on every trapped call of the worker, that would have returned, ends the worker. *)
Theorem C139_orphan_refuted env r w v w' :
  trap env r w = (HRet v, w') → trap_orphan env r w = HPanic.
Proof.
  intros H. pose proof (trap_sent _ _ _ _ _ H) as Hl. unfold trap_orphan. rewrite H.
  rewrite bool_decide_false; [done|lia].
Qed.
Print Assumptions C139_orphan_refuted.

(** A signal with a plain handler during the first wait of a trapped call ends the worker. *)
Theorem C139_worker_refuted sigs more env r w v w' :
  trap env r w = (HRet v, w') → SigPlain ∈ sigs → trap_signals (sigs :: more) env r w = HPanic.
Proof.
  intros H Hs. pose proof (trap_sent _ _ _ _ _ H) as Hl. unfold trap_signals. rewrite H. cbv zeta.
  destruct (length (w_sent w') - length (w_sent w))%nat as [|k] eqn:E; [lia|].
  cbn [take existsb]. by rewrite harmful_spec.
Qed.
Print Assumptions C139_worker_refuted.

(** A signal during the wait for the first message makes Worker::new fail though the worker's
    program runs. *)
Theorem C139_start_refuted ne c p sigs ev after t fl s' :
  kernel_ok ne t → SigPlain ∈ sigs →
  wo_child (worker_new ne c p (delivered ((sigs, ev) :: after)) t) = Some (fl, EpStarted s') →
  wo_result (worker_new ne c p (delivered ((sigs, ev) :: after)) t) =
    WnErr (StartFailed WorkerCommunicationError).
Proof.
  intros Hk Hs. rewrite delivered_harmful by done. intros Hc.
  destruct (worker_child _ _ _ _ _ _ _ Hc) as (fb & fc & ch & wh & t2 & p' & c' & fr & fw & rd &
    wr & nr & t3 & Hr & _ & Hpipe & G1 & G2 & Hlt & _ & _ & Hch & Hro & _ & Hm).
  destruct (worker_started_pipe _ _ _ _ _ _ _ _ _ _ _ _ _ _ _ _ _ Hk Hr Hpipe G1 G2 Hlt (eq_sym Hch))
    as [Hw Hh].
  unfold read_outcome in Hro. cbn [final_state] in Hro. rewrite Hw, Hh in Hro.
  assert (nr = NewOk (pe_pid (ne_proc ne))) as -> by by destruct (pe_read (ne_proc ne)).
  destruct Hm as (so & s & Hso & Hres). rewrite Hres. cbn [start_ipc_loop channel_recv] in Hso.
  by injection Hso as <- <-.
Qed.
Print Assumptions C139_start_refuted.

Theorem C139_refuted : ¬ C139_full.
Proof.
  intros [H _].
  specialize (H ex_env (get_runtime_policy ex_pol) ex_order (Ok [x01]) true 4
    [([SigPlain], EvEof)] (mkBst ∅ [])).
  by vm_compute in H.
Qed.
Print Assumptions C139_refuted.

(** A worker that starts and asks for one file: with a restarting handler it is served; with a
    plain one the thread ends before the request. *)
Example C139_example :
  let run d := start_ipc_loop ex_env (get_runtime_policy ex_pol) ex_order (Ok [x01]) true 4
                 (delivered [([], dgram ReqInitialization);
                             ([d], dgram (ReqOpenFile (lit "/tmp/f") 0))]) (mkBst ex_table []) in
  (run SigRestart).1 = StOk Serving ∧ length (bs_trace (run SigRestart).2) = 3%nat ∧
  (run SigPlain).1 = StOk Exited ∧ length (bs_trace (run SigPlain).2) = 1%nat.
Proof. vm_compute. auto. Qed.
