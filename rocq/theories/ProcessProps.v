(** Properties C52-C58, C60 and C81: creating a worker. [worker_new ne c p evs t] is one call of
    Worker::new by a broker with descriptor table [t]; [ne] holds every answer of the
    kernel, [evs] is what arrives on the broker's end of the channel. *)
From stdpp Require Import prelude gmap.
From Coq Require Import Strings.Byte ZifyN ZifyNat ZifyBool.
From Verif Require Import Bytes PolicyModel PolicySpec LinuxPolicyModel LinuxPolicySpec
  LinuxPolicyProofs PostcardModel FdModel FdProofs ChannelModel
  ChannelProofs BrokerModel BrokerSpec BrokerProofs BrokerProps BpfModel BpfProofs SeccompModel
  EntryModel EntryProofs EntryProps ProcessModel ProcessProofs.
Local Open Scope N_scope.

(** The kernel lists a process's descriptors, descriptor numbers are C ints, and the new
    pipe is no other open file. *)
Definition kernel_ok (ne : new_env) (t : fdtab) : Prop :=
  listing_ok (pe_child (ne_proc ne)) ∧ pe_limit (ne_proc ne) ≤ 2 ^ 31 ∧ env_ok (ne_broker ne) ∧
  ∀ fr fw, pe_pipe (ne_proc ne) = Ok (fr, fw) →
    fr ≠ fw ∧ (∀ n ent, t !! n = Some ent → fd_file ent ≠ fw) ∧
    (∀ fb fc, ne_sockets ne = Ok (fb, fc) → fb ≠ fw ∧ fc ≠ fw) ∧
    Some fw ∉ [ee_setgroups (pe_child (ne_proc ne)); ee_uid_map (pe_child (ne_proc ne));
               ee_gid_map (pe_child (ne_proc ne))] ∧
    (∀ n, ee_devnull (pe_child (ne_proc ne)) n ≠ Some fw).

(** The new process of a call, if there is one. *)
Lemma worker_child ne c p evs t fl r :
  wo_child (worker_new ne c p evs t) = Some (fl, r) →
  ∃ fb fc ch wh t2 p' c' fr fw rd wr nr t3,
    reached ne c p t fb fc ch wh t2 p' c' ∧
    process_new (ne_proc ne) p' c' t2 = (nr, t3, Some (fl, r)) ∧
    pe_pipe (ne_proc ne) = Ok (fr, fw) ∧ t2 !! rd = None ∧ t2 !! wr = None ∧ rd < wr ∧ 2 < wr ∧
    fst (clone_chain (pe_clone (ne_proc ne))) = Ok fl ∧
    r = clone_entrypoint (pe_child (ne_proc ne)) (child_params (ne_proc ne) p' c' wr)
          (child_start (ne_proc ne) fl (<[wr := mkFd fw 1]> (<[rd := mkFd fr 0]> t2))) ∧
    read_outcome (ne_proc ne) fw r nr ∧ (nr ≠ NewBlocked → t3 = t2) ∧
    match nr with
    | NewErr e => wo_result (worker_new ne c p evs t) = WnErr e
    | NewBlocked => wo_result (worker_new ne c p evs t) = WnBlocked
    | NewOk pid => ∃ so s,
        start_ipc_loop (ne_broker ne) (get_runtime_policy p') (ne_order ne) (ne_filter ne)
           (ne_spawn ne) ch evs (mkBst (delete wh t3) []) = (so, s) ∧
        wo_result (worker_new ne c p evs t) =
          match so with
          | StWaiting => WnWaiting
          | StErr e => WnErr (StartFailed e)
          | StPanic => WnPanic
          | StOk st => WnOk pid st
          end
    end.
Proof.
  intros Hc.
  destruct (worker_new_cases ne c p evs t) as
    [(e & _ & _ & Hn & _)|(fb & fc & ch & wh & t2 & p' & c' & nr & t3 & Hr & Hp & Hm)];
    [congruence|].
  rewrite Hc in Hp. pose proof Hr as (Hs & F1 & F2 & Hlt & Hlim & Hmin & Ht2 & _ & _).
  destruct (process_new_cases _ _ _ _ _ _ _ Hp) as [(e & _ & _ & Hn)|H]; [done|].
  destruct H as (fr & fw & rd & wr & fl' & Hpipe & _ & G1 & G2 & Hlt2 & Hcl & Hch & Hro & Ht).
  injection Hch as -> Hr'.
  exists fb, fc, ch, wh, t2, p', c', fr, fw, rd, wr, nr, t3.
  do 6 (split; [done|]). split.
  { subst t2. by apply (pipe_above _ _ _ _ _ _ _ F1 F2 Hlt Hmin G1). }
  do 2 (split; [done|]). split; [by rewrite Hr'|]. split; [done|].
  destruct nr as [pid|e|].
  - destruct Hm as (so & s & H1 & _ & _ & H2). by exists so, s.
  - by destruct Hm.
  - done.
Qed.

(* ---------------------------------------------------------------- C52 *)

(** Full statement of C52. It is false, see [C52_interrupted_refuted]. *)
Definition C52_full : Prop := ∀ ne c p evs t fl r exe argv envp errno,
  kernel_ok ne t → wo_child (worker_new ne c p evs t) = Some (fl, r) →
  EpExecve exe argv envp (Some errno) ∈ ep_trace (final_state r) → errno < 2 ^ 32 →
  wo_result (worker_new ne c p evs t) = WnErr (OsFailed (lit "execve()") errno).

(** What is missing: a read of the error pipe that fails. *)
Theorem C52_reported_partial ne c p evs t fl r exe argv envp errno :
  kernel_ok ne t → wo_child (worker_new ne c p evs t) = Some (fl, r) →
  EpExecve exe argv envp (Some errno) ∈ ep_trace (final_state r) → errno < 2 ^ 32 →
  pe_read (ne_proc ne) = None →
  wo_result (worker_new ne c p evs t) = WnErr (OsFailed (lit "execve()") errno).
Proof.
  intros (Hl & _ & _ & Hnew) Hc Hex He Hrd.
  destruct (worker_child _ _ _ _ _ _ _ Hc) as (fb & fc & ch & wh & t2 & p' & c' & fr & fw & rd &
    wr & nr & t3 & _ & _ & Hpipe & _ & _ & _ & Hgt & _ & Hr & Hro & _ & Hm).
  destruct (Hnew _ _ Hpipe) as (_ & _ & _ & Hf & _).
  destruct (execve_failed_written _ _ _ r fw exe argv envp errno Hl (eq_sym Hr)) as [_ Hw];
    [done|by apply lookup_insert|done|done|done|].
  unfold read_outcome in Hro. rewrite Hrd, Hw in Hro.
  rewrite <-(be_value_code errno He) at 1.
  destruct (rev (n_bytes 4 errno)) eqn:E; [|by subst nr].
  exfalso. apply (f_equal length) in E. by rewrite rev_length in E.
Qed.
Print Assumptions C52_reported_partial.

(** A concrete broker: descriptors 0-2 and a log file 3, which becomes the worker's standard
    error; the channel becomes 4 and 5, the
    error pipe 6 and 7. *)
Definition ex_child (exec : option N) : ep_env := mkEpEnv 1024 true (Some 500) (Some 501) None
  (λ _, true) cap_env0 (Some 502) true (λ t, (map_to_list t).*1) None (λ _, true) (λ _, true)
  (λ n, Some (600 + n)) exec.
Definition ex_proc (exec rd : option N) : proc_env :=
  mkProcEnv 1024 (Ok (106, 107)) (λ fl, if newuser fl then Some 1 else None) 4321 1000 1000
    false 18 (lit "/home/broker") (λ _, caps0) (ex_child exec) rd.
Definition ex_new (exec rd : option N) : new_env :=
  mkNewEnv (Ok (104, 105)) (ex_proc exec rd) ex_env ex_order (Ok [x01]) true.
Definition ex_table : fdtab := list_to_map [(0, mkFd 100 0); (1, mkFd 101 0); (2, mkFd 102 0);
  (3, mkFd 103 0)].
Definition ex_config : config := mkConfig (lit "/bin/worker") [lit "worker"] [lit "HOME=/"]
  (Some (lit "/srv")) None None (Some 3).
Definition ex_pol : policy := build false ex_policy_calls.
Lemma ex_new_ok exec rd : kernel_ok (ex_new exec rd) ex_table.
Proof.
  split; [apply env0_listing|]. split; [done|]. split; [done|].
  intros fr fw [= <- <-]. split; [done|]. split; [|split; [|split]].
  - intros n ent H. assert (Hin := elem_of_list_to_map_2 _ _ _ H).
    rewrite !elem_of_cons in Hin.
    destruct Hin as [[= _ ->]|[[= _ ->]|[[= _ ->]|[[= _ ->]|Hin]]]]; try done.
    by apply elem_of_nil in Hin.
  - intros fb fc [= <- <-]. done.
  - cbn. rewrite !elem_of_cons, elem_of_nil. naive_solver.
  - intros n [= H]. lia.
Qed.

(** A signal interrupts the read (EINTR): the failed execve is taken for a success, and
    the call reports that the process exited. *)
Theorem C52_interrupted_refuted : ¬ C52_full.
Proof.
  intros H.
  set (out := worker_new (ex_new (Some 2) (Some 4)) ex_config ex_pol [EvEof] ex_table).
  assert (H2 : 2 < 2 ^ 32) by done.
  assert (E : wo_result out = WnErr (StartFailed ProcessExitedDuringInitialization)) by by vm_compute.
  destruct (wo_child out) as [[fl r]|] eqn:Ec; [|by vm_compute in Ec].
  assert (Hin : EpExecve (lit "/bin/worker") [lit "worker"] [lit "HOME=/"; lit "SANDBOX_IPC_HANDLE=5"]
                  (Some 2) ∈ ep_trace (final_state r)).
  { vm_compute in Ec. injection Ec as <- <-. cbn [final_state ep_trace].
    repeat first [apply elem_of_list_here | apply elem_of_list_further]. }
  subst out.
  rewrite (H _ _ _ _ _ _ _ _ _ _ _ (ex_new_ok _ _) Ec Hin H2) in E. discriminate E.
Qed.
Print Assumptions C52_interrupted_refuted.

Example C52_example :
  wo_result (worker_new (ex_new (Some 2) None) ex_config ex_pol [EvEof] ex_table) =
    WnErr (OsFailed (lit "execve()") 2).
Proof. by vm_compute. Qed.

(* ---------------------------------------------------------------- C53 *)

(** Success means: a process was created; the first message was a plain initialization
    request and the answer, the first thing sent, was the policy and the filter; unless
    reading the pipe failed no execve failed; and, as a process that has ended sends
    nothing, the program was started. *)
Theorem C53_live_worker ne c audit calls evs t pid st :
  kernel_ok ne t →
  wo_result (worker_new ne c (build audit calls) evs t) = WnOk pid st →
  ∃ fl r ev rest filter sent,
    wo_child (worker_new ne c (build audit calls) evs t) = Some (fl, r) ∧
    evs = ev :: rest ∧ plain_request ev ReqInitialization ∧
    (∀ b, ne_filter ne = Ok b → filter = b) ∧ (∀ e, ne_filter ne = Err e → filter = []) ∧
    wo_trace (worker_new ne c (build audit calls) evs t) =
      BSent (enc_response (OutInitialization (ne_order ne) audit filter)) [] :: sent ∧
    (pe_read (ne_proc ne) = None → ∀ exe argv envp errno, errno < 2 ^ 32 →
       EpExecve exe argv envp (Some errno) ∉ ep_trace (final_state r)) ∧
    ((∀ s', r = EpExited s' → ∀ d, EvDatagram d ∉ evs) → ∃ s', r = EpStarted s').
Proof.
  intros Hk Hok. pose proof Hk as (Hl & _ & Hb & _).
  destruct (worker_new_cases ne c (build audit calls) evs t) as
    [(e & Hn & _)|(fb & fc & ch & wh & t2 & p' & c' & nr & t3 & Hr & Hp & Hm)]; [congruence|].
  destruct nr as [pid'|e|]; [|by destruct Hm as [Hm _]; congruence|congruence].
  destruct Hm as (so & s & Hs & _ & Htr & Hres). rewrite Hok in Hres.
  destruct so as [| | |st']; try done. injection Hres as <- <-.
  destruct Hr as (_ & _ & _ & _ & _ & _ & _ & Hall & _).
  destruct (allow_all_spec _ _ _ _ Hall) as (_ & _ & Hrp). rewrite Hrp in Hs.
  destruct (C27_answer _ _ _ _ _ _ _ _ _ _ _ Hb Hs) as [Hans _].
  destruct (Hans _ eq_refl) as (fl0 & sent & Hfl & Hfle & Hsent).
  destruct evs as [|ev rest]; [by cbn in Hs|].
  destruct (C27_handshake_first _ _ _ _ _ _ _ _ _ _ _ Hb Hs) as (_ & Hplain & _).
  specialize (Hplain _ eq_refl).
  destruct (wo_child _) as [[fl r]|] eqn:Ec.
  2:{ exfalso. destruct (process_new_cases _ _ _ _ _ _ _ Hp) as [(e & ? & _)|H]; [done|].
      by destruct H as (? & ? & ? & ? & ? & _ & _ & _ & _ & _ & _ & ? & _). }
  exists fl, r, ev, rest, fl0, sent. split; [done|]. split; [done|]. split; [done|].
  split; [done|]. split; [done|]. split; [by rewrite Htr, Hsent|]. split.
  - intros Hrd exe argv envp errno He Hin.
    rewrite (C52_reported_partial ne c _ (ev :: rest) t fl r _ _ _ errno Hk Ec Hin He Hrd) in Hok.
    done.
  - intros Hdead. destruct r as [s'|s']; [|by eexists].
    destruct Hplain as (pl & rst & -> & _). exfalso. by eapply Hdead; [done|left].
Qed.
Print Assumptions C53_live_worker.
Example C53_example :
  wo_result (worker_new (ex_new None None) ex_config ex_pol [dgram ReqInitialization] ex_table) =
    WnOk 4321 Serving ∧
  wo_result (worker_new (ex_new None None) ex_config ex_pol
    [EvDatagram (mkDgram (lit "zz") [])] ex_table) = WnErr (StartFailed WorkerCommunicationError).
Proof. by vm_compute. Qed.

(* ---------------------------------------------------------------- C54 *)

(** Full statement of C54. The only event is the first one: this is the table when the
    call returns. *)
Definition C54_full : Prop := ∀ ne c p ev t,
  kernel_ok ne t →
  let out := worker_new ne c p [ev] t in
  (∀ e, wo_result out = WnErr e → wo_tab out = t) ∧
  (∀ pid st, wo_result out = WnOk pid st →
     ∃ ch fb fc, t !! ch = None ∧ ne_sockets ne = Ok (fb, fc) ∧ wo_tab out = <[ch := mkFd fb 0]> t).

(** What is missing: on x86_64, a first message with two descriptors. *)
Theorem C54_no_leak_partial ne c p ev t :
  kernel_ok ne t →
  (be_abi (ne_broker ne) = Abi32 ∨ ∀ d, ev = EvDatagram d → (length (dg_files d) ≤ 1)%nat) →
  let out := worker_new ne c p [ev] t in
  (∀ e, wo_result out = WnErr e → wo_tab out = t) ∧
  (∀ pid st, wo_result out = WnOk pid st →
     ∃ ch fb fc, t !! ch = None ∧ ne_sockets ne = Ok (fb, fc) ∧ wo_tab out = <[ch := mkFd fb 0]> t).
Proof.
  intros (Hl & _ & Hb & _) Ha. cbv zeta.
  destruct (worker_new_cases ne c p [ev] t) as
    [(e & Hn & Ht & _)|(fb & fc & ch & wh & t2 & p' & c' & nr & t3 & Hr & Hp & Hm)].
  { split; [done|]. intros pid st H. congruence. }
  destruct Hr as (Hs & F1 & F2 & Hlt & _ & _ & Ht2 & _ & _).
  assert (Hwh : delete wh t2 = <[ch := mkFd fb 0]> t).
  { subst t2. rewrite delete_insert; [done|]. by rewrite lookup_insert_ne by lia. }
  assert (Ht3 : nr ≠ NewBlocked → t3 = t2).
  { destruct (process_new_cases _ _ _ _ _ _ _ Hp) as [(e & _ & ? & _)|H]; [done|].
    by destruct H as (? & ? & ? & ? & ? & _ & _ & _ & _ & _ & _ & _ & _ & ?). }
  destruct nr as [pid'|e|].
  - rewrite Ht3, Hwh in Hm by done. destruct Hm as (so & s & Hst & Htab & _ & Hres).
    revert Hst. unfold start_ipc_loop. cbn [bs_tab bs_trace].
    destruct (channel_recv _ _ _ _ _ _) as [r t'] eqn:Er.
    destruct (recv_no_leak_gen _ _ _ _ _ _ _ _ Hb Ha Er) as [Hdrop Hown].
    assert (Hdel : delete ch (<[ch := mkFd fb 0]> t) = t) by by rewrite delete_insert.
    assert (Hnone : owned_by_result r = None → t' = <[ch := mkFd fb 0]> t).
    { intros Hn. by rewrite Hn in Hdrop. }
    assert (Hbad : ∀ m h, r = Ok (Some (m, h)) → (so, s) =
      match drop_handle h (mkBst t' []) with
      | Done s0 => (StErr UnexpectedWorkerMessage, mkBst (delete ch (bs_tab s0)) (bs_trace s0))
      | _ => (StPanic, mkBst t' [])
      end → (∀ e, wo_result (worker_new ne c p [ev] t) = WnErr e → bs_tab s = t) ∧
            (∀ st, so ≠ StOk st)).
    { intros m h -> E. destruct h as [h|]; cbn [drop_handle bs_tab] in E.
      - cbn in Hdrop, Hown. unfold handle_drop, sys_close in E.
        destruct (Hown h eq_refl) as [_ [x Hx]]. rewrite Hx in E. injection E as -> ->.
        split; [|done]. intros _ _. cbn [bs_tab]. by rewrite Hdrop.
      - injection E as -> ->. split; [|done]. intros _ _. cbn [bs_tab].
        by rewrite Hnone. }
    rewrite Htab.
    destruct r as [[[m h]|]|e].
    + destruct m as [|path flags|nb args ip].
      * destruct h as [h|].
        { intros E. destruct (Hbad _ _ eq_refl (eq_sym E)) as [H1 H2]. split; [done|].
          intros pid st H. rewrite Hres in H. destruct so; try done. by edestruct H2. }
        specialize (Hnone eq_refl). subst t'.
        match goal with |- context [broker_send ?a ?b ?d ?f] =>
          pose proof (broker_send_spec a b d f) as (ev' & Hsnd & _);
          destruct (broker_send a b d f) as [[] s1] end; cbn [snd bs_tab] in Hsnd; subst s1.
        -- destruct (ne_spawn ne).
           ++ cbn [broker_loop]. intros [= <- <-]. cbn [bs_tab]. split.
              { intros e H. by rewrite Hres in H. }
              intros pid st _. by exists ch, fb, fc.
           ++ intros [= <- <-]. cbn [bs_tab]. split; [done|].
              intros pid st H. by rewrite Hres in H.
        -- intros [= <- <-]. cbn [bs_tab]. split; [done|].
           intros pid st H. by rewrite Hres in H.
      * intros E. destruct (Hbad _ _ eq_refl (eq_sym E)) as [H1 H2]. split; [done|].
        intros pid st H. rewrite Hres in H. destruct so; try done. by edestruct H2.
      * intros E. destruct (Hbad _ _ eq_refl (eq_sym E)) as [H1 H2]. split; [done|].
        intros pid st H. rewrite Hres in H. destruct so; try done. by edestruct H2.
    + intros [= <- <-]. cbn [bs_tab]. rewrite Hnone by done. split; [done|].
      intros pid st H. by rewrite Hres in H.
    + intros [= <- <-]. cbn [bs_tab]. rewrite Hnone by done. split; [done|].
      intros pid st H. by rewrite Hres in H.
  - destruct Hm as (Hres & Htab & _). rewrite Ht3, Hwh in Htab by done. split.
    + intros _ _. rewrite Htab. by rewrite delete_insert.
    + intros pid st H. congruence.
  - split; intros; congruence.
Qed.
Print Assumptions C54_no_leak_partial.

Definition ex_new64 : new_env :=
  mkNewEnv (Ok (104, 105)) (ex_proc None None) ex_env64 ex_order (Ok [x01]) true.
Theorem C54_x86_64_refuted : ¬ C54_full.
Proof.
  intros H.
  destruct (H ex_new64 ex_config ex_pol (EvDatagram (mkDgram (lit "zz") [700; 701])) ex_table)
    as [H1 _]; [apply (ex_new_ok None None)|].
  specialize (H1 (StartFailed WorkerCommunicationError) ltac:(by vm_compute)).
  apply (f_equal (λ m : fdtab, m !! 6)) in H1. by vm_compute in H1.
Qed.
Print Assumptions C54_x86_64_refuted.
Example C54_example :
  (map_to_list (wo_tab (worker_new (ex_new None None) ex_config ex_pol
     [dgram ReqInitialization] ex_table))).*1 = [0; 1; 3; 2; 4] ∧
  (map_to_list (wo_tab (worker_new (ex_new None None) ex_config ex_pol [EvEof] ex_table))).*1
    = [0; 1; 3; 2].
Proof. by vm_compute. Qed.

(* ---------------------------------------------------------------- C55 *)

(** Full statement of C55. It is false: nothing ends the process when the handshake
    fails. *)
Definition C55_full : Prop := ∀ ne c p evs t e fl s',
  kernel_ok ne t → wo_result (worker_new ne c p evs t) = WnErr e →
  wo_child (worker_new ne c p evs t) ≠ Some (fl, EpStarted s').

Lemma worker_started_pipe ne c p t fb fc ch wh t2 p' c' fr fw rd wr fl s' :
  kernel_ok ne t → reached ne c p t fb fc ch wh t2 p' c' →
  pe_pipe (ne_proc ne) = Ok (fr, fw) → t2 !! rd = None → t2 !! wr = None → rd < wr →
  clone_entrypoint (pe_child (ne_proc ne)) (child_params (ne_proc ne) p' c' wr)
    (child_start (ne_proc ne) fl (<[wr := mkFd fw 1]> (<[rd := mkFd fr 0]> t2))) = EpStarted s' →
  written fw (ep_trace s') = [] ∧ holds_file fw (EpStarted s') = false.
Proof.
  intros (Hl & _ & _ & Hnew) (Hs & F1 & F2 & Hlt & _ & _ & Ht2 & Hall & Henv) Hpipe G1 G2 Hlt2 H.
  destruct (Hnew _ _ Hpipe) as (Hne & Hfresh & Hsock & Hf & Hdn).
  destruct (Hsock _ _ Hs) as [Hnb Hnc].
  destruct (set_env_spec _ _ _ Henv) as (_ & _ & _ & _ & _ & E1 & E2 & E3).
  destruct (allow_all_spec _ _ _ _ Hall) as (_ & Hopen & _).
  eapply started_pipe; [exact Hl|exact H|done| |done|done|].
  - intros n ent Hn Hfe. cbn [child_start ep_tab] in Hn.
    destruct (decide (n = wr)) as [->|Hnw].
    { rewrite lookup_insert in Hn. injection Hn as <-. split; [done|]. by intros Hi. }
    exfalso. rewrite lookup_insert_ne in Hn by done.
    destruct (decide (n = rd)) as [->|Hnr].
    { rewrite lookup_insert in Hn. by injection Hn as <-. }
    rewrite lookup_insert_ne, Ht2 in Hn by done.
    destruct (decide (n = wh)) as [->|Hnh].
    { rewrite lookup_insert in Hn. by injection Hn as <-. }
    rewrite lookup_insert_ne in Hn by done.
    destruct (decide (n = ch)) as [->|Hnch].
    { rewrite lookup_insert in Hn. by injection Hn as <-. }
    rewrite lookup_insert_ne in Hn by done. by eapply Hfresh.
  - intros fd Hfd ->. cbn [child_params pr_stdin pr_stdout pr_stderr pr_pipe] in Hfd.
    rewrite E1, E2, E3 in Hfd. rewrite Forall_forall in Hopen.
    destruct (Hopen wr) as (ent & He & _); [by right|]. congruence.
Qed.

(** What is missing: errors of the handshake. *)
Theorem C55_no_process_partial ne c p evs t e fl s' :
  kernel_ok ne t → wo_result (worker_new ne c p evs t) = WnErr e →
  (∀ se, e ≠ StartFailed se) →
  wo_child (worker_new ne c p evs t) ≠ Some (fl, EpStarted s').
Proof.
  intros Hk He Hns Hc.
  destruct (worker_child _ _ _ _ _ _ _ Hc) as (fb & fc & ch & wh & t2 & p' & c' & fr & fw & rd &
    wr & nr & t3 & Hr & _ & Hpipe & G1 & G2 & Hlt & _ & _ & Hch & Hro & _ & Hm).
  destruct (worker_started_pipe _ _ _ _ _ _ _ _ _ _ _ _ _ _ _ _ _ Hk Hr Hpipe G1 G2 Hlt (eq_sym Hch))
    as [Hw Hh].
  unfold read_outcome in Hro. cbn [final_state] in Hro. rewrite Hw, Hh in Hro.
  assert (nr = NewOk (pe_pid (ne_proc ne))) as -> by by destruct (pe_read (ne_proc ne)).
  destruct Hm as (so & s & _ & Hres). rewrite He in Hres.
  destruct so; try done. injection Hres as ->. by eapply Hns.
Qed.
Print Assumptions C55_no_process_partial.
Theorem C55_refuted : ¬ C55_full.
Proof.
  intros H.
  set (out := worker_new (ex_new None None) ex_config ex_pol
                [dgram (ReqOpenFile (lit "/tmp/f") 0)] ex_table).
  destruct (wo_child out) as [[fl [s'|s']]|] eqn:Ec; try by vm_compute in Ec.
  eapply (H (ex_new None None) ex_config ex_pol [dgram (ReqOpenFile (lit "/tmp/f") 0)] ex_table
    (StartFailed UnexpectedWorkerMessage) fl s').
  - apply ex_new_ok.
  - vm_compute. reflexivity.
  - exact Ec.
Qed.
Print Assumptions C55_refuted.
Example C55_example : ∃ fl s',
  let out := worker_new (ex_new (Some 13) None) ex_config ex_pol [] ex_table in
  wo_result out = WnErr (OsFailed (lit "execve()") 13) ∧ wo_child out = Some (fl, EpExited s').
Proof. eexists _, _. cbv zeta. split; [by vm_compute|]. by vm_compute. Qed.

(* ---------------------------------------------------------------- C56 *)

(** The name of a variable: what comes before its first '=' byte. *)
Definition is_name (n v : str) : Prop := x3d ∉ n ∧ (v = n ∨ ∃ w, v = n ++ x3d :: w).
(** Calls of set_environment_variable; errors leave the configuration as it is (the calls
    take a mutable reference). *)
Definition set_all (vs : list str) (c : config) : config :=
  foldl (λ c v, match set_environment_variable v c with Ok c => c | Err _ => c end) c vs.

Lemma is_name_spec n v : is_name n v ↔ n = name_from_env v.
Proof.
  split.
  - intros [Hn [->|[w ->]]].
    + induction n as [|b n IH]; [done|]. cbn [name_from_env].
      rewrite decide_False by set_solver. f_equal. apply IH. set_solver.
    + by rewrite name_from_env_app.
  - intros ->. unfold is_name. induction v as [|b v [IH1 IH2]]; cbn [name_from_env].
    { split; [set_solver|by left]. }
    destruct (decide (b = x3d)) as [->|Hne].
    + split; [set_solver|]. right. by exists v.
    + split; [set_solver|]. destruct IH2 as [E|[w E]].
      * left. by f_equal.
      * right. exists w. cbn. by f_equal.
Qed.

(** One call: fails exactly if a variable has the same name, else appends. *)
Theorem C56_one_call v c :
  match set_environment_variable v c with
  | Err _ => ∃ n w, is_name n v ∧ w ∈ cf_envp c ∧ is_name n w
  | Ok c' => (∀ n w, is_name n v → w ∈ cf_envp c → ¬ is_name n w) ∧
      c' = mkConfig (cf_exe c) (cf_argv c) (cf_envp c ++ [v]) (cf_cwd c) (cf_stdin c)
             (cf_stdout c) (cf_stderr c)
  end.
Proof.
  unfold set_environment_variable. destruct (existsb _ _) eqn:E.
  - apply existsb_exists in E as (w & Hw & Hn). apply bool_decide_eq_true in Hn.
    exists (name_from_env v), w. split; [by apply is_name_spec|].
    split; [by apply elem_of_list_In|]. by apply is_name_spec.
  - split; [|done]. intros n w Hv%is_name_spec Hw Hn%is_name_spec.
    apply not_true_iff_false in E. apply E. apply existsb_exists. exists w.
    split; [by apply elem_of_list_In|]. apply bool_decide_eq_true. congruence.
Qed.
Print Assumptions C56_one_call.

(** After any calls: names are unique, and the variables are those of the calls, in
    order. *)
Theorem C56_unique_names exe argv vs :
  let envp := cf_envp (set_all vs (config_new exe argv)) in
  (∀ i j n v w, envp !! i = Some v → envp !! j = Some w → is_name n v → is_name n w → i = j) ∧
  envp `sublist_of` vs ∧
  (∀ v n, v ∈ vs → is_name n v → ∃ w, w ∈ envp ∧ is_name n w).
Proof.
  cbv zeta.
  assert (Hgen : ∀ c prev,
    NoDup (map name_from_env (cf_envp c)) → cf_envp c `sublist_of` prev →
    (∀ v, v ∈ prev → name_from_env v ∈ map name_from_env (cf_envp c)) →
    NoDup (map name_from_env (cf_envp (set_all vs c))) ∧
    cf_envp (set_all vs c) `sublist_of` (prev ++ vs) ∧
    (∀ v, v ∈ prev ++ vs → name_from_env v ∈ map name_from_env (cf_envp (set_all vs c)))).
  { induction vs as [|v vs IH]; intros c prev Hd Hs Ha; cbn [set_all foldl].
    { by rewrite app_nil_r. }
    replace (prev ++ v :: vs) with ((prev ++ [v]) ++ vs) by (by rewrite <-app_assoc).
    assert (H1 := C56_one_call v c).
    destruct (set_environment_variable v c) as [c'|e].
    - destruct H1 as [Hno ->]. apply IH; cbn [cf_envp].
      + rewrite map_app. apply NoDup_app. split; [done|]. split; [|apply NoDup_singleton].
        intros n Hn Hn2. cbn [map] in Hn2. apply elem_of_list_singleton in Hn2. subst n.
        apply elem_of_list_fmap in Hn as (w & Hw1 & Hw2).
        apply (Hno (name_from_env v) w); [by apply is_name_spec|done|by apply is_name_spec].
      + by apply sublist_app.
      + intros w. rewrite map_app, !elem_of_app. intros [Hw|Hw]; [left; by apply Ha|right].
        by apply elem_of_list_singleton in Hw as ->; left.
    - destruct H1 as (n & w & Hn1 & Hw & Hn2). apply is_name_spec in Hn1, Hn2. apply IH; [done| |].
      + by apply sublist_inserts_r.
      + intros u. rewrite elem_of_app. intros [Hu|Hu]; [by apply Ha|].
        apply elem_of_list_singleton in Hu as ->. apply elem_of_list_fmap. exists w.
        split; [congruence|done]. }
  destruct (Hgen (config_new exe argv) []) as (Hnd & Hsub & Hall).
  { constructor. } { done. } { intros v Hv. by apply elem_of_nil in Hv. }
  split; [|split; [done|]].
  - intros i j n v w Hi Hj Hv%is_name_spec Hw%is_name_spec.
    eapply NoDup_lookup; [exact Hnd| |].
    + rewrite list_lookup_fmap, Hi. done.
    + rewrite list_lookup_fmap, Hj. cbn. congruence.
  - intros v n Hv Hn%is_name_spec. specialize (Hall v Hv).
    apply elem_of_list_fmap in Hall as (w & Hw1 & Hw2). exists w. split; [done|].
    apply is_name_spec. congruence.
Qed.
Print Assumptions C56_unique_names.
Example C56_example :
  cf_envp (set_all [lit "A=1"; lit "B=x=y"; lit "A=2"; lit "A"; lit "AB=3"; lit "=q"; lit "="]
             (config_new (lit "/bin/w") [])) = [lit "A=1"; lit "B=x=y"; lit "AB=3"; lit "=q"].
Proof. by vm_compute. Qed.

(* ---------------------------------------------------------------- C57 *)

(** The worker's end of the channel: its environment names a descriptor which, when its
    program starts, is the channel. *)
Definition finds_channel (ne : new_env) (envp : list str) (s' : ep_state) : Prop :=
  ∃ n fb fc, worker_channel envp = Some n ∧ ne_sockets ne = Ok (fb, fc) ∧
    fd_file <$> ep_tab s' !! n = Some fc.

(** Full statement of C57. The second part is false, see [C57_refuted]. *)
Definition C57_full : Prop := ∀ ne c p evs t fl r exe argv envp res,
  kernel_ok ne t → wo_child (worker_new ne c p evs t) = Some (fl, r) →
  EpExecve exe argv envp res ∈ ep_trace (final_state r) →
  (∃ n, envp = cf_envp c ++ [lit "SANDBOX_IPC_HANDLE=" ++ fmt_dec n] ∧
        worker_channel envp = Some n) ∧
  ∀ s', r = EpStarted s' → finds_channel ne envp s'.

(** What is missing: a broker that has closed two of its standard streams. *)
Theorem C57_environment_partial ne c p evs t fl r exe argv envp res :
  kernel_ok ne t → wo_child (worker_new ne c p evs t) = Some (fl, r) →
  EpExecve exe argv envp res ∈ ep_trace (final_state r) →
  exe = cf_exe c ∧ argv = cf_argv c ∧
  (∃ n, envp = cf_envp c ++ [lit "SANDBOX_IPC_HANDLE=" ++ fmt_dec n] ∧
        worker_channel envp = Some n) ∧
  ∀ s' i j, r = EpStarted s' → i < j → j ≤ 2 → is_Some (t !! i) → is_Some (t !! j) →
    finds_channel ne envp s'.
Proof.
  intros Hk Hc Hin. pose proof Hk as (Hl & Hlim & _ & _).
  destruct (worker_child _ _ _ _ _ _ _ Hc) as (fb & fc & ch & wh & t2 & p' & c' & fr & fw & rd &
    wr & nr & t3 & Hr & _ & Hpipe & G1 & G2 & Hlt & Hgt & _ & Hch & _ & _ & _).
  pose proof Hr as (Hs & F1 & F2 & Hcw & Hwl & Hmin & Ht2 & Hall & Henv).
  destruct (set_env_spec _ _ _ Henv) as (Hnm & Eenv & Eexe & Eargv & _ & E1 & E2 & E3).
  destruct (C50_before_execve _ _ _ r exe argv envp res Hl (eq_sym Hch)) as (-> & -> & -> & _).
  { intros x a v w Hx. by apply elem_of_nil in Hx. }
  { by destruct r. }
  cbn [child_params pr_exe pr_argv pr_envp]. split; [done|]. split; [done|].
  assert (Hchan : worker_channel (cf_envp c') = Some wh).
  { unfold worker_channel. rewrite Eenv. unfold ipc_variable. rewrite getenv_last.
    - rewrite parse_fmt_dec.
      2:{ eapply N.lt_trans; [|exact (eq_refl : 2 ^ 31 < 2 ^ 64)]. lia. }
      unfold handle_from_raw. by rewrite (proj2 (N.ltb_lt wh (2 ^ 31))) by lia.
    - apply (bool_decide_unpack _). by vm_compute.
    - intros w Hw Hn. apply (Hnm w Hw). rewrite Hn. unfold ipc_variable.
      symmetry. apply name_from_env_app. apply (bool_decide_unpack _). by vm_compute. }
  split.
  { exists wh. by rewrite Hchan, Eenv. }
  intros s' i j Hst Hij Hj Hi Hjs.
  assert (H2 : 2 < wh).
  { destruct (N.lt_ge_cases 2 wh) as [|Hle]; [done|]. exfalso.
    assert (ch ≠ i) by (intros ->; rewrite F1 in Hi; by destruct Hi).
    assert (ch ≠ j) by (intros ->; rewrite F1 in Hjs; by destruct Hjs).
    assert (wh ≠ i) by (intros ->; rewrite F2 in Hi; by destruct Hi).
    assert (wh ≠ j) by (intros ->; rewrite F2 in Hjs; by destruct Hjs). lia. }
  exists wh, fb, fc. split; [done|]. split; [done|].
  rewrite Hst in Hch. symmetry in Hch.
  destruct (C47_exact_descriptors _ _ _ _ Hl Hch) as [_ Habove].
  { intros ent. cbn [child_params child_start pr_pipe ep_tab]. rewrite lookup_insert.
    by intros [= <-] Hi'. }
  rewrite Habove by done. unfold passed_on. cbn [child_start ep_tab child_params pr_allowed].
  assert (Hwr : wh ≠ wr) by (intros ->; rewrite Ht2, lookup_insert in G2; done).
  assert (Hrd : wh ≠ rd) by (intros ->; rewrite Ht2, lookup_insert in G1; done).
  rewrite !lookup_insert_ne by done. rewrite Ht2, lookup_insert.
  rewrite decide_True; [done|]. split; [|done].
  destruct (allow_all_spec _ _ _ _ Hall) as (Hh & _ & _). apply elem_of_elements.
  unfold get_inherited_handles. rewrite Hh. set_solver.
Qed.
Print Assumptions C57_environment_partial.

(** A configuration that sets the variable itself is refused. *)
Theorem C57_reserved_name ne c p evs t v :
  v ∈ cf_envp c → is_name (lit "SANDBOX_IPC_HANDLE") v →
  (∃ e, wo_result (worker_new ne c p evs t) = WnErr e) ∧
  wo_child (worker_new ne c p evs t) = None.
Proof.
  intros Hv Hn%is_name_spec.
  destruct (worker_new_cases ne c p evs t) as
    [(e & He & _ & Hc & _)|(fb & fc & ch & wh & t2 & p' & c' & nr & t3 & Hr & _)]; [eauto|].
  exfalso. destruct Hr as (_ & _ & _ & _ & _ & _ & _ & _ & Henv).
  destruct (set_env_spec _ _ _ Henv) as (Hnm & _). apply (Hnm v Hv). rewrite <-Hn.
  unfold ipc_variable. symmetry. apply name_from_env_app.
  apply (bool_decide_unpack _). by vm_compute.
Qed.
Print Assumptions C57_reserved_name.

(** A broker that has only its standard error open: the channel becomes 0 and 1, and the
    worker finds /dev/null at descriptor 1. *)
Definition daemon_table : fdtab := {[ 2 := mkFd 102 0 ]}.
Theorem C57_refuted : ¬ C57_full.
Proof.
  intros H. set (c := config_new (lit "/bin/worker") [lit "worker"]).
  set (ne := ex_new None None).
  assert (Hk : kernel_ok ne daemon_table).
  { destruct (ex_new_ok None None) as (H1 & H2 & H3 & H4).
    split; [done|]. split; [done|]. split; [done|]. intros fr fw Hp.
    destruct (H4 _ _ Hp) as (A & _ & B & C). split; [done|]. split; [|done].
    injection Hp as <- <-. intros n ent Hn. unfold daemon_table in Hn.
    apply lookup_singleton_Some in Hn as [_ <-]. done. }
  destruct (wo_child (worker_new ne c ex_pol [] daemon_table)) as [[fl [s'|s']]|] eqn:Ec;
    try by vm_compute in Ec.
  assert (Hin : EpExecve (lit "/bin/worker") [lit "worker"] [lit "SANDBOX_IPC_HANDLE=1"] None ∈
                ep_trace (final_state (EpStarted s'))).
  { vm_compute in Ec. injection Ec as <- <-. cbn [final_state ep_trace].
    repeat first [apply elem_of_list_here | apply elem_of_list_further]. }
  destruct (H ne c ex_pol [] daemon_table fl _ _ _ _ _ Hk Ec Hin) as [_ H2].
  destruct (H2 s' eq_refl) as (n & fb & fc & Hw & Hs & Ht).
  vm_compute in Ec. injection Ec as <- <-. vm_compute in Hw. injection Hw as <-.
  injection Hs as <- <-. by vm_compute in Ht.
Qed.
Print Assumptions C57_refuted.
Example C57_example : ∃ fl s',
  wo_child (worker_new (ex_new None None) ex_config ex_pol [] ex_table) = Some (fl, EpStarted s') ∧
  finds_channel (ex_new None None) [lit "HOME=/"; lit "SANDBOX_IPC_HANDLE=5"] s'.
Proof.
  eexists _, _. split; [vm_compute; reflexivity|]. exists 5, 104, 105. by vm_compute.
Qed.

(* ---------------------------------------------------------------- C58 *)

(** Full statement of C58. *)
Definition C58_full : Prop := ∀ ne c p evs t d fl s',
  kernel_ok ne t →
  wo_child (worker_new ne (set_current_working_directory (Some d) c) p evs t)
    = Some (fl, EpStarted s') →
  ep_cwd s' = d.

(** The worker always starts where the broker is. *)
Theorem C58_broker_directory_refuted ne c p evs t fl s' :
  wo_child (worker_new ne c p evs t) = Some (fl, EpStarted s') →
  ep_cwd s' = pe_cwd (ne_proc ne).
Proof.
  intros Hc.
  destruct (worker_child _ _ _ _ _ _ _ Hc) as (fb & fc & ch & wh & t2 & p' & c' & fr & fw & rd &
    wr & nr & t3 & _ & _ & _ & _ & _ & _ & _ & _ & Hch & _).
  symmetry in Hch. by rewrite (entry_cwd _ _ _ _ Hch).
Qed.
Print Assumptions C58_broker_directory_refuted.
Theorem C58_refuted : ¬ C58_full.
Proof.
  intros H.
  destruct (wo_child (worker_new (ex_new None None)
    (set_current_working_directory (Some (lit "/tmp")) ex_config) ex_pol [] ex_table))
    as [[fl [s'|s']]|] eqn:Ec; try by vm_compute in Ec.
  assert (E1 := H _ _ _ _ _ _ _ _ (ex_new_ok None None) Ec).
  assert (E2 := C58_broker_directory_refuted _ _ _ _ _ _ _ Ec).
  rewrite E1 in E2. vm_compute in E2. discriminate E2.
Qed.
Print Assumptions C58_refuted.
Example C58_example : ∃ fl s',
  wo_child (worker_new (ex_new None None) ex_config ex_pol [] ex_table) = Some (fl, EpStarted s') ∧
  cf_cwd ex_config = Some (lit "/srv") ∧ ep_cwd s' = lit "/home/broker".
Proof. eexists _, _. split; [vm_compute; reflexivity|]. by vm_compute. Qed.

(* ---------------------------------------------------------------- C60 *)

Definition wanted_flags : list clone_flags :=
  [mkFlags true true; mkFlags false true; mkFlags false false].

(** The clone calls made are the first [k + 1] of the three; all before the last failed;
    the last one succeeded, or it is the third and its error is the result. *)
Theorem C60_fallback (answer : clone_flags → option N) :
  ∃ (k : nat) fl, wanted_flags !! k = Some fl ∧
    snd (clone_chain answer) = take (S k) wanted_flags ∧
    (∀ i f, (i < k)%nat → wanted_flags !! i = Some f → answer f ≠ None) ∧
    match answer fl with
    | None => fst (clone_chain answer) = Ok fl
    | Some errno => k = 2%nat ∧ fst (clone_chain answer) = Err (OsFailed (lit "clone() failed") errno)
    end.
Proof.
  unfold clone_chain, try_clone, wanted_flags.
  destruct (answer (mkFlags true true)) eqn:E1.
  2:{ exists 0%nat, (mkFlags true true). rewrite E1. repeat split; try done. intros; lia. }
  destruct (answer (mkFlags false true)) eqn:E2.
  2:{ exists 1%nat, (mkFlags false true). rewrite E2. repeat split; try done.
      intros [|i] f Hi Hf; [|lia]. injection Hf as <-. congruence. }
  exists 2%nat, (mkFlags false false). split; [done|]. split.
  { by destruct (answer (mkFlags false false)). }
  split.
  { intros [|[|i]] f Hi Hf; [| |lia]; injection Hf as <-; congruence. }
  by destruct (answer (mkFlags false false)).
Qed.
Print Assumptions C60_fallback.

(** The flags that the claims on signals (C45) and on namespaces (C46) speak of are those
    of the process that was created. *)
Theorem C60_same_flags (answer : clone_flags → option N) :
  clone_fallback (λ f, match answer f with None => true | Some _ => false end)
  = match fst (clone_chain answer) with Ok fl => Some fl | Err _ => None end.
Proof.
  unfold clone_fallback, clone_chain, try_clone.
  destruct (answer (mkFlags true true)); [|done].
  destruct (answer (mkFlags false true)); [|done].
  by destruct (answer (mkFlags false false)).
Qed.
Print Assumptions C60_same_flags.

(** Every created process comes from that chain, and if it fails there is none. *)
Theorem C60_used ne c p evs t :
  match fst (clone_chain (pe_clone (ne_proc ne))) with
  | Ok fl => ∀ fl' r, wo_child (worker_new ne c p evs t) = Some (fl', r) → fl' = fl
  | Err _ => wo_child (worker_new ne c p evs t) = None ∧
             ∃ e, wo_result (worker_new ne c p evs t) = WnErr e
  end.
Proof.
  destruct (fst (clone_chain (pe_clone (ne_proc ne)))) as [fl|e] eqn:Ef.
  - intros fl' r Hc.
    destruct (worker_child _ _ _ _ _ _ _ Hc) as (fb & fc & ch & wh & t2 & p' & c' & fr & fw & rd &
      wr & nr & t3 & _ & _ & _ & _ & _ & _ & _ & H & _). rewrite Ef in H. by injection H.
  - destruct (worker_new_cases ne c p evs t) as
      [(e' & He & _ & Hc & _)|(fb & fc & ch & wh & t2 & p' & c' & nr & t3 & Hr & Hp & Hm)]; [eauto|].
    destruct (process_new_cases _ _ _ _ _ _ _ Hp) as [(e' & -> & _ & Hn)|H].
    + split; [done|]. exists e'. by destruct Hm.
    + exfalso. by destruct H as (? & ? & ? & ? & ? & _ & _ & _ & _ & _ & H & _); rewrite Ef in H.
Qed.
Print Assumptions C60_used.
Example C60_example :
  clone_chain (λ fl, if newuser fl then Some 1 else None) =
    (Ok (mkFlags false true), [mkFlags true true; mkFlags false true]) ∧
  clone_chain (λ fl, Some (if newpid fl then 1 else 11)) =
    (Err (OsFailed (lit "clone() failed") 11), wanted_flags).
Proof. done. Qed.

(* ---------------------------------------------------------------- C81 *)

(** The wait for the error pipe ends: no worker whose program started keeps the pipe
    open. *)
Theorem C81_pipe_wait_ends ne c p evs t :
  kernel_ok ne t → wo_result (worker_new ne c p evs t) ≠ WnBlocked.
Proof.
  intros Hk Hb.
  destruct (wo_child (worker_new ne c p evs t)) as [[fl r]|] eqn:Ec.
  - destruct (worker_child _ _ _ _ _ _ _ Ec) as (fb & fc & ch & wh & t2 & p' & c' & fr & fw & rd &
      wr & nr & t3 & Hr & _ & Hpipe & G1 & G2 & Hlt & _ & _ & Hch & Hro & _ & Hm).
    destruct nr as [pid|e|].
    + destruct Hm as (so & s & _ & Hres). rewrite Hb in Hres. by destruct so.
    + congruence.
    + destruct r as [s'|s'].
      * unfold read_outcome in Hro. destruct (pe_read (ne_proc ne)); [done|].
        by destruct (written fw _).
      * destruct (worker_started_pipe _ _ _ _ _ _ _ _ _ _ _ _ _ _ _ _ _ Hk Hr Hpipe G1 G2 Hlt
          (eq_sym Hch)) as [Hw Hh].
        unfold read_outcome in Hro. cbn [final_state] in Hro. rewrite Hw, Hh in Hro.
        by destruct (pe_read (ne_proc ne)).
  - destruct (worker_new_cases ne c p evs t) as
      [(e & He & _)|(fb & fc & ch & wh & t2 & p' & c' & nr & t3 & Hr & Hp & Hm)]; [congruence|].
    rewrite Ec in Hp.
    destruct (process_new_cases _ _ _ _ _ _ _ Hp) as [(e & -> & _)|H].
    + destruct Hm as [Hm _]. congruence.
    + by destruct H as (? & ? & ? & ? & ? & _ & _ & _ & _ & _ & _ & ? & _).
Qed.
Print Assumptions C81_pipe_wait_ends.
(** Without close-on-exec on the pipe the wait would not end. *)
Example C81_example :
  holds_file 107 (EpStarted (start0 (<[7 := mkFd 107 0]> ex_table) caps0)) = true ∧
  wo_result (worker_new (ex_new None None) ex_config ex_pol [] ex_table) = WnWaiting.
Proof. by vm_compute. Qed.
