(** Facts about the broker loop. *)
From stdpp Require Import prelude gmap.
From Coq Require Import Strings.Byte ZifyN ZifyNat ZifyBool.
From Verif Require Import Bytes BytesProofs PolicyModel LinuxPolicyModel LinuxPolicySpec
  LinuxPolicyProofs PostcardModel PostcardSpec PostcardProofs FdModel FdProofs ChannelModel
  ChannelProofs BrokerModel BrokerSpec.
Local Open Scope N_scope.

Lemma opens_app a b : opens (a ++ b) = opens a ++ opens b.
Proof. unfold opens. by rewrite omap_app. Qed.
Lemma replies_app a b : replies (a ++ b) = replies a ++ replies b.
Proof. unfold replies. by rewrite omap_app. Qed.
Lemma opens_log p r : opens (log_events p r) = [].
Proof.
  unfold log_events. induction (snd (evaluate_request p r)) as [|[[cb q] v] l IH]; [done|].
  simpl. by rewrite <-IH.
Qed.
Lemma replies_log p r : replies (log_events p r) = [].
Proof.
  unfold log_events. induction (snd (evaluate_request p r)) as [|[[cb q] v] l IH]; [done|].
  simpl. by rewrite <-IH.
Qed.

(** Receiving. *)
Lemma recv_plain a limit ev t m :
  plain_request ev m →
  channel_recv dec_request a limit IPC_MESSAGE_MAX_SIZE ev t = (Ok (Some (m, None)), t).
Proof.
  intros (p & rest & -> & Hl & Hd). simpl. unfold sys_recvmsg. simpl.
  replace (IPC_MESSAGE_MAX_SIZE <? N.of_nat (length p)) with false
    by (unfold IPC_MESSAGE_MAX_SIZE; lia).
  simpl. rewrite take_ge by (unfold IPC_MESSAGE_MAX_SIZE; lia).
  destruct (Nat.eqb (length p) 0) eqn:E0.
  { assert (p = []) as -> by (destruct p; done). done. }
  unfold deserialize. by rewrite Hd.
Qed.

Lemma recv_plain_inv a limit ev t m t' :
  limit ≤ 2 ^ 31 →
  channel_recv dec_request a limit IPC_MESSAGE_MAX_SIZE ev t = (Ok (Some (m, None)), t') →
  plain_request ev m ∧ t' = t.
Proof.
  intros Hl. destruct ev as [d| |e]; [|done|done]. simpl. unfold sys_recvmsg.
  destruct (install_files _ _ _ _) as [ns t1] eqn:Ei. simpl.
  apply install_files_spec in Ei as Hs. destruct Hs as (Hlen & _ & Hns & _ & Htab & _).
  destruct ns as [|n ns].
  2:{ assert (handle_from_raw n = Some n) as ->.
      { unfold handle_from_raw. destruct (Hns n) as [_ Hn]; [left|].
        by replace (n <? 2 ^ 31) with true by lia. }
      destruct (_ || _); [done|]. destruct (Nat.eqb _ 0); [done|].
      by destruct (deserialize dec_request _). }
  simpl.
  destruct (IPC_MESSAGE_MAX_SIZE <? N.of_nat (length (dg_payload d))) eqn:E; simpl; [done|].
  destruct d as [p files]. simpl in *. destruct files as [|f files]; [|done]. simpl.
  unfold IPC_MESSAGE_MAX_SIZE in *.
  rewrite take_ge by lia. destruct (Nat.eqb (length p) 0); [done|].
  unfold deserialize. destruct (dec_request p) as [[m' rest]|] eqn:Ed; [|done].
  intros [= -> <-]. split.
  - exists p, rest. split_and!; [done|lia|done].
  - simpl in Ei. by injection Ei as <-.
Qed.

Lemma plain_request_fun ev m m' : plain_request ev m → plain_request ev m' → m = m'.
Proof. intros (p & r & -> & _ & H) (p' & r' & [= <-] & _ & H'). congruence. Qed.

(** A policy as the broker uses it. *)
Definition decides (p : policy) (audit : bool) (h : list rule) : Prop :=
  audit_only p = audit ∧
  ∀ path flags, check_file_open p path flags = Granted ↔ should_grant h path flags.

Lemma runtime_decides audit calls :
  decides (get_runtime_policy (build audit calls)) audit (rules_of calls).
Proof.
  split; [apply build_audit|]. intros path flags.
  rewrite <-(build_granted audit). erewrite check_file_open_maps; [done|].
  by apply allowed_access_maps.
Qed.

Lemma decides_verdict p audit h path flags :
  decides p audit h →
  fst (evaluate_request p (FileOpen path flags)) = Granted ↔ user_allows audit h path flags.
Proof.
  intros [Ha Hg]. unfold evaluate_request, user_allows. simpl. rewrite Ha.
  destruct audit; [naive_solver|]. rewrite Hg. naive_solver.
Qed.

Lemma contains_nul path : contains [x00] path = true ↔ x00 ∈ path.
Proof.
  rewrite contains_true. split.
  - intros (a & b & ->). set_solver.
  - intros (a & b & ->)%elem_of_list_split. eauto.
Qed.

(** The dispatch, described. *)
Lemma dispatch_spec env p audit h m s :
  be_limit env ≤ 2 ^ 31 → decides p audit h →
  ∃ evs,
    bs_trace (snd (dispatch env p m s)) = bs_trace s ++ evs ∧ replies evs = [] ∧
    match fst (dispatch env p m s) with
    | Done (code, None) =>
        bs_tab (snd (dispatch env p m s)) = bs_tab s ∧
        right_answer (be_abi env) (bs_tab s) audit h m (opens evs) code []
    | Done (code, Some n) =>
        ∃ path flags file e,
          m = ReqOpenFile path flags ∧ user_allows audit h path flags ∧ x00 ∉ path ∧
          opens evs = [(path, flags, 384%Z, Ok file)] ∧ code = 0%Z ∧ fd_file e = file ∧
          bs_tab s !! n = None ∧ n < be_limit env ∧ n = lowest_free (bs_tab s) ∧
          bs_tab (snd (dispatch env p m s)) = <[n := e]> (bs_tab s)
    | Panicked =>
        bs_tab (snd (dispatch env p m s)) = bs_tab s ∧ opens evs = [] ∧
        ∃ path flags, m = ReqOpenFile path flags ∧ user_allows audit h path flags ∧ x00 ∈ path
    | Failed => False
    end.
Proof.
  intros Hl Hp. destruct m as [|path flags|nb args ip].
  - exists []. simpl. by rewrite app_nil_r.
  - pose proof (decides_verdict p audit h path flags Hp) as Hv.
    unfold dispatch, proxied_open_file.
    destruct (fst (evaluate_request p (FileOpen path flags))) eqn:E.
    2-4: exists (log_events p (FileOpen path flags)); simpl; rewrite opens_log, replies_log;
      split_and!; try done; left; split_and!; try done; intros Hu; by apply Hv in Hu.
    assert (user_allows audit h path flags) as Hu by (by apply Hv).
    destruct (contains [x00] path) eqn:En.
    { exists (log_events p (FileOpen path flags)); simpl; rewrite opens_log, replies_log.
      split_and!; try done. exists path, flags. split_and!; try done. by apply contains_nul. }
    assert (x00 ∉ path) as Hnul.
    { intros H. apply contains_nul in H. congruence. }
    unfold sys_open. simpl.
    destruct (be_open env _ path flags) as [file|e] eqn:Eo.
    + destruct (fd_install (be_limit env) _ (bs_tab s)) as [[n t]|] eqn:Ei.
      * apply fd_install_Some in Ei as (Hn & Hlt & Hnone & ->).
        unfold handle_from_raw. replace (n <? 2 ^ 31) with true by lia. simpl.
        eexists. split; [by rewrite <-app_assoc|].
        rewrite replies_app, replies_log. split; [done|].
        exists path, flags, file, (mkFd file (if Z.testbit flags 19 then FD_CLOEXEC else 0%Z)).
        rewrite opens_app, opens_log. split_and!; done.
      * simpl. eexists. split; [by rewrite <-app_assoc|].
        rewrite replies_app, replies_log, opens_app, opens_log.
        split_and!; try done. right. split; [done|]. by exists (Err EMFILE).
    + simpl. eexists. split; [by rewrite <-app_assoc|].
      rewrite replies_app, replies_log, opens_app, opens_log.
      split_and!; try done. right. split; [done|]. by exists (Err e).
  - exists (log_events p (Syscall nb args ip)). simpl.
    rewrite opens_log, replies_log. done.
Qed.

(** Sending. *)
Lemma broker_send_spec env m hd s :
  ∃ e, snd (broker_send env m hd s) = mkBst (bs_tab s) (bs_trace s ++ [e]) ∧
    match fst (broker_send env m hd s) with
    | false => e = BSendFailed
    | true => ∃ d, e = BSent (dg_payload d) (dg_files d) ∧
        channel_send enc_response (be_abi env) (be_sndbuf env) (bs_tab s) m hd
          IPC_MESSAGE_MAX_SIZE = Ok d
    end.
Proof.
  unfold broker_send. destruct (be_send env (bs_trace s)).
  { exists BSendFailed. done. }
  destruct (channel_send _ _ _ _ _ _ _) as [d|] eqn:E.
  - eexists. split; [done|]. simpl. eauto.
  - exists BSendFailed. done.
Qed.

(** One iteration. *)
Lemma broker_step_spec env p audit h ev s st s' :
  be_limit env ≤ 2 ^ 31 → decides p audit h →
  broker_step env p ev s = (st, s') →
  ∃ evs, bs_trace s' = bs_trace s ++ evs ∧
    match st with
    | Serving =>
        bs_tab s' = bs_tab s ∧ ∃ m, plain_request ev m ∧
          right_segment (be_abi env) (bs_tab s) audit h m evs
    | Exited =>
        (∀ m, ¬ plain_request ev m) ∧ evs = [] ∨
        (∃ m, plain_request ev m ∧ replies evs = [] ∧ bs_tab s' = bs_tab s ∧
           ∃ code files, right_answer (be_abi env) (bs_tab s) audit h m (opens evs) code files
             ∨ (files = [] ∧ ∃ path flags file, m = ReqOpenFile path flags ∧
                 user_allows audit h path flags ∧
                 opens evs = [(path, flags, 384%Z, Ok file)]))
    | Crashed =>
        bs_tab s' = bs_tab s ∧ replies evs = [] ∧ opens evs = [] ∧
        ∃ path flags, plain_request ev (ReqOpenFile path flags) ∧
          user_allows audit h path flags ∧ x00 ∈ path
    end.
Proof.
  intros Hl Hp. unfold broker_step.
  destruct (channel_recv dec_request (be_abi env) (be_limit env) IPC_MESSAGE_MAX_SIZE ev (bs_tab s))
    as [r t] eqn:Er.
  assert ((∃ m, r = Ok (Some (m, None))) ∨ ∀ m, ¬ plain_request ev m) as Hcase.
  { destruct r as [[[m [n|]]|]|e].
    2: left; by eexists.
    all: right; intros m' H;
      rewrite (recv_plain (be_abi env) (be_limit env) ev (bs_tab s) m' H) in Er; done. }
  destruct Hcase as [[m ->]|Hno].
  2:{ assert (r ≠ Ok (Some (ReqInitialization, None))) as _.
      { intros ->. apply recv_plain_inv in Er as [H _]; [|done]. by apply Hno in H. }
      destruct r as [[[m [n|]]|]|e].
      - (* a handle came along: it is closed *)
        assert (is_Some (t !! n)) as [x Hx].
        { destruct ev as [d| |e]; [|done|done]. revert Er. simpl. unfold sys_recvmsg.
          destruct (install_files _ _ _ _) as [ns t1] eqn:Ei. simpl.
          apply install_files_spec in Ei as (_ & _ & Hns & _ & _ & Hins).
          destruct ns as [|k ns]; simpl.
          { destruct (_ || _); [done|]. destruct (Nat.eqb _ 0); [done|].
            by destruct (deserialize dec_request _). }
          unfold handle_from_raw. destruct (k <? 2 ^ 31); [|done].
          destruct (_ || _); [done|]. destruct (Nat.eqb _ 0); [done|].
          destruct (deserialize dec_request _); [|done]. intros [= _ <- <-].
          destruct (Hins 0%nat k eq_refl) as (f & _ & H). by eexists. }
        simpl. unfold handle_drop, sys_close. simpl. rewrite Hx.
        intros [= <- <-]. exists []. simpl. rewrite app_nil_r. split; [done|]. by left.
      - apply recv_plain_inv in Er as [H _]; [|done]. by apply Hno in H.
      - intros [= <- <-]. exists []. simpl. rewrite app_nil_r. split; [done|]. by left.
      - intros [= <- <-]. exists []. simpl. rewrite app_nil_r. split; [done|]. by left. }
  apply recv_plain_inv in Er as [Hm ->]; [|done]. 
  replace (mkBst (bs_tab s) (bs_trace s)) with s by (by destruct s).
  pose proof (dispatch_spec env p audit h m s Hl Hp) as (evs & Ht & Hrep & Hd).
  destruct (dispatch env p m s) as [o s1]. simpl in *.
  destruct o as [[code hd]| |]; [|done|].
  2:{ intros [= <- <-]. exists evs. destruct Hd as (H1 & H2 & path & flags & -> & H3 & H4).
      split_and!; try done. eauto. }
  pose proof (broker_send_spec env (OutSyscallResult code) hd s1) as (e & Hs2 & He).
  destruct (broker_send env (OutSyscallResult code) hd s1) as [sent s2]. simpl in *.
  assert (∃ t', drop_handle hd s2 = Done (mkBst t' (bs_trace s1 ++ [e])) ∧ t' = bs_tab s)
    as (t' & Hdrop & ->).
  { rewrite Hs2. destruct hd as [n|]; simpl.
    - destruct Hd as (path & flags & file & e' & _ & _ & _ & _ & _ & _ & Hnone & _ & _ & Htab).
      unfold handle_drop, sys_close. rewrite Htab, lookup_insert.
      eexists. split; [done|]. by apply delete_insert.
    - eexists. split; [done|]. apply Hd. }
  rewrite Hdrop. intros [= <- <-]. exists (evs ++ [e]). simpl. rewrite Ht, app_assoc.
  split; [done|]. destruct sent.
  - split; [done|]. exists m. split; [done|]. destruct He as (d & -> & Hsend).
    apply channel_send_payload in Hsend as Hpay. destruct Hpay as [Hpay _].
    apply channel_send_files in Hsend as Hfiles. rewrite Hpay.
    exists evs, code, (dg_files d). split_and!; [done|done|].
    rewrite opens_app. simpl. rewrite app_nil_r.
    destruct hd as [n|].
    + destruct Hd as (path & flags & file & e' & -> & Hu & _ & -> & -> & Hfile & Hnone & Hlt & Hlow & Htab).
      simpl. right. split; [done|]. exists (Ok file). split; [done|]. split; [done|].
      destruct Hfiles as (e2 & He2 & Hf); [lia|]. rewrite Htab, lookup_insert in He2.
      injection He2 as <-. unfold attached. destruct (be_abi env).
      * destruct Hf as (e0 & He0 & ->). exists (fd_file e0). split; [by subst file|].
        rewrite Htab in He0.
        destruct (decide (n = 0)) as [->|Hn0].
        -- rewrite lookup_insert in He0. injection He0 as <-. right. done.
        -- rewrite lookup_insert_ne in He0 by done. left. eauto.
      * by subst file.
    + rewrite Hfiles. apply Hd.
  - right. exists m. split; [done|]. rewrite replies_app, Hrep, He. split; [done|].
    split; [done|]. rewrite opens_app. simpl. rewrite app_nil_r.
    destruct hd as [n|].
    + destruct Hd as (path & flags & file & e' & -> & Hu & _ & -> & _).
      exists 0%Z, []. right. split; [done|]. eauto 8.
    + destruct Hd as [_ Hd]. exists code, []. by left.
Qed.

(** Sessions. [ms] are the served requests, [segs] their traces, [tail] what the last,
    unanswered event caused. *)
Lemma broker_loop_spec env p audit h ch evs s st s' :
  be_limit env ≤ 2 ^ 31 → decides p audit h →
  broker_loop env p ch evs s = (st, s') →
  ∃ ms segs tail,
    bs_trace s' = bs_trace s ++ concat segs ++ tail ∧
    Forall2 plain_request (take (length ms) evs) ms ∧
    Forall2 (right_segment (be_abi env) (bs_tab s) audit h) ms segs ∧
    replies tail = [] ∧
    (∀ x, x ∈ opens tail → ∃ path flags res, x = (path, flags, 384%Z, res) ∧
       user_allows audit h path flags ∧
       ∃ ev, evs !! length ms = Some ev ∧ plain_request ev (ReqOpenFile path flags)) ∧
    (length (opens tail) ≤ 1)%nat ∧
    match st with
    | Serving => length ms = length evs ∧ tail = [] ∧ bs_tab s' = bs_tab s
    | Exited => ∃ ev, evs !! length ms = Some ev
    | Crashed => opens tail = [] ∧ bs_tab s' = delete ch (bs_tab s) ∧
        ∃ path flags ev, evs !! length ms = Some ev ∧
          plain_request ev (ReqOpenFile path flags) ∧ user_allows audit h path flags ∧ x00 ∈ path
    end.
Proof.
  intros Hl Hp. revert s. induction evs as [|ev evs IH]; intros s; simpl.
  { intros [= <- <-]. exists [], [], []. simpl. rewrite app_nil_r.
    split_and!; try done; try (by constructor). set_solver. }
  destruct (broker_step env p ev s) as [st1 s1] eqn:E.
  destruct (broker_step_spec env p audit h ev s st1 s1 Hl Hp E) as (es & Ht & Hst).
  destruct st1.
  - intros H. apply IH in H as (ms & segs & tail & H1 & H2 & H3 & H4 & H5 & H6 & H7).
    destruct Hst as (Htab & m & Hm & Hseg).
    exists (m :: ms), (es :: segs), tail. rewrite Htab in *. simpl.
    split_and!; try done.
    + by rewrite H1, Ht, <-!app_assoc.
    + by constructor.
    + by constructor.
    + destruct st; [|done|done]. destruct H7 as (H7 & H8 & H9). split_and!; [by rewrite H7|done|done].
  - intros [= <- <-]. simpl. exists [], [], es. simpl.
    destruct Hst as [[Hno ->]|(m & Hm & Hr & Htab & code & files & Ha)].
    { split_and!; try done; try (by constructor); [set_solver|eauto]. }
    split_and!; try done; try (by constructor); [| |eauto].
    + intros x Hx. destruct Ha as [Ha|(_ & path & flags & file & -> & Hu & Ho)].
      * destruct m as [|path flags|]; simpl in Ha.
        -- destruct Ha as (Ho & _). rewrite Ho in Hx. set_solver.
        -- destruct Ha as [(_ & Ho & _)|(Hu & res & Ho & _)]; rewrite Ho in Hx; [set_solver|].
           apply elem_of_list_singleton in Hx as ->. exists path, flags, res. eauto.
        -- destruct Ha as (Ho & _). rewrite Ho in Hx. set_solver.
      * rewrite Ho in Hx. apply elem_of_list_singleton in Hx as ->. exists path, flags, (Ok file). eauto.
    + destruct Ha as [Ha|(_ & path & flags & file & -> & Hu & Ho)]; [|rewrite Ho; simpl; lia].
      destruct m as [|path flags|]; simpl in Ha.
      * destruct Ha as (-> & _). simpl. lia.
      * destruct Ha as [(_ & -> & _)|(Hu & res & -> & _)]; simpl; lia.
      * destruct Ha as (-> & _). simpl. lia.
  - intros [= <- <-]. destruct Hst as (Htab & Hr & Ho & path & flags & Hm & Hu & Hn).
    exists [], [], es. simpl. rewrite Htab.
    split_and!; try done; try (by constructor).
    + rewrite Ho. set_solver.
    + rewrite Ho. simpl. lia.
    + exists path, flags, ev. done.
Qed.

(** Running in two parts. *)
Lemma broker_loop_app env p ch evs evs' s :
  broker_loop env p ch (evs ++ evs') s =
  match broker_loop env p ch evs s with
  | (Serving, s') => broker_loop env p ch evs' s'
  | r => r
  end.
Proof.
  revert s. induction evs as [|ev evs IH]; intros s; simpl; [done|].
  destruct (broker_step env p ev s) as [[] s1]; [apply IH|done|done].
Qed.

(** A served request leaves the descriptors as they were; so does the whole session,
    as long as it lasts. *)
Lemma step_exit_tab env p audit h ev s s' :
  be_limit env ≤ 2 ^ 31 → decides p audit h →
  (be_abi env = Abi32 ∨ ∀ d, ev = EvDatagram d → (length (dg_files d) ≤ 1)%nat) →
  broker_step env p ev s = (Exited, s') → bs_tab s' = bs_tab s.
Proof.
  intros Hl Hp Ha E. pose proof E as E2.
  destruct (broker_step_spec env p audit h ev s Exited s' Hl Hp E) as (es & _ & [[Hno _]|H]).
  2:{ destruct H as (m & _ & _ & H & _). done. }
  unfold broker_step in E2.
  destruct (channel_recv dec_request (be_abi env) (be_limit env) IPC_MESSAGE_MAX_SIZE ev (bs_tab s))
    as [r t] eqn:Er.
  pose proof (recv_no_leak_gen dec_request (be_abi env) (be_limit env) _ ev (bs_tab s) r t Hl Ha Er)
    as [Hk Hf].
  destruct r as [[[m [n|]]|]|e].
  - simpl in *. destruct (Hf n eq_refl) as [_ [x Hx]].
    unfold handle_drop, sys_close in E2. simpl in E2. rewrite Hx in E2.
    by injection E2 as <-.
  - apply recv_plain_inv in Er as [H _]; [|done]. by apply Hno in H.
  - injection E2 as <-. done.
  - injection E2 as <-. done.
Qed.
