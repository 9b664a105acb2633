(** Properties C23-C30: the broker's request loop. A session is the loop run on any
    list of socket events (datagrams with any bytes and any attached files, end of
    stream, errors), for any answer of open(2) and sendmsg(2). *)
From stdpp Require Import prelude gmap.
From Coq Require Import Strings.Byte ZifyN ZifyNat ZifyBool.
From Verif Require Import Bytes BytesProofs PolicyModel PolicySpec LinuxPolicyModel
  LinuxPolicySpec LinuxPolicyProofs PostcardModel PostcardSpec PostcardProofs FdModel FdProofs
  ChannelModel ChannelProofs BrokerModel BrokerSpec BrokerProofs.
Local Open Scope N_scope.

(** The broker thread for a user policy: the loop gets the runtime policy. *)
Definition session (env : benv) (audit : bool) (calls : list api_call) (ch : N)
  (evs : list sock_event) (t : fdtab) : bstatus * bstate :=
  broker_loop env (get_runtime_policy (build audit calls)) ch evs (mkBst t []).
(** Descriptor numbers are C ints. *)
Definition env_ok (env : benv) : Prop := be_limit env ≤ 2 ^ 31.

(* Concrete values for the examples. *)
Definition ex_env : benv :=
  mkBenv Abi32 1024 200000
    (λ _ path _, if bool_decide (path = lit "/tmp/f") then Ok 42 else Err 2) (λ _, None).
Definition ex_policy_calls : list api_call := [CallRule (AllowDirRead (lit "/tmp"))].
Definition dgram (m : ipc_request) : sock_event := EvDatagram (mkDgram (enc_request m) []).
Definition ex_tab3 : fdtab :=
  <[0 := mkFd 100 0]> (<[1 := mkFd 101 0]> (<[2 := mkFd 102 0]> (<[3 := mkFd 103 1]> ∅))).
Definition ex_run (evs : list sock_event) :=
  let '(st, s) := session ex_env false ex_policy_calls 3 evs ex_tab3 in
  (st, bs_trace s, (map_to_list (bs_tab s)).*1).

(* ---------------------------------------------------------------- C23 *)

(** Every open(2) the broker makes has a path and flags the user's rules allow. *)
Theorem C23_only_granted_opens (env : benv) (calls : list api_call) (ch : N)
  (evs : list sock_event) (t : fdtab) (path : str) (flags mode : Z) (res : result N N) :
  env_ok env →
  (path, flags, mode, res) ∈ opens (bs_trace (snd (session env false calls ch evs t))) →
  should_grant (rules_of calls) path flags.
Proof.
  intros Hl Hin. unfold session in Hin. destruct (broker_loop _ _ _ _ _) as [st s'] eqn:E.
  pose proof (broker_loop_spec _ _ _ _ _ _ _ _ _ Hl (runtime_decides false calls) E) as Hspec.
  destruct Hspec as (ms & segs & tail & Ht & _ & Hsegs & _ & Htail & _).
  simpl in Hin. rewrite Ht in Hin. simpl in Hin.
  rewrite opens_app, elem_of_app in Hin. destruct Hin as [Hin|Hin].
  - unfold opens in Hin. apply elem_of_list_omap in Hin as (e & He & Ee).
    apply elem_of_list_In, in_concat in He as (seg & Hseg%elem_of_list_In & He).
    apply elem_of_list_In in He.
    apply elem_of_list_lookup in Hseg as (i & Hi).
    destruct (Forall2_lookup_r _ _ _ _ _ Hsegs Hi) as (m & _ & pre & code & files & _ & _ & Ha).
    assert ((path, flags, mode, res) ∈ opens seg) as Hin.
    { unfold opens. apply elem_of_list_omap. eauto. }
    destruct m as [|path' flags'|]; simpl in Ha.
    + destruct Ha as (Ha & _). rewrite Ha in Hin. set_solver.
    + destruct Ha as [(_ & Ha & _)|(Hu & r & Ha & _)]; rewrite Ha in Hin; [set_solver|].
      apply elem_of_list_singleton in Hin. injection Hin as -> -> _ _.
      by destruct Hu.
    + destruct Ha as (Ha & _). rewrite Ha in Hin. set_solver.
  - destruct (Htail _ Hin) as (path' & flags' & r & E' & Hu & _). injection E' as -> -> _ _.
    by destruct Hu.
Qed.
Print Assumptions C23_only_granted_opens.

Example C23_example :
  ex_run [dgram (ReqOpenFile (lit "/tmp/f") 0); dgram (ReqOpenFile (lit "/etc/f") 0);
          dgram (ReqOpenFile (lit "/tmp/g") 0)] =
  (Serving,
   [BOpen (lit "/tmp/f") 0 384 (Ok 42); BSent (reply_bytes 0) [42];
    BSent (reply_bytes (-13)) [];
    BOpen (lit "/tmp/g") 0 384 (Err 2); BSent (reply_bytes (-2)) []], [0; 1; 3; 2]).
Proof. by vm_compute. Qed.

(* ---------------------------------------------------------------- C24 *)

(** A request the rules do not allow: after any session [pre] that is still running,
    the broker's only visible actions for it are log callbacks and (if the socket
    takes it) one reply, -EACCES without files. *)
Theorem C24_denied_no_effect (env : benv) (calls : list api_call) (ch : N)
  (pre : list sock_event) (ev : sock_event) (t : fdtab) (path : str) (flags : Z) s :
  env_ok env →
  session env false calls ch pre t = (Serving, s) →
  plain_request ev (ReqOpenFile path flags) →
  ¬ should_grant (rules_of calls) path flags →
  ∃ st s' seg, session env false calls ch (pre ++ [ev]) t = (st, s') ∧ st ≠ Crashed ∧
    bs_trace s' = bs_trace s ++ seg ∧ opens seg = [] ∧
    (st = Serving → replies seg = [(reply_bytes (-13), [])]) ∧
    (st ≠ Serving → replies seg = []).
Proof.
  intros Hl Hpre Hev Hno. unfold session in *. rewrite broker_loop_app, Hpre. simpl.
  set (p := get_runtime_policy (build false calls)) in *.
  assert (decides p false (rules_of calls)) as Hd by apply runtime_decides.
  assert (¬ user_allows false (rules_of calls) path flags) as Hno'.
  { intros [?|?]; done. }
  destruct (broker_step env p ev s) as [st s1] eqn:E.
  destruct (broker_step_spec env p _ _ ev s st s1 Hl Hd E) as (es & Ht & Hst).
  destruct st.
  - destruct Hst as (Htab & m & Hm & pre' & code & files & -> & Hr & Ha).
    assert (m = ReqOpenFile path flags) as -> by (by eapply plain_request_fun).
    simpl in Ha. destruct Ha as [(_ & Ho & -> & ->)|(? & _)]; [|done].
    eexists _, _, _. split; [done|]. split; [done|]. split; [done|].
    split_and!; [done| |done]. intros _. by rewrite replies_app, Hr.
  - eexists Exited, _, es. split; [done|]. split; [done|]. split; [done|].
    destruct Hst as [[Hn _]|(m & Hm & Hr & _ & code & files & Ha)]; [by apply Hn in Hev|].
    assert (m = ReqOpenFile path flags) as -> by (by eapply plain_request_fun).
    split_and!; [|done|done].
    destruct Ha as [[(_ & Ho & _)|(? & _)]|(_ & path' & flags' & file & [= <- <-] & ? & _)]; done.
  - destruct Hst as (_ & _ & _ & path' & flags' & Hm & Hu & _).
    assert (ReqOpenFile path flags = ReqOpenFile path' flags') as [= <- <-]
      by (by eapply plain_request_fun).
    done.
Qed.
Print Assumptions C24_denied_no_effect.

Example C24_example :
  (∃ s, session ex_env false ex_policy_calls 3 [dgram (ReqOpenFile (lit "/tmp/f") 0)] ex_tab3
    = (Serving, s)) ∧
  plain_request (dgram (ReqOpenFile (lit "/etc/f") 0)) (ReqOpenFile (lit "/etc/f") 0) ∧
  ¬ should_grant (rules_of ex_policy_calls) (lit "/etc/f") 0.
Proof.
  split_and!.
  - eexists. by vm_compute.
  - eexists _, []. split; [done|]. split; [by vm_compute|]. by vm_compute.
  - rewrite <-(build_granted false). by vm_compute.
Qed.

(* ---------------------------------------------------------------- C25 *)

(** The i-th reply answers the i-th event, which is a well-formed request, in the way
    [right_answer] says; a session that goes on has answered everything; files are
    attached exactly to code 0; other codes are negative if the kernel's errors are. *)
Theorem C25_one_reply_each (env : benv) (audit : bool) (calls : list api_call) (ch : N)
  (evs : list sock_event) (t : fdtab) st s :
  env_ok env →
  (∀ tr p f e, be_open env tr p f = Err e → 0 < e) →
  session env audit calls ch evs t = (st, s) →
  (st = Serving → length (replies (bs_trace s)) = length evs) ∧
  (length (replies (bs_trace s)) ≤ length evs)%nat ∧
  ∀ i bytes files, replies (bs_trace s) !! i = Some (bytes, files) →
    ∃ ev m code os, evs !! i = Some ev ∧ plain_request ev m ∧ bytes = reply_bytes code ∧
      right_answer (be_abi env) t audit (rules_of calls) m os code files ∧
      os `sublist_of` opens (bs_trace s) ∧
      (∀ e p f md, (p, f, md, Err e) ∈ os → 0 < e) ∧
      (files = [] ↔ code ≠ 0%Z) ∧ (code ≤ 0)%Z.
Proof.
  intros Hl Herr E. unfold session in E.
  assert (∀ p f md e tr s0 s1, sys_open env p f md s0 = (Err e, s1) → tr = bs_trace s0 → 0 < e) as _.
  { intros p f md e tr s0 s1 H _. unfold sys_open in H.
    destruct (be_open env (bs_trace s0) p f) eqn:Eo; [|injection H as <- _; by eapply Herr].
    destruct (fd_install _ _ _) as [[? ?]|]; [done|]. injection H as <- _. done. }
  (* every failed open in the trace has a positive errno *)
  assert (∀ evs s0 st s', broker_loop env (get_runtime_policy (build audit calls)) ch evs s0 = (st, s') →
    (∀ e p f md, (p, f, md, Err e) ∈ opens (bs_trace s0) → 0 < e) →
    ∀ e p f md, (p, f, md, Err e) ∈ opens (bs_trace s') → 0 < e) as Hpos.
  { clear E evs st s. set (pol := get_runtime_policy (build audit calls)).
    assert (∀ ev s0 st s', broker_step env pol ev s0 = (st, s') →
      (∀ e p f md, (p, f, md, Err e) ∈ opens (bs_trace s0) → 0 < e) →
      ∀ e p f md, (p, f, md, Err e) ∈ opens (bs_trace s') → 0 < e) as Hstep.
    { intros ev s0 st s' Es H0. unfold broker_step in Es.
      destruct (channel_recv _ _ _ _ _ _) as [r t'].
      assert (∀ m s1 o s2, dispatch env pol m s1 = (o, s2) →
        (∀ e p f md, (p, f, md, Err e) ∈ opens (bs_trace s1) → 0 < e) →
        ∀ e p f md, (p, f, md, Err e) ∈ opens (bs_trace s2) → 0 < e) as Hdis.
      { intros m s1 o s2 Ed H1 e p f md Hin. destruct m as [|path flags|]; simpl in Ed.
        - injection Ed as <- <-. by eapply H1.
        - unfold proxied_open_file in Ed.
          destruct (fst (evaluate_request pol (FileOpen path flags))).
          2-4: injection Ed as <- <-; simpl in Hin; rewrite opens_app, opens_log, app_nil_r in Hin;
            by eapply H1.
          destruct (contains _ _).
          { injection Ed as <- <-; simpl in Hin; rewrite opens_app, opens_log, app_nil_r in Hin.
            by eapply H1. }
          unfold sys_open in Ed. simpl in Ed.
          destruct (be_open env _ path flags) as [file|e'] eqn:Eo.
          + destruct (fd_install _ _ _) as [[n t2]|].
            * assert (bs_trace s2 = (bs_trace s1 ++ log_events pol (FileOpen path flags)) ++
                [BOpen path flags MODE_RW (Ok file)]) as Hs2.
              { destruct (handle_from_raw n); by injection Ed as <- <-. }
              rewrite Hs2, !opens_app, opens_log, app_nil_r, elem_of_app in Hin.
              destruct Hin as [Hin|Hin]; [by eapply H1|].
              apply elem_of_list_singleton in Hin. done.
            * injection Ed as <- <-. simpl in Hin.
              rewrite !opens_app, opens_log, app_nil_r, elem_of_app in Hin.
              destruct Hin as [Hin|Hin]; [by eapply H1|].
              apply elem_of_list_singleton in Hin. by injection Hin as -> -> -> ->.
          + injection Ed as <- <-. simpl in Hin.
            rewrite !opens_app, opens_log, app_nil_r, elem_of_app in Hin.
            destruct Hin as [Hin|Hin]; [by eapply H1|].
            apply elem_of_list_singleton in Hin. injection Hin as -> -> -> ->. by eapply Herr.
        - injection Ed as <- <-. simpl in Hin. rewrite opens_app, opens_log, app_nil_r in Hin.
          by eapply H1. }
      assert (∀ h s1 x, drop_handle h s1 = Done x → bs_trace x = bs_trace s1) as Hdrop.
      { intros [n|] s1 x; simpl; [|by intros [= <-]].
        destruct (handle_drop n (bs_tab s1)); by intros [= <-]. }
      destruct r as [[[m [n|]]|]|e].
      - destruct (drop_handle (Some n) _) as [x| |] eqn:Ex.
        + injection Es as <- <-. by rewrite (Hdrop _ _ _ Ex).
        + by injection Es as <- <-.
        + by injection Es as <- <-.
      - destruct (dispatch env pol m _) as [o s2] eqn:Ed. 
        pose proof (Hdis _ _ _ _ Ed H0) as Hd2.
        destruct o as [[code h]| |].
        2,3: by injection Es as <- <-.
        pose proof (broker_send_spec env (OutSyscallResult code) h s2) as (ev' & Hs2 & He).
        destruct (broker_send env (OutSyscallResult code) h s2) as [sent s3]. simpl in Hs2, He.
        assert (opens (bs_trace s3) = opens (bs_trace s2)) as Ho.
        { rewrite Hs2. simpl. rewrite opens_app.
          destruct sent; [destruct He as (d & -> & _)|rewrite He]; simpl; by rewrite app_nil_r. }
        destruct (drop_handle h s3) as [x| |] eqn:Ex.
        + injection Es as _ <-. rewrite (Hdrop _ _ _ Ex), Ho. done.
        + injection Es as _ <-. by rewrite Ho.
        + injection Es as _ <-. by rewrite Ho.
      - by injection Es as <- <-.
      - by injection Es as <- <-. }
    intros evs. induction evs as [|ev evs IH]; intros s0 st s'; simpl; [by intros [= <- <-]|].
    destruct (broker_step env pol ev s0) as [st1 s1] eqn:Es. intros El H0.
    pose proof (Hstep _ _ _ _ Es H0) as H1.
    destruct st1; [by eapply IH|by injection El as <- <-|by injection El as <- <-]. }
  specialize (Hpos evs (mkBst t []) st s E).
  pose proof (broker_loop_spec _ _ _ _ _ _ _ _ _ Hl (runtime_decides audit calls) E) as Hspec.
  destruct Hspec as (ms & segs & tail & Ht & Hms & Hsegs & Htail & _ & _ & Hst).
  simpl in Ht, Hsegs.
  assert (∀ ms segs, Forall2 (right_segment (be_abi env) t audit (rules_of calls)) ms segs →
    length (replies (concat segs)) = length ms ∧
    ∀ i bytes files, replies (concat segs) !! i = Some (bytes, files) →
      ∃ m seg code pre, ms !! i = Some m ∧ segs !! i = Some seg ∧
        seg = pre ++ [BSent bytes files] ∧ bytes = reply_bytes code ∧
        right_answer (be_abi env) t audit (rules_of calls) m (opens seg) code files) as Hrep.
  { clear. intros ms segs. induction 1 as [|m seg ms segs (pre & code & files & -> & Hr & Ha) _ [IH1 IH2]].
    - done.
    - simpl concat. rewrite replies_app, replies_app, Hr. simpl. split; [by rewrite IH1|].
      intros [|i] bytes fs; simpl.
      + intros [= <- <-]. exists m, (pre ++ [BSent (reply_bytes code) files]), code, pre. done.
      + intros Hi. apply IH2 in Hi as (m' & seg' & code' & pre' & H). eauto 10. }
  destruct (Hrep ms segs Hsegs) as [Hlen Hget].
  assert (replies (bs_trace s) = replies (concat segs)) as Hreps.
  { rewrite Ht, replies_app, Htail. by rewrite app_nil_r. }
  rewrite Hreps, Hlen. split_and!.
  - intros ->. apply Hst.
  - pose proof (Forall2_length _ _ _ Hms) as Hln. rewrite take_length in Hln. lia.
  - intros i bytes files Hi. apply Hget in Hi as (m & seg & code & pre & Hm & Hseg & Heq & Hb & Ha).
    destruct (Forall2_lookup_r _ _ _ _ _ Hms Hm) as (ev & Hev & Hpl).
    exists ev, m, code, (opens seg).
    assert (opens seg `sublist_of` opens (bs_trace s)) as Hsub.
    { rewrite Ht, opens_app. apply sublist_inserts_r.
      clear -Hseg. revert i Hseg. induction segs as [|x segs IH]; intros [|i]; simpl; [done|done| |].
      - intros [= <-]. rewrite opens_app. by apply sublist_inserts_r.
      - intros H. rewrite opens_app. apply sublist_inserts_l. by eapply IH. }
    assert (∀ e p f md, (p, f, md, Err e) ∈ opens seg → 0 < e) as Hp.
    { intros e p f md Hin. eapply Hpos; [set_solver|].
      by eapply elem_of_submseteq; [|by apply sublist_submseteq]. }
    rewrite lookup_take_Some in Hev. destruct Hev as [Hev _].
    split_and!; [done|done|done|done|done|done| |].
    + destruct m as [|path flags|]; simpl in Ha.
      * by destruct Ha as (_ & -> & ->).
      * destruct Ha as [(_ & _ & -> & ->)|(_ & res & Ho & Hres)]; [done|].
        destruct res as [file|e].
        -- destruct Hres as [-> Hat]. split; [|done]. intros ->.
           unfold attached in Hat. destruct (be_abi env); [by destruct Hat as (? & ? & _)|done].
        -- destruct Hres as [-> ->]. split; [|done]. intros _.
           assert (0 < e); [|lia]. eapply Hp. rewrite Ho. left.
      * by destruct Ha as (_ & -> & ->).
    + destruct m as [|path flags|]; simpl in Ha.
      * by destruct Ha as (_ & -> & _).
      * destruct Ha as [(_ & _ & -> & _)|(_ & res & Ho & Hres)]; [done|].
        destruct res as [file|e]; destruct Hres as [-> _]; lia.
      * by destruct Ha as (_ & -> & _).
Qed.
Print Assumptions C25_one_reply_each.

Example C25_example :
  env_ok ex_env ∧ (∀ tr p f e, be_open ex_env tr p f = Err e → 0 < e) ∧
  ex_run [dgram (ReqOpenFile (lit "/tmp/f") 0); dgram (ReqSyscall 1 [0;0;0;0;0;0]%Z 7);
          dgram ReqInitialization; EvDatagram (mkDgram (lit "zz") []); dgram ReqInitialization] =
  (Exited,
   [BOpen (lit "/tmp/f") 0 384 (Ok 42); BSent (reply_bytes 0) [42];
    BSent (reply_bytes (-38)) []; BSent (reply_bytes (-22)) []], [0; 1; 2]).
Proof.
  split; [unfold env_ok; simpl; lia|]. split; [|by vm_compute].
  intros tr p f e. unfold ex_env. simpl. destruct (bool_decide _); [done|]. by intros [= <-].
Qed.

(* ---------------------------------------------------------------- C26 *)

(** A forwarded system call, whatever its number and arguments and in audit mode too,
    is answered -ENOSYS and makes the broker do nothing but run log callbacks. *)
Theorem C26_syscalls_not_executed (env : benv) (audit : bool) (calls : list api_call) (ch : N)
  (pre : list sock_event) (ev : sock_event) (t : fdtab) (nb : Z) (args : list Z) (ip : Z) s :
  env_ok env →
  session env audit calls ch pre t = (Serving, s) →
  plain_request ev (ReqSyscall nb args ip) →
  ∃ st s' seg, session env audit calls ch (pre ++ [ev]) t = (st, s') ∧ st ≠ Crashed ∧
    bs_trace s' = bs_trace s ++ seg ∧ opens seg = [] ∧
    (st = Serving → replies seg = [(reply_bytes (-38), [])]) ∧
    (st ≠ Serving → replies seg = []).
Proof.
  intros Hl Hpre Hev. unfold session in *. rewrite broker_loop_app, Hpre. simpl.
  set (p := get_runtime_policy (build audit calls)) in *.
  assert (decides p audit (rules_of calls)) as Hd by apply runtime_decides.
  destruct (broker_step env p ev s) as [st s1] eqn:E.
  destruct (broker_step_spec env p _ _ ev s st s1 Hl Hd E) as (es & Ht & Hst).
  destruct st.
  - destruct Hst as (Htab & m & Hm & pre' & code & files & -> & Hr & Ha).
    assert (m = ReqSyscall nb args ip) as -> by (by eapply plain_request_fun).
    destruct Ha as (Ho & -> & ->).
    eexists _, _, _. split; [done|]. split; [done|]. split; [done|].
    split_and!; [done| |done]. intros _. by rewrite replies_app, Hr.
  - eexists Exited, _, es. split; [done|]. split; [done|]. split; [done|].
    destruct Hst as [[Hn _]|(m & Hm & Hr & _ & code & files & Ha)]; [by apply Hn in Hev|].
    assert (m = ReqSyscall nb args ip) as -> by (by eapply plain_request_fun).
    split_and!; [|done|done].
    destruct Ha as [(Ho & _)|(_ & path' & flags' & file & ? & _)]; done.
  - destruct Hst as (_ & _ & _ & path' & flags' & Hm & Hu & _).
    by assert (ReqSyscall nb args ip = ReqOpenFile path' flags') by (by eapply plain_request_fun).
Qed.
Print Assumptions C26_syscalls_not_executed.

Example C26_example :
  plain_request (dgram (ReqSyscall 59 [1;2;3;4;5;6]%Z 99)) (ReqSyscall 59 [1;2;3;4;5;6]%Z 99) ∧
  (let '(st, s) := session ex_env true [] 3 [dgram (ReqSyscall 59 [1;2;3;4;5;6]%Z 99)] ex_tab3 in
   (st, bs_trace s)) = (Serving, [BSent (reply_bytes (-38)) []]).
Proof.
  split; [|by vm_compute]. eexists _, []. split; [done|]. split; by vm_compute.
Qed.

(* ---------------------------------------------------------------- C27 *)

(** start_ipc_loop returns Ok only if the first datagram is a plain
    InitializationRequest; otherwise nothing is sent, opened or served. *)
Theorem C27_handshake_first (env : benv) (p : policy) (order : policy_order)
  (filter : result str N) (spawn_ok : bool) (ch : N) (ev : sock_event)
  (evs : list sock_event) (t : fdtab) o s :
  env_ok env →
  start_ipc_loop env p order filter spawn_ok ch (ev :: evs) (mkBst t []) = (o, s) →
  (plain_request ev ReqInitialization ∨
   ((∃ e, o = StErr e) ∧ bs_trace s = [])) ∧
  (∀ st, o = StOk st → plain_request ev ReqInitialization) ∧
  o ≠ StWaiting ∧ o ≠ StPanic.
Proof.
  intros Hl. unfold start_ipc_loop. simpl bs_tab. simpl bs_trace.
  destruct (channel_recv dec_request (be_abi env) (be_limit env) IPC_MESSAGE_MAX_SIZE ev t)
    as [r t'] eqn:Er.
  assert (∀ m n, r = Ok (Some (m, Some n)) → is_Some (t' !! n)) as Hopen.
  { intros m n ->. destruct ev as [d| |e]; [|done|done]. revert Er. simpl. unfold sys_recvmsg.
    destruct (install_files _ _ _ _) as [ns t1] eqn:Ei. simpl.
    apply install_files_spec in Ei as (_ & _ & Hns & _ & _ & Hins).
    destruct ns as [|k ns]; simpl.
    { destruct (_ || _); [done|]. destruct (Nat.eqb _ 0); [done|].
      by destruct (deserialize dec_request _). }
    unfold handle_from_raw. destruct (k <? 2 ^ 31); [|done].
    destruct (_ || _); [done|]. destruct (Nat.eqb _ 0); [done|].
    destruct (deserialize dec_request _); [|done]. intros [= _ <- <-].
    destruct (Hins 0%nat k eq_refl) as (f & _ & H). by eexists. }
  destruct r as [[[m [n|]]|]|e].
  - destruct (Hopen m n eq_refl) as [x Hx].
    assert (drop_handle (Some n) (mkBst t' []) = Done (mkBst (delete n t') [])) as Hdrop.
    { simpl. unfold handle_drop, sys_close. simpl. by rewrite Hx. }
    assert ((o, s) = (StErr UnexpectedWorkerMessage, mkBst (delete ch (delete n t')) []) →
      (plain_request ev ReqInitialization ∨ ((∃ e, o = StErr e) ∧ bs_trace s = [])) ∧
      (∀ st, o = StOk st → plain_request ev ReqInitialization) ∧
      o ≠ StWaiting ∧ o ≠ StPanic) as Hgo.
    { intros [= -> ->]. split_and!; try done. right. eauto. }
    intros H. apply Hgo. rewrite <-H. destruct m; by rewrite Hdrop.
  - apply recv_plain_inv in Er as Hpl; [|done]. destruct Hpl as [Hpl ->].
    destruct m as [|path flags|nb args ip].
    + destruct (broker_send _ _ _ _) as [[] s1] eqn:Es.
      2:{ intros [= <- <-]. split_and!; [by left|done|done|done]. }
      destruct spawn_ok.
      2:{ intros [= <- <-]. split_and!; [by left|done|done|done]. }
      destruct (broker_loop _ _ _ _ _) as [st s2]. intros [= <- <-].
      split_and!; [by left|done|done|done].
    + simpl. intros [= <- <-]. split_and!; try done. right. eauto.
    + simpl. intros [= <- <-]. split_and!; try done. right. eauto.
  - intros [= <- <-]. split_and!; try done. right. eauto.
  - intros [= <- <-]. split_and!; try done. right. eauto.
Qed.
Print Assumptions C27_handshake_first.

(** The answer to the handshake is the policy and the filter, and comes before
    anything else; an error means that no file was opened. *)
Theorem C27_answer (env : benv) (audit : bool) (calls : list api_call) (order : policy_order)
  (filter : result str N) (spawn_ok : bool) (ch : N) (evs : list sock_event) (t : fdtab) o s :
  env_ok env →
  start_ipc_loop env (get_runtime_policy (build audit calls)) order filter spawn_ok ch evs
    (mkBst t []) = (o, s) →
  (∀ st, o = StOk st → ∃ fl rest,
     (∀ b, filter = Ok b → fl = b) ∧ (∀ e, filter = Err e → fl = []) ∧
     bs_trace s = BSent (enc_response (OutInitialization order audit fl)) [] :: rest) ∧
  ((∀ st, o ≠ StOk st) → opens (bs_trace s) = []).
Proof.
  intros Hl. unfold start_ipc_loop. destruct evs as [|ev evs].
  { intros [= <- <-]. done. }
  simpl bs_tab. simpl bs_trace.
  destruct (channel_recv _ _ _ _ _ _) as [r t'] eqn:Er.
  assert (∀ m hd, (match drop_handle hd (mkBst t' []) with
     | Done s0 => (StErr UnexpectedWorkerMessage, mkBst (delete ch (bs_tab s0)) (bs_trace s0))
     | _ => (StPanic, mkBst t' []) end) = (o, s) → r = Ok (Some (m, hd)) →
    (∀ st, o ≠ StOk st) ∧ opens (bs_trace s) = []) as Hdrop.
  { intros m hd H _. destruct hd as [n|]; simpl in H.
    - destruct (handle_drop n t'); by injection H as <- <-.
    - by injection H as <- <-. }
  destruct r as [[[m hd]|]|e].
  2,3: intros [= <- <-]; done.
  destruct m as [|path flags|nb args ip].
  2,3: intros H; destruct (Hdrop _ _ H eq_refl) as [H1 H2]; split; [|done]; intros st Hst;
    by apply H1 in Hst.
  destruct hd as [n|].
  { intros H; destruct (Hdrop _ _ H eq_refl) as [H1 H2]; split; [|done]; intros st Hst;
    by apply H1 in Hst. }
  pose proof (broker_send_spec env (OutInitialization order
    (audit_only (get_runtime_policy (build audit calls)))
    match filter with Ok b => b | Err _ => [] end) None (mkBst t' [])) as (e & Hs & He).
  destruct (broker_send _ _ _ _) as [[] s1]; simpl in Hs, He; subst s1; simpl.
  2:{ intros [= <- <-]. subst e. done. }
  destruct He as (d & -> & Hd).
  destruct spawn_ok.
  2:{ intros [= <- <-]. done. }
  destruct (broker_loop _ _ _ _ _) as [st s2] eqn:El. intros [= <- <-].
  split; [|naive_solver]. intros st' _.
  rewrite build_audit in Hd.
  exists (match filter with Ok b => b | Err _ => [] end).
  pose proof (broker_loop_spec _ _ _ _ _ _ _ _ _ Hl (runtime_decides audit calls) El) as Hspec.
  destruct Hspec as (ms & segs & tail & Ht & _). simpl in Ht. rewrite Ht. eexists.
  split; [by intros b ->|]. split; [by intros b ->|]. f_equal.
  destruct (channel_send_payload _ _ _ _ _ _ _ _ Hd) as [-> _].
  by rewrite (channel_send_files _ _ _ _ _ _ _ _ Hd).
Qed.
Print Assumptions C27_answer.

Definition ex_order : policy_order :=
  mkOrder [] [(lit "/tmp", mkAccess true false false false false)] [].
Definition ex_start (evs : list sock_event) :=
  let '(o, s) := start_ipc_loop ex_env (get_runtime_policy (build false ex_policy_calls))
    ex_order (Ok [x01]) true 3 evs (mkBst ex_tab3 []) in (o, bs_trace s).
Example C27_example :
  ex_start [dgram ReqInitialization; dgram (ReqOpenFile (lit "/tmp/f") 0)] =
    (StOk Serving, [BSent (enc_response (OutInitialization ex_order false [x01])) [];
       BOpen (lit "/tmp/f") 0 384 (Ok 42); BSent (reply_bytes 0) [42]]) ∧
  ex_start [dgram (ReqOpenFile (lit "/tmp/f") 0); dgram ReqInitialization] =
    (StErr UnexpectedWorkerMessage, []) ∧
  ex_start [EvDatagram (mkDgram (enc_request ReqInitialization) [5])] =
    (StErr UnexpectedWorkerMessage, []) ∧
  ex_start [EvEof] = (StErr ProcessExitedDuringInitialization, []).
Proof. by vm_compute. Qed.

(* ---------------------------------------------------------------- C28 *)

(** An event that is not a plain request ends the session without any action, and
    nothing after it has any effect. *)
Theorem C28_bad_event_ends_session (env : benv) (audit : bool) (calls : list api_call) (ch : N)
  (pre post : list sock_event) (ev : sock_event) (t : fdtab) s :
  env_ok env →
  session env audit calls ch pre t = (Serving, s) →
  (∀ m, ¬ plain_request ev m) →
  ∃ s', session env audit calls ch (pre ++ ev :: post) t = (Exited, s') ∧
    bs_trace s' = bs_trace s ∧ bs_tab s' !! ch = None.
Proof.
  intros Hl Hpre Hbad. unfold session in *. rewrite broker_loop_app, Hpre. simpl.
  set (p := get_runtime_policy (build audit calls)) in *.
  assert (decides p audit (rules_of calls)) as Hd by apply runtime_decides.
  destruct (broker_step env p ev s) as [st s1] eqn:E.
  destruct (broker_step_spec env p _ _ ev s st s1 Hl Hd E) as (es & Ht & Hst).
  destruct st.
  - destruct Hst as (_ & m & Hm & _). by apply Hbad in Hm.
  - destruct Hst as [[_ ->]|(m & Hm & _)]; [|by apply Hbad in Hm].
    eexists. split; [done|]. simpl. rewrite Ht, app_nil_r. split; [done|].
    by rewrite lookup_delete.
  - destruct Hst as (_ & _ & _ & path & flags & Hm & _). by apply Hbad in Hm.
Qed.
Print Assumptions C28_bad_event_ends_session.

Example C28_example :
  (∀ m, ¬ plain_request (EvDatagram (mkDgram (enc_request ReqInitialization) [9])) m) ∧
  (∀ m, ¬ plain_request (EvDatagram (mkDgram (lit "garbage") [])) m) ∧
  ex_run [dgram ReqInitialization; EvDatagram (mkDgram (enc_request ReqInitialization) [9]);
          dgram (ReqOpenFile (lit "/tmp/f") 0)] =
    (Exited, [BSent (reply_bytes (-22)) []], [0; 1; 2]).
Proof.
  split_and!; [| |by vm_compute].
  - intros m (p & rest & [=] & _).
  - intros m (p & rest & [= <-] & _ & H). by vm_compute in H.
Qed.

(* ---------------------------------------------------------------- C29 *)

(** Full claim: no session makes the thread panic. It is false: a NUL byte in an
    allowed path. *)
Definition C29_claim : Prop :=
  ∀ env audit calls ch evs t, env_ok env → fst (session env audit calls ch evs t) ≠ Crashed.
Theorem C29_nul_path_refuted : ¬ C29_claim.
Proof.
  intros H.
  apply (H ex_env false ex_policy_calls 3 [dgram (ReqOpenFile (lit "/tmp/" ++ [x00]) 0)] ex_tab3).
  - unfold env_ok. simpl. lia.
  - by vm_compute.
Qed.
Print Assumptions C29_nul_path_refuted.

(** It is the only way: a session panics only on an allowed path with a NUL byte.
    Missing for the full claim: such paths. *)
Theorem C29_no_other_panic_partial (env : benv) (audit : bool) (calls : list api_call) (ch : N)
  (evs : list sock_event) (t : fdtab) :
  env_ok env →
  (∀ ev path flags, ev ∈ evs → plain_request ev (ReqOpenFile path flags) → x00 ∉ path) →
  fst (session env audit calls ch evs t) ≠ Crashed.
Proof.
  intros Hl Hno. unfold session. destruct (broker_loop _ _ _ _ _) as [st s'] eqn:E. simpl.
  intros ->.
  pose proof (broker_loop_spec _ _ _ _ _ _ _ _ _ Hl (runtime_decides audit calls) E) as Hspec.
  destruct Hspec as (ms & segs & tail & _ & _ & _ & _ & _ & _ & _ & _ & path & flags & ev & Hev & Hpl & _ & Hn).
  eapply Hno; [|done|done]. by eapply elem_of_list_lookup_2.
Qed.
Print Assumptions C29_no_other_panic_partial.

(** With an enforcing policy, any allowed directory is enough to crash the thread from
    the worker, at any moment. *)
Theorem C29_worker_can_crash_broker (env : benv) (calls : list api_call) (ch : N)
  (pre : list sock_event) (t : fdtab) (path : str) (ev : sock_event) (flags : Z) s :
  env_ok env →
  session env false calls ch pre t = (Serving, s) →
  plain_request ev (ReqOpenFile path flags) → x00 ∈ path →
  should_grant (rules_of calls) path flags →
  fst (session env false calls ch (pre ++ [ev]) t) = Crashed.
Proof.
  intros Hl Hpre Hev Hn Hg. unfold session in *. rewrite broker_loop_app, Hpre. simpl.
  unfold broker_step. rewrite (recv_plain _ _ _ _ _ Hev).
  unfold dispatch, proxied_open_file.
  assert (fst (evaluate_request (get_runtime_policy (build false calls)) (FileOpen path flags)) = Granted)
    as ->.
  { apply (decides_verdict _ false (rules_of calls)); [apply runtime_decides|by right]. }
  by rewrite (proj2 (contains_nul path)).
Qed.
Print Assumptions C29_worker_can_crash_broker.

Example C29_example :
  plain_request (dgram (ReqOpenFile (lit "/tmp/" ++ [x00]) 0)) (ReqOpenFile (lit "/tmp/" ++ [x00]) 0) ∧
  x00 ∈ lit "/tmp/" ++ [x00] ∧
  should_grant (rules_of ex_policy_calls) (lit "/tmp/" ++ [x00]) 0.
Proof.
  split_and!.
  - eexists _, []. split; [done|]. split; by vm_compute.
  - apply elem_of_app. right. left.
  - rewrite <-(build_granted false). by vm_compute.
Qed.

(* ---------------------------------------------------------------- C30 *)

(** As long as the session lasts, the broker's descriptor table is what it was at the
    start; so nothing opened for the worker stays. *)
Theorem C30_table_unchanged (env : benv) (audit : bool) (calls : list api_call) (ch : N)
  (evs : list sock_event) (t : fdtab) s :
  env_ok env → session env audit calls ch evs t = (Serving, s) → bs_tab s = t.
Proof.
  intros Hl E.
  pose proof (broker_loop_spec _ _ _ _ _ _ _ _ _ Hl (runtime_decides audit calls) E) as Hspec.
  destruct Hspec as (ms & segs & tail & _ & _ & _ & _ & _ & _ & _ & _ & H). done.
Qed.
Print Assumptions C30_table_unchanged.

(** When it ends only the channel is gone, if the worker never attached two
    descriptors to one message (on i686: in any case). *)
Theorem C30_table_at_exit_partial (env : benv) (audit : bool) (calls : list api_call) (ch : N)
  (evs : list sock_event) (t : fdtab) st s :
  env_ok env →
  (be_abi env = Abi32 ∨ ∀ d, EvDatagram d ∈ evs → (length (dg_files d) ≤ 1)%nat) →
  session env audit calls ch evs t = (st, s) → st ≠ Serving →
  bs_tab s = delete ch t.
Proof.
  intros Hl Ha E Hst. unfold session in E.
  assert (decides (get_runtime_policy (build audit calls)) audit (rules_of calls)) as Hd
    by apply runtime_decides.
  revert E. change t with (bs_tab (mkBst t [])) at 2. generalize (mkBst t []).
  induction evs as [|ev evs IH]; intros s0; simpl; [by intros [= <- <-]|].
  destruct (broker_step env _ ev s0) as [st1 s1] eqn:Es.
  destruct (broker_step_spec env _ audit _ ev s0 st1 s1 Hl Hd Es) as (es & _ & Hspec).
  destruct st1.
  - intros H. apply IH in H.
    + by destruct Hspec as [<- _].
    + destruct Ha as [Ha|Ha]; [by left|right]. intros d Hin. apply Ha. by right.
  - intros [= <- <-]. simpl. f_equal. eapply step_exit_tab; [done|done| |done].
    destruct Ha as [Ha|Ha]; [by left|right]. intros d ->. apply Ha. left.
  - intros [= <- <-]. simpl. f_equal. apply Hspec.
Qed.
Print Assumptions C30_table_at_exit_partial.

(** Full claim at the end of a session, false on x86_64: the second descriptor of a
    datagram stays open in the broker. *)
Definition C30_exit_claim (a : abi) : Prop :=
  ∀ env audit calls ch evs t st s, be_abi env = a → env_ok env →
    session env audit calls ch evs t = (st, s) → st ≠ Serving → bs_tab s = delete ch t.
Definition ex_env64 : benv :=
  mkBenv Abi64 (be_limit ex_env) (be_sndbuf ex_env) (be_open ex_env) (be_send ex_env).
Theorem C30_x86_64_refuted : ¬ C30_exit_claim Abi64.
Proof.
  intros H.
  assert (bs_tab (snd (session ex_env64 false [] 3 [EvDatagram (mkDgram (lit "x") [7; 8])] ex_tab3))
    !! 5 = delete 3 ex_tab3 !! 5) as Hx.
  { f_equal.
    eapply (H ex_env64 false [] 3 [EvDatagram (mkDgram (lit "x") [7; 8])] ex_tab3);
      [done|unfold env_ok; simpl; lia|apply surjective_pairing|by vm_compute]. }
  by vm_compute in Hx.
Qed.
Print Assumptions C30_x86_64_refuted.

Example C30_example :
  ex_run [dgram (ReqOpenFile (lit "/tmp/f") 0); dgram (ReqOpenFile (lit "/tmp/f") 0)] =
  (Serving,
   [BOpen (lit "/tmp/f") 0 384 (Ok 42); BSent (reply_bytes 0) [42];
    BOpen (lit "/tmp/f") 0 384 (Ok 42); BSent (reply_bytes 0) [42]], [0; 1; 3; 2]) ∧
  (snd (session ex_env false ex_policy_calls 3 [EvEof] ex_tab3)).(bs_tab) !! 3 = None.
Proof. by vm_compute. Qed.
