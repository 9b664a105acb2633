(** Completing a policy from what an audit run logged: C165. README.md:2 ("inventory which
    resources their program needs"), policy/src/policy.rs:46-50, policy/src/linux/policy.rs:27-39.
    The code is that of BrokerModel and LinuxPolicyModel. *)
From stdpp Require Import prelude gmap.
From Verif Require Import Bytes BytesProofs PolicyModel PolicySpec PolicyProofs LinuxPolicyModel
  LinuxPolicySpec LinuxPolicyProofs LinuxPolicyProps PostcardModel PostcardProofs FdModel
  ChannelModel BrokerModel BrokerSpec BrokerProofs BrokerProps.
Local Open Scope N_scope.

(* ---------------------------------------------------------------- specification *)

(** The rules a developer adds for a refused open: by flag bits (0 write only, 1 read-write,
    6 create, 7 exclusive, 9 truncate, 10 append, 21 path only). *)
Definition reads (flags : Z) : bool := Z.testbit flags 21 || negb (Z.testbit flags 0).
Definition writes (flags : Z) : bool :=
  negb (Z.testbit flags 21) &&
  (Z.testbit flags 0 || Z.testbit flags 1 || Z.testbit flags 6 || Z.testbit flags 7 ||
   Z.testbit flags 9 || Z.testbit flags 10).
Definition rules_for (path : str) (flags : Z) : list rule :=
  (if reads flags then [AllowFileRead path] else []) ++
  (if writes flags then [AllowFileWrite path] else []).
(** Those for everything callback [cb] was told is refused. *)
Definition told (cb : N) (e : bevent) : list rule :=
  match e with
  | BCallback c (FileOpen path flags) v =>
      if decide (c = cb ∧ v ≠ Granted) then rules_for path flags else []
  | _ => []
  end.
Definition inventory (cb : N) (tr : list bevent) : list rule := concat (map (told cb) tr).
(** The policy calls of the next run. *)
Definition completed (calls : list api_call) (cb : N) (tr : list bevent) : list api_call :=
  calls ++ map CallRule (inventory cb tr).

(** What happened, callbacks aside. *)
Definition is_callback (e : bevent) : bool :=
  match e with BCallback _ _ _ => true | _ => false end.
Definition quiet (tr : list bevent) : list bevent := filter (λ e, is_callback e = false) tr.
(** The kernel does not see the callbacks. *)
Definition blind (env : benv) : Prop :=
  (∀ tr path flags, be_open env tr path flags = be_open env (quiet tr) path flags) ∧
  ∀ tr, be_send env tr = be_send env (quiet tr).
(** Two runs do the same: end, descriptors, opens, replies. *)
Definition same_run (a b : bstatus * bstate) : Prop :=
  fst a = fst b ∧ bs_tab (snd a) = bs_tab (snd b) ∧
  quiet (bs_trace (snd a)) = quiet (bs_trace (snd b)).

(** Full statement: enforcing the completed policy is like the audit run it came from. *)
Definition C165_full : Prop :=
  ∀ env calls cb ch evs t,
    env_ok env → blind env → cb ∈ callbacks_of calls →
    same_run (session env true calls ch evs t)
      (session env false
        (completed calls cb (bs_trace (snd (session env true calls ch evs t)))) ch evs t).

(** Requests rules can be written for. *)
Definition grantable (path : str) (flags : Z) : Prop :=
  supported_flags flags ∧ ∃ cs, canonical cs ∧ names slash path cs.

(* ---------------------------------------------------------------- rules *)

Lemma reads_spec flags : needs_read flags → reads flags = true.
Proof.
  unfold needs_read, reads, path_only, bit. intros [_ H].
  destruct (Z.testbit flags 0); [done|]. apply orb_true_r.
Qed.
Lemma writes_spec flags : writes flags = true ↔ needs_write flags.
Proof.
  unfold needs_write, writes, path_only, bit.
  destruct (Z.testbit flags 21), (Z.testbit flags 0), (Z.testbit flags 1), (Z.testbit flags 6),
    (Z.testbit flags 7), (Z.testbit flags 9), (Z.testbit flags 10); cbn; naive_solver.
Qed.
Lemma reads_or_writes flags : reads flags = true ∨ writes flags = true.
Proof.
  unfold reads, writes. destruct (Z.testbit flags 21); [by left|].
  destruct (Z.testbit flags 0); [by right|by left].
Qed.
Lemma elem_inventory cb tr r :
  r ∈ inventory cb tr ↔
  ∃ path flags v, BCallback cb (FileOpen path flags) v ∈ tr ∧ v ≠ Granted ∧
    r ∈ rules_for path flags.
Proof.
  unfold inventory. rewrite elem_of_list_In, in_concat. split.
  - intros (l & Hl & Hr). apply elem_of_list_In, elem_of_list_fmap in Hl as (e & -> & He).
    apply elem_of_list_In in Hr. destruct e as [c [path flags|] v| | |]; cbn [told] in Hr;
      try (by apply elem_of_nil in Hr).
    destruct (decide (c = cb ∧ v ≠ Granted)) as [[-> Hv]|]; [|by apply elem_of_nil in Hr].
    by exists path, flags, v.
  - intros (path & flags & v & He & Hv & Hr). exists (rules_for path flags).
    split; [|by apply elem_of_list_In]. apply elem_of_list_In, elem_of_list_fmap.
    exists (BCallback cb (FileOpen path flags) v). split; [|done]. cbn [told].
    by rewrite decide_True.
Qed.
Lemma rules_of_completed calls cb tr :
  rules_of (completed calls cb tr) = rules_of calls ++ inventory cb tr.
Proof.
  unfold completed. rewrite rules_of_app. f_equal. unfold rules_of.
  induction (inventory cb tr) as [|r l IH]; [done|]. cbn. by f_equal.
Qed.
Lemma elem_rules_for path flags r :
  r ∈ rules_for path flags ↔
  (r = AllowFileRead path ∧ reads flags = true) ∨ (r = AllowFileWrite path ∧ writes flags = true).
Proof.
  unfold rules_for. rewrite elem_of_app.
  destruct (reads flags), (writes flags); rewrite ?elem_of_list_singleton, ?elem_of_nil; naive_solver.
Qed.

(** The rules for a request are enough for it, if any are. *)
Lemma enough h path flags :
  grantable path flags → (∀ r, r ∈ rules_for path flags → r ∈ h) → should_grant h path flags.
Proof.
  intros [Hs (cs & Hc & Hn)] Hh. split; [done|]. exists cs. split; [done|]. split; [done|].
  assert (reads flags = true → entitled h cs RRead) as Hr.
  { intros Hr. exists (AllowFileRead path). split; [|split; [|done]].
    - apply Hh, elem_rules_for. by left.
    - left. split; [by intros []|done]. }
  assert (writes flags = true → entitled h cs RWrite) as Hw.
  { intros Hw. exists (AllowFileWrite path). split; [|split; [|done]].
    - apply Hh, elem_rules_for. by right.
    - left. split; [by intros []|done]. }
  split; [|split].
  - destruct (reads_or_writes flags); auto.
  - intros Hx. by apply Hr, reads_spec.
  - intros Hx. by apply Hw, writes_spec.
Qed.

(* ---------------------------------------------------------------- runs *)

Definition rel (s1 s2 : bstate) : Prop :=
  bs_tab s1 = bs_tab s2 ∧ quiet (bs_trace s1) = quiet (bs_trace s2).
Lemma quiet_app a b : quiet (a ++ b) = quiet a ++ quiet b.
Proof. apply filter_app. Qed.
Lemma quiet_log p req : quiet (log_events p req) = [].
Proof.
  unfold log_events. induction (snd (evaluate_request p req)) as [|[[c r] v] l IH]; [done|].
  cbn [map]. unfold quiet in *. by rewrite filter_cons_False by done.
Qed.
Lemma rel_trace t1 t2 l1 l2 a b :
  t1 = t2 → quiet l1 = quiet l2 → quiet a = quiet b → rel (mkBst t1 (l1 ++ a)) (mkBst t2 (l2 ++ b)).
Proof. intros -> H1 H2. split; [done|]. cbn [bs_trace]. rewrite !quiet_app. by f_equal. Qed.

Lemma rel_dispatch env p1 p2 m s1 s2 :
  blind env → rel s1 s2 → audit_only p1 = true →
  (∀ path flags, m = ReqOpenFile path flags →
    fst (evaluate_request p2 (FileOpen path flags)) = Granted) →
  fst (dispatch env p1 m s1) = fst (dispatch env p2 m s2) ∧
  rel (snd (dispatch env p1 m s1)) (snd (dispatch env p2 m s2)).
Proof.
  intros [Ho _] [Ht Hq] Ha Hg. destruct m as [|path flags|nb args ip].
  - done.
  - cbn [dispatch]. unfold proxied_open_file. rewrite (Hg _ _ eq_refl).
    assert (fst (evaluate_request p1 (FileOpen path flags)) = Granted) as ->.
    { unfold evaluate_request. cbn [fst]. by rewrite Ha. }
    assert (quiet (bs_trace s1 ++ log_events p1 (FileOpen path flags)) =
      quiet (bs_trace s2 ++ log_events p2 (FileOpen path flags))) as Hq'.
    { by rewrite !quiet_app, !quiet_log, Hq. }
    destruct (contains [x00] path).
    { split; [done|]. by split. }
    unfold sys_open. cbn [bs_trace bs_tab]. rewrite Ho, Hq', <-Ho, Ht.
    destruct (be_open env _ path flags) as [file|e].
    + destruct (fd_install _ _ (bs_tab s2)) as [[n t]|].
      * destruct (handle_from_raw n); (split; [done|]); by apply rel_trace.
      * split; [done|]. by apply rel_trace.
    + split; [done|]. by apply rel_trace.
  - split; [done|]. cbn [dispatch proxied_syscall snd]. apply rel_trace; [done..|].
    by rewrite !quiet_log.
Qed.
Lemma rel_send env m h s1 s2 :
  blind env → rel s1 s2 →
  fst (broker_send env m h s1) = fst (broker_send env m h s2) ∧
  rel (snd (broker_send env m h s1)) (snd (broker_send env m h s2)).
Proof.
  intros [_ Hs] [Ht Hq]. unfold broker_send. rewrite Hs, Hq, <-Hs, Ht.
  destruct (be_send env (bs_trace s2)); [split; [done|]; by apply rel_trace|].
  destruct (channel_send _ _ _ _ _ _ _); (split; [done|]); by apply rel_trace.
Qed.
Lemma rel_drop h s1 s2 :
  rel s1 s2 →
  match drop_handle h s1, drop_handle h s2 with
  | Done a, Done b => rel a b
  | Failed, Failed | Panicked, Panicked => True
  | _, _ => False
  end.
Proof.
  intros [Ht Hq]. destruct h as [n|]; [|by split]. cbn [drop_handle]. rewrite Ht.
  destruct (handle_drop n (bs_tab s2)); [|done..]. by split.
Qed.

(** The request an iteration serves. *)
Definition serves (env : benv) (ev : sock_event) (s : bstate) (m : ipc_request) : Prop :=
  fst (channel_recv dec_request (be_abi env) (be_limit env) IPC_MESSAGE_MAX_SIZE ev (bs_tab s)) =
  Ok (Some (m, None)).
Lemma serves_plain env ev s m : env_ok env → serves env ev s m → plain_request ev m.
Proof.
  unfold serves. intros Hl. destruct (channel_recv _ _ _ _ _ _) as [r t] eqn:E. cbn [fst]. intros ->.
  apply recv_plain_inv in E as [H _]; [done|done].
Qed.

Lemma rel_step env p1 p2 ev s1 s2 :
  blind env → rel s1 s2 → audit_only p1 = true →
  (∀ path flags, serves env ev s1 (ReqOpenFile path flags) →
    fst (evaluate_request p2 (FileOpen path flags)) = Granted) →
  fst (broker_step env p1 ev s1) = fst (broker_step env p2 ev s2) ∧
  rel (snd (broker_step env p1 ev s1)) (snd (broker_step env p2 ev s2)).
Proof.
  intros Hb Hr Ha Hg. pose proof Hr as [Ht Hq]. unfold serves in Hg. unfold broker_step.
  rewrite <-Ht. destruct (channel_recv _ _ _ _ _ _) as [r t]. cbn [fst] in Hg.
  assert (rel (mkBst t (bs_trace s1)) (mkBst t (bs_trace s2))) as Hr1 by done.
  destruct r as [[[m [n|]]|]|e].
  - pose proof (rel_drop (Some n) _ _ Hr1) as Hd. revert Hd.
    destruct (drop_handle (Some n) (mkBst t (bs_trace s1))),
      (drop_handle (Some n) (mkBst t (bs_trace s2))); by intros.
  - destruct (rel_dispatch env p1 p2 m _ _ Hb Hr1 Ha) as [He Hr2].
    { intros path flags ->. by apply Hg. }
    destruct (dispatch env p1 m (mkBst t (bs_trace s1))) as [o1 a1],
      (dispatch env p2 m (mkBst t (bs_trace s2))) as [o2 a2]. cbn [fst snd] in He, Hr2. subst o2.
    destruct o1 as [[code h]| |]; [|by split..].
    destruct (rel_send env (OutSyscallResult code) h a1 a2 Hb Hr2) as [He2 Hr3].
    destruct (broker_send env _ h a1) as [b1 c1], (broker_send env _ h a2) as [b2 c2].
    cbn [fst snd] in He2, Hr3. subst b2. pose proof (rel_drop h _ _ Hr3) as Hd. revert Hd.
    destruct (drop_handle h c1), (drop_handle h c2); by intros.
  - by split.
  - by split.
Qed.

(** The log is complete. *)
Lemma step_logs env p ev s cb path flags :
  cb ∈ log_callbacks p → serves env ev s (ReqOpenFile path flags) →
  BCallback cb (FileOpen path flags) (check_file_open p path flags) ∈
    bs_trace (snd (broker_step env p ev s)).
Proof.
  intros Hcb. unfold serves, broker_step.
  destruct (channel_recv _ _ _ _ _ _) as [r t]. cbn [fst]. intros ->.
  assert (BCallback cb (FileOpen path flags) (check_file_open p path flags) ∈
    log_events p (FileOpen path flags)) as Hl.
  { unfold log_events, evaluate_request, log_verdict. cbn [snd raw_verdict].
    rewrite map_map. apply elem_of_list_fmap. by exists cb. }
  assert (BCallback cb (FileOpen path flags) (check_file_open p path flags) ∈
    bs_trace (snd (dispatch env p (ReqOpenFile path flags) (mkBst t (bs_trace s))))) as Hd.
  { cbn [dispatch]. unfold proxied_open_file, sys_open. cbn [bs_trace bs_tab].
    destruct (fst (evaluate_request p (FileOpen path flags)));
      [|cbn [snd bs_trace]; apply elem_of_app; by right..].
    destruct (contains [x00] path); [cbn [snd bs_trace]; apply elem_of_app; by right|].
    destruct (be_open env _ path flags) as [file|e].
    - destruct (fd_install _ _ t) as [[n t']|]; [destruct (handle_from_raw n)|];
        cbn [snd bs_trace]; rewrite !elem_of_app; by left; right.
    - cbn [snd bs_trace]; rewrite !elem_of_app; by left; right. }
  destruct (dispatch env p _ _) as [[[code h]| |] a]; [|done..]. cbn [snd] in Hd.
  destruct (broker_send_spec env (OutSyscallResult code) h a) as (e & Hs & _).
  destruct (broker_send env _ h a) as [b c]. cbn [snd] in Hs. subst c.
  unfold drop_handle. destruct h as [n|]; [|cbn [snd bs_trace]; apply elem_of_app; by left].
  destruct (handle_drop n _); cbn [snd bs_trace]; apply elem_of_app; by left.
Qed.
Lemma step_callbacks env p ev s cb path flags v :
  env_ok env →
  BCallback cb (FileOpen path flags) v ∈ bs_trace (snd (broker_step env p ev s)) →
  BCallback cb (FileOpen path flags) v ∈ bs_trace s ∨
  plain_request ev (ReqOpenFile path flags) ∧ v = check_file_open p path flags.
Proof.
  intros Hl. unfold broker_step.
  destruct (channel_recv _ _ _ _ _ _) as [r t] eqn:Er.
  assert (∀ h a, match drop_handle h a with Done b => bs_trace b = bs_trace a | _ => True end) as Hdrop.
  { intros [n|] a; [|done]. cbn [drop_handle]. by destruct (handle_drop n (bs_tab a)). }
  destruct r as [[[m [n|]]|]|e]; [| |by left..].
  { intros H. left. specialize (Hdrop (Some n) (mkBst t (bs_trace s))).
    destruct (drop_handle (Some n) (mkBst t (bs_trace s))); cbn [snd bs_trace] in H; [|done..].
    by rewrite Hdrop in H. }
  apply recv_plain_inv in Er as [Hp ->]; [|done].
  assert (BCallback cb (FileOpen path flags) v ∈
      bs_trace (snd (dispatch env p m (mkBst (bs_tab s) (bs_trace s)))) →
    BCallback cb (FileOpen path flags) v ∈ bs_trace s ∨
    plain_request ev (ReqOpenFile path flags) ∧ v = check_file_open p path flags) as Hd.
  { intros H. assert (∀ req, BCallback cb (FileOpen path flags) v ∈ log_events p req →
      req = FileOpen path flags ∧ v = raw_verdict p req) as Hlog.
    { intros req Hin. unfold log_events, evaluate_request, log_verdict in Hin. cbn [snd] in Hin.
      rewrite map_map in Hin. apply elem_of_list_fmap in Hin as (c & [= -> <- ->] & _). done. }
    destruct m as [|path' flags'|nb args ip]; cbn [dispatch] in H; [by left| |].
    - assert (BCallback cb (FileOpen path flags) v ∈
        bs_trace s ++ log_events p (FileOpen path' flags')) as H'.
      { revert H. unfold proxied_open_file, sys_open. cbn [bs_trace bs_tab].
        destruct (fst (evaluate_request p (FileOpen path' flags'))); [|done..].
        destruct (contains [x00] path'); [done|].
        destruct (be_open env _ path' flags') as [file|e].
        - destruct (fd_install _ _ (bs_tab s)) as [[n t']|]; [destruct (handle_from_raw n)|];
            cbn [snd bs_trace]; rewrite !elem_of_app, elem_of_list_singleton; naive_solver.
        - cbn [snd bs_trace]; rewrite !elem_of_app, elem_of_list_singleton; naive_solver. }
      apply elem_of_app in H' as [?|H']; [by left|]. apply Hlog in H' as [[= -> ->] ->]. by right.
    - cbn [snd proxied_syscall bs_trace] in H.
      apply elem_of_app in H as [?|H]; [by left|]. by apply Hlog in H as [? _]. }
  destruct (dispatch env p m _) as [[[code h]| |] a]; cbn [snd] in Hd; [|done..].
  destruct (broker_send_spec env (OutSyscallResult code) h a) as (e & Hs & He).
  destruct (broker_send env _ h a) as [b c]. cbn [snd fst] in Hs, He. subst c.
  intros H. apply Hd. specialize (Hdrop h (mkBst (bs_tab a) (bs_trace a ++ [e]))).
  assert (BCallback cb (FileOpen path flags) v ∈ bs_trace a ++ [e]) as H'.
  { revert H Hdrop. destruct (drop_handle h _) as [x| |]; cbn [snd bs_trace]; [|done..].
    by intros H <-. }
  apply elem_of_app in H' as [?|H']; [done|]. apply elem_of_list_singleton in H'. subst e.
  destruct b; [by destruct He as (? & ? & _)|done].
Qed.
Lemma loop_extends env p audit h ch evs s st s' e :
  env_ok env → decides p audit h → broker_loop env p ch evs s = (st, s') →
  e ∈ bs_trace s → e ∈ bs_trace s'.
Proof.
  intros Hl Hd E He.
  destruct (broker_loop_spec env p audit h ch evs s st s' Hl Hd E) as (ms & segs & tail & -> & _).
  apply elem_of_app. by left.
Qed.

Lemma rel_loop env p1 p2 h cb ch evs : ∀ s1 s2,
  env_ok env → blind env → rel s1 s2 → decides p1 true h → cb ∈ log_callbacks p1 →
  (∀ ev path flags, ev ∈ evs → plain_request ev (ReqOpenFile path flags) →
    BCallback cb (FileOpen path flags) (check_file_open p1 path flags) ∈
      bs_trace (snd (broker_loop env p1 ch evs s1)) →
    fst (evaluate_request p2 (FileOpen path flags)) = Granted) →
  fst (broker_loop env p1 ch evs s1) = fst (broker_loop env p2 ch evs s2) ∧
  rel (snd (broker_loop env p1 ch evs s1)) (snd (broker_loop env p2 ch evs s2)).
Proof.
  induction evs as [|ev evs IH]; intros s1 s2 Hl Hb Hr Hd Hcb Hg; [done|].
  cbn [broker_loop] in Hg |- *.
  assert (∀ path flags, serves env ev s1 (ReqOpenFile path flags) →
    fst (evaluate_request p2 (FileOpen path flags)) = Granted) as Hg1.
  { intros path flags Hs. apply (Hg ev); [by left|by apply (serves_plain _ _ _ _ Hl) in Hs|].
    pose proof (step_logs env p1 ev s1 cb path flags Hcb Hs) as Hin. revert Hin.
    destruct (broker_step env p1 ev s1) as [[] s']; cbn [snd bs_trace]; [|done..].
    destruct (broker_loop env p1 ch evs s') as [st s''] eqn:E. intros Hin.
    exact (loop_extends _ _ _ _ _ _ _ _ _ _ Hl Hd E Hin). }
  destruct (rel_step env p1 p2 ev s1 s2 Hb Hr (proj1 Hd) Hg1) as [He Hr'].
  destruct (broker_step env p1 ev s1) as [st1 a1], (broker_step env p2 ev s2) as [st2 a2].
  cbn [fst snd] in He, Hr'. subst st2. destruct st1.
  - apply IH; [done..|]. intros ev' path flags Hev Hp Hin. apply (Hg ev'); [by right|done|done].
  - split; [done|]. destruct Hr' as [Ht Hq]. split; [cbn; by rewrite Ht|done].
  - split; [done|]. destruct Hr' as [Ht Hq]. split; [cbn; by rewrite Ht|done].
Qed.

(** PARTIAL: when every request is one that rules can be written for (supported flags, a
    canonical path). Then one audit run with one log callback is enough: enforced, the completed
    policy gives the same opens, the same replies and the same end. *)
Theorem C165_partial env calls cb ch evs t :
  env_ok env → blind env → cb ∈ callbacks_of calls →
  (∀ ev path flags, ev ∈ evs → plain_request ev (ReqOpenFile path flags) → grantable path flags) →
  same_run (session env true calls ch evs t)
    (session env false
      (completed calls cb (bs_trace (snd (session env true calls ch evs t)))) ch evs t).
Proof.
  intros Hl Hb Hcb Hok. unfold same_run.
  set (tr := bs_trace (snd (session env true calls ch evs t))).
  pose proof (runtime_decides true calls) as Hd1.
  pose proof (runtime_decides false (completed calls cb tr)) as Hd2.
  apply (rel_loop env _ _ (rules_of calls) cb ch evs); [done..| |].
  - cbn. by rewrite build_callbacks.
  - intros ev path flags Hev Hp Hin. apply (decides_verdict _ _ _ _ _ Hd2). right.
    rewrite rules_of_completed.
    destruct (decide (check_file_open (get_runtime_policy (build true calls)) path flags = Granted))
      as [E|E].
    + apply Hd1 in E. eapply should_grant_mono; [|exact E]. intros r Hr.
      apply elem_of_app. by left.
    + apply enough; [by apply (Hok ev)|]. intros r Hr. apply elem_of_app. right.
      apply elem_inventory. by exists path, flags, (check_file_open
        (get_runtime_policy (build true calls)) path flags).
Qed.
Print Assumptions C165_partial.

(** The added rules give nothing that was not asked for and refused: every right that the
    completed policy has on a path and the first had not is one a refused request of the run
    needs on that very path. *)
Theorem C165_minimal env calls cb ch evs t cs x :
  env_ok env →
  entitled (rules_of (completed calls cb (bs_trace (snd (session env true calls ch evs t))))) cs x →
  entitled (rules_of calls) cs x ∨
  ∃ ev path flags, ev ∈ evs ∧ plain_request ev (ReqOpenFile path flags) ∧ names slash path cs ∧
    ¬ should_grant (rules_of calls) path flags ∧
    ((x = RRead ∧ (needs_read flags ∨ path_only flags)) ∨ (x = RWrite ∧ needs_write flags)).
Proof.
  intros Hl (r & Hr & Hc & Hx). rewrite rules_of_completed in Hr.
  apply elem_of_app in Hr as [Hr|Hr]; [left; by exists r|right].
  apply elem_inventory in Hr as (path & flags & v & Hin & Hv & Hr).
  unfold session in Hin. pose proof (runtime_decides true calls) as Hd.
  set (p := get_runtime_policy (build true calls)) in *. clearbody p.
  assert (∀ evs s, BCallback cb (FileOpen path flags) v ∈ bs_trace (snd (broker_loop env p ch evs s)) →
    BCallback cb (FileOpen path flags) v ∈ bs_trace s ∨
    ∃ ev, ev ∈ evs ∧ plain_request ev (ReqOpenFile path flags) ∧ v = check_file_open p path flags)
    as Hall.
  { clear Hin evs. intros evs. induction evs as [|ev evs IH]; intros s; [by left|].
    cbn [broker_loop].
    assert (∀ s', snd (broker_step env p ev s) = s' →
      BCallback cb (FileOpen path flags) v ∈ bs_trace s' →
      BCallback cb (FileOpen path flags) v ∈ bs_trace s ∨
      plain_request ev (ReqOpenFile path flags) ∧ v = check_file_open p path flags) as Hstep.
    { intros s' <- Hin'. apply step_callbacks in Hin' as [?|[H1 H2]]; [by left|right|done].
      by split. }
    destruct (broker_step env p ev s) as [[] s'] eqn:E; cbn [snd bs_trace].
    - intros H. apply IH in H as [H|(ev' & H1 & H2)].
      + destruct (Hstep s' eq_refl H) as [?|[H1 H2]]; [by left|right]. exists ev. by split; [left|].
      + right. exists ev'. by split; [right|].
    - intros H. destruct (Hstep s' eq_refl H) as [?|[H1 H2]]; [by left|right]. exists ev.
      by split; [left|].
    - intros H. destruct (Hstep s' eq_refl H) as [?|[H1 H2]]; [by left|right]. exists ev.
      by split; [left|]. }
  apply Hall in Hin as [Hin|(ev & Hev & Hp & ->)]; [by apply elem_of_nil in Hin|].
  exists ev, path, flags. split; [done|]. split; [done|].
  apply elem_rules_for in Hr as [[-> Hr]|[-> Hr]].
  - destruct Hc as [[_ Hn]|[[] _]]. destruct x; try done. split; [done|].
    split; [by rewrite <-(proj2 Hd)|]. left. split; [done|]. unfold reads in Hr.
    unfold needs_read, path_only, bit. destruct (Z.testbit flags 21); [by right|]. left.
    by destruct (Z.testbit flags 0).
  - destruct Hc as [[_ Hn]|[[] _]]. destruct x; try done. split; [done|].
    split; [by rewrite <-(proj2 Hd)|]. right. split; [done|]. by apply writes_spec.
Qed.
Print Assumptions C165_minimal.

(* ---------------------------------------------------------------- what rules cannot help *)

(** No rules at all let a request through whose flags are not supported or whose path is not
    canonical, though the audit run serves it. *)
Theorem C165_hopeless calls path flags :
  ¬ grantable path flags ↔
  ∀ more, ¬ should_grant (rules_of (calls ++ more)) path flags.
Proof.
  split.
  - intros Hn more (Hs & cs & Hc & Hm & _). apply Hn. split; [done|]. by exists cs.
  - intros H Hg. apply (H (map CallRule (rules_for path flags))). apply enough; [done|].
    intros r Hr. rewrite rules_of_app. apply elem_of_app. right. apply elem_rules_of.
    by apply elem_of_list_fmap_1.
Qed.
Print Assumptions C165_hopeless.

Definition nonblock_open : list sock_event := [dgram (ReqOpenFile (lit "/tmp/f") 2048)].
Definition log_calls : list api_call := [CallAddLogCallback 7].
(** O_NONBLOCK. *)
Theorem C165_refuted : ¬ C165_full.
Proof.
  intros H. unfold C165_full in H. specialize (H ex_env log_calls 7 3 nonblock_open ex_tab3).
  destruct H as (_ & _ & H); [by vm_compute|by split|by left|]. by vm_compute in H.
Qed.
Print Assumptions C165_refuted.
(** A file named from the working directory: the audit run opens it, and no policy does. *)
Theorem C165_relative_refuted :
  ∃ env evs, env_ok env ∧ blind env ∧
    opens (bs_trace (snd (session env true log_calls 3 evs ex_tab3))) =
      [(lit "config", 0%Z, 384%Z, Ok 42)] ∧
    ∀ calls, opens (bs_trace (snd (session env false calls 3 evs ex_tab3))) = [].
Proof.
  set (env := mkBenv Abi32 1024 200000 (λ _ _ _, Ok 42) (λ _, None)).
  exists env, [dgram (ReqOpenFile (lit "config") 0)].
  assert (env_ok env) as Hl by (by vm_compute).
  split; [done|]. split; [by split|]. split; [by vm_compute|]. intros calls.
  destruct (C24_denied_no_effect env calls 3 [] (dgram (ReqOpenFile (lit "config") 0)) ex_tab3
    (lit "config") 0 (mkBst ex_tab3 [])) as (st & s' & seg & E & _ & Ht & Ho & _); [done..| | |].
  - exists (enc_request (ReqOpenFile (lit "config") 0)), [].
    split; [done|]. split; by vm_compute.
  - intros (_ & cs & Hc & Hn & _).
    assert (path_is_sane (lit "config") = true) as H by (apply path_is_sane_spec; by exists cs).
    by vm_compute in H.
  - cbn [app] in E. rewrite E. cbn [snd]. by rewrite Ht.
Qed.
Print Assumptions C165_relative_refuted.

Example C165_example :
  let evs := [dgram (ReqOpenFile (lit "/tmp/f") 0); dgram (ReqOpenFile (lit "/tmp/g") 577)] in
  let audit := session ex_env true log_calls 3 evs ex_tab3 in
  inventory 7 (bs_trace (snd audit)) =
    [AllowFileRead (lit "/tmp/f"); AllowFileWrite (lit "/tmp/g")] ∧
  opens (bs_trace (snd (session ex_env false
    (completed log_calls 7 (bs_trace (snd audit))) 3 evs ex_tab3))) =
    [(lit "/tmp/f", 0%Z, 384%Z, Ok 42); (lit "/tmp/g", 577%Z, 384%Z, Err 2)] ∧
  opens (bs_trace (snd (session ex_env false log_calls 3 evs ex_tab3))) = [].
Proof. split; [by vm_compute|]. split; by vm_compute. Qed.
