(** Properties C31-C33: several threads trap at the same time. *)
From stdpp Require Import prelude gmap.
From Coq Require Import Strings.Byte ZifyN ZifyNat ZifyBool.
From Verif Require Import Bytes PolicyModel PolicySpec LinuxPolicyModel LinuxPolicySpec
  LinuxPolicyProofs PostcardModel PostcardSpec PostcardProofs FdModel ChannelModel ChannelProofs
  BrokerModel BrokerSpec BrokerProofs BrokerProps WorkerModel WorkerSpec WorkerProofs
  ThreadsModel ThreadsProofs.

(** [replies_alone sv b ms rs]: a server in state [b] that gets the requests [ms] one
    after the other answers [rs]. *)
Inductive replies_alone {Q R} (sv : server Q R) : sv_state sv → list Q → list R → Prop :=
  | RA_nil b : replies_alone sv b [] []
  | RA_cons b m ms r b' rs :
      sv_serve sv b m = (r, b') → replies_alone sv b' ms rs →
      replies_alone sv b (m :: ms) (r :: rs).

(** No thread is in the signal handler. *)
Definition all_done {Q R} {sv : server Q R} (s : tstate sv) : Prop :=
  ∀ t st, ts_stacks s !! t = Some st → st = [].

(** The broker of BrokerModel.v as a server. *)
Definition broker_server (env : benv) (p : policy) (t : fdtab) : server ipc_request sock_event :=
  mkServer bstate (mkBst t [])
    (λ s m, let '(st, s') := broker_step env p (EvDatagram (mkDgram (enc_request m) [])) s in
            (reply_event st (bs_trace s'), s')).

(* A server for examples: it numbers the requests. *)
Definition ex_sv : server nat (nat * nat) := mkServer nat 0 (λ b m, ((b, m), S b)).

(* ---------------------------------------------------------------- C31 *)

Lemma serve_all_alone {Q R} (sv : server Q R) b ms : replies_alone sv b ms (serve_all b ms).
Proof.
  revert b. induction ms as [|m ms IH]; intros b; simpl; [constructor|].
  destruct (sv_serve sv b m) as [r b'] eqn:E. econstructor; [done|]. apply IH.
Qed.

Lemma replies_alone_cons {Q R} (sv : server Q R) b m ms r rs :
  replies_alone sv b (m :: ms) (r :: rs) →
  ∃ b', sv_serve sv b m = (r, b') ∧ replies_alone sv b' ms rs.
Proof. inversion 1; subst. eauto. Qed.

(** The k-th reply goes to the thread that sent the k-th request, and is what the
    broker answers to that request after the ones before it; a request without a reply
    is the last one and its sender still waits. *)
Theorem C31_own_reply {Q R} (sv : server Q R) (anywhere : bool) (threads : nat) (s : tstate sv) :
  reachable anywhere threads s →
  (∃ tail, ts_sent s = (ts_recvd s).*1 ++ tail ∧
     (tail = [] ∨ ∃ t m todo st i, tail = [(t, m)] ∧
        ts_stacks s !! t = Some st ∧ st !! i = Some (Wait m todo))) ∧
  replies_alone sv (sv_init sv) (ts_recvd s).*1.*2 (ts_recvd s).*2.
Proof.
  intros H. apply reachable_inv in H as [I1 I2 I3 I4 I5 I6]. split.
  - destruct (ts_mutex s) as [o|] eqn:Em.
    + destruct (I2 o eq_refl) as (i & f & (st & Hst & Hi) & Hl & Hu).
      destruct f as [| |m todo|m todo]; try done.
      * exists []. rewrite app_nil_r. split; [|by left]. apply I3.
        intros t' i' m' todo' Hat. destruct (Hu _ _ _ Hat I) as [-> ->].
        by pose proof (frame_at_fun _ _ _ _ _ Hat (ex_intro _ st (conj Hst Hi))).
      * exists [(o, m)]. split; [eapply I4; by exists st|]. right. by exists o, m, todo, st, i.
    + exists []. rewrite app_nil_r. split; [|by left]. apply I3.
      intros t i m todo Hat. by destruct (I1 eq_refl _ _ _ Hat).
  - rewrite I5. apply serve_all_alone.
Qed.
Print Assumptions C31_own_reply.

(** With the real broker: each reply that arrived is the right answer to the request of
    the thread that got it. *)
Theorem C31_broker_answers (env : benv) (audit : bool) (calls : list api_call) (tab : fdtab)
  (anywhere : bool) (threads : nat)
  (s : tstate (broker_server env (get_runtime_policy (build audit calls)) tab)) :
  env_ok env → (∀ tr, be_send env tr = None) → (15 ≤ be_sndbuf env)%N →
  (∀ t m, (t, m) ∈ ts_sent s → request_ok m ∧ fits m ∧
     ∀ path flags, m = ReqOpenFile path flags → x00 ∉ path) →
  reachable anywhere threads s →
  ∀ t m r, (t, m, r) ∈ ts_recvd s →
  ∃ os code files, r = EvDatagram (mkDgram (reply_bytes code) files) ∧
    right_answer (be_abi env) tab audit (rules_of calls) m os code files.
Proof.
  intros Hl Hsend Hsb Hgood Hr t m r Hin.
  destruct (C31_own_reply _ _ _ _ Hr) as [(tail & Hsent & _) Hra].
  assert (∀ t m, (t, m) ∈ (ts_recvd s).*1 → request_ok m ∧ fits m ∧
     ∀ path flags, m = ReqOpenFile path flags → x00 ∉ path) as Hgood'.
  { intros t' m' H. apply (Hgood t'). rewrite Hsent. apply elem_of_app. by left. }
  clear Hgood Hsent Hr.
  revert Hin Hgood' Hra. generalize (ts_recvd s) as l.
  assert (bs_tab (sv_init (broker_server env (get_runtime_policy (build audit calls)) tab)) = tab)
    as Htab by done.
  revert Htab.
  generalize (sv_init (broker_server env (get_runtime_policy (build audit calls)) tab)) as b.
  intros b Htab l. generalize dependent b. induction l as [|[[t0 m0] r0] l IH]; intros b Htab Hin Hgood Hra.
  { by apply elem_of_nil in Hin. }
  destruct (replies_alone_cons _ _ _ _ _ _ Hra) as (b' & Hs & Hrest).
  assert (bs_tab b' = bs_tab b ∧ ∃ os code files, r0 = EvDatagram (mkDgram (reply_bytes code) files) ∧
    right_answer (be_abi env) (bs_tab b) audit (rules_of calls) m0 os code files) as [Hb' H0].
  { destruct (Hgood t0 m0) as (Hok & Hfit & Hnul); [left|].
    assert (plain_request (EvDatagram (mkDgram (enc_request m0) [])) m0) as Hplain.
    { eexists _, []. split; [done|]. split; [done|].
      rewrite <-(app_nil_r (enc_request m0)). by apply request_roundtrip. }
    pose proof (runtime_decides audit calls) as Hdec.
    destruct (broker_serves env _ audit (rules_of calls) m0 b _ Hl Hdec Hplain Hnul Hsend Hsb)
      as [s' Es].
    simpl in Hs. rewrite Es in Hs. injection Hs as <- <-.
    destruct (broker_step_spec _ _ _ _ _ _ _ _ Hl Hdec Es) as (seg & Ht & Htab' & m' & Hm' & Hseg).
    assert (m' = m0) as -> by (by eapply plain_request_fun).
    destruct Hseg as (pre & code & files & -> & Hpre & Hans).
    split; [done|]. exists (opens (pre ++ [BSent (reply_bytes code) files])), code, files.
    split; [|done]. unfold reply_event. by rewrite Ht, app_assoc, last_snoc. }
  apply elem_of_cons in Hin as [[= -> -> ->]|Hin]; [by rewrite <-Htab|].
  eapply (IH b'); [congruence|done| |done].
  intros t' m' Hin'. apply (Hgood t'). by right.
Qed.
Print Assumptions C31_broker_answers.

(* ---------------------------------------------------------------- C32 *)

(** Claim C32: threads and broker can always go on until no thread is in the handler. *)
Definition C32_claim (anywhere : bool) : Prop :=
  ∀ Q R (sv : server Q R) threads (s : tstate sv), reachable anywhere threads s →
    all_done s ∨ ∃ s', work s s'.

(** If no trap hits a thread inside [send_recv], the claim holds, and the threads and
    the broker finish after finitely many steps, whatever the order, unless calls keep
    trapping. *)
Theorem C32_completes_partial :
  C32_claim false ∧
  ∀ Q R (sv : server Q R) threads (s : tstate sv), reachable false threads s →
    ∃ bound, (∀ k s', nsteps work k s s' → k ≤ bound) ∧
      (∀ s', rtc work s s' → (∃ s'', work s' s'') ∨
         all_done s' ∧ ts_mutex s' = None ∧ ts_sent s' = (ts_recvd s').*1).
Proof.
  assert (∀ Q R (sv : server Q R) threads (s : tstate sv), reachable false threads s →
    all_done s ∨ ∃ s', work s s') as Hprog.
  { intros Q R sv threads s H.
    pose proof (reachable_inv _ _ _ H) as HI. pose proof (reachable_tidy _ _ H) as HT.
    destruct (decide (Forall (λ st, length st = 0) (ts_stacks s))) as [Ha|Ha].
    - left. intros t st Hst. apply nil_length_inv.
      by apply (Forall_lookup_1 _ _ _ _ Ha Hst).
    - right. apply not_Forall_Exists in Ha; [|intros x; apply _].
      apply Exists_exists in Ha as (st & Hin & Hne).
      apply elem_of_list_lookup in Hin as [t Ht].
      destruct st as [|f st]; [by destruct Hne|].
      eapply (progress s t 0 f HI HT). by exists (f :: st). }
  split; [exact Hprog|].
  intros Q R sv threads s H. exists (measure s). split.
  - intros k s' Hk. assert (k + measure s' ≤ measure s); [|lia].
    induction Hk as [|k x y z Hw _ IH]; [done|].
    assert (reachable false threads y) as Hy.
    { eapply rtc_r; [exact H|by apply S_work]. }
    specialize (IH Hy). apply work_measure in Hw. lia.
  - intros s' Hs'. assert (reachable false threads s') as Hr.
    { eapply rtc_transitive; [exact H|]. by apply rtc_work_step. }
    destruct (Hprog _ _ _ _ _ Hr) as [Hd|Hw]; [|by left]. right. split; [done|].
    assert (∀ t i f, ¬ frame_at s' t i f) as Hno.
    { intros t i f (st & Hst & Hi). by rewrite (Hd _ _ Hst) in Hi. }
    apply reachable_inv in Hr as [I1 I2 I3 I4 I5 I6]. split.
    + destruct (ts_mutex s') as [o|] eqn:E; [|done].
      destruct (I2 o eq_refl) as (i & f & Hat & _). by destruct (Hno _ _ _ Hat).
    + apply I3. intros t i m todo Hat. by destruct (Hno _ _ _ Hat).
Qed.
Print Assumptions C32_completes_partial.

(** A signal handler of the program that runs while its thread holds the channel's
    lock, and makes a call that traps, blocks its thread for ever, and no thread
    receives a reply any more. *)
Theorem C32_nested_trap_refuted :
  ¬ C32_claim true ∧
  ∀ Q R (sv : server Q R) threads (m m' : Q), 0 < threads →
    ∃ s : tstate sv, reachable true threads s ∧
      ∀ s', rtc (step true) s s' →
        ts_mutex s' = Some 0 ∧ ts_recvd s' = [] ∧
        ∃ st, ts_stacks s' !! 0 = Some st ∧ st !! 0 = Some (Hold m []).
Proof.
  assert (∀ Q R (sv : server Q R) threads (m m' : Q), 0 < threads →
    ∃ s : tstate sv, reachable true threads s ∧
      stuck s 0 0 (Hold m []) m' [] ∧ ts_recvd s = [] ∧ ts_to_broker s = [] ∧
      (threads = 1 → ts_stacks s = [[Hold m []; Want m' []]])) as Hreach.
  { intros Q R sv [|n] m m' Hn; [lia|].
    set (others := replicate n ([] : list (frame Q))).
    eexists (mkTs ([Hold m []; Want m' []] :: others) _ _ (Some 0) [] [] (sv_init sv) [] []).
    split.
    { unfold reachable. eapply rtc_l.
      { apply (S_trap true (ts_init sv (S n)) 0 [] [m]); done. }
      simpl. eapply rtc_l.
      { apply S_work. eapply (W_want _ 0 [] m []). done. }
      eapply rtc_l.
      { apply S_work. eapply (W_lock _ 0 [] m []); done. }
      eapply rtc_l.
      { apply (S_trap true _ 0 [Hold m []] [m']); done. }
      eapply rtc_l.
      { apply S_work. eapply (W_want _ 0 [Hold m []] m' []). done. }
      simpl. apply rtc_refl. }
    split; [|split; [done|split; [done|]]].
    - split; [done|]. split; [by eexists|]. split; [done|]. by eexists.
    - intros [= ->]. done. }
  split.
  - intros H. destruct (Hreach nat (nat * nat)%type ex_sv 1 0 0) as (s & Hr & Hst & _ & Hb & Hone); [lia|].
    specialize (Hone eq_refl).
    destruct (H _ _ _ _ _ Hr) as [Hd|[s' W]].
    + specialize (Hd 0 _ ltac:(by rewrite Hone)). done.
    + destruct Hst as (Hm & _).
      inversion W; subst; try congruence;
      (match goal with H1 : ts_stacks _ !! ?t = Some (?st ++ [?f]) |- _ =>
         rewrite Hone in H1; destruct t as [|t]; simpl in H1; [|by destruct t];
         injection H1 as H1; destruct st as [|? [|? [|? ?]]]; simpl in H1; congruence
       end).
  - intros Q R sv threads m m' Hn.
    destruct (Hreach Q R sv threads m m' Hn) as (s & Hr & Hst & Hrv & _). exists s. split; [done|].
    intros s' Hs'.
    assert (stuck s' 0 0 (Hold m []) m' [] ∧ ts_recvd s' = []) as [(Hm & (st & ? & ?) & _) Hrv'].
    { assert (inv s) as HI by (by eapply reachable_inv). clear Hr.
      revert HI Hst Hrv. induction Hs' as [|x y z Hxy _ IH]; [done|].
      intros HI Hst Hrv. destruct (stuck_step _ _ _ _ _ _ _ HI Hst Hxy) as [Hst' Hrv'].
      apply IH; [by eapply inv_step|done|congruence]. }
    split; [done|]. split; [done|]. by exists st.
Qed.
Print Assumptions C32_nested_trap_refuted.

(* ---------------------------------------------------------------- C33 *)

(** Claim C33: a second activation of the handler on one thread stops the worker. *)
Definition C33_claim (anywhere : bool) : Prop :=
  ∀ Q R (sv : server Q R) threads (s : tstate sv), reachable anywhere threads s →
    ∀ t st, ts_stacks s !! t = Some st → 2 ≤ length st → ts_panicked s = true.

(** The flag is never set, so the check never fires. *)
Theorem C33_guard_refuted :
  (∀ anywhere, ¬ C33_claim anywhere) ∧
  ∀ Q R (sv : server Q R) anywhere threads (s : tstate sv), reachable anywhere threads s →
    ts_panicked s = false ∧ ∀ t, ts_flag s t = false.
Proof.
  split.
  - intros anywhere H.
    assert (∃ s : tstate ex_sv, reachable anywhere 1 s ∧
      ts_stacks s = [[Run [1]; Run [2]]] ∧ ts_panicked s = false) as (s & Hr & Hs & Hp).
    { eexists. split.
      - unfold reachable. eapply rtc_l.
        { apply (S_trap anywhere (ts_init ex_sv 1) 0 [] [1]); done. }
        eapply rtc_l.
        { apply (S_trap anywhere _ 0 [Run [1]] [2]); done. }
        apply rtc_refl.
      - done. }
    pose proof (H _ _ _ _ _ Hr 0 [Run [1]; Run [2]] ltac:(by rewrite Hs) ltac:(simpl; lia)).
    congruence.
  - intros Q R sv anywhere threads s H. apply reachable_inv in H as [_ _ _ _ _ [Hf Hp]]. done.
Qed.
Print Assumptions C33_guard_refuted.

(* ---------------------------------------------------------------- examples *)

(** Thread 1 gets the lock before thread 0; each gets its own reply. *)
Definition ex_final (s : tstate ex_sv) : Prop :=
  ts_stacks s = [[]; []] ∧ ts_recvd s = [(1, 8, (0, 8)); (0, 7, (1, 7))] ∧ ts_mutex s = None.
Example C31_example : ∃ s, reachable false 2 s ∧ ex_final s.
Proof.
  eexists. split.
  - unfold reachable.
    eapply rtc_l. { apply (S_trap false (ts_init ex_sv 2) 0 [] [7]); done. }
    simpl. eapply rtc_l. { apply S_work. apply (W_want _ 0 [] 7 []). done. }
    simpl. eapply rtc_l. { apply (S_trap false _ 1 [] [8]); done. }
    simpl. eapply rtc_l. { apply S_work. apply (W_want _ 1 [] 8 []). done. }
    simpl. eapply rtc_l. { apply S_work. apply (W_lock _ 1 [] 8 []); done. }
    simpl. eapply rtc_l. { apply S_work. apply (W_send _ 1 [] 8 []); done. }
    simpl. eapply rtc_l. { apply S_work. apply (W_serve (sv := ex_sv) _ 8 [] (0, 8) 1); done. }
    simpl. eapply rtc_l. { apply S_work. apply (W_recv _ 1 [] 8 [] (0, 8) []); done. }
    simpl. eapply rtc_l. { apply S_work. apply (W_lock _ 0 [] 7 []); done. }
    simpl. eapply rtc_l. { apply S_work. apply (W_send _ 0 [] 7 []); done. }
    simpl. eapply rtc_l. { apply S_work. apply (W_return _ 1 []); done. }
    simpl. eapply rtc_l. { apply S_work. apply (W_serve (sv := ex_sv) _ 7 [] (1, 7) 2); done. }
    simpl. eapply rtc_l. { apply S_work. apply (W_recv _ 0 [] 7 [] (1, 7) []); done. }
    simpl. eapply rtc_l. { apply S_work. apply (W_return _ 0 []); done. }
    apply rtc_refl.
  - done.
Qed.

(** The same state without the nested trap goes on: the lock holder sends. *)
Example C32_example :
  (∃ s' : tstate ex_sv,
     work (mkTs (sv := ex_sv) [[Hold 7 []]; [Want 8 []]] (λ _, false) false (Some 0) [] [] 0 [] []) s') ∧
  ¬ ∃ s' : tstate ex_sv,
     work (mkTs (sv := ex_sv) [[Hold 7 []; Want 9 []]; [Want 8 []]] (λ _, false) false (Some 0) [] [] 0 [] []) s'.
Proof.
  split; [eexists; by apply (W_send _ 0 [] 7 [])|].
  intros [s' W]. inversion W as [? t st m todo H|? t st m todo H Hm|? t st m todo H|
    ? t st m todo ? ? H|? t st H|]; subst; simpl in *; try congruence;
    destruct t as [|[|t]]; simpl in H; try done; injection H as H;
    (destruct st as [|? [|? [|? ?]]]; simpl in H; congruence).
Qed.

(** Handling one trap (request 1), the thread traps again (request 2): both activations
    run to the end and nothing stops the worker. *)
Example C33_example : ∃ s : tstate ex_sv, reachable false 1 s ∧
  ts_stacks s = [[]] ∧ ts_recvd s = [(0, 2, (0, 2)); (0, 1, (1, 1))] ∧ ts_panicked s = false.
Proof.
  eexists. split.
  - unfold reachable.
    eapply rtc_l. { apply (S_trap false (ts_init ex_sv 1) 0 [] [1]); done. }
    simpl. eapply rtc_l. { apply (S_trap false _ 0 [Run [1]] [2]); done. }
    simpl. eapply rtc_l. { apply S_work. apply (W_want _ 0 [Run [1]] 2 []). done. }
    simpl. eapply rtc_l. { apply S_work. apply (W_lock _ 0 [Run [1]] 2 []); done. }
    simpl. eapply rtc_l. { apply S_work. apply (W_send _ 0 [Run [1]] 2 []); done. }
    simpl. eapply rtc_l. { apply S_work. apply (W_serve (sv := ex_sv) _ 2 [] (0, 2) 1); done. }
    simpl. eapply rtc_l. { apply S_work. apply (W_recv _ 0 [Run [1]] 2 [] (0, 2) []); done. }
    simpl. eapply rtc_l. { apply S_work. apply (W_return _ 0 [Run [1]]); done. }
    simpl. eapply rtc_l. { apply S_work. apply (W_want _ 0 [] 1 []). done. }
    simpl. eapply rtc_l. { apply S_work. apply (W_lock _ 0 [] 1 []); done. }
    simpl. eapply rtc_l. { apply S_work. apply (W_send _ 0 [] 1 []); done. }
    simpl. eapply rtc_l. { apply S_work. apply (W_serve (sv := ex_sv) _ 1 [] (1, 1) 2); done. }
    simpl. eapply rtc_l. { apply S_work. apply (W_recv _ 0 [] 1 [] (1, 1) []); done. }
    simpl. eapply rtc_l. { apply S_work. apply (W_return _ 0 []); done. }
    apply rtc_refl.
  - done.
Qed.
