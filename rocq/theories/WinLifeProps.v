(** Workers on Windows: C128 (Worker::new returns a worker that has started) and C129 (the
    broker notices that a worker has ended). *)
From stdpp Require Import prelude gmap.
From Coq Require Import Strings.Byte.
From Verif Require Import Bytes PolicyModel PolicySpec WinPolicyModel WinPolicySpec FdModel
  EntryModel ProcessModel PostcardModel TrampolineModel BrokerModel WinBrokerModel WinBrokerSpec
  WinBrokerProofs WinBrokerProps WinProcessModel WinProcessProps WinStartModel WinStartProps
  WinLifeModel.
Local Open Scope N_scope.

(* ---------------------------------------------------------------- C128 *)

(** The worker asked for its policy and got it. *)
Definition started (o : policy_order) (audit : bool) (rds : list wread) (tr : list wevent) : Prop :=
  ∃ rd rds' tr', rds = rd :: rds' ∧ plain_read rd WReqInit ∧ tr = WSent (init_reply o audit) :: tr'.

(** Full statement, as Worker::new has it on Linux (C53): a worker it returns has started.
    [rds] is what the pipe gives in the end; without any message, not even the end of the
    pipe, the call would not return. *)
Definition C128_full : Prop := ∀ fuel env we o c audit calls s rds t w r,
  senv_ok env → wenv_ok we → rds ≠ [] →
  win_worker_run fuel env we o c (win_build audit calls) s rds t = Some (Ok w, r) →
  ∃ st s', r = Some (st, s') ∧ started o audit rds (ws_trace s').

Lemma run_ok fuel env we o c p s rds t w r :
  senv_ok env → win_worker_run fuel env we o c p s rds t = Some (Ok w, r) →
  ∃ s' h1 hr, win_worker_new fuel env c p s = Some (Ok w, s') ∧
    ss_threads s' = ss_threads s ++ [mkBth h1 (Some hr) (get_runtime_policy p)] ∧
    r = Some (win_thread we (get_runtime_policy p) o h1 (Some hr) rds (mkWst t [])).
Proof.
  intros Hp. unfold win_worker_run.
  destruct (win_worker_new fuel env c p s) as [[[w'|e] s']|] eqn:E; [|done|done].
  intros [= -> <-]. destruct (C112_thread _ _ _ _ _ _ _ Hp E) as (P & h1 & hr & q & _ & Ht & _).
  exists s', h1, hr. rewrite Ht, last_snoc. done.
Qed.

(** Partial: a thread that serves has started its worker; whatever its messages, nothing
    is sent or called for a worker before that. *)
Theorem C128_serving_partial fuel env we o c audit calls s rds t w r :
  senv_ok env → wenv_ok we →
  win_worker_run fuel env we o c (win_build audit calls) s rds t = Some (Ok w, r) →
  ∃ st s', r = Some (st, s') ∧
    (st = WServing → rds = [] ∨ started o audit rds (ws_trace s')) ∧
    (started o audit rds (ws_trace s') ∨
     (sends_of (ws_trace s') = [] ∧ calls_of (ws_trace s') = [])).
Proof.
  intros Hp Hw H. destruct (run_ok _ _ _ _ _ _ _ _ _ _ _ Hp H) as (s1 & h1 & hr & _ & _ & ->).
  destruct (win_thread we _ o h1 (Some hr) rds (mkWst t [])) as [st s'] eqn:E.
  exists st, s'. split; [done|].
  destruct st.
  - destruct (C86_in_order we audit calls o h1 (Some hr) rds t s' Hw E) as (_ & Hl & [->|Hs]).
    + cbn [win_thread] in E. injection E as <-. split; [by left|]. by right.
    + destruct Hs as (rd & rds' & ms & segs & -> & Hrd & _ & _ & Htr).
      assert (started o audit (rd :: rds') (ws_trace s')) as Hs by (exists rd, rds'; eauto).
      split; [by right|by left].
  - split; [done|].
    destruct (C86_ended we audit calls o h1 (Some hr) rds t _ s' Hw E) as (rd & rds' & -> & Hc); [done|].
    destruct Hc as [[H1 H2]|(Hrd & ms & segs & last & es & _ & _ & _ & Htr & _)]; [by right|].
    left. exists rd, rds'. eauto.
  - split; [done|].
    destruct (C86_ended we audit calls o h1 (Some hr) rds t _ s' Hw E) as (rd & rds' & -> & Hc); [done|].
    destruct Hc as [[H1 H2]|(Hrd & ms & segs & last & es & _ & _ & _ & Htr & _)]; [by right|].
    left. exists rd, rds'. eauto.
Qed.
Print Assumptions C128_serving_partial.

(** Whenever Worker::new returns a worker, it returns the same if that worker ends at
    once, or sends anything else first: the thread ends, and nobody is told. *)
Theorem C128_lost_refuted fuel env we o c audit calls s rds t w r rd rds' :
  senv_ok env → wenv_ok we →
  win_worker_run fuel env we o c (win_build audit calls) s rds t = Some (Ok w, r) →
  ¬ plain_read rd WReqInit →
  ∃ s', win_worker_run fuel env we o c (win_build audit calls) s (rd :: rds') t =
          Some (Ok w, Some (WExited, s')) ∧
    sends_of (ws_trace s') = [] ∧ calls_of (ws_trace s') = [].
Proof.
  intros Hp Hw H Hrd. destruct (run_ok _ _ _ _ _ _ _ _ _ _ _ Hp H) as (s1 & h1 & hr & E & Ht & _).
  unfold win_worker_run. rewrite E, Ht, last_snoc. cbn [bt_policy bt_pipe bt_remote].
  destruct (win_thread we _ o h1 (Some hr) (rd :: rds') (mkWst t [])) as [st s'] eqn:Et.
  destruct (win_thread_spec _ _ _ _ _ _ _ _ _ Hw Et) as
    [(? & _)|(rd1 & rds1 & [= <- <-] & [(es & Hes & -> & ->)|[(h & Hh & -> & ->)|(? & _)]])];
    [done| | |done].
  - eexists. split; [done|]. destruct Hes as [->|[_ ?]]; [|done]. done.
  - eexists. split; [done|]. done.
Qed.
Print Assumptions C128_lost_refuted.

Lemma ex_started : ∃ w r,
  win_worker_run 6 (se_with good_env (λ _ _, Some 77) true) (ex_env 0 (Some 9)) no_order some_config
    (win_build false []) broker0 [] ∅ = Some (Ok w, r).
Proof.
  assert (option_map fst (win_worker_run 6 (se_with good_env (λ _ _, Some 77) true) (ex_env 0 (Some 9))
    no_order some_config (win_build false []) broker0 [] ∅) =
    Some (Ok (mkWp 900 308 (Some (lit "IrisAppContainer_4242_1"))))) as H by (vm_compute; reflexivity).
  destruct (win_worker_run _ _ _ _ _ _ _ _ _) as [[r st]|]; cbn [option_map fst] in H; [|discriminate H].
  injection H as ->. by eexists _, _.
Qed.
Theorem C128_refuted : ¬ C128_full.
Proof.
  intros H. destruct ex_started as (w & r & E).
  destruct (C128_lost_refuted _ _ _ _ _ _ _ _ _ _ _ _ RdBroken [] (se_with_ok _ _ _)
    (ex_env_ok _ _) E) as (s' & E' & Hs & _).
  { intros (b & rest & ? & _). done. }
  assert ([RdBroken] ≠ []) as Hne by done.
  destruct (H _ _ _ _ _ _ _ _ _ _ _ _ (se_with_ok _ _ _) (ex_env_ok _ _) Hne E') as (st & s1 & [= <- <-] & Hst).
  destruct Hst as (rd & rds' & tr' & _ & _ & Htr). rewrite Htr in Hs. done.
Qed.
Print Assumptions C128_refuted.

(* A worker that starts and asks, and one that ends at once. *)
Example C128_example :
  let run rds := win_worker_run 6 (se_with good_env (λ _ _, Some 77) true) (ex_env 0 (Some 9)) no_order
    some_config (win_build false []) broker0 rds ∅ in
  let seen x := (match x.1 with Ok w => Some (wp_pid w) | Err _ => None end,
                 option_map (λ y, (y.1, length (sends_of (ws_trace y.2)))) x.2) in
  seen <$> run [ex_init; ex_read (WReqFile 0x80000000 (lit "\??\C:\x") 0 0 7 1 0 []) None] =
    Some (Some 900, Some (WServing, 2%nat)) ∧
  seen <$> run [RdBroken] = Some (Some 900, Some (WExited, 0%nat)).
Proof. split; by vm_compute. Qed.

(* ---------------------------------------------------------------- C129 *)

(** The broker has the other end of no pipe (each Worker::new closes its own, C110). *)
Definition no_clients (s : sstate) : Prop := ∀ h e, ss_tab s !! h = Some e → he_obj e ≠ OClient.

(** Nothing waits for the worker any more. *)
Definition win_noticed (x : option (result win_process broker_error * option (wstatus * wstate))) : Prop :=
  ∀ w r, x = Some (Ok w, r) → ∃ st s', r = Some (st, s') ∧ st ≠ WServing.

Definition C129_full : Prop := ∀ fuel env we o c audit calls s sent others t,
  senv_ok env → wenv_ok we → no_clients s →
  win_noticed (win_worker_ended fuel env we o c (win_build audit calls) s sent others t).

(** A program that gets the worker's end: started after it is made inheritable and before
    it is dropped, with all inheritable handles or with a list that has it by its value. *)
Definition gets_end (op : other_program) (h2 : N) : Prop :=
  op_when op = WBeforeDrop ∧ ∀ l, op_list op = Some l → h2 ∈ l.

Lemma has_client_spec t : has_client t = true ↔ ∃ h e, t !! h = Some e ∧ he_obj e = OClient.
Proof.
  unfold has_client. rewrite existsb_exists. split.
  - intros ([h e] & Hin%elem_of_list_In%elem_of_map_to_list & H). cbn [snd] in H.
    exists h, e. split; [done|]. by destruct (he_obj e).
  - intros (h & e & Hh & He). exists (h, e).
    split; [by apply elem_of_list_In, elem_of_map_to_list|]. cbn [snd]. by rewrite He.
Qed.

(** Who has the worker's end once Worker::new has returned a worker. *)
Lemma win_nobody fuel env c p s w s' :
  senv_ok env → no_clients s → win_worker_new fuel env c p s = Some (Ok w, s') →
  ∃ h1 h2 s1, win_channel_new fuel env s = Some (Ok (h1, h2), s1) ∧
    ∀ others, win_nobody_left fuel env s (ss_tab s') others = true ↔
      ∀ op, op ∈ others → ¬ gets_end op h2.
Proof.
  intros Hp Hno E.
  assert (has_client (ss_tab s') = false) as Hb.
  { apply not_true_iff_false. intros (h & e & Hh & He)%has_client_spec.
    destruct (worker_cases _ _ _ _ _ _ _ Hp E) as
      [(e' & es & ? & _)|(h1 & h2 & c' & hs & r0 & ev & a & P & es & _ & _ & _ & _ & _ & _ & _ & _ & _ & _ & Hc)]; [done|].
    destruct Hc as [(e' & hp & ? & _)|[(e' & w0 & ? & _)|(w' & [= <-] & _ & _ & _ & Hn)]]; [done|done|].
    destruct Hn as [_ _ _ (hr & q & _ & _ & _ & _ & _ & Ht & _)]. rewrite Ht in Hh.
    apply lookup_insert_Some in Hh as [[_ <-]|[_ Hh]]; [done|].
    apply lookup_insert_Some in Hh as [[_ <-]|[_ Hh]]; [done|].
    apply lookup_insert_Some in Hh as [[_ <-]|[_ Hh]]; [done|]. by apply (Hno h e). }
  unfold win_worker_new in E.
  destruct (win_channel_new fuel env s) as [[rc s1]|] eqn:Ec; [|done].
  destruct (channel_cases _ _ _ _ _ Hp Ec) as [(e & -> & ->)|(h1 & h2 & -> & F1 & F2 & Hne & Hs1)]; [done|].
  destruct (se_inherit env) eqn:Ei; cbn [negb] in E; [clear E|done].
  exists h1, h2, s1. split; [done|]. intros others.
  unfold win_nobody_left. rewrite Hb. cbn [orb]. rewrite negb_true_iff, <-not_true_iff_false, existsb_exists.
  assert (∀ op, has_client (program_handles op (win_stage_table fuel env s (op_when op))) = true ↔
                gets_end op h2) as Hk.
  { intros op. rewrite has_client_spec. unfold win_stage_table. rewrite Ec, Ei.
    assert (ss_tab (set_inherit h2 s1) = start_tab h1 h2 (ss_tab s)) as ->.
    { rewrite Hs1. unfold set_inherit, with_tab, start_tab. cbn. by rewrite alter_insert. }
    assert (ss_tab s1 = <[h2 := mkHe OClient false]> (<[h1 := mkHe OServer false]> (ss_tab s))) as ->
      by (by rewrite Hs1).
    unfold gets_end, program_handles. split.
    - intros (h & e & Hh & He). apply map_filter_lookup_Some in Hh as (Hh & Hi & Hl). cbn [fst snd] in *.
      destruct (op_when op).
      + by destruct (Hno h e).
      + apply lookup_insert_Some in Hh as [[_ <-]|[_ Hh]]; [done|].
        apply lookup_insert_Some in Hh as [[_ <-]|[_ Hh]]; [done|]. by destruct (Hno h e).
      + split; [done|]. unfold start_tab in Hh.
        apply lookup_insert_Some in Hh as [[<- _]|[_ Hh]].
        * intros l El. unfold given_to in Hl. rewrite El in Hl. by apply bool_decide_eq_true in Hl.
        * apply lookup_insert_Some in Hh as [[_ <-]|[_ Hh]]; [done|]. by destruct (Hno h e).
      + unfold start_tab in Hh. rewrite delete_insert in Hh by (by rewrite lookup_insert_ne).
        apply lookup_insert_Some in Hh as [[_ <-]|[_ Hh]]; [done|]. by destruct (Hno h e).
    - intros [-> Hl]. exists h2, (mkHe OClient true). split; [|done].
      apply map_filter_lookup_Some. cbn [fst snd]. split; [apply lookup_insert|]. split; [done|].
      unfold given_to. destruct (op_list op) as [l|]; [|done]. apply bool_decide_eq_true. by apply Hl. }
  split.
  - intros H op Hop Hg. apply H. exists op. split; [by apply elem_of_list_In|by apply Hk].
  - intros H (op & Hop%elem_of_list_In & Hg%Hk). by apply (H op).
Qed.

(** Reading on. *)
Lemma loop_more we p ch ph rds rds' : ∀ s,
  win_loop we p ch ph (rds ++ rds') s =
  match win_loop we p ch ph rds s with
  | (WServing, s1) => win_loop we p ch ph rds' s1
  | x => x
  end.
Proof.
  induction rds as [|rd rds IH]; intros s; [done|]. cbn [app win_loop].
  destruct (win_step we p rd s) as [[] s1]; [apply IH|done|done].
Qed.
Lemma thread_broken we p o ch ph rds s :
  (win_thread we p o ch ph (rds ++ [RdBroken]) s).1 ≠ WServing.
Proof.
  destruct rds as [|rd rds]; [done|]. cbn [app win_thread].
  destruct (win_recv dec_wreq rd) as [[[[] [h|]]|]|]; try done.
  destruct (win_send _ _ _ _) as [[[] s1]|]; [|done|done].
  rewrite loop_more. by destruct (win_loop we p ch ph rds s1) as [[] s2].
Qed.

(** Partial: true unless another program is started with the worker's end. *)
Theorem C129_noticed_partial fuel env we o c audit calls s sent others t :
  senv_ok env → no_clients s →
  (∀ h1 h2 s1 op, win_channel_new fuel env s = Some (Ok (h1, h2), s1) → op ∈ others →
     ¬ gets_end op h2) →
  win_noticed (win_worker_ended fuel env we o c (win_build audit calls) s sent others t).
Proof.
  intros Hp Hno Ho w r H. unfold win_worker_ended in H.
  destruct (win_worker_new fuel env c (win_build audit calls) s) as [[[w'|e] s']|] eqn:E;
    [|unfold win_worker_run in H; by rewrite E in H..].
  destruct (win_nobody _ _ _ _ _ _ _ Hp Hno E) as (h1 & h2 & s1 & Ec & Hn).
  rewrite (proj2 (Hn others)) in H by (intros op Hop; by eapply Ho).
  destruct (run_ok _ _ _ _ _ _ _ _ _ _ _ Hp H) as (s2 & h1' & hr & _ & _ & ->).
  pose proof (thread_broken we (get_runtime_policy (win_build audit calls)) o h1' (Some hr)
    (RdMessage <$> sent) (mkWst t [])) as Hx.
  destruct (win_thread _ _ _ _ _ _ _) as [st sx]. by exists st, sx.
Qed.
Print Assumptions C129_noticed_partial.

(** A program started with the worker's end keeps the thread waiting: it does what it
    would do if the worker had not ended. *)
Theorem C129_between_refuted fuel env we o c audit calls s sent others t op h1 h2 s1 :
  senv_ok env → no_clients s →
  win_channel_new fuel env s = Some (Ok (h1, h2), s1) → op ∈ others → gets_end op h2 →
  win_worker_ended fuel env we o c (win_build audit calls) s sent others t =
  win_worker_run fuel env we o c (win_build audit calls) s
    (match win_worker_new fuel env c (win_build audit calls) s with
     | Some (Ok _, _) => RdMessage <$> sent
     | _ => []
     end) t.
Proof.
  intros Hp Hno Ec Hop Hg. unfold win_worker_ended.
  destruct (win_worker_new fuel env c (win_build audit calls) s) as [[[w|e] s']|] eqn:E; [|done|done].
  destruct (win_nobody _ _ _ _ _ _ _ Hp Hno E) as (h1' & h2' & s1' & Ec' & Hn).
  rewrite Ec in Ec'. injection Ec' as <- <- <-.
  destruct (win_nobody_left _ _ _ _ _) eqn:El; [|by rewrite app_nil_r].
  destruct (proj1 (Hn others) El op Hop Hg).
Qed.
Print Assumptions C129_between_refuted.

Lemma ex_no_clients : no_clients broker0.
Proof.
  apply (map_Forall_lookup (λ _ e, he_obj e ≠ OClient)).
  intros h e H. cbn in H. apply lookup_insert_Some in H as [[_ <-]|[_ H]]; [done|].
  by apply lookup_singleton_Some in H as [_ <-].
Qed.
Theorem C129_refuted : ¬ C129_full.
Proof.
  intros H. destruct ex_started as (w & r & E).
  pose proof (H 6%nat _ _ no_order some_config false [] broker0 [] [mkOp WBeforeDrop None] ∅
    (se_with_ok good_env (λ _ _, Some 77) true) (ex_env_ok 0 (Some 9)) ex_no_clients) as Hx.
  destruct (run_ok _ _ _ _ _ _ _ _ _ _ _ (se_with_ok _ _ _) E) as (s' & h1 & hr & En & _ & Hr).
  destruct (win_nobody _ _ _ _ _ _ _ (se_with_ok _ _ _) ex_no_clients En) as (h1' & h2 & s1 & Ec & _).
  rewrite (C129_between_refuted _ _ _ _ _ _ _ _ _ _ _ (mkOp WBeforeDrop None) _ _ _ (se_with_ok _ _ _)
    ex_no_clients Ec) in Hx; [|left|done].
  rewrite En in Hx. destruct (Hx _ _ E) as (st & sx & Hr' & Hst).
  rewrite Hr in Hr'. injection Hr' as <- _. done.
Qed.
Print Assumptions C129_refuted.

(* A worker that ends at once and one that ends after a request; and the latter with other
   programs: one with all inheritable handles, at each moment, and one with a list. *)
Example C129_example :
  let ended sent others :=
    option_map (λ x, option_map (λ y, (y.1, length (sends_of (ws_trace y.2)))) x.2)
      (win_worker_ended 6 (se_with good_env (λ _ _, Some 77) true) (ex_env 0 (Some 9)) no_order
         some_config (win_build false []) broker0 sent others ∅) in
  let hello := enc_wrapped enc_wreq (WReqInit, None) in
  let ask := enc_wrapped enc_wreq (WReqFile 0x80000000 (lit "\??\C:\x") 0 0 7 1 0 [], None) in
  ended [] [] = Some (Some (WExited, 0%nat)) ∧
  ended [hello; ask] [] = Some (Some (WExited, 2%nat)) ∧
  ended [hello; ask] [mkOp WBeforePipe None; mkOp WBeforeInherit None; mkOp WAfterDrop None] =
    Some (Some (WExited, 2%nat)) ∧
  ended [hello; ask] [mkOp WBeforeDrop None] = Some (Some (WServing, 2%nat)) ∧
  ended [hello; ask] [mkOp WBeforeDrop (Some [8])] = Some (Some (WExited, 2%nat)).
Proof. split_and!; by vm_compute. Qed.
