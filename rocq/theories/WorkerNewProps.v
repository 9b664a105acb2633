(** Properties C102 and C103: Worker::new from the user's policy to the files the worker
    can get hold of. *)
From stdpp Require Import prelude gmap.
From Coq Require Import Strings.Byte ZifyN ZifyNat ZifyBool.
From Verif Require Import Bytes PolicyModel PolicySpec LinuxPolicyModel LinuxPolicySpec
  LinuxPolicyProofs PostcardModel FdModel FdProofs ChannelModel
  ChannelProofs BrokerModel BrokerSpec BrokerProofs BrokerProps EntryModel EntryProofs EntryProps
  ProcessModel ProcessProofs ProcessProps.
Local Open Scope N_scope.

(* ---------------------------------------------------------------- C102 *)

(** A file the user meant the worker to start with: its end of the channel, a redirected
    stream, or a handle the policy accepted. *)
Definition meant_for_worker (ne : new_env) (c : config) (calls : list api_call) (t : fdtab)
  (f : N) : Prop :=
  (∃ fb, ne_sockets ne = Ok (fb, f)) ∨
  (∃ n, fd_file <$> t !! n = Some f ∧ (n ∈ streams c ∨ accepted_handle calls n)).

(** Full statement of C102: every file a started program holds is meant for it, or it is
    /dev/null opened in its place. *)
Definition C102_full : Prop := ∀ ne c audit calls evs t fl s' n f,
  kernel_ok ne t → wo_child (worker_new ne c (build audit calls) evs t) = Some (fl, EpStarted s') →
  fd_file <$> ep_tab s' !! n = Some f →
  meant_for_worker ne c calls t f ∨ EpOpen (lit "/dev/null") O_RDONLY f ∈ ep_trace s'.

(** Partial: if the handles that the policy accepted and the redirected streams are still
    open, which in Rust follows from the lifetimes in [Policy<'a>] and
    [ProcessConfig<'a>]. *)
Theorem C102_files_partial ne c audit calls evs t fl s' n f :
  kernel_ok ne t →
  (∀ raw, raw ∈ streams c ∨ accepted_handle calls raw → is_Some (t !! raw)) →
  wo_child (worker_new ne c (build audit calls) evs t) = Some (fl, EpStarted s') →
  fd_file <$> ep_tab s' !! n = Some f →
  meant_for_worker ne c calls t f ∨ EpOpen (lit "/dev/null") O_RDONLY f ∈ ep_trace s'.
Proof.
  intros (Hl & _) Hacc Hc Hn.
  destruct (worker_child _ _ _ _ _ _ _ Hc) as
    (fb & fc & ch & wh & t2 & p' & c' & fr & fw & rd & wr & nr & t3 & Hr & _ & _ & Hrd & Hwr & Hlt
     & _ & _ & Hst & _ & _).
  destruct Hr as (Hso & Hch & Hwh & Hcw & _ & _ & Ht2 & Hall & Hset).
  destruct (allow_all_spec _ _ _ _ Hall) as (Hinh & Hok & _).
  set (tc := <[wr := mkFd fw 1]> (<[rd := mkFd fr 0]> t2)) in *.
  assert (Hwork : ∀ m g, m = wh ∨ m ∈ streams c ∨ accepted_handle calls m →
    fd_file <$> tc !! m = Some g → meant_for_worker ne c calls t g).
  { intros m g Hm Hg.
    assert (m = wh ∨ is_Some (t !! m)) as [->|[ent Hent]].
    { destruct Hm as [->|Hm]; [by left|right; by apply Hacc]. }
    - unfold tc in Hg. assert (t2 !! wh = Some (mkFd fc 0)) as E by (by rewrite Ht2, lookup_insert).
      rewrite !lookup_insert_ne, E in Hg by (intros ->; congruence).
      injection Hg as <-. left. by exists fb.
    - assert (t2 !! m = Some ent) as E.
      { rewrite Ht2, !lookup_insert_ne by (intros ->; congruence). done. }
      unfold tc in Hg. rewrite !lookup_insert_ne, E in Hg by (intros ->; congruence).
      right. exists m. rewrite Hent. split; [done|].
      destruct Hm as [->|Hm]; [congruence|done]. }
  symmetry in Hst. destruct (started_ready _ _ _ _ Hl Hst) as
    (s1 & (_ & _ & _ & _ & tk & f0 & f1 & f2 & Ht & S0 & S1 & S2 & Htab & Hnull) & _ & ->).
  cbn [set_tab ep_tab ep_trace] in *. cbn [child_params child_start pr_stdin pr_stdout pr_stderr ep_tab]
    in Ht, S0, S1, S2, Hnull.
  assert (cf_stdin c' = cf_stdin c ∧ cf_stdout c' = cf_stdout c ∧ cf_stderr c' = cf_stderr c)
    as (E0 & E1 & E2).
  { revert Hset. unfold set_environment_variable. repeat case_match; intros [= <-]; done. }
  rewrite E0, E1, E2 in *.
  assert (Hkept : ∀ m g, m ∈ streams c → fd_file <$> tk !! m = Some g →
    meant_for_worker ne c calls t g).
  { intros m g Hm Hg. apply (Hwork m); [by right; left|]. rewrite Ht in Hg.
    by destruct (decide _). }
  assert (Hs : ∀ o, o ∈ opt_list (cf_stdin c) ++ opt_list (cf_stdout c) ++ opt_list (cf_stderr c) →
    o ∈ streams c) by done.
  assert (G0 : meant_for_worker ne c calls t f0 ∨ EpOpen (lit "/dev/null") O_RDONLY f0 ∈ ep_trace s1).
  { destruct (cf_stdin c) as [fd|] eqn:E; cbn [std_source] in S0.
    - left. destruct S0 as [_ S0]. eapply Hkept; [|done]. apply Hs. by left.
    - right. by eapply (Hnull 0 None f0); [left|]. }
  assert (G1 : meant_for_worker ne c calls t f1 ∨ EpOpen (lit "/dev/null") O_RDONLY f1 ∈ ep_trace s1).
  { destruct (cf_stdout c) as [fd|] eqn:E; cbn [std_source] in S1.
    - destruct S1 as [_ S1]. destruct (decide (fd = 0)) as [->|Hne].
      + rewrite lookup_insert in S1. by injection S1 as <-.
      + left. rewrite lookup_insert_ne in S1 by done. eapply Hkept; [|done]. apply Hs.
        apply elem_of_app. right. by left.
    - right. by eapply (Hnull 1 None f1); [right; left|]. }
  assert (G2 : meant_for_worker ne c calls t f2 ∨ EpOpen (lit "/dev/null") O_RDONLY f2 ∈ ep_trace s1).
  { destruct (cf_stderr c) as [fd|] eqn:E; cbn [std_source] in S2.
    - destruct S2 as [_ S2]. destruct (decide (fd = 1)) as [->|Hne1].
      { rewrite lookup_insert in S2. by injection S2 as <-. }
      rewrite lookup_insert_ne in S2 by done. destruct (decide (fd = 0)) as [->|Hne].
      + rewrite lookup_insert in S2. by injection S2 as <-.
      + left. rewrite lookup_insert_ne in S2 by done. eapply Hkept; [|done]. apply Hs.
        rewrite !elem_of_app. right. right. by left.
    - right. by eapply (Hnull 2 None f2); [right; right; left|]. }
  rewrite Htab, close_on_exec_lookup in Hn.
  destruct (decide (n = 2)) as [->|N2].
  { rewrite lookup_insert in Hn. destruct (decide _); [|done]. by injection Hn as <-. }
  rewrite lookup_insert_ne in Hn by done.
  destruct (decide (n = 1)) as [->|N1].
  { rewrite lookup_insert in Hn. destruct (decide _); [|done]. by injection Hn as <-. }
  rewrite lookup_insert_ne in Hn by done.
  destruct (decide (n = 0)) as [->|N0].
  { rewrite lookup_insert in Hn. destruct (decide _); [|done]. by injection Hn as <-. }
  rewrite lookup_insert_ne in Hn by done.
  rewrite Ht in Hn. destruct (decide (kept _ n)) as [Hk|]; [|done].
  left. destruct (tc !! n) as [ent|] eqn:En; [|done]. destruct (decide (inheritable ent)); [|done].
  apply (Hwork n); [|by rewrite En]. clear Hnull Ht S0 S1 S2 Hn.
  destruct Hk as [Hk|[Hk|Hk]]; cbn [child_params pr_allowed pr_pipe] in Hk.
  - exfalso. lia.
  - apply elem_of_elements in Hk. unfold get_inherited_handles in Hk. rewrite Hinh in Hk.
    apply elem_of_union in Hk as [Hk|Hk].
    + apply elem_of_list_to_set, elem_of_cons in Hk as [->|Hk]; [by left|by right; left].
    + right. right. by apply build_handles in Hk.
  - exfalso. subst n. unfold tc in En. rewrite lookup_insert in En. injection En as <-.
    match goal with H : inheritable _ |- _ => vm_compute in H; discriminate H end.
Qed.
Print Assumptions C102_files_partial.

(** What the worker gets above its standard streams, exactly. *)
Lemma worker_descriptor ne c audit calls evs t fl s' :
  kernel_ok ne t →
  wo_child (worker_new ne c (build audit calls) evs t) = Some (fl, EpStarted s') →
  ∃ fb fc ch wh rd wr fr fw,
    ne_sockets ne = Ok (fb, fc) ∧ t !! ch = None ∧ t !! wh = None ∧ ch < wh ∧
    (∀ m, m < wh → m ≠ ch → is_Some (t !! m)) ∧
    let t2 := <[wh := mkFd fc 0]> (<[ch := mkFd fb 0]> t) in
    t2 !! rd = None ∧ t2 !! wr = None ∧ rd < wr ∧
    ∀ m ent, 2 < m →
      (ep_tab s' !! m = Some ent ↔
       <[wr := mkFd fw 1]> (<[rd := mkFd fr 0]> t2) !! m = Some ent ∧ inheritable ent ∧
       (m = wh ∨ m ∈ streams c ∨ accepted_handle calls m)).
Proof.
  intros (Hl & _) Hc.
  destruct (worker_child _ _ _ _ _ _ _ Hc) as
    (fb & fc & ch & wh & t2 & p' & c' & fr & fw & rd & wr & nr & t3 & Hr & _ & _ & Hrd & Hwr & Hlt
     & _ & _ & Hst & _ & _).
  destruct Hr as (Hso & Hch & Hwh & Hcw & _ & Hlow & Ht2 & Hall & Hset).
  destruct (allow_all_spec _ _ _ _ Hall) as (Hinh & Hok & _).
  exists fb, fc, ch, wh, rd, wr, fr, fw. do 5 (split; [done|]). cbv zeta. rewrite <-Ht2.
  do 3 (split; [done|]). intros m ent Hm. symmetry in Hst.
  destruct (C47_exact_descriptors _ _ _ _ Hl Hst) as [_ Hd].
  { cbn [child_start child_params ep_tab pr_pipe]. intros x. rewrite lookup_insert.
    intros [= <-]. by vm_compute. }
  rewrite Hd by done. unfold passed_on. cbn [child_start child_params ep_tab pr_allowed].
  assert (m ∈ elements (get_inherited_handles p') ↔
    m = wh ∨ m ∈ streams c ∨ accepted_handle calls m) as Hiff.
  { rewrite elem_of_elements. unfold get_inherited_handles.
    rewrite Hinh, elem_of_union, elem_of_list_to_set, elem_of_cons, build_handles. tauto. }
  rewrite <-Hiff. set (al := elements _). destruct (<[wr:=_]> _ !! m) as [ent'|].
  - destruct (decide (m ∈ al ∧ inheritable ent')) as [D|D].
    + split; [intros [= <-]; tauto|]. by intros [[= <-] _].
    + split; [done|]. intros [[= <-] ?]. destruct D. tauto.
  - split; [done|]. by intros [? _].
Qed.

(** Every handle the policy accepted arrives, if it is still open, above 2 and not marked
    close-on-exec; and nothing else that the broker had open does. *)
Theorem C102_handles_arrive ne c audit calls evs t fl s' m ent :
  kernel_ok ne t →
  wo_child (worker_new ne c (build audit calls) evs t) = Some (fl, EpStarted s') →
  t !! m = Some ent → 2 < m →
  (ep_tab s' !! m = Some ent ↔
   inheritable ent ∧ (m ∈ streams c ∨ accepted_handle calls m)) ∧
  (ep_tab s' !! m = None ∨ ep_tab s' !! m = Some ent).
Proof.
  intros Hk Hc Hm H2.
  destruct (worker_descriptor _ _ _ _ _ _ _ _ Hk Hc) as
    (fb & fc & ch & wh & rd & wr & fr & fw & Hso & Hch & Hwh & _ & _ & Hrd & Hwr & _ & Hd).
  set (t2 := <[wh:=_]> _) in *.
  assert (t2 !! m = Some ent) as E2.
  { unfold t2. rewrite !lookup_insert_ne by (intros ->; congruence). done. }
  assert (E : ∀ x, <[wr := mkFd fw 1]> (<[rd := mkFd fr 0]> t2) !! m = Some x ↔ x = ent).
  { intros x. rewrite !lookup_insert_ne, E2 by (intros ->; congruence). naive_solver. }
  split.
  - rewrite Hd, E by done. assert (m ≠ wh) by (intros ->; congruence). tauto.
  - destruct (ep_tab s' !! m) as [x|] eqn:Ex; [|by left]. right.
    apply Hd in Ex as [Ex _]; [|done]. apply E in Ex. by subst x.
Qed.
Print Assumptions C102_handles_arrive.

(** A number that the policy accepted and that has been closed since (possible through the
    C interface): if it is the next free one the worker starts with the broker's end of
    its own channel. *)
Theorem C102_stale_number_refuted ne c audit calls evs t fl s' m fb fc :
  kernel_ok ne t →
  wo_child (worker_new ne c (build audit calls) evs t) = Some (fl, EpStarted s') →
  ne_sockets ne = Ok (fb, fc) →
  accepted_handle calls m → 2 < m → t !! m = None → (∀ k, k < m → is_Some (t !! k)) →
  fd_file <$> ep_tab s' !! m = Some fb.
Proof.
  intros Hk Hc Hs Ha H2 Hm Hlow.
  destruct (worker_descriptor _ _ _ _ _ _ _ _ Hk Hc) as
    (fb' & fc' & ch & wh & rd & wr & fr & fw & Hso & Hch & Hwh & Hlt & Hl & Hrd & Hwr & _ & Hd).
  rewrite Hs in Hso. injection Hso as <- <-.
  assert (m = ch) as ->.
  { destruct (N.lt_trichotomy m ch) as [H|[H|H]]; [|done|].
    - destruct (Hl m); [lia|lia|congruence].
    - destruct (Hlow ch H). congruence. }
  set (t2 := <[wh:=_]> _) in *.
  assert (E2 : t2 !! ch = Some (mkFd fb 0)).
  { unfold t2. rewrite lookup_insert_ne, lookup_insert by lia. done. }
  assert (ep_tab s' !! ch = Some (mkFd fb 0)) as ->; [|done].
  apply Hd; [done|]. split; [|split; [by vm_compute|tauto]].
  rewrite !lookup_insert_ne by (intros ->; congruence). done.
Qed.
Print Assumptions C102_stale_number_refuted.

Theorem C102_refuted : ¬ C102_full.
Proof.
  intros H.
  set (calls := [CallInherit 4 (Ok true)]).
  set (ev := [dgram ReqInitialization]).
  assert (K : match wo_child (worker_new (ex_new None None) ex_config (build false calls) ev ex_table) with
              | Some (fl, EpStarted s') =>
                  bool_decide (fd_file <$> ep_tab s' !! 4 = Some 104) &&
                  negb (existsb (λ e, match e with EpOpen _ _ f => f =? 104 | _ => false end)
                          (ep_trace s'))
              | _ => false
              end = true) by (vm_compute; reflexivity).
  destruct (wo_child _) as [[fl [|s']]|] eqn:Hc; try discriminate K.
  apply andb_prop in K as [K1%bool_decide_eq_true K2%negb_true_iff].
  destruct (H _ _ _ _ _ _ _ _ _ _ (ex_new_ok None None) Hc K1) as [Hm|Hm].
  2:{ assert (existsb (λ e, match e with EpOpen _ _ f => f =? 104 | _ => false end)
                (ep_trace s') = true) as E; [|congruence].
      apply existsb_exists. eexists. split; [by apply elem_of_list_In|]. done. }
  destruct Hm as [(fb & Hf)|(n & Hn & _)]; [vm_compute in Hf; discriminate Hf|].
  destruct (ex_table !! n) as [ent|] eqn:E; [|done]. injection Hn as Hn.
  assert (Hin := elem_of_list_to_map_2 _ _ _ E). rewrite !elem_of_cons in Hin.
  destruct Hin as [[= _ ->]|[[= _ ->]|[[= _ ->]|[[= _ ->]|Hin]]]]; try discriminate Hn.
  by apply elem_of_nil in Hin.
Qed.
Print Assumptions C102_refuted.

(** The broker of [ex_table] with the log file 3 allowed and redirected. *)
Example C102_example :
  let calls := [CallInherit 3 (Ok true)] in
  match wo_child (worker_new (ex_new None None) ex_config (build false calls)
                    [dgram ReqInitialization] ex_table) with
  | Some (fl, EpStarted s') =>
      map (λ n, fd_file <$> ep_tab s' !! n) [0; 1; 2; 3; 4; 5; 6; 7] =
      [Some 600; Some 601; Some 103; Some 103; None; Some 105; None; None]
  | _ => False
  end.
Proof. by vm_compute. Qed.

(* ---------------------------------------------------------------- C103 *)

Lemma blocked_trace ne c p evs t :
  wo_result (worker_new ne c p evs t) = WnBlocked → wo_trace (worker_new ne c p evs t) = [].
Proof.
  unfold worker_new. repeat (case_match; try done).
Qed.

Lemma loop_opens env p audit h ch evs s st s' path flags mode res :
  be_limit env ≤ 2 ^ 31 → decides p audit h → broker_loop env p ch evs s = (st, s') →
  (path, flags, mode, res) ∈ opens (bs_trace s') →
  (path, flags, mode, res) ∈ opens (bs_trace s) ∨ user_allows audit h path flags.
Proof.
  intros Hl Hd E Hin.
  destruct (broker_loop_spec _ _ _ _ _ _ _ _ _ Hl Hd E)
    as (ms & segs & tail & Ht & _ & Hsegs & _ & Htail & _).
  rewrite Ht, !opens_app, !elem_of_app in Hin. destruct Hin as [Hin|[Hin|Hin]]; [by left|..]; right.
  - unfold opens in Hin. apply elem_of_list_omap in Hin as (e & He & Ee).
    apply elem_of_list_In, in_concat in He as (seg & Hseg%elem_of_list_In & He).
    apply elem_of_list_In in He.
    apply elem_of_list_lookup in Hseg as (i & Hi).
    destruct (Forall2_lookup_r _ _ _ _ _ Hsegs Hi) as (m & _ & pre & code & files & _ & _ & Ha).
    assert ((path, flags, mode, res) ∈ opens seg) as Hin.
    { unfold opens. apply elem_of_list_omap. eauto. }
    destruct m as [|path' flags'|]; cbn [right_answer] in Ha.
    + destruct Ha as (Ha & _). rewrite Ha in Hin. by apply elem_of_nil in Hin.
    + destruct Ha as [(_ & Ha & _)|(Hu & r & Ha & _)]; rewrite Ha in Hin;
        [by apply elem_of_nil in Hin|].
      apply elem_of_list_singleton in Hin. by injection Hin as -> -> _ _.
    + destruct Ha as (Ha & _). rewrite Ha in Hin. by apply elem_of_nil in Hin.
  - destruct (Htail _ Hin) as (path' & flags' & r & E' & Hu & _). by injection E' as -> -> _ _.
Qed.

(** Every open(2) the broker ever makes for a worker made by Worker::new was allowed by
    the user's rules (in audit mode: everything is). *)
Theorem C103_opens_allowed ne c audit calls evs t path flags mode res :
  kernel_ok ne t →
  (path, flags, mode, res) ∈ opens (wo_trace (worker_new ne c (build audit calls) evs t)) →
  user_allows audit (rules_of calls) path flags.
Proof.
  intros (_ & _ & Hb & _) Hin.
  destruct (worker_new_cases ne c (build audit calls) evs t) as
    [(e & _ & _ & _ & Hn)|(fb & fc & ch & wh & t2 & p' & c' & nr & t3 & Hr & _ & Hm)].
  { rewrite Hn in Hin. by apply elem_of_nil in Hin. }
  destruct nr as [pid'|e|].
  2:{ destruct Hm as (_ & _ & Hn). rewrite Hn in Hin. by apply elem_of_nil in Hin. }
  2:{ rewrite (blocked_trace _ _ _ _ _ Hm) in Hin. by apply elem_of_nil in Hin. }
  destruct Hm as (so & s & Hs & _ & Htr & _). rewrite Htr in Hin. clear Htr.
  destruct Hr as (_ & _ & _ & _ & _ & _ & _ & Hall & _).
  destruct (allow_all_spec _ _ _ _ Hall) as (_ & _ & Hrp). rewrite Hrp in Hs.
  destruct (C27_answer _ _ _ _ _ _ _ _ _ _ _ Hb Hs) as [_ Hno].
  destruct so as [| | |st];
    try (rewrite Hno in Hin by (intros; discriminate); by apply elem_of_nil in Hin).
  revert Hs. unfold start_ipc_loop. destruct evs as [|ev evs]; [done|].
  destruct (channel_recv _ _ _ _ _ _) as [r t4]. cbv zeta.
  destruct r as [[[[|path' flags'|nb args ip] [n|]]|]|e]; try done;
    try (destruct (drop_handle _ _); done).
  pose proof (broker_send_spec (ne_broker ne) (OutInitialization (ne_order ne)
    (audit_only (get_runtime_policy (build audit calls)))
    match ne_filter ne with Ok b => b | Err _ => [] end) None (mkBst t4 [])) as (e & Hs & He).
  destruct (broker_send _ _ _ _) as [[] s1]; [|done]. cbn [snd fst bs_trace bs_tab] in Hs, He.
  destruct He as (d & -> & Hd). subst s1.
  destruct (ne_spawn ne); [|done].
  destruct (broker_loop _ _ _ _ _) as [st' s2] eqn:El. intros [= -> ->].
  destruct (loop_opens _ _ _ _ _ _ _ _ _ path flags mode res Hb (runtime_decides audit calls) El Hin)
    as [Hx|Hx]; [|done].
  by apply elem_of_nil in Hx.
Qed.
Print Assumptions C103_opens_allowed.
Example C103_example :
  let out := worker_new (ex_new None None) ex_config (build false ex_policy_calls)
    [dgram ReqInitialization; dgram (ReqOpenFile (lit "/etc/f") 0);
     dgram (ReqOpenFile (lit "/tmp/f") 0)] ex_table in
  wo_result out = WnOk 4321 Serving ∧
  opens (wo_trace out) = [(lit "/tmp/f", 0%Z, 384%Z, Ok 42)].
Proof. by vm_compute. Qed.
