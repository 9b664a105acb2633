(** Property C175: on i686 the broker serves requests with the large-file flag. *)
From stdpp Require Import prelude gmap.
From Coq Require Import Strings.Byte ZifyN ZifyNat ZifyBool.
From Verif Require Import Bytes BytesProofs PolicyModel PolicySpec PolicyProofs LinuxPolicyModel
  LinuxPolicySpec LinuxPolicyProofs LinuxPolicyProps PostcardModel PostcardSpec PostcardProofs FdModel
  FdProofs ChannelModel ChannelProofs BrokerModel BrokerSpec BrokerProofs BrokerProps LargeFileModel
  LargeFileProps BrokerLargeModel.
Local Open Scope N_scope.

(* ---------------------------------------------------------------- vocabulary *)

(** Flag bits that are accepted on i686; 15 is O_LARGEFILE. *)
Definition supported_flags32 (flags : Z) : Prop :=
  ∀ n, (0 ≤ n)%Z → bit flags n → n ∈ [0; 1; 6; 7; 9; 10; 15; 16; 19; 21]%Z.
(** What the user allowed: in audit mode everything, else what the rules say. *)
Definition user_allows32 (audit : bool) (h : list rule) (path : str) (flags : Z) : Prop :=
  audit = true ∨
  (supported_flags32 flags ∧ ∃ cs, canonical cs ∧ names slash path cs ∧
     (entitled h cs RRead ∨ entitled h cs RWrite) ∧
     (needs_read flags → entitled h cs RRead) ∧ (needs_write flags → entitled h cs RWrite)).
(** What a correct broker does for one request on i686. *)
Definition right_answer32 (audit : bool) (h : list rule) (m : ipc_request)
  (os : list (str * Z * Z * result N N)) (code : Z) (files : list N) : Prop :=
  match m with
  | ReqInitialization => os = [] ∧ code = (-22)%Z ∧ files = []
  | ReqSyscall _ _ _ => os = [] ∧ code = (-38)%Z ∧ files = []
  | ReqOpenFile path flags =>
      (¬ user_allows32 audit h path flags ∧ os = [] ∧ code = (-13)%Z ∧ files = []) ∨
      (user_allows32 audit h path flags ∧ ∃ res, os = [(path, flags, 384%Z, res)] ∧
         match res with
         | Err e => code = (- Z.of_N e)%Z ∧ files = []
         | Ok file => code = 0%Z ∧ files = [file]
         end)
  end.
Definition right_segment32 (audit : bool) (h : list rule) (m : ipc_request) (seg : list bevent)
  : Prop :=
  ∃ pre code files, seg = pre ++ [BSent (reply_bytes code) files] ∧ replies pre = [] ∧
    right_answer32 audit h m (opens seg) code files.

(** The broker thread on i686 for a user policy. *)
Definition session32 (env : benv) (audit : bool) (calls : list api_call) (ch : N)
  (evs : list sock_event) (t : fdtab) : bstatus * bstate :=
  broker_loop32 env (get_runtime_policy (build audit calls)) ch evs (mkBst t []).
Definition env32 (env : benv) : Prop := be_abi env = Abi32 ∧ be_limit env ≤ 2 ^ 31.

(* ---------------------------------------------------------------- helpers *)

Lemma opens_log32 p r : opens (log_events32 p r) = [].
Proof.
  unfold log_events32. induction (snd (evaluate_request32 p r)) as [|[[cb q] v] l IH]; [done|].
  simpl. by rewrite <-IH.
Qed.
Lemma replies_log32 p r : replies (log_events32 p r) = [].
Proof.
  unfold log_events32. induction (snd (evaluate_request32 p r)) as [|[[cb q] v] l IH]; [done|].
  simpl. by rewrite <-IH.
Qed.

Definition decides32 (p : policy) (audit : bool) (h : list rule) : Prop :=
  ∀ path flags, fst (evaluate_request32 p (FileOpen path flags)) = Granted ↔
    user_allows32 audit h path flags.
Lemma runtime_decides32 audit calls :
  decides32 (get_runtime_policy (build audit calls)) audit (rules_of calls).
Proof.
  intros path flags. rewrite C123_as_without.
  rewrite (decides_verdict _ audit (rules_of calls)) by apply runtime_decides.
  unfold user_allows, user_allows32.
  assert (should_grant (rules_of calls) path (without_large flags) ↔
    fst (evaluate_request32 (build false calls) (FileOpen path flags)) = Granted) as ->.
  { rewrite C123_as_without. symmetry. apply C02_exact_grant. }
  by rewrite C123_exact_grant.
Qed.

Lemma dispatch32_spec env p audit h m s :
  be_limit env ≤ 2 ^ 31 → decides32 p audit h →
  ∃ evs,
    bs_trace (snd (dispatch32 env p m s)) = bs_trace s ++ evs ∧ replies evs = [] ∧
    match fst (dispatch32 env p m s) with
    | Done (code, None) =>
        bs_tab (snd (dispatch32 env p m s)) = bs_tab s ∧
        right_answer32 audit h m (opens evs) code []
    | Done (code, Some n) =>
        ∃ path flags file e,
          m = ReqOpenFile path flags ∧ user_allows32 audit h path flags ∧
          opens evs = [(path, flags, 384%Z, Ok file)] ∧ code = 0%Z ∧ fd_file e = file ∧
          bs_tab s !! n = None ∧ n < be_limit env ∧ n = lowest_free (bs_tab s) ∧
          bs_tab (snd (dispatch32 env p m s)) = <[n := e]> (bs_tab s)
    | Panicked =>
        bs_tab (snd (dispatch32 env p m s)) = bs_tab s ∧ opens evs = [] ∧
        ∃ path flags, m = ReqOpenFile path flags ∧ user_allows32 audit h path flags ∧ x00 ∈ path
    | Failed => False
    end.
Proof.
  intros Hl Hp. destruct m as [|path flags|nb args ip].
  - exists []. simpl. by rewrite app_nil_r.
  - pose proof (Hp path flags) as Hv.
    unfold dispatch32, proxied_open_file32.
    destruct (fst (evaluate_request32 p (FileOpen path flags))) eqn:E.
    2-4: exists (log_events32 p (FileOpen path flags)); simpl; rewrite opens_log32, replies_log32;
      split_and!; try done; left; split_and!; try done; intros Hu; by apply Hv in Hu.
    assert (user_allows32 audit h path flags) as Hu by (by apply Hv).
    destruct (contains [x00] path) eqn:En.
    { exists (log_events32 p (FileOpen path flags)); simpl; rewrite opens_log32, replies_log32.
      split_and!; try done. exists path, flags. split_and!; try done. by apply contains_nul. }
    unfold sys_open. simpl.
    destruct (be_open env _ path flags) as [file|e] eqn:Eo.
    + destruct (fd_install (be_limit env) _ (bs_tab s)) as [[n t]|] eqn:Ei.
      * apply fd_install_Some in Ei as (Hn & Hlt & Hnone & ->).
        unfold handle_from_raw. replace (n <? 2 ^ 31) with true by lia. simpl.
        eexists. split; [by rewrite <-app_assoc|].
        rewrite replies_app, replies_log32. split; [done|].
        exists path, flags, file, (mkFd file (if Z.testbit flags 19 then FD_CLOEXEC else 0%Z)).
        rewrite opens_app, opens_log32. split_and!; done.
      * simpl. eexists. split; [by rewrite <-app_assoc|].
        rewrite replies_app, replies_log32, opens_app, opens_log32.
        split_and!; try done. right. split; [done|]. by exists (Err EMFILE).
    + simpl. eexists. split; [by rewrite <-app_assoc|].
      rewrite replies_app, replies_log32, opens_app, opens_log32.
      split_and!; try done. right. split; [done|]. by exists (Err e).
  - exists (log_events32 p (Syscall nb args ip)). simpl.
    rewrite opens_log32, replies_log32. done.
Qed.

Lemma broker_step32_spec env p audit h ev s st s' :
  env32 env → decides32 p audit h →
  broker_step32 env p ev s = (st, s') →
  ∃ evs, bs_trace s' = bs_trace s ++ evs ∧
    match st with
    | Serving =>
        bs_tab s' = bs_tab s ∧ ∃ m, plain_request ev m ∧ right_segment32 audit h m evs
    | Exited =>
        (∀ m, ¬ plain_request ev m) ∧ evs = [] ∨
        (∃ m, plain_request ev m ∧ replies evs = [] ∧
           ∃ code files, right_answer32 audit h m (opens evs) code files)
    | Crashed =>
        replies evs = [] ∧ opens evs = [] ∧
        ∃ path flags, plain_request ev (ReqOpenFile path flags) ∧
          user_allows32 audit h path flags ∧ x00 ∈ path
    end.
Proof.
  intros [H32 Hl] Hp. unfold broker_step32.
  destruct (channel_recv dec_request (be_abi env) (be_limit env) IPC_MESSAGE_MAX_SIZE ev (bs_tab s))
    as [r t] eqn:Er.
  assert ((∃ m, r = Ok (Some (m, None))) ∨ ∀ m, ¬ plain_request ev m) as Hcase.
  { destruct r as [[[m [n|]]|]|e].
    2: left; by eexists.
    all: right; intros m' H;
      rewrite (recv_plain (be_abi env) (be_limit env) ev (bs_tab s) m' H) in Er; done. }
  destruct Hcase as [[m ->]|Hno].
  2:{ destruct r as [[[m [n|]]|]|e].
      - assert (is_Some (t !! n)) as [x Hx].
        { destruct ev as [d| |e]; [|done|done]. revert Er. simpl. unfold sys_recvmsg.
          destruct (install_files _ _ _ _) as [ns t1] eqn:Ei. simpl.
          apply install_files_spec in Ei as (_ & _ & Hns & _ & _ & Hins).
          destruct ns as [|k ns]; simpl.
          { destruct (_ || _); [done|]. destruct (Nat.eqb _ 0); [done|].
            by destruct (deserialize dec_request _). }
          unfold handle_from_raw. destruct (k <? 2 ^ 31); [|done].
          destruct (_ || _); [done|]. destruct (Nat.eqb _ 0); [done|].
          destruct (deserialize dec_request _); [|done]. intros [= _ <- <-].
          destruct (Hins 0%nat k eq_refl) as (f & _ & H). by eexists. }
        simpl. unfold handle_drop, sys_close. simpl. rewrite Hx.
        intros [= <- <-]. exists []. simpl. rewrite app_nil_r. split; [done|]. by left.
      - apply recv_plain_inv in Er as [H _]; [|done]. by apply Hno in H.
      - intros [= <- <-]. exists []. simpl. rewrite app_nil_r. split; [done|]. by left.
      - intros [= <- <-]. exists []. simpl. rewrite app_nil_r. split; [done|]. by left. }
  apply recv_plain_inv in Er as [Hm ->]; [|done].
  replace (mkBst (bs_tab s) (bs_trace s)) with s by (by destruct s).
  pose proof (dispatch32_spec env p audit h m s Hl Hp) as (evs & Ht & Hrep & Hd).
  destruct (dispatch32 env p m s) as [o s1]. simpl in *.
  destruct o as [[code hd]| |]; [|done|].
  2:{ intros [= <- <-]. exists evs. destruct Hd as (H1 & H2 & path & flags & -> & H3 & H4).
      split_and!; try done. eauto. }
  pose proof (broker_send_spec env (OutSyscallResult code) hd s1) as (e & Hs2 & He).
  destruct (broker_send env (OutSyscallResult code) hd s1) as [sent s2]. simpl in *.
  assert (drop_handle hd s2 = Done (mkBst (bs_tab s) (bs_trace s1 ++ [e]))) as Hdrop.
  { rewrite Hs2. destruct hd as [n|]; simpl.
    - destruct Hd as (path & flags & file & e' & _ & _ & _ & _ & _ & Hnone & _ & _ & Htab).
      unfold handle_drop, sys_close. rewrite Htab, lookup_insert. simpl. by rewrite delete_insert.
    - destruct Hd as [-> _]. done. }
  rewrite Hdrop. intros [= <- <-]. exists (evs ++ [e]). simpl. rewrite Ht, app_assoc.
  split; [done|]. destruct sent.
  - split; [done|]. exists m. split; [done|]. destruct He as (d & -> & Hsend).
    apply channel_send_payload in Hsend as Hpay. destruct Hpay as [Hpay _].
    apply channel_send_files in Hsend as Hfiles. rewrite Hpay.
    exists evs, code, (dg_files d). split_and!; [done|done|].
    rewrite opens_app. simpl. rewrite app_nil_r.
    destruct hd as [n|].
    + destruct Hd as (path & flags & file & e' & -> & Hu & -> & -> & Hfile & Hnone & Hlt & _ & Htab).
      simpl. right. split; [done|]. exists (Ok file). split; [done|]. split; [done|].
      destruct Hfiles as (e2 & He2 & Hf); [lia|]. rewrite Htab, lookup_insert in He2.
      injection He2 as <-. rewrite H32 in Hf. by subst file.
    + rewrite Hfiles. apply Hd.
  - right. exists m. split; [done|]. rewrite replies_app, Hrep, He. split; [done|].
    rewrite opens_app. simpl. rewrite app_nil_r.
    destruct hd as [n|].
    + destruct Hd as (path & flags & file & e' & -> & Hu & -> & -> & _).
      exists 0%Z, [file]. simpl. right. split; [done|]. by exists (Ok file).
    + destruct Hd as [_ Hd]. by exists code, [].
Qed.

(* ---------------------------------------------------------------- C175 *)

(** Requests are answered in order, each as the rules say, the large-file flag being allowed;
    a session that goes on has answered all of them. *)
Theorem C175_answers env audit calls ch evs t st s :
  env32 env → session32 env audit calls ch evs t = (st, s) →
  ∃ ms segs tail,
    bs_trace s = concat segs ++ tail ∧
    Forall2 plain_request (take (length ms) evs) ms ∧
    Forall2 (right_segment32 audit (rules_of calls)) ms segs ∧
    replies tail = [] ∧
    (∀ x, x ∈ opens tail → ∃ path flags res, x = (path, flags, 384%Z, res) ∧
       user_allows32 audit (rules_of calls) path flags ∧
       ∃ ev, evs !! length ms = Some ev ∧ plain_request ev (ReqOpenFile path flags)) ∧
    match st with
    | Serving => length ms = length evs ∧ tail = [] ∧ bs_tab s = t
    | Exited => ∃ ev, evs !! length ms = Some ev
    | Crashed => ∃ path flags ev, evs !! length ms = Some ev ∧
        plain_request ev (ReqOpenFile path flags) ∧
        user_allows32 audit (rules_of calls) path flags ∧ x00 ∈ path
    end.
Proof.
  intros He. unfold session32. pose proof (runtime_decides32 audit calls) as Hp. revert Hp.
  generalize (get_runtime_policy (build audit calls)) (rules_of calls). intros p h Hp.
  assert (∀ evs s0, broker_loop32 env p ch evs s0 = (st, s) →
    ∃ ms segs tail,
      bs_trace s = bs_trace s0 ++ concat segs ++ tail ∧
      Forall2 plain_request (take (length ms) evs) ms ∧
      Forall2 (right_segment32 audit h) ms segs ∧ replies tail = [] ∧
      (∀ x, x ∈ opens tail → ∃ path flags res, x = (path, flags, 384%Z, res) ∧
         user_allows32 audit h path flags ∧
         ∃ ev, evs !! length ms = Some ev ∧ plain_request ev (ReqOpenFile path flags)) ∧
      match st with
      | Serving => length ms = length evs ∧ tail = [] ∧ bs_tab s = bs_tab s0
      | Exited => ∃ ev, evs !! length ms = Some ev
      | Crashed => ∃ path flags ev, evs !! length ms = Some ev ∧
          plain_request ev (ReqOpenFile path flags) ∧ user_allows32 audit h path flags ∧ x00 ∈ path
      end) as Hall.
  2:{ intros E. destruct (Hall evs _ E) as (ms & segs & tail & H). simpl in H. eauto. }
  clear evs t. induction evs as [|ev evs IH]; intros s0; cbn [broker_loop32].
  { intros [= <- <-]. exists [], [], []. simpl. rewrite app_nil_r.
    split_and!; try done; try (by constructor). set_solver. }
  destruct (broker_step32 env p ev s0) as [st1 s1] eqn:E.
  destruct (broker_step32_spec env p audit h ev s0 st1 s1 He Hp E) as (es & Ht & Hst).
  destruct st1.
  - intros H. apply IH in H as (ms & segs & tail & H1 & H2 & H3 & H4 & H5 & H7).
    destruct Hst as (Htab & m & Hm & Hseg).
    exists (m :: ms), (es :: segs), tail. rewrite Htab in *. cbn [length take concat].
    split_and!; try done.
    + by rewrite H1, Ht, <-!app_assoc.
    + by constructor.
    + by constructor.
    + destruct st; [|done|done]. destruct H7 as (H7 & H8 & H9). split_and!; [by rewrite H7|done|done].
  - intros [= <- <-]. simpl. exists [], [], es. simpl.
    destruct Hst as [[Hno ->]|(m & Hm & Hr & code & files & Ha)].
    { split_and!; try done; try (by constructor); [set_solver|eauto]. }
    split_and!; try done; try (by constructor); [|eauto].
    intros x Hx. destruct m as [|path flags|]; simpl in Ha.
    + destruct Ha as (Ho & _). rewrite Ho in Hx. set_solver.
    + destruct Ha as [(_ & Ho & _)|(Hu & res & Ho & _)]; rewrite Ho in Hx; [set_solver|].
      apply elem_of_list_singleton in Hx as ->. exists path, flags, res. eauto.
    + destruct Ha as (Ho & _). rewrite Ho in Hx. set_solver.
  - intros [= <- <-]. destruct Hst as (Hr & Ho & path & flags & Hm & Hu & Hn).
    exists [], [], es. simpl.
    split_and!; try done; try (by constructor).
    + rewrite Ho. set_solver.
    + exists path, flags, ev. done.
Qed.
Print Assumptions C175_answers.

(** Every open the broker makes on i686 is allowed by the rules. *)
Theorem C175_only_granted env calls ch evs t path flags mode res :
  env32 env →
  (path, flags, mode, res) ∈ opens (bs_trace (snd (session32 env false calls ch evs t))) →
  user_allows32 false (rules_of calls) path flags.
Proof.
  intros He Hin. destruct (session32 env false calls ch evs t) as [st s] eqn:E.
  destruct (C175_answers _ _ _ _ _ _ _ _ He E) as (ms & segs & tail & Ht & _ & Hsegs & _ & Htail & _).
  cbn [snd] in Hin. rewrite Ht, opens_app, elem_of_app in Hin. destruct Hin as [Hin|Hin].
  - unfold opens in Hin. apply elem_of_list_omap in Hin as (e & Hin & Ee).
    apply elem_of_list_In, in_concat in Hin as (seg & Hseg%elem_of_list_In & Hin%elem_of_list_In).
    apply elem_of_list_lookup in Hseg as (i & Hi).
    destruct (Forall2_lookup_r _ _ _ _ _ Hsegs Hi) as (m & _ & pre & code & files & _ & _ & Ha).
    assert ((path, flags, mode, res) ∈ opens seg) as Ho.
    { unfold opens. apply elem_of_list_omap. eauto. }
    destruct m as [|path' flags'|]; cbn [right_answer32] in Ha.
    + destruct Ha as (Ha & _). rewrite Ha in Ho. set_solver.
    + destruct Ha as [(_ & Ha & _)|(Hu & r & Ha & _)]; rewrite Ha in Ho; [set_solver|].
      apply elem_of_list_singleton in Ho. by injection Ho as -> -> _ _.
    + destruct Ha as (Ha & _). rewrite Ha in Ho. set_solver.
  - destruct (Htail _ Hin) as (path' & flags' & r & E' & Hu & _). by injection E' as -> -> _ _.
Qed.
Print Assumptions C175_only_granted.

(** The large-file flag needs no right: with and without it the same is allowed. *)
Theorem C175_same_rights audit h path flags :
  user_allows32 audit h path (Z.setbit flags 15) ↔ user_allows32 audit h path (Z.clearbit flags 15).
Proof.
  assert (∀ n, (0 ≤ n)%Z → n ≠ 15%Z → bit (Z.setbit flags 15) n ↔ bit (Z.clearbit flags 15) n) as Hb.
  { intros n Hn Hne. unfold bit. rewrite Z.setbit_eqb, Z.clearbit_eqb by lia.
    replace (15 =? n)%Z with false by lia. by rewrite andb_true_r. }
  assert (¬ bit (Z.clearbit flags 15) 15) as H15.
  { unfold bit. by rewrite Z.clearbit_eq. }
  unfold user_allows32. apply or_iff_compat_l.
  assert (supported_flags32 (Z.setbit flags 15) ↔ supported_flags32 (Z.clearbit flags 15)) as ->.
  { unfold supported_flags32. split; intros H n Hn Hbit;
      (destruct (decide (n = 15%Z)) as [->|Hne]; [by apply (bool_decide_unpack _); vm_compute|]);
      apply H; [done|by apply Hb|done|by apply Hb]. }
  assert (needs_read (Z.setbit flags 15) ↔ needs_read (Z.clearbit flags 15)) as Hr.
  { unfold needs_read, path_only. by rewrite !Hb by lia. }
  assert (needs_write (Z.setbit flags 15) ↔ needs_write (Z.clearbit flags 15)) as Hw.
  { unfold needs_write, path_only. by rewrite !Hb by lia. }
  by setoid_rewrite Hr; setoid_rewrite Hw.
Qed.
Print Assumptions C175_same_rights.

(* What a 32-bit program's fopen asks for: O_RDONLY | O_LARGEFILE | O_CLOEXEC. It is opened by
   the i686 broker; /etc/f and an unknown flag are refused; on x86_64 bit 15 is refused. *)
Example C175_example :
  let evs := [dgram (ReqOpenFile (lit "/tmp/f") 0x88000); dgram (ReqOpenFile (lit "/etc/f") 0x88000);
              dgram (ReqOpenFile (lit "/tmp/f") 0xc000); dgram (ReqOpenFile (lit "/tmp/f") 0x8001)] in
  bs_trace (snd (session32 ex_env false ex_policy_calls 3 evs ex_tab3)) =
   [BOpen (lit "/tmp/f") 0x88000 384 (Ok 42); BSent (reply_bytes 0) [42];
    BSent (reply_bytes (-13)) []; BSent (reply_bytes (-13)) []; BSent (reply_bytes (-13)) []] ∧
  bs_trace (snd (session ex_env64 false ex_policy_calls 3 (take 1 evs) ex_tab3)) =
   [BSent (reply_bytes (-13)) []] ∧
  env32 ex_env.
Proof. split; [by vm_compute|]. split; [by vm_compute|]. done. Qed.

(* ---------------------------------------------------------------- requests without the flag *)

Lemma evaluate_same p req :
  (∀ path flags, req = FileOpen path flags → Z.testbit flags 15 = false) →
  evaluate_request32 p req = evaluate_request p req.
Proof.
  intros H. destruct req as [path flags|nb args ip]; [|done].
  specialize (H path flags eq_refl). unfold evaluate_request32, evaluate_request, raw_verdict.
  assert (check_file_open32 p path flags = check_file_open p path flags) as ->; [|done].
  unfold check_file_open32, check_file_open.
  assert (Z.land flags (Z.lnot SUPPORTED_FILE_OPEN_FLAGS32) =
          Z.land flags (Z.lnot SUPPORTED_FILE_OPEN_FLAGS)) as ->; [|done].
  apply Z.bits_inj'. intros n Hn. rewrite !Z.land_spec, !Z.lnot_spec by done.
  change SUPPORTED_FILE_OPEN_FLAGS32 with (Z.setbit SUPPORTED_FILE_OPEN_FLAGS 15).
  rewrite Z.setbit_eqb by lia.
  destruct (Z.eqb_spec 15 n) as [<-|]; [by rewrite H|done].
Qed.
Lemma step_same env p ev s :
  be_limit env ≤ 2 ^ 31 →
  (∀ path flags, plain_request ev (ReqOpenFile path flags) → Z.testbit flags 15 = false) →
  broker_step32 env p ev s = broker_step env p ev s.
Proof.
  intros Hl H. unfold broker_step32, broker_step.
  destruct (channel_recv _ _ _ _ _ _) as [r t] eqn:Er.
  destruct r as [[[m [n|]]|]|e]; [done| |done..].
  apply recv_plain_inv in Er as [Hm ->]; [|done].
  assert (dispatch32 env p m (mkBst (bs_tab s) (bs_trace s)) =
          dispatch env p m (mkBst (bs_tab s) (bs_trace s))) as ->; [|done].
  destruct m as [|path flags|nb args ip]; [done| |].
  - cbn [dispatch32 dispatch]. unfold proxied_open_file32, proxied_open_file, log_events32, log_events.
    rewrite (evaluate_same p (FileOpen path flags)); [done|].
    intros ? ? [= <- <-]. by eapply H.
  - cbn [dispatch32 dispatch]. unfold proxied_syscall32, proxied_syscall, log_events32, log_events.
    by rewrite (evaluate_same p (Syscall nb args ip)).
Qed.

(** Without the flag nothing differs from BrokerModel.v: what is proved there about [session]
    holds for the broker on i686 as long as no request has the flag. *)
Theorem C175_without_flag env audit calls ch evs t :
  be_limit env ≤ 2 ^ 31 →
  (∀ ev path flags, ev ∈ evs → plain_request ev (ReqOpenFile path flags) → ¬ bit flags 15) →
  session32 env audit calls ch evs t = session env audit calls ch evs t.
Proof.
  intros Hl. unfold session32, session. generalize (mkBst t []).
  generalize (get_runtime_policy (build audit calls)). intros p.
  induction evs as [|ev evs IH]; intros s H; [done|]. cbn [broker_loop32 broker_loop].
  rewrite step_same; [|done|].
  - destruct (broker_step env p ev s) as [[] s1]; [|done..]. apply IH.
    intros e path flags Hin. apply H. by right.
  - intros path flags Hp. apply not_true_is_false. apply (H ev path flags); [left|done].
Qed.
Print Assumptions C175_without_flag.
