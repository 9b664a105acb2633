(** Property C176: on i686 a program opens files with the large-file flag through the sandbox as
    the rules say, and everything else is as in WorkerProps.v. *)
From stdpp Require Import prelude gmap.
From Coq Require Import Strings.Byte ZifyN ZifyNat ZifyBool.
From Verif Require Import Bytes BytesProofs PolicyModel PolicySpec PolicyProofs LinuxPolicyModel
  LinuxPolicySpec LinuxPolicyProofs PostcardModel PostcardSpec PostcardProofs FdModel FdProofs
  ChannelModel ChannelProofs BrokerModel BrokerSpec BrokerProofs BrokerProps WorkerModel WorkerSpec
  WorkerProofs WorkerProps LargeFileModel LargeFileProps BrokerLargeModel BrokerLargeProps
  WorkerLargeModel.
Local Open Scope N_scope.

Definition trap32 (env : wenv) (r : regs) (w : world) : hres Z * world :=
  sigsys_handler32 env (r_nr r) (r0 r) (r1 r) (r2 r) (r3 r) (r4 r) (r5 r) (r_ip r) w.

(** The answer to an open on i686 for [path] and [flags]. *)
Definition open_answer32 (audit : bool) (h : list rule) (path : str) (flags : Z)
  (os : list (str * Z * Z * result N N)) (v : Z) (t t' : fdtab) : Prop :=
  (¬ user_allows32 audit h path flags ∧ os = [] ∧ v = (-13)%Z ∧ t' = t) ∨
  (user_allows32 audit h path flags ∧ ∃ res, os = [(path, flags, 384%Z, res)] ∧
     match res with
     | Err e => v = (- Z.of_N e)%Z ∧ 0 < e < 4096 ∧ t' = t
     | Ok file => v = Z.of_N (lowest_free t) ∧ received t t' file (lowest_free t)
     end).

(* ---------------------------------------------------------------- helpers *)

Lemma trap32_open env r path flags mode w :
  opens_path env r path flags mode →
  trap32 env r w = handle_openat32 env (lossy path) flags mode w.
Proof.
  intros H. unfold trap32, sigsys_handler32, read_string_from_ptr.
  destruct H as [(-> & -> & -> & ->)|(-> & Hb & -> & -> & ->)];
    destruct (be_abi (we_broker env)); try done; simpl;
    (destruct (as_i32 (r0 r) =? AT_FDCWD)%Z eqn:E; [done|]);
    (destruct Hb as [Hb| ->]; [lia|done]).
Qed.

Lemma broker_serves32 env p audit h m s ev :
  env32 env → decides32 p audit h → plain_request ev m →
  (∀ path flags, m = ReqOpenFile path flags → x00 ∉ path) →
  (∀ tr, be_send env tr = None) → 15 ≤ be_sndbuf env →
  ∃ s', broker_step32 env p ev s = (Serving, s').
Proof.
  intros [Ha Hl] Hp Hm Hnul Hsend Hsb. unfold broker_step32.
  rewrite (recv_plain _ _ _ _ _ Hm).
  replace (mkBst (bs_tab s) (bs_trace s)) with s by (by destruct s).
  pose proof (dispatch32_spec env p audit h m s Hl Hp) as (evs & Ht & Hrep & Hd).
  destruct (dispatch32 env p m s) as [o s1]. simpl in *.
  destruct o as [[code hd]| |]; [|done|].
  2:{ destruct Hd as (_ & _ & path & flags & -> & _ & Hn). by destruct (Hnul _ _ eq_refl). }
  unfold broker_send. rewrite Hsend.
  destruct (channel_send_ok (be_abi env) (be_sndbuf env) (bs_tab s1) code hd Hsb) as [d ->].
  { intros n ->. destruct Hd as (path & flags & file & e & _ & _ & _ & _ & _ & Hnone & Hlt & Hlow & ->).
    split; [lia|]. rewrite lookup_insert. split; [by eexists|].
    destruct (decide (n = 0)) as [->|Hn0]; [rewrite lookup_insert; by eexists|].
    rewrite lookup_insert_ne by done. rewrite Hlow in Hn0. apply lowest_free_spec. lia. }
  destruct hd as [n|]; simpl.
  - destruct Hd as (path & flags & file & e & _ & _ & _ & _ & _ & _ & _ & _ & ->).
    unfold handle_drop, sys_close. rewrite lookup_insert. eauto.
  - eauto.
Qed.

Lemma step32_errno env p ev s st s' :
  broker_step32 env p ev s = (st, s') →
  ∃ seg, bs_trace s' = bs_trace s ++ seg ∧
    ∀ path f md e, BOpen path f md (Err e) ∈ seg → e = EMFILE ∨ ∃ tr, be_open env tr path f = Err e.
Proof.
  intros E. unfold broker_step32 in E.
  destruct (channel_recv _ _ _ _ _ _) as [r t'].
  assert (∀ hd s1 x, drop_handle hd s1 = Done x → bs_trace x = bs_trace s1) as Hdrop.
  { intros [n|] s1 x; simpl; [|by intros [= <-]].
    destruct (handle_drop n (bs_tab s1)); by intros [= <-]. }
  assert (∀ req path f md e, BOpen path f md (Err e) ∉ log_events32 p req) as Hlog.
  { intros req path f md e Hx. unfold log_events32 in Hx.
    apply elem_of_list_fmap in Hx as ([[a b] c] & ? & _). done. }
  assert (∀ m s1 o s2, dispatch32 env p m s1 = (o, s2) → ∃ seg, bs_trace s2 = bs_trace s1 ++ seg ∧
    ∀ path f md e, BOpen path f md (Err e) ∈ seg → e = EMFILE ∨ ∃ tr, be_open env tr path f = Err e) as Hdis.
  { intros m s1 o s2 Ed. destruct m as [|path flags|]; simpl in Ed.
    - injection Ed as <- <-. exists []. rewrite app_nil_r. split; [done|]. set_solver.
    - unfold proxied_open_file32 in Ed.
      destruct (fst (evaluate_request32 p (FileOpen path flags))).
      2-4: injection Ed as <- <-; eexists; split; [done|]; intros ???? H; by apply Hlog in H.
      destruct (contains _ _).
      { injection Ed as <- <-; eexists; split; [done|]; intros ???? H; by apply Hlog in H. }
      unfold sys_open in Ed. simpl in Ed.
      destruct (be_open env _ path flags) as [file|e'] eqn:Eo.
      + destruct (fd_install _ _ _) as [[n t2]|].
        * exists (log_events32 p (FileOpen path flags) ++ [BOpen path flags MODE_RW (Ok file)]).
          rewrite app_assoc. split.
          { destruct (handle_from_raw n); by injection Ed as <- <-. }
          intros ???? [H|H]%elem_of_app; [by apply Hlog in H|].
          by apply elem_of_list_singleton in H.
        * injection Ed as <- <-. eexists. simpl. rewrite <-app_assoc. split; [done|].
          intros ???? [H|H]%elem_of_app; [by apply Hlog in H|].
          apply elem_of_list_singleton in H. injection H as -> -> -> ->. by left.
      + injection Ed as <- <-. eexists. simpl. rewrite <-app_assoc. split; [done|].
        intros ???? [H|H]%elem_of_app; [by apply Hlog in H|].
        apply elem_of_list_singleton in H. injection H as -> -> -> ->. eauto.
    - injection Ed as <- <-. eexists; split; [done|]; intros ???? H; by apply Hlog in H. }
  destruct r as [[[m [n|]]|]|er].
  - exists []. rewrite app_nil_r. split; [|set_solver].
    destruct (drop_handle (Some n) _) as [x| |] eqn:Ex; injection E as <- <-; [|done|done].
    by rewrite (Hdrop _ _ _ Ex).
  - destruct (dispatch32 _ _ m _) as [o s2] eqn:Ed.
    destruct (Hdis _ _ _ _ Ed) as (seg & Hs2 & Hseg). simpl in Hs2.
    destruct o as [[code hd]| |].
    2,3: injection E as <- <-; eauto.
    pose proof (broker_send_spec env (OutSyscallResult code) hd s2) as Hsp.
    destruct (broker_send _ _ _ _) as [sent s3]. destruct Hsp as (ev' & Hs3 & He).
    assert (bs_trace s' = bs_trace s3) as Htr.
    { destruct sent.
      - destruct (drop_handle hd s3) as [x| |] eqn:Ex; injection E as _ <-; [|done|done].
        by rewrite (Hdrop _ _ _ Ex).
      - destruct (drop_handle hd s3) as [x| |] eqn:Ex; injection E as _ <-; [|done|done].
        by rewrite (Hdrop _ _ _ Ex). }
    simpl in Hs3. subst s3. simpl in Htr. rewrite Hs2 in Htr. rewrite <-app_assoc in Htr.
    eexists. split; [exact Htr|].
    intros ???? [H|H]%elem_of_app; [by eapply Hseg|].
    apply elem_of_list_singleton in H. subst ev'.
    destruct sent; [by destruct He as (? & ? & _)|done].
  - injection E as <- <-. exists []. rewrite app_nil_r. split; [done|set_solver].
  - injection E as <- <-. exists []. rewrite app_nil_r. split; [done|set_solver].
Qed.

Lemma openat_request32_spec env audit calls path flags w :
  kernel_ok env → be_abi (we_broker env) = Abi32 → set_up env audit calls →
  is_utf8 path → x00 ∉ path → short path → is_i32 flags → has_room env w →
  ∃ v w' os, openat_request32 env path flags w = (HRet v, w') ∧
    effect w w' [ReqOpenFile path flags] os ∧ w_dir w' = w_dir w ∧
    open_answer32 audit (rules_of calls) path flags os v (w_tab w) (w_tab w').
Proof.
  intros K H32 [Hp Haud] Hu Hn Hsh Hf Hroom. unfold openat_request32, send_recv32.
  set (m := ReqOpenFile path flags).
  assert (fits m) as Hfit by (by apply fits_open).
  assert (N.of_nat (length (enc_request m)) ≤ 65536) as Hlen by (unfold fits in Hfit; lia).
  assert (∃ d, channel_send enc_request (be_abi (we_broker env)) (we_sndbuf env) (w_tab w) m None
     IPC_MESSAGE_MAX_SIZE = Ok d) as [d Hd].
  { unfold channel_send, serialize, sys_sendmsg.
    unfold IPC_MESSAGE_MAX_SIZE.
    replace (N.of_nat (length (enc_request m)) <=? 65536) with true by lia.
    rewrite H32.
    assert (scm_send Abi32 (w_tab w) [] = Ok []) as -> by done.
    pose proof (ko_sndbuf_w _ K).
    replace (we_sndbuf env <? N.of_nat (length (enc_request m))) with false by lia. eauto. }
  rewrite Hd.
  assert (plain_request (EvDatagram d) m) as Hplain.
  { apply channel_send_payload in Hd as Hpay. destruct Hpay as (Hpay & Hsz & _).
    apply channel_send_files in Hd as Hfiles. destruct d as [pay fs]. cbn [dg_payload dg_files] in *.
    rewrite Hpay, Hfiles.
    exists (enc_request m), []. split; [done|]. split; [done|].
    rewrite <-(app_nil_r (enc_request m)) at 1. apply request_roundtrip.
    split; [split; [done|]|done]. unfold is_usize, short in *. lia. }
  assert (decides32 (we_policy env) audit (rules_of calls)) as Hdec.
  { rewrite Hp. apply runtime_decides32. }
  assert (env32 (we_broker env)) as Hb by (split; [done|apply (ko_limit_b _ K)]).
  destruct (broker_serves32 (we_broker env) (we_policy env) audit (rules_of calls) m (w_broker w)
    (EvDatagram d) Hb Hdec Hplain) as [bs Hbs].
  { intros ? ? [= <- <-]. done. }
  { apply (ko_send _ K). }
  { pose proof (ko_sndbuf_b _ K). lia. }
  rewrite Hbs.
  destruct (broker_step32_spec _ _ _ _ _ _ _ _ Hb Hdec Hbs) as (seg & Ht & Htab & m' & Hm' & Hseg).
  assert (m' = m) as -> by (by eapply plain_request_fun).
  destruct Hseg as (pre & code & files & -> & Hpre & Hans).
  assert (reply_event Serving (bs_trace bs) = EvDatagram (mkDgram (reply_bytes code) files)) as ->.
  { unfold reply_event. rewrite Ht, app_assoc, last_snoc. done. }
  destruct (step32_errno _ _ _ _ _ _ Hbs) as (seg' & Ht' & Herr).
  rewrite Ht in Ht'. apply app_inv_head in Ht'. subst seg'.
  set (os := opens (pre ++ [BSent (reply_bytes code) files])) in *.
  assert (∀ p f md e, (p, f, md, Err e) ∈ os → 0 < e < 4096) as Herr'.
  { intros p f md e Hin. unfold os, opens in Hin.
    apply elem_of_list_omap in Hin as (x & Hx & Ex).
    destruct x; try done. injection Ex as -> -> -> ->.
    destruct (Herr _ _ _ _ Hx) as [->|[tr Htr]]; [unfold EMFILE; lia|by eapply ko_errno]. }
  assert (∀ t' v, open_answer32 audit (rules_of calls) path flags os v (w_tab w) t' →
    ∃ v0 w' os0, (HRet v, mkWorld t' bs (w_sent w ++ [m]) (w_dir w)) = (HRet v0, w') ∧
      effect w w' [m] os0 ∧ w_dir w' = w_dir w ∧
      open_answer32 audit (rules_of calls) path flags os0 v0 (w_tab w) (w_tab w')) as Hfin.
  { intros t' v Hv. exists v, (mkWorld t' bs (w_sent w ++ [m]) (w_dir w)), os.
    split; [done|]. split; [|done]. split; [done|]. split; [|done].
    cbn [w_broker]. by rewrite Ht, opens_app. }
  cbn [w_tab].
  unfold m in Hans. cbn [right_answer32] in Hans.
  assert (- 4096 < code ≤ 0)%Z as Hc.
  { destruct Hans as [(_ & _ & -> & _)|(_ & res & Ho & Hres)]; [lia|].
    destruct res as [file|e]; [by destruct Hres as [-> _]|]. destruct Hres as [-> _].
    assert (0 < e < 4096) by (eapply Herr'; rewrite Ho; by apply elem_of_list_singleton). lia. }
  destruct (recv_reply (be_abi (we_broker env)) (we_limit env) code files (w_tab w))
    as (hd & t' & Hrecv & Hhd).
  { unfold is_i64. lia. }
  { apply (ko_limit_w _ K). }
  { intros _. done. }
  { destruct Hans as [(_ & _ & _ & ->)|(_ & res & _ & Hres)]; [by left|].
    destruct res as [file|e]; [|by left; destruct Hres].
    destruct Hres as [_ ->]. right. exists file. by left. }
  rewrite Hrecv. unfold set_tab. cbn [w_broker w_sent w_dir].
  destruct Hans as [(Hno & Ho & -> & ->)|(Hyes & res & Ho & Hres)].
  - destruct Hhd as [-> ->]. rewrite as_isize_small by lia. apply Hfin. left. done.
  - destruct res as [file|e].
    + destruct Hres as [-> ->]. destruct Hhd as [-> Hr]. apply Hfin.
      right. split; [done|]. exists (Ok file). done.
    + destruct Hres as [-> ->]. destruct Hhd as [-> ->]. rewrite as_isize_small by lia.
      apply Hfin. right. split; [done|]. exists (Err e). split; [done|].
      assert (0 < e < 4096) by (eapply Herr'; rewrite Ho; by apply elem_of_list_singleton). done.
Qed.

(* ---------------------------------------------------------------- C176: requests without the flag *)

(** The request for [m] does not have the flag. *)
Definition no_large (m : ipc_request) : Prop :=
  ∀ path flags, m = ReqOpenFile path flags → ¬ bit flags 15.

Lemma send_recv_same env m w :
  kernel_ok env → request_ok m → no_large m → send_recv32 env m w = send_recv env m w.
Proof.
  intros K Hok H. unfold send_recv32, send_recv.
  destruct (channel_send _ _ _ _ _ _ _) as [d|] eqn:Hd; [|done].
  rewrite step_same; [done|apply (ko_limit_b _ K)|].
  intros path flags Hp. apply not_true_is_false. apply (H path flags).
  apply channel_send_payload in Hd as Hpay. destruct Hpay as (Hpay & Hsz & _).
  apply (plain_request_fun (EvDatagram d)); [|done].
  apply channel_send_files in Hd as Hfiles. destruct d as [pay fs]. cbn [dg_payload dg_files] in *.
  rewrite Hpay, Hfiles. exists (enc_request m), []. split; [done|]. split; [done|].
  rewrite <-(app_nil_r (enc_request m)) at 1. by apply request_roundtrip.
Qed.

Lemma open_ok path flags : is_utf8 path → short path → is_i32 flags → request_ok (ReqOpenFile path flags).
Proof. intros Hu Hs Hf. split; [split; [done|]|done]. unfold is_usize, short in *. lia. Qed.
Lemma get_fd_same env path flags w :
  kernel_ok env → is_utf8 path → short path → is_i32 flags → ¬ bit flags 15 →
  get_fd_for_path_with_perms32 env path flags w = get_fd_for_path_with_perms env path flags w.
Proof.
  intros K Hu Hs Hf H. unfold get_fd_for_path_with_perms32, get_fd_for_path_with_perms.
  rewrite send_recv_same; [done..| |].
  - by apply open_ok.
  - by intros ? ? [= <- <-].
Qed.
Lemma current_dir_same env w : kernel_ok env → current_dir32 env w = current_dir env w.
Proof.
  intros K. unfold current_dir32, current_dir. destruct (we_filtered env); [|done].
  rewrite send_recv_same; [done..| |done]. destruct (ko_args _ K) as [Hl Ha].
  split; [|split; [done|split; [done|apply (ko_ip _ K)]]].
  unfold is_i64. by destruct (be_abi (we_broker env)).
Qed.
Lemma O_PATH_fine : is_i32 O_PATH ∧ ¬ bit O_PATH 15.
Proof. split; [unfold is_i32; by vm_compute|by vm_compute]. Qed.

(** Without the flag the handler does on i686 what WorkerModel.v says, so what WorkerProps.v
    proves for [trap] holds there. *)
Theorem C176_without_flag env audit calls r w :
  ready env audit calls w → regs_ok r →
  (∀ a s, we_mem env a = Some s → reasonable s) → (∀ d, we_cwd env = Some d → reasonable d) →
  (∀ path flags mode, opens_path env r path flags mode → ¬ bit flags 15) →
  (∀ path mode, accesses_path env r path mode → ¬ bit mode 15) →
  trap32 env r w = trap env r w.
Proof.
  intros (K & Hs & Hroom) (Hnr & Hargs & Hip) Hmem Hcwd Hopen Hacc.
  assert (∀ a s, we_mem env a = Some s → is_utf8 (lossy s) ∧ x00 ∉ lossy s ∧ short (lossy s)) as Hl.
  { intros a s H. split; [apply lossy_utf8|]. split; [by eapply lossy_nul, ko_mem|].
    eapply short_lossy, Hmem, H. }
  assert (∀ nb args ip, is_i64 nb → length args = 6%nat → Forall is_i64 args → is_i64 ip →
    handle_syscall32 env nb args ip w = handle_syscall env nb args ip w) as Hsys.
  { intros nb args ip H1 H2 H3 H4. unfold handle_syscall32, handle_syscall.
    by rewrite send_recv_same. }
  assert (∀ a s flags mode, we_mem env a = Some s → is_i32 flags → ¬ bit flags 15 →
    handle_openat32 env (lossy s) flags mode w = handle_openat env (lossy s) flags mode w) as Hop.
  { intros a s flags mode Hm Hf Hb. destruct (Hl a s Hm) as (Hu & Hn & Hsh).
    unfold handle_openat32, handle_openat. rewrite current_dir_same by done.
    destruct (starts_with_byte slash (lossy s)).
    - unfold openat_request32, openat_request. rewrite send_recv_same; [done..| |].
      + by apply open_ok. + by intros ? ? [= <- <-].
    - destruct (current_dir_spec env audit calls w K Hs) as (w1 & ms & Ec & _). rewrite Ec.
      destruct (absolute_ok (if we_filtered env && negb audit then None else we_cwd env) s)
        as (H1 & H2 & H3).
      { intros d Hdd. destruct (we_filtered env && negb audit); [done|].
        split; [by apply Hcwd|by eapply ko_cwd]. }
      { by eapply Hmem. }
      { by eapply ko_mem. }
      unfold openat_request32, openat_request. rewrite send_recv_same; [done..| |].
      + by apply open_ok. + by intros ? ? [= <- <-]. }
  destruct O_PATH_fine as [Hpi Hpb].
  assert (∀ a s, we_mem env a = Some s → handle_stat32 env (lossy s) w = handle_stat env (lossy s) w) as Hst.
  { intros a s Hm. destruct (Hl a s Hm) as (Hu & Hn & Hsh). unfold handle_stat32, handle_stat.
    by rewrite get_fd_same. }
  assert (∀ a s mode, we_mem env a = Some s → is_i32 mode → ¬ bit mode 15 →
    handle_access32 env (lossy s) mode w = handle_access env (lossy s) mode w) as Hac.
  { intros a s mode Hm Hi Hb. destruct (Hl a s Hm) as (Hu & Hn & Hsh).
    unfold handle_access32, handle_access. by rewrite get_fd_same. }
  assert (∀ a s, we_mem env a = Some s → handle_chdir32 env (lossy s) w = handle_chdir env (lossy s) w) as Hch.
  { intros a s Hm. destruct (Hl a s Hm) as (Hu & Hn & Hsh). unfold handle_chdir32, handle_chdir.
    rewrite get_fd_same by done.
    destruct (get_fd_spec env audit calls (lossy s) O_PATH w K Hs Hu Hn Hsh Hpi Hroom)
      as (x & w' & os & E & _ & _ & Hx).
    rewrite E. destruct x as [fd|v]; [|done]. destruct (we_filtered env); [|done].
    rewrite send_recv_same; [done..| |done].
    destruct Hx as (file & (-> & _) & _). destruct (ko_args _ K) as [Hlen Ha].
    split; [unfold is_i64; by destruct (be_abi (we_broker env))|].
    destruct (we_getcwd_args env) as [|z l]; [done|]. cbn [tail length] in *.
    split; [done|]. apply Forall_cons in Ha as [_ Ha]. split; [|apply (ko_ip _ K)].
    constructor; [|done].
    pose proof (lowest_free_le_size (w_tab w)). pose proof (ko_limit_w _ K).
    unfold has_room in Hroom. unfold is_i64. lia. }
  unfold r_args in Hargs.
  unfold trap32, trap, sigsys_handler32, sigsys_handler, read_string_from_ptr. cbv zeta.
  destruct (r_nr r =? nr_access _)%Z eqn:E1.
  { destruct (we_mem env (r0 r)) as [s|] eqn:Em; [|done]. cbn [fmap option_fmap option_map].
    eapply Hac; [done|apply as_i32_range|]. apply (Hacc s). split; [lia|]. done. }
  destruct (r_nr r =? nr_stat _)%Z eqn:E2.
  { destruct (we_mem env (r0 r)) as [s|] eqn:Em; [|done]. cbn [fmap option_fmap option_map]. by eapply Hst. }
  destruct (r_nr r =? nr_open _)%Z eqn:E3.
  { destruct (we_mem env (r0 r)) as [s|] eqn:Em; [|done]. cbn [fmap option_fmap option_map].
    eapply Hop; [done|apply as_i32_range|]. apply (Hopen s _ (as_i32 (r2 r))). left. split; [lia|]. done. }
  rewrite Hsys by done.
  destruct (r_nr r =? nr_openat _)%Z eqn:E4.
  { destruct (we_mem env (r1 r)) as [s|] eqn:Em; [|done]. cbn [fmap option_fmap option_map].
    destruct (as_i32 (r0 r) =? AT_FDCWD)%Z eqn:E5.
    - eapply Hop; [done|apply as_i32_range|]. apply (Hopen s _ (as_i32 (r3 r))). right.
      split; [lia|]. split; [left; lia|]. done.
    - destruct (starts_with_byte slash s) eqn:E6; [|done].
      eapply Hop; [done|apply as_i32_range|]. apply (Hopen s _ (as_i32 (r3 r))). right.
      split; [lia|]. split; [by right|]. done. }
  destruct (r_nr r =? nr_chdir _)%Z; [|done].
  destruct (we_mem env (r0 r)) as [s|] eqn:Em; [|done]. by eapply Hch.
Qed.
Print Assumptions C176_without_flag.

(* ---------------------------------------------------------------- C176: with the flag *)

Lemma open_spec32 env audit calls r path flags mode w :
  ready env audit calls w → be_abi (we_broker env) = Abi32 →
  opens_path env r path flags mode → reasonable path →
  (∀ d, we_cwd env = Some d → reasonable d) →
  ∃ v w' os ms, trap32 env r w = (HRet v, w') ∧
    effect w w' (ms ++ [ReqOpenFile (asked env audit path) flags]) os ∧
    (∀ m, m ∈ ms → ∃ nb args ip, m = ReqSyscall nb args ip) ∧
    (starts_with_byte slash path = true → ms = []) ∧
    w_dir w' = w_dir w ∧
    open_answer32 audit (rules_of calls) (asked env audit path) flags os v (w_tab w) (w_tab w').
Proof.
  intros (K & Hs & Hr) H32 Ho Hp Hcwd. rewrite (trap32_open _ _ _ _ _ _ Ho).
  assert (x00 ∉ path) as Hn.
  { destruct Ho as [(_ & Hm & _)|(_ & _ & Hm & _)]; by eapply ko_mem. }
  assert (is_i32 flags) as Hf.
  { destruct Ho as [(_ & _ & -> & _)|(_ & _ & _ & -> & _)]; apply as_i32_range. }
  unfold handle_openat32, asked. rewrite lossy_slash.
  destruct (starts_with_byte slash path) eqn:E.
  - destruct (openat_request32_spec env audit calls (lossy path) flags w) as (v & w' & os & H & He & Hd & Ha).
    + done. + done. + done. + apply lossy_utf8. + by apply lossy_nul. + by apply short_lossy. + done. + done.
    + exists v, w', os, []. split; [done|]. split; [done|]. split; [set_solver|]. done.
  - rewrite current_dir_same by done.
    destruct (current_dir_spec env audit calls w K Hs) as (w1 & ms & Ec & He1 & Hms & Hd1 & Ht1).
    rewrite Ec.
    destruct (absolute_ok (if we_filtered env && negb audit then None else we_cwd env) path)
      as (H1 & H2 & H3); [|done|done|].
    { intros d Hdd. destruct (we_filtered env && negb audit); [done|].
      split; [by apply Hcwd|by eapply ko_cwd]. }
    destruct (openat_request32_spec env audit calls
      (absolute (if we_filtered env && negb audit then None else we_cwd env) (lossy path)) flags w1)
      as (v & w' & os & H & He & Hd & Ha); [done..| |].
    { unfold has_room. by rewrite Ht1. }
    exists v, w', os, ms. split; [done|]. split.
    + exact (effect_trans _ _ _ _ _ _ _ He1 He).
    + split; [done|]. split; [done|]. split; [congruence|]. by rewrite <-Ht1.
Qed.

(** An open with any flags of an absolute path is asked for as it is and answered as the rules
    say; a descriptor of the file is given exactly when the broker could open it. *)
Theorem C176_open env audit calls r path flags mode w :
  ready env audit calls w → be_abi (we_broker env) = Abi32 →
  opens_path env r path flags mode → reasonable path →
  (∀ d, we_cwd env = Some d → reasonable d) →
  is_utf8 path → starts_with_byte slash path = true →
  ∃ v w' os, trap32 env r w = (HRet v, w') ∧ effect w w' [ReqOpenFile path flags] os ∧
    open_answer32 audit (rules_of calls) path flags os v (w_tab w) (w_tab w').
Proof.
  intros Hr H32 Ho Hp Hc Hu Ha.
  destruct (open_spec32 env audit calls r path flags mode w Hr H32 Ho Hp Hc)
    as (v & w' & os & ms & E & He & _ & Hms & _ & Hans).
  unfold asked in *. rewrite Ha in *. apply lossy_id in Hu. rewrite Hu in *.
  rewrite Hms in He by done. eauto 10.
Qed.
Print Assumptions C176_open.

(** Relative paths are asked for as on x86_64 (C34): from the current directory in audit mode or
    without a filter, from the root otherwise. *)
Theorem C176_relative env audit calls r path flags mode w cwd :
  ready env audit calls w → be_abi (we_broker env) = Abi32 →
  opens_path env r path flags mode → reasonable path →
  we_cwd env = Some cwd → reasonable cwd → is_utf8 path → is_utf8 cwd →
  starts_with_byte slash path = false →
  let p := if decide (audit = true ∨ we_filtered env = false) then meant cwd path
           else slash :: path in
  ∃ v w' os ms, trap32 env r w = (HRet v, w') ∧
    effect w w' (ms ++ [ReqOpenFile p flags]) os ∧
    (∀ m, m ∈ ms → ∃ nb args ip, m = ReqSyscall nb args ip) ∧
    open_answer32 audit (rules_of calls) p flags os v (w_tab w) (w_tab w').
Proof.
  intros Hr H32 Ho Hp Hc Hcr Hu Huc Ha p.
  destruct (open_spec32 env audit calls r path flags mode w Hr H32 Ho Hp)
    as (v & w' & os & ms & E & He & Hms & _ & _ & Hans).
  { intros d. rewrite Hc. by intros [= <-]. }
  assert (asked env audit path = p) as Hask.
  { subst p. unfold asked, meant, absolute. apply lossy_id in Hu, Huc. rewrite Ha, Hu, Hc.
    destruct (decide (audit = true ∨ we_filtered env = false)) as [Hm|Hm].
    - replace (we_filtered env && negb audit) with false
        by (destruct Hm as [-> | ->]; [by rewrite andb_false_r|done]).
      rewrite Huc. destruct (ends_with_byte slash cwd); [done|]. by rewrite <-app_assoc.
    - replace (we_filtered env && negb audit) with true; [done|].
      destruct audit, (we_filtered env); naive_solver. }
  rewrite Hask in *. eauto 10.
Qed.
Print Assumptions C176_relative.

(* open("/f", O_RDONLY | O_LARGEFILE | O_CLOEXEC) of a 32-bit program gives a descriptor of /f;
   with O_WRONLY it is refused; the model without the flag (x86_64) refuses both. open("f") opens /f,
   in audit mode /home/u/f, as without the flag. *)
Example C176_example :
  let env := exw_env false true (lit "/f") in
  (trap32 env (call 5 4096 0x88000) exw_world).1 = HRet 3%Z ∧
  fd_file <$> w_tab (trap32 env (call 5 4096 0x88000) exw_world).2 !! 3 = Some 43 ∧
  (trap32 env (call 5 4096 0x8001) exw_world).1 = HRet (-13)%Z ∧
  (trap env (call 5 4096 0x88000) exw_world).1 = HRet (-13)%Z ∧
  fd_file <$> w_tab (trap32 (exw_env false true (lit "f")) (call 5 4096 0x8000) exw_world).2 !! 3 = Some 43 ∧
  fd_file <$> w_tab (trap32 (exw_env true true (lit "f")) (call 5 4096 0x8000) exw_world).2 !! 3 = Some 42 ∧
  opens_path env (call 5 4096 0x88000) (lit "/f") 0x88000 0 ∧
  ready env false exw_calls exw_world ∧ be_abi (we_broker env) = Abi32.
Proof.
  do 6 (split; [by vm_compute|]).
  split; [left; done|]. split; [|done]. apply exw_ready.
  apply (bool_decide_unpack _); by vm_compute.
Qed.
