(** Lemmas about the worker model. *)
From stdpp Require Import prelude gmap.
From Coq Require Import Strings.Byte ZifyN ZifyNat ZifyBool.
From Verif Require Import Bytes BytesProofs PolicyModel PolicySpec LinuxPolicyModel
  LinuxPolicySpec LinuxPolicyProofs PostcardModel PostcardSpec PostcardProofs FdModel FdProofs
  ChannelModel ChannelProofs BrokerModel BrokerSpec BrokerProofs WorkerModel WorkerSpec.
Local Open Scope N_scope.

Lemma channel_send_ok a sb t code hd :
  15 ≤ sb →
  (∀ n, hd = Some n → n < 2 ^ 31 ∧ is_Some (t !! n) ∧ is_Some (t !! 0)) →
  ∃ d, channel_send enc_response a sb t (OutSyscallResult code) hd IPC_MESSAGE_MAX_SIZE = Ok d.
Proof.
  intros Hsb Hhd. unfold channel_send, serialize, sys_sendmsg.
  pose proof (syscall_result_size code) as Hs. unfold IPC_MESSAGE_MAX_SIZE.
  replace (N.of_nat (length (enc_response (OutSyscallResult code))) <=? 65536) with true by lia.
  replace (sb <? N.of_nat (length (enc_response (OutSyscallResult code)))) with false by lia.
  destruct hd as [n|].
  - destruct (Hhd n eq_refl) as (Hn & [e He] & [e0 He0]).
    rewrite scm_send_control by done. rewrite He. destruct a; [rewrite He0|]; eauto.
  - assert (scm_send a t [] = Ok []) as -> by (by destruct a). eauto.
Qed.

Lemma broker_serves env p audit h m s ev :
  be_limit env ≤ 2 ^ 31 → decides p audit h → plain_request ev m →
  (∀ path flags, m = ReqOpenFile path flags → x00 ∉ path) →
  (∀ tr, be_send env tr = None) → 15 ≤ be_sndbuf env →
  ∃ s', broker_step env p ev s = (Serving, s').
Proof.
  intros Hl Hp Hm Hnul Hsend Hsb. unfold broker_step.
  rewrite (recv_plain _ _ _ _ _ Hm).
  replace (mkBst (bs_tab s) (bs_trace s)) with s by (by destruct s).
  pose proof (dispatch_spec env p audit h m s Hl Hp) as (evs & Ht & Hrep & Hd).
  destruct (dispatch env p m s) as [o s1]. simpl in *.
  destruct o as [[code hd]| |]; [|done|].
  2:{ destruct Hd as (_ & _ & path & flags & -> & _ & Hn). by destruct (Hnul _ _ eq_refl). }
  unfold broker_send. rewrite Hsend.
  destruct (channel_send_ok (be_abi env) (be_sndbuf env) (bs_tab s1) code hd Hsb) as [d ->].
  { intros n ->. destruct Hd as (path & flags & file & e & _ & _ & _ & _ & _ & _ & Hnone & Hlt & Hlow & ->).
    split; [lia|]. rewrite lookup_insert. split; [by eexists|].
    destruct (decide (n = 0)) as [->|Hn0]; [rewrite lookup_insert; by eexists|].
    rewrite lookup_insert_ne by done. apply lowest_free_spec. lia. }
  destruct hd as [n|]; simpl.
  - destruct Hd as (path & flags & file & e & _ & _ & _ & _ & _ & _ & _ & _ & _ & ->).
    unfold handle_drop, sys_close. rewrite lookup_insert. eauto.
  - eauto.
Qed.

Lemma lowest_free_le_size t : lowest_free t ≤ N.of_nat (size t).
Proof.
  destruct (N.le_gt_cases (lowest_free t) (N.of_nat (size t))) as [H|H]; [done|exfalso].
  destruct (lowest_free_spec t) as [_ Hs].
  assert ((N.of_nat <$> seq 0 (S (size t))) ⊆+ (map_to_list t).*1) as Hsub.
  { apply NoDup_submseteq.
    - apply NoDup_fmap_2; [intros ???; lia|]. apply NoDup_seq.
    - intros x Hx. apply elem_of_list_fmap in Hx as (k & -> & Hk).
      apply elem_of_seq in Hk. destruct (Hs (N.of_nat k)) as [e He]; [lia|].
      apply elem_of_list_fmap. exists (N.of_nat k, e). split; [done|].
      by apply elem_of_map_to_list. }
  apply submseteq_length in Hsub. rewrite !fmap_length, seq_length in Hsub.
  change (length (map_to_list t)) with (size t) in Hsub. lia.
Qed.

Lemma fd_install_room limit e t :
  N.of_nat (size t) < limit →
  fd_install limit e t = Some (lowest_free t, <[lowest_free t := e]> t).
Proof.
  intros H. unfold fd_install. pose proof (lowest_free_le_size t).
  by replace (lowest_free t <? limit) with true by lia.
Qed.

(** The worker's side of a reply. *)
Lemma recv_reply a limit code files t :
  is_i64 code → limit ≤ 2 ^ 31 →
  (files ≠ [] → N.of_nat (size t) + 2 ≤ limit) →
  (files = [] ∨ ∃ f, files = [f] ∧ a = Abi32 ∨ ∃ g, files = [f; g] ∧ a = Abi64) →
  ∃ hd t', channel_recv dec_response a limit IPC_MESSAGE_MAX_SIZE
      (EvDatagram (mkDgram (reply_bytes code) files)) t =
      (Ok (Some (RespSyscallResult code, hd)), t') ∧
    match files with
    | [] => hd = None ∧ t' = t
    | f :: _ => hd = Some (lowest_free t) ∧ received t t' f (lowest_free t)
    end.
Proof.
  intros Hc Hl Hroom Hf.
  pose proof (syscall_result_size code) as Hs. fold (reply_bytes code) in Hs.
  assert (dec_response (reply_bytes code) = Some (RespSyscallResult code, [])) as Hdec.
  { rewrite <-(app_nil_r (reply_bytes code)). by apply syscall_result_roundtrip. }
  assert (∀ ns, (match handle_from_raw ns with Some h => Some (Some h) | None => None end) =
     Some (Some ns) ∨ limit ≤ ns) as Hraw.
  { intros n. unfold handle_from_raw. destruct (n <? 2 ^ 31) eqn:E; [by left|right; lia]. }
  assert (reply_bytes code ≠ []) as Hne.
  { intros E. rewrite E in Hdec. done. }
  assert (Nat.eqb (length (reply_bytes code)) 0 = false) as Hlen.
  { by destruct (reply_bytes code). }
  unfold channel_recv, sys_recvmsg.
  cbn [dg_payload dg_files].
  replace (IPC_MESSAGE_MAX_SIZE <? N.of_nat (length (reply_bytes code))) with false
    by (unfold IPC_MESSAGE_MAX_SIZE; lia).
  rewrite take_ge by (unfold IPC_MESSAGE_MAX_SIZE; lia).
  pose proof (lowest_free_le_size t) as Hlow.
  set (rb := reply_bytes code) in *. clearbody rb.
  destruct Hf as [->|(f & [[-> ->]|(g & -> & ->)])].
  - simpl. rewrite Hlen. unfold deserialize. rewrite Hdec. eauto.
  - specialize (Hroom ltac:(done)). change (N.to_nat (if CMSG_SIZE Abi32 <=? cmsghdr_size Abi32 then 0
      else (CMSG_SIZE Abi32 - cmsghdr_size Abi32) / 4)) with 1%nat.
    simpl. rewrite fd_install_room by lia. simpl.
    destruct (Hraw (lowest_free t)) as [->|?]; [|lia]. rewrite Hlen. unfold deserialize. rewrite Hdec.
    eexists _, _. split; [done|]. split; [done|]. split; [done|]. rewrite lookup_insert.
    split; [done|]. intros k e He. rewrite lookup_insert_ne; [done|].
    intros <-. by rewrite lowest_free_None in He.
  - specialize (Hroom ltac:(done)). change (N.to_nat (if CMSG_SIZE Abi64 <=? cmsghdr_size Abi64 then 0
      else (CMSG_SIZE Abi64 - cmsghdr_size Abi64) / 4)) with 2%nat.
    simpl. rewrite fd_install_room by lia. simpl.
    set (t1 := <[lowest_free t:=mkFd f FD_CLOEXEC]> t).
    assert (size t1 = S (size t)) as Hsz.
    { apply map_size_insert_None, lowest_free_None. }
    rewrite (fd_install_room _ _ t1) by lia. simpl.
    destruct (Hraw (lowest_free t)) as [->|?]; [|lia]. rewrite Hlen. unfold deserialize. rewrite Hdec.
    eexists _, _. split; [done|]. split; [done|]. split; [done|].
    assert (lowest_free t1 ≠ lowest_free t) as Hne2.
    { intros E. pose proof (lowest_free_None t1) as H. rewrite E in H. unfold t1 in H.
      by rewrite lookup_insert in H. }
    rewrite lookup_insert_ne by done. unfold t1 at 1. rewrite lookup_insert. split; [done|].
    intros k e He. assert (k ≠ lowest_free t) as Hk.
    { intros ->. by rewrite lowest_free_None in He. }
    assert (t1 !! k = Some e) as Ht1 by (unfold t1; by rewrite lookup_insert_ne).
    rewrite lookup_insert_ne; [done|]. intros <-. by rewrite lowest_free_None in Ht1.
Qed.

Lemma fits_syscall nb args ip :
  length args = 6%nat → fits (ReqSyscall nb args ip).
Proof.
  intros H. unfold fits, enc_request, enc_array, enc_i64, enc_u64, enc_u32.
  rewrite !app_length. pose proof (enc_varint_length 5 2) as H1.
  pose proof (enc_varint_length 10 (zigzag nb)) as H2.
  pose proof (enc_varint_length 10 (zigzag ip)) as H3.
  do 6 (destruct args as [|? args]; [done|]). destruct args; [|done]. cbn [map concat].
  rewrite !app_length.
  pose proof (enc_varint_length 10 (zigzag z)). pose proof (enc_varint_length 10 (zigzag z0)).
  pose proof (enc_varint_length 10 (zigzag z1)). pose proof (enc_varint_length 10 (zigzag z2)).
  pose proof (enc_varint_length 10 (zigzag z3)). pose proof (enc_varint_length 10 (zigzag z4)).
  change (length []) with 0%nat. lia.
Qed.

Lemma fits_open path flags : short path → fits (ReqOpenFile path flags).
Proof.
  intros H. unfold fits, short, enc_request, enc_str, enc_bytes, enc_i32, enc_u64, enc_u32 in *.
  rewrite !app_length. pose proof (enc_varint_length 5 1) as H1.
  pose proof (enc_varint_length 10 (N.of_nat (length path))) as H2.
  pose proof (enc_varint_length 5 (zigzag flags)) as H3. lia.
Qed.

(** Errors of open(2) in the trace come from the kernel or from a full table. *)
Lemma step_errno env p ev s st s' :
  broker_step env p ev s = (st, s') →
  ∃ seg, bs_trace s' = bs_trace s ++ seg ∧
    ∀ path f md e, BOpen path f md (Err e) ∈ seg → e = EMFILE ∨ ∃ tr, be_open env tr path f = Err e.
Proof.
  intros E. unfold broker_step in E.
  destruct (channel_recv _ _ _ _ _ _) as [r t'].
  assert (∀ hd s1 x, drop_handle hd s1 = Done x → bs_trace x = bs_trace s1) as Hdrop.
  { intros [n|] s1 x; simpl; [|by intros [= <-]].
    destruct (handle_drop n (bs_tab s1)); by intros [= <-]. }
  assert (∀ req path f md e, BOpen path f md (Err e) ∉ log_events p req) as Hlog.
  { intros req path f md e Hx. unfold log_events in Hx.
    apply elem_of_list_fmap in Hx as ([[a b] c] & ? & _). done. }
  assert (∀ m s1 o s2, dispatch env p m s1 = (o, s2) → ∃ seg, bs_trace s2 = bs_trace s1 ++ seg ∧
    ∀ path f md e, BOpen path f md (Err e) ∈ seg → e = EMFILE ∨ ∃ tr, be_open env tr path f = Err e) as Hdis.
  { intros m s1 o s2 Ed. destruct m as [|path flags|]; simpl in Ed.
    - injection Ed as <- <-. exists []. rewrite app_nil_r. split; [done|]. set_solver.
    - unfold proxied_open_file in Ed.
      destruct (fst (evaluate_request p (FileOpen path flags))).
      2-4: injection Ed as <- <-; eexists; split; [done|]; intros ???? H; by apply Hlog in H.
      destruct (contains _ _).
      { injection Ed as <- <-; eexists; split; [done|]; intros ???? H; by apply Hlog in H. }
      unfold sys_open in Ed. simpl in Ed.
      destruct (be_open env _ path flags) as [file|e'] eqn:Eo.
      + destruct (fd_install _ _ _) as [[n t2]|].
        * exists (log_events p (FileOpen path flags) ++ [BOpen path flags MODE_RW (Ok file)]).
          rewrite app_assoc. split.
          { destruct (handle_from_raw n); by injection Ed as <- <-. }
          intros ???? [H|H]%elem_of_app; [by apply Hlog in H|].
          by apply elem_of_list_singleton in H.
        * injection Ed as <- <-. eexists. simpl. rewrite <-app_assoc. split; [done|].
          intros ???? [H|H]%elem_of_app; [by apply Hlog in H|].
          apply elem_of_list_singleton in H. injection H as -> -> -> ->. by left.
      + injection Ed as <- <-. eexists. simpl. rewrite <-app_assoc. split; [done|].
        intros ???? [H|H]%elem_of_app; [by apply Hlog in H|].
        apply elem_of_list_singleton in H. injection H as -> -> -> ->. eauto.
    - injection Ed as <- <-. eexists; split; [done|]; intros ???? H; by apply Hlog in H. }
  destruct r as [[[m [n|]]|]|er].
  - exists []. rewrite app_nil_r. split; [|set_solver].
    destruct (drop_handle (Some n) _) as [x| |] eqn:Ex; injection E as <- <-; [|done|done].
    by rewrite (Hdrop _ _ _ Ex).
  - destruct (dispatch _ _ m _) as [o s2] eqn:Ed.
    destruct (Hdis _ _ _ _ Ed) as (seg & Hs2 & Hseg). simpl in Hs2.
    destruct o as [[code hd]| |].
    2,3: injection E as <- <-; eauto.
    pose proof (broker_send_spec env (OutSyscallResult code) hd s2) as Hsp.
    destruct (broker_send _ _ _ _) as [sent s3]. destruct Hsp as (ev' & Hs3 & He).
    assert (bs_trace s' = bs_trace s3) as Htr.
    { destruct sent.
      - destruct (drop_handle hd s3) as [x| |] eqn:Ex; injection E as _ <-; [|done|done].
        by rewrite (Hdrop _ _ _ Ex).
      - destruct (drop_handle hd s3) as [x| |] eqn:Ex; injection E as _ <-; [|done|done].
        by rewrite (Hdrop _ _ _ Ex). }
    simpl in Hs3. subst s3. simpl in Htr. rewrite Hs2 in Htr. rewrite <-app_assoc in Htr.
    eexists. split; [exact Htr|].
    intros ???? [H|H]%elem_of_app; [by eapply Hseg|].
    apply elem_of_list_singleton in H. subst ev'.
    destruct sent; [by destruct He as (? & ? & _)|done].
  - injection E as <- <-. exists []. rewrite app_nil_r. split; [done|set_solver].
  - injection E as <- <-. exists []. rewrite app_nil_r. split; [done|set_solver].
Qed.

(** One exchange. *)
Lemma send_recv_spec env audit calls m w :
  kernel_ok env → set_up env audit calls → request_ok m → fits m →
  (∀ path flags, m = ReqOpenFile path flags → x00 ∉ path ∧ has_room env w) →
  ∃ code hd w' os,
    send_recv env m w = (HRet (RespSyscallResult code, hd), w') ∧
    opens (bs_trace (w_broker w')) = opens (bs_trace (w_broker w)) ++ os ∧
    bs_tab (w_broker w') = bs_tab (w_broker w) ∧
    w_sent w' = w_sent w ++ [m] ∧ w_dir w' = w_dir w ∧
    exchange audit (rules_of calls) m os code hd (w_tab w) (w_tab w').
Proof.
  intros K [Hp Haud] Hok Hfit Hopen. unfold send_recv.
  assert (∀ path flags, m = ReqOpenFile path flags → x00 ∉ path) as Hnul by naive_solver.
  assert (∃ d, channel_send enc_request (be_abi (we_broker env)) (we_sndbuf env) (w_tab w) m None
     IPC_MESSAGE_MAX_SIZE = Ok d) as [d Hd].
  { unfold channel_send, serialize, sys_sendmsg.
    unfold fits in Hfit. unfold IPC_MESSAGE_MAX_SIZE.
    replace (N.of_nat (length (enc_request m)) <=? 65536) with true by lia.
    assert (scm_send (be_abi (we_broker env)) (w_tab w) [] = Ok []) as ->
      by (by destruct (be_abi (we_broker env))).
    pose proof (ko_sndbuf_w _ K).
    replace (we_sndbuf env <? N.of_nat (length (enc_request m))) with false by lia. eauto. }
  rewrite Hd.
  assert (plain_request (EvDatagram d) m) as Hplain.
  { apply channel_send_payload in Hd as Hpay. destruct Hpay as (Hpay & Hsz & _).
    apply channel_send_files in Hd as Hfiles. destruct d as [pay fs]. simpl in *. subst.
    eexists _, []. split; [done|]. split; [done|].
    rewrite <-(app_nil_r (enc_request m)). by apply request_roundtrip. }
  assert (decides (we_policy env) audit (rules_of calls)) as Hdec.
  { rewrite Hp. apply runtime_decides. }
  destruct (broker_serves (we_broker env) (we_policy env) audit (rules_of calls) m (w_broker w)
    (EvDatagram d) (ko_limit_b _ K) Hdec Hplain Hnul (ko_send _ K)) as [bs Hbs].
  { pose proof (ko_sndbuf_b _ K). lia. }
  rewrite Hbs.
  destruct (broker_step_spec _ _ _ _ _ _ _ _ (ko_limit_b _ K) Hdec Hbs) as (seg & Ht & Htab & m' & Hm' & Hseg).
  assert (m' = m) as -> by (by eapply plain_request_fun).
  destruct Hseg as (pre & code & files & -> & Hpre & Hans).
  assert (reply_event Serving (bs_trace bs) = EvDatagram (mkDgram (reply_bytes code) files)) as ->.
  { unfold reply_event. rewrite Ht, app_assoc, last_snoc. done. }
  destruct (step_errno _ _ _ _ _ _ Hbs) as (seg' & Ht' & Herr).
  rewrite Ht in Ht'. apply app_inv_head in Ht'. subst seg'.
  set (os := opens (pre ++ [BSent (reply_bytes code) files])) in *.
  assert (∀ p f md e, (p, f, md, Err e) ∈ os → 0 < e < 4096) as Herr'.
  { intros p f md e Hin. unfold os, opens in Hin.
    apply elem_of_list_omap in Hin as (x & Hx & Ex).
    destruct x; try done. injection Ex as -> -> -> ->.
    destruct (Herr _ _ _ _ Hx) as [->|[tr Htr]]; [unfold EMFILE; lia|by eapply ko_errno]. }
  assert (∃ hd t', channel_recv dec_response (be_abi (we_broker env)) (we_limit env)
      IPC_MESSAGE_MAX_SIZE (EvDatagram (mkDgram (reply_bytes code) files)) (w_tab w) =
      (Ok (Some (RespSyscallResult code, hd)), t') ∧
      exchange audit (rules_of calls) m os code hd (w_tab w) t') as (hd & t' & Hrecv & Hex).
  { assert ((- 4096 < code ≤ 0)%Z ∧
      (files = [] ∧ (code < 0)%Z ∨ code = 0%Z ∧ (∃ f, files = [f] ∧ be_abi (we_broker env) = Abi32 ∨
         ∃ g, files = [f; g] ∧ be_abi (we_broker env) = Abi64))) as [Hc Hfiles].
    { destruct m as [|path flags|nb args ip]; simpl in Hans.
      - destruct Hans as (_ & -> & ->). split; [lia|by left].
      - destruct Hans as [(_ & _ & -> & ->)|(Hu & res & Ho & Hres)]; [split; [lia|by left]|].
        destruct res as [file|e].
        + destruct Hres as [-> Hatt]. split; [lia|]. right. split; [done|].
          unfold attached in Hatt. destruct (be_abi (we_broker env)).
          * destruct Hatt as (f0 & -> & _). eexists; right; eauto.
          * eexists; left; eauto.
        + destruct Hres as [-> ->]. assert (0 < e < 4096).
          { eapply Herr'. rewrite Ho. by apply elem_of_list_singleton. }
          split; [lia|]. left. split; [done|lia].
      - destruct Hans as (_ & -> & ->). split; [lia|by left]. }
    destruct (recv_reply (be_abi (we_broker env)) (we_limit env) code files (w_tab w))
      as (hd & t' & Hrecv & Hhd).
    - unfold is_i64. lia.
    - apply (ko_limit_w _ K).
    - intros Hne. destruct m as [|path flags|]; simpl in Hans.
      + by destruct Hans as (_ & _ & ->).
      + by destruct (Hopen _ _ eq_refl).
      + by destruct Hans as (_ & _ & ->).
    - destruct Hfiles as [[-> _]|[_ ?]]; [by left|by right].
    - exists hd, t'. split; [done|]. split.
      + intros ->. destruct files as [|f fs]; [|by destruct Hhd].
        destruct Hhd as [_ ->]. split; [done|].
        destruct Hfiles as [[_ ?]|[_ (? & [[? _]|(? & ? & _)])]]; try done. lia.
      + destruct m as [|path flags|nb args ip]; simpl in Hans.
        * destruct Hans as (-> & -> & ->). by destruct Hhd as [-> _].
        * destruct Hans as [(Hu & Ho & -> & ->)|(Hu & res & Ho & Hres)].
          { left. by destruct Hhd as [-> _]. }
          right. split; [done|]. exists res. split; [done|].
          destruct res as [file|e].
          -- destruct Hres as [-> Hatt]. split; [done|].
             assert (∃ fs, files = file :: fs) as [fs ->].
             { unfold attached in Hatt. destruct (be_abi (we_broker env));
                 [destruct Hatt as (? & -> & _)|]; eauto. }
             destruct Hhd as [-> Hr]. eauto.
          -- destruct Hres as [-> ->]. by destruct Hhd as [-> _].
        * destruct Hans as (-> & -> & ->). by destruct Hhd as [-> _]. }
  cbn [w_tab]. rewrite Hrecv. eexists _, _, _, _. split; [done|]. simpl.
  split; [by rewrite Ht, opens_app|]. split; [done|]. split; [done|]. split; [done|]. done.
Qed.

(** Lossy conversion. *)
Lemma bad_len_bounds b s : (1 ≤ bad_len (b :: s) ≤ length (b :: s))%nat.
Proof.
  unfold bad_len. destruct s as [|c s]; simpl; [lia|].
  repeat case_match; simpl; lia.
Qed.

Lemma is_utf8_nil : is_utf8 [].
Proof. by exists []. Qed.
Lemma is_utf8_app a b : is_utf8 a → is_utf8 b → is_utf8 (a ++ b).
Proof.
  intros (ca & Ha & ->) (cb & Hb & ->). exists (ca ++ cb). split; [by apply Forall_app|].
  by rewrite map_app, concat_app.
Qed.
Lemma is_utf8_replacement : is_utf8 replacement.
Proof. apply utf8_valid_spec. by vm_compute. Qed.

Lemma lossy_aux_spec fuel s :
  (length s ≤ fuel)%nat →
  is_utf8 (lossy_aux fuel s) ∧ (length (lossy_aux fuel s) ≤ 3 * length s)%nat ∧
  (x00 ∉ s → x00 ∉ lossy_aux fuel s) ∧ (is_utf8 s → lossy_aux fuel s = s).
Proof.
  revert s. induction fuel as [|f IH]; intros s Hl.
  { destruct s; [|simpl in Hl; lia]. split_and!; [apply is_utf8_nil|simpl; lia|done|done]. }
  destruct s as [|b s].
  { split_and!; [apply is_utf8_nil|simpl; lia|done|done]. }
  change (lossy_aux (S f) (b :: s)) with
    (match utf8_head (b :: s) with
     | Some n => take n (b :: s) ++ lossy_aux f (drop n (b :: s))
     | None => replacement ++ lossy_aux f (drop (bad_len (b :: s)) (b :: s)) end).
  destruct (utf8_head (b :: s)) as [n|] eqn:E.
  - pose proof E as E'. apply utf8_head_encode in E as (c & Hc & Et & Hn & Hlen).
    destruct (IH (drop n (b :: s))) as (H1 & H2 & H3 & H4).
    { rewrite drop_length. simpl in *. lia. }
    split_and!.
    + apply is_utf8_app; [|done]. rewrite Et. exists [c]. split; [by constructor|].
      simpl. by rewrite app_nil_r.
    + rewrite app_length, Hlen. rewrite drop_length in H2. rewrite take_length in Hlen. lia.
    + intros Hno. rewrite elem_of_app. intros [Hin|Hin].
      * apply Hno. rewrite <-(take_drop n (b :: s)), elem_of_app. by left.
      * apply H3 in Hin; [done|]. intros Hin'. apply Hno.
        rewrite <-(take_drop n (b :: s)), elem_of_app. by right.
    + intros Hu. rewrite H4; [by rewrite take_drop|].
      apply utf8_valid_spec in Hu. unfold utf8_valid in Hu.
      cbn [length] in Hu.
      change (utf8_valid_aux (S (length s)) (b :: s)) with
        (match utf8_head (b :: s) with
         | Some n => utf8_valid_aux (length s) (drop n (b :: s)) | None => false end) in Hu.
      rewrite E' in Hu. apply utf8_valid_aux_spec in Hu; [done|].
      rewrite drop_length. simpl. lia.
  - pose proof (bad_len_bounds b s) as Hb.
    destruct (IH (drop (bad_len (b :: s)) (b :: s))) as (H1 & H2 & H3 & H4).
    { rewrite drop_length. simpl in *. lia. }
    split_and!.
    + apply is_utf8_app; [apply is_utf8_replacement|done].
    + rewrite app_length. rewrite drop_length in H2. change (length replacement) with 3%nat. lia.
    + intros Hno. rewrite elem_of_app. intros [Hin|Hin].
      * unfold replacement in Hin. set_solver.
      * apply H3 in Hin; [done|]. intros Hin'. apply Hno.
        rewrite <-(take_drop (bad_len (b :: s)) (b :: s)), elem_of_app. by right.
    + intros Hu. exfalso. apply utf8_valid_spec in Hu. unfold utf8_valid in Hu.
      cbn [length] in Hu.
      change (utf8_valid_aux (S (length s)) (b :: s)) with
        (match utf8_head (b :: s) with
         | Some n => utf8_valid_aux (length s) (drop n (b :: s)) | None => false end) in Hu.
      by rewrite E in Hu.
Qed.

Lemma lossy_utf8 s : is_utf8 (lossy s).
Proof. by apply lossy_aux_spec. Qed.
Lemma lossy_length s : (length (lossy s) ≤ 3 * length s)%nat.
Proof. by apply lossy_aux_spec. Qed.
Lemma lossy_nul s : x00 ∉ s → x00 ∉ lossy s.
Proof. by apply lossy_aux_spec. Qed.
Lemma lossy_id s : lossy s = s ↔ is_utf8 s.
Proof. split; [intros <-; apply lossy_utf8|]. by apply lossy_aux_spec. Qed.

(** The first byte: a conversion keeps a leading slash and makes none. *)
Lemma lossy_slash s : starts_with_byte slash (lossy s) = starts_with_byte slash s.
Proof.
  unfold lossy. destruct s as [|b s]; [done|].
  change (lossy_aux (length (b :: s)) (b :: s)) with
    (match utf8_head (b :: s) with
     | Some n => take n (b :: s) ++ lossy_aux (length s) (drop n (b :: s))
     | None => replacement ++ lossy_aux (length s) (drop (bad_len (b :: s)) (b :: s)) end).
  destruct (utf8_head (b :: s)) as [n|] eqn:E.
  - pose proof E as E'. apply utf8_head_encode in E' as (c & _ & _ & Hn & _).
    destruct n; [lia|]. done.
  - simpl. destruct (decide (b = slash)) as [->|Hb]; [done|].
    unfold starts_with_byte. by rewrite bool_decide_eq_false_2.
Qed.

Lemma as_i32_range z : is_i32 (as_i32 z).
Proof. unfold is_i32, as_i32, wrap. change (2 ^ (32 - 1))%Z with (2 ^ 31)%Z. lia. Qed.
Lemma as_isize_small a z : (- 4096 < z < 4096)%Z → as_isize a z = z.
Proof.
  intros H. unfold as_isize, wrap. destruct a;
    [change (2 ^ (64 - 1))%Z with (2 ^ 63)%Z|change (2 ^ (32 - 1))%Z with (2 ^ 31)%Z];
    rewrite Z.mod_small by lia; lia.
Qed.

(** Handlers. *)
Lemma open_exchange env audit calls path flags w :
  kernel_ok env → set_up env audit calls → is_utf8 path → x00 ∉ path → short path →
  is_i32 flags → has_room env w →
  ∃ code hd w' os,
    send_recv env (ReqOpenFile path flags) w = (HRet (RespSyscallResult code, hd), w') ∧
    effect w w' [ReqOpenFile path flags] os ∧ w_dir w' = w_dir w ∧
    exchange audit (rules_of calls) (ReqOpenFile path flags) os code hd (w_tab w) (w_tab w').
Proof.
  intros K Hs Hu Hn Hsh Hf Hr.
  destruct (send_recv_spec env audit calls (ReqOpenFile path flags) w K Hs)
    as (code & hd & w' & os & E & Ho & Ht & Hsent & Hd & Hex).
  - split; [split; [done|]|done]. unfold is_usize, short in *. lia.
  - by apply fits_open.
  - intros ? ? [= <- <-]. done.
  - exists code, hd, w', os. done.
Qed.

Lemma syscall_exchange env audit calls nb args ip w :
  kernel_ok env → set_up env audit calls → is_i64 nb → length args = 6%nat →
  Forall is_i64 args → is_i64 ip →
  ∃ w', send_recv env (ReqSyscall nb args ip) w = (HRet (RespSyscallResult (-38), None), w') ∧
    effect w w' [ReqSyscall nb args ip] [] ∧ w_dir w' = w_dir w ∧ w_tab w' = w_tab w.
Proof.
  intros K Hs Hnb Hl Ha Hip.
  destruct (send_recv_spec env audit calls (ReqSyscall nb args ip) w K Hs)
    as (code & hd & w' & os & E & Ho & Ht & Hsent & Hd & Hnone & -> & -> & ->).
  - done.
  - by apply fits_syscall.
  - done.
  - exists w'. split; [done|]. split; [done|]. split; [done|]. by apply Hnone.
Qed.

Lemma openat_request_spec env audit calls path flags w :
  kernel_ok env → set_up env audit calls → is_utf8 path → x00 ∉ path → short path →
  is_i32 flags → has_room env w →
  ∃ v w' os, openat_request env path flags w = (HRet v, w') ∧
    effect w w' [ReqOpenFile path flags] os ∧ w_dir w' = w_dir w ∧
    open_answer audit (rules_of calls) path flags os v (w_tab w) (w_tab w').
Proof.
  intros K Hs Hu Hn Hsh Hf Hr.
  destruct (open_exchange env audit calls path flags w) as (code & hd & w' & os & E & He & Hd & Hnone & Hex);
    [done..|].
  unfold openat_request. rewrite E.
  destruct Hex as [(Hno & -> & -> & ->)|(Hyes & res & -> & Hres)].
  - destruct Hnone as [Ht _]; [done|].
    rewrite as_isize_small by lia. eexists _, _, _. split; [done|]. split; [done|]. split; [done|].
    left. done.
  - destruct res as [file|e].
    + destruct Hres as (-> & n & -> & Hrec). eexists _, _, _. split; [done|].
      split; [done|]. split; [done|]. right. split; [done|]. eexists. split; [done|]. simpl.
      destruct Hrec as [-> ?]. done.
    + destruct Hres as (-> & ->). destruct Hnone as [Ht Hc]; [done|].
      rewrite as_isize_small by lia. eexists _, _, _. split; [done|]. split; [done|]. split; [done|].
      right. split; [done|]. eexists. split; [done|]. simpl. split_and!; [done|lia|lia|done].
Qed.

Lemma get_fd_spec env audit calls path flags w :
  kernel_ok env → set_up env audit calls → is_utf8 path → x00 ∉ path → short path →
  is_i32 flags → has_room env w →
  ∃ r w' os, get_fd_for_path_with_perms env path flags w = (HRet r, w') ∧
    effect w w' [ReqOpenFile path flags] os ∧ w_dir w' = w_dir w ∧
    match r with
    | inr v => w_tab w' = w_tab w ∧
        probe_answer audit (rules_of calls) path flags os v (λ _ _, False)
    | inl n => ∃ file, received (w_tab w) (w_tab w') file n ∧
        user_allows audit (rules_of calls) path flags ∧ os = [(path, flags, 384%Z, Ok file)]
    end.
Proof.
  intros K Hs Hu Hn Hsh Hf Hr.
  destruct (open_exchange env audit calls path flags w) as (code & hd & w' & os & E & He & Hd & Hnone & Hex);
    [done..|].
  unfold get_fd_for_path_with_perms. rewrite E.
  destruct Hex as [(Hno & -> & -> & ->)|(Hyes & res & -> & Hres)].
  - destruct Hnone as [Ht _]; [done|]. rewrite as_isize_small by lia.
    eexists (inr _), _, _. split; [done|]. split; [done|]. split; [done|]. split; [done|]. by left.
  - destruct res as [file|e].
    + destruct Hres as (-> & n & -> & Hrec). eexists (inl _), _, _. split; [done|].
      split; [done|]. split; [done|]. eauto.
    + destruct Hres as (-> & ->). destruct Hnone as [Ht Hc]; [done|].
      replace (- Z.of_N e <? 0)%Z with true by lia. rewrite as_isize_small by lia.
      eexists (inr _), _, _. split; [done|]. split; [done|]. split; [done|]. split; [done|].
      right. split; [done|]. eexists. split; [done|]. simpl. lia.
Qed.

Lemma drop_received env t file n v w :
  received t (w_tab w) file n → we_limit env ≤ 2 ^ 31 →
  drop_and_return n v w = (HRet v, set_tab w (delete n (w_tab w))) ∧ kept t (delete n (w_tab w)).
Proof.
  intros (-> & Hn & Hk) Hl. unfold drop_and_return, handle_drop, sys_close. rewrite Hn.
  split; [done|]. intros k e He. rewrite lookup_delete_ne; [by apply Hk|].
  intros <-. by rewrite lowest_free_None in He.
Qed.

Lemma effect_set_tab w w' t ms os : effect w w' ms os → effect w (set_tab w' t) ms os.
Proof. done. Qed.
Lemma effect_trans w1 w2 w3 ms1 ms2 os1 os2 :
  effect w1 w2 ms1 os1 → effect w2 w3 ms2 os2 → effect w1 w3 (ms1 ++ ms2) (os1 ++ os2).
Proof.
  intros (H1 & H2 & H3) (H4 & H5 & H6). unfold effect.
  rewrite H4, H1, H5, H2, H6, H3, !app_assoc. done.
Qed.

Lemma probe_weaken audit h path flags os v (P Q : N → Z → Prop) :
  (∀ f x, P f x → Q f x) →
  probe_answer audit h path flags os v P → probe_answer audit h path flags os v Q.
Proof.
  intros H [?|(Hy & res & -> & Hres)]; [by left|right]. split; [done|]. eexists. split; [done|].
  destruct res; [by apply H|done].
Qed.

Lemma handle_access_spec env audit calls path mode w :
  kernel_ok env → set_up env audit calls → is_utf8 path → x00 ∉ path → short path →
  is_i32 mode → has_room env w →
  ∃ v w' os, handle_access env path mode w = (HRet v, w') ∧
    effect w w' [ReqOpenFile path mode] os ∧ w_dir w' = w_dir w ∧ kept (w_tab w) (w_tab w') ∧
    probe_answer audit (rules_of calls) path mode os v (λ _ v, v = 0%Z).
Proof.
  intros K Hs Hu Hn Hsh Hf Hr.
  destruct (get_fd_spec env audit calls path mode w) as (r & w' & os & E & He & Hd & Hr'); [done..|].
  unfold handle_access. rewrite E. destruct r as [n|v].
  - destruct Hr' as (file & Hrec & Hu' & ->).
    destruct (drop_received env _ _ _ 0%Z _ Hrec (ko_limit_w _ K)) as [-> Hk].
    eexists _, _, _. split; [done|]. split; [by apply effect_set_tab|]. split; [done|].
    split; [done|]. right. split; [done|]. eexists. by split.
  - destruct Hr' as (Ht & Hp). eexists _, _, _. split; [done|]. split; [done|]. split; [done|].
    split; [by unfold kept; rewrite Ht|]. by eapply probe_weaken; [|done].
Qed.

Definition answer_of (r : option N) (v : Z) : Prop :=
  match r with None => v = 0%Z | Some e => v = (- Z.of_N e)%Z ∧ 0 < e < 4096 end.

Lemma O_PATH_i32 : is_i32 O_PATH.
Proof. unfold is_i32, O_PATH. lia. Qed.

Lemma handle_stat_spec env audit calls path w :
  kernel_ok env → set_up env audit calls → is_utf8 path → x00 ∉ path → short path →
  has_room env w →
  ∃ v w' os, handle_stat env path w = (HRet v, w') ∧
    effect w w' [ReqOpenFile path O_PATH] os ∧ w_dir w' = w_dir w ∧ kept (w_tab w) (w_tab w') ∧
    probe_answer audit (rules_of calls) path O_PATH os v (λ f v, answer_of (we_fstat env f) v).
Proof.
  intros K Hs Hu Hn Hsh Hr.
  destruct (get_fd_spec env audit calls path O_PATH w) as (r & w' & os & E & He & Hd & Hr');
    [try apply O_PATH_i32; done..|].
  unfold handle_stat. rewrite E. destruct r as [n|v].
  - destruct Hr' as (file & Hrec & Hu' & ->).
    destruct Hrec as (Hn' & Htab & Hk'). rewrite Htab. cbn [fd_file].
    destruct (drop_received env (w_tab w) file n (match we_fstat env file with
      | Some err => (- Z.of_N err)%Z | None => 0%Z end) w') as [-> Hk]; [done|apply (ko_limit_w _ K)|].
    eexists _, _, _. split; [done|]. split; [by apply effect_set_tab|]. split; [done|].
    split; [done|]. right. split; [done|]. eexists. split; [done|]. simpl.
    destruct (we_fstat env file) eqn:Ef; simpl; [|done]. split; [done|]. by eapply ko_fstat.
  - destruct Hr' as (Ht & Hp). eexists _, _, _. split; [done|]. split; [done|]. split; [done|].
    split; [by unfold kept; rewrite Ht|]. by eapply probe_weaken; [|done].
Qed.

(** What the program sees of chdir: with a filter and without the audit mode, fchdir is
    refused. *)
Definition chdir_works (env : wenv) : bool := negb (we_filtered env) || we_audit env.

Lemma handle_chdir_spec env audit calls path w :
  kernel_ok env → set_up env audit calls → is_utf8 path → x00 ∉ path → short path →
  has_room env w →
  ∃ v w' os ms, handle_chdir env path w = (HRet v, w') ∧
    effect w w' (ReqOpenFile path O_PATH :: ms) os ∧ kept (w_tab w) (w_tab w') ∧
    (∀ m, m ∈ ms → ∃ nb args ip, m = ReqSyscall nb args ip) ∧
    (v ≠ 0%Z → w_dir w' = w_dir w) ∧
    probe_answer audit (rules_of calls) path O_PATH os v
      (λ f v, if chdir_works env then answer_of (we_fchdir env f) v ∧ (v = 0%Z → w_dir w' = f)
              else v = (-38)%Z).
Proof.
  intros K Hs Hu Hn Hsh Hr.
  destruct (get_fd_spec env audit calls path O_PATH w) as (r & w' & os & E & He & Hd & Hr');
    [try apply O_PATH_i32; done..|].
  unfold handle_chdir. rewrite E. destruct r as [n|v].
  2:{ destruct Hr' as (Ht & Hp). eexists _, _, _, []. split; [done|]. split; [done|].
      split; [by unfold kept; rewrite Ht|]. split; [set_solver|]. split; [done|]. by eapply probe_weaken; [|done]. }
  destruct Hr' as (file & Hrec & Hu' & ->).
  assert (∀ w2 ms2, (∀ m, m ∈ ms2 → ∃ nb args ip, m = ReqSyscall nb args ip) →
    effect w' w2 ms2 [] → w_tab w2 = w_tab w' → w_dir w2 = w_dir w →
    ∃ v w3 os ms, (let '(v, w4) :=
        match w_tab w2 !! n with
        | Some e => match we_fchdir env (fd_file e) with
                    | Some err => ((- Z.of_N err)%Z, w2)
                    | None => (0%Z, mkWorld (w_tab w2) (w_broker w2) (w_sent w2) (fd_file e))
                    end
        | None => ((- Z.of_N EBADF)%Z, w2)
        end in drop_and_return n v w4) = (HRet v, w3) ∧
      effect w w3 (ReqOpenFile path O_PATH :: ms) os ∧ kept (w_tab w) (w_tab w3) ∧
      (∀ m, m ∈ ms → ∃ nb args ip, m = ReqSyscall nb args ip) ∧
      (v ≠ 0%Z → w_dir w3 = w_dir w) ∧
      probe_answer audit (rules_of calls) path O_PATH os v
        (λ f v, answer_of (we_fchdir env f) v ∧ (v = 0%Z → w_dir w3 = f))) as Hkernel.
  { intros w2 ms2 Hms2 He2 Ht2 Hd2. destruct Hrec as (Hn' & Htab & Hk').
    rewrite Ht2, Htab. cbn [fd_file].
    destruct (we_fchdir env file) as [err|] eqn:Ef.
    - assert (0 < err < 4096) by (by eapply ko_fchdir).
      destruct (drop_received env (w_tab w) file n (- Z.of_N err)%Z w2) as [-> Hk].
      { rewrite Ht2. done. } { apply (ko_limit_w _ K). }
      eexists _, _, _, _. split; [done|].
      split; [apply effect_set_tab; exact (effect_trans _ _ _ _ _ _ _ He He2)|]. split; [done|].
      split; [done|]. split; [done|]. right. split; [done|]. eexists. split; [done|]. simpl.
      rewrite Ef. simpl. split; [done|lia].
    - destruct (drop_received env (w_tab w) file n 0%Z
        (mkWorld (w_tab w2) (w_broker w2) (w_sent w2) file)) as [Edrop Hk].
      { simpl. rewrite Ht2. done. } { apply (ko_limit_w _ K). }
      rewrite Ht2 in Edrop. rewrite Edrop. simpl in Hk.
      eexists _, _, _, _. split; [done|].
      split; [apply effect_set_tab; exact (effect_trans _ _ _ _ _ _ _ He He2)|].
      split; [by rewrite <-Ht2|].
      split; [done|]. split; [done|]. right. split; [done|]. eexists. split; [done|]. simpl.
      by rewrite Ef. }
  unfold chdir_works. destruct (we_filtered env); simpl.
  - destruct (syscall_exchange env audit calls (SYS_fchdir (be_abi (we_broker env)))
      (Z.of_N n :: tail (we_getcwd_args env)) (we_getcwd_ip env) w')
      as (w2 & E2 & He2 & Hd2 & Ht2); [done|done|..].
    + unfold is_i64. destruct (be_abi (we_broker env)); simpl; lia.
    + destruct (ko_args _ K) as [Hl _]. destruct (we_getcwd_args env); [done|]. simpl in *. lia.
    + destruct (ko_args _ K) as [Hl Ha]. destruct (we_getcwd_args env); [done|].
      inversion Ha; subst. constructor; [|done]. unfold is_i64.
      destruct Hrec as (-> & _). pose proof (lowest_free_le_size (w_tab w)).
      pose proof (ko_limit_w _ K). unfold has_room in Hr. lia.
    + apply (ko_ip _ K).
    + assert (∀ m, m ∈ [ReqSyscall (SYS_fchdir (be_abi (we_broker env)))
        (Z.of_N n :: tail (we_getcwd_args env)) (we_getcwd_ip env)] →
        ∃ nb args ip, m = ReqSyscall nb args ip) as Hms.
      { intros m ->%elem_of_list_singleton. eauto. }
      rewrite E2. destruct (we_audit env); simpl.
      * by apply (Hkernel w2 _ Hms He2 Ht2); rewrite Hd2.
      * rewrite as_isize_small by lia.
        destruct (drop_received env (w_tab w) file n (-38)%Z w2) as [-> Hk].
        { by rewrite Ht2. } { apply (ko_limit_w _ K). }
        eexists _, _, _, _. split; [done|].
        split; [apply effect_set_tab; exact (effect_trans _ _ _ _ _ _ _ He He2)|].
        split; [done|]. split; [done|]. split; [by simpl; rewrite Hd2|].
        right. split; [done|]. eexists. split; [done|]. done.
  - apply (Hkernel w' []); [set_solver| |done|done]. unfold effect. by rewrite !app_nil_r.
Qed.

Lemma handle_syscall_spec env audit calls nb args ip w :
  kernel_ok env → set_up env audit calls → is_i64 nb → length args = 6%nat →
  Forall is_i64 args → is_i64 ip →
  ∃ w', handle_syscall env nb args ip w =
      (HRet (if audit then we_rerun env nb args else (-38)%Z), w') ∧
    effect w w' [ReqSyscall nb args ip] [] ∧ w_dir w' = w_dir w ∧ w_tab w' = w_tab w.
Proof.
  intros K Hs Hnb Hl Ha Hip.
  destruct (syscall_exchange env audit calls nb args ip w) as (w' & E & H); [done..|].
  exists w'. split; [|done]. unfold handle_syscall. rewrite E, as_isize_small by lia.
  destruct Hs as [_ ->]. destruct audit; done.
Qed.

(** Working directory as the worker learns it. *)
Lemma current_dir_spec env audit calls w :
  kernel_ok env → set_up env audit calls →
  ∃ w' ms, current_dir env w =
      (HRet (if we_filtered env && negb audit then None else we_cwd env), w') ∧
    effect w w' ms [] ∧ (∀ m, m ∈ ms → ∃ nb args ip, m = ReqSyscall nb args ip) ∧
    w_dir w' = w_dir w ∧ w_tab w' = w_tab w.
Proof.
  intros K Hs. unfold current_dir. destruct (we_filtered env).
  - destruct (syscall_exchange env audit calls (nr_getcwd (nos (be_abi (we_broker env))))
      (we_getcwd_args env) (we_getcwd_ip env) w) as (w' & E & He & Hd & Ht).
    + done. + done.
    + unfold is_i64. destruct (be_abi (we_broker env)); simpl; lia.
    + apply (ko_args _ K). + apply (ko_args _ K). + apply (ko_ip _ K).
    + rewrite E. destruct Hs as [_ ->]. eexists _, _. split; [by destruct audit|].
      split; [done|]. split; [|done]. intros m ->%elem_of_list_singleton. eauto.
  - eexists _, []. split; [done|]. split; [|split; [set_solver|done]].
    unfold effect. by rewrite !app_nil_r.
Qed.
