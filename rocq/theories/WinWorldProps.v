(** Properties of a Windows worker together with its broker: C107, C108. *)
From stdpp Require Import prelude gmap.
From Coq Require Import Strings.Byte.
From Verif Require Import Bytes PolicyModel PostcardModel PostcardSpec PostcardProofs TrampolineModel TrampolineProofs
  PolicySpec WinPolicyModel WinPolicySpec WinPolicyProofs WinPolicyProps WinBrokerModel WinBrokerSpec WinBrokerProofs WinBrokerProps WinHookModel WinHookSpec
  WinHookProofs WinHookProps WinWorldModel.
Local Open Scope Z_scope.

(* ---------------------------------------------------------------- vocabulary *)

(** The parameters of a call hold values of their types; the name asked for, if it can be passed
    on; the question and the system call it stands for. *)
Definition hc_ok (c : hcall) : Prop :=
  match c with HFile a => file_args_ok a | HOpen a => open_args_ok a | HKey a => key_args_ok a end.
Definition hc_name (c : hcall) (us : list N) : Prop :=
  match c with HFile a => file_name a us | HOpen a => open_name a us | HKey a => key_name a us end.
Definition hc_question (c : hcall) (path : str) : win_request :=
  match c with
  | HFile a => WinFileOpen (mkFileReq path (fa_access a) (fa_attributes a) (fa_share a)
                 (fa_disposition a) (Z.setbit (fa_options a) 21) [])
  | HOpen a => WinFileOpen (mkFileReq path (op_access a) 0 (op_share a) 1 (Z.setbit (op_options a) 21) [])
  | HKey a => WinRegKeyOpen path (ka_access a) (ka_options a) true
  end.
Definition hc_call (c : hcall) (us : list N) : nt_call :=
  match c with
  | HFile a => NtCreateFile us (fa_access a) (default 0 (fa_alloc a)) 0x80 (fa_share a)
                 (fa_disposition a) (Z.setbit (fa_options a) 21) []
  | HOpen a => NtCreateFile us (op_access a) 0 0x80 (op_share a) 1 (Z.setbit (op_options a) 21) []
  | HKey a => NtCreateKey us (ka_access a) 0 (us_units <$> ka_class a) (ka_options a)
  end.
(** All strings of the call are well-formed. *)
Definition hc_well_formed (c : hcall) (us : list N) : Prop :=
  well_formed us ∧
  match c with HKey a => ∀ cl, ka_class a = Some cl → well_formed (us_units cl) | _ => True end.

(** What the caller gets: a refusal, or the outcome of the system call in [es]. The information
    is only given where the caller has room for it. *)
Definition hc_room (c : hcall) : bool := match c with HKey a => ka_disposition a | _ => true end.
Definition hc_gets (c : hcall) (granted : Prop) (es : list wevent) (r : hook_end) : Prop :=
  (¬ granted ∧ ∃ info, r = Returned (-1073741790) (Some 0%N) info None) ∨
  (granted ∧ ∃ status h info d, outcome es status h info ∧
     r = Returned status (Some h) d None ∧
     (0 ≤ status → d = if hc_room c then Some info else None)).

(** The call of [c] that gave [r], with what the broker did for it: nothing at all for calls that
    cannot be passed on; otherwise one exchange, for the policy's verdict on the question [q]. For
    well-formed strings [q] is the question that the call stands for, and the system call made is
    the one asked for. [t] is the broker's handle table. *)
Definition call_done (debug : bool) (p : policy) (t : gmap N N) (c : hcall) (r : hook_end)
  (es : list wevent) : Prop :=
  (es = [] ∧ (∀ us, ¬ hc_name c us) ∧
   ∃ code h info, r = Returned code h info None ∧ code < 0 ∧ default 0%N h = 0%N) ∨
  (∃ us m q,
    hc_name c us ∧ question m q ∧
    let granted := (win_evaluate_request debug p q).1 = Granted in
    exchange t granted m es ∧ hc_gets c granted es r ∧
    (hc_well_formed c us →
     (∃ path, utf16_of path us ∧ q = hc_question c path) ∧
     calls_of es = (calls_of es).*2 ≫= (λ a, [(hc_call c us, a)]) ∧
     ∀ c', call_for m c' ↔ c' = hc_call c us)).

(** The kernel's answers have the types of the fields that hold them. *)
Definition typed (w : width) (env : wenv) : Prop :=
  (∀ tr c, is_i32 (nt_status (we_call env tr c)) ∧
     (nt_info (we_call env tr c) <
      match c with NtCreateFile _ _ _ _ _ _ _ _ => 2 ^ 64 | _ => 2 ^ 32 end)%N) ∧
  (∀ tr h, we_dup env tr = Some h → Z.of_N h < wmod w).

(* ---------------------------------------------------------------- lemmas *)

(** Every system call and every duplication in the new events was answered by the kernel. *)
Definition answered (env : wenv) (es : list wevent) : Prop :=
  (∀ c a, WCalled c a ∈ es → ∃ tr, a = we_call env tr c) ∧
  (∀ l r o, WDuplicated l r o ∈ es → ∃ tr, we_dup env tr = Some r).
Lemma answered_app env es es' : answered env es → answered env es' → answered env (es ++ es').
Proof.
  intros [A1 A2] [B1 B2]. split.
  - intros c a Hin. apply elem_of_app in Hin as [?|?]; eauto.
  - intros l r o Hin. apply elem_of_app in Hin as [?|?]; eauto.
Qed.
Lemma answered_quiet env es :
  Forall (λ e, match e with WCalled _ _ | WDuplicated _ _ _ => False | _ => True end) es → answered env es.
Proof.
  rewrite Forall_forall. intros H. split.
  - intros c a Hin. by apply H in Hin.
  - intros l r o Hin. by apply H in Hin.
Qed.
Definition grows (env : wenv) (s s' : wstate) : Prop :=
  ∃ es, ws_trace s' = ws_trace s ++ es ∧ answered env es.
Lemma grows_refl env s : grows env s s.
Proof. exists []. rewrite app_nil_r. split; [done|]. by apply answered_quiet. Qed.
Lemma grows_trans env s1 s2 s3 : grows env s1 s2 → grows env s2 s3 → grows env s1 s3.
Proof.
  intros (e1 & T1 & A1) (e2 & T2 & A2). exists (e1 ++ e2). split; [by rewrite T2, T1, app_assoc|].
  by apply answered_app.
Qed.
Lemma grows_quiet env s s' es :
  ws_trace s' = ws_trace s ++ es →
  Forall (λ e, match e with WCalled _ _ | WDuplicated _ _ _ => False | _ => True end) es → grows env s s'.
Proof. intros H1 H2. exists es. split; [done|]. by apply answered_quiet. Qed.
Lemma grows_callbacks env debug p q s : grows env s (wlog s (wlog_events debug p q)).
Proof.
  eapply grows_quiet; [done|]. unfold wlog_events. apply Forall_forall. intros e He.
  apply elem_of_list_fmap in He as ([[cb r] v] & -> & _). done.
Qed.
Lemma grows_call env c s a h s' : do_nt_call env c s = (a, h, s') → grows env s s'.
Proof.
  unfold do_nt_call. intros H. exists [WCalled c a]. destruct (nt_success _); injection H as <- <- <-;
    (split; [done|]; split; [intros ? ? Hin|intros ? ? ? Hin]; apply elem_of_list_singleton in Hin;
     [injection Hin as -> ->; eauto|done]).
Qed.
Lemma grows_send env m h s ok s' : win_send env m h s = Some (ok, s') → grows env s s'.
Proof.
  unfold win_send. intros H. destruct h as [l|].
  - destruct (we_remote env); [|done].
    destruct (we_dup env (ws_trace s)) as [r|] eqn:Ed.
    2:{ injection H as <- <-. by eapply grows_quiet; [done|repeat constructor]. }
    assert (grows env s (wlog s [WDuplicated l r (default 0%N (ws_tab s !! l))])) as G.
    { eexists. split; [done|]. split; [intros ? ? Hin|intros ? ? ? Hin];
        apply elem_of_list_singleton in Hin; [done|]. injection Hin as -> -> ->. eauto. }
    eapply grows_trans; [exact G|].
    destruct (serialize _ _ _) as [b|].
    + destruct (we_write _ _); injection H as <- <-; by eapply grows_quiet; [done|repeat constructor].
    + injection H as <- <-; by eapply grows_quiet; [done|repeat constructor].
  - destruct (serialize _ _ _) as [b|].
    + destruct (we_write _ _); injection H as <- <-; by eapply grows_quiet; [done|repeat constructor].
    + injection H as <- <-; by eapply grows_quiet; [done|repeat constructor].
Qed.
Lemma grows_drop env h s : grows env s (win_drop h s).
Proof.
  destruct h; [|apply grows_refl]. by eapply grows_quiet; [done|repeat constructor].
Qed.
Lemma grows_step env p rd s st s' : win_step env p rd s = (st, s') → grows env s s'.
Proof.
  unfold win_step. intros H.
  destruct (win_recv dec_wreq rd) as [[[m [h|]]|]|[]].
  - injection H as <- <-. apply (grows_drop env (Some h)).
  - destruct (win_dispatch env p m s) as [[[r h] s1]|] eqn:E.
    + assert (grows env s s1) as G.
      { destruct m as [|acc path alloc attrs share disp opts ea|acc path title cl opts cr]; cbn in E; [done|..].
        - unfold proxied_ntcreatefile in E.
          set (q := WinFileOpen _) in E.
          eapply grows_trans; [apply (grows_callbacks env (we_debug env) p q)|].
          destruct (win_evaluate_request (we_debug env) p q).1;
            [|injection E as <- <- <-; apply grows_refl..].
          destruct (do_nt_call _ _ _) as [[a h'] s2] eqn:E2. injection E as <- <- <-.
          by eapply grows_call.
        - unfold proxied_ntcreatekey in E.
          set (q := WinRegKeyOpen _ _ _ _) in E.
          eapply grows_trans; [apply (grows_callbacks env (we_debug env) p q)|].
          destruct (win_evaluate_request (we_debug env) p q).1;
            [|injection E as <- <- <-; apply grows_refl..].
          destruct cr; destruct (do_nt_call _ _ _) as [[a h'] s2] eqn:E2; injection E as <- <- <-;
            by eapply grows_call. }
      destruct (win_send env (WOut r) h s1) as [[ok s2]|] eqn:E3.
      * injection H as <- <-. eapply grows_trans; [exact G|].
        eapply grows_trans; [by eapply grows_send|apply grows_drop].
      * injection H as <- <-. eapply grows_trans; [exact G|apply grows_drop].
    + injection H as <- <-. apply grows_refl.
  - injection H as <- <-. apply grows_refl.
  - injection H as <- <-. apply grows_refl.
Qed.

Lemma last_sent_app l r : last_sent (l ++ r) = match last_sent r with Some b => Some b | None => last_sent l end.
Proof.
  induction l as [|e l IH]; cbn [app last_sent]; [by destruct (last_sent r)|].
  destruct e; try exact IH. rewrite IH. destruct (last_sent r) as [b|]; [done|]. done.
Qed.
Lemma last_sent_callbacks cbs : Forall is_callback cbs → last_sent cbs = None.
Proof. induction 1 as [|e l He _ IH]; [done|]. by destruct e. Qed.
(** The last message of an exchange is its answer. *)
Lemma exchange_answer t granted m es :
  exchange t granted m es → ∃ b', last_sent es = Some b' ∧ WSent b' ∈ es.
Proof.
  intros (cbs & Hc & [(_ & ->)|(_ & c & a & r & _ & _ & [[_ ->]|(_ & l & rm & _ & ->)])]);
    eexists; (split; [rewrite last_sent_app; cbn; reflexivity|]); apply elem_of_app; right.
  - left.
  - right; left.
  - right; right; left.
Qed.
Lemma exchange_calls t granted m es :
  exchange t granted m es →
  (calls_of es = [] ∧ ¬ granted) ∨ (∃ c a, calls_of es = [(c, a)] ∧ call_for m c ∧ granted).
Proof.
  assert (∀ cbs r, Forall is_callback cbs → calls_of (cbs ++ r) = calls_of r) as Hcb.
  { intros cbs r. induction 1 as [|e l He _ IH]; [done|]. by destruct e. }
  intros (cbs & Hc & [(Hg & ->)|(Hg & c & a & r & Hcf & _ & [[_ ->]|(_ & l & rm & _ & ->)])]);
    rewrite Hcb by done; [left; done|right; by exists c, a..].
Qed.

(** A call that can be passed on, with its message. *)
Lemma hook_named w tr c us :
  hc_ok c → hc_name c us →
  ∃ m, wmsg_ok m ∧ (∀ b, b ∈ (hook w tr c).1 → b = enc_wrapped enc_wreq (m, None)) ∧
  (∃ f, hook w tr c = (let '(sent, r) := win_send_recv tr m in (sent, f r)) ∧ f None = Panicked).
Proof.
  intros Ha Hn. destruct c as [a|a|a]; cbn [hook hc_ok hc_name] in *.
  - destruct (file_message_ok a us Ha Hn) as (u & _ & _ & Hm & Hk).
    exists (file_message a u). split; [done|]. split; [|by exists (file_reply w)].
    intros b Hb. eapply sent_inv in Hb; [done|symmetry; apply Hk].
  - destruct (open_message_ok a us Ha Hn) as (u & _ & _ & Hm & Hk).
    eexists. split; [exact Hm|]. split; [|by exists (file_reply w)].
    intros b Hb. eapply sent_inv in Hb; [done|symmetry; apply Hk].
  - destruct (key_message_ok a us Ha Hn) as (u & _ & _ & Hm & Hk).
    exists (key_message a u). split; [done|]. split; [|by exists (key_reply w (ka_disposition a))].
    intros b Hb. eapply sent_inv in Hb; [done|symmetry; apply Hk].
Qed.

(** A call that cannot be passed on. *)
Lemma hook_unnamed w tr c :
  (∀ us, ¬ hc_name c us) →
  ∃ code h info, hook w tr c = ([], Returned code h info None) ∧ code < 0 ∧ default 0%N h = 0%N.
Proof.
  intros Hn. destruct c as [a|a|a]; cbn [hook hc_name] in *.
  - unfold hook_ntcreatefile.
    destruct (fa_handle a) eqn:N1; [|by eexists _, _, _].
    destruct (fa_oa a) as [oa|] eqn:N2; [|by eexists _, _, _].
    destruct (fa_iosb a) eqn:N3; [|by eexists _, _, _].
    destruct (decide _) as [?|N4]; [by eexists _, _, _|].
    destruct (oa_name oa) as [u|] eqn:N5; [|by eexists _, _, _].
    exfalso. apply (Hn (us_units u)). split_and!; [done|done|lia|].
    exists oa, u. split_and!; [done|lia|done|done].
  - unfold hook_ntopenfile.
    destruct (op_handle a) eqn:N1; [|by eexists _, _, _].
    destruct (op_oa a) as [oa|] eqn:N2; [|by eexists _, _, _].
    destruct (op_iosb a) eqn:N3; [|by eexists _, _, _].
    destruct (decide _) as [?|N4]; [by eexists _, _, _|].
    destruct (oa_name oa) as [u|] eqn:N5; [|by eexists _, _, _].
    exfalso. apply (Hn (us_units u)). split_and!; [done|done|].
    exists oa, u. split_and!; [done|lia|done|done].
  - unfold hook_ntcreatekey.
    destruct (ka_handle a) eqn:N1; [|by eexists _, _, _].
    destruct (ka_oa a) as [oa|] eqn:N2; [|by eexists _, _, _].
    destruct (decide _) as [?|N4]; [by eexists _, _, _|].
    destruct (oa_name oa) as [u|] eqn:N5; [|by eexists _, _, _].
    exfalso. apply (Hn (us_units u)). split_and!; [done|lia|].
    exists oa, u. split_and!; [done|lia|done|done].
Qed.
Lemma hc_name_dec c : (∃ us, hc_name c us) ∨ (∀ us, ¬ hc_name c us).
Proof.
  destruct c as [a|a|a]; cbn [hc_name].
  - destruct (fa_oa a) as [oa|] eqn:N2.
    2:{ right. intros us (_ & _ & _ & oa & u & ? & _). congruence. }
    destruct (oa_name oa) as [u|] eqn:N5.
    2:{ right. intros us (_ & _ & _ & oa' & u & H1 & _ & H2 & _). congruence. }
    destruct (decide (fa_handle a = true ∧ fa_iosb a = true ∧ fa_ea_length a = 0 ∧ oa_root oa = 0%N))
      as [(H1 & H2 & H3 & H4)|H].
    + left. exists (us_units u). split_and!; [done..|]. by exists oa, u.
    + right. intros us (H1 & H2 & H3 & oa' & u' & H4 & H5 & _). apply H. split_and!; [done..|]. congruence.
  - destruct (op_oa a) as [oa|] eqn:N2.
    2:{ right. intros us (_ & _ & oa & u & ? & _). congruence. }
    destruct (oa_name oa) as [u|] eqn:N5.
    2:{ right. intros us (_ & _ & oa' & u & H1 & _ & H2 & _). congruence. }
    destruct (decide (op_handle a = true ∧ op_iosb a = true ∧ oa_root oa = 0%N)) as [(H1 & H2 & H4)|H].
    + left. exists (us_units u). split_and!; [done..|]. by exists oa, u.
    + right. intros us (H1 & H2 & oa' & u' & H4 & H5 & _). apply H. split_and!; [done..|]. congruence.
  - destruct (ka_oa a) as [oa|] eqn:N2.
    2:{ right. intros us (_ & _ & oa & u & ? & _). congruence. }
    destruct (oa_name oa) as [u|] eqn:N5.
    2:{ right. intros us (_ & _ & oa' & u & H1 & _ & H2 & _). congruence. }
    destruct (decide (ka_handle a = true ∧ ka_title a = 0 ∧ oa_root oa = 0%N)) as [(H1 & H2 & H4)|H].
    + left. exists (us_units u). split_and!; [done..|]. by exists oa, u.
    + right. intros us (H1 & H2 & oa' & u' & H4 & H5 & _). apply H. split_and!; [done..|]. congruence.
Qed.

Lemma hook_gets w tr c us b r t granted es :
  hc_ok c → hc_name c us → hook w tr c = ([b], r) →
  WinHookSpec.served w tr b t granted es → hc_gets c granted es r.
Proof.
  intros Ha Hn E Hs. destruct c as [a|a|a]; cbn [hook hc_ok hc_name] in *.
  - destruct (C97_create_partial _ _ _ _ _ _ _ _ _ Ha Hn E Hs) as [[? ->]|(? & st & h & i & ? & ->)].
    + left. split; [done|]. by eexists.
    + right. split; [done|]. by exists st, h, i, (Some i).
  - destruct (C97_open_partial _ _ _ _ _ _ _ _ _ Ha Hn E Hs) as [[? ->]|(? & st & h & i & ? & ->)].
    + left. split; [done|]. by eexists.
    + right. split; [done|]. by exists st, h, i, (Some i).
  - pose proof (C97_key _ _ _ _ _ _ _ _ _ Ha Hn E Hs) as Hk. cbv zeta in Hk.
    destruct Hk as [[? ->]|(? & st & h & i & d & ? & -> & Hd)].
    + left. split; [done|]. by eexists.
    + right. split; [done|]. eexists st, h, i, _. split; [done|]. split; [reflexivity|].
      intros Hz. cbn [hc_room]. destruct (ka_disposition a); [by rewrite Hd|done].
Qed.
Lemma hook_asks w tr c us b :
  hc_ok c → hc_name c us → hc_well_formed c us → b ∈ (hook w tr c).1 →
  asks_for b (hc_question c) us (hc_call c us).
Proof.
  intros Ha Hn [Hw1 Hw2] Hb. destruct c as [a|a|a]; cbn [hook hc_ok hc_name] in *.
  - by eapply C95_create_partial.
  - by eapply C95_open_partial.
  - by eapply C95_key_partial.
Qed.

Lemma call_spec w env p ch ph c s r x :
  wenv_ok env → typed w env → hc_ok c →
  world_call w env p ch ph c (WServing, s) = (r, x) → r ≠ Panicked →
  ∃ s' es, x = (WServing, s') ∧ ws_trace s' = ws_trace s ++ es ∧ ws_tab s' = ws_tab s ∧
    call_done (we_debug env) p (ws_tab s) c r es.
Proof.
  intros Hw [Ht1 Ht2] Hok E Hr. unfold world_call in E.
  set (tr := world_pipe env p ch ph (WServing, s)) in E.
  destruct (hc_name_dec c) as [[us Hn]|Hn].
  2:{ destruct (hook_unnamed w tr c Hn) as (code & h & info & Eh & Hc & Hh). rewrite Eh in E.
      injection E as <- <-. exists s, []. split_and!; [done|by rewrite app_nil_r|done|]. left.
      split_and!; [done|done|]. by exists code, h, info. }
  destruct (hook_named w tr c us Hok Hn) as (m & Hm & Hb & f & Ef & Hf).
  pose proof Ef as Ef'. destruct (hook w tr c) as [sent r'] eqn:Eh. injection E as -> <-.
  unfold win_send_recv in Ef. destruct (serialize _ _ _) as [b|].
  2:{ injection Ef as -> ->. done. }
  unfold tr in Ef at 1. cbn [world_pipe] in Ef. injection Ef as -> ->.
  specialize (Hb b ltac:(left)).
  unfold broker_answer in *. cbn [world_step].
  unfold broker_answer.
  destruct (win_step env p (RdMessage b) s) as [st s'] eqn:Es.
  pose proof (grows_step _ _ _ _ _ _ Es) as (es & T & [An1 An2]).
  destruct (win_step_spec env p _ _ _ _ Hw Es) as (es' & T' & Hst).
  assert (es' = es) as -> by (rewrite T in T'; by apply app_inv_head in T').
  destruct st; cbn [fst snd] in *; [|cbn [win_recv] in Hr; by destruct Hr..].
  destruct Hst as (Htab & m' & Hm' & q & Hq & Hx).
  assert (m' = m) as ->.
  { eapply plain_read_fun; [exact Hm'|]. rewrite Hb. by apply wreq_plain. }
  destruct (exchange_answer _ _ _ _ Hx) as (b' & Hl & Hin).
  assert (tr b = Some (RdMessage b')) as Htr.
  { unfold tr. cbn [world_pipe]. unfold broker_answer. rewrite Es. cbn [fst]. unfold new_events.
    rewrite T, drop_app. by rewrite Hl. }
  exists s', es. split_and!; [done|done|done|]. right. exists us, m, q.
  split; [done|]. split; [done|]. cbv zeta. split; [done|]. split.
  - eapply hook_gets; [done|done|exact Eh|]. exists m, b'. split_and!; [done|exact Hx| |done|done].
    split.
    + intros c' a Hca. destruct (An1 _ _ Hca) as (tr' & ->). apply Ht1.
    + intros l r' o Hd. destruct (An2 _ _ _ Hd) as (tr' & Hd'). by eapply Ht2.
  - intros Hwf. destruct (hook_asks w tr c us b Hok Hn Hwf) as (m2 & path & Hm2 & Hp & Hq2 & Hc).
    { rewrite Eh. left. }
    assert (m2 = m) as -> by by eapply plain_read_fun.
    split; [|split; [|done]].
    + exists path. split; [done|]. destruct m; cbn [question] in Hq, Hq2; [done|by subst..].
    + destruct (exchange_calls _ _ _ _ Hx) as [[-> _]|(c' & a & -> & Hcf & _)]; [done|].
      apply Hc in Hcf as ->. done.
Qed.

Lemma hc_name_fun c us us' : hc_name c us → hc_name c us' → us = us'.
Proof.
  destruct c; cbn [hc_name].
  - intros (_ & _ & _ & oa & u & ? & _ & ? & ?) (_ & _ & _ & oa' & u' & ? & _ & ? & ?). congruence.
  - intros (_ & _ & oa & u & ? & _ & ? & ?) (_ & _ & oa' & u' & ? & _ & ? & ?). congruence.
  - intros (_ & _ & oa & u & ? & _ & ? & ?) (_ & _ & oa' & u' & ? & _ & ? & ?). congruence.
Qed.

Lemma call_grows w env p ch ph c s r x :
  world_call w env p ch ph c (WServing, s) = (r, x) → ∃ es, ws_trace x.2 = ws_trace s ++ es.
Proof.
  unfold world_call. destruct (hook w _ c) as [[|b sent] r']; cbn [world_step]; intros [= <- <-].
  - exists []. by rewrite app_nil_r.
  - unfold broker_answer. destruct (win_step env p (RdMessage b) s) as [st s'] eqn:E.
    destruct (grows_step _ _ _ _ _ _ E) as (es & T & _).
    destruct st; cbn [snd]; [by exists es| |];
      unfold win_end, win_drop, wlog; destruct ph; cbn; rewrite T, <-?app_assoc; by eexists.
Qed.

Lemma run_spec w env p ch ph cs : ∀ s rs x,
  wenv_ok env → typed w env → Forall hc_ok cs →
  world_run w env p ch ph cs (WServing, s) = (rs, x) →
  ∃ rs' segs rest, (rs = rs' ∨ rs = rs' ++ [Panicked]) ∧ Panicked ∉ rs' ∧
    Forall3 (call_done (we_debug env) p (ws_tab s)) (take (length rs') cs) rs' segs ∧
    ws_trace x.2 = ws_trace s ++ concat segs ++ rest ∧
    (rs = rs' → length rs = length cs ∧ x.1 = WServing ∧ rest = [] ∧ ws_tab x.2 = ws_tab s).
Proof.
  induction cs as [|c cs IH]; intros s rs x Hw Ht Hok E; cbn [world_run] in E.
  - injection E as <- <-. exists [], [], [].
    split_and!; [by left|by apply not_elem_of_nil|constructor|by rewrite app_nil_r|done].
  - apply Forall_cons in Hok as [Hc Hcs].
    destruct (world_call w env p ch ph c (WServing, s)) as [r x1] eqn:Ec.
    assert (r = Panicked ∨ r ≠ Panicked) as [->|Hr] by (destruct r; [by right|by left]).
    + injection E as <- <-. destruct (call_grows _ _ _ _ _ _ _ _ _ Ec) as (es & T).
      exists [], [], es. split_and!; [by right|by apply not_elem_of_nil|constructor|done|done].
    + destruct (call_spec _ _ _ _ _ _ _ _ _ Hw Ht Hc Ec Hr) as (s1 & es & -> & T1 & B1 & D1).
      destruct (world_run w env p ch ph cs (WServing, s1)) as [rs1 x2] eqn:Er.
      assert (rs = r :: rs1 ∧ x = x2) as [-> ->] by (destruct r; [by injection E as <- <-|done]).
      destruct (IH _ _ _ Hw Ht Hcs Er) as (rs' & segs & rest & H1 & H2 & H3 & H4 & H5).
      rewrite B1 in H3, H5.
      exists (r :: rs'), (es :: segs), rest. split; [|split; [|split; [|split]]].
      * destruct H1 as [->| ->]; [by left|by right].
      * apply not_elem_of_cons. split; [|done]. intros Hx. by apply Hr.
      * cbn [length take]. by constructor.
      * rewrite H4, T1. cbn [concat]. by rewrite <-!app_assoc.
      * intros [= Hx]. destruct (H5 Hx) as (Hl & ? & ? & ?). cbn [length]. by rewrite Hl.
Qed.

Lemma start_spec env p o ch ph t x :
  world_start env p o ch ph t = Some x →
  ∃ s, x = (WServing, s) ∧ ws_tab s = t ∧ ws_trace s = [WSent (init_reply o (audit_only p))].
Proof.
  unfold world_start, win_worker_init, win_send_recv. destruct (serialize _ _ _) as [b|]; [|done].
  destruct (win_thread env p o ch ph [RdMessage b] (mkWst t [])) as [st s] eqn:E.
  destruct st; [|by cbn..].
  destruct (win_recv dec_wrep _) as [[[[|] [|]]|]|]; try done. intros [= <-]. exists s. split; [done|].
  cbn [win_thread] in E. destruct (win_recv dec_wreq _) as [[[[| |] [|]]|]|]; try done.
  pose proof (win_send_spec env (WOutInit o (audit_only p)) None (mkWst t [])) as Hs.
  destruct (win_send _ _ _ _) as [[[|] s1]|]; try done. cbn [win_loop] in E. injection E as <-.
  by destruct Hs as (es & -> & ->).
Qed.

Lemma runtime_same debug p q :
  win_evaluate_request debug (get_runtime_policy p) q = win_evaluate_request debug p q.
Proof. done. Qed.

(* ---------------------------------------------------------------- C107 *)

(** A session of a worker started by the broker, whatever it calls: the results are those of the
    calls in order, each done completely before the next, as the broker's policy decides; only a
    panic, which ends the worker, cuts it short. Nothing else is done by the broker, and while the
    worker goes on the broker has the handles it had before. *)
Theorem C107_session w env audit calls o ch ph t cs rs x :
  wenv_ok env → typed w env → Forall hc_ok cs →
  world_session w env (get_runtime_policy (win_build audit calls)) o ch ph t cs = Some (rs, x) →
  ∃ rs' segs rest, (rs = rs' ∨ rs = rs' ++ [Panicked]) ∧ Panicked ∉ rs' ∧
    Forall3 (call_done (we_debug env) (win_build audit calls) t) (take (length rs') cs) rs' segs ∧
    ws_trace x.2 = WSent (init_reply o audit) :: concat segs ++ rest ∧
    (rs = rs' → length rs = length cs ∧ x.1 = WServing ∧ rest = [] ∧ ws_tab x.2 = t).
Proof.
  intros Hw Ht Hok. unfold world_session.
  destruct (world_start _ _ _ _ _ _) as [x0|] eqn:E0; [|done]. intros [= E].
  apply start_spec in E0 as (s & -> & <- & T0).
  destruct (run_spec _ _ _ _ _ _ _ _ _ Hw Ht Hok E) as (rs' & segs & rest & H1 & H2 & H3 & H4 & H5).
  exists rs', segs, rest. split_and!; [done|done|done| |done].
  rewrite H4, T0. cbn [get_runtime_policy audit_only]. by rewrite win_build_audit.
Qed.
Print Assumptions C107_session.

(** What the rules say about a question, for every way of reading its path as components, and
    for a path that cannot be read that way. *)
Definition rules_allow (calls : list win_call) (q : win_request) : Prop :=
  match q with
  | WinFileOpen f =>
      (∀ comps, WinPolicySpec.well_formed comps → names backslash (fr_path f) comps →
         win_should_grant calls f comps) ∧
      file_supported f ∧ (∃ x, string_entitled calls (fr_path f) x) ∧
      ∀ x, file_needs f x → string_entitled calls (fr_path f) x
  | WinRegKeyOpen path access options do_create =>
      Forall good_reg_call calls → ∀ comps, WinPolicySpec.well_formed comps →
      names backslash path comps → reg_should_grant calls comps access options do_create
  end.

(** One call of a session. *)
Lemma session_call w env audit calls o ch ph t cs rs x i c r :
  wenv_ok env → typed w env → Forall hc_ok cs →
  world_session w env (get_runtime_policy (win_build audit calls)) o ch ph t cs = Some (rs, x) →
  cs !! i = Some c → rs !! i = Some r → r ≠ Panicked →
  ∃ es, call_done (we_debug env) (win_build audit calls) t c r es ∧ ∀ e, e ∈ es → e ∈ ws_trace x.2.
Proof.
  intros Hw Ht Hok E Hc Hr Hp.
  destruct (C107_session _ _ _ _ _ _ _ _ _ _ _ Hw Ht Hok E) as (rs' & segs & rest & H1 & H2 & H3 & H4 & H5).
  assert (rs' !! i = Some r) as Hr'.
  { destruct H1 as [->| ->]; [done|]. apply lookup_app_Some in Hr as [?|[_ Hr]]; [done|].
    by apply elem_of_list_lookup_2, elem_of_list_singleton in Hr. }
  destruct (Forall3_lookup_m _ _ _ _ _ _ H3 Hr') as (c' & es & Hc' & Hes & Hd).
  apply lookup_take_Some in Hc' as [Hc' _]. rewrite Hc in Hc'. injection Hc' as <-.
  exists es. split; [done|]. intros e He. rewrite H4. right. apply elem_of_app. left.
  apply elem_of_list_In, in_concat.
  exists es. split; apply elem_of_list_In; [by eapply elem_of_list_lookup_2|done].
Qed.
Lemma the_call es c us c1 a :
  calls_of es = (calls_of es).*2 ≫= (λ a, [(hc_call c us, a)]) → WCalled c1 a ∈ es → c1 = hc_call c us.
Proof.
  intros Hcl Ha. assert ((c1, a) ∈ calls_of es) as Hm.
  { unfold calls_of. apply elem_of_list_omap. by exists (WCalled c1 a). }
  rewrite Hcl in Hm. apply elem_of_list_bind in Hm as (a' & Hm & _).
  apply elem_of_list_singleton in Hm. by injection Hm as -> _.
Qed.

(** In a release build that enforces: a call with well-formed strings that gives the worker a
    handle asked for something that the rules allow, with exactly the rights it asked for; the
    kernel made exactly that call, and the handle is the broker's object in the worker. *)
Theorem C107_handles w env calls o ch ph t cs rs x i c us status h d :
  wenv_ok env → typed w env → Forall hc_ok cs → we_debug env = false →
  world_session w env (get_runtime_policy (win_build false calls)) o ch ph t cs = Some (rs, x) →
  cs !! i = Some c → rs !! i = Some (Returned status (Some h) d None) → 0 ≤ status →
  hc_name c us → hc_well_formed c us →
  ∃ path a, utf16_of path us ∧ rules_allow calls (hc_question c path) ∧
    WCalled (hc_call c us) a ∈ ws_trace x.2 ∧ status = nt_status a ∧
    (∃ local, WDuplicated local h (nt_object a) ∈ ws_trace x.2) ∧
    d = if hc_room c then Some (nt_info a) else None.
Proof.
  intros Hw Ht Hok Hd E Hc Hr Hst Hn Hwf.
  destruct (session_call _ _ _ _ _ _ _ _ _ _ _ _ _ _ Hw Ht Hok E Hc Hr ltac:(done)) as
    (es & [(_ & _ & code & h' & info & E1 & E2 & _)|Hd1] & Hin).
  { injection E1 as -> _ _. lia. }
  destruct Hd1 as (us' & m & q & Hn' & Hq & Hx & Hg & Hrest).
  assert (us' = us) as -> by (by eapply hc_name_fun).
  destruct (Hrest Hwf) as ((path & Hp & ->) & Hcl & _).
  destruct Hg as [(_ & info & E1)|(Hgr & st & h1 & i1 & d1 & Ho & E1 & Hd1)].
  { injection E1 as -> _ _. lia. }
  injection E1 as -> -> ->.
  destruct Ho as (c1 & a & Ha & -> & -> & Hcase).
  pose proof (the_call _ _ _ _ _ Hcl Ha) as ->.
  destruct Hcase as [[? _]|[_ [local Hl]]]; [lia|].
  exists path, a. split_and!; [done| |by apply Hin|done|exists local; by apply Hin|by apply Hd1].
  rewrite Hd in Hgr. destruct c as [b|b|b]; cbn [hc_question rules_allow] in *.
  - split; [intros comps Hc1 Hc2; by apply (C61_exact calls _ comps Hc1 Hc2)|].
    by destruct (C61_sound _ _ Hgr) as (? & _ & ?).
  - split; [intros comps Hc1 Hc2; by apply (C61_exact calls _ comps Hc1 Hc2)|].
    by destruct (C61_sound _ _ Hgr) as (? & _ & ?).
  - intros Hgood comps Hc1 Hc2. exact (C65_sound false calls path comps _ _ _ Hgood Hc1 Hc2 Hgr).
Qed.
Print Assumptions C107_handles.

(** The same the other way round for files: a call that returns got what the kernel said to
    exactly that call when the rules allow the request, and access denied otherwise. *)
Theorem C107_files w env calls o ch ph t cs rs x i c r us path f comps :
  wenv_ok env → typed w env → Forall hc_ok cs → we_debug env = false →
  world_session w env (get_runtime_policy (win_build false calls)) o ch ph t cs = Some (rs, x) →
  cs !! i = Some c → rs !! i = Some r → r ≠ Panicked →
  hc_name c us → utf16_of path us → hc_question c path = WinFileOpen f →
  WinPolicySpec.well_formed comps → names backslash path comps →
  (win_should_grant calls f comps ∧ ∃ a h d, WCalled (hc_call c us) a ∈ ws_trace x.2 ∧
     r = Returned (nt_status a) (Some h) d None) ∨
  (¬ win_should_grant calls f comps ∧ ∃ info, r = Returned (-1073741790) (Some 0%N) info None).
Proof.
  intros Hw Ht Hok Hd E Hc Hr Hpn Hn Hp Hf Hc1 Hc2.
  destruct (session_call _ _ _ _ _ _ _ _ _ _ _ _ _ _ Hw Ht Hok E Hc Hr Hpn) as
    (es & [(_ & Hno & _)|Hd1] & Hin); [by destruct (Hno us)|].
  destruct Hd1 as (us' & m & q & Hn' & Hq & Hx & Hg & Hrest).
  assert (us' = us) as -> by (by eapply hc_name_fun).
  assert (hc_well_formed c us) as Hwf by (split; [by exists path|by destruct c]).
  destruct (Hrest Hwf) as ((path' & Hp' & ->) & Hcl & _).
  pose proof (utf16_of_inj _ _ _ Hp Hp') as <-.
  assert (fr_path f = path) as Hfp by (destruct c; [by injection Hf as <-|by injection Hf as <-|discriminate Hf]).
  rewrite Hf, Hd in Hg. rewrite <- Hfp in Hc2. rewrite <- (C61_exact calls f comps Hc1 Hc2).
  destruct Hg as [(Hgr & info & E1)|(Hgr & st & h1 & i1 & d1 & Ho & E1 & Hd1)].
  - right. split; [done|]. by exists info.
  - left. split; [done|]. destruct Ho as (c1 & a & Ha & -> & -> & _).
    pose proof (the_call _ _ _ _ _ Hcl Ha) as ->. exists a, h1, d1. split; [by apply Hin|done].
Qed.
Print Assumptions C107_files.

(** A worker that may read below [C:\w] opens a file there, one elsewhere, and passes a name
    relative to a handle. *)
Definition ex_open (name : str) (root : N) : hcall :=
  HOpen (mkOpenArgs true 0x80000000
    (Some (mkOa root (Some (mkUS (2 * N.of_nat (length name)) (units name))) 0 0)) true 7 0).
Example C107_example :
  option_map (λ y, (y.1, length (ws_trace y.2.2)))
    (world_session W64 (ex_env 0 (Some 9%N))
       (get_runtime_policy (win_build false [WinRule (LinuxPolicyModel.AllowDirRead (lit "C:\w")) None])) no_order
       3 (Some 4%N) ∅
       [ex_open (lit "\??\C:\w\a.txt") 0; ex_open (lit "\??\C:\x") 0; ex_open (lit "a.txt") 7]) =
  Some ([Returned 0 (Some 9%N) (Some 1%N) None;
         Returned (-1073741790) (Some 0%N) (Some 0%N) None;
         Returned (-1073741637) (Some 0%N) (Some 0%N) None], 6%nat).
Proof. vm_compute. reflexivity. Qed.

(* ---------------------------------------------------------------- C108 *)

(** The kernel never fails to write to the pipe or to duplicate a handle. *)
Definition kernel_works (env : wenv) : Prop :=
  we_remote env = true ∧ (∀ tr, we_dup env tr ≠ None) ∧ (∀ tr, we_write env tr = true).
Definition hc_short (c : hcall) : Prop :=
  ∀ us, hc_name c us →
    (N.of_nat (length us) +
     match c with
     | HKey a => match ka_class a with Some cl => N.of_nat (length (us_units cl)) | None => 0 end
     | _ => 0
     end ≤ 21800)%N.
Definition C108_full : Prop :=
  ∀ w env audit calls o ch ph t cs rs x,
    wenv_ok env → typed w env → kernel_works env → Forall hc_ok cs →
    world_session w env (get_runtime_policy (win_build audit calls)) o ch ph t cs = Some (rs, x) →
    length rs = length cs ∧ Panicked ∉ rs.

Lemma world_answers w env p ch ph s :
  wenv_ok env → typed w env → kernel_works env → answering w (world_pipe env p ch ph (WServing, s)).
Proof.
  intros Hw [Ht1 Ht2] Hk b m Hm Hi. destruct (win_step_works env p _ m s Hk Hm Hi) as (s' & Es).
  pose proof (grows_step _ _ _ _ _ _ Es) as (es & T & [An1 An2]).
  destruct (win_step_spec env p _ _ _ _ Hw Es) as (es' & T' & Htab & m' & Hm' & q & Hq & Hx).
  assert (es' = es) as -> by (rewrite T in T'; by apply app_inv_head in T').
  destruct (exchange_answer _ _ _ _ Hx) as (b' & Hl & Hin).
  exists (ws_tab s), (wgranted env p q), es, m', b'. split_and!; [done|exact Hx| |done|].
  - split.
    + intros c' a Hca. destruct (An1 _ _ Hca) as (tr' & ->). apply Ht1.
    + intros l r' o Hd. destruct (An2 _ _ _ Hd) as (tr' & Hd'). by eapply Ht2.
  - cbn [world_pipe]. unfold broker_answer. rewrite Es. cbn [fst]. unfold new_events.
    rewrite T, drop_app. by rewrite Hl.
Qed.

Lemma call_returns w env p ch ph c s :
  wenv_ok env → typed w env → kernel_works env → hc_ok c → hc_short c →
  (world_call w env p ch ph c (WServing, s)).1 ≠ Panicked.
Proof.
  intros Hw Ht Hk Hok Hs. pose proof (world_answers w env p ch ph s Hw Ht Hk) as Ha.
  unfold world_call. set (tr := world_pipe env p ch ph (WServing, s)) in *.
  assert ((hook w tr c).2 ≠ Panicked) as H.
  { destruct c as [a|a|a]; cbn [hook hc_ok] in *.
    - apply C96_create_partial; [done|done|]. intros us Hn. specialize (Hs us Hn). cbn in Hs. lia.
    - apply C96_open_partial; [done|done|]. intros us Hn. specialize (Hs us Hn). cbn in Hs. lia.
    - apply C96_key_partial; [done|done|]. intros us Hn. exact (Hs us Hn). }
  by destruct (hook w tr c).
Qed.

(** While the kernel does its part, a worker whose names fit the messages is never stopped:
    every call returns, and the broker goes on serving. *)
Theorem C108_partial w env audit calls o ch ph t cs rs x :
  wenv_ok env → typed w env → kernel_works env → Forall hc_ok cs → Forall hc_short cs →
  world_session w env (get_runtime_policy (win_build audit calls)) o ch ph t cs = Some (rs, x) →
  length rs = length cs ∧ Panicked ∉ rs ∧ x.1 = WServing ∧ ws_tab x.2 = t.
Proof.
  intros Hw Ht Hk Hok Hs E.
  assert (Panicked ∉ rs) as Hp.
  { unfold world_session in E. destruct (world_start _ _ _ _ _ _) as [x0|] eqn:E0; [|done].
    injection E as E. apply start_spec in E0 as (s & -> & _). revert s rs x E Hs.
    induction Hok as [|c cs Hc Hok IH]; intros s rs x E Hs; cbn [world_run] in E.
    - injection E as <- <-. apply not_elem_of_nil.
    - apply Forall_cons in Hs as [Hsc Hs].
      pose proof (call_returns w env (get_runtime_policy (win_build audit calls)) ch ph c s Hw Ht Hk Hc Hsc) as Hr.
      destruct (world_call _ _ _ _ _ _ _) as [r x1] eqn:Ec. cbn [fst] in Hr.
      destruct (call_spec _ _ _ _ _ _ _ _ _ Hw Ht Hc Ec Hr) as (s1 & es & -> & _).
      destruct (world_run w env _ ch ph cs (WServing, s1)) as [rs1 x2] eqn:Er.
      assert (rs = r :: rs1) as -> by (destruct r; [by injection E as <- <-|done]).
      apply not_elem_of_cons. split; [by intros Hx; apply Hr|]. by eapply IH. }
  destruct (C107_session _ _ _ _ _ _ _ _ _ _ _ Hw Ht Hok E) as (rs' & segs & rest & H1 & _ & _ & _ & H5).
  assert (rs = rs') as Hrs.
  { destruct H1 as [->| ->]; [done|]. destruct Hp. apply elem_of_app. right. by left. }
  destruct (H5 Hrs) as (? & ? & _ & ?). done.
Qed.
Print Assumptions C108_partial.

(** And such a session starts when the policy fits a message. *)
Theorem C108_starts env audit calls o ch ph t :
  kernel_works env → enumerates (win_build audit calls) o → policy_ok (win_build audit calls) →
  (N.of_nat (length (init_reply o audit)) ≤ 65536)%N →
  is_Some (world_start env (get_runtime_policy (win_build audit calls)) o ch ph t).
Proof.
  intros (_ & _ & Hk) Ho Hp Hl.
  destruct (C87_policy_survives audit calls o [] Ho Hp) as (q & Hq & _). rewrite app_nil_r in Hq.
  unfold world_start, win_worker_init, win_send_recv.
  assert (serialize (enc_wrapped enc_wreq) (WReqInit, None) IPC_MESSAGE_MAX_SIZE =
          Some (enc_wrapped enc_wreq (WReqInit, None))) as -> by done.
  assert (win_thread env (get_runtime_policy (win_build audit calls)) o ch ph
            [RdMessage (enc_wrapped enc_wreq (WReqInit, None))] (mkWst t []) =
          (WServing, mkWst t [WSent (init_reply o audit)])) as ->.
  { cbn [win_thread].
    assert (win_recv dec_wreq (RdMessage (enc_wrapped enc_wreq (WReqInit, None))) =
            PolicyModel.Ok (Some (WReqInit, None))) as -> by done.
    change (audit_only (get_runtime_policy (win_build audit calls))) with
      (audit_only (win_build audit calls)). rewrite win_build_audit.
    unfold win_send, serialize. fold (init_reply o audit).
    replace (_ <=? _)%N with true by (symmetry; by apply N.leb_le).
    by rewrite Hk. }
  cbn [ws_trace last_sent default]. unfold win_recv. rewrite Hq. by eexists.
Qed.
Print Assumptions C108_starts.

Lemma ex_typed : typed W64 (ex_env 0 (Some 9%N)).
Proof. split; [intros tr c; split; [done|by destruct c]|]. intros tr h [= <-]. done. Qed.
Lemma ex_works : kernel_works (ex_env 0 (Some 9%N)).
Proof. split_and!; [done|intros tr; done|done]. Qed.
Lemma long_stops env p o ch ph t rs x :
  world_session W64 env p o ch ph t [HFile long_args] = Some (rs, x) → Panicked ∈ rs.
Proof.
  unfold world_session. destruct (world_start _ _ _ _ _ _) as [x0|]; [|discriminate].
  cbn [world_run]. unfold world_call. cbn [hook]. rewrite C96_long_name_panics. intros [= <- _]. by left.
Qed.
Lemma session_starts w env p o ch ph t cs :
  is_Some (world_start env p o ch ph t) → is_Some (world_session w env p o ch ph t cs).
Proof. intros [x Hx]. unfold world_session. rewrite Hx. by eexists. Qed.

(** A name that a UNICODE_STRING can hold, but a message cannot, stops the worker. *)
Theorem C108_refuted : ¬ C108_full.
Proof.
  intros H.
  destruct (session_starts W64 (ex_env 0 (Some 9%N)) (get_runtime_policy (win_build false [])) no_order
              3%N (Some 4%N) ∅ [HFile long_args]) as [[rs x] E].
  { apply C108_starts; [apply ex_works|split_and!; done|split_and!; done|by vm_compute]. }
  destruct (H _ _ _ _ _ _ _ _ _ _ _ (ex_env_ok _ _) ex_typed ex_works (Forall_cons_2 hc_ok (HFile long_args) [] long_args_ok (Forall_nil_2 _)) E) as [_ Hp].
  exact (Hp (long_stops _ _ _ _ _ _ _ _ E)).
Qed.
Print Assumptions C108_refuted.

Example C108_example :
  kernel_works (ex_env 0 (Some 9%N)) ∧ typed W64 (ex_env 0 (Some 9%N)) ∧
  option_map (λ y, length y.1)
    (world_session W64 (ex_env 0 (Some 9%N)) (get_runtime_policy (win_build false [])) no_order
       3 (Some 4%N) ∅ [ex_open (lit "\??\C:\w\a.txt") 0; ex_open (lit "x") 0]) = Some 2%nat.
Proof.
  split; [apply ex_works|]. split; [apply ex_typed|vm_compute; reflexivity].
Qed.
