(** Lemmas about the Windows broker thread. *)
From stdpp Require Import prelude gmap.
From Coq Require Import Strings.Byte ZifyN ZifyNat ZifyBool.
From Verif Require Import Bytes BytesProofs PolicyModel LinuxPolicyModel PostcardModel PostcardSpec
  PostcardProofs WinPolicyModel WinPolicySpec WinPolicyProofs WinBrokerModel WinBrokerSpec.
Local Open Scope N_scope.
Local Arguments N.mul : simpl never.
Local Arguments N.add : simpl never.
Local Arguments N.sub : simpl never.
Local Arguments N.div : simpl never.
Local Arguments N.modulo : simpl never.
Local Arguments N.pow : simpl never.
Local Arguments byte_of_N : simpl never.
Local Arguments Byte.to_N : simpl never.
Ltac Zify.zify_post_hook ::= Z.to_euclidean_division_equations.

(* ---------------------------------------------------------------- UTF-16 *)

Lemma to_N_small n : n < 256 → Byte.to_N (byte_of_N n) = n.
Proof. intros H. by rewrite to_N_byte_of_N, N.mod_small. Qed.

Lemma char_value_encode c s :
  scalar c → char_value (length (utf8_encode c)) (utf8_encode c ++ s) = c.
Proof.
  intros Hs. unfold utf8_encode.
  assert (c < 0x110000) as Hc by (destruct Hs as [?|[_ ?]]; lia).
  destruct (c <? 128) eqn:E1.
  { simpl. rewrite to_N_small by lia. done. }
  destruct (c <? 2048) eqn:E2.
  { simpl. rewrite !to_N_small by lia. lia. }
  destruct (c <? 65536) eqn:E3.
  { simpl. rewrite !to_N_small by lia. lia. }
  simpl. rewrite !to_N_small by lia. lia.
Qed.

Lemma utf16_of_char_spec c : scalar c → utf16_char c (utf16_of_char c).
Proof.
  intros Hs. unfold utf16_of_char, utf16_char.
  assert (c < 0x110000) as Hc by (destruct Hs as [?|[_ ?]]; lia).
  destruct (c <? 65536) eqn:E; [left; split; [lia|done]|]. right. split; [lia|].
  eexists _, _. split; [reflexivity|]. lia.
Qed.

Lemma encode_utf16_aux_chars cs : ∀ fuel,
  Forall scalar cs → (length (concat (map utf8_encode cs)) ≤ fuel)%nat →
  encode_utf16_aux fuel (concat (map utf8_encode cs)) = concat (map utf16_of_char cs).
Proof.
  induction cs as [|c cs IH]; intros fuel Hs Hl; [by destruct fuel|].
  apply Forall_cons in Hs as [Hc Hs]. cbn [map concat] in *. rewrite app_length in Hl.
  destruct (utf8_encode_head c (concat (map utf8_encode cs)) Hc) as [Hh Hp].
  destruct fuel as [|fuel]; [lia|].
  pose proof (char_value_encode c (concat (map utf8_encode cs)) Hc) as Hv.
  cbn [encode_utf16_aux].
  destruct (utf8_encode c ++ concat (map utf8_encode cs)) as [|b l] eqn:E.
  { apply (f_equal length) in E. rewrite app_length in E. simpl in E. lia. }
  rewrite Hh, Hv. f_equal. rewrite <-E, drop_app. apply IH; [done|lia].
Qed.

Lemma encode_utf16_spec s : is_utf8 s → utf16_of s (encode_utf16 s).
Proof.
  intros (cs & Hs & ->). exists cs, (map utf16_of_char cs). split; [done|]. split; [done|]. split.
  - apply Forall2_fmap_r, Forall_Forall2_diag. eapply Forall_impl; [exact Hs|].
    apply utf16_of_char_spec.
  - by apply encode_utf16_aux_chars.
Qed.

Lemma utf16_char_fun c us us' : utf16_char c us → utf16_char c us' → us = us'.
Proof.
  intros [[H1 ->]|(H1 & hi & lo & -> & H2 & H3 & H4)]
    [[H1' ->]|(H1' & hi' & lo' & -> & H2' & H3' & H4')]; try lia; [done|].
  assert (hi = hi') by lia. assert (lo = lo') by lia. by subst.
Qed.

Lemma utf8_chars_inj cs : ∀ cs', Forall scalar cs → Forall scalar cs' →
  concat (map utf8_encode cs) = concat (map utf8_encode cs') → cs = cs'.
Proof.
  induction cs as [|c cs IH]; intros [|c' cs'] H1 H2 E; [done| | |].
  - apply Forall_cons in H2 as [H2 _]. destruct (utf8_encode_head c' [] H2) as [_ Hp].
    cbn [map concat] in E. symmetry in E. apply app_nil in E as [E _]. rewrite E in Hp. simpl in Hp. lia.
  - apply Forall_cons in H1 as [H1 _]. destruct (utf8_encode_head c [] H1) as [_ Hp].
    cbn [map concat] in E. apply app_nil in E as [E _]. rewrite E in Hp. simpl in Hp. lia.
  - apply Forall_cons in H1 as [H1 H1']. apply Forall_cons in H2 as [H2 H2'].
    cbn [map concat] in E.
    pose proof (char_value_encode c (concat (map utf8_encode cs)) H1) as V1.
    pose proof (char_value_encode c' (concat (map utf8_encode cs')) H2) as V2.
    destruct (utf8_encode_head c (concat (map utf8_encode cs)) H1) as [L1 _].
    destruct (utf8_encode_head c' (concat (map utf8_encode cs')) H2) as [L2 _].
    rewrite E in L1, V1. rewrite L1 in L2. injection L2 as L2. rewrite L2 in V1.
    assert (c = c') as <- by congruence. apply app_inv_head in E. f_equal. by apply IH.
Qed.

Lemma utf16_of_fun s us us' : utf16_of s us → utf16_of s us' → us = us'.
Proof.
  intros (cs & uss & H1 & -> & H2 & ->) (cs' & uss' & H1' & E & H2' & ->).
  apply utf8_chars_inj in E; [|done|done]. subst cs'. f_equal.
  clear H1 H1'. revert uss' H2'. induction H2 as [|c us cs uss Hc H2 IH]; intros uss' H2';
    inversion H2'; subst; [done|]. f_equal; [by eapply utf16_char_fun|by apply IH].
Qed.

Lemma us_units_wrapped s : us_units (unicode_of s) = wrapped_name (encode_utf16 s).
Proof.
  unfold us_units, unicode_of, wrapped_name. cbn [us_length us_buffer].
  set (us := encode_utf16 s). clearbody us.
  assert ((N.of_nat (length us) * 2) mod 2 ^ 16 / 2 = N.of_nat (length us) mod 32768) as ->.
  { change (2 ^ 16) with 65536. lia. }
  apply take_app_le. lia.
Qed.

Lemma name_for_units s : is_utf8 s → name_for s (us_units (unicode_of s)).
Proof. intros H. exists (encode_utf16 s). split; [by apply encode_utf16_spec|apply us_units_wrapped]. Qed.

(* ---------------------------------------------------------------- decoding *)

Lemma dbind_Some {A B} (d : parser A) (f : A → parser B) s x :
  dbind d f s = Some x ↔ ∃ a r, d s = Some (a, r) ∧ f a r = Some x.
Proof.
  unfold dbind. destruct (d s) as [[a r]|].
  - split; [eauto|]. by intros (a' & r' & [= <- <-] & ?).
  - split; [done|]. by intros (? & ? & ? & _).
Qed.

(** A decoded message has valid strings. *)
Definition wmsg_strings (m : win_msg) : Prop :=
  match m with
  | WReqInit => True
  | WReqFile _ path _ _ _ _ _ _ => is_utf8 path
  | WReqKey _ path _ class _ _ => is_utf8 path ∧ ∀ c, class = Some c → is_utf8 c
  end.
Lemma dec_wreq_strings s m r : dec_wreq s = Some (m, r) → wmsg_strings m.
Proof.
  unfold dec_wreq. intros H. apply dbind_Some in H as (v & r0 & _ & H).
  destruct (v =? 0); [by injection H as <- _|].
  destruct (v =? 1).
  { repeat (apply dbind_Some in H as (? & ? & ? & H)). injection H as <- _. simpl.
    match goal with H : dec_str _ = Some _ |- _ => by apply dec_str_Some in H as [? _] end. }
  destruct (v =? 2); [|done].
  repeat (apply dbind_Some in H as (? & ? & ? & H)). injection H as <- _. simpl. split.
  - match goal with H : dec_str _ = Some _ |- _ => by apply dec_str_Some in H as [? _] end.
  - intros c ->.
    match goal with H : dec_option _ ?s = Some _ |- _ =>
      rename H into Ho; unfold dec_option in Ho; destruct s as [|b s'] end; [done|].
    destruct b; try done.
    destruct (dec_str s') as [[c' r']|] eqn:E; [|done]. injection Ho as <- _.
    by apply dec_str_Some in E as [? _].
Qed.

Lemma win_recv_plain rd m :
  win_recv dec_wreq rd = Ok (Some (m, None)) ↔ plain_read rd m.
Proof.
  unfold plain_read, win_recv, deserialize, dec_wrapped, dec_pair. split.
  - destruct rd as [b| |]; [|done|done].
    destruct (dec_wreq b) as [[m' r]|] eqn:E; [|done].
    destruct r as [|y r]; [done|]. simpl. destruct y; try done; [|].
    + intros [= <-]. eauto.
    + by destruct (dec_u64 r) as [[? ?]|].
  - intros (b & rest & -> & ->). done.
Qed.
Lemma win_recv_handle rd m h :
  win_recv dec_wreq rd = Ok (Some (m, Some h)) → handle_read rd h.
Proof.
  unfold handle_read, win_recv, deserialize, dec_wrapped, dec_pair.
  destruct rd as [b| |]; [|done|done].
  destruct (dec_wreq b) as [[m' r]|] eqn:E; [|done].
  destruct r as [|y r]; [done|]. simpl. destruct y; try done.
  destruct (dec_u64 r) as [[h' rest]|] eqn:E2; [|done]. intros [= <- <-]. eauto 10.
Qed.
Lemma handle_read_recv rd h :
  handle_read rd h → ∃ m, win_recv dec_wreq rd = Ok (Some (m, Some h)).
Proof.
  intros (b & m & r & rest & -> & E1 & E2). exists m.
  unfold win_recv, deserialize, dec_wrapped, dec_pair. rewrite E1. simpl. by rewrite E2.
Qed.
Lemma plain_read_fun rd m m' : plain_read rd m → plain_read rd m' → m = m'.
Proof. intros (b & r & -> & E) (b' & r' & [= <-] & E'). congruence. Qed.

(* ---------------------------------------------------------------- one request *)

Definition wgranted (env : wenv) (p : policy) (q : win_request) : Prop :=
  (win_evaluate_request (we_debug env) p q).1 = Granted.

Lemma wgranted_cases env p q : wgranted env p q ∨ ¬ wgranted env p q.
Proof. unfold wgranted. destruct (win_evaluate_request _ _ _).1; [by left|by right..]. Qed.

Lemma wlog_events_callbacks debug p q : Forall is_callback (wlog_events debug p q).
Proof.
  unfold wlog_events. apply Forall_forall. intros e He.
  apply elem_of_list_fmap in He as ([[cb r] v] & -> & _). done.
Qed.

Lemma lor_reparse options : Z.lor options FILE_FLAG_OPEN_REPARSE_POINT = Z.setbit options 21.
Proof. unfold FILE_FLAG_OPEN_REPARSE_POINT. by rewrite Z.setbit_spec'. Qed.

(** The result of the two calls. *)
Definition dispatched (env : wenv) (granted : Prop) (m : win_msg) (s : wstate)
  (r : win_reply) (h : option N) (s' : wstate) : Prop :=
  ∃ cbs, Forall is_callback cbs ∧
  ((¬ granted ∧ r = WRepStatus (-1073741790) ∧ h = None ∧ s' = wlog s cbs) ∨
   (granted ∧ ∃ c a, call_for m c ∧ reply_for m a r ∧
      (((nt_status a < 0)%Z ∧ h = None ∧ s' = wlog s (cbs ++ [WCalled c a])) ∨
       ((0 ≤ nt_status a)%Z ∧ ∃ local, ws_tab s !! local = None ∧ h = Some local ∧
          s' = mkWst (<[local := nt_object a]> (ws_tab s)) (ws_trace s ++ cbs ++ [WCalled c a]))))).

Lemma do_nt_call_spec env c s a h s' :
  wenv_ok env → do_nt_call env c s = (a, h, s') →
  ((nt_status a < 0)%Z ∧ h = None ∧ s' = wlog s [WCalled c a]) ∨
  ((0 ≤ nt_status a)%Z ∧ ∃ local, ws_tab s !! local = None ∧ h = Some local ∧
     s' = mkWst (<[local := nt_object a]> (ws_tab s)) (ws_trace s ++ [WCalled c a])).
Proof.
  intros Hw. unfold do_nt_call. unfold nt_success.
  destruct (0 <=? nt_status (we_call env (ws_trace s) c))%Z eqn:E.
  - intros [= <- <- <-]. right. split; [lia|]. eexists. split; [|done].
    apply not_elem_of_dom. apply Hw.
  - intros [= <- <- <-]. left. split_and!; [lia|done|done].
Qed.

Lemma win_dispatch_spec env p m s :
  wenv_ok env → wmsg_strings m →
  match win_dispatch env p m s with
  | None => m = WReqInit
  | Some (r, h, s') => ∃ q, question m q ∧ dispatched env (wgranted env p q) m s r h s'
  end.
Proof.
  intros Hw Hm. destruct m as [|access path alloc attributes share disposition options ea|
    access path title class options do_create]; simpl; [done|..].
  - unfold proxied_ntcreatefile. rewrite lor_reparse.
    set (q := WinFileOpen _) in *.
    destruct (wgranted_cases env p q) as [Hg|Hg].
    + unfold wgranted in Hg. rewrite Hg.
      destruct (do_nt_call _ _ _) as [[a h] s'] eqn:E.
      exists q. split; [done|]. exists (wlog_events (we_debug env) p q).
      split; [apply wlog_events_callbacks|]. right. split; [exact Hg|].
      eexists _, a. split; [eexists; split; [by apply name_for_units|reflexivity]|].
      split; [reflexivity|].
      apply do_nt_call_spec in E; [|done].
      destruct E as [(? & -> & ->)|(? & local & ? & -> & ->)]; [left|right].
      * split_and!; [done|done|]. unfold wlog; simpl. by rewrite app_assoc.
      * split; [done|]. exists local. split_and!; [done|done|]. simpl. by rewrite app_assoc.
    + assert (match (win_evaluate_request (we_debug env) p q).1 with
        | Granted => False | _ => True end) as Hv.
      { unfold wgranted in Hg. destruct (win_evaluate_request _ _ _).1; done. }
      destruct (win_evaluate_request (we_debug env) p q).1; try done;
      (exists q; split; [done|]; exists (wlog_events (we_debug env) p q);
       split; [apply wlog_events_callbacks|]; left; done).
  - destruct Hm as [Hpath Hclass]. unfold proxied_ntcreatekey.
    set (q := WinRegKeyOpen _ _ _ _) in *.
    destruct (wgranted_cases env p q) as [Hg|Hg].
    + unfold wgranted in Hg. rewrite Hg. destruct do_create.
      * destruct (do_nt_call _ _ _) as [[a h] s'] eqn:E.
        exists q. split; [done|]. exists (wlog_events (we_debug env) p q).
        split; [apply wlog_events_callbacks|]. right. split; [exact Hg|].
        exists (NtCreateKey (us_units (unicode_of path)) access title
          (option_map (λ c, us_units (unicode_of c)) class) options), a. split.
        { exists (us_units (unicode_of path)), (option_map (λ c, us_units (unicode_of c)) class).
          split; [by apply name_for_units|]. split; [reflexivity|].
          destruct class as [cl|]; simpl; [|done]. eexists. split; [|reflexivity].
          apply name_for_units. by apply Hclass. }
        split.
        { eexists. split; [reflexivity|]. unfold nt_success. split; intros Hs.
          - by replace (0 <=? nt_status a)%Z with true by lia.
          - by replace (0 <=? nt_status a)%Z with false by lia. }
        apply do_nt_call_spec in E; [|done].
        destruct E as [(? & -> & ->)|(? & local & ? & -> & ->)]; [left|right].
        -- split_and!; [done|done|]. unfold wlog; simpl. by rewrite app_assoc.
        -- split; [done|]. exists local. split_and!; [done|done|]. simpl. by rewrite app_assoc.
      * destruct (do_nt_call _ _ _) as [[a h] s'] eqn:E.
        exists q. split; [done|]. exists (wlog_events (we_debug env) p q).
        split; [apply wlog_events_callbacks|]. right. split; [exact Hg|].
        eexists _, a. split; [eexists; split; [by apply name_for_units|reflexivity]|].
        split.
        { eexists. split; [reflexivity|]. unfold nt_success. split; intros Hs.
          - by replace (0 <=? nt_status a)%Z with true by lia.
          - by replace (0 <=? nt_status a)%Z with false by lia. }
        apply do_nt_call_spec in E; [|done].
        destruct E as [(? & -> & ->)|(? & local & ? & -> & ->)]; [left|right].
        -- split_and!; [done|done|]. unfold wlog; simpl. by rewrite app_assoc.
        -- split; [done|]. exists local. split_and!; [done|done|]. simpl. by rewrite app_assoc.
    + assert (match (win_evaluate_request (we_debug env) p q).1 with
        | Granted => False | _ => True end) as Hv.
      { unfold wgranted in Hg. destruct (win_evaluate_request _ _ _).1; done. }
      destruct (win_evaluate_request (we_debug env) p q).1; try done;
      (exists q; split; [done|]; exists (wlog_events (we_debug env) p q);
       split; [apply wlog_events_callbacks|]; left; done).
Qed.

Lemma serialize_Some {A} (e : A → str) m n b : serialize e m n = Some b → b = e m.
Proof. unfold serialize. destruct (_ <=? _); [|done]. by intros [= <-]. Qed.

Lemma win_send_spec env m h s :
  match win_send env m h s with
  | None => we_remote env = false ∧ h ≠ None
  | Some (ok, s') => ∃ es, s' = wlog s es ∧
      match h with
      | None => es = if ok : bool then [WSent (enc_wrapped enc_wrep (m, None))] else [WSendFailed]
      | Some local =>
          let obj := default 0 (ws_tab s !! local) in
          if ok then ∃ remote, es = [WDuplicated local remote obj;
                                     WSent (enc_wrapped enc_wrep (m, Some remote))]
          else es = [WSendFailed] ∨ ∃ remote, es = [WDuplicated local remote obj; WSendFailed]
      end
  end.
Proof.
  unfold win_send. destruct h as [local|].
  - destruct (we_remote env); [|done]. destruct (we_dup env (ws_trace s)) as [remote|].
    + destruct (serialize _ _ _) as [b|] eqn:E.
      * apply serialize_Some in E as ->. destruct (we_write env _).
        -- eexists. split; [|by eexists]. unfold wlog; simpl. by rewrite <-app_assoc.
        -- eexists. split; [|right; by eexists]. unfold wlog; simpl. by rewrite <-app_assoc.
      * eexists. split; [|right; by eexists]. unfold wlog; simpl. by rewrite <-app_assoc.
    + eexists. split; [done|]. by left.
  - destruct (serialize _ _ _) as [b|] eqn:E.
    + apply serialize_Some in E as ->. destruct (we_write env _); by eexists.
    + by eexists.
Qed.

(** How a session ends, for the message [rd] that ends it. *)
Definition ending (env : wenv) (p : policy) (t : gmap N N) (rd : wread) (st : wstatus)
  (es : list wevent) (t' : gmap N N) : Prop :=
  ((∀ m, plain_read rd m → m = WReqInit) ∧ st = WExited ∧
   ((es = [] ∧ t' = t) ∨ (∃ h, handle_read rd h ∧ es = [WClosed h] ∧ t' = delete h t))) ∨
  (t' = t ∧ (st = WCrashed → we_remote env = false) ∧
   ∃ m q, plain_read rd m ∧ question m q ∧ cut_exchange t (wgranted env p q) m es).

Definition served (env : wenv) (p : policy) (t : gmap N N) (m : win_msg) (es : list wevent) : Prop :=
  ∃ q, question m q ∧ exchange t (wgranted env p q) m es.

Lemma win_step_spec env p rd s st s' :
  wenv_ok env → win_step env p rd s = (st, s') →
  ∃ es, ws_trace s' = ws_trace s ++ es ∧
    match st with
    | WServing => ws_tab s' = ws_tab s ∧ ∃ m, plain_read rd m ∧ served env p (ws_tab s) m es
    | _ => ending env p (ws_tab s) rd st es (ws_tab s')
    end.
Proof.
  intros Hw. unfold win_step.
  destruct (win_recv dec_wreq rd) as [[[m [h|]]|]|[]] eqn:E.
  - intros [= <- <-]. simpl. exists [WClosed h]. split; [done|]. left. split_and!; [|done|].
    + intros m' Hm'. apply win_recv_plain in Hm'. congruence.
    + right. exists h. split; [by eapply win_recv_handle|done].
  - assert (plain_read rd m) as Hm by (by apply win_recv_plain).
    assert (wmsg_strings m) as Hstr.
    { destruct Hm as (b & rest & _ & Hd). by eapply dec_wreq_strings. }
    pose proof (win_dispatch_spec env p m s Hw Hstr) as Hd.
    destruct (win_dispatch env p m s) as [[[r h] s1]|].
    2:{ intros [= <- <-]. exists []. split; [by rewrite app_nil_r|]. left.
        split_and!; [|done|by left]. intros m' Hm'. rewrite (plain_read_fun _ _ _ Hm' Hm). done. }
    destruct Hd as (q & Hq & cbs & Hcbs & Hd).
    pose proof (win_send_spec env (WOut r) h s1) as Hs.
    destruct (win_send env (WOut r) h s1) as [[ok s2]|].
    + destruct Hs as (es & -> & Hs). intros Hst.
      assert (st = if ok then WServing else WExited) as -> by (by destruct ok; injection Hst).
      assert (s' = win_drop h (wlog s1 es)) as -> by (by destruct ok; injection Hst). clear Hst.
      destruct Hd as [(Hng & -> & -> & ->)|(Hg & c & a & Hc & Hr & Hd)].
      { simpl in *. exists (cbs ++ es). split; [by rewrite app_assoc|].
        destruct ok; subst es.
        - split; [done|]. exists m. split; [done|]. exists q. split; [done|].
          exists cbs. split; [done|]. left. split; [done|]. done.
        - right. split_and!; [done|done|]. exists m, q. split_and!; [done|done|].
          exists cbs. split; [done|]. left. done. }
      destruct Hd as [(Hneg & -> & ->)|(Hpos & local & Hl & -> & ->)].
      { simpl in *. exists ((cbs ++ [WCalled c a]) ++ es). split; [by rewrite !app_assoc|].
        destruct ok; subst es.
        - split; [done|]. exists m. split; [done|]. exists q. split; [done|].
          exists cbs. split; [done|]. right. split; [done|]. exists c, a, r.
          split_and!; [done|done|]. left. split; [done|]. by rewrite <-app_assoc.
        - right. split_and!; [done|done|]. exists m, q. split_and!; [done|done|].
          exists cbs. split; [done|]. right. split; [done|]. exists c, a. split; [done|].
          left. split; [done|]. by rewrite <-app_assoc. }
      simpl in *. rewrite lookup_insert in Hs. simpl in Hs.
      exists ((cbs ++ [WCalled c a]) ++ es ++ [WClosed local]). split; [by rewrite !app_assoc|].
      destruct ok.
      * destruct Hs as (remote & ->). split; [by apply delete_insert|].
        exists m. split; [done|]. exists q. split; [done|].
        exists cbs. split; [done|]. right. split; [done|]. exists c, a, r.
        split_and!; [done|done|]. right. split; [done|]. exists local, remote. split; [done|].
        by rewrite <-app_assoc.
      * right. split; [by apply delete_insert|]. split; [done|]. exists m, q. split_and!; [done|done|].
        exists cbs. split; [done|]. right. split; [done|]. exists c, a. split; [done|].
        right. split; [done|]. exists local, (es ++ [WClosed local]). split; [done|].
        split; [by rewrite <-app_assoc|].
        destruct Hs as [->|(remote & ->)]; [by left|right; right; by exists remote].
    + destruct Hs as [Hrem Hh]. intros [= <- <-].
      destruct Hd as [(_ & _ & -> & _)|(Hg & c & a & Hc & Hr & Hd)]; [done|].
      destruct Hd as [(_ & -> & _)|(Hpos & local & Hl & -> & ->)]; [done|].
      simpl. exists ((cbs ++ [WCalled c a]) ++ [WClosed local]). split; [by rewrite !app_assoc|].
      right. split; [by apply delete_insert|]. split; [done|]. exists m, q. split_and!; [done|done|].
      exists cbs. split; [done|]. right. split; [done|]. exists c, a. split; [done|].
      right. split; [done|]. exists local, [WClosed local]. split; [done|].
      split; [by rewrite <-app_assoc|]. by right; left.
  - intros [= <- <-]. exists []. split; [by rewrite app_nil_r|]. left. split_and!; [|done|by left].
    intros m Hm. apply win_recv_plain in Hm. congruence.
  - intros [= <- <-]. exists []. split; [by rewrite app_nil_r|]. left. split_and!; [|done|by left].
    intros m Hm. apply win_recv_plain in Hm. congruence.
Qed.

Lemma wstatus_cases (st : wstatus) : st = WServing ∨ st ≠ WServing.
Proof. destruct st; [by left|by right..]. Qed.

Definition closes (ch : N) (ph : option N) : list wevent :=
  WClosed ch :: match ph with Some h => [WClosed h] | None => [] end.
Definition closed (ch : N) (ph : option N) (t : gmap N N) : gmap N N :=
  match ph with Some h => delete h (delete ch t) | None => delete ch t end.

Lemma win_end_eq ch ph s :
  win_end ch ph s = mkWst (closed ch ph (ws_tab s)) (ws_trace s ++ closes ch ph).
Proof.
  unfold win_end, closed, closes. destruct ph as [h|]; simpl; [|done]. by rewrite <-app_assoc.
Qed.

Lemma win_loop_spec env p ch ph rds : ∀ s st s',
  wenv_ok env → win_loop env p ch ph rds s = (st, s') →
  ∃ ms segs tail,
    ws_trace s' = ws_trace s ++ concat segs ++ tail ∧
    Forall2 plain_read (take (length ms) rds) ms ∧
    Forall2 (served env p (ws_tab s)) ms segs ∧
    (st = WServing → tail = [] ∧ length ms = length rds ∧ ws_tab s' = ws_tab s) ∧
    (st ≠ WServing → ∃ rd es t', rds !! length ms = Some rd ∧
       ending env p (ws_tab s) rd st es t' ∧
       tail = es ++ closes ch ph ∧ ws_tab s' = closed ch ph t').
Proof.
  induction rds as [|rd rds IH]; intros s st s' Hw; cbn [win_loop].
  { intros [= <- <-]. exists [], [], []. split_and!; [by rewrite !app_nil_r|constructor|constructor|done|done]. }
  destruct (win_step env p rd s) as [st1 s1] eqn:E.
  destruct (win_step_spec env p rd s st1 s1 Hw E) as (es & Ht & Hst).
  destruct st1.
  - destruct Hst as (Htab & m & Hm & Hserved). intros Hl.
    destruct (IH s1 st s' Hw Hl) as (ms & segs & tail & H1 & H2 & H3 & H4 & H5).
    rewrite Htab in *. exists (m :: ms), (es :: segs), tail. cbn [length take concat].
    split_and!.
    + rewrite H1, Ht. by rewrite <-!app_assoc.
    + by constructor.
    + by constructor.
    + intros Hs. destruct (H4 Hs) as (? & ? & ?). split_and!; try done. simpl. by f_equal.
    + done.
  - intros [= <- <-]. rewrite win_end_eq. exists [], [], (es ++ closes ch ph). simpl.
    split_and!; [by rewrite Ht, app_assoc|constructor|constructor|done|].
    intros _. exists rd, es, (ws_tab s1). done.
  - intros [= <- <-]. rewrite win_end_eq. exists [], [], (es ++ closes ch ph). simpl.
    split_and!; [by rewrite Ht, app_assoc|constructor|constructor|done|].
    intros _. exists rd, es, (ws_tab s1). done.
Qed.

Lemma win_loop_app env p ch ph rds rds' s :
  win_loop env p ch ph (rds ++ rds') s =
  match win_loop env p ch ph rds s with
  | (WServing, s') => win_loop env p ch ph rds' s'
  | r => r
  end.
Proof.
  revert s. induction rds as [|rd rds IH]; intros s; simpl; [done|].
  destruct (win_step env p rd s) as [[] s1]; [apply IH|done|done].
Qed.

(** The thread: handshake, requests, end. *)
Lemma win_thread_spec env p o ch ph rds t st s' :
  wenv_ok env → win_thread env p o ch ph rds (mkWst t []) = (st, s') →
  (rds = [] ∧ st = WServing ∧ s' = mkWst t []) ∨
  (∃ rd rds', rds = rd :: rds' ∧
   ((∃ es, (es = [] ∨ (es = [WSendFailed] ∧ plain_read rd WReqInit)) ∧ st = WExited ∧
       s' = mkWst (closed ch ph t) (es ++ closes ch ph)) ∨
    (∃ h, handle_read rd h ∧ st = WExited ∧
       s' = mkWst (closed ch ph (delete h t)) (WClosed h :: closes ch ph)) ∨
    (plain_read rd WReqInit ∧
     ∃ s1, win_loop env p ch ph rds'
             (mkWst t [WSent (enc_wrapped enc_wrep (WOutInit o (audit_only p), None))]) = (st, s1) ∧
       s' = s1))).
Proof.
  intros Hw. unfold win_thread. destruct rds as [|rd rds]; [intros [= <- <-]; by left|].
  intros H. right. exists rd, rds. split; [done|]. revert H.
  destruct (win_recv dec_wreq rd) as [[[m [h|]]|]|[]] eqn:E.
  - assert (handle_read rd h) as Hh by (by eapply win_recv_handle). intros H. right. left. exists h.
    destruct m; injection H as <- <-; rewrite win_end_eq; done.
  - destruct m as [|??????? ?|??????].
    + pose proof (win_send_spec env (WOutInit o (audit_only p)) None (mkWst t [])) as Hs.
      destruct (win_send _ _ _ _) as [[[] s2]|]; [| |by destruct Hs].
      * destruct Hs as (es & -> & ->). intros H. right. right.
        split; [by apply win_recv_plain|]. eauto.
      * destruct Hs as (es & -> & ->). intros [= <- <-]. left. exists [WSendFailed].
        split; [right; split; [done|by apply win_recv_plain]|]. split; [done|].
        by rewrite win_end_eq.
    + intros [= <- <-]. left. exists []. split; [by left|]. rewrite win_end_eq. done.
    + intros [= <- <-]. left. exists []. split; [by left|]. rewrite win_end_eq. done.
  - intros [= <- <-]. left. exists []. split; [by left|]. rewrite win_end_eq. done.
  - intros [= <- <-]. left. exists []. split; [by left|]. rewrite win_end_eq. done.
Qed.

(* ---------------------------------------------------------------- calls and closed handles *)

Lemma calls_of_app a b : calls_of (a ++ b) = calls_of a ++ calls_of b.
Proof. unfold calls_of. by rewrite omap_app. Qed.
Lemma calls_of_callbacks l : Forall is_callback l → calls_of l = [].
Proof. induction 1 as [|e l He _ IH]; [done|]. by destruct e. Qed.
Lemma calls_of_closes ch ph : calls_of (closes ch ph) = [].
Proof. by destruct ph. Qed.

Lemma exchange_calls t g m es c a :
  exchange t g m es → (c, a) ∈ calls_of es → g ∧ call_for m c.
Proof.
  intros (cbs & Hcb & [(_ & ->)|(Hg & c' & a' & r & Hc & _ & [(_ & ->)|(_ & local & remote & _ & ->)])]);
    rewrite calls_of_app, (calls_of_callbacks _ Hcb); simpl; intros Hin.
  - set_solver.
  - apply elem_of_list_singleton in Hin. by injection Hin as -> ->.
  - apply elem_of_list_singleton in Hin. by injection Hin as -> ->.
Qed.
Lemma cut_exchange_calls t g m es c a :
  cut_exchange t g m es → (c, a) ∈ calls_of es → g ∧ call_for m c.
Proof.
  intros (cbs & Hcb & [(_ & ->)|(Hg & c' & a' & Hc & [(_ & ->)|(_ & local & tl & _ & -> & Ht)])]);
    rewrite calls_of_app, (calls_of_callbacks _ Hcb); simpl; intros Hin.
  - set_solver.
  - apply elem_of_list_singleton in Hin. by injection Hin as -> ->.
  - assert (calls_of tl = []) as E by (destruct Ht as [-> | [-> | (? & ->)]]; done).
    change (omap _ tl) with (calls_of tl) in Hin.
    rewrite E in Hin. apply elem_of_list_singleton in Hin. by injection Hin as -> ->.
Qed.

(** Where each system call of a session comes from. *)
Lemma win_loop_calls env p ch ph rds s st s' c a :
  wenv_ok env → win_loop env p ch ph rds s = (st, s') →
  (c, a) ∈ calls_of (ws_trace s') → (c, a) ∉ calls_of (ws_trace s) →
  ∃ rd m q, rd ∈ rds ∧ plain_read rd m ∧ question m q ∧ wgranted env p q ∧ call_for m c.
Proof.
  intros Hw E Hin Hno.
  destruct (win_loop_spec env p ch ph rds s st s' Hw E)
    as (ms & segs & tail & Ht & Hms & Hsegs & Hserving & Hend).
  rewrite Ht, !calls_of_app, !elem_of_app in Hin. destruct Hin as [?|[Hin|Hin]]; [done|..].
  - unfold calls_of in Hin. apply elem_of_list_omap in Hin as (e & He & Ee).
    apply elem_of_list_In, in_concat in He as (seg & Hseg%elem_of_list_In & He%elem_of_list_In).
    apply elem_of_list_lookup in Hseg as (i & Hi).
    destruct (Forall2_lookup_r _ _ _ _ _ Hsegs Hi) as (m & Hm & q & Hq & Hx).
    destruct (Forall2_lookup_r _ _ _ _ _ Hms Hm) as (rd & Hrd & Hpl).
    assert (rd ∈ rds) as Hrd'.
    { apply elem_of_list_lookup_2 in Hrd. rewrite <-(take_drop (length ms) rds).
      apply elem_of_app. by left. }
    destruct (exchange_calls _ _ _ _ c a Hx) as [Hg Hc].
    { unfold calls_of. apply elem_of_list_omap. eauto. }
    exists rd, m, q. done.
  - destruct (wstatus_cases st) as [->|Hst].
    { destruct Hserving as (-> & _); [done|]. set_solver. }
    destruct (Hend Hst) as (rd & es & t' & Hrd & Hending & -> & _).
    rewrite calls_of_app, calls_of_closes, app_nil_r in Hin.
    destruct Hending as [(_ & _ & [(-> & _)|(h & _ & -> & _)])|(_ & _ & m & q & Hpl & Hq & Hx)];
      [set_solver|set_solver|].
    destruct (cut_exchange_calls _ _ _ _ _ _ Hx Hin) as [Hg Hc].
    exists rd, m, q. split; [by eapply elem_of_list_lookup_2|]. done.
Qed.

Lemma win_thread_calls env p o ch ph rds t st s' c a :
  wenv_ok env → win_thread env p o ch ph rds (mkWst t []) = (st, s') →
  (c, a) ∈ calls_of (ws_trace s') →
  ∃ rd m q, rd ∈ rds ∧ plain_read rd m ∧ question m q ∧ wgranted env p q ∧ call_for m c.
Proof.
  intros Hw E Hin.
  destruct (win_thread_spec _ _ _ _ _ _ _ _ _ Hw E) as
    [(-> & _ & ->)|(rd & rds' & -> & [(es & Hes & _ & ->)|[(h & _ & _ & ->)|(_ & s1 & E1 & ->)]])].
  - simpl in Hin. set_solver.
  - simpl in Hin. rewrite calls_of_app, calls_of_closes in Hin.
    destruct Hes as [->|(-> & _)]; simpl in Hin; set_solver.
  - cbn [ws_trace] in Hin. change (calls_of (WClosed h :: closes ch ph)) with (calls_of (closes ch ph)) in Hin.
    rewrite calls_of_closes in Hin. set_solver.
  - destruct (win_loop_calls _ _ _ _ _ _ _ _ c a Hw E1 Hin) as (rd' & m & q & H & ?).
    { simpl. set_solver. }
    exists rd', m, q. split; [|done]. by apply elem_of_list_further.
Qed.

Lemma exchange_closed t g m es h : exchange t g m es → WClosed h ∈ es → t !! h = None.
Proof.
  intros (cbs & Hcb & Hx) Hin. rewrite Forall_forall in Hcb.
  destruct Hx as [(_ & ->)|(_ & c & a & r & _ & _ & [(_ & ->)|(_ & local & remote & Hl & ->)])];
    apply elem_of_app in Hin as [Hin|Hin]; try (by apply Hcb in Hin);
    rewrite ?elem_of_cons, ?elem_of_nil in Hin; naive_solver.
Qed.
Lemma cut_exchange_closed t g m es h : cut_exchange t g m es → WClosed h ∈ es → t !! h = None.
Proof.
  intros (cbs & Hcb & Hx) Hin. rewrite Forall_forall in Hcb.
  destruct Hx as [(_ & ->)|(_ & c & a & _ & [(_ & ->)|(_ & local & tl & Hl & -> & Ht)])];
    apply elem_of_app in Hin as [Hin|Hin]; try (by apply Hcb in Hin);
    [rewrite ?elem_of_cons, ?elem_of_nil in Hin; naive_solver..|].
  destruct Ht as [-> | [-> | (? & ->)]]; rewrite ?elem_of_cons, ?elem_of_nil in Hin; naive_solver.
Qed.
Lemma closes_closed ch ph h : WClosed h ∈ closes ch ph → h = ch ∨ ph = Some h.
Proof.
  unfold closes. destruct ph; rewrite ?elem_of_cons, ?elem_of_nil; naive_solver.
Qed.

(** Without handles from the worker, only handles made for an exchange are closed. *)
Lemma win_thread_closed env p o ch ph rds t st s' :
  wenv_ok env → win_thread env p o ch ph rds (mkWst t []) = (st, s') →
  (∀ rd h, rd ∈ rds → ¬ handle_read rd h) →
  ws_tab s' = (match st with WServing => t | _ => closed ch ph t end) ∧
  ∀ h, WClosed h ∈ ws_trace s' → t !! h = None ∨ h = ch ∨ ph = Some h.
Proof.
  intros Hw E Hno.
  destruct (win_thread_spec _ _ _ _ _ _ _ _ _ Hw E) as
    [(-> & -> & ->)|(rd & rds' & -> & [(es & Hes & -> & ->)|[(h & Hh & _)|(_ & s1 & E1 & ->)]])].
  - simpl. split; [done|]. set_solver.
  - simpl. split; [done|]. intros h Hin. right. apply elem_of_app in Hin as [Hin|Hin].
    + destruct Hes as [->|(-> & _)]; rewrite ?elem_of_cons, ?elem_of_nil in Hin; naive_solver.
    + by apply closes_closed.
  - exfalso. apply (Hno rd h); [apply elem_of_list_here|done].
  - destruct (win_loop_spec _ _ _ _ _ _ _ _ Hw E1)
      as (ms & segs & tail & Ht & Hms & Hsegs & Hserving & Hend). simpl in *.
    assert (∀ h, WClosed h ∈ concat segs → t !! h = None) as Hsegs'.
    { intros h Hin. apply elem_of_list_In, in_concat in Hin as (seg & Hseg%elem_of_list_In & He%elem_of_list_In).
      apply elem_of_list_lookup in Hseg as (i & Hi).
      destruct (Forall2_lookup_r _ _ _ _ _ Hsegs Hi) as (m & _ & q & _ & Hx).
      by eapply exchange_closed. }
    destruct (wstatus_cases st) as [->|Hst].
    + destruct Hserving as (-> & _ & Htab); [done|]. split; [done|].
      intros h Hin. rewrite Ht, app_nil_r in Hin.
      apply elem_of_cons in Hin as [?|Hin]; [done|]. left. by apply Hsegs'.
    + destruct (Hend Hst) as (rd' & es & t' & Hrd & Hending & -> & Htab).
      assert (rd' ∈ rd :: rds') as Hrd'.
      { apply elem_of_list_further. by eapply elem_of_list_lookup_2. }
      assert (t' = t ∧ ∀ h, WClosed h ∈ es → t !! h = None) as [-> Hes].
      { destruct Hending as [(_ & _ & [(-> & ->)|(h & Hh & _)])|(-> & _ & m & q & _ & _ & Hx)].
        - split; [done|]. set_solver.
        - exfalso. by apply (Hno rd' h).
        - split; [done|]. intros h Hin. by eapply cut_exchange_closed. }
      split; [by destruct st|]. intros h Hin. rewrite Ht in Hin.
      rewrite elem_of_cons, !elem_of_app in Hin.
      destruct Hin as [?|[Hin|[Hin|Hin]]]; [done|left; by apply Hsegs'|left; by apply Hes|].
      right. by apply closes_closed.
Qed.

(* ---------------------------------------------------------------- messages *)

Lemma option_roundtrip {A} (e : A → str) (d : parser A) P :
  roundtrip e d P → roundtrip (enc_option e) (dec_option d) (λ o, ∀ a, o = Some a → P a).
Proof.
  intros H [a|] s Ho; simpl; [|done]. rewrite H by auto. done.
Qed.
Lemma dw_roundtrip : roundtrip enc_dw dec_dw is_u32.
Proof.
  intros z s [H1 H2]. unfold dec_dw, enc_dw. rewrite u32_roundtrip by lia.
  by rewrite Z2N.id.
Qed.
Lemma dw_yields : yields dec_dw is_u32.
Proof.
  intros s a r. unfold dec_dw. destruct (dec_u32 s) as [[n q]|] eqn:E; [|done].
  intros [= <- <-]. apply u32_yields in E. unfold is_u32. lia.
Qed.
Lemma dbind_eq {A B} (d : parser A) (f : A → parser B) s a r :
  d s = Some (a, r) → dbind d f s = f a r.
Proof. unfold dbind. by intros ->. Qed.

Lemma wreq_roundtrip : roundtrip enc_wreq dec_wreq wmsg_ok.
Proof.
  intros m s Hm. unfold dec_wreq.
  destruct m as [|access path alloc attributes share disposition options ea|
    access path title class options do_create]; cbn [enc_wreq wmsg_ok] in *.
  - rewrite (dbind_eq _ _ _ 0 s) by (by apply u32_roundtrip). done.
  - destruct Hm as (H1 & H2 & H3 & H4 & H5 & H6 & H7 & H8). rewrite <-!app_assoc.
    erewrite dbind_eq by (apply u32_roundtrip; lia). cbn [N.eqb Pos.eqb].
    erewrite dbind_eq by (by apply dw_roundtrip). erewrite dbind_eq by (by apply str_roundtrip).
    erewrite dbind_eq by (by apply i64_roundtrip). erewrite dbind_eq by (by apply dw_roundtrip).
    erewrite dbind_eq by (by apply dw_roundtrip). erewrite dbind_eq by (by apply dw_roundtrip).
    erewrite dbind_eq by (by apply dw_roundtrip). erewrite dbind_eq by (by apply bytes_roundtrip).
    done.
  - destruct Hm as (H1 & H2 & H3 & H4 & H5). rewrite <-!app_assoc.
    erewrite dbind_eq by (apply u32_roundtrip; lia). cbn [N.eqb Pos.eqb].
    erewrite dbind_eq by (by apply dw_roundtrip). erewrite dbind_eq by (by apply str_roundtrip).
    erewrite dbind_eq by (by apply dw_roundtrip).
    erewrite dbind_eq by (by apply (option_roundtrip _ _ _ str_roundtrip)).
    erewrite dbind_eq by (by apply dw_roundtrip). erewrite dbind_eq by (by apply bool_roundtrip).
    done.
Qed.

Lemma wrep_roundtrip r s : wreply_ok r → dec_wrep (enc_wrep (WOut r) ++ s) = Some (WIn r, s).
Proof.
  intros Hr. unfold dec_wrep.
  destruct r as [info code|disp code|code]; cbn [enc_wrep wreply_ok] in *; rewrite <-!app_assoc.
  - destruct Hr. erewrite dbind_eq by (apply u32_roundtrip; lia). cbn [N.eqb Pos.eqb].
    erewrite dbind_eq by (by apply u64_roundtrip). erewrite dbind_eq by (by apply i32_roundtrip).
    done.
  - destruct Hr. erewrite dbind_eq by (apply u32_roundtrip; lia). cbn [N.eqb Pos.eqb].
    erewrite dbind_eq by (by apply u32_roundtrip). erewrite dbind_eq by (by apply i32_roundtrip).
    done.
  - erewrite dbind_eq by (apply u32_roundtrip; lia). cbn [N.eqb Pos.eqb].
    erewrite dbind_eq by (by apply i32_roundtrip). done.
Qed.

Lemma wrep_init_roundtrip p o s :
  enumerates p o → policy_ok p →
  dec_wrep (enc_wrep (WOutInit o (audit_only p)) ++ s) =
  Some (WInInit (mkPolicy [] ∅ (file_access p) (dir_access p) (regkey_access p) (audit_only p)), s).
Proof.
  intros H1 H2. unfold dec_wrep. cbn [enc_wrep]. rewrite <-!app_assoc.
  erewrite dbind_eq by (apply u32_roundtrip; lia). cbn [N.eqb].
  erewrite dbind_eq by (by apply policy_roundtrip). done.
Qed.

(** Values decoded from any bytes. *)
Lemma option_yields {A} (d : parser A) P :
  yields d P → yields (dec_option d) (λ o, ∀ a, o = Some a → P a).
Proof.
  intros H s o r. unfold dec_option. destruct s as [|b s]; [done|]. destruct b; try done.
  - intros [= <- <-]. done.
  - destruct (d s) as [[a q]|] eqn:E; [|done]. intros [= <- <-] a' [= <-]. by eapply H.
Qed.

(* ---------------------------------------------------------------- UTF-16 is injective *)

Lemma utf16_char_cons c us rest c' us' rest' :
  scalar c → scalar c' → utf16_char c us → utf16_char c' us' →
  us ++ rest = us' ++ rest' → c = c' ∧ rest = rest'.
Proof.
  unfold scalar.
  intros Hs Hs' [[H1 ->]|(H1 & hi & lo & -> & H2 & H3 & H4)]
    [[H1' ->]|(H1' & hi' & lo' & -> & H2' & H3' & H4')] E; simpl in E.
  - by injection E as -> ->.
  - injection E as -> _. lia.
  - injection E as <- _. lia.
  - injection E as -> -> ->. split; [lia|done].
Qed.
Lemma utf16_char_ne c us : utf16_char c us → us ≠ [].
Proof. intros [[_ ->]|(_ & ? & ? & -> & _)]; done. Qed.

Lemma utf16_of_inj s s' us : utf16_of s us → utf16_of s' us → s = s'.
Proof.
  intros (cs & uss & H1 & -> & H2 & ->) (cs' & uss' & H1' & -> & H2' & E).
  f_equal. f_equal. revert cs' uss' H1' H2' E.
  induction H2 as [|c u cs uss Hc H2 IH]; intros cs' uss' H1' H2' E.
  - destruct H2' as [|c' u' cs' uss' Hc' H2']; [done|]. simpl in E. symmetry in E.
    apply app_nil in E as [E _]. by apply utf16_char_ne in Hc'.
  - apply Forall_cons in H1 as [Hs H1].
    destruct H2' as [|c' u' cs' uss' Hc' H2'].
    { simpl in E. apply app_nil in E as [E _]. by apply utf16_char_ne in Hc. }
    apply Forall_cons in H1' as [Hs' H1']. cbn [concat] in E.
    destruct (utf16_char_cons _ _ _ _ _ _ Hs Hs' Hc Hc' E) as [-> E']. f_equal. by eapply IH.
Qed.

(** Names shorter than 32768 units arrive whole. *)
Lemma name_for_short path name us :
  name_for path name → utf16_of path us → (length us < N.to_nat 32768)%nat → name = us.
Proof.
  intros (us' & H & ->) Hus Hl. rewrite (utf16_of_fun _ _ _ H Hus).
  unfold wrapped_name. rewrite N.mod_small by lia. rewrite Nat2N.id. by apply take_ge.
Qed.
(** UTF-16 is not longer than UTF-8. *)
Lemma utf16_of_length s us : utf16_of s us → (length us ≤ length s)%nat.
Proof.
  intros (cs & uss & H1 & -> & H2 & ->).
  induction H2 as [|c u cs uss Hc H2 IH]; [done|]. apply Forall_cons in H1 as [Hs H1].
  cbn [map concat]. rewrite !app_length. specialize (IH H1).
  assert (length u ≤ length (utf8_encode c))%nat; [|lia].
  unfold utf8_encode. destruct Hc as [[Hc ->]|(Hc & ? & ? & -> & _)].
  - destruct (c <? 128), (c <? 2048), (c <? 65536); simpl; lia.
  - replace (c <? 128) with false by lia. replace (c <? 2048) with false by lia.
    replace (c <? 65536) with false by lia. simpl. lia.
Qed.

(* ---------------------------------------------------------------- hostile messages *)

Lemma dbind_consumes {A B} (d : parser A) (f : A → parser B) s x r :
  consumes d → dbind d f s = Some (x, r) →
  ∃ a u q, u ≠ [] ∧ s = u ++ q ∧ d s = Some (a, q) ∧ f a q = Some (x, r).
Proof.
  intros Hd H. apply dbind_Some in H as (a & q & H1 & H2).
  destruct (Hd _ _ _ H1) as (u & Hu & E). exists a, u, q. done.
Qed.
Lemma dw_consumes : consumes dec_dw.
Proof.
  intros s a r. unfold dec_dw. destruct (dec_u32 s) as [[n q]|] eqn:E; [|done].
  intros [= <- <-]. by apply u32_consumes in E.
Qed.
Lemma option_consumes {A} (d : parser A) : consumes d → consumes (dec_option d).
Proof.
  intros Hd s o r. unfold dec_option. destruct s as [|b s]; [done|]. destruct b; try done.
  - intros [= <- <-]. by exists [x00].
  - destruct (d s) as [[a q]|] eqn:E; [|done]. intros [= <- <-].
    destruct (Hd _ _ _ E) as (u & _ & ->). by exists (x01 :: u).
Qed.
Lemma str_rust s b r : dec_str s = Some (b, r) → is_usize (length s) → is_rust_str b.
Proof.
  intros (Hu & u & _ & ->)%dec_str_Some Hl. split; [done|].
  unfold is_usize in *. rewrite !app_length in Hl. lia.
Qed.
Lemma bytes_usize s b r : dec_bytes s = Some (b, r) → is_usize (length s) → is_usize (length b).
Proof.
  intros (u & _ & ->)%dec_bytes_Some Hl. unfold is_usize in *. rewrite !app_length in Hl. lia.
Qed.
Lemma option_str_rust s o r :
  dec_option dec_str s = Some (o, r) → is_usize (length s) → ∀ c, o = Some c → is_rust_str c.
Proof.
  unfold dec_option. destruct s as [|b s]; [done|]. destruct b; try done.
  - by intros [= <- <-].
  - destruct (dec_str s) as [[a q]|] eqn:E; [|done]. intros [= <- <-] Hl c [= <-].
    eapply str_rust; [done|]. unfold is_usize in *. simpl in Hl. lia.
Qed.

Lemma usize_suffix (u q : str) : is_usize (length (u ++ q)) → is_usize (length q).
Proof. unfold is_usize. rewrite app_length. lia. Qed.

Lemma dec_wreq_safe s m r :
  dec_wreq s = Some (m, r) → (∃ u, u ≠ [] ∧ s = u ++ r) ∧ (is_usize (length s) → wmsg_ok m).
Proof.
  unfold dec_wreq. intros H.
  apply dbind_consumes in H as (v & u0 & q0 & Hu0 & -> & _ & H); [|apply u32_consumes].
  destruct (v =? 0). { injection H as <- <-. split; [by exists u0|done]. }
  destruct (v =? 1).
  { apply dbind_consumes in H as (access & u1 & q1 & _ & -> & E1 & H); [|apply dw_consumes].
    apply dbind_consumes in H as (path & u2 & q2 & _ & -> & E2 & H); [|apply str_consumes].
    apply dbind_consumes in H as (alloc & u3 & q3 & _ & -> & E3 & H); [|apply i64_consumes].
    apply dbind_consumes in H as (attributes & u4 & q4 & _ & -> & E4 & H); [|apply dw_consumes].
    apply dbind_consumes in H as (share & u5 & q5 & _ & -> & E5 & H); [|apply dw_consumes].
    apply dbind_consumes in H as (disp & u6 & q6 & _ & -> & E6 & H); [|apply dw_consumes].
    apply dbind_consumes in H as (opts & u7 & q7 & _ & -> & E7 & H); [|apply dw_consumes].
    apply dbind_consumes in H as (ea & u8 & q8 & _ & -> & E8 & H); [|apply bytes_consumes].
    injection H as <- <-. split.
    - exists (u0 ++ u1 ++ u2 ++ u3 ++ u4 ++ u5 ++ u6 ++ u7 ++ u8). rewrite <-!app_assoc.
      split; [|done]. by destruct u0.
    - intros Hl. do 2 apply usize_suffix in Hl. pose proof (str_rust _ _ _ E2 Hl).
      do 6 apply usize_suffix in Hl. pose proof (bytes_usize _ _ _ E8 Hl).
      split_and!; [by eapply dw_yields|done|by eapply i64_yields|by eapply dw_yields..|done]. }
  destruct (v =? 2); [|done].
  apply dbind_consumes in H as (access & u1 & q1 & _ & -> & E1 & H); [|apply dw_consumes].
  apply dbind_consumes in H as (path & u2 & q2 & _ & -> & E2 & H); [|apply str_consumes].
  apply dbind_consumes in H as (title & u3 & q3 & _ & -> & E3 & H); [|apply dw_consumes].
  apply dbind_consumes in H as (class & u4 & q4 & _ & -> & E4 & H);
    [|apply option_consumes, str_consumes].
  apply dbind_consumes in H as (opts & u5 & q5 & _ & -> & E5 & H); [|apply dw_consumes].
  apply dbind_consumes in H as (b & u6 & q6 & _ & -> & E6 & H); [|apply bool_consumes].
  injection H as <- <-. split.
  - exists (u0 ++ u1 ++ u2 ++ u3 ++ u4 ++ u5 ++ u6). rewrite <-!app_assoc.
    split; [|done]. by destruct u0.
  - intros Hl. do 2 apply usize_suffix in Hl. pose proof (str_rust _ _ _ E2 Hl).
    do 2 apply usize_suffix in Hl. pose proof (option_str_rust _ _ _ E4 Hl).
    split_and!; [by eapply dw_yields|done|by eapply dw_yields|done|by eapply dw_yields].
Qed.

(* ---------------------------------------------------------------- a channel that works *)

Definition works (env : wenv) : Prop :=
  we_remote env = true ∧ (∀ tr, we_dup env tr ≠ None) ∧ ∀ tr, we_write env tr = true.

Lemma wreply_size r h : (length (enc_wrapped enc_wrep (WOut r, h)) ≤ 40)%nat.
Proof.
  unfold enc_wrapped, enc_pair. rewrite app_length. cbn [fst snd].
  assert (length (enc_option enc_u64 h) ≤ 11)%nat as H1.
  { destruct h as [h|]; simpl; [|lia]. pose proof (enc_varint_length 10 h). unfold enc_u64. lia. }
  assert (length (enc_wrep (WOut r)) ≤ 25)%nat; [|lia].
  destruct r as [info code|disp code|code]; cbn [enc_wrep]; rewrite ?app_length;
    unfold enc_u32, enc_u64, enc_i32.
  - pose proof (enc_varint_length 5 1). pose proof (enc_varint_length 10 info).
    pose proof (enc_varint_length 5 (zigzag code)). unfold enc_u32. lia.
  - pose proof (enc_varint_length 5 2). pose proof (enc_varint_length 5 disp).
    pose proof (enc_varint_length 5 (zigzag code)). unfold enc_u32. lia.
  - pose proof (enc_varint_length 5 3). pose proof (enc_varint_length 5 (zigzag code)).
    unfold enc_u32. lia.
Qed.
Lemma wreply_serializes r h : ∃ b, serialize (enc_wrapped enc_wrep) (WOut r, h) IPC_MESSAGE_MAX_SIZE = Some b.
Proof.
  unfold serialize. pose proof (wreply_size r h).
  replace (_ <=? _) with true; [by eexists|]. symmetry. apply N.leb_le. unfold IPC_MESSAGE_MAX_SIZE. lia.
Qed.
Lemma win_send_works env r h s : works env → ∃ s', win_send env (WOut r) h s = Some (true, s').
Proof.
  intros (H1 & H2 & H3). unfold win_send. rewrite H1.
  destruct h as [local|].
  - destruct (we_dup env (ws_trace s)) as [remote|] eqn:E; [|by apply H2 in E].
    destruct (wreply_serializes r (Some remote)) as (b & ->). rewrite H3. by eexists.
  - destruct (wreply_serializes r None) as (b & ->). rewrite H3. by eexists.
Qed.
Lemma win_step_works env p rd m s :
  works env → plain_read rd m → m ≠ WReqInit → ∃ s', win_step env p rd s = (WServing, s').
Proof.
  intros Hw Hm Hi. unfold win_step. apply win_recv_plain in Hm as ->.
  destruct (win_dispatch env p m s) as [[[r h] s1]|] eqn:E.
  - destruct (win_send_works env r h s1 Hw) as (s2 & ->). by eexists.
  - by destruct m.
Qed.
Lemma win_loop_works env p ch ph rds ms : ∀ s,
  works env → Forall2 plain_read rds ms → WReqInit ∉ ms →
  ∃ s', win_loop env p ch ph rds s = (WServing, s').
Proof.
  intros s Hw H. revert s. induction H as [|rd m rds ms Hm H IH]; intros s Hi; [by eexists|].
  apply not_elem_of_cons in Hi as [Hi1 Hi2]. cbn [win_loop].
  destruct (win_step_works env p rd m s Hw Hm) as (s1 & ->); [congruence|]. by apply IH.
Qed.

Lemma sends_of_app a b : sends_of (a ++ b) = sends_of a ++ sends_of b.
Proof. unfold sends_of. by rewrite omap_app. Qed.
Lemma sends_of_callbacks l : Forall is_callback l → sends_of l = [].
Proof. induction 1 as [|e l He _ IH]; [done|]. by destruct e. Qed.
Lemma sends_of_closes ch ph : sends_of (closes ch ph) = [].
Proof. by destruct ph. Qed.
Lemma exchange_sends t g m es : exchange t g m es → length (sends_of es) = 1%nat.
Proof.
  intros (cbs & Hcb & [(_ & ->)|(Hg & c & a & r & _ & _ & [(_ & ->)|(_ & local & remote & _ & ->)])]);
    by rewrite sends_of_app, (sends_of_callbacks _ Hcb).
Qed.
Lemma cut_exchange_sends t g m es : cut_exchange t g m es → sends_of es = [].
Proof.
  intros (cbs & Hcb & [(_ & ->)|(Hg & c & a & _ & [(_ & ->)|(_ & local & tl & _ & -> & Ht)])]);
    rewrite sends_of_app, (sends_of_callbacks _ Hcb); [done..|].
  by destruct Ht as [-> | [-> | (? & ->)]].
Qed.
Lemma served_sends env p t ms segs :
  Forall2 (served env p t) ms segs → length (sends_of (concat segs)) = length ms.
Proof.
  induction 1 as [|m es ms segs (q & _ & Hx) H IH]; [done|]. simpl.
  rewrite sends_of_app, app_length, IH. by rewrite (exchange_sends _ _ _ _ Hx).
Qed.
Lemma ending_sends env p t rd st es t' : ending env p t rd st es t' → sends_of es = [].
Proof.
  intros [(_ & _ & [(-> & _)|(h & _ & -> & _)])|(_ & _ & m & q & _ & _ & Hx)]; [done..|].
  by eapply cut_exchange_sends.
Qed.
