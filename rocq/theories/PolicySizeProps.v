(** Policies and the size of a message: C113. *)
From stdpp Require Import prelude gmap.
From Coq Require Import Strings.Byte.
From Verif Require Import Bytes PolicyModel FdModel ChannelModel PostcardModel PostcardSpec PostcardProofs
  TrampolineModel BrokerModel EntryModel ProcessModel LinuxPolicyModel WinPolicyModel BytesProofs WinBrokerModel WinBrokerSpec WinBrokerProofs WinBrokerProps WinHookModel WinWorldModel
  WinWorldProps WinProcessModel WinProcessProps WinStartModel WinStartProps.
Local Open Scope N_scope.

(** Bytes of the paths of a policy, and their number. *)
Definition key_bytes {V} (m : gmap str V) : nat := sum_list_with (λ kv, length kv.1) (map_to_list m).
Definition path_bytes (p : policy) : nat :=
  key_bytes (file_access p) + key_bytes (dir_access p) + key_bytes (regkey_access p).
Definition paths (p : policy) : nat := size (file_access p) + size (dir_access p) + size (regkey_access p).

Lemma sum_perm {A} (f : A → nat) l l' : l ≡ₚ l' → sum_list_with f l = sum_list_with f l'.
Proof. induction 1; cbn; lia. Qed.
Lemma varint_positive max n : (0 < max)%nat → (1 ≤ length (enc_varint max n))%nat.
Proof. destruct max; [lia|]. intros _. cbn [enc_varint]. destruct (n <? 128); cbn; lia. Qed.
Lemma str_size s : (length s + 1 ≤ length (enc_str s) ≤ length s + 10)%nat.
Proof.
  unfold enc_str, enc_bytes, enc_u64. rewrite app_length.
  pose proof (enc_varint_length 10 (N.of_nat (length s))).
  pose proof (varint_positive 10 (N.of_nat (length s)) ltac:(lia)). lia.
Qed.
Lemma array_size {V} (ev : V → str) (k : nat) (l : list (str * V)) :
  (∀ v, length (ev v) = k) →
  (sum_list_with (λ kv, length kv.1) l + (1 + k) * length l ≤
   length (enc_array (enc_pair enc_str ev) l) ≤
   sum_list_with (λ kv, length kv.1) l + (10 + k) * length l)%nat.
Proof.
  intros Hk. induction l as [|[s v] l IH]; [cbn; lia|].
  assert (enc_array (enc_pair enc_str ev) ((s, v) :: l) =
          (enc_str s ++ ev v) ++ enc_array (enc_pair enc_str ev) l) as -> by done.
  cbn [sum_list_with fst length]. rewrite !app_length, Hk. pose proof (str_size s). lia.
Qed.
Lemma map_enc_size {V} (ev : V → str) (k : nat) (m : gmap str V) (l : list (str * V)) :
  (∀ v, length (ev v) = k) → l ≡ₚ map_to_list m →
  (key_bytes m + (1 + k) * size m + 1 ≤ length (enc_map ev l) ≤ key_bytes m + (10 + k) * size m + 10)%nat.
Proof.
  intros Hk Hl. unfold enc_map, enc_seq, enc_u64. rewrite app_length.
  pose proof (array_size ev k l Hk) as Ha. pose proof (enc_varint_length 10 (N.of_nat (length l))).
  pose proof (varint_positive 10 (N.of_nat (length l)) ltac:(lia)).
  unfold key_bytes. rewrite <- (sum_perm _ _ _ Hl).
  assert (size m = length l) as -> by (unfold size, map_size; by rewrite Hl).
  unfold str in *. lia.
Qed.
Lemma policy_size p o audit :
  enumerates p o →
  (path_bytes p + 3 * paths p + 4 ≤ length (enc_policy o audit) ≤ path_bytes p + 15 * paths p + 31)%nat.
Proof.
  intros (H1 & H2 & H3). unfold enc_policy. rewrite !app_length.
  pose proof (map_enc_size enc_access 5 _ _ ltac:(done) H1).
  pose proof (map_enc_size enc_access 5 _ _ ltac:(done) H2).
  pose proof (map_enc_size (enc_pair enc_bool enc_bool) 2 _ _ ltac:(done) H3).
  unfold path_bytes, paths. cbn [enc_bool length]. lia.
Qed.
Lemma init_size p o audit :
  enumerates p o →
  (path_bytes p + 3 * paths p + 4 ≤ length (init_reply o audit) ≤ path_bytes p + 15 * paths p + 37)%nat.
Proof.
  intros H. pose proof (policy_size p o audit H) as Hp. unfold init_reply, enc_wrapped, enc_pair, enc_wrep. cbn [fst snd].
  rewrite !app_length. unfold enc_u32. pose proof (enc_varint_length 5 0).
  assert (length (enc_option enc_u64 None) = 1%nat) as -> by done. lia.
Qed.

(* ---------------------------------------------------------------- C113 *)

(** Whatever the rules, a worker that was started gets its policy if the kernel does its part. *)
Definition C113_full : Prop :=
  ∀ fuel senv c audit calls s w s' env o ch ph t,
    win_worker_new fuel senv c (win_build audit calls) s = Some (Ok w, s') →
    kernel_works env → enumerates (win_build audit calls) o → policy_ok (win_build audit calls) →
    is_Some (world_start env (get_runtime_policy (win_build audit calls)) o ch ph t).
(** True if the paths are short enough in total. *)
Theorem C113_partial audit calls env o ch ph t :
  kernel_works env → enumerates (win_build audit calls) o → policy_ok (win_build audit calls) →
  N.of_nat (path_bytes (win_build audit calls) + 15 * paths (win_build audit calls)) ≤ 65499 →
  is_Some (world_start env (get_runtime_policy (win_build audit calls)) o ch ph t).
Proof.
  intros Hk Ho Hp Hl. apply C108_starts; [done..|].
  pose proof (init_size _ _ audit Ho). lia.
Qed.
Print Assumptions C113_partial.
(** With longer paths the worker gets nothing, whatever it sends: the thread of the broker ends
    at the first message and closes its handles. *)
Theorem C113_too_long audit calls env o ch ph rds t :
  enumerates (win_build audit calls) o → 65536 < N.of_nat (path_bytes (win_build audit calls)) →
  world_start env (get_runtime_policy (win_build audit calls)) o ch ph t = None ∧
  sends_of (ws_trace (win_thread env (get_runtime_policy (win_build audit calls)) o ch ph rds (mkWst t [])).2) = [] ∧
  (rds ≠ [] → (win_thread env (get_runtime_policy (win_build audit calls)) o ch ph rds (mkWst t [])).1 ≠ WServing).
Proof.
  intros Ho Hl. set (p := win_build audit calls) in *.
  assert (∀ s, win_send env (WOutInit o (audit_only (get_runtime_policy p))) None s = Some (false, wlog s [WSendFailed])) as Hs.
  { intros s. unfold win_send, serialize.
    pose proof (init_size p o (audit_only (get_runtime_policy p)) Ho) as Hi. unfold init_reply in Hi.
    replace (_ <=? _) with false; [done|]. symmetry. apply N.leb_gt. unfold IPC_MESSAGE_MAX_SIZE. lia. }
  assert (∀ rds, rds ≠ [] →
    (win_thread env (get_runtime_policy p) o ch ph rds (mkWst t [])).1 ≠ WServing ∧
    sends_of (ws_trace (win_thread env (get_runtime_policy p) o ch ph rds (mkWst t [])).2) = []) as Ht.
  { intros [|rd rds'] Hn; [done|]. cbn [win_thread].
    destruct (win_recv dec_wreq rd) as [[[m h]|]|e]; [|by destruct ph..].
    destruct m, h; try (by destruct ph). rewrite Hs. by destruct ph. }
  split; [|split].
  - unfold world_start, win_worker_init, win_send_recv.
    assert (serialize (enc_wrapped enc_wreq) (WReqInit, None) IPC_MESSAGE_MAX_SIZE =
            Some (enc_wrapped enc_wreq (WReqInit, None))) as -> by done.
    destruct (Ht [RdMessage (enc_wrapped enc_wreq (WReqInit, None))] ltac:(done)) as [H1 _].
    destruct (win_thread _ _ _ _ _ _ _) as [st s']. cbn [fst] in H1. by destruct st.
  - destruct rds as [|rd rds]; [done|]. by apply Ht.
  - intros Hn. by apply Ht.
Qed.
Print Assumptions C113_too_long.

(** The same on Linux, where [Worker::new] fails then; the filter is part of the message. *)
Theorem C113_linux env audit calls o f tab tr :
  enumerates (build audit calls) o →
  (65536 < N.of_nat (path_bytes (build audit calls) + length f) →
   (broker_send env (OutInitialization o audit f) None (mkBst tab tr)).1 = false) ∧
  (N.of_nat (path_bytes (build audit calls) + 15 * paths (build audit calls) + length f) ≤ 65490 →
   be_send env tr = None → 65536 ≤ be_sndbuf env →
   broker_send env (OutInitialization o audit f) None (mkBst tab tr) =
     (true, mkBst tab (tr ++ [BSent (enc_response (OutInitialization o audit f)) []]))).
Proof.
  intros Ho. pose proof (policy_size _ _ audit Ho) as Hp.
  assert (path_bytes (build audit calls) + length f ≤
          length (enc_response (OutInitialization o audit f)) ≤
          path_bytes (build audit calls) + 15 * paths (build audit calls) + length f + 46)%nat as Hl.
  { cbn [enc_response]. rewrite !app_length. unfold enc_bytes, enc_u64, enc_u32. rewrite app_length.
    pose proof (enc_varint_length 5 0). pose proof (enc_varint_length 10 (N.of_nat (length f))). lia. }
  unfold broker_send, channel_send, serialize. cbn [bs_trace bs_tab].
  set (b := enc_response (OutInitialization o audit f)) in *. clearbody b. split.
  - intros Hx. destruct (be_send env tr); [done|].
    replace (_ <=? _) with false; [done|]. symmetry. apply N.leb_gt. unfold IPC_MESSAGE_MAX_SIZE. lia.
  - intros Hx -> Hb.
    replace (N.of_nat (length b) <=? IPC_MESSAGE_MAX_SIZE) with true
      by (symmetry; apply N.leb_le; unfold IPC_MESSAGE_MAX_SIZE; lia).
    unfold sys_sendmsg.
    assert (scm_send (be_abi env) tab [] = Ok []) as -> by (by destruct (be_abi env)).
    replace (be_sndbuf env <? N.of_nat (length b)) with false by (symmetry; apply N.ltb_ge; lia). done.
Qed.
Print Assumptions C113_linux.

(** A policy with one long path. *)
Definition long_key (n : nat) : str := lit "\REGISTRY\USER\" ++ replicate n x61.
Definition long_rule (n : nat) : list win_call := [WinRegRead (lit "HKEY_USERS\" ++ replicate n x61) []].
Lemma long_policy n :
  win_build false (long_rule (S n)) = mkPolicy [] ∅ ∅ ∅ {[long_key (S n) := (true, false)]} false.
Proof.
  unfold win_build, long_rule. cbn [foldl]. unfold win_apply_call_ignore, win_apply_call, allow_regkey_access.
  assert (derive_reg_key_paths [] (lit "HKEY_USERS\" ++ replicate (S n) x61) = Ok [long_key (S n)]) as -> by done.
  cbn [foldl]. unfold reg_one.
  assert (strip_suffix_or_self backslash (long_key (S n)) = long_key (S n)) as ->.
  { apply strip_suffix_or_self_id. intros r Hr. unfold long_key in Hr. rewrite replicate_S_end, app_assoc in Hr.
    apply app_inj_tail in Hr as [_ Hr]. discriminate. }
  done.
Qed.
Lemma long_utf8 n : is_rust_str (long_key n) ↔ is_usize (15 + n).
Proof.
  unfold is_rust_str. assert (length (long_key n) = 15 + n)%nat as ->.
  { unfold long_key. by rewrite app_length, replicate_length. }
  split; [by intros [_ ?]|]. intros H. split; [|done].
  exists (map Byte.to_N (long_key n)). split.
  - apply Forall_forall. intros c Hc. apply elem_of_list_fmap in Hc as (b & -> & _). left.
    pose proof (Byte.to_N_bounded b). lia.
  - unfold long_key. rewrite !map_app, concat_app. f_equal.
    induction n as [|n IH]; [done|]. cbn [replicate map concat]. rewrite <- IH; [done|].
    unfold is_usize in *. lia.
Qed.
Lemma long_ok n : is_usize (15 + S n) → policy_ok (win_build false (long_rule (S n))).
Proof.
  intros H. rewrite long_policy. split_and!; [done..|]. cbn [regkey_access].
  split; [by rewrite map_size_singleton|]. intros k v [<- _]%lookup_singleton_Some. by apply long_utf8.
Qed.
Lemma long_order n : enumerates (win_build false (long_rule (S n))) (mkOrder [] [] [(long_key (S n), (true, false))]).
Proof.
  rewrite long_policy. split_and!; cbn [file_access dir_access regkey_access o_file o_dir o_reg].
  - by rewrite map_to_list_empty.
  - by rewrite map_to_list_empty.
  - by rewrite map_to_list_singleton.
Qed.
(** Starting a worker does not look at the rules. *)
Lemma starts_anyway p : inherit_handles p = ∅ →
  ∃ w s', win_worker_new 6 (se_with good_env (λ _ _, Some 77) true) some_config p broker0 = Some (Ok w, s').
Proof.
  intros Hp.
  assert (option_map fst (win_worker_new 6 (se_with good_env (λ _ _, Some 77) true) some_config p broker0) =
    Some (Ok (mkWp 900 308 (Some (lit "IrisAppContainer_4242_1"))))) as H.
  { unfold win_worker_new. rewrite Hp. vm_compute. reflexivity. }
  destruct (win_worker_new _ _ _ _ _) as [[r s']|]; cbn [option_map fst] in H; [|discriminate H].
  injection H as ->. by eexists _, _.
Qed.
Lemma long_bytes n : path_bytes (win_build false (long_rule (S n))) = (15 + S n)%nat.
Proof.
  unfold path_bytes, key_bytes. rewrite long_policy. cbn [file_access dir_access regkey_access].
  rewrite !map_to_list_empty, map_to_list_singleton. cbn [sum_list_with fst].
  unfold long_key. rewrite app_length, replicate_length. cbn. lia.
Qed.
Theorem C113_refuted : ¬ C113_full.
Proof.
  intros H. assert (∃ n, N.of_nat n = 70000) as [n Hnn] by (exists (N.to_nat 70000); apply N2Nat.id).
  destruct (starts_anyway (win_build false (long_rule (S n)))) as (w & s' & E); [by rewrite long_policy|].
  assert (is_usize (15 + S n)) as Hn by (unfold is_usize; lia).
  pose proof (H _ _ _ _ _ _ _ _ (ex_env 0 (Some 9)) _ 3 (Some 4) ∅ E ex_works (long_order n) (long_ok n Hn)) as [x Hx].
  destruct (C113_too_long false (long_rule (S n)) (ex_env 0 (Some 9)) _ 3 (Some 4) [] ∅ (long_order n)) as [Hs _].
  - rewrite long_bytes. lia.
  - by rewrite Hs in Hx.
Qed.
Print Assumptions C113_refuted.
Example C113_example :
  path_bytes (win_build false (long_rule 5)) = 20%nat ∧ paths (win_build false (long_rule 5)) = 1%nat ∧
  is_Some (world_start (ex_env 0 (Some 9)) (get_runtime_policy (win_build false (long_rule 5)))
    (mkOrder [] [] [(long_key 5, (true, false))]) 3 (Some 4) ∅).
Proof.
  split; [vm_compute; reflexivity|]. split; [vm_compute; reflexivity|].
  apply C113_partial; [apply ex_works|apply long_order|by apply long_ok|vm_compute; discriminate].
Qed.
