(** Properties C16-C18: the message encoding. *)
From stdpp Require Import prelude gmap.
From Coq Require Import Strings.Byte ZifyN ZifyNat ZifyBool.
From Verif Require Import Bytes BytesProofs PolicyModel PolicySpec LinuxPolicyModel
  LinuxPolicySpec LinuxPolicyProofs PostcardModel PostcardSpec PostcardProofs.
Local Open Scope N_scope.

(** The rule paths are Rust strings, and there are less than 2^64 rules. *)
Definition rust_rules (calls : list api_call) : Prop :=
  (∀ r, r ∈ rules_of calls → is_rust_str (rule_path r)) ∧ is_usize (length (rules_of calls)).

Lemma map_or_ok (m : gmap str access) k a n :
  is_rust_str k → (size m ≤ n)%nat → (∀ k v, m !! k = Some v → is_rust_str k) →
  (size (map_or m k a) ≤ S n)%nat ∧ (∀ k' v, map_or m k a !! k' = Some v → is_rust_str k').
Proof.
  intros Hk Hn Hm. unfold map_or. split.
  - rewrite map_size_insert. case_match; simpl; lia.
  - intros k' v. rewrite lookup_insert_Some. intros [[<- _]|[_ H]]; [done|by eapply Hm].
Qed.

Lemma build_ok audit calls : rust_rules calls → policy_ok (build audit calls).
Proof.
  intros [Hr Hl].
  assert (∀ h p n, (∀ r, r ∈ h → is_rust_str (rule_path r)) →
    (size (file_access p) ≤ n)%nat → (∀ k v, file_access p !! k = Some v → is_rust_str k) →
    (size (dir_access p) ≤ n)%nat → (∀ k v, dir_access p !! k = Some v → is_rust_str k) →
    (size (file_access (apply_rules p h)) ≤ n + length h)%nat ∧
    (∀ k v, file_access (apply_rules p h) !! k = Some v → is_rust_str k) ∧
    (size (dir_access (apply_rules p h)) ≤ n + length h)%nat ∧
    (∀ k v, dir_access (apply_rules p h) !! k = Some v → is_rust_str k)) as H.
  { induction h as [|r h IH]; intros p n Hh H1 H2 H3 H4.
    - simpl. split_and!; [lia|done|lia|done].
    - simpl. replace (n + S (length h))%nat with (S n + length h)%nat by lia.
      assert (is_rust_str (strip_suffix_or_self slash (rule_path r))) as Hs.
      { apply is_rust_str_strip, Hh. left. }
      apply IH.
      + intros r' Hr'. apply Hh. by right.
      + rewrite apply_rule_ignore_eq. destruct (starts_with_byte _ _); [|lia].
        unfold allow_one. destruct (rule_dirb r); simpl; [lia|]. by apply map_or_ok.
      + rewrite apply_rule_ignore_eq. destruct (starts_with_byte _ _); [|done].
        unfold allow_one. destruct (rule_dirb r); simpl; [done|].
        by apply (map_or_ok _ _ _ n).
      + rewrite apply_rule_ignore_eq. destruct (starts_with_byte _ _); [|lia].
        unfold allow_one. destruct (rule_dirb r); simpl; [|lia]. by apply map_or_ok.
      + rewrite apply_rule_ignore_eq. destruct (starts_with_byte _ _); [|done].
        unfold allow_one. destruct (rule_dirb r); simpl; [|done].
        by apply (map_or_ok _ _ _ n). }
  destruct (H (rules_of calls) nothing_allowed 0%nat Hr) as (H1 & H2 & H3 & H4);
    [done|done|done|done|].
  destruct (build_maps audit calls) as [E1 E2].
  assert (regkey_access (build audit calls) = ∅) as E3.
  { unfold build. assert (regkey_access (initial_policy audit) = ∅) as H0 by (by destruct audit).
    revert H0. generalize (initial_policy audit). clear.
    induction calls as [|c calls IH]; intros p Hp; [done|]. simpl. apply IH.
    destruct c as [r|cb|raw inh].
    - change (apply_call_ignore p (CallRule r)) with (apply_rule_ignore p r).
      destruct (apply_rule_ignore_frame p r) as (_ & _ & _ & ->). done.
    - done.
    - unfold apply_call_ignore, apply_call, allow_inherit_handle. by destruct inh as [[]|]. }
  unfold policy_ok, map_ok. rewrite E1, E2, E3. unfold is_usize in *.
  split_and!; try done; lia.
Qed.

(* ---------------------------------------------------------------- C16 *)

(** Whatever the enumeration order, the decoded policy gives every verdict of the
    original; it is equal (in the sense of [PartialEq]) to the runtime policy. *)
Theorem C16_policy_survives (audit : bool) (calls : list api_call) (o : policy_order)
  (rest : str) :
  rust_rules calls → enumerates (build audit calls) o →
  ∃ q, dec_policy (enc_policy o audit ++ rest) = Some (q, rest) ∧
    (∀ req, fst (evaluate_request q req) = fst (evaluate_request (build audit calls) req)) ∧
    policy_eqb (get_runtime_policy (build audit calls)) q = true ∧
    (∀ req, snd (evaluate_request q req) = []) ∧ get_inherited_handles q = ∅.
Proof.
  intros H1 H2. pose proof (policy_roundtrip _ _ rest H2 (build_ok audit calls H1)) as H.
  rewrite (build_audit audit calls) in H. eexists. split; [exact H|].
  split_and!.
  - intros req. unfold evaluate_request. simpl. rewrite build_audit.
    destruct audit; [done|]. destruct req; [|done]. simpl.
    apply check_file_open_maps. by apply allowed_access_maps.
  - unfold policy_eqb. simpl. rewrite build_audit, !bool_decide_eq_true_2 by done.
    by destruct audit.
  - done.
  - done.
Qed.
Print Assumptions C16_policy_survives.

(** Equality of policies means the same rights: same handles, verdicts and registry
    rules. A policy equals itself. *)
Theorem C16_equal_policies (p q : policy) :
  (policy_eqb p q = true →
     (∀ req, fst (evaluate_request p req) = fst (evaluate_request q req)) ∧
     get_inherited_handles p = get_inherited_handles q ∧
     (∀ key, regkey_access p !! key = regkey_access q !! key)) ∧
  policy_eqb p p = true.
Proof.
  unfold policy_eqb. split.
  - rewrite !andb_true_iff, !bool_decide_eq_true. intros [[[[H1 H2] H3] H4] H5%eqb_prop].
    split_and!; [|done|by rewrite H4].
    intros req. unfold evaluate_request. simpl. rewrite H5.
    destruct (audit_only q); [done|]. destruct req; [|done]. simpl.
    apply check_file_open_maps. by apply allowed_access_maps.
  - rewrite !bool_decide_eq_true_2 by done. by destruct (audit_only p).
Qed.
Print Assumptions C16_equal_policies.

Lemma is_rust_str_dec s :
  utf8_valid s = true → N.of_nat (length s) <? 2 ^ 64 = true → is_rust_str s.
Proof. intros H1 H2. split; [by apply utf8_valid_spec|]. unfold is_usize. lia. Qed.

Definition ex_calls : list api_call :=
  [CallRule (AllowDirRead (lit "/usr/")); CallRule (AllowFileWrite (lit "/tmp/x"));
   CallRule (AllowDirRead (lit "/etc"))].
Example C16_example :
  rust_rules ex_calls ∧
  enumerates (build false ex_calls)
    (mkOrder [(lit "/tmp/x", mkAccess false true false false false)]
       [(lit "/etc", mkAccess true false false false false);
        (lit "/usr", mkAccess true false false false false)] []) ∧
  (** The other order gives other bytes. *)
  enc_policy (mkOrder (map_to_list (file_access (build false ex_calls)))
     (map_to_list (dir_access (build false ex_calls))) []) false ≠
  enc_policy (mkOrder (map_to_list (file_access (build false ex_calls)))
     (rev (map_to_list (dir_access (build false ex_calls)))) []) false.
Proof.
  split_and!.
  - split; [|by vm_compute]. intros r Hr.
    apply elem_of_list_In in Hr. simpl in Hr.
    destruct Hr as [<-|[<-|[<-|[]]]]; apply is_rust_str_dec; by vm_compute.
  - split_and!; simpl.
    + by vm_compute.
    + vm_compute. first [reflexivity | apply Permutation_swap].
    + by vm_compute.
  - by vm_compute.
Qed.

(* ---------------------------------------------------------------- C17 *)

Theorem C17_request_survives (m : ipc_request) (rest : str) :
  request_ok m → dec_request (enc_request m ++ rest) = Some (m, rest).
Proof. apply request_roundtrip. Qed.
Print Assumptions C17_request_survives.

Theorem C17_syscall_result_survives (code : Z) (rest : str) :
  is_i64 code →
  dec_response (enc_response (OutSyscallResult code) ++ rest) = Some (RespSyscallResult code, rest).
Proof. apply syscall_result_roundtrip. Qed.
Print Assumptions C17_syscall_result_survives.

Theorem C17_initialization_survives (audit : bool) (calls : list api_call) (o : policy_order)
  (filter rest : str) :
  rust_rules calls → enumerates (build audit calls) o → is_usize (length filter) →
  ∃ q, dec_response (enc_response (OutInitialization o audit filter) ++ rest) =
         Some (RespInitialization q filter, rest) ∧
    ∀ req, fst (evaluate_request q req) = fst (evaluate_request (build audit calls) req).
Proof.
  intros H1 H2 H3. destruct (C16_policy_survives audit calls o (enc_bytes filter ++ rest) H1 H2)
    as (q & E & Hv & _).
  exists q. split; [|done]. unfold dec_response, enc_response. rewrite <-!app_assoc.
  rewrite u32_roundtrip by lia. rewrite E. by rewrite bytes_roundtrip.
Qed.
Print Assumptions C17_initialization_survives.

(** No valid encoding is the beginning of another message's encoding. *)
Theorem C17_unambiguous (m m' : ipc_request) (rest rest' : str) :
  request_ok m → request_ok m' →
  enc_request m ++ rest = enc_request m' ++ rest' → m = m' ∧ rest = rest'.
Proof.
  intros H1 H2 E. pose proof (C17_request_survives m rest H1) as A.
  rewrite E, (C17_request_survives m' rest' H2) in A. by simplify_eq.
Qed.
Print Assumptions C17_unambiguous.

Example C17_example :
  let m := ReqOpenFile (lit "/etc/hosts") (-1) in
  let m' := ReqSyscall (-2 ^ 63) [1; 2; 3; 4; 5; 2 ^ 63 - 1]%Z 300 in
  request_ok m ∧ request_ok m' ∧
  enc_request m = x01 :: x0a :: lit "/etc/hosts" ++ [x01] ∧
  dec_request (enc_request m' ++ lit "junk") = Some (m', lit "junk").
Proof.
  cbv zeta. unfold request_ok, is_i32, is_i64. split_and!.
  1: apply is_rust_str_dec; by vm_compute.
  all: try lia.
  - done.
  - repeat constructor; lia.
  - by vm_compute.
  - by vm_compute.
Qed.

(* ---------------------------------------------------------------- C18 *)

(** Any bytes: if the decoder accepts, it used a prefix of them, numbers are in
    range, and a path is valid UTF-8 and stands literally in the bytes. *)
Theorem C18_hostile_bytes (s : str) (m : ipc_request) (rest : str) :
  dec_request s = Some (m, rest) →
  (∃ used, s = used ++ rest) ∧
  match m with
  | ReqInitialization => True
  | ReqOpenFile path flags => is_utf8 path ∧ is_i32 flags ∧ ∃ a b, s = a ++ path ++ b
  | ReqSyscall nb args ip =>
      is_i64 nb ∧ length args = 6%nat ∧ Forall is_i64 args ∧ is_i64 ip
  end.
Proof. apply dec_request_safe. Qed.
Print Assumptions C18_hostile_bytes.

(** What was decoded from hostile bytes is a value the sender could have sent. *)
Theorem C18_reencodes (s : str) (m : ipc_request) (rest : str) :
  is_usize (length s) → dec_request s = Some (m, rest) → request_ok m.
Proof.
  intros Hs H. apply dec_request_safe in H as [_ H]. destruct m as [|path flags|]; [done| |].
  - destruct H as (H1 & H2 & a & b & ->). split; [|done]. split; [done|].
    unfold is_usize in *. rewrite !app_length in Hs. lia.
  - done.
Qed.
Print Assumptions C18_reencodes.

Example C18_example :
  (** length larger than the input, overlong varint, bad UTF-8, unknown variant *)
  dec_request [x01; xff; xff; xff; xff; xff; xff; xff; xff; xff; x01; x2f] = None ∧
  dec_request [x01; x80; x80; x80; x80; x80; x80; x80; x80; x80; x02] = None ∧
  dec_request [x01; x02; xc0; xaf; x00] = None ∧
  dec_request [x03] = None ∧ dec_request [] = None ∧
  dec_request [x81; x00; x01; x2f; x04; xaa] = Some (ReqOpenFile (lit "/") 2, [xaa]).
Proof. by vm_compute. Qed.
