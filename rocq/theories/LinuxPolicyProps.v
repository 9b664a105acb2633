(** Properties C01-C15 of the Linux policy. Policies are those that can be built
    with the public API: [build audit calls]. *)
From stdpp Require Import prelude gmap.
From Verif Require Import Bytes BytesProofs PolicyModel PolicySpec PolicyProofs
  LinuxPolicyModel LinuxPolicySpec LinuxPolicyProofs.
Local Open Scope Z_scope.

(** The verdict the caller of [evaluate_request] gets. *)
Local Notation verdict_of p req := (fst (evaluate_request p req)).

(* ---------------------------------------------------------------- C01 *)

(** A policy without rules grants nothing; callbacks and handles do not matter. *)
Theorem C01_deny_by_default (calls : list api_call) (req : lx_request) :
  rules_of calls = [] → verdict_of (build false calls) req ≠ Granted.
Proof.
  intros Hr. rewrite evaluate_enforcing. destruct req as [path flags|]; simpl; [|done].
  rewrite build_granted, Hr. intros (_ & cs & _ & _ & [H|H] & _); by apply entitled_nil in H.
Qed.
Print Assumptions C01_deny_by_default.

Example C01_example :
  rules_of [CallAddLogCallback 1; CallInherit 5 (Ok true)] = [] ∧
  verdict_of (build false [CallAddLogCallback 1; CallInherit 5 (Ok true)])
    (FileOpen (lit "/etc/passwd") O_RDONLY) =
  DeniedByPolicy (lit "requests read-only access, but has no access to that path").
Proof. by vm_compute. Qed.

(* ---------------------------------------------------------------- C02 *)

(** Exact meaning of the rules, for every history, path and flag word. *)
Theorem C02_exact_grant (calls : list api_call) (path : str) (flags : Z) :
  verdict_of (build false calls) (FileOpen path flags) = Granted ↔
  should_grant (rules_of calls) path flags.
Proof. rewrite evaluate_enforcing. apply build_granted. Qed.
Print Assumptions C02_exact_grant.

(** Requests other than file opens are never granted. *)
Theorem C02_syscalls_never_granted (calls : list api_call) nb args ip :
  verdict_of (build false calls) (Syscall nb args ip) ≠ Granted.
Proof. by rewrite evaluate_enforcing. Qed.
Print Assumptions C02_syscalls_never_granted.

Example C02_example :
  let calls := [CallRule (AllowDirRead (lit "/etc/")); CallRule (AllowFileWrite (lit "/tmp/x"))] in
  verdict_of (build false calls) (FileOpen (lit "/etc/ssl/certs") O_RDONLY) = Granted ∧
  verdict_of (build false calls) (FileOpen (lit "/tmp/x/") (Z.lor O_WRONLY O_TRUNC)) = Granted ∧
  verdict_of (build false calls) (FileOpen (lit "/tmp/x") O_RDONLY) ≠ Granted ∧
  verdict_of (build false calls) (FileOpen (lit "/etc/ssl") O_RDWR) ≠ Granted.
Proof. by vm_compute. Qed.

(* ---------------------------------------------------------------- C03 *)

(** Directory rules on [anc/c] give nothing on [anc/c<sfx>] or anything below it. *)
Theorem C03_no_sibling_prefix (calls : list api_call) (anc rest : list str) (c sfx : str)
  (path : str) (flags : Z) :
  canonical (anc ++ [c]) → sfx ≠ [] →
  (∀ r, r ∈ rules_of calls → rule_is_dir r ∧ names slash (rule_path r) (anc ++ [c])) →
  canonical (anc ++ (c ++ sfx) :: rest) →
  names slash path (anc ++ (c ++ sfx) :: rest) →
  verdict_of (build false calls) (FileOpen path flags) ≠ Granted.
Proof.
  intros Hc Hs Hr Hc2 Hn. rewrite C02_exact_grant. intros (_ & cs & Hcs & Hn2 & He & _).
  assert (cs = anc ++ (c ++ sfx) :: rest) as -> by (by eapply names_inj).
  assert (∀ x, ¬ entitled (rules_of calls) (anc ++ (c ++ sfx) :: rest) x) as Hno.
  { intros x (r & Hin & Hcov & _). destruct (Hr r Hin) as [Hd Hnm].
    destruct Hcov as [[? _]|[_ (a & b & E & Ha & Hnm2)]]; [done|].
    assert (a = anc ++ [c]) as ->.
    { eapply names_inj; [| |exact Hnm2|exact Hnm]; [|done].
      split; [done|]. destruct Hc2 as [_ Hc2]. rewrite E in Hc2.
      by apply Forall_app in Hc2 as [? _]. }
    rewrite <-app_assoc in E. apply app_inv_head in E. simpl in E.
    injection E as E _. apply (f_equal length) in E. rewrite app_length in E.
    destruct sfx; [done|]. simpl in E. lia. }
  destruct He as [He|He]; by apply Hno in He.
Qed.
Print Assumptions C03_no_sibling_prefix.

(** Nor on a proper ancestor of the rule's directory. *)
Theorem C03_no_parent (calls : list api_call) (anc below : list str) (path : str) (flags : Z) :
  canonical anc → below ≠ [] → canonical (anc ++ below) →
  (∀ r, r ∈ rules_of calls → names slash (rule_path r) (anc ++ below)) →
  names slash path anc →
  verdict_of (build false calls) (FileOpen path flags) ≠ Granted.
Proof.
  intros Hc Hb Hc2 Hr Hn. rewrite C02_exact_grant. intros (_ & cs & Hcs & Hn2 & He & _).
  assert (cs = anc) as -> by (by eapply names_inj).
  assert (∀ x, ¬ entitled (rules_of calls) anc x) as Hno.
  { intros x (r & Hin & Hcov & _). specialize (Hr r Hin).
    assert (∀ a, canonical a → length a ≤ length anc → ¬ names slash (rule_path r) a)%nat as Hx.
    { intros a Ha Hl Hna. assert (a = anc ++ below) as -> by (by eapply names_inj).
      rewrite app_length in Hl. destruct below; [done|]. simpl in Hl. lia. }
    destruct Hcov as [[_ Hna]|[_ (a & b & E & Ha & Hna)]].
    - by apply (Hx anc).
    - apply (Hx a); [| |done].
      + split; [done|]. destruct Hc as [_ Hc]. rewrite E in Hc. by apply Forall_app in Hc as [? _].
      + rewrite E, app_length. lia. }
  destruct He as [He|He]; by apply Hno in He.
Qed.
Print Assumptions C03_no_parent.

Lemma good_name_dec c :
  bool_decide (c ≠ [] ∧ slash ∉ c ∧ c ≠ lit "." ∧ c ≠ lit "..") = true → good_name slash c.
Proof. by rewrite bool_decide_eq_true. Qed.
Ltac solve_canonical :=
  split; [done|repeat (apply Forall_cons; split); [..|by apply Forall_nil];
    apply good_name_dec; by vm_compute].

Example C03_example :
  canonical ([lit "a"] ++ [lit "b"]) ∧
  canonical ([lit "a"] ++ (lit "b" ++ lit ".txt") :: []) ∧
  names slash (lit "/a/b") ([lit "a"] ++ [lit "b"]) ∧
  names slash (lit "/a/b.txt") ([lit "a"] ++ (lit "b" ++ lit ".txt") :: []) ∧
  verdict_of (build false [CallRule (AllowDirRead (lit "/a/b"))])
    (FileOpen (lit "/a/b.txt") O_RDONLY) =
  DeniedByPolicy (lit "requests read-only access, but has no access to that path") ∧
  verdict_of (build false [CallRule (AllowDirRead (lit "/a/b"))])
    (FileOpen (lit "/a/b/c.txt") O_RDONLY) = Granted.
Proof. split_and!; [solve_canonical|solve_canonical|by left|by left|by vm_compute|by vm_compute]. Qed.

(* ---------------------------------------------------------------- C04 *)

Theorem C04_granted_path_canonical (calls : list api_call) (path : str) (flags : Z) :
  verdict_of (build false calls) (FileOpen path flags) = Granted →
  ∃ cs, canonical cs ∧ names slash path cs.
Proof. rewrite evaluate_enforcing. apply check_file_open_canonical. Qed.
Print Assumptions C04_granted_path_canonical.

Example C04_example :
  let p := build false [CallRule (AllowDirRead (lit "/tmp"))] in
  verdict_of p (FileOpen (lit "/tmp/a/b") O_RDONLY) = Granted ∧
  verdict_of p (FileOpen (lit "/tmp/../etc/passwd") O_RDONLY) =
    InvalidRequestParameters (lit "path")
      (lit "path to open ""/tmp/../etc/passwd"" is not in canonical form") ∧
  verdict_of p (FileOpen (lit "/tmp//a") O_RDONLY) ≠ Granted ∧
  verdict_of p (FileOpen (lit "tmp/a") O_RDONLY) ≠ Granted.
Proof. by vm_compute. Qed.

(* ---------------------------------------------------------------- C05 *)

(** Further calls never revoke a grant. *)
Theorem C05_monotone (calls more : list api_call) (req : lx_request) :
  verdict_of (build false calls) req = Granted →
  verdict_of (build false (calls ++ more)) req = Granted.
Proof.
  destruct req as [path flags|nb args ip].
  - rewrite !C02_exact_grant. apply should_grant_mono. intros r.
    rewrite rules_of_app, elem_of_app. by left.
  - by rewrite evaluate_enforcing.
Qed.
Print Assumptions C05_monotone.

(** The order of the calls does not change any verdict (reasons included). *)
Theorem C05_order_independent (calls calls' : list api_call) (req : lx_request) :
  calls ≡ₚ calls' →
  verdict_of (build false calls) req = verdict_of (build false calls') req.
Proof.
  intros H. apply verdict_same_rules. intros path flags cs x _ _ _.
  unfold entitled. setoid_rewrite elem_rules_of. by setoid_rewrite H.
Qed.
Print Assumptions C05_order_independent.

(** Repeating a call changes nothing. *)
Theorem C05_idempotent (calls : list api_call) (c : api_call) (req : lx_request) :
  c ∈ calls →
  verdict_of (build false (calls ++ [c])) req = verdict_of (build false calls) req.
Proof.
  intros H. apply verdict_same_rules. intros path flags cs x _ _ _.
  unfold entitled. setoid_rewrite elem_rules_of. setoid_rewrite elem_of_app.
  setoid_rewrite elem_of_list_singleton. naive_solver.
Qed.
Print Assumptions C05_idempotent.

Example C05_example :
  let a := CallRule (AllowFileRead (lit "/x")) in
  let b := CallRule (AllowFileWrite (lit "/x/")) in
  [a; b] ≡ₚ [b; a] ∧
  verdict_of (build false [a; b]) (FileOpen (lit "/x") O_RDWR) = Granted ∧
  verdict_of (build false [b; a]) (FileOpen (lit "/x") O_RDWR) = Granted ∧
  verdict_of (build false [b; a; b]) (FileOpen (lit "/x") O_RDWR) = Granted ∧
  verdict_of (build false [a]) (FileOpen (lit "/x") O_RDWR) ≠ Granted.
Proof. split; [apply Permutation_swap|by vm_compute]. Qed.

(* ---------------------------------------------------------------- C06 *)

(** A rule does not change the verdict (reason included) of paths it does not cover. *)
Theorem C06_no_interference (calls : list api_call) (r : rule) (path : str) (flags : Z) :
  (∀ cs, canonical cs → names slash path cs → ¬ covers r cs) →
  verdict_of (build false (calls ++ [CallRule r])) (FileOpen path flags) =
  verdict_of (build false calls) (FileOpen path flags).
Proof.
  intros H. apply verdict_same_rules. intros path' flags' cs x [= <- <-] Hc Hn.
  unfold entitled. setoid_rewrite elem_rules_of. setoid_rewrite elem_of_app.
  setoid_rewrite elem_of_list_singleton. split.
  - intros (r' & [Hr|[= ->]] & Hcov & Hg); [eauto|]. exfalso. by apply (H cs).
  - intros (r' & Hr & ?). eauto.
Qed.
Print Assumptions C06_no_interference.

(** A rule is rejected exactly when its path is not absolute, and a rejected
    call changes no verdict. *)
Theorem C06_rejected_rules (audit : bool) (calls : list api_call) (r : rule) :
  ((∃ e, apply_rule (build audit calls) r = Err e) ↔
     ∀ rest, rule_path r ≠ slash :: rest) ∧
  ((∃ e, apply_rule (build audit calls) r = Err e) →
     build audit (calls ++ [CallRule r]) = build audit calls).
Proof.
  split.
  - rewrite apply_rule_eq. destruct (rule_path r) as [|c q]; simpl; [naive_solver|].
    destruct (bool_decide (c = slash)) eqn:E.
    + apply bool_decide_eq_true in E as ->. naive_solver.
    + apply bool_decide_eq_false in E. naive_solver.
  - intros [e H]. unfold build. rewrite foldl_app. simpl.
    unfold apply_call_ignore at 1, apply_call. unfold build in H. by rewrite H.
Qed.
Print Assumptions C06_rejected_rules.

Example C06_example :
  (∀ cs, canonical cs → names slash (lit "/b") cs → ¬ covers (AllowDirRead (lit "/a")) cs) ∧
  apply_rule nothing_allowed (AllowDirRead (lit "a")) =
    Err (UnsupportedFilesystemPath (lit "a")).
Proof.
  split; [|by vm_compute]. intros cs Hc Hn Hcov.
  assert (cs = [lit "b"]) as ->.
  { eapply names_inj; [done| |done|by left]. solve_canonical. }
  destruct Hcov as [[? _]|[_ (a & b & E & Ha & Hna)]]; [done|].
  assert (a = [lit "a"]) as ->; [|done].
  eapply names_inj; [| |done|by left]; [|solve_canonical].
  split; [done|]. destruct Hc as [_ Hc]. rewrite E in Hc. by apply Forall_app in Hc as [? _].
Qed.

(* ---------------------------------------------------------------- C07 *)

Theorem C07_no_unauthorised_modification (calls : list api_call) (path : str) (flags : Z) :
  verdict_of (build false calls) (FileOpen path flags) = Granted →
  kernel_can_modify flags →
  ∃ cs, names slash path cs ∧ canonical cs ∧ entitled (rules_of calls) cs RWrite.
Proof.
  rewrite C02_exact_grant. intros (_ & cs & Hc & Hn & _ & _ & Hw) Hk.
  exists cs. split_and!; [done|done|]. apply Hw. by apply kernel_modify_needs.
Qed.
Print Assumptions C07_no_unauthorised_modification.

Example C07_example :
  let p := build false [CallRule (AllowFileRead (lit "/f"))] in
  kernel_can_modify (Z.lor O_RDONLY O_TRUNC) ∧ kernel_can_modify O_RDWR ∧
  kernel_can_modify (Z.lor O_WRONLY O_APPEND) ∧
  verdict_of p (FileOpen (lit "/f") (Z.lor O_RDONLY O_TRUNC)) ≠ Granted ∧
  verdict_of p (FileOpen (lit "/f") O_RDWR) ≠ Granted ∧
  verdict_of (build false [CallRule (AllowFileWrite (lit "/f"))])
    (FileOpen (lit "/f") (Z.lor O_WRONLY O_TRUNC)) = Granted.
Proof.
  unfold kernel_can_modify, path_only, bit.
  split_and!; try (by vm_compute); vm_compute; intuition congruence.
Qed.

(* ---------------------------------------------------------------- C08 *)

Theorem C08_no_unauthorised_read (calls : list api_call) (path : str) (flags : Z) :
  verdict_of (build false calls) (FileOpen path flags) = Granted →
  ∃ cs, names slash path cs ∧ canonical cs ∧
    (kernel_can_read flags → entitled (rules_of calls) cs RRead) ∧
    (entitled (rules_of calls) cs RRead ∨ entitled (rules_of calls) cs RWrite).
Proof.
  rewrite C02_exact_grant. intros (_ & cs & Hc & Hn & He & Hr & _).
  exists cs. split_and!; [done|done| |done]. intros Hk. apply Hr. by apply kernel_read_needs.
Qed.
Print Assumptions C08_no_unauthorised_read.

Example C08_example :
  let p := build false [CallRule (AllowFileWrite (lit "/f"))] in
  kernel_can_read O_RDONLY ∧
  verdict_of p (FileOpen (lit "/f") O_RDONLY) ≠ Granted ∧
  verdict_of p (FileOpen (lit "/f") O_WRONLY) = Granted ∧
  verdict_of p (FileOpen (lit "/f") O_PATH) = Granted.
Proof.
  unfold kernel_can_read, path_only, bit.
  split_and!; try (by vm_compute). by left.
Qed.

(* ---------------------------------------------------------------- C09 *)

Theorem C09_unsupported_flags_refused (calls : list api_call) (path : str) (flags n : Z) :
  0 ≤ n → bit flags n → n ∉ [0; 1; 6; 7; 9; 10; 16; 19; 21] →
  verdict_of (build false calls) (FileOpen path flags) ≠ Granted.
Proof.
  intros Hn Hb Hnot. rewrite evaluate_enforcing. intros H.
  apply check_file_open_supported in H. by apply Hnot, H.
Qed.
Print Assumptions C09_unsupported_flags_refused.

Example C09_example :
  let p := build false [CallRule (AllowDirRead (lit "/tmp"))] in
  bit (Z.lor O_RDONLY O_NOFOLLOW) 17 ∧ 17 ∉ [0; 1; 6; 7; 9; 10; 16; 19; 21] ∧
  bit (-1) 31 ∧ 31 ∉ [0; 1; 6; 7; 9; 10; 16; 19; 21] ∧
  verdict_of p (FileOpen (lit "/tmp/a") O_NOFOLLOW) =
    DelegationToSandboxNotSupported (lit "open flag 0x20000 not supported") ∧
  verdict_of p (FileOpen (lit "/tmp/a") 0) = Granted.
Proof. split_and!; try (by vm_compute); set_solver by lia. Qed.

(* ---------------------------------------------------------------- C10 *)

(** Full claim: a rule on "/" covers the whole tree. It is false. *)
Theorem C10_root_rule_refuted :
  ¬ (∀ path cs, canonical cs → names slash path cs →
      verdict_of (build false [CallRule (AllowDirRead (lit "/"))])
        (FileOpen path O_RDONLY) = Granted).
Proof.
  intros H. specialize (H (lit "/etc") [lit "etc"]).
  assert (canonical [lit "etc"]) as Hc by solve_canonical.
  specialize (H Hc ltac:(by left)). by vm_compute in H.
Qed.
Print Assumptions C10_root_rule_refuted.

(** In fact rules on "/" are accepted but give nothing at all. *)
Theorem C10_root_rule_grants_nothing (calls : list api_call) (req : lx_request) :
  (∀ r, r ∈ rules_of calls → rule_path r = lit "/") →
  (∀ r, r ∈ rules_of calls → ∃ q, apply_rule (build false calls) r = Ok q) ∧
  verdict_of (build false calls) req ≠ Granted.
Proof.
  intros Hr. split.
  { intros r Hin. rewrite apply_rule_eq, (Hr r Hin). simpl. eauto. }
  destruct req as [path flags|]; [|by rewrite evaluate_enforcing].
  rewrite C02_exact_grant. intros (_ & cs & Hc & Hn & He & _).
  assert (∀ a, canonical a → ¬ names slash (lit "/") a) as Hno.
  { intros a [Ha Hg] Hna. unfold names in Hna.
    destruct a as [|c a]; [done|]. inversion Hg as [|? ? (Hne & _) _]; subst.
    unfold render in Hna. simpl in Hna. destruct c as [|b c]; [done|].
    destruct Hna as [Hna|Hna]; discriminate. }
  assert (∀ x, ¬ entitled (rules_of calls) cs x) as Hne.
  { intros x (r & Hin & Hcov & _). unfold covers in Hcov. rewrite (Hr r Hin) in Hcov.
    destruct Hcov as [[_ H]|[_ (a & b & E & Ha & H)]].
    - by apply (Hno cs).
    - apply (Hno a); [|done]. split; [done|]. destruct Hc as [_ Hc].
      rewrite E in Hc. by apply Forall_app in Hc as [? _]. }
  destruct He as [He|He]; by apply Hne in He.
Qed.
Print Assumptions C10_root_rule_grants_nothing.

(** The claim for every directory but the root. Missing for the full claim: [anc = []]. *)
Theorem C10_dir_rule_covers_subtree_partial (calls : list api_call) (dir path : str)
  (anc rest : list str) :
  canonical (anc ++ rest) → anc ≠ [] → names slash dir anc →
  CallRule (AllowDirRead dir) ∈ calls →
  names slash path (anc ++ rest) →
  verdict_of (build false calls) (FileOpen path O_RDONLY) = Granted.
Proof.
  intros Hc Ha Hd Hin Hn. rewrite C02_exact_grant.
  assert (entitled (rules_of calls) (anc ++ rest) RRead) as He.
  { exists (AllowDirRead dir). split; [by apply elem_rules_of|]. split; [|done].
    right. split; [done|]. eauto. }
  split.
  - intros n Hn0 Hb. unfold bit, O_RDONLY in Hb. by rewrite Z.bits_0 in Hb.
  - exists (anc ++ rest). split_and!; try done; [by left|].
    intros [_ Hw]. unfold bit, O_RDONLY in Hw. rewrite !Z.bits_0 in Hw. naive_solver.
Qed.
Print Assumptions C10_dir_rule_covers_subtree_partial.

Example C10_example :
  canonical ([lit "usr"] ++ [lit "lib"; lit "x"]) ∧
  names slash (lit "/usr/") [lit "usr"] ∧
  verdict_of (build false [CallRule (AllowDirRead (lit "/usr/"))])
    (FileOpen (lit "/usr/lib/x") O_RDONLY) = Granted.
Proof. split_and!; [solve_canonical|by right|by vm_compute]. Qed.

(* ---------------------------------------------------------------- C11 *)

Theorem C11_lock_rules_grant_nothing (calls : list api_call) (req : lx_request) :
  (∀ r, r ∈ rules_of calls → ∃ p a b c, r = AllowFileLock p a b c ∨ r = AllowDirLock p a b c) →
  verdict_of (build false calls) req ≠ Granted.
Proof.
  intros Hr. destruct req as [path flags|]; [|by rewrite evaluate_enforcing].
  rewrite C02_exact_grant. intros (_ & cs & _ & _ & He & _).
  destruct He as [(r & Hin & _ & Hg)|(r & Hin & _ & Hg)];
    destruct (Hr r Hin) as (p & a & b & c & [-> | ->]); done.
Qed.
Print Assumptions C11_lock_rules_grant_nothing.

Example C11_example :
  verdict_of (build false [CallRule (AllowFileLock (lit "/f") true true true)])
    (FileOpen (lit "/f") O_RDONLY) ≠ Granted.
Proof. by vm_compute. Qed.

(* ---------------------------------------------------------------- C12 *)

(** Audit mode grants everything and the callbacks see the enforcing verdict. *)
Theorem C12_audit_mode (calls : list api_call) (req : lx_request) :
  verdict_of (build true calls) req = Granted ∧
  snd (evaluate_request (build true calls) req) =
    map (λ cb, (cb, req, verdict_of (build false calls) req)) (callbacks_of calls).
Proof.
  split; unfold evaluate_request; simpl.
  - by rewrite build_audit.
  - unfold log_verdict. rewrite !build_audit, build_callbacks.
    destruct req as [path flags|]; simpl; [|done]. by rewrite !build_check.
Qed.
Print Assumptions C12_audit_mode.

Example C12_example :
  evaluate_request (build true [CallAddLogCallback 7]) (FileOpen (lit "/etc/shadow") O_RDWR) =
  (Granted, [(7%N, FileOpen (lit "/etc/shadow") O_RDWR,
     DeniedByPolicy (lit "requests read-write access, but has no access to that path"))]).
Proof. by vm_compute. Qed.

(* ---------------------------------------------------------------- C13 *)

(** Every callback is called once, in registration order, with the request and the
    verdict that the caller gets in enforcing mode - granted or not. *)
Theorem C13_callbacks_once_in_order (calls : list api_call) (req : lx_request) :
  map (λ c, fst (fst c)) (snd (evaluate_request (build false calls) req)) = callbacks_of calls ∧
  ∀ c, c ∈ snd (evaluate_request (build false calls) req) →
    snd (fst c) = req ∧ snd c = verdict_of (build false calls) req.
Proof.
  unfold evaluate_request, log_verdict; simpl. rewrite build_callbacks, build_audit. split.
  - rewrite map_map. simpl. by rewrite map_id.
  - intros c Hc. apply elem_of_list_fmap in Hc as (cb & -> & _). done.
Qed.
Print Assumptions C13_callbacks_once_in_order.

(** The documentation (policy/src/policy.rs:67-68: "whenever access to a resource is
    denied") reads as if only denials were reported. That reading is false. *)
Theorem C13_denials_only_refuted :
  ¬ (∀ calls req, verdict_of (build false calls) req = Granted →
      snd (evaluate_request (build false calls) req) = []).
Proof.
  intros H.
  specialize (H [CallRule (AllowFileRead (lit "/f")); CallAddLogCallback 1]
    (FileOpen (lit "/f") O_RDONLY)). by vm_compute in H; specialize (H eq_refl).
Qed.
Print Assumptions C13_denials_only_refuted.

Example C13_example :
  map (λ c, fst (fst c)) (snd (evaluate_request
    (build false [CallAddLogCallback 3; CallRule (AllowFileRead (lit "/f")); CallAddLogCallback 1])
    (FileOpen (lit "/f") O_RDONLY))) = [3%N; 1%N].
Proof. by vm_compute. Qed.

(* ---------------------------------------------------------------- C14 *)

Theorem C14_runtime_policy (p : policy) (req : lx_request) :
  evaluate_request (get_runtime_policy p) req = evaluate_request p req ∧
  get_inherited_handles (get_runtime_policy p) = ∅ ∧
  is_audit_only (get_runtime_policy p) = is_audit_only p.
Proof. done. Qed.
Print Assumptions C14_runtime_policy.

Example C14_example :
  let p := build false [CallRule (AllowFileRead (lit "/f")); CallInherit 9 (Ok true)] in
  elements (get_inherited_handles p) = [9%N] ∧
  elements (get_inherited_handles (get_runtime_policy p)) = [] ∧
  verdict_of (get_runtime_policy p) (FileOpen (lit "/f") O_RDONLY) = Granted.
Proof. by vm_compute. Qed.

(* ---------------------------------------------------------------- C15 *)

(** The inherited set is exactly the set of accepted handles; a call is rejected
    exactly when the kernel does not say "inheritable", and then changes nothing. *)
Theorem C15_inherited_handles (audit : bool) (calls : list api_call) (raw : N) :
  raw ∈ get_inherited_handles (build audit calls) ↔ accepted_handle calls raw.
Proof. apply build_handles. Qed.
Print Assumptions C15_inherited_handles.

Theorem C15_rejected_handles (audit : bool) (calls : list api_call) (raw : N) inh :
  ((∃ e, allow_inherit_handle (build audit calls) raw inh = Err e) ↔ inh ≠ Ok true) ∧
  (inh ≠ Ok true → build audit (calls ++ [CallInherit raw inh]) = build audit calls).
Proof.
  split.
  - destruct inh as [[]|e]; simpl; naive_solver.
  - intros H. unfold build. rewrite foldl_app. simpl.
    unfold apply_call_ignore, apply_call, allow_inherit_handle.
    by destruct inh as [[]|e].
Qed.
Print Assumptions C15_rejected_handles.

Example C15_example :
  elements (get_inherited_handles (build false
    [CallInherit 4 (Ok true); CallInherit 6 (Ok false); CallInherit 4 (Ok true)])) = [4%N] ∧
  allow_inherit_handle nothing_allowed 6 (Ok false) = Err (HandleNotInheritable 6).
Proof. by vm_compute. Qed.
