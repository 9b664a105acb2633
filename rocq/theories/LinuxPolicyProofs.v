(** Proofs about the Linux policy decision. *)
From stdpp Require Import prelude gmap.
From Verif Require Import Bytes BytesProofs PolicyModel PolicySpec PolicyProofs
  LinuxPolicyModel LinuxPolicySpec.
Local Open Scope Z_scope.

Lemma component_ok_good c : slash ∉ c → component_ok c = true ↔ good_name slash c.
Proof.
  intros Hs. unfold component_ok, good_name.
  rewrite andb_true_iff, !negb_true_iff, orb_false_iff, !bool_decide_eq_false. naive_solver.
Qed.

Lemma canonical_plain cs : canonical cs → Forall (plain_name slash) cs.
Proof. intros [_ H]. eapply Forall_impl; [exact H|]. apply good_plain. Qed.

Lemma path_is_sane_spec p :
  path_is_sane p = true ↔ ∃ cs, canonical cs ∧ names slash p cs.
Proof.
  unfold path_is_sane. split.
  - destruct (strip_prefix slash p) as [rest|] eqn:E; [|done].
    apply strip_prefix_Some in E as ->. intros H.
    set (q := strip_suffix_or_self slash rest) in *.
    exists (split slash q).
    pose proof (split_not_nil slash q) as Hn.
    assert (canonical (split slash q)) as Hcan.
    { split; [done|]. pose proof (split_no_sep slash q) as Hs.
      rewrite forallb_forall in H. apply Forall_forall. intros c Hc.
      rewrite Forall_forall in Hs. apply component_ok_good; [by apply Hs|].
      apply H. by apply elem_of_list_In. }
    split; [done|].
    unfold names. rewrite render_join by done. rewrite split_join.
    destruct (strip_suffix_or_self_cases slash rest) as [E|[E _]]; fold q in E.
    + right. by rewrite E.
    + left. by rewrite E.
  - intros (cs & Hc & Hp). pose proof Hc as [Hn Hg].
    pose proof (canonical_plain cs Hc) as Hpl.
    assert (∃ rest, p = slash :: rest ∧ strip_suffix_or_self slash rest = join slash cs)
      as (rest & -> & E).
    { unfold names in Hp. rewrite render_join in Hp by done. destruct Hp as [->| ->].
      - exists (join slash cs). split; [done|]. apply strip_suffix_or_self_id.
        intros r Er. apply (render_not_trailing slash cs Hpl (slash :: r)).
        rewrite render_join by done. by rewrite Er.
      - exists (join slash cs ++ [slash]). split; [done|]. apply strip_suffix_or_self_snoc. }
    rewrite (proj2 (strip_prefix_Some slash (slash :: rest) rest)) by done. rewrite E.
    rewrite join_split; [|done|].
    + apply forallb_forall. intros c Hin. rewrite Forall_forall in Hg.
      assert (c ∈ cs) as Hin' by (by apply elem_of_list_In).
      specialize (Hg c Hin'). apply component_ok_good; [|done]. by destruct Hg as (_ & ? & _).
    + eapply Forall_impl; [exact Hg|]. by intros ? (_ & ? & _).
Qed.

Lemma names_slash p cs : cs ≠ [] → names slash p cs → starts_with_byte slash p = true.
Proof.
  intros Hn. unfold names. rewrite render_join by done.
  intros [-> | ->]; done.
Qed.

(** Bits. *)
Lemma land_lnot_zero a m :
  Z.land a (Z.lnot m) = 0 ↔ ∀ n, 0 ≤ n → Z.testbit a n = true → Z.testbit m n = true.
Proof.
  split.
  - intros H n Hn Ha. destruct (Z.testbit m n) eqn:E; [done|].
    assert (Z.testbit (Z.land a (Z.lnot m)) n = true) as H2.
    { rewrite Z.land_spec, Z.lnot_spec by lia. by rewrite Ha, E. }
    rewrite H, Z.bits_0 in H2. done.
  - intros H. apply Z.bits_inj'. intros n Hn.
    rewrite Z.land_spec, Z.lnot_spec, Z.bits_0 by lia.
    destruct (Z.testbit a n) eqn:E; [|done]. by rewrite H.
Qed.

Lemma land_zero a m :
  Z.land a m = 0 ↔ ∀ n, 0 ≤ n → Z.testbit m n = true → Z.testbit a n = false.
Proof.
  split.
  - intros H n Hn Hm. destruct (Z.testbit a n) eqn:E; [|done].
    assert (Z.testbit (Z.land a m) n = true) as H2 by (by rewrite Z.land_spec, E, Hm).
    rewrite H, Z.bits_0 in H2. done.
  - intros H. apply Z.bits_inj'. intros n Hn. rewrite Z.land_spec, Z.bits_0.
    destruct (Z.testbit m n) eqn:E; [|by rewrite andb_false_r]. by rewrite H.
Qed.

(** Set bits of a non-negative constant below 2^32, by enumeration. *)
Definition bits_of (m : Z) : list Z :=
  filter (λ n, Z.testbit m n = true) (map Z.of_nat (seq 0 32)).

Lemma testbit_bits_of m n :
  0 ≤ m < 2 ^ 32 → 0 ≤ n → Z.testbit m n = true ↔ n ∈ bits_of m.
Proof.
  intros Hm Hn. unfold bits_of. rewrite elem_of_list_filter. split.
  - intros H. split; [done|].
    assert (n < 32).
    { destruct (Z.lt_ge_cases n 32); [done|]. exfalso.
      rewrite Z.bits_above_log2 in H; [done|lia|].
      destruct (Z.eq_dec m 0) as [->|]; [simpl; lia|].
      apply Z.lt_le_trans with 32; [|done]. apply Z.log2_lt_pow2; lia. }
    apply elem_of_list_fmap. exists (Z.to_nat n). split; [lia|].
    apply elem_of_seq. lia.
  - by intros [? _].
Qed.

Lemma SUPPORTED_bits : bits_of SUPPORTED_FILE_OPEN_FLAGS = [0; 1; 6; 7; 9; 10; 16; 19; 21].
Proof. by vm_compute. Qed.

Lemma supported_spec flags :
  Z.land flags (Z.lnot SUPPORTED_FILE_OPEN_FLAGS) = 0 ↔ supported_flags flags.
Proof.
  rewrite land_lnot_zero. unfold supported_flags, bit. rewrite <-SUPPORTED_bits.
  split; intros H n Hn Hb.
  - apply testbit_bits_of; [by vm_compute|done|auto].
  - apply testbit_bits_of; [by vm_compute|done|auto].
Qed.

Lemma has_flag_spec flags m :
  0 ≤ m < 2 ^ 32 →
  has_flag flags m = true ↔ ∃ n, n ∈ bits_of m ∧ Z.testbit flags n = true.
Proof.
  intros Hm. unfold has_flag. rewrite negb_true_iff, Z.eqb_neq. split.
  - intros H. rewrite <-Exists_exists.
    destruct (decide (Exists (λ n, Z.testbit flags n = true) (bits_of m))) as [?|Hn];
      [done|]. rewrite Exists_exists in Hn. exfalso. apply H. apply land_zero. intros n Hn0 Hmn.
    destruct (Z.testbit flags n) eqn:E; [|done]. exfalso. apply Hn. exists n.
    split; [|done]. by apply testbit_bits_of.
  - intros (n & Hn & Hf) H. rewrite land_zero in H.
    assert (0 ≤ n) as Hn0.
    { unfold bits_of in Hn. apply elem_of_list_filter in Hn as [_ Hn].
      apply elem_of_list_fmap in Hn as (k & -> & _). lia. }
    rewrite H in Hf; [done|done|]. by apply testbit_bits_of.
Qed.

Lemma effective_flags_bits flags n :
  0 ≤ n →
  Z.testbit (effective_flags flags) n =
    (if has_flag flags O_PATH
     then Z.testbit flags n && bool_decide (n ∈ [16; 17; 21])
     else Z.testbit flags n)
    || bool_decide (n = 19).
Proof.
  intros Hn. unfold effective_flags. rewrite Z.lor_spec.
  assert (Z.testbit O_CLOEXEC n = bool_decide (n = 19)) as ->.
  { apply eq_bool_prop_intro. rewrite !Is_true_true, bool_decide_eq_true.
    rewrite testbit_bits_of by (done || by vm_compute).
    assert (bits_of O_CLOEXEC = [19]) as -> by (by vm_compute).
    rewrite elem_of_list_singleton. done. }
  f_equal. destruct (has_flag flags O_PATH); [|done].
  rewrite Z.land_spec. f_equal.
  apply eq_bool_prop_intro. rewrite !Is_true_true, bool_decide_eq_true.
  rewrite testbit_bits_of by (done || by vm_compute).
  assert (bits_of (Z.lor (Z.lor O_PATH O_DIRECTORY) O_NOFOLLOW) = [16; 17; 21]) as ->
    by (by vm_compute). done.
Qed.

Lemma has_path_spec flags : has_flag flags O_PATH = true ↔ path_only flags.
Proof.
  rewrite has_flag_spec by (by vm_compute).
  assert (bits_of O_PATH = [21]) as -> by (by vm_compute).
  unfold path_only, bit. setoid_rewrite elem_of_list_singleton. naive_solver.
Qed.

Lemma has_path_false flags : has_flag flags O_PATH = false ↔ ¬ path_only flags.
Proof. rewrite <-has_path_spec. by destruct (has_flag flags O_PATH). Qed.

Lemma requests_read_spec flags :
  requests_read (effective_flags flags) = true ↔ needs_read flags.
Proof.
  unfold requests_read, needs_read.
  assert (∀ f, (Z.land f (Z.lor O_WRONLY O_PATH) =? 0) =
    negb (has_flag f (Z.lor O_WRONLY O_PATH))) as ->
    by (intros f; unfold has_flag; by rewrite negb_involutive).
  rewrite negb_true_iff, <-not_true_iff_false, has_flag_spec by (by vm_compute).
  assert (bits_of (Z.lor O_WRONLY O_PATH) = [0; 21]) as -> by (by vm_compute).
  assert (∀ P : Z → Prop, (∃ n, n ∈ [0; 21] ∧ P n) ↔ P 0 ∨ P 21) as ->.
  { intros P. rewrite <-Exists_exists, !Exists_cons, Exists_nil. tauto. }
  rewrite !effective_flags_bits by lia.
  rewrite !(bool_decide_eq_false_2 (_ = 19)) by lia.
  rewrite !orb_false_r.
  destruct (has_flag flags O_PATH) eqn:E.
  - apply has_path_spec in E. rewrite (bool_decide_eq_true_2 (21 ∈ [16; 17; 21])) by set_solver.
    unfold path_only, bit in *. rewrite E. simpl. naive_solver.
  - apply has_path_false in E. unfold path_only, bit in *. naive_solver.
Qed.

Lemma requests_write_spec flags :
  requests_write (effective_flags flags) = true ↔ needs_write flags.
Proof.
  unfold requests_write, needs_write.
  rewrite andb_true_iff, negb_true_iff, <-(not_true_iff_false (has_flag _ O_PATH)).
  rewrite !has_flag_spec by (by vm_compute).
  assert (bits_of (foldr Z.lor 0 [O_WRONLY; O_RDWR; O_TRUNC; O_CREAT; O_EXCL; O_APPEND])
          = [0; 1; 6; 7; 9; 10]) as -> by (by vm_compute).
  assert (bits_of O_PATH = [21]) as -> by (by vm_compute).
  assert (∀ P : Z → Prop, (∃ n, n ∈ [0; 1; 6; 7; 9; 10] ∧ P n) ↔
            P 0 ∨ P 1 ∨ P 6 ∨ P 7 ∨ P 9 ∨ P 10) as ->.
  { intros P. rewrite <-Exists_exists, !Exists_cons, Exists_nil. tauto. }
  assert (∀ P : Z → Prop, (∃ n, n ∈ [21] ∧ P n) ↔ P 21) as ->.
  { intros P. setoid_rewrite elem_of_list_singleton. naive_solver. }
  rewrite !effective_flags_bits by lia.
  rewrite !(bool_decide_eq_false_2 (_ = 19)) by lia.
  rewrite !orb_false_r.
  destruct (has_flag flags O_PATH) eqn:E.
  - apply has_path_spec in E. rewrite (bool_decide_eq_true_2 (21 ∈ [16; 17; 21])) by set_solver.
    unfold path_only, bit in *. rewrite E. simpl. naive_solver.
  - apply has_path_false in E. unfold path_only, bit in *. naive_solver.
Qed.

(** Rules and maps. *)
Definition rule_access (r : rule) : access :=
  match r with
  | AllowFileRead _ | AllowDirRead _ => mkAccess true false false false false
  | AllowFileWrite _ | AllowDirWrite _ => mkAccess false true false false false
  | AllowFileLock _ a b c | AllowDirLock _ a b c => mkAccess false false a b c
  end.

Definition rule_dirb (r : rule) : bool :=
  match r with
  | AllowFileRead _ | AllowFileWrite _ | AllowFileLock _ _ _ _ => false
  | _ => true
  end.

Lemma rule_dirb_spec r : rule_dirb r = true ↔ rule_is_dir r.
Proof. by destruct r. Qed.

Lemma rule_access_spec r x : has (rule_access r) x = true ↔ rule_gives r x.
Proof. destruct r, x; simpl; naive_solver. Qed.

Lemma apply_rule_eq p r :
  apply_rule p r =
    if starts_with_byte slash (rule_path r)
    then Ok (allow_one slash (rule_dirb r) (rule_access r) p (rule_path r))
    else Err (UnsupportedFilesystemPath (rule_path r)).
Proof.
  destruct r; simpl; unfold allow_file_access, derive_all_file_paths_from_path;
    by destruct (starts_with_byte slash _).
Qed.

Lemma apply_rule_ignore_eq p r :
  apply_rule_ignore p r =
    if starts_with_byte slash (rule_path r)
    then allow_one slash (rule_dirb r) (rule_access r) p (rule_path r)
    else p.
Proof.
  unfold apply_rule_ignore. rewrite apply_rule_eq.
  by destruct (starts_with_byte slash (rule_path r)).
Qed.

Definition rule_hits (dir : bool) (k : str) (x : right) (r : rule) : Prop :=
  rule_dirb r = dir ∧ starts_with_byte slash (rule_path r) = true ∧
  strip_suffix_or_self slash (rule_path r) = k ∧ has (rule_access r) x = true.

Lemma exists_cons {A} (P : A → Prop) (x : A) (l : list A) :
  (∃ r, r ∈ x :: l ∧ P r) ↔ P x ∨ ∃ r, r ∈ l ∧ P r.
Proof. by rewrite <-!Exists_exists, Exists_cons. Qed.

Lemma apply_rules_file p h k x :
  map_has (file_access (apply_rules p h)) k x ↔
  map_has (file_access p) k x ∨ ∃ r, r ∈ h ∧ rule_hits false k x r.
Proof.
  unfold apply_rules. revert p. induction h as [|r h IH]; intros p; simpl.
  { setoid_rewrite elem_of_nil. split; [by left|]. by intros [?|(? & ? & _)]. }
  rewrite IH. rewrite exists_cons, apply_rule_ignore_eq.
  unfold rule_hits at 2. destruct (starts_with_byte slash (rule_path r)) eqn:E.
  - rewrite allow_one_file. tauto.
  - split; [tauto|]. intros [?|[(_ & ? & _)|?]]; [tauto|done|tauto].
Qed.

Lemma apply_rules_dir p h k x :
  map_has (dir_access (apply_rules p h)) k x ↔
  map_has (dir_access p) k x ∨ ∃ r, r ∈ h ∧ rule_hits true k x r.
Proof.
  unfold apply_rules. revert p. induction h as [|r h IH]; intros p; simpl.
  { setoid_rewrite elem_of_nil. split; [by left|]. by intros [?|(? & ? & _)]. }
  rewrite IH. rewrite exists_cons, apply_rule_ignore_eq.
  unfold rule_hits at 2. destruct (starts_with_byte slash (rule_path r)) eqn:E.
  - rewrite allow_one_dir. tauto.
  - split; [tauto|]. intros [?|[(_ & ? & _)|?]]; [tauto|done|tauto].
Qed.

Lemma apply_rules_audit p h : audit_only (apply_rules p h) = audit_only p.
Proof.
  unfold apply_rules. revert p. induction h as [|r h IH]; intros p; simpl; [done|].
  rewrite IH, apply_rule_ignore_eq. destruct (starts_with_byte _ _); [|done].
  unfold allow_one. by destruct (rule_dirb r).
Qed.

Lemma apply_rules_callbacks p h : log_callbacks (apply_rules p h) = log_callbacks p.
Proof.
  unfold apply_rules. revert p. induction h as [|r h IH]; intros p; simpl; [done|].
  rewrite IH, apply_rule_ignore_eq. destruct (starts_with_byte _ _); [|done].
  unfold allow_one. by destruct (rule_dirb r).
Qed.

(** A policy without path rules. *)
Definition no_rules (p : policy) : Prop := file_access p = ∅ ∧ dir_access p = ∅.

Lemma rule_hits_names dir cs x r :
  Forall (plain_name slash) cs → cs ≠ [] →
  rule_hits dir (render slash cs) x r ↔
  rule_dirb r = dir ∧ names slash (rule_path r) cs ∧ rule_gives r x.
Proof.
  intros Hc Hn. unfold rule_hits. rewrite rule_access_spec, strip_names by done.
  split; [naive_solver|]. intros (? & Hp & ?). split_and!; try done.
  by eapply names_slash.
Qed.

Lemma granted_rights h p path cs x :
  no_rules p → canonical cs → names slash path cs →
  has (get_filepath_allowed_access slash (apply_rules p h) path) x = true ↔ entitled h cs x.
Proof.
  intros [Hf Hd] Hc Hp. pose proof (canonical_plain cs Hc) as Hpl.
  destruct Hc as [Hn _].
  rewrite allowed_access_has by done.
  rewrite apply_rules_file, Hf.
  setoid_rewrite apply_rules_dir. rewrite Hd.
  assert (∀ k, map_has ∅ k x ↔ False) as Hem.
  { intros k. unfold map_has. setoid_rewrite lookup_empty. naive_solver. }
  setoid_rewrite Hem. unfold entitled, covers. split.
  - intros [[[]|(r & Hr & Hh)]|(anc & rest & E & Ha & [[]|(r & Hr & Hh)])].
    + rewrite rule_hits_names in Hh by done. destruct Hh as (H1 & H2 & H3).
      exists r. split; [done|]. split; [|done]. left. split; [|done].
      rewrite <-rule_dirb_spec. by rewrite H1.
    + assert (Forall (plain_name slash) anc) as Hanc
        by (rewrite E in Hpl; by apply Forall_app in Hpl as [? _]).
      rewrite rule_hits_names in Hh by done. destruct Hh as (H1 & H2 & H3).
      exists r. split; [done|]. split; [|done]. right. split; [by apply rule_dirb_spec|].
      eauto.
  - intros (r & Hr & [[H1 H2]|[H1 (anc & rest & E & Ha & H2)]] & H3).
    + left. right. exists r. split; [done|]. apply rule_hits_names; [done|done|].
      split; [|done]. apply not_true_iff_false. by rewrite rule_dirb_spec.
    + right. exists anc, rest. split_and!; [done|done|]. right. exists r. split; [done|].
      apply rule_hits_names; [|done|].
      * rewrite E in Hpl. by apply Forall_app in Hpl as [? _].
      * split; [by apply rule_dirb_spec|done].
Qed.

Lemma names_inj path cs cs' :
  canonical cs → canonical cs' → names slash path cs → names slash path cs' → cs = cs'.
Proof.
  intros H1 H2 E1 E2. pose proof (canonical_plain _ H1). pose proof (canonical_plain _ H2).
  apply (render_inj slash); [done|done|].
  rewrite <-strip_names in E1 by done. rewrite <-strip_names in E2 by done. congruence.
Qed.

Theorem check_file_open_granted h p path flags :
  no_rules p →
  check_file_open (apply_rules p h) path flags = Granted ↔ should_grant h path flags.
Proof.
  intros Hp. unfold check_file_open, should_grant.
  destruct (Z.land flags (Z.lnot SUPPORTED_FILE_OPEN_FLAGS) =? 0) eqn:Es; simpl.
  2:{ split; [done|]. intros [H _]. apply supported_spec in H.
      rewrite H in Es. done. }
  apply Z.eqb_eq in Es. rewrite supported_spec in Es.
  destruct (path_is_sane path) eqn:Ep; simpl.
  2:{ split; [done|]. intros (_ & cs & H1 & H2 & _).
      apply not_true_iff_false in Ep. exfalso. apply Ep. apply path_is_sane_spec. eauto. }
  apply path_is_sane_spec in Ep as (cs & Hc & Hn).
  pose proof (granted_rights h p path cs RRead Hp Hc Hn) as HR.
  pose proof (granted_rights h p path cs RWrite Hp Hc Hn) as HW.
  pose proof (requests_read_spec flags) as HRR.
  pose proof (requests_write_spec flags) as HRW.
  simpl in HR, HW.
  set (a := get_filepath_allowed_access slash (apply_rules p h) path) in *.
  assert ((entitled h cs RRead ∨ entitled h cs RWrite) ∧
          (needs_read flags → entitled h cs RRead) ∧
          (needs_write flags → entitled h cs RWrite) ↔
          ∃ cs, canonical cs ∧ names slash path cs ∧
            (entitled h cs RRead ∨ entitled h cs RWrite) ∧
            (needs_read flags → entitled h cs RRead) ∧
            (needs_write flags → entitled h cs RWrite)) as Hex.
  { split; [by eauto 10|]. intros (cs' & H1 & H2 & H3).
    assert (cs' = cs) as -> by (by eapply names_inj). done. }
  rewrite <-Hex. rewrite <-HR, <-HW, <-HRR, <-HRW.
  destruct (a_read a), (a_write a), (requests_read (effective_flags flags)),
    (requests_write (effective_flags flags)); simpl; naive_solver.
Qed.

Theorem check_file_open_canonical p path flags :
  check_file_open p path flags = Granted → ∃ cs, canonical cs ∧ names slash path cs.
Proof.
  unfold check_file_open. destruct (negb (_ =? 0)); [done|].
  destruct (path_is_sane path) eqn:E; [|done]. intros _. by apply path_is_sane_spec.
Qed.

Theorem check_file_open_supported p path flags :
  check_file_open p path flags = Granted → supported_flags flags.
Proof.
  unfold check_file_open.
  destruct (Z.land flags (Z.lnot SUPPORTED_FILE_OPEN_FLAGS) =? 0) eqn:E; simpl; [|done].
  intros _. apply supported_spec. by apply Z.eqb_eq.
Qed.

(** Kernel meaning against what the library asks. *)
Lemma accmode_bits flags :
  accmode flags = (if Z.testbit flags 0 then 1 else 0) + (if Z.testbit flags 1 then 2 else 0).
Proof.
  unfold accmode. change 4 with (2 ^ 2). rewrite <-(Z.land_ones flags 2) by lia.
  apply Z.bits_inj'. intros n Hn. rewrite Z.land_spec.
  destruct (decide (n = 0)) as [->|]; [|destruct (decide (n = 1)) as [->|]].
  - rewrite Z.ones_spec_low by lia. rewrite andb_true_r.
    by destruct (Z.testbit flags 0), (Z.testbit flags 1).
  - rewrite Z.ones_spec_low by lia. rewrite andb_true_r.
    by destruct (Z.testbit flags 0), (Z.testbit flags 1).
  - rewrite Z.ones_spec_high by lia. rewrite andb_false_r. symmetry.
    apply Z.bits_above_log2.
    + by destruct (Z.testbit flags 0), (Z.testbit flags 1).
    + destruct (Z.testbit flags 0), (Z.testbit flags 1); simpl; lia.
Qed.

Lemma kernel_read_needs flags : kernel_can_read flags → needs_read flags.
Proof.
  intros [H1 H2]. split; [done|]. unfold bit. rewrite accmode_bits in H2. intros E.
  rewrite E in H2. destruct (Z.testbit flags 1); lia.
Qed.

Lemma kernel_modify_needs flags : kernel_can_modify flags → needs_write flags.
Proof.
  intros [H1 H2]. split; [done|]. unfold bit in *. rewrite accmode_bits in H2.
  destruct (Z.testbit flags 0), (Z.testbit flags 1); try (by auto).
  destruct H2 as [?|[?|[?|?]]]; [lia|lia|by auto|by auto 10].
Qed.

(** Histories of API calls. *)
Lemma apply_rule_ignore_frame p r :
  log_callbacks (apply_rule_ignore p r) = log_callbacks p ∧
  inherit_handles (apply_rule_ignore p r) = inherit_handles p ∧
  audit_only (apply_rule_ignore p r) = audit_only p ∧
  regkey_access (apply_rule_ignore p r) = regkey_access p.
Proof.
  rewrite apply_rule_ignore_eq. destruct (starts_with_byte _ _); [|done].
  unfold allow_one. by destruct (rule_dirb r).
Qed.

Lemma apply_rule_ignore_maps p q r :
  file_access p = file_access q → dir_access p = dir_access q →
  file_access (apply_rule_ignore p r) = file_access (apply_rule_ignore q r) ∧
  dir_access (apply_rule_ignore p r) = dir_access (apply_rule_ignore q r).
Proof.
  intros H1 H2. rewrite !apply_rule_ignore_eq. destruct (starts_with_byte _ _); [|done].
  unfold allow_one. destruct (rule_dirb r); simpl; split; congruence.
Qed.

Lemma apply_calls_maps p q calls :
  file_access p = file_access q → dir_access p = dir_access q →
  file_access (foldl apply_call_ignore p calls) =
    file_access (apply_rules q (rules_of calls)) ∧
  dir_access (foldl apply_call_ignore p calls) =
    dir_access (apply_rules q (rules_of calls)).
Proof.
  revert p q. induction calls as [|c calls IH]; intros p q H1 H2; simpl; [done|].
  destruct c as [r|cb|raw inh]; simpl.
  - unfold apply_rules. simpl. unfold apply_rules in IH.
    change (apply_call_ignore p (CallRule r)) with (apply_rule_ignore p r).
    apply IH; by apply apply_rule_ignore_maps.
  - apply IH; done.
  - apply IH.
    + unfold apply_call_ignore, apply_call, allow_inherit_handle.
      destruct inh as [[]|]; done.
    + unfold apply_call_ignore, apply_call, allow_inherit_handle.
      destruct inh as [[]|]; done.
Qed.

Lemma build_maps audit calls :
  file_access (build audit calls) = file_access (apply_rules nothing_allowed (rules_of calls)) ∧
  dir_access (build audit calls) = dir_access (apply_rules nothing_allowed (rules_of calls)).
Proof. apply apply_calls_maps; by destruct audit. Qed.

Lemma apply_call_ignore_audit p c : audit_only (apply_call_ignore p c) = audit_only p.
Proof.
  destruct c as [r|cb|raw inh].
  - change (apply_call_ignore p (CallRule r)) with (apply_rule_ignore p r).
    apply apply_rule_ignore_frame.
  - done.
  - unfold apply_call_ignore, apply_call, allow_inherit_handle. by destruct inh as [[]|].
Qed.

Lemma build_audit audit calls : audit_only (build audit calls) = audit.
Proof.
  unfold build. assert (audit_only (initial_policy audit) = audit) as H by (by destruct audit).
  revert H. generalize (initial_policy audit) as p.
  induction calls as [|c calls IH]; intros p H; simpl; [done|].
  apply IH. by rewrite apply_call_ignore_audit.
Qed.

Lemma build_callbacks audit calls : log_callbacks (build audit calls) = callbacks_of calls.
Proof.
  unfold build.
  assert (∀ p, log_callbacks (foldl apply_call_ignore p calls) =
    log_callbacks p ++ callbacks_of calls) as H.
  { induction calls as [|c calls IH]; intros p; simpl; [by rewrite app_nil_r|].
    rewrite IH. destruct c as [r|cb|raw inh]; simpl.
    - change (apply_call_ignore p (CallRule r)) with (apply_rule_ignore p r).
      destruct (apply_rule_ignore_frame p r) as (-> & _). done.
    - by rewrite <-app_assoc.
    - unfold apply_call_ignore, apply_call, allow_inherit_handle. by destruct inh as [[]|]. }
  rewrite H. by destruct audit.
Qed.

Lemma build_handles audit calls raw :
  raw ∈ inherit_handles (build audit calls) ↔ accepted_handle calls raw.
Proof.
  unfold build, accepted_handle.
  assert (∀ p, raw ∈ inherit_handles (foldl apply_call_ignore p calls) ↔
    raw ∈ inherit_handles p ∨ CallInherit raw (Ok true) ∈ calls) as H.
  { induction calls as [|c calls IH]; intros p; simpl.
    { rewrite elem_of_nil. tauto. }
    rewrite IH, elem_of_cons. destruct c as [r|cb|raw' inh]; simpl.
    - change (apply_call_ignore p (CallRule r)) with (apply_rule_ignore p r).
      destruct (apply_rule_ignore_frame p r) as (_ & -> & _). naive_solver.
    - naive_solver.
    - unfold apply_call_ignore, apply_call, allow_inherit_handle.
      destruct inh as [[]|]; simpl; set_solver. }
  rewrite H. destruct audit; simpl; set_solver.
Qed.

Lemma check_file_open_maps p q path flags :
  get_filepath_allowed_access slash p path = get_filepath_allowed_access slash q path →
  check_file_open p path flags = check_file_open q path flags.
Proof. intros H. unfold check_file_open. by rewrite H. Qed.

Lemma allowed_access_maps sep p q path :
  file_access p = file_access q → dir_access p = dir_access q →
  get_filepath_allowed_access sep p path = get_filepath_allowed_access sep q path.
Proof. intros H1 H2. unfold get_filepath_allowed_access. by rewrite H1, H2. Qed.

Lemma no_rules_nothing : no_rules nothing_allowed.
Proof. done. Qed.

Lemma build_check audit calls path flags :
  check_file_open (build audit calls) path flags =
  check_file_open (apply_rules nothing_allowed (rules_of calls)) path flags.
Proof. apply check_file_open_maps, allowed_access_maps; apply build_maps. Qed.

Lemma build_granted audit calls path flags :
  check_file_open (build audit calls) path flags = Granted ↔
  should_grant (rules_of calls) path flags.
Proof. rewrite build_check. apply check_file_open_granted, no_rules_nothing. Qed.

Lemma evaluate_enforcing calls req :
  fst (evaluate_request (build false calls) req) = raw_verdict (build false calls) req.
Proof. unfold evaluate_request. simpl. by rewrite build_audit. Qed.

Lemma entitled_nil cs x : ¬ entitled [] cs x.
Proof. intros (r & H & _). by apply elem_of_nil in H. Qed.

Lemma entitled_mono h h' cs x : (∀ r, r ∈ h → r ∈ h') → entitled h cs x → entitled h' cs x.
Proof. intros H (r & Hr & ?). exists r. split; [auto|done]. Qed.

Lemma should_grant_mono h h' path flags :
  (∀ r, r ∈ h → r ∈ h') → should_grant h path flags → should_grant h' path flags.
Proof.
  intros H (H1 & cs & H2 & H3 & H4 & H5 & H6). split; [done|]. exists cs.
  assert (∀ x, entitled h cs x → entitled h' cs x) as Hm by (intros x; by apply entitled_mono).
  split_and!; try done; try tauto.
  - destruct H4; [left|right]; by apply Hm.
  - intros ?. apply Hm. tauto.
  - intros ?. apply Hm. tauto.
Qed.

(** The verdict depends on the rules as a set. *)
Lemma check_same_rules h h' path flags :
  (∀ cs x, canonical cs → names slash path cs → entitled h cs x ↔ entitled h' cs x) →
  check_file_open (apply_rules nothing_allowed h) path flags =
  check_file_open (apply_rules nothing_allowed h') path flags.
Proof.
  intros H. unfold check_file_open.
  destruct (negb (Z.land _ _ =? 0)); [done|].
  destruct (path_is_sane path) eqn:Ep; [|done]. simpl.
  apply path_is_sane_spec in Ep as (cs & Hc & Hn).
  assert (get_filepath_allowed_access slash (apply_rules nothing_allowed h) path =
          get_filepath_allowed_access slash (apply_rules nothing_allowed h') path) as ->;
    [|done].
  apply access_ext. intros x. apply eq_bool_prop_intro. rewrite !Is_true_true.
  rewrite !(granted_rights _ nothing_allowed path cs x no_rules_nothing Hc Hn). auto.
Qed.

Lemma verdict_same_rules calls calls' req :
  (∀ path flags cs x, req = FileOpen path flags → canonical cs → names slash path cs →
     entitled (rules_of calls) cs x ↔ entitled (rules_of calls') cs x) →
  fst (evaluate_request (build false calls) req) = fst (evaluate_request (build false calls') req).
Proof.
  intros H. rewrite !evaluate_enforcing. destruct req as [path flags|]; simpl; [|done].
  rewrite !build_check. apply check_same_rules. intros. by eapply H.
Qed.

Lemma rules_of_app a b : rules_of (a ++ b) = rules_of a ++ rules_of b.
Proof. unfold rules_of. by rewrite omap_app. Qed.

Lemma elem_rules_of calls r : r ∈ rules_of calls ↔ CallRule r ∈ calls.
Proof.
  unfold rules_of. rewrite elem_of_list_omap. split.
  - intros (c & Hc & E). destruct c; naive_solver.
  - intros H. eauto.
Qed.
