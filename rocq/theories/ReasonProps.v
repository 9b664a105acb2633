(** Property C82: the reason given with a refusal is true. *)
From stdpp Require Import prelude gmap.
From Coq Require Import Strings.Byte.
From Verif Require Import Bytes BytesProofs PolicyModel PolicySpec PolicyProofs
  LinuxPolicyModel LinuxPolicySpec LinuxPolicyProofs WinPolicyModel WinPolicySpec
  WinPolicyProofs WinPolicyProps.
Local Open Scope Z_scope.

(* ---------------------------------------------------------------- specification *)

(** The words for what was asked: reading [r] and writing [w]. *)
Definition asked_words (both : str) (r w : Prop) (s : str) : Prop :=
  (r ∧ w ∧ s = both) ∨ (r ∧ ¬ w ∧ s = lit "read-only") ∨ (¬ r ∧ w ∧ s = lit "write-only") ∨
  (¬ r ∧ ¬ w ∧ s = lit "read or write").
(** The words for what the rules give. *)
Definition held_words (r w : Prop) (s : str) : Prop :=
  (r ∧ ¬ w ∧ s = lit "can only read") ∨ (¬ r ∧ w ∧ s = lit "can only write") ∨
  (¬ r ∧ ¬ w ∧ s = lit "has no access to that path").

Definition hex_digit (d : N) : byte := default x00 (lit "0123456789ABCDEF" !! N.to_nat d).
(** [s] is [n] in upper-case hexadecimal without leading zeroes. *)
Definition hex_text (s : str) (n : N) : Prop :=
  ∃ ds, s = map hex_digit ds ∧ ds ≠ [] ∧ Forall (λ d, d < 16)%N ds ∧
    foldl (λ a d, a * 16 + d)%N 0%N ds = n ∧ (head ds = Some 0%N → ds = [0%N]).
(** [n] has exactly the bits of the 32-bit word [w] that are not in [l]. *)
Definition other_bits (l : list Z) (w : Z) (n : N) : Prop :=
  ∀ k, 0 ≤ k → Z.testbit (Z.of_N n) k = true ↔ (k < 32 ∧ bit w k ∧ k ∉ l).

(* ---------------------------------------------------------------- lemmas *)

Lemma hex_digit_eq d : (d < 16)%N → digit d = hex_digit d.
Proof.
  intros H.
  assert (d = 0 ∨ d = 1 ∨ d = 2 ∨ d = 3 ∨ d = 4 ∨ d = 5 ∨ d = 6 ∨ d = 7 ∨ d = 8 ∨ d = 9 ∨
    d = 10 ∨ d = 11 ∨ d = 12 ∨ d = 13 ∨ d = 14 ∨ d = 15)%N as Hd by lia.
  repeat destruct Hd as [->|Hd]; [by vm_compute..|]. subst d. by vm_compute.
Qed.

Lemma digits_aux_hex fuel : ∀ n acc,
  (0 < n)%N → (n < 2 ^ N.of_nat fuel)%N →
  ∃ ds, digits_aux fuel 16 n acc = map hex_digit ds ++ acc ∧ ds ≠ [] ∧
    Forall (λ d, d < 16)%N ds ∧ foldl (λ a d, a * 16 + d)%N 0%N ds = n ∧ head ds ≠ Some 0%N.
Proof.
  induction fuel as [|fuel IH]; intros n acc H0 Hn.
  { change (2 ^ N.of_nat 0)%N with 1%N in Hn. lia. }
  cbn [digits_aux]. destruct (n <? 16)%N eqn:E.
  - apply N.ltb_lt in E. exists [n]. rewrite N.mod_small by lia. cbn [map app].
    rewrite hex_digit_eq by lia. split_and!; try done.
    + by repeat constructor.
    + simpl. intros [= ->]. lia.
  - apply N.ltb_ge in E.
    assert (n mod 16 < 16)%N by (apply N.mod_lt; lia).
    destruct (IH (n / 16)%N (digit (n mod 16) :: acc)) as (ds & E1 & H1 & H2 & H3 & H4).
    { apply N.div_str_pos. lia. }
    { rewrite Nat2N.inj_succ, N.pow_succ_r' in Hn. apply N.div_lt_upper_bound; [lia|]. lia. }
    exists (ds ++ [n mod 16]%N). rewrite E1, map_app, hex_digit_eq by done. split_and!.
    + rewrite <-app_assoc. done.
    + by destruct ds.
    + apply Forall_app. split; [done|]. by repeat constructor.
    + rewrite foldl_app, H3. cbn [foldl]. pose proof (N.div_mod' n 16). lia.
    + by destruct ds.
Qed.

Lemma digits_hex n : hex_text (digits 16 n) n.
Proof.
  unfold digits. destruct (decide (n = 0%N)) as [->|Hn].
  { exists [0%N]. split_and!; try done. by repeat constructor. }
  destruct (digits_aux_hex (S (N.to_nat (N.log2 n))) n []) as (ds & E & H1 & H2 & H3 & H4).
  { lia. }
  { rewrite Nat2N.inj_succ, N2Nat.id. apply N.log2_spec. lia. }
  rewrite app_nil_r in E. exists ds. by rewrite E.
Qed.

Lemma other_bits_land m l w :
  0 ≤ m < 2 ^ 32 → bits_of m = l →
  other_bits l w (Z.to_N (Z.land w (Z.lnot m) mod 2 ^ 32)).
Proof.
  intros Hm <- k Hk. rewrite Z2N.id by (apply Z.mod_pos_bound; lia).
  destruct (Z.lt_ge_cases k 32) as [Hlt|Hge].
  - rewrite Z.mod_pow2_bits_low by lia. rewrite Z.land_spec, Z.lnot_spec by lia.
    rewrite andb_true_iff, negb_true_iff, <-not_true_iff_false, (testbit_bits_of m) by done.
    unfold bit. tauto.
  - rewrite Z.mod_pow2_bits_high by lia. split; [done|lia].
Qed.

Lemma asked_words_spec both (rr rw : bool) (r w : Prop) :
  (rr = true ↔ r) → (rw = true ↔ w) →
  asked_words both r w
    (if rr && rw then both else if rr then lit "read-only" else if rw then lit "write-only"
     else lit "read or write").
Proof.
  unfold asked_words. intros Hr Hw.
  destruct rr, rw; cbn [andb]; [left|right; left|right; right; left|right; right; right]; naive_solver.
Qed.

Lemma held_words_spec (cr cw : bool) (r w : Prop) :
  (cr = true ↔ r) → (cw = true ↔ w) → ¬ (r ∧ w) →
  held_words r w (if cr then lit "can only read" else if cw then lit "can only write"
                  else lit "has no access to that path").
Proof.
  unfold held_words. intros Hr Hw Hn. destruct cr, cw; naive_solver.
Qed.

Lemma asked_words_fun both r w s s' :
  asked_words both r w s → asked_words both r w s' → s = s'.
Proof. unfold asked_words. naive_solver. Qed.
Lemma held_words_fun r w s s' : held_words r w s → held_words r w s' → s = s'.
Proof. unfold held_words. naive_solver. Qed.

(* ---------------------------------------------------------------- C82, Linux *)

Definition reason_text (asked held : str) : str :=
  lit "requests " ++ asked ++ lit " access, but " ++ held.

Lemma linux_rights calls path cs x :
  canonical cs → names slash path cs →
  has (get_filepath_allowed_access slash (build false calls) path) x = true ↔
  entitled (rules_of calls) cs x.
Proof.
  intros Hc Hp.
  rewrite <-(granted_rights (rules_of calls) nothing_allowed path cs x) by done.
  destruct (build_maps false calls) as [E1 E2].
  unfold get_filepath_allowed_access. by rewrite E1, E2.
Qed.

(** A refusal by the rules: exactly for supported requests with a canonical path that the
    rules do not allow, and the text says what was asked and what the rules give. *)
Theorem C82_linux_denied calls path flags why :
  (evaluate_request (build false calls) (FileOpen path flags)).1 = DeniedByPolicy why ↔
  supported_flags flags ∧ ¬ should_grant (rules_of calls) path flags ∧
  ∃ cs asked held, canonical cs ∧ names slash path cs ∧
    asked_words (lit "read-write") (needs_read flags) (needs_write flags) asked ∧
    held_words (entitled (rules_of calls) cs RRead) (entitled (rules_of calls) cs RWrite) held ∧
    why = reason_text asked held.
Proof.
  rewrite evaluate_enforcing. cbn [raw_verdict]. rewrite <-(build_granted false).
  cbn [raw_verdict]. unfold check_file_open. cbv zeta.
  destruct (Z.land flags (Z.lnot SUPPORTED_FILE_OPEN_FLAGS) =? 0) eqn:Es; cbn [negb].
  2:{ split; [done|]. intros [H _]. apply supported_spec in H. rewrite H in Es. done. }
  apply Z.eqb_eq, supported_spec in Es.
  destruct (path_is_sane path) eqn:Ep; cbn [negb].
  2:{ split; [done|]. intros (_ & _ & cs & _ & _ & Hc & Hn & _).
      rewrite (proj2 (path_is_sane_spec path)) in Ep by eauto. done. }
  apply path_is_sane_spec in Ep as (cs & Hc & Hn).
  pose proof (linux_rights calls path cs RRead Hc Hn) as HR. cbn [has] in HR.
  pose proof (linux_rights calls path cs RWrite Hc Hn) as HW. cbn [has] in HW.
  pose proof (requests_read_spec flags) as QR. pose proof (requests_write_spec flags) as QW.
  set (a := get_filepath_allowed_access slash (build false calls) path) in *.
  set (rr := requests_read (effective_flags flags)) in *.
  set (rw := requests_write (effective_flags flags)) in *.
  destruct (negb (a_read a || a_write a) || (rr && negb (a_read a)) || (rw && negb (a_write a)))
    eqn:E.
  2:{ split; [done|]. intros (_ & H & _). by destruct H. }
  assert (¬ (entitled (rules_of calls) cs RRead ∧ entitled (rules_of calls) cs RWrite)) as Hnot.
  { rewrite <-HR, <-HW. intros [E1 E2]. rewrite E1, E2 in E. by destruct rr, rw. }
  pose proof (asked_words_spec (lit "read-write") rr rw _ _ QR QW) as HA.
  pose proof (held_words_spec _ _ _ _ HR HW Hnot) as HH.
  split.
  - intros [= <-]. split_and!; [done|done|]. eexists cs, _, _. split_and!; [done|done|exact HA|exact HH|].
    done.
  - intros (_ & _ & cs' & asked & held & Hc' & Hn' & HA' & HH' & ->).
    assert (cs' = cs) as -> by (by eapply names_inj).
    rewrite (asked_words_fun _ _ _ _ _ HA' HA), (held_words_fun _ _ _ _ HH' HH). done.
Qed.
Print Assumptions C82_linux_denied.

(** Unsupported flags: the text names exactly the bits that are not supported. *)
Theorem C82_linux_unsupported calls path flags why :
  (evaluate_request (build false calls) (FileOpen path flags)).1 =
    DelegationToSandboxNotSupported why ↔
  ¬ supported_flags flags ∧
  ∃ h n, hex_text h n ∧ other_bits [0; 1; 6; 7; 9; 10; 16; 19; 21] flags n ∧
    why = lit "open flag 0x" ++ h ++ lit " not supported".
Proof.
  assert (∀ n n', other_bits [0; 1; 6; 7; 9; 10; 16; 19; 21] flags n →
    other_bits [0; 1; 6; 7; 9; 10; 16; 19; 21] flags n' → n = n') as Hfun.
  { intros n n' H1 H2. apply N2Z.inj. apply Z.bits_inj'. intros k Hk.
    apply eq_true_iff_eq. rewrite (H1 k Hk), (H2 k Hk). done. }
  assert (∀ h h' n, hex_text h n → hex_text h' n → h = h') as Hhex.
  { assert (∀ ds n, Forall (λ d, d < 16)%N ds →
      foldl (λ a d, a * 16 + d)%N n ds = (n * 16 ^ N.of_nat (length ds) +
        foldl (λ a d, a * 16 + d)%N 0%N ds)%N ∧
      (foldl (λ a d, a * 16 + d)%N 0%N ds < 16 ^ N.of_nat (length ds))%N) as Hval.
    { induction ds as [|d ds IH]; intros n Hd.
      - change (16 ^ N.of_nat (length (@nil N)))%N with 1%N. cbn [foldl]. lia.
      - apply Forall_cons in Hd as [Hd Hds]. cbn [foldl length].
        rewrite Nat2N.inj_succ, N.pow_succ_r'.
        destruct (IH (n * 16 + d)%N Hds) as [E1 E2]. destruct (IH (0 * 16 + d)%N Hds) as [E3 _].
        rewrite E1, E3. set (P := (16 ^ N.of_nat (length ds))%N) in *. clearbody P.
        set (F := foldl _ _ _) in *. clearbody F. split; [lia|]. nia. }
    assert (∀ ds ds', Forall (λ d, d < 16)%N ds → Forall (λ d, d < 16)%N ds' →
      length ds = length ds' →
      foldl (λ a d, a * 16 + d)%N 0%N ds = foldl (λ a d, a * 16 + d)%N 0%N ds' → ds = ds') as Hsame.
    { induction ds as [|d ds IH]; intros [|d' ds'] H1 H2 Hl E; [done|done|done|].
      apply Forall_cons in H1 as [H1 H1']. apply Forall_cons in H2 as [H2 H2'].
      cbn [foldl] in E. cbn [length] in Hl. injection Hl as Hl.
      destruct (Hval ds (0 * 16 + d)%N H1') as [E1 B1].
      destruct (Hval ds' (0 * 16 + d')%N H2') as [E2 B2].
      rewrite E1, E2, <-Hl in E. rewrite <-Hl in B2.
      set (P := (16 ^ N.of_nat (length ds))%N) in *. clearbody P.
      assert (d = d') as -> by nia. f_equal. apply IH; try done. nia. }
    assert (∀ ds d, Forall (λ d, d < 16)%N (d :: ds) → d ≠ 0%N →
      (16 ^ N.of_nat (length ds) ≤ foldl (λ a d, a * 16 + d) 0 (d :: ds))%N) as Hlow.
    { intros ds d Hd Hne. apply Forall_cons in Hd as [_ Hd]. cbn [foldl].
      destruct (Hval ds (0 * 16 + d)%N Hd) as [-> _].
      set (P := (16 ^ N.of_nat (length ds))%N) in *. clearbody P. nia. }
    assert (∀ ds n, ds ≠ [] → Forall (λ d, d < 16)%N ds →
      foldl (λ a d, a * 16 + d)%N 0%N ds = n → (head ds = Some 0%N → ds = [0%N]) →
      length ds = S (N.to_nat (N.log2 n / 4))) as Hlen.
    { intros [|d ds] n Hne Hd E Hz; [done|].
      destruct (decide (d = 0%N)) as [->|Hd0].
      { destruct ds; [|by specialize (Hz eq_refl)]. cbn [foldl] in E. subst n. done. }
      pose proof (Hlow ds d Hd Hd0) as HL. pose proof (proj2 (Hval (d :: ds) 0%N Hd)) as HU.
      rewrite E in HL, HU. cbn [length] in *. f_equal.
      assert (N.log2 n / 4 = N.of_nat (length ds))%N as ->; [|by rewrite Nat2N.id].
      rewrite Nat2N.inj_succ in HU.
      assert (∀ k, 16 ^ k = 2 ^ (4 * k))%N as Hp by (intros k; by rewrite N.pow_mul_r).
      rewrite Hp in HL, HU.
      assert (4 * N.of_nat (length ds) ≤ N.log2 n)%N.
      { rewrite <-(N.log2_pow2 (4 * N.of_nat (length ds))) by lia. by apply N.log2_le_mono. }
      assert (N.log2 n < 4 * N.succ (N.of_nat (length ds)))%N.
      { apply N.log2_lt_pow2; [|done]. assert (0 < 2 ^ (4 * N.of_nat (length ds)))%N
          by (apply N.neq_0_lt_0, N.pow_nonzero; done). lia. }
      symmetry. apply (N.div_unique _ _ _ (N.log2 n - 4 * N.of_nat (length ds))); lia. }
    intros h h' n (ds & -> & H1 & H2 & H3 & H4) (ds' & -> & H1' & H2' & H3' & H4').
    f_equal. apply Hsame; [done|done| |by rewrite H3, H3'].
    by rewrite (Hlen ds n H1 H2 H3 H4), (Hlen ds' n H1' H2' H3' H4'). }
  rewrite evaluate_enforcing. cbn [raw_verdict]. unfold check_file_open. cbv zeta.
  rewrite <-supported_spec, <-Z.eqb_eq.
  pose proof (other_bits_land SUPPORTED_FILE_OPEN_FLAGS _ flags ltac:(by vm_compute) SUPPORTED_bits)
    as Hb.
  pose proof (digits_hex (Z.to_N (Z.land flags (Z.lnot SUPPORTED_FILE_OPEN_FLAGS) mod 2 ^ 32))) as Hd.
  unfold fmt_hex_i32.
  set (n0 := Z.to_N (Z.land flags (Z.lnot SUPPORTED_FILE_OPEN_FLAGS) mod 2 ^ 32)) in *. clearbody n0.
  set (u := Z.land flags (Z.lnot SUPPORTED_FILE_OPEN_FLAGS)) in *. clearbody u.
  destruct (u =? 0); cbn [negb].
  - split; [|by intros [[] _]]. destruct (path_is_sane path); cbn [negb]; [|done].
    by destruct (_ || _).
  - split.
    + intros [= <-]. split; [done|]. exists (digits 16 n0), n0. split_and!; [done|done|].
      reflexivity.
    + intros (_ & h & n & Hh & Hn & ->). rewrite (Hfun _ _ Hn Hb) in Hh.
      rewrite (Hhex _ _ _ Hh Hd). reflexivity.
Qed.
Print Assumptions C82_linux_unsupported.

Example C82_example :
  let calls := [CallRule (AllowDirRead (lit "/etc"))] in
  (evaluate_request (build false calls) (FileOpen (lit "/etc/passwd") 0x2)).1 =
    DeniedByPolicy (lit "requests read-write access, but can only read") ∧
  (evaluate_request (build false calls) (FileOpen (lit "/etc/passwd") 0x404001)).1 =
    DelegationToSandboxNotSupported (lit "open flag 0x404000 not supported").
Proof. split; by vm_compute. Qed.

(* ---------------------------------------------------------------- C82, Windows files *)

Definition word_if (P : Prop) (w s : str) : Prop := (P ∧ s = w) ∨ (¬ P ∧ s = []).
(** The sharing modes of [P], in words. *)
Definition lock_words (P : right → Prop) (s : str) : Prop :=
  ∃ a b c, word_if (P RBlockReaders) (lit " readers") a ∧
    word_if (P RBlockWriters) (lit " writers") b ∧
    word_if (P RBlockDeleters) (lit " deleters") c ∧ s = a ++ b ++ c.
Definition is_lock (x : right) : Prop :=
  match x with RRead | RWrite => False | _ => True end.
Definition held_lock_words (P : right → Prop) (s : str) : Prop :=
  ((∃ x, is_lock x ∧ P x) ∧ ∃ l, lock_words P l ∧ s = lit "can only block" ++ l) ∨
  ((∀ x, is_lock x → ¬ P x) ∧ s = lit "has no lock right").

(** The texts a refusal should have: nothing given at all; reading or writing missing;
    only a sharing mode missing. *)
Definition win_reason (needs given : right → Prop) (why : str) : Prop :=
  ((∀ x, ¬ given x) ∧ why = lit "has no access to that path") ∨
  ((∃ x, given x) ∧
   ((needs RRead ∧ ¬ given RRead) ∨ (needs RWrite ∧ ¬ given RWrite)) ∧
   ∃ asked held,
     asked_words (lit "read and write") (needs RRead) (needs RWrite) asked ∧
     held_words (given RRead) (given RWrite) held ∧
     why = lit "requests " ++ asked ++ lit ", but " ++ held) ∨
  ((∃ x, given x) ∧ (∀ x, ¬ is_lock x → needs x → given x) ∧
   (∃ x, is_lock x ∧ needs x ∧ ¬ given x) ∧
   ∃ asked held, lock_words needs asked ∧ held_lock_words given held ∧
     why = lit "requests to block other" ++ asked ++ lit " but " ++ held).

Lemma word_if_spec (b : bool) (P : Prop) w :
  (b = true ↔ P) → word_if P w (if b then w else []).
Proof. unfold word_if. destruct b; naive_solver. Qed.

Lemma lock_words_spec (P : right → Prop) (r w d : bool) :
  (r = true ↔ P RBlockReaders) → (w = true ↔ P RBlockWriters) → (d = true ↔ P RBlockDeleters) →
  lock_words P (block_words r w d).
Proof.
  intros Hr Hw Hd. eexists _, _, _.
  split; [by apply word_if_spec|]. split; [by apply word_if_spec|]. split; [by apply word_if_spec|].
  reflexivity.
Qed.

Lemma win_file_denied p f why (given : right → Prop) :
  (∀ x, has (get_filepath_allowed_access backslash p (fr_path f)) x = true ↔ given x) →
  win_check_file_open false p f = DeniedByPolicy why →
  file_supported f ∧ win_reason (file_needs f) given why.
Proof.
  intros Hg. unfold win_check_file_open. cbn [andb]. unfold file_supported.
  rewrite <-(only_bits_spec (ors [FILE_ALWAYS_GRANTED_RIGHTS; FILE_READ_RIGHTS; FILE_WRITE_RIGHTS])
    [0; 1; 2; 3; 4; 7; 8; 16; 17; 18; 19; 20; 28; 30; 31]) by (by vm_compute).
  rewrite <-(only_bits_spec SUPPORTED_FILE_ATTRIBUTES
    [7; 20; 25; 26; 27; 28; 29; 31]) by (by vm_compute).
  rewrite <-(land_one_bit _ FILE_FLAG_OPEN_REPARSE_POINT 21) by (by vm_compute).
  rewrite <-disposition_spec.
  destruct (Z.eqb_spec (Z.land (fr_access f)
    (Z.lnot (ors [FILE_ALWAYS_GRANTED_RIGHTS; FILE_READ_RIGHTS; FILE_WRITE_RIGHTS]))) 0)
    as [E1|E1]; cbn [negb]; [|done].
  destruct (Z.eqb_spec (Z.land (fr_attributes f) (Z.lnot SUPPORTED_FILE_ATTRIBUTES)) 0)
    as [E2|E2]; cbn [negb]; [|done].
  destruct (Z.land (fr_options f) FILE_FLAG_OPEN_REPARSE_POINT =? 0) eqn:E3; [done|].
  destruct (contains_z SUPPORTED_FILE_CREATE_DISPOSITIONS (fr_disposition f)) eqn:E4; cbn [negb];
    [|done].
  destruct (win_path_is_sane (fr_path f)) eqn:E5; cbn [negb]; [|done].
  intros H. split; [done|]. revert H.
  apply disposition_spec in E4.
  pose proof (requests_read_win f E4) as HR. pose proof (requests_write_win f) as HW.
  assert (∀ b n, 0 ≤ b < 2 ^ 32 → bits_of b = [n] →
    (Z.land (fr_share f) b =? 0) = true ↔ ¬ bit (fr_share f) n) as Hneg.
  { intros b n Hb1 Hb2. rewrite <-(land_one_bit (fr_share f) b n Hb1 Hb2), not_false_iff_true. done. }
  pose proof (Hneg FILE_SHARE_READ 0 ltac:(by vm_compute) ltac:(by vm_compute)) as H0.
  pose proof (Hneg FILE_SHARE_WRITE 1 ltac:(by vm_compute) ltac:(by vm_compute)) as H1.
  pose proof (Hneg FILE_SHARE_DELETE 2 ltac:(by vm_compute) ltac:(by vm_compute)) as H2.
  clear Hneg E1 E2 E3 E4 E5.
  set (a := get_filepath_allowed_access backslash p (fr_path f)) in *. clearbody a.
  set (br := Z.land (fr_share f) FILE_SHARE_READ =? 0) in *. clearbody br.
  set (bw := Z.land (fr_share f) FILE_SHARE_WRITE =? 0) in *. clearbody bw.
  set (bd := Z.land (fr_share f) FILE_SHARE_DELETE =? 0) in *. clearbody bd.
  set (rr := file_requests_read f) in *. clearbody rr.
  set (rw := file_requests_write f) in *. clearbody rw.
  change (file_needs_read f) with (file_needs f RRead) in HR.
  change (file_writes f) with (file_needs f RWrite) in HW.
  change (¬ bit (fr_share f) 0) with (file_needs f RBlockReaders) in H0.
  change (¬ bit (fr_share f) 1) with (file_needs f RBlockWriters) in H1.
  change (¬ bit (fr_share f) 2) with (file_needs f RBlockDeleters) in H2.
  pose proof (Hg RRead) as G1. pose proof (Hg RWrite) as G2. pose proof (Hg RBlockReaders) as G3.
  pose proof (Hg RBlockWriters) as G4. pose proof (Hg RBlockDeleters) as G5. cbn [has] in *.
  set (needs := file_needs f) in *. clearbody needs.
  assert ((∃ x, given x) ↔
    a_read a || a_write a || a_block_readers a || a_block_writers a || a_block_deleters a = true)
    as He.
  { rewrite !orb_true_iff, G1, G2, G3, G4, G5. split.
    - intros [[] H]; tauto.
    - intros [[[[H|H]|H]|H]|H]; eauto. }
  destruct (a_read a || a_write a || a_block_readers a || a_block_writers a || a_block_deleters a)
    eqn:Ea; cbn [negb].
  2:{ intros [= <-]. left. split; [|done]. intros x Hx.
      assert (false = true) by (apply He; eauto). done. }
  assert (∃ x, given x) as He' by (by apply He). clear He Ea.
  destruct ((rr && negb (a_read a)) || (rw && negb (a_write a))) eqn:E1.
  - intros [= <-]. right. left. split; [done|].
    apply orb_true_iff in E1. rewrite !andb_true_iff, !negb_true_iff, <-!not_true_iff_false in E1.
    rewrite <-HR, <-HW, <-G1, <-G2. split; [done|].
    eexists _, _. split; [by apply asked_words_spec|].
    split; [|reflexivity]. apply held_words_spec; [done|done|tauto].
  - apply orb_false_iff in E1 as [E1 E2].
    destruct ((br && negb (a_block_readers a)) || (bw && negb (a_block_writers a)) ||
              (bd && negb (a_block_deleters a))) eqn:E3; [|done].
    intros [= <-]. right. right. split; [done|]. split.
    { intros x Hl Hn. destruct x; try (by destruct Hl).
      - apply G1. apply HR in Hn. rewrite Hn in E1. by destruct (a_read a).
      - apply G2. apply HW in Hn. rewrite Hn in E2. by destruct (a_write a). }
    split.
    { rewrite !orb_true_iff, !andb_true_iff, !negb_true_iff, <-!not_true_iff_false in E3.
      rewrite H0, H1, H2, G3, G4, G5 in E3.
      destruct E3 as [[E3|E3]|E3]; [exists RBlockReaders|exists RBlockWriters|exists RBlockDeleters];
        done. }
    eexists _, _. split; [by apply lock_words_spec; [exact H0|exact H1|exact H2]|].
    split; [|reflexivity].
    unfold held_lock_words.
    destruct (a_block_readers a || a_block_writers a || a_block_deleters a) eqn:E4.
    + left. split.
      * rewrite !orb_true_iff, G3, G4, G5 in E4.
        destruct E4 as [[E4|E4]|E4]; [exists RBlockReaders|exists RBlockWriters|exists RBlockDeleters];
          done.
      * eexists. split; [|reflexivity]. by apply lock_words_spec.
    + right. split; [|done]. intros x Hl Hx. rewrite !orb_false_iff in E4.
      destruct E4 as [[E4 E5] E6].
      destruct x; try (by destruct Hl).
      * apply G3 in Hx. congruence.
      * apply G4 in Hx. congruence.
      * apply G5 in Hx. congruence.
Qed.

(** Release builds: the text of a refused file request. *)
Theorem C82_windows_file calls f cs why :
  well_formed cs → names backslash (fr_path f) cs →
  win_verdict false calls (WinFileOpen f) = DeniedByPolicy why →
  file_supported f ∧ win_reason (file_needs f) (win_entitled calls cs) why.
Proof.
  intros Hc Hn. unfold win_verdict. rewrite win_evaluate_enforcing. cbn [win_raw_verdict].
  apply win_file_denied. intros x. by apply win_rights.
Qed.
Print Assumptions C82_windows_file.

Example C82_windows_example :
  win_verdict false ex_calls
    (WinFileOpen (ex_req (lit "\??\C:\Windows\Temp\a.txt") 0x40000000 7 1 0x200000)) =
    DeniedByPolicy (lit "requests write-only, but can only read") ∧
  win_verdict false ex_calls
    (WinFileOpen (ex_req (lit "\??\C:\Windows\Temp\a.txt") 0x80000000 0 1 0x200000)) =
    DeniedByPolicy (lit "requests to block other readers writers deleters but can only block readers deleters").
Proof. split; by vm_compute. Qed.

(* ---------------------------------------------------------------- C82, registry *)

Definition C82_registry_full : Prop :=
  ∀ calls path cs desired options do_create why,
    Forall good_reg_call calls → well_formed cs → names backslash path cs →
    win_verdict false calls (WinRegKeyOpen path desired options do_create) = DeniedByPolicy why →
    ∃ asked held,
      asked_words (lit "read-write") (key_reads desired) (key_writes desired do_create) asked ∧
      held_words (reg_entitled calls cs RegRead) (reg_entitled calls cs RegWrite) held ∧
      why = reason_text asked held.

(** True of masks without notify, view, read-security and synchronise bits. *)
Theorem C82_registry_partial calls path cs desired options do_create why :
  Forall good_reg_call calls → well_formed cs → names backslash path cs →
  ¬ key_harmless desired →
  win_verdict false calls (WinRegKeyOpen path desired options do_create) = DeniedByPolicy why →
  ∃ asked held,
    asked_words (lit "read-write") (key_reads desired) (key_writes desired do_create) asked ∧
    held_words (reg_entitled calls cs RegRead) (reg_entitled calls cs RegWrite) held ∧
    why = reason_text asked held.
Proof.
  intros Hg Hc Hp Hh. unfold win_verdict. rewrite win_evaluate_enforcing. cbn [win_raw_verdict].
  pose proof (reg_rights false calls path cs RegRead Hg Hc Hp) as HR.
  pose proof (reg_rights false calls path cs RegWrite Hg Hc Hp) as HW.
  unfold check_reg_key_open. cbv zeta.
  destruct (negb _); [done|]. destruct (negb _); [done|].
  destruct (get_regkey_allowed_access (win_build false calls) path) as [cr cw].
  cbn [rhas fst snd] in HR, HW.
  assert (has_flag desired KEY_READ_RIGHTS = true ↔ key_reads desired) as QR.
  { rewrite (some_bit_spec KEY_READ_RIGHTS [0; 3; 4; 8; 9; 17; 20]) by (by vm_compute).
    unfold key_reads, key_harmless, some_bit in *. split.
    - intros (n & Hin & Hb). exists n. split; [|done].
      destruct (decide (n ∈ [0; 3])); [done|]. exfalso. apply Hh. exists n. split; [|done]. set_solver.
    - intros (n & Hin & Hb). exists n. split; [|done]. set_solver. }
  assert (has_flag desired KEY_WRITE_RIGHTS || do_create = true ↔ key_writes desired do_create) as QW.
  { rewrite orb_true_iff.
    rewrite (some_bit_spec KEY_WRITE_RIGHTS [1; 2; 4; 8; 9; 16; 17; 18; 19; 20]) by (by vm_compute).
    unfold key_writes, key_harmless, some_bit in *. split.
    - intros [(n & Hin & Hb)|?]; [|by right]. left. exists n. split; [|done].
      destruct (decide (n ∈ [1; 2; 16; 18; 19])); [done|]. exfalso. apply Hh. exists n.
      split; [|done]. set_solver.
    - intros [(n & Hin & Hb)|?]; [|by right]. left. exists n. split; [|done]. set_solver. }
  set (rr := has_flag desired KEY_READ_RIGHTS) in *. clearbody rr.
  set (rw := has_flag desired KEY_WRITE_RIGHTS || do_create) in *. clearbody rw.
  destruct (negb (cr || cw) || (rr && negb cr) || (rw && negb cw)) eqn:E; [|done].
  intros [= <-]. eexists _, _. split; [by apply asked_words_spec|]. split; [|reflexivity].
  apply held_words_spec; [done|done|]. rewrite <-HR, <-HW. intros [E1 E2].
  rewrite E1, E2 in E. by destruct rr, rw.
Qed.
Print Assumptions C82_registry_partial.

(** KEY_READ, a pure read mask, is reported as a read-write request. *)
Theorem C82_registry_refuted : ¬ C82_registry_full.
Proof.
  intros H.
  set (calls := [WinRegRead (lit "HKEY_USERS\a") (lit "S-1-5-18")]).
  destruct (H calls (lit "\REGISTRY\USER\a") [lit "REGISTRY"; lit "USER"; lit "a"] 0x20019 0 false
    (lit "requests read-write access, but can only read")) as (asked & held & Ha & Hh & E).
  - repeat constructor; [done|apply no_backslash; by vm_compute|]. intros _.
    exists (lit "HKEY_USERS"), [lit "REGISTRY"; lit "USER"], (lit "\a").
    split; [apply elem_of_list_further, elem_of_list_here|]. split; [done|]. right. eauto.
  - split; [done|]. repeat constructor; try done; apply no_backslash; by vm_compute.
  - by left.
  - vm_compute. reflexivity.
  - assert (¬ key_writes 0x20019 false) as Hw.
    { intros [(n & Hin & Hb)|?]; [|done]. rewrite !elem_of_cons, elem_of_nil in Hin.
      destruct Hin as [-> | [-> | [-> | [-> | [-> | []]]]]]; vm_compute in Hb; discriminate Hb. }
    assert (asked = lit "read-only" ∨ asked = lit "read or write") as Hs.
    { destruct Ha as [(_ & ? & _)|[(_ & _ & ->)|[(_ & ? & _)|(_ & _ & ->)]]]; [done|by left|done|by right]. }
    destruct Hs as [-> | ->]; unfold reason_text in E; simpl in E; discriminate E.
Qed.
Print Assumptions C82_registry_refuted.

Example C82_registry_example :
  win_verdict false [WinRegRead (lit "HKEY_USERS\a") (lit "S-1-5-18")]
    (WinRegKeyOpen (lit "\REGISTRY\USER\a") 0x2 0 false) =
  DeniedByPolicy (lit "requests write-only access, but can only read").
Proof. by vm_compute. Qed.
