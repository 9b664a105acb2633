(** Property C123: on i686 the large-file flag of open changes nothing. *)
From stdpp Require Import prelude gmap.
From Verif Require Import Bytes PolicyModel PolicySpec PolicyProofs LinuxPolicyModel
  LinuxPolicySpec LinuxPolicyProofs LinuxPolicyProps LargeFileModel.
Local Open Scope Z_scope.

(** The flags without bit 15. *)
Definition without_large (flags : Z) : Z := Z.clearbit flags 15.

Lemma without_large_bits flags n :
  0 ≤ n → Z.testbit (without_large flags) n = Z.testbit flags n && negb (n =? 15).
Proof.
  intros Hn. unfold without_large. rewrite Z.clearbit_eqb.
  by destruct (Z.eqb_spec 15 n), (Z.eqb_spec n 15); subst.
Qed.
Lemma land_without flags mask :
  Z.testbit mask 15 = false → Z.land (without_large flags) mask = Z.land flags mask.
Proof.
  intros Hm. apply Z.bits_inj'. intros n Hn. rewrite !Z.land_spec, without_large_bits by done.
  destruct (Z.eqb_spec n 15) as [-> |]; [by rewrite Hm, !andb_false_r|].
  by rewrite andb_true_r.
Qed.
Lemma effective_without flags mask :
  Z.testbit mask 15 = false →
  Z.land (effective_flags (without_large flags)) mask = Z.land (effective_flags flags) mask.
Proof.
  intros Hm. unfold effective_flags, has_flag. rewrite (land_without flags O_PATH) by done.
  destruct (negb _).
  - by rewrite (land_without flags (Z.lor _ _)) by done.
  - apply Z.bits_inj'. intros n Hn. rewrite !Z.land_spec, !Z.lor_spec, without_large_bits by done.
    destruct (Z.eqb_spec n 15) as [-> |]; [by rewrite Hm, !andb_false_r|].
    by rewrite andb_true_r.
Qed.

(** Requests are decided, down to the words of a refusal, as on x86_64 without the flag. *)
Theorem C123_as_without p path flags :
  fst (evaluate_request32 p (FileOpen path flags)) =
  fst (evaluate_request p (FileOpen path (without_large flags))).
Proof.
  unfold evaluate_request32, evaluate_request, raw_verdict. cbn [fst].
  destruct (audit_only p); [done|]. unfold check_file_open32, check_file_open.
  assert (Z.land (without_large flags) (Z.lnot SUPPORTED_FILE_OPEN_FLAGS) =
          Z.land flags (Z.lnot SUPPORTED_FILE_OPEN_FLAGS32)) as ->.
  { apply Z.bits_inj'. intros n Hn.
    rewrite !Z.land_spec, !Z.lnot_spec, without_large_bits by done.
    change SUPPORTED_FILE_OPEN_FLAGS32 with (Z.setbit SUPPORTED_FILE_OPEN_FLAGS 15).
    rewrite Z.setbit_eqb by lia.
    destruct (Z.eqb_spec 15 n), (Z.eqb_spec n 15); subst; try lia;
      by destruct (Z.testbit flags _), (Z.testbit SUPPORTED_FILE_OPEN_FLAGS _). }
  assert (requests_read (effective_flags (without_large flags)) =
          requests_read (effective_flags flags)) as ->.
  { unfold requests_read. by rewrite effective_without by done. }
  assert (requests_write (effective_flags (without_large flags)) =
          requests_write (effective_flags flags)) as ->.
  { unfold requests_write, has_flag. by rewrite !effective_without by done. }
  done.
Qed.
Print Assumptions C123_as_without.

(** The meaning of rules on i686: bit 15 is accepted and asks for nothing. *)
Theorem C123_exact_grant calls path flags :
  fst (evaluate_request32 (build false calls) (FileOpen path flags)) = Granted ↔
  (∀ n, 0 ≤ n → bit flags n → n ∈ [0; 1; 6; 7; 9; 10; 15; 16; 19; 21]) ∧
  ∃ cs, canonical cs ∧ names slash path cs ∧
    (entitled (rules_of calls) cs RRead ∨ entitled (rules_of calls) cs RWrite) ∧
    (needs_read flags → entitled (rules_of calls) cs RRead) ∧
    (needs_write flags → entitled (rules_of calls) cs RWrite).
Proof.
  rewrite C123_as_without.
  assert (∀ n, 0 ≤ n → n ≠ 15 → bit (without_large flags) n ↔ bit flags n) as Hb.
  { intros n Hn Hne. unfold bit. rewrite without_large_bits by done.
    destruct (Z.eqb_spec n 15); [done|]. by rewrite andb_true_r. }
  pose proof (C02_exact_grant calls path (without_large flags)) as H.
  rewrite H. unfold should_grant.
  match goal with |- (?a ∧ ?b) ↔ (?c ∧ ?d) =>
    assert (a ↔ c) as H1; [|assert (b ↔ d) as H2; [|by rewrite H1, H2]]
  end.
  - unfold supported_flags. split.
    + intros Hs n Hn Hf. destruct (decide (n = 15)) as [-> |Hne]; [set_solver|].
      apply Hb in Hf; [|done|done]. apply Hs in Hf; [|done]. set_solver.
    + intros Hs n Hn Hf. unfold bit in Hf. rewrite without_large_bits in Hf by done.
      apply andb_true_iff in Hf as [Hf Hne].
      specialize (Hs n Hn Hf). assert (n ≠ 15) by (by destruct (Z.eqb_spec n 15)). set_solver.
  - assert (needs_read (without_large flags) ↔ needs_read flags) as Hr.
    { unfold needs_read, path_only. by rewrite !Hb by lia. }
    assert (needs_write (without_large flags) ↔ needs_write flags) as Hw.
    { unfold needs_write, path_only. by rewrite !Hb by lia. }
    by setoid_rewrite Hr; setoid_rewrite Hw.
Qed.
Print Assumptions C123_exact_grant.

(** On x86_64 the same request is refused: bit 15 is no flag there, and 64-bit programs
    do not set it. *)
Example C123_example :
  let p := build false [CallRule (AllowDirRead (lit "/etc"))] in
  let flags := Z.lor O_RDONLY 32768 in
  fst (evaluate_request32 p (FileOpen (lit "/etc/passwd") flags)) = Granted ∧
  fst (evaluate_request p (FileOpen (lit "/etc/passwd") flags)) ≠ Granted ∧
  fst (evaluate_request32 p (FileOpen (lit "/etc/passwd") (Z.lor flags O_WRONLY))) ≠ Granted ∧
  fst (evaluate_request32 p (FileOpen (lit "/etc/passwd") (Z.lor flags 16384))) ≠ Granted.
Proof. by vm_compute. Qed.
