(** Properties C42 and C43: the audit prelude and its patching. *)
From stdpp Require Import prelude.
From Coq Require Import Strings.Byte.
From Verif Require Import Bytes BytesProofs PostcardModel BpfModel BpfProofs.
Local Open Scope N_scope.

(* ---------------------------------------------------------------- C42 *)

(** What the audit filter has to do: allow the site, else ask the filter. *)
Definition audited (site : N) (f : list insn) (d : sdata) : option N :=
  if decide (sd_ip d = site) then Some SECCOMP_RET_ALLOW else bpf_run f d.

(** Full statement of C42. It is false, see [C42_refuted]. *)
Definition C42_full : Prop := ∀ f d,
  sd_ip d < 2 ^ 64 →
  bpf_run (audit_prelude IPC_SECCOMP_CALL_SITE_PLACEHOLDER ++ f) d =
    audited IPC_SECCOMP_CALL_SITE_PLACEHOLDER f d.

(** Filters that begin by loading the accumulator, as those of libseccomp do. *)
Definition loads_first (f : list insn) : Prop :=
  ∃ i rest, f = i :: rest ∧ op_of (i_code i) ∈ [Some LdAbs; Some LdImm; Some LdMem; Some LdLen].

(** What is missing from the full statement: filters whose first instructions depend on
    the initial accumulator. *)
Theorem C42_prelude_partial f d :
  loads_first f → sd_ip d < 2 ^ 64 →
  bpf_run (audit_prelude IPC_SECCOMP_CALL_SITE_PLACEHOLDER ++ f) d =
    audited IPC_SECCOMP_CALL_SITE_PLACEHOLDER f d.
Proof.
  intros (i & rest & -> & Hi) Hd. rewrite prelude_run by done. unfold audited.
  destruct (decide _); [done|]. by apply load_first_run.
Qed.
Print Assumptions C42_prelude_partial.

(** For every filter at all: the site is allowed, and other calls are decided by the
    filter started with one half of the instruction pointer in the accumulator. *)
Theorem C42_any_filter_partial f d :
  sd_ip d < 2 ^ 64 →
  bpf_run (audit_prelude IPC_SECCOMP_CALL_SITE_PLACEHOLDER ++ f) d =
    if decide (sd_ip d = IPC_SECCOMP_CALL_SITE_PLACEHOLDER) then Some SECCOMP_RET_ALLOW
    else bpf_exec (length f) d f
      (mkBpf (if decide (sd_ip d mod 2 ^ 32 = 0xC0DEC0DE) then sd_ip d / 2 ^ 32
              else sd_ip d mod 2 ^ 32) 0 (replicate 16 0)).
Proof.
  intros Hd. rewrite prelude_run by done. destruct (decide _); [done|].
  unfold start_with, left_over. f_equal. f_equal.
  change (lo32 IPC_SECCOMP_CALL_SITE_PLACEHOLDER) with 0xC0DEC0DE.
  unfold lo32 at 1. destruct (N.eqb_spec (sd_ip d mod 2 ^ 32) 0xC0DEC0DE) as [E|E].
  - rewrite decide_True by done. unfold hi32. apply N.mod_small.
    apply N.div_lt_upper_bound; [done|]. exact Hd.
  - by rewrite decide_False.
Qed.
Print Assumptions C42_any_filter_partial.

(** The accumulator starts at zero, but not after the prelude: the one-instruction
    filter "return the accumulator" (kill) becomes something else. *)
Theorem C42_refuted : ¬ C42_full.
Proof.
  intros H. specialize (H [mkInsn 22 0 0 0] (mkSdata 0 0 0x7fff0000 []) ltac:(done)).
  vm_compute in H. discriminate.
Qed.
Print Assumptions C42_refuted.

(** A filter that allows getpid (39) on x86_64 and traps the rest. *)
Definition getpid_filter : list insn :=
  [mkInsn 32 0 0 4; mkInsn 21 0 3 0xC000003E; mkInsn 32 0 0 0; mkInsn 21 0 1 39;
   mkInsn 6 0 0 SECCOMP_RET_ALLOW; mkInsn 6 0 0 SECCOMP_RET_TRAP].
Example C42_example :
  loads_first getpid_filter ∧
  let run ip nr := bpf_run (audit_prelude IPC_SECCOMP_CALL_SITE_PLACEHOLDER ++ getpid_filter)
                     (mkSdata nr 0xC000003E ip []) in
  run 0xCAFECAFEC0DEC0DE 59 = Some SECCOMP_RET_ALLOW ∧
  run 0xCAFECAFEC0DEC0DF 59 = Some SECCOMP_RET_TRAP ∧
  run 0xCAFECAFFC0DEC0DE 59 = Some SECCOMP_RET_TRAP ∧
  run 0x401000 39 = Some SECCOMP_RET_ALLOW.
Proof.
  split; [|by vm_compute]. eexists _, _. split; [done|]. by left.
Qed.

(* ---------------------------------------------------------------- C43 *)

(** Full statement of C43: whatever the address and filter, the program the worker loads
    in audit mode allows the address and is else the filter. It is false. *)
Definition C43_full : Prop := ∀ site f tsync single prog threads,
  site < 2 ^ 64 → Forall insn_ok f → loads_first f →
  Forall (λ i, is_Some (op_of (i_code i))) f →
  N.of_nat (length (filter_bytes true (enc_prog f))) ≤ IPC_MESSAGE_MAX_SIZE →
  load_filter true site true tsync single (filter_bytes true (enc_prog f)) = Loaded prog threads →
  ∀ d, sd_ip d < 2 ^ 64 → bpf_run prog d = audited site f d.

Lemma prelude_ok site : Forall insn_ok (audit_prelude site).
Proof.
  unfold audit_prelude, insn_ok, lo32, hi32.
  repeat constructor; cbn [i_code i_jt i_jf i_k]; try done; by apply N.mod_lt.
Qed.

Lemma load_ok (audit : bool) site tsync single bytes p :
  (if audit then patch site bytes else bytes) = enc_prog p → bytes ≠ [] →
  Forall insn_ok p → N.of_nat (length (enc_prog p)) ≤ IPC_MESSAGE_MAX_SIZE →
  load_filter audit site true tsync single bytes =
    if tsync p then Loaded p true else if single p then Loaded p false else LoadPanic.
Proof.
  intros Ep Hne Hok Hlen. unfold load_filter. destruct bytes as [|b0 bytes]; [done|].
  cbn [negb]. rewrite Ep. rewrite enc_prog_length in Hlen.
  rewrite enc_prog_length.
  assert (Hc : N.of_nat (8 * length p) / 8 = N.of_nat (length p)).
  { rewrite Nat2N.inj_mul, N.mul_comm. by apply N.div_mul. }
  rewrite Hc. rewrite N.mod_small.
  2:{ unfold IPC_MESSAGE_MAX_SIZE in Hlen. change (2 ^ 16) with 65536. lia. }
  rewrite Nat2N.id.
  pose proof (dec_enc_prog p [] Hok) as D. rewrite app_nil_r in D. by rewrite D.
Qed.

(** What is missing from the full statement: call sites whose low half is 0xCAFECAFE and
    filters with an instruction spelling half of the placeholder. *)
Theorem C43_patched_partial site f tsync single prog threads :
  site < 2 ^ 64 → site mod 2 ^ 32 ≠ 0xCAFECAFE →
  Forall insn_ok f → loads_first f →
  Forall (λ i, is_Some (op_of (i_code i))) f → Forall (λ i, ¬ spells_placeholder i) f →
  N.of_nat (length (filter_bytes true (enc_prog f))) ≤ IPC_MESSAGE_MAX_SIZE →
  load_filter true site true tsync single (filter_bytes true (enc_prog f)) = Loaded prog threads →
  prog = audit_prelude site ++ f ∧
  ∀ d, sd_ip d < 2 ^ 64 → bpf_run prog d = audited site f d.
Proof.
  intros Hs Hlow Hok Hf Hop Hcl Hlen Hload.
  rewrite (load_ok _ _ _ _ _ (audit_prelude site ++ f)) in Hload.
  - assert (prog = audit_prelude site ++ f) as ->.
    { destruct (tsync _); [by injection Hload|]. destruct (single _); [by injection Hload|done]. }
    split; [done|]. intros d Hd. rewrite prelude_run by done. unfold audited.
    destruct (decide _); [done|]. destruct Hf as (i & rest & -> & Hi). by apply load_first_run.
  - rewrite enc_prog_app. by apply patch_prelude, prog_clean.
  - done.
  - apply Forall_app. split; [apply prelude_ok|done].
  - unfold filter_bytes in Hlen. rewrite enc_prog_app.
    rewrite app_length in *. rewrite !(enc_prog_length (audit_prelude _)) in *. exact Hlen.
Qed.
Print Assumptions C43_patched_partial.

(** Outside audit mode the program loaded is the broker's. *)
Theorem C43_not_audited_partial site f tsync single prog threads :
  Forall insn_ok f → N.of_nat (length (filter_bytes false (enc_prog f))) ≤ IPC_MESSAGE_MAX_SIZE →
  load_filter false site true tsync single (filter_bytes false (enc_prog f)) = Loaded prog threads →
  prog = f.
Proof.
  intros Hok Hlen Hload. cbn [filter_bytes app] in *.
  destruct f as [|i f]; [discriminate|].
  rewrite (load_ok _ _ _ _ _ (i :: f)) in Hload by done.
  destruct (tsync _); [by injection Hload|]. destruct (single _); [by injection Hload|done].
Qed.
Print Assumptions C43_not_audited_partial.

(** A call site whose low half is the second half of the placeholder is replaced twice:
    the worker's own call site is then not allowed. *)
Theorem C43_by_address_refuted : ¬ C43_full.
Proof.
  intros H.
  specialize (H 0x7f12CAFECAFE getpid_filter (λ _, true) (λ _, true)
    (mkInsn 32 0 0 8 :: mkInsn 21 0 3 0x7f12 :: mkInsn 32 0 0 12 :: mkInsn 21 0 1 0x7f12 ::
     mkInsn 6 0 0 SECCOMP_RET_ALLOW :: getpid_filter) true).
  feed specialize H; try done.
  - repeat constructor; done.
  - eexists _, _. split; [done|]. by left.
  - repeat constructor; vm_compute; eauto.
  - specialize (H (mkSdata 59 0xC000003E 0x7f12CAFECAFE []) ltac:(done)).
    vm_compute in H. discriminate.
Qed.
Print Assumptions C43_by_address_refuted.

(** A filter comparing an argument with half of the placeholder is changed: this one
    allows any call with first argument 0xCAFECAFE and traps the rest, the patched one
    traps that call as well. *)
Definition word_filter : list insn :=
  [mkInsn 32 0 0 16; mkInsn 21 0 1 0xCAFECAFE; mkInsn 6 0 0 SECCOMP_RET_ALLOW;
   mkInsn 6 0 0 SECCOMP_RET_TRAP].
Theorem C43_by_filter_refuted : ¬ C43_full.
Proof.
  intros H.
  specialize (H 0x555500001234 word_filter (λ _, true) (λ _, true)
    (audit_prelude 0x555500001234 ++
     [mkInsn 32 0 0 16; mkInsn 21 0 1 0x5555; mkInsn 6 0 0 SECCOMP_RET_ALLOW;
      mkInsn 6 0 0 SECCOMP_RET_TRAP]) true).
  feed specialize H; try done.
  - repeat constructor; done.
  - eexists _, _. split; [done|]. by left.
  - repeat constructor; vm_compute; eauto.
  - specialize (H (mkSdata 0 0 0 [0xCAFECAFE]) ltac:(done)).
    vm_compute in H. discriminate.
Qed.
Print Assumptions C43_by_filter_refuted.

Example C43_example :
  load_filter true 0x7f1234567890 true (λ _, false) (λ _, true)
    (filter_bytes true (enc_prog getpid_filter)) =
    Loaded (audit_prelude 0x7f1234567890 ++ getpid_filter) false ∧
  bpf_run (audit_prelude 0x7f1234567890 ++ getpid_filter)
    (mkSdata 59 0xC000003E 0x7f1234567890 []) = Some SECCOMP_RET_ALLOW ∧
  bpf_run (audit_prelude 0x7f1234567890 ++ getpid_filter)
    (mkSdata 59 0xC000003E IPC_SECCOMP_CALL_SITE_PLACEHOLDER []) = Some SECCOMP_RET_TRAP.
Proof. by vm_compute. Qed.
