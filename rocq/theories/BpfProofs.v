(** Lemmas about the BPF model: fuel, prelude, encoding, patching. *)
From stdpp Require Import prelude.
From Coq Require Import Strings.Byte.
From Verif Require Import Bytes BytesProofs BpfModel.
Local Open Scope N_scope.

(* ---------------------------------------------------------------- fuel *)

Lemma bpf_exec_fuel n m d p r :
  (length p ≤ n)%nat → (length p ≤ m)%nat → bpf_exec n d p r = bpf_exec m d p r.
Proof.
  revert m p r. induction n as [|n IH]; intros m p r Hn Hm.
  { destruct p; [|simpl in Hn; lia]. by destruct m. }
  destruct m as [|m].
  { destruct p; [done|simpl in Hm; lia]. }
  destruct p as [|i rest]; [done|].
  simpl in Hn, Hm.
  assert (IHr : ∀ r', bpf_exec n d rest r' = bpf_exec m d rest r')
    by (intros r'; apply IH; lia).
  assert (IHd : ∀ k r', bpf_exec n d (drop k rest) r' = bpf_exec m d (drop k rest) r').
  { intros k r'. apply IH; rewrite drop_length; lia. }
  cbn [bpf_exec].
  destruct (op_of (i_code i)) as [o|]; [|done].
  destruct o; rewrite ?IHr, ?IHd; try done.
  - destruct (data_word d (i_k i)); [apply IHr|done].
  - destruct (b_m r !! N.to_nat (i_k i)); [apply IHr|done].
  - destruct (b_m r !! N.to_nat (i_k i)); [apply IHr|done].
  - destruct (do_alu o (b_a r) (i_k i)); [apply IHr|done].
  - destruct (do_alu o (b_a r) (b_x r)); [apply IHr|done].
Qed.

(* ---------------------------------------------------------------- prelude *)

Definition start_with (a : N) : bpf_regs := mkBpf a 0 (replicate 16 0).

Lemma words_eq x y : x < 2 ^ 64 → y < 2 ^ 64 →
  x = y ↔ lo32 x = lo32 y ∧ hi32 x = hi32 y.
Proof.
  intros Hx Hy. split; [by intros ->|].
  unfold lo32, hi32.
  rewrite !(N.mod_small (_ / _)) by (apply N.div_lt_upper_bound; [lia|];
    change (2 ^ 32 * 2 ^ 32) with (2 ^ 64); assumption).
  intros [Hl Hh].
  rewrite (N.div_mod' x (2 ^ 32)), (N.div_mod' y (2 ^ 32)). congruence.
Qed.

(** What the filter sees in the accumulator when the prelude does not allow the call. *)
Definition left_over (site : N) (d : sdata) : N :=
  if lo32 (sd_ip d) =? lo32 site then hi32 (sd_ip d) else lo32 (sd_ip d).

Lemma exec_ld n d k v p r :
  data_word d k = Some v →
  bpf_exec (S n) d (mkInsn 32 0 0 k :: p) r = bpf_exec n d p (mkBpf v (b_x r) (b_m r)).
Proof. intros H. cbn [bpf_exec i_code op_of i_k]. by rewrite H. Qed.
Lemma exec_jeq n d jf k p r :
  bpf_exec (S n) d (mkInsn 21 0 jf k :: p) r =
    if b_a r =? k then bpf_exec n d p r else bpf_exec n d (drop (N.to_nat jf) p) r.
Proof. cbn [bpf_exec i_code op_of i_k i_jt i_jf do_cmp]. by destruct (b_a r =? k). Qed.
Lemma exec_ret n d k p r : bpf_exec (S n) d (mkInsn 6 0 0 k :: p) r = Some k.
Proof. done. Qed.

Lemma prelude_run site f d :
  site < 2 ^ 64 → sd_ip d < 2 ^ 64 →
  bpf_run (audit_prelude site ++ f) d =
    if decide (sd_ip d = site) then Some SECCOMP_RET_ALLOW
    else bpf_exec (length f) d f (start_with (left_over site d)).
Proof.
  intros Hs Hd. unfold bpf_run, left_over.
  change (length (audit_prelude site ++ f)) with (S (S (S (S (S (length f)))))).
  change (audit_prelude site ++ f) with
    (mkInsn 32 0 0 8 :: mkInsn 21 0 3 (lo32 site) :: mkInsn 32 0 0 12
     :: mkInsn 21 0 1 (hi32 site) :: mkInsn 6 0 0 SECCOMP_RET_ALLOW :: f).
  rewrite (exec_ld _ d 8 (lo32 (sd_ip d))) by done.
  rewrite exec_jeq. cbn [b_a].
  destruct (N.eqb_spec (lo32 (sd_ip d)) (lo32 site)) as [Hlo|Hlo].
  - rewrite (exec_ld _ d 12 (hi32 (sd_ip d))) by done.
    rewrite exec_jeq. cbn [b_a].
    destruct (N.eqb_spec (hi32 (sd_ip d)) (hi32 site)) as [Hhi|Hhi].
    + rewrite decide_True by (apply (words_eq _ _ Hd Hs); by split). apply exec_ret.
    + rewrite decide_False by congruence.
      change (drop (N.to_nat 1) (mkInsn 6 0 0 SECCOMP_RET_ALLOW :: f)) with f.
      unfold start_with. apply bpf_exec_fuel; lia.
  - rewrite decide_False by congruence.
    change (drop (N.to_nat 3) (mkInsn 32 0 0 12 :: mkInsn 21 0 1 (hi32 site)
      :: mkInsn 6 0 0 SECCOMP_RET_ALLOW :: f)) with f.
    unfold start_with. apply bpf_exec_fuel; lia.
Qed.

(** Filters whose first instruction loads the accumulator. *)
Lemma load_first_run i f d a :
  op_of (i_code i) ∈ [Some LdAbs; Some LdImm; Some LdMem; Some LdLen] →
  bpf_exec (length (i :: f)) d (i :: f) (start_with a) = bpf_run (i :: f) d.
Proof.
  intros H. unfold bpf_run, start_with, bpf_start.
  cbn [length bpf_exec b_x b_m].
  rewrite !elem_of_cons in H. destruct H as [->|[->|[->|[->|H]]]]; try done.
  by apply elem_of_nil in H.
Qed.

(* ---------------------------------------------------------------- encoding *)

Definition insn_ok (i : insn) : Prop :=
  i_code i < 2 ^ 16 ∧ i_jt i < 2 ^ 8 ∧ i_jf i < 2 ^ 8 ∧ i_k i < 2 ^ 32.

Lemma n_bytes_length n v : length (n_bytes n v) = n.
Proof. revert v; induction n; intros; simpl; auto. Qed.

Lemma n_of_n_bytes n v : v < 256 ^ N.of_nat n → n_of_bytes (n_bytes n v) = v.
Proof.
  revert v. induction n as [|n IH]; intros v Hv.
  { simpl in *. change (256 ^ N.of_nat 0) with 1 in Hv. lia. }
  cbn [n_bytes n_of_bytes]. rewrite to_N_byte_of_N, IH.
  - rewrite N.mod_mod by lia. rewrite N.add_comm, <-N.div_mod; lia.
  - apply N.div_lt_upper_bound; [lia|]. rewrite Nat2N.inj_succ, N.pow_succ_r' in Hv. lia.
Qed.

Lemma enc_insn_length i : length (enc_insn i) = 8%nat.
Proof. reflexivity. Qed.
Lemma enc_prog_length p : length (enc_prog p) = (8 * length p)%nat.
Proof.
  induction p as [|i p IH]; [done|].
  change (enc_prog (i :: p)) with (enc_insn i ++ enc_prog p).
  rewrite app_length, IH, enc_insn_length. simpl length. lia.
Qed.
Lemma enc_prog_app p q : enc_prog (p ++ q) = enc_prog p ++ enc_prog q.
Proof. unfold enc_prog. by rewrite map_app, concat_app. Qed.

Lemma n_of_bytes_1 b : n_of_bytes [b] = Byte.to_N b.
Proof. cbn [n_of_bytes]. lia. Qed.

Lemma dec_enc_prog p s : Forall insn_ok p → dec_prog (length p) (enc_prog p ++ s) = Some p.
Proof.
  induction 1 as [|i p (Hc & Ht & Hf & Hk) _ IH]; [done|].
  change (enc_prog (i :: p)) with (enc_insn i ++ enc_prog p).
  rewrite <-app_assoc.
  pose proof (n_of_n_bytes 2 (i_code i) ltac:(exact Hc)) as E1.
  pose proof (n_of_n_bytes 1 (i_jt i) ltac:(exact Ht)) as E2.
  pose proof (n_of_n_bytes 1 (i_jf i) ltac:(exact Hf)) as E3.
  pose proof (n_of_n_bytes 4 (i_k i) ltac:(exact Hk)) as E4.
  unfold enc_insn.
  remember (n_bytes 2 (i_code i)) as w1 eqn:W1. remember (n_bytes 1 (i_jt i)) as w2 eqn:W2.
  remember (n_bytes 1 (i_jf i)) as w3 eqn:W3. remember (n_bytes 4 (i_k i)) as w4 eqn:W4.
  pose proof (n_bytes_length 2 (i_code i)) as L1. rewrite <-W1 in L1.
  pose proof (n_bytes_length 1 (i_jt i)) as L2. rewrite <-W2 in L2.
  pose proof (n_bytes_length 1 (i_jf i)) as L3. rewrite <-W3 in L3.
  pose proof (n_bytes_length 4 (i_k i)) as L4. rewrite <-W4 in L4.
  clear W1 W2 W3 W4.
  destruct w1 as [|? [|? [|]]]; try discriminate.
  destruct w2 as [|? [|]]; try discriminate.
  destruct w3 as [|? [|]]; try discriminate.
  destruct w4 as [|? [|? [|? [|? [|]]]]]; try discriminate.
  rewrite n_of_bytes_1 in E2, E3.
  cbn [length app dec_prog]. rewrite IH, E1, E2, E3, E4. by destruct i.
Qed.

(* ---------------------------------------------------------------- patching *)

Section patch.
  Context (pf ps af as' : str).
  Context (Laf : length af = 4%nat) (Las : length as' = 4%nat).

  Definition put (v s : str) : str := v ++ drop 4 s.
  Definition patch1 (s : str) : str :=
    let s := if decide (take 4 s = pf) then put af s else s in
    if decide (take 4 s = ps) then put as' s else s.
  (** The loop seen from the current position. *)
  Fixpoint scan (n : nat) (s : str) : str :=
    match n with
    | O => s
    | S n => if (4 <? length s)%nat
             then match patch1 s with b :: t => b :: scan n t | [] => [] end
             else s
    end.

  Lemma put_length v s : length v = 4%nat → (4 ≤ length s)%nat → length (put v s) = length s.
  Proof. intros Hv Hs. unfold put. rewrite app_length, drop_length. lia. Qed.
  Lemma patch1_length s : (4 ≤ length s)%nat → length (patch1 s) = length s.
  Proof.
    intros Hs. unfold patch1.
    assert (H : ∀ s', length s' = length s →
      length (if decide (take 4 s' = ps) then put as' s' else s') = length s).
    { intros s' Hs'. destruct (decide _); [|done]. rewrite put_length; lia. }
    apply H. destruct (decide _); [rewrite put_length; lia|done].
  Qed.
  Lemma scan_short n s : (length s ≤ 4)%nat → scan n s = s.
  Proof.
    intros H. destruct n as [|n]; [done|]. cbn [scan].
    destruct (Nat.ltb_spec 4 (length s)); [lia|done].
  Qed.

  Lemma window_app pre s : window (pre ++ s) (length pre) = take 4 s.
  Proof. unfold window. by rewrite drop_app. Qed.
  Lemma write4_app pre s v : write4 (pre ++ s) (length pre) v = pre ++ put v s.
  Proof.
    unfold write4, put. rewrite take_app. f_equal. f_equal.
    rewrite <-drop_drop, drop_app. done.
  Qed.
  Lemma patch_at_app pre s : patch_at pf ps af as' (length pre) (pre ++ s) = pre ++ patch1 s.
  Proof.
    unfold patch_at, patch1. cbv zeta. rewrite window_app.
    assert (H : ∀ s', (if decide (window (pre ++ s') (length pre) = ps)
                       then write4 (pre ++ s') (length pre) as' else pre ++ s')
                      = pre ++ (if decide (take 4 s' = ps) then put as' s' else s')).
    { intros s'. destruct (decide (take 4 s' = ps)) as [E|E].
      - rewrite decide_True by (by rewrite window_app). apply write4_app.
      - rewrite decide_False by (by rewrite window_app). done. }
    destruct (decide (take 4 s = pf)) as [E|E].
    - rewrite !(decide_True (P := take 4 s = pf)) by done. rewrite write4_app. apply H.
    - rewrite !(decide_False (P := take 4 s = pf)) by done. apply H.
  Qed.
  Lemma patch_loop_scan n pre s :
    (length s ≤ n)%nat →
    patch_loop n pf ps af as' (length pre) (pre ++ s) = pre ++ scan n s.
  Proof.
    revert pre s. induction n as [|n IH]; intros pre s Hn; [done|].
    cbn [patch_loop scan]. rewrite app_length.
    destruct (Nat.ltb_spec 4 (length s)) as [Hl|Hl].
    - rewrite (proj2 (Nat.ltb_lt _ _)) by lia.
      rewrite patch_at_app.
      pose proof (patch1_length s ltac:(lia)) as Hp.
      destruct (patch1 s) as [|b t]; [simpl in Hp; lia|].
      simpl in Hp.
      replace (pre ++ b :: t) with ((pre ++ [b]) ++ t) by (by rewrite <-app_assoc).
      replace (S (length pre)) with (length (pre ++ [b])) by (rewrite app_length; simpl; lia).
      rewrite IH by lia. by rewrite <-app_assoc.
    - rewrite (proj2 (Nat.ltb_ge _ _)) by lia. done.
  Qed.

  Lemma scan_nomatch n b t :
    take 4 (b :: t) ≠ pf → take 4 (b :: t) ≠ ps → scan (S n) (b :: t) = b :: scan n t.
  Proof.
    intros H1 H2. cbn [scan].
    destruct (Nat.ltb_spec 4 (length (b :: t))) as [Hl|Hl].
    - unfold patch1. by rewrite (decide_False (P := _ = pf)), (decide_False (P := _ = ps)).
    - rewrite scan_short; [done|]. simpl in Hl. lia.
  Qed.
  Definition clean (s : str) : Prop := ∀ i, window s i ≠ pf ∧ window s i ≠ ps.
  Lemma clean_tail b s : clean (b :: s) → clean s.
  Proof. intros H i. apply (H (S i)). Qed.
  Lemma scan_clean n s : clean s → scan n s = s.
  Proof.
    revert s. induction n as [|n IH]; intros s Hs; [done|].
    destruct s as [|b t]; [done|].
    destruct (Hs 0%nat). rewrite scan_nomatch by done.
    by rewrite IH by (by eapply clean_tail).
  Qed.
  Lemma scan_first n b0 b1 b2 b3 t :
    [b0; b1; b2; b3] = pf → af ≠ ps → t ≠ [] →
    scan (S n) (b0 :: b1 :: b2 :: b3 :: t) =
      match af ++ t with b :: t => b :: scan n t | [] => [] end.
  Proof.
    intros H1 H2 H3. cbn [scan].
    rewrite (proj2 (Nat.ltb_lt _ _)).
    2:{ destruct t; [done|]. simpl. lia. }
    unfold patch1. change (take 4 (b0 :: b1 :: b2 :: b3 :: t)) with [b0; b1; b2; b3].
    cbv zeta. rewrite !(decide_True (P := [b0; b1; b2; b3] = pf)) by done.
    unfold put. change (drop 4 (b0 :: b1 :: b2 :: b3 :: t)) with t.
    rewrite decide_False; [done|].
    by rewrite <-Laf, take_app.
  Qed.
  Lemma scan_second n b0 b1 b2 b3 t :
    [b0; b1; b2; b3] = ps → pf ≠ ps → t ≠ [] →
    scan (S n) (b0 :: b1 :: b2 :: b3 :: t) =
      match as' ++ t with b :: t => b :: scan n t | [] => [] end.
  Proof.
    intros H1 H2 H3. cbn [scan].
    rewrite (proj2 (Nat.ltb_lt _ _)).
    2:{ destruct t; [done|]. simpl. lia. }
    unfold patch1. change (take 4 (b0 :: b1 :: b2 :: b3 :: t)) with [b0; b1; b2; b3].
    cbv zeta. rewrite !(decide_False (P := [b0; b1; b2; b3] = pf)) by congruence.
    change (take 4 (b0 :: b1 :: b2 :: b3 :: t)) with [b0; b1; b2; b3].
    rewrite decide_True by done. done.
  Qed.
End patch.

Definition ph1 : str := [xde; xc0; xde; xc0].
Definition ph2 : str := [xfe; xca; xfe; xca].


Lemma n_bytes_mod n v : n_bytes n (v mod 256 ^ N.of_nat n) = n_bytes n v.
Proof.
  revert v. induction n as [|n IH]; intros v; [done|].
  cbn [n_bytes]. rewrite Nat2N.inj_succ, N.pow_succ_r'.
  rewrite N.mod_mul_r by (try lia; apply N.pow_nonzero; lia).
  rewrite (N.mul_comm 256). f_equal.
  - f_equal. rewrite N.mod_add, N.mod_mod by lia. done.
  - rewrite <-(IH (v / 256)). f_equal.
    rewrite N.div_add by lia.
    rewrite (N.div_small (v mod 256)) by (by apply N.mod_lt). lia.
Qed.
Lemma n_bytes_add n m v : n_bytes (n + m) v = n_bytes n v ++ n_bytes m (v / 256 ^ N.of_nat n).
Proof.
  revert v. induction n as [|n IH]; intros v.
  { simpl. change (256 ^ N.of_nat 0) with 1. by rewrite N.div_1_r. }
  cbn [n_bytes Nat.add app]. rewrite IH. do 2 f_equal.
  rewrite Nat2N.inj_succ, N.pow_succ_r', N.div_div; [done|lia|].
  apply N.pow_nonzero. lia.
Qed.
Lemma site_bytes site :
  n_bytes 8 site = n_bytes 4 (lo32 site) ++ n_bytes 4 (hi32 site).
Proof.
  change 8%nat with (4 + 4)%nat. rewrite n_bytes_add. unfold lo32, hi32.
  change (2 ^ 32) with (256 ^ N.of_nat 4). by rewrite !n_bytes_mod.
Qed.

Definition prelude_bytes (a b : str) : str :=
  [x20; x00; x00; x00; x08; x00; x00; x00; x15; x00; x00; x03] ++ a ++
  [x20; x00; x00; x00; x0c; x00; x00; x00; x15; x00; x00; x01] ++ b ++
  [x06; x00; x00; x00; x00; x00; xff; x7f].
Lemma enc_prelude site :
  enc_prog (audit_prelude site) = prelude_bytes (n_bytes 4 (lo32 site)) (n_bytes 4 (hi32 site)).
Proof.
  unfold enc_prog, audit_prelude, prelude_bytes. cbn [map concat].
  unfold enc_insn. cbn [i_code i_jt i_jf i_k].
  remember (n_bytes 4 (lo32 site)) as a. remember (n_bytes 4 (hi32 site)) as b.
  rewrite <-!app_assoc. reflexivity.
Qed.

Lemma patch_prelude site exported :
  lo32 site ≠ 0xCAFECAFE → clean ph1 ph2 exported →
  patch site (filter_bytes true exported) = enc_prog (audit_prelude site) ++ exported.
Proof.
  intros Hlow Hclean. unfold patch, filter_bytes.
  change (take 4 (n_bytes 8 IPC_SECCOMP_CALL_SITE_PLACEHOLDER)) with ph1.
  change (drop 4 (n_bytes 8 IPC_SECCOMP_CALL_SITE_PLACEHOLDER)) with ph2.
  rewrite !enc_prelude, site_bytes.
  change (n_bytes 4 (lo32 IPC_SECCOMP_CALL_SITE_PLACEHOLDER)) with ph1.
  change (n_bytes 4 (hi32 IPC_SECCOMP_CALL_SITE_PLACEHOLDER)) with ph2.
  assert (Ha : n_bytes 4 (lo32 site) ≠ ph2).
  { intros E. apply Hlow. apply (f_equal n_of_bytes) in E.
    rewrite n_of_n_bytes in E; [rewrite E; reflexivity|].
    change (256 ^ N.of_nat 4) with (2 ^ 32). unfold lo32. by apply N.mod_lt. }
  pose proof (n_bytes_length 4 (lo32 site)) as La.
  pose proof (n_bytes_length 4 (hi32 site)) as Lb.
  rewrite take_app_alt, drop_app_alt by done.
  generalize dependent (n_bytes 4 (lo32 site)). generalize dependent (n_bytes 4 (hi32 site)).
  intros b Lb a Ha La.
  pose proof (patch_loop_scan ph1 ph2 a b La Lb
    (length (prelude_bytes ph1 ph2 ++ exported)) [] (prelude_bytes ph1 ph2 ++ exported)
    ltac:(done)) as E.
  cbn [length app] in E. rewrite E. clear E.
  remember (length (prelude_bytes ph1 ph2 ++ exported)) as n eqn:En.
  change (length (prelude_bytes ph1 ph2 ++ exported)) with (40 + length exported)%nat in En.
  subst n.
  destruct a as [|a0 [|a1 [|a2 [|a3 [|]]]]]; try discriminate La.
  destruct b as [|b0 [|b1 [|b2 [|b3 [|]]]]]; try discriminate Lb.
  unfold prelude_bytes, ph1, ph2 in *.
  cbn [app Nat.add].
  do 12 (rewrite scan_nomatch by done).
  rewrite scan_first by (try done; intros ?; discriminate).
  cbn [app].
  do 3 (rewrite scan_nomatch by (first [done|cbn [take]; intros [=]; discriminate])).
  do 12 (rewrite scan_nomatch by done).
  rewrite scan_second by (try done; intros ?; discriminate).
  cbn [app].
  do 3 (rewrite scan_nomatch by (first [done|cbn [take]; intros [=]; discriminate])).
  do 8 (rewrite scan_nomatch by done).
  rewrite scan_clean by done. done.
Qed.

(* ---------------------------------------------------------------- clean filters *)

(** An instruction whose operands do not spell a half of the placeholder. *)
Definition spells_placeholder (i : insn) : Prop :=
  i_k i = 0xC0DEC0DE ∨ i_k i = 0xCAFECAFE ∨
  (i_jt i = 0xDE ∧ i_jf i = 0xC0 ∧ i_k i mod 2 ^ 16 = 0xC0DE) ∨
  (i_jt i = 0xFE ∧ i_jf i = 0xCA ∧ i_k i mod 2 ^ 16 = 0xCAFE) ∨
  (i_jf i = 0xDE ∧ i_k i mod 2 ^ 24 = 0xC0DEC0) ∨
  (i_jf i = 0xFE ∧ i_k i mod 2 ^ 24 = 0xCAFECA).

Lemma op_of_code c o : op_of c = Some o →
  c < 256 ∧ c ≠ 0xC0 ∧ c ≠ 0xCA.
Proof.
  destruct c as [|p]; [done|].
  do 8 (try destruct p as [p|p|]); try discriminate; done.
Qed.

Lemma n_bytes_inv n v s : v < 256 ^ N.of_nat n → n_bytes n v = s → v = n_of_bytes s.
Proof. intros Hv <-. by rewrite n_of_n_bytes. Qed.
Lemma n_bytes_mod_inv n v s : n_bytes n v = s → v mod 256 ^ N.of_nat n = n_of_bytes s.
Proof.
  intros <-. rewrite <-n_bytes_mod, n_of_n_bytes; [done|].
  apply N.mod_lt, N.pow_nonzero. lia.
Qed.

Lemma code_bytes c o : op_of c = Some o →
  n_bytes 2 c = [byte_of_N c; x00] ∧ byte_of_N c ≠ xc0 ∧ byte_of_N c ≠ xca.
Proof.
  intros H. apply op_of_code in H as (H1 & H2 & H3).
  split; [|split].
  - cbn [n_bytes]. rewrite (N.mod_small c) by done. rewrite (N.div_small c) by done. done.
  - intros E. apply (f_equal Byte.to_N) in E. rewrite to_N_byte_of_N, N.mod_small in E by done.
    done.
  - intros E. apply (f_equal Byte.to_N) in E. rewrite to_N_byte_of_N, N.mod_small in E by done.
    done.
Qed.

Lemma prog_clean p :
  Forall insn_ok p → Forall (λ i, is_Some (op_of (i_code i))) p →
  Forall (λ i, ¬ spells_placeholder i) p → clean ph1 ph2 (enc_prog p).
Proof.
  intros Hok. induction Hok as [|i p (Hc & Ht & Hf & Hk) _ IH]; intros Hop Hcl.
  { intros n. unfold window. change (enc_prog []) with (@nil byte). by rewrite drop_nil. }
  apply Forall_cons in Hop as [[o Ho] Hop]. apply Forall_cons in Hcl as [Hcl Hcls].
  specialize (IH Hop Hcls).
  change (enc_prog (i :: p)) with (enc_insn i ++ enc_prog p).
  assert (Hnext : enc_prog p = [] ∨
    ∃ c r, enc_prog p = c :: x00 :: r ∧ c ≠ xc0 ∧ c ≠ xca).
  { destruct p as [|j p]; [by left|right].
    apply Forall_cons in Hop as [[o' Ho'] _].
    destruct (code_bytes _ _ Ho') as (E & H1 & H2).
    change (enc_prog (j :: p)) with (enc_insn j ++ enc_prog p). unfold enc_insn.
    rewrite E. cbn [app]. eauto. }
  destruct (code_bytes _ _ Ho) as (E & Hc1 & Hc2). unfold enc_insn. rewrite E.
  assert (Hwin : ∀ b0 b1 b2 b3 jt jf,
    n_bytes 4 (i_k i) = [b0; b1; b2; b3] → n_bytes 1 (i_jt i) = [jt] → n_bytes 1 (i_jf i) = [jf] →
    ∀ q, q = ph1 ∨ q = ph2 →
      [b0; b1; b2; b3] ≠ q ∧ [jt; jf; b0; b1] ≠ q ∧ [jf; b0; b1; b2] ≠ q).
  { intros b0 b1 b2 b3 jt jf E4 E1 E2 q Hq.
    pose proof (n_bytes_inv 4 (i_k i) _ Hk E4) as V4.
    pose proof (n_bytes_inv 1 (i_jt i) _ Ht E1) as V1.
    pose proof (n_bytes_inv 1 (i_jf i) _ Hf E2) as V2.
    assert (E43 : n_bytes 3 (i_k i) = [b0; b1; b2]).
    { change 4%nat with (3 + 1)%nat in E4. rewrite n_bytes_add in E4.
      apply (f_equal (take 3)) in E4. rewrite take_app_alt in E4; [done|by rewrite n_bytes_length]. }
    assert (E42 : n_bytes 2 (i_k i) = [b0; b1]).
    { change 4%nat with (2 + 2)%nat in E4. rewrite n_bytes_add in E4.
      apply (f_equal (take 2)) in E4. rewrite take_app_alt in E4; [done|by rewrite n_bytes_length]. }
    pose proof (n_bytes_mod_inv 3 _ _ E43) as V43.
    pose proof (n_bytes_mod_inv 2 _ _ E42) as V42.
    change (256 ^ N.of_nat 3) with (2 ^ 24) in V43.
    change (256 ^ N.of_nat 2) with (2 ^ 16) in V42.
    clear E43 E42 E4 E1 E2 E Hc1 Hc2.
    unfold spells_placeholder in Hcl.
    split; [|split]; intros Eq; apply Hcl; destruct Hq as [-> | ->];
      injection Eq; intros; subst.
    - left. by rewrite V4.
    - right; left. by rewrite V4.
    - right; right; left. by rewrite V42, V1, V2.
    - do 3 right; left. by rewrite V42, V1, V2.
    - do 4 right; left. by rewrite V43, V2.
    - do 5 right. by rewrite V43, V2. }
  pose proof (n_bytes_length 4 (i_k i)) as L4.
  pose proof (n_bytes_length 1 (i_jt i)) as L1.
  pose proof (n_bytes_length 1 (i_jf i)) as L2.
  destruct (n_bytes 4 (i_k i)) as [|b0 [|b1 [|b2 [|b3 [|]]]]]; try discriminate L4.
  destruct (n_bytes 1 (i_jt i)) as [|jt [|]]; try discriminate L1.
  destruct (n_bytes 1 (i_jf i)) as [|jf [|]]; try discriminate L2.
  specialize (Hwin _ _ _ _ _ _ eq_refl eq_refl eq_refl).
  cbn [app].
  assert (H : ∀ q, q = ph1 ∨ q = ph2 → ∀ n,
    window (byte_of_N (i_code i) :: x00 :: jt :: jf :: b0 :: b1 :: b2 :: b3 :: enc_prog p) n ≠ q).
  { intros q Hq n. destruct (Hwin q Hq) as (W4 & W2 & W3).
    destruct n as [|[|[|[|[|[|[|[|n]]]]]]]]; unfold window; cbn [drop take].
    - destruct Hq as [-> | ->]; done.
    - destruct Hq as [-> | ->]; done.
    - done.
    - done.
    - done.
    - destruct Hnext as [-> | (c & r & -> & N1 & N2)]; destruct Hq as [-> | ->]; try done;
        cbn [take]; intros [=]; done.
    - destruct Hnext as [-> | (c & r & -> & N1 & N2)]; destruct Hq as [-> | ->]; done.
    - destruct Hnext as [-> | (c & r & -> & N1 & N2)]; destruct Hq as [-> | ->]; done.
    - destruct (IH n). destruct Hq as [-> | ->]; done. }
  intros n. split; apply H; auto.
Qed.
