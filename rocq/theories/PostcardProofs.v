(** Proofs about the message encoding. *)
From stdpp Require Import prelude gmap.
From Coq Require Import Strings.Byte ZifyN ZifyNat ZifyBool.
From Verif Require Import Bytes BytesProofs PolicyModel PostcardModel PostcardSpec.
Local Open Scope N_scope.
Local Arguments N.mul : simpl never.
Local Arguments N.add : simpl never.
Local Arguments N.sub : simpl never.
Local Arguments N.pow : simpl never.
Local Arguments N.div : simpl never.
Local Arguments N.modulo : simpl never.
Local Arguments N.ltb : simpl never.
Local Arguments N.leb : simpl never.
Local Arguments N.eqb : simpl never.
Local Arguments N.of_nat : simpl never.
Local Arguments N.to_nat : simpl never.
Ltac Zify.zify_post_hook ::= Z.to_euclidean_division_equations.

(** Round trip, and consumption of a prefix of the input. *)
Definition roundtrip {A} (e : A → str) (d : parser A) (P : A → Prop) : Prop :=
  ∀ a s, P a → d (e a ++ s) = Some (a, s).
Definition consumes {A} (d : parser A) : Prop :=
  ∀ s a r, d s = Some (a, r) → ∃ u, u ≠ [] ∧ s = u ++ r.
Definition yields {A} (d : parser A) (P : A → Prop) : Prop :=
  ∀ s a r, d s = Some (a, r) → P a.

Lemma varint_roundtrip max last n s :
  last < 128 → (0 < max)%nat → n < 128 ^ N.of_nat (pred max) * (last + 1) →
  dec_varint max last (enc_varint max n ++ s) = Some (n, s).
Proof.
  intros Hl. revert n. induction max as [|m IH]; intros n Hm Hn; [lia|].
  simpl pred in Hn. simpl enc_varint.
  destruct (n <? 128) eqn:E.
  - simpl. rewrite to_N_byte_of_N, N.mod_small by lia.
    rewrite E. destruct m; [|done].
    change (N.of_nat 0) with 0 in Hn. rewrite N.pow_0_r in Hn. replace (last <? n) with false by lia. done.
  - destruct m as [|m].
    { change (N.of_nat 0) with 0 in Hn. rewrite N.pow_0_r in Hn. lia. }
    assert (n mod 128 < 128) as Hmod by (apply N.mod_lt; lia).
    rewrite <-app_comm_cons.
    change (dec_varint (S (S m)) last (?c :: ?r)) with
      (let b := Byte.to_N c in
       if b <? 128 then Some (b, r)
       else match dec_varint (S m) last r with
            | Some (hi, r') => Some ((b - 128) + 128 * hi, r')
            | None => None end).
    cbv zeta. rewrite to_N_byte_of_N.
    rewrite (N.mod_small (n mod 128 + 128)) by lia.
    replace (n mod 128 + 128 <? 128) with false by lia.
    rewrite IH.
    + f_equal. f_equal. pose proof (N.div_mod n 128). lia.
    + lia.
    + simpl pred. replace (N.of_nat (pred (S (S m)))) with (N.succ (N.of_nat m)) in Hn by lia.
      replace (N.of_nat (S m)) with (N.succ (N.of_nat m)) in Hn by lia.
      rewrite N.pow_succ_r' in Hn.
      apply N.div_lt_upper_bound; lia.
Qed.

Lemma varint_consumes max last : consumes (dec_varint max last).
Proof.
  induction max as [|m IH]; intros s a r; simpl; [done|].
  destruct s as [|c s]; [done|].
  destruct (Byte.to_N c <? 128).
  - destruct m; [destruct (last <? Byte.to_N c); [done|]|];
      intros [= <- <-]; by exists [c].
  - destruct (dec_varint m last s) as [[hi r']|] eqn:E; [|done].
    intros [= <- <-]. apply IH in E as (u & _ & ->). by exists (c :: u).
Qed.

Lemma varint_yields max last :
  last < 128 → yields (dec_varint max last) (λ n, n < 128 ^ N.of_nat (pred max) * (last + 1)).
Proof.
  intros Hl. induction max as [|m IH]; intros s a r; simpl; [done|].
  destruct s as [|c s]; [done|].
  destruct (Byte.to_N c <? 128) eqn:Ec.
  - destruct m as [|m].
    + destruct (last <? Byte.to_N c) eqn:E; [done|]. intros [= <- <-].
      change (N.of_nat 0) with 0. rewrite N.pow_0_r. lia.
    + intros [= <- <-]. replace (N.of_nat (S m)) with (N.succ (N.of_nat m)) by lia.
      rewrite N.pow_succ_r'. assert (1 ≤ 128 ^ N.of_nat m).
      { change 1 with (128 ^ 0). apply N.pow_le_mono_r; lia. }
      nia.
  - destruct m as [|m]; [done|].
    destruct (dec_varint (S m) last s) as [[hi r']|] eqn:E; [|done].
    intros [= <- <-]. apply IH in E. pose proof (byte_to_N_lt c).
    simpl pred in E. replace (N.of_nat (S m)) with (N.succ (N.of_nat m)) by lia.
    rewrite N.pow_succ_r', <-N.mul_assoc.
    set (P := 128 ^ N.of_nat m * (last + 1)) in *. clearbody P. lia.
Qed.

Lemma u32_roundtrip : roundtrip enc_u32 dec_u32 (λ n, n < 2 ^ 32).
Proof. intros n s H. apply varint_roundtrip; simpl; lia. Qed.
Lemma u64_roundtrip : roundtrip enc_u64 dec_u64 (λ n, n < 2 ^ 64).
Proof. intros n s H. apply varint_roundtrip; simpl; lia. Qed.
Lemma u32_consumes : consumes dec_u32. Proof. apply varint_consumes. Qed.
Lemma u64_consumes : consumes dec_u64. Proof. apply varint_consumes. Qed.
Lemma u32_yields : yields dec_u32 (λ n, n < 2 ^ 32).
Proof. intros s a r H. apply varint_yields in H; [simpl in H; lia|lia]. Qed.
Lemma u64_yields : yields dec_u64 (λ n, n < 2 ^ 64).
Proof. intros s a r H. apply varint_yields in H; [simpl in H; lia|lia]. Qed.

Lemma unzigzag_zigzag z : unzigzag (zigzag z) = z.
Proof.
  unfold unzigzag, zigzag. destruct (0 <=? z)%Z eqn:E.
  - replace (Z.to_N (2 * z)) with (2 * Z.to_N z) by lia.
    rewrite N.even_mul. simpl. lia.
  - replace (Z.to_N (-2 * z - 1)) with (2 * Z.to_N (- z - 1) + 1) by lia.
    rewrite N.add_comm, N.even_add_mul_2. simpl. lia.
Qed.

Lemma zigzag_lt z k : (- k ≤ z < k)%Z → (Z.of_N (zigzag z) < 2 * k)%Z.
Proof. unfold zigzag. destruct (0 <=? z)%Z eqn:E; lia. Qed.

Lemma unzigzag_range n k : (Z.of_N n < 2 * k)%Z → (- k ≤ unzigzag n < k)%Z.
Proof.
  intros H. unfold unzigzag. destruct (N.even n) eqn:E.
  - apply N.even_spec in E as [m ->]. replace (2 * m / 2) with m by lia. lia.
  - assert (N.odd n = true) as Ho by (by rewrite <-N.negb_even, E).
    apply N.odd_spec in Ho as [m ->]. replace ((2 * m + 1) / 2) with m by lia. lia.
Qed.

Lemma i32_roundtrip : roundtrip enc_i32 dec_i32 is_i32.
Proof.
  intros z s H. unfold dec_i32, enc_i32. rewrite u32_roundtrip.
  - by rewrite unzigzag_zigzag.
  - pose proof (zigzag_lt z (2 ^ 31) H). lia.
Qed.
Lemma i64_roundtrip : roundtrip enc_i64 dec_i64 is_i64.
Proof.
  intros z s H. unfold dec_i64, enc_i64. rewrite u64_roundtrip.
  - by rewrite unzigzag_zigzag.
  - pose proof (zigzag_lt z (2 ^ 63) H). lia.
Qed.
Lemma i32_consumes : consumes dec_i32.
Proof.
  intros s a r. unfold dec_i32. destruct (dec_u32 s) as [[n q]|] eqn:E; [|done].
  intros [= <- <-]. by apply u32_consumes in E.
Qed.
Lemma i64_consumes : consumes dec_i64.
Proof.
  intros s a r. unfold dec_i64. destruct (dec_u64 s) as [[n q]|] eqn:E; [|done].
  intros [= <- <-]. by apply u64_consumes in E.
Qed.
Lemma i32_yields : yields dec_i32 is_i32.
Proof.
  intros s a r. unfold dec_i32. destruct (dec_u32 s) as [[n q]|] eqn:E; [|done].
  intros [= <- <-]. apply u32_yields in E. apply unzigzag_range. lia.
Qed.
Lemma i64_yields : yields dec_i64 is_i64.
Proof.
  intros s a r. unfold dec_i64. destruct (dec_u64 s) as [[n q]|] eqn:E; [|done].
  intros [= <- <-]. apply u64_yields in E. apply unzigzag_range. lia.
Qed.

Lemma bool_roundtrip : roundtrip enc_bool dec_bool (λ _, True).
Proof. intros [] s _; done. Qed.
Lemma bool_consumes : consumes dec_bool.
Proof.
  intros s a r. destruct s as [|[] s]; simpl; try done; intros [= <- <-]; eexists [_]; done.
Qed.

Lemma take_n_app b s : take_n (N.of_nat (length b)) (b ++ s) = Some (b, s).
Proof.
  unfold take_n. rewrite app_length.
  replace (N.of_nat (length b) <=? N.of_nat (length b + length s)) with true by lia.
  by rewrite Nat2N.id, take_app, drop_app.
Qed.

Lemma bytes_roundtrip : roundtrip enc_bytes dec_bytes (λ b, is_usize (length b)).
Proof.
  intros b s H. unfold dec_bytes, enc_bytes. rewrite <-app_assoc, u64_roundtrip by done.
  apply take_n_app.
Qed.

Lemma take_n_Some n s b r : take_n n s = Some (b, r) → s = b ++ r ∧ length b = N.to_nat n.
Proof.
  unfold take_n. destruct (n <=? N.of_nat (length s)) eqn:E; [|done].
  intros [= <- <-]. split; [by rewrite take_drop|]. rewrite take_length. lia.
Qed.

Lemma dec_bytes_Some s b r :
  dec_bytes s = Some (b, r) → ∃ u, u ≠ [] ∧ s = u ++ b ++ r.
Proof.
  unfold dec_bytes. destruct (dec_u64 s) as [[n q]|] eqn:E; [|done].
  intros H. apply u64_consumes in E as (u & Hu & ->).
  apply take_n_Some in H as [-> _]. by exists u.
Qed.

Lemma bytes_consumes : consumes dec_bytes.
Proof.
  intros s b r H. apply dec_bytes_Some in H as (u & Hu & ->).
  exists (u ++ b). split; [by destruct u|]. by rewrite app_assoc.
Qed.

(** UTF-8. *)
Lemma in_range_spec lo hi c : in_range lo hi c = true ↔ lo ≤ Byte.to_N c ≤ hi.
Proof. unfold in_range. lia. Qed.

Lemma byte_of_N_eq n b : n = Byte.to_N b → byte_of_N n = b.
Proof. intros ->. apply byte_of_N_to_N. Qed.

Lemma utf8_head_encode s n :
  utf8_head s = Some n →
  ∃ c, scalar c ∧ take n s = utf8_encode c ∧ (0 < n)%nat ∧ length (take n s) = n.
Proof.
  destruct s as [|a r]; [done|]. unfold utf8_head.
  pose proof (byte_to_N_lt a) as Ha.
  destruct (in_range 0x00 0x7F a) eqn:E1.
  { intros [= <-]. apply in_range_spec in E1. exists (Byte.to_N a).
    split; [left; lia|]. unfold utf8_encode.
    replace (Byte.to_N a <? 128) with true by lia.
    simpl. rewrite take_0, byte_of_N_to_N. split; [done|split; [lia|done]]. }
  destruct (in_range 0xC2 0xDF a) eqn:E2.
  { destruct r as [|b r]; [done|]. destruct (in_range 0x80 0xBF b) eqn:Eb; [|done].
    intros [= <-]. apply in_range_spec in E2, Eb.
    exists ((Byte.to_N a - 192) * 64 + (Byte.to_N b - 128)).
    split; [left; lia|]. unfold utf8_encode.
    set (c := (Byte.to_N a - 192) * 64 + (Byte.to_N b - 128)).
    replace (c <? 128) with false by lia. replace (c <? 2048) with true by lia.
    simpl. rewrite take_0. split; [|split; [lia|done]].
    rewrite (byte_of_N_eq _ a) by lia. by rewrite (byte_of_N_eq _ b) by lia. }
  destruct (in_range 0xE0 0xEF a) eqn:E3.
  { destruct r as [|b [|c r]]; try done.
    destruct (_ && _) eqn:Eb; [|done]. intros [= <-].
    apply andb_true_iff in Eb as [Eb Ec]. apply in_range_spec in E3, Ec.
    set (v := (Byte.to_N a - 224) * 4096 + (Byte.to_N b - 128) * 64 + (Byte.to_N c - 128)).
    assert (scalar v ∧ 2048 ≤ v < 65536 ∧ 128 ≤ Byte.to_N b ≤ 191) as (Hs & Hv & Hb).
    { unfold scalar, v.
      destruct (in_range 0xE0 0xE0 a) eqn:F1.
      - apply in_range_spec in F1, Eb. lia.
      - destruct (in_range 0xED 0xED a) eqn:F2.
        + apply in_range_spec in F2, Eb. lia.
        + apply in_range_spec in Eb.
          assert (¬ (0xE0 ≤ Byte.to_N a ≤ 0xE0)) by (rewrite <-in_range_spec; by rewrite F1).
          assert (¬ (0xED ≤ Byte.to_N a ≤ 0xED)) by (rewrite <-in_range_spec; by rewrite F2).
          lia. }
    exists v. split; [done|]. unfold utf8_encode.
    replace (v <? 128) with false by lia. replace (v <? 2048) with false by lia.
    replace (v <? 65536) with true by lia.
    simpl. rewrite take_0. split; [|split; [lia|done]].
    rewrite (byte_of_N_eq _ a) by lia. rewrite (byte_of_N_eq _ b) by lia.
    by rewrite (byte_of_N_eq _ c) by lia. }
  destruct (in_range 0xF0 0xF4 a) eqn:E4; [|done].
  destruct r as [|b [|c [|d r]]]; try done.
  destruct (_ && _) eqn:Eb; [|done]. intros [= <-].
  apply andb_true_iff in Eb as [Eb Ed]. apply andb_true_iff in Eb as [Eb Ec].
  apply in_range_spec in E4, Ec, Ed.
  set (v := (Byte.to_N a - 240) * 262144 + (Byte.to_N b - 128) * 4096 +
            (Byte.to_N c - 128) * 64 + (Byte.to_N d - 128)).
  assert (65536 ≤ v < 0x110000 ∧ 128 ≤ Byte.to_N b ≤ 191) as (Hv & Hb).
  { unfold v.
    destruct (in_range 0xF0 0xF0 a) eqn:F1.
    - apply in_range_spec in F1, Eb. lia.
    - destruct (in_range 0xF4 0xF4 a) eqn:F2.
      + apply in_range_spec in F2, Eb. lia.
      + apply in_range_spec in Eb.
        assert (¬ (0xF0 ≤ Byte.to_N a ≤ 0xF0)) by (rewrite <-in_range_spec; by rewrite F1).
        assert (¬ (0xF4 ≤ Byte.to_N a ≤ 0xF4)) by (rewrite <-in_range_spec; by rewrite F2).
        lia. }
  exists v. split; [right; lia|]. unfold utf8_encode.
  replace (v <? 128) with false by lia. replace (v <? 2048) with false by lia.
  replace (v <? 65536) with false by lia.
  simpl. rewrite take_0. split; [|split; [lia|done]].
  rewrite (byte_of_N_eq _ a) by lia. rewrite (byte_of_N_eq _ b) by lia.
  rewrite (byte_of_N_eq _ c) by lia. by rewrite (byte_of_N_eq _ d) by lia.
Qed.

Lemma in_range_byte lo hi n : n < 256 → in_range lo hi (byte_of_N n) = (lo <=? n) && (n <=? hi).
Proof. intros H. unfold in_range. rewrite to_N_byte_of_N, N.mod_small by done. done. Qed.

Lemma utf8_encode_head c s :
  scalar c → utf8_head (utf8_encode c ++ s) = Some (length (utf8_encode c)) ∧
             (0 < length (utf8_encode c))%nat.
Proof.
  intros Hs. unfold utf8_encode.
  destruct (c <? 128) eqn:E1.
  { simpl. rewrite in_range_byte by lia.
    replace ((0 <=? c) && (c <=? 127)) with true by lia. split; [done|lia]. }
  destruct (c <? 2048) eqn:E2.
  { simpl. rewrite !in_range_byte by lia.
    replace ((0 <=? 192 + c / 64) && (192 + c / 64 <=? 127)) with false by lia.
    replace ((194 <=? 192 + c / 64) && (192 + c / 64 <=? 223)) with true by lia.
    replace ((128 <=? 128 + c mod 64) && (128 + c mod 64 <=? 191)) with true by lia.
    split; [done|lia]. }
  destruct (c <? 65536) eqn:E3.
  { simpl. rewrite !in_range_byte by lia.
    set (a := 224 + c / 4096) in *. set (b := 128 + c / 64 mod 64) in *.
    set (d := 128 + c mod 64) in *.
    replace ((0 <=? a) && (a <=? 127)) with false by lia.
    replace ((194 <=? a) && (a <=? 223)) with false by lia.
    replace ((224 <=? a) && (a <=? 239)) with true by lia.
    replace ((128 <=? d) && (d <=? 191)) with true by lia.
    rewrite andb_true_r.
    assert ((if (224 <=? a) && (a <=? 224) then (160 <=? b) && (b <=? 191)
             else if (237 <=? a) && (a <=? 237) then (128 <=? b) && (b <=? 159)
             else (128 <=? b) && (b <=? 191)) = true) as ->.
    { destruct ((224 <=? a) && (a <=? 224)) eqn:F1; [unfold a, b in *; lia|].
      destruct ((237 <=? a) && (a <=? 237)) eqn:F2; [|unfold b; lia].
      unfold a, b, scalar in *. lia. }
    split; [done|lia]. }
  simpl. unfold scalar in Hs. rewrite !in_range_byte by lia.
  set (a := 240 + c / 262144) in *. set (b := 128 + c / 4096 mod 64) in *.
  set (d := 128 + c / 64 mod 64) in *. set (e := 128 + c mod 64) in *.
  replace ((0 <=? a) && (a <=? 127)) with false by lia.
  replace ((194 <=? a) && (a <=? 223)) with false by lia.
  replace ((224 <=? a) && (a <=? 239)) with false by lia.
  replace ((240 <=? a) && (a <=? 244)) with true by lia.
  replace ((128 <=? d) && (d <=? 191)) with true by lia.
  replace ((128 <=? e) && (e <=? 191)) with true by lia.
  rewrite !andb_true_r.
  assert ((if (240 <=? a) && (a <=? 240) then (144 <=? b) && (b <=? 191)
           else if (244 <=? a) && (a <=? 244) then (128 <=? b) && (b <=? 143)
           else (128 <=? b) && (b <=? 191)) = true) as ->.
  { destruct ((240 <=? a) && (a <=? 240)) eqn:F1; [unfold a, b in *; lia|].
    destruct ((244 <=? a) && (a <=? 244)) eqn:F2; [|unfold b; lia].
    unfold a, b in *. lia. }
  split; [done|lia].
Qed.

Lemma utf8_valid_aux_spec fuel s :
  (length s ≤ fuel)%nat → utf8_valid_aux fuel s = true ↔ is_utf8 s.
Proof.
  revert s. induction fuel as [|f IH]; intros s Hl.
  { destruct s; [|simpl in Hl; lia]. simpl. split; [|done]. intros _. by exists []. }
  destruct s as [|b s].
  { simpl. split; [|done]. intros _. by exists []. }
  change (utf8_valid_aux (S f) (b :: s)) with
    (match utf8_head (b :: s) with
     | Some n => utf8_valid_aux f (drop n (b :: s)) | None => false end).
  split.
  - destruct (utf8_head (b :: s)) as [n|] eqn:E; [|done].
    intros H. apply utf8_head_encode in E as (c & Hc & Et & Hn & _).
    apply IH in H; [|rewrite drop_length; simpl in *; lia].
    destruct H as (cs & Hcs & Ed). exists (c :: cs). split; [by constructor|].
    simpl. by rewrite <-Et, <-Ed, take_drop.
  - intros (cs & Hcs & Es). destruct cs as [|c cs]; [done|].
    inversion Hcs; subst. simpl in Es.
    destruct (utf8_encode_head c (concat (map utf8_encode cs))) as [Eh Hpos]; [done|].
    rewrite Es, Eh. apply IH.
    + rewrite drop_app. apply (f_equal length) in Es. rewrite app_length in Es.
      simpl in *. lia.
    + rewrite drop_app. by exists cs.
Qed.

Lemma utf8_valid_spec s : utf8_valid s = true ↔ is_utf8 s.
Proof. apply utf8_valid_aux_spec. lia. Qed.

Lemma str_roundtrip : roundtrip enc_str dec_str is_rust_str.
Proof.
  intros b s [H1 H2]. unfold dec_str, enc_str. rewrite bytes_roundtrip by done.
  by rewrite (proj2 (utf8_valid_spec b)).
Qed.

Lemma dec_str_Some s b r :
  dec_str s = Some (b, r) → is_utf8 b ∧ ∃ u, u ≠ [] ∧ s = u ++ b ++ r.
Proof.
  unfold dec_str. destruct (dec_bytes s) as [[b' r']|] eqn:E; [|done].
  destruct (utf8_valid b') eqn:U; [|done]. intros [= <- <-].
  split; [by apply utf8_valid_spec|]. by apply dec_bytes_Some.
Qed.

Lemma str_consumes : consumes dec_str.
Proof.
  intros s b r H. apply dec_str_Some in H as (_ & u & Hu & ->).
  exists (u ++ b). split; [by destruct u|]. by rewrite app_assoc.
Qed.

Lemma array_roundtrip {A} (e : A → str) d P :
  roundtrip e d P →
  ∀ l s, Forall P l → dec_array d (length l) (enc_array e l ++ s) = Some (l, s).
Proof.
  intros H l. induction l as [|a l IH]; intros s Hl; [done|].
  inversion Hl; subst. unfold enc_array. simpl. rewrite <-app_assoc, H by done.
  fold (enc_array e l). by rewrite IH.
Qed.

Lemma dec_array_app {A} (d : parser A) n s l r :
  consumes d → dec_array d n s = Some (l, r) → (∃ u, s = u ++ r) ∧ length l = n.
Proof.
  intros Hd. revert s l r. induction n as [|n IH]; intros s l r; simpl.
  { intros [= <- <-]. split; [by exists []|done]. }
  destruct (d s) as [[a q]|] eqn:E; [|done].
  destruct (dec_array d n q) as [[l' q']|] eqn:E2; [|done]. intros [= <- <-].
  apply Hd in E as (u & _ & ->). apply IH in E2 as [[u' ->] Hlen].
  split; [exists (u ++ u'); by rewrite app_assoc|]. simpl. lia.
Qed.

Lemma dec_array_yields {A} (d : parser A) P n s l r :
  yields d P → dec_array d n s = Some (l, r) → Forall P l.
Proof.
  intros Hd. revert s l r. induction n as [|n IH]; intros s l r; simpl.
  { intros [= <- <-]. constructor. }
  destruct (d s) as [[a q]|] eqn:E; [|done].
  destruct (dec_array d n q) as [[l' q']|] eqn:E2; [|done]. intros [= <- <-].
  constructor; [by eapply Hd|by eapply IH].
Qed.

Lemma dec_items_fuel {A} (e : A → str) d P :
  roundtrip e d P → (∀ a, P a → e a ≠ []) →
  ∀ l s f, Forall P l → (length (enc_array e l) < f)%nat →
    dec_items f d (N.of_nat (length l)) (enc_array e l ++ s) = Some (l, s).
Proof.
  intros H Hne l. induction l as [|a l IH]; intros s f Hl Hf.
  { destruct f; [simpl in Hf; lia|done]. }
  inversion Hl; subst. destruct f as [|f]; [lia|].
  simpl dec_items. replace (N.of_nat (length (a :: l)) =? 0) with false by (simpl; lia).
  unfold enc_array. simpl. rewrite <-app_assoc, H by done. fold (enc_array e l).
  replace (N.of_nat (S (length l)) - 1) with (N.of_nat (length l)) by lia.
  rewrite IH; [done|done|].
  unfold enc_array in Hf. simpl in Hf. rewrite app_length in Hf.
  specialize (Hne a). destruct (e a); [naive_solver|]. simpl in Hf.
  fold (enc_array e l) in Hf. lia.
Qed.

Lemma seq_roundtrip {A} (e : A → str) d P :
  roundtrip e d P → (∀ a, P a → e a ≠ []) →
  roundtrip (enc_seq e) (dec_seq d) (λ l, Forall P l ∧ is_usize (length l)).
Proof.
  intros H Hne l s [Hl Hs]. unfold dec_seq, enc_seq.
  rewrite <-app_assoc, u64_roundtrip by done.
  apply (dec_items_fuel e d P); [done|done|done|]. rewrite app_length. lia.
Qed.

Lemma pair_roundtrip {A B} (ea : A → str) (eb : B → str) da db P Q :
  roundtrip ea da P → roundtrip eb db Q →
  roundtrip (enc_pair ea eb) (dec_pair da db) (λ x, P x.1 ∧ Q x.2).
Proof.
  intros Ha Hb [a b] s [H1 H2]. unfold dec_pair, enc_pair. simpl in *.
  rewrite <-app_assoc, Ha, Hb; done.
Qed.

Lemma access_roundtrip : roundtrip enc_access dec_access (λ _, True).
Proof. intros [[] [] [] [] []] s _; done. Qed.

Lemma enc_u64_ne n : enc_u64 n ≠ [].
Proof. unfold enc_u64. simpl. destruct (n <? 128); done. Qed.

(** Maps. *)
Lemma map_of_entries_snoc {V} (l : list (str * V)) kv :
  map_of_entries (l ++ [kv]) = <[kv.1 := kv.2]> (map_of_entries l).
Proof. unfold map_of_entries. by rewrite foldl_app. Qed.

Lemma map_of_entries_list {V} (l : list (str * V)) :
  NoDup l.*1 → map_of_entries l = list_to_map l.
Proof.
  induction l as [|kv l IH] using rev_ind; intros H; [done|].
  rewrite map_of_entries_snoc, IH.
  - rewrite fmap_app in H. apply NoDup_app in H as (_ & H & _).
    rewrite list_to_map_app. destruct kv as [k v]. simpl.
    rewrite insert_union_singleton_l, insert_empty.
    apply map_union_comm. apply map_disjoint_singleton_l.
    apply not_elem_of_list_to_map_1. intros Hin. apply (H k Hin). simpl. left.
  - rewrite fmap_app in H. by apply NoDup_app in H as (? & _ & _).
Qed.

Lemma map_of_entries_perm {V} (m : gmap str V) l :
  l ≡ₚ map_to_list m → map_of_entries l = m.
Proof.
  intros H. assert (NoDup l.*1) as Hnd.
  { rewrite H. apply NoDup_fst_map_to_list. }
  rewrite map_of_entries_list by done.
  rewrite (list_to_map_proper l (map_to_list m)) by done.
  apply list_to_map_to_list.
Qed.

Lemma map_roundtrip {V} (ev : V → str) (dv : parser V) (m : gmap str V)
  (l : list (str * V)) (s : str) :
  roundtrip ev dv (λ _, True) →
  l ≡ₚ map_to_list m →
  is_usize (size m) → (∀ k v, m !! k = Some v → is_rust_str k) →
  dec_map dv (enc_map ev l ++ s) = Some (m, s).
Proof.
  intros Hv Hl Hs Hk. unfold dec_map, enc_map.
  rewrite (seq_roundtrip (enc_pair enc_str ev) (dec_pair dec_str dv)
    (λ x, is_rust_str x.1 ∧ True)).
  - by rewrite (map_of_entries_perm m).
  - exact (pair_roundtrip enc_str ev dec_str dv is_rust_str (λ _, True) str_roundtrip Hv).
  - intros [k v] _. unfold enc_pair, enc_str, enc_bytes. simpl.
    pose proof (enc_u64_ne (N.of_nat (length k))). by destruct (enc_u64 _).
  - split.
    + apply Forall_forall. intros [k v] Hin. split; [|done]. rewrite Hl in Hin.
      apply elem_of_map_to_list in Hin. by eapply Hk.
    + rewrite Hl. unfold size, map_size in Hs. done.
Qed.

(** Policies. *)
Definition map_ok {V} (m : gmap str V) : Prop :=
  is_usize (size m) ∧ ∀ k v, m !! k = Some v → is_rust_str k.
Definition policy_ok (p : policy) : Prop :=
  map_ok (file_access p) ∧ map_ok (dir_access p) ∧ map_ok (regkey_access p).

Lemma policy_roundtrip p o s :
  enumerates p o → policy_ok p →
  dec_policy (enc_policy o (audit_only p) ++ s) =
    Some (mkPolicy [] ∅ (file_access p) (dir_access p) (regkey_access p) (audit_only p), s).
Proof.
  intros (H1 & H2 & H3) ([? ?] & [? ?] & [? ?]). unfold dec_policy, enc_policy.
  rewrite <-!app_assoc.
  rewrite (map_roundtrip _ _ (file_access p)) by (done || apply access_roundtrip).
  rewrite (map_roundtrip _ _ (dir_access p)) by (done || apply access_roundtrip).
  rewrite (map_roundtrip _ _ (regkey_access p)).
  - by rewrite bool_roundtrip.
  - intros x q _. apply (pair_roundtrip _ _ _ _ _ _ bool_roundtrip bool_roundtrip). done.
  - done.
  - done.
  - done.
Qed.

(** Messages. *)
Lemma request_roundtrip m s : request_ok m → dec_request (enc_request m ++ s) = Some (m, s).
Proof.
  intros H. unfold dec_request. destruct m as [|path flags|nb args ip]; simpl in H.
  - unfold enc_request. by rewrite u32_roundtrip by lia.
  - destruct H as [H1 H2]. unfold enc_request. rewrite <-!app_assoc.
    rewrite u32_roundtrip by lia. rewrite str_roundtrip by done. by rewrite i32_roundtrip.
  - destruct H as (H1 & H2 & H3 & H4). unfold enc_request. rewrite <-!app_assoc.
    rewrite u32_roundtrip by lia. rewrite i64_roundtrip by done. rewrite <-H2.
    rewrite (array_roundtrip _ _ is_i64) by (done || apply i64_roundtrip).
    by rewrite i64_roundtrip.
Qed.

Lemma syscall_result_roundtrip code s :
  is_i64 code → dec_response (enc_response (OutSyscallResult code) ++ s) =
    Some (RespSyscallResult code, s).
Proof.
  intros H. unfold dec_response, enc_response. rewrite <-!app_assoc.
  rewrite u32_roundtrip by lia. by rewrite i64_roundtrip.
Qed.

Lemma initialization_roundtrip p o f s :
  enumerates p o → policy_ok p → is_usize (length f) →
  dec_response (enc_response (OutInitialization o (audit_only p) f) ++ s) =
    Some (RespInitialization
      (mkPolicy [] ∅ (file_access p) (dir_access p) (regkey_access p) (audit_only p)) f, s).
Proof.
  intros H1 H2 H3. unfold dec_response, enc_response. rewrite <-!app_assoc.
  rewrite u32_roundtrip by lia. rewrite policy_roundtrip by done.
  by rewrite bytes_roundtrip.
Qed.

(** Hostile input. *)
Lemma dec_request_safe s m r :
  dec_request s = Some (m, r) →
  (∃ u, s = u ++ r) ∧
  match m with
  | ReqInitialization => True
  | ReqOpenFile path flags => is_utf8 path ∧ is_i32 flags ∧ ∃ a b, s = a ++ path ++ b
  | ReqSyscall nb args ip =>
      is_i64 nb ∧ length args = 6%nat ∧ Forall is_i64 args ∧ is_i64 ip
  end.
Proof.
  unfold dec_request. destruct (dec_u32 s) as [[n s1]|] eqn:E0; [|done].
  apply u32_consumes in E0 as (u0 & _ & ->).
  destruct n as [|p]; [|destruct p as [p|p|]; [done| |]].
  - intros [= <- <-]. split; [by eexists|done].
  - destruct p; try done.
    destruct (dec_i64 s1) as [[nb s2]|] eqn:E1; [|done].
    destruct (dec_array dec_i64 6 s2) as [[args s3]|] eqn:E2; [|done].
    destruct (dec_i64 s3) as [[ip s4]|] eqn:E3; [|done]. intros [= <- <-].
    pose proof (i64_yields _ _ _ E1). pose proof (i64_yields _ _ _ E3).
    pose proof (dec_array_yields _ _ _ _ _ _ i64_yields E2).
    apply i64_consumes in E1 as (u1 & _ & ->).
    apply (dec_array_app _ _ _ _ _ i64_consumes) in E2 as [[u2 ->] Hlen].
    apply i64_consumes in E3 as (u3 & _ & ->).
    split; [|done]. exists (u0 ++ u1 ++ u2 ++ u3). by rewrite !app_assoc.
  - destruct (dec_str s1) as [[path s2]|] eqn:E1; [|done].
    destruct (dec_i32 s2) as [[flags s3]|] eqn:E2; [|done]. intros [= <- <-].
    pose proof (i32_yields _ _ _ E2).
    apply dec_str_Some in E1 as (Hu & u1 & _ & ->).
    apply i32_consumes in E2 as (u2 & _ & ->).
    split; [exists (u0 ++ u1 ++ path ++ u2); by rewrite !app_assoc|].
    split_and!; [done|done|]. exists (u0 ++ u1), (u2 ++ s3). by rewrite !app_assoc.
Qed.

(** Encoded sizes. *)
Lemma enc_varint_length max n : (length (enc_varint max n) ≤ max)%nat.
Proof.
  revert n. induction max as [|m IH]; intros n; simpl; [lia|].
  destruct (n <? 128); simpl; [lia|]. specialize (IH (n / 128)). lia.
Qed.

Lemma syscall_result_size code : (length (enc_response (OutSyscallResult code)) ≤ 15)%nat.
Proof.
  unfold enc_response. rewrite app_length. unfold enc_u32, enc_i64, enc_u64.
  pose proof (enc_varint_length 5 1). pose proof (enc_varint_length 10 (zigzag code)). lia.
Qed.

(** The fuel of [dec_items] is irrelevant above the input length. *)
Lemma dec_items_fuel_irrelevant {A} (d : parser A) f f' n s :
  consumes d → (length s < f)%nat → (length s < f')%nat →
  dec_items f d n s = dec_items f' d n s.
Proof.
  intros Hd. revert f' n s. induction f as [|f IH]; intros f' n s Hf Hf'; [lia|].
  destruct f' as [|f']; [lia|]. simpl. destruct (n =? 0); [done|].
  destruct (d s) as [[a r]|] eqn:E; [|done].
  apply Hd in E as (u & Hu & ->). rewrite app_length in *.
  destruct u; [done|]. simpl in *. by rewrite (IH f') by lia.
Qed.

(** Dropping a trailing ASCII byte keeps a string valid UTF-8. *)
Lemma utf8_encode_last c b q :
  Byte.to_N b < 128 → utf8_encode c = q ++ [b] → q = [].
Proof.
  intros Hb. unfold utf8_encode.
  assert (∀ n, 128 + n mod 64 < 256) as Hm by (intros n; lia).
  assert (∀ n, byte_of_N (128 + n mod 64) ≠ b) as Hne.
  { intros n E. apply (f_equal Byte.to_N) in E.
    rewrite to_N_byte_of_N, N.mod_small in E by apply Hm. lia. }
  assert (∀ x n (q : str), x ++ [byte_of_N (128 + n mod 64)] = q ++ [b] → q = []) as Hx.
  { intros x n q' E. apply app_inj_2 in E as [_ E]; [|done]. injection E as E.
    by apply Hne in E. }
  destruct (c <? 128).
  { intros E. destruct q as [|x [|y q]]; [done|discriminate|discriminate]. }
  destruct (c <? 2048); [|destruct (c <? 65536)]; intros E.
  - by apply (Hx [byte_of_N (192 + c / 64)] c).
  - by apply (Hx [byte_of_N (224 + c / 4096); byte_of_N (128 + c / 64 mod 64)] c).
  - by apply (Hx [byte_of_N (240 + c / 262144); byte_of_N (128 + c / 4096 mod 64);
                  byte_of_N (128 + c / 64 mod 64)] c).
Qed.

Lemma utf8_encode_ne c : utf8_encode c ≠ [].
Proof. unfold utf8_encode. by repeat case_match. Qed.

Lemma is_utf8_strip s b : Byte.to_N b < 128 → is_utf8 (s ++ [b]) → is_utf8 s.
Proof.
  intros Hb (cs & Hcs & E).
  destruct cs as [|c cs _] using rev_ind; [by destruct s|].
  rewrite map_app, concat_app in E. simpl in E. rewrite app_nil_r in E.
  apply Forall_app in Hcs as [Hcs _].
  destruct (utf8_encode c) as [|x l _] eqn:El using rev_ind; [by apply utf8_encode_ne in El|].
  assert (x = b) as ->.
  { rewrite app_assoc in E. apply app_inj_2 in E as [_ E]; [|done]. by injection E. }
  apply utf8_encode_last in El as ->; [|done]. simpl in E.
  apply app_inj_2 in E as [-> _]; [|done]. by exists cs.
Qed.

Lemma is_rust_str_strip s : is_rust_str s → is_rust_str (strip_suffix_or_self slash s).
Proof.
  intros [H1 H2]. unfold strip_suffix_or_self.
  destruct (strip_suffix slash s) as [q|] eqn:E; [|done].
  apply strip_suffix_Some in E as ->. split.
  - apply is_utf8_strip in H1; [done|by vm_compute].
  - unfold is_usize in *. rewrite app_length in H2. simpl in H2. lia.
Qed.
