(** Property C124: a log message tells what was asked and what was answered. *)
From stdpp Require Import prelude gmap.
From Coq Require Import Strings.Byte.
From Verif Require Import Bytes BytesProofs PolicyModel PolicySpec PolicyProofs LinuxPolicyModel
  LinuxPolicySpec LinuxPolicyProofs LinuxPolicyProps WinPolicyModel LogModel.
Local Open Scope Z_scope.

(* ---------------------------------------------------------------- specification *)

(** Requests as they come over the wire: [c_int] flags, [i64] words, six arguments. *)
Definition is_i32 (z : Z) : Prop := - 2 ^ 31 ≤ z < 2 ^ 31.
Definition is_i64 (z : Z) : Prop := - 2 ^ 63 ≤ z < 2 ^ 63.
Definition typed (r : lx_request) : Prop :=
  match r with
  | FileOpen _ flags => is_i32 flags
  | Syscall nb args ip => is_i64 nb ∧ length args = 6%nat ∧ Forall is_i64 args ∧ is_i64 ip
  end.

Definition newline : byte := x0a.

(** Full statement: messages tell requests and verdicts apart, and each is one line. *)
Definition C124_full : Prop := ∀ p q r r',
  typed r → typed r' →
  newline ∉ snd (logged p r) ∧
  (snd (logged p r) = snd (logged q r') → r = r' ∧ raw_verdict p r = raw_verdict q r').

(* ---------------------------------------------------------------- numbers *)

Definition dval (c : byte) : N :=
  let n := Byte.to_N c in if (n <=? 57)%N then (n - 48)%N else (n - 55)%N.
Definition undigits (base a : N) (s : str) : N := foldl (λ a c, a * base + dval c)%N a s.

Lemma sixteen (P : N → Prop) :
  P 0%N → P 1%N → P 2%N → P 3%N → P 4%N → P 5%N → P 6%N → P 7%N → P 8%N → P 9%N → P 10%N →
  P 11%N → P 12%N → P 13%N → P 14%N → P 15%N → ∀ d, (d < 16)%N → P d.
Proof.
  intros. assert (d = 0 ∨ d = 1 ∨ d = 2 ∨ d = 3 ∨ d = 4 ∨ d = 5 ∨ d = 6 ∨ d = 7 ∨ d = 8 ∨
    d = 9 ∨ d = 10 ∨ d = 11 ∨ d = 12 ∨ d = 13 ∨ d = 14 ∨ d = 15)%N as Hd by lia.
  repeat destruct Hd as [-> |Hd]; [done..|]. by subst d.
Qed.
Lemma dval_digit d : (d < 16)%N → dval (digit d) = d.
Proof. revert d. apply sixteen; by vm_compute. Qed.
Definition digit_chars : str := lit "0123456789ABCDEF".
Lemma digit_char d : (d < 16)%N → digit d ∈ digit_chars.
Proof.
  revert d. unfold digit_chars. apply sixteen;
    apply (bool_decide_unpack _); vm_compute; exact I.
Qed.

Lemma undigits_aux base fuel : (2 ≤ base ≤ 16)%N → ∀ n acc,
  (n < 2 ^ N.of_nat (S fuel))%N →
  undigits base 0 (digits_aux (S fuel) base n acc) = undigits base n acc.
Proof.
  intros Hb. induction fuel as [|fuel IH]; intros n acc Hn.
  - cbn [digits_aux]. change (2 ^ N.of_nat 1)%N with 2%N in Hn.
    rewrite (proj2 (N.ltb_lt n base)) by lia. unfold undigits. cbn [foldl].
    rewrite N.mod_small, dval_digit by lia. done.
  - change (digits_aux (S (S fuel)) base n acc) with
      (let acc' := digit (n mod base)%N :: acc in
       if (n <? base)%N then acc' else digits_aux (S fuel) base (n / base)%N acc').
    cbn zeta. assert (n mod base < base)%N by (apply N.mod_lt; lia).
    destruct (N.ltb_spec n base) as [Hlt|Hge].
    + unfold undigits. cbn [foldl]. rewrite N.mod_small, dval_digit by lia. done.
    + rewrite IH.
      * unfold undigits. cbn [foldl]. rewrite dval_digit by lia. f_equal.
        pose proof (N.div_mod' n base). lia.
      * rewrite Nat2N.inj_succ, N.pow_succ_r' in Hn.
        apply N.div_lt_upper_bound; [lia|]. nia.
Qed.
Lemma undigits_digits base n : (2 ≤ base ≤ 16)%N → undigits base 0 (digits base n) = n.
Proof.
  intros Hb. unfold digits. rewrite undigits_aux; [done|done|].
  destruct (decide (n = 0%N)) as [-> |Hn]; [done|].
  rewrite Nat2N.inj_succ, N2Nat.id. apply N.log2_spec. lia.
Qed.
Lemma digits_inj base n m : (2 ≤ base ≤ 16)%N → digits base n = digits base m → n = m.
Proof. intros Hb H. by rewrite <-(undigits_digits base n), H, undigits_digits. Qed.

Lemma digits_aux_chars base fuel : (2 ≤ base ≤ 16)%N → ∀ n acc,
  Forall (.∈ digit_chars) acc → Forall (.∈ digit_chars) (digits_aux fuel base n acc).
Proof.
  intros Hb. induction fuel as [|fuel IH]; intros n acc Ha; cbn [digits_aux]; [done|].
  assert (Forall (.∈ digit_chars) (digit (n mod base)%N :: acc)) as Ha'.
  { constructor; [|done]. apply digit_char. pose proof (N.mod_lt n base). lia. }
  destruct (n <? base)%N; [done|]. by apply IH.
Qed.
Lemma digits_no base n c : (2 ≤ base ≤ 16)%N → c ∉ digit_chars → c ∉ digits base n.
Proof.
  intros Hb Hc Hi. pose proof (digits_aux_chars base (S (N.to_nat (N.log2 n))) Hb n []
    (Forall_nil_2 _)) as H. rewrite Forall_forall in H. by apply Hc, H.
Qed.
Lemma digits_len k fuel : ∀ n acc,
  (n < 16 ^ N.of_nat (S k))%N → (length (digits_aux fuel 16 n acc) ≤ S k + length acc)%nat.
Proof.
  induction k as [|k IHk] in fuel |- *; intros n acc Hn.
  - destruct fuel as [|fuel]; cbn [digits_aux]; [lia|].
    change (16 ^ N.of_nat 1)%N with 16%N in Hn.
    rewrite (proj2 (N.ltb_lt n 16)) by lia. done.
  - destruct fuel as [|fuel]; cbn [digits_aux]; [lia|].
    destruct (n <? 16)%N; [cbn [length]; lia|].
    etrans; [apply IHk|cbn [length]; lia].
    rewrite (Nat2N.inj_succ (S k)), N.pow_succ_r' in Hn.
    apply N.div_lt_upper_bound; [lia|exact Hn].
Qed.

Lemma fmt_hex_no bits z c : c ∉ x78 :: digit_chars → c ∉ fmt_hex bits z.
Proof.
  intros Hc. unfold fmt_hex. rewrite not_elem_of_app. split.
  - intros Hi. apply Hc. change (lit "0x") with [x30; x78] in Hi.
    apply elem_of_cons in Hi as [-> |Hi%elem_of_list_singleton].
    + apply (bool_decide_unpack _). vm_compute. exact I.
    + rewrite Hi. left.
  - apply digits_no; [lia|]. intros Hi. apply Hc. by right.
Qed.
Lemma fmt_hex_inj bits z w :
  0 < bits → - 2 ^ (bits - 1) ≤ z < 2 ^ (bits - 1) → - 2 ^ (bits - 1) ≤ w < 2 ^ (bits - 1) →
  fmt_hex bits z = fmt_hex bits w → z = w.
Proof.
  intros Hb Hz Hw E. unfold fmt_hex in E. apply app_inv_head in E.
  apply digits_inj in E; [|lia].
  assert (0 < 2 ^ bits) by (apply Z.pow_pos_nonneg; lia).
  pose proof (Z.mod_pos_bound z (2 ^ bits)). pose proof (Z.mod_pos_bound w (2 ^ bits)).
  assert (z mod 2 ^ bits = w mod 2 ^ bits) as E' by lia.
  assert (2 ^ bits = 2 * 2 ^ (bits - 1)) as Hp.
  { rewrite <-Z.pow_succ_r by lia. f_equal. lia. }
  pose proof (Z.div_mod z (2 ^ bits)). pose proof (Z.div_mod w (2 ^ bits)).
  set (P := 2 ^ bits) in *. set (Q := 2 ^ (bits - 1)) in *. clearbody P Q.
  assert (z - w = P * (z / P - w / P)) by lia.
  assert (z / P - w / P = 0) by nia. nia.
Qed.
Lemma fmt_hex32_len z : (3 ≤ length (fmt_hex 32 z) ≤ 10)%nat.
Proof.
  unfold fmt_hex. rewrite app_length. change (length (lit "0x")) with 2%nat.
  pose proof (Z.mod_pos_bound z (2 ^ 32)) as Hm.
  set (n := Z.to_N (z mod 2 ^ 32)) in *.
  assert (length (digits 16 n) ≤ 8)%nat.
  { unfold digits. etrans; [apply (digits_len 7)|done].
    change (16 ^ N.of_nat 8)%N with (2 ^ 32)%N. unfold n. lia. }
  assert (digits 16 n ≠ []).
  { intros E. pose proof (undigits_digits 16 n) as Hu. rewrite E in Hu.
    unfold digits in E. cbn [digits_aux] in E. destruct (n <? 16)%N; [done|].
    assert (∀ f n acc, acc ≠ [] → digits_aux f 16 n acc ≠ []) as Hne.
    { induction f as [|f IH]; intros n' acc Ha; cbn [digits_aux]; [done|].
      destruct (n' <? 16)%N; [done|]. by apply IH. }
    by apply Hne in E. }
  destruct (digits 16 n); [done|]. cbn [length] in *. lia.
Qed.
Lemma fmt_int_no z c : c ∉ x2d :: digit_chars → c ∉ fmt_int z.
Proof.
  intros Hc. assert (c ∉ digit_chars) by (intros Hi; apply Hc; by right).
  unfold fmt_int. destruct (z <? 0).
  - rewrite not_elem_of_app. split; [|by apply digits_no].
    intros Hi%elem_of_list_singleton. apply Hc. rewrite Hi. left.
  - by apply digits_no.
Qed.
Lemma fmt_int_inj z w : fmt_int z = fmt_int w → z = w.
Proof.
  unfold fmt_int, fmt_dec. intros E.
  assert (∀ n s, lit "-" ++ s ≠ digits 10 n) as Hd.
  { intros n s Hs. apply (digits_no 10 n x2d); [lia| |rewrite <-Hs; left].
    apply (bool_decide_unpack _). vm_compute. exact I. }
  destruct (Z.ltb_spec z 0), (Z.ltb_spec w 0).
  - apply app_inv_head, digits_inj in E; lia.
  - by apply Hd in E.
  - symmetry in E. by apply Hd in E.
  - apply digits_inj in E; lia.
Qed.

(* ---------------------------------------------------------------- texts *)

Lemma last_split (c : byte) (a a' b b' : str) :
  c ∉ b → c ∉ b' → a ++ c :: b = a' ++ c :: b' → a = a' ∧ b = b'.
Proof.
  intros H1 H2 E.
  pose proof (proj2 (rsplit_once_Some c (a ++ c :: b) a b) (conj eq_refl H1)) as S1.
  pose proof (proj2 (rsplit_once_Some c (a' ++ c :: b') a' b') (conj eq_refl H2)) as S2.
  rewrite E, S2 in S1. by injection S1.
Qed.
Lemma first_split (c : byte) (a a' b b' : str) :
  c ∉ a → c ∉ a' → a ++ c :: b = a' ++ c :: b' → a = a' ∧ b = b'.
Proof.
  intros H1 H2 E.
  pose proof (proj2 (split_once_Some c (a ++ c :: b) a b) (conj eq_refl H1)) as S1.
  pose proof (proj2 (split_once_Some c (a' ++ c :: b') a' b') (conj eq_refl H2)) as S2.
  rewrite E, S2 in S1. by injection S1.
Qed.

Ltac no_byte := apply (bool_decide_unpack _); vm_compute; exact I.
Lemma digits_aux_acc base fuel n acc :
  ∃ d, digits_aux fuel base n acc = d ++ acc.
Proof.
  revert n acc. induction fuel as [|fuel IH]; intros n acc; cbn [digits_aux]; [by exists []|].
  destruct (n <? base)%N; [by exists [digit (n mod base)%N]|].
  destruct (IH (n / base)%N (digit (n mod base)%N :: acc)) as [d ->].
  exists (d ++ [digit (n mod base)%N]). by rewrite <-app_assoc.
Qed.

Definition access_ends : list (str * byte) :=
  [(lit "can only rea", x64); (lit "can only writ", x65); (lit "has no access to that pat", x68)].
(** What the verdicts on a file look like. *)
Inductive file_verdict (path : str) : verdict → Prop :=
  | FVGranted : file_verdict path Granted
  | FVDelegation h : x3a ∉ h → newline ∉ h →
      file_verdict path (DelegationToSandboxNotSupported
        (lit "open flag " ++ h ++ lit " not supported"))
  | FVDenied a b c : x3a ∉ a → newline ∉ a → (b, c) ∈ access_ends →
      file_verdict path (DeniedByPolicy (lit "requests " ++ a ++ lit " access, but " ++ b ++ [c]))
  | FVInvalid : file_verdict path (InvalidRequestParameters (lit "path")
      (lit "path to open """ ++ path ++ lit """ is not in canonical form")).
Lemma raw_file_verdict p path flags : file_verdict path (raw_verdict p (FileOpen path flags)).
Proof.
  cbn [raw_verdict]. unfold check_file_open. cbv zeta.
  destruct (negb (Z.land flags (Z.lnot SUPPORTED_FILE_OPEN_FLAGS) =? 0)).
  { constructor; unfold fmt_hex_i32; apply (fmt_hex_no 32); no_byte. }
  destruct (negb (path_is_sane path)); [constructor|].
  set (a := get_filepath_allowed_access slash p path). clearbody a.
  set (rr := requests_read _). clearbody rr. set (rw := requests_write _). clearbody rw.
  destruct (negb (a_read a || a_write a) || _ || _); [|constructor].
  unfold denial_reason.
  destruct (a_read a); [|destruct (a_write a)].
  - apply (FVDenied _ _ (lit "can only rea") x64); [..|no_byte];
      destruct rr, rw; cbn [andb]; no_byte.
  - apply (FVDenied _ _ (lit "can only writ") x65); [..|no_byte];
      destruct rr, rw; cbn [andb]; no_byte.
  - apply (FVDenied _ _ (lit "has no access to that pat") x68); [..|no_byte];
      destruct rr, rw; cbn [andb]; no_byte.
Qed.

Lemma show_file_inj path path' flags flags' :
  is_i32 flags → is_i32 flags' →
  show_request (FileOpen path flags) = show_request (FileOpen path' flags') →
  FileOpen path flags = FileOpen path' flags'.
Proof.
  intros Hf Hf' E. cbn [show_request] in E. apply app_inv_head in E.
  change (lit " with flags ") with (lit " with flags" ++ [x20]) in E.
  rewrite <-!app_assoc, !(app_assoc _ (lit " with flags")) in E.
  cbn [app] in E. apply last_split in E as [E1 E2]; [|apply fmt_hex_no; no_byte..].
  apply app_inv_tail in E1. apply fmt_hex_inj in E2; [|done..]. by subst.
Qed.
Lemma show_syscall_inj nb args ip nb' args' ip' t :
  typed (Syscall nb args ip) → typed (Syscall nb' args' ip') →
  show_request (Syscall nb args ip) ++ x20 :: t = show_request (Syscall nb' args' ip') ++ x20 :: t →
  Syscall nb args ip = Syscall nb' args' ip'.
Proof.
  intros (H1 & H2 & H3 & H4) (H1' & H2' & H3' & H4') E.
  do 7 (destruct args as [|? args]; [try done|]); [|done].
  do 7 (destruct args' as [|? args']; [try done|]); [|done].
  rewrite !Forall_cons in H3, H3'. destruct_and!.
  cbn [show_request nth] in E. rewrite <-!app_assoc in E.
  apply app_inv_head in E.
  change (lit " with arguments (") with (x20 :: lit "with arguments (") in E.
  change (lit ", ") with (x2c :: [x20]) in E.
  change (lit ") at address ") with (x29 :: lit " at address ") in E.
  rewrite <-!app_comm_cons in E.
  Ltac next_split E E1 := apply first_split in E as [E1 E];
    [|first [apply fmt_int_no|apply fmt_hex_no]; no_byte..];
    first [apply fmt_int_inj in E1|apply fmt_hex_inj in E1; [|done..]].
  Ltac next_head E := first [apply app_inv_head in E|apply (f_equal tail) in E; cbn [tail app] in E].
  next_split E E1. next_head E. next_split E E2. next_head E. next_split E E3. next_head E.
  next_split E E4. next_head E. next_split E E5. next_head E. next_split E E6. next_head E.
  next_split E E7. next_head E. next_split E E8. by subst.
Qed.

Lemma colon_split (x x' t t' w w' : str) :
  x3a ∉ w → x3a ∉ w' → x ++ (t ++ lit ": ") ++ w = x' ++ (t' ++ lit ": ") ++ w' →
  x ++ t = x' ++ t' ∧ w = w'.
Proof.
  intros H H' E. rewrite <-!app_assoc, !(app_assoc _ t), !(app_assoc _ t') in E.
  change (lit ": ") with (x3a :: [x20]) in E. rewrite <-!app_comm_cons in E.
  apply last_split in E as [-> E].
  - split; [done|]. by apply (app_inv_head [x20]) in E.
  - change (x3a ∉ [x20] ++ w). rewrite not_elem_of_app. split; [no_byte|done].
  - change (x3a ∉ [x20] ++ w'). rewrite not_elem_of_app. split; [no_byte|done].
Qed.
Lemma last_byte (a a' : str) (c c' : byte) : a ++ [c] = a' ++ [c'] → c = c'.
Proof. intros E. by apply app_inj_tail in E as [_ E]. Qed.

Lemma flag_reason_no_colon h :
  x3a ∉ h → x3a ∉ lit "open flag " ++ h ++ lit " not supported".
Proof. intros H. rewrite !not_elem_of_app. split; [no_byte|split; [done|no_byte]]. Qed.
Lemma denied_reason_no_colon a b c :
  x3a ∉ a → (b, c) ∈ access_ends →
  x3a ∉ lit "requests " ++ a ++ lit " access, but " ++ b ++ [c].
Proof.
  intros H Hb. rewrite !not_elem_of_app. split; [no_byte|split; [done|split; [no_byte|]]].
  unfold access_ends in Hb. rewrite !elem_of_cons in Hb.
  destruct Hb as [E|[E|[E|E]]]; [injection E as -> ->; split; no_byte..|by apply elem_of_nil in E].
Qed.
Lemma access_end b c : (b, c) ∈ access_ends → c ≠ x6d.
Proof.
  intros Hb. unfold access_ends in Hb. rewrite !elem_of_cons in Hb.
  destruct Hb as [E|[E|[E|E]]]; [injection E as _ ->; discriminate..|by apply elem_of_nil in E].
Qed.
Definition with_flags : str := lit " with flags ".
(** The path is written twice, but two of them cannot be mistaken. *)
Lemma twice (p p' f f' b : str) :
  (3 ≤ length f ≤ 10)%nat → (3 ≤ length f' ≤ 10)%nat →
  p ++ with_flags ++ f ++ b ++ p = p' ++ with_flags ++ f' ++ b ++ p' → p = p' ∧ f = f'.
Proof.
  assert (∀ p p' f f' : str, (3 ≤ length f ≤ 10)%nat → (3 ≤ length f' ≤ 10)%nat →
    p ++ with_flags ++ f ++ b ++ p = p' ++ with_flags ++ f' ++ b ++ p' →
    ¬ (length p < length p')%nat) as Hlt.
  { clear. intros p p' f f' Hf Hf' E Hl.
    pose proof (f_equal length E) as El. rewrite !app_length in El.
    apply app_eq_inv in E as [(k & -> & E)|(k & -> & E)].
    - rewrite app_length in *. lia.
    - rewrite app_length in *. assert (1 ≤ length k ≤ 3)%nat as Hk by lia.
      unfold with_flags in E.
      do 4 (destruct k as [|? k]; [cbn [length] in Hk; try lia; discriminate E|]).
      cbn [length] in Hk. lia. }
  intros Hf Hf' E. pose proof (Hlt _ _ _ _ Hf Hf' E). pose proof (Hlt _ _ _ _ Hf' Hf (eq_sym E)).
  apply app_inj_1 in E as [-> E]; [|unfold str in *; lia]. split; [done|].
  apply app_inv_head in E. rewrite !app_assoc in E. apply app_inv_tail in E.
  by apply app_inv_tail in E.
Qed.

(* ---------------------------------------------------------------- theorems *)

(** The level says whether the rules grant the request, in audit mode too. *)
Theorem C124_level audit calls r :
  fst (logged (build audit calls) r) = Info ↔
  match r with
  | FileOpen path flags => should_grant (rules_of calls) path flags
  | Syscall _ _ _ => False
  end.
Proof.
  unfold logged. destruct r as [path flags|nb args ip]; [|done].
  rewrite <-(build_granted audit). cbn [raw_verdict].
  by destruct (check_file_open (build audit calls) path flags).
Qed.
Print Assumptions C124_level.

(** The text says which request it was and what the verdict was, whatever the policies and
    whatever the worker puts in its paths. *)
Theorem C124_readable_partial p q r r' :
  typed r → typed r' → snd (logged p r) = snd (logged q r') →
  r = r' ∧ raw_verdict p r = raw_verdict q r'.
Proof.
  intros Ht Ht' E. unfold logged in E.
  destruct r as [path flags|nb args ip], r' as [path' flags'|nb' args' ip'].
  - pose proof (raw_file_verdict p path flags) as V.
    pose proof (raw_file_verdict q path' flags') as V'.
    cbn [typed] in Ht, Ht'.
    destruct V as [|h Hh Hn|a b c Ha Hn Hb|], V' as [|h' Hh' Hn'|a' b' c' Ha' Hn' Hb'|];
      cbn [log_record snd] in E; try discriminate E.
    + apply app_inv_head, show_file_inj in E; done.
    + apply app_inv_head, (colon_split _ _ (lit " but delegation is not supported")
        (lit " but delegation is not supported")) in E as [E1 ->];
        [|by apply flag_reason_no_colon..].
      apply app_inv_tail, show_file_inj in E1; done.
    + apply app_inv_head, (colon_split _ _ (lit " but delegation is not supported")
        (lit " but it is not allowed by its policy")) in E as [_ E];
        [|by apply flag_reason_no_colon|by eapply denied_reason_no_colon].
      discriminate E.
    + change (lit " not supported") with (lit " not supporte" ++ [x64]) in E.
      change (lit """ is not in canonical form") with (lit """ is not in canonical for" ++ [x6d]) in E.
      rewrite !app_assoc in E. by apply last_byte in E.
    + apply app_inv_head, (colon_split _ _ (lit " but it is not allowed by its policy")
        (lit " but delegation is not supported")) in E as [_ E];
        [|by eapply denied_reason_no_colon|by apply flag_reason_no_colon].
      discriminate E.
    + apply app_inv_head, (colon_split _ _ (lit " but it is not allowed by its policy")
        (lit " but it is not allowed by its policy")) in E as [E1 ->];
        [|by eapply denied_reason_no_colon..].
      apply app_inv_tail, show_file_inj in E1; done.
    + change (lit """ is not in canonical form") with (lit """ is not in canonical for" ++ [x6d]) in E.
      rewrite !app_assoc in E. apply last_byte in E. by apply access_end in Hb.
    + change (lit " not supported") with (lit " not supporte" ++ [x64]) in E.
      change (lit """ is not in canonical form") with (lit """ is not in canonical for" ++ [x6d]) in E.
      rewrite !app_assoc in E. by apply last_byte in E.
    + change (lit """ is not in canonical form") with (lit """ is not in canonical for" ++ [x6d]) in E.
      rewrite !app_assoc in E. apply last_byte in E. by apply access_end in Hb'.
    + cbn [show_request] in E. rewrite <-!app_assoc in E.
      do 2 apply app_inv_head in E. rewrite !app_assoc in E. apply app_inv_tail in E.
      rewrite <-!app_assoc in E.
      pose proof (fmt_hex32_len flags) as L. pose proof (fmt_hex32_len flags') as L'.
      apply (twice path path' (fmt_hex 32 flags) (fmt_hex 32 flags')
        (lit " but ""path"" was unexpected: path to open """) L L') in E as [-> E].
      apply fmt_hex_inj in E; [|done..]. by subst.
  - exfalso. pose proof (raw_file_verdict p path flags) as V.
    destruct V; cbn [raw_verdict log_record snd show_request] in E; discriminate E.
  - exfalso. pose proof (raw_file_verdict q path' flags') as V.
    destruct V; cbn [raw_verdict log_record snd show_request] in E; discriminate E.
  - cbn [raw_verdict log_record snd] in E. apply app_inv_head in E.
    apply (show_syscall_inj _ _ _ _ _ _ (lit "but delegation is not supported: " ++
      lit "unsupported system call") Ht Ht') in E. by rewrite E.
Qed.
Print Assumptions C124_readable_partial.

(** Without a line break in the path, the text has none. *)
Theorem C124_one_line_partial p r :
  match r with FileOpen path _ => newline ∉ path | Syscall _ _ _ => True end →
  newline ∉ snd (logged p r).
Proof.
  intros Hr. unfold logged. destruct r as [path flags|nb args ip].
  - pose proof (raw_file_verdict p path flags) as V. unfold newline in *.
    assert (x0a ∉ show_request (FileOpen path flags)) as Hs.
    { cbn [show_request]. rewrite !not_elem_of_app.
      split; [no_byte|split; [done|split; [no_byte|apply fmt_hex_no; no_byte]]]. }
    set (t := show_request _) in *. clearbody t.
    destruct V as [|h _ Hh|a b c _ Ha Hb|]; cbn [log_record snd]; rewrite !not_elem_of_app.
    + split; [no_byte|done].
    + split; [no_byte|split; [done|split; [no_byte|split; [no_byte|split; [done|no_byte]]]]].
    + split; [no_byte|split; [done|split; [no_byte|split; [no_byte|split; [done|
        split; [no_byte|]]]]]].
      unfold access_ends in Hb. rewrite !elem_of_cons in Hb.
      destruct Hb as [E|[E|[E|E]]];
        [injection E as -> ->; split; no_byte..|by apply elem_of_nil in E].
    + split; [no_byte|split; [done|split; [no_byte|split; [no_byte|split; [no_byte|
        split; [no_byte|split; [done|no_byte]]]]]]].
  - cbn [raw_verdict log_record snd show_request]. unfold newline. rewrite !not_elem_of_app.
    repeat match goal with |- _ ∧ _ => split end;
      first [apply fmt_hex_no; no_byte|apply fmt_int_no; no_byte|no_byte].
Qed.
Print Assumptions C124_one_line_partial.

(** But nothing is escaped: a line in the middle of any text is a line of the text. *)
Lemma line_inside (a l b : str) :
  newline ∉ l → l ∈ split newline (a ++ newline :: l ++ newline :: b).
Proof.
  intros Hl. remember (length a) as n eqn:Hn. revert a Hn.
  induction n as [n IH] using lt_wf_ind. intros a Hn.
  destruct (decide (newline ∈ a)) as [Hi|Hi].
  - apply elem_of_list_split_l in Hi as (a1 & a2 & -> & Ha1).
    rewrite <-app_assoc, <-app_comm_cons, split_app by done. right.
    apply (IH (length a2)); [|done]. rewrite app_length in Hn. cbn [length] in Hn. lia.
  - rewrite split_app by done. right. rewrite split_app by done. left.
Qed.

(** A worker can have any line it likes written into the log, whatever its policy. *)
Theorem C124_forged_refuted p (l : str) :
  newline ∉ l → ∃ r, typed r ∧ l ∈ split newline (snd (logged p r)).
Proof.
  intros Hl. exists (FileOpen (newline :: l ++ [newline]) 0). split; [done|].
  unfold logged. cbn [show_request].
  destruct (raw_verdict p (FileOpen (newline :: l ++ [newline]) 0)); cbn [log_record snd];
    rewrite <-?app_assoc, <-?app_comm_cons, <-?app_assoc, (app_assoc _ (lit "file "));
    by apply line_inside.
Qed.
Print Assumptions C124_forged_refuted.

(** The same on Windows. *)
Theorem C124_forged_windows_refuted debug p (l : str) :
  newline ∉ l → ∃ r, l ∈ split newline (snd (win_logged debug p r)).
Proof.
  intros Hl. exists (WinRegKeyOpen (newline :: l ++ [newline]) 0 0 false).
  unfold win_logged. cbn [show_win_request].
  destruct (win_raw_verdict debug p _); cbn [log_record snd];
    rewrite <-?app_assoc, <-?app_comm_cons, <-?app_assoc, (app_assoc _ (lit "registry key "));
    by apply line_inside.
Qed.
Print Assumptions C124_forged_windows_refuted.

(** On Windows the contents of extended attributes are left out: whatever the policy, any
    request with some has the message of one with others. *)
Definition other_ea (f : file_request) (ea : str) : file_request :=
  mkFileReq (fr_path f) (fr_access f) (fr_attributes f) (fr_share f) (fr_disposition f)
    (fr_options f) ea.
Theorem C124_windows_ea_refuted debug p f ea :
  length ea = length (fr_ea f) →
  win_logged debug p (WinFileOpen (other_ea f ea)) = win_logged debug p (WinFileOpen f).
Proof.
  intros Hl. destruct f as [path access attributes share disposition options ea'].
  cbn [fr_ea] in Hl. unfold win_logged, other_ea. cbn [show_win_request fr_path fr_access
    fr_attributes fr_share fr_disposition fr_options fr_ea].
  destruct ea as [|x ea], ea' as [|y ea']; [done|done|done|].
  rewrite Hl. f_equal.
Qed.
Print Assumptions C124_windows_ea_refuted.

Theorem C124_refuted : ¬ C124_full.
Proof.
  intros H. destruct (H nothing_allowed nothing_allowed (FileOpen [newline] 0)
    (FileOpen [newline] 0)) as [Hn _]; [done..|].
  apply Hn. apply (bool_decide_unpack _). vm_compute. exact I.
Qed.
Print Assumptions C124_refuted.

(** A refused request whose log reads as if another one had been granted. *)
Example C124_example :
  logged (build false [CallRule (AllowFileRead (lit "/etc/hosts"))])
    (FileOpen (lit "/etc/hosts") (Z.lor O_WRONLY O_CLOEXEC)) =
  (Warn, lit "Worker tried to access file /etc/hosts with flags 0x80001 but it is not allowed by its policy: requests write-only access, but can only read") ∧
  snd (logged (build false []) (Syscall (-1) [0; 1; 2; 3; 4; -1] 4096)) =
  lit "Worker tried to access syscall nb#-1 with arguments (0x0, 0x1, 0x2, 0x3, 0x4, 0xFFFFFFFFFFFFFFFF) at address 0x1000 but delegation is not supported: unsupported system call" ∧
  lit "Worker granted access to file /etc/shadow with flags 0x0" ∈
    split newline (snd (logged nothing_allowed
      (FileOpen (lit "/x" ++ [newline] ++
                 lit "Worker granted access to file /etc/shadow with flags 0x0" ++ [newline]) 0))).
Proof.
  split; [by vm_compute|]. split; [by vm_compute|].
  apply (bool_decide_unpack _). vm_compute. exact I.
Qed.
