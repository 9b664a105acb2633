(** C147: calls between the library and Windows leave the stack as it was. *)
From stdpp Require Import prelude strings.
From Verif Require Import CallConvModel.
Local Open Scope Z_scope.
Local Coercion Z.of_nat : nat >-> Z.

(** A function of [k] arguments called with the stack pointer [s] owns what is below it and the
    words of its arguments. *)
Definition keeps_to_itself (ce : conv) (k : nat) (s : Z) (body : list Z → (Z → Z) → Z * (Z → Z)) : Prop :=
  ∀ args m x, s + word ce + area ce k ≤ x → (body args m).2 x = m x.
(** A call that went well: the function found the arguments, the stack pointer is where it was,
    and so is everything on the caller's part of the stack. *)
Definition call_ok (cr ce : conv) (k : nat) (args : list Z) (ret : Z) (m : mach) : Prop :=
  ∀ body, keeps_to_itself ce k (sp m - area cr (length args) - word cr) body →
    let '(found, _, m') := wcall cr ce k body args ret m in
    found = args ∧ sp m' = sp m ∧ ∀ x, sp m ≤ x → smem m' x = smem m x.

(** Every declared function of Windows, on both architectures; and every hook, called by a program
    as Windows' headers say. *)
Definition C147_full : Prop := ∀ a d k args ret m,
  (d_name d, k) ∈ windows_functions → length args = d_args d →
  (d ∈ calls_out → call_ok (conv_of a (d_abi d)) (windows_conv a) k args ret m) ∧
  (d ∈ calls_in → ∀ args', length args' = k →
     call_ok (windows_conv a) (conv_of a (d_abi d)) (d_args d) args' ret m).

Lemma put_other w p vs m x :
  0 < w → x < p ∨ p + w * length vs ≤ x → put_words w p vs m x = m x.
Proof.
  intros Hw. revert p. induction vs as [|v vs IH]; intros p Hx; [done|]. cbn [put_words length] in *.
  unfold upd. destruct (Z.eqb_spec x p) as [->|]; [lia|]. apply IH. lia.
Qed.
Lemma get_put w p vs m : 0 < w → get_words w p (length vs) (put_words w p vs m) = vs.
Proof.
  intros Hw. unfold get_words. revert p. induction vs as [|v vs IH]; intros p; [done|].
  cbn [length seq map put_words]. f_equal.
  - unfold upd. replace (p + w * 0%nat) with p by lia. by rewrite Z.eqb_refl.
  - rewrite <-seq_shift, map_map. etransitivity; [|apply (IH (p + w))].
    apply map_ext. intros i. unfold upd. replace (p + w * S i) with (p + w + w * i) by lia.
    destruct (Z.eqb_spec (p + w + w * i) p); [lia|done].
Qed.
Lemma get_ext w p n m m' :
  (∀ i : nat, (i < n)%nat → m (p + w * i) = m' (p + w * i)) → get_words w p n m = get_words w p n m'.
Proof.
  intros H. unfold get_words. apply map_ext_in. intros i Hi. apply in_seq in Hi. apply H. lia.
Qed.

(** Where the stack pointer is after any call. *)
Theorem C147_stack cr ce k body args ret m :
  cr ≠ Win64 → ce ≠ Win64 →
  sp (wcall cr ce k body args ret m).2 = sp m +
    (match ce with StdCall => 4 * Z.of_nat k | _ => 0 end) -
    (match cr with StdCall => 4 * Z.of_nat (length args) | _ => 0 end).
Proof.
  intros H1 H2. unfold wcall, caller_before. destruct (body _ _) as [r mem].
  destruct cr, ce; try done; cbn; lia.
Qed.
Print Assumptions C147_stack.

(** A call of a function as what it is goes well. *)
Theorem C147_matched c args ret m : call_ok c c (length args) args ret m.
Proof.
  intros body Hb. unfold wcall. destruct (body _ _) as [r mem] eqn:E.
  assert (∀ x, sp m ≤ x → mem x = smem (caller_before c args ret m) x) as Hm.
  { intros x Hx. specialize (Hb (callee_args c (length args) (caller_before c args ret m))
      (smem (caller_before c args ret m)) x). rewrite E in Hb. cbn [snd] in Hb. apply Hb. lia. }
  clear Hb E. split_and!.
  - unfold callee_args, caller_before. destruct c; cbn [sp smem rargs word area].
    + etransitivity; [|apply (get_put 4 (sp m - 4 * length args) args (smem m)); lia].
      replace (sp m - 4 * length args - 4 + 4) with (sp m - 4 * length args) by lia.
      apply get_ext. intros i Hi. unfold upd.
      destruct (Z.eqb_spec (sp m - 4 * length args + 4 * i) (sp m - 4 * length args - 4)); [lia|done].
    + etransitivity; [|apply (get_put 4 (sp m - 4 * length args) args (smem m)); lia].
      replace (sp m - 4 * length args - 4 + 4) with (sp m - 4 * length args) by lia.
      apply get_ext. intros i Hi. unfold upd.
      destruct (Z.eqb_spec (sp m - 4 * length args + 4 * i) (sp m - 4 * length args - 4)); [lia|done].
    + set (p := sp m - (32 + 8 * (length args - 4)%nat)).
      replace (take (length args) (take 4 args)) with (take 4 args)
        by (symmetry; apply take_ge; rewrite take_length; lia).
      etransitivity; [|apply (take_drop 4)]. f_equal.
      assert ((length args - 4)%nat = length (drop 4 args)) as Hl by (by rewrite drop_length).
      rewrite Hl. etransitivity; [|apply (get_put 8 (p + 32) (drop 4 args) (smem m)); lia].
      replace (p - 8 + 8 + 32) with (p + 32) by lia.
      apply get_ext. intros i Hi. unfold upd.
      destruct (Z.eqb_spec (p + 32 + 8 * i) (p - 8)); [lia|done].
  - unfold caller_before. destruct c; cbn; lia.
  - intros x Hx. cbn [caller_after callee_return smem]. rewrite Hm by done.
    unfold caller_before, upd. cbn [smem]. set (p := sp m - area c (length args)).
    assert (0 ≤ area c (length args) ∧ 0 < word c) as [Ha Hw] by (destruct c; cbn; lia).
    destruct (Z.eqb_spec x (p - word c)); [subst p; lia|].
    destruct c; cbn [area] in p; apply put_other; try lia; right; subst p; try lia.
    rewrite drop_length. lia.
Qed.
Print Assumptions C147_matched.

(** So do all calls of the code, but those of the two AppContainer functions on 32-bit Windows. *)
Theorem C147_partial a d k args ret m :
  (d_name d, k) ∈ windows_functions → length args = d_args d →
  (d ∈ calls_out → a = X64 ∨ d_abi d = AbiSystem → call_ok (conv_of a (d_abi d)) (windows_conv a) k args ret m) ∧
  (d ∈ calls_in → ∀ args', length args' = k →
     call_ok (windows_conv a) (conv_of a (d_abi d)) (d_args d) args' ret m).
Proof.
  intros Hk Hl. unfold windows_functions in Hk. split.
  - intros Hd Ha. assert (k = d_args d) as ->.
    { unfold calls_out in Hd. repeat (apply elem_of_cons in Hd as [->|Hd]; [cbn in Hk; set_solver|]).
      by apply elem_of_nil in Hd. }
    rewrite <-Hl. assert (conv_of a (d_abi d) = windows_conv a) as ->.
    { destruct Ha as [->| ->]; [done|by destruct a]. }
    apply C147_matched.
  - intros Hd args' Hl'. assert (k = d_args d ∧ d_abi d = AbiSystem) as [-> ->].
    { unfold calls_in in Hd. repeat (apply elem_of_cons in Hd as [->|Hd]; [cbn in *; set_solver|]).
      by apply elem_of_nil in Hd. }
    rewrite <-Hl'. assert (conv_of a AbiSystem = windows_conv a) as -> by (by destruct a).
    apply C147_matched.
Qed.
Print Assumptions C147_partial.

(** On 32-bit Windows the broker's stack pointer is off after each such call, by 24 bytes and by 4:
    and the next word that the broker stores on the stack replaces one of its own. *)
Theorem C147_container_refuted d k args ret m body v :
  d ∈ calls_out → d_abi d = AbiC → (d_name d, k) ∈ windows_functions → length args = d_args d →
  let m' := (wcall (conv_of X86 (d_abi d)) (windows_conv X86) k body args ret m).2 in
  sp m' = sp m + 4 * Z.of_nat k ∧ 0 < Z.of_nat k ∧
  sp m ≤ sp m' - 4 ∧ smem (push4 v m') (sp m' - 4) = v.
Proof.
  intros Hd Ha Hk Hl m'. subst m'. rewrite Ha.
  assert ((k = 6%nat ∨ k = 1%nat)) as Hk'.
  { unfold calls_out in Hd. repeat (apply elem_of_cons in Hd as [->|Hd]; [cbn in *; set_solver|]).
    by apply elem_of_nil in Hd. }
  rewrite C147_stack by done. cbn [conv_of windows_conv].
  split_and!; [lia|lia|lia|]. unfold push4. cbn [smem]. unfold upd.
  rewrite C147_stack by done. cbn. by rewrite Z.eqb_refl.
Qed.
Print Assumptions C147_container_refuted.

Theorem C147_refuted : ¬ C147_full.
Proof.
  intros H. destruct (H X86 (mkDecl "DeleteAppContainerProfile" AbiC 1) 1%nat [7] 0 (mkMach 1000 (λ _, 0) [])
    ltac:(unfold windows_functions; set_solver) eq_refl) as [H1 _].
  assert (mkDecl "DeleteAppContainerProfile" AbiC 1 ∈ calls_out) as Hd by (unfold calls_out; set_solver).
  specialize (H1 Hd (λ _ m, (0, m)) ltac:(done)). cbn in H1. destruct H1 as (_ & H1 & _). lia.
Qed.
Print Assumptions C147_refuted.

(** NtOpenKey finds its arguments and the stack is where it was; CreateAppContainerProfile finds
    its arguments as well, but the stack pointer ends 24 bytes up in the caller's variables. *)
Example C147_example :
  let m := mkMach 1000 (λ x, if 1000 <=? x then 55 else 0) [] in
  let body args mem := (foldr Z.add 0 args, mem) in
  let '(f1, r1, m1) := wcall (conv_of X86 AbiSystem) StdCall 3 body [1; 2; 3] 77 m in
  let '(f2, r2, m2) := wcall (conv_of X86 AbiC) StdCall 6 body [1; 2; 3; 4; 5; 6] 77 m in
  let '(f3, r3, m3) := wcall (conv_of X64 AbiC) Win64 6 body [1; 2; 3; 4; 5; 6] 77 m in
  (f1, r1, sp m1) = ([1; 2; 3], 6, 1000) ∧
  (f2, r2, sp m2, smem m2 1020, smem (push4 9 m2) 1020) = ([1; 2; 3; 4; 5; 6], 21, 1024, 55, 9) ∧
  (f3, r3, sp m3) = ([1; 2; 3; 4; 5; 6], 21, 1000).
Proof. by vm_compute. Qed.
