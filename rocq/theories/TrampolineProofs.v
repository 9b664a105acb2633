(** Lemmas about TrampolineModel.v. *)
From stdpp Require Import prelude.
From Coq Require Import ZifyNat ZifyBool.
From Verif Require Import TrampolineModel.
Local Open Scope Z_scope.

Lemma of_le_bytes n v : of_le (le_bytes n v) = v mod 256 ^ Z.of_nat n.
Proof.
  revert v. induction n as [|n IH]; intros v; [by rewrite Z.mod_1_r|].
  rewrite Nat2Z.inj_succ, Z.pow_succ_r by lia.
  cbn [le_bytes of_le]. rewrite IH.
  rewrite Z.rem_mul_r by lia. lia.
Qed.
Lemma le_bytes_length n v : length (le_bytes n v) = n.
Proof. revert v. induction n; intros v; simpl; [done|]. by rewrite IHn. Qed.

Lemma store_bytes_other M m a bs x :
  (∀ i, 0 ≤ i < Z.of_nat (length bs) → x ≠ (a + i) mod M) → store_bytes M m a bs x = m x.
Proof.
  revert m a. induction bs as [|b bs IH]; intros m a H; [done|]. simpl. rewrite IH.
  - rewrite decide_False; [done|]. specialize (H 0). rewrite Z.add_0_r in H. apply H. simpl. lia.
  - intros i Hi. specialize (H (i + 1)). replace (a + (i + 1)) with (a + 1 + i) in H by lia.
    apply H. simpl. lia.
Qed.
Lemma load_bytes_ext M m m' a n :
  (∀ i, 0 ≤ i < Z.of_nat n → m ((a + i) mod M) = m' ((a + i) mod M)) →
  load_bytes M m a n = load_bytes M m' a n.
Proof.
  revert a. induction n as [|n IH]; intros a H; [done|]. simpl. f_equal.
  - specialize (H 0). rewrite Z.add_0_r in H. apply H. lia.
  - apply IH. intros i Hi. specialize (H (i + 1)).
    replace (a + (i + 1)) with (a + 1 + i) in H by lia. apply H. lia.
Qed.
Lemma mod_near M a i j :
  0 < M → - M < i - j < M → (a + i) mod M = (a + j) mod M → i = j.
Proof.
  intros HM Hij H.
  assert ((i - j) mod M = 0) as H0.
  { replace (i - j) with ((a + i) - (a + j)) by lia.
    rewrite Zminus_mod, H, Z.sub_diag. apply Z.mod_0_l. lia. }
  apply Z.mod_divide in H0; [|lia]. destruct H0 as [q Hq].
  assert (q = 0) as ->; [|lia]. nia.
Qed.
Lemma load_store_bytes M m a bs :
  Z.of_nat (length bs) < M → load_bytes M (store_bytes M m a bs) a (length bs) = bs.
Proof.
  intros HM. revert m a HM. induction bs as [|b bs IH]; intros m a HM; [done|].
  cbn [length load_bytes store_bytes]. f_equal.
  - rewrite store_bytes_other, decide_True; [done|done|].
    intros i Hi E. rewrite <-(Z.add_0_r a) in E at 1.
    replace (a + 1 + i) with (a + (1 + i)) in E by lia.
    apply mod_near in E; simpl in HM; lia.
  - apply IH. simpl in HM. lia.
Qed.

Lemma wmod_bytes w : wmod w = 256 ^ Z.of_nat (wbytes w).
Proof. by destruct w. Qed.
Lemma wmod_big w : 256 < wmod w.
Proof. by destruct w. Qed.

Lemma load_store_same w m a v : load w (store w m a v) a = v mod wmod w.
Proof.
  pose proof (load_store_bytes (wmod w) m a (le_bytes (wbytes w) v)) as H.
  rewrite le_bytes_length in H. unfold load, store. rewrite H.
  - by rewrite of_le_bytes, wmod_bytes.
  - by destruct w.
Qed.
Lemma load_bytes_mod M m a b n :
  a mod M = b mod M → load_bytes M m a n = load_bytes M m b n.
Proof.
  revert a b. induction n as [|n IH]; intros a b H; [done|]. cbn [load_bytes]. f_equal; [by rewrite H|].
  apply IH. by rewrite Zplus_mod, H, <-Zplus_mod.
Qed.
Lemma load_mod w m a b : a mod wmod w = b mod wmod w → load w m a = load w m b.
Proof. intros H. unfold load. f_equal. by apply load_bytes_mod. Qed.
Lemma load_store_same' w m a b v :
  a mod wmod w = b mod wmod w → load w (store w m a v) b = v mod wmod w.
Proof. intros H. rewrite (load_mod _ _ b a) by done. apply load_store_same. Qed.

(** A store of a word at [a], which is at distance [i] from [x]. *)
Lemma store_other w m a v x i y :
  a mod wmod w = (x + i) mod wmod w →
  (∀ j, i ≤ j < i + Z.of_nat (wbytes w) → y ≠ (x + j) mod wmod w) → store w m a v y = m y.
Proof.
  intros Ha H. unfold store. apply store_bytes_other. intros j Hj. rewrite le_bytes_length in Hj.
  rewrite Zplus_mod, Ha, <-Zplus_mod, <-Z.add_assoc. apply H. lia.
Qed.
(** Reading another word near the same place. *)
Lemma load_store_other w m a b v x i j :
  a mod wmod w = (x + i) mod wmod w → b mod wmod w = (x + j) mod wmod w →
  Z.of_nat (wbytes w) ≤ Z.abs (i - j) → Z.abs (i - j) + 8 < 256 →
  load w (store w m a v) b = load w m b.
Proof.
  intros Ha Hb H1 H2. unfold load. f_equal. apply load_bytes_ext. intros y Hy.
  apply (store_other w m a v x i); [done|]. intros z Hz E.
  rewrite Zplus_mod, Hb, <-Zplus_mod, <-Z.add_assoc in E. pose proof (wmod_big w).
  apply mod_near in E; destruct w; simpl in *; lia.
Qed.
(** Two memories with the same bytes there. *)
Lemma load_same w m m' a :
  (∀ i, 0 ≤ i < Z.of_nat (wbytes w) → m ((a + i) mod wmod w) = m' ((a + i) mod wmod w)) →
  load w m a = load w m' a.
Proof. intros H. unfold load. f_equal. by apply load_bytes_ext. Qed.
