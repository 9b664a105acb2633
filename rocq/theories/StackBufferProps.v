(** Property C59: the stack buffer is a truncating, NUL-terminated writer. *)
From stdpp Require Import prelude.
From Coq Require Import Strings.Byte.
From Verif Require Import Bytes FdModel StackBufferModel.

Lemma copy_over_length dst src : length (copy_over dst src) = length dst.
Proof. revert src. induction dst as [|x dst IH]; intros [|b src]; cbn; auto. Qed.
Lemma copy_over_take dst src :
  copy_over dst src = take (length dst) src ++ drop (length src) dst.
Proof.
  revert src. induction dst as [|x dst IH]; intros [|b src]; cbn; try done.
  by rewrite IH.
Qed.

(** The invariant: the buffer is the written text, cut, followed by zeroes. *)
Definition holds (size : nat) (text : str) (b : stack_buffer) : Prop :=
  sb_used b = Nat.min (size - 1) (length text) ∧
  sb_buf b = take (size - 1) text ++ replicate (size - sb_used b) x00.

Lemma holds_write size text b s :
  (0 < size)%nat → holds size text b →
  ∃ b', sb_write_str b s = Done b' ∧ holds size (text ++ s) b'.
Proof.
  intros Hsize [Hu Hb]. unfold sb_write_str.
  assert (Hlen : length (sb_buf b) = size).
  { rewrite Hb, app_length, take_length, replicate_length. lia. }
  rewrite Hlen. destruct size as [|cap]; [lia|].
  replace (S cap - 1)%nat with cap in * by lia.
  rewrite (proj2 (Nat.leb_le (sb_used b) cap)) by lia.
  eexists. split; [done|]. unfold holds. cbn [sb_used sb_buf].
  replace (S cap - 1)%nat with cap by lia.
  split; [rewrite app_length; lia|].
  set (u := sb_used b) in *. clearbody u. rewrite Hb. clear Hb Hlen b.
  assert (Lt : length (take cap text) = u) by (rewrite take_length; lia).
  rewrite take_app_alt by lia. rewrite (drop_app_alt _ _ _ ltac:(symmetry; exact Lt)).
  rewrite take_replicate. replace (_ `min` (S cap - u))%nat with (cap - u)%nat by lia.
  rewrite drop_app_ge, Lt, drop_replicate by lia.
  rewrite copy_over_take, replicate_length, drop_replicate.
  assert (Htake : take cap (text ++ s) = take cap text ++ take (cap - u) s).
  { replace (cap - u)%nat with (cap - length text)%nat by lia.
    destruct (decide (cap ≤ length text)%nat).
    - rewrite take_app_le by lia. replace (cap - length text)%nat with O by lia.
      by rewrite take_0, app_nil_r.
    - rewrite take_app_ge by lia. by rewrite (take_ge text) by lia. }
  rewrite Htake, <-!app_assoc. f_equal. f_equal.
  rewrite <-replicate_add. f_equal. lia.
Qed.

Lemma holds_writes size ss : ∀ text b,
  (0 < size)%nat → holds size text b →
  ∃ b', sb_writes b ss = Done b' ∧ holds size (text ++ concat ss) b'.
Proof.
  induction ss as [|s ss IH]; intros text b Hsize Hb; cbn [sb_writes concat].
  - exists b. by rewrite app_nil_r.
  - destruct (holds_write size text b s Hsize Hb) as (b1 & -> & H1).
    destruct (IH _ _ Hsize H1) as (b2 & -> & H2). exists b2. split; [done|].
    by rewrite app_assoc.
Qed.

(** No write panics; the visible bytes are the first [size - 1] of everything written; the
    byte after them exists and is NUL. *)
Theorem C59_truncating_writer (size : nat) (ss : list str) :
  (0 < size)%nat →
  ∃ b, sb_writes (sb_default size) ss = Done b ∧
    sb_as_bytes b = Done (take (size - 1) (concat ss)) ∧
    length (sb_buf b) = size ∧
    sb_buf b !! length (take (size - 1) (concat ss)) = Some x00.
Proof.
  intros Hsize. destruct (holds_writes size ss [] (sb_default size) Hsize) as (b & Hw & Hu & Hb).
  { split; cbn; [lia|]. by rewrite take_nil, Nat.sub_0_r. }
  exists b. cbn [app] in Hu, Hb. split; [done|].
  assert (Lt : length (take (size - 1) (concat ss)) = sb_used b) by (rewrite take_length; by rewrite Hu).
  assert (Hlen : length (sb_buf b) = size).
  { rewrite Hb, app_length, Lt, replicate_length. clear -Hu Hsize. set (k := length (concat ss)) in *. clearbody k. lia. }
  split; [|split; [done|]].
  - unfold sb_as_bytes. rewrite (proj2 (Nat.leb_le _ _)) by lia. f_equal.
    rewrite Hb. by rewrite take_app_alt.
  - rewrite Hb, lookup_app_r by lia. rewrite Nat.sub_diag. apply lookup_replicate_2. rewrite Hu. lia.
Qed.
Print Assumptions C59_truncating_writer.

(** With [SIZE = 0], outside the property, the first write panics. *)
Example C59_size_zero : sb_writes (sb_default 0) [lit "x"] = Panicked.
Proof. done. Qed.
Example C59_example :
  sb_writes (sb_default 8) [lit "abc"; []; lit "defghi"; lit "j"] = Done (mkSb (lit "abcdefg" ++ [x00]) 7).
Proof. done. Qed.
