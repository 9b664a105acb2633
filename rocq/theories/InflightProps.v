(** Descriptors on their way: C159. *)
From stdpp Require Import prelude.
From Verif Require Import InflightModel.

(** What a worker does ends no other worker's session. *)
Definition C159_full : Prop :=
  ∀ limit n ops i w, irun limit false (fresh_workers n) ops !! i = Some w →
    (* a worker that passes nothing and reads each answer before it asks again *)
    (∀ m, Pass i m ∉ ops) →
    (∀ ops1 ops2 w', ops = ops1 ++ Ask i :: ops2 →
       irun limit false (fresh_workers n) ops1 !! i = Some w' → k_unread w' = 0) →
    1 ≤ limit → k_alive w = true.

Lemma irun_app limit c ws ops ops' : irun limit c ws (ops ++ ops') = irun limit c (irun limit c ws ops) ops'.
Proof. apply foldl_app. Qed.
Lemma istep_length limit c ws o : length (istep limit c ws o) = length ws.
Proof.
  destruct o as [i n|i n|i|i]; cbn [istep]; destruct (ws !! i); try done;
    repeat case_match; rewrite ?insert_length; done.
Qed.

(** Exactly when an answer ends the session. *)
Theorem C159_exact limit capable ws i w :
  ws !! i = Some w → k_alive w = true →
  (∃ w', istep limit capable ws (Ask i) !! i = Some w' ∧ k_alive w' = false) ↔
  capable = false ∧ limit < sum_list ((λ x, k_own x + k_unread x) <$> ws).
Proof.
  intros Hi Ha. cbn [istep]. rewrite Hi, Ha. cbn [negb]. unfold too_many, on_the_way.
  assert (i < length ws) as Hl by (by apply lookup_lt_Some in Hi).
  destruct capable; cbn [negb andb].
  - rewrite list_lookup_insert by done. split; [by intros (w' & [= <-] & ?)|by intros [? _]].
  - case_bool_decide as Hlim; rewrite list_lookup_insert by done.
    + split; [done|]. intros _. by eexists.
    + split; [by intros (w' & [= <-] & ?)|]. by intros [_ ?].
Qed.
Print Assumptions C159_exact.

(** A broker with the capability serves everybody. *)
Theorem C159_capable limit n ops i w :
  irun limit true (fresh_workers n) ops !! i = Some w → k_alive w = true.
Proof.
  assert (Forall (λ w, k_alive w = true) (irun limit true (fresh_workers n) ops)) as H.
  { assert (Forall (λ w, k_alive w = true) (fresh_workers n)) as H0.
    { apply Forall_replicate. done. }
    revert H0. generalize (fresh_workers n) as ws. unfold irun.
    induction ops as [|o ops IH]; intros ws H0; [done|]. cbn [foldl]. apply IH.
    destruct o as [j m|j m|j|j]; cbn [istep]; destruct (ws !! j) as [x|] eqn:E; try done.
    - case_match; [done|]. apply Forall_insert; [done|]. by apply (Forall_lookup_1 _ _ _ _ H0 E).
    - apply Forall_insert; [done|]. by apply (Forall_lookup_1 _ _ _ _ H0 E).
    - rewrite (Forall_lookup_1 _ _ _ _ H0 E). cbn [negb]. unfold too_many. cbn [negb andb].
      by apply Forall_insert.
    - apply Forall_insert; [done|]. by apply (Forall_lookup_1 _ _ _ _ H0 E). }
  intros Hi. exact (Forall_lookup_1 _ _ _ _ H Hi).
Qed.
Print Assumptions C159_capable.

(** Workers that pass nothing and have at most one call at a time: nobody's session ends, when
    there are not more workers than the limit. *)
Definition polite (limit n : nat) (ops : list iop) : Prop :=
  (∀ i m, Pass i m ∉ ops) ∧
  ∀ ops1 i ops2 w, ops = ops1 ++ Ask i :: ops2 →
    irun limit false (fresh_workers n) ops1 !! i = Some w → k_unread w = 0.
Lemma sum_bound (ws : list wk) i w :
  Forall (λ x, k_own x = 0 ∧ k_unread x ≤ 1) ws → ws !! i = Some w → k_unread w = 0 →
  S (on_the_way ws) ≤ length ws.
Proof.
  unfold on_the_way. revert i. induction ws as [|x ws IH]; intros i H Hi Hw; [done|].
  apply Forall_cons in H as [[Ho Hu] H].
  assert (sum_list ((λ w, k_own w + k_unread w) <$> ws) ≤ length ws) as Hall.
  { clear -H. induction H as [|y ws [Hy1 Hy2] H IH]; [done|]. cbn [fmap list_fmap sum_list length sum_list_with].
    change (k_own y + k_unread y + sum_list ((λ w, k_own w + k_unread w) <$> ws) ≤ S (length ws)). lia. }
  change (S (k_own x + k_unread x + sum_list ((λ w, k_own w + k_unread w) <$> ws)) ≤ S (length ws)).
  destruct i as [|i]; cbn in Hi.
  - simplify_eq. lia.
  - specialize (IH i H Hi Hw). lia.
Qed.
Theorem C159_partial limit n ops i w :
  n ≤ S limit → polite limit n ops → irun limit false (fresh_workers n) ops !! i = Some w →
  k_alive w = true.
Proof.
  intros Hn [Hpass Hask] Hi.
  assert (∀ ops1 ops2, ops = ops1 ++ ops2 →
    length (irun limit false (fresh_workers n) ops1) = n ∧
    Forall (λ x, k_own x = 0 ∧ k_unread x ≤ 1 ∧ k_alive x = true) (irun limit false (fresh_workers n) ops1)) as H.
  { induction ops1 as [|o ops1 IH] using rev_ind; intros ops2 E.
    - split; [apply replicate_length|]. apply Forall_replicate. cbn. lia.
    - rewrite <- app_assoc in E. destruct (IH _ E) as [Hl HF]. rewrite irun_app. unfold irun at 1 3.
      cbn [foldl]. set (ws := irun limit false (fresh_workers n) ops1) in *.
      rewrite istep_length. split; [done|].
      destruct o as [j m|j m|j|j]; cbn [istep].
      + destruct (Hpass j m). rewrite E. apply elem_of_app. right. by left.
      + destruct (ws !! j) as [x|] eqn:Ej; [|done]. apply Forall_insert; [done|].
        destruct (Forall_lookup_1 _ _ _ _ HF Ej) as (? & ? & ?). cbn. split_and!; [lia|done|done].
      + destruct (ws !! j) as [x|] eqn:Ej; [|done].
        destruct (Forall_lookup_1 _ _ _ _ HF Ej) as (Hx1 & Hx2 & Hx3). rewrite Hx3. cbn [negb].
        assert (k_unread x = 0) as Hx0 by exact (Hask ops1 j ops2 x E Ej).
        assert (S (on_the_way ws) ≤ length ws) as Hs.
        { apply (sum_bound ws j x); [|done|done]. eapply Forall_impl; [exact HF|]. by intros y (? & ? & _). }
        unfold too_many. rewrite bool_decide_eq_false_2 by lia. cbn [andb negb].
        apply Forall_insert; [done|]. cbn. lia.
      + destruct (ws !! j) as [x|] eqn:Ej; [|done]. apply Forall_insert; [done|].
        destruct (Forall_lookup_1 _ _ _ _ HF Ej) as (? & ? & ?). cbn. split_and!; [done|lia|done]. }
  destruct (H ops [] (eq_sym (app_nil_r ops))) as [_ HF]. by destruct (Forall_lookup_1 _ _ _ _ HF Hi) as (_ & _ & ?).
Qed.
Print Assumptions C159_partial.

(** One worker that passes descriptors to itself ends the session of another at its next open. *)
Theorem C159_refuted : ¬ C159_full.
Proof.
  intros H. unfold C159_full in H.
  specialize (H 1024 2 [Pass 0 1025; Ask 1] 1 (mkWk 0 0 false)).
  assert (k_alive (mkWk 0 0 false) = true) as E; [|done].
  apply H.
  - vm_compute. done.
  - intros m. rewrite !elem_of_cons, elem_of_nil. intros [? | [? | []]]; congruence.
  - intros ops1 ops2 w' E Hw. destruct ops1 as [|o1 [|o2 ops1]]; cbn [app] in E.
    + congruence.
    + injection E as <- <-. vm_compute in Hw. by injection Hw as <-.
    + exfalso. injection E as _ _ E. by destruct ops1.
  - lia.
Qed.
Print Assumptions C159_refuted.
(** So does one that does not read its answers, without any socket of its own. *)
Theorem C159_unread_refuted limit :
  irun limit false (fresh_workers 2) (replicate (S limit) (Ask 0) ++ [Ask 1]) !! 1 = Some (mkWk 0 0 false).
Proof.
  assert (∀ k, k ≤ S limit → irun limit false (fresh_workers 2) (replicate k (Ask 0)) =
    [mkWk 0 k true; mkWk 0 0 true]) as H.
  { intros k. induction k as [|k IH]; intros Hk; [done|].
    rewrite replicate_S_end, irun_app, IH by lia. unfold irun. cbn [foldl istep lookup list_lookup k_alive negb].
    unfold too_many, on_the_way. cbn [fmap list_fmap k_own k_unread sum_list sum_list_with negb andb].
    rewrite bool_decide_eq_false_2; [done|].
    change (¬ limit < 0 + k + (0 + 0 + 0)). lia. }
  rewrite irun_app, H by lia. unfold irun. cbn [foldl istep lookup list_lookup k_alive negb].
  unfold too_many, on_the_way. cbn [fmap list_fmap k_own k_unread negb andb].
  rewrite bool_decide_eq_true_2; [done|]. change (limit < 0 + S limit + (0 + 0 + 0)). lia.
Qed.
Print Assumptions C159_unread_refuted.

Example C159_example :
  irun 4 false (fresh_workers 2) [Ask 0; Ask 1; Read 0; Ask 0; Read 1; Ask 1] =
    [mkWk 0 1 true; mkWk 0 1 true] ∧
  irun 4 false (fresh_workers 2) [Pass 0 3; Pass 0 3; Pass 0 3; Ask 1; Drain 0 6; Ask 1] =
    [mkWk 0 0 true; mkWk 0 0 false] ∧
  polite 4 2 [Ask 0; Read 0; Ask 0].
Proof.
  split; [by vm_compute|]. split; [by vm_compute|]. split.
  - intros i m. rewrite !elem_of_cons, elem_of_nil. intros [? | [? | [? | []]]]; congruence.
  - intros ops1 i ops2 w E Hw. destruct ops1 as [|o1 [|o2 [|o3 ops1]]]; cbn [app] in E; simplify_eq.
    + vm_compute in Hw. by injection Hw as <-.
    + vm_compute in Hw. by injection Hw as <-.
    + by destruct ops1.
Qed.
