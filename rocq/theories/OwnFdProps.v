(** A worker's own use of descriptor numbers: C156. *)
From stdpp Require Import prelude gmap.
From Verif Require Import OwnFdModel.
Local Open Scope N_scope.

(** Trapped calls are answered, whatever the worker does with descriptors. *)
Definition well (r : seen) : Prop := match r with Got _ | Failed => True | _ => False end.
Definition C156_full : Prop :=
  ∀ ch fds ops, fds !! ch = Some Channel → Forall well (run_ops ch fds ops).2.

(** The numbers an operation names, and a program that names only numbers it was given:
    those it started with ([known]) and those that calls returned. *)
Definition named (o : op) (fd : N) : Prop :=
  match o with
  | OClose fd0 | ODup fd0 => fd = fd0
  | OCloseRange first last => first ≤ fd ≤ last
  | ODup2 fd0 fd1 => fd = fd0 ∨ fd = fd1
  | OPair _ | OTrapped => False
  end.
Fixpoint careful (known : N → Prop) (ops : list op) (rs : list seen) : Prop :=
  match ops, rs with
  | o :: ops, r :: rs =>
      (∀ fd, named o fd → known fd) ∧
      careful (λ fd, known fd ∨ match r with Got l => fd ∈ l | _ => False end) ops rs
  | _, _ => True
  end.

Lemma lowest_from_free fuel : ∀ fds n,
  (∀ X : gset N, (∀ m, m ∈ X → n ≤ m ∧ is_Some (fds !! m)) → (size X ≤ fuel)%nat) →
  fds !! lowest_from fuel fds n = None.
Proof.
  induction fuel as [|fuel IH]; intros fds n H; cbn [lowest_from].
  - destruct (fds !! n) as [x|] eqn:E; [|done].
    assert (size ({[n]} : gset N) ≤ 0)%nat as Hs.
    { apply H. intros m Hm. apply elem_of_singleton in Hm as ->. split; [lia|]. by rewrite E. }
    rewrite size_singleton in Hs. lia.
  - destruct (fds !! n) as [x|] eqn:E; [|done]. apply IH. intros X HX.
    assert (size ({[n]} ∪ X) ≤ S fuel)%nat as Hs.
    { apply H. intros m Hm. apply elem_of_union in Hm as [Hm|Hm].
      - apply elem_of_singleton in Hm as ->. split; [lia|]. by rewrite E.
      - destruct (HX m Hm). split; [lia|done]. }
    rewrite size_union in Hs.
    + rewrite size_singleton in Hs. lia.
    + intros m Hm Hm'. apply elem_of_singleton in Hm as ->. apply HX in Hm' as [? _]. lia.
Qed.
Lemma lowest_free fds : fds !! lowest fds = None.
Proof.
  apply lowest_from_free. intros X HX. rewrite <- size_dom. apply subseteq_size.
  intros m Hm. apply elem_of_dom. by apply HX.
Qed.

(** A program that touches no number it was not given keeps its channel. *)
Theorem C156_partial ch fds known ops :
  fds !! ch = Some Channel → ¬ known ch → careful known ops (run_ops ch fds ops).2 →
  (run_ops ch fds ops).1 !! ch = Some Channel ∧ Forall well (run_ops ch fds ops).2.
Proof.
  revert fds known. induction ops as [|o ops IH]; intros fds known Hch Hk Hc; [by split; [|constructor]|].
  cbn [run_ops] in *.
  assert ((do_op ch fds o).1 !! ch = Some Channel ∧ well (do_op ch fds o).2 ∧
    (∀ l, (do_op ch fds o).2 = Got l → (∀ fd, named o fd → fd ≠ ch) → ch ∉ l)) as Hstep.
  { assert (∀ fd, named o fd → known fd) as Hn.
    { destruct (do_op ch fds o) as [fds' r]. destruct r as [l| | |n];
        try (destruct (run_ops ch fds' ops) as [f rs]); cbn [snd careful] in Hc; by destruct Hc as [Hc _]. }
    assert (∀ fd, named o fd → fd ≠ ch) as Hne by (intros fd Hfd ->; by apply Hk, Hn).
    pose proof (lowest_free fds) as Hlow.
    assert (lowest fds ≠ ch) as Hlne by (intros E; rewrite E in Hlow; congruence).
    destruct o as [fd|first last|fd|fd fd'|n|]; cbn [do_op named] in *.
    - destruct (fds !! fd) eqn:E; cbn [fst snd].
      + rewrite lookup_delete_ne by (by apply Hne). split; [done|]. split; [done|].
        intros l [= <-] _. apply not_elem_of_nil.
      + done.
    - cbn [fst snd]. split; [|split; [done|intros l [= <-] _; apply not_elem_of_nil]].
      apply map_filter_lookup_Some. split; [done|]. cbn. intros Hr. by apply (Hne ch Hr).
    - destruct (fds !! fd) eqn:E; cbn [fst snd]; [|done].
      rewrite lookup_insert_ne by done. split; [done|]. split; [done|].
      intros l [= <-] _. rewrite elem_of_list_singleton. congruence.
    - destruct (fds !! fd) eqn:E; cbn [fst snd]; [|done].
      rewrite lookup_insert_ne by (apply Hne; auto). split; [done|]. split; [done|].
      intros l [= <-] _. rewrite elem_of_list_singleton. intros ->. by apply (Hne fd'); auto.
    - cbn [fst snd]. pose proof (lowest_free (<[lowest fds := Socket n]> fds)) as Hlow2.
      assert (lowest (<[lowest fds := Socket n]> fds) ≠ ch) as Hlne2.
      { intros E. rewrite E, lookup_insert_ne in Hlow2 by done. congruence. }
      rewrite !lookup_insert_ne by done. split; [done|]. split; [done|].
      intros l [= <-] _. rewrite !elem_of_cons, elem_of_nil. intros [?|[?|[]]]; congruence.
    - rewrite Hch. cbn [fst snd]. rewrite lookup_insert_ne by done. split; [done|]. split; [done|].
      intros l [= <-] _. rewrite elem_of_list_singleton. congruence. }
  destruct (do_op ch fds o) as [fds' r]. cbn [fst snd] in Hstep. destruct Hstep as (Hch' & Hw & Hnew).
  destruct r as [l| | |n]; [| |done|done].
  - destruct (run_ops ch fds' ops) as [f rs] eqn:Er. cbn [snd careful] in Hc. destruct Hc as [Hn Hc].
    assert (∀ fd, named o fd → fd ≠ ch) as Hne by (intros fd Hfd ->; by apply Hk, Hn).
    specialize (IH fds' (λ fd, known fd ∨ fd ∈ l) Hch'). rewrite Er in IH. cbn [fst snd] in *.
    destruct IH as [IH1 IH2]; [|done|].
    + intros [?|Hin]; [done|]. by apply (Hnew l eq_refl Hne).
    + split; [done|]. by constructor.
  - destruct (run_ops ch fds' ops) as [f rs] eqn:Er. cbn [snd careful] in Hc. destruct Hc as [Hn Hc].
    specialize (IH fds' (λ fd, known fd ∨ False) Hch'). rewrite Er in IH. cbn [fst snd] in *.
    destruct IH as [IH1 IH2]; [|done|].
    + by intros [?|?].
    + split; [done|]. by constructor.
Qed.
Print Assumptions C156_partial.

(** Exactly when a trapped call is answered. *)
Theorem C156_exact ch fds :
  (∃ l, (do_op ch fds OTrapped).2 = Got l) ↔ fds !! ch = Some Channel.
Proof.
  cbn [do_op]. destruct (fds !! ch) as [[]|]; cbn [snd]; split; try (by intros [? ?]); try done.
  intros _. by eexists.
Qed.
Print Assumptions C156_exact.

Definition start_fds : gmap N object := {[0 := Plain; 1 := Plain; 2 := Plain; 3 := Channel]}.
(** Closing everything above the standard streams, as daemons and libraries do. *)
Theorem C156_refuted : ¬ C156_full.
Proof.
  intros H. specialize (H 3 start_fds [OCloseRange 3 4294967295; OTrapped] eq_refl).
  assert ((run_ops 3 start_fds [OCloseRange 3 4294967295; OTrapped]).2 = [Got []; Panicked]) as E
    by by vm_compute.
  rewrite E in H. apply Forall_cons in H as [_ H]. by apply Forall_cons in H as [[] _].
Qed.
Print Assumptions C156_refuted.

(** The request then goes to whatever has the number: sockets of the program's own, and the
    call never ends. *)
Theorem C156_misdirected :
  ∃ ch fds ops n, fds !! ch = Some Channel ∧ last (run_ops ch fds ops).2 = Some (Misdirected n) ∧
    OPair n ∈ ops.
Proof.
  exists 3, start_fds, [OCloseRange 3 4294967295; OPair 8; OTrapped], 8.
  split; [by vm_compute|]. split; [by vm_compute|]. by right; left.
Qed.
Print Assumptions C156_misdirected.

Example C156_example :
  (run_ops 3 start_fds [OPair 8; ODup2 4 1; OClose 5; OTrapped; ODup 0; OTrapped]).2 =
    [Got [4; 5]; Got [1]; Got []; Got [5]; Got [6]; Got [7]] ∧
  careful (λ fd, fd ≤ 2) [OPair 8; ODup2 4 1; OClose 5; OTrapped; ODup 0; OTrapped]
    [Got [4; 5]; Got [1]; Got []; Got [5]; Got [6]; Got [7]] ∧
  (run_ops 3 start_fds [ODup2 1 3; OTrapped; OTrapped]).2 = [Got [3]; Panicked].
Proof.
  split; [by vm_compute|]. split; [|by vm_compute].
  cbn [careful named]. split_and!; try done.
  - intros fd [-> | ->]; [right; by left|left; lia].
  - intros fd ->. left; right. by right; left.
  - intros fd ->. left; left; left; left. lia.
Qed.
