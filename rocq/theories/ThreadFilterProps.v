(** C145: after the lockdown every thread of the worker is restricted. *)
From stdpp Require Import prelude gmap.
From Verif Require Import ThreadFilterModel.
Local Open Scope N_scope.

(** A call is carried out if every filter of the thread allows it; [sem] is what the programs say. *)
Definition carried_out {call} (sem : N → call → bool) (ch : list N) (c : call) : Prop :=
  ∀ f, f ∈ ch → sem f c = true.
(** The calling thread does not run anything else meanwhile. *)
Definition by_others (t : N) (o : top) : Prop :=
  match o with
  | TClone t' new => t' ≠ t ∧ new ≠ t
  | TExit t' | TInstall t' _ | TInstallAll t' _ => t' ≠ t
  end.

Definition C145_full : Prop := ∀ call (sem : N → call → bool) kernel prctl t f between ts r ts' after u ch c,
  is_Some (ts !! t) → Forall (by_others t) between →
  lock_threads kernel prctl t f between ts = (r, ts') → r ≠ LockPanic →
  tsteps ts' after !! u = Some ch → sem f c = false → ¬ carried_out sem ch c.

(** A set of threads that all have the filter stays so. *)
Definition all_have (f : N) (ts : threads) : Prop := ∀ u ch, ts !! u = Some ch → f ∈ ch.
Lemma all_have_step f o ts : all_have f ts → all_have f (tstep o ts).
Proof.
  intros H u ch. destruct o as [t new|t|t g|t g]; cbn.
  - destruct (ts !! t) as [c|] eqn:E; [|apply H]. destruct (ts !! new); [apply H|].
    rewrite lookup_insert_Some. intros [[_ <-]|[_ Hu]]; [by apply (H t)|by apply (H u)].
  - rewrite lookup_delete_Some. intros [_ Hu]. by apply (H u).
  - unfold install. destruct (ts !! t) as [c|] eqn:E; [|apply H].
    rewrite lookup_insert_Some. intros [[_ <-]|[_ Hu]]; [|by apply (H u)].
    apply elem_of_list_further. by apply (H t).
  - unfold install_all. destruct (ts !! t) as [c|] eqn:E; [|apply H].
    destruct (can_sync t c ts); [|apply H]. cbn. rewrite lookup_fmap, fmap_Some.
    intros (x & _ & ->). apply elem_of_list_further. by apply (H t).
Qed.
Lemma all_have_steps f os ts : all_have f ts → all_have f (tsteps ts os).
Proof.
  revert ts. induction os as [|o os IH]; intros ts H; [done|]. cbn. by apply IH, all_have_step.
Qed.
Lemma carried f {call} (sem : N → call → bool) ch c : f ∈ ch → sem f c = false → ¬ carried_out sem ch c.
Proof. intros Hf Hc H. rewrite (H f Hf) in Hc. done. Qed.

(** Where the kernel restricts all threads at once, all threads are restricted for good, those
    that start later included. *)
Theorem C145_all_partial {call} (sem : N → call → bool) kernel prctl t f between ts ts' after u ch c :
  lock_threads kernel prctl t f between ts = (AllThreads, ts') →
  tsteps ts' after !! u = Some ch → sem f c = false → ¬ carried_out sem ch c.
Proof.
  intros H Hu. apply carried. revert u ch Hu. apply all_have_steps. unfold lock_threads in H.
  destruct (if kernel then install_all t f ts else None) as [ts1|] eqn:E; [|by destruct prctl].
  injection H as <-. destruct kernel; [|done]. unfold install_all in E.
  destruct (ts !! t) as [c0|]; [|done]. destruct (can_sync t c0 ts); [|done]. injection E as <-.
  intros u ch. rewrite lookup_fmap, fmap_Some. intros (x & _ & ->). apply elem_of_list_here.
Qed.
Print Assumptions C145_all_partial.

Lemma is_ancestor_spec p c : is_ancestor p c = true ↔ p `suffix_of` c.
Proof.
  induction c as [|a c IH]; cbn.
  - rewrite orb_false_r, bool_decide_eq_true. split; [by intros ->|]. by intros ?%suffix_nil_inv.
  - rewrite orb_true_iff, bool_decide_eq_true, IH. split.
    + intros [->|H]; [done|by apply suffix_cons_r].
    + intros [[|b k] H]; cbn in H; [by left|]. right. exists k. by injection H.
Qed.

(** When that is: the kernel has the call, and the filters of every other thread are an older
    state of those of the caller. *)
Theorem C145_when kernel prctl t f between ts ch :
  ts !! t = Some ch →
  fst (lock_threads kernel prctl t f between ts) = AllThreads ↔
  kernel = true ∧ ∀ u ch', ts !! u = Some ch' → u ≠ t → ch' `suffix_of` ch.
Proof.
  intros Ht. unfold lock_threads. destruct kernel.
  2: { destruct prctl; cbn; naive_solver. }
  unfold install_all. rewrite Ht. destruct (can_sync t ch ts) eqn:E; cbn.
  - split; [|done]. intros _. split; [done|]. intros u ch' Hu Hne. unfold can_sync in E.
    rewrite forallb_forall in E. specialize (E (u, ch')). cbn in E.
    apply elem_of_map_to_list in Hu. rewrite elem_of_list_In in Hu.
    specialize (E Hu). rewrite orb_true_iff, bool_decide_eq_true in E.
    destruct E as [->|E]; [done|]. by apply is_ancestor_spec.
  - split; [by destruct prctl|]. intros [_ H]. assert (can_sync t ch ts = true) as E'; [|congruence].
    unfold can_sync. apply forallb_forall. intros [u ch'] Hu.
    rewrite <-elem_of_list_In, elem_of_map_to_list in Hu. cbn.
    destruct (decide (u = t)) as [->|Hne]; [by rewrite bool_decide_true|].
    rewrite bool_decide_false by done. apply is_ancestor_spec. by apply (H u).
Qed.
Print Assumptions C145_when.

(** So a program none of whose threads has filters of its own is restricted as a whole, on kernels
    with the system call. *)
Theorem C145_plain_partial {call} (sem : N → call → bool) prctl t f between ts r ts' after u ch c :
  is_Some (ts !! t) → (∀ v ch', ts !! v = Some ch' → ch' = []) →
  lock_threads true prctl t f between ts = (r, ts') →
  tsteps ts' after !! u = Some ch → sem f c = false → ¬ carried_out sem ch c.
Proof.
  intros [ch0 Ht] Hall H. assert (r = AllThreads) as ->.
  { change r with (fst (r, ts')). rewrite <-H. apply (C145_when true prctl t f between ts ch0 Ht).
    split; [done|]. intros v ch' Hv _. rewrite (Hall v ch' Hv). apply suffix_nil. }
  by eapply C145_all_partial.
Qed.
Print Assumptions C145_plain_partial.

(** Steps of others leave the filters of a thread alone, up to synchronisation. *)
Lemma others_keep t os ts : Forall (by_others t) os → is_Some (ts !! t) → is_Some (tsteps ts os !! t).
Proof.
  revert ts. induction os as [|o os IH]; intros ts Ho [ch Ht]; [by eexists|]. cbn.
  apply Forall_cons in Ho as [Ho Hos]. apply IH; [done|].
  destruct o as [t' new|t'|t' g|t' g]; cbn in *.
  - destruct (ts !! t'), (ts !! new); try (by eexists).
    destruct Ho. rewrite lookup_insert_ne by done. by eexists.
  - rewrite lookup_delete_ne by done. by eexists.
  - unfold install. destruct (ts !! t'); [|by eexists]. rewrite lookup_insert_ne by done. by eexists.
  - unfold install_all. destruct (ts !! t') as [c|]; [|by eexists].
    destruct (can_sync t' c ts); cbn; [|by eexists]. rewrite lookup_fmap, Ht. by eexists.
Qed.

(** The thread that locks the process down is restricted whenever that returns. *)
Theorem C145_caller {call} (sem : N → call → bool) kernel prctl t f between ts r ts' :
  is_Some (ts !! t) → Forall (by_others t) between →
  lock_threads kernel prctl t f between ts = (r, ts') → r ≠ LockPanic →
  ∃ ch, ts' !! t = Some ch ∧ ∀ c, sem f c = false → ¬ carried_out sem ch c.
Proof.
  intros Ht Hb H Hr. unfold lock_threads in H.
  assert (∀ ch, f ∈ ch → ∀ c, sem f c = false → ¬ carried_out sem ch c) as X.
  { intros ch Hf c. by apply carried. }
  destruct (if kernel then install_all t f ts else None) as [ts1|] eqn:E.
  - injection H as <- <-. destruct kernel; [|done]. unfold install_all in E. destruct Ht as [ch0 Ht].
    rewrite Ht in E. destruct (can_sync t ch0 ts); [|done]. injection E as <-.
    exists (f :: ch0). rewrite lookup_fmap, Ht. split; [done|]. apply X, elem_of_list_here.
  - destruct prctl; [|by injection H as <- <-]. injection H as <- <-.
    destruct (others_keep t between ts Hb Ht) as [ch1 E1]. exists (f :: ch1). unfold install. rewrite E1.
    rewrite lookup_insert. split; [done|]. apply X, elem_of_list_here.
Qed.
Print Assumptions C145_caller.

(** A program with one thread is restricted in any case. *)
Theorem C145_single_partial {call} (sem : N → call → bool) kernel prctl t f ts r ts' after u ch c :
  is_Some (ts !! t) → (∀ v, is_Some (ts !! v) → v = t) →
  lock_threads kernel prctl t f [] ts = (r, ts') → r ≠ LockPanic →
  tsteps ts' after !! u = Some ch → sem f c = false → ¬ carried_out sem ch c.
Proof.
  intros [ch0 Ht] Hone H Hr Hu. apply carried. revert u ch Hu. apply all_have_steps.
  unfold lock_threads in H.
  destruct (if kernel then install_all t f ts else None) as [ts1|] eqn:E.
  - injection H as <- <-. destruct kernel; [|done]. unfold install_all in E. rewrite Ht in E.
    destruct (can_sync t ch0 ts); [|done]. injection E as <-.
    intros u ch. rewrite lookup_fmap, fmap_Some. intros (x & _ & ->). apply elem_of_list_here.
  - destruct prctl; [|by injection H as <- <-]. injection H as <- <-. cbn. unfold install. rewrite Ht.
    intros u ch. rewrite lookup_insert_Some. intros [[_ <-]|[Hne Hu]]; [apply elem_of_list_here|].
    destruct Hne. symmetry. apply Hone. by eexists.
Qed.
Print Assumptions C145_single_partial.

(** In all other cases every other thread, and every thread it starts, goes on as before: it does
    whatever its own filters allow. *)
Theorem C145_others_refuted {call} (sem : N → call → bool) kernel t f ts ts' u ch new c :
  lock_threads kernel true t f [] ts = (OneThread, ts') → u ≠ t → ts !! u = Some ch →
  carried_out sem ch c → ts' !! new = None →
  ts' !! u = Some ch ∧ tsteps ts' [TClone u new] !! new = Some ch ∧ carried_out sem ch c.
Proof.
  intros H Hne Hu Hc Hnew. unfold lock_threads in H.
  destruct (if kernel then install_all t f ts else None) as [ts1|]; [done|]. injection H as <-.
  cbn in *. assert (install t f ts !! u = Some ch) as E.
  { unfold install. destruct (ts !! t); [|done]. by rewrite lookup_insert_ne. }
  split; [done|]. split; [|done]. cbn. rewrite E, Hnew, lookup_insert. done.
Qed.
Print Assumptions C145_others_refuted.

(** Thread 2 has a filter of its own, for instance of a library; then it is not restricted. *)
Definition ext_threads : threads := <[1 := []]> (<[2 := [70]]> ∅).
Definition ext_sem (f : N) (c : N) : bool := if f =? 70 then true else negb (c =? 59).
Theorem C145_refuted : ¬ C145_full.
Proof.
  intros H. unfold C145_full in H.
  refine (H N ext_sem true true 1 99 [] ext_threads OneThread (<[1 := [99]]> ext_threads) [] 2 [70] 59
    _ _ _ _ _ _ _).
  - by eexists.
  - constructor.
  - by vm_compute.
  - done.
  - done.
  - done.
  - intros f Hf. apply elem_of_list_singleton in Hf as ->. done.
Qed.
Print Assumptions C145_refuted.

Example C145_example :
  fst (lock_threads true true 1 99 [] (<[1 := [70]]> (<[2 := []]> ∅))) = AllThreads ∧
  snd (lock_threads true true 1 99 [] (<[1 := [70]]> (<[2 := []]> ∅))) !! 2 = Some [99; 70] ∧
  fst (lock_threads false true 1 99 [] (<[1 := [70]]> (<[2 := []]> ∅))) = OneThread ∧
  snd (lock_threads false true 1 99 [] (<[1 := [70]]> (<[2 := []]> ∅))) !! 2 = Some [] ∧
  fst (lock_threads true true 1 99 [] ext_threads) = OneThread ∧
  tsteps (snd (lock_threads true true 1 99 [] ext_threads)) [TClone 2 3] !! 3 = Some [70].
Proof. by vm_compute. Qed.
