(** Property C138: trapped calls made from inside the allocator. *)
From stdpp Require Import prelude gmap relations.
From Verif Require Import LockModel HandlerLockModel.
Local Open Scope N_scope.

Local Instance trapped_eq_dec : EqDecision trapped.
Proof. solve_decision. Defined.

(** All threads came to the end of their programs. *)
Definition all_ended (m : lock_mem wlock) : Prop :=
  ∀ tid ops, lm_threads m !! tid = Some ops → ops = [].
(** Calls that name a path. *)
Definition names_path (c : trapped) : Prop := c ≠ TOther.
(** A program whose allocator makes no call that names a path. *)
Definition quiet_alloc (prog : list pact) : Prop :=
  ∀ inside c, PAlloc inside ∈ prog → c ∈ inside → ¬ names_path c.

(* ---------------------------------------------------------------- programs without a second take *)

(** Operations of a thread that holds the allocator ([a]) and the channel ([c]): the channel is
    given back before anything else, the allocator is not taken twice. *)
Fixpoint ok (a c : bool) (ops : list (lock_op wlock)) : Prop :=
  match ops with
  | [] => a = false ∧ c = false
  | Take LHeap :: ops => a = false ∧ c = false ∧ ok true c ops
  | Give LHeap :: ops => a = true ∧ c = false ∧ ok false c ops
  | Take LChannel :: ops => c = false ∧ ok a true ops
  | Give LChannel :: ops => c = true ∧ ok a false ops
  end.
Lemma ok_handler c ops : ok false false ops → ok false false (handler_ops c ++ ops).
Proof. intros H. destruct c as [| |[]| |]; cbn; tauto. Qed.
Lemma ok_inside inside ops :
  (∀ c, c ∈ inside → ¬ names_path c) → ok false false ops →
  ok true false (concat (map handler_ops inside) ++ Give LHeap :: ops).
Proof.
  intros H Hk. induction inside as [|c inside IH]; [by cbn|].
  destruct (decide (c = TOther)) as [->|Hc].
  - cbn [map concat]. rewrite <- app_assoc. cbn. split; [done|]. split; [done|].
    apply IH. intros c Hin. apply H. by right.
  - exfalso. apply (H c); [left|done].
Qed.
Lemma ok_prog prog : quiet_alloc prog → ok false false (prog_ops prog).
Proof.
  unfold prog_ops. induction prog as [|[c|inside] prog IH]; intros H; [done| |].
  - cbn [map concat pact_ops]. apply ok_handler. apply IH.
    intros i c' Hin. apply H. by right.
  - cbn [map concat pact_ops]. cbn [app ok]. split; [done|]. split; [done|].
    rewrite <- app_assoc. cbn [app]. apply ok_inside; [intros c Hc; by eapply H; [left|]|].
    apply IH. intros i c' Hin. apply H. by right.
Qed.

Definition holds (m : lock_mem wlock) (l : wlock) (tid : N) : bool :=
  bool_decide (lm_word m l = Some tid).
Definition inv (m : lock_mem wlock) : Prop :=
  (∀ tid ops, lm_threads m !! tid = Some ops → ok (holds m LHeap tid) (holds m LChannel tid) ops) ∧
  (∀ l tid, lm_word m l = Some tid → is_Some (lm_threads m !! tid)).

Lemma inv_step m m' : inv m → lock_step m m' → inv m'.
Proof.
  intros [H1 H2] Hs. destruct Hs as [m tid l ops Ht Hl|m tid l ops Ht Hl].
  - split.
    + intros u ops' Hu. cbn [lm_threads] in Hu. unfold holds. cbn [lm_word].
      assert (Ho := H1 _ _ Ht). unfold holds in Ho.
      destruct (decide (u = tid)) as [->|Hne].
      * rewrite lookup_insert in Hu. injection Hu as <-. unfold set_word.
        destruct l; cbn [ok] in Ho.
        -- rewrite decide_True, decide_False by done. rewrite (bool_decide_true (Some tid = _)) by done.
           tauto.
        -- rewrite decide_False, decide_True by done. rewrite (bool_decide_true (Some tid = _)) by done.
           tauto.
      * rewrite lookup_insert_ne in Hu by done. assert (Ho' := H1 _ _ Hu). unfold holds in Ho'.
        unfold set_word. destruct l; rewrite Hl in Ho'.
        -- rewrite decide_True, decide_False by done.
           rewrite bool_decide_false in Ho' by done. rewrite bool_decide_false by congruence. done.
        -- rewrite decide_False, decide_True by done.
           rewrite (bool_decide_false (None = _)) in Ho' by done.
           rewrite (bool_decide_false (Some tid = _)) by congruence. done.
    + intros l' u Hw. cbn [lm_word lm_threads] in *. unfold set_word in Hw.
      apply lookup_insert_is_Some. destruct (decide (tid = u)) as [|Hne]; [by left|right].
      split; [done|]. destruct (decide (l' = l)); [congruence|]. by eapply H2.
  - split.
    + intros u ops' Hu. cbn [lm_threads] in Hu. unfold holds. cbn [lm_word].
      assert (Ho := H1 _ _ Ht). unfold holds in Ho.
      destruct (decide (u = tid)) as [->|Hne].
      * rewrite lookup_insert in Hu. injection Hu as <-. unfold set_word.
        destruct l; cbn [ok] in Ho.
        -- rewrite decide_True, decide_False by done. rewrite (bool_decide_false (None = _)) by done.
           tauto.
        -- rewrite decide_False, decide_True by done. rewrite (bool_decide_false (None = _)) by done.
           tauto.
      * rewrite lookup_insert_ne in Hu by done. assert (Ho' := H1 _ _ Hu). unfold holds in Ho'.
        unfold set_word. destruct l; rewrite Hl in Ho'.
        -- rewrite decide_True, decide_False by done.
           rewrite bool_decide_false in Ho' by congruence. rewrite bool_decide_false by done. done.
        -- rewrite decide_False, decide_True by done.
           rewrite (bool_decide_false (Some tid = _)) in Ho' by congruence.
           rewrite (bool_decide_false (None = _)) by done. done.
    + intros l' u Hw. cbn [lm_word lm_threads] in *. unfold set_word in Hw.
      apply lookup_insert_is_Some. destruct (decide (tid = u)) as [|Hne]; [by left|right].
      split; [done|]. destruct (decide (l' = l)); [done|]. by eapply H2.
Qed.

Lemma give_steps m tid l ops :
  inv m → lm_threads m !! tid = Some (Give l :: ops) → ∃ m', lock_step m m'.
Proof.
  intros [H1 _] Ht. assert (Ho := H1 _ _ Ht). eexists. eapply StepGive; [exact Ht|].
  unfold holds in Ho. destruct l; cbn [ok] in Ho; destruct Ho as [Ho _]; by apply bool_decide_eq_true in Ho.
Qed.
Lemma inv_progress m : inv m → all_ended m ∨ ∃ m', lock_step m m'.
Proof.
  intros Hi. pose proof Hi as [H1 H2].
  destruct (decide (map_Forall (λ _ ops, ops = []) (lm_threads m))) as [Hd|Hd]; [by left|right].
  apply map_not_Forall in Hd as (tid & ops & Ht & Hne); [|solve_decision].
  destruct (lm_word m LChannel) as [u|] eqn:Ec.
  { destruct (H2 _ _ Ec) as [uops Hu]. assert (Ho := H1 _ _ Hu). unfold holds in Ho.
    rewrite (bool_decide_true (lm_word m LChannel = _)) in Ho by done.
    destruct uops as [|[[]|[]] uops]; cbn [ok] in Ho; try by destruct_and?.
    by eapply give_steps. }
  destruct ops as [|[[]|l] ops]; [done| | |by eapply give_steps].
  - destruct (lm_word m LHeap) as [u|] eqn:Ea; [|eexists; by eapply StepTake].
    destruct (H2 _ _ Ea) as [uops Hu]. assert (Ho := H1 _ _ Hu). unfold holds in Ho.
    rewrite (bool_decide_true (lm_word m LHeap = _)) in Ho by done.
    destruct uops as [|[[]|l] uops]; cbn [ok] in Ho; try by destruct_and?.
    + eexists. by eapply StepTake.
    + by eapply give_steps.
  - eexists. by eapply StepTake.
Qed.

(* ---------------------------------------------------------------- C138 *)

(** Whatever the threads of a worker do, they can always go on until all came to the end of
    their programs: trapped calls return, wherever they are made. *)
Definition C138_full : Prop := ∀ progs m,
  rtc lock_step (worker_mem progs) m → all_ended m ∨ ∃ m', lock_step m m'.

(** True if the allocator itself makes no trapped call that names a path. *)
Theorem C138_partial progs m :
  (∀ tid prog, progs !! tid = Some prog → quiet_alloc prog) →
  rtc lock_step (worker_mem progs) m → all_ended m ∨ ∃ m', lock_step m m'.
Proof.
  intros Hq Hr. apply inv_progress.
  assert (inv (worker_mem progs)) as H0.
  { split; [|done]. intros tid ops Ht. cbn [worker_mem lm_threads] in Ht.
    apply lookup_fmap_Some in Ht as (prog & <- & Hp). apply ok_prog. by eapply Hq. }
  revert H0. clear Hq. induction Hr as [|x y z Hs _ IH]; [done|]. intros Hx.
  apply IH. by eapply inv_step.
Qed.
Print Assumptions C138_partial.

(** The allocator is taken by a thread that has it. *)
Fixpoint twice (a : bool) (ops : list (lock_op wlock)) : Prop :=
  match ops with
  | [] => False
  | Take LHeap :: ops => a = true ∨ twice true ops
  | Give LHeap :: ops => twice false ops
  | _ :: ops => twice a ops
  end.
Lemma twice_app a ops1 ops2 : (∀ b, twice b ops2) → twice a (ops1 ++ ops2).
Proof.
  intros H. revert a. induction ops1 as [|[[]|[]] ops1 IH]; intros a; cbn [app twice]; auto.
Qed.
Lemma twice_more a ops1 ops2 : twice a ops1 → twice a (ops1 ++ ops2).
Proof.
  revert a. induction ops1 as [|[[]|[]] ops1 IH]; intros a H; cbn [app twice] in *; [done|..]; auto.
  destruct H; auto.
Qed.
Lemma twice_inside inside : (∃ c, c ∈ inside ∧ names_path c) →
  twice true (concat (map handler_ops inside)).
Proof.
  intros (c & Hin & Hc). induction inside as [|d inside IH]; [by apply elem_of_nil in Hin|].
  cbn [map concat]. destruct (decide (d = TOther)) as [->|Hd].
  - cbn [handler_ops exchange app twice]. apply IH. by apply elem_of_cons in Hin as [->|].
  - destruct d as [| |[]| |]; cbn; tauto.
Qed.
Lemma twice_prog inside c prog a :
  PAlloc inside ∈ prog → c ∈ inside → names_path c → twice a (prog_ops prog).
Proof.
  intros Hp Hc Hn. apply elem_of_list_split in Hp as (l1 & l2 & ->).
  unfold prog_ops. rewrite map_app, concat_app. apply twice_app. intros b.
  cbn [map concat pact_ops app twice]. right. rewrite <- app_assoc. apply twice_more.
  apply twice_inside. eauto.
Qed.

(** Otherwise it never is: whatever the schedule, a thread whose allocator makes such a call
    never comes to the end of its program. *)
Theorem C138_allocator_refuted progs tid prog inside c m :
  progs !! tid = Some prog → PAlloc inside ∈ prog → c ∈ inside → names_path c →
  rtc lock_step (worker_mem progs) m → ¬ all_ended m.
Proof.
  intros Hp Hin Hc Hn Hr Hd.
  assert (∃ ops, lm_threads m !! tid = Some ops ∧ twice (holds m LHeap tid) ops) as (ops & Ho & Ht).
  { assert (∃ ops, lm_threads (worker_mem progs) !! tid = Some ops ∧
      twice (holds (worker_mem progs) LHeap tid) ops) as H0.
    { exists (prog_ops prog). cbn [worker_mem lm_threads]. rewrite lookup_fmap, Hp.
      split; [done|]. by eapply twice_prog. }
    revert H0. clear -Hr. induction Hr as [|x y z Hs _ IH]; [done|].
    intros (ops & Ho & Ht). apply IH. clear IH.
    destruct Hs as [x u l uops Hu Hl|x u l uops Hu Hl]; unfold holds in *; cbn [lm_threads lm_word];
      unfold set_word.
    - destruct (decide (u = tid)) as [->|Hne].
      + rewrite Hu in Ho. injection Ho as <-. exists uops. rewrite lookup_insert. split; [done|].
        destruct l; cbn [twice] in Ht.
        * rewrite decide_True by done. rewrite Hl in Ht. rewrite bool_decide_true by done.
          by destruct Ht.
        * by rewrite decide_False.
      + exists ops. rewrite lookup_insert_ne by done. split; [done|]. destruct l.
        * rewrite decide_True by done. rewrite bool_decide_false by congruence.
          by rewrite Hl in Ht.
        * by rewrite decide_False.
    - destruct (decide (u = tid)) as [->|Hne].
      + rewrite Hu in Ho. injection Ho as <-. exists uops. rewrite lookup_insert. split; [done|].
        destruct l; cbn [twice] in Ht.
        * by rewrite decide_True.
        * by rewrite decide_False.
      + exists ops. rewrite lookup_insert_ne by done. split; [done|]. destruct l.
        * rewrite decide_True by done. rewrite Hl in Ht.
          rewrite bool_decide_false in Ht by congruence. by rewrite bool_decide_false.
        * by rewrite decide_False. }
  rewrite (Hd _ _ Ho) in Ht. done.
Qed.
Print Assumptions C138_allocator_refuted.

(** And once it waits, every thread that still needs the allocator waits as well. *)
Theorem C138_others_refuted m m' tid ops u uops :
  lm_word m LHeap = Some tid → lm_threads m !! tid = Some (Take LHeap :: ops) →
  lm_threads m !! u = Some uops → Take LHeap ∈ uops →
  rtc lock_step m m' → lm_threads m' !! u ≠ Some [].
Proof.
  intros Hw Ht Hu Hin Hr.
  assert (lm_word m' LHeap = Some tid ∧ lm_threads m' !! tid = Some (Take LHeap :: ops) ∧
    ∃ uops, lm_threads m' !! u = Some uops ∧ Take LHeap ∈ uops) as (_ & _ & uops' & Hu' & Hin').
  { assert (lm_word m LHeap = Some tid ∧ lm_threads m !! tid = Some (Take LHeap :: ops) ∧
      ∃ uops, lm_threads m !! u = Some uops ∧ Take LHeap ∈ uops) as H0 by eauto.
    revert H0. clear -Hr. induction Hr as [|x y z Hs _ IH]; [done|].
    intros (Hw & Ht & uops & Hu & Hin). apply IH. clear IH.
    destruct Hs as [x v l vops Hv Hl|x v l vops Hv Hl]; cbn [lm_word lm_threads]; unfold set_word.
    - assert (l ≠ LHeap) as Hl' by congruence. assert (v ≠ tid) as Hv' by congruence.
      rewrite decide_False by done. rewrite lookup_insert_ne by done.
      split; [done|]. split; [done|]. destruct (decide (v = u)) as [->|Hne].
      + rewrite lookup_insert. exists vops. split; [done|]. rewrite Hv in Hu. injection Hu as <-.
        apply elem_of_cons in Hin as [[= E]|]; [congruence|done].
      + rewrite lookup_insert_ne by done. eauto.
    - assert (v ≠ tid) as Hv' by congruence. assert (l ≠ LHeap) as Hl' by congruence.
      rewrite decide_False by done. rewrite lookup_insert_ne by done.
      split; [done|]. split; [done|]. destruct (decide (v = u)) as [->|Hne].
      + rewrite lookup_insert. exists vops. split; [done|]. rewrite Hv in Hu. injection Hu as <-.
        by apply elem_of_cons in Hin as [|].
      + rewrite lookup_insert_ne by done. eauto. }
  rewrite Hu'. intros [= ->]. by apply elem_of_nil in Hin'.
Qed.
Print Assumptions C138_others_refuted.

(** A thread whose allocator opens a file, for instance /proc/sys/vm/overcommit_memory when the
    heap of a thread shrinks (glibc, malloc/arena.c), waits after two steps. *)
Theorem C138_refuted : ¬ C138_full.
Proof.
  intros H.
  set (m1 := mkLockMem (set_word LHeap (Some 1) (λ _ : wlock, None))
    {[ 1 := Take LHeap :: Give LHeap :: exchange ++ heap_use ++ [Give LHeap] ]}).
  assert (rtc lock_step (worker_mem {[ 1 := [PAlloc [TOpen false]] ]}) m1) as Hr.
  { apply rtc_once. unfold m1. unfold worker_mem. rewrite map_fmap_singleton.
    rewrite <- (insert_singleton 1 (prog_ops [PAlloc [TOpen false]])
      (Take LHeap :: Give LHeap :: exchange ++ heap_use ++ [Give LHeap])).
    pose proof (@StepTake wlock wlock_eq_dec
      (mkLockMem (λ _, None) {[ 1 := prog_ops [PAlloc [TOpen false]] ]}) 1 LHeap
      (Take LHeap :: Give LHeap :: exchange ++ heap_use ++ [Give LHeap])) as X.
    cbn [lm_threads lm_word] in X. apply X; [|done]. by rewrite lookup_singleton. }
  destruct (H _ _ Hr) as [Hd|[m' Hs]].
  - assert (He := Hd 1 (Take LHeap :: Give LHeap :: exchange ++ heap_use ++ [Give LHeap])).
    cbn [lm_threads m1] in He. rewrite lookup_singleton in He. by specialize (He eq_refl).
  - inversion Hs as [x u l uops Hu Hl|x u l uops Hu Hl]; subst x; cbn [lm_threads m1] in Hu;
      apply lookup_singleton_Some in Hu as [<- Hu]; [|done].
    injection Hu as <- <-. by cbn in Hl.
Qed.
Print Assumptions C138_refuted.

(** A forwarded call in the same place comes back: seven operations of the handler of a relative
    open, then the allocator with one exchange inside. *)
Example C138_example :
  quiet_alloc [PCall (TOpen true); PAlloc [TOther]] ∧
  prog_ops [PAlloc [TOther]] = [Take LHeap; Take LChannel; Give LChannel; Give LHeap] ∧
  prog_ops [PAlloc [TStat]] =
    [Take LHeap; Take LHeap; Give LHeap; Take LChannel; Give LChannel; Take LHeap; Give LHeap;
     Give LHeap] ∧
  ¬ quiet_alloc [PCall (TOpen true); PAlloc [TStat]].
Proof.
  split; [|split; [done|split; [done|]]].
  - intros inside c. rewrite !elem_of_cons. intros [|[[= ->]|Hn]] Hc; [done| |by apply elem_of_nil in Hn].
    apply elem_of_list_singleton in Hc as ->. by intros [].
  - intros H. apply (H [TStat] TStat); [right; left|left|done].
Qed.
