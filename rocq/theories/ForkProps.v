(** Processes started before the lowering: C158. *)
From stdpp Require Import prelude.
From Verif Require Import ForkModel.

(** Filtered, or no longer running. *)
Definition restricted (p : proc) : Prop :=
  match p with Lowered | Calling _ | Gone => True | Fresh | Asking => False end.
Definition filtered (p : proc) : bool := match p with Lowered | Calling _ => true | _ => false end.

(** Once the lowering function has returned, everything of the worker is restricted and every
    trapped call gets its own answer. *)
Definition C158_full : Prop :=
  ∀ s, rtc fany f_start s →
    (0 < f_lowered s → Forall restricted (f_procs s)) ∧
    Forall (λ x, x.2 = Answer x.1) (f_got s).

Definition inits (rs : list response) : nat := length (filter (λ r, r = InitAnswer) rs).
Definition count (ps : list proc) : nat := length (filter (λ p, filtered p = true) ps).
Lemma inits_app rs rs' : inits (rs ++ rs') = inits rs + inits rs'.
Proof. unfold inits. by rewrite filter_app, app_length. Qed.
Lemma inits_cons r rs : inits (r :: rs) = (if decide (r = InitAnswer) then 1 else 0) + inits rs.
Proof. unfold inits. rewrite filter_cons. by case_decide. Qed.
Lemma inits_nil : inits [] = 0.
Proof. done. Qed.
Lemma count_app ps ps' : count (ps ++ ps') = count ps + count ps'.
Proof. unfold count. by rewrite filter_app, app_length. Qed.
Lemma count_insert ps i p q :
  ps !! i = Some p →
  count (<[i := q]> ps) + (if filtered p then 1 else 0) = count ps + (if filtered q then 1 else 0).
Proof.
  intros H. assert (i < length ps) as Hi by (by apply lookup_lt_Some in H).
  rewrite insert_take_drop by done.
  assert (count ps = count (take i ps ++ p :: drop (S i) ps)) as E by (by rewrite take_drop_middle).
  rewrite E, !count_app. unfold count at 2 4. rewrite !filter_cons.
  destruct (filtered p), (filtered q); cbn [decide]; repeat case_decide; cbn [length]; try done; lia.
Qed.

Definition finv (s : fstate) : Prop :=
  f_lowered s + inits (f_resps s) ≤ (if f_greeted s then 1 else 0) ∧
  count (f_procs s) ≤ f_lowered s.
Lemma finv_step s s' : finv s → fany s s' → finv s'.
Proof.
  intros [H1 H2] [l Hs]. unfold finv in *.
  destruct Hs; cbn [f_procs f_resps f_greeted f_lowered] in *;
    try match goal with H : _ !! _ = Some _ |- context [<[_ := ?q]> _] =>
      let E := fresh in pose proof (count_insert _ _ _ q H) as E; cbn [filtered] in E end;
    rewrite ?inits_app, ?count_app, ?inits_cons, ?inits_nil in *; repeat case_decide; try done;
    try (unfold count in *; cbn [length filter list_filter filtered] in *; split; lia).
  assert (count [Fresh] = 0) as -> by done. split; lia.
Qed.
Lemma finv_reach s s' : finv s → rtc fany s s' → finv s'.
Proof. intros H. induction 1; [done|]. eauto using finv_step. Qed.

(** The function returns at most once in all processes together, and at most one process is
    ever filtered. *)
Theorem C158_one s :
  rtc fany f_start s →
  f_lowered s ≤ 1 ∧
  ∀ i j p q, f_procs s !! i = Some p → f_procs s !! j = Some q →
    filtered p = true → filtered q = true → i = j.
Proof.
  intros H. assert (finv s) as [H1 H2].
  { eapply finv_reach; [|done]. split; vm_compute; lia. }
  assert (f_lowered s ≤ 1) as Hl by (revert H1; destruct (f_greeted s); lia). split; [done|].
  assert (count (f_procs s) ≤ 1) as Hc by lia.
  intros i j p q Hi Hj Hp Hq. destruct (decide (i = j)) as [|Hne]; [done|exfalso].
  pose proof (count_insert _ _ _ Gone Hi) as E1. rewrite Hp in E1. cbn [filtered] in E1.
  assert (<[i := Gone]> (f_procs s) !! j = Some q) as Hj' by (by rewrite list_lookup_insert_ne).
  pose proof (count_insert _ _ _ Gone Hj') as E2. rewrite Hq in E2. cbn [filtered] in E2. lia.
Qed.
Print Assumptions C158_one.

(** A process that is not filtered when the function has returned somewhere never will be. *)
Theorem C158_never s s' i p :
  rtc fany f_start s → 0 < f_lowered s → f_procs s !! i = Some p → filtered p = false →
  rtc fany s s' → ∃ p', f_procs s' !! i = Some p' ∧ filtered p' = false.
Proof.
  intros H Hd Hi Hp Hs. assert (finv s) as Hinv.
  { eapply finv_reach; [|done]. split; vm_compute; lia. }
  clear H. revert p Hi Hp. induction Hs as [s|s s1 s' Hstep Hs IH]; intros p Hi Hp; [by eauto|].
  pose proof (finv_step _ _ Hinv Hstep) as Hinv'.
  assert (inits (f_resps s) = 0) as H0 by (destruct Hinv as [H _]; revert H; destruct (f_greeted s); lia).
  assert (0 < f_lowered s1) as Hd1 by (destruct Hstep as [l Hstep]; destruct Hstep; cbn in *; lia).
  assert (∃ p', f_procs s1 !! i = Some p' ∧ filtered p' = false) as (p' & Hi' & Hp').
  { destruct Hstep as [l Hstep].
    destruct Hstep; cbn [f_procs f_resps] in *;
      try (exists p; by rewrite ?lookup_app_l by (by eapply lookup_lt_Some)).
    all: try (unfold inits in H0; rewrite filter_cons in H0; by cbn in H0).
    all: match goal with H : _ !! ?j = Some _ |- context [<[?j := ?q]> _] =>
      destruct (decide (j = i)) as [->|Hne];
      [exists q; rewrite list_lookup_insert by (by eapply lookup_lt_Some); simplify_eq
      |exists p; by rewrite list_lookup_insert_ne] end.
    all: done. }
  by apply (IH Hd1 Hinv' p').
Qed.
Print Assumptions C158_never.

(** A program that starts no process before is restricted, and its calls get their answers. *)
Definition ainv (s : fstate) : Prop :=
  Forall (λ x, x.2 = Answer x.1) (f_got s) ∧
  match s with
  | mkF [Fresh] [] [] false _ 0 _ | mkF [Asking] [Init] [] false _ 0 _
  | mkF [Asking] [] [InitAnswer] true _ 0 _ | mkF [Lowered] [] [] true _ 1 _ => True
  | mkF [Calling k] [Ask j] [] true _ 1 _ | mkF [Calling k] [] [Answer j] true _ 1 _ => j = k
  | _ => False
  end.
Lemma ainv_step s s' : ainv s → alone s s' → ainv s'.
Proof.
  intros [Hg H] Hs. unfold alone in Hs. remember LOther as l eqn:El. unfold ainv in *.
  destruct Hs; cbn [f_got] in *; try done;
    repeat (case_match; simplify_eq; try done; cbn [app] in *; simplify_eq; try done);
    match goal with
    | H : _ !! ?i = Some _ |- _ => destruct i; cbn in H; simplify_eq
    | _ => idtac
    end; cbn in *; simplify_eq; try done.
  all: split; [|done]. all: apply Forall_app; split; [done|]. all: by repeat constructor.
Qed.
Theorem C158_partial s :
  rtc alone f_start s →
  (0 < f_lowered s → Forall restricted (f_procs s)) ∧ Forall (λ x, x.2 = Answer x.1) (f_got s).
Proof.
  intros H. assert (ainv s) as [Hg Hi].
  { assert (ainv f_start) as H0 by (split; [constructor|done]).
    revert H0. induction H; [done|]. eauto using ainv_step. }
  split; [|done]. intros Hd. destruct s as [ps qs rs g n d got]. cbn [f_lowered f_procs] in *.
  repeat (case_match; simplify_eq; try done); try lia; by repeat constructor.
Qed.
Print Assumptions C158_partial.

Tactic Notation "run1" uconstr(c) :=
  eapply rtc_l; [eexists; eapply c; reflexivity|]; cbn [app insert list_insert].
Theorem C158_refuted : ¬ C158_full.
Proof.
  intros H. unfold C158_full in H.
  assert (rtc fany f_start (mkF [Lowered; Fresh] [] [] true 0 1 [])) as Hr.
  { unfold f_start. run1 (F_fork 0). run1 (F_lower 0).
    eapply rtc_l; [eexists; eapply F_greet|]; cbn [app].
    eapply rtc_l; [eexists; eapply (F_lowered 0); reflexivity|]. apply rtc_refl. }
  destruct (H _ Hr) as [Hf _]. cbn [f_lowered f_procs] in Hf.
  specialize (Hf (Nat.lt_0_succ 0)). apply Forall_cons in Hf as [_ Hf]. by apply Forall_cons in Hf as [[] _].
Qed.
Print Assumptions C158_refuted.

(** A process left behind that calls the function takes the answers of trapped calls, with
    their descriptors: the call gets the refusal meant for it. *)
Theorem C158_crossed :
  ∃ s, rtc fany f_start s ∧ f_got s = [(0, Refusal)] ∧ f_procs s = [Lowered; Gone].
Proof.
  exists (mkF [Lowered; Gone] [] [] true 1 1 [(0, Refusal)]). split; [|done].
  unfold f_start. run1 (F_fork 0). run1 (F_lower 0).
  eapply rtc_l; [eexists; eapply F_greet|]; cbn [app].
  eapply rtc_l; [eexists; eapply (F_lowered 0); reflexivity|]; cbn [insert list_insert].
  run1 (F_call 0). run1 (F_lower 1).
  eapply rtc_l; [eexists; eapply F_serve|]; cbn [app].
  eapply rtc_l; [eexists; eapply F_refuse|]; cbn [app].
  eapply rtc_l; [eexists; eapply (F_panic 1); [reflexivity|done]|]; cbn [insert list_insert].
  eapply rtc_l; [eexists; eapply (F_answer 0); [reflexivity|done]|]. apply rtc_refl.
Qed.
Print Assumptions C158_crossed.

Example C158_example :
  ∃ s, rtc alone f_start s ∧ f_got s = [(0, Answer 0)] ∧ f_procs s = [Lowered] ∧ f_lowered s = 1.
Proof.
  exists (mkF [Lowered] [] [] true 1 1 [(0, Answer 0)]). split; [|done].
  unfold f_start. eapply rtc_l; [eapply (F_lower 0); reflexivity|]; cbn [app insert list_insert].
  eapply rtc_l; [eapply F_greet|]; cbn [app].
  eapply rtc_l; [eapply (F_lowered 0); reflexivity|]; cbn [insert list_insert].
  eapply rtc_l; [eapply (F_call 0); reflexivity|]; cbn [app insert list_insert].
  eapply rtc_l; [eapply F_serve|]; cbn [app].
  eapply rtc_l; [eapply (F_answer 0); [reflexivity|done]|]. apply rtc_refl.
Qed.
