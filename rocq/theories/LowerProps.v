(** Calls of the lowering function by several threads: C152. *)
From stdpp Require Import prelude.
From Verif Require Import Bytes FdModel EntryModel ProcessModel LowerModel.

(** The function returns once, and the trapped calls that follow get their own answers. *)
Definition once (s : lstate) : Prop :=
  ∀ i j t t', l_events s !! i = Some (Returned t) → l_events s !! j = Some (Returned t') → i = j.
Definition own_answers (s : lstate) : Prop :=
  ∀ e, e ∈ l_events s →
    match e with Served _ k r => r = Answer k | Broken _ _ => False | _ => True end.
Definition C152_full : Prop :=
  ∀ ch v n s, channel_of v = Some ch → rtc (lstep ch) (l_init (Some v) n) s →
    once s ∧ own_answers s.

(* ---------------------------------------------------------------- it returns once *)

Definition w_pc (p : pc) : nat := match p with LFilter => 1 | _ => 0 end.
Definition w_resp (r : response) : nat := match r with InitAnswer => 1 | _ => 0 end.
Definition w_event (e : event) : nat := match e with Returned _ => 1 | _ => 0 end.
Lemma sum_insert (l : list pc) i x y : l !! i = Some x →
  sum_list_with w_pc (<[i := y]> l) + w_pc x = sum_list_with w_pc l + w_pc y.
Proof.
  revert i. induction l as [|z l IH]; intros [|i] H; try done.
  - cbn in H. injection H as ->. change (<[0 := y]> (x :: l)) with (y :: l).
    cbn [sum_list_with]. lia.
  - cbn in H. change (<[S i := y]> (z :: l)) with (z :: <[i := y]> l). cbn [sum_list_with].
    specialize (IH i H). lia.
Qed.
Definition tokens (s : lstate) : nat :=
  sum_list_with w_pc (l_threads s) + sum_list_with w_resp (l_resps s) +
  sum_list_with w_event (l_events s).
Lemma tokens_step ch s s' : lstep ch s s' →
  tokens s ≤ (if l_greeted s then 1 else 0) → tokens s' ≤ (if l_greeted s' then 1 else 0).
Proof.
  unfold tokens. intros Hs Ht.
  assert (∀ t p q, l_threads s !! t = Some p →
    sum_list_with w_pc (<[t := q]> (l_threads s)) + w_pc p = sum_list_with w_pc (l_threads s) + w_pc q)
    as Hi by (intros; by apply sum_insert).
  destruct Hs; cbn [l_threads l_resps l_events l_greeted with_thread with_mutex with_resps with_reqs happened];
    rewrite ?sum_list_with_app; cbn [sum_list_with w_event w_resp];
    repeat match goal with
    | H : l_threads ?s !! ?t = Some ?p |- context [<[?t := ?q]> (l_threads ?s)] =>
        pose proof (Hi t p q H); clear H
    | H : l_resps _ = _ |- _ => rewrite H in Ht; clear H
    end; cbn [w_pc sum_list_with w_resp] in *; try lia.
  - destruct (decide (r = InitAnswer)); cbn [w_event]; lia.
  - destruct (l_greeted s); cbn [w_resp]; lia.
  - destruct (l_greeted s); [lia|done].
Qed.
Lemma one_returned (es : list event) i j t t' :
  sum_list_with w_event es ≤ 1 →
  es !! i = Some (Returned t) → es !! j = Some (Returned t') → i = j.
Proof.
  assert (∀ (es : list event) i t, es !! i = Some (Returned t) → 1 ≤ sum_list_with w_event es) as Hp.
  { clear. intros es. induction es as [|e es IH]; intros [|i] t H; try done.
    - injection H as ->. cbn. lia.
    - specialize (IH i t H). cbn. lia. }
  revert i j. induction es as [|e es IH]; intros [|i] [|j] Hs Hi Hj; try done.
  - injection Hi as ->. pose proof (Hp es j t' Hj). cbn in Hs. lia.
  - injection Hj as ->. pose proof (Hp es i t Hi). cbn in Hs. lia.
  - f_equal. apply IH; [cbn in Hs; lia|done|done].
Qed.
(** For every interleaving, and whatever the variable holds. *)
Theorem C152_once ch v n s : rtc (lstep ch) (l_init v n) s → once s.
Proof.
  intros Hr.
  assert (tokens s ≤ (if l_greeted s then 1 else 0)) as Ht.
  { assert (tokens (l_init v n) ≤ (if l_greeted (l_init v n) then 1 else 0)) as H0.
    { unfold tokens, l_init; cbn [l_threads l_resps l_events l_greeted sum_list_with].
      assert (sum_list_with w_pc (replicate n Idle) = 0) as -> by (clear; by induction n). lia. }
    induction Hr as [|s s1 s2 Hs _ IH]; [done|]. apply IH. by eapply tokens_step. }
  intros i j t t'. apply one_returned. unfold tokens in Ht. destruct (l_greeted s); lia.
Qed.
Print Assumptions C152_once.

(* ---------------------------------------------------------------- one call at a time *)

(** Within the lowering function. *)
Definition lowering (p : pc) : bool :=
  match p with
  | LRead _ | LRemoved _ | LOwner _ | LStored | LHolds _ | LWaits _ | LFilter => true
  | _ => false
  end.
(** No thread enters it while another one is in it. *)
Definition calm (ch : N) (s s' : lstate) : Prop :=
  lstep ch s s' ∧
  ∀ i p, l_threads s !! i = Some Idle → l_threads s' !! i = Some p → lowering p = true →
    ∀ j q, l_threads s !! j = Some q → lowering q = false.

(** The exchange in progress: which thread has the lock of the channel. *)
Definition holds (p : pc) : bool := match p with THolds _ _ | TWaits _ _ => true | _ => false end.
Definition idle_others (t : nat) (s : lstate) : Prop :=
  ∀ j q, j ≠ t → l_threads s !! j = Some q → q = Idle.
Definition silent (s : lstate) : Prop := l_reqs s = [] ∧ l_resps s = [].
Definition lone (ch : N) (held : bool) (s : lstate) : Prop :=
  l_var s = None ∧ l_single s = Some 0 ∧ l_muts s = [mkM ch held false].
Inductive calm_inv (ch : N) (s : lstate) : Prop :=
  | I_before v :
      l_var s = Some v → channel_of v = Some ch → l_muts s = [] → l_filter s = false →
      l_greeted s = false → silent s →
      (∀ j q, l_threads s !! j = Some q → q = Idle) → calm_inv ch s
  | I_entry t v :
      (l_threads s !! t = Some (LRead v) ∨ l_threads s !! t = Some (LRemoved v) ∧ l_var s = None) →
      channel_of v = Some ch →
      l_muts s = [] → l_filter s = false → l_greeted s = false → silent s →
      idle_others t s → calm_inv ch s
  | I_owner t :
      l_threads s !! t = Some (LOwner ch) → l_var s = None →
      l_muts s = [] → l_filter s = false → l_greeted s = false → silent s →
      idle_others t s → calm_inv ch s
  | I_stored t :
      l_threads s !! t = Some LStored → lone ch false s → l_filter s = false →
      l_greeted s = false → silent s → idle_others t s → calm_inv ch s
  | I_holds t :
      l_threads s !! t = Some (LHolds 0) → lone ch true s → l_filter s = false →
      l_greeted s = false → silent s → idle_others t s → calm_inv ch s
  | I_waits t :
      l_threads s !! t = Some (LWaits 0) → lone ch true s → l_filter s = false →
      (l_greeted s = false ∧ l_reqs s = [Init] ∧ l_resps s = [] ∨
       l_greeted s = true ∧ l_reqs s = [] ∧ l_resps s = [InitAnswer]) →
      idle_others t s → calm_inv ch s
  | I_filter t :
      l_threads s !! t = Some LFilter → lone ch false s → l_filter s = false →
      l_greeted s = true → silent s → idle_others t s → calm_inv ch s
  | I_free :
      lone ch false s → l_filter s = true → l_greeted s = true → silent s →
      (∀ j q, l_threads s !! j = Some q → lowering q = false ∧ holds q = false) → calm_inv ch s
  | I_exchange t p k :
      l_threads s !! t = Some p →
      (p = THolds 0 k ∧ silent s ∨
       p = TWaits 0 k ∧ (l_reqs s = [Ask k] ∧ l_resps s = [] ∨ l_reqs s = [] ∧ l_resps s = [Answer k])) →
      lone ch true s → l_filter s = true → l_greeted s = true →
      (∀ j q, l_threads s !! j = Some q → lowering q = false ∧ (j ≠ t → holds q = false)) →
      calm_inv ch s.


Lemma calm_inv_event ch s e : calm_inv ch s → calm_inv ch (happened e s).
Proof.
  unfold happened. intros [].
  - by eapply (I_before _ _ v).
  - by eapply (I_entry _ _ t v).
  - by eapply (I_owner _ _ t).
  - by eapply (I_stored _ _ t).
  - by eapply (I_holds _ _ t).
  - by eapply (I_waits _ _ t).
  - by eapply (I_filter _ _ t).
  - by eapply I_free.
  - by eapply (I_exchange _ _ t p k).
Qed.
Lemma thread_of t s u q : idle_others t s → l_threads s !! u = Some q → q ≠ Idle → u = t.
Proof. intros H Hu Hq. destruct (decide (u = t)) as [->|Hn]; [done|]. by destruct Hq; eapply H. Qed.
Lemma insert_here (l : list pc) t p q : l !! t = Some p → <[t := q]> l !! t = Some q.
Proof. intros H. apply list_lookup_insert. by eapply lookup_lt_Some. Qed.
Lemma others_insert (l : list pc) t p : (∀ j q, j ≠ t → l !! j = Some q → q = Idle) →
  ∀ j q, j ≠ t → <[t := p]> l !! j = Some q → q = Idle.
Proof. intros H j q Hj Hl. rewrite list_lookup_insert_ne in Hl by done. by eapply H. Qed.
Lemma all_insert (P : pc → Prop) (l : list pc) t p : P p → (∀ j q, l !! j = Some q → P q) →
  ∀ j q, <[t := p]> l !! j = Some q → P q.
Proof. intros Hp H j q Hl. apply list_lookup_insert_Some in Hl as [(_ & <- & _)|(_ & Hl)]; [done|by eapply H]. Qed.

Definition quiet_event (e : event) : Prop :=
  match e with Served _ k r => r = Answer k | Broken _ _ => False | _ => True end.
Definition new_ok (s s' : lstate) : Prop :=
  l_events s' = l_events s ∨ ∃ e, l_events s' = l_events s ++ [e] ∧ quiet_event e.

(** In the phases in which one thread [t0] is in the lowering function. *)
Ltac lone_thread t0 Hoth :=
  match goal with
  | H : l_threads ?s !! ?u = Some ?q |- _ =>
      lazymatch q with Idle => fail | _ => idtac end;
      tryif constr_eq u t0 then fail else
      (assert (u = t0) by (eapply (thread_of t0 s u q Hoth H); done); subst u)
  end.
Ltac absurd_step := solve [repeat match goal with
  | H : lone _ _ _ |- _ => destruct H as (? & ? & ?)
  | H : silent _ |- _ => destruct H
  | H : _ ∧ _ |- _ => destruct H
  | H : _ ∨ _ |- _ => destruct H
  end; simplify_eq; congruence].

Lemma calm_step ch s s' : calm_inv ch s → calm ch s s' → calm_inv ch s' ∧ new_ok s s'.
Proof.
  intros Hinv [Hs Hcalm].
  destruct Hs as
    [s u w Hu Hw|s u Hu Hw|s u w Hu|s u w fd Hu Hc|s u w Hu Hc|s u fd Hu|s u m fd Hu Hm Hx|s u m fd Hu Hm Hx
    |s u m x Hu Hx Hf|s u m x Hu Hx Hf|s u m x rs Hu Hx Hr|s u m x r rs Hu Hx Hr Hn|s u Hu
    |s u Hu Hf|s u k' m fd Hu Hm Hx|s u k' m fd Hu Hm Hx|s u m k' x Hu Hx Hf|s u m k' x Hu Hx Hf
    |s u m k' x r rs Hu Hx Hr|s rs Hr|s k' rs Hr Hg].
  (* a call that finds no variable *)
  2: { split; [by apply calm_inv_event|]. right. by eexists. }
  all: destruct Hinv as
    [v H1 H2 H3 H4 H5 H6 Hall|t v H1 H2 H3 H4 H5 H6 Hoth|t H1 H2 H3 H4 H5 H6 Hoth|t H1 H2 H3 H4 H5 Hoth
    |t H1 H2 H3 H4 H5 Hoth|t H1 H2 H3 H4 Hoth|t H1 H2 H3 H4 H5 Hoth|H1 H2 H3 H4 Hall|t p k H1 H2 H3 H4 H5 Hall].
  all: try absurd_step.
  all: try (match goal with Hu : l_threads _ !! _ = Some _ |- _ => by pose proof (Hall _ _ Hu) end).
  all: try (match goal with Hu : l_threads _ !! _ = Some _ |- _ => by destruct (Hall _ _ Hu) end).
  all: try lone_thread t Hoth.
  all: try absurd_step.
  all: try (destruct H2 as (L1 & L2 & L3)); try (destruct H1 as (L1 & L2 & L3)); try (destruct H3 as (L1 & L2 & L3)).
  all: repeat match goal with
    | Hm : l_single ?x = Some ?m, Hm' : l_single ?x = Some 0 |- _ =>
        rewrite Hm' in Hm; first [injection Hm as <-|injection Hm as ->]
    | Hx : l_muts ?x !! _ = Some _, Hl : l_muts ?x = [_] |- _ => rewrite Hl in Hx
    end.
  all: try absurd_step.
  all: try (destruct m as [|m]; [|done]).
  all: try (match goal with Hx : [_] !! 0 = Some _ |- _ => cbn in Hx; injection Hx as ? end).
  all: subst; cbn [m_fd m_held m_poisoned] in *; try done.
  all: unfold lone, silent, idle_others, with_thread, with_mutex, with_resps, with_reqs, happened in *;
    cbn [l_var l_single l_muts l_threads l_filter l_next l_reqs l_resps l_greeted l_events] in *.
  (* the variable is read *)
  - split; [|by left]. eapply (I_entry _ _ u w); cbn;
      [left; by eapply insert_here|congruence|done|done|done|done|].
    intros j q Hj Hl. cbn in Hl. rewrite list_lookup_insert_ne in Hl by done. by eapply Hall.
  - exfalso. specialize (Hcalm u (LRead w) Hu).
    assert (∃ q, l_threads s !! t = Some q ∧ lowering q = true) as (q & Hq & Hlow)
      by (destruct H1 as [H1|[H1 _]]; by eexists).
    rewrite (Hcalm (insert_here _ _ _ _ Hu) eq_refl t q Hq) in Hlow. done.
  - split; [|by left]. destruct H1 as [H1|[H1 _]]; rewrite H1 in Hu; [|done]. injection Hu as <-.
    eapply (I_entry _ _ t v); cbn; [right; split; [by eapply insert_here|done]|done..|].
    exact (others_insert _ _ _ Hoth).
  - split; [|by left]. destruct H1 as [H1|[H1 Hv]]; rewrite H1 in Hu; [done|]. injection Hu as <-.
    eapply (I_owner _ _ t); cbn; [|done..|exact (others_insert _ _ _ Hoth)].
    rewrite H2 in Hc. injection Hc as <-. by eapply insert_here.
  - split; [|by left]. rewrite H1 in Hu. injection Hu as <-. rewrite H3.
    eapply (I_stored _ _ t); cbn; [by eapply insert_here|done..|exact (others_insert _ _ _ Hoth)].
  - split; [|by left]. rewrite L3.
    eapply (I_holds _ _ t); cbn; [by eapply insert_here|done..|exact (others_insert _ _ _ Hoth)].
  - split; [|by left]. destruct H5 as [-> ->].
    eapply (I_waits _ _ t); cbn; [by eapply insert_here|done..|by left|exact (others_insert _ _ _ Hoth)].
  - split; [|by left]. destruct H4 as [(_ & _ & H4)|(Hg & Hq & H4)]; rewrite H4 in Hr; [done|].
    injection Hr as <-. rewrite L3.
    eapply (I_filter _ _ t); cbn; [by eapply insert_here|done..|exact (others_insert _ _ _ Hoth)].
  - split; [|right; by eexists].
    apply I_free; cbn; [done..|].
    intros j q Hl. apply list_lookup_insert_Some in Hl as [(<- & <- & _)|(Hn & Hl)]; [by split|].
    by rewrite (Hoth j q (not_eq_sym Hn) Hl).
  - split; [|by left]. apply I_free; cbn; [done..|].
    by refine (all_insert (λ q, lowering q = false ∧ holds q = false) _ _ _ _ _).
  - split; [|by left].
    assert (u ≠ t) as Hn by (intros ->; destruct H2 as [[-> _]|[-> _]]; congruence).
    eapply (I_exchange _ _ t p k); cbn; [by rewrite list_lookup_insert_ne|done..|].
    intros j q Hl. apply list_lookup_insert_Some in Hl as [(_ & <- & _)|(_ & Hl)]; [done|by apply Hall].
  - split; [|by left]. rewrite L3.
    eapply (I_exchange _ _ u (THolds 0 k') k'); cbn; [by eapply insert_here|by left|done..|].
    intros j q Hl. apply list_lookup_insert_Some in Hl as [(<- & <- & _)|(_ & Hl)]; [by split|].
    destruct (Hall j q Hl). by split.
  - split; [|by left].
    assert (u = t) as ->.
    { destruct (decide (u = t)) as [|Hn]; [done|]. destruct (Hall u _ Hu) as [_ Hh]. by specialize (Hh Hn). }
    rewrite H1 in Hu. destruct H2 as [[-> [-> Hrs]]|[-> _]]; [|done]. injection Hu as <-.
    eapply (I_exchange _ _ t (TWaits 0 k) k); cbn; [by eapply insert_here|right; split; [done|by left]|done..|].
    intros j q Hl. apply list_lookup_insert_Some in Hl as [(<- & <- & _)|(_ & Hl)]; [by split|by apply Hall].
  - assert (u = t) as ->.
    { destruct (decide (u = t)) as [|Hn]; [done|]. destruct (Hall u _ Hu) as [_ Hh]. by specialize (Hh Hn). }
    rewrite H1 in Hu. destruct H2 as [[-> _]|[-> Hq]]; [done|]. injection Hu as <-.
    destruct Hq as [[_ Hq]|[Hq Hq']]; [congruence|]. rewrite Hq' in Hr. injection Hr as <- <-.
    split.
    + rewrite L3. apply I_free; cbn; [done..|].
      intros j q Hl. apply list_lookup_insert_Some in Hl as [(<- & <- & _)|(Hn & Hl)]; [by split|].
      destruct (Hall j q Hl) as [Hl1 Hl2]. split; [done|]. apply Hl2. done.
    + right. eexists. split; [reflexivity|]. by destruct (decide (Answer k = InitAnswer)).
  - split; [|by left]. destruct H4 as [(Hg & Hq & H4)|(_ & Hq & _)]; rewrite Hq in Hr; [|done].
    injection Hr as <-. rewrite Hg, H4.
    eapply (I_waits _ _ t); cbn; [done..|by right|done].
  - split; [|by left]. destruct H2 as [[-> [Hq _]]|[-> Hq]]; [congruence|].
    destruct Hq as [[Hq Hq']|[Hq _]]; rewrite Hq in Hr; [|done]. injection Hr as <- <-. rewrite Hq'.
    eapply (I_exchange _ _ t (TWaits 0 k) k); cbn; [done|right; split; [done|by right]|done..].
Qed.

(** When the calls of the function do not overlap, one of them returns at most, all others
    panic, and every trapped call gets its own answer. *)
Theorem C152_partial ch v n s :
  channel_of v = Some ch → rtc (calm ch) (l_init (Some v) n) s → once s ∧ own_answers s.
Proof.
  intros Hv Hr. split.
  - apply (C152_once ch (Some v) n). eapply rtc_subrel; [|exact Hr]. by intros ? ? [].
  - assert (calm_inv ch (l_init (Some v) n)) as H0.
    { eapply (I_before _ _ v); try done. intros j q Hl. cbn in Hl. by apply lookup_replicate in Hl as [-> _]. }
    assert (own_answers (l_init (Some v) n)) as He by (intros e H; by apply elem_of_nil in H).
    revert H0 He. induction Hr as [|s s1 s2 Hs _ IH]; [done|]. intros H0 He.
    destruct (calm_step _ _ _ H0 Hs) as [H1 Hn]. apply IH; [done|].
    destruct Hn as [Hn|(e & Hn & Hq)]; unfold own_answers; rewrite Hn; [done|].
    intros e' Hin. apply elem_of_app in Hin as [Hin|Hin]; [by apply He|].
    apply elem_of_list_singleton in Hin as ->. exact Hq.
Qed.
Print Assumptions C152_partial.

(** Without the variable, or with one that is not the number of a descriptor, the function
    panics and does nothing. *)
Theorem C152_no_broker ch v n s :
  (∀ w, v = Some w → channel_of w = None) → rtc (lstep ch) (l_init v n) s →
  l_muts s = [] ∧ l_reqs s = [] ∧ l_filter s = false ∧ ∀ e, e ∈ l_events s → ∃ t, e = Aborted t.
Proof.
  intros Hv Hr.
  assert (l_muts s = [] ∧ l_reqs s = [] ∧ l_resps s = [] ∧ l_filter s = false ∧
    (∀ w, l_var s = Some w → channel_of w = None) ∧
    (∀ j q, l_threads s !! j = Some q → match q with
       | Idle => True | LRead w | LRemoved w => channel_of w = None | _ => False end) ∧
    ∀ e, e ∈ l_events s → ∃ t, e = Aborted t) as (? & ? & _ & ? & _ & _ & ?); [|done].
  assert (∀ n j q, l_threads (l_init v n) !! j = Some q → q = Idle) as Hi.
  { intros n' j q Hl. cbn in Hl. by apply lookup_replicate in Hl as [-> _]. }
  remember (l_init v n) as s0 eqn:E.
  assert (l_muts s0 = [] ∧ l_reqs s0 = [] ∧ l_resps s0 = [] ∧ l_filter s0 = false ∧
    (∀ w, l_var s0 = Some w → channel_of w = None) ∧
    (∀ j q, l_threads s0 !! j = Some q → match q with
       | Idle => True | LRead w | LRemoved w => channel_of w = None | _ => False end) ∧
    ∀ e, e ∈ l_events s0 → ∃ t, e = Aborted t) as H0.
  { subst s0. split_and!; try done.
    - intros j q Hl. by rewrite (Hi n j q Hl).
    - intros e He. by apply elem_of_nil in He. }
  clear E Hi Hv. revert H0. induction Hr as [|s s1 s2 Hs _ IH]; [done|].
  intros (Hm & Hq & Hp & Hf & Hw & Ht & He). apply IH. clear IH.
  assert (∀ t e, e ∈ l_events s ++ [Aborted t] → ∃ t, e = Aborted t) as He'.
  { intros t e Hin. apply elem_of_app in Hin as [Hin|Hin]; [by apply He|].
    apply elem_of_list_singleton in Hin as ->. by eexists. }
  destruct Hs; try (match goal with H : l_threads _ !! _ = Some _ |- _ => by destruct (Ht _ _ H) end);
    try congruence.
  - split_and!; try done. cbn.
    refine (all_insert (λ q, match q with Idle => True | LRead w | LRemoved w => channel_of w = None
      | _ => False end) _ _ _ _ Ht). by apply Hw.
  - split_and!; try done. exact (He' t).
  - split_and!; try done. cbn.
    refine (all_insert (λ q, match q with Idle => True | LRead w | LRemoved w => channel_of w = None
      | _ => False end) _ _ _ _ Ht). by apply (Ht t (LRead v0)).
  - pose proof (Ht _ _ H) as Hx. cbn in Hx. congruence.
  - split_and!; try done; [|exact (He' t)]. cbn.
    by refine (all_insert (λ q, match q with Idle => True | LRead w | LRemoved w => channel_of w = None
      | _ => False end) _ _ _ _ Ht).
Qed.
Print Assumptions C152_no_broker.

(* ---------------------------------------------------------------- calls that overlap *)

(** When the last lock was poisoned, no trapped call is ever answered again. *)
Theorem C152_poisoned ch s m fd :
  l_var s = None → l_single s = Some m → l_muts s !! m = Some (mkM fd false true) →
  (∀ j q, l_threads s !! j = Some q → lowering q = false ∧ holds q = false) →
  ∀ s', rtc (lstep ch) s s' →
    ∃ es, l_events s' = l_events s ++ es ∧
      ∀ e, e ∈ es → match e with Aborted _ | Broken _ _ => True | _ => False end.
Proof.
  intros Hv Hs Hm Ht s' Hr.
  cut ((l_var s' = None ∧ l_single s' = Some m ∧ l_muts s' !! m = Some (mkM fd false true) ∧
    (∀ j q, l_threads s' !! j = Some q → lowering q = false ∧ holds q = false)) ∧
    ∃ es, l_events s' = l_events s ++ es ∧
      ∀ e, e ∈ es → match e with Aborted _ | Broken _ _ => True | _ => False end); [by intros [_ ?]|].
  assert (∀ t p, lowering p = false ∧ holds p = false → ∀ s, 
    (∀ j q, l_threads s !! j = Some q → lowering q = false ∧ holds q = false) →
    ∀ j q, <[t := p]> (l_threads s) !! j = Some q → lowering q = false ∧ holds q = false) as Hins.
  { intros t p Hp s0 H0. by refine (all_insert (λ q, lowering q = false ∧ holds q = false) _ _ _ _ _). }
  revert Hv Hs Hm Ht. induction Hr as [s|s s1 s2 Hst _ IH]; intros Hv Hs Hm Ht.
  { split; [done|]. exists []. rewrite app_nil_r. split; [done|]. intros e He. by apply elem_of_nil in He. }
  assert ((l_var s1 = None ∧ l_single s1 = Some m ∧ l_muts s1 !! m = Some (mkM fd false true) ∧
    (∀ j q, l_threads s1 !! j = Some q → lowering q = false ∧ holds q = false)) ∧
    ∃ es, l_events s1 = l_events s ++ es ∧
      ∀ e, e ∈ es → match e with Aborted _ | Broken _ _ => True | _ => False end) as
    ((Hv1 & Hs1 & Hm1 & Ht1) & es & E1 & H1).
  { clear IH.
    assert (∀ e, match e with Aborted _ | Broken _ _ => True | _ => False end →
      ∃ es, l_events s ++ [e] = l_events s ++ es ∧
        ∀ e, e ∈ es → match e with Aborted _ | Broken _ _ => True | _ => False end) as Hone.
    { intros e He. exists [e]. split; [done|]. intros e' Hin. by apply elem_of_list_singleton in Hin as ->. }
    assert (∃ es, l_events s = l_events s ++ es ∧
        ∀ e, e ∈ es → match e with Aborted _ | Broken _ _ => True | _ => False end) as Hnone.
    { exists []. rewrite app_nil_r. split; [done|]. intros e' Hin. by apply elem_of_nil in Hin. }
    destruct Hst; try (match goal with H : l_threads _ !! _ = Some _ |- _ => by destruct (Ht _ _ H) end);
      try congruence.
    - split; [done|]. by apply Hone.
    - split; [|exact Hnone]. split_and!; try done. cbn. by apply Hins.
    - split; [|by apply Hone]. split_and!; try done. cbn. by apply Hins.
    - done.
    - done. }
  destruct (IH Hv1 Hs1 Hm1 Ht1) as (Hinv & es2 & E2 & H2). split; [done|].
  exists (es ++ es2). rewrite E2, E1, (assoc_L (++)). split; [done|].
  intros e He. apply elem_of_app in He as [He|He]; [by apply H1|by apply H2].
Qed.
Print Assumptions C152_poisoned.

Tactic Notation "run1" uconstr(c) := eapply rtc_l; [eapply c; reflexivity|]; cbn.
(** Thread 0 goes through the function while thread 1 has read the variable. *)
Definition met (s : lstate) : Prop :=
  s = mkL None (Some 0) [mkM 3 false false] [Idle; LRead (lit "3")] true 0 [] [] true [Returned 0].
Lemma reach_met : ∃ s, rtc (lstep 3) (l_init (Some (lit "3")) 2) s ∧ met s.
Proof.
  eexists. split; [|reflexivity].
  run1 (L_read 3 _ 0). run1 (L_read 3 _ 1). run1 (L_remove 3 _ 0). run1 (L_parse 3 _ 0). run1 (L_store 3 _ 0).
  run1 (L_lock 3 _ 0). run1 (L_send 3 _ 0). run1 (B_init 3). run1 (L_recv 3 _ 0). run1 (L_filter 3 _ 0).
  apply rtc_refl.
Qed.

(** A second call that comes too late to see the variable removed panics with the new lock
    in its hands: the first thread's trapped calls panic from then on. *)
Theorem C152_refuted : ¬ C152_full.
Proof.
  intros H. destruct reach_met as (s & Hr & ->).
  assert (∃ s', rtc (lstep 3)
    (mkL None (Some 0) [mkM 3 false false] [Idle; LRead (lit "3")] true 0 [] [] true [Returned 0]) s' ∧
    l_events s' = [Returned 0; Aborted 1; Broken 0 0]) as (s' & Hr' & He).
  { eexists. split.
    - run1 (L_remove 3 _ 1). run1 (L_parse 3 _ 1). run1 (L_store 3 _ 1). run1 (L_lock 3 _ 1).
      run1 (L_send 3 _ 1). run1 (B_init 3).
      eapply rtc_l; [eapply (L_recv_other 3 _ 1); [reflexivity..|done]|]; cbn.
      run1 (T_call 3 _ 0). run1 (T_poisoned 3 _ 0). apply rtc_refl.
    - reflexivity. }
  destruct (H 3%N (lit "3") 2 s' eq_refl) as [_ Ho]; [by etrans|].
  apply (Ho (Broken 0 0)). rewrite He. by right; right; left.
Qed.
Print Assumptions C152_refuted.

(** It can also take the answer to a trapped call of the first thread, which gets the
    refusal in its place. *)
Theorem C152_crossed :
  ∃ ch v n s t k, channel_of v = Some ch ∧ rtc (lstep ch) (l_init (Some v) n) s ∧
    Served t k Refusal ∈ l_events s.
Proof.
  destruct reach_met as (s & Hr & ->).
  assert (∃ s', rtc (lstep 3)
    (mkL None (Some 0) [mkM 3 false false] [Idle; LRead (lit "3")] true 0 [] [] true [Returned 0]) s' ∧
    l_events s' = [Returned 0; Aborted 1; Served 0 0 Refusal]) as (s' & Hr' & He).
  { eexists. split.
    - run1 (T_call 3 _ 0). run1 (T_lock 3 _ 0). run1 (T_send 3 _ 0).
      run1 (L_remove 3 _ 1). run1 (L_parse 3 _ 1). run1 (L_store 3 _ 1). run1 (L_lock 3 _ 1).
      run1 (L_send 3 _ 1). run1 (B_ask 3). run1 (B_init 3).
      eapply rtc_l; [eapply (L_recv_other 3 _ 1); [reflexivity..|done]|]; cbn.
      run1 (T_recv 3 _ 0). apply rtc_refl.
    - reflexivity. }
  exists 3%N, (lit "3"), 2, s', 0, 0. split; [reflexivity|]. split; [by etrans|].
  rewrite He. by right; right; left.
Qed.
Print Assumptions C152_crossed.

Tactic Notation "next" constr(H) uconstr(c) :=
  eapply rtc_l; [eapply H; [eapply c; reflexivity|]|]; cbn; [by intros [|[|j]]|].
Example C152_example :
  (** one call after the other: the second one panics, trapped calls are answered *)
  (∃ s, rtc (calm 3) (l_init (Some (lit "3")) 2) s ∧
     l_events s = [Returned 0; Aborted 1; Aborted 0; Served 1 0 (Answer 0)]) ∧
  channel_of (lit "x") = None ∧ channel_of (lit "99999999999") = None ∧
  (** the state after the two calls of C152_refuted *)
  let s := mkL None (Some 1) [mkM 3 false false; mkM 3 false true] [Idle; Idle] true 0 [] [] true
    [Returned 0; Aborted 1] in
  ∀ s', rtc (lstep 3) s s' → ∀ t k r, Served t k r ∉ l_events s'.
Proof.
  split; [|split; [reflexivity|split; [reflexivity|]]].
  - eexists. split.
    + assert (∀ s s', lstep 3 s s' →
        (∀ j q, l_threads s !! j = Some q → lowering q = false) → calm 3 s s') as Hfirst.
      { intros s s' Hs H. split; [done|]. intros; by eapply H. }
      assert (∀ s s', lstep 3 s s' →
        (∀ j, l_threads s !! j = Some Idle → l_threads s' !! j = Some Idle) → calm 3 s s') as Hnext.
      { intros s s' Hs H. split; [done|]. intros i p Hi Hp. rewrite (H i Hi) in Hp. by injection Hp as <-. }
      eapply rtc_l; [eapply Hfirst; [eapply (L_read 3 _ 0); reflexivity|]|]; cbn.
      { by intros [|[|j]] q [= <-]. }
      next Hnext (L_remove 3 _ 0). next Hnext (L_parse 3 _ 0). next Hnext (L_store 3 _ 0).
      next Hnext (L_lock 3 _ 0). next Hnext (L_send 3 _ 0). next Hnext (B_init 3). next Hnext (L_recv 3 _ 0).
      next Hnext (L_filter 3 _ 0). next Hnext (L_missing 3 _ 1). next Hnext (L_missing 3 _ 0).
      eapply rtc_l; [eapply Hfirst; [eapply (T_call 3 _ 1); reflexivity|]|]; cbn.
      { by intros [|[|j]] q [= <-]. }
      next Hnext (T_lock 3 _ 1). next Hnext (T_send 3 _ 1). next Hnext (B_ask 3). next Hnext (T_recv 3 _ 1).
      apply rtc_refl.
    + reflexivity.
  - intros s s' Hr t k r Hin.
    destruct (C152_poisoned 3 s 1 3 eq_refl eq_refl eq_refl) with (s' := s') as (es & E & H); [|done|].
    { intros [|[|j]] q Hq; cbn in Hq; [by injection Hq as <-..|done]. }
    rewrite E in Hin. cbn in Hin. rewrite !elem_of_cons in Hin.
    destruct Hin as [?|[?|Hin]]; [done|done|]. by apply H in Hin.
Qed.
