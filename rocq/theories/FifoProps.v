(** Opens that wait in the broker: C151. *)
From stdpp Require Import prelude gmap.
From Verif Require Import Bytes PolicyModel PolicySpec LinuxPolicyModel LinuxPolicySpec
  LinuxPolicyProofs LinuxPolicyProps FifoModel.
Local Open Scope N_scope.

(** Every call was answered. *)
Definition d_done (s : dstate) : Prop := ∀ i t, d_threads s !! i = Some t → t = (None, []).
Definition b_done (s : bstate) : Prop :=
  b_open s = None ∧ ∀ i t, b_threads s !! i = Some t → t = [].
(** A run of the sandbox in which the worker is not killed and nobody outside does
    anything. *)
Definition quiet (kind : str → option N) (p : policy) (s s' : bstate) : Prop :=
  bstep kind p None s s' ∧ b_alive s' = b_alive s.
Definition ended (s : bstate) : Prop := b_served s = false.

(** Wherever a run has got to, it can be completed. *)
Definition completes {S} (step : S → S → Prop) (done : S → Prop) (s : S) : Prop :=
  ∀ s', rtc step s s' → ∃ s'', rtc step s' s'' ∧ done s''.

(** Calls that all return without the sandbox, and that the rules allow, return in the
    sandbox; and the thread that serves a worker ends after the worker. *)
Definition C151_full : Prop :=
  ∀ kind calls ends progs,
    (∀ p c, p ∈ progs → c ∈ p → should_grant (rules_of calls) (asked c).1 (asked c).2) →
    completes (dstep kind) d_done (d_init ends progs) →
    completes (quiet kind (build false calls)) b_done (b_init ends progs) ∧
    ∀ s, rtc (λ s s', ∃ out, bstep kind (build false calls) out s s') (b_init ends progs) s →
      b_alive s = false → ∃ s', rtc (bstep kind (build false calls) None) s s' ∧ ended s'.

(* ---------------------------------------------------------------- waiting *)

(** While the broker waits for the other end of a FIFO, and until a program outside opens
    it: no thread of the worker gets an answer, whatever it asked for, and the broker's
    thread does not end, even when the worker has. *)
Theorem C151_stuck kind p s i f e :
  b_open s = Some (i, (f, e)) → (f, other e) ∉ b_ends s → b_served s = true →
  ∀ s', rtc (λ s s', ∃ out, out ≠ Some (f, other e) ∧ bstep kind p out s s') s s' →
    b_open s' = Some (i, (f, e)) ∧ b_answers s' = b_answers s ∧ ¬ ended s'.
Proof.
  intros Ho Hn Hs s' Hr.
  assert (b_open s' = Some (i, (f, e)) ∧ (f, other e) ∉ b_ends s' ∧ b_served s' = true ∧
    b_answers s' = b_answers s) as (H1 & _ & H3 & H4).
  { induction Hr as [s|s s1 s2 (out & Hout & Hstep) _ IH]; [done|].
    destruct Hstep; cbn [b_open b_ends b_served b_answers] in *; try done.
    - injection Ho as -> -> ->. done.
    - by apply IH.
    - apply IH; [done| |done]. apply not_elem_of_union. split; [|done].
      rewrite elem_of_singleton. congruence. }
  split; [done|]. split; [done|]. unfold ended. by rewrite H3.
Qed.
Print Assumptions C151_stuck.

(* ---------------------------------------------------------------- what is true *)

Definition calls_left (ts : list (list call)) : nat := sum_list (map length ts).
Lemma calls_left_insert ts i c r :
  ts !! i = Some (c :: r) → calls_left ts = S (calls_left (<[i := r]> ts)).
Proof.
  unfold calls_left. revert i. induction ts as [|t ts IH]; intros [|i] H; try done; cbn in *.
  - by injection H as ->.
  - specialize (IH i H). rewrite IH. by rewrite Nat.add_succ_r.
Qed.
Lemma calls_left_zero ts : calls_left ts = 0%nat → ∀ i t, ts !! i = Some t → t = [].
Proof.
  unfold calls_left. induction ts as [|t ts IH]; intros H [|i] t' Ht; try done; cbn in *.
  - injection Ht as <-. destruct t; [done|cbn in H; lia].
  - eapply IH; [|done]. lia.
Qed.
Lemma calls_left_pos ts : calls_left ts ≠ 0%nat → ∃ i c r, ts !! i = Some (c :: r).
Proof.
  unfold calls_left. induction ts as [|t ts IH]; intros H; cbn in *; [done|].
  destruct t as [|c r]; [|by exists 0%nat, c, r].
  destruct IH as (i & c & r & Hi); [done|]. by exists (S i), c, r.
Qed.

(** The other end of each FIFO the broker is asked to open is held by somebody else. *)
Definition helped (kind : str → option N) (p : policy) (ends : gset (N * fend)) (c : call) : Prop :=
  ∀ f e, asked_waits kind p c = Some (f, e) → (f, other e) ∈ ends.
Definition b_inv (kind : str → option N) (p : policy) (s : bstate) : Prop :=
  (∀ i f e, b_open s = Some (i, (f, e)) → (f, other e) ∈ b_ends s) ∧
  (∀ i t c, b_threads s !! i = Some t → c ∈ t → helped kind p (b_ends s) c) ∧
  (b_alive s = true → b_served s = true).
Lemma b_inv_step kind p out s s' : b_inv kind p s → bstep kind p out s s' → b_inv kind p s'.
Proof.
  intros (H1 & H2 & H3) Hs.
  assert (∀ (ends : gset (N * fend)) x c, helped kind p ends c → helped kind p ({[x]} ∪ ends) c) as Hmono.
  { intros ends x c Hh f e E. apply elem_of_union. right. by apply Hh. }
  assert (∀ (ts : list (list call)) i c r, ts !! i = Some (c :: r) →
    ∀ j t c', <[i := r]> ts !! j = Some t → c' ∈ t → ∃ j' t', ts !! j' = Some t' ∧ c' ∈ t') as Hsub.
  { intros ts i c r Hi j t c' Hj Hc. apply list_lookup_insert_Some in Hj as [(-> & -> & _)|(_ & Hj)].
    - eexists j, _. split; [exact Hi|]. by right.
    - by exists j, t. }
  destruct Hs as [ends ts a i c r Hi Hw|ends ts a i c r x Hi Hw|ends ts a i f e alive Hin|
    ends o ts a served|ends ts a|ends o ts a alive served x];
    cbn [b_open b_ends b_threads b_alive b_served] in *; unfold b_inv;
    cbn [b_open b_ends b_threads b_alive b_served].
  - split_and!; [done| |done]. intros j t c' Hj Hc.
    destruct (Hsub _ _ _ _ Hi _ _ _ Hj Hc) as (j' & t' & Hj' & Hc'). by eapply H2.
  - split_and!; [| |done].
    + intros i' f e [= <- ->]. apply elem_of_union. right.
      apply (H2 i (c :: r) c Hi (elem_of_list_here _ _)). done.
    + intros j t c' Hj Hc. destruct (Hsub _ _ _ _ Hi _ _ _ Hj Hc) as (j' & t' & Hj' & Hc').
      apply Hmono. by eapply H2.
  - split_and!; done.
  - split_and!; done.
  - split_and!; done.
  - split_and!; [| |done].
    + intros i f e E. apply elem_of_union. right. by eapply H1.
    + intros j t c Hj Hc. apply Hmono. by eapply H2.
Qed.
Lemma b_inv_steps kind p s s' : b_inv kind p s →
  rtc (λ s s', ∃ out, bstep kind p out s s') s s' → b_inv kind p s'.
Proof.
  intros H Hr. induction Hr as [|s s1 s2 (out & Hs) _ IH]; [done|]. apply IH. by eapply b_inv_step.
Qed.

Lemma b_finish kind p n : ∀ s, b_inv kind p s → b_alive s = true →
  (2 * calls_left (b_threads s) + (if b_open s then 1 else 0) ≤ n)%nat →
  ∃ s', rtc (quiet kind p) s s' ∧ b_done s'.
Proof.
  induction n as [|n IH]; intros s Hi Ha Hn.
  - exists s. split; [done|]. destruct s as [ends [o|] ts a al sv]; cbn [b_threads b_open] in *; [lia|].
    split; [done|]. apply calls_left_zero. change (calls_left ts = 0%nat). lia.
  - destruct s as [ends o ts a alive served]. cbn [b_alive b_open b_threads] in *. subst alive.
    pose proof Hi as (H1 & H2 & H3). cbn in H1, H2, H3. rewrite H3 in * by done.
    destruct o as [[i [f e]]|].
    + assert (quiet kind p (mkB ends (Some (i, (f, e))) ts a true true)
        (mkB ends None ts (answer i a) true true)) as Hq.
      { split; [|done]. apply (B_opened kind p ends ts a i f e true). by apply (H1 i). }
      destruct (IH (mkB ends None ts (answer i a) true true)) as (s' & Hr & Hd);
        [by eapply b_inv_step; [|apply Hq]|done|cbn [b_threads b_open]; lia|].
      exists s'. split; [|done]. by eapply rtc_l.
    + destruct (decide (calls_left ts = 0%nat)) as [Hz|Hz].
      { exists (mkB ends None ts a true true). split; [done|]. split; [done|].
        by apply calls_left_zero. }
      apply calls_left_pos in Hz as (i & c & r & Hic).
      pose proof (calls_left_insert _ _ _ _ Hic) as Hl.
      destruct (asked_waits kind p c) as [x|] eqn:Ew.
      * pose proof (B_enter kind p ends ts a i c r x Hic Ew) as Hb.
        destruct (IH (mkB ({[x]} ∪ ends) (Some (i, x)) (<[i := r]> ts) a true true)) as (s' & Hr & Hd);
          [by eapply b_inv_step|done|cbn [b_threads b_open]; lia|].
        exists s'. split; [|done]. eapply rtc_l; [|done]. by split.
      * pose proof (B_answer kind p ends ts a i c r Hic Ew) as Hb.
        destruct (IH (mkB ends None (<[i := r]> ts) (answer i a) true true)) as (s' & Hr & Hd);
          [by eapply b_inv_step|done|cbn [b_threads b_open]; lia|].
        exists s'. split; [|done]. eapply rtc_l; [|done]. by split.
Qed.

(** Without FIFOs, or with somebody outside at the other end of each, every call is
    answered, and the thread ends. *)
Theorem C151_partial kind p ends progs :
  (∀ prog c, prog ∈ progs → c ∈ prog → helped kind p ends c) →
  completes (quiet kind p) b_done (b_init ends progs) ∧
  ∀ s, rtc (λ s s', ∃ out, bstep kind p out s s') (b_init ends progs) s →
    b_alive s = false → ∃ s', rtc (bstep kind p None) s s' ∧ ended s'.
Proof.
  intros Hh.
  assert (b_inv kind p (b_init ends progs)) as H0.
  { unfold b_inv, b_init; cbn. split_and!; [done| |done]. intros i t c Hi Hc.
    apply (Hh t); [|done]. by eapply elem_of_list_lookup_2. }
  split.
  - intros s Hr.
    assert (b_inv kind p s ∧ b_alive s = true) as [Hi Ha].
    { assert (b_alive (b_init ends progs) = true) as Ha by done.
      revert H0 Ha. generalize (b_init ends progs), Hr. clear. intros s0 Hr H0 Ha.
      induction Hr as [|s0 s1 s2 [Hs He] _ IH]; [done|]. apply IH; [by eapply b_inv_step|congruence]. }
    by eapply b_finish.
  - intros s Hr Ha. pose proof (b_inv_steps _ _ _ _ H0 Hr) as (H1 & _ & _).
    destruct s as [ends' o ts a alive served]. cbn in Ha, H1. subst alive.
    destruct served; [|by eexists; split; [done|]].
    destruct o as [[i [f e]]|].
    + eexists. split.
      * eapply rtc_l; [apply (B_opened kind p ends' ts a i f e false); by apply (H1 i)|].
        apply rtc_once, B_end.
      * done.
    + eexists. split; [apply rtc_once, B_end|done].
Qed.
Print Assumptions C151_partial.

(** The flag that keeps an open from waiting is refused. *)
Theorem C151_no_nonblock calls path flags :
  granted (build false calls) path flags = true → ¬ bit flags 11.
Proof.
  intros Hg Hb. apply (C09_unsupported_flags_refused calls path flags 11); [lia|done| |].
  - apply (bool_decide_unpack _). vm_compute. exact I.
  - unfold granted in Hg. by destruct (evaluate_request _ _).1.
Qed.
Print Assumptions C151_no_nonblock.

(* ---------------------------------------------------------------- what is not *)

Definition a_fifo (path : str) : option N := if bool_decide (path = lit "/run/f") then Some 1 else None.
Definition run_calls : list api_call :=
  [CallRule (AllowDirRead (lit "/run")); CallRule (AllowDirWrite (lit "/run"))].
Definition meeting : list (list call) := [[COpen (lit "/run/f") 0]; [COpen (lit "/run/f") 1]].
Definition asking : list (list call) := [[CAccess (lit "/run/f") 0]].

Lemma run_granted flags : flags = 0%Z ∨ flags = 1%Z →
  granted (build false run_calls) (lit "/run/f") flags = true.
Proof. intros [-> | ->]; by vm_compute. Qed.
Lemma run_should flags : flags = 0%Z ∨ flags = 1%Z →
  should_grant (rules_of run_calls) (lit "/run/f") flags.
Proof.
  intros H. apply C02_exact_grant. pose proof (run_granted flags H) as Hg. unfold granted in Hg.
  destruct (evaluate_request _ _).1; done.
Qed.

(** Two threads that meet at a FIFO. *)
Definition half (e : fend) (ends : gset (N * fend)) (t : thread) (flags : Z) : Prop :=
  t = (None, [COpen (lit "/run/f") flags]) ∨ (t = (Some (1, e), []) ∧ (1, e) ∈ ends) ∨
  (t = (None, []) ∧ (1, e) ∈ ends).
Definition meet_inv (s : dstate) : Prop :=
  ∃ t1 t2, d_threads s = [t1; t2] ∧ half ReadEnd (d_ends s) t1 0 ∧ half WriteEnd (d_ends s) t2 1.
Lemma meet_inv_step s s' : meet_inv s → dstep a_fifo s s' → meet_inv s'.
Proof.
  intros (t1 & t2 & Ht & H1 & H2) Hs.
  assert (∀ (X : gset (N * fend)) x e t fl, half e X t fl → half e ({[x]} ∪ X) t fl) as Hm.
  { intros X x e t fl [H|[[H H']|[H H']]]; [by left|right; left|right; right]; (split; [done|]);
      apply elem_of_union; by right. }
  destruct Hs as [s i c p Hi|s i f e p Hi Hin]; rewrite Ht in *; unfold meet_inv; cbn [d_threads d_ends].
  - destruct i as [|[|i]]; [| |done]; cbn in Hi; injection Hi as ->.
    + destruct H1 as [H1|[[H1 _]|[H1 _]]]; [|done|done]. injection H1 as -> ->.
      exists (Some (1, ReadEnd), []), t2. split; [done|]. split.
      * right; left. split; [done|]. cbn. apply elem_of_union. left. by apply elem_of_singleton.
      * by apply Hm.
    + destruct H2 as [H2|[[H2 _]|[H2 _]]]; [|done|done]. injection H2 as -> ->.
      exists t1, (Some (1, WriteEnd), []). split; [done|]. split.
      * by apply Hm.
      * right; left. split; [done|]. cbn. apply elem_of_union. left. by apply elem_of_singleton.
  - destruct i as [|[|i]]; [| |done]; cbn in Hi; injection Hi as ->.
    + destruct H1 as [H1|[[H1 H1']|[H1 _]]]; [done| |done]. injection H1 as -> -> ->.
      exists (None, []), t2. split; [done|]. split; [by right; right|done].
    + destruct H2 as [H2|[[H2 H2']|[H2 _]]]; [done| |done]. injection H2 as -> -> ->.
      exists t1, (None, []). split; [done|]. split; [done|by right; right].
Qed.
Lemma meet_completes : completes (dstep a_fifo) d_done (d_init ∅ meeting).
Proof.
  intros s Hr.
  assert (meet_inv s) as Hi.
  { assert (meet_inv (d_init ∅ meeting)) as H0.
    { eexists _, _. split; [reflexivity|]. split; by left. }
    revert H0. induction Hr as [|s0 s1 s2 Hs _ IH]; [done|]. intros H. apply IH. by eapply meet_inv_step. }
  assert (∀ s, meet_inv s → ∃ s', rtc (dstep a_fifo) s s' ∧ meet_inv s' ∧
    ∀ i c p, d_threads s' !! i ≠ Some (None, c :: p)) as Hstart.
  { clear. intros [X ts] (t1 & t2 & Ht & H1 & H2). cbn in Ht, H1, H2. subst ts.
    assert (∃ X1 t1', rtc (dstep a_fifo) (mkD X [t1; t2]) (mkD X1 [t1'; t2]) ∧
      half ReadEnd X1 t1' 0 ∧ half WriteEnd X1 t2 1 ∧ ∀ c p, t1' ≠ (None, c :: p)) as
      (X1 & t1' & Hr1 & H1' & H2' & Hn1).
    { destruct H1 as [->|H1].
      - pose proof (D_call a_fifo (mkD X [(None, [COpen (lit "/run/f") 0]); t2]) 0%nat _ _ eq_refl) as Hs.
        assert (meet_inv (mkD X [(None, [COpen (lit "/run/f") 0]); t2])) as Hm
          by (eexists _, _; split; [reflexivity|]; split; [by left|done]).
        pose proof (meet_inv_step _ _ Hm Hs) as (u1 & u2 & Hu & Hu1 & Hu2).
        cbn in Hs, Hu, Hu1, Hu2. injection Hu as <- <-.
        eexists _, _. split; [apply rtc_once, Hs|]. split; [exact Hu1|]. split; [exact Hu2|done].
      - exists X, t1. split; [done|]. split; [by right|]. split; [done|].
        intros c p ->. destruct H1 as [[H1 _]|[H1 _]]; done. }
    assert (∃ X2 t2', rtc (dstep a_fifo) (mkD X1 [t1'; t2]) (mkD X2 [t1'; t2']) ∧
      half ReadEnd X2 t1' 0 ∧ half WriteEnd X2 t2' 1 ∧ ∀ c p, t2' ≠ (None, c :: p)) as
      (X2 & t2' & Hr2 & H1'' & H2'' & Hn2).
    { destruct H2' as [->|H2'].
      - pose proof (D_call a_fifo (mkD X1 [t1'; (None, [COpen (lit "/run/f") 1])]) 1%nat _ _ eq_refl) as Hs.
        assert (meet_inv (mkD X1 [t1'; (None, [COpen (lit "/run/f") 1])])) as Hm
          by (eexists _, _; split; [reflexivity|]; split; [done|by left]).
        pose proof (meet_inv_step _ _ Hm Hs) as (u1 & u2 & Hu & Hu1 & Hu2).
        cbn in Hs, Hu, Hu1, Hu2. injection Hu as <- <-.
        eexists _, _. split; [apply rtc_once, Hs|]. split; [exact Hu1|]. split; [exact Hu2|done].
      - exists X1, t2. split; [done|]. split; [done|]. split; [by right|].
        intros c p ->. destruct H2' as [[H2' _]|[H2' _]]; done. }
    exists (mkD X2 [t1'; t2']). split; [by etrans|]. split.
    - by eexists _, _.
    - intros [|[|i]] c p; cbn; [|  |done]; intros [= ->]; [by eapply Hn1|by eapply Hn2]. }
  destruct (Hstart s Hi) as ([X ts] & Hr1 & (t1 & t2 & Ht & H1 & H2) & Hn). cbn in Ht, H1, H2, Hn. subst ts.
  destruct H1 as [->|H1]; [by destruct (Hn 0%nat _ _ eq_refl)|].
  destruct H2 as [->|H2]; [by destruct (Hn 1%nat _ _ eq_refl)|].
  assert ((1, ReadEnd) ∈ X ∧ (1, WriteEnd) ∈ X) as [HR HW].
  { split; [destruct H1 as [[_ ?]|[_ ?]]|destruct H2 as [[_ ?]|[_ ?]]]; done. }
  assert (rtc (dstep a_fifo) (mkD X [t1; t2]) (mkD X [(None, []); t2])) as Hra.
  { destruct H1 as [[-> _]|[-> _]]; [|done].
    apply rtc_once, (D_opened a_fifo (mkD X [(Some (1, ReadEnd), []); t2]) 0%nat 1 ReadEnd []); done. }
  assert (rtc (dstep a_fifo) (mkD X [(None, []); t2]) (mkD X [(None, []); (None, [])])) as Hrb.
  { destruct H2 as [[-> _]|[-> _]]; [|done].
    apply rtc_once, (D_opened a_fifo (mkD X [(None, []); (Some (1, WriteEnd), [])]) 1%nat 1 WriteEnd []); done. }
  exists (mkD X [(None, []); (None, [])]). split; [by repeat (etrans; [eassumption|])|].
  intros [|[|i]] t; cbn; [by intros [= <-]|by intros [= <-]|done].
Qed.

Lemma enters progs i c r e : progs !! i = Some (c :: r) →
  asked_waits a_fifo (build false run_calls) c = Some (1, e) →
  ∀ s', rtc (λ s s', ∃ out, out ≠ Some (1, other e) ∧ bstep a_fifo (build false run_calls) out s s')
    (mkB ({[(1, e)]} ∪ ∅) (Some (i, (1, e))) (<[i := r]> progs) (λ _, 0%nat) true true) s' →
  b_open s' = Some (i, (1, e)) ∧ b_answers s' = (λ _, 0%nat) ∧ ¬ ended s'.
Proof.
  intros Hi Hw s' Hr. eapply C151_stuck in Hr; [exact Hr|done| |done]. cbn.
  rewrite elem_of_union, elem_of_singleton, elem_of_empty. intros [E|[]]. by destruct e.
Qed.

(** Threads of a worker cannot meet at a FIFO: the first to come keeps the broker waiting,
    and the other one's request is never read. *)
Theorem C151_refuted : ¬ C151_full.
Proof.
  intros H. destruct (H a_fifo run_calls ∅ meeting) as [Hc _].
  { intros p c Hp Hin. unfold meeting in Hp. rewrite !elem_of_cons, elem_of_nil in Hp.
    destruct Hp as [->|[->|[]]]; apply elem_of_list_singleton in Hin as ->; apply run_should; auto. }
  { apply meet_completes. }
  assert (asked_waits a_fifo (build false run_calls) (COpen (lit "/run/f") 0) = Some (1, ReadEnd)) as Hw
    by by vm_compute.
  pose proof (B_enter a_fifo (build false run_calls) ∅ meeting (λ _, 0%nat) 0%nat _ _ _ eq_refl Hw) as Hs.
  set (p := build false run_calls) in *.
  destruct (Hc _ (rtc_once _ _ (conj Hs eq_refl))) as (s'' & Hr & [Hd _]).
  destruct (enters meeting 0%nat (COpen (lit "/run/f") 0) [] ReadEnd eq_refl Hw s'') as (Ho & _).
  { eapply rtc_subrel; [|exact Hr]. intros a b [Hab _]. by exists None. }
  by rewrite Ho in Hd.
Qed.
Print Assumptions C151_refuted.

(** One thread is enough: access(2) never waits, but in the sandbox it opens. Nothing ever
    answers it, and the broker's thread outlives the worker. *)
Theorem C151_access_refuted :
  ∃ kind calls progs,
    (∀ p c, p ∈ progs → c ∈ p → should_grant (rules_of calls) (asked c).1 (asked c).2 ∧
       direct_waits kind c = None) ∧
    ∃ s, rtc (bstep kind (build false calls) None) (b_init ∅ progs) s ∧ b_alive s = false ∧
      ∀ s', rtc (bstep kind (build false calls) None) s s' → ¬ ended s' ∧ b_answers s' = λ _, 0%nat.
Proof.
  exists a_fifo, run_calls, asking. split.
  { intros p c Hp Hin. apply elem_of_list_singleton in Hp as ->. apply elem_of_list_singleton in Hin as ->.
    split; [apply run_should; auto|done]. }
  assert (asked_waits a_fifo (build false run_calls) (CAccess (lit "/run/f") 0) = Some (1, ReadEnd)) as Hw
    by by vm_compute.
  pose proof (B_enter a_fifo (build false run_calls) ∅ asking (λ _, 0%nat) 0%nat _ _ _ eq_refl Hw) as Hs.
  set (p := build false run_calls) in *.
  set (X := {[(1, ReadEnd)]} ∪ ∅) in *.
  set (ts := <[0%nat := []]> asking) in *.
  pose proof (B_killed a_fifo p X (Some (0%nat, (1, ReadEnd))) ts (λ _, 0%nat) true) as Hk.
  exists (mkB X (Some (0%nat, (1, ReadEnd))) [] (λ _, 0%nat) false true).
  split; [eapply rtc_l; [exact Hs|]; by apply rtc_once|]. split; [done|].
  intros s' Hr.
  destruct (enters asking 0%nat (CAccess (lit "/run/f") 0) [] ReadEnd eq_refl Hw s') as (_ & Ha & He).
  { eapply rtc_l; [exists None; split; [done|exact Hk]|].
    eapply rtc_subrel; [|exact Hr]. intros a b Hab. by exists None. }
  done.
Qed.
Print Assumptions C151_access_refuted.

Example C151_example :
  (** The partial theorem: an ordinary file, a FIFO opened for both, and one whose other end
      a program outside holds. *)
  (∀ c, c ∈ [COpen (lit "/run/x") 0; COpen (lit "/run/f") 2; COpen (lit "/run/f") 0; CStat (lit "/run/f")] →
     helped a_fifo (build false run_calls) {[(1, WriteEnd)]} c) ∧
  map (asked_waits a_fifo (build false run_calls))
    [COpen (lit "/run/x") 0; COpen (lit "/run/f") 2; COpen (lit "/run/f") 0; COpen (lit "/run/f") 1;
     CStat (lit "/run/f"); CAccess (lit "/run/f") 0; COpen (lit "/run/f") 2048] =
  [None; None; Some (1, ReadEnd); Some (1, WriteEnd); None; Some (1, ReadEnd); None] ∧
  (** Opening for reading without waiting returns at once, but is refused in the sandbox. *)
  direct_waits a_fifo (COpen (lit "/run/f") 2048) = None ∧
  granted (build false run_calls) (lit "/run/f") 2048 = false.
Proof.
  assert (asked_waits a_fifo (build false run_calls) (COpen (lit "/run/x") 0) = None) as H1 by by vm_compute.
  assert (asked_waits a_fifo (build false run_calls) (COpen (lit "/run/f") 2) = None) as H2 by by vm_compute.
  assert (asked_waits a_fifo (build false run_calls) (COpen (lit "/run/f") 0) = Some (1, ReadEnd)) as H3
    by by vm_compute.
  assert (asked_waits a_fifo (build false run_calls) (CStat (lit "/run/f")) = None) as H4 by by vm_compute.
  split; [|split; [vm_compute; reflexivity|by vm_compute]].
  intros c Hc f e E. rewrite !elem_of_cons, elem_of_nil in Hc.
  destruct Hc as [->|[->|[->|[->|[]]]]]; try congruence.
  rewrite H3 in E. injection E as <- <-. by apply elem_of_singleton.
Qed.
