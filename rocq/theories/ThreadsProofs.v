(** Lemmas about ThreadsModel.v. *)
From stdpp Require Import prelude.
From Verif Require Import ThreadsModel.

Section inv.
Context {Q R : Type} {sv : server Q R}.
Implicit Types s : tstate sv.

(** Replies of the server to a sequence of requests, and its state after. *)
Fixpoint serve_all (b : sv_state sv) (ms : list Q) : list R :=
  match ms with
  | [] => []
  | m :: ms => let '(r, b') := sv_serve sv b m in r :: serve_all b' ms
  end.
Fixpoint state_after (b : sv_state sv) (ms : list Q) : sv_state sv :=
  match ms with [] => b | m :: ms => state_after (snd (sv_serve sv b m)) ms end.

Lemma serve_all_app b a c :
  serve_all b (a ++ c) = serve_all b a ++ serve_all (state_after b a) c.
Proof.
  revert b. induction a as [|m a IH]; intros b; [done|]. simpl.
  destruct (sv_serve sv b m) as [r b'] eqn:E. simpl. by rewrite IH.
Qed.
Lemma serve_all_length b a : length (serve_all b a) = length a.
Proof.
  revert b. induction a as [|m a IH]; intros b; [done|]. simpl.
  destruct (sv_serve sv b m). simpl. by rewrite IH.
Qed.
Lemma state_after_app b a c : state_after b (a ++ c) = state_after (state_after b a) c.
Proof. revert b. induction a; intros b; simpl; [done|]. by rewrite IHa. Qed.

Definition frame_at s t i f : Prop := ∃ st, ts_stacks s !! t = Some st ∧ st !! i = Some f.

(** The invariant. *)
Record inv s : Prop := mkInv {
  inv_free : ts_mutex s = None → ∀ t i f, frame_at s t i f → ¬ locked f;
  inv_own : ∀ o, ts_mutex s = Some o → ∃ i f, frame_at s o i f ∧ locked f ∧
    ∀ t' i' f', frame_at s t' i' f' → locked f' → t' = o ∧ i' = i;
  inv_idle : (∀ t i m todo, ¬ frame_at s t i (Wait m todo)) →
    ts_to_broker s = [] ∧ ts_to_worker s = [] ∧ ts_sent s = (ts_recvd s).*1 ∧
    ts_broker s = state_after (sv_init sv) (ts_sent s).*2;
  inv_wait : ∀ t i m todo, frame_at s t i (Wait m todo) →
    ts_sent s = (ts_recvd s).*1 ++ [(t, m)] ∧
    ((ts_to_broker s = [m] ∧ ts_to_worker s = [] ∧
      ts_broker s = state_after (sv_init sv) (ts_recvd s).*1.*2) ∨
     (ts_to_broker s = [] ∧
      ts_to_worker s = [fst (sv_serve sv (state_after (sv_init sv) (ts_recvd s).*1.*2) m)] ∧
      ts_broker s = state_after (sv_init sv) (ts_sent s).*2));
  inv_replies : (ts_recvd s).*2 = serve_all (sv_init sv) (ts_recvd s).*1.*2;
  inv_flag : (∀ t, ts_flag s t = false) ∧ ts_panicked s = false }.

Lemma frame_at_fun s t i f g : frame_at s t i f → frame_at s t i g → f = g.
Proof. intros (a & Ha & Hf) (b & Hb & Hg). congruence. Qed.

(** Effect of replacing the stack of thread [t]: only position [length st] changes. *)
Lemma frames_replace s s' t st f f' :
  ts_stacks s !! t = Some (st ++ [f]) → ts_stacks s' = <[t := st ++ [f']]> (ts_stacks s) →
  ∀ t' i g, frame_at s' t' i g ↔
    (t' = t ∧ i = length st ∧ g = f') ∨ (¬ (t' = t ∧ i = length st) ∧ frame_at s t' i g).
Proof.
  intros Hs Hs' t' i g. unfold frame_at. rewrite Hs'.
  assert (t < length (ts_stacks s)) as Hlt by (by eapply lookup_lt_Some).
  destruct (decide (t' = t)) as [->|Ht].
  - rewrite list_lookup_insert by done. split.
    + intros (st0 & [= <-] & Hi). destruct (decide (i = length st)) as [->|Hne].
      * left. rewrite list_lookup_middle in Hi by done. naive_solver.
      * right. split; [naive_solver|]. exists (st ++ [f]). split; [done|].
        apply lookup_lt_Some in Hi as Hl. rewrite app_length in Hl. simpl in Hl.
        rewrite lookup_app_l in * by lia. done.
    + intros [(_ & -> & ->)|(Hne & st0 & Hst & Hi)].
      * eexists. split; [done|]. by rewrite list_lookup_middle.
      * rewrite Hs in Hst. injection Hst as <-. eexists. split; [done|].
        assert (i ≠ length st) by naive_solver.
        apply lookup_lt_Some in Hi as Hl. rewrite app_length in Hl. simpl in Hl.
        rewrite lookup_app_l in * by lia. done.
  - rewrite list_lookup_insert_ne by done. naive_solver.
Qed.
Lemma frames_push s s' t st f' :
  ts_stacks s !! t = Some st → ts_stacks s' = <[t := st ++ [f']]> (ts_stacks s) →
  ∀ t' i g, frame_at s' t' i g ↔
    (t' = t ∧ i = length st ∧ g = f') ∨ (¬ (t' = t ∧ i = length st) ∧ frame_at s t' i g).
Proof.
  intros Hs Hs' t' i g. unfold frame_at. rewrite Hs'.
  assert (t < length (ts_stacks s)) as Hlt by (by eapply lookup_lt_Some).
  destruct (decide (t' = t)) as [->|Ht].
  - rewrite list_lookup_insert by done. split.
    + intros (st0 & [= <-] & Hi). destruct (decide (i = length st)) as [->|Hne].
      * left. rewrite list_lookup_middle in Hi by done. naive_solver.
      * right. split; [naive_solver|]. exists st. split; [done|].
        apply lookup_lt_Some in Hi as Hl. rewrite app_length in Hl. simpl in Hl.
        rewrite lookup_app_l in * by lia. done.
    + intros [(_ & -> & ->)|(Hne & st0 & Hst & Hi)].
      * eexists. split; [done|]. by rewrite list_lookup_middle.
      * rewrite Hs in Hst. injection Hst as <-. eexists. split; [done|].
        by apply lookup_app_l_Some.
  - rewrite list_lookup_insert_ne by done. naive_solver.
Qed.
Lemma frames_pop s s' t st f :
  ts_stacks s !! t = Some (st ++ [f]) → ts_stacks s' = <[t := st]> (ts_stacks s) →
  ∀ t' i g, frame_at s' t' i g ↔ ¬ (t' = t ∧ i = length st) ∧ frame_at s t' i g.
Proof.
  intros Hs Hs' t' i g. unfold frame_at. rewrite Hs'.
  assert (t < length (ts_stacks s)) as Hlt by (by eapply lookup_lt_Some).
  destruct (decide (t' = t)) as [->|Ht].
  - rewrite list_lookup_insert by done. split.
    + intros (st0 & [= <-] & Hi). apply lookup_lt_Some in Hi as Hl. split; [intros [_ ->]; lia|].
      eexists. split; [done|]. by apply lookup_app_l_Some.
    + intros (Hne & st0 & Hst & Hi). rewrite Hs in Hst. injection Hst as <-.
      eexists. split; [done|]. assert (i ≠ length st) by naive_solver.
      apply lookup_lt_Some in Hi as Hl. rewrite app_length in Hl. simpl in Hl.
      by rewrite lookup_app_l in Hi by lia.
  - rewrite list_lookup_insert_ne by done. naive_solver.
Qed.
Lemma frame_top s t st f : ts_stacks s !! t = Some (st ++ [f]) → frame_at s t (length st) f.
Proof. intros H. eexists. split; [done|]. by rewrite list_lookup_middle. Qed.

(** Steps that leave lock, queues and exchanges alone. *)
Lemma inv_same s s' :
  (∀ t i f, locked f → frame_at s' t i f ↔ frame_at s t i f) →
  ts_mutex s' = ts_mutex s → ts_to_broker s' = ts_to_broker s →
  ts_to_worker s' = ts_to_worker s → ts_broker s' = ts_broker s → ts_sent s' = ts_sent s →
  ts_recvd s' = ts_recvd s → (∀ t, ts_flag s' t = false) → ts_panicked s' = false →
  inv s → inv s'.
Proof.
  intros Hf Hm Hb Hw Hbr Hs Hr Hfl Hp [I1 I2 I3 I4 I5 I6].
  constructor; rewrite ?Hm, ?Hb, ?Hw, ?Hbr, ?Hs, ?Hr; try done.
  - intros Hn t i f Hat Hl. apply Hf in Hat; [|done]. by eapply I1.
  - intros o Ho. destruct (I2 o Ho) as (i & f & Hat & Hl & Hu). exists i, f.
    split; [by apply Hf|]. split; [done|]. intros t' i' f' Hat' Hl'.
    apply Hf in Hat'; [|done]. by eapply Hu.
  - intros Hno. apply I3. intros t i m todo Hat. apply (Hno t i m todo). by apply Hf.
  - intros t i m todo Hat. apply Hf in Hat; [|done]. by eapply I4.
Qed.

Lemma inv_init n : inv (ts_init sv n).
Proof.
  assert (∀ t i f, ¬ frame_at (ts_init sv n) t i f) as Hno.
  { intros t i f (st & Hst & Hi). simpl in Hst.
    apply lookup_replicate in Hst as [-> _]. done. }
  constructor; simpl; try done.
  - intros _ t i f Hat. by apply Hno in Hat.
  - intros t i m todo Hat. by apply Hno in Hat.
Qed.

Lemma inv_work s s' : inv s → work s s' → inv s'.
Proof.
  intros I W. pose proof I as [I1 I2 I3 I4 I5 [I6 I7]]. inversion W; subst.
  - (* want *)
    match goal with |- inv ?x => set (s' := x) end.
    eapply (inv_same s); [|done|done|done|done|done|done|exact I6|exact I7|done].
    intros t' i f Hl. rewrite (frames_replace s s' t st _ (Want m todo) H eq_refl). split.
    + intros [(-> & -> & ->)|[_ ?]]; [by destruct Hl|done].
    + intros Hat. right. split; [|done]. intros [-> ->].
      by pose proof (frame_at_fun _ _ _ _ _ Hat (frame_top _ _ _ _ H)) as ->.
  - (* lock *)
    set (s' := mkTs _ _ _ _ _ _ _ _ _).
    pose proof (frames_replace s s' t st _ (Hold m todo) H eq_refl) as F.
    assert (∀ t i m todo, ¬ frame_at s' t i (Wait m todo)) as Hnw.
    { intros t' i m' todo' Hat. apply F in Hat as [(_ & _ & ?)|[_ Hat]]; [done|].
      by apply (I1 H0 _ _ _ Hat). }
    constructor.
    + done.
    + intros o [= <-]. exists (length st), (Hold m todo). split; [apply F; by left|].
      split; [done|]. intros t' i' f' Hat Hl. apply F in Hat as [(-> & -> & _)|[_ Hat]]; [done|].
      by destruct (I1 H0 _ _ _ Hat).
    + intros _. apply I3. intros t' i m' todo' Hat. by apply (I1 H0 _ _ _ Hat).
    + intros t' i m' todo' Hat. by apply Hnw in Hat.
    + done.
    + done.
  - (* send *)
    set (s' := mkTs _ _ _ _ _ _ _ _ _).
    pose proof (frames_replace s s' t st _ (Wait m todo) H eq_refl) as F.
    pose proof (frame_top _ _ _ _ H) as Htop.
    destruct (ts_mutex s) as [o|] eqn:Em; [|by destruct (I1 eq_refl _ _ _ Htop)].
    destruct (I2 o eq_refl) as (i0 & f0 & Hat0 & Hl0 & Hu0).
    destruct (Hu0 _ _ _ Htop) as [-> <-]; [done|].
    assert (∀ t i m todo, ¬ frame_at s t i (Wait m todo)) as Hnw.
    { intros t' i m' todo' Hat. destruct (Hu0 _ _ _ Hat) as [-> ->]; [done|].
      by pose proof (frame_at_fun _ _ _ _ _ Hat Htop). }
    destruct (I3 Hnw) as (Hb & Hw & Hs & Hbr).
    constructor.
    + simpl; rewrite ?Em. done.
    + simpl; rewrite ?Em. intros o' [= <-]. exists (length st), (Wait m todo).
      split; [apply F; by left|]. split; [done|].
      intros t' i' f' Hat Hl. apply F in Hat as [(-> & -> & _)|[_ Hat]]; [done|]. by eapply Hu0.
    + intros Hno. destruct (Hno o (length st) m todo). apply F. by left.
    + intros t' i m' todo' Hat. simpl. rewrite Hb, Hw, Hs.
      apply F in Hat as [(-> & -> & [= -> ->])|[_ Hat]]; [|by apply Hnw in Hat].
      split; [done|]. left. split; [done|]. split; [done|]. by rewrite Hbr, Hs.
    + done.
    + done.
  - (* recv *)
    set (s' := mkTs _ _ _ _ _ _ _ _ _).
    pose proof (frames_replace s s' t st _ (Run todo) H eq_refl) as F.
    pose proof (frame_top _ _ _ _ H) as Htop.
    destruct (ts_mutex s) as [o|] eqn:Em; [|by destruct (I1 eq_refl _ _ _ Htop)].
    destruct (I2 o eq_refl) as (i0 & f0 & Hat0 & Hl0 & Hu0).
    destruct (Hu0 _ _ _ Htop) as [-> <-]; [done|].
    destruct (I4 _ _ _ _ Htop) as [Hs [(_ & Hw & _)|(Hb & Hw & Hbr)]]; [congruence|].
    rewrite Hw in H0. injection H0 as <- <-.
    assert (∀ t i f, frame_at s' t i f → ¬ locked f) as Hnl.
    { intros t' i f Hat Hl. apply F in Hat as [(_ & _ & ->)|[Hne Hat]]; [done|].
      apply Hne. by eapply Hu0. }
    constructor.
    + intros _. done.
    + done.
    + intros _. simpl. rewrite Hb, Hs, fmap_app. simpl. split; [done|]. split; [done|].
      split; [done|]. rewrite Hs in Hbr. done.
    + intros t' i m' todo' Hat. by destruct (Hnl _ _ _ Hat).
    + simpl. rewrite !fmap_app, I5. simpl. rewrite serve_all_app. simpl.
      by destruct (sv_serve sv _ m).
    + done.
  - (* return *)
    match goal with |- inv ?x => set (s' := x) end.
    eapply (inv_same s); [|done|done|done|done|done|done|exact I6|exact I7|done].
    intros t' i f Hl. rewrite (frames_pop s s' t st _ H eq_refl). split; [by intros [_ ?]|].
    intros Hat. split; [|done]. intros [-> ->].
    by pose proof (frame_at_fun _ _ _ _ _ Hat (frame_top _ _ _ _ H)) as ->.
  - (* serve *)
    set (s' := mkTs _ _ _ _ _ _ _ _ _).
    assert (∀ t i f, frame_at s' t i f ↔ frame_at s t i f) as F by done.
    constructor; try done.
    + intros Hno. destruct I3 as (Hb & _); [|congruence]. intros t i m' todo Hat.
      by apply (Hno t i m' todo).
    + intros t i m' todo Hat. destruct (I4 _ _ _ _ Hat) as [Hs [(Hb & Hw & Hbr)|(Hb & _)]]; [|congruence].
      rewrite Hb in H. injection H as <- <-. simpl. split; [done|]. right.
      rewrite Hw, <-Hbr, H0. split; [done|]. split; [done|].
      rewrite Hs, fmap_app, state_after_app. simpl. by rewrite <-Hbr, H0.
Qed.

Lemma inv_step anywhere s s' : inv s → step anywhere s s' → inv s'.
Proof.
  intros I S. inversion S; subst; [by eapply inv_work|].
  pose proof (inv_flag _ I) as [Hfl Hp].
  match goal with |- inv ?x => set (s' := x) end.
  eapply (inv_same s); [|done..| | |done]; simpl.
  - intros t' i f Hl. rewrite (frames_push s s' t st (Run todo) H eq_refl). split.
    + intros [(-> & -> & ->)|[_ ?]]; done.
    + intros Hat. right. split; [|done]. intros [-> ->].
      destruct Hat as (st0 & Hst & Hi). rewrite H in Hst. injection Hst as <-.
      apply lookup_lt_Some in Hi. lia.
  - intros t'. unfold guard_flag_after. by destruct (decide (t' = t)).
  - by rewrite Hp, Hfl.
Qed.

Lemma reachable_inv anywhere n s : reachable anywhere n s → inv s.
Proof.
  intros H. apply (rtc_ind_r (R := step anywhere) inv (ts_init sv n)); [apply inv_init| |done].
  intros y z _ HS HI. by eapply inv_step.
Qed.

(** Without interruptions of [send_recv], only the innermost activation is in an
    exchange. *)
Definition tidy s : Prop :=
  ∀ t st i f, ts_stacks s !! t = Some st → st !! i = Some f → S i < length st →
    ∃ todo, f = Run todo.

Lemma tidy_replace t st f f' (l : list (list (frame Q))) :
  (∀ t' st' i g, l !! t' = Some st' → st' !! i = Some g → S i < length st' → ∃ todo, g = Run todo) →
  l !! t = Some (st ++ [f]) →
  (∀ t' st' i g, <[t := st ++ [f']]> l !! t' = Some st' → st' !! i = Some g →
    S i < length st' → ∃ todo, g = Run todo).
Proof.
  intros H Hl t' st' i g Hst Hi Hlt. apply list_lookup_insert_Some in Hst as [(<- & <- & _)|[_ Hst]].
  - rewrite app_length in Hlt. simpl in Hlt. rewrite lookup_app_l in Hi by lia.
    eapply (H t (st ++ [f]) i); [done|by apply lookup_app_l_Some|]. rewrite app_length. simpl. lia.
  - by eapply H.
Qed.

Lemma tidy_step s s' : tidy s → step false s s' → tidy s'.
Proof.
  intros T HS. inversion HS as [? ? W|? t st todo Hst Hint]; subst.
  - inversion W; subst; unfold tidy in *; simpl; try (by eapply tidy_replace).
    + intros t' st' i g Hst Hi Hlt. apply list_lookup_insert_Some in Hst as [(<- & <- & _)|[_ Hst]].
      * eapply (T t (st ++ [Run []]) i); [done|by apply lookup_app_l_Some|].
        rewrite app_length. simpl. lia.
      * by eapply T.
    + done.
  - unfold tidy. simpl. intros t' st' i g Hst' Hi Hlt.
    apply list_lookup_insert_Some in Hst' as [(<- & <- & _)|[_ Hst']]; [|by eapply T].
    rewrite app_length in Hlt. simpl in Hlt. rewrite lookup_app_l in Hi by lia.
    destruct (decide (S i = length st)) as [Hl|Hl].
    + unfold interruptible in Hint. rewrite last_lookup in Hint.
      replace (pred (length st)) with i in Hint by lia. rewrite Hi in Hint.
      destruct g; try done. eauto.
    + eapply (T t st i); [done|done|lia].
Qed.

Lemma reachable_tidy n s : reachable false n s → tidy s.
Proof.
  intros H. apply (rtc_ind_r (R := step false) tidy (ts_init sv n)); [| |done].
  - intros t st i f Hst Hi. simpl in Hst. apply lookup_replicate in Hst as [-> _]. done.
  - intros y z _ HS HI. by eapply tidy_step.
Qed.

Lemma tidy_top s t i f :
  tidy s → frame_at s t i f → (∀ todo, f ≠ Run todo) →
  ∃ st, ts_stacks s !! t = Some (st ++ [f]).
Proof.
  intros T (st & Hst & Hi) Hf. destruct (decide (S i < length st)) as [Hl|Hl].
  { destruct (T _ _ _ _ Hst Hi Hl) as [todo ->]. by destruct (Hf todo). }
  exists (take i st). rewrite Hst. f_equal.
  apply lookup_lt_Some in Hi as Hlt.
  rewrite <-(take_drop i st) at 1. f_equal.
  rewrite (drop_S _ _ _ Hi). f_equal. apply nil_length_inv. rewrite drop_length. lia.
Qed.

(** Something can be done while an activation is left. *)
Lemma progress s t i f : inv s → tidy s → frame_at s t i f → ∃ s', work s s'.
Proof.
  intros [I1 I2 I3 I4 I5 I6] T Hat.
  destruct (ts_mutex s) as [o|] eqn:Em.
  - destruct (I2 o eq_refl) as (i0 & f0 & Hat0 & Hl & _).
    destruct (tidy_top _ _ _ _ T Hat0) as [st Hst]; [by intros todo ->|].
    destruct f0 as [| |m todo|m todo]; [done|done|eexists; by eapply W_send|].
    destruct (I4 _ _ _ _ Hat0) as [_ [(Hb & _)|(_ & Hw & _)]].
    + destruct (sv_serve sv (ts_broker s) m) as [r b] eqn:E. eexists. by eapply W_serve.
    + eexists. by eapply W_recv.
  - destruct Hat as (st & Hst & Hi).
    destruct (exists_last (l := st)) as (st0 & f0 & ->); [by intros ->|].
    pose proof (frame_top _ _ _ _ Hst) as Htop.
    destruct f0 as [[|m todo]|m todo|m todo|m todo].
    + eexists. by eapply W_return.
    + eexists. by eapply W_want.
    + eexists. by eapply W_lock.
    + by destruct (I1 eq_refl _ _ _ Htop).
    + by destruct (I1 eq_refl _ _ _ Htop).
Qed.

(** Work left. *)
Definition weight (f : frame Q) : nat :=
  match f with
  | Run todo => 1 + 5 * length todo
  | Want _ todo => 5 + 5 * length todo
  | Hold _ todo => 4 + 5 * length todo
  | Wait _ todo => 2 + 5 * length todo
  end.
Definition stack_weight (st : list (frame Q)) : nat := sum_list_with weight st.
Definition measure s : nat :=
  sum_list_with stack_weight (ts_stacks s) + length (ts_to_broker s).

Lemma stack_weight_snoc st f : stack_weight (st ++ [f]) = stack_weight st + weight f.
Proof. unfold stack_weight. rewrite sum_list_with_app. simpl. lia. Qed.
Lemma sum_insert (l : list (list (frame Q))) t st st' :
  l !! t = Some st →
  sum_list_with stack_weight (<[t := st']> l) + stack_weight st =
  sum_list_with stack_weight l + stack_weight st'.
Proof.
  revert t. induction l as [|x l IH]; intros [|t]; simpl; try done.
  - intros [= ->]. lia.
  - intros H. specialize (IH t H). lia.
Qed.

Lemma work_measure s s' : work s s' → measure s' < measure s.
Proof.
  intros W. unfold measure. inversion W; subst; simpl.
  - pose proof (sum_insert _ _ _ (st ++ [Want m todo]) H) as E.
    rewrite !stack_weight_snoc in E. simpl in E. lia.
  - pose proof (sum_insert _ _ _ (st ++ [Hold m todo]) H) as E.
    rewrite !stack_weight_snoc in E. simpl in E. lia.
  - pose proof (sum_insert _ _ _ (st ++ [Wait m todo]) H) as E.
    rewrite !stack_weight_snoc in E. simpl in E. rewrite app_length. simpl. lia.
  - pose proof (sum_insert _ _ _ (st ++ [Run todo]) H) as E.
    rewrite !stack_weight_snoc in E. simpl in E. lia.
  - pose proof (sum_insert _ _ _ st H) as E.
    rewrite !stack_weight_snoc in E. simpl in E. lia.
  - rewrite H. simpl. lia.
Qed.

Lemma rtc_work_step anywhere s s' : rtc work s s' → rtc (step anywhere) s s'.
Proof. induction 1; [done|]. eapply rtc_l; [by apply S_work|done]. Qed.

(** A thread interrupted inside [send_recv] by a call that traps waits for itself. *)
Definition stuck s (o i : nat) (f : frame Q) (m : Q) (todo : list Q) : Prop :=
  ts_mutex s = Some o ∧ frame_at s o i f ∧ locked f ∧ frame_at s o (S i) (Want m todo).

Lemma stuck_step s s' o i f m todo :
  inv s → stuck s o i f m todo → step true s s' →
  stuck s' o i f m todo ∧ ts_recvd s' = ts_recvd s.
Proof.
  intros [I1 I2 I3 I4 I5 I6] (Hm & Hf & Hl & Hw) HS.
  destruct (I2 o Hm) as (i0 & f0 & Hat0 & Hl0 & Hu0).
  destruct (Hu0 _ _ _ Hf Hl) as [_ <-].
  (* the innermost activation of [o] is neither of the two *)
  assert (∀ st g, ts_stacks s !! o = Some (st ++ [g]) → i < length st) as Hlen.
  { intros st g Hst. destruct Hw as (st' & Hst' & Hi). rewrite Hst in Hst'. injection Hst' as <-.
    apply lookup_lt_Some in Hi. rewrite app_length in Hi. simpl in Hi. lia. }
  assert (∀ t st g, ts_stacks s !! t = Some (st ++ [g]) → ¬ locked g) as Hnl.
  { intros t st g Hst Hlg. pose proof (frame_top _ _ _ _ Hst) as Htop.
    destruct (Hu0 _ _ _ Htop Hlg) as [-> Hi]. pose proof (Hlen _ _ Hst). lia. }
  inversion HS as [? ? W|? t st todo' Hst Hint]; subst.
  - inversion W; subst.
    + match goal with |- stuck ?x _ _ _ _ _ ∧ _ => set (s' := x) end.
      pose proof (frames_replace s s' t st _ (Want m0 todo0) H eq_refl) as F.
      split; [|done]. split; [done|]. split; [|split; [done|]].
      * apply F. right. split; [|done]. intros [-> ->]. pose proof (Hlen _ _ H). lia.
      * apply F. right. split; [|done]. intros [-> Hi].
        pose proof (frame_top _ _ _ _ H) as Htop. rewrite Hi in Hw.
        by pose proof (frame_at_fun _ _ _ _ _ Hw Htop).
    + congruence.
    + by destruct (Hnl _ _ _ H).
    + by destruct (Hnl _ _ _ H).
    + match goal with |- stuck ?x _ _ _ _ _ ∧ _ => set (s' := x) end.
      pose proof (frames_pop s s' t st _ H eq_refl) as F.
      split; [|done]. split; [done|]. split; [|split; [done|]].
      * apply F. split; [|done]. intros [-> ->]. pose proof (Hlen _ _ H). lia.
      * apply F. split; [|done]. intros [-> Hi].
        pose proof (frame_top _ _ _ _ H) as Htop. rewrite Hi in Hw.
        by pose proof (frame_at_fun _ _ _ _ _ Hw Htop).
    + done.
  - match goal with |- stuck ?x _ _ _ _ _ ∧ _ => set (s' := x) end.
    pose proof (frames_push s s' t st (Run todo') Hst eq_refl) as F.
    assert (∀ j g, frame_at s t j g → j < length st) as Hj.
    { intros j g (st' & Hst' & Hj). rewrite Hst in Hst'. injection Hst' as <-.
      by apply lookup_lt_Some in Hj. }
    split; [|done]. split; [done|]. split; [|split; [done|]].
    + apply F. right. split; [|done]. intros [-> ->]. apply Hj in Hf. lia.
    + apply F. right. split; [|done]. intros [-> Hi]. apply Hj in Hw. lia.
Qed.
End inv.
