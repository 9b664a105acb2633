(** C168: on Windows, what is started beside a worker inherits nothing of it. *)
From stdpp Require Import prelude gmap.
From Verif Require Import WinInheritModel.
Local Open Scope N_scope.

(** ** What is claimed *)

(** Before the first worker: the handles are the program's own. *)
Definition only_own (s : hstate) : Prop :=
  hs_phase s = ∅ ∧ hs_got s = [] ∧ hs_ended s = [] ∧
  ∀ h e, hs_tab s !! h = Some e → of_worker (hn_owner e) = None.

(** Whatever a process was given that is for a worker is for that worker. *)
Definition kept_apart (s : hstate) : Prop :=
  ∀ r os o w, (r, os) ∈ hs_got s → o ∈ os → of_worker o = Some w → r = RWorker w.

(** Once Worker::new has returned and the worker has ended, nobody has its end of the pipe, so
    that the broker's thread notices (C129). *)
Definition end_noticed (s : hstate) : Prop :=
  ∀ w h1 hp hr, hs_phase s !! w = Some (HRunning h1 hp hr) → RWorker w ∈ hs_ended s →
    (∀ h i, hs_tab s !! h ≠ Some (mkHent (HEnd w) i)) ∧
    ∀ r os, (r, os) ∈ hs_got s → HEnd w ∈ os → r ∈ hs_ended s.

Definition C168_full : Prop :=
  ∀ s es, only_own s → kept_apart (hrun s es) ∧ end_noticed (hrun s es).

(** Between set_inheritable (worker.rs:33) and the drop of the handle (worker.rs:79). *)
Definition in_window (p : hphase) : Prop :=
  match p with HMarked _ _ | HStarted _ _ _ | HBound _ _ _ _ => True | _ => False end.
Definition no_window (s : hstate) (but : option N) : Prop :=
  ∀ w p, hs_phase s !! w = Some p → in_window p → but = Some w.
Definition lists_own (s : hstate) (l : list N) : Prop :=
  ∀ h e, h ∈ l → hs_tab s !! h = Some e → of_worker (hn_owner e) = None.

(** Processes are started with a list of the program's own handles (besides the worker's end),
    or with every inheritable handle while no other worker is being started. *)
Definition careful_event (s : hstate) (e : hevent) : Prop :=
  match e with
  | VCreate _ _ wanted true => lists_own s wanted
  | VCreate w _ _ false => no_window s (Some w)
  | VSpawn _ (Some l) => lists_own s l
  | VSpawn _ None => no_window s None
  | _ => True
  end.
Definition careful (s : hstate) (es : list hevent) : Prop :=
  ∀ es1 e es2, es = es1 ++ e :: es2 → careful_event (hrun s es1) e.

(** ** Proof *)

(** What the handles of a start are for. *)
Definition slots (w : N) (p : hphase) : list (N * howner) :=
  match p with
  | HMade h1 h2 | HMarked h1 h2 => [(h1, HServer w); (h2, HEnd w)]
  | HStarted h1 h2 hp => [(h1, HServer w); (h2, HEnd w); (hp, HProc w)]
  | HBound h1 h2 hp hr => [(h1, HServer w); (h2, HEnd w); (hp, HProc w); (hr, HProc w)]
  | HRunning h1 hp hr => [(h1, HServer w); (hp, HProc w); (hr, HProc w)]
  | HGone => []
  end.
(** The handle that is inheritable. *)
Definition window (p : hphase) : option N :=
  match p with HMarked _ h | HStarted _ h _ | HBound _ h _ _ => Some h | _ => None end.

Record hinv (s : hstate) : Prop := mkHinv {
  hi_slots : ∀ w p h o, hs_phase s !! w = Some p → (h, o) ∈ slots w p →
    ∃ i, hs_tab s !! h = Some (mkHent o i);
  hi_end : ∀ h w i, hs_tab s !! h = Some (mkHent (HEnd w) i) →
    ∃ p, hs_phase s !! w = Some p ∧ (h, HEnd w) ∈ slots w p;
  hi_inherit : ∀ h o w, hs_tab s !! h = Some (mkHent o true) → of_worker o = Some w →
    o = HEnd w ∧ ∃ p, hs_phase s !! w = Some p ∧ window p = Some h;
  hi_window : ∀ w p h, hs_phase s !! w = Some p → window p = Some h →
    hs_tab s !! h = Some (mkHent (HEnd w) true) }.

Lemma slots_worker w p h o : (h, o) ∈ slots w p → of_worker o = Some w.
Proof.
  destruct p; cbn [slots]; intros H;
    repeat (apply elem_of_cons in H as [[= -> ->]|H]; [done|]); by apply elem_of_nil in H.
Qed.
Lemma slots_file w w' p h : (h, HFile w') ∉ slots w p.
Proof.
  destruct p; cbn [slots]; intros H;
    repeat (apply elem_of_cons in H as [H|H]; [done|]); by apply elem_of_nil in H.
Qed.
Lemma window_slot w p h : window p = Some h → (h, HEnd w) ∈ slots w p.
Proof. destruct p; cbn [window slots]; intros [= ->]; set_solver. Qed.
Lemma slots_handles w p h o : (h, o) ∈ slots w p → h ∈ phase_handles p.
Proof. destruct p; cbn [slots phase_handles]; set_solver. Qed.
Lemma handles_slots w p h : h ∈ phase_handles p → ∃ o, (h, o) ∈ slots w p.
Proof.
  destruct p; cbn [slots phase_handles]; intros H;
    repeat (apply elem_of_cons in H as [->|H];
      [eexists; rewrite !elem_of_cons; eauto 6|]); by apply elem_of_nil in H.
Qed.
Lemma end_slot w p h h' : (h, HEnd w) ∈ slots w p → (h', HEnd w) ∈ slots w p → h = h'.
Proof. destruct p; cbn [slots]; set_solver. Qed.

Lemma unused_spec s h : unused s h = true → hs_tab s !! h = None.
Proof. apply bool_decide_eq_true. Qed.

(** A new handle that is the program's own or not inheritable, and no worker's end. *)
Lemma hinv_new s h o i :
  hinv s → hs_tab s !! h = None → (∀ w, o ≠ HEnd w) → (i = true → of_worker o = None) →
  hinv (h_tab s (<[h := mkHent o i]> (hs_tab s))).
Proof.
  intros [H1 H2 H3 H4] Hf He Hi. constructor; cbn [h_tab hs_tab hs_phase].
  - intros w p h' o' Hp Hin. destruct (H1 _ _ _ _ Hp Hin) as [j Hj]. exists j.
    rewrite lookup_insert_ne; [done|congruence].
  - intros h' w j [[<- [= Ho _]]|[_ H]]%lookup_insert_Some; [by destruct (He w)|eauto].
  - intros h' o' w [[<- [= -> ->]]|[_ H]]%lookup_insert_Some Hw; [|eauto].
    rewrite Hi in Hw by done. done.
  - intros w p h' Hp Hw. pose proof (H4 _ _ _ Hp Hw). rewrite lookup_insert_ne; [done|congruence].
Qed.

(** The phase of a start changes and none of its handles' meaning. *)
Lemma hinv_phase s w p p' :
  hinv s → hs_phase s !! w = Some p → window p' = window p →
  (∀ h o, (h, o) ∈ slots w p' → ∃ i, hs_tab s !! h = Some (mkHent o i)) →
  (∀ h, (h, HEnd w) ∈ slots w p → (h, HEnd w) ∈ slots w p') →
  hinv (h_phase s w p').
Proof.
  intros [H1 H2 H3 H4] Hp Hw Hs He. constructor; cbn [h_phase hs_tab hs_phase].
  - intros w' q h o [[<- <-]|[_ H]]%lookup_insert_Some; [apply Hs|eauto].
  - intros h w' i H. destruct (H2 _ _ _ H) as (q & Hq & Hin).
    destruct (decide (w = w')) as [<-|Hne].
    + exists p'. rewrite lookup_insert. split; [done|]. apply He. congruence.
    + exists q. by rewrite lookup_insert_ne.
  - intros h o w' H Ho. destruct (H3 _ _ _ H Ho) as (-> & q & Hq & Hwq). split; [done|].
    destruct (decide (w = w')) as [<-|Hne].
    + exists p'. rewrite lookup_insert. split; [done|]. rewrite Hw. congruence.
    + exists q. by rewrite lookup_insert_ne.
  - intros w' q h [[<- <-]|[_ H]]%lookup_insert_Some; [|eauto].
    rewrite Hw. by apply H4.
Qed.

Lemma hinv_got s g e : hinv s → hinv (mkHs (hs_tab s) (hs_phase s) g e).
Proof. by intros []; constructor. Qed.

(** Closing a handle that no start holds. *)
Lemma hinv_close s h :
  hinv s → (∀ w p o, hs_phase s !! w = Some p → (h, o) ∉ slots w p) →
  hinv (h_tab s (delete h (hs_tab s))).
Proof.
  intros [H1 H2 H3 H4] Hno. constructor; cbn [h_tab hs_tab hs_phase].
  - intros w p h' o Hp Hin. destruct (H1 _ _ _ _ Hp Hin) as [i Hi]. exists i.
    rewrite lookup_delete_ne; [done|]. intros ->. by apply (Hno _ _ _ Hp Hin).
  - intros h' w i [_ H]%lookup_delete_Some. eauto.
  - intros h' o w [_ H]%lookup_delete_Some. eauto.
  - intros w p h' Hp Hw. rewrite lookup_delete_ne; [eauto|]. intros ->.
    by apply (Hno w p (HEnd w) Hp), window_slot.
Qed.

Lemma closes_lookup hs t h :
  closes hs t !! h = if bool_decide (h ∈ hs) then None else t !! h.
Proof.
  unfold closes. induction hs as [|x hs IH].
  - by rewrite bool_decide_eq_false_2 by apply not_elem_of_nil.
  - cbn [foldr]. destruct (decide (x = h)) as [->|Hne].
    + rewrite lookup_delete, bool_decide_eq_true_2; [done|]. apply elem_of_list_here.
    + rewrite lookup_delete_ne by done. rewrite IH.
      rewrite (bool_decide_ext (h ∈ hs) (h ∈ x :: hs)); [done|].
      rewrite elem_of_cons. naive_solver.
Qed.

Lemma hinv_step s e : hinv s → hinv (hstep s e).
Proof.
  intros I.
  destruct e as [w h1 h2|w|w hp wanted l|w hr|w|w|w h|w h|h n i|h i|h|n l|r]; cbn [hstep].
  - destruct (hs_phase s !! w) as [p|] eqn:Ep; [done|].
    destruct (unused s h1) eqn:E1; [|done]. destruct (unused s h2) eqn:E2; [|done].
    apply unused_spec in E1, E2. destruct (N.eqb_spec h1 h2) as [|Hne]; [done|]. cbn [andb negb].
    destruct I as [H1 H2 H3 H4]. constructor; cbn [h_phase h_tab hs_tab hs_phase].
    + intros w' p h o [[<- <-]|[Hw H]]%lookup_insert_Some Hin.
      * cbn [slots] in Hin. exists false.
        apply elem_of_cons in Hin as [[= -> ->]|Hin].
        { rewrite lookup_insert_ne by done. by rewrite lookup_insert. }
        apply elem_of_list_singleton in Hin as [= -> ->]. by rewrite lookup_insert.
      * destruct (H1 _ _ _ _ H Hin) as [i Hi]. exists i.
        rewrite !lookup_insert_ne; [done|congruence|congruence].
    + intros h w' i [[<- [= <- <-]]|[Hh [[<- Hx]|[_ H]]%lookup_insert_Some]]%lookup_insert_Some.
      * exists (HMade h1 h2). rewrite lookup_insert. split; [done|]. cbn [slots]. set_solver.
      * done.
      * destruct (H2 _ _ _ H) as (p & Hp & Hin). exists p.
        rewrite lookup_insert_ne; [done|congruence].
    + intros h o w' [[<- Hx]|[Hh [[<- Hx]|[_ H]]%lookup_insert_Some]]%lookup_insert_Some Ho;
        [done|done|].
      destruct (H3 _ _ _ H Ho) as (-> & p & Hp & Hwp). split; [done|]. exists p.
      rewrite lookup_insert_ne; [done|congruence].
    + intros w' p h [[<- <-]|[Hw H]]%lookup_insert_Some Hwp; [done|].
      pose proof (H4 _ _ _ H Hwp). rewrite !lookup_insert_ne; [done|congruence|congruence].
  - destruct (hs_phase s !! w) as [[h1 h2|h1 h2|h1 h2 hp|h1 h2 hp hr|h1 hp hr|]|] eqn:Ep; try done.
    destruct I as [H1 H2 H3 H4].
    assert (∃ i, hs_tab s !! h2 = Some (mkHent (HEnd w) i)) as [i2 Hi2].
    { apply (H1 w (HMade h1 h2) h2 _ Ep). cbn [slots]. set_solver. }
    constructor; cbn [h_phase h_tab hs_tab hs_phase].
    + intros w' p h o Hp Hin.
      assert (∃ q, hs_phase s !! w' = Some q ∧ (h, o) ∈ slots w' q) as (q & Hq & Hin').
      { apply lookup_insert_Some in Hp as [[<- <-]|[_ H]]; [|eauto].
        exists (HMade h1 h2). done. }
      destruct (H1 _ _ _ _ Hq Hin') as [i Hi]. destruct (decide (h = h2)) as [->|Hne].
      * exists true. rewrite lookup_insert. congruence.
      * exists i. by rewrite lookup_insert_ne.
    + intros h w' i H.
      assert (∃ j, hs_tab s !! h = Some (mkHent (HEnd w') j)) as [j Hj].
      { apply lookup_insert_Some in H as [[<- [= <- _]]|[_ H]]; eauto. }
      destruct (H2 _ _ _ Hj) as (p & Hp & Hin). destruct (decide (w = w')) as [<-|Hne].
      * exists (HMarked h1 h2). rewrite lookup_insert. split; [done|]. rewrite Ep in Hp.
        by injection Hp as <-.
      * exists p. by rewrite lookup_insert_ne.
    + intros h o w' [[<- [= <-]]|[Hne H]]%lookup_insert_Some Ho.
      * cbn [of_worker] in Ho. injection Ho as <-. split; [done|].
        exists (HMarked h1 h2). by rewrite lookup_insert.
      * destruct (H3 _ _ _ H Ho) as (-> & p & Hp & Hwp). split; [done|].
        destruct (decide (w = w')) as [<-|Hw].
        { rewrite Ep in Hp. injection Hp as <-. done. }
        exists p. by rewrite lookup_insert_ne.
    + intros w' p h [[<- <-]|[Hw H]]%lookup_insert_Some Hwp.
      * injection Hwp as <-. by rewrite lookup_insert.
      * pose proof (H4 _ _ _ H Hwp). rewrite lookup_insert_ne; [done|]. congruence.
  - destruct (hs_phase s !! w) as [[h1 h2|h1 h2|h1 h2 hp'|h1 h2 hp' hr|h1 hp' hr|]|] eqn:Ep; try done.
    destruct (unused s hp) eqn:Eu; [|done]. apply unused_spec in Eu.
    set (os := inherits _ _). clearbody os.
    assert (hinv (h_tab (h_give s (RWorker w) os) (<[hp := mkHent (HProc w) false]> (hs_tab s)))) as I1.
    { apply (hinv_new (h_give s (RWorker w) os)); [by apply hinv_got|done|done|done]. }
    apply (hinv_phase _ w (HMarked h1 h2)); [done|done|done|..].
    + intros h o Hin. cbn [slots] in Hin.
      apply elem_of_cons in Hin as [Hx|Hin];
        [apply (hi_slots _ I1 w (HMarked h1 h2) h o Ep); cbn [slots]; set_solver|].
      apply elem_of_cons in Hin as [Hx|Hin];
        [apply (hi_slots _ I1 w (HMarked h1 h2) h o Ep); cbn [slots]; set_solver|].
      apply elem_of_list_singleton in Hin as [= -> ->]. exists false.
      cbn [h_tab hs_tab]. by rewrite lookup_insert.
    + intros h. cbn [slots]. set_solver.
  - destruct (hs_phase s !! w) as [[h1 h2|h1 h2|h1 h2 hp'|h1 h2 hp' hr'|h1 hp' hr'|]|] eqn:Ep; try done.
    destruct (unused s hr) eqn:Eu; [|done]. apply unused_spec in Eu.
    assert (hinv (h_tab s (<[hr := mkHent (HProc w) false]> (hs_tab s)))) as I1.
    { by apply hinv_new. }
    apply (hinv_phase _ w (HStarted h1 h2 hp')); [done|done|done|..].
    + intros h o Hin. destruct (decide ((h, o) = (hr, HProc w))) as [[= -> ->]|Hne].
      { exists false. cbn [h_tab hs_tab]. by rewrite lookup_insert. }
      apply (hi_slots _ I1 w (HStarted h1 h2 hp') h o Ep). cbn [slots] in *. set_solver.
    + intros h. cbn [slots]. set_solver.
  - destruct (hs_phase s !! w) as [[h1 h2|h1 h2|h1 h2 hp'|h1 h2 hp hr|h1 hp' hr'|]|] eqn:Ep; try done.
    destruct I as [H1 H2 H3 H4].
    assert (hs_tab s !! h2 = Some (mkHent (HEnd w) true)) as Hh2 by (by apply (H4 w _ h2 Ep)).
    constructor; cbn [h_phase h_tab hs_tab hs_phase].
    + intros w' p h o Hp Hin.
      assert (h ≠ h2 ∧ ∃ i, hs_tab s !! h = Some (mkHent o i)) as [Hne [i Hi]].
      { apply lookup_insert_Some in Hp as [[<- <-]|[Hw H]].
        - assert ((h, o) ∈ slots w (HBound h1 h2 hp hr)) as Hin'.
          { cbn [slots] in *. set_solver. }
          destruct (H1 _ _ _ _ Ep Hin') as [i Hi]. split; [|eauto]. intros ->.
          rewrite Hh2 in Hi. injection Hi as <- <-. cbn [slots] in Hin. set_solver.
        - destruct (H1 _ _ _ _ H Hin) as [i Hi]. split; [|eauto]. intros ->.
          rewrite Hh2 in Hi. injection Hi as <- <-. apply slots_worker in Hin.
          cbn [of_worker] in Hin. congruence. }
      exists i. by rewrite lookup_delete_ne.
    + intros h w' i [Hne H]%lookup_delete_Some. destruct (H2 _ _ _ H) as (p & Hp & Hin).
      destruct (decide (w = w')) as [<-|Hw].
      * rewrite Ep in Hp. injection Hp as <-. destruct Hne.
        apply (end_slot w (HBound h1 h2 hp hr)); [|done]. cbn [slots]. set_solver.
      * exists p. by rewrite lookup_insert_ne.
    + intros h o w' [Hne H]%lookup_delete_Some Ho. destruct (H3 _ _ _ H Ho) as (-> & p & Hp & Hwp).
      split; [done|]. destruct (decide (w = w')) as [<-|Hw].
      * rewrite Ep in Hp. injection Hp as <-. cbn [window] in Hwp. congruence.
      * exists p. by rewrite lookup_insert_ne.
    + intros w' p h [[<- <-]|[Hw H]]%lookup_insert_Some Hwp; [done|].
      pose proof (H4 _ _ _ H Hwp). rewrite lookup_delete_ne; [done|]. congruence.
  - destruct (hs_phase s !! w) as [p|] eqn:Ep; [|done]. destruct I as [H1 H2 H3 H4].
    assert (∀ w' q h o, w ≠ w' → hs_phase s !! w' = Some q → (h, o) ∈ slots w' q →
      h ∉ phase_handles p) as Hdis.
    { intros w' q h o Hne Hq Hin Hh. destruct (handles_slots w _ _ Hh) as [o' Ho'].
      destruct (H1 _ _ _ _ Hq Hin) as [i Hi]. destruct (H1 _ _ _ _ Ep Ho') as [i' Hi'].
      apply slots_worker in Hin, Ho'. congruence. }
    constructor; cbn [h_phase h_tab hs_tab hs_phase].
    + intros w' q h o [[<- <-]|[Hne H]]%lookup_insert_Some Hin; [by apply elem_of_nil in Hin|].
      destruct (H1 _ _ _ _ H Hin) as [i Hi]. exists i.
      rewrite closes_lookup, bool_decide_eq_false_2; [done|eauto].
    + intros h w' i H. rewrite closes_lookup in H.
      destruct (bool_decide_reflect (h ∈ phase_handles p)) as [|Hni]; [done|].
      destruct (H2 _ _ _ H) as (q & Hq & Hin). destruct (decide (w = w')) as [<-|Hne].
      * rewrite Ep in Hq. injection Hq as <-. by apply slots_handles in Hin.
      * exists q. by rewrite lookup_insert_ne.
    + intros h o w' H Ho. rewrite closes_lookup in H.
      destruct (bool_decide_reflect (h ∈ phase_handles p)) as [|Hni]; [done|].
      destruct (H3 _ _ _ H Ho) as (-> & q & Hq & Hwq). split; [done|].
      destruct (decide (w = w')) as [<-|Hne].
      * rewrite Ep in Hq. injection Hq as <-. apply (window_slot w) in Hwq.
        by apply slots_handles in Hwq.
      * exists q. by rewrite lookup_insert_ne.
    + intros w' q h [[<- <-]|[Hne H]]%lookup_insert_Some Hwq; [done|].
      rewrite closes_lookup, bool_decide_eq_false_2; [eauto|].
      eapply Hdis; [done|done|]. by apply window_slot.
  - destruct (hs_phase s !! w) as [[h1 h2|h1 h2|h1 h2 hp'|h1 h2 hp hr|h1 hp' hr'|]|] eqn:Ep; try done.
    destruct (unused s h) eqn:Eu; [|done]. apply unused_spec in Eu. by apply hinv_new.
  - destruct (hs_tab s !! h) as [[[n|w'|w'|w'|w'] i]|] eqn:E; try done.
    destruct (N.eqb w w'); [|done]. apply hinv_close; [done|].
    intros w2 p o Hp Hin. destruct (hi_slots _ I _ _ _ _ Hp Hin) as [j Hj].
    rewrite E in Hj. injection Hj as <- <-. by apply slots_file in Hin.
  - destruct (unused s h) eqn:Eu; [|done]. apply unused_spec in Eu. by apply hinv_new.
  - destruct (hs_tab s !! h) as [[[n|w'|w'|w'|w'] j]|] eqn:E; try done.
    destruct I as [H1 H2 H3 H4]. constructor; cbn [h_tab hs_tab hs_phase].
    + intros w p h' o Hp Hin. destruct (H1 _ _ _ _ Hp Hin) as [k Hk].
      destruct (decide (h = h')) as [<-|Hne].
      * rewrite E in Hk. injection Hk as <- <-. by apply slots_worker in Hin.
      * exists k. by rewrite lookup_insert_ne.
    + intros h' w k [[<- Hx]|[_ H]]%lookup_insert_Some; [done|eauto].
    + intros h' o w [[<- [= <- Hx]]|[_ H]]%lookup_insert_Some Ho; [done|eauto].
    + intros w p h' Hp Hw. pose proof (H4 _ _ _ Hp Hw). rewrite lookup_insert_ne; [done|congruence].
  - destruct (hs_tab s !! h) as [[[n|w'|w'|w'|w'] j]|] eqn:E; try done.
    apply hinv_close; [done|]. intros w2 p o Hp Hin.
    destruct (hi_slots _ I _ _ _ _ Hp Hin) as [k Hk]. rewrite E in Hk. injection Hk as <- <-.
    by apply slots_worker in Hin.
  - by apply hinv_got.
  - by apply hinv_got.
Qed.

Lemma hinv_start s : only_own s → hinv s.
Proof.
  intros (Hp & _ & _ & Ht). constructor.
  - intros w p h o H. by rewrite Hp, lookup_empty in H.
  - intros h w i H. by apply Ht in H.
  - intros h o w H Ho. apply Ht in H. cbn [hn_owner] in H. congruence.
  - intros w p h H. by rewrite Hp, lookup_empty in H.
Qed.
Lemma hinv_run es : ∀ s, hinv s → hinv (hrun s es).
Proof. induction es as [|e es IH]; intros s I; [done|]. apply IH. by apply hinv_step. Qed.

Lemma inherits_spec l t o : o ∈ inherits l t ↔
  ∃ h, t !! h = Some (mkHent o true) ∧ match l with Some l => h ∈ l | None => True end.
Proof.
  unfold inherits. rewrite elem_of_list_fmap. split.
  - intros ([h e] & -> & Hin). apply elem_of_map_to_list, map_filter_lookup_Some in Hin as [Ht [Hi Hl]].
    exists h. cbn [fst snd] in *. split.
    + destruct e as [o' i]. cbn in *. by subst i.
    + destruct l as [l|]; [|done]. by apply bool_decide_eq_true in Hl.
  - intros (h & Ht & Hl). exists (h, mkHent o true). split; [done|].
    apply elem_of_map_to_list, map_filter_lookup_Some. split; [done|]. split; [done|].
    destruct l as [l|]; [|done]. by apply bool_decide_eq_true.
Qed.

(** What a careful start gives. *)
Definition given_right (s : hstate) : Prop :=
  ∀ r os o w, (r, os) ∈ hs_got s → o ∈ os → of_worker o = Some w → r = RWorker w ∧ o = HEnd w.

Lemma got_same s e : (∀ w hp l b, e ≠ VCreate w hp l b) → (∀ n l, e ≠ VSpawn n l) →
  hs_got (hstep s e) = hs_got s.
Proof.
  intros H1 H2. destruct e as [w h1 h2|w|w hp wanted l|w hr|w|w|w h|w h|h n i|h i|h|n l|r];
    cbn [hstep]; try done.
  - destruct (hs_phase s !! w); [done|]. by destruct (_ && _).
  - by destruct (hs_phase s !! w) as [[]|].
  - by destruct (H1 w hp wanted l).
  - destruct (hs_phase s !! w) as [[]|]; try done. by destruct (unused s hr).
  - by destruct (hs_phase s !! w) as [[]|].
  - by destruct (hs_phase s !! w).
  - destruct (hs_phase s !! w) as [[]|]; try done. by destruct (unused s h).
  - destruct (hs_tab s !! h) as [[[] ?]|]; try done. by destruct (N.eqb _ _).
  - by destruct (unused s h).
  - by destruct (hs_tab s !! h) as [[[] ?]|].
  - by destruct (hs_tab s !! h) as [[[] ?]|].
  - by destruct (H2 n l).
Qed.

Lemma given_step s e : hinv s → careful_event s e → given_right s → given_right (hstep s e).
Proof.
  intros I Hc Hg.
  assert ((∃ w hp l b, e = VCreate w hp l b) ∨ (∃ n l, e = VSpawn n l) ∨
    ((∀ w hp l b, e ≠ VCreate w hp l b) ∧ (∀ n l, e ≠ VSpawn n l))) as [He|[He|[He1 He2]]].
  { destruct e; try (right; right; done); [left; eauto|right; left; eauto]. }
  - destruct He as (w & hp & l & b & ->). cbn [hstep].
    destruct (hs_phase s !! w) as [[h1 h2|h1 h2|h1 h2 hp'|h1 h2 hp' hr|h1 hp' hr|]|] eqn:Ep; try done.
    destruct (unused s hp); [|done]. intros r os o w' Hin Ho Hw.
    cbn [h_phase h_tab h_give hs_got] in Hin. apply elem_of_app in Hin as [Hin|Hin]; [eauto|].
    apply elem_of_list_singleton in Hin as [= -> ->].
    apply inherits_spec in Ho as (h & Ht & Hl).
    destruct (hi_inherit _ I _ _ _ Ht Hw) as (-> & p & Hp & Hwp). split; [|done].
    destruct b; cbn [careful_event] in Hc.
    + apply elem_of_cons in Hl as [->|Hl].
      * assert (∃ i, hs_tab s !! h2 = Some (mkHent (HEnd w) i)) as [i Hi].
        { apply (hi_slots _ I w (HMarked h1 h2) h2 _ Ep). cbn [slots]. set_solver. }
        congruence.
      * specialize (Hc _ _ Hl Ht). cbn [hn_owner] in Hc. congruence.
    + f_equal. assert (Some w = Some w') as [= ->]; [|done]. apply (Hc _ _ Hp).
      by destruct p.
  - destruct He as (n & l & ->). cbn [hstep]. intros r os o w' Hin Ho Hw.
    cbn [h_give hs_got] in Hin. apply elem_of_app in Hin as [Hin|Hin]; [eauto|].
    apply elem_of_list_singleton in Hin as [= -> ->].
    apply inherits_spec in Ho as (h & Ht & Hl).
    destruct (hi_inherit _ I _ _ _ Ht Hw) as (-> & p & Hp & Hwp). exfalso.
    destruct l as [l|]; cbn [careful_event] in Hc.
    + specialize (Hc _ _ Hl Ht). cbn [hn_owner of_worker] in Hc. congruence.
    + assert (None = Some w') as Hx; [|done]. apply (Hc _ _ Hp). by destruct p.
  - unfold given_right. by rewrite got_same.
Qed.

Lemma given_run s es : only_own s → careful s es → given_right (hrun s es).
Proof.
  intros Ho. induction es as [|e es IH] using rev_ind; intros Hc.
  - destruct Ho as (_ & Hg & _ & _). intros r os o w Hin. cbn in Hin. rewrite Hg in Hin.
    by apply elem_of_nil in Hin.
  - unfold hrun. rewrite foldl_app. cbn [foldl]. apply given_step.
    + by apply hinv_run, hinv_start.
    + by apply (Hc es e []).
    + apply IH. intros es1 e' es2 ->. apply (Hc es1 e' (es2 ++ [e])). by rewrite <- app_assoc.
Qed.

(** ** The results *)

(** Partial: true if every process is started with a list of handles, or while no (other)
    worker is being started; the worker gets its end of the pipe and nothing else that is for
    a worker. Missing: processes started otherwise (below). *)
Theorem C168_partial s es : only_own s → careful s es →
  kept_apart (hrun s es) ∧ end_noticed (hrun s es) ∧
  ∀ r os o w, (r, os) ∈ hs_got (hrun s es) → o ∈ os → of_worker o = Some w → o = HEnd w.
Proof.
  intros Ho Hc. pose proof (given_run s es Ho Hc) as Hg.
  pose proof (hinv_run es s (hinv_start _ Ho)) as I. split_and!.
  - intros r os o w H1 H2 H3. by apply (Hg r os o w).
  - intros w h1 hp hr Hp He. split.
    + intros h i Ht. destruct (hi_end _ I _ _ _ Ht) as (p & Hp' & Hin). rewrite Hp in Hp'.
      injection Hp' as <-. cbn [slots] in Hin. set_solver.
    + intros r os Hin Hos. destruct (Hg r os (HEnd w) w Hin Hos eq_refl) as [-> _]. done.
  - intros r os o w H1 H2 H3. by apply (Hg r os o w).
Qed.
Print Assumptions C168_partial.

(** Programs started after every Worker::new has returned are fine, whatever the threads of the
    library are doing: what they open is not inheritable. *)
Theorem C168_returned s es n : only_own s →
  (∀ w p, hs_phase (hrun s es) !! w = Some p → ¬ in_window p) →
  ∀ os, hs_got (hstep (hrun s es) (VSpawn n None)) = hs_got (hrun s es) ++ [(RProgram n, os)] →
  ∀ o, o ∈ os → of_worker o = None.
Proof.
  intros Ho Hn os Heq o Hin. cbn [hstep h_give hs_got] in Heq.
  apply app_inv_head in Heq. injection Heq as <-.
  apply inherits_spec in Hin as (h & Ht & _). destruct (of_worker o) as [w|] eqn:Ew; [|done].
  destruct (hi_inherit _ (hinv_run es s (hinv_start _ Ho)) _ _ _ Ht Ew) as (_ & p & Hp & Hw).
  destruct (Hn _ _ Hp). by destruct p.
Qed.
Print Assumptions C168_returned.

(** Every program started with plain inheritance while some worker is being started gets that
    worker's end of the pipe; so does a worker for which the system refused the list. *)
Theorem C168_window_refuted s es w p : only_own s →
  hs_phase (hrun s es) !! w = Some p → in_window p →
  HEnd w ∈ inherits None (hs_tab (hrun s es)).
Proof.
  intros Ho Hp Hw. pose proof (hinv_run es s (hinv_start _ Ho)) as I.
  assert (∃ h, window p = Some h) as [h Hh] by (destruct p; try done; eexists; reflexivity).
  apply inherits_spec. exists h. split; [|done]. by apply (hi_window _ I w p).
Qed.
Print Assumptions C168_window_refuted.

Definition h_start : hstate := mkHs {[8 := mkHent (HOwn 0) true]} ∅ [] [].
Lemma h_start_own : only_own h_start.
Proof.
  split_and!; [done|done|done|]. intros h e H. cbn [h_start hs_tab] in H.
  by apply lookup_singleton_Some in H as [_ <-].
Qed.

(** A worker is started; meanwhile another thread starts program 7. *)
Definition beside : list hevent :=
  [VMake 1 100 104; VMark 1; VSpawn 7 None; VCreate 1 108 [8] true; VBind 1 112; VCloseEnd 1;
   VEnd (RWorker 1)].
(** Two workers are started at once on a system that refuses handle lists. *)
Definition unlisted : list hevent :=
  [VMake 1 100 104; VMark 1; VMake 2 116 120; VMark 2; VCreate 1 108 [] false].

(** False: program 7 has the end of worker 1, can make requests in its name, and keeps the pipe
    open after the worker has ended; worker 1 of the second case has the end of worker 2. *)
Theorem C168_refuted :
  ¬ C168_full ∧
  hs_got (hrun h_start beside) =
    [(RProgram 7, [HOwn 0; HEnd 1]); (RWorker 1, [HOwn 0; HEnd 1])] ∧
  ¬ kept_apart (hrun h_start beside) ∧ ¬ end_noticed (hrun h_start beside) ∧
  ¬ kept_apart (hrun h_start unlisted).
Proof.
  assert (hs_got (hrun h_start beside) =
    [(RProgram 7, [HOwn 0; HEnd 1]); (RWorker 1, [HOwn 0; HEnd 1])]) as Hg by (by vm_compute).
  assert (¬ kept_apart (hrun h_start beside)) as Hk.
  { intros H. specialize (H (RProgram 7) [HOwn 0; HEnd 1] (HEnd 1) 1).
    assert (RProgram 7 = RWorker 1) as Hx; [|done]. apply H; [|apply elem_of_list_further, elem_of_list_here|done].
    rewrite Hg. apply elem_of_list_here. }
  split_and!; [|done|done|..].
  - intros H. by destruct (H h_start beside h_start_own).
  - intros H. destruct (H 1 100 108 112) as [_ Hx].
    + by vm_compute.
    + assert (hs_ended (hrun h_start beside) = [RWorker 1]) as -> by (by vm_compute).
      apply elem_of_list_here.
    + specialize (Hx (RProgram 7) [HOwn 0; HEnd 1]).
      assert (RProgram 7 ∈ hs_ended (hrun h_start beside)) as Hin.
      { apply Hx; [rewrite Hg; apply elem_of_list_here|apply elem_of_list_further, elem_of_list_here]. }
      assert (hs_ended (hrun h_start beside) = [RWorker 1]) as E by (by vm_compute).
      rewrite E in Hin. by apply elem_of_list_singleton in Hin.
  - intros H.
    assert (∃ os, hs_got (hrun h_start unlisted) = [(RWorker 1, os)] ∧ HEnd 2 ∈ os) as (os & Hgo & Hin).
    { exists (inherits None (hs_tab (hrun h_start
        [VMake 1 100 104; VMark 1; VMake 2 116 120; VMark 2]))). split; [by vm_compute|].
      apply (C168_window_refuted _ _ 2 (HMarked 116 120)); [apply h_start_own|by vm_compute|done]. }
    specialize (H (RWorker 1) os (HEnd 2) 2).
    assert (RWorker 1 = RWorker 2) as Hx; [|done]. apply H; [|done|done].
    rewrite Hgo. apply elem_of_list_here.
Qed.
Print Assumptions C168_refuted.

Lemma careful_nil s : careful s [].
Proof. intros es1 e es2 H. by destruct es1. Qed.
Lemma careful_cons s e es : careful_event s e → careful (hstep s e) es → careful s (e :: es).
Proof.
  intros H1 H2 es1 e' es2 H. destruct es1 as [|x es1]; cbn [app] in H.
  - by injection H as <- _.
  - injection H as <- ->. by apply (H2 es1 e' es2).
Qed.
Lemma lists_one s h n i : hs_tab s !! h = Some (mkHent (HOwn n) i) → lists_own s [h].
Proof. intros H h' e ->%elem_of_list_singleton He. rewrite H in He. by injection He as <-. Qed.

(** Two workers started at once, with lists, and a program started while they are served:
    each gets its own. *)
Definition two_workers : list hevent :=
  [VMake 1 100 104; VMark 1; VMake 2 116 120; VMark 2; VCreate 1 108 [8] true;
   VCreate 2 124 [8] true; VBind 2 128; VCloseEnd 2; VBind 1 112; VCloseEnd 1; VServe 1 104;
   VSpawn 7 None; VServed 1 104; VEnd (RWorker 1)].
Example C168_example :
  careful h_start two_workers ∧
  map fst (hs_got (hrun h_start two_workers)) = [RWorker 1; RWorker 2; RProgram 7] ∧
  map snd (hs_got (hrun h_start two_workers)) = [[HOwn 0; HEnd 1]; [HOwn 0; HEnd 2]; [HOwn 0]].
Proof.
  split; [|by vm_compute]. unfold two_workers.
  do 4 (apply careful_cons; [exact I|]).
  apply careful_cons; [apply (lists_one _ 8 0 true); by vm_compute|].
  apply careful_cons; [apply (lists_one _ 8 0 true); by vm_compute|].
  do 5 (apply careful_cons; [exact I|]).
  apply careful_cons.
  { cbn [careful_event]. set (s := hstep _ _).
    assert (map_to_list (hs_phase s) = [(1, HRunning 100 108 112); (2, HRunning 116 124 128)] ∨
            map_to_list (hs_phase s) = [(2, HRunning 116 124 128); (1, HRunning 100 108 112)]) as Hm.
    { subst s. vm_compute. tauto. }
    clearbody s. intros w p Hp Hw. apply elem_of_map_to_list in Hp.
    destruct Hm as [Hm|Hm]; rewrite Hm in Hp;
      (apply elem_of_cons in Hp as [[= -> ->]|[= -> ->]%elem_of_list_singleton]; done). }
  do 2 (apply careful_cons; [exact I|]). apply careful_nil.
Qed.
