(** C140: a call that the filter traps is answered by the library's handler, whatever the mask
    and the actions of signals. *)
From stdpp Require Import prelude.
From Coq Require Import Strings.Byte.
From Verif Require Import Bytes PolicyModel SeccompModel SeccompProps SigMaskModel.
Local Open Scope N_scope.

(** What a program may expect of each thing it does. *)
Definition expected (rs : list rule) (a : arch) (d : deed) : seen :=
  match deed_call d with
  | Some (name, args) => match decision rs a name args with Allow => SeenDone | Trap => SeenAnswered end
  | None => SeenDone
  end.
(** The full statement; false, see below. *)
Definition C140_full : Prop := ∀ l pid rs a blocked act before after res,
  build_rules l pid = Ok rs → lib_known l (lit "rt_sigreturn") = true →
  worker_deeds rs a blocked act before after = Some res →
  res = map (expected rs a) after.

(** A program that leaves SIGSYS alone: it never adds it to its mask, nor to that of a handler,
    and sets no action for it. *)
Definition leaves_alone (d : deed) : Prop :=
  match d with
  | DMask HowUnblock _ _ => True
  | DMask _ has _ => has = false
  | DAction _ _ => False
  | DEnter has => has = false
  | DCall _ _ | DLeave => True
  end.

(** rt_sigreturn is always allowed. *)
Lemma allowed_by_name l pid rs a name args :
  build_rules l pid = Ok rs → name ∈ SYSCALLS_ALLOWED_BY_DEFAULT → lib_known l name = true →
  decision rs a name args = Allow.
Proof.
  intros Hb Hn Hk. apply decision_allow. exists (mkRule name []).
  split; [|split; [done|intros c Hc; by apply elem_of_nil in Hc]].
  eapply build_all; [exact Hb| |exact Hk].
  apply elem_of_app. left. apply elem_of_list_In, in_map_iff. eexists. split; [done|].
  by apply elem_of_list_In.
Qed.
Lemma sigreturn_in : lit "rt_sigreturn" ∈ SYSCALLS_ALLOWED_BY_DEFAULT.
Proof. by apply (bool_decide_unpack _); vm_compute. Qed.
Lemma sigprocmask_in : lit "rt_sigprocmask" ∈ SYSCALLS_ALLOWED_BY_DEFAULT.
Proof. by apply (bool_decide_unpack _); vm_compute. Qed.
Lemma sigaction_in : lit "rt_sigaction" ∈ SYSCALLS_ALLOWED_BY_DEFAULT.
Proof. by apply (bool_decide_unpack _); vm_compute. Qed.

(** SIGSYS is blocked nowhere. *)
Definition open_mask (st : sigthread) : Prop :=
  st_blocked st = false ∧ Forall (λ b, b = false) (st_saved st).
Lemma effect_open d st : leaves_alone d → open_mask st → open_mask (effect d st) ∧
  st_action (effect d st) = st_action st.
Proof.
  intros Hd [Hb Hs]. destruct st as [b act sv]. cbn in Hb, Hs. subst b.
  destruct d as [h has args|act' args|name args|has|]; cbn in Hd |- *.
  - destruct h; cbn; try subst has; done.
  - done.
  - done.
  - subst has. split; [|done]. split; [done|]. by constructor.
  - destruct sv as [|b sv]; [done|]. apply Forall_cons_1 in Hs as [-> Hs]. done.
Qed.
Lemma effects_open ds : ∀ st, Forall leaves_alone ds → open_mask st →
  open_mask (fold_left (λ st d, effect d st) ds st) ∧
  st_action (fold_left (λ st d, effect d st) ds st) = st_action st.
Proof.
  induction ds as [|d ds IH]; intros st Hds Hst; [done|].
  apply Forall_cons_1 in Hds as [Hd Hds]. cbn [fold_left].
  destruct (effect_open d st Hd Hst) as [Ho Ha].
  destruct (IH _ Hds Ho) as [Ho' Ha']. split; [done|]. congruence.
Qed.
Lemma run_open rs a ds : decision rs a (lit "rt_sigreturn") [] = Allow → ∀ st,
  Forall leaves_alone ds → open_mask st → st_action st = ActLibrary →
  deeds_run rs a ds st = map (expected rs a) ds.
Proof.
  intros Hret. induction ds as [|d ds IH]; intros st Hds Hst Hact; [done|].
  apply Forall_cons_1 in Hds as [Hd Hds].
  destruct (effect_open d st Hd Hst) as [Ho Ha].
  assert (Ht : trapped_call rs a st = SeenAnswered).
  { unfold trapped_call. destruct Hst as [-> _]. by rewrite Hact, Hret. }
  cbn [deeds_run map]. unfold deed_step, expected at 1.
  destruct (deed_call d) as [[name args]|] eqn:Ec.
  - destruct (decision rs a name args).
    + f_equal. apply IH; [done|done|congruence].
    + rewrite Ht. f_equal. by apply IH.
  - f_equal. apply IH; [done|done|congruence].
Qed.

(** Missing from the full statement: a broker whose thread blocks SIGSYS when it starts the
    worker, and programs that touch SIGSYS. *)
Theorem C140_partial l pid rs a act before after :
  build_rules l pid = Ok rs → lib_known l (lit "rt_sigreturn") = true →
  Forall leaves_alone before → Forall leaves_alone after →
  worker_deeds rs a false act before after = Some (map (expected rs a) after).
Proof.
  intros Hb Hk Hbef Haft. unfold worker_deeds.
  assert (Hi : open_mask (inherited false act)) by (split; [done|constructor]).
  destruct (effects_open before _ Hbef Hi) as [Ho Ha].
  unfold install. set (st := fold_left _ before _) in *. clearbody st.
  assert (Hact : st_action st = ActDefault ∨ st_action st = ActIgnored).
  { rewrite Ha. destruct act; cbn; auto. }
  assert (Hrun : deeds_run rs a after (mkSt (st_blocked st) ActLibrary (st_saved st))
                 = map (expected rs a) after).
  { apply run_open; [|done|by destruct Ho|done].
    eapply allowed_by_name; [exact Hb|apply sigreturn_in|exact Hk]. }
  destruct Hact as [-> | ->]; by rewrite Hrun.
Qed.
Print Assumptions C140_partial.

(** What a program can do about the mask it was born with: unblock SIGSYS before it gives up its
    rights. *)
Theorem C140_unblocked_partial l pid rs a blocked act args after :
  build_rules l pid = Ok rs → lib_known l (lit "rt_sigreturn") = true →
  Forall leaves_alone after →
  worker_deeds rs a blocked act [DMask HowUnblock true args] after
    = Some (map (expected rs a) after).
Proof.
  intros Hb Hk Haft. unfold worker_deeds. cbn [fold_left].
  assert (He : st_blocked (effect (DMask HowUnblock true args) (inherited blocked act)) = false)
    by (by destruct blocked).
  assert (Hrun : deeds_run rs a after (mkSt false ActLibrary []) = map (expected rs a) after).
  { apply run_open; [|done|split; [done|constructor]|done].
    eapply allowed_by_name; [exact Hb|apply sigreturn_in|exact Hk]. }
  unfold install. rewrite He. by destruct act; cbn; rewrite Hrun.
Qed.
Print Assumptions C140_unblocked_partial.

(** A call of the name does not pass the filter. *)
Definition traps (rs : list rule) (a : arch) (d : deed) : Prop :=
  ∃ name args, d = DCall name args ∧ decision rs a name args = Trap.
(** A deed that changes no mask, of a call that the filter allows. *)
Definition quiet (rs : list rule) (a : arch) (d : deed) : Prop :=
  ∃ name args, d = DCall name args ∧ decision rs a name args = Allow.

Lemma blocked_run rs a mid d rest st :
  st_blocked st = true → Forall (quiet rs a) mid → traps rs a d →
  deeds_run rs a (mid ++ d :: rest) st = map (λ _, SeenDone) mid ++ [SeenKilled].
Proof.
  intros Hb Hmid (name & args & -> & Htrap).
  induction mid as [|m mid IH].
  - cbn [app deeds_run map]. unfold deed_step. cbn [deed_call]. rewrite Htrap.
    unfold trapped_call. by rewrite Hb.
  - apply Forall_cons_1 in Hmid as [(n & ag & -> & Hal) Hmid].
    cbn [app deeds_run map]. unfold deed_step. cbn [deed_call]. rewrite Hal. cbn [effect].
    f_equal. by apply IH.
Qed.

(** A worker started by a thread that blocks SIGSYS dies of the first call that is trapped: the
    broker sees neither a request nor a refusal. *)
Theorem C140_inherited_refuted rs a act mid d rest :
  Forall (quiet rs a) mid → traps rs a d →
  worker_deeds rs a true act [] (mid ++ d :: rest) = Some (map (λ _, SeenDone) mid ++ [SeenKilled]).
Proof.
  intros Hmid Hd. unfold worker_deeds. cbn [fold_left].
  destruct act; cbn [install inherited st_action st_blocked st_saved];
    (f_equal; by apply blocked_run).
Qed.
Print Assumptions C140_inherited_refuted.

(** So does a program that blocks all signals around a call, whatever it did before. The C library
    does so around the clone of a new thread and of posix_spawn. *)
Theorem C140_mask_refuted l pid rs a act before after args h mid d rest :
  build_rules l pid = Ok rs → lib_known l (lit "rt_sigreturn") = true →
  lib_known l (lit "rt_sigprocmask") = true →
  Forall leaves_alone before → Forall leaves_alone after →
  h = HowBlock ∨ h = HowSet →
  Forall (quiet rs a) mid → traps rs a d →
  worker_deeds rs a false act before (after ++ DMask h true args :: mid ++ d :: rest)
    = Some (map (expected rs a) after ++ SeenDone :: map (λ _, SeenDone) mid ++ [SeenKilled]).
Proof.
  intros Hb Hkr Hkm Hbef Haft Hh Hmid Hd.
  pose proof (allowed_by_name _ _ _ a _ args Hb sigprocmask_in Hkm) as Hm.
  pose proof (allowed_by_name _ _ _ a _ [] Hb sigreturn_in Hkr) as Hret.
  unfold worker_deeds.
  assert (Hi : open_mask (inherited false act)) by (split; [done|constructor]).
  destruct (effects_open before _ Hbef Hi) as [Ho Ha].
  set (st0 := fold_left _ before _) in *. clearbody st0.
  assert (Hin : install st0 = Some (mkSt false ActLibrary (st_saved st0))).
  { unfold install. destruct Ho as [-> _]. rewrite Ha. by destruct act. }
  rewrite Hin. f_equal.
  assert (Ho' : open_mask (mkSt false ActLibrary (st_saved st0))) by (by destruct Ho).
  assert (Hact' : st_action (mkSt false ActLibrary (st_saved st0)) = ActLibrary) by done.
  revert Ho' Hact'. generalize (mkSt false ActLibrary (st_saved st0)). clear -Hm Hret Haft Hh Hmid Hd.
  induction after as [|x after IH]; intros st Ho Hact.
  - cbn [app map deeds_run]. unfold deed_step at 1. cbn [deed_call]. rewrite Hm.
    f_equal. apply blocked_run; [|done|done].
    destruct Hh as [-> | ->]; cbn; [apply orb_true_r|done].
  - apply Forall_cons_1 in Haft as [Hx Haft].
    destruct (effect_open x st Hx Ho) as [Ho' Ha'].
    assert (Ht : trapped_call rs a st = SeenAnswered).
    { unfold trapped_call. destruct Ho as [-> _]. by rewrite Hact, Hret. }
    cbn [app deeds_run map]. unfold deed_step at 1, expected at 1.
    destruct (deed_call x) as [[name ag]|] eqn:Ec.
    + destruct (decision rs a name ag).
      * f_equal. apply IH; [done|done|congruence].
      * rewrite Ht. f_equal. by apply IH.
    + f_equal. apply IH; [done|done|congruence].
Qed.
Print Assumptions C140_mask_refuted.

(** After a handler of its own for SIGSYS, the library answers nothing any more: every trapped
    call goes to that handler, whatever masks without SIGSYS the program uses. *)
Theorem C140_replaced_refuted l pid rs a act args after :
  build_rules l pid = Ok rs → lib_known l (lit "rt_sigaction") = true →
  Forall leaves_alone after →
  ∃ res, worker_deeds rs a false act [] (DAction ActOwn args :: after) = Some (SeenDone :: res) ∧
    length res = length after ∧ SeenAnswered ∉ res ∧
    ∀ i d, after !! i = Some d → traps rs a d → res !! i = Some SeenOther.
Proof.
  intros Hb Hk Haft.
  pose proof (allowed_by_name _ _ _ a _ args Hb sigaction_in Hk) as Hm.
  exists (deeds_run rs a after (mkSt false ActOwn [])).
  split.
  { unfold worker_deeds. cbn [fold_left].
    destruct act; cbn [install inherited st_action st_blocked st_saved deeds_run];
      unfold deed_step; cbn [deed_call]; rewrite Hm; done. }
  assert (Ho : open_mask (mkSt false ActOwn [])) by (split; [done|constructor]).
  assert (Ha : st_action (mkSt false ActOwn []) = ActOwn) by done.
  revert Ho Ha. generalize (mkSt false ActOwn []). clear -Haft.
  induction after as [|x after IH]; intros st Ho Ha.
  { split; [done|]. split; [by apply not_elem_of_nil|]. intros i d Hi. by destruct i. }
  apply Forall_cons_1 in Haft as [Hx Haft].
  destruct (effect_open x st Hx Ho) as [Ho' Ha'].
  assert (Ht : trapped_call rs a st = SeenOther).
  { unfold trapped_call. destruct Ho as [-> _]. by rewrite Ha. }
  assert (Hstep : ∃ s st', deed_step rs a x st = (s, st') ∧ (s = SeenDone ∨ s = SeenOther) ∧
    (traps rs a x → s = SeenOther) ∧ open_mask st' ∧ st_action st' = ActOwn).
  { unfold deed_step. destruct (deed_call x) as [[name ag]|] eqn:Ec.
    - destruct (decision rs a name ag) eqn:Ed.
      + exists SeenDone, (effect x st). split; [done|]. split; [by left|]. split.
        { intros (n & g & -> & Htr). cbn in Ec. injection Ec as <- <-. congruence. }
        split; [done|congruence].
      + exists SeenOther, st. rewrite Ht. split; [done|]. split; [by right|]. done.
    - exists SeenDone, (effect x st). split; [done|]. split; [by left|]. split.
      { intros (n & g & -> & Htr). done. }
      split; [done|congruence]. }
  destruct Hstep as (s & st' & Es & Hs & Htr & Host & Hast).
  destruct (IH Haft st' Host Hast) as (Hl & Hn & Hi).
  assert (Hrun : deeds_run rs a (x :: after) st = s :: deeds_run rs a after st').
  { cbn [deeds_run]. rewrite Es. by destruct Hs as [-> | ->]. }
  rewrite Hrun. split; [cbn; by rewrite Hl|]. split.
  - rewrite not_elem_of_cons. split; [|done]. destruct Hs as [-> | ->]; done.
  - intros i d Hd Htd. destruct i as [|i].
    + cbn in Hd |- *. injection Hd as <-. by rewrite Htr.
    + cbn in Hd |- *. by eapply Hi.
Qed.
Print Assumptions C140_replaced_refuted.

(** A program that has a handler for SIGSYS when it gives up its rights does not get past that. *)
Theorem C140_earlier_handler rs a blocked act before args rest after :
  (∀ d, d ∈ rest → ∀ x y, d ≠ DAction x y) →
  worker_deeds rs a blocked act (before ++ DAction ActOwn args :: rest) after = None.
Proof.
  intros Hr. unfold worker_deeds. rewrite fold_left_app. cbn [fold_left].
  set (st := fold_left _ before _). clearbody st.
  assert (H : st_action (fold_left (λ st d, effect d st) rest (effect (DAction ActOwn args) st)) = ActOwn).
  { assert (H0 : st_action (effect (DAction ActOwn args) st) = ActOwn) by done.
    revert H0. generalize (effect (DAction ActOwn args) st). clear st.
    induction rest as [|d rest IH]; intros st Hst; [done|]. cbn [fold_left].
    apply IH; [intros d' Hd'; apply Hr; by right|].
    destruct d as [h has ag|act' ag|name ag|has|]; cbn; try done.
    - exfalso. eapply Hr; [by left|done].
    - by destruct (st_saved st). }
  unfold install. by rewrite H.
Qed.
Print Assumptions C140_earlier_handler.

(** The program of the example: it reads, opens a file, and then starts a thread by the C library:
    all signals blocked, then clone3. *)
Definition ex_thread : list deed :=
  [DCall (lit "read") [3; 0x1000; 16]; DCall (lit "openat") [0; 0x2000; 0; 0];
   DMask HowBlock true [0; 0x3000; 0x3080; 8]; DCall (lit "clone3") [0x4000; 88];
   DMask HowSet false [2; 0x3080; 0; 8]].

Theorem C140_refuted : ¬ C140_full.
Proof.
  intros H. unfold C140_full in H.
  specialize (H lib0 77 _ X8664 false ActDefault [] ex_thread
    [SeenDone; SeenAnswered; SeenDone; SeenKilled] (build0 77)).
  feed specialize H; [done|by vm_compute|]. vm_compute in H. discriminate.
Qed.
Print Assumptions C140_refuted.

Example C140_example :
  (** Without the mask the program goes on, and clone3 is refused. *)
  worker_deeds (rules0 77) X8664 false ActIgnored [DEnter false; DLeave]
    [DCall (lit "openat") [0; 0x2000; 0; 0]; DEnter false; DCall (lit "clone3") [0x4000; 88]; DLeave]
    = Some [SeenAnswered; SeenDone; SeenAnswered; SeenDone] ∧
  worker_deeds (rules0 77) X8664 false ActDefault [] ex_thread
    = Some [SeenDone; SeenAnswered; SeenDone; SeenKilled] ∧
  worker_deeds (rules0 77) X8664 true ActDefault [] ex_thread = Some [SeenDone; SeenKilled] ∧
  (** A handler that blocks SIGSYS while it runs: dead inside, well again after it. *)
  worker_deeds (rules0 77) X8664 false ActDefault []
    [DEnter true; DLeave; DCall (lit "openat") [0; 0; 0; 0]] = Some [SeenDone; SeenDone; SeenAnswered] ∧
  worker_deeds (rules0 77) X8664 false ActDefault []
    [DEnter true; DCall (lit "openat") [0; 0; 0; 0]; DLeave] = Some [SeenDone; SeenKilled] ∧
  worker_deeds (rules0 77) X8664 false ActDefault []
    [DAction ActOwn [31; 1; 2; 8]; DCall (lit "openat") [0; 0; 0; 0]] = Some [SeenDone; SeenOther] ∧
  worker_deeds (rules0 77) X8664 false ActDefault [DAction ActOwn [31; 1; 2; 8]] [] = None ∧
  worker_deeds (rules0 77) X8664 true ActDefault [DMask HowUnblock true []]
    [DCall (lit "openat") [0; 0; 0; 0]] = Some [SeenAnswered].
Proof. split_and!; by vm_compute. Qed.
