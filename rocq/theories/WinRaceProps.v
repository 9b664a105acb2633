(** C146: no import escapes the hooks, whatever other threads load meanwhile. *)
From stdpp Require Import prelude gmap.
From Verif Require Import WinRaceModel.
Local Open Scope N_scope.

(** The process before hooking: import tables bound to whatever, nothing looked up. *)
Definition before_hooks (w : wstate) : Prop :=
  ws_export w = Original ∧ ws_place w = PExport 0 ∧ ws_found w = ∅ ∧
  (∃ i m, ws_mods w !! i = Some m ∧ wm_exports m = true) ∧
  (∀ i s a, ws_table w !! (i, s) = Some a → ∃ m, ws_mods w !! i = Some m ∧ s < wm_slots m).

Definition C146_full : Prop := ∀ w es,
  before_hooks w → ws_place (race w es) = PThrough →
  ∀ i s, ws_table (race w es) !! (i, s) ≠ Some Original.

(** Lookups are stored at once. *)
Definition at_once (e : option other) : Prop :=
  match e with Some (OFind _) | Some (OStore _ _ _) => False | _ => True end.

(** The hooking thread has been there. *)
Definition exports_done (k : nat) (p : place) : Prop :=
  match p with PExport i => (k < i)%nat | PImport i _ => (k ≤ i)%nat | PThrough => True end.
Definition entry_done (i : nat) (s : N) (p : place) : Prop :=
  match p with
  | PExport j => (i < j)%nat
  | PImport j r => (i < j)%nat ∨ (i = j ∧ s < r)
  | PThrough => True
  end.

(** What holds between any two steps when lookups are stored at once; [k] is the module that exports
    the function. *)
Record good (k : nat) (w : wstate) : Prop := {
  g_k : ∃ m, ws_mods w !! k = Some m ∧ wm_exports m = true;
  g_export : exports_done k (ws_place w) → ws_export w = Hook;
  g_values : ws_export w = Original ∨ ws_export w = Hook;
  g_slots : ∀ i s a, ws_table w !! (i, s) = Some a → ∃ m, ws_mods w !! i = Some m ∧ s < wm_slots m;
  g_entry : ∀ i s, (k ≤ i)%nat → entry_done i s (ws_place w) → ws_table w !! (i, s) ≠ Some Original;
  g_range : match ws_place w with
            | PExport i => (i ≤ length (ws_mods w))%nat
            | PImport i _ => (i < length (ws_mods w))%nat
            | PThrough => True
            end }.

Lemma good_hook k w : good k w → good k (hook_step w).
Proof.
  intros [Hk He Hv Hs Ht Hr]. unfold hook_step. destruct (ws_place w) as [i|i s|] eqn:Ep.
  - destruct (ws_mods w !! i) as [m|] eqn:Em.
    + constructor; cbn.
      * done.
      * intros Hd. destruct (wm_exports m) eqn:Ex; [done|]. apply He. cbn.
        destruct (decide (k = i)) as [->|]; [|lia]. destruct Hk as (m' & E & E'). congruence.
      * destruct (wm_exports m); [by right|done].
      * done.
      * intros j s Hj Hd. apply Ht; [done|]. cbn in *. lia.
      * by apply lookup_lt_Some in Em.
    + apply lookup_ge_None in Em. constructor; cbn; try done.
      * intros _. apply He. cbn. destruct Hk as (m & E & _). apply lookup_lt_Some in E. lia.
      * intros j s Hj _. destruct (ws_table w !! (j, s)) as [a|] eqn:E; [|done].
        rewrite <-E. apply Ht; [done|]. cbn. destruct (Hs _ _ _ E) as (m & E' & _).
        apply lookup_lt_Some in E'. lia.
  - destruct (ws_mods w !! i) as [m|] eqn:Em; [|apply lookup_ge_None in Em; lia].
    destruct (N.ltb_spec s (wm_slots m)) as [Hlt|Hge].
    + constructor; cbn.
      * done.
      * intros Hd. by apply He.
      * done.
      * intros j r a. case_bool_decide; [|by apply Hs].
        rewrite lookup_insert_Some. intros [[[= <- <-] _]|[_ E]]; [by exists m|by apply (Hs j r a)].
      * intros j r Hj Hd. case_bool_decide as E.
        -- destruct (decide ((i, s) = (j, r))) as [[= <- <-]|Hne]; [by rewrite lookup_insert|].
           rewrite lookup_insert_ne by done. apply Ht; [done|]. cbn. cbn in Hd.
           destruct Hd as [Hd|[-> Hd]]; [by left|]. right. split; [done|].
           destruct (decide (r = s)) as [->|]; [done|lia].
        -- destruct (decide ((i, s) = (j, r))) as [[= <- <-]|Hne]; [done|].
           apply Ht; [done|]. cbn. cbn in Hd.
           destruct Hd as [Hd|[-> Hd]]; [by left|]. right. split; [done|].
           destruct (decide (r = s)) as [->|]; [done|lia].
      * by apply lookup_lt_Some in Em.
    + constructor; cbn; try done.
      * intros Hd. apply He. cbn. lia.
      * intros j r Hj Hd. destruct (ws_table w !! (j, r)) as [a|] eqn:E; [|done].
        rewrite <-E. apply Ht; [done|]. cbn. destruct (decide (j = i)) as [->|]; [|left; lia].
        right. split; [done|]. destruct (Hs _ _ _ E) as (m' & E' & Hr'). assert (m' = m) by congruence.
        subst. lia.
  - by constructor; rewrite ?Ep.
Qed.

Lemma good_put k w i s : good k w → good k (put i s (ws_export w) w).
Proof.
  intros G. pose proof G as [Hk He Hv Hs Ht Hr]. unfold put. destruct (ws_mods w !! i) as [m|] eqn:Em; [|done].
  destruct (N.ltb_spec s (wm_slots m)) as [Hlt|]; [|done]. constructor; cbn; try done.
  - intros j r a. rewrite lookup_insert_Some. intros [[[= <- <-] _]|[_ E]]; [by exists m|by apply (Hs j r a)].
  - intros j r Hj Hd. destruct (decide ((i, s) = (j, r))) as [[= <- <-]|Hne].
    + rewrite lookup_insert. rewrite He; [done|].
      unfold exports_done, entry_done in *. destruct (ws_place w); lia.
    + rewrite lookup_insert_ne by done. by apply Ht.
Qed.

Lemma good_step k w e : at_once e → good k w → good k (race_step w e).
Proof.
  intros Ha G. destruct e as [o|]; [|by apply good_hook]. destruct o as [n|t|t i s|i s]; try done.
  - destruct G as [(m & Hk & Hx) He Hv Hs Ht Hr]. constructor; cbn; try done.
    + exists m. split; [|done]. by apply lookup_app_l_Some.
    + intros i s a H. destruct (Hs _ _ _ H) as (m' & E & Hlt). exists m'. split; [|done].
      by apply lookup_app_l_Some.
    + rewrite app_length. cbn. destruct (ws_place w); lia.
  - by apply good_put.
Qed.

(** When lookups are stored at once, no entry of the module that exports the function or of those
    after it in the list escapes, however many modules are loaded meanwhile; and none does later. *)
Theorem C146_partial w es es' k m :
  before_hooks w → ws_mods w !! k = Some m → wm_exports m = true →
  Forall at_once es → Forall at_once es' → ws_place (race w es) = PThrough →
  ∀ i s, (k ≤ i)%nat → ws_table (race (race w es) es') !! (i, s) ≠ Some Original.
Proof.
  intros (Hx & Hp & _ & _ & Hs) Hk Hm Ha Ha' Hd.
  assert (good k w) as G.
  { constructor; rewrite ?Hp; cbn; try done.
    - by exists m.
    - lia.
    - by left.
    - lia.
    - lia. }
  assert (∀ es w, Forall at_once es → good k w → good k (race w es)) as X.
  { clear. intros es. induction es as [|e es IH]; intros w Ha G; [done|].
    apply Forall_cons in Ha as [He Ha]. cbn. apply IH; [done|]. by apply good_step. }
  assert (∀ es w, ws_place w = PThrough → ws_place (race w es) = PThrough) as Y.
  { clear. intros es. induction es as [|e es IH]; intros w H; [done|]. cbn. apply IH.
    destruct e as [[]|]; cbn; try done; unfold put, hook_step; rewrite ?H; try done.
    - destruct (ws_found w !! thread); [|done]. destruct (ws_mods w !! i); [|done].
      by destruct (_ <? _).
    - destruct (ws_mods w !! i); [|done]. by destruct (_ <? _). }
  intros i s Hi. apply (g_entry k); [by apply X, X|done|]. rewrite Y by done. done.
Qed.
Print Assumptions C146_partial.

(** The main program comes before ntdll.dll: what is bound in it between the two is not hooked. *)
Definition race_mods : list wmod := [mkWm false 1; mkWm true 0; mkWm false 1].
Definition race_start : wstate := mkWs race_mods Original ∅ (PExport 0) ∅.
Lemma race_before : before_hooks race_start.
Proof. split_and!; [done|done|done| |done]. by exists 1%nat, (mkWm true 0). Qed.
Theorem C146_earlier_refuted :
  ∃ w es, before_hooks w ∧ Forall at_once es ∧ ws_place (race w es) = PThrough ∧
    ws_table (race w es) !! (0%nat, 0) = Some Original.
Proof.
  exists race_start, ([None; None; Some (OBind 0 0)] ++ repeat None 8). split; [apply race_before|].
  split; [by repeat constructor|]. split; by vm_compute.
Qed.
Print Assumptions C146_earlier_refuted.

(** The hooking thread alone gets through any list. *)
Lemma race_app w es es' : race w (es ++ es') = race (race w es) es'.
Proof. apply foldl_app. Qed.
Lemma hook_same w n : ws_mods (race w (repeat None n)) = ws_mods w ∧ ws_found (race w (repeat None n)) = ws_found w.
Proof.
  revert w. induction n as [|n IH]; intros w; [done|].
  change (race w (repeat None (S n))) with (race (hook_step w) (repeat None n)).
  destruct (IH (hook_step w)) as [-> ->]. unfold hook_step.
  destruct (ws_place w); [| |done]; destruct (ws_mods w !! i); try done. by destruct (_ <? _).
Qed.
Lemma slots_through k : ∀ w i s m,
  ws_place w = PImport i s → ws_mods w !! i = Some m → N.to_nat (wm_slots m - s) = k →
  ∃ n, ws_place (race w (repeat None n)) = PExport (S i).
Proof.
  induction k as [|k IH]; intros w i s m Hp Hm Hk.
  - exists 1%nat. cbn. unfold hook_step. rewrite Hp, Hm.
    destruct (N.ltb_spec s (wm_slots m)); [lia|done].
  - assert (s <? wm_slots m = true) as E by (apply N.ltb_lt; lia).
    destruct (IH (hook_step w) i (s + 1) m) as [n Hn]; [| |lia|by exists (S n)];
      unfold hook_step; by rewrite Hp, Hm, E.
Qed.
Lemma mods_through k : ∀ w i,
  ws_place w = PExport i → (length (ws_mods w) - i)%nat = k →
  ∃ n, ws_place (race w (repeat None n)) = PThrough.
Proof.
  induction k as [|k IH]; intros w i Hp Hk.
  - exists 1%nat. cbn. unfold hook_step. rewrite Hp. destruct (ws_mods w !! i) eqn:E; [|done].
    apply lookup_lt_Some in E. lia.
  - destruct (ws_mods w !! i) as [m|] eqn:E; [|apply lookup_ge_None in E; lia].
    destruct (slots_through (N.to_nat (wm_slots m - 0)) (hook_step w) i 0 m) as [n Hn];
      [unfold hook_step; by rewrite Hp, E|unfold hook_step; by rewrite Hp, E|done|].
    destruct (hook_same (hook_step w) n) as [Hm _].
    destruct (IH (race (hook_step w) (repeat None n)) (S i)) as [n' Hn'].
    + done.
    + rewrite Hm. unfold hook_step. rewrite Hp, E. cbn. lia.
    + exists (S (n + n')). cbn [repeat]. change (race w (None :: repeat None (n + n'))) with
        (race (hook_step w) (repeat None (n + n'))). by rewrite repeat_app, race_app.
Qed.

(** A thread that looks the function up before, and stores the address after the hooking thread is
    through, leaves any entry it likes unhooked. *)
Theorem C146_late_refuted w t i s m :
  before_hooks w → ws_mods w !! i = Some m → s < wm_slots m →
  ∃ n, let w' := race w (Some (OFind t) :: repeat None n) in
    ws_place w' = PThrough ∧
    ws_table (race w' [Some (OStore t i s)]) !! (i, s) = Some Original.
Proof.
  intros (Hx & Hp & _) Hm Hs. set (w0 := other_step (OFind t) w).
  destruct (mods_through (length (ws_mods w0) - 0) w0 0) as [n Hn]; [done|done|].
  exists n. change (race w (Some (OFind t) :: repeat None n)) with (race w0 (repeat None n)).
  split; [done|]. destruct (hook_same w0 n) as [E1 E2]. set (w1 := race w0 (repeat None n)) in *. clearbody w1.
  cbn. rewrite E2. cbn. rewrite lookup_insert. unfold put. rewrite E1. cbn. rewrite Hm, (proj2 (N.ltb_lt _ _) Hs). cbn. by rewrite lookup_insert, Hx.
Qed.
Print Assumptions C146_late_refuted.

Theorem C146_refuted : ¬ C146_full.
Proof.
  intros H. destruct C146_earlier_refuted as (w & es & Hb & _ & Hp & Ht). by apply (H w es Hb Hp 0%nat 0).
Qed.
Print Assumptions C146_refuted.

(** Nine steps get through three modules; a module loaded and bound on the way is hooked; a lookup
    stored too late is not. *)
Example C146_example :
  let run es := race race_start es in
  ws_place (run (repeat None 9)) = PThrough ∧
  ws_table (run ([Some (OBind 2 0); Some (OLoad 2); Some (OBind 3 1)] ++ repeat None 13)) !! (3%nat, 1) = Some Hook ∧
  ws_place (run ([Some (OBind 2 0); Some (OLoad 2); Some (OBind 3 1)] ++ repeat None 13)) = PThrough ∧
  ws_table (run ([Some (OFind 7)] ++ repeat None 9 ++ [Some (OStore 7 2 0)])) !! (2%nat, 0) = Some Original.
Proof. by vm_compute. Qed.
