(** Properties of starting a worker on Windows: C109 to C113. *)
From stdpp Require Import prelude gmap.
From Coq Require Import Strings.Byte.
From Verif Require Import Bytes PolicyModel FdModel EntryModel ProcessModel WinProcessModel
  WinProcessSpec WinProcessProofs WinProcessProps WinStartModel.
Local Open Scope N_scope.

(* ---------------------------------------------------------------- C109 *)

(** The two ends are those of one connection. *)
Definition joined (e : pipe_end) : Prop :=
  match e with
  | PipeMade l i => i = 0%nat ∧ l !! 0%nat = Some (mkInst Broker (Some Broker))
  | PipeFailed => True
  | PipeWaits => False
  end.
Definition C109_full : Prop :=
  ∀ before between waiting i, joined (win_pipe MAX_INSTANCES before between waiting i).

Lemma act_keeps max l a i o w :
  l !! i = Some (mkInst o (Some w)) → other_act max l a !! i = Some (mkInst o (Some w)).
Proof.
  intros H. destruct a as [|j]; cbn.
  - destruct (decide _); [|done]. by apply lookup_app_l_Some.
  - unfold take_instance. destruct (l !! j) as [[o' [w'|]]|] eqn:E; cbn; [done| |done].
    rewrite list_lookup_insert_ne; [done|]. intros ->. congruence.
Qed.
Lemma acts_keep max acts : ∀ l i o w,
  l !! i = Some (mkInst o (Some w)) → foldl (other_act max) l acts !! i = Some (mkInst o (Some w)).
Proof. induction acts as [|a acts IH]; intros l i o w H; [done|]. cbn. by apply IH, act_keeps. Qed.
Lemma act_one max l a x :
  l = [x] → (a ≠ OtherServes ∨ max = 1%nat) →
  ∃ c, other_act max l a = [mkInst (in_server x) c].
Proof.
  intros -> H. destruct x as [o c]. destruct a as [|j]; cbn.
  - destruct H as [H| ->]; [done|]. rewrite decide_False by (cbn; lia). by exists c.
  - unfold take_instance. destruct ([mkInst o c] !! j) as [[o' [w|]]|] eqn:E; cbn; [by exists c| |by exists c].
    apply list_lookup_singleton_Some in E as [-> [= -> ->]]. cbn. by eexists.
Qed.
Lemma acts_one max acts : ∀ c,
  (OtherServes ∉ acts ∨ max = 1%nat) →
  ∃ c', foldl (other_act max) [mkInst Broker c] acts = [mkInst Broker c'].
Proof.
  induction acts as [|a acts IH]; intros c H; [by exists c|]. cbn [foldl].
  destruct (act_one max [mkInst Broker c] a _ eq_refl) as [c' ->].
  { destruct H as [H|H]; [left|by right]. intros ->. apply H. left. }
  apply IH. destruct H as [H|H]; [left|by right]. intros Hx. apply H. by right.
Qed.
Lemma pipe_joined max before between waiting i :
  (OtherServes ∉ before ∨ max = 1%nat) → joined (win_pipe max before between waiting i).
Proof.
  intros H. unfold win_pipe. destruct (acts_one max before None H) as [c ->].
  unfold take_instance. destruct ([mkInst Broker c] !! i) as [[o [w|]]|] eqn:E; [done| |done].
  apply list_lookup_singleton_Some in E as [-> [= <- ->]].
  rewrite (acts_keep _ _ _ 0%nat Broker Broker) by done. split; [done|]. by apply acts_keep.
Qed.

(** If no other process serves the name before the broker has connected, the two ends are joined,
    whatever others do otherwise. *)
Theorem C109_partial before between waiting i :
  OtherServes ∉ before → joined (win_pipe MAX_INSTANCES before between waiting i).
Proof. intros H. apply pipe_joined. by left. Qed.
Print Assumptions C109_partial.
(** With one instance, in place of two, they would always be. *)
Theorem C109_one_instance before between waiting i : joined (win_pipe 1 before between waiting i).
Proof. apply pipe_joined. by right. Qed.
Print Assumptions C109_one_instance.
(** Another process can get between the broker and the worker, or make the broker wait. *)
Theorem C109_refuted :
  win_pipe MAX_INSTANCES [OtherServes; OtherConnects 0] [] [] 1 =
    PipeMade [mkInst Broker (Some Other); mkInst Other (Some Broker)] 1 ∧
  win_pipe MAX_INSTANCES [OtherServes] [] [] 1 = PipeWaits ∧
  ¬ C109_full.
Proof.
  split; [vm_compute; reflexivity|]. split; [vm_compute; reflexivity|].
  intros H. by destruct (H [OtherServes] [] [] 1%nat).
Qed.
Print Assumptions C109_refuted.
Example C109_example :
  win_pipe MAX_INSTANCES [OtherConnects 3] [OtherServes; OtherConnects 0; OtherConnects 1] [] 0 =
    PipeMade [mkInst Broker (Some Broker); mkInst Other (Some Other)] 0 ∧
  win_pipe MAX_INSTANCES [OtherConnects 0] [] [] 0 = PipeFailed.
Proof. split; vm_compute; reflexivity. Qed.

(* ---------------------------------------------------------------- how process creation ends *)

Definition no_success (e : pevent) : Prop := match e with PCreate _ (Some _) => False | _ => True end.
(** At most one process is created, and then it is the last thing but for asking its id. *)
Definition pass_end (s : pstate) (r : attempt_result) (s' : pstate) : Prop :=
  ∃ es, Forall no_success es ∧
  match r with
  | Again _ => ps_trace s' = ps_trace s ++ es
  | Done (Ok w) => wp_pid w ≠ 0 ∧ ∃ c, ps_trace s' = ps_trace s ++ es ++ [PCreate c (Some (wp_handle w)); PPid (wp_pid w)]
  | Done (Err e) => ps_trace s' = ps_trace s ++ es ∨
      ∃ c h, ps_trace s' = ps_trace s ++ es ++ [PCreate c (Some h); PPid 0]
  end.
Lemma pass_end_cons s e s1 r s' :
  no_success e → s1 = plog s e ∨ s1 = mkPst (ps_trace s ++ [e]) (ps_next s1) →
  pass_end s1 r s' → pass_end s r s'.
Proof.
  intros He Hs (es & Hes & H).
  assert (ps_trace s1 = ps_trace s ++ [e]) as Ht by (by destruct Hs as [->| ->]).
  exists (e :: es). split; [by constructor|]. rewrite Ht in H.
  destruct r as [o|[w|er]].
  - by rewrite H, <-app_assoc.
  - destruct H as (Hp & c & H). split; [done|]. exists c. by rewrite H, <-app_assoc.
  - destruct H as [H|(c & h & H)]; [left|right; exists c, h]; by rewrite H, <-app_assoc.
Qed.
Lemma pass_end_same s s1 r s' : ps_trace s1 = ps_trace s → pass_end s1 r s' → pass_end s r s'.
Proof. unfold pass_end. by intros ->. Qed.
Lemma pass_end_again s o s' : ps_trace s' = ps_trace s → pass_end s (Again o) s'.
Proof. intros H. exists []. split; [constructor|]. by rewrite H, app_nil_r. Qed.
Lemma try_create_end env inp o slots name attrs s r s' :
  try_create env inp o slots name attrs s = (r, s') → pass_end s r s'.
Proof.
  unfold try_create. set (c := mkCp _ _ _ _ _ _). destruct (pe_create env (ps_trace s) c) as [h|].
  - destruct (N.eqb_spec (pe_pid env (ps_trace (plog s (PCreate c (Some h))))) 0) as [E|E];
      intros [= <- <-]; exists []; (split; [constructor|]); cbn.
    + right. exists c, h. cbn in E. by rewrite E, <-app_assoc.
    + split; [exact E|]. exists c. by rewrite <-app_assoc.
  - destruct (po_mitigations o); intros [= <- <-]; exists [PCreate c None];
      (split; [by repeat constructor|]); [done|by left].
Qed.
Lemma do_set_end env a s ok s1 r s' :
  do_set env a s = (ok, s1) → pass_end s1 r s' → pass_end s r s'.
Proof. unfold do_set. intros [= <- <-] H. eapply pass_end_cons; [|by left|exact H]. done. Qed.
Lemma try_mitigations_end env inp o slots name attrs s r s' :
  try_mitigations env inp o slots name attrs s = (r, s') → pass_end s r s'.
Proof.
  unfold try_mitigations. destruct (po_mitigations o); [|apply try_create_end].
  destruct (do_set _ _ _) as [ok s1] eqn:E. intros H. eapply do_set_end; [exact E|].
  destruct ok; [by eapply try_create_end|]. injection H as <- <-. by apply pass_end_again.
Qed.
Lemma try_child_end env inp o slots name attrs s r s' :
  try_child env inp o slots name attrs s = (r, s') → pass_end s r s'.
Proof.
  unfold try_child. destruct (po_child o); [|apply try_mitigations_end].
  destruct (do_set _ _ _) as [ok s1] eqn:E. intros H. eapply do_set_end; [exact E|].
  destruct ok; [by eapply try_mitigations_end|]. injection H as <- <-. by apply pass_end_again.
Qed.
Lemma try_handles_end env inp o slots name attrs s r s' :
  try_handles env inp o slots name attrs s = (r, s') → pass_end s r s'.
Proof.
  unfold try_handles. destruct (po_handles o); [|apply try_child_end].
  destruct (do_set _ _ _) as [ok s1] eqn:E. intros H. eapply do_set_end; [exact E|].
  destruct ok; [by eapply try_child_end|]. injection H as <- <-. by apply pass_end_again.
Qed.
Lemma try_less_end env inp o slots name attrs s r s' :
  try_less env inp o slots name attrs s = (r, s') → pass_end s r s'.
Proof.
  unfold try_less. destruct (po_less o); [|apply try_handles_end].
  destruct (do_set _ _ _) as [ok s1] eqn:E. intros H. eapply do_set_end; [exact E|].
  destruct ok; [by eapply try_handles_end|]. injection H as <- <-. by apply pass_end_again.
Qed.
Lemma create_profile_end env name s hr s1 r s' :
  create_profile env name s = (hr, s1) → pass_end s1 r s' → pass_end s r s'.
Proof.
  unfold create_profile. destruct (_ =? ALREADY_EXISTS)%Z; intros [= <- <-] H.
  - eapply pass_end_cons; [|by left|eapply pass_end_cons; [|by left|eapply pass_end_cons; [|by left|exact H]]]; done.
  - eapply pass_end_cons; [|by left|exact H]. done.
Qed.
Lemma attempt_end env inp o s r s' : attempt env inp o s = (r, s') → pass_end s r s'.
Proof.
  unfold attempt. set (o' := if po_container o then o else no_less o).
  destruct (pe_list env (ps_trace s) (count_opts o')); cbn [negb]; intros H.
  2:{ injection H as <- <-. exists [PList (count_opts o')]. split; [by repeat constructor|]. by left. }
  eapply (pass_end_cons _ (PList (count_opts o'))); [done|by left|].
  destruct (po_container o'); [|by eapply try_handles_end].
  destruct (pe_appcontainers env); [|injection H as <- <-; by apply pass_end_again].
  eapply (pass_end_same _ (mkPst (ps_trace (plog s (PList (count_opts o'))))
    (ps_next (plog s (PList (count_opts o'))) + 1))); [done|].
  destruct (create_profile _ _ _) as [hr s1] eqn:E. eapply create_profile_end; [exact E|].
  destruct (negb (hr =? 0)%Z); [injection H as <- <-; by apply pass_end_again|].
  destruct (do_set _ _ _) as [ok s2] eqn:E2. eapply do_set_end; [exact E2|].
  destruct ok; [by eapply try_less_end|]. injection H as <- <-. by apply pass_end_again.
Qed.
Lemma loop_end fuel env inp : ∀ o s r s',
  create_loop fuel env inp o s = Some (r, s') → pass_end s (Done r) s'.
Proof.
  induction fuel as [|fuel IH]; intros o s r s' H; [done|]. cbn [create_loop] in H.
  destruct (attempt env inp o s) as [ar s1] eqn:E. apply attempt_end in E.
  destruct ar as [o'|r'].
  - apply IH in H as (es2 & Hes2 & H). destruct E as (es & Hes & E). rewrite E in H.
    exists (es ++ es2). split; [by apply Forall_app|].
    destruct r as [w|er].
    + destruct H as (Hp & c & H). split; [done|]. exists c. by rewrite H, <-!app_assoc.
    + destruct H as [H|(c & h & H)]; [left|right; exists c, h]; by rewrite H, <-!app_assoc.
  - by injection H as <- <-.
Qed.
Lemma created_none es : Forall no_success es → created es = None.
Proof. induction 1 as [|e es He _ IH]; [done|]. by destruct e as [| | | |? [?|]|]. Qed.
Lemma created_app es e : Forall no_success es → created (es ++ e) = created e.
Proof. induction 1 as [|x es He _ IH]; [done|]. by destruct x as [| | | |? [?|]|]. Qed.

(** What a start leaves. *)
Lemma start_cases fuel env c handles s r s' :
  start_process fuel env c handles s = Some (r, s') →
  ∃ r0 ev, win_process_new fuel (se_process env) (se_sys env) (se_windir env) c handles
             (mkPst [] (ps_next (ss_events s))) = Some (r0, ev) ∧
  ss_events s' = mkPst (ps_trace (ss_events s) ++ ps_trace ev) (ps_next ev) ∧
  ss_threads s' = ss_threads s ∧
  ((∃ e, r = Err e ∧ created (ps_trace ev) = None ∧ ss_tab s' = ss_tab s ∧
     ss_running s' = ss_running s ∧ ss_given s' = ss_given s) ∨
   (∃ a p hp, created (ps_trace ev) = Some (a, p) ∧ PCreate a (Some p) ∈ ps_trace ev ∧
     hp = se_pick env (dom (ss_tab s)) ∧ ss_tab s' = <[hp := mkHe (OProcess p) false]> (ss_tab s) ∧
     ss_running s' = ss_running s ++ [p] ∧
     ss_given s' = ss_given s ++ [(p, a, given_handles a (ss_tab s))] ∧
     ((∃ w, r = Ok w ∧ wp_handle w = hp ∧ wp_pid w ≠ 0 ∧ PPid (wp_pid w) ∈ ps_trace ev ∧
         r0 = Ok (mkWp (wp_pid w) p (wp_container w))) ∨
      (∃ e, r = Err e ∧ PPid 0 ∈ ps_trace ev)))).
Proof.
  unfold start_process. destruct (win_process_new _ _ _ _ _ _ _) as [[r0 ev]|] eqn:E; [|done].
  intros H. exists r0, ev. split; [done|].
  assert (pass_end (mkPst [] (ps_next (ss_events s))) (Done r0) ev) as (es & Hes & He).
  { destruct (process_new_cases _ _ _ _ _ _ _ _ _ E) as [(-> & e & ->)|(dir & _ & Hl)].
    - exists []. split; [constructor|]. by left.
    - by eapply loop_end. }
  cbn [ps_trace app] in He. destruct r0 as [w|e].
  - destruct He as (Hp & c0 & He). rewrite He in H. rewrite created_app in H by done.
    cbn [created] in H. unfold new_handle in H. injection H as <- <-. cbn. split; [by rewrite He|]. split; [done|].
    right. exists c0, (wp_handle w), (se_pick env (dom (ss_tab s))).
    rewrite He, created_app by done. split; [done|]. split; [set_solver|].
    split_and!; [done..|]. left. eexists. split; [done|]. cbn. split_and!; [done|done|set_solver|].
    by destruct w.
  - destruct He as [He|(c0 & h & He)]; rewrite He in H.
    + rewrite created_none in H by done. injection H as <- <-. cbn. split; [by rewrite He|]. split; [done|].
      left. exists e. rewrite He, created_none by done. done.
    + rewrite created_app in H by done. cbn [created] in H. unfold new_handle in H.
      injection H as <- <-. cbn. split; [by rewrite He|]. split; [done|].
      right. exists c0, h, (se_pick env (dom (ss_tab s))).
      rewrite He, created_app by done. split; [done|]. split; [set_solver|].
      split_and!; [done..|]. right. exists e. split; [done|set_solver].
Qed.

(* ---------------------------------------------------------------- all ways Worker::new ends *)

(** New handles get values that are not in use. *)
Definition senv_ok (env : senv) : Prop := ∀ X, se_pick env X ∉ X.

(** The table while a process is created: both ends of the channel are open. *)
Definition start_tab (h1 h2 : N) (t : gmap N hentry) : gmap N hentry :=
  <[h2 := mkHe OClient true]> (<[h1 := mkHe OServer false]> t).

Lemma fresh_none env (t : gmap N hentry) : senv_ok env → t !! se_pick env (dom t) = None.
Proof. intros H. apply not_elem_of_dom, H. Qed.
Lemma undo1 (t : gmap N hentry) h e : t !! h = None → delete h (<[h := e]> t) = t.
Proof. apply delete_insert. Qed.
Lemma undo2 (t : gmap N hentry) h1 h2 e1 e2 :
  t !! h1 = None → (<[h1 := e1]> t) !! h2 = None →
  delete h1 (delete h2 (<[h2 := e2]> (<[h1 := e1]> t))) = t.
Proof. intros H1 H2. by rewrite (delete_insert _ h2), delete_insert. Qed.
Lemma undo_below (t : gmap N hentry) h h' e e' :
  h ≠ h' → delete h (<[h' := e']> (<[h := e]> t)) = <[h' := e']> (delete h (<[h := e]> t)).
Proof. intros H. by rewrite delete_insert_ne. Qed.

Lemma channel_cases fuel env s r s' :
  senv_ok env → win_channel_new fuel env s = Some (r, s') →
  (∃ e, r = Err e ∧ s' = s) ∨
  (∃ h1 h2, r = Ok (h1, h2) ∧ ss_tab s !! h1 = None ∧ ss_tab s !! h2 = None ∧ h1 ≠ h2 ∧
     s' = with_tab s (<[h2 := mkHe OClient false]> (<[h1 := mkHe OServer false]> (ss_tab s)))).
Proof.
  intros Hp. unfold win_channel_new. destruct (find_pipe _ _ _ _) as [[id|e]|]; [|intros [= <- <-]; left; eauto|done].
  unfold new_handle. cbn [ss_tab with_tab].
  set (h1 := se_pick env (dom (ss_tab s))).
  set (h2 := se_pick env (dom (<[h1 := mkHe OServer false]> (ss_tab s)))).
  assert (ss_tab s !! h1 = None) as H1 by by apply fresh_none.
  assert ((<[h1 := mkHe OServer false]> (ss_tab s)) !! h2 = None) as H2 by by apply fresh_none.
  assert (∀ t, with_tab s t = s ↔ t = ss_tab s) as Hs.
  { intros t. destruct s. unfold with_tab. cbn. split; [by intros [= ->]|by intros ->]. }
  destruct (se_client env); cbn [negb].
  2:{ intros [= <- <-]. left. eexists. split; [done|]. apply Hs. by apply delete_insert. }
  destruct (se_connect env); cbn [negb].
  2:{ intros [= <- <-]. left. eexists. split; [done|]. apply Hs. by apply undo2. }
  destruct (se_mode env); cbn [negb].
  2:{ intros [= <- <-]. left. eexists. split; [done|]. apply Hs. by apply undo2. }
  intros [= <- <-]. right. exists h1, h2. apply lookup_insert_None in H2 as [H2 Hne]. done.
Qed.

Record new_ok (env : senv) (s s' : sstate) (p : policy) (w : win_process) (h1 h2 P : N) : Prop := mkNo {
  no_free : ss_tab s !! wp_handle w = None;
  no_ne1 : wp_handle w ≠ h1;
  no_ne2 : wp_handle w ≠ h2;
  no_rest : ∃ hr q, ss_tab s !! hr = None ∧ hr ≠ h1 ∧ hr ≠ h2 ∧ hr ≠ wp_handle w ∧
    se_open env (<[wp_handle w := mkHe (OProcess P) false]> (start_tab h1 h2 (ss_tab s))) (wp_pid w) = Some q ∧
    ss_tab s' = <[hr := mkHe (OProcess q) false]> (<[wp_handle w := mkHe (OProcess P) false]>
                  (<[h1 := mkHe OServer false]> (ss_tab s))) ∧
    ss_threads s' = ss_threads s ++ [mkBth h1 (Some hr) (get_runtime_policy p)] }.

Lemma worker_cases fuel env c p s r s' :
  senv_ok env → win_worker_new fuel env c p s = Some (r, s') →
  (∃ e es, r = Err e ∧ ss_tab s' = ss_tab s ∧ ss_running s' = ss_running s ∧
     ss_given s' = ss_given s ∧ ss_threads s' = ss_threads s ∧
     ps_trace (ss_events s') = ps_trace (ss_events s) ++ es ∧ created es = None) ∨
  (∃ h1 h2 c' handles r0 ev a P es,
     ss_tab s !! h1 = None ∧ ss_tab s !! h2 = None ∧ h1 ≠ h2 ∧
     win_worker_config (λ h, match start_tab h1 h2 (ss_tab s) !! h with Some e => he_inherit e | None => false end)
       h2 c (elements (inherit_handles p)) = Ok (c', handles) ∧
     win_process_new fuel (se_process env) (se_sys env) (se_windir env) c' handles
       (mkPst [] (ps_next (ss_events s))) = Some (r0, ev) ∧
     created (ps_trace ev) = Some (a, P) ∧ PCreate a (Some P) ∈ ps_trace ev ∧
     ss_running s' = ss_running s ++ [P] ∧
     ss_given s' = ss_given s ++ [(P, a, given_handles a (start_tab h1 h2 (ss_tab s)))] ∧
     ps_trace (ss_events s') = ps_trace (ss_events s) ++ ps_trace ev ++ es ∧
     ((∃ e hp, r = Err e ∧ PPid 0 ∈ ps_trace ev ∧ ss_tab s !! hp = None ∧
         ss_tab s' = <[hp := mkHe (OProcess P) false]> (ss_tab s) ∧ ss_threads s' = ss_threads s) ∨
      (∃ e w0, r = Err e ∧ r0 = Ok w0 ∧ ss_tab s' = ss_tab s ∧ ss_threads s' = ss_threads s ∧
         ((∃ t, se_open env t (wp_pid w0) = None) ∨ se_thread env = false)) ∨
      (∃ w, r = Ok w ∧ r0 = Ok (mkWp (wp_pid w) P (wp_container w)) ∧ es = [] ∧
         PPid (wp_pid w) ∈ ps_trace ev ∧ new_ok env s s' p w h1 h2 P))).
Proof.
  intros Hp. unfold win_worker_new.
  destruct (win_channel_new fuel env s) as [[rc s1]|] eqn:Ec; [|done].
  destruct (channel_cases _ _ _ _ _ Hp Ec) as [(e & -> & ->)|(h1 & h2 & -> & F1 & F2 & Hne & ->)].
  { intros [= <- <-]. left. exists e, []. rewrite app_nil_r. done. }
  clear Ec.
  assert ((<[h1 := mkHe OServer false]> (ss_tab s)) !! h2 = None) as F2' by (by rewrite lookup_insert_ne).
  destruct (se_inherit env); cbn [negb].
  2:{ intros [= <- <-]. left. eexists _, []. cbn. rewrite app_nil_r. split_and!; [done| |done..].
      by apply undo2. }
  assert (set_inherit h2 (with_tab s (<[h2 := mkHe OClient false]> (<[h1 := mkHe OServer false]> (ss_tab s)))) =
          with_tab s (start_tab h1 h2 (ss_tab s))) as ->.
  { unfold set_inherit, with_tab, start_tab. cbn. f_equal. by rewrite alter_insert. }
  set (t := start_tab h1 h2 (ss_tab s)).
  assert (delete h1 (delete h2 t) = ss_tab s) as Hundo by (by apply undo2).
  change (inheritable (with_tab s t)) with (λ h, match t !! h with Some e => he_inherit e | None => false end).
  destruct (win_worker_config _ _ _ _) as [[c' handles]|e] eqn:Ecfg.
  2:{ intros [= <- <-]. left. eexists _, []. cbn. rewrite app_nil_r. split_and!; [done|exact Hundo|done..]. }
  destruct (start_process fuel env c' handles (with_tab s t)) as [[rp s2]|] eqn:Es; [|done].
  destruct (start_cases _ _ _ _ _ _ _ Es) as (r0 & ev & Enew & Eev & Eth & Hc). cbn [with_tab ss_tab ss_events ss_running ss_given ss_threads] in *.
  destruct Hc as [(e & -> & Hnone & T & R & G)|(a & P & hp & Hcr & Hin & Ehp & T & R & G & Hc)].
  { intros [= <- <-]. left. exists e, (ps_trace ev). cbn. rewrite T, R, G, Eth, Eev. done. }
  assert (t !! hp = None) as Fhp by (subst hp; by apply fresh_none).
  assert (ss_tab s !! hp = None ∧ hp ≠ h1 ∧ hp ≠ h2) as (Fp & Np1 & Np2).
  { unfold t, start_tab in Fhp. apply lookup_insert_None in Fhp as [Fhp ?].
    apply lookup_insert_None in Fhp as [? ?]. done. }
  assert (∀ e, delete h1 (delete h2 (<[hp := e]> t)) = <[hp := e]> (ss_tab s)) as Hundo2.
  { intros e. by rewrite !delete_insert_ne, Hundo. }
  destruct Hc as [(w & -> & Ew & Hpid & Hpi & ->)|(e & -> & Hpi)].
  2:{ intros [= <- <-]. right. exists h1, h2, c', handles, r0, ev, a, P, [].
      split_and!; [done..| | | |]; cbn; [by rewrite R|by rewrite G|by rewrite Eev, app_nil_r|].
      left. exists e, hp. split_and!; [done|done|done| |by rewrite Eth]. by rewrite T. }
  cbv zeta. clear Ehp. subst hp.
  destruct (se_open env (ss_tab s2) (wp_pid w)) as [q|] eqn:Eo.
  2:{ intros [= <- <-]. right.
      exists h1, h2, c', handles, (Ok (mkWp (wp_pid w) P (wp_container w))), ev, a, P,
        (ps_trace (drop_process (se_process env) w (mkPst [] 0))).
      split_and!; [done..| | | |]; cbn; [by rewrite R|by rewrite G| |].
      - unfold drop_process. rewrite Eev. destruct (wp_container w); [destruct (pe_appcontainers _)|];
          cbn; by rewrite <-?app_assoc, ?app_nil_r.
      - right. left. eexists _, _. split_and!; [done|done| |by rewrite Eth|left; by eexists]. rewrite T.
        rewrite (delete_insert t) by done. exact Hundo. }
  unfold new_handle. cbn [with_tab ss_tab close_handle].
  set (hr := se_pick env (dom (ss_tab s2))).
  assert (ss_tab s2 !! hr = None) as Fr by by apply fresh_none.
  rewrite T in Fr. apply lookup_insert_None in Fr as [Fr Nrp].
  unfold t, start_tab in Fr. apply lookup_insert_None in Fr as [Fr Nr2].
  apply lookup_insert_None in Fr as [Fr Nr1].
  assert (delete h2 (<[hr := mkHe (OProcess q) false]> (ss_tab s2)) =
          <[hr := mkHe (OProcess q) false]> (<[wp_handle w := mkHe (OProcess P) false]>
            (<[h1 := mkHe OServer false]> (ss_tab s)))) as Htab.
  { rewrite T. rewrite delete_insert_ne by done. f_equal. rewrite delete_insert_ne by done. f_equal.
    unfold t, start_tab. by apply delete_insert. }
  destruct (se_thread env); cbn [negb].
  2:{ intros [= <- <-]. right.
      exists h1, h2, c', handles, (Ok (mkWp (wp_pid w) P (wp_container w))), ev, a, P,
        (ps_trace (drop_process (se_process env) w (mkPst [] 0))).
      split_and!; [done..| | | |]; cbn; [by rewrite R|by rewrite G| |].
      - unfold drop_process. rewrite Eev. destruct (wp_container w); [destruct (pe_appcontainers _)|];
          cbn; by rewrite <-?app_assoc, ?app_nil_r.
      - right. left. eexists _, _. split_and!; [done|done| |by rewrite Eth|by right].
        rewrite Htab. rewrite (delete_insert_ne _ h1) by done. rewrite (delete_insert_ne _ h1) by done.
        rewrite (delete_insert (ss_tab s)) by done.
        rewrite (delete_insert (<[_ := _]> (ss_tab s))) by (by rewrite lookup_insert_ne).
        by apply delete_insert. }
  intros [= <- <-]. right. exists h1, h2, c', handles, (Ok (mkWp (wp_pid w) P (wp_container w))), ev, a, P, [].
  split_and!; [done..| | | |]; cbn; [by rewrite R|by rewrite G|by rewrite Eev, app_nil_r|].
  right. right. exists w. split_and!; [done|done|done|done|].
  constructor; [done|done|done|]. exists hr, q. cbn. split_and!; [done|done|done|done| |exact Htab|by rewrite Eth].
  by rewrite <- Eo, T.
Qed.

(* ---------------------------------------------------------------- C110 *)

(** After a worker was made the broker has three handles more: its end of the pipe and two to the
    process; after an error it has those it had. *)
Definition C110_full : Prop :=
  ∀ fuel env c p s r s', senv_ok env → win_worker_new fuel env c p s = Some (r, s') →
  match r with
  | Ok w => ∃ h1 hr P q, NoDup [h1; wp_handle w; hr] ∧
      (∀ h, h ∈ [h1; wp_handle w; hr] → ss_tab s !! h = None) ∧
      ss_tab s' = <[hr := mkHe (OProcess q) false]> (<[wp_handle w := mkHe (OProcess P) false]>
                    (<[h1 := mkHe OServer false]> (ss_tab s)))
  | Err _ => ss_tab s' = ss_tab s
  end.
Lemma made_three env s s' p w h1 h2 P :
  ss_tab s !! h1 = None → new_ok env s s' p w h1 h2 P →
  ∃ hr q, NoDup [h1; wp_handle w; hr] ∧
    (∀ h, h ∈ [h1; wp_handle w; hr] → ss_tab s !! h = None) ∧
    ss_tab s' = <[hr := mkHe (OProcess q) false]> (<[wp_handle w := mkHe (OProcess P) false]>
                  (<[h1 := mkHe OServer false]> (ss_tab s))).
Proof.
  intros F1 [F N1 _ (hr & q & Fr & R1 & _ & R2 & _ & -> & _)]. exists hr, q. split_and!; [|..|done].
  - repeat constructor; rewrite ?elem_of_cons, ?elem_of_nil; intuition congruence.
  - intros h. rewrite !elem_of_cons, elem_of_nil. by intros [-> | [-> | [-> | []]]].
Qed.
Theorem C110_partial fuel env c p s r s' :
  senv_ok env → win_worker_new fuel env c p s = Some (r, s') → PPid 0 ∉ ps_trace (ss_events s') →
  match r with
  | Ok w => ∃ h1 hr P q, NoDup [h1; wp_handle w; hr] ∧
      (∀ h, h ∈ [h1; wp_handle w; hr] → ss_tab s !! h = None) ∧
      ss_tab s' = <[hr := mkHe (OProcess q) false]> (<[wp_handle w := mkHe (OProcess P) false]>
                    (<[h1 := mkHe OServer false]> (ss_tab s)))
  | Err _ => ss_tab s' = ss_tab s
  end.
Proof.
  intros Hp E H0.
  destruct (worker_cases _ _ _ _ _ _ _ Hp E) as
    [(e & es & -> & -> & _)|(h1 & h2 & c' & hs & r0 & ev & a & P & es & F1 & F2 & N & _ & _ & _ & _ & _ & _ & T & Hc)]; [done|].
  destruct Hc as [(e & hp & _ & Hi & _)|[(e & w0 & -> & _ & -> & _)|(w & -> & _ & _ & _ & Hn)]]; [|done|].
  - exfalso. apply H0. rewrite T, !elem_of_app. auto.
  - destruct (made_three _ _ _ _ _ _ _ _ F1 Hn) as (hr & q & H). by exists h1, hr, P, q.
Qed.
Print Assumptions C110_partial.
(** Whatever happens the broker keeps the handles it had, gets at most three others, and no new one
    is inheritable: processes created later do not get any of them. *)
Theorem C110_kept fuel env c p s r s' :
  senv_ok env → win_worker_new fuel env c p s = Some (r, s') →
  ss_tab s ⊆ ss_tab s' ∧
  (∀ h e, ss_tab s' !! h = Some e → he_inherit e = true → ss_tab s !! h = Some e) ∧
  (size (ss_tab s') ≤ size (ss_tab s) + match r with Ok _ => 3 | Err _ => 1 end)%nat.
Proof.
  intros Hp E.
  destruct (worker_cases _ _ _ _ _ _ _ Hp E) as
    [(e & es & -> & -> & _)|(h1 & h2 & c' & hs & r0 & ev & a & P & es & F1 & F2 & N & _ & _ & _ & _ & _ & _ & T & Hc)];
    [split_and!; [done|auto|lia]|].
  destruct Hc as [(e & hp & -> & _ & Fp & -> & _)|[(e & w0 & -> & _ & -> & _)|(w & -> & _ & _ & _ & Hn)]].
  - split_and!.
    + by apply insert_subseteq.
    + intros h e' [[<- <-]|[_ ?]]%lookup_insert_Some Hi; [done|done].
    + rewrite map_size_insert_None by done. lia.
  - split_and!; [done|auto|lia].
  - destruct (made_three _ _ _ _ _ _ _ _ F1 Hn) as (hr & q & Hnd & Hf & ->).
    apply NoDup_cons in Hnd as [Hn1 [Hn2 _]%NoDup_cons].
    rewrite !elem_of_cons, elem_of_nil in Hn1. rewrite elem_of_list_singleton in Hn2.
    assert (ss_tab s !! h1 = None) as Fa by (apply Hf; left).
    assert (ss_tab s !! wp_handle w = None) as Fb by (apply Hf; right; left).
    assert (ss_tab s !! hr = None) as Fc by (apply Hf; right; right; left).
    assert ((<[h1 := mkHe OServer false]> (ss_tab s)) !! wp_handle w = None) as Fb'.
    { rewrite lookup_insert_ne; [done|]. intuition congruence. }
    assert ((<[wp_handle w := mkHe (OProcess P) false]> (<[h1 := mkHe OServer false]> (ss_tab s))) !! hr = None) as Fc'.
    { rewrite lookup_insert_ne by intuition congruence. rewrite lookup_insert_ne; [done|]. intuition congruence. }
    split_and!.
    + etrans; [by apply (insert_subseteq (ss_tab s) h1 (mkHe OServer false))|].
      etrans; [by apply (insert_subseteq _ (wp_handle w) (mkHe (OProcess P) false))|]. by apply insert_subseteq.
    + intros h e Hl Hi. apply lookup_insert_Some in Hl as [[<- <-]|[_ Hl]]; [done|].
      apply lookup_insert_Some in Hl as [[<- <-]|[_ Hl]]; [done|].
      by apply lookup_insert_Some in Hl as [[<- <-]|[_ Hl]].
    + rewrite !map_size_insert_None by done. lia.
Qed.
Print Assumptions C110_kept.

(** Examples: handle values from 100 up; the broker has its input stream 8, to be inherited. *)
Definition pick_above (X : gset N) : N := 100 + foldr N.max 0 (elements X).
Lemma pick_above_ok X : pick_above X ∉ X.
Proof.
  intros H%elem_of_elements. unfold pick_above in H.
  assert (∀ l x, x ∈ l → x ≤ foldr N.max 0 l) as Hm.
  { induction l as [|y l IH]; intros x; [by intros ?%elem_of_nil|]. cbn.
    intros [->|Hx]%elem_of_cons; [lia|]. specialize (IH x Hx). lia. }
  apply Hm in H. lia.
Qed.
Definition se_with (pe : penv) (open : gmap N hentry → N → option N) (thread : bool) : senv :=
  mkSenv pick_above (λ _, PipeOk) true true true true pe no_sys win_dir open thread.
Lemma se_with_ok pe open thread : senv_ok (se_with pe open thread).
Proof. intros X. apply pick_above_ok. Qed.
Definition broker0 : sstate := mkSst {[8 := mkHe (OOther 1) true; 3 := mkHe (OOther 2) false]} [] [] [] start.
Definition no_pid_env : penv :=
  mkPenv (λ _ _, true) true 4242 (λ _ _, 0%Z) (λ _ _, true) (λ _ _, Some 77) (λ _, 0).

Lemma ex_no_pid : ∃ e s', win_worker_new 6 (se_with no_pid_env (λ _ _, Some 77) true) some_config nothing_allowed broker0
    = Some (Err e, s') ∧ ss_tab s' !! 308 = Some (mkHe (OProcess 77) false) ∧ ss_running s' = [77].
Proof.
  assert (option_map (λ x, (match x.1 with Ok _ => false | Err _ => true end, ss_tab x.2 !! 308, ss_running x.2))
    (win_worker_new 6 (se_with no_pid_env (λ _ _, Some 77) true) some_config nothing_allowed broker0) =
    Some (true, Some (mkHe (OProcess 77) false), [77])) as H by (vm_compute; reflexivity).
  destruct (win_worker_new _ _ _ _ _) as [[[w|e] s']|]; cbn [option_map fst snd] in H; [discriminate H| |discriminate H].
  exists e, s'. injection H as H1 H2. split_and!; done.
Qed.
(** If GetProcessId fails the handle of the new process stays open. *)
Theorem C110_refuted : ¬ C110_full.
Proof.
  intros H. destruct ex_no_pid as (e & s' & E & Ht & _).
  pose proof (H _ _ _ _ _ _ _ (se_with_ok _ _ _) E) as Hx. cbn beta iota in Hx. rewrite Hx in Ht.
  assert (ss_tab broker0 !! 308 = None) as Hn by (vm_compute; reflexivity). congruence.
Qed.
Print Assumptions C110_refuted.
Example C110_example :
  option_map (λ x, (x.1, map_to_list (ss_tab x.2)))
    (win_worker_new 6 (se_with good_env (λ _ _, Some 77) true) some_config nothing_allowed broker0) =
  Some (Ok (mkWp 900 308 (Some (lit "IrisAppContainer_4242_1"))),
        [(3, mkHe (OOther 2) false); (8, mkHe (OOther 1) true); (408, mkHe (OProcess 77) false);
         (308, mkHe (OProcess 77) false); (108, mkHe OServer false)]) ∧
  option_map (λ x, (x.1, map_to_list (ss_tab x.2)))
    (win_worker_new 6 (se_with good_env (λ _ _, None) true) some_config nothing_allowed broker0) =
  Some (Err (OsFailed (lit "unknown OS operation failed, IPC channel does not accept worker PID") 0),
        [(3, mkHe (OOther 2) false); (8, mkHe (OOther 1) true)]).
Proof. split; vm_compute; reflexivity. Qed.

(* ---------------------------------------------------------------- C111 *)

(** An error leaves no process behind. *)
Definition C111_full : Prop :=
  ∀ fuel env c p s e s', senv_ok env → win_worker_new fuel env c p s = Some (Err e, s') →
  ss_running s' = ss_running s.
(** True if the system gives the id of the process and a handle for the id, and starts a thread. *)
Theorem C111_partial fuel env c p s e s' :
  senv_ok env → win_worker_new fuel env c p s = Some (Err e, s') →
  PPid 0 ∉ ps_trace (ss_events s') → (∀ t pid, se_open env t pid ≠ None) → se_thread env = true →
  ss_running s' = ss_running s ∧ ss_given s' = ss_given s ∧ ss_threads s' = ss_threads s.
Proof.
  intros Hp E H0 Ho Ht.
  destruct (worker_cases _ _ _ _ _ _ _ Hp E) as
    [(e' & es & _ & _ & -> & -> & -> & _)|(h1 & h2 & c' & hs & r0 & ev & a & P & es & F1 & F2 & N & _ & _ & _ & _ & _ & _ & T & Hc)]; [done|].
  destruct Hc as [(e' & hp & _ & Hi & _)|[(e' & w0 & _ & _ & _ & _ & [[t Hn]|Hn])|(w & ? & _)]].
  - exfalso. apply H0. rewrite T, !elem_of_app. auto.
  - by destruct (Ho _ _ Hn).
  - congruence.
  - discriminate.
Qed.
Print Assumptions C111_partial.
(** At most one process is left; no thread serves it. *)
Theorem C111_at_most_one fuel env c p s e s' :
  senv_ok env → win_worker_new fuel env c p s = Some (Err e, s') →
  ss_threads s' = ss_threads s ∧
  (ss_running s' = ss_running s ∨ ∃ P, ss_running s' = ss_running s ++ [P]).
Proof.
  intros Hp E.
  destruct (worker_cases _ _ _ _ _ _ _ Hp E) as
    [(e' & es & _ & _ & -> & _ & -> & _)|(h1 & h2 & c' & hs & r0 & ev & a & P & es & F1 & F2 & N & _ & _ & _ & _ & -> & _ & T & Hc)]; [auto|].
  destruct Hc as [(e' & hp & _ & _ & _ & _ & ->)|[(e' & w0 & _ & _ & _ & -> & _)|(w & ? & _)]];
    [| |discriminate]; (split; [done|right; by exists P]).
Qed.
Print Assumptions C111_at_most_one.
(** Dropping the process does not end it. *)
Theorem C111_refuted : ¬ C111_full.
Proof.
  intros H. destruct ex_no_pid as (e & s' & E & _ & Hr).
  pose proof (H _ _ _ _ _ _ _ (se_with_ok _ _ _) E) as Hx. rewrite Hr in Hx. discriminate Hx.
Qed.
Print Assumptions C111_refuted.
Example C111_example :
  option_map (λ x, ss_running x.2)
    (win_worker_new 6 (se_with good_env (λ _ _, None) true) some_config nothing_allowed broker0) = Some [77] ∧
  option_map (λ x, ss_running x.2)
    (win_worker_new 6 (se_with good_env (λ _ _, Some 77) false) some_config nothing_allowed broker0) = Some [77] ∧
  option_map (λ x, ss_running x.2)
    (win_worker_new 6 (se_with (mkPenv (λ _ _, true) true 4242 (λ _ _, 0%Z) (λ _ _, true) (λ _ _, None) (λ _, 900))
       (λ _ _, Some 77) true) some_config nothing_allowed broker0) = Some [].
Proof. split_and!; vm_compute; reflexivity. Qed.

(* ---------------------------------------------------------------- C112 *)

(** While a handle to a process is open its id belongs to no other. *)
Definition pid_kept (env : senv) (P pid : N) : Prop :=
  ∀ t q h e, t !! h = Some e → he_obj e = OProcess P → se_open env t pid = Some q → q = P.
Lemma given_some a t h e :
  given_handles a t !! h = Some e ↔ t !! h = Some e ∧ he_inherit e = true ∧
    ∀ l, AHandles l ∈ cp_attrs a → h ∈ l.
Proof.
  unfold given_handles. rewrite map_filter_lookup_Some. cbn [fst snd]. unfold listed.
  rewrite forallb_forall. split.
  - intros (? & ? & Hl). split_and!; [done..|]. intros l Hi.
    specialize (Hl (AHandles l)). rewrite <- elem_of_list_In in Hl. specialize (Hl Hi). by apply bool_decide_eq_true in Hl.
  - intros (? & ? & Hl). split_and!; [done..|]. intros x Hi. rewrite <- elem_of_list_In in Hi. destruct x; try done.
    apply bool_decide_eq_true. by apply Hl.
Qed.
Lemma digits_no_zero fuel : ∀ n acc, x00 ∉ acc → x00 ∉ digits_aux fuel 10 n acc.
Proof.
  assert (∀ n, digit (n mod 10) ≠ x00) as Hd.
  { intros n. pose proof (N.mod_lt n 10 ltac:(done)) as Hm. set (k := n mod 10) in *. clearbody k.
    assert (k = 0 ∨ k = 1 ∨ k = 2 ∨ k = 3 ∨ k = 4 ∨ k = 5 ∨ k = 6 ∨ k = 7 ∨ k = 8 ∨ k = 9) as Hk by lia.
    repeat (destruct Hk as [-> | Hk]; [done|]). by subst k. }
  induction fuel as [|fuel IH]; intros n acc Ha; [done|]. cbn [digits_aux].
  assert (x00 ∉ digit (n mod 10) :: acc) as Hc.
  { rewrite elem_of_cons. intros [H|H]; [by apply (Hd n)|done]. }
  destruct (n <? 10); [done|]. by apply IH.
Qed.
Lemma fmt_dec_no_zero n : x00 ∉ fmt_dec n.
Proof. apply digits_no_zero, not_elem_of_nil. Qed.
Definition wanted_by (c : config) (p : policy) (h : N) : Prop :=
  h ∈ inherit_handles p ∨ cf_stdin c = Some h ∨ cf_stdout c = Some h ∨ cf_stderr c = Some h.
(** What a created process gets, when the call succeeds and when it does not: its end of the pipe
    at [h2]; every other handle is one the broker had, inheritable, and wanted by the caller if
    the process has a list of handles. *)
Theorem C112_given fuel env c p s r s' :
  senv_ok env → win_worker_new fuel env c p s = Some (r, s') →
  (ss_running s' = ss_running s ∧ ss_given s' = ss_given s) ∨
  ∃ P a given h2, ss_running s' = ss_running s ++ [P] ∧ ss_given s' = ss_given s ++ [(P, a, given)] ∧
    ss_tab s !! h2 = None ∧ given !! h2 = Some (mkHe OClient true) ∧
    (∀ h e, given !! h = Some e → h ≠ h2 →
       ss_tab s !! h = Some e ∧ he_inherit e = true ∧
       (∀ l, AHandles l ∈ cp_attrs a → wanted_by c p h)) ∧
    (os_values (se_sys env) → Forall c_string (cf_envp c) → [] ∉ cf_envp c →
     ∃ extra, block_holds (cp_envblock a) (cf_envp c ++ [ipc_variable h2] ++ extra) ∧
       ∀ e, e ∈ extra → ∃ name forced val, (name, forced) ∈ sanitized_environment ∧ e = variable name val).
Proof.
  intros Hp E.
  destruct (worker_cases _ _ _ _ _ _ _ Hp E) as
    [(e' & es & _ & _ & -> & -> & _)|(h1 & h2 & c' & hs & r0 & ev & a & P & es & F1 & F2 & N & Hcfg & Hnew & _ & Hin & -> & -> & _)];
    [by left|right].
  exists P, a, (given_handles a (start_tab h1 h2 (ss_tab s))), h2.
  assert (cf_envp c' = cf_envp c ++ [ipc_variable h2]) as Henv.
  { unfold win_worker_config, set_environment_variable in Hcfg.
    destruct (forallb _ _); [|done]. destruct (existsb _ _); [done|]. by injection Hcfg as <- _. }
  split_and!; [done|done|done|..].
  - apply given_some. split_and!; [apply lookup_insert|done|]. intros l Hl.
    destruct (C73_worker _ _ _ _ _ _ _ _ _ _ _ _ _ _ _ _ Hcfg Hnew Hin Hl) as (Hx & _).
    apply Hx. auto.
  - intros h e He Hh. apply given_some in He as (He & Hi & Hl).
    unfold start_tab in He. rewrite lookup_insert_ne in He by done.
    apply lookup_insert_Some in He as [[<- <-]|[_ He]]; [done|]. split_and!; [done|done|].
    intros l Ha. specialize (Hl l Ha).
    destruct (C73_worker _ _ _ _ _ _ _ _ _ _ _ _ _ _ _ _ Hcfg Hnew Hin Ha) as (Hx & _).
    apply Hx in Hl as [Hl|[?|?]]; [|done|by right]. left. by apply elem_of_elements.
  - intros Hs Hc Hne.
    assert (x00 ∉ ipc_variable h2) as Hv.
    { unfold ipc_variable. rewrite !not_elem_of_app. split_and!; [by apply free_of_spec..|apply fmt_dec_no_zero]. }
    assert (Forall c_string (cf_envp c')) as Hc'.
    { rewrite Henv. apply Forall_app. split; [done|]. by apply Forall_singleton. }
    assert ([] ∉ cf_envp c') as Hne'.
    { rewrite Henv, elem_of_app, elem_of_list_singleton. by intros [?|?]. }
    destruct (C71_passed _ _ _ _ _ _ _ _ _ _ _ Hs Hc' Hne' Hnew Hin) as (extra & Hb & Hex).
    exists extra. split; [|done]. rewrite Henv, <-app_assoc in Hb. exact Hb.
Qed.
Print Assumptions C112_given.

(** When the call succeeds: one process, that the result's handle refers to; one thread with the
    policy, its end of the pipe, and a handle to the process (not to another one with its id). *)
Theorem C112_thread fuel env c p s w s' :
  senv_ok env → win_worker_new fuel env c p s = Some (Ok w, s') →
  ∃ P h1 hr q, ss_running s' = ss_running s ++ [P] ∧
    ss_threads s' = ss_threads s ++ [mkBth h1 (Some hr) (get_runtime_policy p)] ∧
    ss_tab s' !! wp_handle w = Some (mkHe (OProcess P) false) ∧
    ss_tab s' !! h1 = Some (mkHe OServer false) ∧
    ss_tab s' !! hr = Some (mkHe (OProcess q) false) ∧
    (pid_kept env P (wp_pid w) → q = P).
Proof.
  intros Hp E.
  destruct (worker_cases _ _ _ _ _ _ _ Hp E) as
    [(e' & es & ? & _)|(h1 & h2 & c' & hs & r0 & ev & a & P & es & F1 & F2 & N & _ & _ & _ & _ & -> & _ & _ & Hc)]; [done|].
  destruct Hc as [(e' & hp & ? & _)|[(e' & w0 & ? & _)|(w' & [= <-] & _ & _ & _ & Hn)]]; [done|done|].
  destruct Hn as [F Np1 Np2 (hr & q & Fr & R1 & R2 & R3 & Ho & -> & ->)].
  exists P, h1, hr, q. split_and!; [done|done|..].
  - rewrite lookup_insert_ne by done. apply lookup_insert.
  - rewrite !lookup_insert_ne by done. apply lookup_insert.
  - apply lookup_insert.
  - intros Hk. eapply Hk; [apply lookup_insert| |exact Ho]. done.
Qed.
Print Assumptions C112_thread.

(** Workers made one after the other. *)
Inductive makes (s : sstate) : sstate → Prop :=
  | makes_none : makes s s
  | makes_one s1 fuel env c p r s2 : makes s s1 → senv_ok env →
      win_worker_new fuel env c p s1 = Some (r, s2) → makes s s2.
Lemma makes_inheritable s s' :
  makes s s' → ∀ h e, ss_tab s' !! h = Some e → he_inherit e = true → ss_tab s !! h = Some e.
Proof.
  induction 1 as [|s1 fuel env c p r s2 H IH Hp E]; [done|]. intros h e Hl Hi.
  destruct (C110_kept _ _ _ _ _ _ _ Hp E) as (_ & Hk & _). apply IH; [by apply Hk|done].
Qed.
(** Each gets one end of a pipe, its own, and no handle to a process or another pipe: besides it
    has only inheritable handles that the broker had before the first. *)
Theorem C112_separate s s' :
  makes s s' → (∀ h e, ss_tab s !! h = Some e → he_inherit e = true → ∃ n, he_obj e = OOther n) →
  ∃ new, ss_given s' = ss_given s ++ new ∧
    ∀ P a given, (P, a, given) ∈ new → ∃ h2, given !! h2 = Some (mkHe OClient true) ∧
      ∀ h e, given !! h = Some e → h ≠ h2 →
        (∃ n, he_obj e = OOther n) ∧ ss_tab s !! h = Some e ∧ he_inherit e = true.
Proof.
  intros H Hs. induction H as [|s1 fuel env c p r s2 H IH Hp E].
  { exists []. rewrite app_nil_r. split; [done|]. by intros ??? ?%elem_of_nil. }
  destruct IH as (new & Hn & IH).
  destruct (C112_given _ _ _ _ _ _ _ Hp E) as [[_ ->]|(P & a & given & h2 & _ & -> & _ & Hg & Hr & _)].
  { by exists new. }
  exists (new ++ [(P, a, given)]). split; [by rewrite Hn, <-app_assoc|].
  intros P' a' given' [Hi|Hi]%elem_of_app; [by eapply IH|].
  apply elem_of_list_singleton in Hi as [= -> -> ->]. exists h2. split; [done|].
  intros h e He Hh. destruct (Hr _ _ He Hh) as (H1 & H2 & _).
  pose proof (makes_inheritable _ _ H _ _ H1 H2) as H3. split_and!; [by eapply Hs|done|done].
Qed.
Print Assumptions C112_separate.
Example C112_example :
  let env P := se_with (mkPenv (λ _ _, true) true 4242 (λ _ _, 0%Z) (λ _ _, true) (λ _ _, Some P) (λ _, 900))
                 (λ _ _, Some P) true in
  match win_worker_new 6 (env 77) some_config nothing_allowed broker0 with
  | Some (_, s1) =>
      match win_worker_new 6 (env 78) some_config nothing_allowed s1 with
      | Some (_, s2) =>
          Some (ss_running s2, (λ x, map_to_list x.2) <$> ss_given s2, bt_pipe <$> ss_threads s2)
      | None => None
      end
  | None => None
  end =
  Some ([77; 78], [[(8, mkHe (OOther 1) true); (208, mkHe OClient true)];
                   [(8, mkHe (OOther 1) true); (608, mkHe OClient true)]], [108; 508]).
Proof. vm_compute. reflexivity. Qed.
