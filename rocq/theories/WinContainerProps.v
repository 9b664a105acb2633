(** AppContainers of workers: property C135. *)
From stdpp Require Import prelude gmap.
From Coq Require Import Strings.Byte.
From Verif Require Import Bytes PolicyModel ProcessModel WinProcessModel WinContainerModel LogProps.
Local Open Scope N_scope.

(** No two workers that run are in the same AppContainer. *)
Definition apart (ws : list running) : Prop :=
  ∀ i j a b name, i ≠ j → ws !! i = Some a → ws !! j = Some b →
    rn_container a = Some name → rn_container b ≠ Some name.
Definition C135_full : Prop := ∀ xs, apart (mc_running (machine_run xs)).

(* ---------------------------------------------------------------- names *)

Lemma split_at (c : byte) (a a' b b' : str) :
  c ∉ a → c ∉ a' → a ++ c :: b = a' ++ c :: b' → a = a' ∧ b = b'.
Proof.
  revert a'. induction a as [|x a IH]; intros [|y a'] Ha Ha' E; simpl in E.
  - by injection E as ->.
  - injection E as -> _. exfalso. apply Ha'. apply elem_of_list_here.
  - injection E as -> _. exfalso. apply Ha. apply elem_of_list_here.
  - injection E as -> E. apply not_elem_of_cons in Ha as [_ Ha].
    apply not_elem_of_cons in Ha' as [_ Ha']. destruct (IH _ Ha Ha' E) as [-> ->]. done.
Qed.
Lemma container_name_inj pid i pid' i' :
  container_name pid i = container_name pid' i' → pid = pid' ∧ i = i'.
Proof.
  unfold container_name. intros E. apply app_inv_head in E.
  change (lit "_") with [x5f] in E. cbn [app] in E.
  assert (∀ n, x5f ∉ fmt_dec n) as Hno.
  { intros n. apply digits_no; [lia|]. apply (bool_decide_unpack _). vm_compute. exact I. }
  apply split_at in E as [E1 E2]; [|apply Hno..].
  split; (eapply (digits_inj 10); [lia|done]).
Qed.
Local Arguments container_name : simpl never.

(* ---------------------------------------------------------------- one pass *)

(** The stages leave the counter and the name alone. *)
Lemma create_stage env inp o slots name attrs s r s' :
  try_create env inp o slots name attrs s = (r, s') →
  ps_next s' = ps_next s ∧ ∀ w, r = Done (Ok w) → wp_container w = name.
Proof.
  unfold try_create. intros H. destruct (pe_create _ _ _) as [h|].
  - destruct (_ =? 0); injection H as <- <-; (split; [done|]); intros w E; [done|].
    by injection E as <-.
  - destruct (po_mitigations o); injection H as <- <-; by split.
Qed.
Lemma mitigations_stage env inp o slots name attrs s r s' :
  try_mitigations env inp o slots name attrs s = (r, s') →
  ps_next s' = ps_next s ∧ ∀ w, r = Done (Ok w) → wp_container w = name.
Proof.
  unfold try_mitigations, do_set. destruct (po_mitigations o); [|apply create_stage].
  destruct (pe_set _ _ _); intros H; [by apply create_stage in H|]. injection H as <- <-. by split.
Qed.
Lemma child_stage env inp o slots name attrs s r s' :
  try_child env inp o slots name attrs s = (r, s') →
  ps_next s' = ps_next s ∧ ∀ w, r = Done (Ok w) → wp_container w = name.
Proof.
  unfold try_child, do_set. destruct (po_child o); [|apply mitigations_stage].
  destruct (pe_set _ _ _); intros H; [by apply mitigations_stage in H|]. injection H as <- <-. by split.
Qed.
Lemma handles_stage env inp o slots name attrs s r s' :
  try_handles env inp o slots name attrs s = (r, s') →
  ps_next s' = ps_next s ∧ ∀ w, r = Done (Ok w) → wp_container w = name.
Proof.
  unfold try_handles, do_set. destruct (po_handles o); [|apply child_stage].
  destruct (pe_set _ _ _); intros H; [by apply child_stage in H|]. injection H as <- <-. by split.
Qed.
Lemma less_stage env inp o slots name attrs s r s' :
  try_less env inp o slots name attrs s = (r, s') →
  ps_next s' = ps_next s ∧ ∀ w, r = Done (Ok w) → wp_container w = Some name.
Proof.
  unfold try_less, do_set. destruct (po_less o); [|apply handles_stage].
  destruct (pe_set _ _ _); intros H; [by apply handles_stage in H|]. injection H as <- <-. by split.
Qed.
Lemma profile_next env name s hr s' :
  create_profile env name s = (hr, s') → ps_next s' = ps_next s.
Proof.
  unfold create_profile. destruct (_ =? ALREADY_EXISTS)%Z; intros H; by injection H as _ <-.
Qed.
Lemma pass_name env inp o s r s' :
  attempt env inp o s = (r, s') →
  ps_next s ≤ ps_next s' ∧
  ∀ w name, r = Done (Ok w) → wp_container w = Some name →
    name = container_name (pe_own_pid env) (ps_next s) ∧ ps_next s' = ps_next s + 1.
Proof.
  unfold attempt, plog. set (o1 := if po_container o then o else no_less o). clearbody o1. clear o.
  cbn zeta. destruct (negb _).
  { intros H. injection H as <- <-. unfold plog; cbn [ps_next]. split; [lia|done]. }
  unfold plog; cbn [ps_next ps_trace]. destruct (po_container o1).
  - destruct (pe_appcontainers env).
    2:{ intros H. injection H as <- <-. cbn [ps_next]. split; [lia|done]. }
    destruct (create_profile _ _ _) as [hr s1] eqn:Ep. apply profile_next in Ep.
    cbn [ps_next] in Ep. destruct (negb (hr =? 0)%Z).
    { intros H. injection H as <- <-. split; [lia|done]. }
    unfold do_set. destruct (pe_set _ _ _); intros H.
    + apply less_stage in H as [Hn Hw]. unfold plog in Hn; cbn [ps_next] in Hn. split; [lia|].
      intros w name -> E. rewrite (Hw _ eq_refl) in E. injection E as <-. split; [done|lia].
    + injection H as <- <-. unfold plog; cbn [ps_next]. split; [lia|done].
  - intros H. apply handles_stage in H as [Hn Hw]. cbn [ps_next] in Hn. split; [lia|].
    intros w name -> E. by rewrite (Hw _ eq_refl) in E.
Qed.

(* ---------------------------------------------------------------- histories *)

Record sound (m : machine) : Prop := mkSound {
  so_start : ∀ pid g, mc_programs m !! pid = Some g → pg_start g < mc_next m;
  so_one : ∀ p q g h, mc_programs m !! p = Some g → mc_programs m !! q = Some h →
    pg_start g = pg_start h → p = q;
  so_worker : ∀ w, w ∈ mc_running m → rn_start w < mc_next m ∧
    ∀ q g, mc_programs m !! q = Some g → pg_start g = rn_start w → q = rn_pid w;
  so_name : ∀ w name, w ∈ mc_running m → rn_container w = Some name →
    ∃ i, name = container_name (rn_pid w) i ∧
      ∀ g, mc_programs m !! rn_pid w = Some g → pg_start g = rn_start w → i < ps_next (pg_state g);
  so_apart : ∀ i j a b name, i ≠ j → mc_running m !! i = Some a → mc_running m !! j = Some b →
    rn_container a = Some name → rn_container b = Some name → rn_start a ≠ rn_start b }.

Lemma delete_inj {A} (l : list A) k i j a b :
  i ≠ j → delete k l !! i = Some a → delete k l !! j = Some b →
  ∃ i' j', i' ≠ j' ∧ l !! i' = Some a ∧ l !! j' = Some b.
Proof.
  intros Hij Ha Hb.
  assert (∀ n x, delete k l !! n = Some x →
    l !! (if decide (n < k)%nat then n else S n) = Some x) as Hd.
  { intros n x Hx. destruct (decide (n < k)%nat) as [Hn|Hn].
    - by rewrite lookup_delete_lt in Hx.
    - by rewrite lookup_delete_ge in Hx by lia. }
  exists (if decide (i < k)%nat then i else S i), (if decide (j < k)%nat then j else S j).
  split_and!; [repeat case_decide; lia|by apply Hd..].
Qed.

Lemma sound_step m x : sound m → sound (mstep_run m x).
Proof.
  intros [H1 H2 H3 H4 H5]. destruct x as [pid|pid|pid env inp o|k]; cbn [mstep_run].
  - destruct (mc_programs m !! pid) as [g0|] eqn:Ep; [by constructor|].
    constructor; cbn [mc_programs mc_next mc_running].
    + intros p g Hp. destruct (decide (p = pid)) as [-> |Hne].
      * rewrite lookup_insert in Hp. injection Hp as <-. cbn [pg_start]. lia.
      * rewrite lookup_insert_ne in Hp by done. apply H1 in Hp. lia.
    + intros p q g h Hp Hq E. destruct (decide (p = pid)) as [-> |Hp1], (decide (q = pid)) as [-> |Hq1];
        [done| | |].
      * rewrite lookup_insert in Hp. injection Hp as <-. rewrite lookup_insert_ne in Hq by done.
        apply H1 in Hq. cbn [pg_start] in E. lia.
      * rewrite lookup_insert in Hq. injection Hq as <-. rewrite lookup_insert_ne in Hp by done.
        apply H1 in Hp. cbn [pg_start] in E. lia.
      * rewrite lookup_insert_ne in Hp by done. rewrite lookup_insert_ne in Hq by done. eauto.
    + intros w Hw. destruct (H3 w Hw) as [Hs Hq]. split; [lia|]. intros q g Hg E.
      destruct (decide (q = pid)) as [-> |Hne].
      * rewrite lookup_insert in Hg. injection Hg as <-. cbn [pg_start] in E. lia.
      * rewrite lookup_insert_ne in Hg by done. eauto.
    + intros w name Hw E. destruct (H4 w name Hw E) as (i & Hi & Hg). exists i. split; [done|].
      intros g Hl E'. destruct (decide (rn_pid w = pid)) as [Hp|Hne].
      * rewrite Hp, lookup_insert in Hl. injection Hl as <-. cbn [pg_start] in E'.
        destruct (H3 w Hw). lia.
      * rewrite lookup_insert_ne in Hl by done. eauto.
    + exact H5.
  - constructor; cbn [mc_programs mc_next mc_running].
    + intros p g Hp. apply lookup_delete_Some in Hp as [_ Hp]. eauto.
    + intros p q g h Hp Hq. apply lookup_delete_Some in Hp as [_ Hp].
      apply lookup_delete_Some in Hq as [_ Hq]. eauto.
    + intros w Hw. destruct (H3 w Hw) as [Hs Hq]. split; [done|]. intros q g Hg.
      apply lookup_delete_Some in Hg as [_ Hg]. eauto.
    + intros w name Hw E. destruct (H4 w name Hw E) as (i & Hi & Hg). exists i. split; [done|].
      intros g Hl. apply lookup_delete_Some in Hl as [_ Hl]. eauto.
    + exact H5.
  - destruct (mc_programs m !! pid) as [g0|] eqn:Ep; [|by constructor].
    destruct (attempt _ inp o (pg_state g0)) as [res s] eqn:Ea.
    apply pass_name in Ea as [Hle Hname]. cbn [with_pid pe_own_pid] in Hname.
    set (new := match res with Done (Ok w) => [mkRunning (pg_start g0) pid (wp_container w)] | _ => [] end).
    assert (∀ w, w ∈ new → rn_start w = pg_start g0 ∧ rn_pid w = pid ∧
      ∀ name, rn_container w = Some name →
        name = container_name pid (ps_next (pg_state g0)) ∧
        ps_next s = ps_next (pg_state g0) + 1) as Hnew.
    { intros w Hw. subst new. destruct res as [?|[w0|e]]; [by apply elem_of_nil in Hw| |
        by apply elem_of_nil in Hw].
      apply elem_of_list_singleton in Hw as ->. cbn [rn_start rn_pid rn_container].
      split_and!; [done..|]. intros name E. by apply (Hname w0 name). }
    assert (∀ i a, new !! i = Some a → i = 0%nat) as Hone.
    { intros i a Hi. subst new. destruct res as [?|[w0|e]]; [done| |done]. by destruct i. }
    assert (∀ p g, <[pid := mkProgram (pg_start g0) s]> (mc_programs m) !! p = Some g →
      ∃ h, mc_programs m !! p = Some h ∧ pg_start g = pg_start h ∧
        ps_next (pg_state h) ≤ ps_next (pg_state g) ∧ (p = pid → pg_state g = s)) as Hold.
    { intros p g Hp. destruct (decide (p = pid)) as [-> |Hne].
      - rewrite lookup_insert in Hp. injection Hp as <-. exists g0. done.
      - rewrite lookup_insert_ne in Hp by done. exists g. split_and!; [done|done|lia|done]. }
    clearbody new. clear Hname. constructor; cbn [mc_programs mc_next mc_running].
    + intros p g Hp. destruct (Hold _ _ Hp) as (h & Hh & -> & _). eauto.
    + intros p q g h Hp Hq. destruct (Hold _ _ Hp) as (g' & Hg' & -> & _).
      destruct (Hold _ _ Hq) as (h' & Hh' & -> & _). eauto.
    + intros w Hw. apply elem_of_app in Hw as [Hw|Hw].
      * destruct (H3 w Hw) as [Hs Hq]. split; [done|]. intros q g Hg.
        destruct (Hold _ _ Hg) as (h & Hh & -> & _). eauto.
      * destruct (Hnew _ Hw) as (-> & -> & _). split; [eauto|]. intros q g Hg E.
        destruct (Hold _ _ Hg) as (h & Hh & Hs & _). rewrite Hs in E. eauto.
    + intros w name Hw E. apply elem_of_app in Hw as [Hw|Hw].
      * destruct (H4 w name Hw E) as (i & Hi & Hg). exists i. split; [done|].
        intros g Hl E'. destruct (Hold _ _ Hl) as (h & Hh & Hs & Hn & _).
        rewrite Hs in E'. specialize (Hg _ Hh E'). lia.
      * destruct (Hnew _ Hw) as (_ & -> & Hn). destruct (Hn _ E) as [-> Hs].
        exists (ps_next (pg_state g0)). split; [done|]. intros g Hl _.
        rewrite lookup_insert in Hl. injection Hl as <-. cbn [pg_state]. lia.
    + assert (∀ w name v, w ∈ mc_running m → v ∈ new → rn_container w = Some name →
        rn_container v = Some name → rn_start w ≠ rn_start v) as Hcross.
      { intros w name v Hw Hv Ew Ev E. destruct (H4 w name Hw Ew) as (i & Hi & Hg).
        destruct (Hnew _ Hv) as (Hs & Hp & Hn). destruct (Hn _ Ev) as [Hi' _].
        rewrite Hi in Hi'. apply container_name_inj in Hi' as [Hpid Hid].
        rewrite Hpid in Hg. specialize (Hg _ Ep). rewrite E in Hg. specialize (Hg (eq_sym Hs)). lia. }
      intros i j a b name Hij Ha Hb Ea Eb.
      apply lookup_app_Some in Ha as [Ha|[Hia Ha]], Hb as [Hb|[Hjb Hb]].
      * eauto.
      * apply elem_of_list_lookup_2 in Ha, Hb. eauto.
      * apply elem_of_list_lookup_2 in Ha, Hb. intros E. by eapply Hcross.
      * apply Hone in Ha, Hb. lia.
  - constructor; cbn [mc_programs mc_next mc_running].
    + exact H1.
    + exact H2.
    + intros w Hw. apply H3. apply elem_of_list_lookup in Hw as [i Hi].
      destruct (decide (i < k)%nat).
      * rewrite lookup_delete_lt in Hi by done. by eapply elem_of_list_lookup_2.
      * rewrite lookup_delete_ge in Hi by lia. by eapply elem_of_list_lookup_2.
    + intros w name Hw. apply H4. apply elem_of_list_lookup in Hw as [i Hi].
      destruct (decide (i < k)%nat).
      * rewrite lookup_delete_lt in Hi by done. by eapply elem_of_list_lookup_2.
      * rewrite lookup_delete_ge in Hi by lia. by eapply elem_of_list_lookup_2.
    + intros i j a b name Hij Ha Hb.
      destruct (delete_inj _ _ _ _ _ _ Hij Ha Hb) as (i' & j' & Hij' & Ha' & Hb'). eauto.
Qed.
Lemma sound_run xs : sound (machine_run xs).
Proof.
  unfold machine_run.
  assert (sound (mkMachine ∅ 0 [])) as H.
  { constructor; cbn [mc_programs mc_next mc_running].
    - intros pid g Hg. by rewrite lookup_empty in Hg.
    - intros p q g h Hg. by rewrite lookup_empty in Hg.
    - intros w Hw. by apply elem_of_nil in Hw.
    - intros w name Hw. by apply elem_of_nil in Hw.
    - intros i j a b name _ Ha. by rewrite lookup_nil in Ha. }
  generalize dependent (mkMachine ∅ 0 []). induction xs as [|x xs IH]; intros m H; [done|].
  simpl. apply IH. by apply sound_step.
Qed.

(* ---------------------------------------------------------------- C135 *)

(** Workers in the same AppContainer were started by two programs that had the same process
    id, one after the other; so all workers of a program, whatever its threads do, and all
    workers of programs that run are apart. *)
Theorem C135_partial xs i j a b name :
  i ≠ j → mc_running (machine_run xs) !! i = Some a → mc_running (machine_run xs) !! j = Some b →
  rn_container a = Some name → rn_container b = Some name →
  rn_start a ≠ rn_start b ∧ rn_pid a = rn_pid b ∧
  ¬ (∃ p q g h, mc_programs (machine_run xs) !! p = Some g ∧
       mc_programs (machine_run xs) !! q = Some h ∧
       pg_start g = rn_start a ∧ pg_start h = rn_start b).
Proof.
  intros Hij Ha Hb Ea Eb. destruct (sound_run xs) as [H1 H2 H3 H4 H5].
  pose proof (H5 _ _ _ _ _ Hij Ha Hb Ea Eb) as Hne.
  apply elem_of_list_lookup_2 in Ha, Hb.
  destruct (H4 _ _ Ha Ea) as (x & Hx & _), (H4 _ _ Hb Eb) as (y & Hy & _).
  rewrite Hx in Hy. apply container_name_inj in Hy as [Hpid _].
  split_and!; [done..|]. intros (p & q & g & h & Hp & Hq & Hg & Hh).
  destruct (H3 _ Ha) as [_ Hpa], (H3 _ Hb) as [_ Hqb].
  specialize (Hpa _ _ Hp Hg). specialize (Hqb _ _ Hq Hh).
  rewrite Hpa in Hp. rewrite Hqb, <-Hpid, Hp in Hq. injection Hq as <-. congruence.
Qed.
Print Assumptions C135_partial.

(** A worker that outlives its program shares its AppContainer with the first worker of a later
    program with the same process id. *)
Definition ex_env (hr : list pevent → str → Z) : penv :=
  mkPenv (λ _ _, true) true 0 hr (λ _ _, true) (λ _ _, Some 77) (λ _, 900).
Definition ex_in : pinput := mkPin [3] (lit "w") [x00; x00] (lit "C:\Windows") (8, 9, 10).
(** The system has the profile of the first worker until it is deleted. *)
Definition ex_left (tr : list pevent) (_ : str) : Z :=
  if existsb (λ e, match e with PUnprofile _ => true | _ => false end) tr then 0%Z else ALREADY_EXISTS.
Definition ex_reuse : list mstep :=
  [MStart 4242; MPass 4242 (ex_env (λ _ _, 0%Z)) ex_in all_opts; MExit 4242;
   MStart 4242; MPass 4242 (ex_env ex_left) ex_in all_opts].
Theorem C135_refuted : ¬ C135_full.
Proof.
  intros H. assert (mc_running (machine_run ex_reuse) =
    [mkRunning 0 4242 (Some (lit "IrisAppContainer_4242_0"));
     mkRunning 1 4242 (Some (lit "IrisAppContainer_4242_0"))]) as E by by vm_compute.
  pose proof (H ex_reuse 0%nat 1%nat) as Hx. rewrite E in Hx.
  by eapply (Hx _ _ _ (ltac:(discriminate)) eq_refl eq_refl eq_refl).
Qed.
Print Assumptions C135_refuted.

(** Two programs, one of them with two threads, and one that has ended. *)
Example C135_example :
  mc_running (machine_run
    [MStart 1; MStart 11; MPass 1 (ex_env (λ _ _, 0%Z)) ex_in all_opts;
     MPass 11 (ex_env (λ _ _, 5%Z)) ex_in all_opts; MPass 11 (ex_env (λ _ _, 0%Z)) ex_in all_opts;
     MPass 1 (ex_env (λ _ _, 0%Z)) ex_in all_opts; MExit 1; MEnd 0]) =
    [mkRunning 1 11 (Some (lit "IrisAppContainer_11_1"));
     mkRunning 0 1 (Some (lit "IrisAppContainer_1_1"))].
Proof. by vm_compute. Qed.
