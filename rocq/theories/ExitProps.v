(** Property C134: a start that fails does nothing in the program's name. *)
From stdpp Require Import prelude gmap.
From Coq Require Import Strings.Byte.
From Verif Require Import Bytes PolicyModel LinuxPolicyModel FdModel ChannelModel BrokerModel
  SeccompModel EntryModel EntryProofs EntryProps ProcessModel ProcessProofs ProcessProps ExitModel.
Local Open Scope N_scope.

(* ---------------------------------------------------------------- specification *)

(** Full statement: a new process runs none of the program's exit functions and writes none
    of its text. *)
Definition C134_full : Prop := ∀ ne c p evs t fl r wr io,
  kernel_ok ne t → wo_child (worker_new ne c p evs t) = Some (fl, r) → child_end wr io r = [].

(** The process got to execve, which failed. *)
Definition execve_failed (r : ep_result) : Prop :=
  ∃ exe argv envp errno, EpExecve exe argv envp (Some errno) ∈ ep_trace (final_state r).

(* ---------------------------------------------------------------- proofs *)

Lemma ep_write_tab fd b s : ep_tab (ep_write fd b s) = ep_tab s.
Proof. unfold ep_write. by destruct (ep_tab s !! fd). Qed.

Lemma failed_ready e p s r :
  listing_ok e → clone_entrypoint e p s = r → ep_trace s = [] → execve_failed r →
  ∃ s1 s', r = EpExited s' ∧ ready e p s s1 ∧ ep_tab s' = ep_tab s1.
Proof.
  intros Hl H Htr (exe & argv & envp & errno & Hin).
  destruct (entry_cases e p s r Hl H) as [(s1 & -> & Hw)|(s1 & Hr & Hw & Hm)].
  { exfalso. destruct (Hw _ Hin) as [Ho|[]]. rewrite Htr in Ho. by apply elem_of_nil in Ho. }
  cbv zeta in Hm. destruct (ee_execve e) as [no|].
  - eexists s1, _. split; [exact Hm|]. split; [done|]. by rewrite ep_write_tab.
  - exfalso. rewrite Hm in Hin. unfold set_tab, add_event, final_state in Hin. cbn [ep_trace] in Hin.
    rewrite elem_of_app, elem_of_list_singleton in Hin. destruct Hin as [Hin|Hin]; [|done].
    destruct (Hw _ Hin) as [Ho|[]]. rewrite Htr in Ho. by apply elem_of_nil in Ho.
Qed.

Lemma flush_in wr io t fd b ent :
  (fd, b) ∈ io_streams io → b ≠ [] → t !! fd = Some ent → wr (fd_file ent) = true →
  XWrite (fd_file ent) b ∈ exit_events wr io t.
Proof.
  intros Hin Hb Ht Hw. unfold exit_events. rewrite elem_of_app. right.
  apply elem_of_list_omap. exists (fd, b). split; [done|]. unfold flush. cbn [fst snd].
  destruct b; [done|]. by rewrite Ht, Hw.
Qed.
Lemma flush_only wr io t f b :
  XWrite f b ∈ exit_events wr io t →
  ∃ fd ent, (fd, b) ∈ io_streams io ∧ t !! fd = Some ent ∧ fd_file ent = f ∧ wr f = true.
Proof.
  unfold exit_events. rewrite elem_of_app, elem_of_list_fmap, elem_of_list_omap.
  intros [(h & ? & _)|([fd b'] & Hin & Hf)]; [done|].
  unfold flush in Hf. cbn [fst snd] in Hf. destruct b' as [|x b']; [done|].
  destruct (t !! fd) as [ent|] eqn:E; [|done]. destruct (wr (fd_file ent)) eqn:Ew; [|done].
  injection Hf as <- <-. by exists fd, ent.
Qed.

(* ---------------------------------------------------------------- C134 *)

(** In every start that fails in the new process, all exit functions of the program run
    there, as a copy. *)
Theorem C134_handlers_refuted ne c p evs t fl s wr io h :
  wo_child (worker_new ne c p evs t) = Some (fl, EpExited s) → h ∈ io_handlers io →
  XHandler h ∈ child_end wr io (EpExited s).
Proof.
  intros _ Hh. cbn [child_end]. unfold exit_events. rewrite elem_of_app. left.
  apply elem_of_list_fmap. exists h. split; [done|].
  apply elem_of_list_In. rewrite <-in_rev. by apply elem_of_list_In.
Qed.

Print Assumptions C134_handlers_refuted.

(** If the program cannot be executed, what the program had in the buffer of its standard
    output goes to the file that was meant for the worker's output. *)
Theorem C134_text_refuted ne c p evs t fl r wr io fd f b :
  kernel_ok ne t → wo_child (worker_new ne c p evs t) = Some (fl, r) → execve_failed r →
  cf_stdout c = Some fd → fd ≠ 0 → fd_file <$> t !! fd = Some f → wr f = true →
  (1, b) ∈ io_streams io → b ≠ [] →
  XWrite f b ∈ child_end wr io r.
Proof.
  intros (Hl & _) Hc Hf Hout H0 Hfd Hwr Hin Hb.
  destruct (worker_child _ _ _ _ _ _ _ Hc) as (fb & fc & ch & wh & t2 & p' & c' & fr & fw & rd &
    wrp & nr & t3 & (_ & F1 & F2 & _ & _ & _ & Ht2 & _ & Hset) & _ & _ & G1 & G2 & _ & _ & _ & Hr & _).
  destruct (failed_ready _ _ _ r Hl (eq_sym Hr) eq_refl Hf) as
    (s1 & s' & -> & (_ & _ & _ & _ & tk & f0 & f1 & f2 & Ht & S0 & S1 & S2 & Htab & _) & Etab).
  destruct (set_env_spec _ _ _ Hset) as (_ & _ & _ & _ & _ & _ & Hso & _).
  cbn [child_params pr_stdout child_start ep_tab] in S1, Ht. rewrite Hso, Hout in S1.
  destruct S1 as [Hne S1]. rewrite lookup_insert_ne in S1 by done.
  rewrite Ht in S1. destruct (decide _); [|done].
  destruct (t !! fd) as [ent|] eqn:Et; [|done].
  assert (t2 !! fd = Some ent) as E2.
  { rewrite Ht2, !lookup_insert_ne by congruence. done. }
  rewrite !lookup_insert_ne in S1 by congruence. rewrite E2 in S1.
  assert (f1 = f) as -> by congruence.
  cbn [child_end]. apply (flush_in wr io _ 1 b (mkFd f 0)); [done|done| |done].
  by rewrite Etab, Htab, lookup_insert_ne, lookup_insert by done.
Qed.
Print Assumptions C134_text_refuted.

(** What holds: nothing of this is done by a process that starts its program; and after a
    failed execve nothing is done if the program has no exit functions, no stream is
    redirected, and the descriptors with text are not passed on to the worker. *)
Theorem C134_quiet_partial ne c p evs t fl r wr io :
  kernel_ok ne t → wo_child (worker_new ne c p evs t) = Some (fl, r) →
  (∃ s', r = EpStarted s') ∨
  (execve_failed r ∧ io_handlers io = [] ∧
   cf_stdin c = None ∧ cf_stdout c = None ∧ cf_stderr c = None ∧
   (∀ n f, ee_devnull (pe_child (ne_proc ne)) n = Some f → wr f = false) ∧
   (∀ fd b, (fd, b) ∈ io_streams io → is_Some (t !! fd) ∧ fd ∉ inherit_handles p)) →
  child_end wr io r = [].
Proof.
  intros (Hl & _) Hc [[s' ->]|(Hf & Hh & Hi & Ho & He & Hnull & Hstr)]; [done|].
  destruct (worker_child _ _ _ _ _ _ _ Hc) as (fb & fc & ch & wh & t2 & p' & c' & fr & fw & rd &
    wrp & nr & t3 & (_ & F1 & F2 & _ & _ & _ & Ht2 & Hall & Hset) & _ & _ & G1 & G2 & _ & _ & _ & Hr & _).
  destruct (failed_ready _ _ _ r Hl (eq_sym Hr) eq_refl Hf) as
    (s1 & s' & -> & (_ & _ & _ & _ & tk & f0 & f1 & f2 & Ht & S0 & S1 & S2 & Htab & _) & Etab).
  destruct (set_env_spec _ _ _ Hset) as (_ & _ & _ & _ & _ & Hsi & Hso & Hse).
  destruct (allow_all_spec _ _ _ _ Hall) as (Hinh & _ & _).
  cbn [child_params pr_stdin pr_stdout pr_stderr child_start ep_tab] in S0, S1, S2, Ht.
  rewrite Hsi, Hi in S0. rewrite Hso, Ho in S1. rewrite Hse, He in S2.
  cbn [std_source] in S0, S1, S2. cbn [child_end].
  assert (∀ ev, ev ∉ exit_events wr io (ep_tab s')) as Hno.
  { intros [h|f b] Hev.
    - unfold exit_events in Hev. rewrite Hh in Hev. cbn [rev fmap list_fmap app] in Hev.
      apply elem_of_list_omap in Hev as ([fd b] & _ & Hfl). unfold flush in Hfl.
      cbn [fst snd] in Hfl. destruct b; [done|]. destruct (ep_tab s' !! fd); [|done].
      by destruct (wr _).
    - destruct (flush_only _ _ _ _ _ Hev) as (fd & ent & Hin & Hent & <- & Hw).
      destruct (Hstr fd b Hin) as [[ent0 Hopen] Hnot].
      rewrite Etab, Htab in Hent.
      destruct (decide (fd = 2)) as [->|N2].
      { rewrite lookup_insert in Hent. injection Hent as <-. apply Hnull in S2. cbn in Hw. congruence. }
      rewrite lookup_insert_ne in Hent by done.
      destruct (decide (fd = 1)) as [->|N1].
      { rewrite lookup_insert in Hent. injection Hent as <-. apply Hnull in S1. cbn in Hw. congruence. }
      rewrite lookup_insert_ne in Hent by done.
      destruct (decide (fd = 0)) as [->|N0].
      { rewrite lookup_insert in Hent. injection Hent as <-. apply Hnull in S0. cbn in Hw. congruence. }
      rewrite lookup_insert_ne in Hent by done. rewrite Ht in Hent.
      destruct (decide _) as [Hk|]; [|done]. unfold kept in Hk.
      cbn [child_params pr_allowed pr_pipe] in Hk. destruct Hk as [Hk|[Hk|Hk]].
      + lia.
      + apply elem_of_elements in Hk. unfold get_inherited_handles in Hk. rewrite Hinh in Hk.
        unfold streams in Hk. rewrite Hi, Ho, He in Hk. cbn in Hk.
        apply elem_of_union in Hk as [Hk|Hk]; [|done].
        apply elem_of_union in Hk as [Hk|Hk]; [|by apply elem_of_empty in Hk].
        apply elem_of_singleton in Hk. congruence.
      + assert (t2 !! fd = Some ent0); [|congruence].
        rewrite Ht2, !lookup_insert_ne by congruence. done. }
  destruct (exit_events wr io (ep_tab s')) as [|ev l]; [done|]. destruct (Hno ev). left.
Qed.
Print Assumptions C134_quiet_partial.

(** A broker with a log file as the worker's standard output, some text in its own
    buffer, and one exit function, as when it removes its temporary files. *)
Definition ex_out_config : config := mkConfig (lit "/bin/wroker") [lit "worker"] [lit "HOME=/"]
  None None (Some 3) None.
Definition ex_io : stdio := mkStdio [(1, lit "password: "); (2, [])] [77].
Lemma ex_failed_start : ∃ fl s,
  wo_child (worker_new (ex_new (Some 2) None) ex_out_config ex_pol [EvEof] ex_table) =
    Some (fl, EpExited s) ∧ execve_failed (EpExited s) ∧
  exit_events (λ _, true) ex_io (ep_tab s) = [XHandler 77; XWrite 103 (lit "password: ")] ∧
  exit_events (λ _, true) (mkStdio [(3, lit "x")] []) (ep_tab s) = [XWrite 103 (lit "x")].
Proof.
  destruct (wo_child (worker_new (ex_new (Some 2) None) ex_out_config ex_pol [EvEof] ex_table))
    as [[fl r]|] eqn:Ec; [|vm_compute in Ec; discriminate].
  vm_compute in Ec. injection Ec as <- <-. eexists _, _. split; [reflexivity|]. split.
  - exists (lit "/bin/wroker"), [lit "worker"], [lit "HOME=/"; lit "SANDBOX_IPC_HANDLE=5"], 2.
    cbn [final_state ep_trace].
    repeat first [apply elem_of_list_here | apply elem_of_list_further].
  - split; by vm_compute.
Qed.
Theorem C134_refuted : ¬ C134_full.
Proof.
  intros H. destruct ex_failed_start as (fl & s & Hc & _ & He & _).
  pose proof (H _ _ _ _ _ _ _ (λ _, true) ex_io (ex_new_ok _ _) Hc) as E.
  cbn [child_end] in E. rewrite He in E. discriminate E.
Qed.
Print Assumptions C134_refuted.

Example C134_example : ∃ fl s,
  wo_result (worker_new (ex_new (Some 2) None) ex_out_config ex_pol [EvEof] ex_table) =
    WnErr (OsFailed (lit "execve()") 2) ∧
  wo_child (worker_new (ex_new (Some 2) None) ex_out_config ex_pol [EvEof] ex_table) =
    Some (fl, EpExited s) ∧
  child_end (λ _, true) ex_io (EpExited s) = [XHandler 77; XWrite 103 (lit "password: ")] ∧
  child_end (λ _, true) (mkStdio [(3, lit "x")] []) (EpExited s) = [XWrite 103 (lit "x")].
Proof.
  destruct ex_failed_start as (fl & s & Hc & _ & He & He'). exists fl, s.
  split; [by vm_compute|]. split; [exact Hc|]. split; [exact He|exact He'].
Qed.
