(** Properties C47-C51: the state in which a worker's program starts. [s] is the state
    right after clone (a copy of the broker's), [s'] the state when the program starts. *)
From stdpp Require Import prelude gmap.
From Coq Require Import Strings.Byte ZifyN ZifyNat ZifyBool.
From Verif Require Import Bytes FdModel FdProofs BpfModel EntryModel EntryProofs.
Local Open Scope N_scope.

Definition inheritable (ent : fdent) : Prop := Z.testbit (fd_flags ent) 0 = false.
Global Instance inheritable_dec ent : Decision (inheritable ent).
Proof. unfold inheritable. apply _. Defined.

Lemma started_ready e p s s' :
  listing_ok e → clone_entrypoint e p s = EpStarted s' →
  ∃ s1, ready e p s s1 ∧
    (∀ f b, EpWrite f b ∈ ep_trace s1 → EpWrite f b ∈ ep_trace s ∨
       Some f ∈ [ee_setgroups e; ee_uid_map e; ee_gid_map e]) ∧
    s' = set_tab (close_on_exec (ep_tab s1)) s1.
Proof.
  intros Hl H. destruct (entry_cases e p s _ Hl H) as [(s1 & ? & _)|(s1 & Hr & Hw & Hm)]; [done|].
  cbv zeta in Hm. set (ev := EpExecve _ _ _ _) in Hm. exists (add_event ev s1).
  split; [by apply ready_event|]. split.
  - intros f b. cbn [add_event ep_trace]. rewrite elem_of_app. intros [Hin|Hin].
    + apply (Hw _ Hin).
    + by apply elem_of_list_singleton in Hin.
  - destruct (ee_execve e); [done|]. by injection Hm.
Qed.
Lemma close_on_exec_lookup t n :
  close_on_exec t !! n = match t !! n with
                         | Some ent => if decide (inheritable ent) then Some ent else None
                         | None => None
                         end.
Proof.
  unfold close_on_exec. destruct (t !! n) as [ent|] eqn:E.
  - destruct (decide (inheritable ent)) as [Hi|Hi].
    + by apply map_filter_lookup_Some.
    + apply map_filter_lookup_None. right. intros x Hx. rewrite E in Hx. by injection Hx as <-.
  - apply map_filter_lookup_None. by left.
Qed.

(* ---------------------------------------------------------------- C47 *)

(** The broker's descriptor [n] as it may be seen by the worker. *)
Definition passed_on (allowed : list N) (t : fdtab) (n : N) : option fdent :=
  match t !! n with
  | Some ent => if decide (n ∈ allowed ∧ inheritable ent) then Some ent else None
  | None => None
  end.

(** The three standard streams are open, and above them is exactly what the list allows
    and is not marked close-on-exec. The error pipe is marked (see ProcessProps). *)
Theorem C47_exact_descriptors e p s s' :
  listing_ok e → clone_entrypoint e p s = EpStarted s' →
  (∀ ent, ep_tab s !! pr_pipe p = Some ent → ¬ inheritable ent) →
  (∀ n, n ≤ 2 → is_Some (ep_tab s' !! n)) ∧
  (∀ n, 2 < n → ep_tab s' !! n = passed_on (pr_allowed p) (ep_tab s) n).
Proof.
  intros Hl H Hpipe.
  destruct (started_ready _ _ _ _ Hl H) as
    (s1 & (_ & _ & _ & _ & t & f0 & f1 & f2 & Ht & _ & _ & _ & Htab & _) & _ & ->).
  cbn [set_tab ep_tab]. rewrite Htab. split.
  - intros n Hn. rewrite close_on_exec_lookup.
    assert (n = 0 ∨ n = 1 ∨ n = 2) as [-> | [-> | ->]] by lia.
    + rewrite lookup_insert_ne, lookup_insert_ne, lookup_insert by done. by eexists.
    + rewrite lookup_insert_ne, lookup_insert by done. by eexists.
    + rewrite lookup_insert. by eexists.
  - intros n Hn. rewrite close_on_exec_lookup, !lookup_insert_ne, Ht by lia.
    unfold passed_on. destruct (ep_tab s !! n) as [ent|] eqn:En.
    2:{ by destruct (decide _). }
    destruct (decide (kept p n)) as [Hk|Hk].
    + destruct (decide (inheritable ent)) as [Hi|Hi].
      * rewrite decide_True; [done|]. split; [|done].
        destruct Hk as [Hk|[Hk|Hk]]; [lia|done|]. subst n. by destruct (Hpipe _ En).
      * rewrite decide_False; [done|]. by intros [].
    + rewrite decide_False; [done|]. intros [Ha _]. apply Hk. right. by left.
Qed.
Print Assumptions C47_exact_descriptors.

(** With nothing to inherit the program is never started (the clean-up closes the
    directory it reads). *)
Theorem C47_empty_list e p s s' :
  listing_ok e → pr_allowed p = [] → clone_entrypoint e p s ≠ EpStarted s'.
Proof.
  intros Hl Hp H. destruct (started_ready _ _ _ _ Hl H) as (s1 & (_ & _ & Hne & _) & _). done.
Qed.
Print Assumptions C47_empty_list.

(** A broker with descriptors 0-2, a secret file (3), both ends of the channel (4, 5), the
    error pipe (6, 7), an allowed file (9) and one more secret (300). *)
Definition caps0 : caps := mkCaps ∅ ∅ ∅ ∅ ∅.
Definition cap_env0 : cap_env := mkCapEnv true true true true 41 (λ _, false) true true.
Definition tab0 : fdtab := list_to_map [(0, mkFd 100 0); (1, mkFd 101 0); (2, mkFd 102 0);
  (3, mkFd 103 0); (4, mkFd 104 0); (5, mkFd 105 0); (6, mkFd 106 0); (7, mkFd 107 1);
  (9, mkFd 109 0); (300, mkFd 400 0)].
Definition env0 : ep_env := mkEpEnv 1024 true (Some 500) (Some 501) None (λ _, true) cap_env0
  (Some 502) true (λ t, (map_to_list t).*1) None (λ _, true) (λ _, true)
  (λ n, Some (600 + n)) None.
Definition start0 (t : fdtab) (c : caps) : ep_state := mkEp t false c [] 0 [] (lit "/").
Lemma env0_listing : listing_ok env0.
Proof.
  intros t n. cbn [env0 ee_listing]. rewrite elem_of_list_fmap. split.
  - intros ([m ent] & -> & H). apply elem_of_map_to_list in H. by exists ent.
  - intros [ent H]. exists (n, ent). split; [done|]. by apply elem_of_map_to_list.
Qed.
Definition params_of (allowed : list N) (pipe : N) (i o r : option N) : ep_params :=
  mkParams (lit "1000 1000 1") [] allowed pipe i o r (lit "/bin/worker") [lit "worker"; lit "-v"]
    [lit "HOME=/"].
Definition params0 : ep_params := params_of [5; 9] 7 (Some 9) None None.
Example C47_example : ∃ s',
  clone_entrypoint env0 params0 (start0 tab0 caps0) = EpStarted s' ∧
  map_to_list (fd_file <$> ep_tab s') ≡ₚ [(0, 109); (1, 601); (2, 602); (5, 105); (9, 109)].
Proof.
  eexists. split; [vm_compute; reflexivity|].
  apply NoDup_Permutation.
  - apply NoDup_map_to_list.
  - apply (bool_decide_unpack _). by vm_compute.
  - intros x. vm_compute map_to_list. set_solver.
Qed.

(* ---------------------------------------------------------------- C48 *)

(** The file a stream was configured to be: that of a descriptor of the broker, or
    /dev/null opened for this stream. *)
Definition configured (s s' : ep_state) (rw : option N) (f : N) : Prop :=
  match rw with
  | Some fd => fd_file <$> ep_tab s !! fd = Some f
  | None => ∃ flags, EpOpen (lit "/dev/null") flags f ∈ ep_trace s'
  end.
Definition stream (s' : ep_state) (n : N) : option N := fd_file <$> ep_tab s' !! n.

(** Full statement of C48. It is false, see [C48_refuted]. *)
Definition C48_full : Prop := ∀ e p s s',
  listing_ok e → clone_entrypoint e p s = EpStarted s' →
  ∃ f0 f1 f2, stream s' 0 = Some f0 ∧ stream s' 1 = Some f1 ∧ stream s' 2 = Some f2 ∧
    configured s s' (pr_stdin p) f0 ∧ configured s s' (pr_stdout p) f1 ∧
    configured s s' (pr_stderr p) f2.

Lemma kept_file (e : ep_env) p (t t0 : fdtab) fd f :
  (∀ n, t !! n = if decide (kept p n) then t0 !! n else None) →
  fd_file <$> t !! fd = Some f → fd_file <$> t0 !! fd = Some f.
Proof. intros Ht. rewrite Ht. by destruct (decide _). Qed.

(** What is missing: stdout taken from the broker's descriptor 0, and stderr from its
    descriptors 0 or 1. *)
Theorem C48_streams_partial e p s s' :
  listing_ok e → clone_entrypoint e p s = EpStarted s' →
  pr_stdout p ≠ Some 0 → pr_stderr p ≠ Some 0 → pr_stderr p ≠ Some 1 →
  ∃ f0 f1 f2, stream s' 0 = Some f0 ∧ stream s' 1 = Some f1 ∧ stream s' 2 = Some f2 ∧
    configured s s' (pr_stdin p) f0 ∧ configured s s' (pr_stdout p) f1 ∧
    configured s s' (pr_stderr p) f2.
Proof.
  intros Hl H Ho Hr0 Hr1.
  destruct (started_ready _ _ _ _ Hl H) as
    (s1 & (_ & _ & _ & _ & t & f0 & f1 & f2 & Ht & S0 & S1 & S2 & Htab & Hnull) & _ & ->).
  exists f0, f1, f2. unfold stream, configured. cbn [set_tab ep_tab ep_trace].
  rewrite Htab, !close_on_exec_lookup.
  split; [by rewrite lookup_insert_ne, lookup_insert_ne, lookup_insert by done|].
  split; [by rewrite lookup_insert_ne, lookup_insert by done|].
  split; [by rewrite lookup_insert|].
  split; [|split].
  - destruct (pr_stdin p) as [fd|] eqn:E.
    + destruct S0 as [_ S0]. by eapply kept_file.
    + eexists. apply (Hnull 0 None f0); [left|done].
  - destruct (pr_stdout p) as [fd|] eqn:E.
    + destruct S1 as [_ S1]. rewrite lookup_insert_ne in S1 by congruence. by eapply kept_file.
    + eexists. apply (Hnull 1 None f1); [right; left|done].
  - destruct (pr_stderr p) as [fd|] eqn:E.
    + destruct S2 as [_ S2]. rewrite !lookup_insert_ne in S2 by congruence. by eapply kept_file.
    + eexists. apply (Hnull 2 None f2); [right; right; left|done].
Qed.
Print Assumptions C48_streams_partial.

(** stdout from the broker's standard input: the worker writes to its own standard
    input's file instead. *)
Theorem C48_refuted : ¬ C48_full.
Proof.
  intros H.
  set (p := params_of [5; 9] 7 (Some 9) (Some 0) None).
  destruct (clone_entrypoint env0 p (start0 tab0 caps0)) as [|s'] eqn:E;
    [vm_compute in E; discriminate|].
  destruct (H env0 p _ _ env0_listing E) as (f0 & f1 & f2 & _ & H1 & _ & _ & H2 & _).
  vm_compute in E. injection E as <-. vm_compute in H1, H2. congruence.
Qed.
Print Assumptions C48_refuted.
(** A stream redirected to the broker's stream of the same number: no worker at all. *)
Theorem C48_same_number_refuted e p s s' :
  listing_ok e → pr_stdin p = Some 0 ∨ pr_stdout p = Some 1 ∨ pr_stderr p = Some 2 →
  clone_entrypoint e p s ≠ EpStarted s'.
Proof.
  intros Hl Hs H.
  destruct (started_ready _ _ _ _ Hl H) as
    (s1 & (_ & _ & _ & _ & t & f0 & f1 & f2 & _ & S0 & S1 & S2 & _) & _).
  destruct Hs as [Hs|[Hs|Hs]].
  - rewrite Hs in S0. by destruct S0.
  - rewrite Hs in S1. by destruct S1.
  - rewrite Hs in S2. by destruct S2.
Qed.
Print Assumptions C48_same_number_refuted.

Example C48_example : ∃ s',
  clone_entrypoint env0 (params_of [5; 9] 7 (Some 2) (Some 9) (Some 9)) (start0 tab0 caps0)
    = EpStarted s' ∧
  stream s' 0 = Some 102 ∧ stream s' 1 = Some 109 ∧ stream s' 2 = Some 109.
Proof. eexists. split; [vm_compute; reflexivity|]. by vm_compute. Qed.

(* ---------------------------------------------------------------- C49 *)

(** write(2) on a descriptor: EBADF (9) if it is closed or its file was opened for
    reading only. *)
Definition EBADF : N := 9.
Definition read_only (s : ep_state) (f : N) : Prop :=
  ∃ path flags, EpOpen path flags f ∈ ep_trace s ∧ Z.land flags 3 = O_RDONLY.
Inductive write_result (s : ep_state) (fd : N) : option N → Prop :=
  | WrClosed : ep_tab s !! fd = None → write_result s fd (Some EBADF)
  | WrReadOnly ent : ep_tab s !! fd = Some ent → read_only s (fd_file ent) →
                     write_result s fd (Some EBADF)
  | WrOk ent : ep_tab s !! fd = Some ent → ¬ read_only s (fd_file ent) → write_result s fd None.

(** Full statement of C49: false for every worker. *)
Definition C49_full : Prop := ∀ e p s s',
  listing_ok e → clone_entrypoint e p s = EpStarted s' →
  (pr_stdout p = None → write_result s' 1 None) ∧ (pr_stderr p = None → write_result s' 2 None).

Theorem C49_every_write_fails_refuted e p s s' :
  listing_ok e → clone_entrypoint e p s = EpStarted s' →
  (pr_stdout p = None → ∀ r, write_result s' 1 r → r = Some EBADF) ∧
  (pr_stderr p = None → ∀ r, write_result s' 2 r → r = Some EBADF).
Proof.
  intros Hl H.
  destruct (started_ready _ _ _ _ Hl H) as
    (s1 & (_ & _ & _ & _ & t & f0 & f1 & f2 & _ & _ & _ & _ & Htab & Hnull) & _ & ->).
  assert (E1 : close_on_exec (ep_tab s1) !! 1 = Some (mkFd f1 0)).
  { by rewrite close_on_exec_lookup, Htab, lookup_insert_ne, lookup_insert by done. }
  assert (E2 : close_on_exec (ep_tab s1) !! 2 = Some (mkFd f2 0)).
  { by rewrite close_on_exec_lookup, Htab, lookup_insert. }
  split; intros Hn r Hr.
  - assert (Hro : read_only s1 f1).
    { eexists _, O_RDONLY. split; [|reflexivity]. apply (Hnull 1 _ f1 ltac:(right; left) Hn). }
    destruct Hr as [|ent|ent Hl' Hno]; try done.
    cbn [set_tab ep_tab] in Hl'. rewrite E1 in Hl'. injection Hl' as <-. by destruct Hno.
  - assert (Hro : read_only s1 f2).
    { eexists _, O_RDONLY. split; [|reflexivity]. apply (Hnull 2 _ f2 ltac:(right; right; left) Hn). }
    destruct Hr as [|ent|ent Hl' Hno]; try done.
    cbn [set_tab ep_tab] in Hl'. rewrite E2 in Hl'. injection Hl' as <-. by destruct Hno.
Qed.
Print Assumptions C49_every_write_fails_refuted.
Theorem C49_refuted : ¬ C49_full.
Proof.
  intros H.
  destruct (clone_entrypoint env0 params0 (start0 tab0 caps0)) as [|s'] eqn:E;
    [vm_compute in E; discriminate|].
  destruct (H _ _ _ _ env0_listing E) as [H1 _].
  destruct (C49_every_write_fails_refuted _ _ _ _ env0_listing E) as [H2 _].
  specialize (H2 eq_refl _ (H1 eq_refl)). discriminate.
Qed.
Print Assumptions C49_refuted.
Example C49_example : ∃ s',
  clone_entrypoint env0 params0 (start0 tab0 caps0) = EpStarted s' ∧
  EpOpen (lit "/dev/null") O_RDONLY 601 ∈ ep_trace s' ∧ stream s' 1 = Some 601.
Proof.
  eexists. split; [vm_compute; reflexivity|]. split; [|by vm_compute].
  cbn [ep_trace]. rewrite !elem_of_cons. auto 10.
Qed.

(* ---------------------------------------------------------------- C50 *)

(** A standard stream was set up: its descriptor is open, not close-on-exec, and the call
    that made it (dup of another descriptor, or open of /dev/null) succeeded. *)
Definition set_up (e : ep_env) (s' : ep_state) (num : N) (rw : option N) : Prop :=
  ∃ f, ep_tab s' !! num = Some (mkFd f 0) ∧
    match rw with Some fd => fd ≠ num | None => ee_devnull e num = Some f end.

Theorem C50_no_new_privs e p s s' :
  listing_ok e → clone_entrypoint e p s = EpStarted s' →
  ee_nnp e = true ∧ ep_nnp s' = true ∧
  set_up e s' 0 (pr_stdin p) ∧ set_up e s' 1 (pr_stdout p) ∧ set_up e s' 2 (pr_stderr p).
Proof.
  intros Hl H.
  destruct (started_ready _ _ _ _ Hl H) as
    (s1 & (Hn & Hn' & _ & _ & t & f0 & f1 & f2 & _ & S0 & S1 & S2 & Htab & _) & _ & ->).
  split; [done|]. split; [done|]. unfold set_up. cbn [set_tab ep_tab]. rewrite Htab.
  split; [|split].
  - exists f0. rewrite close_on_exec_lookup, lookup_insert_ne, lookup_insert_ne, lookup_insert by done.
    split; [done|]. destruct (pr_stdin p); [by destruct S0|done].
  - exists f1. rewrite close_on_exec_lookup, lookup_insert_ne, lookup_insert by done.
    split; [done|]. destruct (pr_stdout p); [by destruct S1|done].
  - exists f2. rewrite close_on_exec_lookup, lookup_insert. split; [done|].
    destruct (pr_stderr p); [by destruct S2|done].
Qed.
Print Assumptions C50_no_new_privs.

(** Nothing is executed earlier either: whenever execve was called, successfully or not,
    those steps had succeeded. *)
Theorem C50_before_execve e p s r exe argv envp answer :
  listing_ok e → clone_entrypoint e p s = r →
  (∀ x a v w, EpExecve x a v w ∉ ep_trace s) →
  EpExecve exe argv envp answer ∈
    ep_trace (match r with EpExited s' => s' | EpStarted s' => s' end) →
  let s' := match r with EpExited s' => s' | EpStarted s' => s' end in
  exe = pr_exe p ∧ argv = pr_argv p ∧ envp = pr_envp p ∧
  ee_nnp e = true ∧ ep_nnp s' = true ∧
  set_up e s' 0 (pr_stdin p) ∧ set_up e s' 1 (pr_stdout p) ∧ set_up e s' 2 (pr_stderr p).
Proof.
  intros Hl H Hno Hin. cbv zeta.
  destruct (entry_cases e p s _ Hl H) as [(s1 & -> & Hw)|(s1 & Hr & Hw & Hm)].
  { exfalso. destruct (Hw _ Hin) as [|[]]. by eapply Hno. }
  cbv zeta in Hm.
  assert (Hex : exe = pr_exe p ∧ argv = pr_argv p ∧ envp = pr_envp p).
  { assert (Hin' : EpExecve exe argv envp answer ∈ ep_trace s1 ++
      [EpExecve (pr_exe p) (pr_argv p) (pr_envp p) (ee_execve e)]).
    { destruct (ee_execve e); rewrite Hm in Hin; [|exact Hin]. revert Hin. unfold ep_write.
      cbn [add_event ep_tab ep_trace]. destruct (_ !! _); [|done].
      cbn [add_event ep_trace]. rewrite elem_of_app. intros [|Hin]; [done|].
      by apply elem_of_list_singleton in Hin. }
    apply elem_of_app in Hin' as [Hin'|Hin'].
    - destruct (Hw _ Hin') as [|[]]. exfalso. by eapply Hno.
    - apply elem_of_list_singleton in Hin'. by injection Hin' as -> -> -> _. }
  destruct Hex as (-> & -> & ->). do 3 (split; [done|]).
  destruct (ee_execve e) as [errno|] eqn:Eex.
  - rewrite Hm.
    set (s2 := add_event _ s1) in *. set (s3 := ep_write _ _ s2) in *.
    assert (H3 : ep_tab s3 = ep_tab s1 ∧ ep_nnp s3 = ep_nnp s1).
    { subst s3. unfold ep_write. by destruct (ep_tab s2 !! pr_pipe p). }
    destruct H3 as [Ht3 Hn3].
    destruct Hr as (Hn & Hn' & _ & _ & t & f0 & f1 & f2 & _ & S0 & S1 & S2 & Htab & _).
    split; [done|]. split; [congruence|]. unfold set_up. rewrite Ht3, Htab. split; [|split].
    + exists f0. rewrite lookup_insert_ne, lookup_insert_ne, lookup_insert by done.
      split; [done|]. destruct (pr_stdin p); [by destruct S0|done].
    + exists f1. rewrite lookup_insert_ne, lookup_insert by done.
      split; [done|]. destruct (pr_stdout p); [by destruct S1|done].
    + exists f2. rewrite lookup_insert. split; [done|].
      destruct (pr_stderr p); [by destruct S2|done].
  - rewrite Hm in H |- *.
    destruct (C50_no_new_privs e p s _ Hl H) as (H1 & H2 & H3 & H4 & H5).
    by repeat split.
Qed.
Print Assumptions C50_before_execve.
(** So if the prctl fails, or a stream cannot be set up, the program does not start. *)
Example C50_example :
  let bad n := mkEpEnv 1024 n (Some 500) None None (λ _, false) cap_env0 (Some 502) true
                 (λ t, (map_to_list t).*1) None (λ _, true) (λ _, true)
                 (λ n, if n =? 2 then None else Some 600) None in
  (∃ s', clone_entrypoint (bad true) params0 (start0 tab0 caps0) = EpExited s' ∧ ep_nnp s' = true) ∧
  (∃ s', clone_entrypoint (bad false) params0 (start0 tab0 caps0) = EpExited s' ∧ ep_nnp s' = false).
Proof. split; eexists; (split; [vm_compute; reflexivity|done]). Qed.

(* ---------------------------------------------------------------- C51 *)

Definition no_caps (c : caps) : Prop := c_perm c = ∅ ∧ c_eff c = ∅ ∧ c_inh c = ∅ ∧ c_amb c = ∅.
(** All calls of drop_capabilities succeed. *)
Definition cap_calls_ok (e : cap_env) : Prop :=
  ce_get_proc e = true ∧ ce_get_flag e = true ∧ ce_set_flag e = true ∧ ce_raise e = true ∧
  (∀ c, c < ce_count e → ce_refuse e c = false) ∧ ce_clear e = true ∧ ce_final e = true.

(** Full statement of C51, as if failures were fatal. It is false. *)
Definition C51_full : Prop := ∀ e p s s',
  listing_ok e → (∀ c, c ∈ c_bound (ep_caps s) → c < ce_count (ee_caps e)) →
  clone_entrypoint e p s = EpStarted s' → no_caps (ep_caps s') ∧ c_bound (ep_caps s') = ∅.

Lemma drop_loop_spec e c0 fuel cap :
  (∀ c, c < ce_count e → ce_refuse e c = false) → CAP_SETPCAP ∈ c_eff c0 →
  ce_count e ≤ cap + N.of_nat fuel →
  (∀ c, c ∈ c_bound c0 → cap ≤ c < ce_count e) →
  c_bound (drop_loop fuel e cap c0) = ∅.
Proof.
  intros Hr. revert cap c0. induction fuel as [|fuel IH]; intros cap c0 Hs Hf Hb.
  { cbn [drop_loop]. apply elem_of_equiv_empty_L. intros c Hc. specialize (Hb c Hc). lia. }
  cbn [drop_loop]. unfold cap_drop_bound. rewrite (bool_decide_true _ Hs).
  destruct (N.ltb_spec cap (ce_count e)) as [Hlt|Hge].
  - rewrite Hr by done. cbn [andb negb]. apply IH.
    + done.
    + lia.
    + intros c Hc. cbn [c_bound] in Hc. apply elem_of_difference in Hc as [Hc Hn].
      rewrite elem_of_singleton in Hn. specialize (Hb c Hc). lia.
  - cbn [andb]. apply elem_of_equiv_empty_L. intros c Hc. specialize (Hb c Hc). lia.
Qed.

(** What is missing: failing calls, and the bounding set of a process without
    CAP_SETPCAP. *)
Theorem C51_dropped_partial e p s s' :
  listing_ok e → clone_entrypoint e p s = EpStarted s' → cap_calls_ok (ee_caps e) →
  no_caps (ep_caps s') ∧
  (CAP_SETPCAP ∈ c_perm (ep_caps s) →
   (∀ c, c ∈ c_bound (ep_caps s) → c < ce_count (ee_caps e)) → c_bound (ep_caps s') = ∅).
Proof.
  intros Hl H (H1 & H2 & H3 & H4 & H5 & H6 & H7).
  destruct (started_ready _ _ _ _ Hl H) as (s1 & (_ & _ & _ & Hc & _) & _ & ->).
  cbn [set_tab ep_caps]. rewrite Hc. unfold drop_capabilities.
  rewrite H1, H2, H3, H4, H6, H7. cbn [negb]. split; [by repeat split|].
  intros Hp Hb. cbn [c_bound]. rewrite bool_decide_true by done.
  apply drop_loop_spec; [done|cbn; set_solver|lia|].
  intros c Hcin. cbn [c_bound] in Hcin. specialize (Hb c Hcin). lia.
Qed.
Print Assumptions C51_dropped_partial.

(** If only the last call succeeds the four sets are still emptied. *)
Theorem C51_final_call_partial e p s s' :
  listing_ok e → clone_entrypoint e p s = EpStarted s' →
  ce_get_proc (ee_caps e) = true → ce_clear (ee_caps e) = true → ce_final (ee_caps e) = true →
  no_caps (ep_caps s').
Proof.
  intros Hl H H1 H2 H3.
  destruct (started_ready _ _ _ _ Hl H) as (s1 & (_ & _ & _ & Hc & _) & _ & ->).
  cbn [set_tab ep_caps]. rewrite Hc. unfold drop_capabilities.
  rewrite H1, H2, H3. by repeat split.
Qed.
Print Assumptions C51_final_call_partial.

(** cap_set_proc fails: the program starts with all its capabilities. *)
Definition full_caps : caps := mkCaps {[0; 8; 21]} {[0; 21]} ∅ ∅ {[0; 8; 21]}.
Definition env_with_caps (c : cap_env) : ep_env := mkEpEnv 1024 true None None None (λ _, false) c
  (Some 502) true (λ t, (map_to_list t).*1) None (λ _, true) (λ _, true) (λ n, Some (600 + n)) None.
Lemma env_with_caps_listing c : listing_ok (env_with_caps c).
Proof. apply env0_listing. Qed.
Theorem C51_refuted : ¬ C51_full.
Proof.
  intros H.
  set (e := env_with_caps (mkCapEnv true true true true 41 (λ _, false) true false)).
  destruct (clone_entrypoint e params0 (start0 tab0 full_caps)) as [|s'] eqn:E;
    [vm_compute in E; discriminate|].
  assert (Hb : ∀ c, c ∈ c_bound (ep_caps (start0 tab0 full_caps)) → c < ce_count (ee_caps e)).
  { intros c Hc. cbn in Hc. change (c < 41).
    rewrite !elem_of_union, !elem_of_singleton in Hc. lia. }
  destruct (H e params0 _ _ (env_with_caps_listing _) Hb E) as [(Hp & _) _].
  vm_compute in E. injection E as <-. vm_compute in Hp. discriminate.
Qed.
Print Assumptions C51_refuted.
(** No call fails, but without CAP_SETPCAP (an ordinary user without user namespaces) the
    bounding set stays. *)
Theorem C51_bounding_refuted : ∃ e p s s',
  listing_ok e ∧ cap_calls_ok (ee_caps e) ∧ clone_entrypoint e p s = EpStarted s' ∧
  c_bound (ep_caps s') ≠ ∅.
Proof.
  exists env0, params0, (start0 tab0 (mkCaps ∅ ∅ ∅ ∅ {[0; 21]})).
  destruct (clone_entrypoint env0 params0 (start0 tab0 (mkCaps ∅ ∅ ∅ ∅ {[0; 21]}))) as [|s'] eqn:E;
    [vm_compute in E; discriminate|].
  exists s'. split; [apply env0_listing|]. split; [by repeat split|]. split; [done|].
  vm_compute in E. injection E as <-. vm_compute. discriminate.
Qed.
Print Assumptions C51_bounding_refuted.
Example C51_example : ∃ s',
  clone_entrypoint env0 params0 (start0 tab0 full_caps) = EpStarted s' ∧
  no_caps (ep_caps s') ∧ c_bound (ep_caps s') = ∅.
Proof.
  destruct (clone_entrypoint env0 params0 (start0 tab0 full_caps)) as [|s'] eqn:E;
    [vm_compute in E; discriminate|].
  exists s'. split; [done|].
  destruct (C51_dropped_partial _ _ _ _ env0_listing E) as [H1 H2]; [by repeat split|].
  split; [done|]. apply H2.
  - cbn. set_solver.
  - intros c Hc. cbn in Hc. change (c < 41).
    rewrite !elem_of_union, !elem_of_singleton in Hc. lia.
Qed.
