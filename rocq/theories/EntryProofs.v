(** Lemmas about the entry point of the new process. *)
From stdpp Require Import prelude gmap.
From Coq Require Import Strings.Byte.
From Verif Require Import Bytes FdModel FdProofs BpfModel EntryModel.
Local Open Scope N_scope.

(** Everything but the table and the trace. *)
Definition same_rest (s s' : ep_state) : Prop :=
  ep_nnp s' = ep_nnp s ∧ ep_caps s' = ep_caps s ∧ ep_umask s' = ep_umask s.

Lemma ep_open_spec e path flags file s n s' :
  ep_open e path flags file s = Some (n, s') →
  ∃ f, file = Some f ∧ ep_tab s !! n = None ∧
    ep_tab s' = <[n := mkFd f (if Z.testbit flags 19 then FD_CLOEXEC else 0%Z)]> (ep_tab s) ∧
    ep_trace s' = ep_trace s ++ [EpOpen path flags f] ∧
    ep_unshared s' = ep_unshared s ∧ same_rest s s'.
Proof.
  unfold ep_open. destruct file as [f|]; [|done].
  unfold fd_install. destruct (_ <? _); [|done].
  intros [= <- <-]. exists f. repeat split; try done.
  apply lowest_free_None.
Qed.

(** Only the three files of /proc/self are written to, and nothing is executed. *)
Definition writes_ok (e : ep_env) (s s' : ep_state) : Prop := ∀ v,
  v ∈ ep_trace s' →
  v ∈ ep_trace s ∨
  match v with
  | EpOpen _ _ _ => True
  | EpWrite f _ => Some f ∈ [ee_setgroups e; ee_uid_map e; ee_gid_map e]
  | EpExecve _ _ _ _ => False
  end.
Lemma writes_refl e s s' : ep_trace s' = ep_trace s → writes_ok e s s'.
Proof. intros H v. rewrite H. by left. Qed.
Lemma writes_trans e s1 s2 s3 : writes_ok e s1 s2 → writes_ok e s2 s3 → writes_ok e s1 s3.
Proof. intros H1 H2 v H. destruct (H2 _ H) as [|]; [by apply H1|by right]. Qed.
Lemma writes_open e s s' path flags f :
  ep_trace s' = ep_trace s ++ [EpOpen path flags f] → writes_ok e s s'.
Proof.
  intros H v. rewrite H, elem_of_app. intros [|Hin]; [by left|].
  apply elem_of_list_singleton in Hin as ->. by right.
Qed.

Lemma write_proc_spec e path file bytes s :
  ep_tab (write_proc e path file bytes s) = ep_tab s ∧
  same_rest s (write_proc e path file bytes s) ∧
  (file ∈ [ee_setgroups e; ee_uid_map e; ee_gid_map e] →
   writes_ok e s (write_proc e path file bytes s)).
Proof.
  unfold write_proc. destruct (ep_open _ _ _ _ _) as [[n s']|] eqn:E.
  2:{ repeat split. intros _. by apply writes_refl. }
  destruct (ep_open_spec _ _ _ _ _ _ _ E) as (f & Hf & Hn & Ht & Htr & _ & H1 & H2 & H3).
  unfold ep_write. rewrite Ht, lookup_insert. cbn [fd_file].
  unfold ep_close, sys_close. cbn [ep_tab add_event]. rewrite Ht, lookup_insert.
  cbn [set_tab ep_tab ep_nnp ep_caps ep_umask add_event].
  split; [by rewrite delete_insert|]. split; [by repeat split|].
  intros Hin v. cbn [ep_trace set_tab add_event]. rewrite Htr, !elem_of_app.
  intros [[|H]|H]; [by left| |]; apply elem_of_list_singleton in H as ->; right; [done|].
  by rewrite <-Hf.
Qed.

Lemma unshare_spec e n s :
  ep_tab (unshare e n s) = ep_tab s ∧ same_rest s (unshare e n s) ∧
  ep_trace (unshare e n s) = ep_trace s.
Proof. unfold unshare. destruct (ee_unshare e n); by repeat split. Qed.

Lemma cleanup_spec e p fds_fd count fds s s' :
  cleanup e p fds_fd count fds s = Some s' →
  (∀ n, ep_tab s' !! n = if decide (n ∈ fds ∧ keep p fds_fd n = false) then None
                         else ep_tab s !! n) ∧
  is_Some (ep_tab s' !! fds_fd) ∧ same_rest s s' ∧
  ep_trace s' = ep_trace s ∧ ep_unshared s' = ep_unshared s.
Proof.
  revert count s. induction fds as [|fd fds IH]; intros count s H; cbn [cleanup] in H.
  - case_bool_decide; [done|]. destruct (ep_tab s !! fds_fd) eqn:E; [|done].
    injection H as <-. split; [|by rewrite E; repeat split].
    intros n. rewrite decide_False; [done|]. intros [Hn _]. by apply elem_of_nil in Hn.
  - case_bool_decide; [done|].
    destruct (keep p fds_fd fd) eqn:Ek.
    + destruct (IH _ _ H) as (Ht & Hr). split; [|done]. intros n. rewrite Ht.
      destruct (decide (n ∈ fds ∧ keep p fds_fd n = false)) as [[Hn Hk]|Hne].
      * rewrite decide_True; [done|]. split; [by right|done].
      * rewrite decide_False; [done|]. intros [Hn Hk]. apply elem_of_cons in Hn as [->|Hn];
          [congruence|]. by apply Hne.
    + unfold sys_close in H. destruct (ep_tab s !! fd) eqn:E; [|done].
      destruct (ee_close e fd); [|done].
      destruct (IH _ _ H) as (Ht & Hs & (R1 & R2 & R3) & R4 & R5).
      split; [|by repeat split].
      intros n. rewrite Ht. cbn [set_tab ep_tab].
      destruct (decide (n ∈ fds ∧ keep p fds_fd n = false)) as [[Hn Hk]|Hne].
      * rewrite decide_True; [done|]. split; [by right|done].
      * destruct (decide (n = fd)) as [->|Hnf].
        -- rewrite decide_True by (split; [by left|done]). by rewrite lookup_delete.
        -- rewrite lookup_delete_ne by done. rewrite decide_False; [done|].
           intros [Hn Hk]. apply elem_of_cons in Hn as [->|Hn]; [done|]. by apply Hne.
Qed.

(** Where a standard stream comes from: the file [f], in the table [t] with the stream's
    own number closed. *)
Definition std_source (e : ep_env) (t : fdtab) (num : N) (rw : option N) (f : N) : Prop :=
  match rw with
  | Some fd => fd ≠ num ∧ fd_file <$> t !! fd = Some f
  | None => ee_devnull e num = Some f
  end.

Lemma ep_close_spec fd s :
  ep_tab (ep_close fd s) = delete fd (ep_tab s) ∧ same_rest s (ep_close fd s) ∧
  ep_trace (ep_close fd s) = ep_trace s ∧ ep_unshared (ep_close fd s) = ep_unshared s.
Proof.
  unfold ep_close, sys_close. destruct (ep_tab s !! fd) eqn:E.
  - by repeat split.
  - split; [|by repeat split]. by rewrite delete_notin.
Qed.

Lemma setup_std_spec e num rw s s' :
  setup_std e num rw s = Some s' →
  ∃ f, std_source e (ep_tab s) num rw f ∧
    ep_tab s' = <[num := mkFd f 0]> (ep_tab s) ∧ same_rest s s' ∧
    ep_unshared s' = ep_unshared s ∧
    ep_trace s' = ep_trace s ++
      match rw with Some _ => [] | None => [EpOpen (lit "/dev/null") O_RDONLY f] end.
Proof.
  unfold setup_std.
  destruct (ep_close_spec num s) as (Ht & (R1 & R2 & R3) & R4 & R5).
  destruct rw as [fd|].
  - destruct (ee_dup e num); [|done]. unfold sys_dup. rewrite Ht.
    destruct (decide (fd = num)) as [->|Hne]; [by rewrite lookup_delete|].
    rewrite lookup_delete_ne by done.
    destruct (ep_tab s !! fd) as [ent|] eqn:E; [|done].
    unfold fd_install. destruct (_ <? _); [|done].
    destruct (N.eqb_spec (lowest_free (delete num (ep_tab s))) num) as [En|]; [|done].
    intros [= <-]. exists (fd_file ent). cbn [std_source]. rewrite E.
    repeat split; try done; cbn.
    + by rewrite En, insert_delete_insert.
    + by rewrite R4, app_nil_r.
  - destruct (ep_open e _ _ _ _) as [[res s1]|] eqn:E; [|done].
    destruct (ep_open_spec _ _ _ _ _ _ _ E) as (f & Hf & Hn & Ht1 & Htr & Hu & H1 & H2 & H3).
    destruct (N.eqb_spec res num) as [->|]; [|done]. intros [= <-].
    exists f. cbn [std_source]. split; [done|]. split.
    { rewrite Ht1, Ht. cbn. by rewrite insert_delete_insert. }
    split; [|split].
    + repeat split; congruence.
    + congruence.
    + by rewrite Htr, R4.
Qed.

(** The directory lists what is open. *)
Definition listing_ok (e : ep_env) : Prop := ∀ t n, n ∈ ee_listing e t ↔ is_Some (t !! n).

(** What survives the clean-up. *)
Definition kept (p : ep_params) (n : N) : Prop := n ≤ 2 ∨ n ∈ pr_allowed p ∨ n = pr_pipe p.
Global Instance kept_dec p n : Decision (kept p n).
Proof. unfold kept. apply _. Defined.

Lemma keep_spec p fds_fd n :
  keep p fds_fd n = true ↔ pr_allowed p ≠ [] ∧ (kept p n ∨ n = fds_fd).
Proof.
  unfold keep, kept. rewrite existsb_exists. split.
  - intros (a & Ha & H). split; [by intros E; rewrite E in Ha|].
    rewrite !orb_true_iff, N.leb_le, !N.eqb_eq in H.
    destruct H as [[[H|H]|H]|H]; auto.
    subst. left. right. left. by apply elem_of_list_In.
  - intros [Hne H]. destruct H as [[H|[H|H]]|H].
    + destruct (pr_allowed p) as [|a l]; [done|]. exists a. split; [by left|].
      rewrite (proj2 (N.leb_le n 2)) by done. done.
    + exists n. split; [by apply elem_of_list_In|]. rewrite N.eqb_refl. by rewrite orb_true_r.
    + destruct (pr_allowed p) as [|a l]; [done|]. exists a. split; [by left|].
      subst. rewrite N.eqb_refl. by rewrite !orb_true_r.
    + destruct (pr_allowed p) as [|a l]; [done|]. exists a. split; [by left|].
      subst. rewrite N.eqb_refl. by rewrite !orb_true_r.
Qed.

(** How far the process came before execve: the table before execve. *)
Definition ready (e : ep_env) (p : ep_params) (s s' : ep_state) : Prop :=
  ee_nnp e = true ∧ ep_nnp s' = true ∧ pr_allowed p ≠ [] ∧
  ep_caps s' = drop_capabilities (ee_caps e) (ep_caps s) ∧
  ∃ t f0 f1 f2,
    (∀ n, t !! n = if decide (kept p n) then ep_tab s !! n else None) ∧
    std_source e t 0 (pr_stdin p) f0 ∧
    std_source e (<[0 := mkFd f0 0]> t) 1 (pr_stdout p) f1 ∧
    std_source e (<[1 := mkFd f1 0]> (<[0 := mkFd f0 0]> t)) 2 (pr_stderr p) f2 ∧
    ep_tab s' = <[2 := mkFd f2 0]> (<[1 := mkFd f1 0]> (<[0 := mkFd f0 0]> t)) ∧
    (∀ num rw f, (num, rw, f) ∈ [(0, pr_stdin p, f0); (1, pr_stdout p, f1); (2, pr_stderr p, f2)] →
      rw = None → EpOpen (lit "/dev/null") O_RDONLY f ∈ ep_trace s').

Lemma ready_event e p s s' v : ready e p s s' → ready e p s (add_event v s').
Proof.
  intros (H1 & H2 & H3 & H4 & t & f0 & f1 & f2 & Ht & S0 & S1 & S2 & Htab & Hnull).
  repeat split; try done. exists t, f0, f1, f2. repeat split; try done.
  intros num rw f Hin Hrw. cbn [add_event ep_trace]. rewrite elem_of_app. left.
  by eapply Hnull.
Qed.

(** All the steps that only log their failures. *)
Definition prepared (e : ep_env) (p : ep_params) (s : ep_state) : ep_state :=
  let s := mkEp (ep_tab s) true (ep_caps s) (ep_unshared s) 0x180 (ep_trace s) (ep_cwd s) in
  let s := write_proc e (lit "/proc/self/setgroups") (ee_setgroups e) (lit "deny") s in
  let s := match pr_uid_map p with
           | [] => s
           | m => write_proc e (lit "/proc/self/uid_map") (ee_uid_map e) m s
           end in
  let s := match pr_gid_map p with
           | [] => s
           | m => write_proc e (lit "/proc/self/gid_map") (ee_gid_map e) m s
           end in
  let s := unshare e NsIpc s in
  let s := unshare e NsNet s in
  let s := unshare e NsUts s in
  let s := unshare e NsCgroup s in
  let s := unshare e NsMount s in
  set_caps (drop_capabilities (ee_caps e) (ep_caps s)) s.

Lemma prepared_spec e p s :
  ep_tab (prepared e p s) = ep_tab s ∧ ep_nnp (prepared e p s) = true ∧
  ep_caps (prepared e p s) = drop_capabilities (ee_caps e) (ep_caps s) ∧
  ep_umask (prepared e p s) = 0x180 ∧ writes_ok e s (prepared e p s).
Proof.
  unfold prepared.
  set (s1 := mkEp _ _ _ _ _ _ _).
  set (good := λ x : ep_state, ep_tab x = ep_tab s ∧ same_rest s1 x ∧ writes_ok e s x).
  assert (Hw : ∀ x path file m, good x → file ∈ [ee_setgroups e; ee_uid_map e; ee_gid_map e] →
    good (write_proc e path file m x)).
  { intros x path file m (G1 & (G2 & G3 & G4) & G5) Hin.
    destruct (write_proc_spec e path file m x) as (T & (R1 & R2 & R3) & W).
    repeat split; try congruence. eapply writes_trans; [exact G5|by apply W]. }
  assert (Hu : ∀ x n, good x → good (unshare e n x)).
  { intros x n (G1 & (G2 & G3 & G4) & G5).
    destruct (unshare_spec e n x) as (T & (R1 & R2 & R3) & W).
    repeat split; try congruence. eapply writes_trans; [exact G5|by apply writes_refl]. }
  assert (G1 : good s1) by (repeat split; by apply writes_refl).
  set (s2 := write_proc e (lit "/proc/self/setgroups") _ _ s1).
  assert (G2 : good s2) by (apply Hw; [done|left]).
  set (s3 := match pr_uid_map p with [] => s2 | _ => _ end).
  assert (G3 : good s3).
  { subst s3. destruct (pr_uid_map p); [done|]. apply Hw; [done|right; left]. }
  set (s4 := match pr_gid_map p with [] => s3 | _ => _ end).
  assert (G4 : good s4).
  { subst s4. destruct (pr_gid_map p); [done|]. apply Hw; [done|right; right; left]. }
  clearbody s4.
  assert (G5 : good (unshare e NsMount (unshare e NsCgroup (unshare e NsUts (unshare e NsNet
                 (unshare e NsIpc s4)))))) by (by do 5 apply Hu).
  cbv zeta. set (s5 := unshare e NsMount _) in *. clearbody s5. clear s2 s3 G2 G3 s4 G4.
  destruct G5 as (T & (R1 & R2 & R3) & W). cbn in R1, R2, R3.
  cbn [set_caps ep_tab ep_nnp ep_caps ep_umask]. repeat split; try congruence. exact W.
Qed.

Lemma entry_cases e p s r :
  listing_ok e → clone_entrypoint e p s = r →
  (∃ s1, r = EpExited s1 ∧ writes_ok e s s1) ∨
  (∃ s', ready e p s s' ∧ writes_ok e s s' ∧
    let s2 := add_event (EpExecve (pr_exe p) (pr_argv p) (pr_envp p) (ee_execve e)) s' in
    match ee_execve e with
    | None => r = EpStarted (set_tab (close_on_exec (ep_tab s2)) s2)
    | Some errno => r = EpExited (ep_write (pr_pipe p) (rev (n_bytes 4 errno)) s2)
    end).
Proof.
  intros Hlist <-. unfold clone_entrypoint.
  destruct (ee_nnp e) eqn:Ennp; cbn [negb].
  2:{ left. eexists. split; [done|]. by apply writes_refl. }
  change (set_caps (drop_capabilities (ee_caps e) _) _) with (prepared e p s).
  cbv zeta. fold (prepared e p s).
  destruct (prepared_spec e p s) as (T6 & N6 & C6 & _ & W6).
  set (s6 := prepared e p s) in *. clearbody s6.
  destruct (ep_open e _ _ (ee_fds e) s6) as [[fds_fd s7]|] eqn:Eopen.
  2:{ left. by eexists. }
  destruct (ep_open_spec _ _ _ _ _ _ _ Eopen) as (ff & _ & Hfree & T7 & Tr7 & _ & N7 & C7 & _).
  cbn in T7. rewrite T6 in Hfree, T7.
  assert (W7 : writes_ok e s s7) by (eapply writes_trans; [exact W6|by eapply writes_open]).
  destruct (ee_opendir e); cbn [negb].
  2:{ left. by eexists. }
  destruct (cleanup e p fds_fd 0 _ s7) as [s8|] eqn:Ecl.
  2:{ left. by eexists. }
  destruct (cleanup_spec _ _ _ _ _ _ _ Ecl) as (T8 & Hopen8 & (N8 & C8 & _) & Tr8 & _).
  assert (Hal : pr_allowed p ≠ []).
  { rewrite T8 in Hopen8. destruct (decide _) as [Hd|Hd]; [by destruct Hopen8|].
    destruct (keep p fds_fd fds_fd) eqn:Ek; [by apply keep_spec in Ek as []|].
    exfalso. apply Hd. split; [|done]. apply Hlist. by rewrite T7, lookup_insert. }
  destruct (ep_close_spec fds_fd s8) as (T9 & (N9 & C9 & _) & Tr9 & _).
  set (s9 := ep_close fds_fd s8) in *. clearbody s9.
  assert (W9 : writes_ok e s s9).
  { eapply writes_trans; [exact W7|]. apply writes_refl. congruence. }
  assert (Ht : ∀ n, ep_tab s9 !! n = if decide (kept p n) then ep_tab s !! n else None).
  { intros n. rewrite T9. destruct (decide (n = fds_fd)) as [->|Hne].
    { rewrite lookup_delete, Hfree. by destruct (decide _). }
    rewrite lookup_delete_ne by done. rewrite T8.
    destruct (decide (kept p n)) as [Hk|Hk].
    - rewrite decide_False.
      + by rewrite T7, lookup_insert_ne.
      + intros [_ Hf]. assert (keep p fds_fd n = true); [|congruence].
        apply keep_spec. split; [done|]. by left.
    - destruct (ep_tab s !! n) eqn:En.
      + rewrite decide_True; [done|]. split.
        * apply Hlist. by rewrite T7, lookup_insert_ne, En.
        * destruct (keep p fds_fd n) eqn:Ek; [|done].
          apply keep_spec in Ek as [_ [|]]; done.
      + destruct (decide _); [done|]. by rewrite T7, lookup_insert_ne. }
  destruct (setup_std e 0 (pr_stdin p) s9) as [sa|] eqn:Ea.
  2:{ left. by eexists. }
  assert (Hstd : ∀ num rw x x', setup_std e num rw x = Some x' →
    writes_ok e s x → writes_ok e s x').
  { intros num rw x x' Hx Hw.
    destruct (setup_std_spec _ _ _ _ _ Hx) as (f & _ & _ & _ & _ & Tr).
    eapply writes_trans; [exact Hw|]. destruct rw.
    - apply writes_refl. by rewrite app_nil_r in Tr.
    - by eapply writes_open. }
  assert (Wa := Hstd _ _ _ _ Ea W9).
  destruct (setup_std_spec _ _ _ _ _ Ea) as (f0 & S0 & Ta & (Na & Ca & _) & _ & Tra).
  destruct (setup_std e 1 (pr_stdout p) sa) as [sb|] eqn:Eb.
  2:{ left. by eexists. }
  assert (Wb := Hstd _ _ _ _ Eb Wa).
  destruct (setup_std_spec _ _ _ _ _ Eb) as (f1 & S1 & Tb & (Nb & Cb & _) & _ & Trb).
  destruct (setup_std e 2 (pr_stderr p) sb) as [sc|] eqn:Ec.
  2:{ left. by eexists. }
  assert (Wc := Hstd _ _ _ _ Ec Wb).
  destruct (setup_std_spec _ _ _ _ _ Ec) as (f2 & S2 & Tc & (Nc & Cc & _) & _ & Trc).
  right. exists sc. split; [|split; [done|]].
  - split; [done|]. split; [congruence|]. split; [done|]. split; [congruence|].
    exists (ep_tab s9), f0, f1, f2. split; [done|]. split; [done|].
    rewrite Ta in S1. rewrite Tb, Ta in S2. rewrite Tc, Tb, Ta.
    split; [done|]. split; [done|]. split; [done|].
    intros num rw f Hin Hrw. subst rw. rewrite Trc, Trb, Tra.
    rewrite !elem_of_cons in Hin. destruct Hin as [Hin|[Hin|[Hin|Hin]]].
    + injection Hin as _ <- ->. rewrite !elem_of_app. left. left. right. left.
    + injection Hin as _ <- ->. rewrite !elem_of_app. left. right. left.
    + injection Hin as _ <- ->. rewrite !elem_of_app. right. left.
    + by apply elem_of_nil in Hin.
  - cbv zeta. by destruct (ee_execve e).
Qed.

(** The working directory is never changed. *)
Lemma ep_open_cwd e path flags file s n s' :
  ep_open e path flags file s = Some (n, s') → ep_cwd s' = ep_cwd s.
Proof.
  unfold ep_open. destruct file; [|done]. destruct (fd_install _ _ _) as [[]|]; [|done].
  by intros [= <- <-].
Qed.
Lemma ep_close_cwd fd s : ep_cwd (ep_close fd s) = ep_cwd s.
Proof. unfold ep_close. by destruct (sys_close _ _). Qed.
Lemma ep_write_cwd fd b s : ep_cwd (ep_write fd b s) = ep_cwd s.
Proof. unfold ep_write. by destruct (_ !! _). Qed.
Lemma write_proc_cwd e path file b s : ep_cwd (write_proc e path file b s) = ep_cwd s.
Proof.
  unfold write_proc. destruct (ep_open _ _ _ _ _) as [[n s']|] eqn:E; [|done].
  rewrite ep_close_cwd, ep_write_cwd. by eapply ep_open_cwd.
Qed.
Lemma unshare_cwd e n s : ep_cwd (unshare e n s) = ep_cwd s.
Proof. unfold unshare. by destruct (ee_unshare e n). Qed.
Lemma cleanup_cwd e p fds_fd fds : ∀ count s s',
  cleanup e p fds_fd count fds s = Some s' → ep_cwd s' = ep_cwd s.
Proof.
  induction fds as [|fd fds IH]; intros count s s' H; cbn [cleanup] in H;
    (case_bool_decide; [done|]).
  - destruct (_ !! _); [by injection H as <-|done].
  - destruct (keep p fds_fd fd); [by eapply IH|].
    destruct (sys_close fd (ep_tab s)); [|done]. destruct (ee_close e fd); [|done].
    by apply IH in H.
Qed.
Lemma setup_std_cwd e num rw s s' : setup_std e num rw s = Some s' → ep_cwd s' = ep_cwd s.
Proof.
  unfold setup_std. destruct rw as [fd|].
  - destruct (ee_dup e num); [|done]. destruct (sys_dup _ _ _) as [[]|]; [|done].
    destruct (_ =? _); [|done]. intros [= <-]. apply ep_close_cwd.
  - destruct (ep_open _ _ _ _ _) as [[]|] eqn:E; [|done]. destruct (_ =? _); [|done].
    intros [= <-]. rewrite (ep_open_cwd _ _ _ _ _ _ _ E). apply ep_close_cwd.
Qed.
Lemma prepared_cwd e p s : ep_cwd (prepared e p s) = ep_cwd s.
Proof.
  unfold prepared. cbv zeta. cbn [set_caps ep_cwd]. rewrite !unshare_cwd.
  destruct (pr_gid_map p), (pr_uid_map p); rewrite ?write_proc_cwd; done.
Qed.
Lemma entry_cwd e p s s' :
  clone_entrypoint e p s = EpStarted s' → ep_cwd s' = ep_cwd s.
Proof.
  unfold clone_entrypoint. destruct (ee_nnp e); cbn [negb]; [|done].
  change (set_caps (drop_capabilities (ee_caps e) _) _) with (prepared e p s).
  cbv zeta. fold (prepared e p s).
  assert (H6 := prepared_cwd e p s). set (s6 := prepared e p s) in *. clearbody s6.
  destruct (ep_open e _ _ (ee_fds e) s6) as [[fds_fd s7]|] eqn:E7; [|done].
  apply ep_open_cwd in E7. destruct (ee_opendir e); cbn [negb]; [|done].
  destruct (cleanup e p fds_fd 0 _ s7) as [s8|] eqn:E8; [|done]. apply cleanup_cwd in E8.
  destruct (setup_std e 0 _ _) as [sa|] eqn:Ea; [|done]. apply setup_std_cwd in Ea.
  rewrite ep_close_cwd in Ea.
  destruct (setup_std e 1 _ _) as [sb|] eqn:Eb; [|done]. apply setup_std_cwd in Eb.
  destruct (setup_std e 2 _ _) as [sc|] eqn:Ec; [|done]. apply setup_std_cwd in Ec.
  destruct (ee_execve e); [done|]. intros [= <-]. cbn [set_tab add_event ep_cwd]. congruence.
Qed.
