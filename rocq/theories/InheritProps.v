(** Property C120: programs that the broker's program starts itself (execve keeps every
    descriptor without FD_CLOEXEC) inherit nothing of its workers. *)
From stdpp Require Import prelude gmap.
From Coq Require Import Strings.Byte ZifyN ZifyNat ZifyBool.
From Verif Require Import Bytes BytesProofs PolicyModel LinuxPolicyModel LinuxPolicySpec
  LinuxPolicyProofs PostcardModel PostcardSpec PostcardProofs FdModel FdProofs ChannelModel
  ChannelProofs BrokerModel BrokerSpec BrokerProofs BrokerProps EntryModel ProcessModel
  ProcessProofs ProcessProps ShareModel ShareProps.
Local Open Scope N_scope.

(** A program executed now finds this open file under this number. *)
Definition inherited (t : fdtab) (n f : N) : Prop :=
  ∃ e, t !! n = Some e ∧ fd_file e = f ∧ Z.testbit (fd_flags e) 0 = false.

(** Full statement: a program started after [Worker::new] returned inherits only what it
    would have inherited before the call. *)
Definition C120_full : Prop := ∀ ne c p ev t pid st n f,
  kernel_ok ne t → wo_result (worker_new ne c p [ev] t) = WnOk pid st →
  inherited (wo_tab (worker_new ne c p [ev] t)) n f → inherited t n f.

(** It fails for every worker that starts: the broker's end of its channel is inherited.
    (With one exception in the statement, a first datagram with two descriptors on
    x86_64, nothing else is.) *)
Theorem C120_channel_refuted ne c p ev t pid st :
  kernel_ok ne t →
  (be_abi (ne_broker ne) = Abi32 ∨ ∀ d, ev = EvDatagram d → (length (dg_files d) ≤ 1)%nat) →
  wo_result (worker_new ne c p [ev] t) = WnOk pid st →
  ∃ ch fb fc, ne_sockets ne = Ok (fb, fc) ∧ t !! ch = None ∧
    ∀ n f, inherited (wo_tab (worker_new ne c p [ev] t)) n f ↔
      inherited t n f ∨ (n = ch ∧ f = fb).
Proof.
  intros Hk Ha Hr. destruct (C54_no_leak_partial ne c p ev t Hk Ha) as [_ H].
  destruct (H pid st Hr) as (ch & fb & fc & Hch & Hs & Ht).
  exists ch, fb, fc. split; [done|]. split; [done|]. intros n f. rewrite Ht.
  unfold inherited. split.
  - intros (e & [[<- <-]|[Hne He]]%lookup_insert_Some & H1 & H2).
    + right. cbn [fd_file] in H1. done.
    + left. by exists e.
  - intros [(e & He & H1 & H2)|[-> ->]].
    + exists e. rewrite lookup_insert_ne; [done|]. intros ->. congruence.
    + exists (mkFd fb 0). rewrite lookup_insert. done.
Qed.
Print Assumptions C120_channel_refuted.

Theorem C120_refuted : ¬ C120_full.
Proof.
  intros H.
  assert (kernel_ok (ex_new None None) ex_table) as Hk by apply (ex_new_ok None None).
  assert (∃ pid st, wo_result (worker_new (ex_new None None) ex_config ex_pol
    [dgram ReqInitialization] ex_table) = WnOk pid st) as (pid & st & Hr).
  { vm_compute. eauto. }
  assert (∀ d, dgram ReqInitialization = EvDatagram d → (length (dg_files d) ≤ 1)%nat) as Hd.
  { intros d E. unfold dgram in E. injection E as <-. cbn [dg_files length]. lia. }
  destruct (C120_channel_refuted _ _ _ _ _ _ _ Hk (or_intror Hd) Hr)
    as (ch & fb & fc & _ & Hn & Hi).
  destruct (H _ _ _ _ _ _ _ ch fb Hk Hr) as (e & He & _).
  { apply Hi. right. split; reflexivity. }
  clear Hr Hi H Hk. rewrite Hn in He. discriminate He.
Qed.
Print Assumptions C120_refuted.

(* ---------------------------------------------------------------- while workers run *)

Definition answer_fds (p : place) : list N :=
  match p with PAnswer _ (Some n) | PDrop (Some n) _ => [n] | _ => [] end.
(** A thread that serves a worker holds this number: its channel, or the file of an
    answer that the worker asked to be opened without O_CLOEXEC (bit 19). *)
Definition of_worker (th : thread) (n : N) : Prop :=
  (n = th_chan th ∧ th_at th ≠ PGone) ∨
  (n ∈ answer_fds (th_at th) ∧
   ∃ path flags mode f, (path, flags, mode, Ok f) ∈ opens (th_trace th) ∧
     Z.testbit flags 19 = false).

Definition from_somewhere (s0 s : share) (n : N) (e : fdent) : Prop :=
  sh_tab s0 !! n = Some e ∨ n ∈ sh_own s ∨ Z.testbit (fd_flags e) 0 = true ∨
  ∃ i th, sh_threads s !! i = Some th ∧ of_worker th n.

(** A step of one thread. *)
Lemma thread_from s0 s i th t' next' evs p out :
  (∀ n e, sh_tab s !! n = Some e → from_somewhere s0 s n e) →
  sh_threads s !! i = Some th →
  (∀ n e, t' !! n = Some e →
     (sh_tab s !! n = Some e ∧
      (of_worker th n → of_worker (th_do th (th_trace th ++ evs) p) n)) ∨
     Z.testbit (fd_flags e) 0 = true ∨ of_worker (th_do th (th_trace th ++ evs) p) n) →
  ∀ n e, t' !! n = Some e →
    from_somewhere s0 (set_thread s t' next' i (th_do th (th_trace th ++ evs) p) out) n e.
Proof.
  intros H Hi Ht n e He. unfold from_somewhere.
  cbn [sh_tab sh_own sh_threads set_thread].
  destruct (Ht n e He) as [[H1 H2]|[H1|H1]].
  - destruct (H n e H1) as [H3|[H3|[H3|(j & thj & Hj & H3)]]];
      [by left|by right; left|by right; right; left|].
    right. right. right. destruct (decide (i = j)) as [<-|Hne].
    + eexists i, _. rewrite lookup_insert. split; [done|]. apply H2.
      assert (thj = th) as -> by congruence. done.
    + exists j, thj. by rewrite lookup_insert_ne.
  - by right; right; left.
  - right. right. right. eexists i, _. rewrite lookup_insert. by split.
Qed.
Lemma thread_from_quiet s0 s i th t' next' p out :
  (∀ n e, sh_tab s !! n = Some e → from_somewhere s0 s n e) →
  sh_threads s !! i = Some th →
  (∀ n e, t' !! n = Some e →
     (sh_tab s !! n = Some e ∧
      (of_worker th n → of_worker (th_do th (th_trace th) p) n)) ∨
     Z.testbit (fd_flags e) 0 = true) →
  ∀ n e, t' !! n = Some e →
    from_somewhere s0 (set_thread s t' next' i (th_do th (th_trace th) p) out) n e.
Proof.
  intros H Hi Ht. rewrite <-(app_nil_r (th_trace th)).
  apply thread_from; [done|done|]. rewrite app_nil_r. intros n e He.
  destruct (Ht n e He) as [?|?]; [by left|by right; left].
Qed.

Lemma of_worker_mono th evs p n :
  th_at th ≠ PGone → p ≠ PGone → (n ∈ answer_fds (th_at th) → n ∈ answer_fds p) →
  of_worker th n → of_worker (th_do th (th_trace th ++ evs) p) n.
Proof.
  intros Hg Hp Hin [[-> _]|(Hn & path & flags & mode & f & Hf & Hb)].
  - left. done.
  - right. cbn [th_do th_at th_trace]. split; [by apply Hin|].
    exists path, flags, mode, f. split; [|done]. rewrite opens_app. apply elem_of_app. by left.
Qed.
Lemma of_worker_mono_quiet th p n :
  th_at th ≠ PGone → p ≠ PGone → (n ∈ answer_fds (th_at th) → n ∈ answer_fds p) →
  of_worker th n → of_worker (th_do th (th_trace th) p) n.
Proof. intros. rewrite <-(app_nil_r (th_trace th)). by apply of_worker_mono. Qed.

Lemma step_from a limit sb s0 s x s' :
  limit ≤ 2 ^ 31 → (∀ n e, sh_tab s !! n = Some e → from_somewhere s0 s n e) →
  turn_step a limit sb s x = Some s' →
  ∀ n e, sh_tab s' !! n = Some e → from_somewhere s0 s' n e.
Proof.
  intros Hl H E. unfold turn_step in E. destruct x.
  - (* the program opens *)
    destruct (fd_install _ _ _) as [[m t]|] eqn:Ei; [|done]. injection E as <-.
    apply fd_install_Some in Ei as (_ & _ & _ & ->). cbn [sh_tab].
    intros n e [[<- <-]|[_ He]]%lookup_insert_Some.
    + right. left. cbn [sh_own]. left.
    + destruct (H n e He) as [?|[?|?]]; [by left| |by right; right].
      right. left. cbn [sh_own]. by right.
  - case_bool_decide; [|done]. injection E as <-. cbn [sh_tab].
    intros m e [Hne He]%lookup_delete_Some.
    destruct (H m e He) as [?|[?|?]]; [by left| |by right; right].
    right. left. cbn [sh_own]. by apply remove_one_ne.
  - case_bool_decide; [|done]. injection E as <-. cbn [sh_tab].
    intros m e [Hne He]%lookup_delete_Some. exact (H m e He).
  - destruct (sh_threads s !! i) eqn:Hi; [done|]. destruct (sh_tab s !! n) as [ec|]; [|done].
    case_bool_decide; [|done]. injection E as <-. cbn [sh_tab].
    intros m e He. unfold from_somewhere. cbn [sh_own sh_threads].
    destruct (H m e He) as [?|[?|[?|(j & th & Hj & Hw)]]]; [by left| |by right; right; left|].
    + right. destruct (decide (m = n)) as [->|Hne]; [|left; by apply remove_one_ne].
      right. right. eexists i, _. rewrite lookup_insert. split; [done|]. by left.
    + right. right. right. exists j, th. rewrite lookup_insert_ne; [done|].
      intros ->. congruence.
  - (* recv *)
    destruct (sh_threads s !! i) as [th|] eqn:Hi; [|done].
    destruct (th_at th) eqn:Hat; try done.
    assert (∀ m, of_worker th m → ∀ p, p ≠ PGone → of_worker (th_do th (th_trace th) p) m) as Hm.
    { intros m Hw p Hp. apply of_worker_mono_quiet; [by rewrite Hat|done| |done].
      rewrite Hat. intros Hn. by apply elem_of_nil in Hn. }
    destruct ev as [d| |].
    + unfold sys_recvmsg in E. destruct (install_files _ _ _ _) as [ns t'] eqn:Ei.
      injection E as <-. apply install_files_spec in Ei as (_ & _ & _ & _ & H5 & H6).
      apply thread_from_quiet; [done|done|]. intros m e He.
      destruct (decide (m ∈ ns)) as [Hin|Hin].
      * right. apply elem_of_list_lookup in Hin as [k Hk].
        apply H6 in Hk as (f & _ & Hk). rewrite Hk in He. by injection He as <-.
      * left. rewrite H5 in He by done. split; [done|]. intros Hw. by apply Hm.
    + injection E as <-. apply thread_from_quiet; [done|done|]. intros m e He. left.
      split; [done|]. intros Hw. by apply Hm.
    + injection E as <-. apply thread_from_quiet; [done|done|]. intros m e He. left.
      split; [done|]. intros Hw. by apply Hm.
  - (* parse *)
    destruct (sh_threads s !! i) as [th|] eqn:Hi; [|done].
    destruct (th_at th) eqn:Hat; try done.
    destruct (recv_rest dec_request r (sh_tab s)) as [res t'] eqn:Er. injection E as <-.
    apply recv_rest_spec in Er as [Ht _].
    apply thread_from_quiet; [done|done|]. intros m e He. left.
    assert (sh_tab s !! m = Some e) as Hs.
    { destruct Ht as [->|(k & _ & ->)]; [done|]. by apply lookup_delete_Some in He as [_ ?]. }
    split; [done|]. apply of_worker_mono_quiet; [by rewrite Hat| |].
    + by destruct res as [[[? [?|]]|]|].
    + rewrite Hat. intros Hn. by apply elem_of_nil in Hn.
  - (* serve *)
    destruct (sh_threads s !! i) as [th|] eqn:Hi; [|done].
    destruct (th_at th) eqn:Hat; try done.
    rename m into rq.
    destruct (dispatch _ _ _ _) as [o b] eqn:Ed. injection E as <-.
    apply dispatch_turn in Ed as (evs & Htr & _ & Ho); [|done]. rewrite Htr.
    apply thread_from; [done|done|]. intros m e He.
    assert (∀ p, p ≠ PGone → of_worker th m → of_worker (th_do th (th_trace th ++ evs) p) m) as Hm.
    { intros p Hp. apply of_worker_mono; [by rewrite Hat|done|].
      rewrite Hat. intros Hn. by apply elem_of_nil in Hn. }
    destruct o as [[code [n|]]| |].
    + destruct Ho as (pre & path & flags & e' & -> & _ & _ & _ & Ht & Hfl).
      rewrite Ht in He. apply lookup_insert_Some in He as [[<- <-]|[_ He]].
      * rewrite Hfl. destruct (Z.testbit flags 19) eqn:Hb; [by right; left|].
        right. right. right. cbn [th_do th_at th_trace answer_fds]. split; [left|].
        exists path, flags, 384%Z, (fd_file e'). split; [|done].
        rewrite !opens_app. apply elem_of_app. right. apply elem_of_app. right. cbn. left.
      * left. split; [done|]. by apply Hm.
    + rewrite Ho in He. left. split; [done|]. by apply Hm.
    + done.
    + rewrite Ho in He. left. split; [done|]. by apply Hm.
  - (* send *)
    destruct (sh_threads s !! i) as [th|] eqn:Hi; [|done].
    destruct (th_at th) eqn:Hat; try done.
    assert (∀ m evs ok, of_worker th m →
      of_worker (th_do th (th_trace th ++ evs) (PDrop h ok)) m) as Hm.
    { intros m evs ok. apply of_worker_mono; [by rewrite Hat|done|]. rewrite Hat. done. }
    destruct (sh_tab s !! th_chan th) as [ec|].
    + destruct (broker_send _ _ _ _) as [ok b] eqn:Eb.
      pose proof (broker_send_spec (step_env a limit sb (sh_next s) refusal)
        (OutSyscallResult code) h (mkBst (sh_tab s) (th_trace th))) as (ev & Hb & _).
      rewrite Eb in Hb. cbn [snd bs_tab bs_trace] in Hb. subst b. injection E as <-.
      cbn [bs_trace]. apply thread_from; [done|done|]. intros m e He. left.
      split; [done|]. apply Hm.
    + injection E as <-. apply thread_from; [done|done|]. intros m e He. left.
      split; [done|]. apply Hm.
  - (* close *)
    destruct (sh_threads s !! i) as [th|] eqn:Hi; [|done].
    destruct (th_at th) eqn:Hat; try done.
    + assert (∀ m p, p ≠ PGone → h ≠ Some m → of_worker th m →
        of_worker (th_do th (th_trace th) p) m) as Hm.
      { intros m p Hp Hne. apply of_worker_mono_quiet; [by rewrite Hat|done|]. rewrite Hat.
        destruct h as [k|]; cbn [answer_fds]; [|intros Hn; by apply elem_of_nil in Hn].
        intros ->%elem_of_list_singleton. done. }
      unfold drop_handle in E. destruct h as [k|].
      * unfold handle_drop, sys_close in E. cbn [bs_tab bs_trace] in E.
        destruct (sh_tab s !! k) eqn:Hk; injection E as <-;
          apply thread_from_quiet; [done|done| |done|done|]; intros m e He; left.
        -- cbn [bs_tab] in He. apply lookup_delete_Some in He as [Hne He]. split; [done|].
           apply Hm; [by destruct go_on|congruence].
        -- split; [done|]. apply Hm; [done|]. intros [= ->]. congruence.
      * injection E as <-. apply thread_from_quiet; [done|done|]. intros m e He. left.
        split; [done|]. apply Hm; [by destruct go_on|done].
    + injection E as <-. apply thread_from_quiet; [done|done|].
      intros m e [Hne He]%lookup_delete_Some. left. split; [done|].
      intros [[-> _]|[Hn _]]; [done|]. rewrite Hat in Hn. by apply elem_of_nil in Hn.
Qed.

(** Partial: what a program started while workers run inherits is what the program had
    or opened itself, a channel in use, or a file that some worker asked for without
    O_CLOEXEC and that is not closed yet. This holds for programs that close descriptors
    twice as well. *)
Theorem C120_running_partial a limit sndbuf s xs s' n f :
  limit ≤ 2 ^ 31 → turns a limit sndbuf s xs = Some s' →
  inherited (sh_tab s') n f →
  inherited (sh_tab s) n f ∨ n ∈ sh_own s' ∨
  ∃ i th, sh_threads s' !! i = Some th ∧ of_worker th n.
Proof.
  intros Hl E (e & He & Hf & Hb).
  assert (∀ s0 s1, (∀ n e, sh_tab s1 !! n = Some e → from_somewhere s0 s1 n e) →
    turns a limit sndbuf s1 xs = Some s' →
    ∀ n e, sh_tab s' !! n = Some e → from_somewhere s0 s' n e) as Hrun.
  { intros s0. clear -Hl. induction xs as [|x xs IH]; intros s1 H E; cbn [turns] in E.
    - by injection E as <-.
    - destruct (turn_step a limit sndbuf s1 x) as [s2|] eqn:E2; [|done].
      apply (IH s2); [|done]. by eapply step_from. }
  destruct (Hrun s s (λ _ _ H, or_introl H) E n e He) as [H|[H|[H|H]]].
  - left. by exists e.
  - by right; left.
  - congruence.
  - by right; right.
Qed.
Print Assumptions C120_running_partial.

(* The channel of worker 0, and the file it asked for, are inherited between two system
   calls of its thread; a file asked for with O_CLOEXEC is not. *)
Definition ex_flags (flags : Z) (xs : list turn) : option (list N) :=
  option_map (λ s, (filter (λ x : N * fdent, Z.testbit (fd_flags x.2) 0 = false)
                      (map_to_list (sh_tab s))).*1)
    (turns Abi32 1024 200000 ex_program
       ([HOpen 0; HSpawn 0 false (ex_rules (lit "/a")) 5;
         TRecv 0 (dgram (ReqOpenFile (lit "/a/y") flags)); TParse 0; TServe 0 None] ++ xs)).
Example C120_example :
  ex_flags 0 [] = Some [0; 1; 5; 2; 6] ∧
  ex_flags 524288 [] = Some [0; 1; 5; 2] ∧
  ex_flags 0 [TSend 0 None; TClose 0] = Some [0; 1; 5; 2].
Proof. by vm_compute. Qed.
