(** Property C131: files a worker creates are for its own user. *)
From stdpp Require Import prelude gmap.
From Coq Require Import Strings.Byte.
From Verif Require Import Bytes PolicyModel LinuxPolicyModel FdModel ChannelModel BrokerModel
  SeccompModel EntryModel EntryProofs ProcessModel ProcessProps MaskModel.
Local Open Scope N_scope.

(** Which of the nine permissions a mode has: 8 is the owner's read, 0 is execute for others. *)
Definition allows (mode : N) (bit : N) : Prop := bit < 9 ∧ N.testbit mode bit = true.
Definition owners (bit : N) : Prop := 6 ≤ bit.

(** Full statement: no permission for group and others, and the owner's as asked for. *)
Definition C131_full : Prop := ∀ ne c p evs t fl s' mode bit,
  wo_child (worker_new ne c p evs t) = Some (fl, EpStarted s') →
  allows (created_mode mode (ep_umask s')) bit ↔ allows mode bit ∧ owners bit.

(* ---------------------------------------------------------------- proofs *)

(** The mask is not changed again. *)
Lemma ep_open_umask e path flags file s n s' :
  ep_open e path flags file s = Some (n, s') → ep_umask s' = ep_umask s.
Proof.
  unfold ep_open. destruct file; [|done]. destruct (fd_install _ _ _) as [[]|]; [|done].
  by intros [= <- <-].
Qed.
Lemma ep_close_umask fd s : ep_umask (ep_close fd s) = ep_umask s.
Proof. unfold ep_close. by destruct (sys_close _ _). Qed.
Lemma cleanup_umask e p fds_fd fds : ∀ count s s',
  cleanup e p fds_fd count fds s = Some s' → ep_umask s' = ep_umask s.
Proof.
  induction fds as [|fd fds IH]; intros count s s' H; cbn [cleanup] in H;
    (case_bool_decide; [done|]).
  - destruct (_ !! _); [by injection H as <-|done].
  - destruct (keep p fds_fd fd); [by eapply IH|].
    destruct (sys_close fd (ep_tab s)); [|done]. destruct (ee_close e fd); [|done].
    by apply IH in H.
Qed.
Lemma setup_std_umask e num rw s s' : setup_std e num rw s = Some s' → ep_umask s' = ep_umask s.
Proof.
  unfold setup_std. destruct rw as [fd|].
  - destruct (ee_dup e num); [|done]. destruct (sys_dup _ _ _) as [[]|]; [|done].
    destruct (_ =? _); [|done]. intros [= <-]. apply ep_close_umask.
  - destruct (ep_open _ _ _ _ _) as [[]|] eqn:E; [|done]. destruct (_ =? _); [|done].
    intros [= <-]. rewrite (ep_open_umask _ _ _ _ _ _ _ E). apply ep_close_umask.
Qed.
Lemma entry_umask e p s s' :
  clone_entrypoint e p s = EpStarted s' → ep_umask s' = 0x180.
Proof.
  unfold clone_entrypoint. destruct (ee_nnp e); cbn [negb]; [|done].
  change (set_caps (drop_capabilities (ee_caps e) _) _) with (prepared e p s).
  cbv zeta. fold (prepared e p s).
  destruct (prepared_spec e p s) as (_ & _ & _ & H6 & _). set (s6 := prepared e p s) in *. clearbody s6.
  destruct (ep_open e _ _ (ee_fds e) s6) as [[fds_fd s7]|] eqn:E7; [|done].
  apply ep_open_umask in E7. destruct (ee_opendir e); cbn [negb]; [|done].
  destruct (cleanup e p fds_fd 0 _ s7) as [s8|] eqn:E8; [|done]. apply cleanup_umask in E8.
  destruct (setup_std e 0 _ _) as [sa|] eqn:Ea; [|done]. apply setup_std_umask in Ea.
  rewrite ep_close_umask in Ea.
  destruct (setup_std e 1 _ _) as [sb|] eqn:Eb; [|done]. apply setup_std_umask in Eb.
  destruct (setup_std e 2 _ _) as [sc|] eqn:Ec; [|done]. apply setup_std_umask in Ec.
  destruct (ee_execve e); [done|]. intros [= <-]. cbn [set_tab add_event ep_umask]. congruence.
Qed.
Lemma created_bits mode mask bit :
  allows (created_mode mode mask) bit ↔ allows mode bit ∧ N.testbit mask bit = false.
Proof.
  unfold allows, created_mode. rewrite N.ldiff_spec, N.land_spec.
  split.
  - intros [Hb H]. apply andb_true_iff in H as [[H _]%andb_true_iff H2]. by apply negb_true_iff in H2.
  - intros [[Hb H] H2]. split; [done|]. rewrite H, H2.
    change 0x1ff with (N.ones 9). by rewrite N.ones_spec_low.
Qed.

(** What holds instead, for every worker whose program was started: the mask takes the
    owner's right to read and write, and leaves group and others all they were given. *)
Theorem C131_mask_refuted ne c p evs t fl s' mode bit :
  wo_child (worker_new ne c p evs t) = Some (fl, EpStarted s') →
  allows (created_mode mode (ep_umask s')) bit ↔ allows mode bit ∧ bit ≠ 7 ∧ bit ≠ 8.
Proof.
  intros Hc. destruct (worker_child _ _ _ _ _ _ _ Hc) as (fb & fc & ch & wh & t2 & p' & c' & fr & fw & rd &
    wr & nr & t3 & _ & _ & _ & _ & _ & _ & _ & _ & Hr & _).
  rewrite (entry_umask _ _ _ _ (eq_sym Hr)), created_bits.
  split; intros [Ha Hb]; (split; [done|]).
  - split; intros ->; done.
  - destruct Ha as [Ha _].
    assert (bit = 0 ∨ bit = 1 ∨ bit = 2 ∨ bit = 3 ∨ bit = 4 ∨ bit = 5 ∨ bit = 6 ∨ bit = 7 ∨ bit = 8) as Hx by lia.
    repeat (destruct Hx as [-> | Hx]; [done || by destruct Hb|]). subst bit. by destruct Hb.
Qed.
Print Assumptions C131_mask_refuted.

Lemma ex_begun : ∃ fl s',
  wo_child (worker_new (ex_new None None) ex_config ex_pol [] ex_table) = Some (fl, EpStarted s').
Proof. eexists _, _. by vm_compute. Qed.
Theorem C131_refuted : ¬ C131_full.
Proof.
  intros H. destruct ex_begun as (fl & s' & E).
  pose proof (H _ _ _ _ _ _ _ 0x1b6 2 E) as [Hx _].
  pose proof (C131_mask_refuted _ _ _ _ _ _ _ 0x1b6 2 E) as [_ Hy].
  clear H E. assert (allows 0x1b6 2) as Ha by done.
  destruct Hx as [_ Ho]; [apply Hy; done|]. unfold owners in Ho. lia.
Qed.
Print Assumptions C131_refuted.
(* A file created with mode 0666 gets 0066, a directory created with 0700 gets 0100. *)
Example C131_example :
  (λ x, match x.2 with
        | EpStarted s => (created_mode 0x1b6 (ep_umask s), created_mode 0x1c0 (ep_umask s))
        | EpExited _ => (0, 0)
        end) <$> wo_child (worker_new (ex_new None None) ex_config ex_pol [] ex_table) =
  Some (0x36, 0x40).
Proof. by vm_compute. Qed.
