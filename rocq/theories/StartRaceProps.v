(** Property C122: starting a worker does not wait for other programs. *)
From stdpp Require Import prelude gmap.
From Coq Require Import Strings.Byte ZifyN ZifyNat ZifyBool.
From Verif Require Import Bytes PolicyModel PolicySpec LinuxPolicyModel LinuxPolicySpec
  LinuxPolicyProofs PostcardModel FdModel FdProofs ChannelModel
  ChannelProofs BrokerModel BrokerSpec BrokerProofs BrokerProps BpfModel BpfProofs SeccompModel
  EntryModel EntryProofs EntryProps ProcessModel ProcessProofs ProcessProps StartRaceModel.
Local Open Scope N_scope.

(** pipe(2) makes a new open file, with two different ends. *)
Definition new_pipe (pe : proc_env) (t : fdtab) : Prop :=
  ∀ fr fw, pe_pipe pe = Ok (fr, fw) →
    fr ≠ fw ∧ ∀ n ent, t !! n = Some ent → fd_file ent ≠ fw.

(** Full statement: the call ends as it would with nobody else around. *)
Definition C122_full : Prop := ∀ pe p c others t,
  new_pipe pe t → process_new_beside pe p c others t = process_new pe p c t.

Lemma keeps_spec f t :
  keeps f t = true ↔
  ∃ n e, t !! n = Some e ∧ fd_file e = f ∧ Z.testbit (fd_flags e) 0 = false.
Proof.
  unfold keeps. rewrite existsb_exists. split.
  - intros ([n e] & Hin%elem_of_list_In%elem_of_map_to_list & H). cbn [snd] in H.
    apply andb_true_iff in H as [H1 H2]. exists n, e. split; [done|]. split; [lia|].
    by apply negb_true_iff in H2.
  - intros (n & e & Hn & H1 & H2). exists (n, e).
    split; [by apply elem_of_list_In, elem_of_map_to_list|]. cbn [snd]. rewrite H2.
    by replace (fd_file e =? f) with true by lia.
Qed.

(** Partial: true unless a program is started between pipe(2) and fcntl(2). *)
Theorem C122_not_between_partial pe p c others t :
  new_pipe pe t → BeforeFcntl ∉ others →
  process_new_beside pe p c others t = process_new pe p c t.
Proof.
  intros Hp Ho. unfold process_new_beside, process_new.
  case_bool_decide; [done|].
  destruct (pe_pipe pe) as [[fr fw]|e] eqn:Ep; [|done].
  destruct (Hp _ _ Ep) as [Hne Hnew].
  destruct (install2 _ _ _ _) as [[[rd wr] t1]|] eqn:Ei; [|done].
  destruct (install2_spec _ _ _ _ _ _ _ Ei) as (F1 & F2 & Hlt & _ & _ & _ & Ht1). subst t1.
  rewrite (set_inheritable_new wr false fw) by by rewrite lookup_insert.
  rewrite insert_insert.
  destruct (clone_chain (pe_clone pe)) as [[fl|e] calls]; [|done].
  destruct (pe_read pe); [done|].
  destruct (written fw _); [|done].
  match goal with |- context [existsb ?g others] => assert (existsb g others = false) as Hk end.
  { apply not_true_iff_false. intros (m & Hin%elem_of_list_In & Hm)%existsb_exists.
    apply keeps_spec in Hm as (n & e & Hn & Hf & Hb). destruct m; cbn [table_at] in Hn.
    - by apply (Hnew n e).
    - done.
    - apply lookup_insert_Some in Hn as [[<- <-]|[_ Hn]]; [done|].
      apply lookup_insert_Some in Hn as [[<- <-]|[_ Hn]]; [done|]. by apply (Hnew n e).
    - apply lookup_delete_Some in Hn as [Hw Hn].
      apply lookup_insert_Some in Hn as [[<- <-]|[_ Hn]]; [done|].
      apply lookup_insert_Some in Hn as [[<- <-]|[_ Hn]]; [done|]. by apply (Hnew n e). }
  by rewrite Hk, orb_false_r.
Qed.
Print Assumptions C122_not_between_partial.

(** A program started in between: whenever the worker started its own program, and the
    wait is not interrupted by a signal, the call waits for the other program to end. *)
Theorem C122_between_refuted pe p c others t pid t' child :
  BeforeFcntl ∈ others → pe_read pe = None →
  process_new pe p c t = (NewOk pid, t', child) →
  ∃ t'', process_new_beside pe p c others t = (NewBlocked, t'', child).
Proof.
  intros Ho Hr E. unfold process_new in E. unfold process_new_beside.
  case_bool_decide; [done|].
  destruct (pe_pipe pe) as [[fr fw]|e] eqn:Ep; [|done].
  destruct (install2 _ _ _ _) as [[[rd wr] t1]|] eqn:Ei; [|done].
  destruct (install2_spec _ _ _ _ _ _ _ Ei) as (F1 & F2 & Hlt & _ & _ & _ & Ht1).
  destruct (handle_set_inheritable wr false t1) as [t2| |]; [|done|done].
  destruct (clone_chain (pe_clone pe)) as [[fl|e] calls]; [|done].
  rewrite Hr in E |- *.
  destruct (written fw _); [|done].
  destruct (holds_file fw _); [done|]. injection E as _ _ <-.
  match goal with |- context [existsb ?g others] => assert (existsb g others = true) as Hk end.
  { apply existsb_exists. exists BeforeFcntl. split; [by apply elem_of_list_In|].
    cbn [table_at]. apply keeps_spec. exists wr, (mkFd fw 0). subst t1.
    by rewrite lookup_insert. }
  rewrite Hk, orb_true_r. eauto.
Qed.
Print Assumptions C122_between_refuted.

Definition new_result_of (x : new_result * fdtab * option (clone_flags * ep_result)) : new_result :=
  x.1.1.
Theorem C122_refuted : ¬ C122_full.
Proof.
  intros H.
  specialize (H (ex_proc None None) ex_pol ex_config [BeforeFcntl] ex_table).
  assert (new_pipe (ex_proc None None) ex_table) as Hn.
  { intros fr fw Ep. injection Ep as <- <-. split; [done|]. intros n ent Hn Hf.
    assert (∀ n ent, ex_table !! n = Some ent → fd_file ent ≠ 107) as Ht.
    { apply (map_Forall_lookup (λ _ ent, fd_file ent ≠ 107)).
      apply (bool_decide_unpack _). vm_compute. exact I. }
    by apply (Ht n ent). }
  apply H in Hn. apply (f_equal new_result_of) in Hn. vm_compute in Hn. discriminate Hn.
Qed.
Print Assumptions C122_refuted.

Example C122_example :
  map (λ others, new_result_of (process_new_beside (ex_proc None None) ex_pol ex_config others
         ex_table)) [[]; [BeforePipe; BeforeClose; AfterClose]; [BeforeFcntl]] =
  [NewOk 4321; NewOk 4321; NewBlocked].
Proof. by vm_compute. Qed.
