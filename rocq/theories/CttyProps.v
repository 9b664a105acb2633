(** Terminals opened for a worker: C154. *)
From stdpp Require Import prelude gmap.
From Verif Require Import Bytes PolicyModel PolicySpec LinuxPolicyModel LinuxPolicySpec
  LinuxPolicyProofs LinuxPolicyProps FifoModel CttyModel RecordLockProps.
Local Open Scope N_scope.

(** A worker does not lead a session (the broker forks it and nothing calls setsid), so its
    own calls would change no session's controlling terminal. *)
Definition C154_full : Prop :=
  ∀ ttys calls b s cs,
    c_ctty (foldl (boxed_call ttys (build false calls) b) s cs) = c_ctty s.
Lemma plain_same ttys p s cs :
  c_session s p ≠ p → foldl (plain_call ttys p) s cs = s.
Proof.
  intros H. induction cs as [|c cs IH]; [done|]. cbn [foldl].
  assert (plain_call ttys p s c = s) as ->; [|done].
  destruct c as [path flags| | |]; [|done..]. cbn. destruct (ttys path); [|done].
  unfold open_tty. destruct (_ || _); [done|]. by rewrite bool_decide_eq_false_2.
Qed.
(** The statement about the program without the sandbox. *)
Theorem C154_plain ttys p s cs :
  c_session s p ≠ p → c_ctty (foldl (plain_call ttys p) s cs) = c_ctty s.
Proof. intros H. by rewrite plain_same. Qed.
Print Assumptions C154_plain.

Lemma taken_spec tty s : taken tty s = true ↔ ∃ q, c_ctty s !! q = Some tty.
Proof.
  unfold taken. rewrite existsb_exists. split.
  - intros ([q t] & Hin & Ht). apply bool_decide_eq_true in Ht. cbn in Ht. subst t.
    exists q. apply elem_of_map_to_list. by apply elem_of_list_In.
  - intros (q & Hq). exists (q, tty). split; [|by apply bool_decide_eq_true].
    apply elem_of_list_In. by apply elem_of_map_to_list.
Qed.

(** Exactly when a call changes a controlling terminal, and how. *)
Definition seized (ttys : str → option N) (rules : list rule) (b tty : N) (s : cstate) (c : call) : Prop :=
  ttys (asked c).1 = Some tty ∧ should_grant rules (asked c).1 (asked c).2 ∧
  ¬ bit (asked c).2 21 ∧ ¬ bit (asked c).2 8 ∧ ((asked c).2 mod 4 ≠ 1)%Z ∧
  c_session s b = b ∧ c_ctty s !! b = None ∧ ∀ q, c_ctty s !! q ≠ Some tty.
Theorem C154_exact ttys calls b s c q t :
  c_ctty (boxed_call ttys (build false calls) b s c) !! q = Some t ↔
  c_ctty s !! q = Some t ∨ q = b ∧ seized ttys (rules_of calls) b t s c.
Proof.
  unfold boxed_call, seized. pose proof (granted_iff calls (asked c).1 (asked c).2) as Hg.
  destruct (asked c) as [path flags]. cbn [fst snd] in *.
  destruct (granted (build false calls) path flags).
  2: { split; [by left|]. intros [?|(_ & _ & Hs & _)]; [done|]. by apply Hg in Hs. }
  destruct (ttys path) as [tty|]; [|split; [by left|]; intros [?|(_ & ? & _)]; done].
  unfold open_tty, bit. destruct (Z.testbit flags 21) eqn:E21; cbn [orb].
  { split; [by left|]. intros [?|(_ & _ & _ & ? & _)]; done. }
  destruct (Z.testbit flags 8) eqn:E8; cbn [orb].
  { split; [by left|]. intros [?|(_ & _ & _ & _ & ? & _)]; done. }
  destruct (flags mod 4 =? 1)%Z eqn:Em.
  { apply Z.eqb_eq in Em. split; [by left|]. intros [?|(_ & _ & _ & _ & _ & ? & _)]; done. }
  apply Z.eqb_neq in Em.
  destruct (decide (c_session s b = b)) as [Hb|Hb].
  2: { rewrite bool_decide_eq_false_2 by done. cbn [andb]. split; [by left|].
       intros [?|(_ & _ & _ & _ & _ & _ & ? & _)]; done. }
  rewrite bool_decide_eq_true_2 by done. cbn [andb].
  destruct (c_ctty s !! b) as [x|] eqn:Ec.
  { rewrite bool_decide_eq_false_2 by done. cbn [andb]. split; [by left|].
    intros [?|(_ & _ & _ & _ & _ & _ & _ & ? & _)]; done. }
  rewrite bool_decide_eq_true_2 by done. cbn [andb].
  destruct (taken tty s) eqn:Et; cbn [negb].
  { split; [by left|]. intros [?|(_ & [= ->] & _ & _ & _ & _ & _ & _ & H)]; [done|].
    apply taken_spec in Et as (q' & Hq'). by destruct (H q'). }
  assert (∀ q', c_ctty s !! q' ≠ Some tty) as Hnt.
  { intros q' Hq'. assert (taken tty s = true) as H by (apply taken_spec; by eexists). congruence. }
  cbn [c_ctty]. split.
  - intros H. apply lookup_insert_Some in H as [[<- <-]|[_ H]]; [|by left].
    right. split; [done|]. split; [done|]. split; [by apply Hg|]. done.
  - intros [H|(-> & [= ->] & _)].
    + apply lookup_insert_Some. right. split; [|done]. intros <-. congruence.
    + by rewrite lookup_insert.
Qed.
Print Assumptions C154_exact.

(** Nothing changes when the broker does not lead a session, or its session has a
    controlling terminal. *)
Theorem C154_partial ttys calls b s cs :
  c_session s b ≠ b ∨ c_ctty s !! b ≠ None →
  c_ctty (foldl (boxed_call ttys (build false calls) b) s cs) = c_ctty s.
Proof.
  intros H. assert (foldl (boxed_call ttys (build false calls) b) s cs = s) as ->; [|done].
  induction cs as [|c cs IH]; [done|]. cbn [foldl].
  assert (boxed_call ttys (build false calls) b s c = s) as ->; [|done].
  unfold boxed_call. destruct (asked c) as [path flags]. destruct (granted _ _ _); [|done].
  destruct (ttys path); [|done]. unfold open_tty. destruct (_ || _ || _); [done|].
  destruct H as [H|H]; rewrite (bool_decide_eq_false_2 _ H); cbn [andb]; [done|].
  by rewrite andb_false_r.
Qed.
Print Assumptions C154_partial.

(** O_NOCTTY, with which a program asks for this not to happen, is refused. *)
Theorem C154_noctty_refused calls path flags :
  bit flags 8 → granted (build false calls) path flags = false.
Proof.
  intros Hb. destruct (granted _ _ _) eqn:Hg; [|done]. exfalso.
  apply (C09_unsupported_flags_refused calls path flags 8); [lia|done| |].
  - apply (bool_decide_unpack _). vm_compute. exact I.
  - unfold granted in Hg. by destruct (evaluate_request _ _).1.
Qed.
Print Assumptions C154_noctty_refused.

Definition tty_calls : list api_call := [CallRule (AllowFileRead (lit "/dev/ttyS0"))].
Definition serial (path : str) : option N := if bool_decide (path = lit "/dev/ttyS0") then Some 64 else None.
(** A daemon (process 1, leader of its session) opens a terminal for its worker. *)
Theorem C154_refuted : ¬ C154_full.
Proof.
  intros H. specialize (H serial tty_calls 1 (mkC (λ _, 1) ∅) [COpen (lit "/dev/ttyS0") 0]).
  pose proof (proj2 (C154_exact serial tty_calls 1 (mkC (λ _, 1) ∅) (COpen (lit "/dev/ttyS0") 0) 1 64)) as He.
  cbn [foldl] in H. rewrite H in He. cbn [c_ctty] in He. rewrite lookup_empty in He.
  assert (None = Some 64) as ?; [|done]. apply He. right. split; [done|].
  unfold seized. cbn [asked fst snd c_session c_ctty].
  split; [by vm_compute|]. split; [apply granted_iff; by vm_compute|]. by split_and!.
Qed.
Print Assumptions C154_refuted.

Example C154_example :
  c_ctty (boxed_call serial (build false tty_calls) 1 (mkC (λ _, 1) ∅) (CAccess (lit "/dev/ttyS0") 0)) !! 1 =
    Some 64 ∧
  c_ctty (boxed_call serial (build false tty_calls) 1 (mkC (λ _, 1) ∅) (CStat (lit "/dev/ttyS0"))) !! 1 = None ∧
  (** the terminal of another session, a broker with a terminal *)
  c_ctty (boxed_call serial (build false tty_calls) 1 (mkC (λ _, 1) {[9 := 64]}) (COpen (lit "/dev/ttyS0") 0)) !! 1 =
    None ∧
  c_ctty (boxed_call serial (build false tty_calls) 1 (mkC (λ _, 1) {[1 := 5]}) (COpen (lit "/dev/ttyS0") 0)) !! 1 =
    Some 5 ∧
  (** without the sandbox: process 2 in the session of process 1 *)
  c_ctty (plain_call serial 2 (mkC (λ _, 1) ∅) (COpen (lit "/dev/ttyS0") 0)) !! 1 = None.
Proof. by vm_compute. Qed.
