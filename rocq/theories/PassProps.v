(** Workers that pass descriptors to each other: C162. *)
From stdpp Require Import prelude gmap.
From Verif Require Import Bytes PolicyModel PolicySpec LinuxPolicyModel LinuxPolicySpec
  LinuxPolicyProofs LinuxPolicyProps FifoModel RecordLockProps LockRightProps OfdModel OfdProps PassModel.
From Verif Require SeccompModel SeccompProps SigMaskProps.
Local Open Scope N_scope.

Definition holds (p : pworld) (w : nat) (o : obj) : Prop := ∃ l, p_has p !! w = Some l ∧ o ∈ l.
(** Nothing is on its way, and the sockets have numbers below the next one. *)
Definition starts (p : pworld) : Prop :=
  p_queue p = ∅ ∧ ∀ w s b, holds p w (OSock s b) → s < p_next p.

(** The files worker [w] may read and write: given to it at the start, or by its rules. *)
Definition may (look : str → option N) (calls : nat → list api_call) (p : pworld) (w : nat)
    (i : N) (x : right) : Prop :=
  (∃ rd wr, holds p w (OFile i rd wr) ∧ (x = RRead ∧ rd = true ∨ x = RWrite ∧ wr = true)) ∨
  has_right look (rules_of (calls w)) i x.
Definition within (look : str → option N) (calls : nat → list api_call) (p : pworld)
    (R : nat → nat → Prop) (w : nat) (i : N) (rd wr : bool) : Prop :=
  (rd = true → ∃ w', R w w' ∧ may look calls p w' i RRead) ∧
  (wr = true → ∃ w', R w w' ∧ may look calls p w' i RWrite).

(** A worker can read and write only the files it may itself, whatever all workers do. *)
Definition C162_full : Prop :=
  ∀ look calls p xs w i rd wr, starts p →
    holds (prun look (λ w, build false (calls w)) p xs) w (OFile i rd wr) →
    within look calls p eq w i rd wr.

(** Workers that were given ends of the same socket. *)
Definition share (p : pworld) (w w' : nat) : Prop :=
  ∃ s b b', holds p w (OSock s b) ∧ holds p w' (OSock s b').

Section groups.
  Context (look : str → option N) (calls : nat → list api_call) (p0 : pworld).
  Context (R : nat → nat → Prop) (HR : Equivalence R).

  (** [own] tells for each socket a worker whose group holds it. *)
  Definition fit (own : N → nat) (w : nat) (next : N) (o : obj) : Prop :=
    match o with
    | OFile i rd wr => within look calls p0 R w i rd wr
    | OSock s _ => R w (own s) ∧ s < next
    end.
  Definition pinv (p : pworld) : Prop :=
    ∃ own, (∀ w o, holds p w o → fit own w (p_next p) o) ∧
      ∀ s b o, o ∈ sent s b p → s < p_next p ∧ fit own (own s) (p_next p) o.

  Lemma within_R w w' i rd wr :
    R w w' → within look calls p0 R w i rd wr → within look calls p0 R w' i rd wr.
  Proof.
    intros H [H1 H2]. split; intros E.
    - destruct (H1 E) as (v & Hv & Hm). exists v. split; [|done]. by transitivity w; [symmetry|].
    - destruct (H2 E) as (v & Hv & Hm). exists v. split; [|done]. by transitivity w; [symmetry|].
  Qed.
  Lemma fit_R own w w' next o : R w w' → fit own w next o → fit own w' next o.
  Proof.
    intros H. destruct o as [i rd wr|s b]; cbn [fit]; [by apply within_R|].
    intros [Hs Hlt]. split; [|done]. by transitivity w; [symmetry|].
  Qed.
  Lemma fit_more own w w0 next o :
    fit own w next o → fit (λ s, if bool_decide (s = next) then w0 else own s) w (next + 1) o.
  Proof.
    destruct o as [i rd wr|s b]; cbn [fit]; [done|]. intros [Hs Hlt]. split; [|lia].
    by rewrite bool_decide_eq_false_2 by lia.
  Qed.
  Lemma of_holds w p o : o ∈ of w p → holds p w o.
  Proof.
    unfold of. destruct (p_has p !! w) as [l|] eqn:E; cbn [default]; [|intros H; by apply elem_of_nil in H].
    intros H. by exists l.
  Qed.
  Lemma holds_give w os p w' o :
    holds (give w os p) w' o → holds p w' o ∨ w' = w ∧ o ∈ os.
  Proof.
    intros (l & El & Hl). cbn [give p_has] in El. destruct (decide (w = w')) as [->|Hne].
    - rewrite list_lookup_alter in El. destruct (p_has p !! w') as [l'|] eqn:E; [|done].
      injection El as <-. apply elem_of_app in Hl as [Hl|Hl]; [by right|]. left. by exists l'.
    - rewrite list_lookup_alter_ne in El by done. left. by exists l.
  Qed.

  Lemma pinv_step p x : pinv p → pinv (pstep look (λ w, build false (calls w)) p x).
  Proof.
    intros (own & H1 & H2). destruct x as [w o]. destruct o as [path flags| |s b o|s b|o]; cbn [pstep].
    - destruct (granted _ _ _) eqn:Hg; [|by exists own]. apply granted_iff in Hg.
      destruct (look path) as [i|] eqn:Ei; [|by exists own].
      destruct (open_rights _ _ _ _ _ Ei Hg) as (Hw & Hr & _).
      exists own. split; [|exact H2]. intros w' o' Hh.
      apply holds_give in Hh as [Hh|[-> Ho]]; [by apply H1|].
      apply elem_of_list_singleton in Ho as ->. cbn [file_obj fit]. split; intros E; exists w.
      + split; [reflexivity|]. right. by apply Hr.
      + split; [reflexivity|]. right. by apply Hw.
    - exists (λ s, if bool_decide (s = p_next p) then w else own s). split.
      + intros w' o' Hh. cbn [p_next].
        change (holds (give w [OSock (p_next p) false; OSock (p_next p) true] p) w' o') in Hh.
        apply holds_give in Hh as [Hh|[-> Ho]]; [by apply fit_more, H1|].
        assert (∃ b, o' = OSock (p_next p) b) as [b ->].
        { apply elem_of_cons in Ho as [->|Ho]; [by eexists|].
          apply elem_of_list_singleton in Ho as ->. by eexists. }
        cbn [fit]. rewrite bool_decide_eq_true_2 by done. split; [reflexivity|lia].
      + intros s b o Ho. cbn [p_next]. change (o ∈ sent s b p) in Ho.
        destruct (H2 s b o Ho) as [Hlt Hf]. split; [lia|].
        rewrite bool_decide_eq_false_2 by lia. by apply fit_more.
    - destruct (bool_decide (OSock s b ∈ of w p)) eqn:E1; cbn [andb]; [|by exists own].
      destruct (bool_decide (o ∈ of w p)) eqn:E2; [|by exists own].
      apply bool_decide_eq_true in E1, E2. apply of_holds, H1 in E1, E2. cbn [fit] in E1.
      destruct E1 as [Hown Hlt]. exists own. split; [exact H1|]. cbn [p_next].
      intros s' b' o' Ho. unfold sent in Ho. cbn [p_queue] in Ho.
      destruct (decide ((s, b) = (s', b'))) as [[= <- <-]|Hne].
      + rewrite lookup_insert in Ho. cbn [default] in Ho.
        apply elem_of_app in Ho as [Ho|Ho]; [by apply (H2 s b)|].
        apply elem_of_list_singleton in Ho as ->. split; [done|]. by eapply fit_R.
      + rewrite lookup_insert_ne in Ho by done. by apply (H2 s' b').
    - destruct (bool_decide (OSock s b ∈ of w p)) eqn:E1; [|by exists own].
      apply bool_decide_eq_true in E1. apply of_holds, H1 in E1. cbn [fit] in E1.
      destruct E1 as [Hown Hlt]. destruct (sent s (negb b) p) as [|o rest] eqn:Eq; [by exists own|].
      exists own. split.
      + intros w' o' Hh. apply holds_give in Hh as [Hh|[-> Ho]]; [by apply H1|].
        apply elem_of_list_singleton in Ho as ->. cbn [give p_next].
        destruct (H2 s (negb b) o) as [_ Hf]; [rewrite Eq; left|].
        eapply fit_R; [|exact Hf]. by symmetry.
      + intros s' b' o' Ho. cbn [give p_next]. unfold sent in Ho. cbn [give p_queue] in Ho.
        destruct (decide ((s, negb b) = (s', b'))) as [[= <- <-]|Hne].
        * rewrite lookup_insert in Ho. cbn [default] in Ho. apply (H2 s (negb b)).
          rewrite Eq. by right.
        * rewrite lookup_insert_ne in Ho by done. by apply (H2 s' b').
    - exists own. split; [|exact H2]. intros w' o' (l & El & Hl). cbn [p_has p_next] in *.
      apply H1. destruct (decide (w = w')) as [->|Hne].
      + rewrite list_lookup_alter in El. destruct (p_has p !! w') as [l'|] eqn:E; [|done].
        injection El as <-. apply elem_of_list_filter in Hl as [_ Hl]. by exists l'.
      + rewrite list_lookup_alter_ne in El by done. by exists l.
  Qed.

  Definition holds_sock (s : N) (l : list obj) : Prop := OSock s false ∈ l ∨ OSock s true ∈ l.
  Lemma pinv_start : starts p0 → (∀ w w', share p0 w w' → R w w') → pinv p0.
  Proof.
    intros [Hq Hn] Hs.
    exists (λ s, default 0%nat (fst <$> list_find (holds_sock s) (p_has p0))). split.
    - intros w o Hh. destruct o as [i rd wr|s b]; cbn [fit].
      + split; intros ->; exists w; (split; [reflexivity|]); left; eexists _, _; (split; [exact Hh|]); tauto.
      + split; [|by eapply Hn]. pose proof Hh as (l & El & Hl).
        destruct (list_find (holds_sock s) (p_has p0)) as [[w' l']|] eqn:E; cbn.
        * apply list_find_Some in E as (El' & Hl' & _). apply Hs.
          destruct Hl' as [Hl'|Hl'].
          -- exists s, b, false. split; [done|]. by exists l'.
          -- exists s, b, true. split; [done|]. by exists l'.
        * apply list_find_None in E. rewrite Forall_forall in E. exfalso.
          apply (E l); [by eapply elem_of_list_lookup_2|]. destruct b; [by right|by left].
    - intros s b o Ho. unfold sent in Ho. rewrite Hq, lookup_empty in Ho. cbn in Ho. by apply elem_of_nil in Ho.
  Qed.
  Lemma pinv_run p xs : pinv p → pinv (prun look (λ w, build false (calls w)) p xs).
  Proof.
    unfold prun. revert p. induction xs as [|x xs IH]; intros p H; [done|]. cbn [foldl].
    by apply IH, pinv_step.
  Qed.
End groups.

(** Workers in groups, such that only workers of one group were given ends of the same socket:
    what a worker can read or write some worker of its group may. *)
Theorem C162_groups look calls p R xs w i rd wr :
  Equivalence R → starts p → (∀ w w', share p w w' → R w w') →
  holds (prun look (λ w, build false (calls w)) p xs) w (OFile i rd wr) →
  within look calls p R w i rd wr.
Proof.
  intros HR Hst Hsh Hh.
  destruct (pinv_run look calls p R HR p xs (pinv_start look calls p R HR Hst Hsh)) as (own & H & _).
  exact (H w (OFile i rd wr) Hh).
Qed.
Print Assumptions C162_groups.

(** Workers that were given no common socket keep to their own files. *)
Theorem C162_partial look calls p xs w i rd wr :
  starts p → (∀ w w', share p w w' → w = w') →
  holds (prun look (λ w, build false (calls w)) p xs) w (OFile i rd wr) →
  within look calls p eq w i rd wr.
Proof. intros Hst Hsh. apply C162_groups; [apply _|done|done]. Qed.
Print Assumptions C162_partial.

(** Whatever the workers share, a file that no worker may read or write stays so. *)
Theorem C162_all look calls p xs w i rd wr :
  starts p → holds (prun look (λ w, build false (calls w)) p xs) w (OFile i rd wr) →
  within look calls p (λ _ _, True) w i rd wr.
Proof. intros Hst. apply C162_groups; [by split|done|done]. Qed.
Print Assumptions C162_all.

(** And workers of one group do get each other's files: if they were given the two ends of a
    socket, any file the first may open the second can have. *)
Theorem C162_passed look calls p w w' s b l l' path flags i :
  p_has p !! w = Some l → p_has p !! w' = Some l' → w ≠ w' → OSock s b ∈ l → OSock s (negb b) ∈ l' →
  p_queue p = ∅ →
  should_grant (rules_of (calls w)) path flags → look path = Some i →
  holds (prun look (λ w, build false (calls w)) p
    [(w, POpen path flags); (w, PSend s b (file_obj i flags)); (w', PRecv s (negb b))])
    w' (file_obj i flags).
Proof.
  intros El El' Hne Hs Hs' Hq Hg Hi. unfold prun. cbn [foldl].
  assert (pstep look (λ w, build false (calls w)) p (w, POpen path flags) =
    give w [file_obj i flags] p) as ->.
  { cbn [pstep]. apply granted_iff in Hg. by rewrite Hg, Hi. }
  set (p1 := give w [file_obj i flags] p).
  assert (p_has p1 !! w = Some (file_obj i flags :: l)) as E1.
  { unfold p1, give. cbn [p_has]. rewrite list_lookup_alter, El. done. }
  assert (p_has p1 !! w' = Some l') as E1'.
  { unfold p1, give. cbn [p_has]. rewrite list_lookup_alter_ne by done. done. }
  assert (p_queue p1 = ∅) as Eq by done.
  assert (of w p1 = file_obj i flags :: l) as Eo by (unfold of; by rewrite E1).
  clearbody p1.
  assert (pstep look (λ w, build false (calls w)) p1 (w, PSend s b (file_obj i flags)) =
    mkP (p_has p1) (<[(s, b) := sent s b p1 ++ [file_obj i flags]]> (p_queue p1)) (p_next p1)) as ->.
  { cbn [pstep]. rewrite Eo. rewrite (bool_decide_eq_true_2 (OSock s b ∈ _)) by (by right).
    by rewrite (bool_decide_eq_true_2 (file_obj i flags ∈ _)) by left. }
  set (p2 := mkP _ _ _).
  assert (of w' p2 = l') as Eo' by (unfold of, p2; cbn [p_has]; by rewrite E1').
  assert (sent s (negb (negb b)) p2 = [file_obj i flags]) as Es.
  { unfold sent, p2. cbn [p_queue]. rewrite negb_involutive, lookup_insert. cbn [default].
    unfold default, id, sent. by rewrite Eq, lookup_empty. }
  assert (p_has p2 !! w' = Some l') as E2 by done.
  clearbody p2. cbn [pstep]. rewrite Eo', Es, bool_decide_eq_true_2 by done.
  exists (file_obj i flags :: l'). split; [|left]. cbn [give p_has]. rewrite list_lookup_alter, E2. done.
Qed.
Print Assumptions C162_passed.

(** Two workers on one program's socket pair; only the first may read the secret. *)
Definition two_look (path : str) : option N := if bool_decide (path = lit "/secret") then Some 7 else None.
Definition two_calls (w : nat) : list api_call :=
  match w with O => [CallRule (AllowFileRead (lit "/secret"))] | _ => [] end.
Definition two_world : pworld := mkP [[OSock 0 false]; [OSock 0 true]] ∅ 1.

Lemma two_starts : starts two_world.
Proof.
  split; [done|]. intros w s b (l & El & Hl). destruct w as [|[|w]]; [| |done].
  - injection El as <-. apply elem_of_list_singleton in Hl as [= -> ->]. done.
  - injection El as <-. apply elem_of_list_singleton in Hl as [= -> ->]. done.
Qed.
Theorem C162_refuted : ¬ C162_full.
Proof.
  intros H. unfold C162_full in H.
  destruct (H two_look two_calls two_world
    [(0%nat, POpen (lit "/secret") 0); (0%nat, PSend 0 false (OFile 7 true false)); (1%nat, PRecv 0 true)]
    1%nat 7 true false two_starts) as [Hr _].
  - exists [OFile 7 true false; OSock 0 true]. split; [by vm_compute|left].
  - destruct (Hr eq_refl) as (w' & <- & [(rd & wr & (l & El & Hl) & _)|Hr']).
    + injection El as <-. by apply elem_of_list_singleton in Hl.
    + destruct Hr' as (path & cs & _ & _ & _ & r & He & _). by apply elem_of_nil in He.
Qed.
Print Assumptions C162_refuted.

(** The filter allows the three calls whatever their arguments. *)
Theorem C162_filter l pid rs a name args :
  name ∈ [lit "sendmsg"; lit "recvmsg"; lit "socketpair"] →
  SeccompModel.build_rules l pid = Ok rs → SeccompModel.lib_known l name = true →
  SeccompModel.decision rs a name args = SeccompModel.Allow.
Proof.
  intros Hn H Hk. refine (SigMaskProps.allowed_by_name l pid rs a name args H _ Hk).
  repeat (apply elem_of_cons in Hn as [-> | Hn]; [by apply (bool_decide_unpack _); vm_compute|]).
  by apply elem_of_nil in Hn.
Qed.
Print Assumptions C162_filter.

Example C162_example :
  (** a pair the first worker made is of no use to the second *)
  p_has (prun two_look (λ w, build false (two_calls w)) (mkP [[]; []] ∅ 0)
    [(0%nat, PPair); (0%nat, POpen (lit "/secret") 0); (0%nat, PSend 0 false (OFile 7 true false));
     (1%nat, PRecv 0 true); (1%nat, POpen (lit "/secret") 0)])
    = [[OFile 7 true false; OSock 0 false; OSock 0 true]; []] ∧
  (** the end of such a pair can itself be passed through the shared one, and used later *)
  p_has (prun two_look (λ w, build false (two_calls w)) two_world
    [(0%nat, PPair); (0%nat, PSend 0 false (OSock 1 true)); (1%nat, PRecv 0 true);
     (0%nat, POpen (lit "/secret") 0); (0%nat, PSend 1 false (OFile 7 true false));
     (0%nat, PClose (OFile 7 true false)); (1%nat, PRecv 1 true)])
    = [[OSock 1 false; OSock 1 true; OSock 0 false]; [OFile 7 true false; OSock 1 true; OSock 0 true]] ∧
  (** what was sent is not received at the same end *)
  p_has (prun two_look (λ w, build false (two_calls w)) two_world
    [(0%nat, POpen (lit "/secret") 0); (0%nat, PSend 0 false (OFile 7 true false));
     (0%nat, PRecv 0 false)])
    = [[OFile 7 true false; OSock 0 false]; [OSock 0 true]].
Proof. by vm_compute. Qed.
