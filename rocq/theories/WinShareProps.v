(** What a worker does to other programs' access to files on Windows: C171. *)
From stdpp Require Import prelude gmap.
From Verif Require Import Bytes PolicyModel PolicySpec LinuxPolicyModel LinuxPolicySpec
  WinPolicyModel WinPolicySpec WinPolicyProofs WinPolicyProps WinShareModel.
Local Open Scope N_scope.

(** ** What is claimed *)

Definition no_files : shares := mkShares ∅ [].

(** The same machine if the worker had opened nothing. *)
Definition without_worker (s : shares) : shares :=
  mkShares (filter (λ x : N * fobj, fo_worker x.2 = false) (sh_objs s)) (sh_locks s).
(** The open gives no handle, and would if it were not for the worker. *)
Definition kept_out (s : shares) (i : N) (a sh : Z) : Prop :=
  ∃ id, sh_objs s !! id = None ∧
    sh_objs (k_create false i a sh id s) !! id = None ∧
    is_Some (sh_objs (k_create false i a sh id (without_worker s)) !! id).
(** The read or write through handle [id] of another program fails, and would not if it
    were not for the worker. *)
Definition io_kept_out (s : shares) (id off len : N) (wr : bool) : Prop :=
  (∃ e, sh_objs s !! id = Some e ∧ fo_worker e = false) ∧
  io_refused s id off len wr = true ∧ io_refused (without_worker s) id off len wr = false.

(** The rules give right [x] at a name of the file. *)
Definition rule_for (look : str → option N) (calls : list win_call) (i : N) (x : right) : Prop :=
  ∃ path cs, look path = Some i ∧ well_formed cs ∧ names backslash path cs ∧
    win_entitled calls cs x.
(** Names that lead to files have components. *)
Definition look_ok (look : str → option N) : Prop :=
  ∀ path i, look path = Some i → ∃ cs, well_formed cs ∧ names backslash path cs.

(** Access masks: bits 0 and 5 read, 1 and 2 write, 16 deletes, 28 to 31 generic. *)
Definition opens_read (a : Z) : Prop := some_bit [0; 5; 28; 29; 31]%Z a.
Definition opens_write (a : Z) : Prop := some_bit [1; 2; 28; 30]%Z a.
Definition opens_delete (a : Z) : Prop := some_bit [16; 28]%Z a.
Definition shares_all (sh : Z) : Prop := bit sh 0 ∧ bit sh 1 ∧ bit sh 2.

Definition C171_full : Prop :=
  ∀ look calls ops, look_ok look →
    let s := share_run look (win_build false calls) no_files ops in
    (∀ i a sh, shares_all sh → kept_out s i a sh →
       (opens_read a ∧ rule_for look calls i RBlockReaders) ∨
       (opens_write a ∧ rule_for look calls i RBlockWriters) ∨
       (opens_delete a ∧ rule_for look calls i RBlockDeleters)) ∧
    (∀ id e off len wr, sh_objs s !! id = Some e → io_kept_out s id off len wr →
       rule_for look calls (fo_file e) (if wr then RBlockWriters else RBlockReaders)).

(** ** Proof *)

Lemma some_obj_true P m : some_obj P m = true → ∃ id e, m !! id = Some e ∧ P id e = true.
Proof.
  unfold some_obj. intros H. apply existsb_exists in H as ([id e] & Hin & HP).
  exists id, e. split; [|done]. by apply elem_of_map_to_list, elem_of_list_In.
Qed.
Lemma some_obj_intro P m id e : m !! id = Some e → P id e = true → some_obj P m = true.
Proof.
  intros Hm HP. apply existsb_exists. exists (id, e). split; [|done].
  by apply elem_of_list_In, elem_of_map_to_list.
Qed.

Lemma generic_bit a n :
  Z.testbit (generic_map a) n =
  Z.testbit a n || (Z.testbit a 31 && Z.testbit 0x120089 n) ||
  (Z.testbit a 30 && Z.testbit 0x120116 n) || (Z.testbit a 29 && Z.testbit 0x1200A0 n) ||
  (Z.testbit a 28 && Z.testbit 0x1F01FF n).
Proof.
  unfold generic_map, ors. cbn [foldr]. rewrite !Z.lor_spec, Z.bits_0.
  destruct (Z.testbit a 31), (Z.testbit a 30), (Z.testbit a 29), (Z.testbit a 28);
    rewrite ?Z.bits_0; cbn [andb];
    destruct (Z.testbit a n), (Z.testbit 0x120089 n), (Z.testbit 0x120116 n),
      (Z.testbit 0x1200A0 n), (Z.testbit 0x1F01FF n); done.
Qed.

Ltac bits := repeat match goal with
  | H : _ || _ = true |- _ => apply orb_true_iff in H as [H|H]
  | H : _ && _ = true |- _ => apply andb_true_iff in H as [H ?]
  end; try done.
Lemma s_read_opens a : s_read a = true → opens_read a.
Proof.
  unfold s_read, opens_read, some_bit, bit. rewrite !generic_bit.
  change (Z.testbit 0x120089 0) with true. change (Z.testbit 0x120116 0) with false.
  change (Z.testbit 0x1200A0 0) with false. change (Z.testbit 0x1F01FF 0) with true.
  change (Z.testbit 0x120089 5) with false. change (Z.testbit 0x120116 5) with false.
  change (Z.testbit 0x1200A0 5) with true. change (Z.testbit 0x1F01FF 5) with true.
  intros H. bits; eexists; (split; [|exact H]); rewrite !elem_of_cons; eauto 10.
Qed.
Lemma s_write_opens a : s_write a = true → opens_write a.
Proof.
  unfold s_write, opens_write, some_bit, bit. rewrite !generic_bit.
  change (Z.testbit 0x120089 1) with false. change (Z.testbit 0x120116 1) with true.
  change (Z.testbit 0x1200A0 1) with false. change (Z.testbit 0x1F01FF 1) with true.
  change (Z.testbit 0x120089 2) with false. change (Z.testbit 0x120116 2) with true.
  change (Z.testbit 0x1200A0 2) with false. change (Z.testbit 0x1F01FF 2) with true.
  intros H. bits; eexists; (split; [|exact H]); rewrite !elem_of_cons; eauto 10.
Qed.
Lemma s_delete_opens a : s_delete a = true → opens_delete a.
Proof.
  unfold s_delete, opens_delete, some_bit, bit. rewrite !generic_bit.
  change (Z.testbit 0x120089 16) with false. change (Z.testbit 0x120116 16) with false.
  change (Z.testbit 0x1200A0 16) with false. change (Z.testbit 0x1F01FF 16) with true.
  intros H. bits; eexists; (split; [|exact H]); rewrite !elem_of_cons; eauto 10.
Qed.

Lemma may_lock_opens a : may_lock a = true → opens_read a ∨ opens_write a.
Proof.
  unfold may_lock. intros H. apply orb_true_iff in H as [H|H].
  - left. apply s_read_opens. unfold s_read. by rewrite H.
  - right. apply s_write_opens. unfold s_write. by rewrite H.
Qed.

Lemma kept_out_inv s i a sh :
  kept_out s i a sh →
  ∃ id e, sh_objs s !! id = Some e ∧ fo_worker e = true ∧ fo_file e = i ∧ clash e a sh = true.
Proof.
  intros (id & Hid & Hno & [x Hx]). unfold k_create in Hno, Hx. rewrite Hid in Hno.
  destruct (some_obj _ (sh_objs s)) eqn:E1 in Hno.
  2:{ cbn [sh_objs] in Hno. by rewrite lookup_insert in Hno. }
  assert (Hf0 : sh_objs (without_worker s) !! id = None)
    by (apply map_filter_lookup_None; by left).
  rewrite Hf0 in Hx.
  destruct (some_obj _ (sh_objs (without_worker s))) eqn:E2 in Hx; [congruence|].
  apply some_obj_true in E1 as (id' & e & He & Hc).
  apply andb_true_iff in Hc as [Hf Hc]. apply N.eqb_eq in Hf.
  exists id', e. split_and!; try done.
  destruct (fo_worker e) eqn:Ew; [done|].
  exfalso. apply not_true_iff_false in E2. apply E2.
  eapply (some_obj_intro _ _ id' e); [by apply map_filter_lookup_Some|].
  cbn beta. by rewrite Hf, N.eqb_refl, Hc.
Qed.

Section proofs.
Context (look : str → option N) (calls : list win_call) (Hlook : look_ok look).

Record sinv (s : shares) : Prop := mkSinv {
  si_grant : ∀ id e, sh_objs s !! id = Some e → fo_worker e = true →
    ∃ f cs, look (fr_path f) = Some (fo_file e) ∧ fr_access f = fo_access e ∧
      fr_share f = fo_share e ∧ well_formed cs ∧ names backslash (fr_path f) cs ∧
      win_should_grant calls f cs;
  si_lock : ∀ l, l ∈ sh_locks s →
    ∃ e, sh_objs s !! rl_handle l = Some e ∧ may_lock (fo_access e) = true }.

Lemma sinv_create w i a sh id s :
  sinv s →
  (w = true → ∃ f cs, look (fr_path f) = Some i ∧ fr_access f = a ∧
      fr_share f = sh ∧ well_formed cs ∧ names backslash (fr_path f) cs ∧
      win_should_grant calls f cs) →
  sinv (k_create w i a sh id s).
Proof.
  intros [A B] Hw. unfold k_create. destruct (sh_objs s !! id) eqn:Ei; [done|].
  destruct (some_obj _ _); [done|]. split; cbn [sh_objs sh_locks].
  - intros j e [[<- <-]|[Hn Hj]]%lookup_insert_Some; [exact Hw|by eapply A].
  - intros l Hl. destruct (B l Hl) as (e & He & Hm). exists e. split; [|done].
    rewrite lookup_insert_ne; [done|]. intros ->. congruence.
Qed.

Lemma sinv_step s o : sinv s → sinv (share_step look (win_build false calls) s o).
Proof.
  intros H. pose proof H as [A B]. destruct o as [f id|i a sh id|id off len x|id off len|id];
    cbn [share_step].
  - destruct ((win_evaluate_request false (win_build false calls) (WinFileOpen f)).1) eqn:Ev;
      try done.
    destruct (look (fr_path f)) as [i|] eqn:El; [|done].
    apply sinv_create; [done|]. intros _.
    destruct (Hlook _ _ El) as (cs & Hwf & Hn).
    exists f, cs. split_and!; try done. by apply C61_exact.
  - by apply sinv_create.
  - unfold k_lock. destruct (sh_objs s !! id) as [e|] eqn:Ei; [|done].
    destruct (_ && _) eqn:Em; [|done]. apply andb_true_iff in Em as [Em _].
    split; cbn [sh_objs sh_locks]; [done|].
    intros l [-> | Hl]%elem_of_cons; [eauto|by apply B].
  - split; cbn [sh_objs sh_locks]; [done|].
    intros l [_ Hl]%elem_of_list_filter. by apply B.
  - split; cbn [sh_objs sh_locks].
    + intros j e [_ Hj]%lookup_delete_Some. by eapply A.
    + intros l [Hne Hl]%elem_of_list_filter. destruct (B l Hl) as (e & He & Hm).
      exists e. split; [|done]. rewrite lookup_delete_ne; [done|].
      intros E. by rewrite E, N.eqb_refl in Hne.
Qed.

Lemma sinv_run ops s : sinv s → sinv (share_run look (win_build false calls) s ops).
Proof.
  revert s. induction ops as [|o ops IH]; intros s H; [done|].
  cbn [share_run foldl]. apply IH. by apply sinv_step.
Qed.
Lemma sinv_begin : sinv no_files.
Proof. split; [done|]. intros l Hl. by apply elem_of_nil in Hl. Qed.

Lemma grant_rule f cs i x :
  look (fr_path f) = Some i → well_formed cs → names backslash (fr_path f) cs →
  win_should_grant calls f cs → file_needs f x → rule_for look calls i x.
Proof. intros Hl Hw Hn (_ & _ & Hg) Hx. exists (fr_path f), cs. split_and!; try done. by apply Hg. Qed.

Lemma testbit_not b n : Z.testbit b n = false → ¬ bit b n.
Proof. unfold bit. by intros ->. Qed.

(** What a granted handle can do needs a read or a write rule. *)
Lemma access_rule f cs i :
  look (fr_path f) = Some i → well_formed cs → names backslash (fr_path f) cs →
  win_should_grant calls f cs →
  opens_read (fr_access f) ∨ opens_write (fr_access f) ∨ opens_delete (fr_access f) →
  rule_for look calls i RRead ∨ rule_for look calls i RWrite.
Proof.
  intros Hl Hwf Hn Hg Hop. pose proof Hg as ((Hon & _) & _).
  destruct (decide (fr_disposition f = 1)%Z) as [Hd|Hd].
  2:{ right. eapply grant_rule; try done. by right; left. }
  destruct Hop as [(n & Hin & Hb)|[(n & Hin & Hb)|(n & Hin & Hb)]].
  - left. eapply grant_rule; try done. split; [|by left]. exists n. split; [|done].
    assert (H0 : (0 ≤ n)%Z).
    { rewrite !elem_of_cons, elem_of_nil in Hin. destruct Hin as [-> | [-> | [-> | [-> | [-> | []]]]]]; lia. }
    pose proof (Hon n H0 Hb) as Hs.
    rewrite !elem_of_cons, elem_of_nil in Hin.
    destruct Hin as [-> | [-> | [-> | [-> | [-> | []]]]]];
      first [apply (bool_decide_unpack _); vm_compute; exact I
            |exfalso; revert Hs; apply (bool_decide_unpack _); vm_compute; exact I].
  - right. eapply grant_rule; try done. left. exists n. split; [|done].
    rewrite !elem_of_cons, elem_of_nil in Hin.
    destruct Hin as [-> | [-> | [-> | [-> | []]]]]; apply (bool_decide_unpack _); vm_compute; exact I.
  - right. eapply grant_rule; try done. left. exists n. split; [|done].
    rewrite !elem_of_cons, elem_of_nil in Hin.
    destruct Hin as [-> | [-> | []]]; apply (bool_decide_unpack _); vm_compute; exact I.
Qed.

(** Both ways in which an open can fail. *)
Lemma kept_out_spec s i a sh :
  sinv s → kept_out s i a sh →
  (opens_read a ∧ rule_for look calls i RBlockReaders) ∨
  (opens_write a ∧ rule_for look calls i RBlockWriters) ∨
  (opens_delete a ∧ rule_for look calls i RBlockDeleters) ∨
  (¬ shares_all sh ∧ (rule_for look calls i RRead ∨ rule_for look calls i RWrite)).
Proof.
  intros [A _] Hk. apply kept_out_inv in Hk as (id & e & He & Hw & Hi & Hc).
  destruct (A id e He Hw) as (f & cs & Hl & Ha & Hsh & Hwf & Hn & Hg). rewrite Hi in Hl.
  pose proof (access_rule f cs i Hl Hwf Hn Hg) as Hacc. rewrite Ha in Hacc.
  assert (Hr : ∀ x, file_needs f x → rule_for look calls i x).
  { intros x. by eapply grant_rule. }
  unfold clash in Hc. apply andb_true_iff in Hc as [_ Hc].
  rewrite !orb_true_iff, !andb_true_iff, !negb_true_iff in Hc.
  rewrite <- Hsh in Hc.
  destruct Hc as [[[[[[H1 H2]|[H1 H2]]|[H1 H2]]|[H1 H2]]|[H1 H2]]|[H1 H2]].
  - left. split; [by apply s_read_opens|]. apply Hr. by apply testbit_not.
  - right; left. split; [by apply s_write_opens|]. apply Hr. by apply testbit_not.
  - right; right; left. split; [by apply s_delete_opens|]. apply Hr. by apply testbit_not.
  - right; right; right. split; [intros (? & _); by apply testbit_not in H2|].
    apply Hacc. left. by apply s_read_opens.
  - right; right; right. split; [intros (_ & ? & _); by apply testbit_not in H2|].
    apply Hacc. right; left. by apply s_write_opens.
  - right; right; right. split; [intros (_ & _ & ?); by apply testbit_not in H2|].
    apply Hacc. right; right. by apply s_delete_opens.
Qed.

Lemma io_kept_out_spec s id e off len wr :
  sinv s → sh_objs s !! id = Some e → io_kept_out s id off len wr →
  rule_for look calls (fo_file e) RRead ∨ rule_for look calls (fo_file e) RWrite.
Proof.
  intros [A B] He ((e' & He' & Hw') & H1 & H2). rewrite He in He'. injection He' as <-.
  unfold io_refused in H1, H2. rewrite He in H1.
  assert (Hf0 : sh_objs (without_worker s) !! id = Some e)
    by (by apply map_filter_lookup_Some).
  rewrite Hf0 in H2.
  apply existsb_exists in H1 as (l & Hin & Hl). apply elem_of_list_In in Hin.
  rewrite !andb_true_iff in Hl. destruct Hl as [[Hs Ho] Hx].
  unfold same_file in Hs. destruct (sh_objs s !! rl_handle l) as [d|] eqn:Ed; [|done].
  apply N.eqb_eq in Hs.
  destruct (fo_worker d) eqn:Ew.
  - destruct (A _ _ Ed Ew) as (f & cs & Hlk & Ha & _ & Hwf & Hn & Hg). rewrite Hs in Hlk.
    eapply access_rule; try done. rewrite Ha.
    destruct (B l Hin) as (d' & Hd' & Hm). rewrite Ed in Hd'. injection Hd' as <-.
    apply may_lock_opens in Hm. tauto.
  - exfalso. apply not_true_iff_false in H2. apply H2. apply existsb_exists.
    exists l. split; [by apply elem_of_list_In|].
    unfold same_file.
    assert (Hf1 : sh_objs (without_worker s) !! rl_handle l = Some d)
      by (by apply map_filter_lookup_Some).
    rewrite Hf1, Hs, N.eqb_refl, Ho. done.
Qed.
End proofs.

(** ** Results *)

(** Share access: a program that shares what it opens is kept out by a worker only where a
    lock rule lets it. Missing from the full claim: byte-range locks. *)
Theorem C171_partial : ∀ look calls ops, look_ok look →
  let s := share_run look (win_build false calls) no_files ops in
  ∀ i a sh, shares_all sh → kept_out s i a sh →
    (opens_read a ∧ rule_for look calls i RBlockReaders) ∨
    (opens_write a ∧ rule_for look calls i RBlockWriters) ∨
    (opens_delete a ∧ rule_for look calls i RBlockDeleters).
Proof.
  intros look calls ops Hl s i a sh Hsh Hk.
  assert (Hi : sinv look calls s) by (apply sinv_run, sinv_begin; done).
  destruct (kept_out_spec look calls s i a sh Hi Hk) as [H|[H|[H|[H _]]]]; tauto.
Qed.
Print Assumptions C171_partial.

(** A program that does not share can also be kept out by a worker that has a read or write
    rule for the file; nobody is kept out of a file the worker has no rule for. *)
Theorem C171_unshared : ∀ look calls ops, look_ok look →
  let s := share_run look (win_build false calls) no_files ops in
  ∀ i a sh, kept_out s i a sh → ∃ x, rule_for look calls i x.
Proof.
  intros look calls ops Hl s i a sh Hk.
  assert (Hi : sinv look calls s) by (apply sinv_run, sinv_begin; done).
  destruct (kept_out_spec look calls s i a sh Hi Hk) as [[_ H]|[[_ H]|[[_ H]|[_ [H|H]]]]]; eauto.
Qed.
Print Assumptions C171_unshared.

(** Byte-range locks are in the way only for files with a read or write rule. *)
Theorem C171_locks : ∀ look calls ops, look_ok look →
  let s := share_run look (win_build false calls) no_files ops in
  ∀ id e off len wr, sh_objs s !! id = Some e → io_kept_out s id off len wr →
    rule_for look calls (fo_file e) RRead ∨ rule_for look calls (fo_file e) RWrite.
Proof.
  intros look calls ops Hl s id e off len wr He Hk.
  eapply io_kept_out_spec; [|done|done]. apply sinv_run, sinv_begin; done.
Qed.
Print Assumptions C171_locks.

(** A worker that may only read a file opens it, shares it, and locks its bytes: the program
    that has the same file open cannot read them. *)
Definition lk_calls : list win_call := [WinRule (AllowFileRead (lit "C:\a")) None].
Definition lk_look (p : str) : option N :=
  if bool_decide (p = lit "\??\C:\a") then Some 1 else None.
Definition lk_ops : list sop :=
  [SOther 1 1 7 2; SWorker (ex_req (lit "\??\C:\a") 0x80100000 7 1 0x200000) 3;
   SLock 3 0 100 true].
Lemma lk_look_ok : look_ok lk_look.
Proof.
  intros p i H. unfold lk_look in H. case_bool_decide as E; [|done]. subst p.
  exists [lit "??"; lit "C:"; lit "a"]. split.
  - split; [done|]. repeat constructor; try done;
      (apply (bool_decide_unpack _); by vm_compute).
  - left. done.
Qed.

Theorem C171_refuted : ¬ C171_full.
Proof.
  unfold C171_full. intros H.
  destruct (H lk_look lk_calls lk_ops lk_look_ok) as [_ Hio].
  assert (He : sh_objs (share_run lk_look (win_build false lk_calls) no_files lk_ops) !! 2 =
               Some (mkFobj false 1 1 7)) by (by vm_compute).
  destruct (Hio 2 _ 0 10 false He) as (path & cs & _ & _ & _ & (r & full & Hin & _ & Hg)).
  - split; [eauto|]. split; by vm_compute.
  - apply elem_of_list_singleton in Hin. injection Hin as -> ->. done.
Qed.
Print Assumptions C171_refuted.

(** With a rule that lets it keep writers out, a worker keeps out a program that wants to
    write, and lets one that reads pass. *)
Example C171_example :
  let calls := [WinRule (AllowFileRead (lit "C:\a")) None;
                WinRule (AllowFileLock (lit "C:\a") false true false) None] in
  let s := share_run lk_look (win_build false calls) no_files
             [SWorker (ex_req (lit "\??\C:\a") 0x80100000 5 1 0x200000) 3] in
  kept_out s 1 2 7 ∧ ¬ kept_out s 1 1 7 ∧
  (∀ id, sh_objs (share_run lk_look (win_build false lk_calls) no_files
             [SWorker (ex_req (lit "\??\C:\a") 0x80100000 5 1 0x200000) 3]) !! id = None).
Proof.
  cbn zeta. split_and!.
  - exists 4. split_and!; [by vm_compute|by vm_compute|vm_compute; by eexists].
  - intros Hk. apply kept_out_inv in Hk as (id & e & He & _ & _ & Hc).
    assert (E : sh_objs (share_run lk_look (win_build false [WinRule (AllowFileRead (lit "C:\a")) None;
                WinRule (AllowFileLock (lit "C:\a") false true false) None]) no_files
             [SWorker (ex_req (lit "\??\C:\a") 0x80100000 5 1 0x200000) 3]) =
             {[3 := mkFobj true 1 0x80100000 5]}) by (by vm_compute).
    rewrite E in He. apply lookup_singleton_Some in He as [_ <-]. revert Hc. by vm_compute.
  - intros id.
    assert (E : sh_objs (share_run lk_look (win_build false lk_calls) no_files
             [SWorker (ex_req (lit "\??\C:\a") 0x80100000 5 1 0x200000) 3]) = ∅) by (by vm_compute).
    by rewrite E, lookup_empty.
Qed.
