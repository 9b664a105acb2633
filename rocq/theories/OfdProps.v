(** What a worker does with its descriptors: C160. *)
From stdpp Require Import prelude gmap.
From Verif Require Import Bytes PolicyModel PolicySpec LinuxPolicyModel LinuxPolicySpec
  LinuxPolicyProofs LinuxPolicyProps FifoModel RecordLockProps LockRightProps OfdModel.
Local Open Scope N_scope.

(** The program's descriptors behave as before, whatever the worker does: [host] gives the
    descriptions of the program's descriptors. *)
Definition numbered (s : kworld) : Prop := ∀ id, is_Some (s_ofds s !! id) → id < s_next s.
Definition C160_full : Prop :=
  ∀ look calls s (host : gmap N N) ops fd id,
    numbered s → host !! fd = Some id →
    s_ofds (krun look (build false calls) s ops) !! id = s_ofds s !! id.

(** Descriptions the worker was given, and files it may write and read: through such a
    description, or by the rules. *)
Definition given (s : kworld) (id : N) : Prop := ∃ fd, s_fds s !! fd = Some id.
Definition writes_ok (look : str → option N) (rules : list rule) (s : kworld) (i : N) : Prop :=
  (∃ id o, given s id ∧ s_ofds s !! id = Some o ∧ o_ino o = i ∧ o_write o = true) ∨
  has_right look rules i RWrite.
Definition reads_ok (look : str → option N) (rules : list rule) (s : kworld) (i : N) : Prop :=
  (∃ id o, given s id ∧ s_ofds s !! id = Some o ∧ o_ino o = i ∧ o_read o = true) ∨
  has_right look rules i RRead.

Record kinv (look : str → option N) (rules : list rule) (s0 s : kworld) : Prop := mkKinv {
  ki_next : s_next s0 ≤ s_next s;
  ki_num : numbered s;
  ki_fds : ∀ id, given s id → (given s0 id ∨ s_next s0 ≤ id) ∧ id < s_next s;
  ki_ofd : ∀ id o, given s id → s_ofds s !! id = Some o →
    (o_write o = true → writes_ok look rules s0 (o_ino o)) ∧
    (o_read o = true → reads_ok look rules s0 (o_ino o));
  ki_frame : ∀ id, id < s_next s0 → ¬ given s0 id → s_ofds s !! id = s_ofds s0 !! id;
  ki_files : ∀ i, ¬ writes_ok look rules s0 i → s_files s !! i = s_files s0 !! i;
  ki_seen : ∀ x, x ∈ s_seen s → x ∈ s_seen s0 ∨ reads_ok look rules s0 x.1 }.

Lemma behind_Some fd s id o :
  behind fd s = Some (id, o) ↔ s_fds s !! fd = Some id ∧ s_ofds s !! id = Some o.
Proof.
  unfold behind. destruct (s_fds s !! fd) as [id'|] eqn:E; cbn; [|naive_solver].
  destruct (s_ofds s !! id') eqn:E'; cbn; naive_solver.
Qed.
Lemma kinv_start look rules s :
  numbered s → (∀ id, given s id → is_Some (s_ofds s !! id)) → kinv look rules s s.
Proof.
  intros Hn Hg. split; try done.
  - intros id H. split; [by left|]. by apply Hn, Hg.
  - intros id o H E. split; intros Hb; left; by exists id, o.
  - intros x Hx. by left.
Qed.
(** Changing offset or status flags of a description the worker has. *)
Lemma kinv_ofd look rules s0 s id o o' :
  kinv look rules s0 s → given s id → s_ofds s !! id = Some o →
  o_ino o' = o_ino o → o_read o' = o_read o → o_write o' = o_write o →
  kinv look rules s0 (with_ofd id o' s).
Proof.
  intros [H1 H2 H3 H4 H5 H6 H7] Hg Ho Ei Er Ew. split; cbn [with_ofd s_ofds s_next s_fds s_files s_seen]; try done.
  - intros id' [x Hx]. cbn [with_ofd s_ofds] in Hx. apply lookup_insert_Some in Hx as [[<- _]|[_ Hx]]; [|apply H2; by exists x].
    apply H2. by exists o.
  - intros id' o1 Hg' Hx. apply lookup_insert_Some in Hx as [[<- <-]|[_ Hx]]; [|by apply (H4 id')].
    rewrite Ei, Er, Ew. by apply (H4 id).
  - intros id' Hlt Hn. destruct (decide (id = id')) as [->|Hne].
    + destruct (H3 _ Hg) as [[?|?] _]; [done|lia].
    + rewrite lookup_insert_ne by done. by apply H5.
Qed.
Lemma kinv_file look rules s0 s i c :
  kinv look rules s0 s → writes_ok look rules s0 i → kinv look rules s0 (with_file i c s).
Proof.
  intros [H1 H2 H3 H4 H5 H6 H7] Hw. split; try done. cbn [with_file s_files].
  intros j Hj. rewrite lookup_insert_ne; [by apply H6|]. by intros ->.
Qed.
Lemma open_rights look rules path flags i :
  look path = Some i → should_grant rules path flags →
  (o_write (open_ofd i flags) = true → has_right look rules i RWrite) ∧
  (o_read (open_ofd i flags) = true → has_right look rules i RRead) ∧
  (Z.testbit flags 9 && negb (Z.testbit flags 21) = true → has_right look rules i RWrite).
Proof.
  intros Hi (_ & cs & Hcan & Hn & _ & Hr & Hw). cbn [open_ofd o_write o_read].
  assert (negb (Z.testbit flags 21) = true → ¬ path_only flags) as Hp.
  { unfold path_only, bit. by destruct (Z.testbit flags 21). }
  split_and!.
  - intros [H21 Hm]%andb_true_iff. exists path, cs. split; [done|]. split; [done|]. split; [done|]. apply Hw.
    split; [by apply Hp|]. apply orb_true_iff in Hm. rewrite !Z.eqb_eq in Hm.
    destruct (mod4_write flags Hm); auto.
  - intros [H21 Hm]%andb_true_iff. exists path, cs. split; [done|]. split; [done|]. split; [done|]. apply Hr.
    split; [by apply Hp|]. apply orb_true_iff in Hm. rewrite !Z.eqb_eq in Hm. by apply mod4_bit0.
  - intros [H9 H21]%andb_true_iff. exists path, cs. split; [done|]. split; [done|]. split; [done|]. apply Hw.
    split; [by apply Hp|]. unfold bit. tauto.
Qed.
Lemma kinv_step look calls s0 s o :
  kinv look (rules_of calls) s0 s → kinv look (rules_of calls) s0 (kstep look (build false calls) s o).
Proof.
  intros Hi. destruct o as [path flags fd|fd fd'|fd|fd ap nb|fd off|fd n|fd data|fd n]; cbn [kstep].
  - destruct (granted _ _ _) eqn:Hg; [|done]. apply granted_iff in Hg.
    destruct (look path) as [i|] eqn:Ei; [|done].
    destruct (open_rights _ _ _ _ _ Ei Hg) as (Hw & Hr & Ht).
    set (s1 := if _ : bool then with_file i [] s else s).
    assert (kinv look (rules_of calls) s0 s1) as Hi1.
    { unfold s1. destruct (_ && _); [|done]. apply kinv_file; [done|]. right. by apply Ht. }
    assert (s_next s1 = s_next s) as En by (unfold s1; by destruct (_ && _)).
    clearbody s1. rewrite <- En. clear Hi. destruct Hi1 as [H1 H2 H3 H4 H5 H6 H7].
    split; cbn [s_next s_fds s_files s_seen s_ofds]; try done.
    + lia.
    + intros id [x Hx]. cbn [s_ofds] in Hx. apply lookup_insert_Some in Hx as [[<- _]|[_ Hx]]; [cbn; lia|].
      assert (id < s_next s1) by (apply H2; by exists x). cbn. lia.
    + intros id [fd' Hfd]. cbn [s_fds] in Hfd. apply lookup_insert_Some in Hfd as [[_ <-]|[_ Hfd]]; [lia|].
      destruct (H3 id (ex_intro _ fd' Hfd)) as [? ?]. split; [done|lia].
    + intros id o [fd' Hfd] Ho. cbn [s_fds s_ofds] in *.
      apply lookup_insert_Some in Ho as [[<- <-]|[Hne Ho]].
      * cbn [open_ofd o_ino]. split; intros Hb; right; [by apply Hw|by apply Hr].
      * apply lookup_insert_Some in Hfd as [[_ ?]|[_ Hfd]]; [done|]. apply (H4 id); [by exists fd'|done].
    + intros id Hlt Hn. rewrite lookup_insert_ne by lia. by apply H5.
  - destruct (s_fds s !! fd) as [id|] eqn:E; [|done]. destruct Hi as [H1 H2 H3 H4 H5 H6 H7].
    assert (∀ id', given (mkK (s_ofds s) (s_next s) (<[fd' := id]> (s_fds s)) (s_files s) (s_seen s)) id' →
      given s id') as Hg.
    { intros id' [fd'' Hfd]. cbn [s_fds] in Hfd. apply lookup_insert_Some in Hfd as [[_ <-]|[_ Hfd]]; by eexists. }
    split; try done.
    + intros id' Hg'. by apply H3, Hg.
    + intros id' o Hg' Ho. apply (H4 id'); [by apply Hg|done].
  - destruct Hi as [H1 H2 H3 H4 H5 H6 H7].
    assert (∀ id', given (mkK (s_ofds s) (s_next s) (delete fd (s_fds s)) (s_files s) (s_seen s)) id' →
      given s id') as Hg.
    { intros id' [fd'' Hfd]. cbn [s_fds] in Hfd. apply lookup_delete_Some in Hfd as [_ Hfd]. by eexists. }
    split; try done.
    + intros id' Hg'. by apply H3, Hg.
    + intros id' o Hg' Ho. apply (H4 id'); [by apply Hg|done].
  - destruct (behind fd s) as [[id o]|] eqn:E; [|done]. apply behind_Some in E as [E1 E2].
    apply (kinv_ofd _ _ _ _ _ o); try done. by exists fd.
  - destruct (behind fd s) as [[id o]|] eqn:E; [|done]. apply behind_Some in E as [E1 E2].
    apply (kinv_ofd _ _ _ _ _ o); try done. by exists fd.
  - destruct (behind fd s) as [[id o]|] eqn:E; [|done]. apply behind_Some in E as [E1 E2].
    destruct (o_read o) eqn:Er; [|done].
    set (got := take n (drop (o_off o) (contents (o_ino o) s))). clearbody got.
    assert (given s id) as Hg by (by exists fd).
    assert (kinv look (rules_of calls) s0 (with_ofd id (at_off o (o_off o + length got)) s)) as Hi'
      by (by apply (kinv_ofd _ _ _ _ _ o)).
    destruct (ki_ofd _ _ _ _ Hi id o Hg E2) as [_ Hr]. specialize (Hr Er).
    destruct Hi' as [H1 H2 H3 H4 H5 H6 H7]. split; try done. cbn [s_seen].
    intros x Hx. apply elem_of_cons in Hx as [->|Hx]; [by right|]. by apply H7.
  - destruct (behind fd s) as [[id o]|] eqn:E; [|done]. apply behind_Some in E as [E1 E2].
    destruct (o_write o) eqn:Ew; [|done]. assert (given s id) as Hg by (by exists fd).
    destruct (ki_ofd _ _ _ _ Hi id o Hg E2) as [Hw _]. specialize (Hw Ew).
    apply (kinv_ofd _ _ _ _ _ o); [by apply kinv_file|exact Hg|exact E2|done..].
  - destruct (behind fd s) as [[id o]|] eqn:E; [|done]. apply behind_Some in E as [E1 E2].
    destruct (o_write o) eqn:Ew; [|done]. assert (given s id) as Hg by (by exists fd).
    destruct (ki_ofd _ _ _ _ Hi id o Hg E2) as [Hw _]. specialize (Hw Ew). by apply kinv_file.
Qed.
Lemma kinv_run look calls s ops :
  numbered s → (∀ id, given s id → is_Some (s_ofds s !! id)) →
  kinv look (rules_of calls) s (krun look (build false calls) s ops).
Proof.
  intros Hn Hg. unfold krun.
  assert (kinv look (rules_of calls) s s) as H by (by apply kinv_start).
  revert H. generalize s at 2 4 as s1. induction ops as [|o ops IH]; intros s1 H; [done|].
  cbn [foldl]. by apply IH, kinv_step.
Qed.

(** Descriptions the worker was not given stay as they are. *)
Theorem C160_partial look calls s (host : gmap N N) ops fd id :
  numbered s → (∀ id, given s id → is_Some (s_ofds s !! id)) →
  host !! fd = Some id → is_Some (s_ofds s !! id) → ¬ given s id →
  s_ofds (krun look (build false calls) s ops) !! id = s_ofds s !! id.
Proof.
  intros Hn Hg _ Hid Hno. apply (ki_frame _ _ _ _ (kinv_run look calls s ops Hn Hg)); [by apply Hn|done].
Qed.
Print Assumptions C160_partial.

(** A file's contents change only if the worker was given a description that can write to it
    or the rules let it write there; and it reads only the files it was given to read or the
    rules let it read. *)
Theorem C160_contents look calls s ops i :
  numbered s → (∀ id, given s id → is_Some (s_ofds s !! id)) →
  ¬ writes_ok look (rules_of calls) s i →
  s_files (krun look (build false calls) s ops) !! i = s_files s !! i.
Proof. intros Hn Hg Hno. by apply (ki_files _ _ _ _ (kinv_run look calls s ops Hn Hg)). Qed.
Print Assumptions C160_contents.
Theorem C160_reads look calls s ops i b :
  numbered s → (∀ id, given s id → is_Some (s_ofds s !! id)) → s_seen s = [] →
  (i, b) ∈ s_seen (krun look (build false calls) s ops) → reads_ok look (rules_of calls) s i.
Proof.
  intros Hn Hg Hs Hin. destruct (ki_seen _ _ _ _ (kinv_run look calls s ops Hn Hg) _ Hin) as [H|H]; [|done].
  rewrite Hs in H. by apply elem_of_nil in H.
Qed.
Print Assumptions C160_reads.

(** A log file, open for appending in the program (its descriptor 5), is the worker's standard
    output. *)
Definition log_world : kworld :=
  mkK {[1 := mkOfd 50 false true true false 3]} 2 {[1 := 1]} {[50 := lit "old"]} [].
Lemma log_numbered : numbered log_world.
Proof.
  intros id [o Ho]. cbn [log_world s_ofds] in Ho. apply lookup_singleton_Some in Ho as [<- _]. done.
Qed.
Theorem C160_refuted : ¬ C160_full.
Proof.
  intros H. unfold C160_full in H.
  specialize (H (λ _, None) [] log_world {[5 := 1]} [KSetfl 1 true true] 5 1 log_numbered eq_refl).
  vm_compute in H. discriminate H.
Qed.
Print Assumptions C160_refuted.
(** What was in a file that a worker is given for appending only does not stay there. *)
Theorem C160_append_refuted :
  ¬ (∀ look calls s ops id o i, numbered s → given s id → s_ofds s !! id = Some o →
       o_append o = true → o_ino o = i →
       (∀ id' o', given s id' → s_ofds s !! id' = Some o' → o_ino o' = i → o_append o' = true) →
       ¬ has_right look (rules_of calls) i RWrite →
       ∃ more, contents i (krun look (build false calls) s ops) = contents i s ++ more).
Proof.
  intros H.
  destruct (H (λ _, None) [] log_world [KSetfl 1 false false; KSeek 1 0; KWrite 1 (lit "new")] 1
    (mkOfd 50 false true true false 3) 50) as [more E].
  - exact log_numbered.
  - by exists 1.
  - done.
  - done.
  - done.
  - intros id' o' _ Ho _. cbn [log_world s_ofds] in Ho. apply lookup_singleton_Some in Ho as [_ <-]. done.
  - intros (path & cs & Hl & _). done.
  - vm_compute in E. discriminate E.
Qed.
Print Assumptions C160_append_refuted.

(** It does as long as the worker neither clears the flag nor truncates. *)
Definition adds_only (o : kop) : Prop :=
  match o with KSetfl _ _ _ | KTrunc _ _ => False | _ => True end.
Definition append_inv (i : N) (s0 s : kworld) : Prop :=
  (∀ id o, given s id → s_ofds s !! id = Some o → o_ino o = i → o_write o = true → o_append o = true) ∧
  contents i s0 `prefix_of` contents i s.
Lemma write_at_end data old : write_at (length old) data old = old ++ data.
Proof.
  unfold write_at, sized. rewrite take_ge, Nat.sub_diag, drop_ge by lia. cbn [replicate].
  by rewrite !app_nil_r.
Qed.
Lemma contents_ofd i id o s : contents i (with_ofd id o s) = contents i s.
Proof. done. Qed.
Lemma append_off i s0 s id o off :
  given s id → s_ofds s !! id = Some o →
  append_inv i s0 s → append_inv i s0 (with_ofd id (at_off o off) s).
Proof.
  intros Hid Ho [H1 H2]. split; [|done]. intros id' o' Hg E. cbn [with_ofd s_ofds] in E.
  apply lookup_insert_Some in E as [[<- <-]|[_ E]]; [|by apply (H1 id')]. exact (H1 id o Hid Ho).
Qed.
Lemma append_step look calls i s0 s o :
  adds_only o → ¬ has_right look (rules_of calls) i RWrite →
  append_inv i s0 s → append_inv i s0 (kstep look (build false calls) s o).
Proof.
  intros Hop Hno Hi. pose proof Hi as [H1 H2].
  destruct o as [path flags fd|fd fd'|fd|fd ap nb|fd off|fd n|fd data|fd n]; cbn [kstep]; try done.
  - destruct (granted _ _ _) eqn:Hg; [|done]. apply granted_iff in Hg.
    destruct (look path) as [j|] eqn:Ei; [|done].
    destruct (open_rights _ _ _ _ _ Ei Hg) as (Hw & Hr & Ht).
    set (s1 := if _ : bool then with_file j [] s else s).
    assert (s_fds s1 = s_fds s ∧ s_ofds s1 = s_ofds s ∧ s_next s1 = s_next s ∧
      (contents i s1 = contents i s)) as (Ef & Eo & En & Ec).
    { unfold s1. destruct (_ && _) eqn:Et; [|done]. split_and!; [done..|].
      unfold contents. cbn [with_file s_files]. rewrite lookup_insert_ne; [done|]. intros ->.
      by apply Hno, Ht. }
    clearbody s1. split; [|change (contents i s0 `prefix_of` contents i s1); by rewrite Ec].
    intros id o' [fd' Hfd] E Hj Hwr. cbn [s_fds s_ofds] in *. rewrite Ef in Hfd. rewrite Eo in E.
    apply lookup_insert_Some in E as [[<- <-]|[Hne E]].
    + exfalso. cbn [open_ofd o_ino] in Hj. subst j. by apply Hno, Hw.
    + apply lookup_insert_Some in Hfd as [[_ ?]|[_ Hfd]]; [done|]. apply (H1 id); [by exists fd'|done..].
  - destruct (s_fds s !! fd) as [id|] eqn:E; [|done]. split; [|done].
    intros id' o' [fd'' Hfd]. cbn [s_fds s_ofds] in *. apply H1.
    apply lookup_insert_Some in Hfd as [[_ <-]|[_ Hfd]]; by eexists.
  - split; [|done]. intros id' o' [fd'' Hfd]. cbn [s_fds s_ofds] in *. apply H1.
    apply lookup_delete_Some in Hfd as [_ Hfd]. by eexists.
  - destruct (behind fd s) as [[id o]|] eqn:E; [|done]. apply behind_Some in E as [E1 E2].
    apply append_off; [by exists fd|done..].
  - destruct (behind fd s) as [[id o]|] eqn:E; [|done]. apply behind_Some in E as [E1 E2].
    destruct (o_read o); [|done].
    set (got := take n (drop (o_off o) (contents (o_ino o) s))). clearbody got.
    destruct (append_off i s0 s id o (o_off o + length got)) as [H1' H2']; [by exists fd|done..|].
    by split.
  - destruct (behind fd s) as [[id o]|] eqn:E; [|done]. apply behind_Some in E as [E1 E2].
    destruct (o_write o) eqn:Ew; [|done]. assert (given s id) as Hg by (by exists fd).
    apply append_off; [done..|]. split; [exact H1|].
    unfold contents at 2. cbn [with_file s_files].
    destruct (decide (o_ino o = i)) as [<-|Hne].
    + rewrite lookup_insert. cbn [default]. rewrite (H1 id o Hg E2 eq_refl Ew), write_at_end.
      change (contents (o_ino o) s0 `prefix_of` contents (o_ino o) s ++ data). etrans; [exact H2|]. by eexists.
    + rewrite lookup_insert_ne by done. exact H2.
Qed.
Theorem C160_append look calls s ops i :
  (∀ id o, given s id → s_ofds s !! id = Some o → o_ino o = i → o_write o = true → o_append o = true) →
  ¬ has_right look (rules_of calls) i RWrite → Forall adds_only ops →
  ∃ more, contents i (krun look (build false calls) s ops) = contents i s ++ more.
Proof.
  intros Ha Hno Hops.
  assert (append_inv i s (krun look (build false calls) s ops)) as [_ H]; [|exact H].
  unfold krun. assert (append_inv i s s) as H by (by split).
  revert H. generalize s at 2 4 as s1. induction Hops as [|o ops Ho Hops IH]; intros s1 H; [done|].
  cbn [foldl]. by apply IH, append_step.
Qed.
Print Assumptions C160_append.

Example C160_example :
  let look := λ p, if bool_decide (p = lit "/d/f") then Some 60 else None in
  let s := mkK {[1 := mkOfd 50 false true true false 3; 7 := mkOfd 60 true true false false 2]} 8 {[1 := 1]}
             {[50 := lit "old"; 60 := lit "data"]} [] in
  let s' := krun look (build false [CallRule (AllowDirRead (lit "/d"))]) s
              [KWrite 1 (lit "!"); KOpen (lit "/d/f") 0 4; KRead 4 2; KRead 4 9; KWrite 4 (lit "x");
               KOpen (lit "/d/f") 2 5; KTrunc 1 2] in
  (contents 50 s', contents 60 s', s_seen s', s_fds s' !! 5, s_ofds s' !! 7) =
    (lit "ol", lit "data", [(60, lit "ta"); (60, lit "da")], None, Some (mkOfd 60 true true false false 2)).
Proof. by vm_compute. Qed.
