(** Properties of how Windows workers patch their memory: C116. *)
From stdpp Require Import prelude gmap.
From Verif Require Import Bytes TrampolineModel WinHookModel WinPatchModel.
Local Open Scope Z_scope.

(** What hooking may do to the protections of pages: pages keep theirs, those added are for
    trampolines and can only be read and executed, and no page is ever made both writable and
    executable that was not so before. *)
Definition protections_kept (env : mm_env) (s s' : mm) : Prop :=
  (∀ q p, mm_prot s !! q = Some p → mm_prot s' !! q = Some p) ∧
  (∀ q p, mm_prot s !! q = None → mm_prot s' !! q = Some p →
     p = EXECUTE_READ ∧ ∃ t, t ∈ mm_tramps s' ∧ q ∈ pages t (he_granularity (me_hooks env))).
Definition no_new_wx (s s' : mm) : Prop :=
  ∃ l, mm_log s' = mm_log s ++ l ∧
    ∀ q p, (q, p) ∈ l → p_write p && p_exec p = true → mm_prot s !! q = Some p.
Definition C116_full : Prop := ∀ fuel w env k hooks ms s s',
  0 < he_granularity (me_hooks env) →
  mem_hook fuel w env k hooks ms s = Some s' → protections_kept env s s' ∧ no_new_wx s s'.

(** Tables whose entries do not cross pages: those at a multiple of the size of an entry. *)
Definition aligned (w : width) (m : module) : Prop :=
  (PAGE | md_base m) ∧
  (∀ rva n, md_exports m = Some (rva, n) → (4 | rva)) ∧
  (∀ first name, (first, name) ∈ md_imports m → (Z.of_nat (wbytes w) | first)).

(* ---------------------------------------------------------------- proof *)

(** What one step does, in a form that composes. *)
Definition allowed (s : mm) (x : Z * prot) : Prop :=
  x.2 = READWRITE ∨ (mm_prot s !! x.1 = None ∧ x.2 = EXECUTE_READ) ∨ mm_prot s !! x.1 = Some x.2.
Definition keeps (g : Z) (s s' : mm) : Prop :=
  (∀ q p, mm_prot s !! q = Some p → mm_prot s' !! q = Some p) ∧
  (∀ q p, mm_prot s !! q = None → mm_prot s' !! q = Some p →
     p = EXECUTE_READ ∧ ∃ t, t ∈ mm_tramps s' ∧ q ∈ pages t g) ∧
  (∃ l, mm_log s' = mm_log s ++ l ∧ Forall (allowed s) l) ∧ (∃ l, mm_tramps s' = mm_tramps s ++ l).
Lemma keeps_refl g s : keeps g s s.
Proof.
  split_and!; [done|congruence|exists []|exists []]; by rewrite app_nil_r.
Qed.
Lemma keeps_trans g s1 s2 s3 : keeps g s1 s2 → keeps g s2 s3 → keeps g s1 s3.
Proof.
  intros (A1 & B1 & (l1 & L1 & F1) & (t1 & T1)) (A2 & B2 & (l2 & L2 & F2) & (t2 & T2)).
  assert (∀ q p, mm_prot s1 !! q = None → mm_prot s2 !! q = Some p → p = EXECUTE_READ) as Hn.
  { intros q p H1 H2. by destruct (B1 q p H1 H2). }
  split_and!.
  - intros q p H. by apply A2, A1.
  - intros q p H1 H3. destruct (mm_prot s2 !! q) as [p2|] eqn:E2.
    + destruct (B1 q p2 H1 E2) as [-> (t & Ht & Hq)]. rewrite (A2 _ _ E2) in H3. injection H3 as <-.
      split; [done|]. exists t. split; [|done]. rewrite T2. by apply elem_of_app; left.
    + by apply B2.
  - exists (l1 ++ l2). split; [by rewrite L2, L1, app_assoc|]. apply Forall_app. split; [done|].
    eapply Forall_impl; [exact F2|]. intros [q p] [H|[[H1 H2]|H]]; [by left| |]; cbn [fst snd] in *.
    + right. left. cbn. split; [|done]. destruct (mm_prot s1 !! q) eqn:E; [|done]. apply A1 in E. congruence.
    + destruct (mm_prot s1 !! q) as [p1|] eqn:E.
      * right. right. cbn. rewrite E. pose proof (A1 _ _ E). congruence.
      * right. left. cbn. split; [done|]. by eapply Hn.
  - exists (t1 ++ t2). by rewrite T2, T1, app_assoc.
Qed.

Lemma pages_one a n : page a = page (a + n - 1) → pages a n = [page a].
Proof. intros H. unfold pages. rewrite <-H. replace (page a - page a + 1) with 1 by lia. done. Qed.
Lemma pages_first a n : 0 < n → page a ∈ pages a n.
Proof.
  intros Hn. unfold pages. apply elem_of_seqZ. split; [lia|].
  assert (page a ≤ page (a + n - 1)); [|lia]. unfold page. apply Z.div_le_mono; [done|lia].
Qed.
Lemma aligned_one a n d : 0 < n → (n | PAGE) → (n | a) → d = n → page a = page (a + d - 1).
Proof.
  intros Hn [x Hx] [y ->] ->. unfold page.
  assert (0 < x) by (unfold PAGE in Hx; nia).
  rewrite Hx. rewrite (Z.mul_comm x n).
  rewrite <-!Z.div_div by lia. f_equal.
  rewrite Z.div_mul by lia. replace (y * n + n - 1) with ((n - 1) + y * n) by lia.
  rewrite Z.div_add by lia. rewrite Z.div_small; lia.
Qed.

Lemma le_bytes_length n v : length (le_bytes n v) = n.
Proof. revert v. induction n; intros v; cbn; [done|]. by rewrite IHn. Qed.

Lemma hotpatch_keeps g w env a bs s s' :
  page a = page (a + Z.of_nat (length bs) - 1) →
  hotpatch w env a bs s = Some s' → keeps g s s'.
Proof.
  intros Hp. unfold hotpatch. destruct (negb _); [done|].
  unfold virtual_protect. destruct (mm_prot s !! page a) as [old|] eqn:E; [|done].
  destruct (_ && _); [|done]. rewrite (pages_one _ _ Hp).
  unfold write_bytes. destruct (forallb _ _); [|done].
  cbn [set_pages mm_prot foldr]. rewrite lookup_insert.
  destruct (_ && _); [|done]. intros [= <-].
  unfold keeps. cbn [set_pages mm_prot mm_log mm_tramps foldr fmap list_fmap]. split_and!.
  - intros q p H. destruct (decide (q = page a)) as [->|].
    + by rewrite lookup_insert, <-H, E.
    + by rewrite !lookup_insert_ne.
  - intros q p H1 H2. destruct (decide (q = page a)) as [->|]; [congruence|].
    rewrite !lookup_insert_ne in H2 by done. congruence.
  - exists [(page a, READWRITE); (page a, old)]. split; [by rewrite <-app_assoc|].
    constructor; [by left|]. constructor; [by right; right|constructor].
  - exists []. by rewrite app_nil_r.
Qed.

Lemma foldr_insert_lookup (ps : list Z) (p : prot) (m : gmap Z prot) q :
  foldr (λ q, <[q := p]>) m ps !! q = if decide (q ∈ ps) then Some p else m !! q.
Proof.
  induction ps as [|x ps IH]; cbn [foldr].
  - rewrite decide_False; [done|]. by intros H%elem_of_nil.
  - destruct (decide (q = x)) as [->|Hne].
    + rewrite lookup_insert, decide_True; [done|by left].
    + rewrite lookup_insert_ne by done. rewrite IH. destruct (decide (q ∈ ps)).
      * rewrite decide_True; [done|by right].
      * rewrite decide_False; [done|]. intros [|]%elem_of_cons; done.
Qed.

Lemma new_trampoline_keeps fuel w env base new s t s' :
  0 < he_granularity (me_hooks env) →
  new_trampoline fuel w env base new s = Some (t, s') → keeps (he_granularity (me_hooks env)) s s'.
Proof.
  intros Hg. unfold new_trampoline. set (g := he_granularity _) in *.
  destruct (find_hole _ _ _ _ _) as [t0|]; [|done].
  unfold virtual_alloc. destruct (forallb _ _) eqn:Ef; [|done].
  rewrite forallb_forall in Ef.
  assert (∀ q, q ∈ pages t0 g → mm_prot s !! q = None) as Hfree.
  { intros q Hq. apply elem_of_list_In in Hq. apply Ef in Hq. by apply bool_decide_eq_true in Hq. }
  clear Ef. unfold write_bytes. destruct (forallb _ _); [|done].
  unfold virtual_protect. cbn [mm_prot set_pages].
  destruct (foldr _ _ _ !! page t0) as [old|]; [|done]. destruct (_ && _); [|done].
  destruct (me_flush env); [|done]. intros [= <- <-]. unfold keeps. cbn [mm_prot mm_log mm_tramps set_pages].
  split_and!.
  - intros q p H. rewrite !foldr_insert_lookup. destruct (decide _) as [Hq|]; [|done].
    apply Hfree in Hq. congruence.
  - intros q p H. cbn [mm_prot mm_tramps]. rewrite !foldr_insert_lookup. destruct (decide _) as [Hq|]; [|congruence].
    intros [= <-]. split; [done|]. exists t0. split; [|done]. apply elem_of_app. right. by left.
  - eexists. split; [by rewrite <-app_assoc|]. apply Forall_app. split; apply Forall_fmap, Forall_forall; intros q Hq.
    + by left.
    + right. left. cbn. split; [by apply Hfree|done].
  - by eexists.
Qed.

Section loops.
  Context (fuel : nat) (w : width) (env : mm_env).
  Let g := he_granularity (me_hooks env).
  Context (Hg : 0 < g).

  Lemma exports_keeps base orig new n : ∀ a tramp s s',
    (4 | a) → mem_exports fuel w env base orig new a n tramp s = Some s' → keeps g s s'.
  Proof.
    induction n as [|n IH]; intros a tramp s s' Ha; cbn [mem_exports].
    { intros [= <-]. apply keeps_refl. }
    assert ((4 | a + 4)) as Ha4 by (by apply Z.divide_add_r; [|exists 1]).
    destruct (decide _); [|by apply IH].
    set (r := if decide _ then _ else _).
    assert (∀ v tr s1, r = Some (v, tr, s1) → keeps g s s1) as Hr.
    { intros v tr s1. unfold r. destruct (decide _); [intros [= <- <- <-]; apply keeps_refl|].
      destruct tramp as [t|]; [intros [= <- <- <-]; apply keeps_refl|].
      destruct (new_trampoline _ _ _ _ _ _) as [[t s2]|] eqn:Et; [|done]. intros [= <- <- <-].
      by eapply new_trampoline_keeps. }
    clearbody r. destruct r as [[[v tr] s1]|]; [|done]. specialize (Hr _ _ _ eq_refl).
    destruct (hotpatch w env a (le_bytes 4 v) s1) as [s2|] eqn:Eh; [|done]. intros Hn.
    eapply keeps_trans; [exact Hr|]. eapply keeps_trans; [|eapply IH; eauto].
    eapply hotpatch_keeps; [|exact Eh]. apply (aligned_one _ 4); [done|by exists 1024|done|].
    by rewrite le_bytes_length.
  Qed.
  Lemma thunks_keeps orig new f : ∀ a s s',
    (Z.of_nat (wbytes w) | a) → mem_thunks f w env orig new a s = Some s' → keeps g s s'.
  Proof.
    assert (0 < Z.of_nat (wbytes w) ∧ (Z.of_nat (wbytes w) | PAGE)) as [Hw Hd].
    { destruct w; cbn; (split; [lia|]); unfold PAGE; [by exists 512|by exists 1024]. }
    induction f as [|f IH]; intros a s s' Ha; cbn [mem_thunks]; [done|].
    destruct (decide _); [intros [= <-]; apply keeps_refl|].
    assert ((Z.of_nat (wbytes w) | a + Z.of_nat (wbytes w))) as Ha' by (by apply Z.divide_add_r; [|exists 1; lia]).
    set (r := if decide _ then _ else _).
    assert (∀ s1, r = Some s1 → keeps g s s1) as Hr.
    { intros s1. unfold r. destruct (decide _); [|intros [= <-]; apply keeps_refl].
      intros Eh. eapply hotpatch_keeps; [|exact Eh].
      eapply aligned_one; [exact Hw|done|done|]. by rewrite le_bytes_length. }
    clearbody r. destruct r as [s1|]; [|done]. specialize (Hr _ eq_refl). intros Hn.
    eapply keeps_trans; [exact Hr|]. by eapply IH.
  Qed.
  Lemma imports_keeps orig new base ds : ∀ s s',
    (PAGE | base) → (∀ first name, (first, name) ∈ ds → (Z.of_nat (wbytes w) | first)) →
    mem_imports fuel w env orig new base ds s = Some s' → keeps g s s'.
  Proof.
    induction ds as [|[first name] ds IH]; intros s s' Hb Hd; cbn [mem_imports].
    { intros [= <-]. apply keeps_refl. }
    destruct (decide _); [intros [= <-]; apply keeps_refl|].
    destruct (mem_thunks _ _ _ _ _ _ _) as [s1|] eqn:Et; [|done]. intros Hn.
    eapply keeps_trans.
    - eapply thunks_keeps; [|exact Et]. apply Z.divide_add_r; [|apply (Hd first name); by left].
      eapply Z.divide_trans; [|exact Hb]. destruct w; cbn; [by exists 512|by exists 1024].
    - eapply IH; [done| |exact Hn]. intros f' n' Hi. apply (Hd f' n'). by right.
  Qed.
  Lemma modules_keeps orig new ms : ∀ s s',
    (∀ m, m ∈ ms → aligned w m) → mem_modules fuel w env orig new ms s = Some s' → keeps g s s'.
  Proof.
    induction ms as [|m ms IH]; intros s s' Hm; cbn [mem_modules].
    { intros [= <-]. apply keeps_refl. }
    destruct (Hm m ltac:(left)) as (Hb & He & Hi).
    set (r := match md_exports m with None => _ | _ => _ end).
    assert (∀ s1, r = Some s1 → keeps g s s1) as Hr.
    { intros s1. unfold r. destruct (md_exports m) as [[rva n]|]; [|intros [= <-]; apply keeps_refl].
      apply exports_keeps. apply Z.divide_add_r; [|by eapply He].
      eapply Z.divide_trans; [|exact Hb]. by exists 1024. }
    clearbody r. destruct r as [s1|]; [|done]. specialize (Hr _ eq_refl).
    destruct (mem_imports _ _ _ _ _ _ _ _) as [s2|] eqn:E2; [|done]. intros Hn.
    eapply keeps_trans; [exact Hr|]. eapply keeps_trans; [by eapply imports_keeps|].
    eapply IH; [|exact Hn]. intros m' Hm'. apply Hm. by right.
  Qed.
  Lemma hook_keeps k hooks ms : ∀ s s',
    (∀ m, m ∈ ms → aligned w m) → mem_hook fuel w env k hooks ms s = Some s' → keeps g s s'.
  Proof.
    induction hooks as [|[e new] hooks IH]; intros s s' Hm; cbn [mem_hook].
    { intros [= <-]. apply keeps_refl. }
    destruct (md_exports k) as [[rva n]|] eqn:Ek; [|done].
    destruct (mem_modules _ _ _ _ _ _ _) as [s1|] eqn:E1; [|done]. intros Hn.
    eapply keeps_trans; [by eapply modules_keeps|]. by eapply IH.
  Qed.
End loops.

(** Missing for [C116_full]: tables must be at multiples of the size of their entries. *)
Theorem C116_partial : ∀ fuel w env k hooks ms s s',
  0 < he_granularity (me_hooks env) → (∀ m, m ∈ ms → aligned w m) →
  mem_hook fuel w env k hooks ms s = Some s' → protections_kept env s s' ∧ no_new_wx s s'.
Proof.
  intros fuel w env k hooks ms s s' Hg Hm H.
  destruct (hook_keeps fuel w env Hg k hooks ms s s' Hm H) as (A & B & (l & L & F) & _).
  split; [split; [done|exact B]|]. exists l. split; [done|]. intros q p Hi Hwx.
  rewrite Forall_forall in F. destruct (F _ Hi) as [E|[[_ E]|E]]; cbn in E; [..|done]; subst p; done.
Qed.
Print Assumptions C116_partial.

(* ---------------------------------------------------------------- examples *)

Definition ex_hooks : hook_env := mkHookEnv 65536 (λ _ a, Some (bool_decide (0x40000 ≤ a), 65536)) (λ _ _, true).
Definition ex_env : mm_env := mkMmEnv (λ _, true) (λ _ _, true) true ex_hooks.
Definition put (w : width) (a : Z) (bs : list Z) (m : memory) : memory := store_bytes (wmod w) m a bs.
(** A module at 0x10000 whose export table, at 0x1000, has the function 0x2000, and whose import
    table is at [first]; the hook is far away. Pages 16 and 18 hold code, 17 and 19 tables. *)
Definition ex_module (first : Z) : module := mkModule 0x10000 (Some (0x1000, 1%nat)) [(first, 1)].
Definition ex_mem (first : Z) : mm :=
  mkMm (put W64 0x11000 (le_bytes 4 0x2000) (put W64 (0x10000 + first) (le_bytes 8 0x12000) (λ _, 0)))
    (list_to_map [(16, EXECUTE_READ); (17, mkProt true false false); (18, EXECUTE_READ); (19, mkProt true true false)])
    [] [].
Definition ex_target : Z := 0x700000000000.
Definition ex_run (first : Z) : option mm :=
  mem_hook 10 W64 ex_env (ex_module first) [(0%nat, ex_target)] [ex_module first] (ex_mem first).
(** An import table that starts four bytes before the end of the code: the page of tables after it
    becomes executable code, and can no longer be written to. *)
Theorem C116_refuted : ¬ C116_full.
Proof.
  unfold C116_full. intros H.
  destruct (ex_run 0x2FFC) as [s'|] eqn:E.
  2:{ assert (option_map (λ s, length (mm_log s)) (ex_run 0x2FFC) = None) as E' by (by rewrite E).
      revert E'. clear. vm_compute. discriminate. }
  pose proof (H 10%nat W64 ex_env (ex_module 0x2FFC) [(0%nat, ex_target)] [ex_module 0x2FFC] (ex_mem 0x2FFC) s' ltac:(done) E) as [[A _] _].
  pose proof (A 19 (mkProt true true false) ltac:(by vm_compute)) as Hl.
  assert (option_map (λ s, mm_prot s !! 19) (ex_run 0x2FFC) = Some (Some EXECUTE_READ)) as E' by (by vm_compute).
  rewrite E in E'. cbn [option_map] in E'. rewrite Hl in E'. discriminate.
Qed.
Print Assumptions C116_refuted.
(** Tables in a page of code: while an entry is patched no thread can run the code of that page. *)
Theorem C116_running_refuted : ∃ s s',
  mem_hook 10 W64 ex_env (ex_module 0x2FF0) [(0%nat, ex_target)] [ex_module 0x2FF0] s = Some s' ∧
  mm_prot s !! 18 = Some EXECUTE_READ ∧ (18, READWRITE) ∈ mm_log s' ∧ mm_prot s' !! 18 = Some EXECUTE_READ.
Proof.
  exists (ex_mem 0x2FF0).
  assert (option_map (λ s, (bool_decide ((18, READWRITE) ∈ mm_log s), mm_prot s !! 18)) (ex_run 0x2FF0) = Some (true, Some EXECUTE_READ)) as E' by (by vm_compute).
  unfold ex_run in E'. destruct (mem_hook _ _ _ _ _ _ _) as [s'|]; [|done]. exists s'.
  injection E' as E1 E2. apply bool_decide_eq_true in E1. split; [done|]. split; [by vm_compute|]. done.
Qed.
Print Assumptions C116_running_refuted.
Example C116_example :
  option_map (λ s, (mm_prot s !! 17, mm_prot s !! 19, mm_prot s !! 64, mm_prot s !! 80, mm_tramps s,
    load W64 (mm_mem s) 0x13000, of_le (load_bytes (wmod W64) (mm_mem s) 0x11000 4))) (ex_run 0x3000) =
  Some (Some (mkProt true false false), Some (mkProt true true false), Some EXECUTE_READ, None, [0x40000],
    ex_target, 0x30000).
Proof. by vm_compute. Qed.
