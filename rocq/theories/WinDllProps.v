(** Properties of the DLL permissions: C104, C105, C106. *)
From stdpp Require Import prelude gmap.
From Coq Require Import Strings.Byte.
From Verif Require Import Bytes PolicyModel LinuxPolicyModel FdModel BpfModel SeccompModel
  PostcardModel ChannelModel BrokerModel EntryModel ProcessModel WinProcessModel WinProcessSpec
  WinProcessProofs WinDllModel WinDllSpec WinDllProofs.
Local Open Scope N_scope.

(* ---------------------------------------------------------------- C104 *)

(** The folders searched: that of the program, the root of the current drive when its path has
    no backslash, and the Windows directory. *)
Definition dll_dir (exe windir dir : str) : Prop :=
  (∃ d name, dir = d ++ lit "\" ∧ exe = dir ++ name ∧ x5c ∉ name) ∨
  (x5c ∉ exe ∧ dir = lit "\") ∨
  (∃ d, dir = d ++ lit "\" ∧ (windir = d ∨ windir = dir)).
Definition package_sid (env : denv) (sid : str) : Prop :=
  de_sid env (lit "S-1-15-2-1") = Some sid ∨ de_sid env (lit "S-1-15-2-2") = Some sid.

(** A change of permissions after the events [l]: of a file found by a search for DLLs in one of
    the folders, from the list the file has, with an entry that allows reading and executing and
    nothing else to one of the two package SIDs, which no entry allowed yet. *)
Definition justified (env : denv) (exe windir : str) (f0 : gmap str dacl) (l : list devent)
  (path : str) (new : list ace) : Prop :=
  ∃ dir name sid old l',
  dll_dir exe windir dir ∧ package_sid env sid ∧
  path = dir ++ name ∧ (dir ++ lit "*.dll", name) ∈ found_by [] l ∧
  replay f0 l !! path = Some (Some old) ∧
  l = l' ++ [DEntries old (mkEntry 0x1200a9 1 0 sid) (Some new)] ∧
  ∀ a, a ∈ old → ac_sid a = sid → ac_type a = 0 → N.ldiff 0x1200a9 (ac_mask a) ≠ 0.

Lemma dll_folder_backslash f : ∃ d, dll_folder f = d ++ lit "\" ∧ (f = d ∨ f = dll_folder f).
Proof.
  unfold dll_folder. destruct (last f) as [b|] eqn:E.
  - destruct (decide (b = backslash)) as [->|].
    + apply last_Some in E as [d ->]. exists d. auto.
    + exists f. auto.
  - exists f. auto.
Qed.
Lemma pop_name_spec p :
  (∃ name r, p = name ++ x5c :: r ∧ x5c ∉ name ∧ pop_name p = x5c :: r) ∨ (x5c ∉ p ∧ pop_name p = []).
Proof.
  induction p as [|b p IH]; [right; split; [by apply not_elem_of_nil|done]|].
  cbn [pop_name]. destruct (decide (b = backslash)) as [->|Hb].
  - left. exists [], p. split; [done|]. split; [by apply not_elem_of_nil|done].
  - destruct IH as [(name & r & -> & Hn & ->)|[Hn ->]].
    + left. exists (b :: name), r. split; [done|]. split; [|done].
      apply not_elem_of_cons. split; [|done]. intros H. by apply Hb.
    + right. split; [|done]. apply not_elem_of_cons. split; [|done]. intros H. by apply Hb.
Qed.
Lemma dll_dir_exe exe windir : dll_dir exe windir (dll_folder (executable_directory exe)).
Proof.
  unfold executable_directory.
  destruct (pop_name_spec (rev exe)) as [(name & r & Hr & Hn & ->)|[Hn ->]].
  - left. exists (rev r), (rev name).
    assert (exe = (rev r ++ lit "\") ++ rev name) as He.
    { rewrite <- (rev_involutive exe), Hr, rev_app_distr. cbn [rev]. done. }
    assert (dll_folder (rev (x5c :: r)) = rev r ++ lit "\") as ->.
    { cbn [rev]. unfold dll_folder. rewrite last_snoc. by rewrite decide_True. }
    split; [done|]. split; [done|]. intros Hi. apply Hn. rewrite elem_of_list_In in *. by apply in_rev.
  - right; left. split; [|done].
    intros Hi. apply Hn. rewrite elem_of_list_In in *. by apply in_rev; rewrite rev_involutive.
Qed.

Section c104.
  Context (env : denv) (exe windir : str) (f0 : gmap str dacl).
  Definition c104_inv (s : dstate) : Prop :=
    ds_files s = replay f0 (ds_trace s) ∧
    ∀ l r path new code, ds_trace s = l ++ DSet path new code :: r →
    justified env exe windir f0 l path new.

  Lemma snoc_split {A} (tr l r : list A) (e x : A) :
    tr ++ [e] = l ++ x :: r → (∃ r', tr = l ++ x :: r') ∨ (tr = l ∧ e = x).
  Proof.
    intros H. destruct (rev r) as [|y r'] eqn:E.
    - assert (r = []) as -> by (rewrite <- (rev_involutive r), E; done).
      apply app_inj_tail in H as [-> ->]. by right.
    - assert (r = rev r' ++ [y]) as -> by (rewrite <- (rev_involutive r), E; done).
      left. exists (rev r').
      change (l ++ x :: rev r' ++ [y]) with (l ++ (x :: rev r') ++ [y]) in H.
      rewrite app_assoc in H. by apply app_inj_tail in H as [-> _].
  Qed.

  Lemma c104_other tr e :
    (∀ l r path new code, tr = l ++ DSet path new code :: r → justified env exe windir f0 l path new) →
    (∀ path new code, e ≠ DSet path new code) →
    (∀ l r path new code, tr ++ [e] = l ++ DSet path new code :: r →
      justified env exe windir f0 l path new).
  Proof.
    intros H He l r path new code Ht. apply snoc_split in Ht as [[r' Hr]|[_ Hx]]; [eauto|].
    by destruct (He path new code).
  Qed.

  Lemma c104_invariant : invariant env (dll_dir exe windir) (package_sid env) c104_inv.
  Proof.
    split.
    - intros s s' [H1 H2] Ht Hf. split; rewrite Ht; [by rewrite Hf|done].
    - intros s p a [H1 H2]. split.
      + cbn [dlog ds_files ds_trace]. by rewrite replay_app.
      + cbn [dlog ds_files ds_trace]. by apply c104_other.
    - intros s a [H1 H2]. split.
      + cbn [dlog ds_files ds_trace]. by rewrite replay_app.
      + cbn [dlog ds_files ds_trace]. by apply c104_other.
    - intros s s' dir name sid [H1 H2] Hd Hs Hf [code Ht Hfi _|old Ho Hn Ht Hfi|old new code tr Ho Hn He Ht Hfi].
      + split; rewrite Ht; [by rewrite Hfi, replay_app|]. by apply c104_other.
      + split; rewrite Ht; [by rewrite Hfi, replay_app|].
        change [DGet ?a ?b; ?c] with ([DGet a b] ++ [c]). rewrite app_assoc.
        apply c104_other; [|done]. by apply c104_other.
      + split; rewrite Ht.
        { rewrite Hfi, replay_app, <- H1. cbn [replay]. by destruct code. }
        change (ds_trace s ++ _) with
          (ds_trace s ++ [DGet (dir ++ name) 0] ++ [DEntries old (the_entry sid) (Some new)] ++
             [DSet (dir ++ name) new code]).
        rewrite !app_assoc. intros l r path new' code' Hl.
        apply snoc_split in Hl as [[r' Hr]|[Hl Hx]].
        { revert l r' path new' code' Hr. apply c104_other; [|done]. by apply c104_other. }
        injection Hx as <- <- <-.
        exists dir, name, sid, old, (ds_trace s ++ [DGet (dir ++ name) 0]).
        split; [done|]. split; [done|]. split; [done|]. split.
        { rewrite <- Hl, !found_by_app. apply elem_of_app. left. apply elem_of_app. by left. }
        split; [by rewrite <- Hl, !replay_app, <- H1|]. split; [done|].
        intros a Ha Hsa Hta Hma. rewrite Forall_forall in Hn. specialize (Hn a Ha).
        assert (delegates sid a = true) by by apply delegates_spec. congruence.
  Qed.
End c104.

(** The only permissions changed are those of DLLs in the folders searched, and the only change
    is to let application packages read and execute them. *)
Theorem C104_only_dlls fuel env exe windir f0 n b s' :
  prepare_dlls fuel env exe windir (mkDst [] f0 n b) = Some s' →
  ds_files s' = replay f0 (ds_trace s') ∧
  ∀ l r path new code, ds_trace s' = l ++ DSet path new code :: r →
  justified env exe windir f0 l path new.
Proof.
  intros H. eapply (inv_prepare env (dll_dir exe windir) (package_sid env)
    (c104_inv env exe windir f0) (c104_invariant _ _ _ _)); [| | | |exact H].
  - split; [done|]. intros l r path new code Ht. by destruct l.
  - apply dll_dir_exe.
  - right; right. destruct (dll_folder_backslash windir) as (d & Hd & He). by exists d.
  - done.
Qed.
Print Assumptions C104_only_dlls.

(** Files that are not in these folders, or were not found, keep their permissions. *)
Theorem C104_others_unchanged fuel env exe windir f0 n b s' path :
  prepare_dlls fuel env exe windir (mkDst [] f0 n b) = Some s' →
  (∀ dir name, dll_dir exe windir dir → path = dir ++ name →
    (dir ++ lit "*.dll", name) ∉ found_by [] (ds_trace s')) →
  ds_files s' !! path = f0 !! path.
Proof.
  intros H Hn. destruct (C104_only_dlls _ _ _ _ _ _ _ _ H) as [-> Hj].
  assert (∀ l r new code, ds_trace s' = l ++ DSet path new code :: r → False) as Hno.
  { intros l r new code Ht.
    destruct (Hj _ _ _ _ _ Ht) as (dir & name & sid & old & l' & Hd & _ & Hp & Hf & _).
    apply (Hn dir name Hd Hp). rewrite Ht, found_by_app. apply elem_of_app. by left. }
  clear Hj Hn H. revert Hno. generalize (ds_trace s') as tr. intros tr. revert f0.
  induction tr as [|e tr IH]; intros f0 Hno; [done|].
  assert (∀ f, replay f tr !! path = f !! path) as IH'.
  { intros f. apply IH. intros l r new code ->. by apply (Hno (e :: l) r new code). }
  destruct e as [| | | |q new code]; cbn [replay]; [apply IH'..|].
  destruct code; [|apply IH'].
  rewrite IH'. rewrite lookup_insert_ne; [done|]. intros ->. by apply (Hno [] tr new 0).
Qed.
Print Assumptions C104_others_unchanged.

(** A folder with two DLLs, one of them already open. *)
Definition sid1 : str := lit "1".
Definition sid2 : str := lit "2".
Definition dll_env (first : find_answer) (nexts : list find_answer) (set : N) : denv :=
  mkDenv (λ t, if bool_decide (t = lit "S-1-15-2-1") then Some sid1 else Some sid2)
    (λ _ p, if bool_decide (p = lit "C:\app\*.dll") then first else FindError 2)
    (λ tr, default (FindError 18)
       (nexts !! length (omap (λ e, match e with DNext _ => Some tt | _ => None end) tr)))
    (λ _ _, 0) (λ _ _, true) (λ _ _, true)
    (λ _ old e, Some (mkAce 0 0 (en_mask e) (en_sid e) :: old))
    (λ _ _ _, set) (λ _, 0).
Definition open_to (sid : str) : ace := mkAce 0 0 0x1f01ff sid.
Definition dll_files : gmap str dacl :=
  list_to_map [(lit "C:\app\a.dll", Some [open_to (lit "admin")]);
               (lit "C:\app\b.dll", Some [open_to sid1; open_to sid2]);
               (lit "C:\app\secret.txt", Some [open_to (lit "admin")])].
Definition example_env : denv :=
  dll_env (Found (lit "a.dll")) [Found (lit "b.dll"); FindError 18] 0.
Example C104_example :
  match prepare_dlls 10 example_env (lit "C:\app\w.exe") (lit "C:\Windows") (mkDst [] dll_files 0 0) with
  | Some s =>
      length (filter (λ e, match e with DSet _ _ _ => true | _ => false end = true) (ds_trace s)) = 2%nat ∧
      ds_files s !! lit "C:\app\a.dll" =
        Some (Some [mkAce 0 0 0x1200a9 sid2; mkAce 0 0 0x1200a9 sid1; open_to (lit "admin")]) ∧
      ds_files s !! lit "C:\app\b.dll" = Some (Some [open_to sid1; open_to sid2]) ∧
      ds_files s !! lit "C:\app\secret.txt" = Some (Some [open_to (lit "admin")])
  | None => False
  end.
Proof. vm_compute. auto. Qed.

(* ---------------------------------------------------------------- C105 *)

(** When the OS carries out every operation, application packages can load every DLL found. *)
Definition C105_full : Prop :=
  ∀ fuel env exe windir f0 n b s' sid dir name,
  documented env → (∀ tr l, de_info env tr l = true) → (∀ tr i, de_ace env tr i = true) →
  prepare_dlls fuel env exe windir (mkDst [] f0 n b) = Some s' →
  Forall carried_out (ds_trace s') →
  package_sid env sid → (dir ++ lit "*.dll", name) ∈ found_by [] (ds_trace s') →
  ∃ d, ds_files s' !! (dir ++ name) = Some d ∧ loadable sid d.

Definition can_load (s : dstate) (sid path : str) : Prop :=
  ∃ d, ds_files s !! path = Some d ∧ loadable sid d.

Section c105.
  Context (env : denv).
  Context (Hdoc : documented env).
  Context (Hinfo : ∀ tr l, de_info env tr l = true) (Hace : ∀ tr i, de_ace env tr i = true).

  Definition all_clean (s : dstate) : Prop :=
    ∀ sid path l, package_sid env sid → ds_files s !! path = Some (Some l) → clean sid l.
  (** Nothing gets worse from [s] to [s']. *)
  Definition keeps (s s' : dstate) : Prop :=
    (∃ es, ds_trace s' = ds_trace s ++ es) ∧
    (Forall carried_out (ds_trace s') →
     (all_clean s → all_clean s') ∧ ∀ sid path, can_load s sid path → can_load s' sid path).
  Lemma keeps_refl s : keeps s s.
  Proof. split; [by exists []; rewrite app_nil_r|]. auto. Qed.
  Lemma keeps_trans s1 s2 s3 : keeps s1 s2 → keeps s2 s3 → keeps s1 s3.
  Proof.
    intros [[es1 E1] H1] [[es2 E2] H2]. split.
    - exists (es1 ++ es2). by rewrite E2, E1, app_assoc.
    - intros Hc. assert (Forall carried_out (ds_trace s2)) as Hc2.
      { rewrite E2 in Hc. by apply Forall_app in Hc as [? _]. }
      destruct (H1 Hc2), (H2 Hc). auto.
  Qed.
  Lemma keeps_same s s' es :
    ds_trace s' = ds_trace s ++ es → ds_files s' = ds_files s → keeps s s'.
  Proof.
    intros Ht Hf. split; [by exists es|]. intros _. unfold all_clean, can_load. rewrite Hf. auto.
  Qed.

  Lemma one_file_keeps path sid s s' :
    package_sid env sid → one_file env path sid s s' → keeps s s' ∧
    (Forall carried_out (ds_trace s') → all_clean s → can_load s' sid path).
  Proof.
    intros Hs [code Ht Hf Hw|old Ho Hn Ht Hf|old new code tr Ho Hn He Ht Hf].
    - split; [by eapply keeps_same|]. rewrite Ht. intros Hc Hcl.
      apply Forall_app in Hc as [_ Hc]. rewrite Forall_singleton in Hc. cbn in Hc. subst code.
      destruct Hw as [?|[[_ Hw]|[_ (old & Ho & [[tr Hw]|[(tr & i & Hw)|Hw]])]]].
      + done.
      + exists None. by rewrite Hf.
      + by rewrite Hinfo in Hw.
      + by rewrite Hace in Hw.
      + exists (Some old). rewrite Hf. split; [done|]. apply delegates_allows; [|done]. eauto.
    - split; [by eapply keeps_same|]. rewrite Ht. intros Hc _.
      apply Forall_app in Hc as [_ Hc].
      apply Forall_cons in Hc as [_ Hc]. apply Forall_cons in Hc as [[? Hx] _]. done.
    - destruct (Hdoc _ _ (the_entry sid) _ eq_refl He) as (Ha & Hk & Hcl).
      assert (Forall carried_out (ds_trace s') → code = 0) as H0.
      { rewrite Ht. intros Hc. apply Forall_app in Hc as [_ Hc].
        apply Forall_cons in Hc as [_ Hc]. apply Forall_cons in Hc as [_ Hc].
        by apply Forall_cons in Hc as [Hc _]. }
      split.
      + split; [by eexists|]. intros Hc. specialize (H0 Hc). subst code. cbn in Hf. split.
        * intros Hac sid' p l Hs'. rewrite Hf. destruct (decide (path = p)) as [<-|].
          -- rewrite lookup_insert. intros [= <-]. apply Hcl. eauto.
          -- rewrite lookup_insert_ne by done. by apply Hac.
        * intros sid' p (d & Hd & Hl). unfold can_load. rewrite Hf.
          destruct (decide (path = p)) as [<-|].
          -- rewrite lookup_insert. exists (Some new). split; [done|].
             pose proof (eq_trans (eq_sym Ho) Hd) as Hx. injection Hx as <-. by apply Hk.
          -- rewrite lookup_insert_ne by done. by exists d.
      + intros Hc _. specialize (H0 Hc). subst code. cbn in Hf. exists (Some new).
        rewrite Hf, lookup_insert. split; [done|]. exact Ha.
  Qed.

  Lemma both_keeps path a b s :
    package_sid env a → package_sid env b →
    keeps s (ensure_both env path a b s) ∧
    found_by (lastpat [] (ds_trace s)) (drop (length (ds_trace s)) (ds_trace (ensure_both env path a b s))) = [] ∧
    lastpat [] (ds_trace (ensure_both env path a b s)) = lastpat [] (ds_trace s) ∧
    (Forall carried_out (ds_trace (ensure_both env path a b s)) → all_clean s →
     can_load (ensure_both env path a b s) a path ∧ can_load (ensure_both env path a b s) b path).
  Proof.
    intros Ha Hb. unfold ensure_both.
    destruct (ensure_dll env path a s) as [r1 s1] eqn:E1. cbn [snd].
    destruct (ensure_dll env path b s1) as [r2 s2] eqn:E2. cbn [snd].
    apply ensure_dll_cases in E1, E2.
    destruct (one_file_keeps _ _ _ _ Ha E1) as [K1 L1].
    destruct (one_file_keeps _ _ _ _ Hb E2) as [K2 L2].
    split; [by eapply keeps_trans|]. split; [|split].
    - assert (∀ s s' p sid, one_file env p sid s s' →
        ∃ es, ds_trace s' = ds_trace s ++ es ∧ (∀ cur, found_by cur es = []) ∧
              (∀ cur, lastpat cur es = cur)) as Hes.
      { intros ? ? ? ? [code Ht _ _|old _ _ Ht _|old new code tr _ _ _ Ht _]; by eexists. }
      destruct (Hes _ _ _ _ E1) as (e1 & T1 & F1 & P1).
      destruct (Hes _ _ _ _ E2) as (e2 & T2 & F2 & P2).
      rewrite T2, T1, <- app_assoc, drop_app. by rewrite found_by_app, F1, F2.
    - by rewrite (one_file_lastpat _ _ _ _ _ E2), (one_file_lastpat _ _ _ _ _ E1).
    - intros Hc Hcl. assert (Forall carried_out (ds_trace s1)) as Hc1.
      { destruct K2 as [[es Hes] _]. rewrite Hes in Hc. by apply Forall_app in Hc as [? _]. }
      destruct K2 as [_ K2]. specialize (K2 Hc). destruct K1 as [_ K1]. specialize (K1 Hc1).
      destruct K1 as [C1 _], K2 as [_ P2]. split; [apply P2; by apply L1|]. apply L2; [done|by apply C1].
  Qed.

  (** Every name found since [s] is loadable in [s']. *)
  Definition served (cur : str) (a b : str) (s s' : dstate) : Prop :=
    Forall carried_out (ds_trace s') → all_clean s →
    ∀ dir name, (dir ++ lit "*.dll", name) ∈ found_by cur (drop (length (ds_trace s)) (ds_trace s')) →
    can_load s' a (dir ++ name) ∧ can_load s' b (dir ++ name).

  Lemma loop_keeps fuel : ∀ dir a b name s r s',
    package_sid env a → package_sid env b → lastpat [] (ds_trace s) = dir ++ lit "*.dll" →
    dll_loop fuel env dir a b name s = Some (r, s') →
    keeps s s' ∧ served (dir ++ lit "*.dll") a b s s' ∧
    (Forall carried_out (ds_trace s') → all_clean s →
     can_load s' a (dir ++ name) ∧ can_load s' b (dir ++ name)).
  Proof.
    induction fuel as [|fuel IH]; intros dir a b name s r s' Ha Hb Hl H; [done|].
    cbn [dll_loop] in H.
    destruct (both_keeps (dir ++ name) a b s Ha Hb) as (K1 & F1 & P1 & L1).
    set (s1 := ensure_both env (dir ++ name) a b s) in *. clearbody s1.
    destruct K1 as [[e1 T1] K1].
    rewrite T1, drop_app, Hl in F1. rewrite Hl in P1.
    set (s2 := dlog s1 (DNext (de_next env (ds_trace s1)))) in H.
    assert (keeps s1 s2) as K2 by by eapply keeps_same.
    assert (keeps s s1) as K1' by (split; [by eexists|done]).
    destruct (de_next env (ds_trace s1)) as [n|err] eqn:En.
    - destruct (IH dir a b n s2 r s' Ha Hb) as (K3 & S3 & L3); [|done|].
      { unfold s2. cbn [dlog ds_trace]. by rewrite lastpat_app, P1. }
      assert (keeps s s') as K by (eapply keeps_trans; [done|]; by eapply keeps_trans).
      split; [done|]. destruct K3 as [[e3 T3] K3]. destruct K2 as [_ K2].
      assert (Forall carried_out (ds_trace s') → Forall carried_out (ds_trace s2)) as C2.
      { intros Hc. rewrite T3 in Hc. by apply Forall_app in Hc as [? _]. }
      assert (Forall carried_out (ds_trace s') → Forall carried_out (ds_trace s1)) as C1.
      { intros Hc. apply C2 in Hc. unfold s2 in Hc. cbn [dlog ds_trace] in Hc.
        by apply Forall_app in Hc as [? _]. }
      assert (Forall carried_out (ds_trace s') → all_clean s → all_clean s2) as A2.
      { intros Hc Hcl. apply (K2 (C2 Hc)), (K1 (C1 Hc)). done. }
      split.
      + intros Hc Hcl d nm Hi. rewrite T3 in Hi. unfold s2 in Hi. cbn [dlog ds_trace] in Hi.
        rewrite T1 in Hi. rewrite <- !app_assoc, drop_app in Hi.
        rewrite found_by_app, F1 in Hi. cbn [app] in Hi.
        assert (lastpat (dir ++ lit "*.dll") e1 = dir ++ lit "*.dll") as Hp.
        { rewrite <- P1 at 2. by rewrite T1, lastpat_app, Hl. }
        rewrite Hp in Hi. cbn [found_by] in Hi. apply elem_of_cons in Hi as [Hi|Hi].
        * injection Hi as Hd ->. apply app_inv_tail in Hd as ->. apply L3; auto.
        * apply (S3 Hc (A2 Hc Hcl)). rewrite T3, drop_app. done.
      + intros Hc Hcl. destruct (L1 (C1 Hc) Hcl) as [La Lb].
        destruct K as [_ K]. destruct (K3 Hc) as [_ K3'].
        destruct (K2 (C2 Hc)) as [_ K2']. auto.
    - assert (s' = s2) as -> by (destruct (_ =? _) in H; by injection H as _ <-).
      assert (keeps s s2) as K by by eapply keeps_trans.
      split; [done|]. split.
      + intros Hc Hcl d nm Hi. unfold s2 in Hi. cbn [dlog ds_trace] in Hi.
        rewrite T1 in Hi. rewrite <- !app_assoc, drop_app in Hi.
        rewrite found_by_app, F1 in Hi. by apply elem_of_nil in Hi.
      + intros Hc Hcl. assert (Forall carried_out (ds_trace s1)) as C1.
        { unfold s2 in Hc. cbn [dlog ds_trace] in Hc. by apply Forall_app in Hc as [? _]. }
        destruct (L1 C1 Hcl). destruct K2 as [_ K2]. destruct (K2 Hc). auto.
  Qed.

  Lemma get_sid_keeps text s r s' :
    get_sid_from_str env text s = (r, s') →
    ds_trace s' = ds_trace s ∧ ds_files s' = ds_files s ∧
    (∀ sid, r = Ok sid → de_sid env text = Some sid).
  Proof.
    unfold get_sid_from_str. intros H.
    destruct (de_sid env text) as [[|c sid]|]; injection H as <- <-; (split; [done|split; [done|]]);
      intros ? [= ->]; done.
  Qed.

  Lemma dlls_keeps fuel folder s r s' :
    ensure_dlls fuel env folder s = Some (r, s') →
    keeps s s' ∧
    ∀ sid, package_sid env sid → Forall carried_out (ds_trace s') → all_clean s →
    ∀ cur dir name, (dir ++ lit "*.dll", name) ∈ found_by cur (drop (length (ds_trace s)) (ds_trace s')) →
    can_load s' sid (dir ++ name).
  Proof.
    unfold ensure_dlls. intros H.
    destruct (get_sid_from_str env (lit "S-1-15-2-1") s) as [r1 s1] eqn:E1.
    destruct (get_sid_keeps _ _ _ _ E1) as (T1 & F1 & S1).
    assert (∀ s'', ds_trace s'' = ds_trace s → ds_files s'' = ds_files s →
      keeps s s'' ∧ ∀ sid, package_sid env sid → Forall carried_out (ds_trace s'') → all_clean s →
      ∀ cur dir name, (dir ++ lit "*.dll", name) ∈ found_by cur (drop (length (ds_trace s)) (ds_trace s'')) →
      can_load s'' sid (dir ++ name)) as Hsame.
    { intros s'' T F. split; [by apply (keeps_same _ _ []); [rewrite app_nil_r|]|].
      intros sid _ _ _ cur dir name Hi. rewrite T, drop_all in Hi. by apply elem_of_nil in Hi. }
    destruct r1 as [a|e]; [|injection H as <- <-; by apply Hsame].
    destruct (get_sid_from_str env (lit "S-1-15-2-2") s1) as [r2 s2] eqn:E2.
    destruct (get_sid_keeps _ _ _ _ E2) as (T2 & F2 & S2).
    destruct r2 as [b|e]; [|injection H as <- <-; apply Hsame; congruence].
    specialize (S1 a eq_refl). specialize (S2 b eq_refl).
    rewrite dll_pattern_eq in H. set (dir := dll_folder folder) in *. clearbody dir.
    assert (ds_trace s2 = ds_trace s) as T by congruence.
    assert (ds_files s2 = ds_files s) as F by congruence.
    destruct (de_first env (ds_trace s2) (dir ++ lit "*.dll")) as [n|err].
    - set (s3 := mkDst _ _ _ _) in H.
      assert (ds_trace s3 = ds_trace s ++ [DFind (dir ++ lit "*.dll") (Found n)]) as T3.
      { unfold s3. cbn [dlog ds_trace]. by rewrite T. }
      assert (keeps s s3) as K3 by by eapply keeps_same.
      destruct (loop_keeps fuel dir a b n s3 r s') as (K4 & S4 & L4); [by left|by right| |done|].
      { rewrite T3. by rewrite lastpat_app. }
      split; [by eapply keeps_trans|].
      intros sid Hsid Hc Hcl cur d nm Hi.
      assert (all_clean s3) as Hcl3.
      { intros x p l Hx. unfold s3. cbn [dlog ds_files]. rewrite F. by apply Hcl. }
      destruct K4 as [[e4 T4] _]. rewrite T4, T3, <- app_assoc, drop_app in Hi.
      rewrite found_by_app in Hi. cbn [found_by lastpat app] in Hi.
      assert (can_load s' a (d ++ nm) ∧ can_load s' b (d ++ nm)) as [La Lb].
      { apply elem_of_cons in Hi as [Hi|Hi].
        - injection Hi as Hd ->. apply app_inv_tail in Hd as ->. auto.
        - apply (S4 Hc Hcl3). by rewrite T4, drop_app. }
      destruct Hsid as [Hsid|Hsid]; [rewrite S1 in Hsid|rewrite S2 in Hsid]; injection Hsid as <-; done.
    - assert (s' = dlog s2 (DFind (dir ++ lit "*.dll") (FindError err))) as ->.
      { destruct (_ =? _) in H; by injection H as _ <-. }
      cbn [dlog ds_trace]. split.
      { apply (keeps_same _ _ [DFind (dir ++ lit "*.dll") (FindError err)]); [|done].
        cbn [dlog ds_trace]. by rewrite T. }
      intros sid _ _ _ cur d nm Hi. rewrite T, drop_app in Hi. by apply elem_of_nil in Hi.
  Qed.
End c105.

(** It holds when no entry of these files denies the package SIDs or is there for children only. *)
Theorem C105_partial fuel env exe windir f0 n b s' sid dir name :
  documented env → (∀ tr l, de_info env tr l = true) → (∀ tr i, de_ace env tr i = true) →
  prepare_dlls fuel env exe windir (mkDst [] f0 n b) = Some s' →
  Forall carried_out (ds_trace s') →
  (∀ sid path l, package_sid env sid → f0 !! path = Some (Some l) → clean sid l) →
  package_sid env sid → (dir ++ lit "*.dll", name) ∈ found_by [] (ds_trace s') →
  ∃ d, ds_files s' !! (dir ++ name) = Some d ∧ loadable sid d.
Proof.
  intros Hdoc Hinfo Hace H Hc Hcl Hs Hi. unfold prepare_dlls in H.
  destruct (ensure_dlls fuel env (executable_directory exe) _) as [[r1 s1]|] eqn:E1; [|done].
  destruct (ensure_dlls fuel env windir s1) as [[r2 s2]|] eqn:E2; [|done].
  injection H as <-.
  destruct (dlls_keeps env Hdoc Hinfo Hace _ _ _ _ _ E1) as [[_ K1] L1].
  destruct (dlls_keeps env Hdoc Hinfo Hace _ _ _ _ _ E2) as [[[e2 T2] K2] L2].
  assert (Forall carried_out (ds_trace s1)) as Hc1.
  { rewrite T2 in Hc. by apply Forall_app in Hc as [? _]. }
  destruct (K1 Hc1) as [C1 _]. destruct (K2 Hc) as [_ P2].
  assert (all_clean env s1) as Hcl1 by by apply C1.
  rewrite T2, found_by_app in Hi. apply elem_of_app in Hi as [Hi|Hi].
  - apply P2. apply (L1 sid Hs Hc1 Hcl []). by rewrite drop_0.
  - apply (L2 sid Hs Hc Hcl1 (lastpat [] (ds_trace s1))). by rewrite T2, drop_app.
Qed.
Print Assumptions C105_partial.

Lemma clean_cons sid a l : clean sid (a :: l) ↔
  (ac_sid a = sid → ac_type a ≠ 1 ∧ N.testbit (ac_flags a) 3 = false) ∧ clean sid l.
Proof.
  split.
  - intros H. split; [apply H; left|]. intros x Hx. apply H. by right.
  - intros [H1 H2] x Hx. apply elem_of_cons in Hx as [->|Hx]; auto.
Qed.
Lemma dll_env_documented first nexts set : documented (dll_env first nexts set).
Proof.
  intros tr old e new He H. cbn in H. injection H as <-.
  assert (∀ m, N.ldiff m m = 0) as Hz.
  { intros m. apply N.bits_inj. intros i. rewrite N.ldiff_spec, N.bits_0. by destruct (N.testbit m i). }
  assert (∀ sid l m k, allows sid m l = true → allows sid (N.ldiff m k) l = true) as Hm.
  { intros sid l. induction l as [|a l IH]; intros m k; cbn [allows].
    - rewrite !N.eqb_eq. intros ->. apply N.ldiff_0_l.
    - destruct (applies sid a); [|apply IH]. destruct (_ =? 0).
      + rewrite ldiff_ldiff_comm. apply IH.
      + destruct (_ =? 1); [|apply IH]. rewrite !andb_true_iff, !N.eqb_eq. intros [H1 H2].
        split; [|by apply IH]. apply N.bits_inj. intros i.
        pose proof (f_equal (λ x, N.testbit x i) H1) as Hb. cbv beta in Hb.
        rewrite N.land_spec, N.bits_0 in Hb. rewrite N.land_spec, N.ldiff_spec, N.bits_0.
        destruct (N.testbit m i), (N.testbit (ac_mask a) i), (N.testbit k i); done. }
  split; [|split].
  - cbn [allows]. unfold applies. cbn [ac_sid ac_flags]. rewrite bool_decide_eq_true_2 by done.
    cbn [N.testbit negb andb ac_type ac_mask]. rewrite N.eqb_refl, Hz. apply allows_zero.
  - intros sid m H. cbn [allows]. destruct (applies _ _); [|done]. cbn [ac_type ac_mask].
    rewrite N.eqb_refl. by apply Hm.
  - intros sid H. apply clean_cons. split; [|done]. intros _. done.
Qed.

(** An allowing entry that is there for children only counts as if it applied to the file, and a
    denying entry is not looked at. *)
Definition inherit_only (sid : str) : ace := mkAce 0 8 0x1200a9 sid.
Definition denied (sid : str) : ace := mkAce 1 0 0x1200a9 sid.
Definition closed_end (l : list ace) : option dstate :=
  prepare_dlls 10 (dll_env (Found (lit "a.dll")) [FindError 18] 0) (lit "C:\app\w.exe")
    (lit "C:\Windows") (mkDst [] {[lit "C:\app\a.dll" := Some l]} 0 0).
(** The list of the file and the events at the end. *)
Definition end_view (path : str) (o : option dstate) : option (option dacl * list devent) :=
  match o with Some s => Some (ds_files s !! path, ds_trace s) | None => None end.
Definition stays_closed (l : list ace) : Prop :=
  allows sid1 0x1200a9 l = false ∧
  end_view (lit "C:\app\a.dll") (closed_end l) =
    Some (Some (Some l),
      [DFind (lit "C:\app\*.dll") (Found (lit "a.dll")); DGet (lit "C:\app\a.dll") 0;
       DGet (lit "C:\app\a.dll") 0; DNext (FindError 18);
       DFind (lit "C:\Windows\*.dll") (FindError 2)]).
Theorem C105_inherit_only_refuted : stays_closed [inherit_only sid1; open_to sid2].
Proof. split; vm_compute; reflexivity. Qed.
Print Assumptions C105_inherit_only_refuted.
Theorem C105_deny_refuted : stays_closed [denied sid1; open_to sid1; open_to sid2].
Proof. split; vm_compute; reflexivity. Qed.
Print Assumptions C105_deny_refuted.
Lemma C105_witness fuel env exe windir f0 o sid dir name path l tr :
  documented env → (∀ tr l, de_info env tr l = true) → (∀ tr i, de_ace env tr i = true) →
  prepare_dlls fuel env exe windir (mkDst [] f0 0 0) = o →
  end_view path o = Some (Some (Some l), tr) →
  path = dir ++ name →
  Forall carried_out tr → package_sid env sid → (dir ++ lit "*.dll", name) ∈ found_by [] tr →
  allows sid 0x1200a9 l = false → ¬ C105_full.
Proof.
  intros Hd Hi Ha E Ho -> Hc Hs Hf Hl H. unfold C105_full in H.
  destruct o as [s|]; [|done]. injection Ho as Hp <-.
  destruct (H _ _ _ _ _ _ _ _ sid dir name Hd Hi Ha E Hc Hs Hf) as (d & Hq & Hx).
  assert (d = Some l) as -> by (pose proof (eq_trans (eq_sym Hp) Hq) as Hy; by injection Hy).
  unfold loadable in Hx. rewrite Hx in Hl. discriminate Hl.
Qed.
Theorem C105_full_refuted : ¬ C105_full.
Proof.
  destruct C105_deny_refuted as [Hl He].
  refine (C105_witness 10 (dll_env (Found (lit "a.dll")) [FindError 18] 0) (lit "C:\app\w.exe")
    (lit "C:\Windows") {[lit "C:\app\a.dll" := Some [denied sid1; open_to sid1; open_to sid2]]}
    (closed_end [denied sid1; open_to sid1; open_to sid2]) sid1 (lit "C:\app\") (lit "a.dll") (lit "C:\app\a.dll") _ _
    (dll_env_documented _ _ _) (λ _ _, eq_refl) (λ _ _, eq_refl) eq_refl He eq_refl _ _ _ Hl).
  - repeat (constructor; [done|]). constructor.
  - by left.
  - left.
Qed.
Print Assumptions C105_full_refuted.
Example C105_example :
  match prepare_dlls 10 example_env (lit "C:\app\w.exe") (lit "C:\Windows") (mkDst [] dll_files 0 0) with
  | Some s =>
      match ds_files s !! lit "C:\app\a.dll" with
      | Some (Some l) => allows sid1 0x1200a9 l && allows sid2 0x1200a9 l = true
      | _ => False
      end ∧ allows sid1 0x1200a9 [open_to (lit "admin")] = false
  | None => False
  end.
Proof. vm_compute. auto. Qed.

(* ---------------------------------------------------------------- C106 *)

(** Preparing DLLs leaves no search handle and no allocated block behind. *)
Definition C106_full : Prop :=
  ∀ fuel env exe windir s s',
  prepare_dlls fuel env exe windir s = Some s' →
  ds_searches s' = ds_searches s ∧ ds_blocks s' = ds_blocks s.

Lemma loop_counts fuel env : ∀ dir a b name s r s',
  dll_loop fuel env dir a b name s = Some (r, s') →
  ∃ es, ds_trace s' = ds_trace s ++ es ∧ ds_searches s' = ds_searches s ∧ searches es = 0 ∧
  ds_blocks s' = ds_blocks s + made_lists es.
Proof.
  induction fuel as [|fuel IH]; intros dir a b name s r s' H; [done|].
  cbn [dll_loop] in H. unfold ensure_both in H.
  destruct (ensure_dll env (dir ++ name) a s) as [r1 s1] eqn:E1. cbn [snd] in H.
  destruct (ensure_dll env (dir ++ name) b s1) as [r2 s2] eqn:E2. cbn [snd] in H.
  apply ensure_dll_counts in E1 as (e1 & T1 & S1 & Z1 & B1).
  apply ensure_dll_counts in E2 as (e2 & T2 & S2 & Z2 & B2).
  destruct (de_next env (ds_trace s2)) as [n|err] eqn:En.
  - destruct (IH _ _ _ _ _ _ _ H) as (e3 & T3 & S3 & Z3 & B3). cbn [dlog ds_trace ds_searches ds_blocks] in *.
    exists (e1 ++ e2 ++ [DNext (Found n)] ++ e3).
    rewrite T3, T2, T1, <- !app_assoc, !searches_app, !made_lists_app. split; [done|].
    cbn [searches made_lists]. split; [congruence|]. split; lia.
  - assert (s' = dlog s2 (DNext (FindError err))) as -> by (destruct (_ =? _) in H; by injection H as _ <-).
    exists (e1 ++ e2 ++ [DNext (FindError err)]).
    cbn [dlog ds_trace ds_searches ds_blocks].
    rewrite T2, T1, <- !app_assoc, !searches_app, !made_lists_app. split; [done|].
    cbn [searches made_lists]. split; [congruence|]. split; lia.
Qed.
Lemma dlls_counts fuel env folder s r s' :
  (∀ t, de_sid env t ≠ Some []) →
  ensure_dlls fuel env folder s = Some (r, s') →
  ∃ es, ds_trace s' = ds_trace s ++ es ∧ ds_searches s' = ds_searches s + searches es ∧
  ds_blocks s' = ds_blocks s + made_lists es.
Proof.
  intros Hne. unfold ensure_dlls. intros H.
  assert (∀ t s r s', get_sid_from_str env t s = (r, s') →
    ds_trace s' = ds_trace s ∧ ds_searches s' = ds_searches s ∧ ds_blocks s' = ds_blocks s) as Hg.
  { intros t s0 r0 s0'. unfold get_sid_from_str. specialize (Hne t).
    destruct (de_sid env t) as [[|c sid]|]; intros H0; injection H0 as <- <-; [done| |done].
    split; [done|]. split; [done|]. cbn. lia. }
  destruct (get_sid_from_str env (lit "S-1-15-2-1") s) as [r1 s1] eqn:E1.
  destruct (Hg _ _ _ _ E1) as (T1 & S1 & B1).
  destruct r1 as [a|e].
  2: { injection H as <- <-. exists []. rewrite app_nil_r. cbn. split; [done|]. lia. }
  destruct (get_sid_from_str env (lit "S-1-15-2-2") s1) as [r2 s2] eqn:E2.
  destruct (Hg _ _ _ _ E2) as (T2 & S2 & B2).
  destruct r2 as [b|e].
  2: { injection H as <- <-. exists []. rewrite app_nil_r. cbn. split; [congruence|]. lia. }
  rewrite dll_pattern_eq in H. set (pat := _ ++ lit "*.dll") in H.
  destruct (de_first env (ds_trace s2) pat) as [n|err] eqn:Ef.
  - destruct (loop_counts _ _ _ _ _ _ _ _ _ H) as (e3 & T3 & S3 & Z3 & B3).
    cbn [dlog ds_trace ds_searches ds_blocks] in *.
    exists ([DFind pat (Found n)] ++ e3).
    rewrite T3, T2, T1, <- !app_assoc. split; [done|]. rewrite searches_app, made_lists_app.
    cbn [searches made_lists]. lia.
  - assert (s' = dlog s2 (DFind pat (FindError err))) as -> by (destruct (_ =? _) in H; by injection H as _ <-).
    exists [DFind pat (FindError err)]. cbn [dlog ds_trace ds_searches ds_blocks searches made_lists].
    split; [congruence|]. lia.
Qed.

(** Exactly one search handle stays open for each folder with a DLL, and one block for each
    access control list made. *)
Theorem C106_leaks fuel env exe windir f0 n b s' :
  (∀ t, de_sid env t ≠ Some []) →
  prepare_dlls fuel env exe windir (mkDst [] f0 n b) = Some s' →
  ds_searches s' = n + searches (ds_trace s') ∧ ds_blocks s' = b + made_lists (ds_trace s').
Proof.
  intros Hne H. unfold prepare_dlls in H.
  destruct (ensure_dlls fuel env (executable_directory exe) _) as [[r1 s1]|] eqn:E1; [|done].
  destruct (ensure_dlls fuel env windir s1) as [[r2 s2]|] eqn:E2; [|done].
  injection H as <-.
  apply dlls_counts in E1 as (e1 & T1 & S1 & B1); [|done].
  apply dlls_counts in E2 as (e2 & T2 & S2 & B2); [|done].
  cbn [ds_trace ds_searches ds_blocks] in *. rewrite T2, T1, app_nil_l, searches_app, made_lists_app. lia.
Qed.
Print Assumptions C106_leaks.
Definition example_end : option dstate :=
  prepare_dlls 10 example_env (lit "C:\app\w.exe") (lit "C:\Windows") (mkDst [] dll_files 0 0).
Lemma C106_witness fuel env exe windir s o k :
  prepare_dlls fuel env exe windir s = o → option_map ds_searches o = Some k →
  k ≠ ds_searches s → ¬ C106_full.
Proof.
  intros E Ho Hk H. destruct o as [s'|]; [|done]. injection Ho as <-. by destruct (H _ _ _ _ _ _ E).
Qed.
Theorem C106_refuted : ¬ C106_full.
Proof.
  refine (C106_witness 10 example_env (lit "C:\app\w.exe") (lit "C:\Windows") (mkDst [] dll_files 0 0)
    example_end 1 eq_refl _ _).
  - vm_compute. reflexivity.
  - done.
Qed.
Print Assumptions C106_refuted.
Example C106_example :
  match prepare_dlls 10 example_env (lit "C:\app\w.exe") (lit "C:\Windows") (mkDst [] dll_files 0 0) with
  | Some s => ds_searches s = 1 ∧ ds_blocks s = 2
  | None => False
  end.
Proof. vm_compute. auto. Qed.
