(** Lemmas about the DLL permissions. *)
From stdpp Require Import prelude gmap.
From Coq Require Import Strings.Byte.
From Verif Require Import Bytes PolicyModel LinuxPolicyModel FdModel BpfModel SeccompModel
  PostcardModel ChannelModel BrokerModel EntryModel ProcessModel WinProcessModel WinDllModel
  WinDllSpec.
Local Open Scope N_scope.

(** The pattern of the current search. *)
Fixpoint lastpat (cur : str) (tr : list devent) : str :=
  match tr with
  | [] => cur
  | DFind p _ :: tr => lastpat p tr
  | _ :: tr => lastpat cur tr
  end.
Lemma lastpat_app l : ∀ cur r, lastpat cur (l ++ r) = lastpat (lastpat cur l) r.
Proof. induction l as [|e l IH]; intros cur r; [done|]. destruct e; apply IH. Qed.
Lemma found_by_app l : ∀ cur r, found_by cur (l ++ r) = found_by cur l ++ found_by (lastpat cur l) r.
Proof.
  induction l as [|e l IH]; intros cur r; [done|].
  destruct e as [p [n|c]|[n|c]| | |]; cbn; rewrite IH; done.
Qed.
Lemma replay_app l : ∀ f r, replay f (l ++ r) = replay (replay f l) r.
Proof.
  induction l as [|e l IH]; intros f r; [done|].
  destruct e as [| | | |p n c]; cbn; try apply IH. destruct c; apply IH.
Qed.
Lemma searches_app l r : searches (l ++ r) = searches l + searches r.
Proof.
  induction l as [|e l IH]; [done|].
  destruct e as [p [n|c]|[n|c]| | |]; cbn [app searches]; rewrite IH; lia.
Qed.
Lemma made_lists_app l r : made_lists (l ++ r) = made_lists l + made_lists r.
Proof.
  induction l as [|e l IH]; [done|].
  destruct e as [| | |? ? [n|]|]; cbn [app made_lists]; rewrite IH; lia.
Qed.
Lemma dll_pattern_eq folder : dll_pattern folder = dll_folder folder ++ lit "*.dll".
Proof. done. Qed.

(* ---------------------------------------------------------------- one file *)

Definition the_entry (sid : str) : entry := mkEntry 0x1200a9 1 0 sid.

(** What happens to one file for one SID. *)
Inductive one_file (env : denv) (path sid : str) (s s' : dstate) : Prop :=
  | of_get code :
      ds_trace s' = ds_trace s ++ [DGet path code] → ds_files s' = ds_files s →
      (code ≠ 0 ∨
       (code = 0 ∧ ds_files s !! path = Some None) ∨
       (code = 0 ∧ ∃ old, ds_files s !! path = Some (Some old) ∧
        ((∃ tr, de_info env tr old = false) ∨ (∃ tr i, de_ace env tr i = false) ∨
         Exists (λ a, delegates sid a = true) old))) →
      one_file env path sid s s'
  | of_entries old :
      ds_files s !! path = Some (Some old) → Forall (λ a, delegates sid a = false) old →
      ds_trace s' = ds_trace s ++ [DGet path 0; DEntries old (the_entry sid) None] →
      ds_files s' = ds_files s → one_file env path sid s s'
  | of_set old new code tr :
      ds_files s !! path = Some (Some old) → Forall (λ a, delegates sid a = false) old →
      de_entries env tr old (the_entry sid) = Some new →
      ds_trace s' = ds_trace s ++
        [DGet path 0; DEntries old (the_entry sid) (Some new); DSet path new code] →
      ds_files s' = (if code =? 0 then <[path := Some new]> (ds_files s) else ds_files s) →
      one_file env path sid s s'.

Lemma scan_aces_spec env tr sid l : ∀ i,
  match scan_aces env tr sid i l with
  | None => ∃ j, de_ace env tr j = false
  | Some true => Exists (λ a, delegates sid a = true) l
  | Some false => Forall (λ a, delegates sid a = false) l
  end.
Proof.
  induction l as [|a l IH]; intros i; cbn [scan_aces]; [constructor|].
  destruct (de_ace env tr i) eqn:Ea; [|by exists i].
  specialize (IH (i + 1)). destruct (scan_aces env tr sid (i + 1) l) as [b|]; [|done].
  destruct (delegates sid a) eqn:Ed; cbn [orb].
  - by left.
  - destruct b; [by right|by constructor].
Qed.

Lemma rights_mask : N.lor RIGHTS_TO_LOAD_DLL READ_CONTROL = 0x1200a9.
Proof. reflexivity. Qed.

Lemma ensure_dll_cases env path sid s r s' :
  ensure_dll env path sid s = (r, s') → one_file env path sid s s'.
Proof.
  unfold ensure_dll, GRANT_ACCESS, NO_INHERITANCE. rewrite rights_mask.
  set (code := match ds_files s !! path with Some _ => _ | None => _ end).
  destruct (code =? 0) eqn:Ec; cbn [negb].
  - apply N.eqb_eq in Ec. rewrite Ec. cbn [dlog alloc ds_files ds_trace].
    destruct (ds_files s !! path) as [[old|]|] eqn:Ef.
    + destruct (de_info _ _ old) eqn:Ei; cbn [negb]; intros H.
      2: { injection H as <- <-. eapply of_get; cbn; [done|done|]. right; right. split; [done|].
           exists old. split; [done|]. left. eauto. }
      pose proof (scan_aces_spec env (ds_trace s ++ [DGet path 0]) sid old 0) as Hs.
      destruct (scan_aces _ _ _ _ old) as [[]|].
      * injection H as <- <-. eapply of_get; cbn; [done|done|]. right; right. split; [done|].
        exists old. auto.
      * destruct (de_entries _ _ _ _) as [new|] eqn:Ee.
        -- cbn [dlog alloc local_free ds_files ds_trace ds_searches ds_blocks] in H.
           set (c := de_set _ _ _ _) in H. clearbody c.
           destruct (c =? 0) eqn:E2; [|destruct (_ =? ERROR_ACCESS_DENIED) in H];
             injection H as <- <-;
             (eapply (of_set _ _ _ _ _ old new c);
               [done|done|exact Ee|cbn [dlog alloc local_free ds_files ds_trace ds_searches ds_blocks]; by rewrite <- !app_assoc|rewrite E2; done]).
        -- injection H as <- <-. eapply of_entries; [done|done|cbn; by rewrite <- !app_assoc|done].
      * injection H as <- <-. destruct Hs as [j Hj].
        eapply of_get; cbn; [done|done|]. right; right. split; [done|].
        exists old. split; [done|]. right; left. eauto.
    + intros H. injection H as <- <-. eapply of_get; cbn; [done|done|]. right; left. auto.
    + discriminate Ec.
  - apply N.eqb_neq in Ec. intros H.
    assert (s' = dlog s (DGet path code)) as ->.
    { destruct (_ =? ERROR_ACCESS_DENIED) in H; injection H as <- <-; done. }
    by eapply of_get; [done|done|left].
Qed.

(** Blocks and search handles. *)
Lemma ensure_dll_counts env path sid s r s' :
  ensure_dll env path sid s = (r, s') →
  ∃ es, ds_trace s' = ds_trace s ++ es ∧ ds_searches s' = ds_searches s ∧ searches es = 0 ∧
  ds_blocks s' = ds_blocks s + made_lists es.
Proof.
  unfold ensure_dll.
  set (code := match ds_files s !! path with Some _ => _ | None => _ end).
  destruct (code =? 0) eqn:Ec; cbn [negb].
  - cbn [dlog alloc ds_files ds_trace]. destruct (ds_files s !! path) as [[old|]|] eqn:Ef.
    + destruct (de_info _ _ old); cbn [negb]; intros H.
      2: { injection H as <- <-. eexists. split; [done|]. split; [done|]. split; [done|]. cbn. lia. }
      destruct (scan_aces _ _ _ _ old) as [[]|].
      * injection H as <- <-. eexists. split; [done|]. split; [done|]. split; [done|]. cbn. lia.
      * destruct (de_entries _ _ _ _) as [new|] eqn:Ee; cbn in H.
        -- destruct (_ =? 0) in H; [|destruct (_ =? ERROR_ACCESS_DENIED) in H];
             injection H as <- <-; cbn; rewrite <- !app_assoc;
             (eexists; split; [reflexivity|]; split; [done|]; split; [done|]; cbn; lia).
        -- injection H as <- <-. cbn. rewrite <- !app_assoc.
           eexists; split; [reflexivity|]; split; [done|]; split; [done|]; cbn; lia.
      * injection H as <- <-. eexists. split; [done|]. split; [done|]. split; [done|]. cbn. lia.
    + intros H. injection H as <- <-. eexists. split; [done|]. split; [done|]. split; [done|]. cbn. lia.
    + intros H. injection H as <- <-. eexists. split; [done|]. split; [done|]. split; [done|]. cbn. lia.
  - intros H. destruct (_ =? ERROR_ACCESS_DENIED) in H; injection H as <- <-;
      (eexists; split; [done|]; split; [done|]; split; [done|]; cbn; lia).
Qed.

(* ---------------------------------------------------------------- invariants *)

(** An invariant over the files and the trace that holds for each operation holds for the whole
    preparation. *)
Record invariant (env : denv) (dirs sids : str → Prop) (P : dstate → Prop) : Prop := {
  inv_same : ∀ s s', P s → ds_trace s' = ds_trace s → ds_files s' = ds_files s → P s';
  inv_find : ∀ s p a, P s → P (dlog s (DFind p a));
  inv_next : ∀ s a, P s → P (dlog s (DNext a));
  inv_file : ∀ s s' dir name sid, P s → dirs dir → sids sid →
    (dir ++ lit "*.dll", name) ∈ found_by [] (ds_trace s) →
    one_file env (dir ++ name) sid s s' → P s' }.

Lemma one_file_found env path sid s s' x :
  one_file env path sid s s' → x ∈ found_by [] (ds_trace s) → x ∈ found_by [] (ds_trace s').
Proof.
  intros [] Hx;
    match goal with H : ds_trace s' = _ |- _ => rewrite H end;
    rewrite found_by_app; apply elem_of_app; by left.
Qed.
Lemma one_file_lastpat env path sid s s' :
  one_file env path sid s s' → lastpat [] (ds_trace s') = lastpat [] (ds_trace s).
Proof.
  intros []; match goal with H : ds_trace s' = _ |- _ => rewrite H end; by rewrite lastpat_app.
Qed.

Section inv.
  Context (env : denv) (dirs sids : str → Prop) (P : dstate → Prop).
  Context (HI : invariant env dirs sids P).

  Lemma inv_both dir name a b s :
    P s → dirs dir → sids a → sids b → (dir ++ lit "*.dll", name) ∈ found_by [] (ds_trace s) →
    P (ensure_both env (dir ++ name) a b s) ∧
    lastpat [] (ds_trace (ensure_both env (dir ++ name) a b s)) = lastpat [] (ds_trace s).
  Proof.
    intros HP Hd Ha Hb Hf. unfold ensure_both.
    destruct (ensure_dll env (dir ++ name) a s) as [r1 s1] eqn:E1. cbn [snd].
    destruct (ensure_dll env (dir ++ name) b s1) as [r2 s2] eqn:E2. cbn [snd].
    apply ensure_dll_cases in E1, E2.
    assert (P s1) by exact (inv_file _ _ _ _ HI s s1 dir name a HP Hd Ha Hf E1).
    split.
    - refine (inv_file _ _ _ _ HI s1 s2 dir name b _ Hd Hb _ E2); [done|].
      by apply (one_file_found _ _ _ _ _ _ E1).
    - by rewrite (one_file_lastpat _ _ _ _ _ E2), (one_file_lastpat _ _ _ _ _ E1).
  Qed.

  Lemma inv_loop fuel : ∀ dir a b name s r s',
    P s → dirs dir → sids a → sids b → (dir ++ lit "*.dll", name) ∈ found_by [] (ds_trace s) →
    lastpat [] (ds_trace s) = dir ++ lit "*.dll" →
    dll_loop fuel env dir a b name s = Some (r, s') → P s'.
  Proof.
    induction fuel as [|fuel IH]; intros dir a b name s r s' HP Hd Ha Hb Hf Hl H; [done|].
    cbn [dll_loop] in H.
    destruct (inv_both dir name a b s HP Hd Ha Hb Hf) as [HP1 Hl1].
    set (s1 := ensure_both env (dir ++ name) a b s) in *. clearbody s1.
    assert (P (dlog s1 (DNext (de_next env (ds_trace s1))))) as HP2 by by apply (inv_next _ _ _ _ HI).
    destruct (de_next env (ds_trace s1)) as [n|err].
    - eapply IH; [exact HP2| | | | | |exact H]; eauto.
      + cbn. rewrite found_by_app, Hl1, Hl. apply elem_of_app. right. by left.
      + cbn. rewrite lastpat_app, Hl1, Hl. done.
    - destruct (_ =? _) in H; by injection H as <- <-.
  Qed.

  Lemma inv_sid text s r s' :
    P s → get_sid_from_str env text s = (r, s') → P s' ∧
    (∀ sid, r = Ok sid → de_sid env text = Some sid).
  Proof.
    intros HP. unfold get_sid_from_str. intros H.
    destruct (de_sid env text) as [[|c sid]|]; injection H as <- <-.
    - split; [|done]. by eapply (inv_same _ _ _ _ HI).
    - split; [by eapply (inv_same _ _ _ _ HI)|]. intros ? [= ->]. done.
    - split; [|done]. done.
  Qed.

  Lemma inv_dlls fuel folder s r s' :
    P s → dirs (dll_folder folder) →
    (∀ sid, de_sid env (lit "S-1-15-2-1") = Some sid ∨ de_sid env (lit "S-1-15-2-2") = Some sid →
      sids sid) →
    ensure_dlls fuel env folder s = Some (r, s') → P s'.
  Proof.
    intros HP Hd Hs H. unfold ensure_dlls in H.
    destruct (get_sid_from_str env (lit "S-1-15-2-1") s) as [r1 s1] eqn:E1.
    destruct (inv_sid _ _ _ _ HP E1) as [HP1 Ha].
    destruct r1 as [a|e]; [|by injection H as <- <-].
    destruct (get_sid_from_str env (lit "S-1-15-2-2") s1) as [r2 s2] eqn:E2.
    destruct (inv_sid _ _ _ _ HP1 E2) as [HP2 Hb].
    destruct r2 as [b|e]; [|by injection H as <- <-].
    specialize (Ha a eq_refl). specialize (Hb b eq_refl).
    rewrite dll_pattern_eq in H. set (dir := dll_folder folder) in *. clearbody dir.
    destruct (de_first env (ds_trace s2) (dir ++ lit "*.dll")) as [n|err].
    - eapply inv_loop; [| | | | | |exact H]; eauto.
      + apply (inv_same _ _ _ _ HI (dlog s2 (DFind (dir ++ lit "*.dll") (Found n)))); [|done..].
        by apply (inv_find _ _ _ _ HI).
      + unfold dlog. cbn [ds_trace]. rewrite found_by_app. apply elem_of_app. right. by left.
      + unfold dlog. cbn [ds_trace]. by rewrite lastpat_app.
    - assert (P (dlog s2 (DFind (dir ++ lit "*.dll") (FindError err)))) by by apply (inv_find _ _ _ _ HI).
      destruct (_ =? _) in H; by injection H as <- <-.
  Qed.

  Lemma inv_prepare fuel exe windir s s' :
    P s → dirs (dll_folder (executable_directory exe)) → dirs (dll_folder windir) →
    (∀ sid, de_sid env (lit "S-1-15-2-1") = Some sid ∨ de_sid env (lit "S-1-15-2-2") = Some sid →
      sids sid) →
    prepare_dlls fuel env exe windir s = Some s' → P s'.
  Proof.
    intros HP H1 H2 Hs H. unfold prepare_dlls in H.
    destruct (ensure_dlls fuel env (executable_directory exe) s) as [[r1 s1]|] eqn:E1; [|done].
    destruct (ensure_dlls fuel env windir s1) as [[r2 s2]|] eqn:E2; [|done].
    injection H as <-. eapply inv_dlls; [| | |exact E2]; auto. eapply inv_dlls; [| | |exact E1]; auto.
  Qed.
End inv.

(* ---------------------------------------------------------------- access checks *)

Lemma ldiff_ldiff_comm a b c : N.ldiff (N.ldiff a b) c = N.ldiff (N.ldiff a c) b.
Proof.
  apply N.bits_inj. intros i. rewrite !N.ldiff_spec.
  destruct (N.testbit a i), (N.testbit b i), (N.testbit c i); done.
Qed.
Lemma ldiff_of_land m r : N.land m r = r → N.ldiff r m = 0.
Proof.
  intros H. apply N.bits_inj. intros i. rewrite N.ldiff_spec, N.bits_0. rewrite <- H, N.land_spec.
  destruct (N.testbit m i), (N.testbit r i); done.
Qed.
Lemma allows_zero sid l : allows sid 0 l = true.
Proof.
  induction l as [|a l IH]; cbn [allows]; [done|].
  destruct (applies sid a); [|done]. rewrite N.ldiff_0_l, N.land_0_l.
  destruct (_ =? 0); [done|]. destruct (_ =? 1); done.
Qed.
Lemma allows_entry sid l a : ∀ want,
  clean sid l → a ∈ l → ac_sid a = sid → ac_type a = 0 → N.ldiff want (ac_mask a) = 0 →
  allows sid want l = true.
Proof.
  induction l as [|b l IH]; intros want Hc Hi Hs Ht Hw; [by apply elem_of_nil in Hi|].
  assert (clean sid l) as Hc' by (intros x Hx; apply Hc; by right).
  cbn [allows]. apply elem_of_cons in Hi as [->|Hi].
  - destruct (Hc b ltac:(left) Hs) as [_ Hf].
    unfold applies. rewrite bool_decide_eq_true_2 by done. rewrite Hf. cbn [negb andb].
    rewrite Ht. cbn. rewrite Hw. apply allows_zero.
  - destruct (applies sid b) eqn:Eb; [|eauto].
    unfold applies in Eb. apply andb_true_iff in Eb as [Eb _]. apply bool_decide_eq_true in Eb.
    destruct (Hc b ltac:(left) Eb) as [Hn _].
    destruct (ac_type b =? 0) eqn:E0; [|destruct (ac_type b =? 1) eqn:E1].
    + apply IH; auto. rewrite ldiff_ldiff_comm, Hw. apply N.ldiff_0_l.
    + by apply N.eqb_eq in E1.
    + eauto.
Qed.
Lemma delegates_spec sid a :
  delegates sid a = true ↔
  ac_type a = 0 ∧ N.ldiff 0x1200a9 (ac_mask a) = 0 ∧ ac_sid a = sid.
Proof.
  unfold delegates. rewrite !andb_true_iff, !N.eqb_eq, bool_decide_eq_true.
  change RIGHTS_TO_LOAD_DLL with 0x1200a9. unfold ACCESS_ALLOWED_ACE_TYPE. split.
  - intros [[? ?] ?]. split; [done|]. split; [by apply ldiff_of_land|done].
  - intros (? & H & ?). split; [|done]. split; [done|].
    apply N.bits_inj. intros i. rewrite N.land_spec.
    pose proof (f_equal (λ x, N.testbit x i) H) as Hb. cbv beta in Hb.
    rewrite N.ldiff_spec, N.bits_0 in Hb.
    set (k := 1179817) in *. clearbody k.
    destruct (N.testbit k i), (N.testbit (ac_mask a) i); done.
Qed.
Lemma delegates_allows sid l :
  clean sid l → Exists (λ a, delegates sid a = true) l → allows sid 0x1200a9 l = true.
Proof.
  intros Hc He. apply Exists_exists in He as (a & Hi & Ha). apply delegates_spec in Ha as (? & ? & ?).
  by apply (allows_entry sid l a).
Qed.
