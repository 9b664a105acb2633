(** C144: what CreateProcess reads is alive, and what is allocated for it is freed. *)
From stdpp Require Import prelude gmap.
From Coq Require Import Strings.Byte.
From Verif Require Import Bytes WinProcessModel WinProcessProofs WinAttrModel.
Local Open Scope N_scope.

(** The value that belongs to an attribute. *)
Definition right_value (handles : list N) (t : attribute) (v : option value) : Prop :=
  match t with
  | TCaps => ∃ sid, v = Some (VCaps sid)
  | TLess | TChild => v = Some (VWord 1)
  | THandles => ∃ l, v = Some (VHandles l) ∧ (∀ h, h ∈ l ↔ h ∈ handles)
  | TMitigations => v = Some (VWord 0x10111305)
  end.
(** Every attribute read has its value, every slot is filled, and the SID is alive. *)
Definition reads_well (handles : list N) (e : mevent) : Prop :=
  match e with
  | MCreate slots read sids =>
      Forall (λ p : attribute * option value, right_value handles p.1 p.2) read ∧
      slots = N.of_nat (length read) ∧ NoDup read.*1 ∧
      Forall (λ c, ∃ name, c = Some (CSid name)) sids
  | _ => True
  end.
(** Lists that were initialised are deleted once. *)
Definition inits (l : list mevent) : list N := omap (λ e, match e with MInit a => Some a | _ => None end) l.
Definition deletes (l : list mevent) : list N := omap (λ e, match e with MDelete a => Some a | _ => None end) l.
Definition sids (l : list mevent) : list N := omap (λ e, match e with MSid a => Some a | _ => None end) l.

(** Nothing lives at addresses that were not handed out. *)
Definition fresh (m : mem) : Prop := 0 < m_next m ∧ ∀ a, m_next m ≤ a → m_cells m !! a = None.

Definition C144_full : Prop := ∀ passes handles m ok m',
  fresh m → m_log m = [] → m_loop passes handles all_opts m = Some (ok, m') →
  Forall (reads_well handles) (m_log m') ∧ inits (m_log m') = deletes (m_log m') ∧
  m_cells m' = m_cells m.

Lemma value_at_other m m' a : m_cells m' !! a = m_cells m !! a → value_at m' a = value_at m a.
Proof. unfold value_at. by intros ->. Qed.

(** The state between two statements of a pass: the list, the variables declared so far, and the
    rest of the memory. *)
Record inv (handles : list N) (base : gmap N cell) (l : N) (locals : list N) (slots : N)
  (set : list (attribute * N)) (m : mem) : Prop := {
  i_fresh : fresh m;
  i_list : m_cells m !! l = Some (CList slots set);
  i_rest : ∀ a, a ≠ l → a ∉ locals → m_cells m !! a = base !! a;
  i_base : ∀ a, a = l ∨ a ∈ locals → base !! a = None;
  i_l : l ∉ locals;
  i_vals : ∀ t a, (t, a) ∈ set → a ∈ locals ∧ right_value handles t (value_at m a);
  i_sid : ∀ t a s, (t, a) ∈ set → value_at m a = Some (VCaps s) → ∃ name, base !! s = Some (CSid name);
  i_nodup : NoDup set.*1 }.

Lemma inv_alloc handles base l locals slots set m x :
  inv handles base l locals slots set m →
  inv handles base l (locals ++ [m_next m]) slots set (alloc (CVal x) m).2 ∧
  value_at (alloc (CVal x) m).2 (m_next m) = Some x.
Proof.
  intros [[Hp Hf] Hl Hr Hb Hn Hv Hs Hd].
  assert (l ≠ m_next m) as Hne. { intros E. rewrite E, (Hf (m_next m)) in Hl by lia. done. }
  assert (∀ a, a ∈ locals → base !! a = None) as Hb' by eauto.
  assert (base !! m_next m = None) as Hbn.
  { destruct (decide (m_next m ∈ locals)) as [H|H]; [by apply Hb'|]. rewrite <-Hr by done. by apply Hf. }
  assert (∀ t a, (t, a) ∈ set → a ≠ m_next m) as Hold.
  { intros t a Hi ->. destruct (Hv _ _ Hi) as [_ Hx].
    assert (value_at m (m_next m) = None) as Hno. { unfold value_at. rewrite Hf; [done|lia]. }
    rewrite Hno in Hx. destruct t; cbn in Hx; naive_solver. }
  assert (∀ a, a ≠ m_next m → value_at (alloc (CVal x) m).2 a = value_at m a) as Hval.
  { intros a Ha. apply value_at_other. cbn. by rewrite lookup_insert_ne. }
  split.
  - constructor; cbn.
    + split; [cbn; lia|]. intros a Ha. cbn in *. rewrite lookup_insert_ne by lia. apply Hf. lia.
    + by rewrite lookup_insert_ne.
    + intros a H1 H2. apply not_elem_of_app in H2 as [H2 H3]. rewrite not_elem_of_cons in H3.
      destruct H3 as [H3 _]. rewrite lookup_insert_ne by done. by apply Hr.
    + intros a [->|H]; [by apply Hb; left|]. apply elem_of_app in H as [H|H]; [by apply Hb'|].
      apply elem_of_list_singleton in H as ->. done.
    + rewrite not_elem_of_app, not_elem_of_cons. split; [done|]. split; [done|]. apply not_elem_of_nil.
    + intros t a Hi. destruct (Hv _ _ Hi) as [H1 H2]. split; [apply elem_of_app; by left|].
      rewrite Hval by eauto. done.
    + intros t a s Hi. rewrite Hval by eauto. by apply Hs with t.
    + done.
  - unfold value_at. cbn. by rewrite lookup_insert.
Qed.

Lemma inv_set handles base l locals slots set m ans t v :
  inv handles base l locals slots set m → v ∈ locals → right_value handles t (value_at m v) →
  (∀ s, value_at m v = Some (VCaps s) → ∃ name, base !! s = Some (CSid name)) → t ∉ set.*1 →
  (a_set ans t = false ∧ list_set ans l t v m = (false, m)) ∨
  ∃ m', list_set ans l t v m = (true, m') ∧ m_log m' = m_log m ∧ m_next m' = m_next m ∧
    inv handles base l locals slots (set ++ [(t, v)]) m' ∧
    ∀ a, a ≠ l → m_cells m' !! a = m_cells m !! a.
Proof.
  intros [[Hp Hf] Hl Hr Hb Hn Hv Hs Hd] Hvl Hrv Hvs Ht. unfold list_set.
  destruct (a_set ans t); [|by left]. right. rewrite Hl. eexists. split; [done|].
  split; [done|]. split; [done|].
  assert (∀ a, a ≠ l → m_cells (store l (CList slots (set ++ [(t, v)])) m) !! a = m_cells m !! a) as Ho.
  { intros a Ha. cbn. by rewrite lookup_insert_ne. }
  assert (∀ a, a ∈ locals → value_at (store l (CList slots (set ++ [(t, v)])) m) a = value_at m a) as Hval.
  { intros a Ha. apply value_at_other, Ho. by intros ->. }
  split; [|done]. constructor.
  - split; [done|]. intros a Ha. rewrite Ho; [by apply Hf|]. intros ->. cbn in Ha. rewrite Hf in Hl; done.
  - cbn. by rewrite lookup_insert.
  - intros a H1 H2. rewrite Ho by done. by apply Hr.
  - done.
  - done.
  - intros t' a Hi. apply elem_of_app in Hi as [Hi|Hi].
    + destruct (Hv _ _ Hi) as [H1 H2]. split; [done|]. by rewrite Hval.
    + apply elem_of_list_singleton in Hi. injection Hi as -> ->. split; [done|]. by rewrite Hval.
  - intros t' a s Hi. apply elem_of_app in Hi as [Hi|Hi].
    + destruct (Hv _ _ Hi) as [H1 H2]. rewrite Hval by done. by apply Hs with t'.
    + apply elem_of_list_singleton in Hi. injection Hi as -> ->. rewrite Hval by done. apply Hvs.
  - rewrite fmap_app. apply NoDup_app. split; [done|]. split; [|apply NoDup_singleton].
    intros t' Hi Hi'. apply elem_of_list_singleton in Hi'. by subst.
Qed.

Lemma release_all locals m a :
  m_cells (foldr release m locals) !! a = if decide (a ∈ locals) then None else m_cells m !! a.
Proof.
  induction locals as [|b r IH]; cbn [foldr]; [done|]. unfold release at 1. cbn [m_cells].
  destruct (decide (a = b)) as [->|Hne].
  - rewrite lookup_delete. by rewrite decide_True by apply elem_of_list_here.
  - rewrite lookup_delete_ne, IH by done. destruct (decide (a ∈ r)).
    + rewrite decide_True; [done|by apply elem_of_list_further].
    + rewrite decide_False; [done|]. by rewrite not_elem_of_cons.
Qed.
Lemma release_log locals m :
  m_log (foldr release m locals) = m_log m ∧ m_next (foldr release m locals) = m_next m.
Proof. induction locals as [|b r [IH1 IH2]]; cbn; [done|]. done. Qed.

(** What is left of the end of a pass. *)
Definition ended (handles : list N) (base : gmap N cell) (l : N) (m m' : mem) : Prop :=
  fresh m' ∧ m_next m ≤ m_next m' ∧ m_cells m' = base ∧
  ∃ evs, m_log m' = m_log m ++ evs ++ [MDelete l] ∧ Forall (reads_well handles) evs ∧
    inits evs = [] ∧ deletes evs = [] ∧ sids evs = [].

Lemma inv_drop handles base l locals slots set m evs m0 :
  inv handles base l locals slots set m → m_log m = m_log m0 ++ evs → m_next m0 ≤ m_next m →
  Forall (reads_well handles) evs → inits evs = [] → deletes evs = [] → sids evs = [] →
  ended handles base l m0 (drop_locals l locals m).
Proof.
  intros [[Hp Hf] Hl Hr Hb Hn Hv Hs Hd] Hlog Hnext H1 H2 H3 H4. unfold drop_locals.
  destruct (release_log locals m) as [E1 E2].
  assert (m_cells (release l (mlog (foldr release m locals) (MDelete l))) = base) as E.
  { apply map_eq. intros a. unfold release at 1. cbn [m_cells mlog].
    destruct (decide (a = l)) as [->|Hne].
    - rewrite lookup_delete. symmetry. apply Hb. by left.
    - rewrite lookup_delete_ne, release_all by done. destruct (decide (a ∈ locals)) as [Ha|Ha].
      + symmetry. apply Hb. by right.
      + by apply Hr. }
  split; [|split; [|split; [done|]]].
  - split; [cbn; rewrite E2; done|]. intros a Ha. rewrite E. cbn in Ha. rewrite E2 in Ha.
    destruct (decide (a = l)) as [->|Hne]; [apply Hb; by left|].
    destruct (decide (a ∈ locals)); [apply Hb; by right|]. rewrite <-Hr by done. by apply Hf.
  - cbn. by rewrite E2.
  - exists evs. cbn. rewrite E1, Hlog, <-app_assoc. done.
Qed.

Lemma create_reads handles base l locals slots set m :
  inv handles base l locals slots set m → slots = N.of_nat (length set) →
  reads_well handles (create_event l m).
Proof.
  intros [[Hp Hf] Hl Hr Hb Hn Hv Hs Hd] ->. unfold create_event. rewrite Hl. cbn [reads_well].
  split; [|split; [|split]].
  - apply Forall_forall. intros x Hi. apply elem_of_list_fmap in Hi as ([t a] & -> & Hi).
    by apply Hv.
  - by rewrite map_length.
  - replace (map (λ p : attribute * N, (p.1, value_at m p.2)) set).*1 with set.*1; [done|].
    clear. induction set as [|[t a] r IH]; [done|]. cbn. by f_equal.
  - apply Forall_forall. intros c Hi. apply elem_of_list_omap in Hi as ([t a] & Hi & Hc).
    unfold sid_of in Hc. cbn [snd] in Hc.
    destruct (m_cells m !! a) as [[[s| |]| |]|] eqn:Ea; try done. injection Hc as <-.
    destruct (Hs t a s Hi) as [name Hname]; [unfold value_at; by rewrite Ea|].
    exists name. rewrite Hr; [done|..].
    + intros ->. rewrite Hb in Hname; [done|by left].
    + intros H. rewrite Hb in Hname; [done|by right].
Qed.

Lemma right_values handles t v :
  (t = TLess ∨ t = TChild) ∧ v = VWord 1 ∨ t = THandles ∧ v = VHandles (handle_list handles) ∨
  t = TMitigations ∧ v = VWord mitigation_policy →
  right_value handles t (Some v) ∧ ∀ s, v ≠ VCaps s.
Proof.
  intros [[[-> | ->] ->] | [[-> ->] | [-> ->]]]; (split; [|done]); try done.
  eexists. split; [done|]. intros h. apply handle_list_elem.
Qed.

Section tail.
  Context (handles : list N) (ans : answers) (base : gmap N cell) (l slots : N) (m0 : mem).
  Local Notation opt b t := (if b : bool then [t] else []).

  Lemma m_create_ok o locals set m :
    inv handles base l locals slots set m → m_log m = m_log m0 → m_next m0 ≤ m_next m →
    slots = N.of_nat (length set) → ended handles base l m0 (m_create ans o l locals m).2.
  Proof.
    intros Hi Hl Hn Hs. unfold m_create. cbn [snd].
    refine (inv_drop handles base l locals slots set _ [create_event l m] m0 _ _ _ _ _ _ _).
    - destruct Hi as [Hf ? ? ? ? Hv Hsid ?]. constructor; try done.
    - cbn. by rewrite Hl.
    - done.
    - constructor; [by eapply create_reads|constructor].
    - cbn. unfold create_event. destruct (m_cells m !! l) as [[]|]; done.
    - cbn. unfold create_event. destruct (m_cells m !! l) as [[]|]; done.
    - cbn. unfold create_event. destruct (m_cells m !! l) as [[]|]; done.
  Qed.

  (** Dropping what was declared before anything is read. *)
  Lemma m_stop locals set m :
    inv handles base l locals slots set m → m_log m = m_log m0 → m_next m0 ≤ m_next m →
    ended handles base l m0 (drop_locals l locals m).
  Proof.
    intros Hi Hl Hn. refine (inv_drop handles base l locals slots set m [] m0 Hi _ Hn _ _ _ _); try done.
    by rewrite app_nil_r.
  Qed.

  (** One optional attribute with a variable of its own. *)
  Lemma m_step b t x locals set m later (k : mem → next * mem) (again : next) :
    inv handles base l locals slots set m → m_log m = m_log m0 → m_next m0 ≤ m_next m →
    (b = true → right_value handles t (Some x) ∧ ∀ s, x ≠ VCaps s) →
    NoDup (set.*1 ++ opt b t ++ later) →
    slots = N.of_nat (length set + length (opt b t ++ later)) →
    (∀ set' m', inv handles base l (locals ++ [m_next m]) slots set' m' → m_log m' = m_log m0 →
       m_next m0 ≤ m_next m' → NoDup (set'.*1 ++ later) →
       slots = N.of_nat (length set' + length later) → ended handles base l m0 (k m').2) →
    ended handles base l m0
      (let '(v, m) := alloc (CVal x) m in
       if b then
         let '(ok, m) := list_set ans l t v m in
         if ok then k m else (again, drop_locals l (locals ++ [v]) m)
       else k m).2.
  Proof.
    intros Hi Hl Hn Hx Hd Hsl Hk.
    destruct (inv_alloc _ _ _ _ _ _ _ x Hi) as [Hi' Hv]. cbn [alloc].
    change (mkMem (<[m_next m:=CVal x]> (m_cells m)) (m_next m + 1) (m_log m)) with (alloc (CVal x) m).2.
    set (m1 := (alloc (CVal x) m).2) in *.
    assert (m_log m1 = m_log m0) as Hl1 by done.
    assert (m_next m0 ≤ m_next m1) as Hn1 by (unfold m1; cbn; lia). clearbody m1.
    destruct b.
    - destruct (Hx eq_refl) as [Hx1 Hx2].
      destruct (inv_set handles base l (locals ++ [m_next m]) slots set m1 ans t (m_next m))
        as [[_ ->]|(m2 & -> & Hl2 & Hn2 & Hi2 & _)]; try done.
      + apply elem_of_app. right. apply elem_of_list_here.
      + by rewrite Hv.
      + intros s. rewrite Hv. intros [= E]. by destruct (Hx2 s).
      + apply NoDup_app in Hd as (_ & H & _). intros Hin. apply (H t Hin), elem_of_list_here.
      + by eapply m_stop.
      + apply Hk with (set ++ [(t, m_next m)]); [done|congruence|lia|..].
        * rewrite fmap_app, <-app_assoc. done.
        * rewrite app_length. cbn in Hsl |- *. lia.
    - by apply Hk with set.
  Qed.

  Definition later1 (o : popts) := opt (po_mitigations o) TMitigations.
  Definition later2 (o : popts) := opt (po_child o) TChild ++ later1 o.
  Definition later3 (o : popts) := opt (po_handles o) THandles ++ later2 o.

  Lemma m_mitigations_ok o locals set m :
    inv handles base l locals slots set m → m_log m = m_log m0 → m_next m0 ≤ m_next m →
    NoDup (set.*1 ++ later1 o) → slots = N.of_nat (length set + length (later1 o)) →
    ended handles base l m0 (m_mitigations ans o l locals m).2.
  Proof.
    intros Hi Hl Hn Hd Hs. unfold m_mitigations.
    refine (m_step (po_mitigations o) TMitigations _ locals set m []
      (λ m', m_create ans o l (locals ++ [m_next m]) m') _ Hi Hl Hn _ _ _ _).
    - intros ->. apply right_values. by right; right.
    - by rewrite app_nil_r.
    - by rewrite app_nil_r.
    - intros set' m' Hi' Hl' Hn' _ Hs'. eapply m_create_ok; [done..|]. cbn in Hs'. by rewrite Nat.add_0_r in Hs'.
  Qed.
  Lemma m_child_ok o locals set m :
    inv handles base l locals slots set m → m_log m = m_log m0 → m_next m0 ≤ m_next m →
    NoDup (set.*1 ++ later2 o) → slots = N.of_nat (length set + length (later2 o)) →
    ended handles base l m0 (m_child ans o l locals m).2.
  Proof.
    intros Hi Hl Hn Hd Hs. unfold m_child.
    refine (m_step (po_child o) TChild _ locals set m (later1 o)
      (λ m', m_mitigations ans o l (locals ++ [m_next m]) m') _ Hi Hl Hn _ Hd Hs _).
    - intros _. apply right_values. left. auto.
    - intros set' m' Hi' Hl' Hn' Hd' Hs'. by eapply m_mitigations_ok.
  Qed.
  Lemma m_handles_ok o locals set m :
    inv handles base l locals slots set m → m_log m = m_log m0 → m_next m0 ≤ m_next m →
    NoDup (set.*1 ++ later3 o) → slots = N.of_nat (length set + length (later3 o)) →
    ended handles base l m0 (m_handles ans handles o l locals m).2.
  Proof.
    intros Hi Hl Hn Hd Hs. unfold m_handles.
    refine (m_step (po_handles o) THandles _ locals set m (later2 o)
      (λ m', m_child ans o l (locals ++ [m_next m]) m') _ Hi Hl Hn _ Hd Hs _).
    - intros _. apply right_values. right. left. auto.
    - intros set' m' Hi' Hl' Hn' Hd' Hs'. by eapply m_child_ok.
  Qed.
End tail.

(** What one pass, and then all of them, do to the memory. *)
Definition used (handles : list N) (m m' : mem) (evs : list mevent) : Prop :=
  fresh m' ∧ m_next m ≤ m_next m' ∧ m_log m' = m_log m ++ evs ∧
  Forall (reads_well handles) evs ∧ inits evs = deletes evs ∧
  NoDup (inits evs) ∧ (∀ a, a ∈ inits evs → m_next m ≤ a < m_next m') ∧
  NoDup (sids evs) ∧ (∀ a, a ∈ sids evs → m_next m ≤ a < m_next m') ∧
  (∀ a, a ∈ sids evs → ∃ name, m_cells m' !! a = Some (CSid name)) ∧
  (∀ a, a ∉ sids evs → m_cells m' !! a = m_cells m !! a).

Lemma omap_app_ev {A} (f : mevent → option A) l1 l2 : omap f (l1 ++ l2) = omap f l1 ++ omap f l2.
Proof. induction l1 as [|e r IH]; [done|]. cbn. destruct (f e); by rewrite ?IH. Qed.
Lemma inits_app l1 l2 : inits (l1 ++ l2) = inits l1 ++ inits l2.
Proof. apply omap_app_ev. Qed.
Lemma deletes_app l1 l2 : deletes (l1 ++ l2) = deletes l1 ++ deletes l2.
Proof. apply omap_app_ev. Qed.
Lemma sids_app l1 l2 : sids (l1 ++ l2) = sids l1 ++ sids l2.
Proof. apply omap_app_ev. Qed.

Lemma used_trans handles m1 m2 m3 e1 e2 :
  used handles m1 m2 e1 → used handles m2 m3 e2 → used handles m1 m3 (e1 ++ e2).
Proof.
  intros (_ & N1 & L1 & R1 & I1 & D1 & J1 & S1 & K1 & C1 & O1)
    (F2 & N2 & L2 & R2 & I2 & D2 & J2 & S2 & K2 & C2 & O2).
  assert (∀ a, a ∈ inits e1 → a ∉ inits e2) as X.
  { intros a H1 H2. specialize (J1 a H1). specialize (J2 a H2). lia. }
  assert (∀ a, a ∈ sids e1 → a ∉ sids e2) as Y.
  { intros a H1 H2. specialize (K1 a H1). specialize (K2 a H2). lia. }
  split; [done|]. split; [lia|]. split; [by rewrite L2, L1, app_assoc|].
  split; [by apply Forall_app|]. rewrite inits_app, deletes_app, sids_app.
  split; [by rewrite I1, I2|].
  split; [by apply NoDup_app|].
  split. { intros a [H|H]%elem_of_app; [apply J1 in H|apply J2 in H]; lia. }
  split; [by apply NoDup_app|].
  split. { intros a [H|H]%elem_of_app; [apply K1 in H|apply K2 in H]; lia. }
  split.
  - intros a [H|H]%elem_of_app; [|by apply C2]. rewrite O2 by (by apply Y). by apply C1.
  - intros a [H1 H2]%not_elem_of_app. rewrite O2 by done. by apply O1.
Qed.

Lemma count_later o : (po_container o = false → po_less o = false) →
  count_opts o = N.of_nat (length ((if po_container o then [TCaps] else []) ++
    (if po_less o then [TLess] else []) ++ later3 o)).
Proof.
  destruct o as [[] [] [] [] []]; cbn; intros H; try (by vm_compute); by specialize (H eq_refl).
Qed.
Global Instance attribute_dec : EqDecision attribute.
Proof. solve_decision. Defined.
Lemma nodup_later o : NoDup ((if po_container o then [TCaps] else []) ++
    (if po_less o then [TLess] else []) ++ later3 o).
Proof.
  destruct o as [[] [] [] [] []]; apply (bool_decide_unpack _); vm_compute; exact I.
Qed.

(** The end of a pass that began with an initialised list; [s] is the SID, if there is one. *)
Lemma ended_used handles m l base (ms m' : mem) (s : list N) :
  fresh m → l = m_next m → m_log ms = m_log m ++ [MInit l] ++ map MSid s →
  m_next m < m_next ms → (length s ≤ 1)%nat →
  (∀ a, a ∈ s → m_next m ≤ a < m_next ms ∧ ∃ name, base !! a = Some (CSid name)) →
  (∀ a, a ∉ s → base !! a = m_cells m !! a) →
  ended handles base l ms m' → ∃ evs, used handles m m' evs ∧ sids evs = s.
Proof.
  intros Hf -> Hlog Hlt Hs1 Hs Hb (F & N1 & C & evs & L & R & I1 & D1 & S1).
  set (l := m_next m).
  exists ([MInit l] ++ map MSid s ++ evs ++ [MDelete l]).
  assert (sids (map MSid s) = s) as E1.
  { clear. induction s as [|a r IH]; [done|]. change (a :: sids (map MSid r) = a :: r). by rewrite IH. }
  assert (inits (map MSid s) = [] ∧ deletes (map MSid s) = []) as [E2 E3].
  { clear. induction s as [|a r [IH1 IH2]]; [done|]. cbn. done. }
  assert (sids ([MInit l] ++ map MSid s ++ evs ++ [MDelete l]) = s) as Es.
  { rewrite !sids_app, E1, S1. cbn. by rewrite !app_nil_r. }
  split; [|done]. unfold used. rewrite Es, !inits_app, !deletes_app, E2, E3, I1, D1.
  split; [done|]. split; [lia|]. split; [rewrite L, Hlog, <-!app_assoc; done|].
  split.
  { apply Forall_app. split; [by repeat constructor|]. apply Forall_app. split.
    - clear. induction s; cbn; by constructor.
    - apply Forall_app. split; [done|by repeat constructor]. }
  split; [done|]. split; [apply NoDup_singleton|].
  split. { cbn. intros a Ha. apply elem_of_list_singleton in Ha as ->. unfold l. lia. }
  split. { destruct s as [|a [|b r]]; [constructor|apply NoDup_singleton|cbn in Hs1; lia]. }
  rewrite C. split. { intros a Ha. destruct (Hs a Ha). lia. }
  split; [|done]. intros a Ha. by apply Hs.
Qed.

Lemma inv_weaken handles base l locals slots set m :
  fresh m → m_cells m !! l = Some (CList slots []) → set = [] →
  (∀ a, a ≠ l → a ∉ locals → m_cells m !! a = base !! a) →
  (∀ a, a = l ∨ a ∈ locals → base !! a = None) → l ∉ locals →
  inv handles base l locals slots set m.
Proof.
  intros Hf Hl -> Hr Hb Hn. constructor; [done..| | |by constructor].
  - intros t a H. by apply elem_of_nil in H.
  - intros t a s H. by apply elem_of_nil in H.
Qed.

Lemma used_nil handles m m' :
  fresh m' → m_next m ≤ m_next m' → m_log m' = m_log m → m_cells m' = m_cells m → used handles m m' [].
Proof.
  intros H1 H2 H3 H4. unfold used. rewrite H4, H3, app_nil_r.
  split; [done|]. split; [done|]. split; [done|]. split; [constructor|]. split; [done|].
  split; [constructor|]. split; [intros a H; by apply elem_of_nil in H|].
  split; [constructor|]. split; [intros a H; by apply elem_of_nil in H|].
  split; [intros a H; by apply elem_of_nil in H|done].
Qed.
Lemma m_pass_ok ans name handles o m :
  fresh m → ∃ evs, used handles m (m_pass ans name handles o m).2 evs ∧
    sids evs = (if a_size ans && a_init ans && po_container o && a_supported ans && a_profile ans
                then [m_next m + 3] else []).
Proof.
  intros Hf. pose proof Hf as [Hp Hnone]. unfold m_pass.
  set (o' := if po_container o then o else no_less o).
  assert (po_container o' = po_container o) as Ec by (unfold o'; destruct o as [[] ? ? ? ?]; done).
  assert (po_container o' = false → po_less o' = false) as Hless.
  { rewrite Ec. unfold o'. by intros ->. }
  pose proof (count_later o' Hless) as Hcount. pose proof (nodup_later o') as Hdup.
  rewrite <-Ec. clear Ec. clearbody o'. clear o.
  unfold list_new. destruct (a_size ans); cbn [andb].
  2: { exists []. split; [|done]. by apply used_nil. }
  cbn [alloc]. destruct (a_init ans); cbn [andb].
  2: { exists []. split; [|done]. apply used_nil; [|cbn; lia|done|].
       - split; cbn; [lia|]. intros a Ha. rewrite delete_insert by (apply Hnone; lia). apply Hnone. lia.
       - cbn. by rewrite delete_insert by (apply Hnone; lia). }
  set (l := m_next m).
  set (m2 := mkMem (<[l + 1 + 1 := CVal (VWord 1)]> (<[l + 1 := CVal (VCaps 0)]>
    (<[l := CList (count_opts o') []]> (m_cells m)))) (l + 1 + 1 + 1) (m_log m ++ [MInit l])).
  assert (fresh m2) as Hf2.
  { split; cbn; [lia|]. intros a Ha. rewrite !lookup_insert_ne by (cbn in Ha; lia). apply Hnone. cbn in Ha. lia. }
  assert (inv handles (m_cells m) l [l + 1; l + 1 + 1] (count_opts o') [] m2) as Hinv.
  { apply inv_weaken; try done.
    - cbn. rewrite !lookup_insert_ne, lookup_insert by lia. done.
    - intros a H1 H2. rewrite !not_elem_of_cons in H2. destruct H2 as (H2 & H3 & _).
      cbn. by rewrite !lookup_insert_ne.
    - intros a Ha. apply Hnone. destruct Ha as [->|Ha]; [lia|]. rewrite !elem_of_cons in Ha.
      destruct Ha as [->|[->|Ha]]; [lia|lia|by apply elem_of_nil in Ha].
    - rewrite !not_elem_of_cons. split; [lia|]. split; [lia|]. apply not_elem_of_nil. }
  cbn [alloc mlog m_cells m_next m_log]. fold m2.
  assert (m_log m2 = m_log m ++ [MInit l] ++ map MSid []) as Hl2 by done.
  assert (m_next m2 = l + 3) as Hn2 by (cbn; lia).
  assert (∀ m', ended handles (m_cells m) l m2 m' → ∃ evs, used handles m m' evs ∧ sids evs = []) as Hno.
  { intros m' He. apply (ended_used handles m l (m_cells m) m2 m' [] Hf eq_refl Hl2);
      [unfold l in Hn2; lia|cbn; lia|intros a H; by apply elem_of_nil in H|done|done]. }
  destruct (po_container o') eqn:Eo.
  2: { cbn [andb]. apply Hno. eapply m_handles_ok; [exact Hinv|done|done|..].
       - rewrite Hless in Hdup by done. done.
       - rewrite Hcount, Hless by done. done. }
  cbn [andb]. destruct (a_supported ans); cbn [andb].
  2: { apply Hno. by eapply m_stop. }
  destruct (a_profile ans); cbn [andb].
  2: { apply Hno. by eapply m_stop. }
  clear Hno. unfold store. cbn [mlog m_cells m_next m_log].
  replace (l + 1 + 1 + 1) with (l + 3) by lia. replace (l + 1 + 1) with (l + 2) in * by lia.
  match goal with |- context [list_set ans l TCaps (l + 1) ?x] => set (m3 := x) end.
  set (base := <[l + 3 := CSid name]> (m_cells m)).
  assert (fresh m3) as Hf3.
  { split; cbn; [lia|]. intros a Ha. cbn in Ha. rewrite !lookup_insert_ne by lia. apply Hnone. lia. }
  assert (inv handles base l [l + 1; l + 2] (count_opts o') [] m3) as Hinv3.
  { apply inv_weaken; try done.
    - cbn. rewrite !lookup_insert_ne, lookup_insert by lia. done.
    - intros a H1 H2. rewrite !not_elem_of_cons in H2. destruct H2 as (H2 & H3 & _).
      unfold base. cbn. rewrite lookup_insert_ne by done. destruct (decide (a = l + 3)) as [->|].
      + by rewrite !lookup_insert.
      + by rewrite !lookup_insert_ne.
    - intros a Ha. assert (a ≠ l + 3 ∧ m_next m ≤ a) as [H1 H2].
      { destruct Ha as [->|Ha]; [lia|]. rewrite !elem_of_cons in Ha.
        destruct Ha as [->|[->|Ha]]; [lia|lia|by apply elem_of_nil in Ha]. }
      unfold base. rewrite lookup_insert_ne by done. by apply Hnone.
    - rewrite !not_elem_of_cons. split; [lia|]. split; [lia|]. apply not_elem_of_nil. }
  assert (value_at m3 (l + 1) = Some (VCaps (l + 3))) as Hv3.
  { unfold value_at. cbn. by rewrite lookup_insert. }
  assert (value_at m3 (l + 2) = Some (VWord 1)) as Hw3.
  { unfold value_at. cbn. rewrite lookup_insert_ne, lookup_insert_ne, lookup_insert by lia. done. }
  assert (m_log m3 = m_log m ++ [MInit l] ++ map MSid [l + 3]) as Hl3.
  { cbn. by rewrite <-app_assoc. }
  assert (m_next m3 = l + 4) as Hn3 by (cbn; lia). clearbody m3.
  assert (∀ m', ended handles base l m3 m' → ∃ evs, used handles m m' evs ∧ sids evs = [l + 3]) as Hyes.
  { intros m' He. apply (ended_used handles m l base m3 m' [l + 3] Hf eq_refl Hl3);
      [unfold l in Hn3; lia|cbn; lia| | |done].
    - intros a H. apply elem_of_list_singleton in H as ->. split; [unfold l in *; lia|].
      exists name. unfold base. by rewrite lookup_insert.
    - intros a H. unfold base. rewrite lookup_insert_ne; [done|]. intros <-. apply H, elem_of_list_here. }
  destruct (inv_set handles base l [l + 1; l + 2] (count_opts o') [] m3 ans TCaps (l + 1))
    as [[_ ->]|(m4 & -> & Hl4 & Hn4 & Hinv4 & Ho4)]; try done.
  - apply elem_of_list_here.
  - rewrite Hv3. by eexists.
  - intros s. rewrite Hv3. intros [= <-]. exists name. unfold base. by rewrite lookup_insert.
  - apply not_elem_of_nil.
  - apply Hyes. by eapply m_stop.
  - apply Hyes. cbn [app] in Hinv4. unfold m_less. destruct (po_less o').
    + assert (value_at m4 (l + 2) = Some (VWord 1)) as Hw4.
      { rewrite <-Hw3. apply value_at_other, Ho4. lia. }
      destruct (inv_set handles base l [l + 1; l + 2] (count_opts o') [(TCaps, l + 1)] m4 ans TLess (l + 2))
        as [[_ ->]|(m5 & -> & Hl5 & Hn5 & Hinv5 & _)]; try done.
      * apply elem_of_list_further, elem_of_list_here.
      * intros s. by rewrite Hw4.
      * cbn. rewrite not_elem_of_cons. split; [done|]. apply not_elem_of_nil.
      * eapply m_stop; [exact Hinv4|done|lia].
      * eapply m_handles_ok; [exact Hinv5|congruence|lia|exact Hdup|exact Hcount].
    + eapply m_handles_ok; [exact Hinv4|done|lia|exact Hdup|exact Hcount].
Qed.

Lemma m_loop_used passes handles o m ok m' :
  fresh m → m_loop passes handles o m = Some (ok, m') → ∃ evs, used handles m m' evs.
Proof.
  revert o m. induction passes as [|[ans name] rest IH]; intros o m Hf H; [done|]. cbn in H.
  destruct (m_pass_ok ans name handles o m Hf) as (evs & Hu & _).
  destruct (m_pass ans name handles o m) as [[o1|ok1] m1].
  - cbn [snd] in Hu. destruct (IH o1 m1) as [evs' Hu']; [apply Hu|done|].
    eexists. by eapply used_trans.
  - injection H as <- <-. by exists evs.
Qed.

(** Every attribute that CreateProcess reads has its value, every list is deleted once, and all
    that stays allocated is the SIDs that the OS made with AppContainer profiles. *)
Theorem C144_partial passes handles m ok m' :
  fresh m → m_log m = [] → m_loop passes handles all_opts m = Some (ok, m') →
  Forall (reads_well handles) (m_log m') ∧
  inits (m_log m') = deletes (m_log m') ∧ NoDup (inits (m_log m')) ∧
  (∀ a, a ∉ sids (m_log m') → m_cells m' !! a = m_cells m !! a).
Proof.
  intros Hf Hl H.
  destruct (m_loop_used _ _ _ _ _ _ Hf H) as (evs & _ & _ & L & R & E & D & _ & _ & _ & _ & O).
  rewrite Hl in L. cbn in L. by rewrite L.
Qed.
Print Assumptions C144_partial.

(** None of these SIDs is freed, whether the start succeeds or not. *)
Theorem C144_sids_refuted passes handles m ok m' :
  fresh m → m_log m = [] → m_loop passes handles all_opts m = Some (ok, m') →
  NoDup (sids (m_log m')) ∧
  ∀ a, a ∈ sids (m_log m') →
    m_cells m !! a = None ∧ ∃ name, m_cells m' !! a = Some (CSid name).
Proof.
  intros Hf Hl H.
  destruct (m_loop_used _ _ _ _ _ _ Hf H) as (evs & _ & _ & L & _ & _ & _ & _ & S & K & C & _).
  rewrite Hl in L. cbn in L. rewrite L. split; [done|]. intros a Ha. split; [|by apply C].
  destruct Hf as [_ Hf]. apply Hf. by apply K.
Qed.
Print Assumptions C144_sids_refuted.

(** Where a profile can be created, each start leaves one SID behind at least. *)
Theorem C144_start_refuted ans name rest handles m ok m' :
  fresh m → m_log m = [] → a_size ans = true → a_init ans = true → a_supported ans = true →
  a_profile ans = true → m_loop ((ans, name) :: rest) handles all_opts m = Some (ok, m') →
  ∃ a, m_cells m !! a = None ∧ ∃ n, m_cells m' !! a = Some (CSid n).
Proof.
  intros Hf Hl E1 E2 E3 E4 H. exists (m_next m + 3).
  destruct (m_pass_ok ans name handles all_opts m Hf) as (evs & Hu & Hs).
  rewrite E1, E2, E3, E4 in Hs. cbn [andb all_opts po_container] in Hs. cbn [m_loop] in H.
  split; [apply Hf; lia|].
  destruct (m_pass ans name handles all_opts m) as [[o1|ok1] m1]; cbn [snd] in Hu.
  - destruct (m_loop_used _ _ _ _ _ _ (proj1 Hu) H) as (evs' & Hu').
    apply (used_trans _ _ _ _ _ _ Hu) in Hu'. destruct Hu' as (_ & _ & _ & _ & _ & _ & _ & _ & _ & C & _).
    apply C. rewrite sids_app, Hs. apply elem_of_list_here.
  - injection H as <- <-. destruct Hu as (_ & _ & _ & _ & _ & _ & _ & _ & _ & C & _).
    apply C. rewrite Hs. apply elem_of_list_here.
Qed.
Print Assumptions C144_start_refuted.

Definition exa_yes : answers := mkAns true true true true (λ _, true) true true.
Definition exa_mem : mem := mkMem ∅ 1 [].
Theorem C144_refuted : ¬ C144_full.
Proof.
  intros H. unfold C144_full in H.
  destruct (m_loop [(exa_yes, lit "IrisAppContainer_7_0")] [4; 8] all_opts exa_mem) as [[ok m']|] eqn:E;
    [|by vm_compute in E].
  assert (fresh exa_mem) as Hf by (split; [by vm_compute|done]).
  destruct (H _ _ _ _ _ Hf eq_refl E) as (_ & _ & Hc).
  destruct (C144_start_refuted exa_yes _ _ _ exa_mem _ _ Hf eq_refl eq_refl eq_refl eq_refl eq_refl E)
    as (a & Ha & n & Hn).
  rewrite Hc, Ha in Hn. done.
Qed.
Print Assumptions C144_refuted.

(** A system that refuses mitigations when it creates the process: two passes, two lists, two
    SIDs. *)
Definition exa_no_mitigations : answers := mkAns true true true true (λ _, true) false true.
Example C144_example :
  match m_loop [(exa_no_mitigations, lit "a"); (exa_yes, lit "b")] [8; 4; 8] all_opts exa_mem with
  | Some (ok, m') =>
      ok = true ∧ inits (m_log m') = [1; 8] ∧ sids (m_log m') = [4; 11] ∧
      m_cells m' !! 4 = Some (CSid (lit "a")) ∧ m_cells m' !! 11 = Some (CSid (lit "b")) ∧
      m_log m' !! 2%nat = Some (MCreate 5
        [(TCaps, Some (VCaps 4)); (TLess, Some (VWord 1)); (THandles, Some (VHandles [4; 8]));
         (TChild, Some (VWord 1)); (TMitigations, Some (VWord 0x10111305))]
        [Some (CSid (lit "a"))])
  | None => False
  end.
Proof. by vm_compute. Qed.
