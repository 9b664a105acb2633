(** Property C118: what hooking does to the memory of a Windows worker. [WinPatchModel], where
    tables are bytes in memory, does what [WinHookModel] does to tables as lists. *)
From stdpp Require Import prelude gmap.
From Coq Require Import ZifyNat.
From Verif Require Import Bytes TrampolineModel TrampolineProofs WinHookModel WinHookSpec WinHookProofs WinHookProps WinPatchModel.
Local Open Scope Z_scope.

(* ---------------------------------------------------------------- specification *)

(** The tables of a module as the loader sees them: [n] export entries of four bytes, thunks up to
    a zero, descriptors up to one without thunks or name. *)
Fixpoint read_exports (M : Z) (mem : memory) (a : Z) (n : nat) : list Z :=
  match n with O => [] | S n => of_le (load_bytes M mem a 4) :: read_exports M mem (a + 4) n end.
Fixpoint read_thunks (fuel : nat) (w : width) (mem : memory) (a : Z) : list Z :=
  match fuel with
  | O => []
  | S f =>
      let t := load w mem a in
      if decide (t = 0) then [] else t :: read_thunks f w mem (a + Z.of_nat (wbytes w))
  end.
Fixpoint read_imports (fuel : nat) (w : width) (mem : memory) (base : Z) (ds : list (Z * Z))
  : list descriptor :=
  match ds with
  | [] => []
  | (first, name) :: ds =>
      if decide (first = 0 ∨ name = 0) then []
      else mkDesc first name (read_thunks fuel w mem (base + first)) :: read_imports fuel w mem base ds
  end.
Definition read_module (fuel : nat) (w : width) (mem : memory) (m : module) : dll :=
  mkDll (md_base m)
    match md_exports m with
    | None => []
    | Some (rva, n) => read_exports (wmod w) mem (md_base m + rva) n
    end
    (read_imports fuel w mem (md_base m) (md_imports m)).

(** Where the tables are: address and number of bytes, with the zero at the end of thunks. *)
Definition export_regions (m : module) : list (Z * Z) :=
  match md_exports m with
  | None => []
  | Some (rva, n) => [(md_base m + rva, 4 * Z.of_nat n)]
  end.
Definition import_regions (w : width) (base : Z) (ds : list descriptor) : list (Z * Z) :=
  (λ d, (base + de_first_thunk d, Z.of_nat (wbytes w) * (Z.of_nat (length (de_thunks d)) + 1))) <$> ds.
Definition regions (fuel : nat) (w : width) (mem : memory) (m : module) : list (Z * Z) :=
  export_regions m ++ import_regions w (md_base m) (dl_imports (read_module fuel w mem m)).
Definition inside (x : Z) (r : Z * Z) : Prop := r.1 ≤ x < r.1 + r.2.
Global Instance inside_dec x r : Decision (inside x r).
Proof. unfold inside. apply _. Defined.
(** No byte is in two of them. *)
Fixpoint apart (rs : list (Z * Z)) : Prop :=
  match rs with
  | [] => True
  | r :: rs => (∀ r' x, r' ∈ rs → inside x r → ¬ inside x r') ∧ apart rs
  end.
Definition in_use (s : mm) (x : Z) : Prop := is_Some (mm_prot s !! page x).
(** Tables do not overlap and are in memory in use. *)
Definition tables_ok (fuel : nat) (w : width) (ms : list module) (s : mm) : Prop :=
  let rs := ms ≫= regions fuel w (mm_mem s) in
  apart rs ∧ ∀ r x, r ∈ rs → inside x r → is_addr w x ∧ in_use s x.

(* ---------------------------------------------------------------- proof *)

Lemma load4_ext M m m' a :
  (∀ x, a ≤ x < a + 4 → 0 ≤ x < M ∧ m' x = m x) → load_bytes M m' a 4 = load_bytes M m a 4.
Proof.
  intros H. apply load_bytes_ext. intros i Hi. destruct (H (a + i)) as [Hb E]; [lia|].
  by rewrite Z.mod_small.
Qed.
Lemma load_ext w m m' a :
  (∀ x, a ≤ x < a + Z.of_nat (wbytes w) → 0 ≤ x < wmod w ∧ m' x = m x) → load w m' a = load w m a.
Proof.
  intros H. unfold load. f_equal. apply load_bytes_ext. intros i Hi.
  destruct (H (a + i)) as [Hb E]; [lia|]. by rewrite Z.mod_small.
Qed.
Lemma wbytes_pos w : 0 < Z.of_nat (wbytes w).
Proof. by destruct w. Qed.

Lemma read_exports_ext M m m' n : ∀ a,
  (∀ x, inside x (a, 4 * Z.of_nat n) → 0 ≤ x < M ∧ m' x = m x) →
  read_exports M m' a n = read_exports M m a n.
Proof.
  unfold inside. cbn [fst snd].
  induction n as [|n IH]; intros a H; cbn [read_exports]; [done|]. f_equal.
  - f_equal. apply load4_ext. intros x Hx. apply H. lia.
  - apply IH. intros x Hx. apply H. lia.
Qed.
Lemma read_thunks_ext w m m' f : ∀ a,
  (∀ x, inside x (a, Z.of_nat (wbytes w) * (Z.of_nat (length (read_thunks f w m a)) + 1)) →
     0 ≤ x < wmod w ∧ m' x = m x) →
  read_thunks f w m' a = read_thunks f w m a.
Proof.
  pose proof (wbytes_pos w) as Hw. unfold inside. cbn [fst snd].
  induction f as [|f IH]; intros a H; cbn [read_thunks] in *; [done|].
  rewrite (load_ext w m m' a).
  2:{ intros x Hx. apply H. destruct (decide _); cbn [length]; nia. }
  destruct (decide _); [done|]. f_equal. apply IH. intros x Hx. apply H. cbn [length]. nia.
Qed.
Lemma read_imports_ext w m m' f base ds :
  (∀ r x, r ∈ import_regions w base (read_imports f w m base ds) → inside x r →
     0 ≤ x < wmod w ∧ m' x = m x) →
  read_imports f w m' base ds = read_imports f w m base ds.
Proof.
  induction ds as [|[first name] ds IH]; cbn [read_imports]; [done|].
  destruct (decide _); [done|]. intros H. f_equal; [f_equal|].
  - apply read_thunks_ext. intros x Hx. eapply H; [left|exact Hx].
  - apply IH. intros r x Hr. apply H. by right.
Qed.
Lemma read_module_ext w m m' f md :
  (∀ r x, r ∈ regions f w m md → inside x r → 0 ≤ x < wmod w ∧ m' x = m x) →
  read_module f w m' md = read_module f w m md.
Proof.
  intros H. unfold read_module. f_equal.
  - assert (∀ r x, r ∈ export_regions md → inside x r → 0 ≤ x < wmod w ∧ m' x = m x) as He.
    { intros r x Hr. apply H. unfold regions. apply elem_of_app. by left. }
    unfold export_regions in He. destruct (md_exports md) as [[rva n]|]; [|done].
    apply read_exports_ext. intros x. apply He. left.
  - apply read_imports_ext. intros r x Hr. apply H. unfold regions. apply elem_of_app. by right.
Qed.

(** Where the bytes of a trampoline are. *)
Definition tramp_len (w : width) : Z := match w with W64 => 14 | W32 => 5 end.

Section refine.
  Context (w : width) (env : mm_env) (code : list Z) (fuel : nat).
  Let henv := me_hooks env.
  Context (Henv : manager_ok w henv code) (Hg : 14 ≤ he_granularity henv).
  (** The bytes of all tables. *)
  Context (T : Z → Prop).

  Definition sim (s : mm) (hs : hook_state) : Prop :=
    hs_tramps hs = mm_tramps s ∧
    (∀ t, t ∈ mm_tramps s → 0 ≤ t ∧ t + 14 ≤ wmod w ∧
       (∀ x, t ≤ x < t + tramp_len w → in_use s x ∧ ¬ T x) ∧
       ∀ f, code_at w (hs_mem hs) t f → code_at w (mm_mem s) t f) ∧
    (∀ x, T x → is_addr w x ∧ in_use s x).
  (** Only the bytes in [P] and unused memory change. *)
  Definition frame (P : Z → Prop) (s s' : mm) : Prop :=
    (∀ x, in_use s x → ¬ P x → mm_mem s' x = mm_mem s x) ∧ (∀ x, in_use s x → in_use s' x).
  Lemma frame_refl P s : frame P s s.
  Proof. done. Qed.
  Lemma frame_trans P s1 s2 s3 : frame P s1 s2 → frame P s2 s3 → frame P s1 s3.
  Proof.
    intros [A1 B1] [A2 B2]. split; [|auto]. intros x Hx Hp. rewrite A2 by auto. by apply A1.
  Qed.
  Lemma frame_weaken (P Q : Z → Prop) s s' : (∀ x, P x → Q x) → frame P s s' → frame Q s s'.
  Proof. intros H [A B]. split; [|done]. intros x Hx Hq. apply A; auto. Qed.

  Lemma code_at_ext m m' t f :
    0 ≤ t → t + 14 ≤ wmod w → (∀ x, t ≤ x < t + tramp_len w → m' x = m x) →
    code_at w m t f → code_at w m' t f.
  Proof.
    intros H0 H1 H. unfold code_at. rewrite trampoline_length. intros <-.
    apply load_bytes_ext. intros i Hi. unfold tramp_len in H.
    rewrite Z.mod_small by (destruct w; lia). apply H. destruct w; lia.
  Qed.

  (** Writing to the tables. *)
  Lemma hotpatch_effect a bs s s' :
    hotpatch w env a bs s = Some s' →
    mm_mem s' = store_bytes (wmod w) (mm_mem s) a bs ∧ mm_tramps s' = mm_tramps s ∧
    ∀ x, in_use s x → in_use s' x.
  Proof.
    unfold hotpatch. destruct (negb _); [done|].
    unfold virtual_protect at 1. destruct (mm_prot s !! page a) as [old|] eqn:E; [|done].
    destruct (_ && _); [|done].
    unfold write_bytes. destruct (forallb _ _); [|done].
    set (s1 := mkMm _ _ _ _). unfold virtual_protect.
    destruct (mm_prot s1 !! page a) as [o2|]; [|done].
    destruct (forallb _ _ && me_protect env (mm_log s1) a); [|done].
    intros [= <-]. unfold s1. cbn [set_pages mm_mem mm_tramps]. split_and!; [done|done|].
    intros x. unfold in_use. cbn [set_pages mm_prot].
    assert (∀ ps p (m : gmap Z prot), is_Some (m !! page x) → is_Some (foldr (λ q, <[q := p]>) m ps !! page x)) as Hf.
    { intros ps p m Hm. induction ps as [|q ps IH]; cbn [foldr]; [done|].
      destruct (decide (q = page x)) as [->|]; [rewrite lookup_insert; eauto|by rewrite lookup_insert_ne]. }
    intros Hx. by apply Hf, Hf.
  Qed.
  Lemma hotpatch_sim a bs s s' hs :
    sim s hs → (∀ x, inside x (a, Z.of_nat (length bs)) → T x) →
    hotpatch w env a bs s = Some s' →
    sim s' hs ∧ frame (λ x, inside x (a, Z.of_nat (length bs))) s s' ∧
    mm_mem s' = store_bytes (wmod w) (mm_mem s) a bs.
  Proof.
    intros (S1 & S2 & S3) Ht E. destruct (hotpatch_effect _ _ _ _ E) as (Em & Et & Eu).
    assert (∀ x, ¬ inside x (a, Z.of_nat (length bs)) → mm_mem s' x = mm_mem s x) as Hout.
    { intros x Hx. rewrite Em. apply store_bytes_other. intros i Hi ->. apply Hx.
      assert (inside (a + i) (a, Z.of_nat (length bs))) as Hi' by (unfold inside; cbn [fst snd]; lia).
      destruct (S3 _ (Ht _ Hi')) as [Ha _]. by rewrite Z.mod_small. }
    split; [|split; [split; [auto|done]|done]]. split_and!.
    - by rewrite Et.
    - intros t. rewrite Et. intros Hin. destruct (S2 t Hin) as (A & B & C & D). split_and!; [done|done| |].
      + intros x Hx. destruct (C x Hx). auto.
      + intros f Hc. eapply code_at_ext; [done|done| |by apply D]. intros x Hx. apply Hout.
        intros Hi. destruct (C x Hx) as [_ Hn]. by apply Hn, Ht.
    - intros x Hx. destruct (S3 x Hx). auto.
  Qed.

  (** Placing a trampoline. *)
  Lemma in_pages t n x : t ≤ x < t + n → page x ∈ pages t n.
  Proof.
    intros Hx. unfold pages. apply elem_of_seqZ. unfold page.
    assert (t / PAGE ≤ x / PAGE) by (apply Z.div_le_mono; [done|lia]).
    assert (x / PAGE ≤ (t + n - 1) / PAGE) by (apply Z.div_le_mono; [done|lia]). lia.
  Qed.
  Lemma foldr_set_lookup (ps : list Z) (p : prot) (m : gmap Z prot) q :
    is_Some (foldr (λ q, <[q := p]>) m ps !! q) ↔ q ∈ ps ∨ is_Some (m !! q).
  Proof.
    induction ps as [|y ps IH]; cbn [foldr].
    - split; [by right|]. intros [H|H]; [by apply elem_of_nil in H|done].
    - rewrite elem_of_cons. destruct (decide (y = q)) as [->|].
      + rewrite lookup_insert. split; [by left; left|eauto].
      + rewrite lookup_insert_ne by done. rewrite IH. naive_solver.
  Qed.
  Lemma new_trampoline_sim base new s hs t s' :
    sim s hs → new_trampoline fuel w env base new s = Some (t, s') →
    let hs' := mkHs (write_trampoline w (hs_mem hs) t new) (hs_tramps hs ++ [t]) in
    find_hole fuel henv (hs_tramps hs) (align_up base (he_granularity henv)) 0 = Some t ∧
    sim s' hs' ∧ frame (λ _, False) s s'.
  Proof.
    intros (S1 & S2 & S3). unfold new_trampoline. fold henv. rewrite S1.
    set (g := he_granularity henv) in *.
    destruct (find_hole _ _ _ _ _) as [t0|] eqn:Eh; [|done].
    destruct (find_hole_spec w henv code Henv _ _ _ _ _ ltac:(done) Eh) as (_ & [sz Hq] & _).
    destruct Henv as (_ & Hfree & _). destruct (Hfree _ _ _ Hq) as (T0 & T1 & _ & Tc).
    unfold virtual_alloc. destruct (forallb _ _) eqn:Ef; [|done]. rewrite forallb_forall in Ef.
    assert (∀ x, t0 ≤ x < t0 + g → ¬ in_use s x) as Hun.
    { intros x Hx [p Hp]. pose proof (in_pages _ _ _ Hx) as Hi. apply elem_of_list_In, Ef in Hi.
      apply bool_decide_eq_true in Hi. congruence. }
    clear Ef. unfold write_bytes. destruct (forallb _ _); [|done].
    unfold virtual_protect. destruct (_ !! page t0) as [old|]; [|done]. destruct (_ && _); [|done].
    destruct (me_flush env); [|done]. intros [= <- <-]. split; [done|].
    cbn [set_pages mm_mem mm_prot mm_log mm_tramps].
    assert (tramp_len w ≤ 14 ∧ tramp_len w = Z.of_nat (length (trampoline w t0 new))) as [Hl14 Hl].
    { rewrite trampoline_length. by destruct w. }
    assert (∀ m x, ¬ (t0 ≤ x < t0 + tramp_len w) → store_bytes (wmod w) m t0 (trampoline w t0 new) x = m x) as Hout.
    { intros m x Hx. apply store_bytes_other. rewrite <-Hl. intros i Hi ->. apply Hx.
      rewrite Z.mod_small; lia. }
    set (s' := mkMm _ _ _ _).
    assert (∀ x, in_use s' x ↔ page x ∈ pages t0 g ∨ in_use s x) as Huse.
    { intros x. unfold in_use, s'. cbn [mm_prot]. rewrite !foldr_set_lookup. naive_solver. }
    assert (∀ x, in_use s x → mm_mem s' x = mm_mem s x) as Hsame.
    { intros x Hx. unfold s'. cbn [mm_mem]. apply Hout. intros Hr. apply (Hun x); [lia|done]. }
    split; [split_and!|split].
    - unfold s'. cbn [hs_tramps mm_tramps]. done.
    - intros t Ht. unfold s' in Ht. cbn [mm_tramps] in Ht. apply elem_of_app in Ht as [Ht|Ht].
      + destruct (S2 t Ht) as (A & B & C & D). split_and!; [done|done| |].
        * intros x Hx. destruct (C x Hx) as [? ?]. split; [|done]. apply Huse. by right.
        * intros f Hc. cbn [hs_mem] in Hc. eapply code_at_ext; [done|done| |apply D].
          -- intros x Hx. apply Hsame. by apply C.
          -- eapply code_at_ext; [done|done| |exact Hc]. intros x Hx. unfold write_trampoline.
             symmetry. apply Hout. destruct (Tc t Ht); lia.
      + apply elem_of_list_singleton in Ht as ->. split_and!; [done|done| |].
        * intros x Hx. split.
          -- apply Huse. left. apply in_pages. lia.
          -- intros HT. destruct (S3 x HT) as [_ Hu]. apply (Hun x); [lia|done].
        * intros f. cbn [hs_mem]. unfold code_at. rewrite trampoline_length.
          intros <-. unfold s'. cbn [mm_mem]. unfold write_trampoline.
          assert (length (trampoline w t0 new) = match w with W64 => 14%nat | W32 => 5%nat end) as <- by apply trampoline_length.
          rewrite !load_store_bytes; [done|rewrite trampoline_length; by destruct w..].
    - intros x Hx. destruct (S3 x Hx). split; [done|]. apply Huse. by right.
    - intros x Hx _. by apply Hsame.
    - intros x Hx. apply Huse. by right.
  Qed.

  Lemma exports_refine base orig new n : ∀ a tramp s hs s',
    sim s hs → (∀ x, inside x (a, 4 * Z.of_nat n) → T x) →
    mem_exports fuel w env base orig new a n tramp s = Some s' →
    ∃ hs', patch_exports fuel w henv base orig new (read_exports (wmod w) (mm_mem s) a n) tramp hs
             = Some (read_exports (wmod w) (mm_mem s') a n, hs') ∧
      sim s' hs' ∧ frame (λ x, inside x (a, 4 * Z.of_nat n)) s s'.
  Proof.
    induction n as [|n IH]; intros a tramp s hs s' Hs HT; cbn [mem_exports read_exports patch_exports].
    { intros [= <-]. eauto using frame_refl. }
    assert (∀ x, inside x (a, 4) → inside x (a, 4 * Z.of_nat (S n))) as Hin4 by (unfold inside; cbn [fst snd]; lia).
    assert (∀ x, inside x (a + 4, 4 * Z.of_nat n) → inside x (a, 4 * Z.of_nat (S n)) ∧ ¬ inside x (a, 4)) as Hinr
      by (unfold inside; cbn [fst snd]; lia).
    assert (∀ s1 s2, sim s1 hs ∨ (∃ h, sim s1 h) → frame (λ x, inside x (a + 4, 4 * Z.of_nat n)) s1 s2 →
              load_bytes (wmod w) (mm_mem s2) a 4 = load_bytes (wmod w) (mm_mem s1) a 4) as Hkeep.
    { intros s1 s2 Hss [Hf _]. apply load4_ext. intros x Hx.
      assert (T x) as HTx by (apply HT, Hin4; done).
      assert (is_addr w x ∧ in_use s1 x) as [Ha Hu] by (destruct Hss as [(_ & _ & S3)|[h (_ & _ & S3)]]; by apply S3).
      split; [done|]. apply Hf; [done|]. unfold inside in *. cbn [fst snd] in *. lia. }
    destruct (decide (base + _ = orig)) as [Ho|Ho].
    - set (r := if decide (base < new ∧ new - base < 2 ^ 32) then _ else _).
      assert (∀ v tr s1, r = Some (v, tr, s1) → ∃ hs1,
        hook_rva fuel w henv base new tramp hs = Some (v, tr, hs1) ∧ sim s1 hs1 ∧
        frame (λ _, False) s s1 ∧ 0 ≤ v < 2 ^ 32) as Hr.
      { intros v tr s1. unfold r, hook_rva. destruct (decide _).
        { intros [= <- <- <-]. exists hs. split_and!; [done|done|apply frame_refl|lia|lia]. }
        assert (∀ z, 0 ≤ z mod 2 ^ 32 < 2 ^ 32) as Hz by (intros z; by apply Z.mod_pos_bound).
        destruct tramp as [t|].
        { intros [= <- <- <-]. exists hs. split_and!; [done|done|apply frame_refl|apply Hz|apply Hz]. }
        destruct (new_trampoline _ _ _ _ _ _) as [[t s2]|] eqn:Et; [|done]. intros [= <- <- <-].
        destruct (new_trampoline_sim _ _ _ _ _ _ Hs Et) as (H1 & H2 & H3). rewrite H1.
        eexists. split_and!; [done|done|done|apply Hz|apply Hz]. }
      clearbody r. destruct r as [[[v tr] s1]|]; [|done].
      destruct (Hr _ _ _ eq_refl) as (hs1 & E1 & Hs1 & Hf1 & Hv). clear Hr. rewrite E1.
      destruct (hotpatch w env a (le_bytes 4 v) s1) as [s2|] eqn:Eh; [|done]. intros En.
      destruct (hotpatch_sim a (le_bytes 4 v) s1 s2 hs1 Hs1) as (Hs2 & Hf2 & Em2); [|done|].
      { rewrite le_bytes_length. intros x Hx. apply HT, Hin4, Hx. }
      rewrite le_bytes_length in Hf2.
      destruct (IH (a + 4) tr s2 hs1 s' Hs2) as (hs' & E2 & Hs' & Hf'); [|done|].
      { intros x Hx. apply HT. by apply Hinr. }
      assert (read_exports (wmod w) (mm_mem s2) (a + 4) n = read_exports (wmod w) (mm_mem s) (a + 4) n) as Erest.
      { apply read_exports_ext. intros x Hx. destruct (Hinr x Hx) as [H1 H2].
        destruct Hs as (_ & _ & S3). destruct (S3 x (HT x H1)) as [Ha Hu]. split; [done|].
        destruct Hf1 as [F1 F1'], Hf2 as [F2 _]. rewrite F2; [by apply F1; [|intros []]|by apply F1'|done]. }
      rewrite <-Erest, E2. exists hs'. split_and!; [|done|].
      + do 3 f_equal. rewrite (Hkeep s2 s'); [|eauto|done]. rewrite Em2.
        pose proof (load_store_bytes (wmod w) (mm_mem s1) a (le_bytes 4 v)) as Hl.
        rewrite le_bytes_length in Hl. rewrite Hl by (by destruct w). rewrite of_le_bytes.
        symmetry. by apply Z.mod_small.
      + eapply frame_trans; [eapply frame_weaken; [|exact Hf1]; intros x []|].
        eapply frame_trans; [eapply frame_weaken; [|exact Hf2]; apply Hin4|].
        eapply frame_weaken; [|exact Hf']. intros x Hx. by apply Hinr.
    - intros En. destruct (IH (a + 4) tramp s hs s' Hs) as (hs' & E2 & Hs' & Hf'); [|done|].
      { intros x Hx. apply HT. by apply Hinr. }
      rewrite E2. exists hs'. split_and!; [|done|].
      + do 3 f_equal. f_equal. symmetry. apply Hkeep; [by left|done].
      + eapply frame_weaken; [|exact Hf']. intros x Hx. by apply Hinr.
  Qed.

  Context (orig new : Z) (Hnew : is_addr w new) (Hnz : new ≠ 0).

  Lemma thunks_refine f : ∀ a s hs s',
    let r m := (a, Z.of_nat (wbytes w) * (Z.of_nat (length (read_thunks f w m a)) + 1)) in
    sim s hs → (∀ x, inside x (r (mm_mem s)) → T x) →
    mem_thunks f w env orig new a s = Some s' →
    read_thunks f w (mm_mem s') a = patch_thunks orig new (read_thunks f w (mm_mem s) a) ∧
    sim s' hs ∧ frame (λ x, inside x (r (mm_mem s))) s s'.
  Proof.
    pose proof (wbytes_pos w) as Hw. remember (Z.of_nat (wbytes w)) as wb eqn:Ewb.
    induction f as [|f IH]; intros a s hs s' r Hs HT; cbn [mem_thunks]; [done|].
    unfold r in *. clear r. cbn [read_thunks] in *. rewrite <-!Ewb in *.
    destruct (decide (load w (mm_mem s) a = 0)) as [E0|E0].
    { intros [= <-]. rewrite decide_True by done. eauto using frame_refl. }
    cbn [patch_thunks length] in *. set (L := length (read_thunks f w (mm_mem s) (a + wb))) in *.
    rewrite (decide_False (P := load w (mm_mem s) a = 0)) by done.
    set (big := (a, wb * (Z.of_nat (S L) + 1))) in *.
    assert (∀ x, inside x (a, wb) → inside x big) as Hin1 by (unfold inside, big; cbn [fst snd]; nia).
    assert (∀ x, inside x (a + wb, wb * (Z.of_nat L + 1)) → inside x big ∧ ¬ inside x (a, wb)) as Hinr
      by (unfold inside, big; cbn [fst snd]; nia).
    set (c := if decide (load w (mm_mem s) a = orig) then new else load w (mm_mem s) a).
    set (q := if decide (load w (mm_mem s) a = orig) then hotpatch _ _ _ _ _ else _).
    assert (∀ s1, q = Some s1 → sim s1 hs ∧ frame (λ x, inside x (a, wb)) s s1 ∧ load w (mm_mem s1) a = c) as Hq.
    { intros s1. unfold q, c. destruct (decide (load w (mm_mem s) a = orig)).
      - intros Eh. destruct (hotpatch_sim a (le_bytes (wbytes w) new) s s1 hs Hs) as (H1 & H2 & H3); [|done|].
        + rewrite le_bytes_length, <-Ewb. intros x Hx. by apply HT, Hin1.
        + rewrite le_bytes_length, <-Ewb in H2. split; [done|]. split; [done|]. rewrite H3. fold (store w (mm_mem s) a new).
          rewrite load_store_same. by apply Z.mod_small.
      - intros [= <-]. split; [done|]. split; [apply frame_refl|done]. }
    clearbody q. destruct q as [s1|]; [|done]. destruct (Hq _ eq_refl) as (Hs1 & Hf1 & Hl1). clear Hq.
    intros En.
    assert (read_thunks f w (mm_mem s1) (a + wb) = read_thunks f w (mm_mem s) (a + wb)) as Erest.
    { apply read_thunks_ext. rewrite <-Ewb. fold L. intros x Hx. destruct (Hinr x Hx) as [H1 H2].
      destruct Hs as (_ & _ & S3). destruct (S3 x (HT x H1)). split; [done|]. by apply Hf1. }
    destruct (IH (a + wb) s1 hs s' Hs1) as (H1 & H2 & H3); [|done|].
    { rewrite Erest. fold L. intros x Hx. by apply HT, Hinr. }
    rewrite Erest in H1, H3. fold L in H3.
    assert (load w (mm_mem s') a = c) as Hc.
    { rewrite <-Hl1. apply load_ext. rewrite <-Ewb. intros x Hx.
      assert (T x) as HTx by (apply HT, Hin1; done).
      destruct Hs1 as (_ & _ & S3). destruct (S3 x HTx). split; [done|].
      apply H3; [done|]. unfold inside. cbn [fst snd]. lia. }
    split; [|split; [done|]].
    - rewrite Hc. rewrite decide_False; [by rewrite H1|]. unfold c. by destruct (decide _).
    - eapply frame_trans; [eapply frame_weaken; [|exact Hf1]; apply Hin1|].
      eapply frame_weaken; [|exact H3]. intros x Hx. by apply Hinr.
  Qed.

  Definition within (rs : list (Z * Z)) (x : Z) : Prop := ∃ r, r ∈ rs ∧ inside x r.

  Lemma imports_refine base ds : ∀ s hs s',
    let rs := import_regions w base (read_imports fuel w (mm_mem s) base ds) in
    sim s hs → apart rs → (∀ x, within rs x → T x) →
    mem_imports fuel w env orig new base ds s = Some s' →
    read_imports fuel w (mm_mem s') base ds = patch_imports orig new (read_imports fuel w (mm_mem s) base ds) ∧
    sim s' hs ∧ frame (within rs) s s'.
  Proof.
    induction ds as [|[first name] ds IH]; intros s hs s' rs Hs Ha HT; cbn [mem_imports].
    { intros [= <-]. eauto using frame_refl. }
    unfold rs in *. clear rs. cbn [read_imports] in *.
    destruct (decide (first = 0 ∨ name = 0)) as [Hd|Hd].
    { intros [= <-]. eauto using frame_refl. }
    cbn [import_regions fmap list_fmap de_first_thunk de_thunks apart] in Ha, HT |- *.
    fold (import_regions w base (read_imports fuel w (mm_mem s) base ds)) in *.
    set (r0 := (base + first, _)) in *. destruct Ha as [Ha0 Ha].
    destruct (mem_thunks _ _ _ _ _ _ _) as [s1|] eqn:Et; [|done]. intros En.
    assert (∀ x, inside x r0 → within (r0 :: import_regions w base (read_imports fuel w (mm_mem s) base ds)) x) as W0.
    { intros x Hx. exists r0. split; [left|done]. }
    assert (∀ x, within (import_regions w base (read_imports fuel w (mm_mem s) base ds)) x →
      within (r0 :: import_regions w base (read_imports fuel w (mm_mem s) base ds)) x ∧ ¬ inside x r0) as W1.
    { intros x (r & Hr & Hx). split; [exists r; split; [by right|done]|]. intros H0. by apply (Ha0 r x). }
    destruct (thunks_refine fuel (base + first) s hs s1 Hs) as (H1 & H2 & H3); [|done|].
    { intros x Hx. by apply HT, W0. }
    fold r0 in H3.
    assert (read_imports fuel w (mm_mem s1) base ds = read_imports fuel w (mm_mem s) base ds) as Erest.
    { apply read_imports_ext. intros r x Hr Hx. destruct (W1 x) as [X1 X2]; [by exists r|].
      destruct Hs as (_ & _ & S3). destruct (S3 x (HT x X1)). split; [done|]. by apply H3. }
    destruct (IH s1 hs s' H2) as (H4 & H5 & H6); [by rewrite Erest| |done|].
    { rewrite Erest. intros x Hx. by apply HT, W1. }
    rewrite Erest in H4, H6.
    assert (read_thunks fuel w (mm_mem s') (base + first) = read_thunks fuel w (mm_mem s1) (base + first)) as Ek.
    { apply read_thunks_ext. intros x Hx. rewrite H1, patch_thunks_length in Hx. fold r0 in Hx.
      destruct H2 as (_ & _ & S3). destruct (S3 x (HT x (W0 x Hx))). split; [done|].
      apply H6; [done|]. intros (r & Hr & Hxr). by apply (Ha0 r x). }
    split_and!; [|done|].
    - cbn [patch_imports de_first_thunk de_name de_thunks]. rewrite decide_False by done. by rewrite Ek, H1, H4.
    - eapply frame_trans; [eapply frame_weaken; [|exact H3]; apply W0|].
      eapply frame_weaken; [|exact H6]. intros x Hx. by apply W1.
  Qed.

  Lemma apart_app l k : apart (l ++ k) ↔ apart l ∧ apart k ∧ ∀ r r' x, r ∈ l → r' ∈ k → inside x r → ¬ inside x r'.
  Proof.
    induction l as [|r l IH]; cbn [app apart].
    { split; [intros H; split_and!; [done|done|by intros ??? ?%elem_of_nil]|by intros (_ & H & _)]. }
    rewrite IH. setoid_rewrite elem_of_app. setoid_rewrite elem_of_cons. naive_solver.
  Qed.

  Lemma patch_imports_regions base ds :
    import_regions w base (patch_imports orig new ds) = import_regions w base ds.
  Proof.
    induction ds as [|d ds IH]; cbn [patch_imports]; [done|]. destruct (decide _); [done|].
    cbn [import_regions fmap list_fmap de_first_thunk de_thunks]. rewrite patch_thunks_length.
    f_equal. exact IH.
  Qed.

  Lemma module_refine m s hs s1 s2 :
    let rs := regions fuel w (mm_mem s) m in
    sim s hs → apart rs → (∀ x, within rs x → T x) →
    match md_exports m with
    | None => Some s
    | Some (rva, n) => mem_exports fuel w env (md_base m) orig new (md_base m + rva) n None s
    end = Some s1 →
    mem_imports fuel w env orig new (md_base m) (md_imports m) s1 = Some s2 →
    let d := read_module fuel w (mm_mem s) m in
    ∃ rvas hs', patch_exports fuel w henv (dl_base d) orig new (dl_exports d) None hs = Some (rvas, hs') ∧
      read_module fuel w (mm_mem s2) m = mkDll (dl_base d) rvas (patch_imports orig new (dl_imports d)) ∧
      sim s2 hs' ∧ frame (within rs) s s2 ∧ regions fuel w (mm_mem s2) m = rs.
  Proof.
    intros rs Hs Ha HT E1 E2 d. unfold rs, regions in Ha, HT |- *. cbn [read_module dl_imports] in *.
    apply apart_app in Ha as (_ & Ha & Hx).
    set (ir := import_regions w (md_base m) (read_imports fuel w (mm_mem s) (md_base m) (md_imports m))) in *.
    assert (∃ hs1, patch_exports fuel w henv (dl_base d) orig new (dl_exports d) None hs =
              Some (dl_exports (read_module fuel w (mm_mem s1) m), hs1) ∧
            sim s1 hs1 ∧ frame (within (export_regions m)) s s1) as (hs1 & P1 & Hs1 & Hf1).
    { unfold d. cbn [read_module dl_base dl_exports]. unfold export_regions in HT |- *.
      destruct (md_exports m) as [[rva n]|].
      - destruct (exports_refine (md_base m) orig new n (md_base m + rva) None s hs s1 Hs) as (h & A & B & C); [|done|].
        + intros x Hi. apply HT. eexists. split; [left|exact Hi].
        + exists h. split_and!; [done|done|]. eapply frame_weaken; [|exact C]. intros x Hi. eexists. split; [left|exact Hi].
      - injection E1 as <-. exists hs. split_and!; [done|done|apply frame_refl]. }
    assert (∀ x, within (export_regions m) x → within (export_regions m ++ ir) x) as We.
    { intros x (r & Hr & Hi). exists r. split; [apply elem_of_app; by left|done]. }
    assert (∀ x, within ir x → within (export_regions m ++ ir) x) as Wi.
    { intros x (r & Hr & Hi). exists r. split; [apply elem_of_app; by right|done]. }
    assert (read_imports fuel w (mm_mem s1) (md_base m) (md_imports m) =
            read_imports fuel w (mm_mem s) (md_base m) (md_imports m)) as Ei.
    { apply read_imports_ext. fold ir. intros r x Hr Hi.
      destruct Hs as (_ & _ & S3). destruct (S3 x) as [? ?]; [by apply HT, Wi; exists r|]. split; [done|].
      apply Hf1; [done|]. intros (r' & Hr' & Hi'). by apply (Hx r' r x). }
    destruct (imports_refine (md_base m) (md_imports m) s1 hs1 s2 Hs1) as (P2 & Hs2 & Hf2); [by rewrite Ei| |done|].
    { rewrite Ei. fold ir. intros x Hi. by apply HT, Wi. }
    rewrite Ei in P2, Hf2. fold ir in Hf2.
    eexists _, hs1. split; [exact P1|]. split_and!.
    - unfold read_module at 1. rewrite P2. unfold d. cbn [read_module dl_base dl_imports]. f_equal.
      unfold read_module. cbn [dl_exports]. unfold export_regions in *. destruct (md_exports m) as [[rva n]|]; [|done].
      apply read_exports_ext. intros x Hi. destruct Hs1 as (_ & _ & S3).
      destruct (S3 x) as [? ?]; [apply HT, We; eexists; split; [left|exact Hi]|]. split; [done|].
      apply Hf2; [done|]. intros (r' & Hr' & Hi'). eapply (Hx _ r' x); [left|done|exact Hi|done].
    - done.
    - eapply frame_trans; [eapply frame_weaken; [|exact Hf1]; apply We|].
      eapply frame_weaken; [|exact Hf2]. apply Wi.
    - f_equal. rewrite P2. apply patch_imports_regions.
  Qed.

  Lemma modules_refine ms : ∀ s hs s',
    let rs := ms ≫= regions fuel w (mm_mem s) in
    sim s hs → apart rs → (∀ x, within rs x → T x) →
    mem_modules fuel w env orig new ms s = Some s' →
    ∃ hs', patch_dlls fuel w henv orig new (read_module fuel w (mm_mem s) <$> ms) hs =
             Some (read_module fuel w (mm_mem s') <$> ms, hs') ∧
      sim s' hs' ∧ frame (within rs) s s' ∧ ms ≫= regions fuel w (mm_mem s') = rs.
  Proof.
    induction ms as [|m ms IH]; intros s hs s' rs Hs Ha HT; cbn [mem_modules].
    { intros [= <-]. exists hs. split_and!; [done|done|apply frame_refl|done]. }
    unfold rs in *. clear rs. cbn [mbind list_bind] in *.
    fold (mbind (M := list) (regions fuel w (mm_mem s)) ms) in *.
    apply apart_app in Ha as (Ha1 & Ha2 & Hx).
    destruct (match md_exports m with None => _ | _ => _ end) as [s1|] eqn:E1; [|done].
    destruct (mem_imports _ _ _ _ _ _ _ _) as [s2|] eqn:E2; [|done]. intros En.
    set (r1 := regions fuel w (mm_mem s) m) in *.
    set (r2 := ms ≫= regions fuel w (mm_mem s)) in *.
    assert (∀ x, within r1 x → within (r1 ++ r2) x) as W1.
    { intros x (r & Hr & Hi). exists r. split; [apply elem_of_app; by left|done]. }
    assert (∀ x, within r2 x → within (r1 ++ r2) x) as W2.
    { intros x (r & Hr & Hi). exists r. split; [apply elem_of_app; by right|done]. }
    destruct (module_refine m s hs s1 s2 Hs Ha1) as (rvas & hs1 & P1 & P2 & Hs2 & Hf2 & R2); [|done|done|].
    { intros x Hi. by apply HT, W1. }
    fold r1 in Hf2, R2.
    assert (∀ m', m' ∈ ms → read_module fuel w (mm_mem s2) m' = read_module fuel w (mm_mem s) m') as Erest.
    { intros m' Hm'. apply read_module_ext. intros r x Hr Hi.
      assert (r ∈ r2) as Hr2 by (apply elem_of_list_bind; by exists m').
      destruct Hs as (_ & _ & S3). destruct (S3 x) as [? ?]; [by apply HT, W2; exists r|]. split; [done|].
      apply Hf2; [done|]. intros (r' & Hr' & Hi'). by apply (Hx r' r x). }
    assert (read_module fuel w (mm_mem s2) <$> ms = read_module fuel w (mm_mem s) <$> ms) as Ef.
    { apply list_fmap_ext. intros i m' Hm'. by apply Erest, elem_of_list_lookup_2 with i. }
    assert (ms ≫= regions fuel w (mm_mem s2) = r2) as Er.
    { unfold r2. clear -Erest. induction ms as [|m' ms IH]; [done|]. cbn [mbind list_bind]. f_equal.
      - unfold regions. rewrite Erest; [done|left].
      - apply IH. intros m'' H. apply Erest. by right. }
    destruct (IH s2 hs1 s' Hs2) as (hs' & P3 & Hs' & Hf' & R3); [by rewrite Er| |done|].
    { rewrite Er. intros x Hi. by apply HT, W2. }
    rewrite Er in Hf', R3. exists hs'.
    assert (read_module fuel w (mm_mem s') m = read_module fuel w (mm_mem s2) m) as Em.
    { apply read_module_ext. rewrite R2. intros r x Hr Hi. destruct Hs2 as (_ & _ & S3).
      destruct (S3 x) as [? ?]; [by apply HT, W1; exists r|]. split; [done|].
      apply Hf'; [done|]. intros (r' & Hr' & Hi'). by apply (Hx r r' x). }
    split_and!; [|done| |].
    - cbn [fmap list_fmap patch_dlls]. rewrite P1. fold (fmap (M := list) (read_module fuel w (mm_mem s)) ms).
      rewrite <-Ef, P3. by rewrite Em, P2.
    - eapply frame_trans; [eapply frame_weaken; [|exact Hf2]; apply W1|].
      eapply frame_weaken; [|exact Hf']. apply W2.
    - cbn [mbind list_bind]. f_equal; [|exact R3]. rewrite <-R2. unfold regions. by rewrite Em.
  Qed.
End refine.

Lemma read_exports_lookup M mem n : ∀ a e, (e < n)%nat →
  read_exports M mem a n !! e = Some (of_le (load_bytes M mem (a + 4 * Z.of_nat e) 4)).
Proof.
  induction n as [|n IH]; intros a e He; [lia|]. cbn [read_exports]. destruct e as [|e]; cbn [lookup list_lookup].
  - by replace (a + 4 * Z.of_nat 0) with a by lia.
  - fold (read_exports M mem (a + 4) n !! e). rewrite IH by lia. do 3 f_equal. lia.
Qed.
Lemma read_exports_length M mem n : ∀ a, length (read_exports M mem a n) = n.
Proof. induction n as [|n IH]; intros a; cbn [read_exports length]; [done|]. by rewrite IH. Qed.

Lemma hooks_refine w env code fuel T ki k ms : manager_ok w (me_hooks env) code →
  14 ≤ he_granularity (me_hooks env) → ms !! ki = Some k → ∀ hooks s hs s',
  let rs := ms ≫= regions fuel w (mm_mem s) in
  (∀ h, h ∈ hooks → is_addr w h.2 ∧ h.2 ≠ 0 ∧
     ∃ rva n, md_exports k = Some (rva, n) ∧ (h.1 < n)%nat) →
  sim w T s hs → apart rs → (∀ x, within rs x → T x) →
  mem_hook fuel w env k hooks ms s = Some s' →
  ∃ hs', hook_functions fuel w (me_hooks env) ki hooks (read_module fuel w (mm_mem s) <$> ms) hs =
           Some (read_module fuel w (mm_mem s') <$> ms, hs') ∧
    sim w T s' hs' ∧ frame (within rs) s s'.
Proof.
  intros Henv Hg Hk. induction hooks as [|[e new] hooks IH]; intros s hs s' rs Hh Hs Ha HT.
  { intros [= <-]. exists hs. split; [done|]. split; [done|apply frame_refl]. }
  cbn [mem_hook hook_functions]. destruct (Hh (e, new)) as (Hn & Hnz & rva & n & Ek & He); [left|].
  cbn [fst snd] in *. rewrite Ek. unfold hook_function, get_proc.
  rewrite list_lookup_fmap, Hk. cbn [fmap option_fmap option_map read_module dl_exports dl_base].
  rewrite Ek, read_exports_lookup by done.
  destruct (mem_modules _ _ _ _ _ _ _) as [s1|] eqn:E1; [|done]. intros En.
  destruct (modules_refine w env code fuel Henv Hg T _ new Hn Hnz ms s hs s1 Hs Ha HT E1) as (hs1 & P1 & Hs1 & Hf1 & R1).
  fold (read_module fuel w (mm_mem s)). rewrite P1. fold rs in Hf1, R1.
  destruct (IH s1 hs1 s') as (hs' & P2 & Hs' & Hf'); [|done|by rewrite R1|by rewrite R1|done|].
  { intros h Hin. apply Hh. by right. }
  rewrite R1 in Hf'. exists hs'. split; [done|]. split; [done|]. by eapply frame_trans.
Qed.

(* ---------------------------------------------------------------- C118 *)

(** After hooking, the tables in memory have every entry for a hooked function, and only those,
    lead to its hook, and no other byte of memory in use has changed. As in C94 there must be room
    for trampolines. *)
Theorem C118_memory : ∀ w env fuel ki k hooks os ms s s',
  manager_ok w (me_hooks env) os → 14 ≤ he_granularity (me_hooks env) →
  mm_tramps s = [] → tables_ok fuel w ms s → ms !! ki = Some k →
  let ds := read_module fuel w (mm_mem s) <$> ms in
  (w = W64 → ∀ d e o, d ∈ ds → o ∈ os → export_at d e o →
     room (me_hooks env) (length hooks * length ds) (dl_base d)) →
  Forall (dll_ok w) ds → Forall2 (λ h o, get_proc ds ki h.1 = Some o) hooks os → NoDup os →
  (∀ o, o ∈ os → o ≠ 0) → (∀ h, h ∈ hooks → is_addr w h.2 ∧ h.2 ≠ 0 ∧ h.2 ∉ os) →
  mem_hook fuel w env k hooks ms s = Some s' →
  Forall2 (redirected w (mm_mem s') (zip os hooks.*2)) ds (read_module fuel w (mm_mem s') <$> ms) ∧
  ∀ x, in_use s x → mm_mem s' x ≠ mm_mem s x →
    ∃ m r, m ∈ ms ∧ r ∈ regions fuel w (mm_mem s) m ∧ inside x r.
Proof.
  intros w env fuel ki k hooks os ms s s' Henv Hg Htr [Hap Htab] Hk ds Hroom Hds Hos Hnd Hz Hh E.
  set (rs := ms ≫= regions fuel w (mm_mem s)) in *.
  assert (sim w (within rs) s (mkHs (mm_mem s) [])) as Hs.
  { split; [by rewrite Htr|]. split; [rewrite Htr; by intros t ?%elem_of_nil|].
    intros x (r & Hr & Hx). by eapply Htab. }
  destruct (hooks_refine w env os fuel (within rs) ki k ms Henv Hg Hk hooks s (mkHs (mm_mem s) []) s')
    as (hs' & P & (S1 & S2 & S3) & [Hf _]); [|done|done|done|done|].
  { intros h Hin. destruct (Hh h Hin) as (A & B & _). split; [done|]. split; [done|].
    apply elem_of_list_lookup in Hin as [i Hi].
    destruct (Forall2_lookup_l _ _ _ _ _ Hos Hi) as (o & _ & Ho). unfold get_proc, ds in Ho.
    rewrite list_lookup_fmap, Hk in Ho. cbn [fmap option_fmap option_map read_module dl_exports] in Ho.
    destruct (md_exports k) as [[rva n]|]; [|done]. exists rva, n. split; [done|].
    destruct (_ !! h.1) eqn:El in Ho; [|done]. apply lookup_lt_Some in El. by rewrite read_exports_length in El. }
  split.
  - eapply (hook_functions_spec w (me_hooks env) os fuel ki (length hooks * length ds) Henv) in P
      as (_ & _ & H); [| | | |exact Hos|done| |].
    + eapply Forall2_impl; [exact H|]. intros d d' [(A0 & A1 & A2) (B1 & B2 & B3)].
      split_and!; [done|done| |done|done].
      intros e a Ha. destruct (A2 e a Ha) as (a' & X1 & X2 & X3). exists a'. split_and!; [done| |done].
      intros o n Hin Hao. destruct (X2 o n Hin Hao) as [->|[Ht Hc]]; [by left|]. right.
      intros sp Hsp Hcl. apply trampoline_jumps; [|  |done|done].
      * rewrite S1 in Ht. by apply (S2 a' Ht).
      * apply elem_of_zip_r in Hin. apply elem_of_list_fmap in Hin as (h & -> & Hin). by apply Hh.
    + apply Forall_forall. intros d Hd. split.
      * apply (proj1 (Forall_forall _ _) Hds d Hd).
      * intros e o Ho He Ew. by apply (Hroom Ew d e o).
    + intros t Ht. by apply elem_of_nil in Ht.
    + cbn [hs_tramps length]. unfold ds. lia.
    + intros o Ho. split; [by apply Hz|done].
    + intros h Hin. destruct (Hh h Hin) as (_ & ? & ?). done.
  - intros x Hx Hne. destruct (decide (Exists (λ r, inside x r) rs)) as [He|Hn].
    + apply Exists_exists in He as (r & Hr & Hi). apply elem_of_list_bind in Hr as (m & Hr & Hm). eauto.
    + destruct Hne. apply Hf; [done|]. intros (r & Hr & Hi). apply Hn, Exists_exists. eauto.
Qed.
Print Assumptions C118_memory.

(** A library at 0x10000 with two exports, at 0x12000 and 0x12800; its own import table names the
    first one, then the second. Only the first is hooked; the hook is far away, so a trampoline is
    needed. All hypotheses hold. *)
Definition cx_env : mm_env := mkMmEnv (λ _, true) (λ _ _, true) true (ex_manager W64 0x40000).
Definition cx_module : module := mkModule 0x10000 (Some (0x1000, 2%nat)) [(0x3000, 1); (0, 0)].
Definition cx_mem : memory :=
  store_bytes (wmod W64) (store_bytes (wmod W64) (λ _, 0) 0x11000 (le_bytes 4 0x2000 ++ le_bytes 4 0x2800))
    0x13000 (le_bytes 8 0x12000 ++ le_bytes 8 0x12800).
Definition cx_state : mm :=
  mkMm cx_mem (list_to_map [(16, EXECUTE_READ); (17, mkProt true false false); (18, EXECUTE_READ); (19, READWRITE)]) [] [].
Definition cx_hook : Z := 0x700000000000.
Definition cx_run : option mm := mem_hook 10 W64 cx_env cx_module [(0%nat, cx_hook)] [cx_module] cx_state.
Lemma cx_read : read_module 10 W64 cx_mem cx_module =
  mkDll 0x10000 [0x2000; 0x2800] [mkDesc 0x3000 1 [0x12000; 0x12800]].
Proof. by vm_compute. Qed.
Lemma cx_regions : regions 10 W64 cx_mem cx_module = [(0x11000, 8); (0x13000, 24)].
Proof. by vm_compute. Qed.
Lemma cx_tables : tables_ok 10 W64 [cx_module] cx_state.
Proof.
  unfold tables_ok. cbn [cx_state mm_mem mbind list_bind]. rewrite cx_regions. cbn [app]. split.
  - split; [|split; [|done]].
    + intros r x Hr. apply elem_of_list_singleton in Hr as ->. unfold inside. cbn [fst snd]. lia.
    + intros r x Hr. by apply elem_of_nil in Hr.
  - intros r x Hr. rewrite !elem_of_cons in Hr. unfold inside, is_addr, in_use.
    destruct Hr as [-> | [-> | Hr%elem_of_nil]]; [| |done]; cbn [fst snd]; intros Hx;
      (split; [change (wmod W64) with 18446744073709551616; lia|]).
    + assert (page x = 17) as -> by (unfold page, PAGE; symmetry; apply (Z.div_unique _ _ _ (x - 17 * 4096)); lia).
      by eexists.
    + assert (page x = 19) as -> by (unfold page, PAGE; symmetry; apply (Z.div_unique _ _ _ (x - 19 * 4096)); lia).
      by eexists.
Qed.
Example C118_example :
  option_map (λ s, (read_module 10 W64 (mm_mem s) cx_module, mm_tramps s)) cx_run =
    Some (mkDll 0x10000 [0x30000; 0x2800] [mkDesc 0x3000 1 [cx_hook; 0x12800]], [0x40000]) ∧
  ∃ s', cx_run = Some s' ∧ runs W64 (mm_mem s') 0x40000 cx_hook.
Proof.
  assert (option_map (λ s, (read_module 10 W64 (mm_mem s) cx_module, mm_tramps s)) cx_run =
    Some (mkDll 0x10000 [0x30000; 0x2800] [mkDesc 0x3000 1 [cx_hook; 0x12800]], [0x40000])) as E by (by vm_compute).
  split; [exact E|]. unfold cx_run in E. destruct (mem_hook _ _ _ _ _ _ _) as [s'|] eqn:Er in E; [|done].
  exists s'. split; [exact Er|]. cbn [option_map] in E. apply (inj Some), (f_equal fst) in E. cbn [fst] in E.
  pose proof (C118_memory W64 cx_env 10 0%nat cx_module [(0%nat, cx_hook)] [0x12000] [cx_module] cx_state s') as HC.
  edestruct HC as [H _]; clear HC; [clear E Er..|exact Er|clear Er].
  - apply ex_manager_ok; [done|]. intros a ->%elem_of_list_singleton. done.
  - done.
  - done.
  - apply cx_tables.
  - done.
  - intros _ d e o Hd _ _. cbn [fmap list_fmap cx_state mm_mem] in Hd. rewrite cx_read in Hd.
    apply elem_of_list_singleton in Hd as ->. apply ex_manager_room; vm_compute; congruence.
  - cbn [fmap list_fmap cx_state mm_mem]. rewrite cx_read. constructor; [|constructor]. split; [done|].
    intros e a (rva & Hl & ->). cbn [dl_exports dl_base] in *. destruct e as [|[|e]]; [..|done]; by injection Hl as <-.
  - cbn [fmap list_fmap cx_state mm_mem]. rewrite cx_read. by constructor.
  - apply NoDup_singleton.
  - by intros o ->%elem_of_list_singleton.
  - intros h ->%elem_of_list_singleton. split; [done|]. split; [done|]. by intros H%elem_of_list_singleton.
  - cbn [fmap list_fmap] in H. rewrite E in H. cbn [cx_state mm_mem] in H. rewrite cx_read in H.
    apply Forall2_cons_1 in H as [(_ & _ & H & _) _].
    destruct (H 0%nat 0x12000) as (a' & (rva & Hr & ->) & Hn & _); [by exists 0x2000|].
    injection Hr as <-. apply (Hn 0x12000 cx_hook); [left|done].
Qed.
