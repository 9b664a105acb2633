(** Lemmas about the hooks of a Windows worker. *)
From stdpp Require Import prelude.
From Verif Require Import Bytes PostcardModel PostcardSpec PostcardProofs TrampolineModel TrampolineProofs
  WinBrokerModel WinBrokerSpec WinBrokerProofs WinHookModel WinHookSpec.
Local Open Scope Z_scope.

(* ---------------------------------------------------------------- trampolines *)

Lemma load_bytes_app M m a n k :
  load_bytes M m a (n + k) = load_bytes M m a n ++ load_bytes M m (a + Z.of_nat n) k.
Proof.
  revert a. induction n as [|n IH]; intros a; [by rewrite Z.add_0_r|].
  cbn [plus load_bytes app]. f_equal. rewrite IH. f_equal. f_equal. lia.
Qed.
Lemma load_bytes_length M m a n : length (load_bytes M m a n) = n.
Proof. revert a. induction n; intros a; simpl; [done|]. by rewrite IHn. Qed.
Lemma load_bytes_part M m a n k l p q r :
  load_bytes M m a n = p ++ q ++ r → length p = k → length q = l →
  load_bytes M m (a + Z.of_nat k) l = q.
Proof.
  intros E <- <-.
  assert (n = length p + (length q + length r))%nat as ->.
  { apply (f_equal length) in E. by rewrite load_bytes_length, !app_length in E. }
  rewrite load_bytes_app in E. apply app_inj_1 in E as [_ E]; [|apply load_bytes_length].
  rewrite load_bytes_app in E. by apply app_inj_1 in E as [E _]; [|apply load_bytes_length].
Qed.

Definition code_at (w : width) (m : memory) (loc target : Z) : Prop :=
  load_bytes (wmod w) m loc (length (trampoline w loc target)) = trampoline w loc target.
Lemma trampoline_length w loc target :
  length (trampoline w loc target) = match w with W64 => 14%nat | W32 => 5%nat end.
Proof. destruct w; [|done]. unfold trampoline. cbn [length]. by rewrite !app_length, !le_bytes_length. Qed.
Lemma code_written w m loc target : code_at w (write_trampoline w m loc target) loc target.
Proof.
  apply load_store_bytes. rewrite trampoline_length. by destruct w.
Qed.
Lemma code_kept w m loc target loc' target' :
  is_addr w loc → loc + 14 ≤ wmod w → 0 ≤ loc' → loc' + 14 ≤ wmod w →
  loc' + 14 ≤ loc ∨ loc + 14 ≤ loc' →
  code_at w m loc target → code_at w (write_trampoline w m loc' target') loc target.
Proof.
  unfold is_addr, code_at, write_trampoline. intros H1 H2 H3 H4 H5 <-.
  rewrite load_bytes_length. apply load_bytes_ext. rewrite trampoline_length. intros i Hi.
  assert (0 ≤ i < 14) by (destruct w; lia).
  apply store_bytes_other. rewrite trampoline_length. intros j Hj.
  assert (0 ≤ j < 14) by (destruct w; lia).
  rewrite !Z.mod_small by lia. lia.
Qed.

Lemma of_le_app a b : of_le (a ++ b) = of_le a + 256 ^ Z.of_nat (length a) * of_le b.
Proof.
  induction a as [|x a IH]; [cbn [app of_le length]; lia|].
  cbn [app of_le length]. rewrite IH, Nat2Z.inj_succ, Z.pow_succ_r by lia. ring.
Qed.
Lemma le_bytes_app n k v : le_bytes (n + k) v = le_bytes n v ++ le_bytes k (v / 256 ^ Z.of_nat n).
Proof.
  revert v. induction n as [|n IH]; intros v; [by rewrite Z.div_1_r|].
  cbn [plus le_bytes app]. rewrite IH, Nat2Z.inj_succ, Z.pow_succ_r by lia.
  by rewrite Z.div_div by lia.
Qed.
Lemma sext_mod v : 0 ≤ v < 2 ^ 32 → sext 32 v mod 2 ^ 32 = v.
Proof.
  intros H. unfold sext. destruct (decide _); [by apply Z.mod_small|].
  replace (v - 2 ^ 32) with (v + (-1) * 2 ^ 32) by ring. rewrite Z.mod_add by lia. by apply Z.mod_small.
Qed.

Lemma code_bytes_ext w m m' loc target :
  (∀ j, 0 ≤ j < 14 → m' ((loc + j) mod wmod w) = m ((loc + j) mod wmod w)) →
  code_at w m loc target → code_at w m' loc target.
Proof.
  unfold code_at. intros H E. etransitivity; [|exact E]. apply load_bytes_ext. intros i Hi. apply H.
  rewrite trampoline_length in Hi. destruct w; lia.
Qed.

Lemma mstep_push m ip sp v :
  load_bytes (2 ^ 64) m ip 1 = [104] → load_bytes (2 ^ 64) m (ip + 1) 4 = le_bytes 4 v → 0 ≤ v < 2 ^ 32 →
  mstep W64 (mkMachine ip sp m) =
  Some (mkMachine ((ip + 5) mod 2 ^ 64) ((sp - 8) mod 2 ^ 64) (store W64 m ((sp - 8) mod 2 ^ 64) (sext 32 v))).
Proof.
  intros E1 E2 Hv. cbv beta delta [mstep] zeta iota. change (wmod W64) with (2 ^ 64). rewrite E1, E2. cbv beta zeta iota.
  rewrite of_le_bytes. change (256 ^ Z.of_nat 4) with (2 ^ 32). by rewrite (Z.mod_small v) by lia.
Qed.
Lemma mstep_mov m ip sp v :
  load_bytes (2 ^ 64) m ip 1 = [199] → load_bytes (2 ^ 64) m (ip + 1) 3 = [68; 36; 4] →
  load_bytes (2 ^ 64) m (ip + 4) 4 = le_bytes 4 v → 0 ≤ v < 2 ^ 32 →
  mstep W64 (mkMachine ip sp m) =
  Some (mkMachine ((ip + 8) mod 2 ^ 64) sp (store_bytes (2 ^ 64) m (sp + 4) (le_bytes 4 v))).
Proof.
  intros E1 E2 E3 Hv. cbv beta delta [mstep] zeta iota. change (wmod W64) with (2 ^ 64). rewrite E1, E2, E3.
  cbv beta zeta iota.
  rewrite of_le_bytes. change (256 ^ Z.of_nat 4) with (2 ^ 32). by rewrite (Z.mod_small v) by lia.
Qed.
Lemma mstep_ret m ip sp :
  load_bytes (2 ^ 64) m ip 1 = [195] →
  mstep W64 (mkMachine ip sp m) = Some (mkMachine (load W64 m sp) ((sp + 8) mod 2 ^ 64) m).
Proof. intros E1. cbv beta delta [mstep] zeta iota. change (wmod W64) with (2 ^ 64). by rewrite E1. Qed.
Lemma mstep_jmp w m ip sp v :
  load_bytes (wmod w) m ip 1 = [233] → load_bytes (wmod w) m (ip + 1) 4 = le_bytes 4 v →
  mstep w (mkMachine ip sp m) = Some (mkMachine ((ip + 5 + sext 32 (v mod 2 ^ 32)) mod wmod w) sp m).
Proof.
  intros E1 E2. cbv beta delta [mstep] zeta iota. rewrite E1, E2. cbv beta zeta iota.
  rewrite of_le_bytes. by destruct w.
Qed.

Lemma trampoline_runs_32 m loc target sp :
  code_at W32 m loc target → is_addr W32 target →
  mstep W32 (mkMachine loc sp m) = Some (mkMachine target sp m).
Proof.
  intros E Ht. unfold code_at in E. rewrite trampoline_length in E. unfold trampoline in E.
  erewrite (mstep_jmp W32 m loc sp (target - (loc + 5))).
  - f_equal. f_equal. change (wmod W32) with (2 ^ 32).
    pose proof (Z.mod_pos_bound (target - (loc + 5)) (2 ^ 32) ltac:(lia)) as Hb.
    rewrite <-Zplus_mod_idemp_r, sext_mod by done. rewrite Zplus_mod_idemp_r.
    replace (loc + 5 + (target - (loc + 5))) with target by ring. by apply Z.mod_small.
  - eapply (load_bytes_part _ _ _ _ 0 1 [] [233]) in E; [|done..]. by rewrite Z.add_0_r in E.
  - eapply (load_bytes_part _ _ _ _ 1 4 [233] (le_bytes 4 _) []) in E; [done|done|].
    by rewrite le_bytes_length.
Qed.

Lemma code_parts m loc target :
  code_at W64 m loc target →
  load_bytes (2 ^ 64) m loc 1 = [104] ∧
  load_bytes (2 ^ 64) m (loc + 1) 4 = le_bytes 4 (target mod 2 ^ 32) ∧
  load_bytes (2 ^ 64) m (loc + 5) 1 = [199] ∧
  load_bytes (2 ^ 64) m (loc + 6) 3 = [68; 36; 4] ∧
  load_bytes (2 ^ 64) m (loc + 9) 4 = le_bytes 4 (target / 2 ^ 32) ∧
  load_bytes (2 ^ 64) m (loc + 13) 1 = [195].
Proof.
  unfold code_at. rewrite trampoline_length. change (wmod W64) with (2 ^ 64). unfold trampoline.
  set (lo := le_bytes 4 (target mod 2 ^ 32)). set (hi := le_bytes 4 (target / 2 ^ 32)).
  assert (length lo = 4%nat) as Hl by apply le_bytes_length.
  assert (length hi = 4%nat) as Hh by apply le_bytes_length.
  clearbody lo hi. intros E. split_and!.
  - rewrite <-(Z.add_0_r loc). by apply (load_bytes_part _ _ _ _ 0 1 [] [104] _ E).
  - by apply (load_bytes_part _ _ _ _ 1 4 [104] lo _ E).
  - apply (load_bytes_part _ _ _ 14 5 1 (104 :: lo) [199] ([68; 36; 4] ++ hi ++ [195]));
      [by rewrite E|by simpl; rewrite Hl|done].
  - apply (load_bytes_part _ _ _ 14 6 3 (104 :: lo ++ [199]) [68; 36; 4] (hi ++ [195]));
      [rewrite E; cbn [app]; by rewrite <-!app_assoc|simpl; rewrite app_length, Hl; done|done].
  - apply (load_bytes_part _ _ _ 14 9 4 (104 :: lo ++ [199; 68; 36; 4]) hi [195]);
      [rewrite E; cbn [app]; by rewrite <-!app_assoc|simpl; rewrite app_length, Hl; done|done].
  - apply (load_bytes_part _ _ _ 14 13 1 (104 :: lo ++ [199; 68; 36; 4] ++ hi) [195] []);
      [rewrite E; cbn [app]; by rewrite <-!app_assoc|
       simpl; rewrite app_length; simpl; rewrite Hl, Hh; done|done].
Qed.

Lemma load_bytes_at M m a b n l :
  load_bytes M m b n = l → a mod M = b mod M → load_bytes M m a n = l.
Proof. intros <- H. by apply load_bytes_mod. Qed.

Lemma trampoline_runs_64 m loc target sp :
  code_at W64 m loc target → is_addr W64 target → is_addr W64 sp → stack_clear W64 sp loc →
  ∃ m', msteps W64 3 (mkMachine loc sp m) = Some (mkMachine target sp m') ∧
    ∀ x, (∀ i, 0 < i ≤ 8 → x ≠ (sp - i) mod wmod W64) → m' x = m x.
Proof.
  intros Hc Ht Hsp Hs. unfold is_addr, stack_clear in *. change (wmod W64) with (2 ^ 64) in *.
  pose proof (Z.mod_pos_bound target (2 ^ 32) ltac:(lia)) as Hlo.
  assert (0 ≤ target / 2 ^ 32 < 2 ^ 32) as Hhi.
  { split; [apply Z.div_pos; lia|]. apply Z.div_lt_upper_bound; lia. }
  destruct (code_parts _ _ _ Hc) as (P1 & P2 & _).
  set (sp' := (sp - 8) mod 2 ^ 64).
  set (m1 := store W64 m sp' (sext 32 (target mod 2 ^ 32))).
  set (m2 := store_bytes (2 ^ 64) m1 (sp' + 4) (le_bytes 4 (target / 2 ^ 32))).
  assert (∀ i, (sp' + i) mod 2 ^ 64 = (sp - (8 - i)) mod 2 ^ 64) as Hsp'.
  { intros i. unfold sp'. rewrite Zplus_mod_idemp_l. f_equal. ring. }
  assert (∀ x, (∀ i, 0 < i ≤ 8 → x ≠ (sp - i) mod 2 ^ 64) → m1 x = m x) as O1.
  { intros x Hx. unfold m1, store. apply store_bytes_other. intros i Hi. rewrite le_bytes_length in Hi.
    change (wmod W64) with (2 ^ 64). rewrite Hsp'. apply Hx. simpl in Hi. lia. }
  assert (∀ x, (∀ i, 0 < i ≤ 8 → x ≠ (sp - i) mod 2 ^ 64) → m2 x = m x) as O2.
  { intros x Hx. unfold m2. rewrite store_bytes_other; [by apply O1|].
    intros i Hi. rewrite le_bytes_length in Hi.
    replace (sp' + 4 + i) with (sp' + (4 + i)) by ring. rewrite Hsp'. apply Hx. lia. }
  assert (code_at W64 m1 loc target) as C1.
  { eapply code_bytes_ext, Hc. intros j Hj. apply O1. intros i Hi Heq. by apply (Hs i j Hi Hj). }
  assert (code_at W64 m2 loc target) as C2.
  { eapply code_bytes_ext, Hc. intros j Hj. apply O2. intros i Hi Heq. by apply (Hs i j Hi Hj). }
  destruct (code_parts _ _ _ C1) as (_ & _ & P3 & P4 & P5 & _).
  destruct (code_parts _ _ _ C2) as (_ & _ & _ & _ & _ & P6).
  exists m2. split; [|done].
  cbn [msteps]. erewrite mstep_push by eassumption. fold sp'. fold m1.
  rewrite (mstep_mov m1 _ sp' (target / 2 ^ 32)); [|..|lia].
  2:{ eapply load_bytes_at; [exact P3|]. by rewrite Zmod_mod. }
  2:{ eapply load_bytes_at; [exact P4|]. rewrite Zplus_mod_idemp_l. f_equal. ring. }
  2:{ eapply load_bytes_at; [exact P5|]. rewrite Zplus_mod_idemp_l. f_equal. ring. }
  fold m2. rewrite mstep_ret.
  2:{ eapply load_bytes_at; [exact P6|]. rewrite Zmod_mod, Zplus_mod_idemp_l. f_equal. ring. }
  assert (load W64 m2 sp' = target) as ->.
  { unfold load. change (wbytes W64) with (4 + 4)%nat. change (wmod W64) with (2 ^ 64).
    rewrite load_bytes_app. change (Z.of_nat 4) with 4.
    pose proof (load_store_bytes (2 ^ 64) m1 (sp' + 4) (le_bytes 4 (target / 2 ^ 32))) as L2.
    rewrite le_bytes_length in L2. fold m2 in L2. rewrite L2 by done.
    assert (load_bytes (2 ^ 64) m2 sp' 4 = le_bytes 4 (sext 32 (target mod 2 ^ 32))) as ->.
    { transitivity (load_bytes (2 ^ 64) m1 sp' 4).
      { apply load_bytes_ext. intros i Hi. unfold m2. apply store_bytes_other. intros j Hj.
        rewrite le_bytes_length in Hj. intros Heq.
        replace (sp' + 4 + j) with (sp' + (4 + j)) in Heq by ring.
        apply mod_near in Heq; lia. }
      pose proof (load_store_bytes (2 ^ 64) m sp' (le_bytes 8 (sext 32 (target mod 2 ^ 32)))) as L1.
      rewrite le_bytes_length in L1. specialize (L1 ltac:(done)).
      change (store_bytes (2 ^ 64) m sp' (le_bytes 8 (sext 32 (target mod 2 ^ 32)))) with m1 in L1.
      rewrite (le_bytes_app 4 4) in L1.
      rewrite <-(Z.add_0_r sp'). eapply (load_bytes_part _ _ _ _ 0 4 []); [exact L1|done|].
      apply le_bytes_length. }
    rewrite of_le_app, le_bytes_length, !of_le_bytes. change (256 ^ Z.of_nat 4) with (2 ^ 32).
    rewrite sext_mod by done. rewrite (Z.mod_small (target / 2 ^ 32)) by done.
    pose proof (Z.div_mod target (2 ^ 32) ltac:(lia)). lia. }
  f_equal. f_equal. replace sp' with (sp' + 0) at 1 by ring.
  rewrite <-Z.add_assoc. rewrite Hsp'. rewrite Z.mod_small by lia. lia.
Qed.

Lemma trampoline_jumps w m loc target sp :
  code_at w m loc target → is_addr w target → is_addr w sp → stack_clear w sp loc →
  jumps w m loc target sp.
Proof.
  intros Hc Ht Hsp Hs. destruct w.
  - destruct (trampoline_runs_64 _ _ _ _ Hc Ht Hsp Hs) as (m' & E & H). by exists 3%nat, m'.
  - exists 1%nat, m. split; [|done]. cbn [msteps]. by rewrite (trampoline_runs_32 _ _ _ _ Hc Ht).
Qed.

(* ---------------------------------------------------------------- patching *)

Lemma align_up_ge p g : 0 < g → p ≤ align_up p g.
Proof.
  intros Hg. unfold align_up. pose proof (Z.div_mod (p + g - 1) g ltac:(lia)).
  pose proof (Z.mod_pos_bound (p + g - 1) g Hg). lia.
Qed.
Lemma align_up_le p g q : 0 < g → p ≤ q → q mod g = 0 → align_up p g ≤ q.
Proof.
  intros Hg Hp Hq. unfold align_up.
  pose proof (Z.div_mod q g ltac:(lia)) as Hd. rewrite Hq in Hd.
  assert ((p + g - 1) / g ≤ q / g); [|nia].
  apply Z.lt_succ_r, Z.div_lt_upper_bound; nia.
Qed.

Section patching.
Context (w : width) (env : hook_env) (code : list Z) (Henv : manager_ok w env code).

Lemma find_hole_spec fuel T : ∀ p size t,
  0 ≤ size → find_hole fuel env T p size = Some t →
  p ≤ t ∧ (∃ sz, he_query env T t = Some (true, sz)) ∧
  (∀ q sz, p + size ≤ q → q mod he_granularity env = 0 → he_query env T q = Some (true, sz) → t ≤ q).
Proof.
  destruct Henv as (Hg & Hfree & Htaken).
  induction fuel as [|fuel IH]; intros p size t Hsz E; [done|]. cbn [find_hole] in E.
  set (p' := align_up (p + size) (he_granularity env)) in *.
  pose proof (align_up_ge (p + size) _ Hg) as Hp'. fold p' in Hp'.
  destruct (he_query env T p') as [[[] size']|] eqn:Eq; [| |done].
  - destruct (he_alloc env T p'); [|done]. injection E as <-. split_and!; [lia|eauto|].
    intros q sz Hq Hm _. by apply align_up_le.
  - destruct (Htaken _ _ _ Eq) as [Hs Hno].
    apply IH in E as (H1 & H2 & H3); [|lia]. split_and!; [lia|done|].
    intros q sz Hq Hm Hf. apply (H3 q sz); [|done..].
    pose proof (align_up_le (p + size) _ q Hg Hq Hm) as Hle. fold p' in Hle.
    destruct (decide (q < p' + size')); [|lia]. exfalso. by apply (Hno q sz).
Qed.

Definition st_ok (s : hook_state) : Prop :=
  ∀ t, t ∈ hs_tramps s → 0 ≤ t ∧ t + 14 ≤ wmod w ∧ t ∉ code.
Definition extends (s s' : hook_state) : Prop :=
  (∀ t, t ∈ hs_tramps s → t ∈ hs_tramps s') ∧
  (∀ t f, t ∈ hs_tramps s → code_at w (hs_mem s) t f → code_at w (hs_mem s') t f).
Definition leads_to (s : hook_state) (a f : Z) : Prop :=
  a = f ∨ (a ∈ hs_tramps s ∧ code_at w (hs_mem s) a f).

Lemma extends_refl s : extends s s.
Proof. done. Qed.
Lemma extends_trans s1 s2 s3 : extends s1 s2 → extends s2 s3 → extends s1 s3.
Proof. intros [A B] [C D]. split; [auto|]. intros t f Ht Hc. apply D; auto. Qed.
Lemma leads_extends s s' a f : extends s s' → leads_to s a f → leads_to s' a f.
Proof. intros [A B] [->|[Ht Hc]]; [by left|right; auto]. Qed.

(** Room left for [n] trampolines in all, if needed. *)
Definition room_for (n : nat) (base : Z) : Prop := w = W64 → room env n base.
Definition good_tramp (s : hook_state) (base new : Z) (tr : option Z) : Prop :=
  ∀ t, tr = Some t →
    base ≤ t < base + 2 ^ 32 ∧ t ∈ hs_tramps s ∧ code_at w (hs_mem s) t new.
Definition to_come (tr : option Z) : nat := match tr with None => 1 | Some _ => 0 end.

Lemma hook_rva_spec fuel base new tr s r tr' s' n :
  is_addr w base → room_for n base → st_ok s → good_tramp s base new tr →
  (length (hs_tramps s) + to_come tr ≤ n)%nat →
  hook_rva fuel w env base new tr s = Some (r, tr', s') →
  st_ok s' ∧ extends s s' ∧ good_tramp s' base new tr' ∧ leads_to s' (base + r) new ∧
  (length (hs_tramps s') + to_come tr' ≤ length (hs_tramps s) + to_come tr)%nat.
Proof.
  intros Hb Hroom Hs Hg Hn. unfold hook_rva. destruct (decide _) as [Hnear|_].
  { intros [= <- <- <-]. split_and!; [done|apply extends_refl|done|left; lia|lia]. }
  destruct tr as [t|].
  { intros [= <- <- <-]. destruct (Hg t eq_refl) as (H1 & H2 & H3).
    split_and!; [done|apply extends_refl|done| |lia].
    rewrite Z.mod_small by lia. replace (base + (t - base)) with t by ring. by right. }
  destruct (find_hole _ _ _ _ _) as [t|] eqn:E; [|done]. intros [= <- <- <-].
  destruct Henv as (Hgr & Hfree & _).
  apply find_hole_spec in E as (H1 & (sz & Hq) & H3); [|lia].
  destruct (Hfree _ _ _ Hq) as (F1 & F2 & F3 & F4).
  pose proof (align_up_ge base _ Hgr) as Hal.
  assert (base ≤ t < base + 2 ^ 32) as Hbt.
  { split; [lia|]. assert (w = W64 ∨ w = W32) as [Ew|Ew] by (destruct w; auto).
    - destruct (Hroom Ew (hs_tramps s)) as (p & size & P1 & P2 & P3); [simpl in Hn; lia|].
      assert (t ≤ p); [|lia]. apply (H3 p size); [|done..]. rewrite Z.add_0_r. apply align_up_le; [done|lia|done].
    - rewrite Ew in F2. unfold is_addr in Hb. change (wmod W32) with (2 ^ 32) in F2. lia. }
  assert (∀ u, u ∈ hs_tramps s → u ∈ hs_tramps s ++ [t]) as Hin.
  { intros u Hu. apply elem_of_app. by left. }
  split_and!.
  - intros u Hu. cbn [hs_tramps] in Hu. apply elem_of_app in Hu as [Hu|Hu]; [by apply Hs|].
    apply elem_of_list_singleton in Hu as ->. done.
  - split; [done|]. intros u f Hu Hc. cbn [hs_mem].
    destruct (Hs u Hu) as (U1 & U2 & _). apply code_kept; [|done..| |done].
    + unfold is_addr. lia.
    + apply F4, Hu.
  - intros u [= <-]. split_and!; [lia|lia| |apply code_written].
    cbn [hs_tramps]. apply elem_of_app. right. by apply elem_of_list_singleton.
  - right. rewrite Z.mod_small by lia. replace (base + (t - base)) with t by ring.
    split; [|apply code_written].
    cbn [hs_tramps]. apply elem_of_app. right. by apply elem_of_list_singleton.
  - cbn [hs_tramps to_come]. rewrite app_length. simpl. lia.
Qed.

Definition export_rel (s : hook_state) (base orig new r r' : Z) : Prop :=
  (base + r = orig → leads_to s (base + r') new) ∧ (base + r ≠ orig → r' = r).

Lemma patch_exports_spec fuel base orig new n : is_addr w base →
  ∀ rvas tr s rvas' s',
  ((∃ r, r ∈ rvas ∧ base + r = orig) → room_for n base) →
  st_ok s → good_tramp s base new tr → (length (hs_tramps s) + to_come tr ≤ n)%nat →
  patch_exports fuel w env base orig new rvas tr s = Some (rvas', s') →
  st_ok s' ∧ extends s s' ∧ (length (hs_tramps s') ≤ length (hs_tramps s) + to_come tr)%nat ∧
  Forall2 (export_rel s' base orig new) rvas rvas'.
Proof.
  intros Hb. induction rvas as [|rva rvas IH]; intros tr s rvas' s' Hroom Hs Hg Hn E.
  { cbn [patch_exports] in E. injection E as <- <-.
    split_and!; [done|apply extends_refl|lia|constructor]. }
  cbn [patch_exports] in E. destruct (decide _) as [Ho|Ho].
  - destruct (hook_rva _ _ _ _ _ _ _) as [[[r tr1] s1]|] eqn:E1; [|done].
    destruct (patch_exports _ _ _ _ _ _ _ _ _) as [[rest s2]|] eqn:E2; [|done].
    injection E as <- <-.
    eapply hook_rva_spec in E1 as (A1 & A2 & A3 & A4 & A5);
      [|done|apply Hroom; exists rva; split; [left|done]|done..].
    apply IH in E2 as (B1 & B2 & B3 & B4);
      [|intros (r' & ? & ?); apply Hroom; exists r'; split; [by right|done]|done|done|lia].
    split_and!; [done|by eapply extends_trans|lia|]. constructor; [|done].
    split; [|done]. intros _. by eapply leads_extends.
  - destruct (patch_exports _ _ _ _ _ _ _ _ _) as [[rest s2]|] eqn:E2; [|done].
    injection E as <- <-. apply IH in E2 as (B1 & B2 & B3 & B4);
      [|intros (r' & ? & ?); apply Hroom; exists r'; split; [by right|done]|done..].
    split_and!; [done|done|lia|]. constructor; [|done]. split; [done|]. done.
Qed.

Definition patched (s : hook_state) (orig new : Z) (d d' : dll) : Prop :=
  dl_base d' = dl_base d ∧
  Forall2 (export_rel s (dl_base d) orig new) (dl_exports d) (dl_exports d') ∧
  dl_imports d' = patch_imports orig new (dl_imports d).

Lemma patch_dlls_spec fuel orig new n : ∀ ds s ds' s',
  Forall (λ d, is_addr w (dl_base d) ∧ (∀ e, export_at d e orig → room_for n (dl_base d))) ds →
  st_ok s → (length (hs_tramps s) + length ds ≤ n)%nat →
  patch_dlls fuel w env orig new ds s = Some (ds', s') →
  st_ok s' ∧ extends s s' ∧ (length (hs_tramps s') ≤ length (hs_tramps s) + length ds)%nat ∧
  Forall2 (patched s' orig new) ds ds'.
Proof.
  induction ds as [|d ds IH]; intros s ds' s' Hf Hs Hn E.
  { cbn [patch_dlls] in E. injection E as <- <-.
    split_and!; [done|apply extends_refl|lia|constructor]. }
  apply Forall_cons in Hf as [[Hb Hr] Hf]. cbn [patch_dlls length] in *.
  destruct (patch_exports _ _ _ _ _ _ _ _ _) as [[rvas s1]|] eqn:E1; [|done].
  destruct (patch_dlls _ _ _ _ _ _ _) as [[rest s2]|] eqn:E2; [|done]. injection E as <- <-.
  eapply (patch_exports_spec _ _ _ _ n) in E1 as (A1 & A2 & A3 & A4); [|exact Hb| |done|done|cbn [to_come]; lia].
  2:{ intros (r & Hin & Ho). apply elem_of_list_lookup in Hin as [e He].
      apply (Hr e). by exists r. }
  cbn [to_come] in A3.
  apply IH in E2 as (B1 & B2 & B3 & B4); [|done|done|lia].
  split_and!; [done|by eapply extends_trans|lia|]. constructor; [|done].
  split_and!; [done| |done]. cbn [dl_base dl_exports].
  eapply Forall2_impl; [exact A4|]. intros r r' [X Y]. split; [|done].
  intros Ho. eapply leads_extends; [exact B2|]. by apply X.
Qed.

End patching.

(** Thunks and descriptors read up to the end marker. *)
Definition all_upto (P : Z → Prop) (l : list Z) (j : nat) : Prop :=
  ∀ k a, (k ≤ j)%nat → l !! k = Some a → P a.

Lemma patch_thunks_length o n ts : length (patch_thunks o n ts) = length ts.
Proof.
  induction ts as [|t ts IH]; [done|]. cbn [patch_thunks]. destruct (decide (t = 0)); [done|].
  cbn [length]. by rewrite IH.
Qed.
Lemma patch_thunks_live o n ts : ∀ j t, ts !! j = Some t →
  (∀ k a, (k ≤ j)%nat → ts !! k = Some a → a ≠ 0) →
  patch_thunks o n ts !! j = Some (if decide (t = o) then n else t).
Proof.
  induction ts as [|t0 ts IH]; intros j t E H; [done|]. cbn [patch_thunks].
  destruct (decide (t0 = 0)) as [->|Hz].
  { exfalso. by apply (H 0%nat 0); [lia|done|]. }
  destruct j as [|j]; [by injection E as ->|]. cbn. apply IH; [done|].
  intros k a Hk Ha. apply (H (S k)); [lia|done].
Qed.
Lemma patch_thunks_dead o n ts : ∀ j k, (k ≤ j)%nat → ts !! k = Some 0 →
  patch_thunks o n ts !! j = ts !! j.
Proof.
  induction ts as [|t0 ts IH]; intros j k Hk E; [done|]. cbn [patch_thunks].
  destruct (decide (t0 = 0)) as [->|Hz]; [done|].
  destruct k as [|k]; [by injection E|]. destruct j as [|j]; [lia|].
  cbn. apply (IH j k); [lia|done].
Qed.
Lemma patch_thunks_zero o n ts j : n ≠ 0 → o ≠ 0 →
  (patch_thunks o n ts !! j = Some 0 ↔ ts !! j = Some 0).
Proof.
  intros Hn Ho. revert j. induction ts as [|t0 ts IH]; intros j; [done|]. cbn [patch_thunks].
  destruct (decide (t0 = 0)) as [->|Hz]; [done|]. destruct j as [|j]; [|apply IH].
  cbn. destruct (decide (t0 = o)); [|done]. split; intros [=]; lia.
Qed.

Definition desc_live (d : descriptor) : Prop := de_first_thunk d ≠ 0 ∧ de_name d ≠ 0.
Lemma patch_imports_length o n ds : length (patch_imports o n ds) = length ds.
Proof.
  induction ds as [|t ts IH]; [done|]. cbn [patch_imports]. destruct (decide _); [done|].
  cbn [length]. by rewrite IH.
Qed.
Lemma patch_imports_lookup o n ds : ∀ i d, ds !! i = Some d →
  ((∀ k e, (k ≤ i)%nat → ds !! k = Some e → desc_live e) ∧
   patch_imports o n ds !! i =
     Some (mkDesc (de_first_thunk d) (de_name d) (patch_thunks o n (de_thunks d)))) ∨
  ((∃ k e, (k ≤ i)%nat ∧ ds !! k = Some e ∧ ¬ desc_live e) ∧ patch_imports o n ds !! i = Some d).
Proof.
  induction ds as [|d0 ds IH]; intros i d E; [done|]. cbn [patch_imports].
  destruct (decide _) as [Hz|Hz].
  { right. split; [|done]. exists 0%nat, d0. split_and!; [lia|done|]. unfold desc_live. tauto. }
  assert (desc_live d0) as H0 by (unfold desc_live; tauto).
  destruct i as [|i].
  { injection E as ->. left. split; [|done]. intros k e Hk He. assert (k = 0%nat) as -> by lia.
    by injection He as <-. }
  cbn in E. destruct (IH i d E) as [[H1 H2]|[(k & e & K1 & K2 & K3) H2]].
  - left. split; [|done]. intros k e Hk He. destruct k as [|k]; [by injection He as <-|].
    apply (H1 k); [lia|done].
  - right. split; [|done]. exists (S k), e. split_and!; [lia|done|done].
Qed.

(** One hook, seen from the tables. *)
Definition imports_rel (pairs : list (Z * Z)) (d d' : dll) : Prop :=
  (∀ i j a, thunk_at d i j a → ∃ a', thunk_at d' i j a' ∧
     (∀ o n, (o, n) ∈ pairs → live d i j → a = o → a' = n) ∧
     (¬ live d i j ∨ a ∉ pairs.*1 → a' = a)) ∧
  (∀ i j a', thunk_at d' i j a' → ∃ a, thunk_at d i j a) ∧
  (∀ i j a, thunk_at d i j a → live d i j ↔ live d' i j).

Lemma patched_thunk o n d d' i j a :
  dl_imports d' = patch_imports o n (dl_imports d) → thunk_at d i j a →
  (live d i j ∧ thunk_at d' i j (if decide (a = o) then n else a)) ∨
  (¬ live d i j ∧ thunk_at d' i j a).
Proof.
  intros Hd' (de & Hi & Hj).
  destruct (patch_imports_lookup o n _ _ _ Hi) as [[H1 H2]|[(k & e & K1 & K2 & K3) H2]];
    rewrite <-Hd' in H2.
  - destruct (decide (Exists (λ a, a = 0) (take (S j) (de_thunks de)))) as [Hex|Hno].
    + apply Exists_exists in Hex as (z & Hz & ->). apply elem_of_list_lookup in Hz as (k & Hk).
      apply lookup_take_Some in Hk as [Hk Hkj]. right. split.
      { intros [_ L]. by apply (L k 0); [lia|exists de|]. }
      exists (mkDesc (de_first_thunk de) (de_name de) (patch_thunks o n (de_thunks de))).
      split; [done|]. cbn [de_thunks]. by rewrite (patch_thunks_dead _ _ _ j k) by (done || lia).
    + assert (∀ k a, (k ≤ j)%nat → de_thunks de !! k = Some a → a ≠ 0) as Hnz.
      { intros k b Hk Hb ->. apply Hno, Exists_exists. exists 0. split; [|done].
        apply elem_of_list_lookup. exists k. apply lookup_take_Some. split; [done|lia]. }
      left. split.
      { split; [done|]. intros k b Hk (de' & Hi' & Hb). rewrite Hi in Hi'. injection Hi' as <-.
        by apply (Hnz k). }
      eexists. split; [done|]. cbn [de_thunks]. by apply patch_thunks_live.
  - right. split; [|by exists de]. intros [L _]. apply K3. by apply (L k).
Qed.

Lemma patched_thunk_back o n d d' i j a' :
  dl_imports d' = patch_imports o n (dl_imports d) → thunk_at d' i j a' → ∃ a, thunk_at d i j a.
Proof.
  intros Hd' (de' & Hi & Hj).
  destruct (dl_imports d !! i) as [de|] eqn:Ei.
  2:{ apply lookup_ge_None in Ei. rewrite <-(patch_imports_length o n), <-Hd' in Ei.
      apply lookup_ge_None in Ei. by rewrite Ei in Hi. }
  destruct (patch_imports_lookup o n _ _ _ Ei) as [[_ H2]|[_ H2]]; rewrite <-Hd', Hi in H2;
    injection H2 as ->.
  - cbn [de_thunks] in Hj. apply lookup_lt_Some in Hj. rewrite patch_thunks_length in Hj.
    apply lookup_lt_is_Some in Hj as [a Ha]. exists a. by exists de.
  - exists a'. by exists de.
Qed.

Lemma patched_live o n d d' i j :
  dl_imports d' = patch_imports o n (dl_imports d) → o ≠ 0 → n ≠ 0 →
  live d i j ↔ live d' i j.
Proof.
  intros Hd' Ho Hn.
  assert (∀ k, (∃ e, dl_imports d !! k = Some e ∧ ¬ desc_live e) ↔
               (∃ e, dl_imports d' !! k = Some e ∧ ¬ desc_live e)) as HD.
  { intros k. split.
    - intros (e & He & Hl). destruct (patch_imports_lookup o n _ _ _ He) as [[L _]|[_ H2]].
      { exfalso. by apply Hl, (L k). }
      exists e. by rewrite Hd'.
    - intros (e' & He' & Hl). destruct (dl_imports d !! k) as [e|] eqn:E.
      + destruct (patch_imports_lookup o n _ _ _ E) as [[L H2]|[_ H2]]; rewrite <-Hd', He' in H2;
          injection H2 as ->; [|by exists e].
        exists e. split; [done|]. intros X. by apply Hl.
      + apply lookup_ge_None in E. rewrite <-(patch_imports_length o n), <-Hd' in E.
        apply lookup_ge_None in E. by rewrite E in He'. }
  assert ((∀ k de, (k ≤ i)%nat → dl_imports d !! k = Some de → de_first_thunk de ≠ 0 ∧ de_name de ≠ 0)
     ↔ ∀ k de, (k ≤ i)%nat → dl_imports d' !! k = Some de → de_first_thunk de ≠ 0 ∧ de_name de ≠ 0) as HL.
  { split; intros L k de Hk Hde;
      (destruct (decide (de_first_thunk de = 0)) as [Z1|Z1];
       [|destruct (decide (de_name de = 0)) as [Z2|Z2]; [|done]]); exfalso.
    - destruct (proj2 (HD k)) as (e & E1 & E2); [exists de; split; [done|]; by intros []|].
      apply E2, (L k); done.
    - destruct (proj2 (HD k)) as (e & E1 & E2); [exists de; split; [done|]; by intros []|].
      apply E2, (L k); done.
    - destruct (proj1 (HD k)) as (e & E1 & E2); [exists de; split; [done|]; by intros []|].
      apply E2, (L k); done.
    - destruct (proj1 (HD k)) as (e & E1 & E2); [exists de; split; [done|]; by intros []|].
      apply E2, (L k); done. }
  assert (∀ k, thunk_at d i k 0 ↔ thunk_at d' i k 0) as HT.
  { intros k. split.
    - intros H. destruct (patched_thunk o n d d' i k 0 Hd' H) as [[_ X]|[_ X]]; [|done].
      by rewrite decide_False in X.
    - intros H. destruct (patched_thunk_back _ _ _ _ _ _ _ Hd' H) as [a Ha].
      destruct H as (de & Hi & Hj).
      destruct (patched_thunk o n d d' i k a Hd' Ha) as [[_ (de2 & Hi2 & Hj2)]|[_ (de2 & Hi2 & Hj2)]];
        rewrite Hi in Hi2; injection Hi2 as <-; rewrite Hj in Hj2; injection Hj2 as E.
      + destruct (decide (a = o)); [lia|]. by rewrite <-E in Ha.
      + by rewrite <-E in Ha. }
  unfold live. rewrite HL.
  assert ((∀ k a, (k ≤ j)%nat → thunk_at d i k a → a ≠ 0) ↔
          (∀ k a, (k ≤ j)%nat → thunk_at d' i k a → a ≠ 0)) as HT2.
  { split; intros L k a Hk Ha ->; apply HT in Ha; by apply (L k 0). }
  by rewrite HT2.
Qed.

Lemma patched_imports_rel o n d d' :
  dl_imports d' = patch_imports o n (dl_imports d) → o ≠ 0 → n ≠ 0 →
  imports_rel [(o, n)] d d'.
Proof.
  intros Hd' Ho Hn. split_and!.
  - intros i j a Ha. destruct (patched_thunk o n d d' i j a Hd' Ha) as [[L X]|[L X]].
    + eexists. split; [exact X|]. split.
      * intros o' n' Hin _ ->. apply elem_of_list_singleton in Hin as [= -> ->]. by rewrite decide_True.
      * intros [?|Hni]; [done|]. rewrite decide_False; [done|]. intros ->. apply Hni. left.
    + exists a. split; [done|]. split; [|done]. intros o' n' _ L'. done.
  - intros i j a' H. by eapply patched_thunk_back.
  - intros i j a _. by eapply patched_live.
Qed.

Lemma imports_rel_cons o n pairs d d1 d2 :
  imports_rel [(o, n)] d d1 → imports_rel pairs d1 d2 →
  o ∉ pairs.*1 → n ∉ pairs.*1 → imports_rel ((o, n) :: pairs) d d2.
Proof.
  intros (A1 & A2 & A3) (B1 & B2 & B3) Ho Hn. split_and!.
  - intros i j a Ha. destruct (A1 i j a Ha) as (a1 & H1 & X1 & X2).
    destruct (B1 i j a1 H1) as (a2 & H2 & Y1 & Y2). exists a2. split; [done|]. split.
    + intros o' n' Hin Hl Hao. apply elem_of_cons in Hin as [[= -> ->]|Hin].
      * assert (a1 = n) as -> by (apply (X1 o n); [by left|done|done]). apply Y2. by right.
      * assert (a ∉ [(o, n)].*1) as Hna.
        { intros Hx. apply elem_of_list_singleton in Hx. simpl in Hx. subst a o'.
          apply Ho. by apply (elem_of_list_fmap_1 fst) in Hin. }
        assert (a1 = a) as -> by (apply X2; by right).
        apply (Y1 o' n'); [done| |done]. by apply (A3 _ _ _ Ha).
    + intros [Hl|Hni].
      * assert (a1 = a) as -> by (apply X2; by left). apply Y2. left. intros L. apply Hl. by apply (A3 _ _ _ Ha).
      * cbn in Hni. apply not_elem_of_cons in Hni as [N1 N2].
        assert (a1 = a) as -> by (apply X2; right; intros Hx; by apply elem_of_list_singleton in Hx).
        apply Y2. by right.
  - intros i j a' H. destruct (B2 _ _ _ H) as [a1 H1]. by eapply A2.
  - intros i j a Ha. rewrite (A3 _ _ _ Ha). destruct (A1 i j a Ha) as (a1 & H1 & _).
    apply (B3 _ _ _ H1).
Qed.

Definition exports_rel (w : width) (s : hook_state) (pairs : list (Z * Z)) (d d' : dll) : Prop :=
  dl_base d' = dl_base d ∧ length (dl_exports d') = length (dl_exports d) ∧
  ∀ e a, export_at d e a → ∃ a', export_at d' e a' ∧
     (∀ o n, (o, n) ∈ pairs → a = o → leads_to w s a' n) ∧ (a ∉ pairs.*1 → a' = a).

Lemma patched_exports_rel w s o n d d' : patched w s o n d d' → exports_rel w s [(o, n)] d d'.
Proof.
  intros (Hb & He & _). split_and!; [done|symmetry; by eapply Forall2_length|].
  intros e a (rva & Hr & ->).
  destruct (Forall2_lookup_l _ _ _ _ _ He Hr) as (r' & Hr' & X & Y).
  exists (dl_base d + r'). split; [exists r'; by rewrite Hb|]. split.
  - intros o' n' Hin Ho. apply elem_of_list_singleton in Hin as [= -> ->]. by apply X.
  - intros Hni. rewrite Y; [done|]. intros Ho. apply Hni. rewrite Ho. left.
Qed.

Lemma exports_rel_cons w code s1 s2 o n pairs d d1 d2 :
  exports_rel w s1 [(o, n)] d d1 → exports_rel w s2 pairs d1 d2 → extends w s1 s2 →
  st_ok w code s1 → (∀ x, x ∈ pairs.*1 → x ∈ code) →
  o ∉ pairs.*1 → n ∉ pairs.*1 → exports_rel w s2 ((o, n) :: pairs) d d2.
Proof.
  intros (A0 & A1 & A2) (B0 & B1 & B2) Hx Hs Hcode Ho Hn. split_and!; [congruence|congruence|].
  intros e a Ha. destruct (A2 e a Ha) as (a1 & H1 & X1 & X2).
  destruct (B2 e a1 H1) as (a2 & H2 & Y1 & Y2). exists a2. split; [done|]. split.
  - intros o' n' Hin Hao. apply elem_of_cons in Hin as [[= -> ->]|Hin].
    + assert (leads_to w s1 a1 n) as HL by (apply (X1 o n); [by left|done]).
      assert (a2 = a1) as ->.
      { apply Y2. destruct HL as [->|[Ht _]]; [done|]. intros Hp. apply Hcode in Hp.
        destruct (Hs a1 Ht) as (_ & _ & Hc). done. }
      by eapply leads_extends.
    + assert (a1 = a) as ->.
      { apply X2. intros Hy. apply elem_of_list_singleton in Hy. simpl in Hy. subst a o'.
        apply Ho. by apply (elem_of_list_fmap_1 fst) in Hin. }
      by apply (Y1 o').
  - intros Hni. cbn in Hni. apply not_elem_of_cons in Hni as [N1 N2].
    assert (a1 = a) as -> by (apply X2; intros Hy; by apply elem_of_list_singleton in Hy).
    by apply Y2.
Qed.

Lemma get_proc_kept w s o n ds ds' k e a :
  Forall2 (patched w s o n) ds ds' → a ≠ o → get_proc ds k e = Some a → get_proc ds' k e = Some a.
Proof.
  intros H Hne. unfold get_proc. destruct (ds !! k) as [d|] eqn:Ed; [|done].
  destruct (Forall2_lookup_l _ _ _ _ _ H Ed) as (d' & -> & (Hb & He & _)).
  destruct (dl_exports d !! e) as [rva|] eqn:Er; [|done]. intros [= <-].
  destruct (Forall2_lookup_l _ _ _ _ _ He Er) as (r' & -> & _ & Y). rewrite Y by done. by rewrite Hb.
Qed.

Lemma fst_zip_sub {A B} (l : list A) (k : list B) x : x ∈ (zip l k).*1 → x ∈ l.
Proof.
  revert k. induction l as [|a l IH]; intros [|b k]; cbn; [intros H; by apply elem_of_nil in H..|].
  rewrite !elem_of_cons. intros [->|H]; [by left|right]. by eapply IH.
Qed.

Lemma hook_functions_spec w env code fuel k n : manager_ok w env code →
  ∀ hooks os ds s ds' s',
  Forall (λ d, is_addr w (dl_base d) ∧
               (∀ e o, o ∈ os → export_at d e o → room_for w env n (dl_base d))) ds →
  st_ok w code s → (length (hs_tramps s) + length hooks * length ds ≤ n)%nat →
  Forall2 (λ h o, get_proc ds k h.1 = Some o) hooks os →
  NoDup os → (∀ o, o ∈ os → o ≠ 0 ∧ o ∈ code) →
  (∀ h, h ∈ hooks → h.2 ≠ 0 ∧ h.2 ∉ os) →
  hook_functions fuel w env k hooks ds s = Some (ds', s') →
  st_ok w code s' ∧ extends w s s' ∧
  Forall2 (λ d d', exports_rel w s' (zip os hooks.*2) d d' ∧ imports_rel (zip os hooks.*2) d d') ds ds'.
Proof.
  intros Henv. induction hooks as [|[e new] hooks IH]; intros os ds s ds' s' Hds Hs Hn Hos Hnd Ho Hh E.
  { cbn [hook_functions] in E. injection E as <- <-. split_and!; [done|done|].
    apply Forall2_same_length_lookup. split; [done|]. intros i d d2 E1 E2. rewrite E1 in E2.
    injection E2 as <-. apply Forall2_nil_inv_l in Hos as ->. split.
    - split_and!; [done|done|]. intros e a Ha. exists a. split; [done|]. split; [|done].
      intros ? ? Hin. by apply elem_of_nil in Hin.
    - split_and!; [|eauto|intros; reflexivity]. intros i' j a Ha. exists a. split; [done|]. split; [|done].
      intros ? ? Hin. by apply elem_of_nil in Hin. }
  apply Forall2_cons_inv_l in Hos as (o & os' & Ho1 & Hos & ->). cbn [fst] in Ho1.
  apply NoDup_cons in Hnd as [Hno Hnd]. cbn [length] in Hn.
  cbn [hook_functions] in E. unfold hook_function in E. rewrite Ho1 in E.
  destruct (patch_dlls _ _ _ _ _ _ _) as [[ds1 s1]|] eqn:E1; [|done].
  apply (patch_dlls_spec w env code Henv fuel o new n) in E1 as (A1 & A2 & A3 & A4); [| |done|lia].
  2:{ eapply Forall_impl; [exact Hds|]. intros d [? Hr]. split; [done|]. intros e' He'.
      apply (Hr e' o); [left|done]. }
  assert (length ds1 = length ds) as Hlen by (symmetry; by eapply Forall2_length).
  destruct (Hh (e, new)) as [Hnz Hnew]; [left|]. cbn [snd] in *.
  apply not_elem_of_cons in Hnew as [_ Hnew].
  destruct (Ho o) as [Hoz _]; [left|].
  apply IH with (os := os') in E as (B1 & B2 & B3).
  - split_and!; [done|by eapply extends_trans|].
    clear -A1 A2 A4 B2 B3 Hno Hnew Ho Hoz Hnz.
    revert ds' B3. induction A4 as [|d d1 ds ds1 Hp Hps IH2]; intros ds' B3.
    { apply Forall2_nil_inv_l in B3 as ->. constructor. }
    apply Forall2_cons_inv_l in B3 as (d2 & ds2 & [X Y] & Hrest & ->). constructor; [|by apply IH2].
    cbn [fmap list_fmap zip zip_with]. split.
    + eapply exports_rel_cons; [by apply patched_exports_rel|exact X|done|done| | |].
      * intros x Hx. apply fst_zip_sub in Hx. apply Ho. by right.
      * intros Hx. by apply fst_zip_sub in Hx.
      * intros Hx. by apply fst_zip_sub in Hx.
    + destruct Hp as (_ & _ & Hi).
      eapply imports_rel_cons; [by apply patched_imports_rel|exact Y| |].
      * intros Hx. by apply fst_zip_sub in Hx.
      * intros Hx. by apply fst_zip_sub in Hx.
  - apply Forall_lookup. intros i d1 Hd1.
    destruct (Forall2_lookup_r _ _ _ _ _ A4 Hd1) as (d & Hd & (Hb & He & _)). rewrite Hb.
    destruct (Forall_lookup_1 _ _ _ _ Hds Hd) as [Ha Hr]. split; [done|].
    intros e' o' Ho' (r' & Hr' & Eo').
    destruct (Forall2_lookup_r _ _ _ _ _ He Hr') as (r & Hre & X & Y).
    assert (dl_base d + r ≠ o) as Hne.
    { intros Heq. rewrite Hb in Eo'. destruct (X Heq) as [F|[Ht _]].
      - apply Hnew. by rewrite <-F, <-Eo'.
      - destruct (A1 _ Ht) as (_ & _ & Hc). apply Hc. rewrite <-Eo'. apply Ho. by right. }
    apply (Hr e' o'); [by right|]. exists r. split; [done|]. rewrite <-(Y Hne). by rewrite Hb in Eo'.
  - done.
  - rewrite Hlen. lia.
  - apply Forall2_same_length_lookup. split; [by eapply Forall2_length|].
    intros i h o' Hh' Ho'. eapply get_proc_kept; [exact A4| |].
    + intros ->. apply Hno. by eapply elem_of_list_lookup_2.
    + by apply (Forall2_lookup_lr _ _ _ _ _ _ Hos Hh' Ho').
  - done.
  - intros x Hx. apply Ho. by right.
  - intros h Hx. destruct (Hh h) as [? Hz]; [by right|]. split; [done|].
    by apply not_elem_of_cons in Hz as [_ ?].
Qed.

(* ---------------------------------------------------------------- UTF-16 *)

Lemma utf8_of_char_encode c : utf8_of_char c = utf8_encode c.
Proof.
  unfold utf8_of_char, utf8_encode.
  destruct (N.ltb_spec c 0x80); [by rewrite decide_True|]. rewrite decide_False by lia.
  destruct (N.ltb_spec c 0x800); [by rewrite decide_True|]. rewrite decide_False by lia.
  destruct (N.ltb_spec c 0x10000); [by rewrite decide_True|]. by rewrite decide_False by lia.
Qed.
Lemma lossy_text us : from_utf16_lossy us = concat (map utf8_encode (decode_utf16 us)).
Proof. unfold from_utf16_lossy. f_equal. apply map_ext, utf8_of_char_encode. Qed.

Lemma decode_utf16_scalar us : Forall (λ x, x < 2 ^ 16)%N us → Forall scalar (decode_utf16 us).
Proof.
  remember (length us) as n eqn:Hn. assert (length us ≤ n)%nat as Hl by lia. clear Hn.
  revert us Hl. induction n as [|n IH]; intros us Hl Hf.
  { destruct us; [constructor|simpl in Hl; lia]. }
  destruct us as [|u rest]; [constructor|]. simpl in Hl.
  apply Forall_cons in Hf as [Hu Hf]. change (2 ^ 16)%N with 65536%N in Hu. cbn [decode_utf16].
  destruct (decide (u < 0xD800 ∨ 0xE000 ≤ u)%N).
  { constructor; [unfold scalar; lia|apply IH; [lia|done]]. }
  destruct (decide (0xDC00 ≤ u)%N).
  { constructor; [unfold scalar; lia|apply IH; [lia|done]]. }
  destruct rest as [|v rest'].
  { constructor; [unfold scalar; lia|constructor]. }
  destruct (decide (0xDC00 ≤ v < 0xE000)%N).
  - apply Forall_cons in Hf as [_ Hf]. simpl in Hl.
    constructor; [unfold scalar; lia|apply IH; [lia|done]].
  - constructor; [unfold scalar; lia|apply IH; [lia|done]].
Qed.
Lemma decode_utf16_length us : (length (decode_utf16 us) ≤ length us)%nat.
Proof.
  remember (length us) as n eqn:Hn. assert (length us ≤ n)%nat as Hl by lia. clear Hn.
  revert us Hl. induction n as [|n IH]; intros us Hl.
  { destruct us; simpl in *; lia. }
  destruct us as [|u rest]; [simpl; lia|]. simpl in Hl. cbn [decode_utf16].
  destruct (decide (u < 0xD800 ∨ 0xE000 ≤ u)%N); [cbn [length]; specialize (IH rest); lia|].
  destruct (decide (0xDC00 ≤ u)%N); [cbn [length]; specialize (IH rest); lia|].
  destruct rest as [|v rest']; [simpl; lia|]. simpl in Hl.
  destruct (decide _); cbn [length].
  - specialize (IH rest'). lia.
  - specialize (IH (v :: rest')). simpl in IH. simpl. lia.
Qed.

Lemma utf8_encode_length c : (length (utf8_encode c) ≤ 4)%nat ∧
  ((c < 0x10000)%N → (length (utf8_encode c) ≤ 3)%nat).
Proof.
  unfold utf8_encode.
  destruct (N.ltb_spec c 0x80); [simpl; lia|]. destruct (N.ltb_spec c 0x800); [simpl; lia|].
  destruct (N.ltb_spec c 0x10000); simpl; lia.
Qed.
Lemma lossy_length us : Forall (λ x, x < 2 ^ 16)%N us →
  (length (from_utf16_lossy us) ≤ 3 * length us)%nat.
Proof.
  rewrite lossy_text.
  remember (length us) as n eqn:Hn. assert (length us ≤ n)%nat as Hl by lia.
  rewrite Hn. clear Hn.
  revert us Hl. induction n as [|n IH]; intros us Hl Hf.
  { destruct us; simpl in *; lia. }
  destruct us as [|u rest]; [simpl; lia|]. simpl in Hl.
  apply Forall_cons in Hf as [Hu Hf]. change (2 ^ 16)%N with 65536%N in Hu. cbn [decode_utf16].
  pose proof (utf8_encode_length u) as [_ L1]. pose proof (utf8_encode_length 0xFFFD) as [_ L2].
  destruct (decide (u < 0xD800 ∨ 0xE000 ≤ u)%N).
  { cbn [map concat length]. rewrite app_length. specialize (IH rest ltac:(lia) Hf). lia. }
  destruct (decide (0xDC00 ≤ u)%N).
  { cbn [map concat length]. rewrite app_length. specialize (IH rest ltac:(lia) Hf). lia. }
  destruct rest as [|v rest'].
  { cbn [map concat length]. rewrite app_length. simpl. lia. }
  destruct (decide (0xDC00 ≤ v < 0xE000)%N).
  - apply Forall_cons in Hf as [_ Hf]. simpl in Hl. cbn [map concat length]. rewrite app_length.
    specialize (IH rest' ltac:(lia) Hf).
    pose proof (utf8_encode_length (0x10000 + (u - 0xD800) * 0x400 + (v - 0xDC00))) as [L3 _]. lia.
  - cbn [map concat]. rewrite app_length.
    specialize (IH (v :: rest') ltac:(simpl in *; lia) Hf). cbn [length] in *. lia.
Qed.
Lemma lossy_utf8 us : Forall (λ x, x < 2 ^ 16)%N us → is_utf8 (from_utf16_lossy us).
Proof. intros H. exists (decode_utf16 us). split; [by apply decode_utf16_scalar|apply lossy_text]. Qed.

Lemma decode_chars cs uss : Forall scalar cs → Forall2 utf16_char cs uss →
  decode_utf16 (concat uss) = cs.
Proof.
  intros Hs H. induction H as [|c us cs uss Hc H IH]; [done|].
  apply Forall_cons in Hs as [Hsc Hs]. cbn [concat].
  destruct Hc as [[Hlt ->]|(Hge & hi & lo & -> & H1 & H2 & ->)].
  - cbn [app decode_utf16]. rewrite decide_True by (unfold scalar in Hsc; lia). by rewrite IH.
  - cbn [app decode_utf16]. rewrite decide_False by lia. rewrite decide_False by lia.
    rewrite decide_True by lia. by rewrite IH.
Qed.
Lemma lossy_inverse s us : utf16_of s us → from_utf16_lossy us = s.
Proof.
  intros (cs & uss & Hs & -> & H & ->). rewrite lossy_text. by rewrite (decode_chars cs).
Qed.
Lemma lossy_well_formed us : well_formed us → utf16_of (from_utf16_lossy us) us.
Proof. intros [s H]. by rewrite (lossy_inverse s us H). Qed.

Lemma us_units_ok u : us_ok u →
  Forall (λ x, x < 2 ^ 16)%N (us_units u) ∧ (N.of_nat (length (us_units u)) < 32768)%N.
Proof.
  intros [Hl Hf]. unfold us_units. split; [by apply Forall_take|].
  rewrite take_length. change (2 ^ 16)%N with 65536%N in Hl.
  assert (us_length u / 2 < 32768)%N by (apply N.div_lt_upper_bound; lia). lia.
Qed.
Lemma lossy_rust_str u : us_ok u → is_rust_str (from_utf16_lossy (us_units u)).
Proof.
  intros Hu. destruct (us_units_ok u Hu) as [Hf Hl]. split; [by apply lossy_utf8|].
  pose proof (lossy_length _ Hf). unfold is_usize. change (2 ^ 64)%N with 18446744073709551616%N. lia.
Qed.
Lemma wrapped_name_short us : (N.of_nat (length us) < 32768)%N → wrapped_name us = us.
Proof.
  intros H. unfold wrapped_name. rewrite N.mod_small by lia. rewrite Nat2N.id. by apply firstn_all.
Qed.
Lemma name_for_units_back u name : us_ok u → well_formed (us_units u) →
  name_for (from_utf16_lossy (us_units u)) name ↔ name = us_units u.
Proof.
  intros Hu Hw. destruct (us_units_ok u Hu) as [_ Hl].
  pose proof (lossy_well_formed _ Hw) as H. split.
  - intros (us & H1 & ->). rewrite (utf16_of_fun _ _ _ H1 H). by apply wrapped_name_short.
  - intros ->. exists (us_units u). split; [done|]. symmetry. by apply wrapped_name_short.
Qed.

(* ---------------------------------------------------------------- the hooked calls *)

Lemma win_send_recv_inv tr m sent r :
  win_send_recv tr m = (sent, r) →
  (sent = [] ∧ r = None) ∨
  (sent = [enc_wrapped enc_wreq (m, None)] ∧ ∃ rd, tr (enc_wrapped enc_wreq (m, None)) = Some rd ∧
     r = match win_recv dec_wrep rd with PolicyModel.Ok (Some x) => Some x | _ => None end).
Proof.
  unfold win_send_recv, serialize. destruct (N.leb _ _); [|intros [= <- <-]; by left].
  destruct (tr _) as [rd|] eqn:E; [|intros [= <- <-]; by left].
  intros [= <- <-]. right. split; [done|]. by exists rd.
Qed.

Lemma wreq_plain m : wmsg_ok m → plain_read (RdMessage (enc_wrapped enc_wreq (m, None))) m.
Proof.
  intros Hm. eexists _, []. split; [reflexivity|]. unfold enc_wrapped, enc_pair. cbn [fst snd enc_option].
  by apply wreq_roundtrip.
Qed.
Lemma plain_read_fun rd m m' : plain_read rd m → plain_read rd m' → m = m'.
Proof. intros (b & r & -> & E) (b' & r' & [= <-] & E'). congruence. Qed.

Lemma file_message_ok a us : file_args_ok a → file_name a us →
  ∃ u, us_ok u ∧ us = us_units u ∧ wmsg_ok (file_message a u) ∧
    ∀ w tr, hook_ntcreatefile w tr a =
      let '(sent, r) := win_send_recv tr (file_message a u) in (sent, file_reply w r).
Proof.
  intros (H1 & H2 & H3 & H4 & H5 & H6 & H7) (N1 & N2 & N3 & oa & u & N4 & N5 & N6 & ->).
  assert (us_ok u) as Hu by (by eapply H7).
  exists u. split_and!; [done|done| |].
  - cbn [file_message wmsg_ok].
    split; [done|]. split; [by apply lossy_rust_str|]. split.
    { destruct (fa_alloc a) as [z|]; cbn; [by apply H6|done]. }
    repeat (split; [done|]). done.
  - intros w tr. unfold hook_ntcreatefile. rewrite N1, N2, N4. cbv iota beta.
    rewrite decide_False by (intros [?|?]; [by rewrite N5 in *|lia]). by rewrite N6.
Qed.
Lemma open_message_ok a us : open_args_ok a → open_name a us →
  ∃ u, us_ok u ∧ us = us_units u ∧
    let m := WReqFile (op_access a) (from_utf16_lossy us) 0 0 (op_share a) 1 (op_options a) [] in
    wmsg_ok m ∧
    ∀ w tr, hook_ntopenfile w tr a =
      let '(sent, r) := win_send_recv tr m in (sent, file_reply w r).
Proof.
  intros (H1 & H2 & H3 & H7) (N1 & N2 & oa & u & N4 & N5 & N6 & ->).
  assert (us_ok u) as Hu by (by eapply H7).
  exists u. split_and!; [done|done|]. cbv zeta. split.
  - cbn [wmsg_ok]. split; [done|]. split; [by apply lossy_rust_str|]. repeat (split; [done|]). done.
  - intros w tr. unfold hook_ntopenfile. rewrite N1, N2, N4. cbv iota beta.
    rewrite decide_False by (intros Hz; by apply Hz). by rewrite N6.
Qed.
Lemma key_message_ok a us : key_args_ok a → key_name a us →
  ∃ u, us_ok u ∧ us = us_units u ∧ wmsg_ok (key_message a u) ∧
    ∀ w tr, hook_ntcreatekey w tr a =
      let '(sent, r) := win_send_recv tr (key_message a u) in
      (sent, key_reply w (ka_disposition a) r).
Proof.
  intros (H1 & H2 & H3 & H4) (N1 & N2 & oa & u & N4 & N5 & N6 & ->).
  assert (us_ok u) as Hu by (by eapply H3).
  exists u. split_and!; [done|done| |].
  - cbn [key_message wmsg_ok]. rewrite N2. split; [done|]. split; [by apply lossy_rust_str|].
    split; [done|]. split; [|done].
    intros c. destruct (ka_class a) as [cl|]; [|done]. intros [= <-]. apply lossy_rust_str. by apply H4.
  - intros w tr. unfold hook_ntcreatekey. rewrite N1, N4. cbv iota beta.
    rewrite decide_False by (intros [?|?]; [by rewrite N5 in *|lia]). by rewrite N6.
Qed.

(** Sizes. *)
Lemma file_message_size access path alloc attributes share disposition options :
  (length path ≤ length (enc_wrapped enc_wreq
     (WReqFile access path alloc attributes share disposition options [], None)) ≤ length path + 66)%nat.
Proof.
  unfold enc_wrapped, enc_pair. cbn [fst snd enc_wreq enc_option].
  unfold enc_str, enc_bytes, enc_dw, enc_i64, enc_u32, enc_u64.
  repeat (rewrite app_length; cbn [length]).
  pose proof (enc_varint_length 5 1). pose proof (enc_varint_length 5 (Z.to_N access)).
  pose proof (enc_varint_length 10 (N.of_nat (length path))).
  pose proof (enc_varint_length 10 (zigzag alloc)). pose proof (enc_varint_length 5 (Z.to_N attributes)).
  pose proof (enc_varint_length 5 (Z.to_N share)). pose proof (enc_varint_length 5 (Z.to_N disposition)).
  pose proof (enc_varint_length 5 (Z.to_N options)). pose proof (enc_varint_length 10 (N.of_nat 0)). lia.
Qed.
Definition class_length (class : option str) : nat := match class with Some c => length c | None => 0 end.
Lemma key_message_size access path title class options b :
  (length path ≤ length (enc_wrapped enc_wreq (WReqKey access path title class options b, None))
     ≤ length path + class_length class + 44)%nat.
Proof.
  unfold enc_wrapped, enc_pair. cbn [fst snd enc_wreq enc_option].
  assert (length (enc_option enc_str class) ≤ class_length class + 11)%nat as Hc.
  { destruct class as [c|]; cbn [enc_option class_length length]; [|lia].
    unfold enc_str, enc_bytes, enc_u64. rewrite app_length.
    pose proof (enc_varint_length 10 (N.of_nat (length c))). lia. }
  set (k := enc_option enc_str class) in *. clearbody k.
  unfold enc_str, enc_bytes, enc_dw, enc_u32, enc_u64, enc_bool.
  repeat (rewrite app_length; cbn [length]).
  pose proof (enc_varint_length 5 2). pose proof (enc_varint_length 5 (Z.to_N access)).
  pose proof (enc_varint_length 10 (N.of_nat (length path))).
  pose proof (enc_varint_length 5 (Z.to_N title)). pose proof (enc_varint_length 5 (Z.to_N options)). lia.
Qed.
