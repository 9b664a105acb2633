(** Facts about descriptor tables and handles. *)
From stdpp Require Import prelude gmap fin_maps.
From Coq Require Import ZifyN ZifyNat ZifyBool.
From Verif Require Import Bytes PolicyModel FdModel.
Local Open Scope N_scope.
Local Arguments N.add : simpl never.

Lemma free_from_spec fuel n t :
  (∀ m, m < n → is_Some (t !! m)) →
  (size t ≤ N.to_nat n + fuel)%nat →
  t !! free_from fuel n t = None ∧ (∀ m, m < free_from fuel n t → is_Some (t !! m)).
Proof.
  revert n. induction fuel as [|f IH]; intros n Hn Hs; simpl.
  - split; [|done]. destruct (t !! n) as [e|] eqn:E; [|done]. exfalso.
    (* the numbers 0..n are n+1 distinct keys *)
    assert ((N.of_nat <$> seq 0 (S (N.to_nat n))) ⊆+ (map_to_list t).*1) as Hsub.
    { apply NoDup_submseteq.
      - apply NoDup_fmap; [intros ???; lia|apply NoDup_seq].
      - intros x. rewrite elem_of_list_fmap. intros (k & -> & Hk%elem_of_seq).
        assert (is_Some (t !! N.of_nat k)) as [v Hv].
        { destruct (decide (N.of_nat k = n)) as [->|]; [by eexists|]. apply Hn. lia. }
        apply elem_of_list_fmap. exists (N.of_nat k, v). split; [done|]. by apply elem_of_map_to_list. }
    apply submseteq_length in Hsub. rewrite !fmap_length, seq_length in Hsub.
    unfold size, map_size in Hs. lia.
  - destruct (t !! n) as [e|] eqn:E; [|done].
    apply IH; [|lia]. intros m Hm. destruct (decide (m = n)) as [->|]; [by eexists|].
    apply Hn. lia.
Qed.

Lemma lowest_free_spec t :
  t !! lowest_free t = None ∧ ∀ m, m < lowest_free t → is_Some (t !! m).
Proof. apply free_from_spec; lia. Qed.
Lemma lowest_free_None t : t !! lowest_free t = None.
Proof. apply lowest_free_spec. Qed.

Lemma lowest_free_unique t n :
  t !! n = None → (∀ m, m < n → is_Some (t !! m)) → lowest_free t = n.
Proof.
  intros H1 H2. destruct (lowest_free_spec t) as [H3 H4].
  destruct (N.lt_trichotomy (lowest_free t) n) as [H|[H|H]]; [|done|].
  - apply H2 in H. rewrite H3 in H. by destruct H.
  - apply H4 in H. rewrite H1 in H. by destruct H.
Qed.

Lemma fd_install_Some limit e t n t' :
  fd_install limit e t = Some (n, t') →
  n = lowest_free t ∧ n < limit ∧ t !! n = None ∧ t' = <[n := e]> t.
Proof.
  unfold fd_install. destruct (lowest_free t <? limit) eqn:E; [|done].
  intros [= <- <-]. split_and!; [done|lia|apply lowest_free_None|done].
Qed.

(** The ownership invariant: the table is the initial one plus one entry for every
    owned descriptor; owned descriptors are distinct. *)
Definition hs_inv (t0 : fdtab) (s : hstate) : Prop :=
  NoDup (hs_live s ++ hs_raws s) ∧
  (∀ n, n ∈ hs_live s ++ hs_raws s → t0 !! n = None ∧ is_Some (hs_tab s !! n)) ∧
  (∀ n, n ∉ hs_live s ++ hs_raws s → hs_tab s !! n = t0 !! n).

Lemma delete_app_perm {A} (l : list A) i x : l !! i = Some x → l ≡ₚ x :: delete i l.
Proof. apply delete_Permutation. Qed.

Lemma hs_inv_perm t0 t l r l' r' :
  l ++ r ≡ₚ l' ++ r' → hs_inv t0 (mkHs t l r) → hs_inv t0 (mkHs t l' r').
Proof.
  intros E (H1 & H2 & H3). unfold hs_inv in *. simpl in *.
  split_and!; [by rewrite <-E| |]; intros n; rewrite <-E; auto.
Qed.

Lemma hs_inv_insert t0 t l r n e :
  t !! n = None → hs_inv t0 (mkHs t l r) → hs_inv t0 (mkHs (<[n:=e]> t) (n :: l) r).
Proof.
  intros Hn (H1 & H2 & H3). unfold hs_inv in *. simpl in *.
  assert (n ∉ l ++ r) as Hnot.
  { intros Hin. destruct (H2 n Hin) as [_ [? H]]. by rewrite Hn in H. }
  split_and!.
  - by constructor.
  - intros m [->|Hm]%elem_of_cons.
    + split; [by rewrite <-H3|]. rewrite lookup_insert. by eexists.
    + rewrite lookup_insert_ne; [by apply H2|]. by intros ->.
  - intros m [Hne Hm]%not_elem_of_cons. rewrite lookup_insert_ne by done. by apply H3.
Qed.

Lemma hs_inv_update t0 t l r n e :
  n ∈ l ++ r → hs_inv t0 (mkHs t l r) → hs_inv t0 (mkHs (<[n:=e]> t) l r).
Proof.
  intros Hn (H1 & H2 & H3). unfold hs_inv in *. simpl in *. split_and!; [done| |].
  - intros m Hm. split; [by apply H2|]. destruct (decide (m = n)) as [->|].
    + rewrite lookup_insert. by eexists.
    + rewrite lookup_insert_ne by done. by apply H2.
  - intros m Hm. rewrite lookup_insert_ne; [by apply H3|]. by intros <-.
Qed.

Lemma hs_inv_delete t0 t l r n :
  hs_inv t0 (mkHs t (n :: l) r) → hs_inv t0 (mkHs (delete n t) l r).
Proof.
  intros (H1 & H2 & H3). unfold hs_inv in *. simpl in *.
  apply NoDup_cons in H1 as [Hn H1]. split_and!; [done| |].
  - intros m Hm. rewrite lookup_delete_ne; [apply H2; by right|]. by intros ->.
  - intros m Hm. destruct (decide (m = n)) as [->|].
    + rewrite lookup_delete. symmetry. apply H2. left.
    + rewrite lookup_delete_ne by done. apply H3. by apply not_elem_of_cons.
Qed.

(** Descriptor numbers always fit a c_int. *)
Definition small_table (t : fdtab) : Prop := ∀ n, is_Some (t !! n) → n < 2 ^ 31.

Lemma hstep_inv limit t0 o s :
  limit ≤ 2 ^ 31 → (∀ n, is_Some (hs_tab s !! n) → n < 2 ^ 31) →
  hs_inv t0 s →
  match hstep limit o s with
  | Done s' => hs_inv t0 s' ∧ (∀ n, is_Some (hs_tab s' !! n) → n < 2 ^ 31)
  | Failed => False
  | Panicked => ∃ i h, o = OpClone i ∧ hs_live s !! i = Some h ∧ limit ≤ lowest_free (hs_tab s)
  end.
Proof.
  intros Hl Hsm Hi. destruct s as [t live raws]. simpl in *.
  assert (∀ i h, live !! i = Some h → h ∈ live ++ raws) as Hin.
  { intros i h H. apply elem_of_app. left. by eapply elem_of_list_lookup_2. }
  assert (∀ n e, n < 2 ^ 31 → (∀ m, is_Some ((<[n:=e]> t : fdtab) !! m) → m < 2 ^ 31)) as Hins.
  { intros n e Hn m [x Hx]. apply lookup_insert_Some in Hx as [[<- _]|[_ Hx]]; [done|].
    apply Hsm. by eexists. }
  assert (∀ n, is_Some (t !! n) → handle_from_raw n = Some n) as Hraw.
  { intros n Hn. unfold handle_from_raw. apply Hsm in Hn.
    by replace (n <? 2 ^ 31) with true by lia. }
  destruct o as [file flags|i|i|i|i|i b|i]; simpl.
  - destruct (fd_install limit _ t) as [[n t']|] eqn:E; [|done].
    apply fd_install_Some in E as (_ & Hlt & Hn & ->).
    unfold handle_from_raw. replace (n <? 2 ^ 31) with true by lia.
    split; [by apply hs_inv_insert|]. simpl. apply Hins. lia.
  - destruct (raws !! i) as [n|] eqn:E; [|done].
    rewrite Hraw.
    + split; [|done]. eapply hs_inv_perm; [|exact Hi]. simpl.
      rewrite (delete_app_perm raws i n E) at 1. by rewrite <-Permutation_middle.
    + destruct Hi as (_ & Hi & _). apply Hi. simpl. apply elem_of_app. right.
      by eapply elem_of_list_lookup_2.
  - destruct (live !! i) as [n|] eqn:E; [|done]. split; [|done].
    eapply hs_inv_perm; [|exact Hi]. rewrite (delete_app_perm live i n E) at 1. simpl.
    by rewrite <-Permutation_middle.
  - destruct (live !! i) as [h|] eqn:E; [|done].
    unfold handle_clone, sys_dup.
    destruct Hi as (H1 & H2 & H3). destruct (H2 h (Hin _ _ E)) as [_ [e He]]. simpl in He.
    rewrite He. destruct (fd_install limit _ t) as [[n t']|] eqn:Ei.
    + apply fd_install_Some in Ei as (_ & Hlt & Hn & ->).
      unfold handle_from_raw. replace (n <? 2 ^ 31) with true by lia.
      split; [by apply hs_inv_insert|]. simpl. apply Hins. lia.
    + unfold fd_install in Ei. destruct (lowest_free t <? limit) eqn:El; [done|].
      exists i, h. split_and!; [done|done|lia].
  - destruct (live !! i) as [h|] eqn:E; [|done].
    unfold handle_drop, sys_close.
    destruct (proj1 (proj2 Hi) h (Hin _ _ E)) as [_ [e He]]. simpl in He. rewrite He.
    split.
    + apply hs_inv_delete. eapply hs_inv_perm; [|exact Hi].
      by rewrite (delete_app_perm live i h E) at 1.
    + simpl. intros n [x Hx]. apply lookup_delete_Some in Hx as [_ Hx]. apply Hsm. by eexists.
  - destruct (live !! i) as [h|] eqn:E; [|done].
    unfold handle_set_inheritable, sys_getfd, sys_setfd.
    destruct (proj1 (proj2 Hi) h (Hin _ _ E)) as [_ [e He]]. simpl in He. rewrite He. simpl.
    split; [apply hs_inv_update; [by eapply Hin|done]|]. apply Hins.
    apply Hsm. by eexists.
  - destruct (live !! i) as [h|] eqn:E; [|done].
    unfold handle_is_inheritable, sys_getfd.
    destruct (proj1 (proj2 Hi) h (Hin _ _ E)) as [_ [e He]]. simpl in He. rewrite He. simpl.
    done.
Qed.

Lemma hrun_inv limit t0 os s s' :
  limit ≤ 2 ^ 31 → small_table (hs_tab s) → hs_inv t0 s →
  hrun limit os s = Done s' → hs_inv t0 s' ∧ small_table (hs_tab s').
Proof.
  intros Hl. revert s. induction os as [|o os IH]; intros s Hs Hi; simpl.
  { by intros [= <-]. }
  pose proof (hstep_inv limit t0 o s Hl Hs Hi) as H.
  destruct (hstep limit o s) as [s1| |]; [|done|done].
  destruct H as [H1 H2]. by apply IH.
Qed.
