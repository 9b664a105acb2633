(** Property C132: a printed policy tells what the policy allows. *)
From stdpp Require Import prelude gmap.
From Coq Require Import Strings.Byte.
From Verif Require Import Bytes BytesProofs PolicyModel PolicySpec PolicyProofs LinuxPolicyModel
  LinuxPolicySpec WinPolicyModel WinPolicyProps LogProps PolicyShowModel.
Local Open Scope N_scope.

(* ---------------------------------------------------------------- specification *)

(** [s] is a way to print the policy. *)
Definition prints (p : policy) (s : str) : Prop :=
  ∃ hs fs ds rs, hs ≡ₚ elements (inherit_handles p) ∧ fs ≡ₚ map_to_list (file_access p) ∧
    ds ≡ₚ map_to_list (dir_access p) ∧ rs ≡ₚ map_to_list (regkey_access p) ∧
    s = show_policy (audit_only p) hs fs ds rs.

(** Full statement: policies printed alike have the same rules. *)
Definition C132_full : Prop := ∀ p q s,
  prints p s → prints q s → policy_eqb p q = true.

(** No path has a line break. *)
Definition one_line (p : policy) : Prop := ∀ k : str,
  (k ∈ dom (file_access p) ∨ k ∈ dom (dir_access p) ∨ k ∈ dom (regkey_access p)) → newline ∉ k.
(** What is told of an entry: reading, writing, and how many of the three others. *)
Definition told (a : access) : bool * bool * nat :=
  (a_read a, a_write a,
   (Nat.b2n (a_block_readers a) + Nat.b2n (a_block_writers a) + Nat.b2n (a_block_deleters a))%nat).

(* ---------------------------------------------------------------- lines *)

Lemma lines_inj (l l' : list str) (e : str) :
  (∀ x, x ∈ l → newline ∉ x ∧ starts_with (lit " ") x = true) →
  (∀ x, x ∈ l' → newline ∉ x ∧ starts_with (lit " ") x = true) →
  starts_with (lit "}") e = true →
  concat ((λ x, x ++ [newline]) <$> l) ++ e = concat ((λ x, x ++ [newline]) <$> l') ++ e → l = l'.
Proof.
  revert l'. induction l as [|x l IH]; intros l' H H' He E.
  - destruct l' as [|y l']; [done|]. exfalso. cbn [fmap list_fmap concat app] in E.
    destruct (H' y) as [_ Hy]; [left|]. destruct y as [|c y]; [done|].
    destruct e as [|d e]; [done|]. injection E as -> _. cbn in He, Hy.
    rewrite andb_true_r in He, Hy. apply bool_decide_eq_true in He, Hy. congruence.
  - destruct l' as [|y l'].
    + exfalso. cbn [fmap list_fmap concat app] in E.
      destruct (H x) as [_ Hy]; [left|]. destruct x as [|c x]; [done|].
      destruct e as [|d e]; [done|]. injection E as -> _. cbn in He, Hy.
      rewrite andb_true_r in He, Hy. apply bool_decide_eq_true in He, Hy. congruence.
    + cbn [fmap list_fmap concat] in E. rewrite <-!app_assoc in E.
      assert (x = y ∧ concat ((λ x, x ++ [newline]) <$> l) ++ e =
                      concat ((λ x, x ++ [newline]) <$> l') ++ e) as [-> E'].
      { clear IH. destruct (H x) as [Hx _]; [left|]. destruct (H' y) as [Hy _]; [left|].
        clear H H'. revert y Hy E. generalize (concat ((λ x, x ++ [newline]) <$> l) ++ e).
        generalize (concat ((λ x, x ++ [newline]) <$> l') ++ e).
        intros r r'. induction x as [|c x IHx]; intros [|d y] Hy E; cbn [app] in E.
        - by injection E as <-.
        - injection E as <- _. exfalso. apply Hy. left.
        - injection E as -> _. exfalso. apply Hx. left.
        - injection E as -> E. destruct (IHx) with (y := y) as [-> <-]; [|by intros ?; apply Hy; right|done|done].
          intros ?. apply Hx. by right. }
      f_equal. apply IH; [intros z Hz; apply H; by right|intros z Hz; apply H'; by right|done|done].
Qed.

(** Endings of lines: none is the end of another. *)
Definition bools : list bool := [false; true].
Definition accesses : list access :=
  r ← bools; w ← bools; a ← bools; b ← bools; c ← bools; [mkAccess r w a b c].
Definition regs : list (bool * bool) := r ← bools; w ← bools; [(r, w)].
Inductive entry := EFile (a : bool * bool * nat) | EDir (a : bool * bool * nat) | EReg (a : bool * bool).
Global Instance entry_eq_dec : EqDecision entry.
Proof. solve_decision. Defined.
Definition endings : list (str * entry) :=
  ((λ a, (lit " file" ++ show_access a, EFile (told a))) <$> accesses) ++
  ((λ a, (lit " directory" ++ show_access a, EDir (told a))) <$> accesses) ++
  ((λ a, (lit " registry key" ++ show_reg a, EReg a)) <$> regs).
Definition ends_with (s e : str) : bool := starts_with (rev e) (rev s).
Lemma endings_ok :
  forallb (λ x, forallb (λ y, bool_decide (x = y) || negb (ends_with x.1 y.1)) endings) endings = true.
Proof. by vm_compute. Qed.
Lemma starts_with_app a b : starts_with a (a ++ b) = true.
Proof. induction a as [|c a IH]; [done|]. cbn. by rewrite bool_decide_eq_true_2, IH. Qed.
Lemma ends_with_app a b : ends_with (a ++ b) b = true.
Proof. unfold ends_with. rewrite rev_app_distr. apply starts_with_app. Qed.
Lemma ending_unique x y k k' :
  x ∈ endings → y ∈ endings → k ++ x.1 = k' ++ y.1 → k = k' ∧ x = y.
Proof.
  intros Hx Hy E.
  pose proof endings_ok as Hok. rewrite forallb_forall in Hok.
  assert (∀ x y k k', x ∈ endings → y ∈ endings → k ++ x.1 = k' ++ y.1 →
    (length k ≤ length k')%nat → x = y) as Hw.
  { clear x y k k' Hx Hy E. intros x y k k' Hx Hy E Hl.
    assert (x.1 = drop (length k) k' ++ y.1) as Ex.
    { assert (drop (length k) (k ++ x.1) = drop (length k) (k' ++ y.1)) as E' by by rewrite E.
      rewrite drop_app in E'. rewrite E'. by rewrite drop_app_le. }
    specialize (Hok x (proj1 (elem_of_list_In _ _) Hx)). rewrite forallb_forall in Hok.
    specialize (Hok y (proj1 (elem_of_list_In _ _) Hy)).
    apply orb_prop in Hok as [Hok|Hok]; [by apply bool_decide_eq_true in Hok|].
    exfalso. cbn beta in Hok. apply negb_true_iff in Hok.
    assert (ends_with x.1 y.1 = true) as Hok2 by (rewrite Ex; apply ends_with_app).
    unfold str in *. congruence. }
  assert (x = y) as <-.
  { destruct (decide (length k ≤ length k')%nat); [by eapply Hw|].
    symmetry. eapply Hw; [done|done|by symmetry|lia]. }
  split; [|done]. by apply app_inv_tail in E.
Qed.
Lemma in_bools b : b ∈ bools.
Proof. unfold bools. destruct b; [right; left|left]. Qed.
Lemma in_accesses a : a ∈ accesses.
Proof.
  unfold accesses. destruct a as [r w x y z].
  do 5 (apply elem_of_list_bind; eexists; split; [|apply in_bools]). left.
Qed.
Lemma in_regs a : a ∈ regs.
Proof.
  unfold regs. destruct a as [r w].
  do 2 (apply elem_of_list_bind; eexists; split; [|apply in_bools]). left.
Qed.
Lemma file_ending a : (lit " file" ++ show_access a, EFile (told a)) ∈ endings.
Proof.
  unfold endings. rewrite !elem_of_app. left. apply elem_of_list_fmap. exists a.
  split; [done|apply in_accesses].
Qed.
Lemma dir_ending a : (lit " directory" ++ show_access a, EDir (told a)) ∈ endings.
Proof.
  unfold endings. rewrite !elem_of_app. right. left. apply elem_of_list_fmap. exists a.
  split; [done|apply in_accesses].
Qed.
Lemma reg_ending a : (lit " registry key" ++ show_reg a, EReg a) ∈ endings.
Proof.
  unfold endings. rewrite !elem_of_app. right. right. apply elem_of_list_fmap. exists a.
  split; [done|apply in_regs].
Qed.
(** A rule's line is not a handle's. *)
Lemma endings_last x : x ∈ endings → last x.1 ≠ Some x7d.
Proof.
  intros Hx. assert (forallb (λ x, negb (bool_decide (last x.1 = Some x7d))) endings = true) as H
    by (by vm_compute).
  rewrite forallb_forall in H. specialize (H x (proj1 (elem_of_list_In _ _) Hx)).
  apply negb_true_iff in H. by apply bool_decide_eq_false in H.
Qed.
Lemma endings_nonempty x : x ∈ endings → x.1 ≠ [].
Proof.
  intros Hx. assert (forallb (λ x, negb (bool_decide (x.1 = []))) endings = true) as H
    by (by vm_compute).
  rewrite forallb_forall in H. specialize (H x (proj1 (elem_of_list_In _ _) Hx)).
  apply negb_true_iff in H. by apply bool_decide_eq_false in H.
Qed.
Lemma not_handle k x h : x ∈ endings → lit "    " ++ k ++ x.1 ≠ show_handle h.
Proof.
  intros Hx E. assert (last (lit "    " ++ k ++ x.1) = last x.1) as Hl.
  { rewrite app_assoc, last_app. pose proof (endings_nonempty x Hx).
    destruct (last x.1) eqn:El; [done|]. by apply last_None in El. }
  rewrite E in Hl. apply (endings_last x Hx). rewrite <-Hl. unfold show_handle.
  rewrite app_assoc, last_app. done.
Qed.

(* ---------------------------------------------------------------- what the lines tell *)

Lemma show_handle_inj h h' : show_handle h = show_handle h' → h = h'.
Proof.
  unfold show_handle. intros E. apply app_inv_head, app_inv_tail in E.
  apply (digits_inj 10); [lia|done].
Qed.
Lemma in_lines l hs fs ds rs :
  l ∈ show_lines hs fs ds rs ↔
  (∃ h, h ∈ hs ∧ l = show_handle h) ∨
  (∃ k a, (k, a) ∈ fs ∧ l = lit "    " ++ k ++ lit " file" ++ show_access a) ∨
  (∃ k a, (k, a) ∈ ds ∧ l = lit "    " ++ k ++ lit " directory" ++ show_access a) ∨
  (∃ k a, (k, a) ∈ rs ∧ l = lit "    " ++ k ++ lit " registry key" ++ show_reg a).
Proof.
  unfold show_lines. rewrite !elem_of_app, !elem_of_list_fmap. split.
  - intros [(h & -> & ?)|[([k a] & -> & ?)|[([k a] & -> & ?)|([k a] & -> & ?)]]].
    + left; by exists h.
    + right; left; by exists k, a.
    + right; right; left; by exists k, a.
    + right; right; right; by exists k, a.
  - intros [(h & ? & ->)|[(k & a & ? & ->)|[(k & a & ? & ->)|(k & a & ? & ->)]]].
    + left; by exists h.
    + right; left; by exists (k, a).
    + right; right; left; by exists (k, a).
    + right; right; right; by exists (k, a).
Qed.
Lemma lines_told hs fs ds rs hs' fs' ds' rs' :
  (∀ l, l ∈ show_lines hs fs ds rs → l ∈ show_lines hs' fs' ds' rs') →
  (∀ h, h ∈ hs → h ∈ hs') ∧
  (∀ k a, (k, a) ∈ fs → ∃ a', (k, a') ∈ fs' ∧ told a = told a') ∧
  (∀ k a, (k, a) ∈ ds → ∃ a', (k, a') ∈ ds' ∧ told a = told a') ∧
  (∀ k a, (k, a) ∈ rs → (k, a) ∈ rs').
Proof.
  intros H. split_and!.
  - intros h Hh. destruct (proj1 (in_lines _ hs' fs' ds' rs') (H (show_handle h)
      (proj2 (in_lines _ _ _ _ _) (or_introl (ex_intro _ h (conj Hh eq_refl))))))
      as [(h' & ? & E)|[(k & a & _ & E)|[(k & a & _ & E)|(k & a & _ & E)]]].
    + apply show_handle_inj in E as ->. done.
    + symmetry in E. by apply (not_handle _ _ _ (file_ending a)) in E.
    + symmetry in E. by apply (not_handle _ _ _ (dir_ending a)) in E.
    + symmetry in E. by apply (not_handle _ _ _ (reg_ending a)) in E.
  - intros k a Hk. destruct (proj1 (in_lines _ hs' fs' ds' rs') (H
      (lit "    " ++ k ++ lit " file" ++ show_access a)
      (proj2 (in_lines _ _ _ _ _) (or_intror (or_introl (ex_intro _ k (ex_intro _ a (conj Hk eq_refl))))))))
      as [(h' & ? & E)|[(k' & a' & Hk' & E)|[(k' & a' & Hk' & E)|(k' & a' & Hk' & E)]]].
    + by apply (not_handle _ _ _ (file_ending a)) in E.
    + apply app_inv_head, (ending_unique _ _ _ _ (file_ending a) (file_ending a')) in E as [-> E].
      exists a'. split; [done|]. congruence.
    + apply app_inv_head, (ending_unique _ _ _ _ (file_ending a) (dir_ending a')) in E as [-> E]. congruence.
    + apply app_inv_head, (ending_unique _ _ _ _ (file_ending a) (reg_ending a')) in E as [-> E]. congruence.
  - intros k a Hk. destruct (proj1 (in_lines _ hs' fs' ds' rs') (H
      (lit "    " ++ k ++ lit " directory" ++ show_access a)
      (proj2 (in_lines _ _ _ _ _) (or_intror (or_intror (or_introl
        (ex_intro _ k (ex_intro _ a (conj Hk eq_refl)))))))))
      as [(h' & ? & E)|[(k' & a' & Hk' & E)|[(k' & a' & Hk' & E)|(k' & a' & Hk' & E)]]].
    + by apply (not_handle _ _ _ (dir_ending a)) in E.
    + apply app_inv_head, (ending_unique _ _ _ _ (dir_ending a) (file_ending a')) in E as [-> E]. congruence.
    + apply app_inv_head, (ending_unique _ _ _ _ (dir_ending a) (dir_ending a')) in E as [-> E].
      exists a'. split; [done|]. congruence.
    + apply app_inv_head, (ending_unique _ _ _ _ (dir_ending a) (reg_ending a')) in E as [-> E]. congruence.
  - intros k a Hk. destruct (proj1 (in_lines _ hs' fs' ds' rs') (H
      (lit "    " ++ k ++ lit " registry key" ++ show_reg a)
      (proj2 (in_lines _ _ _ _ _) (or_intror (or_intror (or_intror
        (ex_intro _ k (ex_intro _ a (conj Hk eq_refl)))))))))
      as [(h' & ? & E)|[(k' & a' & Hk' & E)|[(k' & a' & Hk' & E)|(k' & a' & Hk' & E)]]].
    + by apply (not_handle _ _ _ (reg_ending a)) in E.
    + apply app_inv_head, (ending_unique _ _ _ _ (reg_ending a) (file_ending a')) in E as [-> E]. congruence.
    + apply app_inv_head, (ending_unique _ _ _ _ (reg_ending a) (dir_ending a')) in E as [-> E]. congruence.
    + apply app_inv_head, (ending_unique _ _ _ _ (reg_ending a) (reg_ending a')) in E as [-> E].
      assert (a = a') as -> by congruence. done.
Qed.

Lemma endings_one_line x : x ∈ endings → newline ∉ x.1.
Proof.
  intros Hx. assert (forallb (λ x, negb (bool_decide (newline ∈ x.1))) endings = true) as H
    by (by vm_compute).
  rewrite forallb_forall in H. specialize (H x (proj1 (elem_of_list_In _ _) Hx)).
  apply negb_true_iff in H. by apply bool_decide_eq_false in H.
Qed.
Lemma rule_one_line k x : newline ∉ k → x ∈ endings →
  newline ∉ lit "    " ++ k ++ x.1 ∧ starts_with (lit " ") (lit "    " ++ k ++ x.1) = true.
Proof.
  intros Hk Hx. split; [|done]. rewrite !elem_of_app. intros [H|[H|H]]; [|done|].
  - revert H. apply (bool_decide_unpack _); vm_compute; exact I.
  - by apply endings_one_line in H.
Qed.
Lemma handle_one_line h :
  newline ∉ show_handle h ∧ starts_with (lit " ") (show_handle h) = true.
Proof.
  split; [|done]. unfold show_handle. rewrite !elem_of_app. intros [H|[H|H]].
  - revert H. apply (bool_decide_unpack _); vm_compute; exact I.
  - revert H. apply digits_no; [lia|]. apply (bool_decide_unpack _); vm_compute; exact I.
  - revert H. apply (bool_decide_unpack _); vm_compute; exact I.
Qed.
Lemma lines_one_line p hs fs ds rs : one_line p →
  fs ≡ₚ map_to_list (file_access p) → ds ≡ₚ map_to_list (dir_access p) →
  rs ≡ₚ map_to_list (regkey_access p) →
  ∀ x, x ∈ show_lines hs fs ds rs → newline ∉ x ∧ starts_with (lit " ") x = true.
Proof.
  intros Hp Hf Hd Hr x Hx.
  apply in_lines in Hx as [(h & ? & ->)|[(k & a & Hk & ->)|[(k & a & Hk & ->)|(k & a & Hk & ->)]]].
  - apply handle_one_line.
  - refine (rule_one_line k _ _ (file_ending a)). apply Hp. left.
    rewrite Hf in Hk. apply elem_of_map_to_list in Hk. by eapply elem_of_dom_2.
  - refine (rule_one_line k _ _ (dir_ending a)). apply Hp. right; left.
    rewrite Hd in Hk. apply elem_of_map_to_list in Hk. by eapply elem_of_dom_2.
  - refine (rule_one_line k _ _ (reg_ending a)). apply Hp. right; right.
    rewrite Hr in Hk. apply elem_of_map_to_list in Hk. by eapply elem_of_dom_2.
Qed.

Lemma show_policy_inj b hs fs ds rs b' hs' fs' ds' rs' :
  (∀ x, x ∈ show_lines hs fs ds rs → newline ∉ x ∧ starts_with (lit " ") x = true) →
  (∀ x, x ∈ show_lines hs' fs' ds' rs' → newline ∉ x ∧ starts_with (lit " ") x = true) →
  show_policy b hs fs ds rs = show_policy b' hs' fs' ds' rs' →
  b = b' ∧ show_lines hs fs ds rs = show_lines hs' fs' ds' rs'.
Proof.
  intros H H' E. unfold show_policy in E.
  set (l := show_lines hs fs ds rs) in *. set (l' := show_lines hs' fs' ds' rs') in *.
  clearbody l l'.
  assert (b = b') as <-.
  { apply (f_equal (λ s, nth 7 s x00)) in E. by destruct b, b'. }
  split; [done|]. apply app_inv_head in E.
  eapply (lines_inj l l' (lit "}" ++ [x0a])); [done|done|done|exact E].
Qed.

Lemma maps_told (m m' : gmap str access) l l' :
  l ≡ₚ map_to_list m → l' ≡ₚ map_to_list m' →
  (∀ k a, (k, a) ∈ l → ∃ a', (k, a') ∈ l' ∧ told a = told a') →
  (∀ k a, (k, a) ∈ l' → ∃ a', (k, a') ∈ l ∧ told a = told a') →
  ∀ k, told <$> m !! k = told <$> m' !! k.
Proof.
  intros Hl Hl' H H' k.
  assert (∀ a, m !! k = Some a → ∃ a', m' !! k = Some a' ∧ told a = told a') as A.
  { intros a Ha. destruct (H k a) as (a' & Ha' & ?).
    - rewrite Hl. by apply elem_of_map_to_list.
    - rewrite Hl' in Ha'. apply elem_of_map_to_list in Ha'. eauto. }
  assert (∀ a, m' !! k = Some a → ∃ a', m !! k = Some a' ∧ told a = told a') as A'.
  { intros a Ha. destruct (H' k a) as (a' & Ha' & ?).
    - rewrite Hl'. by apply elem_of_map_to_list.
    - rewrite Hl in Ha'. apply elem_of_map_to_list in Ha'. eauto. }
  destruct (m !! k) as [a|].
  - destruct (A a eq_refl) as (a' & -> & Ht). cbn [fmap option_fmap option_map]. by rewrite Ht.
  - destruct (m' !! k) as [a'|]; [|done]. by destruct (A' a' eq_refl) as (? & ? & _).
Qed.

(* ---------------------------------------------------------------- C132 *)

(** When no path has a line break, what is printed tells everything but which of the
    three other rights an entry has. *)
Theorem C132_told_partial p q s :
  one_line p → one_line q → prints p s → prints q s →
  audit_only p = audit_only q ∧ inherit_handles p = inherit_handles q ∧
  (∀ k, told <$> file_access p !! k = told <$> file_access q !! k) ∧
  (∀ k, told <$> dir_access p !! k = told <$> dir_access q !! k) ∧
  regkey_access p = regkey_access q.
Proof.
  intros Hp Hq (hs & fs & ds & rs & Hh & Hf & Hd & Hr & ->)
    (hs' & fs' & ds' & rs' & Hh' & Hf' & Hd' & Hr' & E).
  apply show_policy_inj in E as [Ha E];
    [|by apply (lines_one_line p)|by apply (lines_one_line q)].
  destruct (lines_told hs fs ds rs hs' fs' ds' rs') as (T1 & T2 & T3 & T4); [by rewrite E|].
  destruct (lines_told hs' fs' ds' rs' hs fs ds rs) as (U1 & U2 & U3 & U4); [by rewrite E|].
  split_and!; [done| | | |].
  - apply set_eq. intros h. rewrite <-!elem_of_elements, <-Hh, <-Hh'. split; auto.
  - by apply (maps_told _ _ fs fs').
  - by apply (maps_told _ _ ds ds').
  - apply map_eq. intros k. apply option_eq. intros a.
    rewrite <-!elem_of_map_to_list, <-Hr, <-Hr'. split; auto.
Qed.
Print Assumptions C132_told_partial.

(** On Linux, such policies printed alike give every request the same verdict. *)
Theorem C132_linux p q s req :
  one_line p → one_line q → prints p s → prints q s →
  fst (evaluate_request p req) = fst (evaluate_request q req).
Proof.
  intros Hp Hq Pp Pq.
  destruct (C132_told_partial p q s Hp Hq Pp Pq) as (Ha & _ & Hf & Hd & _).
  assert (∀ (m m' : gmap str access) k x, (∀ k, told <$> m !! k = told <$> m' !! k) →
    x = RRead ∨ x = RWrite → map_has m k x → map_has m' k x) as Hm.
  { intros m m' k x Hk Hx (a & Ea & Hax). specialize (Hk k). rewrite Ea in Hk.
    destruct (m' !! k) as [a'|] eqn:Ea'; [|done]. apply (inj Some) in Hk. exists a'.
    split; [done|]. unfold told in Hk. injection Hk as E1 E2 _.
    destruct Hx as [-> | ->]; cbn [has] in *; congruence. }
  assert (∀ path x, x = RRead ∨ x = RWrite →
    has (get_filepath_allowed_access slash p path) x =
    has (get_filepath_allowed_access slash q path) x) as He.
  { intros path x Hx. apply eq_bool_prop_intro. rewrite !Is_true_true.
    rewrite !allowed_access_walk_all. split.
    - intros [H|H]; [left|right]; [by eapply Hm|].
      eapply walk_all_mono; [|exact H]. intros k. by apply Hm.
    - intros [H|H]; [left|right].
      + eapply Hm; [|done|exact H]. intros k. by rewrite Hf.
      + eapply walk_all_mono; [|exact H]. intros k. apply Hm; [|done]. intros k'. by rewrite Hd. }
  unfold evaluate_request. cbn [fst]. rewrite Ha.
  destruct (audit_only q); [done|]. destruct req as [path flags|]; [|done].
  cbn [raw_verdict]. unfold check_file_open.
  pose proof (He path RRead (or_introl eq_refl)) as E1.
  pose proof (He path RWrite (or_intror eq_refl)) as E2. cbn [has] in E1, E2.
  by rewrite E1, E2.
Qed.
Print Assumptions C132_linux.

(** Which of the three: all are printed as the first. *)
Theorem C132_locks_refuted :
  ∀ path, path = lit "/data/db" →
  let p := build false [CallRule (AllowFileLock path true false false)] in
  let q := build false [CallRule (AllowFileLock path false false true)] in
  policy_eqb p q = false ∧
  ∃ s, prints p s ∧ prints q s ∧
    s = lit "Policy {" ++ [newline] ++ lit "    /data/db file block_readers" ++ [newline] ++
        lit "}" ++ [newline].
Proof.
  intros path ->. cbv zeta. split; [by vm_compute|]. eexists. split_and!; [| |reflexivity].
  - exists [], [(lit "/data/db", mkAccess false false true false false)], [], [].
    split_and!; by vm_compute.
  - exists [], [(lit "/data/db", mkAccess false false false false true)], [], [].
    split_and!; by vm_compute.
Qed.
Print Assumptions C132_locks_refuted.

(** On Windows that decides: two policies printed alike, one of which lets a worker keep
    other programs from reading the file. *)
Theorem C132_windows_refuted :
  let calls r d := [WinRule (AllowFileRead (lit "C:\a.db")) (Some (lit "C:\a.db"));
                    WinRule (AllowFileLock (lit "C:\a.db") r false d) (Some (lit "C:\a.db"))] in
  ∃ s f, prints (win_build false (calls true false)) s ∧ prints (win_build false (calls false true)) s ∧
    win_verdict false (calls true false) (WinFileOpen f) = Granted ∧
    win_verdict false (calls false true) (WinFileOpen f) ≠ Granted.
Proof.
  cbv zeta. eexists _, (ex_req (lit "\??\C:\a.db") 0x80100000 6 1 0x200000).
  split_and!; [| |by vm_compute|by vm_compute].
  - exists [], [(lit "\??\C:\a.db", mkAccess true false true false false)], [], [].
    split_and!; by vm_compute.
  - exists [], [(lit "\??\C:\a.db", mkAccess true false false false true)], [], [].
    split_and!; by vm_compute.
Qed.
Print Assumptions C132_windows_refuted.

(** A path with a line break is printed as two rules, one of which is not there: the policy
    that has that rule is printed alike and grants what this one refuses. *)
Theorem C132_break_refuted : ∃ p q s req,
  p = build false [CallRule (AllowDirRead (lit "/a file read" ++ [newline] ++ lit "    /b"))] ∧
  q = build false [CallRule (AllowFileRead (lit "/a")); CallRule (AllowDirRead (lit "/b"))] ∧
  prints p s ∧ prints q s ∧
  fst (evaluate_request q req) = Granted ∧
  fst (evaluate_request p req) ≠ Granted.
Proof.
  eexists _, _, _, (FileOpen (lit "/a") O_RDONLY). split; [reflexivity|]. split; [reflexivity|].
  split_and!; [| |by vm_compute|by vm_compute].
  - exists [], [], [(lit "/a file read" ++ [newline] ++ lit "    /b", mkAccess true false false false false)], [].
    split_and!; by vm_compute.
  - exists [], [(lit "/a", mkAccess true false false false false)],
      [(lit "/b", mkAccess true false false false false)], [].
    split_and!; by vm_compute.
Qed.
Print Assumptions C132_break_refuted.

Theorem C132_refuted : ¬ C132_full.
Proof.
  intros H. destruct (C132_locks_refuted _ eq_refl) as (E & s & Hp & Hq & _).
  rewrite (H _ _ s Hp Hq) in E. done.
Qed.
Print Assumptions C132_refuted.

(** A policy with one of each, printed. *)
Example C132_example :
  let p := build true [CallInherit 5 (Ok true); CallRule (AllowFileRead (lit "/etc/hosts"));
    CallRule (AllowFileLock (lit "/etc/hosts") false true true); CallRule (AllowDirWrite (lit "/tmp/"))] in
  one_line p ∧
  prints p (lit "Policy [/!\ audit mode, nothing will be blocked] {" ++ [newline] ++
    lit "    Inherit handle Handle { val: Some(5) }" ++ [newline] ++
    lit "    /etc/hosts file read block_readers block_readers" ++ [newline] ++
    lit "    /tmp directory write" ++ [newline] ++ lit "}" ++ [newline]).
Proof.
  cbv zeta. split.
  - assert (∀ (m : gmap str access), forallb (λ x, negb (bool_decide (newline ∈ x.1))) (map_to_list m) = true →
      ∀ k : str, k ∈ dom m → newline ∉ k) as Hm.
    { intros m Hm k [a Hk]%elem_of_dom. rewrite forallb_forall in Hm.
      apply elem_of_map_to_list, elem_of_list_In, Hm in Hk.
      apply negb_true_iff in Hk. by apply bool_decide_eq_false in Hk. }
    intros k [Hk|[Hk|Hk]].
    + revert Hk. apply Hm. by vm_compute.
    + revert Hk. apply Hm. by vm_compute.
    + exfalso. revert Hk. apply not_elem_of_dom. by vm_compute.
  - exists [5], [(lit "/etc/hosts", mkAccess true false false true true)],
      [(lit "/tmp", mkAccess false true false false false)], [].
    split_and!; by vm_compute.
Qed.
