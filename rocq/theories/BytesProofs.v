(** Lemmas about the string functions. *)
From stdpp Require Import prelude gmap.
From Coq Require Import Strings.Byte.
From Verif Require Import Bytes.

Lemma strip_suffix_Some sep p r : strip_suffix sep p = Some r ↔ p = r ++ [sep].
Proof.
  unfold strip_suffix. split.
  - intros H. destruct (reverse p) as [|c q] eqn:E; [done|].
    case_decide; [|done]. injection H as <-. subst c.
    rewrite <-(reverse_involutive p), E, reverse_cons. done.
  - intros ->. rewrite reverse_app. simpl. rewrite decide_True by done.
    by rewrite reverse_involutive.
Qed.

Lemma strip_suffix_None sep p : strip_suffix sep p = None ↔ ∀ r, p ≠ r ++ [sep].
Proof.
  split.
  - intros H r E. apply strip_suffix_Some in E. congruence.
  - intros H. destruct (strip_suffix sep p) as [r|] eqn:E; [|done].
    apply strip_suffix_Some in E. naive_solver.
Qed.

Lemma strip_suffix_or_self_cases sep p :
  (p = strip_suffix_or_self sep p ++ [sep]) ∨
  (strip_suffix_or_self sep p = p ∧ ∀ r, p ≠ r ++ [sep]).
Proof.
  unfold strip_suffix_or_self. destruct (strip_suffix sep p) as [r|] eqn:E.
  - left. by apply strip_suffix_Some.
  - right. split; [done|]. by apply strip_suffix_None.
Qed.

Lemma strip_suffix_or_self_snoc sep r : strip_suffix_or_self sep (r ++ [sep]) = r.
Proof.
  unfold strip_suffix_or_self.
  destruct (strip_suffix sep (r ++ [sep])) as [q|] eqn:E.
  - apply strip_suffix_Some in E. apply app_inj_2 in E as [? _]; done.
  - apply strip_suffix_None with (r:=r) in E. done.
Qed.

Lemma strip_suffix_or_self_id sep p :
  (∀ r, p ≠ r ++ [sep]) → strip_suffix_or_self sep p = p.
Proof.
  intros H. unfold strip_suffix_or_self. by rewrite (proj2 (strip_suffix_None sep p)).
Qed.

Lemma strip_prefix_Some sep p r : strip_prefix sep p = Some r ↔ p = sep :: r.
Proof.
  destruct p as [|c q]; simpl; [naive_solver|]. case_decide; naive_solver.
Qed.

Lemma rsplit_once_Some sep p a b :
  rsplit_once sep p = Some (a, b) ↔ p = a ++ sep :: b ∧ sep ∉ b.
Proof.
  revert a b. induction p as [|c p IH]; intros a b; simpl.
  { split; [done|]. intros [H _]. by destruct a. }
  destruct (rsplit_once sep p) as [[a' b']|] eqn:E.
  - destruct (IH a' b') as [IH1 _]. destruct (IH1 eq_refl) as [-> Hb].
    split.
    + intros [= <- <-]. done.
    + intros [H Hb2]. destruct a as [|c' a].
      * simpl in H. injection H as _ H. subst b.
        exfalso. apply Hb2. apply elem_of_app. right. left.
      * simpl in H. injection H as <- H.
        destruct (IH a b) as [_ IH2]. rewrite H in IH2.
        specialize (IH2 (conj eq_refl Hb2)). injection IH2 as -> ->. done.
  - assert (sep ∉ p) as Hn.
    { clear IH. revert E. induction p as [|x p IHp]; simpl; intros E.
      - apply not_elem_of_nil.
      - destruct (rsplit_once sep p) as [[? ?]|] eqn:E2; [done|].
        case_decide; [done|]. apply not_elem_of_cons. split; [naive_solver|].
        by apply IHp. }
    case_decide as Hc.
    + subst c. split.
      * intros [= <- <-]. done.
      * intros [H Hb]. destruct a as [|c' a]; simpl in H.
        { by injection H as ->. }
        injection H as -> ->. exfalso. apply Hn. apply elem_of_app. right. left.
    + split; [done|]. intros [H Hb]. destruct a as [|c' a]; simpl in H.
      { injection H as -> _. done. }
      injection H as -> ->. exfalso. apply Hn. apply elem_of_app. right. left.
Qed.

Lemma rsplit_once_None sep p : rsplit_once sep p = None ↔ sep ∉ p.
Proof.
  split.
  - intros E Hin. apply elem_of_list_split in Hin as (l1 & l2 & ->).
    revert l1 E. induction l2 as [l2 IH] using (induction_ltof1 _ length). intros l1 E.
    destruct (decide (sep ∈ l2)) as [Hin|Hn].
    + apply elem_of_list_split in Hin as (l3 & l4 & ->).
      apply (IH l4) with (l1 := l1 ++ sep :: l3).
      * unfold ltof. rewrite app_length. simpl. lia.
      * rewrite <-app_assoc. simpl. done.
    + destruct (rsplit_once_Some sep (l1 ++ sep :: l2) l1 l2) as [_ H].
      rewrite H in E; done.
  - intros Hn. destruct (rsplit_once sep p) as [[a b]|] eqn:E; [|done].
    apply rsplit_once_Some in E as [-> _]. exfalso. apply Hn.
    apply elem_of_app. right. left.
Qed.

(** Joining pieces with a separator. *)
Fixpoint join (sep : byte) (cs : list str) : str :=
  match cs with
  | [] => []
  | [c] => c
  | c :: r => c ++ sep :: join sep r
  end.

Lemma split_not_nil sep p : split sep p ≠ [].
Proof.
  destruct p as [|c p]; simpl; [done|]. case_decide; [done|].
  by destruct (split sep p).
Qed.

Lemma split_join sep p : join sep (split sep p) = p.
Proof.
  induction p as [|c p IH]; simpl; [done|].
  case_decide as Hc.
  - subst. pose proof (split_not_nil sep p) as Hn.
    change (join sep ([] :: split sep p)) with
      (match split sep p with [] => [] | _ => [] ++ sep :: join sep (split sep p) end).
    destruct (split sep p) as [|h t] eqn:E; [done|]. rewrite <-IH. done.
  - destruct (split sep p) as [|h t] eqn:E; [by destruct (split_not_nil sep p)|].
    destruct t; simpl in *; by f_equal.
Qed.

Lemma split_no_sep sep p : Forall (λ c, sep ∉ c) (split sep p).
Proof.
  induction p as [|c p IH]; simpl.
  { constructor; [apply not_elem_of_nil|constructor]. }
  case_decide as Hc.
  - constructor; [apply not_elem_of_nil|done].
  - destruct (split sep p) as [|h t] eqn:E.
    + repeat constructor. apply not_elem_of_cons. split; [naive_solver|apply not_elem_of_nil].
    + inversion IH; subst. constructor; [|done].
      apply not_elem_of_cons. split; [naive_solver|done].
Qed.

Lemma split_of_no_sep sep c : sep ∉ c → split sep c = [c].
Proof.
  induction c as [|x c IH]; simpl; [done|]. intros H.
  apply not_elem_of_cons in H as [H1 H2]. rewrite decide_False by naive_solver.
  by rewrite IH.
Qed.

Lemma split_app sep c p : sep ∉ c → split sep (c ++ sep :: p) = c :: split sep p.
Proof.
  induction c as [|x c IH]; simpl; intros H.
  - by rewrite decide_True.
  - apply not_elem_of_cons in H as [H1 H2]. rewrite decide_False by naive_solver.
    by rewrite IH.
Qed.

Lemma join_cons sep c cs : cs ≠ [] → join sep (c :: cs) = c ++ sep :: join sep cs.
Proof. by destruct cs. Qed.

Lemma join_split sep cs :
  cs ≠ [] → Forall (λ c, sep ∉ c) cs → split sep (join sep cs) = cs.
Proof.
  induction cs as [|c cs IH]; [done|]. intros _ H. inversion H; subst.
  destruct cs as [|d cs].
  - simpl. by apply split_of_no_sep.
  - rewrite join_cons by done. rewrite split_app by done. by rewrite IH.
Qed.

Lemma starts_with_app pre p : starts_with pre p = true ↔ ∃ r, p = pre ++ r.
Proof.
  revert p. induction pre as [|a pre IH]; intros p; simpl; [naive_solver|].
  destruct p as [|b p]; [naive_solver|].
  rewrite andb_true_iff, bool_decide_eq_true, IH. naive_solver.
Qed.

Lemma contains_true n p : contains n p = true ↔ ∃ a b, p = a ++ n ++ b.
Proof.
  induction p as [|c p IH]; simpl contains.
  - rewrite orb_true_iff, starts_with_app. split.
    + intros [[r H]|H]; [|done]. exists [], r. done.
    + intros (a & b & H). left. exists b. destruct a; [done|done].
  - rewrite orb_true_iff, IH, starts_with_app. split.
    + intros [[r H]|(a & b & H)].
      * exists [], r. done.
      * exists (c :: a), b. by rewrite H.
    + intros (a & b & H). destruct a as [|x a].
      * left. by exists b.
      * right. simpl in H. injection H as -> ->. eauto.
Qed.

Lemma split_once_Some sep p a b :
  split_once sep p = Some (a, b) ↔ p = a ++ sep :: b ∧ sep ∉ a.
Proof.
  revert a b. induction p as [|c p IH]; intros a b; simpl.
  { split; [done|]. intros [H _]. by destruct a. }
  case_decide as Hc.
  - subst c. split.
    + intros [= <- <-]. split; [done|apply not_elem_of_nil].
    + intros [H Hn]. destruct a as [|x a]; simpl in H; [by injection H as ->|].
      injection H as <- _. exfalso. apply Hn. left.
  - destruct (split_once sep p) as [[a' b']|] eqn:E.
    + destruct (IH a' b') as [IH1 _]. destruct (IH1 eq_refl) as [-> Ha].
      split.
      * intros [= <- <-]. split; [done|]. apply not_elem_of_cons. naive_solver.
      * intros [H Hn]. destruct a as [|x a]; simpl in H.
        { injection H as -> _. done. }
        injection H as -> H. apply not_elem_of_cons in Hn as [Hn1 Hn2].
        destruct (IH a b) as [_ IH2]. specialize (IH2 (conj H Hn2)).
        by injection IH2 as -> ->.
    + split; [done|]. intros [H Hn]. destruct a as [|x a]; simpl in H.
      { injection H as -> _. done. }
      injection H as -> H. apply not_elem_of_cons in Hn as [Hn1 Hn2].
      destruct (IH a b) as [_ IH2]. specialize (IH2 (conj H Hn2)). done.
Qed.

Lemma byte_to_N_lt b : (Byte.to_N b < 256)%N.
Proof. pose proof (Byte.to_N_bounded b). lia. Qed.

Lemma byte_of_N_to_N b : byte_of_N (Byte.to_N b) = b.
Proof.
  unfold byte_of_N. rewrite N.mod_small by apply byte_to_N_lt. by rewrite Byte.of_to_N.
Qed.

Lemma to_N_byte_of_N n : Byte.to_N (byte_of_N n) = (n mod 256)%N.
Proof.
  unfold byte_of_N. destruct (Byte.of_N (n mod 256)) as [b|] eqn:E.
  - by apply Byte.to_of_N.
  - exfalso. pose proof (N.mod_lt n 256). destruct (Byte.of_N_None_iff (n mod 256)%N) as [H1 _].
    specialize (H1 E). lia.
Qed.

Lemma byte_to_N_inj a b : Byte.to_N a = Byte.to_N b → a = b.
Proof. intros H. by rewrite <-(byte_of_N_to_N a), H, byte_of_N_to_N. Qed.
