(** Lemmas about the OS-independent policy model. *)
From stdpp Require Import prelude gmap.
From Verif Require Import Bytes BytesProofs PolicyModel PolicySpec.

(** Names that are non-empty and contain no separator. *)
Definition plain_name (sep : byte) (c : str) : Prop := c ≠ [] ∧ sep ∉ c.

Lemma good_plain sep c : good_name sep c → plain_name sep c.
Proof. intros (? & ? & _). done. Qed.

Lemma render_app sep a b : render sep (a ++ b) = render sep a ++ render sep b.
Proof. unfold render. by rewrite map_app, concat_app. Qed.

Lemma render_snoc sep a c : render sep (a ++ [c]) = render sep a ++ sep :: c.
Proof. rewrite render_app. unfold render at 2. simpl. by rewrite app_nil_r. Qed.

Lemma render_join sep cs : cs ≠ [] → render sep cs = sep :: join sep cs.
Proof.
  induction cs as [|c cs IH]; [done|]. intros _.
  change (render sep (c :: cs)) with ((sep :: c) ++ render sep cs).
  destruct cs as [|d cs].
  - unfold render. simpl. by rewrite app_nil_r.
  - rewrite IH by done. reflexivity.
Qed.

Lemma render_nil_inv sep cs : render sep cs = [] → cs = [].
Proof. by destruct cs. Qed.

Lemma render_not_trailing sep cs :
  Forall (plain_name sep) cs → ∀ r, render sep cs ≠ r ++ [sep].
Proof.
  intros H r E. destruct cs as [|c cs _] using rev_ind.
  { by destruct r. }
  rewrite render_snoc in E. apply Forall_app in H as [_ H].
  inversion H as [|? ? [Hc1 Hc2]]; subst.
  destruct c as [|x c _] using rev_ind; [done|].
  assert ((render sep cs ++ sep :: c) ++ [x] = r ++ [sep]) as E2
    by (rewrite <-E, <-app_assoc; done).
  apply app_inj_2 in E2 as [_ E2]; [|done]. injection E2 as ->.
  apply Hc2. apply elem_of_app. right. left.
Qed.

Lemma strip_render sep cs :
  Forall (plain_name sep) cs → strip_suffix_or_self sep (render sep cs) = render sep cs.
Proof. intros H. apply strip_suffix_or_self_id. by apply render_not_trailing. Qed.

Lemma strip_names sep p cs :
  Forall (plain_name sep) cs →
  strip_suffix_or_self sep p = render sep cs ↔ names sep p cs.
Proof.
  intros H. unfold names. split.
  - intros E. destruct (strip_suffix_or_self_cases sep p) as [E2|[E2 _]].
    + right. by rewrite E2, E.
    + left. by rewrite <-E2.
  - intros [->| ->].
    + by apply strip_render.
    + apply strip_suffix_or_self_snoc.
Qed.

Lemma render_inj sep a b :
  Forall (plain_name sep) a → Forall (plain_name sep) b →
  render sep a = render sep b → a = b.
Proof.
  intros Ha Hb E.
  destruct a as [|x a].
  { symmetry in E. by apply render_nil_inv in E. }
  destruct b as [|y b]; [done|].
  rewrite !render_join in E by done.
  assert (join sep (x :: a) = join sep (y :: b)) as E2 by (by injection E).
  clear E. trans (split sep (join sep (x :: a))).
  - symmetry. apply join_split; [done|].
    eapply Forall_impl; [exact Ha|]. by intros ? [? ?].
  - rewrite E2. apply join_split; [done|].
    eapply Forall_impl; [exact Hb|]. by intros ? [? ?].
Qed.

Lemma strip_one_component_render sep cs c :
  Forall (plain_name sep) (cs ++ [c]) →
  strip_one_component sep (render sep (cs ++ [c])) =
    match cs with [] => None | _ => Some (render sep cs) end.
Proof.
  intros H. unfold strip_one_component.
  fold (strip_suffix_or_self sep (render sep (cs ++ [c]))).
  rewrite strip_render by done. rewrite render_snoc.
  apply Forall_app in H as [H1 H2]. inversion H2 as [|? ? [Hc1 Hc2]]; subst.
  rewrite (proj2 (rsplit_once_Some sep _ (render sep cs) c)) by done.
  destruct cs as [|x cs]; [done|]. done.
Qed.

Lemma strip_one_component_shorter sep p q :
  strip_one_component sep p = Some q → length q < length p.
Proof.
  unfold strip_one_component.
  fold (strip_suffix_or_self sep p).
  assert (length (strip_suffix_or_self sep p) ≤ length p) as Hl.
  { destruct (strip_suffix_or_self_cases sep p) as [E|[E _]].
    - rewrite E at 2. rewrite app_length. lia.
    - by rewrite E. }
  destruct (rsplit_once sep (strip_suffix_or_self sep p)) as [[a b]|] eqn:E; [|done].
  apply rsplit_once_Some in E as [E _]. destruct a as [|x a]; [done|].
  intros [= <-]. rewrite E in Hl. rewrite app_length in Hl. simpl in *. lia.
Qed.

(** The fuel used by the model is never exhausted: with enough fuel the walk
    satisfies the equation of the [while] loop. *)
Lemma walk_fuel sep m f1 f2 p a :
  length p < f1 → length p < f2 → walk f1 sep m p a = walk f2 sep m p a.
Proof.
  revert f2 p a. induction f1 as [|f1 IH]; intros f2 p a H1 H2; [lia|].
  destruct f2 as [|f2]; [lia|]. simpl.
  destruct (access_full a); [done|].
  destruct (strip_one_component sep p) as [q|] eqn:E; [|done].
  apply strip_one_component_shorter in E. apply IH; lia.
Qed.

Lemma walk_unfold sep m p a :
  walk (S (length p)) sep m p a =
    if access_full a then a
    else match strip_one_component sep p with
         | Some q => walk (S (length q)) sep m q (or_lookup m p a)
         | None => or_lookup m p a
         end.
Proof.
  change (walk (S (length p)) sep m p a) with
    (if access_full a then a
     else match strip_one_component sep p with
          | Some q => walk (length p) sep m q (or_lookup m p a)
          | None => or_lookup m p a
          end).
  destruct (access_full a); [done|].
  destruct (strip_one_component sep p) as [q|] eqn:E; [|done].
  apply strip_one_component_shorter in E. apply walk_fuel; lia.
Qed.

Lemma get_filepath_allowed_access_loop sep p path :
  get_filepath_allowed_access sep p path =
    walk (S (length (strip_suffix_or_self sep path))) sep (dir_access p)
      (strip_suffix_or_self sep path)
      (or_lookup (file_access p) (strip_suffix_or_self sep path) no_access).
Proof. done. Qed.

(** Rights as projections. *)
Definition has (a : access) (x : right) : bool :=
  match x with
  | RRead => a_read a
  | RWrite => a_write a
  | RBlockReaders => a_block_readers a
  | RBlockWriters => a_block_writers a
  | RBlockDeleters => a_block_deleters a
  end.

Lemma has_or a b x : has (access_or a b) x = has a x || has b x.
Proof. by destruct x. Qed.

Lemma has_no_access x : has no_access x = false.
Proof. by destruct x. Qed.

Lemma access_full_has a x : access_full a = true → has a x = true.
Proof.
  unfold access_full. destruct a as [[] [] [] [] []]; simpl; try done; by destruct x.
Qed.

Definition map_has (m : gmap str access) (k : str) (x : right) : Prop :=
  ∃ b, m !! k = Some b ∧ has b x = true.

Lemma has_or_lookup m k a x :
  has (or_lookup m k a) x = true ↔ has a x = true ∨ map_has m k x.
Proof.
  unfold or_lookup, map_has. destruct (m !! k) as [b|] eqn:E.
  - rewrite has_or, orb_true_iff. naive_solver.
  - naive_solver.
Qed.

(** The walk collects the rights of every non-empty ancestor. *)
Lemma walk_has sep m cs f a x :
  Forall (plain_name sep) cs → cs ≠ [] → length (render sep cs) < f →
  has (walk f sep m (render sep cs) a) x = true ↔
  has a x = true ∨
  ∃ anc rest, cs = anc ++ rest ∧ anc ≠ [] ∧ map_has m (render sep anc) x.
Proof.
  revert f a. induction cs as [|c cs IH] using rev_ind; intros f a H Hn Hf; [done|].
  destruct f as [|f]; [lia|]. simpl.
  assert (Forall (plain_name sep) cs) as Hcs by (by apply Forall_app in H as [? ?]).
  destruct (access_full a) eqn:Ef.
  { rewrite (access_full_has a x) by done. naive_solver. }
  rewrite strip_one_component_render by done.
  destruct cs as [|d cs'] eqn:Ecs.
  - simpl. rewrite has_or_lookup. split.
    + intros [?|?]; [by left|]. right. exists [c], []. done.
    + intros [?|(anc & rest & E & Hanc & Hm)]; [by left|].
      destruct anc as [|y anc]; [done|]. simpl in E. injection E as <- E.
      symmetry in E. apply app_nil in E as [-> ->]. by right.
  - rewrite <-Ecs in *. rewrite IH.
    + rewrite has_or_lookup. split.
      * intros [[?|?]|(anc & rest & E & Hanc & Hm)].
        -- by left.
        -- right. exists (cs ++ [c]), []. rewrite app_nil_r. split; [done|].
           split; [by destruct cs|done].
        -- right. exists anc, (rest ++ [c]). rewrite E, app_assoc. done.
      * intros [?|(anc & rest & E & Hanc & Hm)]; [by left; left|].
        destruct rest as [|z rest _] using rev_ind.
        -- rewrite app_nil_r in E. subst anc. left. by right.
        -- rewrite app_assoc in E. apply app_inj_2 in E as [E _]; [|done].
           right. exists anc, rest. done.
    + done.
    + by rewrite Ecs.
    + rewrite render_snoc, app_length in Hf. simpl in Hf. lia.
Qed.

Lemma allowed_access_has sep p path cs x :
  Forall (plain_name sep) cs → cs ≠ [] → names sep path cs →
  has (get_filepath_allowed_access sep p path) x = true ↔
  map_has (file_access p) (render sep cs) x ∨
  ∃ anc rest, cs = anc ++ rest ∧ anc ≠ [] ∧ map_has (dir_access p) (render sep anc) x.
Proof.
  intros H Hn Hp. unfold get_filepath_allowed_access.
  apply strip_names in Hp; [|done]. rewrite Hp.
  rewrite walk_has by (done || lia). rewrite has_or_lookup, has_no_access. naive_solver.
Qed.

(** Without canonical form: every right found comes from a map key that is the
    path itself or a part of it that ends just before a separator. *)
Lemma strip_one_component_prefix sep p q :
  strip_one_component sep p = Some q →
  q ≠ [] ∧ ∃ r, p = q ++ sep :: r.
Proof.
  unfold strip_one_component. fold (strip_suffix_or_self sep p).
  destruct (rsplit_once sep (strip_suffix_or_self sep p)) as [[a b]|] eqn:E; [|done].
  apply rsplit_once_Some in E as [E _]. destruct a as [|y a]; [done|].
  intros [= <-]. split; [done|].
  destruct (strip_suffix_or_self_cases sep p) as [E2|[E2 _]].
  - exists (b ++ [sep]). rewrite E2, E. by rewrite <-app_assoc.
  - exists b. by rewrite <-E, E2.
Qed.

Lemma walk_has_prefix sep m f p a x :
  has (walk f sep m p a) x = true →
  has a x = true ∨
  ∃ k, map_has m k x ∧ (k = p ∨ (k ≠ [] ∧ ∃ r, p = k ++ sep :: r)).
Proof.
  revert p a. induction f as [|f IH]; intros p a; simpl; [by left|].
  destruct (access_full a) eqn:Ef; [by left|].
  destruct (strip_one_component sep p) as [q|] eqn:E.
  - intros H. apply IH in H as [H|(k & Hk & H)].
    + apply has_or_lookup in H as [?|?]; [by left|]. right. exists p. naive_solver.
    + apply strip_one_component_prefix in E as (Hq & r & ->).
      right. exists k. split; [done|]. right.
      destruct H as [->|(Hk2 & r' & ->)]; [by eauto|].
      split; [done|]. exists (r' ++ sep :: r). by rewrite <-app_assoc.
  - intros H. apply has_or_lookup in H as [?|?]; [by left|]. right. exists p. naive_solver.
Qed.

(** Adding rules. *)
Lemma map_has_map_or m k a k' x :
  map_has (map_or m k a) k' x ↔ map_has m k' x ∨ (k = k' ∧ has a x = true).
Proof.
  unfold map_has, map_or. destruct (decide (k = k')) as [->|Hne].
  - rewrite lookup_insert. split.
    + intros (b & [= <-] & H). rewrite has_or, orb_true_iff in H.
      destruct H as [H|H]; [|by right].
      destruct (m !! k') as [b|]; simpl in H; [left; eauto|].
      by rewrite has_no_access in H.
    + intros H. eexists. split; [done|]. rewrite has_or, orb_true_iff.
      destruct H as [(b & E & H)|[_ H]]; [left; by rewrite E|by right].
  - rewrite lookup_insert_ne by done. naive_solver.
Qed.

Lemma allow_one_file sep dir a p path k x :
  map_has (file_access (allow_one sep dir a p path)) k x ↔
  map_has (file_access p) k x ∨
  (dir = false ∧ strip_suffix_or_self sep path = k ∧ has a x = true).
Proof.
  unfold allow_one. destruct dir; simpl.
  - naive_solver.
  - rewrite map_has_map_or. naive_solver.
Qed.

Lemma allow_one_dir sep dir a p path k x :
  map_has (dir_access (allow_one sep dir a p path)) k x ↔
  map_has (dir_access p) k x ∨
  (dir = true ∧ strip_suffix_or_self sep path = k ∧ has a x = true).
Proof.
  unfold allow_one. destruct dir; simpl.
  - rewrite map_has_map_or. naive_solver.
  - naive_solver.
Qed.

(** The decision only depends on [map_has]. *)
Definition same_rights (p q : policy) : Prop :=
  (∀ k x, map_has (file_access p) k x ↔ map_has (file_access q) k x) ∧
  (∀ k x, map_has (dir_access p) k x ↔ map_has (dir_access q) k x).

Lemma access_ext a b : (∀ x, has a x = has b x) → a = b.
Proof.
  intros H. pose proof (H RRead). pose proof (H RWrite). pose proof (H RBlockReaders).
  pose proof (H RBlockWriters). pose proof (H RBlockDeleters).
  destruct a, b; simpl in *. congruence.
Qed.

(** The walk without the early exit. *)
Fixpoint walk_all (fuel : nat) (sep : byte) (m : gmap str access) (cur : str) (x : right)
  : Prop :=
  match fuel with
  | O => False
  | S f => map_has m cur x ∨
      match strip_one_component sep cur with
      | Some q => walk_all f sep m q x
      | None => False
      end
  end.

Lemma walk_walk_all f sep m p a x :
  has (walk f sep m p a) x = true ↔ has a x = true ∨ walk_all f sep m p x.
Proof.
  revert p a. induction f as [|f IH]; intros p a; simpl; [naive_solver|].
  destruct (access_full a) eqn:Ef.
  { rewrite (access_full_has a x) by done. naive_solver. }
  destruct (strip_one_component sep p) as [q|].
  - rewrite IH, has_or_lookup. naive_solver.
  - rewrite has_or_lookup. naive_solver.
Qed.

Lemma walk_all_mono f sep m m' p x :
  (∀ k, map_has m k x → map_has m' k x) → walk_all f sep m p x → walk_all f sep m' p x.
Proof.
  intros H. revert p. induction f as [|f IH]; intros p; simpl; [done|].
  intros [?|?]; [left; auto|]. right. destruct (strip_one_component sep p); [auto|done].
Qed.

Lemma allowed_access_walk_all sep p path x :
  has (get_filepath_allowed_access sep p path) x = true ↔
  map_has (file_access p) (strip_suffix_or_self sep path) x ∨
  walk_all (S (length (strip_suffix_or_self sep path))) sep (dir_access p)
    (strip_suffix_or_self sep path) x.
Proof.
  unfold get_filepath_allowed_access.
  rewrite walk_walk_all, has_or_lookup, has_no_access. naive_solver.
Qed.

Lemma allowed_access_mono sep p q path x :
  (∀ k, map_has (file_access p) k x → map_has (file_access q) k x) →
  (∀ k, map_has (dir_access p) k x → map_has (dir_access q) k x) →
  has (get_filepath_allowed_access sep p path) x = true →
  has (get_filepath_allowed_access sep q path) x = true.
Proof.
  intros H1 H2. rewrite !allowed_access_walk_all. intros [?|?]; [left; auto|right].
  by eapply walk_all_mono.
Qed.

Lemma same_rights_access sep p q path :
  same_rights p q →
  get_filepath_allowed_access sep p path = get_filepath_allowed_access sep q path.
Proof.
  intros [H1 H2]. apply access_ext. intros x. apply eq_bool_prop_intro.
  rewrite !Is_true_true. split; apply allowed_access_mono; naive_solver.
Qed.
