(** Proofs about the Windows policy decision. *)
From stdpp Require Import prelude gmap.
From Verif Require Import Bytes BytesProofs PolicyModel PolicySpec PolicyProofs
  LinuxPolicyModel LinuxPolicySpec LinuxPolicyProofs WinPolicyModel WinPolicySpec.
Local Open Scope Z_scope.

(** Bits. *)
Lemma only_bits_spec m l w :
  0 ≤ m < 2 ^ 32 → bits_of m = l → Z.land w (Z.lnot m) = 0 ↔ only_bits l w.
Proof.
  intros Hm <-. rewrite land_lnot_zero. unfold only_bits, bit.
  split; intros H n Hn Hb; apply testbit_bits_of; auto.
Qed.

Lemma some_bit_spec m l w :
  0 ≤ m < 2 ^ 32 → bits_of m = l → has_flag w m = true ↔ some_bit l w.
Proof. intros Hm <-. by apply has_flag_spec. Qed.

Lemma land_one_bit w m n :
  0 ≤ m < 2 ^ 32 → bits_of m = [n] → (Z.land w m =? 0) = false ↔ bit w n.
Proof.
  intros Hm E. pose proof (some_bit_spec m [n] w Hm E) as H.
  unfold has_flag in H. rewrite negb_true_iff in H. rewrite H.
  unfold some_bit. setoid_rewrite elem_of_list_singleton. naive_solver.
Qed.

Lemma contains_z_spec l x : contains_z l x = true ↔ x ∈ l.
Proof.
  unfold contains_z. rewrite existsb_exists. setoid_rewrite Z.eqb_eq.
  setoid_rewrite <-elem_of_list_In. naive_solver.
Qed.

Lemma disposition_spec x :
  contains_z SUPPORTED_FILE_CREATE_DISPOSITIONS x = true ↔ 0 ≤ x ≤ 5.
Proof.
  rewrite contains_z_spec. unfold SUPPORTED_FILE_CREATE_DISPOSITIONS, FILE_SUPERSEDE,
    FILE_CREATE, FILE_OPEN, FILE_OPEN_IF, FILE_OVERWRITE, FILE_OVERWRITE_IF.
  rewrite !elem_of_cons, elem_of_nil. lia.
Qed.

Lemma requests_read_win f :
  0 ≤ fr_disposition f ≤ 5 → file_requests_read f = true ↔ file_needs_read f.
Proof.
  intros Hd. unfold file_requests_read, file_needs_read.
  rewrite andb_true_iff, negb_true_iff, <-not_true_iff_false, contains_z_spec.
  unfold file_reads. rewrite (some_bit_spec _ [0; 3; 7; 28; 31]) by (by vm_compute).
  unfold FILE_SUPERSEDE, FILE_CREATE, FILE_OVERWRITE, FILE_OVERWRITE_IF.
  rewrite !elem_of_cons, elem_of_nil. split; (intros [? ?]; split; [done|lia]).
Qed.

Lemma requests_write_win f : file_requests_write f = true ↔ file_writes f.
Proof.
  unfold file_requests_write, file_writes.
  rewrite !orb_true_iff, negb_true_iff, Z.eqb_neq.
  rewrite (some_bit_spec _ [1; 2; 4; 8; 16; 18; 19; 28; 30]) by (by vm_compute).
  rewrite (some_bit_spec FILE_DELETE_ON_CLOSE [12]) by (by vm_compute).
  unfold some_bit at 2. setoid_rewrite elem_of_list_singleton.
  unfold FILE_OPEN. destruct (fr_ea f); naive_solver.
Qed.

(** Rules and maps. *)
Lemma drive_absolute_spec p :
  take 2 (drop 1 p) = lit ":\" ↔ drive_absolute p.
Proof.
  unfold drive_absolute. split.
  - destruct p as [|d [|x [|y rest]]]; try done. simpl. intros [= -> ->]. by exists d, rest.
  - intros (d & rest & ->). done.
Qed.

Lemma win_apply_rule_eq p r full :
  win_apply_rule p r full =
    Ok (if bool_decide (take 2 (drop 1 (default (rule_path r) full)) = lit ":\")
        then allow_one backslash (rule_dirb r) (rule_access r) p
               (nt_form (default (rule_path r) full))
        else p).
Proof.
  destruct r; simpl; unfold allow_file_access, win_derive_file_paths;
    by destruct (bool_decide _).
Qed.

Definition win_hits (dir : bool) (k : str) (x : right) (c : win_call) : Prop :=
  ∃ r full, c = WinRule r full ∧ rule_dirb r = dir ∧
    drive_absolute (default (rule_path r) full) ∧
    strip_suffix_or_self backslash (nt_form (default (rule_path r) full)) = k ∧
    has (rule_access r) x = true.

Lemma win_call_maps p c :
  (¬ (∃ r full, c = WinRule r full)) →
  file_access (win_apply_call_ignore p c) = file_access p ∧
  dir_access (win_apply_call_ignore p c) = dir_access p.
Proof.
  intros Hc. unfold win_apply_call_ignore. destruct c as [r full|path sid|path sid|cb|raw inh];
    simpl; try done.
  - exfalso. eauto.
  - unfold allow_regkey_access. destruct (derive_reg_key_paths sid path) as [l|]; [|done].
    generalize p. induction l as [|y l IH]; intros q; simpl; [done|]. by rewrite !(proj1 (IH _)), !(proj2 (IH _)).
  - unfold allow_regkey_access. destruct (derive_reg_key_paths sid path) as [l|]; [|done].
    generalize p. induction l as [|y l IH]; intros q; simpl; [done|]. by rewrite !(proj1 (IH _)), !(proj2 (IH _)).
  - unfold allow_inherit_handle. by destruct inh as [[]|].
Qed.

Lemma win_call_rule c :
  (∃ r full, c = WinRule r full) ∨ ¬ (∃ r full, c = WinRule r full).
Proof. destruct c; [left; eauto|..]; right; by intros (? & ? & ?). Qed.

Lemma win_call_file p c k x :
  map_has (file_access (win_apply_call_ignore p c)) k x ↔
  map_has (file_access p) k x ∨ win_hits false k x c.
Proof.
  destruct (win_call_rule c) as [(r & full & ->)|Hc].
  2:{ rewrite (proj1 (win_call_maps p c Hc)). unfold win_hits. split; [by left|].
      intros [?|(r & full & -> & _)]; [done|]. exfalso. eauto. }
  unfold win_apply_call_ignore. simpl. rewrite win_apply_rule_eq. unfold win_hits.
  destruct (bool_decide _) eqn:E.
  - apply bool_decide_eq_true in E. apply drive_absolute_spec in E.
    rewrite allow_one_file. split; [|naive_solver].
    intros [?|(? & ? & ?)]; [by left|]. right. by exists r, full.
  - apply bool_decide_eq_false in E. rewrite drive_absolute_spec in E. naive_solver.
Qed.

Lemma win_call_dir p c k x :
  map_has (dir_access (win_apply_call_ignore p c)) k x ↔
  map_has (dir_access p) k x ∨ win_hits true k x c.
Proof.
  destruct (win_call_rule c) as [(r & full & ->)|Hc].
  2:{ rewrite (proj2 (win_call_maps p c Hc)). unfold win_hits. split; [by left|].
      intros [?|(r & full & -> & _)]; [done|]. exfalso. eauto. }
  unfold win_apply_call_ignore. simpl. rewrite win_apply_rule_eq. unfold win_hits.
  destruct (bool_decide _) eqn:E.
  - apply bool_decide_eq_true in E. apply drive_absolute_spec in E.
    rewrite allow_one_dir. split; [|naive_solver].
    intros [?|(? & ? & ?)]; [by left|]. right. by exists r, full.
  - apply bool_decide_eq_false in E. rewrite drive_absolute_spec in E. naive_solver.
Qed.

Lemma map_has_empty k x : ¬ map_has ∅ k x.
Proof. intros (b & E & _). by rewrite lookup_empty in E. Qed.

Lemma win_build_file audit calls k x :
  map_has (file_access (win_build audit calls)) k x ↔
  ∃ c, c ∈ calls ∧ win_hits false k x c.
Proof.
  unfold win_build.
  assert (∀ p, map_has (file_access (foldl win_apply_call_ignore p calls)) k x ↔
    map_has (file_access p) k x ∨ ∃ c, c ∈ calls ∧ win_hits false k x c) as H.
  { induction calls as [|c calls IH]; intros p; simpl.
    - setoid_rewrite elem_of_nil. split; [by left|]. by intros [?|(? & ? & _)].
    - rewrite IH, win_call_file, exists_cons. tauto. }
  rewrite H. split; [|by right]. intros [H1|?]; [|done].
  exfalso. destruct audit; exact (map_has_empty _ _ H1).
Qed.

Lemma win_build_dir audit calls k x :
  map_has (dir_access (win_build audit calls)) k x ↔
  ∃ c, c ∈ calls ∧ win_hits true k x c.
Proof.
  unfold win_build.
  assert (∀ p, map_has (dir_access (foldl win_apply_call_ignore p calls)) k x ↔
    map_has (dir_access p) k x ∨ ∃ c, c ∈ calls ∧ win_hits true k x c) as H.
  { induction calls as [|c calls IH]; intros p; simpl.
    - setoid_rewrite elem_of_nil. split; [by left|]. by intros [?|(? & ? & _)].
    - rewrite IH, win_call_dir, exists_cons. tauto. }
  rewrite H. split; [|by right]. intros [H1|?]; [|done].
  exfalso. destruct audit; exact (map_has_empty _ _ H1).
Qed.

Lemma win_call_audit p c : audit_only (win_apply_call_ignore p c) = audit_only p.
Proof.
  unfold win_apply_call_ignore. destruct c as [r full|path sid|path sid|cb|raw inh].
  - simpl. rewrite win_apply_rule_eq. destruct (bool_decide _); [|done].
    unfold allow_one. by destruct (rule_dirb r).
  - simpl. unfold allow_regkey_access. destruct (derive_reg_key_paths sid path) as [l|]; [|done].
    generalize p. induction l as [|y l IH]; intros q; simpl; [done|]. by rewrite IH.
  - simpl. unfold allow_regkey_access. destruct (derive_reg_key_paths sid path) as [l|]; [|done].
    generalize p. induction l as [|y l IH]; intros q; simpl; [done|]. by rewrite IH.
  - done.
  - simpl. unfold allow_inherit_handle. by destruct inh as [[]|].
Qed.

Lemma win_build_audit audit calls : audit_only (win_build audit calls) = audit.
Proof.
  unfold win_build. trans (audit_only (initial_policy audit)); [|by destruct audit].
  generalize (initial_policy audit). induction calls as [|c calls IH]; intros p; simpl; [done|].
  by rewrite IH, win_call_audit.
Qed.

Lemma well_formed_plain cs : well_formed cs → Forall (plain_name backslash) cs.
Proof. by intros [_ H]. Qed.

Lemma well_formed_prefix anc rest :
  well_formed (anc ++ rest) → anc ≠ [] → well_formed anc.
Proof. intros [_ H] Hn. split; [done|]. by apply Forall_app in H as [? _]. Qed.

Lemma win_hits_names dir cs x c :
  Forall (plain_name backslash) cs →
  win_hits dir (render backslash cs) x c ↔
  ∃ r full, c = WinRule r full ∧ rule_dirb r = dir ∧
    drive_absolute (default (rule_path r) full) ∧
    names backslash (nt_form (default (rule_path r) full)) cs ∧ rule_gives r x.
Proof.
  intros Hc. unfold win_hits. setoid_rewrite rule_access_spec.
  setoid_rewrite strip_names; [|done]. done.
Qed.

Lemma win_rights audit calls path cs x :
  well_formed cs → names backslash path cs →
  has (get_filepath_allowed_access backslash (win_build audit calls) path) x = true ↔
  win_entitled calls cs x.
Proof.
  intros Hc Hp. pose proof (well_formed_plain cs Hc) as Hpl.
  rewrite (allowed_access_has backslash _ path cs x Hpl (proj1 Hc) Hp).
  rewrite win_build_file. setoid_rewrite win_build_dir.
  unfold win_entitled, win_covers. split.
  - intros [(c & Hin & Hh)|(anc & rest & E & Ha & c & Hin & Hh)].
    + rewrite win_hits_names in Hh by done. destruct Hh as (r & full & -> & H1 & H2 & H3 & H4).
      exists r, full. split_and!; try done. left. split; [|done].
      rewrite <-rule_dirb_spec. by rewrite H1.
    + assert (Forall (plain_name backslash) anc) as Hanc
        by (rewrite E in Hpl; by apply Forall_app in Hpl as [? _]).
      rewrite win_hits_names in Hh by done. destruct Hh as (r & full & -> & H1 & H2 & H3 & H4).
      exists r, full. split_and!; try done. right. split; [by apply rule_dirb_spec|]. eauto.
  - intros (r & full & Hin & (Hd & [[H1 H2]|[H1 (anc & rest & E & Ha & H2)]]) & H3).
    + left. exists (WinRule r full). split; [done|]. rewrite win_hits_names by done.
      exists r, full. split_and!; try done. apply not_true_iff_false. by rewrite rule_dirb_spec.
    + right. exists anc, rest. split_and!; try done. exists (WinRule r full). split; [done|].
      rewrite win_hits_names
        by (rewrite E in Hpl; by apply Forall_app in Hpl as [? _]).
      exists r, full. split_and!; try done. by apply rule_dirb_spec.
Qed.

Lemma names_backslash p cs : cs ≠ [] → names backslash p cs → win_path_is_sane p = true.
Proof.
  intros Hn. unfold names. rewrite render_join by done. intros [-> | ->]; done.
Qed.

(** The decision in terms of rights on the path. *)
Lemma win_check_release p f :
  win_check_file_open false p f = Granted ↔
  file_supported f ∧ win_path_is_sane (fr_path f) = true ∧
  (∃ x, has (get_filepath_allowed_access backslash p (fr_path f)) x = true) ∧
  ∀ x, file_needs f x → has (get_filepath_allowed_access backslash p (fr_path f)) x = true.
Proof.
  unfold win_check_file_open. cbn [andb]. unfold file_supported.
  rewrite <-(only_bits_spec (ors [FILE_ALWAYS_GRANTED_RIGHTS; FILE_READ_RIGHTS; FILE_WRITE_RIGHTS])
    [0; 1; 2; 3; 4; 7; 8; 16; 17; 18; 19; 20; 28; 30; 31]) by (by vm_compute).
  rewrite <-(only_bits_spec SUPPORTED_FILE_ATTRIBUTES
    [7; 20; 25; 26; 27; 28; 29; 31]) by (by vm_compute).
  rewrite <-(land_one_bit _ FILE_FLAG_OPEN_REPARSE_POINT 21) by (by vm_compute).
  rewrite <-disposition_spec.
  destruct (Z.eqb_spec (Z.land (fr_access f)
    (Z.lnot (ors [FILE_ALWAYS_GRANTED_RIGHTS; FILE_READ_RIGHTS; FILE_WRITE_RIGHTS]))) 0)
    as [E1|E1]; cbn [negb]; [|by split; [|tauto]].
  destruct (Z.eqb_spec (Z.land (fr_attributes f) (Z.lnot SUPPORTED_FILE_ATTRIBUTES)) 0)
    as [E2|E2]; cbn [negb]; [|by split; [|tauto]].
  destruct (Z.land (fr_options f) FILE_FLAG_OPEN_REPARSE_POINT =? 0) eqn:E3;
    [by split; [|naive_solver]|].
  destruct (contains_z SUPPORTED_FILE_CREATE_DISPOSITIONS (fr_disposition f)) eqn:E4; cbn [negb];
    [|by split; [|naive_solver]].
  destruct (win_path_is_sane (fr_path f)) eqn:E5; cbn [negb]; [|by split; [|naive_solver]].
  apply disposition_spec in E4.
  pose proof (requests_read_win f E4) as HR. pose proof (requests_write_win f) as HW.
  pose proof (land_one_bit (fr_share f) FILE_SHARE_READ 0 ltac:(by vm_compute) ltac:(by vm_compute)) as H0.
  pose proof (land_one_bit (fr_share f) FILE_SHARE_WRITE 1 ltac:(by vm_compute) ltac:(by vm_compute)) as H1.
  pose proof (land_one_bit (fr_share f) FILE_SHARE_DELETE 2 ltac:(by vm_compute) ltac:(by vm_compute)) as H2.
  set (a := get_filepath_allowed_access backslash p (fr_path f)) in *. clearbody a.
  assert ((∀ x, file_needs f x → has a x = true) ↔
    (file_requests_read f = true → a_read a = true) ∧
    (file_requests_write f = true → a_write a = true) ∧
    ((Z.land (fr_share f) FILE_SHARE_READ =? 0) = true → a_block_readers a = true) ∧
    ((Z.land (fr_share f) FILE_SHARE_WRITE =? 0) = true → a_block_writers a = true) ∧
    ((Z.land (fr_share f) FILE_SHARE_DELETE =? 0) = true → a_block_deleters a = true)) as Hn.
  { assert (∀ b n, ((Z.land (fr_share f) b =? 0) = false ↔ bit (fr_share f) n) →
       (Z.land (fr_share f) b =? 0) = true ↔ ¬ bit (fr_share f) n) as Hneg.
    { intros b n <-. rewrite not_false_iff_true. done. }
    apply Hneg in H0, H1, H2. rewrite HR, HW, H0, H1, H2. split.
    - intros H. split_and!; [apply (H RRead)|apply (H RWrite)|apply (H RBlockReaders)|
        apply (H RBlockWriters)|apply (H RBlockDeleters)].
    - intros (? & ? & ? & ? & ?) []; simpl; auto. }
  assert ((∃ x, has a x = true) ↔
    a_read a || a_write a || a_block_readers a || a_block_writers a || a_block_deleters a = true)
    as He.
  { rewrite !orb_true_iff. split.
    - intros [[] H]; simpl in H; tauto.
    - intros [[[[H|H]|H]|H]|H]; [by exists RRead|by exists RWrite|by exists RBlockReaders|
        by exists RBlockWriters|by exists RBlockDeleters]. }
  rewrite Hn, He. clear Hn He HR HW H0 H1 H2.
  generalize (file_requests_read f) (file_requests_write f) (Z.land (fr_share f) FILE_SHARE_READ =? 0)
    (Z.land (fr_share f) FILE_SHARE_WRITE =? 0) (Z.land (fr_share f) FILE_SHARE_DELETE =? 0).
  intros rr rw br bw bd.
  destruct a as [[] [] [] [] []]; destruct rr, rw, br, bw, bd; simpl; intuition discriminate.
Qed.

Theorem win_check_exact audit calls f cs :
  well_formed cs → names backslash (fr_path f) cs →
  win_check_file_open false (win_build audit calls) f = Granted ↔ win_should_grant calls f cs.
Proof.
  intros Hc Hp. rewrite win_check_release. unfold win_should_grant.
  assert (∀ x, has (get_filepath_allowed_access backslash (win_build audit calls) (fr_path f)) x
    = true ↔ win_entitled calls cs x) as HR by (intros x; by apply win_rights).
  setoid_rewrite HR.
  pose proof (names_backslash _ _ (proj1 Hc) Hp). tauto.
Qed.

Lemma win_evaluate_enforcing debug calls req :
  (win_evaluate_request debug (win_build false calls) req).1 =
  win_raw_verdict debug (win_build false calls) req.
Proof. unfold win_evaluate_request. simpl. by rewrite win_build_audit. Qed.

(** Any path string: where each right comes from. *)
Lemma win_rights_prefix audit calls path x :
  has (get_filepath_allowed_access backslash (win_build audit calls) path) x = true →
  ∃ r full, WinRule r full ∈ calls ∧ rule_gives r x ∧
    drive_absolute (default (rule_path r) full) ∧
    let key := strip_suffix_or_self backslash (nt_form (default (rule_path r) full)) in
    let p := strip_suffix_or_self backslash path in
    key = p ∨ (rule_is_dir r ∧ ∃ rest, p = key ++ backslash :: rest).
Proof.
  unfold get_filepath_allowed_access. intros H. apply walk_has_prefix in H as [H|(k & Hk & H)].
  - apply has_or_lookup in H as [H|H]; [by rewrite has_no_access in H|].
    apply win_build_file in H as (c & Hin & r & full & -> & H1 & H2 & H3 & H4).
    exists r, full. rewrite <-rule_access_spec. split_and!; try done. by left.
  - apply win_build_dir in Hk as (c & Hin & r & full & -> & H1 & H2 & H3 & H4).
    exists r, full. rewrite <-rule_access_spec. split_and!; try done. cbn zeta. rewrite H3.
    destruct H as [->|(_ & rest & ->)]; [by left|]. right. split; [by apply rule_dirb_spec|]. eauto.
Qed.

(* ---------------------------------------------------------------- registry *)

Definition rhas (a : bool * bool) (x : reg_right) : bool :=
  match x with RegRead => a.1 | RegWrite => a.2 end.
Definition rmap_has (m : gmap str (bool * bool)) (k : str) (x : reg_right) : Prop :=
  ∃ b, m !! k = Some b ∧ rhas b x = true.

Lemma rhas_or a b x : rhas (or2 a b) x = rhas a x || rhas b x.
Proof. by destruct x. Qed.

Lemma rhas_lookup m k a x :
  rhas (reg_lookup m k a) x = true ↔ rhas a x = true ∨ rmap_has m k x.
Proof.
  unfold reg_lookup, rmap_has. destruct (m !! k) as [b|] eqn:E.
  - rewrite rhas_or, orb_true_iff. naive_solver.
  - naive_solver.
Qed.

Lemma rfull a x : a.1 && a.2 = true → rhas a x = true.
Proof. intros [? ?]%andb_true_iff. by destruct x. Qed.

Lemma reg_walk_has m cs f a x :
  Forall (plain_name backslash) cs → cs ≠ [] → (length (render backslash cs) < f)%nat →
  rhas (reg_walk f m (render backslash cs) a) x = true ↔
  rhas a x = true ∨
  ∃ anc rest, cs = anc ++ rest ∧ anc ≠ [] ∧ rmap_has m (render backslash anc) x.
Proof.
  revert f a. induction cs as [|c cs IH] using rev_ind; intros f a H Hn Hf; [done|].
  destruct f as [|f]; [lia|]. simpl.
  assert (Forall (plain_name backslash) cs) as Hcs by (by apply Forall_app in H as [? ?]).
  destruct (a.1 && a.2) eqn:Ef.
  { rewrite (rfull a x) by done. naive_solver. }
  rewrite strip_one_component_render by done.
  destruct cs as [|d cs'] eqn:Ecs.
  - simpl. rewrite rhas_lookup. split.
    + intros [?|?]; [by left|]. right. exists [c], []. done.
    + intros [?|(anc & rest & E & Hanc & Hm)]; [by left|].
      destruct anc as [|y anc]; [done|]. simpl in E. injection E as <- E.
      symmetry in E. apply app_nil in E as [-> ->]. by right.
  - rewrite <-Ecs in *. rewrite IH.
    + rewrite rhas_lookup. split.
      * intros [[?|?]|(anc & rest & E & Hanc & Hm)].
        -- by left.
        -- right. exists (cs ++ [c]), []. rewrite app_nil_r. split; [done|].
           split; [by destruct cs|done].
        -- right. exists anc, (rest ++ [c]). rewrite E, app_assoc. done.
      * intros [?|(anc & rest & E & Hanc & Hm)]; [by left; left|].
        destruct rest as [|z rest _] using rev_ind.
        -- rewrite app_nil_r in E. subst anc. left. by right.
        -- rewrite app_assoc in E. apply app_inj_2 in E as [E _]; [|done].
           right. exists anc, rest. done.
    + done.
    + by rewrite Ecs.
    + rewrite render_snoc, app_length in Hf. simpl in Hf. lia.
Qed.

Lemma reg_walk_prefix m f p a x :
  rhas (reg_walk f m p a) x = true →
  rhas a x = true ∨
  ∃ k, rmap_has m k x ∧ (k = p ∨ ∃ r, p = k ++ backslash :: r).
Proof.
  revert p a. induction f as [|f IH]; intros p a; simpl; [by left|].
  destruct (a.1 && a.2) eqn:Ef; [by left|].
  destruct (strip_one_component backslash p) as [q|] eqn:E.
  - intros H. apply IH in H as [H|(k & Hk & H)].
    + apply rhas_lookup in H as [?|?]; [by left|]. right. exists p. auto.
    + apply strip_one_component_prefix in E as (Hq & r & ->).
      right. exists k. split; [done|]. right.
      destruct H as [->|(r' & ->)]; [by eauto|].
      exists (r' ++ backslash :: r). by rewrite <-app_assoc.
  - intros H. apply rhas_lookup in H as [?|?]; [by left|]. right. exists p. auto.
Qed.

(** Translation of key paths. *)
Definition nt_key (sid path k : str) : Prop :=
  ∃ root nt rest, (root, nt) ∈ root_keys sid ∧ path = root ++ rest ∧
    k = render backslash nt ++ rest.

Lemma starts_with_app pre s : starts_with pre s = true ↔ ∃ rest, s = pre ++ rest.
Proof.
  revert s. induction pre as [|y pre IH]; intros s; simpl.
  - split; [eauto|done].
  - destruct s as [|z s]; [split; [done|by intros (? & ?)]|].
    rewrite andb_true_iff, bool_decide_eq_true, IH. split.
    + intros [-> (rest & ->)]. by exists rest.
    + intros (rest & [= -> ->]). eauto.
Qed.

Lemma strip_prefix_str_Some pre s rest : strip_prefix_str pre s = Some rest ↔ s = pre ++ rest.
Proof.
  unfold strip_prefix_str. destruct (starts_with pre s) eqn:E.
  - apply starts_with_app in E as (t & ->). rewrite drop_app. split; [by intros [= ->]|].
    intros H. f_equal. by apply app_inv_head in H.
  - split; [done|]. intros ->. apply not_true_iff_false in E. exfalso. apply E.
    apply starts_with_app. eauto.
Qed.

Lemma strip_prefix_str_None pre s : strip_prefix_str pre s = None ↔ ∀ rest, s ≠ pre ++ rest.
Proof.
  split.
  - intros H rest E. apply strip_prefix_str_Some in E. congruence.
  - intros H. destruct (strip_prefix_str pre s) as [rest|] eqn:E; [|done].
    apply strip_prefix_str_Some in E. by apply H in E.
Qed.

Lemma derive_reg_Ok sid path l :
  derive_reg_key_paths sid path = Ok l ↔ ∃ k, l = [k] ∧ nt_key sid path k.
Proof.
  split.
  - unfold derive_reg_key_paths, nt_key, root_keys. intros H.
    repeat match type of H with
    | context [strip_prefix_str ?a ?b] =>
        let E := fresh "E" in
        destruct (strip_prefix_str a b) as [rest|] eqn:E;
        [apply strip_prefix_str_Some in E; injection H as <-; eexists; split; [reflexivity|]|]
    end; try done.
    + do 3 eexists. split; [apply elem_of_list_here|]. split; [done|].
      change (render backslash [lit "REGISTRY"; lit "USER"; sid])
        with (lit "\REGISTRY\USER\" ++ (sid ++ [])). by rewrite app_nil_r, <-app_assoc.
    + do 3 eexists. split; [apply elem_of_list_further, elem_of_list_here|]. done.
    + do 3 eexists. split; [do 2 apply elem_of_list_further; apply elem_of_list_here|]. done.
    + do 3 eexists. split; [do 3 apply elem_of_list_further; apply elem_of_list_here|]. done.
    + do 3 eexists. split; [do 4 apply elem_of_list_further; apply elem_of_list_here|]. done.
  - intros (k & -> & root & nt & rest & Hin & -> & ->).
    unfold root_keys in Hin. rewrite !elem_of_cons, elem_of_nil in Hin.
    unfold derive_reg_key_paths.
    destruct Hin as [[= -> ->]|[[= -> ->]|[[= -> ->]|[[= -> ->]|[[= -> ->]|[]]]]]].
    + rewrite (proj2 (strip_prefix_str_Some _ _ rest)) by done.
      change (render backslash [lit "REGISTRY"; lit "USER"; sid])
        with (lit "\REGISTRY\USER\" ++ (sid ++ [])). by rewrite app_nil_r, <-app_assoc.
    + rewrite (proj2 (strip_prefix_str_None (lit "HKEY_CURRENT_USER") _)) by done.
      by rewrite (proj2 (strip_prefix_str_Some _ _ rest)) by done.
    + rewrite (proj2 (strip_prefix_str_None (lit "HKEY_CURRENT_USER") _)) by done.
      rewrite (proj2 (strip_prefix_str_None (lit "HKEY_USERS") _)) by done.
      by rewrite (proj2 (strip_prefix_str_Some _ _ rest)) by done.
    + rewrite (proj2 (strip_prefix_str_None (lit "HKEY_CURRENT_USER") _)) by done.
      rewrite (proj2 (strip_prefix_str_None (lit "HKEY_USERS") _)) by done.
      rewrite (proj2 (strip_prefix_str_None (lit "HKEY_LOCAL_MACHINE") _)) by done.
      by rewrite (proj2 (strip_prefix_str_Some _ _ rest)) by done.
    + rewrite (proj2 (strip_prefix_str_None (lit "HKEY_CURRENT_USER") _)) by done.
      rewrite (proj2 (strip_prefix_str_None (lit "HKEY_USERS") _)) by done.
      rewrite (proj2 (strip_prefix_str_None (lit "HKEY_LOCAL_MACHINE") _)) by done.
      rewrite (proj2 (strip_prefix_str_None (lit "HKEY_CLASSES_ROOT") _)) by done.
      by rewrite (proj2 (strip_prefix_str_Some _ _ rest)) by done.
Qed.

Lemma nt_key_fun sid path k k' : nt_key sid path k → nt_key sid path k' → k = k'.
Proof.
  intros H1 H2.
  assert (derive_reg_key_paths sid path = Ok [k]) as E1 by (apply derive_reg_Ok; eauto).
  assert (derive_reg_key_paths sid path = Ok [k']) as E2 by (apply derive_reg_Ok; eauto).
  congruence.
Qed.

Lemma derive_reg_cases sid path :
  (∃ k, nt_key sid path k ∧ derive_reg_key_paths sid path = Ok [k]) ∨
  (¬ (∃ k, nt_key sid path k) ∧
   derive_reg_key_paths sid path = Err (UnsupportedRegistryPath path)).
Proof.
  destruct (derive_reg_key_paths sid path) as [l|e] eqn:E.
  - left. apply derive_reg_Ok in E as (k & -> & H). eauto.
  - right. split.
    + intros (k & Hk). assert (derive_reg_key_paths sid path = Ok [k]) as E2
        by (apply derive_reg_Ok; eauto). congruence.
    + unfold derive_reg_key_paths in E. repeat case_match; congruence.
Qed.

Definition reg_call (path sid : str) (x : reg_right) : win_call :=
  match x with RegRead => WinRegRead path sid | RegWrite => WinRegWrite path sid end.

Definition reg_hits (k : str) (x : reg_right) (c : win_call) : Prop :=
  ∃ path sid k', c = reg_call path sid x ∧ nt_key sid path k' ∧
    strip_suffix_or_self backslash k' = k.

Lemma reg_one_has a p path k x :
  rmap_has (regkey_access (reg_one a p path)) k x ↔
  rmap_has (regkey_access p) k x ∨ (strip_suffix_or_self backslash path = k ∧ rhas a x = true).
Proof.
  unfold reg_one, rmap_has. simpl.
  set (key := strip_suffix_or_self backslash path). clearbody key.
  destruct (decide (key = k)) as [->|Hne].
  - rewrite lookup_insert. split.
    + intros (b & [= <-] & H). rewrite rhas_or, orb_true_iff in H.
      destruct H as [H|H]; [|by right].
      destruct (regkey_access p !! k) as [b|]; simpl in H; [left; eauto|]. by destruct x.
    + intros H. eexists. split; [done|]. rewrite rhas_or, orb_true_iff.
      destruct H as [(b & E & H)|[_ H]]; [left; by rewrite E|by right].
  - rewrite lookup_insert_ne by done. naive_solver.
Qed.

Lemma win_call_reg p c k x :
  rmap_has (regkey_access (win_apply_call_ignore p c)) k x ↔
  rmap_has (regkey_access p) k x ∨ reg_hits k x c.
Proof.
  assert (∀ path sid y,
    rmap_has (regkey_access (win_apply_call_ignore p (reg_call path sid y))) k x ↔
    rmap_has (regkey_access p) k x ∨ reg_hits k x (reg_call path sid y)) as Hreg.
  { intros path sid y.
    assert (win_apply_call_ignore p (reg_call path sid y) =
      match derive_reg_key_paths sid path with
      | Ok l => foldl (reg_one (match y with RegRead => (true, false) | RegWrite => (false, true) end)) p l
      | Err _ => p end) as ->.
    { destruct y; unfold win_apply_call_ignore; simpl; unfold allow_regkey_access;
        by destruct (derive_reg_key_paths sid path). }
    destruct (derive_reg_cases sid path) as [(k' & Hk & ->)|[Hno ->]]; cbn [foldl].
    - rewrite reg_one_has. unfold reg_hits. split.
      + intros [?|[E Hh]]; [by left|]. right. exists path, sid, k'.
        split_and!; try done. by destruct x, y.
      + intros [?|(path' & sid' & k2 & Ec & Hk2 & E)]; [by left|]. right.
        assert (path' = path ∧ sid' = sid ∧ x = y) as (-> & -> & ->)
          by (destruct x, y; simpl in Ec; by simplify_eq).
        assert (k2 = k') as -> by (by eapply nt_key_fun). split; [done|]. by destruct y.
    - unfold reg_hits. split; [by left|]. intros [?|(path' & sid' & k2 & Ec & Hk2 & E)]; [done|].
      exfalso. apply Hno. exists k2.
      assert (path' = path ∧ sid' = sid) as (-> & ->)
        by (destruct x, y; simpl in Ec; by simplify_eq). done. }
  destruct c as [r full|path sid|path sid|cb|raw inh].
  - unfold win_apply_call_ignore. simpl. rewrite win_apply_rule_eq.
    assert (∀ b, regkey_access (if b : bool then allow_one backslash (rule_dirb r) (rule_access r) p
      (nt_form (default (rule_path r) full)) else p) = regkey_access p) as ->.
    { intros []; [|done]. unfold allow_one. by destruct (rule_dirb r). }
    split; [by left|]. intros [?|(? & ? & ? & E & _)]; [done|]. by destruct x.
  - apply (Hreg path sid RegRead).
  - apply (Hreg path sid RegWrite).
  - split; [by left|]. intros [?|(? & ? & ? & E & _)]; [done|]. by destruct x.
  - assert (regkey_access (win_apply_call_ignore p (WinInherit raw inh)) = regkey_access p) as ->.
    { unfold win_apply_call_ignore. simpl. unfold allow_inherit_handle. by destruct inh as [[]|]. }
    split; [by left|]. intros [?|(? & ? & ? & E & _)]; [done|]. by destruct x.
Qed.

Lemma win_build_reg audit calls k x :
  rmap_has (regkey_access (win_build audit calls)) k x ↔
  ∃ c, c ∈ calls ∧ reg_hits k x c.
Proof.
  unfold win_build.
  assert (∀ p, rmap_has (regkey_access (foldl win_apply_call_ignore p calls)) k x ↔
    rmap_has (regkey_access p) k x ∨ ∃ c, c ∈ calls ∧ reg_hits k x c) as H.
  { induction calls as [|c calls IH]; intros p; simpl.
    - setoid_rewrite elem_of_nil. split; [by left|]. by intros [?|(? & ? & _)].
    - rewrite IH, win_call_reg, exists_cons. tauto. }
  rewrite H. split; [|by right]. intros [(b & E & _)|?]; [|done].
  exfalso. destruct audit; vm_compute in E; discriminate E.
Qed.

(** Strings that are root keys followed by a separator are component lists. *)
Lemma render_inj_free sep a b :
  Forall (λ c, sep ∉ c) a → Forall (λ c, sep ∉ c) b → render sep a = render sep b → a = b.
Proof.
  intros Ha Hb E.
  destruct a as [|x a].
  { symmetry in E. by apply render_nil_inv in E. }
  destruct b as [|y b]; [done|].
  rewrite !render_join in E by done.
  assert (join sep (x :: a) = join sep (y :: b)) as E2 by (by injection E).
  clear E. trans (split sep (join sep (x :: a))).
  - symmetry. by apply join_split.
  - rewrite E2. by apply join_split.
Qed.

Lemma render_of_string sep rest :
  rest = [] ∨ (∃ t, rest = sep :: t) →
  ∃ sub, Forall (λ c, sep ∉ c) sub ∧ rest = render sep sub.
Proof.
  intros [->|(t & ->)].
  - exists []. done.
  - exists (split sep t). split; [apply split_no_sep|].
    rewrite render_join by apply split_not_nil. by rewrite split_join.
Qed.

Lemma names_app sep nt rest anc :
  Forall (plain_name sep) nt → Forall (plain_name sep) anc →
  rest = [] ∨ (∃ t, rest = sep :: t) →
  names sep (render sep nt ++ rest) anc ↔ ∃ sub, names sep rest sub ∧ anc = nt ++ sub.
Proof.
  intros Hnt Hanc Hrest.
  assert (∀ l, Forall (plain_name sep) l → Forall (λ c, sep ∉ c) l) as Hfree.
  { intros l Hl. eapply Forall_impl; [exact Hl|]. by intros ? [? ?]. }
  split.
  - destruct (render_of_string sep rest Hrest) as (sub & Hs & ->).
    rewrite <-render_app. intros [E|E].
    + apply render_inj_free in E; [|apply Forall_app; auto|auto].
      exists sub. split; [by left|done].
    + assert (render sep (nt ++ sub) = render sep (anc ++ [[]])) as E2
        by (rewrite render_snoc; exact E).
      apply render_inj_free in E2; [|apply Forall_app; auto|].
      2:{ apply Forall_app; split; [auto|]. repeat constructor. by apply not_elem_of_nil. }
      destruct sub as [|y sub _] using rev_ind.
      * rewrite app_nil_r in E2. rewrite E2 in Hnt. apply Forall_app in Hnt as [_ Hnt].
        inversion Hnt as [|? ? [? _]]; subst. done.
      * rewrite app_assoc in E2. apply app_inj_2 in E2 as [<- [= ->]]; [|done].
        exists sub. split; [|done]. right. by rewrite render_snoc.
  - intros (sub & Hn & ->). unfold names in *. rewrite render_app.
    destruct Hn as [-> | ->]; [by left|right]. by rewrite app_assoc.
Qed.

Lemma no_backslash (c : str) : bool_decide (backslash ∉ c) = true → backslash ∉ c.
Proof. by intros ?%bool_decide_eq_true. Qed.

Lemma root_keys_plain sid root nt :
  sid ≠ [] ∧ backslash ∉ sid → (root, nt) ∈ root_keys sid →
  nt ≠ [] ∧ Forall (plain_name backslash) nt.
Proof.
  intros [Hs1 Hs2] Hin. unfold root_keys in Hin. rewrite !elem_of_cons, elem_of_nil in Hin.
  destruct Hin as [[= -> ->]|[[= -> ->]|[[= -> ->]|[[= -> ->]|[[= -> ->]|[]]]]]];
    (split; [done|]); repeat constructor; try done; apply no_backslash; by vm_compute.
Qed.

Lemma reg_hits_names cs x c :
  Forall (plain_name backslash) cs → good_reg_call c →
  reg_hits (render backslash cs) x c ↔
  ∃ path sid, c = reg_call path sid x ∧ key_names sid path cs.
Proof.
  intros Hcs Hc. unfold reg_hits.
  assert (∀ path sid, c = reg_call path sid x →
    (sid ≠ [] ∧ backslash ∉ sid) ∧
      ((∃ root, root ∈ (root_keys sid).*1 ∧ starts_with root path = true) →
       root_key_path sid path)) as Hg.
  { intros path sid ->. by destruct x. }
  assert (∀ root root' sid nt nt' rest rest', (root, nt) ∈ root_keys sid →
    (root', nt') ∈ root_keys sid → root ++ rest = root' ++ rest' →
    root = root' ∧ nt = nt' ∧ rest = rest') as Hinj.
  { clear. intros root root' sid nt nt' rest rest' H1 H2.
    unfold root_keys in H1, H2. rewrite !elem_of_cons, elem_of_nil in H1.
    rewrite !elem_of_cons, elem_of_nil in H2.
    destruct H1 as [[= -> ->]|[[= -> ->]|[[= -> ->]|[[= -> ->]|[[= -> ->]|[]]]]]];
    destruct H2 as [[= -> ->]|[[= -> ->]|[[= -> ->]|[[= -> ->]|[[= -> ->]|[]]]]]];
      simpl; intros E; try discriminate E; split; try done; split; try done;
      by apply app_inv_head in E || by simplify_eq. }
  split.
  - intros (path & sid & k & Hcall & (root & nt & rest & Hin & Hp & ->) & E).
    destruct (Hg path sid Hcall) as [Hsid Hroot].
    exists path, sid. split; [done|].
    apply strip_names in E; [|done].
    assert (root_key_path sid path) as (root' & nt' & rest' & Hin' & Hp' & Hr).
    { apply Hroot. exists root. split.
      - apply elem_of_list_fmap. by exists (root, nt).
      - apply starts_with_app. eauto. }
    rewrite Hp in Hp'. destruct (Hinj _ _ _ _ _ _ _ Hin Hin' Hp') as (<- & <- & <-).
    destruct (root_keys_plain sid root nt Hsid Hin) as [_ Hnt].
    apply names_app in E as (sub & Hn & ->); [|done|done|done].
    exists root, nt, sub, rest. done.
  - intros (path & sid & Hcall & (root & nt & sub & rest & Hin & Hp & Hn & ->)).
    destruct (Hg path sid Hcall) as [Hsid Hroot].
    destruct (root_keys_plain sid root nt Hsid Hin) as [_ Hnt].
    exists path, sid, (render backslash nt ++ rest). split_and!; [done|by exists root, nt, rest|].
    apply strip_names; [done|]. apply names_app; [done|done| |eauto].
    destruct Hn as [-> | ->]; (destruct sub as [|y sub]; [simpl; by eauto|]); right;
      rewrite render_join by done; simpl; eauto.
Qed.

Lemma reg_rights audit calls path cs x :
  Forall good_reg_call calls → well_formed cs → names backslash path cs →
  rhas (get_regkey_allowed_access (win_build audit calls) path) x = true ↔
  reg_entitled calls cs x.
Proof.
  intros Hg Hc Hp. pose proof (well_formed_plain cs Hc) as Hpl.
  unfold get_regkey_allowed_access.
  apply strip_names in Hp; [|done]. rewrite Hp.
  rewrite reg_walk_has by (done || lia || apply Hc).
  assert (rhas (false, false) x = false) as -> by (by destruct x).
  setoid_rewrite win_build_reg. unfold reg_entitled. fold reg_call. split.
  - intros [?|(anc & rest & E & Ha & c & Hin & Hh)]; [done|].
    assert (Forall (plain_name backslash) anc) as Hanc
        by (rewrite E in Hpl; by apply Forall_app in Hpl as [? _]).
    rewrite reg_hits_names in Hh; [|done|rewrite Forall_forall in Hg; by apply Hg].
    destruct Hh as (p & sid & -> & Hk). exists p, sid, anc, rest. by destruct x.
  - intros (p & sid & anc & rest & Hin & E & Hk). right. exists anc, rest.
    assert (Forall (plain_name backslash) anc) as Hanc
        by (rewrite E in Hpl; by apply Forall_app in Hpl as [? _]).
    assert (reg_call p sid x ∈ calls) as Hin' by (by destruct x).
    split; [done|]. split.
    + destruct Hk as (root & nt & sub & rest' & H1 & _ & _ & ->).
      rewrite Forall_forall in Hg. specialize (Hg _ Hin').
      destruct (root_keys_plain sid root nt) as [? _]; [by destruct x, Hg|done|].
      intros [-> _]%app_nil. done.
    + exists (reg_call p sid x). split; [done|].
      apply reg_hits_names; [done|rewrite Forall_forall in Hg; by apply Hg|]. eauto.
Qed.

(** What the library asks for a registry access mask. *)
Definition reg_asked (desired : Z) (do_create : bool) (x : reg_right) : Prop :=
  match x with
  | RegRead => some_bit [0; 3; 4; 8; 9; 17; 20] desired
  | RegWrite => some_bit [1; 2; 4; 8; 9; 16; 17; 18; 19; 20] desired ∨ do_create = true
  end.

Lemma check_reg_granted p path desired options do_create :
  check_reg_key_open p path desired options do_create = Granted ↔
  key_supported desired options ∧
  (∃ x, rhas (get_regkey_allowed_access p path) x = true) ∧
  ∀ x, reg_asked desired do_create x → rhas (get_regkey_allowed_access p path) x = true.
Proof.
  unfold check_reg_key_open, key_supported.
  rewrite <-(only_bits_spec (ors [KEY_READ_RIGHTS; KEY_WRITE_RIGHTS; KEY_ALWAYS_GRANTED_RIGHTS])
    [0; 1; 2; 3; 4; 8; 9; 16; 17; 18; 19; 20]) by (by vm_compute).
  rewrite <-(only_bits_spec (ors [REG_OPTION_VOLATILE; REG_OPTION_NON_VOLATILE]) [0])
    by (by vm_compute).
  destruct (Z.eqb_spec (Z.land desired
    (Z.lnot (ors [KEY_READ_RIGHTS; KEY_WRITE_RIGHTS; KEY_ALWAYS_GRANTED_RIGHTS]))) 0)
    as [E1|E1]; cbn [negb]; [|by split; [|tauto]].
  destruct (Z.eqb_spec (Z.land options
    (Z.lnot (ors [REG_OPTION_VOLATILE; REG_OPTION_NON_VOLATILE]))) 0)
    as [E2|E2]; cbn [negb]; [|by split; [|tauto]].
  destruct (get_regkey_allowed_access p path) as [cr cw] eqn:Ea.
  pose proof (some_bit_spec KEY_READ_RIGHTS [0; 3; 4; 8; 9; 17; 20] desired
    ltac:(by vm_compute) ltac:(by vm_compute)) as HR.
  pose proof (some_bit_spec KEY_WRITE_RIGHTS [1; 2; 4; 8; 9; 16; 17; 18; 19; 20] desired
    ltac:(by vm_compute) ltac:(by vm_compute)) as HW.
  assert ((∀ x, reg_asked desired do_create x → rhas (cr, cw) x = true) ↔
    (has_flag desired KEY_READ_RIGHTS = true → cr = true) ∧
    (has_flag desired KEY_WRITE_RIGHTS || do_create = true → cw = true)) as ->.
  { rewrite orb_true_iff, HR, HW. split.
    - intros H. split; [apply (H RegRead)|apply (H RegWrite)].
    - intros [? ?] []; simpl; auto. }
  assert ((∃ x, rhas (cr, cw) x = true) ↔ cr || cw = true) as ->.
  { rewrite orb_true_iff. split.
    - intros [[] H]; simpl in H; auto.
    - intros [H|H]; [by exists RegRead|by exists RegWrite]. }
  generalize (has_flag desired KEY_READ_RIGHTS) (has_flag desired KEY_WRITE_RIGHTS || do_create).
  intros rr rw. destruct rr, rw, cr, cw; simpl; intuition discriminate.
Qed.
