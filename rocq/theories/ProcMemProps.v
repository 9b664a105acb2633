(** C170: what a new worker is handed is alive when it is read, and is freed once. *)
From stdpp Require Import prelude gmap.
From Coq Require Import Strings.Byte.
From Verif Require Import Bytes PolicyModel ProcMemModel.
Local Open Scope N_scope.

(** Specification: reading memory as C does. *)
Fixpoint up_to_nul (s : str) : option str :=
  match s with
  | [] => None
  | b :: s => if decide (b = x00) then Some [] else (b ::.) <$> up_to_nul s
  end.
Definition c_string (m : memory) (a : N) : option str :=
  match m !! a with Some (BBytes s) => up_to_nul s | _ => None end.
Definition buffer (m : memory) (a : N) (n : nat) : option str :=
  match m !! a with
  | Some (BBytes s) => if decide (n ≤ length s)%nat then Some (take n s) else None
  | _ => None
  end.
Fixpoint strings_at (m : memory) (l : list N) : option (list str) :=
  match l with
  | [] => None
  | a :: l =>
      if decide (a = 0) then Some []
      else s ← c_string m a; t ← strings_at m l; Some (s :: t)
  end.
Definition string_vector (m : memory) (a : N) : option (list str) :=
  match m !! a with Some (BPtrs l) => strings_at m l | _ => None end.
Definition ints (m : memory) (a : N) (n : nat) : option (list Z) :=
  match m !! a with
  | Some (BInts l) => if decide (n ≤ length l)%nat then Some (take n l) else None
  | _ => None
  end.

(** What a new process is to get. *)
Record handed := mkHanded {
  h_exe : str; h_argv : list str; h_envp : list str; h_fds : list Z;
  h_uid : str; h_gid : str; h_pipe : Z; h_std : list (option Z) }.
Definition read_params (m : memory) (a : N) : option handed :=
  match m !! a with
  | Some (BParams p) =>
      exe ← c_string m (p_exe p);
      argv ← string_vector m (p_argv p);
      envp ← string_vector m (p_envp p);
      fds ← ints m (p_fds p) (p_nfds p);
      uid ← buffer m (p_uid p) (p_uid_len p);
      gid ← buffer m (p_gid p) (p_gid_len p);
      Some (mkHanded exe argv envp fds uid gid (p_pipe p) (p_std p))
  | _ => None
  end.

(** The caller's strings. *)
Definition holds (m : memory) (a : N) (s : str) : Prop :=
  a ≠ 0 ∧ x00 ∉ s ∧ m !! a = Some (BBytes (s ++ [x00])).
Definition config_holds (m : memory) (c : config) (exe : str) (argv envp : list str) : Prop :=
  holds m (c_exe c) exe ∧ Forall2 (holds m) (c_argv c) argv ∧
  Forall2 (holds m) (c_envp c) envp.

(** The allocator gives addresses that are not in use; threads leave alone what is not
    theirs. *)
Definition world_ok (w : world) : Prop :=
  (∀ m, w_malloc w m ∉ dom m ∧ w_malloc w m ≠ 0) ∧
  (∀ n p m a, a ∈ p → w_others w n p m !! a = m !! a).

(** Nothing is freed that is not allocated. *)
Definition frees_ok (tr : list event) : Prop :=
  ∀ l a k, tr = l ++ EFree a :: k → a ∈ live l.

(** The full claim. *)
Definition C170_full : Prop :=
  ∀ w c r h tr exe argv envp,
    world_ok w → config_holds h c exe argv envp →
    live tr ⊆ dom h → frees_ok tr →
    let s := start w c r h tr in
    (∀ k, k ∈ s_children s →
       read_params (child_memory s k) (ch_arg k) =
         Some (mkHanded exe argv envp (c_fds c) (c_uid c) (c_gid c) (c_pipe c) (c_std c)) ∧
       child_memory s k !! ch_stack k = Some (BStack DEFAULT_CLONE_STACK_SIZE)) ∧
    frees_ok (s_trace s) ∧
    live (s_trace s) = live tr ∪ list_to_set (s_given s) ∧
    (∀ a, a ∈ s_given s → a ∉ live tr).

(** * Proofs *)
Lemma live_snoc tr e :
  live (tr ++ [e]) = match e with EMalloc a => live tr ∪ {[a]} | EFree a => live tr ∖ {[a]} end.
Proof. unfold live. rewrite foldl_app. done. Qed.

Lemma frees_ok_snoc tr e :
  frees_ok tr → (∀ a, e = EFree a → a ∈ live tr) → frees_ok (tr ++ [e]).
Proof.
  intros H He l a k E.
  destruct k as [|x k _] using rev_ind.
  - apply app_inj_tail in E as [-> ->]. by apply He.
  - rewrite app_comm_cons, app_assoc in E. apply app_inj_tail in E as [E _]. by eapply H.
Qed.

Section proof.
  Context (w : world) (c : config) (h : memory) (tr : list event).
  Context (Hw : world_ok w).

  (** [m] tells which locals have a block, where and with what. *)
  Record inv (m : var → option (N * blk)) (s : state) : Prop := {
    i_at : ∀ v a b, m v = Some (a, b) →
      s_mem s !! a = Some b ∧ s_env s v = a ∧ a ∉ live tr ∧ a ∉ c_addrs c ∧ a ≠ 0;
    i_inj : ∀ v u a b d, m v = Some (a, b) → m u = Some (a, d) → v = u;
    i_live : ∀ a, a ∈ live (s_trace s) ↔ a ∈ live tr ∨ ∃ v b, m v = Some (a, b);
    i_old : ∀ a, a ∈ live tr ∪ c_addrs c → a ∈ dom (s_mem s);
    i_cfg : ∀ a, a ∈ c_addrs c → s_mem s !! a = h !! a;
    i_frees : frees_ok (s_trace s) }.

  Definition upd (m : var → option (N * blk)) (v : var) (x : option (N * blk)) :=
    λ u, if decide (u = v) then x else m u.

  Lemma inv_others m n s : inv m s → inv m (others w c n s).
  Proof.
    intros [A B C D E F]. destruct Hw as [_ Ho].
    assert (P : ∀ a, a ∈ live (s_trace s) ∪ c_addrs c →
              s_mem (others w c n s) !! a = s_mem s !! a).
    { intros a Ha. cbn [others s_mem]. by apply Ho. }
    split; cbn [others s_env s_trace]; try done.
    - intros v a b Hv. destruct (A v a b Hv) as (A1&A2&A3&A4&A5). split_and!; try done.
      rewrite P; [done|]. apply elem_of_union_l, C. eauto.
    - intros a Ha. apply elem_of_dom. rewrite P.
      + apply elem_of_dom. by apply D.
      + apply elem_of_union in Ha as [Ha|Ha]; [apply elem_of_union_l, C; by left|].
        by apply elem_of_union_r.
    - intros a Ha. rewrite P; [by apply E|]. by apply elem_of_union_r.
  Qed.

  Lemma inv_new m v s :
    inv m s → m v = None →
    inv (upd m v (Some (w_malloc w (s_mem s), content c (s_env s) v))) (new w c v s).
  Proof.
    intros [A B C D E F] Hv. destruct Hw as [Hm _].
    destruct (Hm (s_mem s)) as [Hf Hz].
    set (a0 := w_malloc w (s_mem s)) in *.
    assert (Hne : ∀ u a b, m u = Some (a, b) → a ≠ a0).
    { intros u a b Hu ->. destruct (A _ _ _ Hu) as (X & _).
      by apply Hf, elem_of_dom; eexists. }
    split; cbn [new s_mem s_env s_trace].
    - intros u a b. unfold upd. destruct (decide (u = v)) as [->|].
      + intros [= <- <-]. fold a0. split_and!; [by rewrite lookup_insert|done| | |done].
        * intros Ha. apply Hf, D. by apply elem_of_union_l.
        * intros Ha. apply Hf, D. by apply elem_of_union_r.
      + intros Hu. destruct (A _ _ _ Hu) as (A1&A2&A3&A4&A5). fold a0.
        rewrite lookup_insert_ne; [done|]. intros ->. by eapply Hne.
    - intros u1 u2 a b d. unfold upd.
      destruct (decide (u1 = v)) as [->|]; destruct (decide (u2 = v)) as [->|]; try done.
      + intros [= <- <-] H2. exfalso. by eapply Hne.
      + intros H1 [= <- <-]. exfalso. by eapply Hne.
      + apply B.
    - intros a. rewrite live_snoc, elem_of_union, C, elem_of_singleton. fold a0. unfold upd. split.
      + intros [[?|(u & b & Hu)] | ->]; [by left| |].
        * right. exists u, b. destruct (decide (u = v)) as [->|]; [congruence|done].
        * right. exists v. destruct (decide (v = v)); [eauto|done].
      + intros [?|(u & b & Hu)]; [by left; left|].
        destruct (decide (u = v)) as [->|]; [injection Hu as <- <-; by right|].
        left. right. eauto.
    - intros a Ha. apply elem_of_dom. destruct (decide (a = a0)) as [->|].
      + fold a0. rewrite lookup_insert. eauto.
      + fold a0. rewrite lookup_insert_ne by done. by apply elem_of_dom, D.
    - intros a Ha. fold a0. rewrite lookup_insert_ne; [by apply E|].
      intros ->. apply Hf, D. by apply elem_of_union_r.
    - apply frees_ok_snoc; [done|]. by intros a [=].
  Qed.

  Lemma inv_free m v s :
    inv m s → is_Some (m v) → inv (upd m v None) (free (s_env s v) s).
  Proof.
    intros [A B C D E F] [[a0 b0] Hv].
    destruct (A _ _ _ Hv) as (V1&V2&V3&V4&V5). rewrite V2.
    split; cbn [free s_mem s_env s_trace].
    - intros u a b. unfold upd. destruct (decide (u = v)) as [->|Hn]; [done|].
      intros Hu. destruct (A _ _ _ Hu) as (A1&A2&A3&A4&A5).
      rewrite lookup_delete_ne; [done|]. intros <-. apply Hn. by eapply B.
    - intros u1 u2 a b d. unfold upd.
      destruct (decide (u1 = v)) as [->|]; destruct (decide (u2 = v)) as [->|]; try done.
      apply B.
    - intros a. rewrite live_snoc, elem_of_difference, C, elem_of_singleton. unfold upd. split.
      + intros [[?|(u & b & Hu)] Hn]; [by left|]. right. exists u, b.
        destruct (decide (u = v)) as [->|]; [congruence|done].
      + intros [Ha|(u & b & Hu)].
        * split; [by left|]. by intros ->.
        * destruct (decide (u = v)) as [->|Hn]; [done|]. split; [right; eauto|].
          intros ->. apply Hn. by eapply B.
    - intros a Ha. apply elem_of_dom. rewrite lookup_delete_ne; [by apply elem_of_dom, D|].
      intros <-. apply elem_of_union in Ha as [?|?]; done.
    - intros a Ha. rewrite lookup_delete_ne; [by apply E|]. by intros <-.
    - apply frees_ok_snoc; [done|]. intros a [= <-]. apply C. eauto.
  Qed.

  Lemma inv_frame m s s' :
    inv m s → s_mem s' = s_mem s → s_env s' = s_env s → s_trace s' = s_trace s → inv m s'.
  Proof. intros [A B C D E F] H1 H2 H3. split; rewrite ?H1, ?H2, ?H3; done. Qed.

  Lemma exec_app n l1 l2 s :
    exec w c n (l1 ++ l2) s = exec w c (n + length l1) l2 (exec w c n l1 s).
  Proof.
    revert n s. induction l1 as [|o l1 IH]; intros n s; cbn [app exec length].
    - by rewrite Nat.add_0_r.
    - rewrite IH. f_equal. lia.
  Qed.

  Lemma inv_drops m l s :
    inv m s → NoDup l → (∀ v, v ∈ l → is_Some (m v)) →
    let s' := foldl (λ s v, forget v (free (s_env s v) s)) s l in
    ∃ m', inv m' s' ∧ (∀ v, v ∈ l → m' v = None) ∧ (∀ v, v ∉ l → m' v = m v) ∧
      s_given s' = s_given s ∧ s_children s' = s_children s.
  Proof.
    revert m s. induction l as [|v l IH]; intros m s Hi Hn Hl; cbn [foldl].
    - exists m. split_and!; try done. intros v Hv. by apply elem_of_nil in Hv.
    - apply NoDup_cons in Hn as [Hv Hn].
      destruct (IH (upd m v None) (forget v (free (s_env s v) s))) as (m' & H1 & H2 & H3 & H4 & H5).
      + eapply inv_frame; [apply inv_free; [done|]|done..]. apply Hl, elem_of_list_here.
      + done.
      + intros u Hu. unfold upd. destruct (decide (u = v)) as [->|]; [done|].
        by apply Hl, elem_of_list_further.
      + exists m'. split_and!; [done| | |done|done].
        * intros u Hu. apply elem_of_cons in Hu as [->|Hu]; [|by apply H2].
          rewrite H3 by done. unfold upd. by rewrite decide_True.
        * intros u Hu. apply not_elem_of_cons in Hu as [Hne Hu]. rewrite H3 by done.
          unfold upd. by rewrite decide_False.
  Qed.

  (** The locals hold what the new process needs. *)
  Definition filled (m : var → option (N * blk)) (aP : N) : Prop :=
    ∃ aA aE aF aU aG,
      m VArgv = Some (aA, BPtrs (c_argv c ++ [0])) ∧
      m VEnvp = Some (aE, BPtrs (c_envp c ++ [0])) ∧
      m VFds = Some (aF, BInts (c_fds c)) ∧
      m VUid = Some (aU, BBytes (c_uid c ++ [x00])) ∧
      m VGid = Some (aG, BBytes (c_gid c ++ [x00])) ∧
      m VParams = Some (aP, BParams (mkParams aU (length (c_uid c)) aG (length (c_gid c))
         (c_exe c) aA aE aF (length (c_fds c)) (c_pipe c) (c_std c))).

  Definition locals : list var := [VGid; VUid; VFds; VEnvp; VArgv].

  Definition ready (s : state) : Prop :=
    ∃ m aP, inv m s ∧ filled m aP ∧ m VPipes = None ∧ m VStack = None ∧
      s_scope s = locals ∧ s_given s = [] ∧ s_children s = [].
  Definition cloned (flags : Z) (s : state) : Prop :=
    ∃ m aP aS mem s0, inv m s ∧ filled m aP ∧ m VPipes = None ∧
      m VStack = Some (aS, BStack DEFAULT_CLONE_STACK_SIZE) ∧
      s_scope s = VStack :: locals ∧ s_given s = [] ∧
      s_children s = [mkChild flags aP aS mem] ∧ inv m s0 ∧ s_mem s0 = mem.

  Lemma attempt_ok n flags s :
    ready s → cloned flags (exec w c n (attempt flags true) s).
  Proof.
    intros (m & aP & Hi & Hf & Hp & Hst & Hsc & Hg & Hc).
    unfold attempt. cbn [app exec exec_op].
    set (s1 := others w c n s).
    assert (I1 : inv m s1) by by apply inv_others.
    pose proof (inv_new m VStack s1 I1 Hst) as I2.
    set (s2 := others w c (S n) (new w c VStack s1)).
    assert (I3 : inv (upd m VStack (Some (w_malloc w (s_mem s1), content c (s_env s1) VStack))) s2)
      by by apply inv_others.
    eexists _, aP, (w_malloc w (s_mem s1)), (s_mem s2), s2.
    assert (HP : s_env s2 VParams = aP).
    { destruct Hf as (?&?&?&?&?&?&?&?&?&?&HP).
      by destruct (i_at _ _ I1 _ _ _ HP) as (_ & ? & _). }
    split_and!.
    - eapply inv_frame; [exact I3|done..].
    - destruct Hf as (aA&aE&aF&aU&aG&H1&H2&H3&H4&H5&H6).
      exists aA, aE, aF, aU, aG. split_and!; done.
    - done.
    - done.
    - cbn [s_scope s2 others new s1]. by rewrite Hsc.
    - done.
    - cbn [s_children s2 others new s1]. rewrite Hc. cbn [app]. f_equal. f_equal. done.
    - done.
    - done.
  Qed.

  Lemma attempt_failed n flags s :
    ready s → ready (exec w c n (attempt flags false) s).
  Proof.
    intros (m & aP & Hi & Hf & Hp & Hst & Hsc & Hg & Hc).
    unfold attempt. cbn [app exec exec_op].
    set (s1 := others w c n s).
    assert (I1 : inv m s1) by by apply inv_others.
    pose proof (inv_new m VStack s1 I1 Hst) as I2.
    set (s2 := others w c (S n) (new w c VStack s1)).
    assert (I3 : inv (upd m VStack (Some (w_malloc w (s_mem s1), content c (s_env s1) VStack))) s2)
      by by apply inv_others.
    set (s3 := mkState _ _ _ _ _ _).
    assert (I4 : inv (upd m VStack (Some (w_malloc w (s_mem s1), content c (s_env s1) VStack)))
                   (others w c (S (S n)) s3)).
    { apply inv_others. eapply inv_frame; [exact I3|done..]. }
    eexists _, aP. split_and!.
    - eapply inv_frame; [apply (inv_free _ VStack _ I4); eexists; done|done..].
    - destruct Hf as (aA&aE&aF&aU&aG&H1&H2&H3&H4&H5&H6).
      exists aA, aE, aF, aU, aG. split_and!; done.
    - done.
    - done.
    - cbn [forget s_scope others free s3 s2 new s1]. by rewrite Hsc.
    - done.
    - cbn [s_children forget others free s3 s2 new s1]. by rewrite Hc.
  Qed.

  (** What is left when the function has been left. *)
  Definition ended (s : state) (left given : list N) : Prop :=
    ∃ m, inv m s ∧ s_given s = given ∧
      (∀ a, (∃ v b, m v = Some (a, b)) ↔ a ∈ left).

  Lemma inv_leave n m s :
    inv m s → NoDup (s_scope s) → (∀ v, v ∈ s_scope s → is_Some (m v)) →
    let s' := exec w c n [Leave] s in
    ∃ m', inv m' s' ∧ (∀ v, v ∈ s_scope s → m' v = None) ∧
      (∀ v, v ∉ s_scope s → m' v = m v) ∧
      s_given s' = s_given s ∧ s_children s' = s_children s.
  Proof.
    intros Hi Hn Hs. cbn [exec exec_op].
    apply (inv_others m n) in Hi.
    exact (inv_drops m (s_scope s) (others w c n s) Hi Hn Hs).
  Qed.

  Lemma filled_some m aP v : filled m aP → v ∈ VParams :: locals → is_Some (m v).
  Proof.
    intros (aA&aE&aF&aU&aG&H1&H2&H3&H4&H5&H6) Hv. unfold locals in Hv.
    rewrite !elem_of_cons, elem_of_nil in Hv.
    destruct Hv as [-> | [-> | [-> | [-> | [-> | [-> | []]]]]]]; eauto.
  Qed.

  Lemma after_ended n flags r s :
    cloned flags s →
    let s' := exec w c n (after_clone r) s in
    ∃ aP aS mem m s0,
      ended s' (if a_errno r then [] else [aS]) (if a_errno r then [] else [aS]) ∧
      s_children s' = [mkChild flags aP aS mem] ∧
      inv m s0 ∧ s_mem s0 = mem ∧ filled m aP ∧
      m VStack = Some (aS, BStack DEFAULT_CLONE_STACK_SIZE).
  Proof.
    intros (m & aP & aS & mem & s0 & Hi & Hf & Hp & Hst & Hsc & Hg & Hc & H0 & Hm). cbn zeta.
    unfold after_clone. cbn [app exec exec_op].
    set (s1 := others w c n s).
    assert (I1 : inv m s1) by by apply inv_others.
    assert (I2 : inv (upd m VParams None) (free (s_env s1 VParams) s1)).
    { apply inv_free; [done|]. eapply filled_some; [done|]. apply elem_of_list_here. }
    set (s2 := free (s_env s1 VParams) s1) in *.
    exists aP, aS, mem, m, s0.
    cut (ended (exec w c (S n) (if a_errno r then [Leave] else [Give VStack; Leave]) s2)
           (if a_errno r then [] else [aS]) (if a_errno r then [] else [aS]) ∧
         s_children (exec w c (S n) (if a_errno r then [Leave] else [Give VStack; Leave]) s2)
           = [mkChild flags aP aS mem]).
    { intros [He Hch]. split_and!; done. }
    assert (Hsc2 : s_scope s2 = VStack :: locals) by done.
    assert (Hsome : ∀ v, v ∈ VStack :: locals → is_Some (upd m VParams None v)).
    { intros v Hv. unfold upd. destruct (decide (v = VParams)) as [->|].
      - unfold locals in Hv. rewrite !elem_of_cons, elem_of_nil in Hv. exfalso. naive_solver.
      - apply elem_of_cons in Hv as [->|Hv]; [by rewrite Hst|].
        eapply filled_some; [done|]. by apply elem_of_list_further. }
    destruct (a_errno r).
    - destruct (inv_leave (S n) _ s2 I2) as (m' & J1 & J2 & J3 & J4 & J5).
      + rewrite Hsc2. apply (bool_decide_unpack _). by vm_compute.
      + by rewrite Hsc2.
      + rewrite Hsc2 in J2, J3. split; [|by rewrite J5].
        exists m'. split_and!; [done|by rewrite J4|].
        intros a. split; [|intros Ha; by apply elem_of_nil in Ha].
        intros (v & b & Hv). exfalso.
        destruct (decide (v ∈ VStack :: locals)) as [Hin|Hin]; [by rewrite J2 in Hv|].
        rewrite J3 in Hv by done. unfold upd in Hv.
        destruct v; try (by apply Hin; unfold locals; rewrite !elem_of_cons; eauto 10).
        rewrite decide_False in Hv by done. congruence.
    - change [Give VStack; Leave] with ([Give VStack] ++ [Leave]). rewrite exec_app.
      cbn [length]. set (s3 := exec w c (S n) [Give VStack] s2).
      assert (I3 : inv (upd m VParams None) s3).
      { unfold s3. cbn [exec exec_op]. eapply inv_frame; [apply (inv_others _ (S n)); exact I2|done..]. }
      assert (Hsc3 : s_scope s3 = locals).
      { unfold s3. cbn [exec exec_op forget s_scope others]. by rewrite Hsc2. }
      assert (Hg3 : s_given s3 = [aS]).
      { unfold s3. cbn [exec exec_op forget s_given others].
        assert (X : s_given s2 = []) by done. rewrite X. cbn [app]. f_equal.
        by destruct (i_at _ _ I1 _ _ _ Hst) as (_ & ? & _). }
      destruct (inv_leave (S n + 1) _ s3 I3) as (m' & J1 & J2 & J3 & J4 & J5).
      + rewrite Hsc3. apply (bool_decide_unpack _). by vm_compute.
      + rewrite Hsc3. intros v Hv. by apply Hsome, elem_of_list_further.
      + rewrite Hsc3 in J2, J3. split; [|by rewrite J5].
        exists m'. split_and!; [done|by rewrite J4|].
        intros a. rewrite elem_of_list_singleton. split.
        * intros (v & b & Hv).
          destruct (decide (v ∈ locals)) as [Hin|Hin]; [by rewrite J2 in Hv|].
          rewrite J3 in Hv by done. unfold upd in Hv.
          destruct v; try (by exfalso; apply Hin; unfold locals; rewrite !elem_of_cons; eauto 10).
          -- rewrite decide_False in Hv by done. congruence.
          -- rewrite decide_False in Hv by done. congruence.
        * intros ->. exists VStack. eexists. rewrite J3; [exact Hst|].
          unfold locals. rewrite !elem_of_cons, elem_of_nil. naive_solver.
  Qed.

  (** Reading. *)
  Lemma up_to_nul_spec s : x00 ∉ s → up_to_nul (s ++ [x00]) = Some s.
  Proof.
    induction s as [|b s IH]; intros Hn; cbn [app up_to_nul]; [by rewrite decide_True|].
    apply not_elem_of_cons in Hn as [Hb Hn]. rewrite decide_False by done. by rewrite IH.
  Qed.

  Context (exe : str) (argv envp : list str) (Hcfg : config_holds h c exe argv envp).

  Lemma strings_spec m l ss :
    Forall2 (holds h) l ss → (∀ a, a ∈ l → m !! a = h !! a) →
    strings_at m (l ++ [0]) = Some ss.
  Proof.
    induction 1 as [|a s l ss (Hz & Hn & Ha) _ IH]; intros Hm; cbn [app strings_at].
    - by rewrite decide_True.
    - rewrite decide_False by done. unfold c_string. rewrite Hm by apply elem_of_list_here.
      rewrite Ha, up_to_nul_spec by done. cbn.
      rewrite IH; [done|]. intros b Hb. by apply Hm, elem_of_list_further.
  Qed.

  Lemma read_spec m aP s :
    inv m s → filled m aP →
    read_params (s_mem s) aP =
      Some (mkHanded exe argv envp (c_fds c) (c_uid c) (c_gid c) (c_pipe c) (c_std c)).
  Proof.
    intros Hi (aA&aE&aF&aU&aG&H1&H2&H3&H4&H5&H6).
    destruct Hcfg as ((_ & Hen & Hex) & Hav & Hev).
    pose proof (i_cfg _ _ Hi) as Hc. unfold c_addrs in Hc.
    apply (i_at _ _ Hi) in H1 as (H1 & _), H2 as (H2 & _), H3 as (H3 & _), H4 as (H4 & _),
      H5 as (H5 & _), H6 as (H6 & _).
    unfold read_params. rewrite H6.
    cbn [p_exe p_argv p_envp p_fds p_nfds p_uid p_uid_len p_gid p_gid_len p_pipe p_std].
    unfold c_string, string_vector, ints, buffer.
    rewrite (Hc (c_exe c)) by (apply elem_of_list_to_set, elem_of_list_here).
    rewrite Hex, up_to_nul_spec by done. cbn [mbind option_bind].
    rewrite H1, (strings_spec _ _ argv Hav).
    2:{ intros a Ha. apply Hc, elem_of_list_to_set, elem_of_list_further, elem_of_app. by left. }
    cbn [mbind option_bind]. rewrite H2, (strings_spec _ _ envp Hev).
    2:{ intros a Ha. apply Hc, elem_of_list_to_set, elem_of_list_further, elem_of_app. by right. }
    cbn [mbind option_bind]. rewrite H3, H4, H5.
    rewrite !app_length. repeat case_decide; try lia. cbn [mbind option_bind].
    by rewrite firstn_all, !take_app.
  Qed.

  Context (Hlive : live tr ⊆ dom h) (Hfr : frees_ok tr).

  Lemma cfg_dom a : a ∈ c_addrs c → a ∈ dom h.
  Proof.
    destruct Hcfg as ((_ & _ & Hex) & Hav & Hev). unfold c_addrs.
    rewrite elem_of_list_to_set, elem_of_cons, elem_of_app. intros [-> | [Ha|Ha]].
    - apply elem_of_dom. eauto.
    - apply elem_of_list_lookup in Ha as [i Hi].
      destruct (Forall2_lookup_l _ _ _ _ _ Hav Hi) as (s & _ & _ & _ & ?).
      apply elem_of_dom. eauto.
    - apply elem_of_list_lookup in Ha as [i Hi].
      destruct (Forall2_lookup_l _ _ _ _ _ Hev Hi) as (s & _ & _ & _ & ?).
      apply elem_of_dom. eauto.
  Qed.

  Lemma inv_begin : inv (λ _, None) (begin h tr).
  Proof.
    split; cbn [begin s_mem s_trace]; try done.
    - intros a. split; [by left|]. intros [?|(v & b & [=])]; done.
    - intros a. rewrite elem_of_union. intros [Ha|Ha]; [by apply Hlive|by apply cfg_dom].
  Qed.

  (** Where the claim holds: some clone() worked, or none was tried. *)
  Definition reached (r : answers) : bool :=
    a_argv r && a_pipe r && a_set r && a_fds_fit r && a_std_fit r.
  Definition worked (r : answers) : bool := a_clone1 r || a_clone2 r || a_clone3 r.

  Lemma new_step n m v s :
    inv m s → m v = None →
    let s' := exec w c n [New v] s in
    ∃ a, inv (upd m v (Some (a, content c (s_env s) v))) s' ∧
      s_scope s' = v :: s_scope s ∧ s_given s' = s_given s ∧ s_children s' = s_children s.
  Proof.
    intros Hi Hv. cbn zeta. cbn [exec exec_op].
    eexists. split_and!;
      [exact (inv_new m v (others w c n s) (inv_others m n s Hi) Hv)|done..].
  Qed.

  Lemma exec_cons n o l s : exec w c n (o :: l) s = exec w c (S n) l (exec w c n [o] s).
  Proof. done. Qed.

  Lemma leave_ended n m s :
    inv m s → NoDup (s_scope s) → (∀ v, v ∈ s_scope s ↔ is_Some (m v)) →
    s_given s = [] →
    let s' := exec w c n [Leave] s in
    ended s' [] [] ∧ s_children s' = s_children s.
  Proof.
    intros Hi Hn Hs Hg. cbn zeta.
    destruct (inv_leave n m s Hi Hn) as (m' & J1 & J2 & J3 & J4 & J5).
    { intros v Hv. by apply Hs. }
    split; [|done]. exists m'. split_and!; [done|by rewrite J4|].
    intros a. split; [|intros Ha; by apply elem_of_nil in Ha].
    intros (v & b & Hv). exfalso.
    destruct (decide (v ∈ s_scope s)) as [Hin|Hin]; [by rewrite J2 in Hv|].
    rewrite J3 in Hv by done. apply Hin, Hs. eauto.
  Qed.

  Ltac scope Sc := rewrite ?Sc; unfold upd; intros v; rewrite ?elem_of_cons, ?elem_of_nil;
    destruct v; cbn; split; intros H; try (by eauto 10); try (by destruct H; naive_solver);
    naive_solver.

  (** The part after the parameters have been put together. *)
  Definition clones (r : answers) : list op :=
    attempt (Z.lor CLONE_NEWUSER CLONE_NEWPID) (a_clone1 r) ++
    if a_clone1 r then after_clone r else
    attempt CLONE_NEWPID (a_clone2 r) ++
    if a_clone2 r then after_clone r else
    attempt 0 (a_clone3 r) ++
    if a_clone3 r then after_clone r else [Leave].

  Ltac fill n v I :=
    let a := fresh "a" in let I' := fresh "I" in let S' := fresh "Sc" in
    let G' := fresh "G" in let C' := fresh "C" in let s' := fresh "s" in
    rewrite exec_cons;
    destruct (new_step n _ v _ I eq_refl) as (a & I' & S' & G' & C');
    match goal with |- context [exec w c n [New v] ?s] =>
      revert I' S' G' C'; generalize (exec w c n [New v] s); intros s' I' S' G' C'
    end;
    repeat match goal with
    | E : s_scope ?x = _, F : s_scope s' = _ :: s_scope ?x |- _ => rewrite E in F
    | E : s_given ?x = _, F : s_given s' = s_given ?x |- _ => rewrite E in F
    | E : s_children ?x = _, F : s_children s' = s_children ?x |- _ => rewrite E in F
    end.
  Ltac leaves I :=
    split; [intros _|done];
    match goal with S : s_scope ?x = _, C : s_children ?x = [] |-
      ended (exec w c ?n [Leave] ?x) _ _ ∧ _ =>
      destruct (leave_ended n _ x I) as [He Hc];
      [rewrite S; apply (bool_decide_unpack _); by vm_compute|scope S|done|];
      split; [exact He|by rewrite Hc]
    end.

  Lemma paths r :
    (reached r = false →
       ended (start w c r h tr) [] [] ∧ s_children (start w c r h tr) = []) ∧
    (reached r = true → ∃ n s, ready s ∧ start w c r h tr = exec w c n (clones r) s).
  Proof.
    unfold reached, start, program. fold (clones r).
    assert (I0 := inv_begin).
    assert (Sc0 : s_scope (begin h tr) = []) by done.
    assert (G0 : s_given (begin h tr) = []) by done.
    assert (C0 : s_children (begin h tr) = []) by done.
    destruct (a_argv r); cbn [negb andb].
    2:{ split; [intros _|done]. split; [|done]. exists (λ _, None). split_and!; [done..|].
        intros a. split; [intros (v & b & [=])|intros Ha; by apply elem_of_nil in Ha]. }
    cbn [app]. fill 0%nat VPipes I0.
    destruct (a_pipe r); cbn [negb andb]; [|leaves I].
    rewrite exec_cons.
    assert (I2 : inv (upd (upd (λ _, None) VPipes (Some (a, content c (λ _, 0) VPipes))) VPipes None)
                   (exec w c 1 [Drop VPipes] s)).
    { cbn [exec exec_op]. eapply inv_frame; [apply (inv_free _ VPipes (others w c 1 s))|done..].
      - by apply inv_others.
      - eexists. done. }
    assert (S2 : s_scope (exec w c 1 [Drop VPipes] s) = []).
    { cbn [exec exec_op forget s_scope free others]. by rewrite Sc. }
    assert (G2 : s_given (exec w c 1 [Drop VPipes] s) = []) by done.
    assert (C2 : s_children (exec w c 1 [Drop VPipes] s) = []) by done.
    revert I2 S2 G2 C2. generalize (exec w c 1 [Drop VPipes] s). intros s2 I2 S2 G2 C2.
    destruct (a_set r); cbn [negb andb]; [|leaves I2].
    fill 2%nat VArgv I2. fill 3%nat VEnvp I1.
    destruct (a_fds_fit r); cbn [negb andb]; [|leaves I3].
    fill 4%nat VFds I3. fill 5%nat VUid I4. fill 6%nat VGid I5.
    destruct (a_std_fit r); cbn [negb andb]; [|leaves I6].
    split; [done|intros _].
    assert (EU := i_at _ _ I6 VUid _ _ eq_refl).
    assert (EG := i_at _ _ I6 VGid _ _ eq_refl).
    assert (EA := i_at _ _ I6 VArgv _ _ eq_refl).
    assert (EE := i_at _ _ I6 VEnvp _ _ eq_refl).
    assert (EF := i_at _ _ I6 VFds _ _ eq_refl).
    destruct EU as (_ & EU & _), EG as (_ & EG & _), EA as (_ & EA & _), EE as (_ & EE & _),
      EF as (_ & EF & _).
    fill 7%nat VParams I6.
    rewrite exec_cons. exists 9%nat, (exec w c 8 [Leak VParams] s6). split; [|done].
    unfold ready. eexists _, _. split_and!.
    - cbn [exec exec_op]. eapply inv_frame; [apply (inv_others _ 8), I7|done..].
    - do 5 eexists. split_and!; try done. unfold upd. cbn [decide].
      rewrite decide_True by done. cbn [content]. by rewrite EU, EG, EA, EE, EF.
    - done.
    - done.
    - cbn [exec exec_op forget s_scope others]. by rewrite Sc6.
    - done.
    - done.
  Qed.

  Lemma clones_spec n r s :
    ready s →
    let s' := exec w c n (clones r) s in
    if worked r then
      ∃ flags aP aS mem m s0,
        (flags = Z.lor CLONE_NEWUSER CLONE_NEWPID ∨ flags = CLONE_NEWPID ∨ flags = 0%Z) ∧
        ended s' (if a_errno r then [] else [aS]) (if a_errno r then [] else [aS]) ∧
        s_children s' = [mkChild flags aP aS mem] ∧
        inv m s0 ∧ s_mem s0 = mem ∧ filled m aP ∧
        m VStack = Some (aS, BStack DEFAULT_CLONE_STACK_SIZE)
    else ∃ aP, ended s' [aP] [] ∧ s_children s' = [].
  Proof.
    intros Hr. cbn zeta. unfold clones, worked. rewrite exec_app.
    destruct (a_clone1 r); cbn [orb].
    { apply (attempt_ok n (Z.lor CLONE_NEWUSER CLONE_NEWPID)) in Hr.
      edestruct after_ended as (aP & aS & mem & m & s0 & ?); [exact Hr|].
      exists (Z.lor CLONE_NEWUSER CLONE_NEWPID), aP, aS, mem, m, s0. split; [by left|done]. }
    apply (attempt_failed n (Z.lor CLONE_NEWUSER CLONE_NEWPID)) in Hr.
    revert Hr. generalize (exec w c n (attempt (Z.lor CLONE_NEWUSER CLONE_NEWPID) false) s).
    generalize (n + length (attempt (Z.lor CLONE_NEWUSER CLONE_NEWPID) false))%nat.
    clear n s. intros n s Hr. rewrite exec_app.
    destruct (a_clone2 r); cbn [orb].
    { apply (attempt_ok n CLONE_NEWPID) in Hr.
      edestruct after_ended as (aP & aS & mem & m & s0 & ?); [exact Hr|].
      exists CLONE_NEWPID, aP, aS, mem, m, s0. split; [by right; left|done]. }
    apply (attempt_failed n CLONE_NEWPID) in Hr.
    revert Hr. generalize (exec w c n (attempt CLONE_NEWPID false) s).
    generalize (n + length (attempt CLONE_NEWPID false))%nat.
    clear n s. intros n s Hr. rewrite exec_app.
    destruct (a_clone3 r); cbn [orb].
    { apply (attempt_ok n 0%Z) in Hr.
      edestruct after_ended as (aP & aS & mem & m & s0 & ?); [exact Hr|].
      exists 0%Z, aP, aS, mem, m, s0. split; [by right; right|done]. }
    apply (attempt_failed n 0%Z) in Hr.
    revert Hr. generalize (exec w c n (attempt 0 false) s).
    generalize (n + length (attempt 0 false))%nat.
    clear n s. intros n s (m & aP & Hi & Hf & Hp & Hst & Hsc & Hg & Hc).
    exists aP. destruct (inv_leave n m s Hi) as (m' & J1 & J2 & J3 & J4 & J5).
    { rewrite Hsc. apply (bool_decide_unpack _). by vm_compute. }
    { rewrite Hsc. intros v Hv. eapply filled_some; [done|]. by apply elem_of_list_further. }
    rewrite Hsc in J2, J3. split; [|by rewrite J5].
    exists m'. split_and!; [done|by rewrite J4|].
    assert (HP : VParams ∉ locals).
    { unfold locals. rewrite !elem_of_cons, elem_of_nil. naive_solver. }
    destruct Hf as (?&?&?&?&?&_&_&_&_&_&HmP).
    intros a. rewrite elem_of_list_singleton. split.
    - intros (v & b & Hv).
      destruct (decide (v ∈ locals)) as [Hin|Hin]; [by rewrite J2 in Hv|].
      rewrite J3 in Hv by done.
      destruct v; try (by exfalso; apply Hin; unfold locals; rewrite !elem_of_cons; eauto 10);
        congruence.
    - intros ->. exists VParams. eexists. rewrite J3; [exact HmP|done].
  Qed.

  Lemma ended_spec s l g :
    ended s l g →
    frees_ok (s_trace s) ∧ live (s_trace s) = live tr ∪ list_to_set l ∧ s_given s = g ∧
    (∀ a, a ∈ l → a ∉ live tr).
  Proof.
    intros (m & Hi & Hg & Hl). split_and!.
    - by apply i_frees in Hi.
    - apply set_eq. intros a. rewrite (i_live _ _ Hi), elem_of_union, elem_of_list_to_set, Hl. done.
    - done.
    - intros a Ha. apply Hl in Ha as (v & b & Hv). by apply (i_at _ _ Hi) in Hv as (_ & _ & ? & _).
  Qed.

  Lemma children_read r k :
    let s := start w c r h tr in
    k ∈ s_children s →
    read_params (child_memory s k) (ch_arg k) =
      Some (mkHanded exe argv envp (c_fds c) (c_uid c) (c_gid c) (c_pipe c) (c_std c)) ∧
    child_memory s k !! ch_stack k = Some (BStack DEFAULT_CLONE_STACK_SIZE).
  Proof.
    intros s Hk. destruct (paths r) as [P1 P2].
    destruct (reached r) eqn:Er.
    2:{ destruct (P1 eq_refl) as [_ Hc]. unfold s in Hk. rewrite Hc in Hk.
        by apply elem_of_nil in Hk. }
    destruct (P2 eq_refl) as (n & s1 & Hr & Hs). unfold s in *. rewrite Hs in *.
    pose proof (clones_spec n r s1 Hr) as Hc. cbn zeta in Hc.
    destruct (worked r).
    - destruct Hc as (flags & aP & aS & mem & m & s0 & Hfl & _ & Hch & Hi & Hm & Hf & Hst).
      rewrite Hch in Hk. apply elem_of_list_singleton in Hk as ->.
      unfold child_memory. cbn [ch_flags ch_memory ch_arg ch_stack].
      assert (Hb : Z.testbit flags 8 = false) by (destruct Hfl as [-> | [-> | ->]]; done).
      rewrite Hb, <- Hm. split; [by eapply read_spec|].
      by apply (i_at _ _ Hi) in Hst as (? & _).
    - destruct Hc as (aP & _ & Hch). rewrite Hch in Hk. by apply elem_of_nil in Hk.
  Qed.

  Lemma ends r :
    let s := start w c r h tr in
    if reached r && negb (worked r) then ∃ aP, ended s [aP] []
    else ∃ g, ended s g g.
  Proof.
    cbn zeta. destruct (paths r) as [P1 P2].
    destruct (reached r); cbn [andb].
    2:{ destruct (P1 eq_refl) as [He _]. eauto. }
    destruct (P2 eq_refl) as (n & s1 & Hr & Hs). rewrite Hs.
    pose proof (clones_spec n r s1 Hr) as Hc. cbn zeta in Hc.
    destruct (worked r); cbn [negb].
    - destruct Hc as (flags & aP & aS & mem & m & s0 & _ & He & _). eauto.
    - destruct Hc as (aP & He & _). eauto.
  Qed.
End proof.

(** * Theorems *)

(** What is handed over is there when the new process reads it, whatever other threads do
    with memory meanwhile and whatever the answers of the system are. *)
Theorem C170_handed : ∀ w c r h tr exe argv envp,
  world_ok w → config_holds h c exe argv envp → live tr ⊆ dom h → frees_ok tr →
  let s := start w c r h tr in
  ∀ k, k ∈ s_children s →
    read_params (child_memory s k) (ch_arg k) =
      Some (mkHanded exe argv envp (c_fds c) (c_uid c) (c_gid c) (c_pipe c) (c_std c)) ∧
    child_memory s k !! ch_stack k = Some (BStack DEFAULT_CLONE_STACK_SIZE).
Proof. intros w c r h tr exe argv envp Hw Hc Hl Hf s k Hk. by eapply children_read. Qed.
Print Assumptions C170_handed.

(** Missing from the full claim: starts in which every clone() fails. *)
Theorem C170_partial : ∀ w c r h tr exe argv envp,
  world_ok w → config_holds h c exe argv envp → live tr ⊆ dom h → frees_ok tr →
  (a_clone1 r = true ∨ a_clone2 r = true ∨ a_clone3 r = true) →
  let s := start w c r h tr in
  frees_ok (s_trace s) ∧
  live (s_trace s) = live tr ∪ list_to_set (s_given s) ∧
  (∀ a, a ∈ s_given s → a ∉ live tr).
Proof.
  intros w c r h tr exe argv envp Hw Hc Hl Hf Hok s.
  pose proof (ends w c h tr Hw exe argv envp Hc Hl Hf r) as He. cbn zeta in He.
  assert (Hwk : worked r = true).
  { unfold worked. destruct Hok as [-> | [-> | ->]]; by rewrite ?orb_true_r. }
  rewrite Hwk, andb_false_r in He. destruct He as (g & He).
  apply ended_spec in He as (H1 & H2 & H3 & H4). fold s in H1, H2, H3.
  rewrite H3. done.
Qed.
Print Assumptions C170_partial.

(** In the others one block is lost, never more, and still nothing is freed twice. *)
Theorem C170_lost : ∀ w c r h tr exe argv envp,
  world_ok w → config_holds h c exe argv envp → live tr ⊆ dom h → frees_ok tr →
  a_clone1 r = false → a_clone2 r = false → a_clone3 r = false →
  let s := start w c r h tr in
  frees_ok (s_trace s) ∧ s_given s = [] ∧
  (live (s_trace s) = live tr ∨ ∃ a, a ∉ live tr ∧ live (s_trace s) = live tr ∪ {[a]}).
Proof.
  intros w c r h tr exe argv envp Hw Hc Hl Hf C1 C2 C3 s.
  destruct (paths w c h tr Hw exe argv envp Hc Hl Hf r) as [P1 P2].
  destruct (reached r) eqn:Er.
  - destruct (P2 eq_refl) as (n & s1 & Hr & Hs). unfold s. rewrite Hs.
    pose proof (clones_spec w c h tr Hw n r s1 Hr) as Hk.
    cbn zeta in Hk. unfold worked in Hk. rewrite C1, C2, C3 in Hk. cbn [orb] in Hk.
    destruct Hk as (aP & He & _). apply ended_spec in He as (H1 & H2 & H3 & H4).
    split_and!; [done|done|]. right. exists aP. split; [apply H4, elem_of_list_here|].
    rewrite H2. cbn [list_to_set]. by rewrite (right_id_L ∅ (∪)).
  - destruct (P1 eq_refl) as [He _]. apply ended_spec in He as (H1 & H2 & H3 & H4).
    split_and!; [done|done|]. left. unfold s. rewrite H2. cbn [list_to_set].
    by rewrite (right_id_L ∅ (∪)).
Qed.
Print Assumptions C170_lost.

(** A program that keeps its two strings at 1 and 2, and whose other threads do nothing that
    matters, or write into blocks of their own. *)
Definition ex_memory : memory :=
  <[1 := BBytes (lit "/bin/w" ++ [x00])]> (<[2 := BBytes (lit "A=1" ++ [x00])]> ∅).
Definition ex_config : config :=
  mkConfig 1 [1] [2] [5%Z] (lit "0 0 1") (lit "0 0 1") 4%Z [None; None; None].
Definition ex_world : world :=
  mkWorld (λ m, fresh (dom m ∪ {[0; 77]}))
    (λ n p m, if decide (77 ∈ p) then m else <[77 := BInts [Z.of_nat n]]> m).
Definition ex_answers (c1 c2 c3 : bool) : answers :=
  mkAnswers true true true true true c1 c2 c3 false.

Lemma ex_world_ok : world_ok ex_world.
Proof.
  split.
  - intros m. cbn [ex_world w_malloc].
    pose proof (is_fresh (dom m ∪ {[0; 77]})) as H.
    rewrite not_elem_of_union in H. destruct H as [H1 H2]. split; [done|].
    intros E. apply H2. rewrite E. by apply elem_of_union_l, elem_of_singleton.
  - intros n p m a Ha. cbn [ex_world w_others].
    destruct (decide (77 ∈ p)); [done|]. apply lookup_insert_ne. by intros <-.
Qed.
Lemma ex_config_holds : config_holds ex_memory ex_config (lit "/bin/w") [lit "/bin/w"] [lit "A=1"].
Proof.
  assert (H1 : holds ex_memory 1 (lit "/bin/w")).
  { split_and!; [done| |done]. apply (bool_decide_unpack _). by vm_compute. }
  assert (H2 : holds ex_memory 2 (lit "A=1")).
  { split_and!; [done| |done]. apply (bool_decide_unpack _). by vm_compute. }
  split; [done|]. split; (apply Forall2_cons; split; [done|by apply Forall2_nil]).
Qed.
Lemma frees_ok_nil : frees_ok [].
Proof. intros l a k E. by apply app_cons_not_nil in E. Qed.

(** When every clone() fails the parameters stay allocated, each time. *)
Theorem C170_refuted : ¬ C170_full.
Proof.
  unfold C170_full. intros H.
  destruct (H ex_world ex_config (ex_answers false false false) ex_memory [] _ _ _
              ex_world_ok ex_config_holds) as (_ & _ & Hl & _).
  { by apply empty_subseteq. }
  { apply frees_ok_nil. }
  assert (Hs : size (live (s_trace (start ex_world ex_config (ex_answers false false false)
                                      ex_memory []))) = 1%nat) by (vm_compute; done).
  rewrite Hl in Hs. revert Hs. vm_compute. done.
Qed.
Print Assumptions C170_refuted.

(** The first clone() fails and the second works: the new process finds its program,
    arguments and environment; afterwards only the stack is left. *)
Example C170_example :
  let s := start ex_world ex_config (ex_answers false true false) ex_memory [] in
  map (λ k, (ch_flags k, h_argv <$> read_params (child_memory s k) (ch_arg k)))
    (s_children s) = [(CLONE_NEWPID, Some [lit "/bin/w"])] ∧
  length (s_given s) = 1%nat ∧ elements (live (s_trace s)) = s_given s ∧
  length (s_trace s) = 17%nat.
Proof. vm_compute. done. Qed.
