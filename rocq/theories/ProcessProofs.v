(** Lemmas about process creation. *)
From stdpp Require Import prelude gmap.
From Coq Require Import Strings.Byte ZifyN ZifyNat ZifyBool.
From Verif Require Import Bytes PolicyModel PostcardModel FdModel FdProofs ChannelModel
  ChannelProofs BrokerModel BrokerSpec BrokerProofs BpfModel BpfProofs SeccompModel EntryModel EntryProofs
  EntryProps ProcessModel.
Local Open Scope N_scope.

Lemma install2_spec limit f1 f2 t n1 n2 t' :
  install2 limit f1 f2 t = Some (n1, n2, t') →
  t !! n1 = None ∧ t !! n2 = None ∧ n1 < n2 ∧ n1 < limit ∧ n2 < limit ∧
  (∀ m, m < n2 → m ≠ n1 → is_Some (t !! m)) ∧
  t' = <[n2 := mkFd f2 0]> (<[n1 := mkFd f1 0]> t).
Proof.
  unfold install2, fd_install.
  destruct (lowest_free_spec t) as [F1 L1]. set (m1 := lowest_free t) in *. clearbody m1.
  destruct (N.ltb_spec m1 limit) as [Hl1|]; [|done].
  destruct (lowest_free_spec (<[m1 := mkFd f1 0]> t)) as [F2 L2].
  set (m2 := lowest_free (<[m1 := mkFd f1 0]> t)) in *. clearbody m2.
  destruct (N.ltb_spec m2 limit) as [Hl2|]; [|done].
  intros [= -> -> <-].
  assert (Hne : n1 ≠ n2) by (intros ->; by rewrite lookup_insert in F2).
  rewrite lookup_insert_ne in F2 by done.
  assert (Hlt : n1 < n2).
  { destruct (N.lt_trichotomy n1 n2) as [|[|Hgt]]; [done|done|].
    specialize (L1 _ Hgt). rewrite F2 in L1. by destruct L1. }
  repeat split; try done.
  intros m Hm Hmn. specialize (L2 _ Hm). by rewrite lookup_insert_ne in L2.
Qed.

Lemma set_inheritable_new h allow f t :
  t !! h = Some (mkFd f 0) →
  handle_set_inheritable h allow t = Done (<[h := mkFd f (if allow then 0%Z else 1%Z)]> t).
Proof.
  intros H. unfold handle_set_inheritable, sys_getfd, sys_setfd. rewrite H. cbn [fmap option_fmap option_map fd_flags fd_file].
  by destruct allow.
Qed.

(** The parameters and the first state of the new process. *)
Definition child_params (pe : proc_env) (p : policy) (c : config) (wr : N) : ep_params :=
  mkParams (id_map (pe_uid pe)) (id_map (pe_gid pe)) (elements (get_inherited_handles p)) wr
    (cf_stdin c) (cf_stdout c) (cf_stderr c) (cf_exe c) (cf_argv c) (cf_envp c).
Definition child_start (pe : proc_env) (fl : clone_flags) (t : fdtab) : ep_state :=
  mkEp t (pe_nnp pe) (pe_caps pe fl) [] (pe_umask pe) [] (pe_cwd pe).

(** What [read] made of the pipe. *)
Definition read_outcome (pe : proc_env) (fw : N) (child : ep_result) (r : new_result) : Prop :=
  let bytes := written fw (ep_trace (final_state child)) in
  match pe_read pe with
  | Some _ => r = NewOk (pe_pid pe)
  | None =>
      match bytes with
      | [] => r = if holds_file fw child then NewBlocked else NewOk (pe_pid pe)
      | _ => r = NewErr (OsFailed (lit "execve()") (be_value bytes))
      end
  end.

Lemma process_new_cases pe p c t r t' child :
  process_new pe p c t = (r, t', child) →
  (∃ e, r = NewErr e ∧ t' = t ∧ child = None) ∨
  (∃ fr fw rd wr fl,
     pe_pipe pe = Ok (fr, fw) ∧ cf_argv c ≠ [] ∧
     t !! rd = None ∧ t !! wr = None ∧ rd < wr ∧
     fst (clone_chain (pe_clone pe)) = Ok fl ∧
     let t2 := <[wr := mkFd fw 1]> (<[rd := mkFd fr 0]> t) in
     let ch := clone_entrypoint (pe_child pe) (child_params pe p c wr) (child_start pe fl t2) in
     child = Some (fl, ch) ∧ read_outcome pe fw ch r ∧
     (r ≠ NewBlocked → t' = t)).
Proof.
  unfold process_new. case_bool_decide as Hargv; [intros [= <- <- <-]; left; eauto|].
  destruct (pe_pipe pe) as [[fr fw]|e] eqn:Ep; [|intros [= <- <- <-]; left; eauto].
  destruct (install2 _ _ _ _) as [[[rd wr] t1]|] eqn:Ei; [|intros [= <- <- <-]; left; eauto].
  destruct (install2_spec _ _ _ _ _ _ _ Ei) as (F1 & F2 & Hlt & _ & _ & _ & Ht1). subst t1.
  rewrite (set_inheritable_new wr false fw) by by rewrite lookup_insert.
  rewrite insert_insert.
  assert (Hdel : delete rd (delete wr (<[wr := mkFd fw 1]> (<[rd := mkFd fr 0]> t))) = t).
  { rewrite delete_insert by (by rewrite lookup_insert_ne by lia).
    by rewrite delete_insert. }
  destruct (clone_chain (pe_clone pe)) as [[fl|e] calls] eqn:Ec.
  2:{ intros [= <- <- <-]. left. exists e. split; [done|]. split; [|done].
      rewrite delete_commute. exact Hdel. }
  rewrite Hdel. fold (child_params pe p c wr).
  fold (child_start pe fl (<[wr := mkFd fw 1]> (<[rd := mkFd fr 0]> t))).
  set (ch := clone_entrypoint _ _ _). cbv zeta.
  intros H. right. exists fr, fw, rd, wr, fl. do 6 (split; [done|]). cbv zeta. fold ch.
  unfold read_outcome. destruct (pe_read pe); [by injection H as <- <- <-|].
  destruct (written fw _); [|by injection H as <- <- <-].
  destruct (holds_file fw ch); injection H as <- <- <-; done.
Qed.

Lemma allow_all_spec hs t p p' :
  allow_all hs t p = Ok p' →
  inherit_handles p' = list_to_set hs ∪ inherit_handles p ∧
  Forall (λ h, ∃ ent, t !! h = Some ent ∧ inheritable ent) hs ∧
  get_runtime_policy p' = get_runtime_policy p.
Proof.
  revert p. induction hs as [|h hs IH]; intros p H; cbn [allow_all] in H.
  { injection H as <-. repeat split; [|by constructor]. cbn. set_solver. }
  destruct (allow_inherit_handle p h (inherit_answer h t)) as [p1|] eqn:E; [|done].
  destruct (IH _ H) as (H1 & H2 & H3). clear H IH.
  unfold allow_inherit_handle, inherit_answer, handle_is_inheritable, sys_getfd in E.
  destruct (t !! h) as [ent|] eqn:Eh; cbn [fmap option_fmap option_map] in E; [|done].
  destruct (Z.eqb_spec (Z.land (fd_flags ent) FD_CLOEXEC) 0) as [Ez|]; [|done].
  injection E as <-. cbn [inherit_handles] in H1. repeat split; try done.
  - rewrite H1, list_to_set_cons. set_solver.
  - constructor; [|done]. exists ent. split; [done|]. unfold inheritable.
    assert (Hb := f_equal (λ z, Z.testbit z 0) Ez). cbn beta in Hb.
    rewrite Z.land_spec, Z.bits_0 in Hb. unfold FD_CLOEXEC in Hb.
    change (Z.testbit 1 0) with true in Hb. by rewrite andb_true_r in Hb.
Qed.

(** The redirected streams. *)
Definition streams (c : config) : list N :=
  opt_list (cf_stdin c) ++ opt_list (cf_stdout c) ++ opt_list (cf_stderr c).

(** Everything up to the start of the process. *)
Definition reached (ne : new_env) (c : config) (p : policy) (t : fdtab)
  (fb fc ch wh : N) (t2 : fdtab) (p' : policy) (c' : config) : Prop :=
  ne_sockets ne = Ok (fb, fc) ∧
  t !! ch = None ∧ t !! wh = None ∧ ch < wh ∧ wh < pe_limit (ne_proc ne) ∧
  (∀ m, m < wh → m ≠ ch → is_Some (t !! m)) ∧
  t2 = <[wh := mkFd fc 0]> (<[ch := mkFd fb 0]> t) ∧
  allow_all (wh :: streams c) t2 p = Ok p' ∧
  set_environment_variable (ipc_variable wh) c = Ok c'.

Lemma worker_new_cases ne c p evs t :
  let out := worker_new ne c p evs t in
  (∃ e, wo_result out = WnErr e ∧ wo_tab out = t ∧ wo_child out = None ∧ wo_trace out = []) ∨
  (∃ fb fc ch wh t2 p' c' r t3,
     reached ne c p t fb fc ch wh t2 p' c' ∧
     process_new (ne_proc ne) p' c' t2 = (r, t3, wo_child out) ∧
     match r with
     | NewErr e => wo_result out = WnErr e ∧ wo_tab out = delete ch (delete wh t3) ∧ wo_trace out = []
     | NewBlocked => wo_result out = WnBlocked
     | NewOk pid => ∃ so s,
         start_ipc_loop (ne_broker ne) (get_runtime_policy p') (ne_order ne) (ne_filter ne)
           (ne_spawn ne) ch evs (mkBst (delete wh t3) []) = (so, s) ∧
         wo_tab out = bs_tab s ∧ wo_trace out = bs_trace s ∧
         wo_result out = match so with
                         | StWaiting => WnWaiting
                         | StErr e => WnErr (StartFailed e)
                         | StPanic => WnPanic
                         | StOk st => WnOk pid st
                         end
     end).
Proof.
  cbv zeta. unfold worker_new.
  destruct (ne_sockets ne) as [[fb fc]|e] eqn:Es; [|left; eauto].
  destruct (install2 _ _ _ _) as [[[ch wh] t1]|] eqn:Ei; [|left; eauto 10].
  destruct (install2_spec _ _ _ _ _ _ _ Ei) as (F1 & F2 & Hlt & _ & Hl & Hmin & Ht1). subst t1.
  rewrite (set_inheritable_new wh true fc) by by rewrite lookup_insert.
  rewrite insert_insert. cbv zeta.
  set (t2 := <[wh := _]> (<[ch := _]> t)).
  assert (Hdel : delete ch (delete wh t2) = t).
  { subst t2. rewrite delete_insert by (by rewrite lookup_insert_ne by lia).
    by rewrite delete_insert. }
  fold (streams c).
  destruct (allow_all (wh :: streams c) t2 p) as [p'|e] eqn:Ea; [|left; rewrite Hdel; eauto 10].
  destruct (set_environment_variable (ipc_variable wh) c) as [c'|e] eqn:Ee;
    [|left; rewrite Hdel; eauto 10].
  destruct (process_new (ne_proc ne) p' c' t2) as [[r t3] child] eqn:En.
  right. exists fb, fc, ch, wh, t2, p', c', r, t3. split; [by repeat split|].
  destruct r as [pid|e|].
  - destruct (start_ipc_loop _ _ _ _ _ _ _ _) as [so s] eqn:Est.
    split; [rewrite En; by destruct so|]. exists so, s. by destruct so.
  - by rewrite En.
  - by rewrite En.
Qed.

(* ---------------------------------------------------------------- decimal numbers *)

Lemma digit_val_digit d : d < 10 → digit_val (digit d) = Some d.
Proof.
  intros H.
  assert (d = 0 ∨ d = 1 ∨ d = 2 ∨ d = 3 ∨ d = 4 ∨ d = 5 ∨ d = 6 ∨ d = 7 ∨ d = 8 ∨ d = 9) as Hd by lia.
  repeat (destruct Hd as [->|Hd]; [done|]). by rewrite Hd.
Qed.
Lemma parse_digits_aux fuel : ∀ n acc,
  n < 2 ^ N.of_nat (S fuel) → n < 2 ^ 64 →
  parse_digits 0 (digits_aux (S fuel) 10 n acc) = parse_digits n acc.
Proof.
  induction fuel as [|fuel IH]; intros n acc Hn H64.
  - cbn [digits_aux]. change (2 ^ N.of_nat 1) with 2 in Hn.
    rewrite (proj2 (N.ltb_lt n 10)) by lia. cbn [parse_digits].
    rewrite N.mod_small by lia. rewrite digit_val_digit by lia.
    cbv zeta. rewrite N.mul_0_l, N.add_0_l, (proj2 (N.ltb_lt _ _) H64). done.
  - change (digits_aux (S (S fuel)) 10 n acc) with
      (if n <? 10 then digit (n mod 10) :: acc
       else digits_aux (S fuel) 10 (n / 10) (digit (n mod 10) :: acc)).
    destruct (N.ltb_spec n 10) as [Hlt|Hge].
    + cbn [parse_digits]. rewrite N.mod_small by lia. rewrite digit_val_digit by lia.
      cbv zeta. rewrite N.mul_0_l, N.add_0_l, (proj2 (N.ltb_lt _ _) H64). done.
    + assert (Hdm := N.div_mod n 10 ltac:(done)).
      assert (Hm := N.mod_lt n 10 ltac:(done)).
      rewrite IH.
      * cbn [parse_digits]. rewrite digit_val_digit by done. cbv zeta.
        replace (n / 10 * 10 + n mod 10) with n by lia.
        by rewrite (proj2 (N.ltb_lt _ _) H64).
      * replace (N.of_nat (S (S fuel))) with (N.succ (N.of_nat (S fuel))) in Hn by lia.
        rewrite N.pow_succ_r' in Hn. apply N.div_lt_upper_bound; [done|]. lia.
      * eapply N.le_lt_trans; [|exact H64]. apply N.div_le_upper_bound; lia.
Qed.
Lemma parse_fmt_dec n : n < 2 ^ 64 → parse_u64 (fmt_dec n) = Some n.
Proof.
  intros Hn.
  assert (H : parse_digits 0 (fmt_dec n) = Some n).
  { unfold fmt_dec, digits. rewrite parse_digits_aux; [done| |done].
    rewrite Nat2N.inj_succ, N2Nat.id. destruct (N.eq_dec n 0) as [->|]; [done|].
    apply N.log2_spec. lia. }
  unfold parse_u64. destruct (fmt_dec n) as [|b r] eqn:E.
  { exfalso. unfold fmt_dec, digits in E. cbn [digits_aux] in E.
    assert (Hne : ∀ fuel m acc, acc ≠ [] → digits_aux fuel 10 m acc ≠ []).
    { induction fuel as [|fuel IH]; intros m acc Ha; cbn [digits_aux]; [done|].
      destruct (m <? 10); [done|]. by apply IH. }
    destruct (n <? 10); [done|]. by eapply Hne in E. }
  rewrite decide_False; [done|]. intros ->. cbn [parse_digits] in H.
  by replace (digit_val x2b) with (None : option N) in H by done.
Qed.

(* ---------------------------------------------------------------- environment *)

Lemma after_prefix_Some pre s r : after_prefix pre s = Some r ↔ s = pre ++ r.
Proof.
  revert s. induction pre as [|a pre IH]; intros s; cbn [after_prefix app].
  { split; [by intros [= ->]|by intros ->]. }
  destruct s as [|b s]; [done|]. destruct (decide (a = b)) as [->|Hne].
  - rewrite IH. split; [by intros ->|by intros [= ->]].
  - split; [done|]. by intros [= ->].
Qed.
Lemma name_from_env_app name v :
  x3d ∉ name → name_from_env (name ++ x3d :: v) = name.
Proof.
  induction name as [|b name IH]; intros H; cbn [name_from_env app].
  { by rewrite decide_True. }
  rewrite decide_False by set_solver. f_equal. apply IH. set_solver.
Qed.
Lemma getenv_last name envp v :
  x3d ∉ name → (∀ w, w ∈ envp → name_from_env w ≠ name) →
  getenv name (envp ++ [name ++ lit "=" ++ v]) = Some v.
Proof.
  intros Hn. induction envp as [|w envp IH]; intros He; cbn [getenv app].
  - by rewrite (proj2 (after_prefix_Some (name ++ lit "=") _ v)) by (by rewrite <-app_assoc).
  - destruct (after_prefix (name ++ lit "=") w) as [val|] eqn:E.
    + exfalso. apply after_prefix_Some in E. rewrite <-app_assoc in E. apply (He w); [left|].
      subst w. by apply name_from_env_app.
    + apply IH. intros u Hu. apply He. by right.
Qed.
Lemma set_env_spec v c c' :
  set_environment_variable v c = Ok c' →
  (∀ w, w ∈ cf_envp c → name_from_env w ≠ name_from_env v) ∧
  cf_envp c' = cf_envp c ++ [v] ∧ cf_exe c' = cf_exe c ∧ cf_argv c' = cf_argv c ∧
  cf_cwd c' = cf_cwd c ∧ cf_stdin c' = cf_stdin c ∧ cf_stdout c' = cf_stdout c ∧
  cf_stderr c' = cf_stderr c.
Proof.
  unfold set_environment_variable. destruct (existsb _ _) eqn:E; [done|].
  intros [= <-]. split; [|by repeat split].
  intros w Hw Heq. apply not_true_iff_false in E. apply E. apply existsb_exists.
  exists w. split; [by apply elem_of_list_In|]. by apply bool_decide_eq_true.
Qed.

(* ---------------------------------------------------------------- the new process *)

(** No file of the new process's own is the pipe. *)
Definition pipe_fresh (pe : proc_env) (fw : N) (t : fdtab) : Prop :=
  (∀ n ent, t !! n = Some ent → fd_file ent ≠ fw) ∧
  Some fw ∉ [ee_setgroups (pe_child pe); ee_uid_map (pe_child pe); ee_gid_map (pe_child pe)] ∧
  (∀ n, ee_devnull (pe_child pe) n ≠ Some fw).

Lemma written_app f a b : written f (a ++ b) = written f a ++ written f b.
Proof. unfold written. by rewrite omap_app, concat_app. Qed.
Lemma written_none f tr : (∀ b, EpWrite f b ∉ tr) → written f tr = [].
Proof.
  intros H. induction tr as [|v tr IH]; [done|].
  change (v :: tr) with ([v] ++ tr). rewrite written_app, IH.
  2:{ intros b Hb. apply (H b). by right. }
  rewrite app_nil_r. destruct v as [| g b |]; cbn; [done| |done].
  destruct (N.eqb_spec g f) as [->|]; [|done]. exfalso. apply (H b). left.
Qed.
Lemma written_one f b : written f [EpWrite f b] = b.
Proof. unfold written. cbn. rewrite N.eqb_refl. cbn. by rewrite app_nil_r. Qed.

(** A child whose execve failed wrote the code, and nothing else, into the pipe. *)
Lemma execve_failed_written e p s r fw x a v errno :
  listing_ok e → clone_entrypoint e p s = r → ep_trace s = [] →
  ep_tab s !! pr_pipe p = Some (mkFd fw 1) → 2 < pr_pipe p →
  Some fw ∉ [ee_setgroups e; ee_uid_map e; ee_gid_map e] →
  EpExecve x a v (Some errno) ∈ ep_trace (final_state r) →
  (∃ s', r = EpExited s') ∧ written fw (ep_trace (final_state r)) = rev (n_bytes 4 errno).
Proof.
  intros Hl H Htr Hpipe Hgt Hfresh Hin.
  destruct (entry_cases e p s r Hl H) as [(s1 & -> & Hw)|(s1 & Hr & Hw & Hm)].
  { exfalso. destruct (Hw _ Hin) as [Ho|[]]. rewrite Htr in Ho. by apply elem_of_nil in Ho. }
  cbv zeta in Hm.
  assert (Hnone : written fw (ep_trace s1) = []).
  { apply written_none. intros b Hb. destruct (Hw _ Hb) as [Ho|Ho]; [|done].
    rewrite Htr in Ho. by apply elem_of_nil in Ho. }
  assert (Hno : EpExecve x a v (Some errno) ∉ ep_trace s1).
  { intros Hb. destruct (Hw _ Hb) as [Ho|[]]. rewrite Htr in Ho. by apply elem_of_nil in Ho. }
  destruct (ee_execve e) as [errno'|] eqn:Ee.
  - assert (Htab : ep_tab s1 !! pr_pipe p = Some (mkFd fw 1)).
    { destruct Hr as (_ & _ & _ & _ & t & f0 & f1 & f2 & Ht & _ & _ & _ & -> & _).
      rewrite !lookup_insert_ne by lia. rewrite Ht, decide_True; [done|]. right. by right. }
    rewrite Hm in Hin |- *. unfold ep_write in Hin |- *. cbn [add_event ep_tab] in Hin |- *.
    rewrite Htab in Hin |- *. cbn [final_state add_event ep_trace fd_file] in Hin |- *.
    split; [by eexists|]. rewrite !written_app, Hnone. cbn [app].
    rewrite !elem_of_app, !elem_of_list_singleton in Hin.
    destruct Hin as [[Hin|Hin]|Hin]; [done| |done]. injection Hin as _ _ _ <-.
    apply written_one.
  - exfalso. subst r. rewrite Hm in Hin. cbn [final_state set_tab add_event ep_trace] in Hin.
    rewrite elem_of_app, elem_of_list_singleton in Hin. by destruct Hin.
Qed.

Lemma be_value_code errno : errno < 2 ^ 32 → be_value (rev (n_bytes 4 errno)) = errno.
Proof.
  intros H. unfold be_value. rewrite take_app_alt.
  - rewrite rev_involutive. by apply n_of_n_bytes.
  - by rewrite rev_length.
Qed.

(** A child whose program started wrote nothing into the pipe and does not hold it. *)
Lemma started_pipe e p s s' fw :
  listing_ok e → clone_entrypoint e p s = EpStarted s' → ep_trace s = [] →
  (∀ n ent, ep_tab s !! n = Some ent → fd_file ent = fw → n = pr_pipe p ∧ ¬ inheritable ent) →
  Some fw ∉ [ee_setgroups e; ee_uid_map e; ee_gid_map e] →
  (∀ n, ee_devnull e n ≠ Some fw) →
  (∀ fd, fd ∈ opt_list (pr_stdin p) ++ opt_list (pr_stdout p) ++ opt_list (pr_stderr p) →
     fd ≠ pr_pipe p) →
  written fw (ep_trace s') = [] ∧ holds_file fw (EpStarted s') = false.
Proof.
  intros Hl H Htr Honly Hfresh Hdn Hstd.
  destruct (started_ready _ _ _ _ Hl H) as (s1 & Hr & Hw & ->). cbn [set_tab ep_trace].
  split.
  { apply written_none. intros b Hb. destruct (Hw _ _ Hb) as [Ho|Ho]; [|done].
    rewrite Htr in Ho. by apply elem_of_nil in Ho. }
  destruct Hr as (_ & _ & _ & _ & t & f0 & f1 & f2 & Ht & S0 & S1 & S2 & Htab & _).
  assert (Ht' : ∀ n ent, t !! n = Some ent → n ≠ pr_pipe p → fd_file ent ≠ fw).
  { intros n ent Hn Hne Hf. rewrite Ht in Hn. destruct (decide (kept p n)); [|done].
    by destruct (Honly _ _ Hn Hf). }
  assert (H0 : f0 ≠ fw).
  { destruct (pr_stdin p) as [fd|]; cbn in S0.
    - destruct S0 as [_ S0]. destruct (t !! fd) as [ent|] eqn:E; [|done].
      injection S0 as <-. apply (Ht' fd); [done|]. apply Hstd. left.
    - intros ->. by eapply Hdn. }
  assert (H1 : f1 ≠ fw).
  { destruct (pr_stdout p) as [fd|]; cbn in S1.
    - destruct S1 as [_ S1]. destruct (decide (fd = 0)) as [->|Hn0].
      { rewrite lookup_insert in S1. by injection S1 as <-. }
      rewrite lookup_insert_ne in S1 by done.
      destruct (t !! fd) as [ent|] eqn:E; [|done].
      injection S1 as <-. apply (Ht' fd); [done|]. apply Hstd.
      rewrite !elem_of_app. right. left. left.
    - intros ->. by eapply Hdn. }
  assert (H2 : f2 ≠ fw).
  { destruct (pr_stderr p) as [fd|]; cbn in S2.
    - destruct S2 as [_ S2]. destruct (decide (fd = 1)) as [->|Hn1].
      { rewrite lookup_insert in S2. by injection S2 as <-. }
      rewrite lookup_insert_ne in S2 by done.
      destruct (decide (fd = 0)) as [->|Hn0].
      { rewrite lookup_insert in S2. by injection S2 as <-. }
      rewrite lookup_insert_ne in S2 by done.
      destruct (t !! fd) as [ent|] eqn:E; [|done].
      injection S2 as <-. apply (Ht' fd); [done|]. apply Hstd.
      rewrite !elem_of_app. right. right. left.
    - intros ->. by eapply Hdn. }
  cbn [holds_file set_tab ep_tab]. apply not_true_iff_false. intros Hex.
  apply existsb_exists in Hex as ([n ent] & Hin & Hf). cbn [snd] in Hf. apply N.eqb_eq in Hf.
  apply elem_of_list_In, elem_of_map_to_list in Hin. rewrite close_on_exec_lookup, Htab in Hin.
  destruct (decide (n = 2)) as [->|]. { rewrite lookup_insert in Hin. by injection Hin as <-. }
  rewrite lookup_insert_ne in Hin by done.
  destruct (decide (n = 1)) as [->|]. { rewrite lookup_insert in Hin. by injection Hin as <-. }
  rewrite lookup_insert_ne in Hin by done.
  destruct (decide (n = 0)) as [->|]. { rewrite lookup_insert in Hin. by injection Hin as <-. }
  rewrite lookup_insert_ne, Ht in Hin by done.
  destruct (decide (kept p n)); [|done].
  destruct (ep_tab s !! n) as [ent'|] eqn:E; [|done].
  destruct (decide (inheritable ent')); [|done]. injection Hin as <-.
  by destruct (Honly _ _ E Hf).
Qed.

(** Where the pipe's descriptors are in a call of [worker_new]. *)
Lemma pipe_above (t : fdtab) (ch wh rd wr : N) x y :
  t !! ch = None → t !! wh = None → ch < wh →
  (∀ m, m < wh → m ≠ ch → is_Some (t !! m)) →
  <[wh := x]> (<[ch := y]> t) !! rd = None → rd < wr → 2 < wr.
Proof.
  intros F1 F2 Hlt Hmin Hr Hlt2.
  assert (rd ≠ wh) by (intros ->; by rewrite lookup_insert in Hr).
  rewrite lookup_insert_ne in Hr by done.
  assert (rd ≠ ch) by (intros ->; by rewrite lookup_insert in Hr).
  rewrite lookup_insert_ne in Hr by done.
  destruct (N.lt_trichotomy rd wh) as [Hl|[|]]; [|lia|lia].
  destruct (Hmin rd Hl) as [z Hz]; [done|]. congruence.
Qed.
