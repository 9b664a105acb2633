(** Properties of how Linux workers isolate themselves: C114, C115. *)
From stdpp Require Import prelude gmap.
From Coq Require Import Strings.Byte.
From Verif Require Import Bytes BytesProofs PolicyModel FdModel SeccompModel EntryModel ProcessModel
  EntryProofs ProcessProofs IsolationModel.
Local Open Scope N_scope.

(* ---------------------------------------------------------------- maps *)

Lemma digits_are_digits fuel : ∀ n acc,
  Forall (λ b, is_Some (digit_val b)) acc → Forall (λ b, is_Some (digit_val b)) (digits_aux fuel 10 n acc).
Proof.
  assert (∀ n, is_Some (digit_val (digit (n mod 10)))) as Hd.
  { intros n. rewrite digit_val_digit by (by apply N.mod_lt). by eexists. }
  induction fuel as [|fuel IH]; intros n acc Ha; cbn [digits_aux]; [done|].
  destruct (n <? 10); [by constructor|]. apply IH. by constructor.
Qed.
Lemma fmt_dec_digits n b : b ∈ fmt_dec n → is_Some (digit_val b).
Proof.
  intros H. pose proof (digits_are_digits (S (N.to_nat (N.log2 n))) n [] (Forall_nil_2 _)) as Hf.
  rewrite Forall_forall in Hf. by apply Hf.
Qed.
Lemma fmt_dec_no n b : digit_val b = None → b ∉ fmt_dec n.
Proof. intros H Hi%fmt_dec_digits. rewrite H in Hi. by destruct Hi. Qed.
Lemma split_word sep a b : sep ∉ a → split sep (a ++ sep :: b) = a :: split sep b.
Proof.
  induction a as [|c a IH]; intros Ha.
  - cbn [app split]. by rewrite decide_True.
  - apply not_elem_of_cons in Ha as [Hc Ha]. cbn [app split]. rewrite decide_False by congruence.
    by rewrite IH.
Qed.
Lemma parse_fmt n : n < 2 ^ 64 → parse_digits 0 (fmt_dec n) = Some n.
Proof.
  intros H. pose proof (parse_fmt_dec n H) as Hp. unfold parse_u64 in Hp.
  destruct (fmt_dec n) as [|c r] eqn:E; [done|].
  rewrite decide_False in Hp; [done|]. intros ->.
  by apply (fmt_dec_no n x2b); [|rewrite E; left].
Qed.
(** The kernel reads from the map what the broker meant. *)
Lemma parse_id_map n : n < 2 ^ 64 → parse_map (id_map n) = Some (mkMap n n 1).
Proof.
  intros Hn. unfold parse_map, id_map.
  replace (fmt_dec n ++ lit " " ++ fmt_dec n ++ lit " 1" ++ [x0a]) with
    ((fmt_dec n ++ x20 :: fmt_dec n ++ x20 :: lit "1") ++ [x0a])
    by (rewrite <-!app_assoc; cbn; by rewrite <-!app_assoc).
  rewrite strip_suffix_or_self_snoc. rewrite !split_word by (by apply fmt_dec_no).
  cbn [split]. change (split x20 (lit "1")) with [lit "1"].
  rewrite parse_fmt by done. done.
Qed.

(* ---------------------------------------------------------------- C114 *)

Definition all_spaces : list namespace := [NsIpc; NsNet; NsUts; NsCgroup; NsMount].
(** Every call is answered as the rules of the kernel have it. *)
Definition nothing_refused (e : iso_env) : Prop :=
  (∀ f, ie_open e f = true) ∧ (∀ n, ie_unshare e n = true) ∧ ie_name e = true ∧ ie_mount e = true.
Definition ids_fit (e : iso_env) : Prop := ie_uid e < 2 ^ 32 ∧ ie_gid e < 2 ^ 32.
(** The worker has left all namespaces of the host, sees another host name, its own processes, and
    no user or group but its own. *)
Definition isolated (e : iso_env) (k : iso) : Prop :=
  is_own k = all_spaces ∧ is_name k = lit "sandbox" ∧
  is_user k = Some (mkUns (Some (mkMap (ie_uid e) (ie_uid e) 1)) (Some (mkMap (ie_gid e) (ie_gid e) 1)) false) ∧
  last (is_mounts k) = Some (mkMount (lit "/proc") (lit "proc") true).
Definition C114_full : Prop := ∀ e accepts fl h,
  ids_fit e → clone_fallback accepts = Some fl → isolated e (isolate e fl h).

Definition kst (k : iso) (u : userns) : iso :=
  mkIso (is_host k) (Some u) (is_pids k) (is_own k) (is_name k) (is_mounts k).
Lemma write_uid_step e k g sg : ie_uid e < 2 ^ 32 →
  write_uid_map e (id_map (ie_uid e)) (kst k (mkUns None g sg)) =
  kst k (mkUns (if ie_uid e =? ie_euid e then Some (mkMap (ie_uid e) (ie_uid e) 1) else None) g sg).
Proof.
  intros H. unfold write_uid_map. cbn [kst is_user]. rewrite parse_id_map by lia.
  cbn [im_count im_out]. change (1 =? 1) with true. cbn [andb]. by destruct (ie_uid e =? ie_euid e).
Qed.
Lemma write_gid_step e k u sg : ie_gid e < 2 ^ 32 →
  write_gid_map e (id_map (ie_gid e)) (kst k (mkUns u None sg)) =
  kst k (mkUns u (if negb sg && (ie_gid e =? ie_egid e) then Some (mkMap (ie_gid e) (ie_gid e) 1) else None) sg).
Proof.
  intros H. unfold write_gid_map. cbn [kst is_user]. destruct sg; [done|]. rewrite parse_id_map by lia.
  cbn [im_count im_out]. change (1 =? 1) with true. cbn [andb negb]. by destruct (ie_gid e =? ie_egid e).
Qed.
(** The user namespace that a worker ends up with. *)
Definition uns_of (e : iso_env) : userns :=
  let sg := negb (ie_open e (lit "/proc/self/setgroups")) in
  mkUns (if ie_open e (lit "/proc/self/uid_map") && (ie_uid e =? ie_euid e)
         then Some (mkMap (ie_uid e) (ie_uid e) 1) else None)
        (if ie_open e (lit "/proc/self/gid_map") && (negb sg && (ie_gid e =? ie_egid e))
         then Some (mkMap (ie_gid e) (ie_gid e) 1) else None) sg.
Lemma id_map_cons n : ∃ c r, id_map n = c :: r.
Proof. unfold id_map. destruct (fmt_dec n); cbn; by eexists _, _. Qed.
Lemma ids_spec e k : ids_fit e →
  iso_ids e (id_map (ie_uid e)) (id_map (ie_gid e)) (kst k (mkUns None None true)) = kst k (uns_of e).
Proof.
  intros [Fu Fg]. unfold iso_ids, uns_of.
  set (k1 := if ie_open e (lit "/proc/self/setgroups") then _ else _).
  assert (k1 = kst k (mkUns None None (negb (ie_open e (lit "/proc/self/setgroups"))))) as ->.
  { unfold k1. by destruct (ie_open e _). }
  destruct (id_map_cons (ie_uid e)) as (c & r & Eu). rewrite Eu. rewrite <- Eu.
  destruct (id_map_cons (ie_gid e)) as (c' & r' & Eg). rewrite Eg. rewrite <- Eg. clear c r Eu c' r' Eg.
  rewrite write_uid_step by done.
  destruct (ie_open e (lit "/proc/self/uid_map")); cbn [andb];
    (destruct (ie_open e (lit "/proc/self/gid_map")); [by rewrite write_gid_step|done]).
Qed.
(** Without a user namespace the maps are those of the host, and writing them does nothing. *)
Lemma ids_none e k u g : is_user k = None → iso_ids e u g k = k.
Proof.
  intros H. unfold iso_ids, write_setgroups, write_uid_map, write_gid_map.
  destruct (ie_open e (lit "/proc/self/setgroups")), u, g; repeat (try rewrite H; destruct (ie_open e _)); try done;
    rewrite ?H; done.
Qed.

Definition has_own (e : iso_env) (adm : bool) : list namespace :=
  filter (λ n, adm && ie_unshare e n = true) all_spaces.
(** What [iso_spaces] does. *)
Lemma spaces_spec e k :
  is_own k = [] →
  let k' := iso_spaces e k in
  let a := iso_admin e k in
  is_user k' = is_user k ∧ is_pids k' = is_pids k ∧ is_own k' = has_own e a ∧
  is_name k' = (if a && ie_unshare e NsUts && ie_name e then lit "sandbox" else is_name k) ∧
  (is_host k', is_mounts k') =
    (if a && ie_unshare e NsMount && (match is_user k with Some _ => is_pids k | None => true end && ie_mount e) then
       let m := mkMount (lit "/proc") (lit "proc") (is_pids k) in
       (match is_user k with
        | None => if ho_shared (is_host k) then mkHost (ho_name (is_host k)) (ho_mounts (is_host k) ++ [m]) (ho_shared (is_host k)) else is_host k
        | Some _ => is_host k
        end, is_mounts k ++ [m])
     else (is_host k, is_mounts k)).
Proof.
  destruct k as [h u p o n m]. cbn [is_own]. intros ->. cbn [is_user is_pids is_own is_name is_mounts is_host].
  unfold iso_spaces, iso_unshare, has_own, mount_proc, all_spaces, iso_admin.
  destruct u as [u|]; [|destruct (ie_admin e)]; cbn [is_user is_pids is_own is_name is_mounts is_host fst snd andb];
    rewrite ?filter_cons, ?filter_nil;
    destruct (ie_unshare e NsIpc), (ie_unshare e NsNet), (ie_unshare e NsUts), (ie_unshare e NsCgroup), (ie_unshare e NsMount), (ie_name e);
    cbn [is_user is_pids is_own is_name is_mounts is_host fst snd andb];
    destruct p, (ie_mount e); done.
Qed.
Lemma isolate_spec e fl h :
  ids_fit e →
  let k := isolate e fl h in
  let a := newuser fl || ie_admin e in
  is_user k = (if newuser fl then Some (uns_of e) else None) ∧ is_pids k = newpid fl ∧ is_own k = has_own e a ∧
  is_name k = (if a && ie_unshare e NsUts && ie_name e then lit "sandbox" else ho_name h) ∧
  (is_host k, is_mounts k) =
    (if a && ie_unshare e NsMount && (implb (newuser fl) (newpid fl) && ie_mount e) then
       let m := mkMount (lit "/proc") (lit "proc") (newpid fl) in
       (if negb (newuser fl) && ho_shared h then mkHost (ho_name h) (ho_mounts h ++ [m]) (ho_shared h) else h,
        ho_mounts h ++ [m])
     else (h, ho_mounts h)).
Proof.
  intros Hf. unfold isolate. destruct fl as [u p]. cbn [newuser newpid]. destruct u.
  - match goal with |- context [iso_ids _ _ _ ?k0] => change k0 with (kst k0 (mkUns None None true)) end.
    rewrite ids_spec by done.
    match goal with |- context [iso_spaces e ?k0] => pose proof (spaces_spec e k0 eq_refl) as H end.
    cbn [kst iso_admin is_user is_pids is_own is_name is_mounts is_host orb implb negb andb] in *. exact H.
  - rewrite ids_none by done.
    match goal with |- context [iso_spaces e ?k0] => pose proof (spaces_spec e k0 eq_refl) as H end.
    cbn [kst iso_admin is_user is_pids is_own is_name is_mounts is_host orb implb negb andb] in *. exact H.
Qed.

(** Missing for [C114_full]: the kernel must not refuse a call, the broker must not be set-user-id,
    and the first attempt at cloning must have succeeded. *)
Theorem C114_partial : ∀ e accepts fl h,
  ids_fit e → clone_fallback accepts = Some fl → accepts (mkFlags true true) = true →
  nothing_refused e → ie_uid e = ie_euid e → ie_gid e = ie_egid e →
  isolated e (isolate e fl h).
Proof.
  intros e accepts fl h Hf Hc Ha (Ho & Hu & Hn & Hm) Eu Eg.
  assert (fl = mkFlags true true) as ->.
  { unfold clone_fallback in Hc. rewrite Ha in Hc. by injection Hc. }
  destruct (isolate_spec e (mkFlags true true) h Hf) as (H1 & H2 & H3 & H4 & H5).
  set (k := isolate _ _ _) in *. clearbody k. cbn [newuser newpid orb andb implb negb] in *.
  unfold uns_of, has_own in *. rewrite !Ho, Eu, Eg, !N.eqb_refl in H1. rewrite !Hu, Hn in H4. rewrite !Hu, Hm in H5.
  cbn [andb negb] in *. unfold isolated. rewrite H1, H3, H4, <-Eu, <-Eg. injection H5 as _ H5. rewrite H5.
  split_and!; [|done|done|apply last_snoc].
  unfold all_spaces. by rewrite !filter_cons, !Hu, filter_nil.
Qed.
Print Assumptions C114_partial.

(** Whatever the kernel answers: a map that is set gives the worker its own id and no other, so
    it is user 0 inside only if the broker is; with a group map the worker cannot change its
    groups. *)
Theorem C114_ids : ∀ e fl h u,
  ids_fit e → is_user (isolate e fl h) = Some u →
  newuser fl = true ∧
  (∀ m, un_uid u = Some m → m = mkMap (ie_uid e) (ie_uid e) 1 ∧ ie_uid e = ie_euid e) ∧
  (∀ m, un_gid u = Some m → m = mkMap (ie_gid e) (ie_gid e) 1 ∧ ie_gid e = ie_egid e ∧ un_setgroups u = false).
Proof.
  intros e fl h u Hf Hu. destruct (isolate_spec e fl h Hf) as (H1 & _). rewrite Hu in H1.
  destruct (newuser fl); [|done]. injection H1 as ->. split; [done|]. unfold uns_of. cbn [un_uid un_gid un_setgroups]. split.
  - destruct (_ && _) eqn:E; [|done]. apply andb_true_iff in E as [_ E%N.eqb_eq]. by intros m [= <-].
  - destruct (ie_open e (lit "/proc/self/gid_map") && _) eqn:E; [|done].
    apply andb_true_iff in E as [_ [E0 E%N.eqb_eq]%andb_true_iff]. intros m [= <-].
    split_and!; [done|done|]. by apply negb_true_iff in E0.
Qed.
Print Assumptions C114_ids.
(** A broker whose real and effective user differ (a set-user-id program) writes a map that the
    kernel refuses. *)
Theorem C114_setuid_refuted : ∀ e fl h u,
  ids_fit e → ie_uid e ≠ ie_euid e → is_user (isolate e fl h) = Some u → un_uid u = None.
Proof.
  intros e fl h u Hf Hne Hu. destruct (C114_ids e fl h u Hf Hu) as (_ & H & _).
  destruct (un_uid u) as [m|]; [|done]. by destruct (H m eq_refl) as [_ ?].
Qed.
Print Assumptions C114_setuid_refuted.

Definition ex_refuses : iso_env := mkIsoEnv 1000 1000 1000 1000 false (λ _, true)
  (λ n, bool_decide (n ≠ NsNet)) true true.
Definition ex_agrees : iso_env := mkIsoEnv 1000 1000 1000 1000 false (λ _, true) (λ n, true) true true.
Definition ex_host : host := mkHost (lit "server") [mkMount (lit "/") (lit "ext4") false; mkMount (lit "/proc") (lit "proc") false] true.
(** The network namespace is refused, and the worker starts in that of the host. *)
Theorem C114_refuted : ¬ C114_full.
Proof.
  unfold C114_full. intros H.
  destruct (H ex_refuses (λ _, true) (mkFlags true true) ex_host ltac:(done) eq_refl) as (E & _).
  vm_compute in E. done.
Qed.
Print Assumptions C114_refuted.
Example C114_example :
  isolated ex_agrees (isolate ex_agrees (mkFlags true true) ex_host) ∧
  is_own (isolate ex_refuses (mkFlags true true) ex_host) = [NsIpc; NsUts; NsCgroup; NsMount] ∧
  is_own (isolate ex_agrees (mkFlags false false) ex_host) = [] ∧
  is_name (isolate ex_agrees (mkFlags false true) ex_host) = lit "server".
Proof. by vm_compute. Qed.

(** The same in the model of the whole entry point. *)
Definition file_writes (tr : list ep_event) : list (N * str) :=
  omap (λ v, match v with EpWrite f b => Some (f, b) | _ => None end) tr.
Lemma file_writes_app a b : file_writes (a ++ b) = file_writes a ++ file_writes b.
Proof. apply omap_app. Qed.
Definition at_most_write (file : option N) (ok : str → Prop) (l : list (N * str)) : Prop :=
  l = [] ∨ ∃ f b, file = Some f ∧ l = [(f, b)] ∧ ok b.

Lemma write_proc_writes e path file b s :
  ∃ l, file_writes (ep_trace (write_proc e path file b s)) = file_writes (ep_trace s) ++ l ∧
    at_most_write file (λ x, x = b) l ∧ ep_unshared (write_proc e path file b s) = ep_unshared s.
Proof.
  unfold write_proc. destruct (ep_open _ _ _ _ _) as [[n s']|] eqn:E.
  2:{ exists []. rewrite app_nil_r. split_and!; [done|by left|done]. }
  destruct (ep_open_spec _ _ _ _ _ _ _ E) as (f & Hf & Hn & Ht & Htr & Hu & _).
  destruct (ep_close_spec n (ep_write n b s')) as (_ & _ & Tr & Un). rewrite Tr, Un.
  unfold ep_write. rewrite Ht, lookup_insert. cbn [fd_file add_event ep_trace ep_unshared].
  exists [(f, b)]. rewrite Htr, !file_writes_app. cbn. rewrite app_nil_r. split_and!; [done| |done].
  right. by exists f, b.
Qed.
Lemma unshare_writes e n s :
  ep_trace (unshare e n s) = ep_trace s ∧
  ep_unshared (unshare e n s) = ep_unshared s ++ filter (λ n, ee_unshare e n = true) [n].
Proof.
  unfold unshare. rewrite filter_cons, filter_nil. destruct (ee_unshare e n) eqn:E; cbn; [done|].
  by rewrite app_nil_r.
Qed.
Lemma prepared_writes e p s : ep_trace s = [] → ep_unshared s = [] →
  ∃ a b c, file_writes (ep_trace (prepared e p s)) = a ++ b ++ c ∧
    at_most_write (ee_setgroups e) (λ x, x = lit "deny") a ∧
    at_most_write (ee_uid_map e) (λ x, x = pr_uid_map p) b ∧
    at_most_write (ee_gid_map e) (λ x, x = pr_gid_map p) c ∧
    ep_unshared (prepared e p s) = filter (λ n, ee_unshare e n = true) all_spaces.
Proof.
  intros Htr Hun. unfold prepared.
  set (s1 := mkEp _ _ _ _ _ _ _).
  destruct (write_proc_writes e (lit "/proc/self/setgroups") (ee_setgroups e) (lit "deny") s1) as (a & Ta & Ha & Ua).
  set (s2 := write_proc e (lit "/proc/self/setgroups") _ _ s1) in *. clearbody s2.
  subst s1. cbn [ep_trace ep_unshared] in Ta, Ua. rewrite Htr in Ta. rewrite Hun in Ua. cbn in Ta.
  set (s3 := match pr_uid_map p with [] => s2 | _ => _ end).
  assert (∃ b, file_writes (ep_trace s3) = a ++ b ∧ at_most_write (ee_uid_map e) (λ x, x = pr_uid_map p) b ∧ ep_unshared s3 = []) as (b & Tb & Hb & Ub).
  { subst s3. destruct (pr_uid_map p) as [|c0 r0].
    - exists []. rewrite app_nil_r. split_and!; [done|by left|done].
    - destruct (write_proc_writes e (lit "/proc/self/uid_map") (ee_uid_map e) (c0 :: r0) s2) as (b & Tb & Hb & Ub).
      exists b. rewrite Tb, Ta, Ub. done. }
  clearbody s3. set (s4 := match pr_gid_map p with [] => s3 | _ => _ end).
  assert (∃ c, file_writes (ep_trace s4) = a ++ b ++ c ∧ at_most_write (ee_gid_map e) (λ x, x = pr_gid_map p) c ∧ ep_unshared s4 = []) as (c & Tc & Hc & Uc).
  { subst s4. destruct (pr_gid_map p) as [|c0 r0].
    - exists []. rewrite app_nil_r. split_and!; [done|by left|done].
    - destruct (write_proc_writes e (lit "/proc/self/gid_map") (ee_gid_map e) (c0 :: r0) s3) as (c & Tc & Hc & Uc).
      exists c. rewrite Tc, Tb, Uc, <-app_assoc. done. }
  clearbody s4. exists a, b, c. cbn [set_caps ep_trace ep_unshared].
  repeat match goal with |- context [unshare e ?n ?x] =>
    let T := fresh "T" in let U := fresh "U" in
    lazymatch x with context [unshare] => fail | _ => idtac end;
    destruct (unshare_writes e n x) as [T U]; rewrite ?T, ?U;
    let y := fresh "y" in set (y := unshare e n x) in *; clearbody y end.
  repeat match goal with H : ep_trace ?x = ep_trace _ |- _ => rewrite H; clear H end.
  repeat match goal with H : ep_unshared ?x = ep_unshared _ ++ _ |- _ => rewrite H; clear H end.
  rewrite Uc. split_and!; try done. unfold all_spaces.
  rewrite !filter_cons, !filter_nil.
  by destruct (ee_unshare e NsIpc), (ee_unshare e NsNet), (ee_unshare e NsUts), (ee_unshare e NsCgroup), (ee_unshare e NsMount).
Qed.
Lemma started_writes e p s s' :
  clone_entrypoint e p s = EpStarted s' →
  file_writes (ep_trace s') = file_writes (ep_trace (prepared e p s)) ∧
  ep_unshared s' = ep_unshared (prepared e p s).
Proof.
  unfold clone_entrypoint.
  destruct (ee_nnp e) eqn:Ennp; cbn [negb]; [|done].
  change (set_caps (drop_capabilities (ee_caps e) _) _) with (prepared e p s).
  cbv zeta. fold (prepared e p s).
  set (s6 := prepared e p s) in *. clearbody s6.
  destruct (ep_open e _ _ (ee_fds e) s6) as [[fds_fd s7]|] eqn:Eopen; [|done].
  destruct (ep_open_spec _ _ _ _ _ _ _ Eopen) as (ff & _ & _ & _ & Tr7 & U7 & _).
  destruct (ee_opendir e); cbn [negb]; [|done].
  destruct (cleanup e p fds_fd 0 _ s7) as [s8|] eqn:Ecl; [|done].
  destruct (cleanup_spec _ _ _ _ _ _ _ Ecl) as (_ & _ & _ & Tr8 & U8).
  destruct (ep_close_spec fds_fd s8) as (_ & _ & Tr9 & U9).
  set (s9 := ep_close fds_fd s8) in *. clearbody s9.
  destruct (setup_std e 0 (pr_stdin p) s9) as [sa|] eqn:Ea; [|done].
  destruct (setup_std_spec _ _ _ _ _ Ea) as (f0 & _ & _ & _ & Ua & Tra).
  destruct (setup_std e 1 (pr_stdout p) sa) as [sb|] eqn:Eb; [|done].
  destruct (setup_std_spec _ _ _ _ _ Eb) as (f1 & _ & _ & _ & Ub & Trb).
  destruct (setup_std e 2 (pr_stderr p) sb) as [sc|] eqn:Ec; [|done].
  destruct (setup_std_spec _ _ _ _ _ Ec) as (f2 & _ & _ & _ & Uc & Trc).
  destruct (ee_execve e); [done|]. intros [= <-]. cbn [set_tab add_event ep_trace ep_unshared].
  split; [|congruence]. rewrite file_writes_app, Trc, file_writes_app, Trb, file_writes_app, Tra, file_writes_app, Tr9, Tr8, Tr7, file_writes_app.
  cbn [file_writes omap list_omap]. destruct (pr_stdin p), (pr_stdout p), (pr_stderr p); cbn; by rewrite !app_nil_r.
Qed.

Theorem C114_process : ∀ pe p c t r t' fl s,
  pe_uid pe < 2 ^ 32 → pe_gid pe < 2 ^ 32 →
  process_new pe p c t = (r, t', Some (fl, EpStarted s)) →
  ep_unshared s = filter (λ n, ee_unshare (pe_child pe) n = true) all_spaces ∧
  ∃ sg u g, file_writes (ep_trace s) = sg ++ u ++ g ∧
    at_most_write (ee_setgroups (pe_child pe)) (λ b, b = lit "deny") sg ∧
    at_most_write (ee_uid_map (pe_child pe)) (λ b, parse_map b = Some (mkMap (pe_uid pe) (pe_uid pe) 1)) u ∧
    at_most_write (ee_gid_map (pe_child pe)) (λ b, parse_map b = Some (mkMap (pe_gid pe) (pe_gid pe) 1)) g.
Proof.
  intros pe p c t r t' fl s Hu Hg H.
  destruct (process_new_cases _ _ _ _ _ _ _ H) as [(? & _ & _ & ?)|(fr & fw & rd & wr & fl' & _ & _ & _ & _ & _ & _ & Hc)]; [done|].
  cbv zeta in Hc. destruct Hc as (Hc & _). injection Hc as <- Hc. symmetry in Hc.
  destruct (started_writes _ _ _ _ Hc) as [E1 E2].
  destruct (prepared_writes (pe_child pe) (child_params pe p c wr)
    (child_start pe fl (<[wr:=mkFd fw 1]> (<[rd:=mkFd fr 0]> t))) eq_refl eq_refl) as (a & b & d & E3 & Ha & Hb & Hd & E4).
  rewrite E1, E2, E4. split; [done|]. exists a, b, d. split_and!; [done|done| |].
  - destruct Hb as [|(f & m & ? & ? & ->)]; [by left|]. right. exists f, (id_map (pe_uid pe)).
    split_and!; try done. apply parse_id_map. lia.
  - destruct Hd as [|(f & m & ? & ? & ->)]; [by left|]. right. exists f, (id_map (pe_gid pe)).
    split_and!; try done. apply parse_id_map. lia.
Qed.
Print Assumptions C114_process.

(* ---------------------------------------------------------------- C115 *)

(** Isolating a worker leaves the host as it was. *)
Definition C115_full : Prop := ∀ e accepts fl h,
  ids_fit e → clone_fallback accepts = Some fl → is_host (isolate e fl h) = h.
(** Missing for [C115_full]: a broker with CAP_SYS_ADMIN whose kernel has no user namespaces, on
    a host with shared mounts. *)
Theorem C115_partial : ∀ e fl h,
  ids_fit e → newuser fl = true ∨ ie_admin e = false ∨ ho_shared h = false →
  is_host (isolate e fl h) = h.
Proof.
  intros e fl h Hf Hor. destruct (isolate_spec e fl h Hf) as (_ & _ & _ & _ & H). cbv zeta in H.
  destruct (_ && ie_unshare e NsMount && _) eqn:E; [|by injection H as ? _].
  injection H as -> _. destruct Hor as [Hn|[Hn|Hn]]; rewrite Hn in *.
  - done.
  - destruct (newuser fl); [done|]. by cbn in E.
  - by rewrite andb_false_r.
Qed.
Print Assumptions C115_partial.
(** The most that can change: one mount of proc more; never the name. *)
Theorem C115_at_most : ∀ e fl h,
  ids_fit e → ho_name (is_host (isolate e fl h)) = ho_name h ∧
  (ho_mounts (is_host (isolate e fl h)) = ho_mounts h ∨
   ho_mounts (is_host (isolate e fl h)) = ho_mounts h ++ [mkMount (lit "/proc") (lit "proc") (newpid fl)]).
Proof.
  intros e fl h Hf. destruct (isolate_spec e fl h Hf) as (_ & _ & _ & _ & H). cbv zeta in H.
  destruct (_ && ie_unshare e NsMount && _); injection H as -> _; [|by auto].
  destruct (negb _ && _); cbn; auto.
Qed.
Print Assumptions C115_at_most.
(** A root broker whose kernel has user namespaces switched off: /proc of the whole host becomes
    one that lists the processes of the worker's pid namespace only. *)
Definition ex_root : iso_env := mkIsoEnv 0 0 0 0 true (λ _, true) (λ _, true) true true.
Theorem C115_refuted : ¬ C115_full.
Proof.
  unfold C115_full. intros H.
  pose proof (H ex_root (λ fl, negb (newuser fl)) (mkFlags false true) ex_host ltac:(done) eq_refl) as E.
  vm_compute in E. done.
Qed.
Print Assumptions C115_refuted.
Example C115_example :
  last (ho_mounts (is_host (isolate ex_root (mkFlags false true) ex_host))) = Some (mkMount (lit "/proc") (lit "proc") true) ∧
  is_host (isolate ex_root (mkFlags true true) ex_host) = ex_host ∧
  is_host (isolate ex_agrees (mkFlags false true) ex_host) = ex_host.
Proof. by vm_compute. Qed.
