(** What a program finds in errno after a trapped system call: property C136. *)
From stdpp Require Import prelude gmap.
From Coq Require Import Strings.Byte.
From Verif Require Import Bytes BytesProofs PolicyModel PolicySpec PolicyProofs LinuxPolicyModel
  LinuxPolicySpec LinuxPolicyProofs PostcardModel PostcardSpec PostcardProofs FdModel FdProofs
  ChannelModel ChannelProofs BrokerModel BrokerSpec BrokerProofs WorkerModel WorkerSpec
  WorkerProofs WorkerProps ErrnoModel.
Local Open Scope Z_scope.

(** errno after the trapped call with registers [r] returned [v] to the C library's function,
    which the program called with [e] in errno. *)
Definition errno_found (env : wenv) (gerr : Z) (r : regs) (w : world) (v e : Z) : Z :=
  libc_errno v (handler_errno env gerr (r_nr r) (r0 r) (r1 r) w e).

(** As errno(3) says: a call that succeeds does not change it, and one that fails stores its
    code. *)
Definition as_documented (v e e' : Z) : Prop :=
  (0 ≤ v → e' = e) ∧ (-4095 ≤ v < 0 → e' = - v).
Definition C136_full : Prop := ∀ env gerr audit calls r w v w' e,
  ready env audit calls w → trap env r w = (HRet v, w') →
  as_documented v e (errno_found env gerr r w v e).

Lemma libc_failed v e : -4095 ≤ v < 0 → libc_errno v e = - v.
Proof. intros H. unfold libc_errno. by rewrite (proj2 (Z.leb_le _ _)), (proj2 (Z.leb_le _ _)) by lia. Qed.
Lemma libc_fine v e : 0 ≤ v → libc_errno v e = e.
Proof.
  intros H. unfold libc_errno. rewrite (proj2 (Z.leb_gt v (-1))) by lia. by rewrite andb_false_r.
Qed.

(** True of every call but stat, chdir, and opens of relative paths; of these too if the
    current directory is known without asking the broker. *)
Theorem C136_partial env gerr r w v w' e :
  trap env r w = (HRet v, w') →
  (∀ path, ¬ stats_path env r path) → (∀ path, ¬ chdirs_path env r path) →
  (∀ path flags mode, opens_path env r path flags mode →
     starts_with_byte slash path = true ∨ (we_filtered env = false ∧ is_Some (we_cwd env))) →
  as_documented v e (errno_found env gerr r w v e).
Proof.
  intros Ht Hs Hc Ho.
  assert (handler_errno env gerr (r_nr r) (r0 r) (r1 r) w e = e) as E.
  { unfold handler_errno, read_string_from_ptr.
    assert (∀ path flags mode, opens_path env r path flags mode →
      errno_openat env gerr (lossy path) w e = e) as Hop.
    { intros path flags mode Hp. unfold errno_openat, errno_cwd. rewrite lossy_slash.
      destruct (Ho _ _ _ Hp) as [-> |[-> [d ->]]]; [done|]. by destruct (starts_with_byte _ _). }
    set (n := nos (be_abi (we_broker env))).
    destruct (r_nr r =? nr_access n); [done|].
    destruct (r_nr r =? nr_stat n) eqn:E1.
    { apply Z.eqb_eq in E1. destruct (we_mem env (r0 r)) as [p|] eqn:Em; [|done].
      by destruct (Hs p). }
    destruct (r_nr r =? nr_open n) eqn:E2.
    { apply Z.eqb_eq in E2. destruct (we_mem env (r0 r)) as [p|] eqn:Em; [|done]. simpl.
      apply (Hop p (as_i32 (r1 r)) (as_i32 (r2 r))). by left. }
    destruct (r_nr r =? nr_openat n) eqn:E3.
    { apply Z.eqb_eq in E3. destruct (as_i32 (r0 r) =? AT_FDCWD) eqn:E4; [|done].
      apply Z.eqb_eq in E4. destruct (we_mem env (r1 r)) as [p|] eqn:Em; [|done]. simpl.
      apply (Hop p (as_i32 (r2 r)) (as_i32 (r3 r))). right. split_and!; [done| |done..]. by left. }
    destruct (r_nr r =? nr_chdir n) eqn:E5; [|done].
    apply Z.eqb_eq in E5. destruct (we_mem env (r0 r)) as [p|] eqn:Em; [|done]. by destruct (Hc p). }
  unfold errno_found. rewrite E. split; [apply libc_fine|]. intros Hv. by apply libc_failed.
Qed.
Print Assumptions C136_partial.

(** Every stat that succeeds sets errno to 0. *)
Theorem C136_stat_refuted env gerr audit calls r path w w' e :
  ready env audit calls w → stats_path env r path → reasonable path →
  trap env r w = (HRet 0, w') → errno_found env gerr r w 0 e = 0.
Proof.
  intros (K & Hset & Hr) Hs Hp Ht. unfold errno_found. rewrite libc_fine by lia.
  rewrite (trap_stat _ _ _ _ Hs) in Ht. destruct Hs as [Hn Hm].
  unfold handler_errno, read_string_from_ptr. rewrite Hn, Hm, Z.eqb_refl.
  cbn [fmap option_fmap option_map].
  replace (nr_stat _ =? nr_access _) with false by by destruct (be_abi (we_broker env)).
  unfold handle_stat in Ht. unfold errno_stat.
  destruct (get_fd_spec env audit calls (lossy path) O_PATH w) as (x & w1 & os & Eg & _ & _ & Hx).
  - done. - done. - apply lossy_utf8. - apply lossy_nul. by eapply ko_mem. - by apply short_lossy.
  - unfold is_i32, O_PATH. lia. - done.
  - rewrite Eg in Ht |- *. destruct x as [fd|code].
    + unfold drop_and_return in Ht. destruct (handle_drop fd (w_tab w1)); try done.
      apply (f_equal fst) in Ht. cbn [fst] in Ht. injection Ht as Ht.
      refine (eq_trans (f_equal (λ x, libc_errno x 0) _) (libc_fine 0 0 _)); [exact Ht|lia].
    + exfalso. injection Ht as -> _.
      destruct Hx as [_ [(_ & _ & ?)|(_ & res & _ & Hres)]]; [lia|].
      destruct res; [done|]. lia.
Qed.
Print Assumptions C136_stat_refuted.
(** So does every chdir that succeeds. *)
Theorem C136_chdir_refuted env gerr audit calls r path w w' e :
  ready env audit calls w → chdirs_path env r path → reasonable path →
  trap env r w = (HRet 0, w') → errno_found env gerr r w 0 e = 0.
Proof.
  intros (K & Hset & Hr) Hs Hp Ht. unfold errno_found. rewrite libc_fine by lia.
  rewrite (trap_chdir _ _ _ _ Hs) in Ht. destruct Hs as [Hn Hm].
  unfold handler_errno, read_string_from_ptr. rewrite Hn, Hm, Z.eqb_refl.
  cbn [fmap option_fmap option_map].
  replace (nr_chdir _ =? nr_access _) with false by by destruct (be_abi (we_broker env)).
  replace (nr_chdir _ =? nr_stat _) with false by by destruct (be_abi (we_broker env)).
  replace (nr_chdir _ =? nr_open _) with false by by destruct (be_abi (we_broker env)).
  replace (nr_chdir _ =? nr_openat _) with false by by destruct (be_abi (we_broker env)).
  unfold handle_chdir in Ht. unfold errno_chdir.
  destruct (get_fd_spec env audit calls (lossy path) O_PATH w) as (x & w1 & os & Eg & _ & _ & Hx).
  - done. - done. - apply lossy_utf8. - apply lossy_nul. by eapply ko_mem. - by apply short_lossy.
  - unfold is_i32, O_PATH. lia. - done.
  - rewrite Eg in Ht |- *. destruct x as [fd|code].
    + assert (∀ v w2, drop_and_return fd v w2 = (HRet 0, w') → libc_errno v 0 = 0) as Hd.
      { intros v w2 H. unfold drop_and_return in H. destruct (handle_drop fd (w_tab w2)); try done.
        injection H as -> _. by apply libc_fine. }
      assert (∀ w2, (let '(v, w3) := match w_tab w2 !! fd with
          | None => (- Z.of_N EBADF, w2)
          | Some e => match we_fchdir env (fd_file e) with
                      | Some err => (- Z.of_N err, w2)
                      | None => (0, mkWorld (w_tab w2) (w_broker w2) (w_sent w2) (fd_file e))
                      end
          end in drop_and_return fd v w3) = (HRet 0, w') →
        libc_errno match w_tab w2 !! fd with
          | None => - Z.of_N EBADF
          | Some x => match we_fchdir env (fd_file x) with Some err => - Z.of_N err | None => 0 end
          end 0 = 0) as Hk.
      { intros w2 H. destruct (w_tab w2 !! fd) as [x|]; [|by apply Hd in H].
        destruct (we_fchdir env (fd_file x)); by apply Hd in H. }
      destruct (we_filtered env); [|by apply Hk].
      destruct (send_recv _ _ _) as [[[resp [h|]]| |] w2]; [by destruct resp| |done|done].
      destruct resp as [|code]; [done|].
      destruct (we_audit env && (code =? - ENOSYS)); [by apply Hk|by apply (Hd _ w2)].
    + exfalso. injection Ht as -> _.
      destruct Hx as [_ [(_ & _ & ?)|(_ & res & _ & Hres)]]; [lia|].
      destruct res; [done|]. lia.
Qed.
Print Assumptions C136_chdir_refuted.
(** Every open of a relative path that succeeds under a filter leaves the error of the getcwd
    that was refused (ENOSYS, 38). *)
Theorem C136_relative_refuted env gerr calls r path flags mode w v w' e :
  ready env false calls w → opens_path env r path flags mode → we_filtered env = true →
  starts_with_byte slash path = false → trap env r w = (HRet v, w') → 0 ≤ v →
  errno_found env gerr r w v e = 38.
Proof.
  intros (K & Hset & Hr) Ho Hf Hrel Ht Hv. unfold errno_found. rewrite libc_fine by done.
  assert (errno_openat env gerr (lossy path) w e = 38) as Hop.
  { unfold errno_openat, errno_cwd. rewrite lossy_slash, Hrel, Hf.
    destruct (syscall_exchange env false calls (nr_getcwd (nos (be_abi (we_broker env))))
      (we_getcwd_args env) (we_getcwd_ip env) w) as (w1 & E & _).
    - done. - done. - destruct (be_abi (we_broker env)); unfold is_i64; simpl; lia.
    - apply (ko_args _ K). - apply (ko_args _ K). - apply (ko_ip _ K).
    - rewrite E. destruct Hset as [_ ->]. cbn [andb]. rewrite as_isize_small by lia. done. }
  unfold handler_errno, read_string_from_ptr.
  destruct Ho as [(Hn & Hm & _)|(Hn & [Hb|Hb] & Hm & _)]; rewrite Hn, Hm.
  - by destruct (be_abi (we_broker env)).
  - apply Z.eqb_eq in Hb. rewrite Hb. by destruct (be_abi (we_broker env)).
  - congruence.
Qed.
Print Assumptions C136_relative_refuted.
(** Without a filter it is the error of a getcwd that fails, although the open succeeds. *)
Theorem C136_getcwd_refuted env gerr r path flags mode w v w' e :
  opens_path env r path flags mode → we_filtered env = false → we_cwd env = None →
  starts_with_byte slash path = false → trap env r w = (HRet v, w') → 0 ≤ v →
  errno_found env gerr r w v e = gerr.
Proof.
  intros Ho Hf Hc Hrel Ht Hv. unfold errno_found. rewrite libc_fine by done.
  assert (errno_openat env gerr (lossy path) w e = gerr) as Hop.
  { unfold errno_openat, errno_cwd. by rewrite lossy_slash, Hrel, Hf, Hc. }
  unfold handler_errno, read_string_from_ptr.
  destruct Ho as [(Hn & Hm & _)|(Hn & [Hb|Hb] & Hm & _)]; rewrite Hn, Hm.
  - by destruct (be_abi (we_broker env)).
  - apply Z.eqb_eq in Hb. rewrite Hb. by destruct (be_abi (we_broker env)).
  - congruence.
Qed.
Print Assumptions C136_getcwd_refuted.
Theorem C136_refuted : ¬ C136_full.
Proof.
  intros H.
  assert (ready (exw_env false true (lit "/home/u/f")) false exw_calls exw_world) as Hr.
  { apply exw_ready. apply (bool_decide_unpack _). vm_compute. exact I. }
  destruct (trap (exw_env false true (lit "/home/u/f")) (call 106 4096 0) exw_world) as [x w'] eqn:E.
  assert (x = HRet 0) as ->.
  { change x with ((x, w').1). rewrite <- E. by vm_compute. }
  assert (stats_path (exw_env false true (lit "/home/u/f")) (call 106 4096 0) (lit "/home/u/f")) as Hs.
  { by split. }
  pose proof (C136_stat_refuted _ 2 _ _ _ _ _ _ 17 Hr Hs (ltac:(by unfold reasonable; vm_compute)) E) as Hz.
  destruct (H _ 2 _ _ _ _ _ _ 17 Hr E) as [H0 _]. rewrite Hz in H0. by discriminate H0.
Qed.
Print Assumptions C136_refuted.

(** errno 17 before: kept by access and by open of an absolute path, 0 after stat, 38 after an
    open of a relative path, 13 after a refusal. *)
Example C136_example :
  let found s r := let env := exw_env false true s in
    match (trap env r exw_world).1 with
    | HRet v => Some (v, errno_found env 2 r exw_world v 17)
    | _ => None
    end in
  found (lit "/home/u/f") (call 5 4096 0) = Some (3, 17) ∧
  found (lit "/home/u/f") (call 33 4096 0) = Some (0, 17) ∧
  found (lit "/home/u/f") (call 106 4096 0) = Some (0, 0) ∧
  found (lit "f") (call 5 4096 0) = Some (3, 38) ∧
  found (lit "/etc/shadow") (call 5 4096 0) = Some (-13, 13).
Proof. vm_compute. auto. Qed.
