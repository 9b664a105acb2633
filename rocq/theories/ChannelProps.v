(** Properties C19-C22: the Linux channel and handles. *)
From stdpp Require Import prelude gmap.
From Coq Require Import Strings.Byte ZifyN ZifyNat ZifyBool.
From Verif Require Import Bytes PolicyModel PostcardModel PostcardSpec PostcardProofs
  FdModel FdProofs ChannelModel ChannelProofs.
Local Open Scope N_scope.

(* ---------------------------------------------------------------- C19 *)

(** A successful send put the whole encoding in one datagram. *)
Theorem C19_send_complete {A} (enc : A → str) (a : abi) (sndbuf bufsize : N) (t : fdtab)
  (m : A) (h : option N) (d : datagram) :
  channel_send enc a sndbuf t m h bufsize = Ok d → dg_payload d = enc m.
Proof. intros H. by apply channel_send_payload in H as [? _]. Qed.
Print Assumptions C19_send_complete.

(** A received message was decoded from a whole datagram. *)
Theorem C19_recv_complete {A} (dec : parser A) (a : abi) (limit bufsize : N)
  (ev : sock_event) (t t' : fdtab) (m : A) (h : option N) :
  channel_recv dec a limit bufsize ev t = (Ok (Some (m, h)), t') →
  ∃ d rest, ev = EvDatagram d ∧ N.of_nat (length (dg_payload d)) ≤ bufsize ∧
    dec (dg_payload d) = Some (m, rest).
Proof. intros H. apply recv_whole in H as (d & rest & ? & ? & ? & _). eauto. Qed.
Print Assumptions C19_recv_complete.

(** End to end: what the receiver gets for a sent request is that request or an
    error, for any two buffer sizes. *)
Theorem C19_end_to_end (a a' : abi) (sndbuf bufsize bufsize' limit : N) (t u u' : fdtab)
  (m : ipc_request) (h : option N) (d : datagram)
  (r : result (option (ipc_request * option N)) ipc_error) :
  request_ok m →
  channel_send enc_request a sndbuf t m h bufsize = Ok d →
  channel_recv dec_request a' limit bufsize' (EvDatagram d) u = (r, u') →
  (∃ e, r = Err e) ∨ ∃ h', r = Ok (Some (m, h')).
Proof.
  intros Hok Hs Hr. apply channel_send_payload in Hs as [Hp _].
  pose proof (request_roundtrip m [] Hok) as Hd. rewrite app_nil_r in Hd.
  revert Hr. simpl. unfold sys_recvmsg.
  destruct (install_files _ _ _ _) as [ns t1]. simpl. rewrite Hp.
  destruct (match ns with [] => Some None | fd :: _ => _ end) as [hd|].
  2:{ intros [= <- <-]. left. eauto. }
  destruct (bufsize' <? N.of_nat (length (enc_request m))) eqn:E; simpl.
  { intros [= <- <-]. left. eauto. }
  destruct (length ns <? length (dg_files d))%nat; [intros [= <- <-]; left; eauto|].
  rewrite take_ge by lia.
  destruct (Nat.eqb (length (enc_request m)) 0) eqn:E0.
  { assert (enc_request m = []) as Hnil by (destruct (enc_request m); done).
    rewrite Hnil in Hd. done. }
  unfold deserialize. rewrite Hd. intros [= <- <-]. right. eauto.
Qed.
Print Assumptions C19_end_to_end.

Definition ex_tab : fdtab := <[0 := mkFd 100 0]> (<[1 := mkFd 101 0]> (<[5 := mkFd 105 1]> ∅)).
Definition ex_req : ipc_request := ReqOpenFile (lit "/etc/hosts") 0.
Example C19_example :
  channel_send enc_request Abi64 200000 ex_tab ex_req None 65536 =
    Ok (mkDgram (enc_request ex_req) []) ∧
  channel_send enc_request Abi64 200000 ex_tab ex_req None 12 = Err IpcSerialization ∧
  fst (channel_recv dec_request Abi64 1024 65536 (EvDatagram (mkDgram (enc_request ex_req) [])) ∅)
    = Ok (Some (ex_req, None)) ∧
  fst (channel_recv dec_request Abi64 1024 12 (EvDatagram (mkDgram (enc_request ex_req) [])) ∅)
    = Err IpcTooBig.
Proof. by vm_compute. Qed.

(* ---------------------------------------------------------------- C20 *)

(** Full claim: the datagram of a send with handle [fd] holds exactly the file of
    [fd]. *)
Definition C20_claim (a : abi) : Prop :=
  ∀ (sndbuf bufsize : N) (t : fdtab) (m : ipc_request) (fd : N) (d : datagram),
    fd < 2 ^ 31 →
    channel_send enc_request a sndbuf t m (Some fd) bufsize = Ok d →
    ∃ e, t !! fd = Some e ∧ dg_files d = [fd_file e].

(** It holds on i686. Missing for the full claim: x86_64. *)
Theorem C20_i686_exact_partial : C20_claim Abi32.
Proof. intros sb bs t m fd d Hfd H. by apply (channel_send_files _ _ _ _ _ _ _ _ H). Qed.
Print Assumptions C20_i686_exact_partial.

(** It fails on x86_64. *)
Theorem C20_x86_64_refuted : ¬ C20_claim Abi64.
Proof.
  intros H. destruct (H 200000 65536 ex_tab ex_req 5 (mkDgram (enc_request ex_req) [105; 100]))
    as (e & He & Hf); [lia|by vm_compute|done].
Qed.
Print Assumptions C20_x86_64_refuted.

(** There, every message with a handle also carries the sender's descriptor 0, and
    no handle can be sent by a process that has closed descriptor 0. *)
Theorem C20_x86_64_sends_fd0 {A} (enc : A → str) (sndbuf bufsize : N) (t : fdtab) (m : A)
  (fd : N) :
  fd < 2 ^ 31 →
  (∀ d, channel_send enc Abi64 sndbuf t m (Some fd) bufsize = Ok d →
    ∃ e e0, t !! fd = Some e ∧ t !! 0 = Some e0 ∧ dg_files d = [fd_file e; fd_file e0]) ∧
  (t !! 0 = None → ∃ e, channel_send enc Abi64 sndbuf t m (Some fd) bufsize = Err e).
Proof.
  intros Hfd. split.
  - intros d H. destruct (channel_send_files _ _ _ _ _ _ _ _ H Hfd) as (e & He & e0 & He0 & Hd).
    eauto 6.
  - intros H0. destruct (channel_send enc Abi64 sndbuf t m (Some fd) bufsize) as [d|e] eqn:E; [|eauto].
    destruct (channel_send_files _ _ _ _ _ _ _ _ E Hfd) as (e & He & e0 & He0 & Hd). congruence.
Qed.
Print Assumptions C20_x86_64_sends_fd0.

(** Without a handle no descriptor is sent. *)
Theorem C20_no_handle_no_fd {A} (enc : A → str) (a : abi) (sndbuf bufsize : N) (t : fdtab)
  (m : A) (d : datagram) :
  channel_send enc a sndbuf t m None bufsize = Ok d → dg_files d = [].
Proof. apply channel_send_files. Qed.
Print Assumptions C20_no_handle_no_fd.

Example C20_example :
  channel_send enc_request Abi32 200000 ex_tab ex_req (Some 5) 65536 =
    Ok (mkDgram (enc_request ex_req) [105]) ∧
  channel_send enc_request Abi64 200000 ex_tab ex_req (Some 5) 65536 =
    Ok (mkDgram (enc_request ex_req) [105; 100]) ∧
  channel_send enc_request Abi64 200000 (delete 0 ex_tab) ex_req (Some 5) 65536 =
    Err (IpcOs EBADF).
Proof. by vm_compute. Qed.

(* ---------------------------------------------------------------- C21 *)

(** Full claim: after recv the table is the old one plus the returned handle. *)
Definition C21_claim (a : abi) : Prop :=
  ∀ (limit bufsize : N) (ev : sock_event) (t t' : fdtab)
    (r : result (option (ipc_request * option N)) ipc_error),
    limit ≤ 2 ^ 31 →
    channel_recv dec_request a limit bufsize ev t = (r, t') →
    drop_opt (owned_by_result r) t' = t ∧
    (∀ h, owned_by_result r = Some h → t !! h = None ∧ is_Some (t' !! h)).

Theorem C21_i686_no_leak_partial : C21_claim Abi32.
Proof. intros limit bs ev t t' r Hl. apply recv_no_leak_gen; auto. Qed.
Print Assumptions C21_i686_no_leak_partial.

(** x86_64, when the peer attaches at most one descriptor. *)
Theorem C21_x86_64_single_partial {A} (dec : parser A) (limit bufsize : N) (p : str)
  (files : list N) (t t' : fdtab) (r : result (option (A * option N)) ipc_error) :
  limit ≤ 2 ^ 31 → (length files ≤ 1)%nat →
  channel_recv dec Abi64 limit bufsize (EvDatagram (mkDgram p files)) t = (r, t') →
  drop_opt (owned_by_result r) t' = t ∧
  (∀ h, owned_by_result r = Some h → t !! h = None ∧ is_Some (t' !! h)).
Proof.
  intros Hl Hf. apply recv_no_leak_gen; [done|]. right. by intros d [= <-].
Qed.
Print Assumptions C21_x86_64_single_partial.

Theorem C21_x86_64_refuted : ¬ C21_claim Abi64.
Proof.
  intros H.
  destruct (H 1024 65536 (EvDatagram (mkDgram (enc_request ex_req) [7; 8])) ∅
    (<[1 := mkFd 8 1]> (<[0 := mkFd 7 1]> ∅)) (Ok (Some (ex_req, Some 0)))) as [E _];
    [lia|by vm_compute|].
  apply (f_equal (lookup 1)) in E. by vm_compute in E.
Qed.
Print Assumptions C21_x86_64_refuted.

(** On x86_64 the second of two attached descriptors always stays open and unowned,
    whatever the payload. *)
Theorem C21_x86_64_leaks {A} (dec : parser A) (limit bufsize : N) (f g : N) (t : fdtab)
  (p : str) (n1 n2 : N) (t1 t2 : fdtab) :
  limit ≤ 2 ^ 31 →
  fd_install limit (mkFd f FD_CLOEXEC) t = Some (n1, t1) →
  fd_install limit (mkFd g FD_CLOEXEC) t1 = Some (n2, t2) →
  ∃ r t', channel_recv dec Abi64 limit bufsize (EvDatagram (mkDgram p [f; g])) t = (r, t') ∧
    t !! n2 = None ∧ t' !! n2 = Some (mkFd g FD_CLOEXEC) ∧ owned_by_result r ≠ Some n2.
Proof.
  intros Hl E1 E2. destruct (recv_two dec limit bufsize f g t p n1 n2 t1 t2 Hl E1 E2)
    as (r & t' & H1 & H2 & H3 & H4 & H5).
  exists r, t'. split_and!; [done|done|done|]. destruct H5 as [-> | ->]; [done|congruence].
Qed.
Print Assumptions C21_x86_64_leaks.

(** Both together: each handle the broker sends on x86_64 leaks the broker's
    standard input into the worker. *)
Theorem C21_x86_64_send_recv_leaks_stdin {A} (enc : A → str) (dec : parser A)
  (sndbuf bufsize bufsize' limit : N) (t u : fdtab) (m : A) (fd : N) (d : datagram) (e0 : fdent)
  (n1 n2 : N) (t1 t2 : fdtab) :
  fd < 2 ^ 31 → limit ≤ 2 ^ 31 → t !! 0 = Some e0 →
  channel_send enc Abi64 sndbuf t m (Some fd) bufsize = Ok d →
  (∀ e, t !! fd = Some e → fd_install limit (mkFd (fd_file e) FD_CLOEXEC) u = Some (n1, t1)) →
  fd_install limit (mkFd (fd_file e0) FD_CLOEXEC) t1 = Some (n2, t2) →
  ∃ r u', channel_recv dec Abi64 limit bufsize' (EvDatagram d) u = (r, u') ∧
    u !! n2 = None ∧ u' !! n2 = Some (mkFd (fd_file e0) FD_CLOEXEC) ∧
    owned_by_result r ≠ Some n2.
Proof.
  intros Hfd Hl H0 Hs E1 E2.
  destruct (C20_x86_64_sends_fd0 enc sndbuf bufsize t m fd Hfd) as [H _].
  destruct (H d Hs) as (e & e0' & He & He0 & Hd). assert (e0' = e0) as -> by congruence.
  destruct d as [p files]. simpl in Hd. subst files.
  eapply C21_x86_64_leaks; [done|by apply E1|done].
Qed.
Print Assumptions C21_x86_64_send_recv_leaks_stdin.

Definition ex_recv (a : abi) (d : datagram) :=
  let '(r, t) := channel_recv dec_request a 1024 65536 (EvDatagram d) ∅ in (r, map_to_list t).
Example C21_example :
  ex_recv Abi64 (mkDgram (enc_request ex_req) [7; 8]) =
    (Ok (Some (ex_req, Some 0)), [(0, mkFd 7 1); (1, mkFd 8 1)]) ∧
  ex_recv Abi32 (mkDgram (enc_request ex_req) [7; 8]) = (Err IpcTooBig, []) ∧
  ex_recv Abi64 (mkDgram (enc_request ex_req) [7]) =
    (Ok (Some (ex_req, Some 0)), [(0, mkFd 7 1)]) ∧
  ex_recv Abi64 (mkDgram (lit "junk") [7]) = (Err IpcDeserialization, []).
Proof. by vm_compute. Qed.

(* ---------------------------------------------------------------- C22 *)

(** Any sequence of handle operations, from any table [t0] and no handle: the table
    is [t0] plus exactly one entry per owned descriptor. So a descriptor is closed
    when (and only when) its handle is dropped, never twice, never after into_raw,
    and nothing else is ever closed or changed. *)
Theorem C22_ownership (limit : N) (t0 : fdtab) (os : list hop) (s : hstate) :
  limit ≤ 2 ^ 31 → (∀ n, is_Some (t0 !! n) → n < 2 ^ 31) →
  hrun limit os (mkHs t0 [] []) = Done s →
  NoDup (hs_live s ++ hs_raws s) ∧
  (∀ n, n ∈ hs_live s ++ hs_raws s → t0 !! n = None ∧ is_Some (hs_tab s !! n)) ∧
  (∀ n, n ∉ hs_live s ++ hs_raws s → hs_tab s !! n = t0 !! n).
Proof.
  intros Hl Hs H. apply (hrun_inv limit t0) in H as [H _]; [done|done|done|].
  split_and!; simpl; [constructor|set_solver|done].
Qed.
Print Assumptions C22_ownership.

(** The only panic is a clone with a full descriptor table; no operation fails. *)
Theorem C22_no_panic (limit : N) (t0 : fdtab) (os : list hop) (o : hop) (s : hstate) :
  limit ≤ 2 ^ 31 → (∀ n, is_Some (t0 !! n) → n < 2 ^ 31) →
  hrun limit os (mkHs t0 [] []) = Done s →
  (∃ s', hstep limit o s = Done s') ∨
  (∃ i, o = OpClone i ∧ ∀ n, n < limit → is_Some (hs_tab s !! n)).
Proof.
  intros Hl Hs H. apply (hrun_inv limit t0) in H as [H1 H2]; [|done|done|].
  2:{ split_and!; simpl; [constructor|set_solver|done]. }
  pose proof (hstep_inv limit t0 o s Hl H2 H1) as H.
  destruct (hstep limit o s) as [s'| |]; [by eauto|done|].
  right. destruct H as (i & h & -> & _ & Hfree). exists i. split; [done|].
  intros n Hn. apply lowest_free_spec. lia.
Qed.
Print Assumptions C22_no_panic.

(** set_inheritable then is_inheritable; other flag bits are kept. *)
Theorem C22_set_get (h : N) (b : bool) (t t' : fdtab) :
  handle_set_inheritable h b t = Done t' →
  handle_is_inheritable h t' = Done b ∧
  (∀ n, n ≠ h → t' !! n = t !! n) ∧
  ∃ e e', t !! h = Some e ∧ t' !! h = Some e' ∧ fd_file e' = fd_file e ∧
    ∀ k, (k ≠ 0)%Z → Z.testbit (fd_flags e') k = Z.testbit (fd_flags e) k.
Proof.
  unfold handle_set_inheritable, handle_is_inheritable, sys_getfd, sys_setfd.
  destruct (t !! h) as [e|] eqn:E; simpl; [|done]. intros [= <-].
  rewrite lookup_insert. simpl. split_and!.
  - f_equal. apply eq_true_iff_eq. rewrite Z.eqb_eq. unfold FD_CLOEXEC. split.
    + intros H. destruct b; [done|]. exfalso.
      apply (f_equal (λ z, Z.testbit z 0)) in H.
      rewrite Z.land_spec, Z.lor_spec in H. simpl in H. by rewrite orb_true_r in H.
    + intros ->. rewrite Z.lor_0_r, <-Z.land_assoc. apply Z.bits_inj'. intros k Hk.
      rewrite !Z.land_spec, Z.bits_0. rewrite Z.lnot_spec by lia.
      destruct (Z.testbit 1 k), (Z.testbit (fd_flags e) k); done.
  - intros n Hn. by rewrite lookup_insert_ne.
  - eexists _, _. split_and!; [done|done|done|]. simpl. intros k Hk.
    destruct (Z_lt_le_dec k 0) as [Hn|Hp].
    { by rewrite !Z.testbit_neg_r by lia. }
    assert (Z.testbit 1 k = false) as H1 by (apply Z.bits_above_log2; simpl; lia).
    rewrite Z.lor_spec, Z.land_spec, Z.lnot_spec by lia. unfold FD_CLOEXEC. rewrite H1. simpl.
    rewrite andb_true_r. destruct b; [by rewrite Z.bits_0, orb_false_r|].
    by rewrite H1, orb_false_r.
Qed.
Print Assumptions C22_set_get.

(** Clones refer to the same file through another descriptor. *)
Theorem C22_clone_distinct (limit h n : N) (t t' : fdtab) :
  handle_clone limit h t = Done (n, t') →
  n ≠ h ∧ t !! n = None ∧ (∀ m, m ≠ n → t' !! m = t !! m) ∧
  fd_file <$> t' !! n = fd_file <$> t !! h.
Proof.
  unfold handle_clone, sys_dup. destruct (t !! h) as [e|] eqn:E; [|done].
  destruct (fd_install limit _ t) as [[k t1]|] eqn:Ei; [|done].
  apply fd_install_Some in Ei as (_ & _ & Hk & ->).
  unfold handle_from_raw. destruct (k <? 2 ^ 31); [|done]. intros [= <- <-].
  split_and!; [congruence|done| |].
  - intros m Hm. by rewrite lookup_insert_ne.
  - by rewrite lookup_insert.
Qed.
Print Assumptions C22_clone_distinct.

(** "A clone is inheritable exactly when the original is" is false: a clone of a
    close-on-exec handle survives exec. *)
Theorem C22_clone_inheritable_refuted :
  ¬ (∀ (limit h n : N) (t t' : fdtab),
      handle_clone limit h t = Done (n, t') →
      handle_is_inheritable n t' = handle_is_inheritable h t).
Proof.
  intros H. specialize (H 1024 5 2 ex_tab (<[2 := mkFd 105 0]> ex_tab)).
  by assert (Done true = @Done bool false) by (apply H; by vm_compute).
Qed.
Print Assumptions C22_clone_inheritable_refuted.

(** In fact every clone is inheritable. *)
Theorem C22_clone_always_inheritable (limit h n : N) (t t' : fdtab) :
  handle_clone limit h t = Done (n, t') → handle_is_inheritable n t' = Done true.
Proof.
  unfold handle_clone, sys_dup. destruct (t !! h) as [e|] eqn:E; [|done].
  destruct (fd_install limit _ t) as [[k t1]|] eqn:Ei; [|done].
  apply fd_install_Some in Ei as (_ & _ & Hk & ->).
  unfold handle_from_raw. destruct (k <? 2 ^ 31); [|done]. intros [= <- <-].
  unfold handle_is_inheritable, sys_getfd. by rewrite lookup_insert.
Qed.
Print Assumptions C22_clone_always_inheritable.

Example C22_example :
  match hrun 1024 [OpOpen 7 1; OpClone 0; OpSetInheritable 0 false; OpIntoRaw 1; OpDrop 0;
                   OpOpen 9 1; OpFromRaw 0] (mkHs ex_tab [] []) with
  | Done s => hs_live s = [2; 3] ∧ hs_raws s = [] ∧
      hs_tab s !! 2 = Some (mkFd 7 1) ∧ hs_tab s !! 3 = Some (mkFd 9 1)
  | _ => False
  end.
Proof. by vm_compute. Qed.
