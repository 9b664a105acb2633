(** Facts about send and recv. *)
From stdpp Require Import prelude gmap.
From Coq Require Import Strings.Byte ZifyN ZifyNat ZifyBool.
From Verif Require Import Bytes BytesProofs PolicyModel PostcardModel FdModel FdProofs
  ChannelModel.
Local Open Scope N_scope.

Lemma le_length k n : length (le k n) = k.
Proof. revert n. induction k as [|k IH]; intros n; simpl; [done|]. by rewrite IH. Qed.

Lemma un_le_le k n : un_le (le k n) = n mod 256 ^ N.of_nat k.
Proof.
  revert n. induction k as [|k IH]; intros n.
  - simpl. by rewrite N.mod_1_r.
  - change (un_le (le (S k) n)) with (Byte.to_N (byte_of_N (n mod 256)) + 256 * un_le (le k (n / 256))).
    rewrite IH, to_N_byte_of_N, N.mod_mod by lia.
    replace (N.of_nat (S k)) with (N.succ (N.of_nat k)) by lia.
    rewrite N.pow_succ_r', N.mod_mul_r; [done|lia|]. apply N.pow_nonzero. lia.
Qed.

Lemma slice_app_l s r n : N.of_nat (length s) = n → slice (s ++ r) 0 n = s.
Proof. intros <-. unfold slice. rewrite Nat2N.id. change (N.to_nat 0) with 0%nat.
  by rewrite drop_0, take_app. Qed.
Lemma slice_app_r q s off len :
  N.of_nat (length q) ≤ off → slice (q ++ s) off len = slice s (off - N.of_nat (length q)) len.
Proof.
  intros H. unfold slice. rewrite drop_app_ge by lia.
  do 2 f_equal. lia.
Qed.
Lemma read_le_here k v r n :
  N.of_nat k = n → v < 256 ^ n → read_le (le k v ++ r) 0 n = v.
Proof.
  intros <- Hv. unfold read_le. rewrite slice_app_l by (by rewrite le_length).
  rewrite un_le_le. by apply N.mod_small.
Qed.
Lemma read_le_skip k v r off n :
  N.of_nat k ≤ off → read_le (le k v ++ r) off n = read_le r (off - N.of_nat k) n.
Proof. intros H. unfold read_le. by rewrite slice_app_r, le_length by (by rewrite le_length). Qed.

Lemma control_length a fd : N.of_nat (length (control_buffer a fd)) = CMSG_SIZE a.
Proof.
  unfold control_buffer. rewrite !app_length, !le_length. unfold zeros.
  rewrite replicate_length. by destruct a.
Qed.

Lemma read_zeros k : read_le (replicate k x00) 0 4 = 0.
Proof.
  assert (∀ l, Forall (eq x00) l → un_le l = 0) as H.
  { induction 1 as [|b l <- _ IH]; [done|]. simpl un_le. by rewrite IH. }
  apply H. unfold slice. simpl. apply Forall_take. by apply Forall_replicate.
Qed.

(** What the kernel makes of the control buffer. *)
Lemma scm_send_control a t fd :
  fd < 2 ^ 31 →
  scm_send a t (control_buffer a fd) =
  match t !! fd with
  | None => Err EBADF
  | Some e =>
      match a with
      | Abi32 => Ok [fd_file e]
      | Abi64 => match t !! 0 with
                 | None => Err EBADF
                 | Some e0 => Ok [fd_file e; fd_file e0]
                 end
      end
  end.
Proof.
  intros Hfd. unfold scm_send. rewrite control_length.
  assert (read_le (control_buffer a fd) 0 (word a) = CMSG_SIZE a) as ->.
  { unfold control_buffer. apply read_le_here; [lia|by destruct a]. }
  assert (read_le (control_buffer a fd) (word a) 4 = SOL_SOCKET) as ->.
  { unfold control_buffer. rewrite read_le_skip by lia.
    replace (word a - N.of_nat (N.to_nat (word a))) with 0 by lia.
    by apply read_le_here. }
  assert (read_le (control_buffer a fd) (word a + 4) 4 = SCM_RIGHTS) as ->.
  { unfold control_buffer. rewrite read_le_skip by lia.
    rewrite read_le_skip by lia.
    replace (word a + 4 - N.of_nat (N.to_nat (word a)) - N.of_nat 4) with 0 by lia.
    by apply read_le_here. }
  assert (drop (N.to_nat (cmsghdr_size a)) (control_buffer a fd) =
    le 4 fd ++ zeros (CMSG_SIZE a - cmsghdr_size a - 4)) as ->.
  { unfold control_buffer. rewrite !app_assoc. rewrite <-(app_assoc _ (le 4 fd)).
    rewrite drop_app_ge; rewrite !app_length, !le_length.
    - replace (N.to_nat (cmsghdr_size a) - _)%nat with 0%nat; [done|].
      unfold cmsghdr_size. lia.
    - unfold cmsghdr_size. lia. }
  assert (read_le (le 4 fd ++ zeros (CMSG_SIZE a - cmsghdr_size a - 4)) 0 4 = fd) as Hr.
  { apply read_le_here; [done|]. change (256 ^ 4) with (2 ^ 32). lia. }
  assert (fd_of_int fd = Some fd) as Hi.
  { unfold fd_of_int. by replace (fd <? 2 ^ 31) with true by lia. }
  destruct a.
  - change ((CMSG_SIZE Abi64 <? cmsghdr_size Abi64)) with false. cbv iota.
    change ((CMSG_SIZE Abi64 <? cmsghdr_size Abi64) || (CMSG_SIZE Abi64 <? CMSG_SIZE Abi64))
      with false. cbv iota.
    change (negb (SOL_SOCKET =? SOL_SOCKET)) with false.
    change (negb (SCM_RIGHTS =? SCM_RIGHTS)) with false. cbv iota.
    change (N.to_nat ((CMSG_SIZE Abi64 - cmsghdr_size Abi64) / 4)) with 2%nat.
    change (SCM_MAX_FD <? (CMSG_SIZE Abi64 - cmsghdr_size Abi64) / 4) with false.
    cbv iota zeta. unfold files_of. rewrite Hr, Hi. destruct (t !! fd) as [e|]; [|done].
    assert (drop 4 (le 4 fd ++ zeros (CMSG_SIZE Abi64 - cmsghdr_size Abi64 - 4)) = replicate 4 x00)
      as -> by done.
    rewrite read_zeros. change (fd_of_int 0) with (Some 0). cbv iota.
    by destruct (t !! 0).
  - change ((CMSG_SIZE Abi32 <? cmsghdr_size Abi32)) with false. cbv iota.
    change ((CMSG_SIZE Abi32 <? cmsghdr_size Abi32) || (CMSG_SIZE Abi32 <? CMSG_SIZE Abi32))
      with false. cbv iota.
    change (negb (SOL_SOCKET =? SOL_SOCKET)) with false.
    change (negb (SCM_RIGHTS =? SCM_RIGHTS)) with false. cbv iota.
    change (N.to_nat ((CMSG_SIZE Abi32 - cmsghdr_size Abi32) / 4)) with 1%nat.
    change (SCM_MAX_FD <? (CMSG_SIZE Abi32 - cmsghdr_size Abi32) / 4) with false.
    cbv iota zeta. unfold files_of. rewrite Hr, Hi. by destruct (t !! fd) as [e|].
Qed.

Lemma channel_send_payload {A} (enc : A → str) a sb t m h bs d :
  channel_send enc a sb t m h bs = Ok d →
  dg_payload d = enc m ∧ N.of_nat (length (enc m)) ≤ bs ∧ N.of_nat (length (enc m)) ≤ sb.
Proof.
  unfold channel_send, serialize, sys_sendmsg.
  destruct (N.of_nat (length (enc m)) <=? bs) eqn:E; [|done].
  destruct (scm_send _ _ _); [|done].
  destruct (sb <? N.of_nat (length (enc m))) eqn:E2; [done|].
  intros [= <-]. simpl. split_and!; [done|lia|lia].
Qed.

Lemma channel_send_files {A} (enc : A → str) a sb t m h bs d :
  channel_send enc a sb t m h bs = Ok d →
  match h with
  | None => dg_files d = []
  | Some fd => fd < 2 ^ 31 → ∃ e, t !! fd = Some e ∧
      match a with
      | Abi32 => dg_files d = [fd_file e]
      | Abi64 => ∃ e0, t !! 0 = Some e0 ∧ dg_files d = [fd_file e; fd_file e0]
      end
  end.
Proof.
  unfold channel_send, serialize, sys_sendmsg.
  destruct (N.of_nat (length (enc m)) <=? bs) eqn:E; [|done].
  destruct h as [fd|].
  - intros H Hfd. rewrite scm_send_control in H by done.
    destruct (t !! fd) as [e|]; [|done]. exists e. split; [done|].
    destruct a.
    + destruct (t !! 0) as [e0|]; [|done]. exists e0. split; [done|].
      destruct (sb <? _); [done|]. by injection H as <-.
    + destruct (sb <? _); [done|]. by injection H as <-.
  - assert (scm_send a t [] = Ok []) as -> by (by destruct a).
    destruct (sb <? _); [done|]. by intros [= <-].
Qed.

(** Installing descriptors. *)
Lemma install_files_spec limit files m t ns t' :
  install_files limit files m t = (ns, t') →
  (length ns ≤ length files)%nat ∧ (length ns ≤ m)%nat ∧
  (∀ n, n ∈ ns → t !! n = None ∧ n < limit) ∧ NoDup ns ∧
  (∀ n, n ∉ ns → t' !! n = t !! n) ∧
  (∀ i n, ns !! i = Some n → ∃ f, files !! i = Some f ∧ t' !! n = Some (mkFd f FD_CLOEXEC)).
Proof.
  revert m t ns t'. induction files as [|f files IH]; intros m t ns t'; simpl.
  { intros [= <- <-]. simpl. split_and!; [lia|lia|set_solver|constructor|done|done]. }
  destruct m as [|m].
  { intros [= <- <-]. simpl. split_and!; [lia|lia|set_solver|constructor|done|done]. }
  destruct (fd_install limit _ t) as [[n t1]|] eqn:E.
  2:{ intros [= <- <-]. simpl. split_and!; [lia|lia|set_solver|constructor|done|done]. }
  apply fd_install_Some in E as (_ & Hlt & Hn & ->).
  destruct (install_files limit files m _) as [ns1 t2] eqn:E2.
  intros [= <- <-]. apply IH in E2 as (H1 & H2 & H3 & H4 & H5 & H6). simpl.
  assert (n ∉ ns1) as Hnot.
  { intros Hin. apply H3 in Hin as [Hin _]. by rewrite lookup_insert in Hin. }
  split_and!; [lia|lia| | | |].
  - intros x [->|Hx]%elem_of_cons; [done|]. destruct (H3 x Hx) as [Hx1 Hx2]. split; [|done].
    rewrite lookup_insert_ne in Hx1; [done|]. by intros ->.
  - by constructor.
  - intros x [Hne Hx]%not_elem_of_cons. rewrite H5 by done. by rewrite lookup_insert_ne.
  - intros [|i] x; simpl.
    + intros [= <-]. exists f. split; [done|]. rewrite H5 by done. by rewrite lookup_insert.
    + apply H6.
Qed.

(** How many descriptors are installed when the limit does not matter. *)
Lemma install_files_one limit files t ns t' :
  install_files limit files 1 t = (ns, t') →
  (ns = [] ∧ t' = t ∧ (files = [] ∨ limit ≤ lowest_free t)) ∨
  ∃ f fs, files = f :: fs ∧ lowest_free t < limit ∧ ns = [lowest_free t] ∧
    t' = <[lowest_free t := mkFd f FD_CLOEXEC]> t.
Proof.
  destruct files as [|f fs]; simpl.
  { intros [= <- <-]. left. auto. }
  destruct (fd_install limit _ t) as [[n t1]|] eqn:E.
  - apply fd_install_Some in E as (-> & Hlt & _ & ->).
    intros H. assert (ns = [lowest_free t] ∧ t' = <[lowest_free t := mkFd f FD_CLOEXEC]> t) as [-> ->].
    { destruct fs; simpl in H; by injection H as <- <-. }
    right. by exists f, fs.
  - unfold fd_install in E. destruct (lowest_free t <? limit) eqn:El; [done|].
    intros [= <- <-]. left. split_and!; [done|done|right; lia].
Qed.

(** After recv, nothing but the returned handle is new, if at most one descriptor
    can be installed. *)
Lemma recv_no_leak_gen {A} (dec : parser A) a limit bs ev t r t' :
  limit ≤ 2 ^ 31 →
  (a = Abi32 ∨ ∀ d, ev = EvDatagram d → (length (dg_files d) ≤ 1)%nat) →
  channel_recv dec a limit bs ev t = (r, t') →
  drop_opt (owned_by_result r) t' = t ∧
  (∀ h, owned_by_result r = Some h → t !! h = None ∧ is_Some (t' !! h)).
Proof.
  intros Hlim Ha. destruct ev as [d| |e]; simpl.
  2:{ intros [= <- <-]. done. }
  2:{ intros [= <- <-]. done. }
  unfold sys_recvmsg.
  assert (∃ ns t1, install_files limit (dg_files d)
      (N.to_nat (if CMSG_SIZE a <=? cmsghdr_size a then 0 else (CMSG_SIZE a - cmsghdr_size a) / 4)) t
      = (ns, t1) ∧
    ((ns = [] ∧ t1 = t) ∨ ∃ n e, ns = [n] ∧ t !! n = None ∧ n < limit ∧ t1 = <[n := e]> t))
    as (ns & t1 & E & Hns).
  { destruct (install_files limit (dg_files d) _ t) as [ns t1] eqn:E.
    exists ns, t1. split; [done|].
    assert (install_files limit (dg_files d) 1 t = (ns, t1)) as E1.
    { destruct Ha as [->|Ha]; [exact E|].
      specialize (Ha d eq_refl). destruct (dg_files d) as [|f [|g fs]]; simpl in Ha; [|clear Ha|lia].
      - by destruct a.
      - destruct a; [|done]. simpl in E |- *. destruct (fd_install _ _ _) as [[? ?]|]; done. }
    apply install_files_one in E1 as [(-> & -> & _)|(f & fs & _ & Hlt & -> & ->)]; [by left|].
    right. exists (lowest_free t), (mkFd f FD_CLOEXEC). split_and!; try done.
    apply lowest_free_None. }
  rewrite E. simpl. destruct Hns as [[-> ->]|(n & e & -> & Hn & Hlt & ->)].
  - simpl. destruct (_ || _); [by intros [= <- <-]|].
    destruct (Nat.eqb _ 0); [by intros [= <- <-]|].
    destruct (deserialize dec _); by intros [= <- <-].
  - simpl. unfold handle_from_raw. replace (n <? 2 ^ 31) with true by lia.
    assert (drop_opt None (delete n (<[n:=e]> t)) = t) as Hd by (by apply delete_insert).
    destruct (_ || _); [by intros [= <- <-]|].
    destruct (Nat.eqb _ 0); [by intros [= <- <-]|].
    destruct (deserialize dec _); intros [= <- <-]; simpl; [|done].
    split; [done|]. intros h [= <-]. split; [done|]. rewrite lookup_insert. by eexists.
Qed.

(** With two descriptors attached on x86_64, the second one stays. *)
Lemma recv_two {A} (dec : parser A) limit bs f g t p n1 n2 t1 t2 :
  limit ≤ 2 ^ 31 →
  fd_install limit (mkFd f FD_CLOEXEC) t = Some (n1, t1) →
  fd_install limit (mkFd g FD_CLOEXEC) t1 = Some (n2, t2) →
  ∃ r t', channel_recv dec Abi64 limit bs (EvDatagram (mkDgram p [f; g])) t = (r, t') ∧
    n2 ≠ n1 ∧ t !! n2 = None ∧ t' !! n2 = Some (mkFd g FD_CLOEXEC) ∧
    (owned_by_result r = None ∨ owned_by_result r = Some n1).
Proof.
  intros Hlim E1 E2.
  pose proof (fd_install_Some _ _ _ _ _ E1) as (_ & Hl1 & Hn1 & Ht1).
  pose proof (fd_install_Some _ _ _ _ _ E2) as (_ & Hl2 & Hn2 & Ht2).
  assert (n2 ≠ n1) as Hne.
  { intros ->. rewrite Ht1, lookup_insert in Hn2. done. }
  assert (t !! n2 = None) as Hf by (by rewrite Ht1, lookup_insert_ne in Hn2).
  unfold channel_recv, sys_recvmsg.
  change (N.to_nat (if CMSG_SIZE Abi64 <=? cmsghdr_size Abi64 then 0
    else (CMSG_SIZE Abi64 - cmsghdr_size Abi64) / 4)) with 2%nat.
  simpl. rewrite E1, E2. simpl. unfold handle_from_raw.
  replace (n1 <? 2 ^ 31) with true by lia. simpl.
  assert (t2 !! n2 = Some (mkFd g FD_CLOEXEC)) as H2 by (by rewrite Ht2, lookup_insert).
  destruct (_ || _).
  { eexists _, _. split; [done|]. split_and!; try done; [|by left].
    by rewrite lookup_delete_ne. }
  destruct (Nat.eqb _ 0).
  { eexists _, _. split; [done|]. split_and!; try done; [|by left].
    by rewrite lookup_delete_ne. }
  destruct (deserialize dec _).
  - eexists _, _. split; [done|]. split_and!; try done. by right.
  - eexists _, _. split; [done|]. split_and!; try done; [|by left].
    by rewrite lookup_delete_ne.
Qed.

(** Decoded messages are whole datagrams. *)
Lemma recv_whole {A} (dec : parser A) a limit bs ev t m h t' :
  channel_recv dec a limit bs ev t = (Ok (Some (m, h)), t') →
  ∃ d rest, ev = EvDatagram d ∧ N.of_nat (length (dg_payload d)) ≤ bs ∧
    dec (dg_payload d) = Some (m, rest) ∧ dg_payload d ≠ [].
Proof.
  destruct ev as [d| |e]; [|done|done]. simpl. unfold sys_recvmsg.
  destruct (install_files _ _ _ _) as [ns t1]. simpl.
  destruct (match ns with [] => Some None | fd :: _ => _ end) as [hd|]; [|done].
  destruct (bs <? N.of_nat (length (dg_payload d))) eqn:E; simpl; [done|].
  destruct (length ns <? length (dg_files d))%nat; [done|].
  rewrite take_ge by lia.
  destruct (Nat.eqb (length (dg_payload d)) 0) eqn:E0; [done|].
  unfold deserialize. destruct (dec (dg_payload d)) as [[m' rest]|] eqn:Ed; [|done].
  intros [= -> <- <-]. exists d, rest. split_and!; [done|lia|done|].
  intros Hp. rewrite Hp in E0. done.
Qed.
