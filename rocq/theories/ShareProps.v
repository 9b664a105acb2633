(** Property C119: the workers of one program do not get at each other's files through
    the descriptor table that their serving threads share. *)
From stdpp Require Import prelude gmap.
From Coq Require Import Strings.Byte ZifyN ZifyNat ZifyBool.
From Verif Require Import Bytes BytesProofs PolicyModel LinuxPolicyModel LinuxPolicySpec
  LinuxPolicyProofs PostcardModel PostcardSpec PostcardProofs FdModel FdProofs ChannelModel
  ChannelProofs BrokerModel BrokerSpec BrokerProofs BrokerProps ShareModel.
Local Open Scope N_scope.

(** The cut of [channel_recv] at its system call. *)
Lemma recv_cut {A} (dec : parser A) a limit bs d t :
  channel_recv dec a limit bs (EvDatagram d) t =
  let '(r, t) := sys_recvmsg a limit bs (CMSG_SIZE a) d t in recv_rest dec r t.
Proof. done. Qed.

(* ---------------------------------------------------------------- statement *)

(** A thread opened a file for its worker. *)
Definition opened (th : thread) (f : N) : Prop :=
  ∃ path flags mode, (path, flags, mode, Ok f) ∈ opens (th_trace th).

(** A datagram stays with its worker: it goes to the socket of the thread that sent it
    and no file in it was opened for another worker. *)
Definition stays (s : share) (x : sent) : Prop :=
  (∀ th, sh_threads s !! sn_by x = Some th → sn_to x = th_sock th) ∧
  (∀ f j th, f ∈ sn_files x → sh_threads s !! j = Some th → opened th f → j = sn_by x).

(** Full statement: whatever the program and the workers do. *)
Definition C119_full : Prop := ∀ a limit sndbuf s xs s' x,
  limit ≤ 2 ^ 31 → fresh_program s → turns a limit sndbuf s xs = Some s' →
  x ∈ sh_sent s' → stays s' x.

(** The program never lets go of a descriptor it gave to a configuration by a second
    close (C77). *)
Definition no_second_close (xs : list turn) : Prop := ∀ n, HForget n ∉ xs.
(** Its standard input stays open. *)
Definition keeps_stdin (s : share) (xs : list turn) : Prop :=
  0 ∈ sh_own s ∧ HClose 0 ∉ xs ∧ ∀ i audit calls, HSpawn i audit calls 0 ∉ xs.

(** The answer a datagram carries, if it has files: the thread opened the file just
    before, for a path and flags its own policy allows. On x86_64 the program's
    standard input goes along (C20). *)
Definition own_answer (a : abi) (s0 : share) (th : thread) (x : sent) : Prop :=
  sn_to x = th_sock th ∧
  (sn_files x = [] ∨
   ∃ pre post path flags f payload,
     th_trace th = pre ++ [BOpen path flags 384 (Ok f); BSent payload (sn_files x)] ++ post ∧
     user_allows (th_audit th) (rules_of (th_calls th)) path flags ∧
     match a with
     | Abi32 => sn_files x = [f]
     | Abi64 => ∃ e0, sh_tab s0 !! 0 = Some e0 ∧ sn_files x = [f; fd_file e0]
     end).

(* ---------------------------------------------------------------- invariant *)

Definition place_fds (p : place) : list N :=
  match p with
  | PParse r => rr_fds r
  | PAnswer _ (Some n) | PDrop (Some n) _ => [n]
  | _ => []
  end.
(** Descriptors a thread is responsible for. *)
Definition holds (th : thread) : list N :=
  match th_at th with PGone => [] | p => th_chan th :: place_fds p end.

Definition answer_ok (limit : N) (t : fdtab) (th : thread) : Prop :=
  ∀ code n, th_at th = PAnswer code (Some n) →
    n < limit ∧ ∃ e pre path flags, t !! n = Some e ∧
      th_trace th = pre ++ [BOpen path flags 384 (Ok (fd_file e))] ∧
      user_allows (th_audit th) (rules_of (th_calls th)) path flags.

Record inv (a : abi) (limit : N) (s0 s : share) : Prop := mkInv {
  i_nodup : NoDup (sh_own s);
  i_own : ∀ n, n ∈ sh_own s → is_Some (sh_tab s !! n);
  i_thr : ∀ i th, sh_threads s !! i = Some th →
    NoDup (holds th) ∧ ∀ n, n ∈ holds th → is_Some (sh_tab s !! n) ∧ n ∉ sh_own s;
  i_dis : ∀ i j th th' n, sh_threads s !! i = Some th → sh_threads s !! j = Some th' →
    n ∈ holds th → n ∈ holds th' → i = j;
  i_chan : ∀ i th, sh_threads s !! i = Some th → th_at th ≠ PGone →
    fd_file <$> sh_tab s !! th_chan th = Some (th_sock th);
  i_ans : ∀ i th, sh_threads s !! i = Some th → answer_ok limit (sh_tab s) th;
  i_new : ∀ i th f, sh_threads s !! i = Some th → opened th f →
    sh_next s0 ≤ f < sh_next s;
  i_once : ∀ i j th th' f, sh_threads s !! i = Some th → sh_threads s !! j = Some th' →
    opened th f → opened th' f → i = j;
  i_mono : sh_next s0 ≤ sh_next s;
  i_std : a = Abi64 → 0 ∈ sh_own s ∧ sh_tab s !! 0 = sh_tab s0 !! 0;
  i_sent : ∀ x, x ∈ sh_sent s → ∃ th, sh_threads s !! sn_by x = Some th ∧ own_answer a s0 th x }.

Lemma opened_app au ca ch so tr evs p f :
  opened (mkThread au ca ch so (tr ++ evs) p) f ↔
  (∃ path flags mode, (path, flags, mode, Ok f) ∈ opens tr) ∨
  (∃ path flags mode, (path, flags, mode, Ok f) ∈ opens evs).
Proof.
  unfold opened. cbn [th_trace]. setoid_rewrite opens_app. setoid_rewrite elem_of_app.
  split.
  - intros (x & y & z & [H|H]); [left|right]; eauto.
  - intros [(x & y & z & H)|(x & y & z & H)]; exists x, y, z; auto.
Qed.

Lemma own_answer_app a s0 th evs p x :
  own_answer a s0 th x → own_answer a s0 (th_do th (th_trace th ++ evs) p) x.
Proof.
  intros [H [H1|H1]]; split; [done|by left|done|]. right.
  destruct H1 as (pre & post & path & flags & f & payload & E & H1 & H2).
  exists pre, (post ++ evs), path, flags, f, payload. cbn [th_trace th_do]. split; [|done].
  rewrite E. by rewrite <-!app_assoc.
Qed.

(** A step of one thread. *)
Lemma thread_inv a limit s0 s i th t' next' evs p out :
  inv a limit s0 s → sh_threads s !! i = Some th → sh_next s ≤ next' →
  (∀ path flags mode f, (path, flags, mode, Ok f) ∈ opens evs → sh_next s ≤ f < next') →
  (∀ n, n ∉ holds th → is_Some (sh_tab s !! n) → t' !! n = sh_tab s !! n) →
  (p ≠ PGone → th_at th ≠ PGone ∧ t' !! th_chan th = sh_tab s !! th_chan th) →
  (p ≠ PGone → NoDup (place_fds p) ∧ th_chan th ∉ place_fds p ∧
     ∀ n, n ∈ place_fds p → (n ∈ holds th ∨ sh_tab s !! n = None) ∧ is_Some (t' !! n)) →
  answer_ok limit t' (th_do th (th_trace th ++ evs) p) →
  (∀ x, x ∈ out → sn_by x = i ∧ own_answer a s0 (th_do th (th_trace th ++ evs) p) x) →
  inv a limit s0 (set_thread s t' next' i (th_do th (th_trace th ++ evs) p) out).
Proof.
  intros I Hi Hn Hev Hfr Hch Hfd Han Hout.
  set (th' := th_do th (th_trace th ++ evs) p) in *.
  assert (Hnew : ∀ n, n ∈ holds th' →
    (n ∈ holds th ∨ sh_tab s !! n = None) ∧ is_Some (t' !! n)).
  { intros n Hin. unfold holds, th' in Hin. cbn [th_at th_do th_chan] in Hin.
    assert (p ≠ PGone) as Hp by (intros ->; by apply elem_of_nil in Hin).
    assert (n ∈ th_chan th :: place_fds p) as Hin' by (by destruct p).
    destruct (Hch Hp) as [Hg Hc]. apply elem_of_cons in Hin' as [->|Hin'].
    - assert (th_chan th ∈ holds th) as Hh by (unfold holds; destruct (th_at th); try done; left).
      split; [by left|]. rewrite Hc. by apply (i_thr _ _ _ _ I _ _ Hi).
    - by apply Hfd. }
  assert (Hfree : ∀ n, is_Some (sh_tab s !! n) → n ∉ holds th → n ∉ holds th').
  { intros n [e He] Hnot Hin. apply Hnew in Hin as [[Hin|Hin] _]; [done|congruence]. }
  assert (Hold : ∀ f, opened th' f → opened th f ∨ sh_next s ≤ f < next').
  { intros f Hf. apply opened_app in Hf as [Hf|(x & y & z & Hf)]; [left; exact Hf|].
    right. by eapply Hev. }
  constructor; cbn [sh_tab sh_next sh_own sh_threads sh_sent set_thread].
  - apply (i_nodup _ _ _ _ I).
  - intros n Hin. rewrite Hfr.
    + by apply (i_own _ _ _ _ I).
    + intros Hh. by apply (i_thr _ _ _ _ I _ _ Hi) in Hh as [_ Hh].
    + by apply (i_own _ _ _ _ I).
  - intros j thj Hj. destruct (decide (i = j)) as [<-|Hne].
    + rewrite lookup_insert in Hj. injection Hj as <-. split.
      * unfold holds, th'. cbn [th_at th_do th_chan].
        assert (p = PGone ∨ p ≠ PGone) as [->|Hp] by (destruct p; (by left) || (by right));
          [constructor|].
        destruct (Hfd Hp) as (H1 & H2 & _).
        assert (NoDup (th_chan th :: place_fds p)) by (by constructor). by destruct p.
      * intros n Hin. apply Hnew in Hin as [H1 H2]. split; [done|].
        destruct H1 as [H1|H1]; [by apply (i_thr _ _ _ _ I _ _ Hi) in H1 as [_ H1]|].
        intros Ho. apply (i_own _ _ _ _ I) in Ho as [e Ho]. congruence.
    + rewrite lookup_insert_ne in Hj by done.
      destruct (i_thr _ _ _ _ I _ _ Hj) as [H1 H2]. split; [done|].
      intros n Hin. destruct (H2 n Hin) as [H3 H4]. split; [|done]. rewrite Hfr; [done| |done].
      intros Hh. apply Hne. by eapply (i_dis _ _ _ _ I).
  - assert (∀ j thj n, i ≠ j → sh_threads s !! j = Some thj → n ∈ holds th' → n ∉ holds thj) as Hd.
    { intros j thj n Hne Hj Hin Hin'. destruct (i_thr _ _ _ _ I _ _ Hj) as [_ H2].
      destruct (H2 n Hin') as [[e He] _]. apply Hnew in Hin as [[Hin|Hin] _]; [|congruence].
      apply Hne. by eapply (i_dis _ _ _ _ I). }
    intros j k thj thk n Hj Hk H1 H2.
    destruct (decide (i = j)) as [<-|Hj']; destruct (decide (i = k)) as [<-|Hk']; [done| | |].
    + rewrite lookup_insert in Hj. injection Hj as <-. rewrite lookup_insert_ne in Hk by done.
      by destruct (Hd k thk n).
    + rewrite lookup_insert in Hk. injection Hk as <-. rewrite lookup_insert_ne in Hj by done.
      by destruct (Hd j thj n).
    + rewrite lookup_insert_ne in Hj, Hk by done. by eapply (i_dis _ _ _ _ I).
  - intros j thj Hj Hp. destruct (decide (i = j)) as [<-|Hne].
    + rewrite lookup_insert in Hj. injection Hj as <-. unfold th' in *. cbn [th_at th_do th_chan th_sock] in *.
      destruct (Hch Hp) as [Hg ->]. by apply (i_chan _ _ _ _ I _ _ Hi).
    + rewrite lookup_insert_ne in Hj by done.
      assert (th_chan thj ∈ holds thj) as Hh.
      { unfold holds. destruct (th_at thj); try done; left. }
      rewrite Hfr; [by apply (i_chan _ _ _ _ I _ _ Hj)| |].
      * intros H. apply Hne. by eapply (i_dis _ _ _ _ I).
      * by apply (i_thr _ _ _ _ I _ _ Hj).
  - intros j thj Hj. destruct (decide (i = j)) as [<-|Hne].
    + rewrite lookup_insert in Hj. by injection Hj as <-.
    + rewrite lookup_insert_ne in Hj by done. intros code n Hat.
      destruct (i_ans _ _ _ _ I _ _ Hj _ _ Hat) as [Hlt (e & H)]. split; [done|]. exists e.
      assert (n ∈ holds thj) as Hh.
      { unfold holds. rewrite Hat. cbn [place_fds]. right. left. }
      rewrite Hfr; [done| |].
      * intros H'. apply Hne. by eapply (i_dis _ _ _ _ I).
      * by apply (i_thr _ _ _ _ I _ _ Hj).
  - pose proof (i_mono _ _ _ _ I). intros j thj f Hj Hf. destruct (decide (i = j)) as [<-|Hne].
    + rewrite lookup_insert in Hj. injection Hj as <-. apply Hold in Hf as [Hf|Hf]; [|lia].
      pose proof (i_new _ _ _ _ I _ _ _ Hi Hf). lia.
    + rewrite lookup_insert_ne in Hj by done. pose proof (i_new _ _ _ _ I _ _ _ Hj Hf). lia.
  - assert (∀ j thj f, i ≠ j → sh_threads s !! j = Some thj → opened th' f → ¬ opened thj f) as Hd.
    { intros j thj f Hne Hj Hf Hf'. pose proof (i_new _ _ _ _ I _ _ _ Hj Hf').
      apply Hold in Hf as [Hf|Hf]; [|lia]. apply Hne. by eapply (i_once _ _ _ _ I). }
    intros j k thj thk f Hj Hk H1 H2.
    destruct (decide (i = j)) as [<-|Hj']; destruct (decide (i = k)) as [<-|Hk']; [done| | |].
    + rewrite lookup_insert in Hj. injection Hj as <-. rewrite lookup_insert_ne in Hk by done.
      by destruct (Hd k thk f).
    + rewrite lookup_insert in Hk. injection Hk as <-. rewrite lookup_insert_ne in Hj by done.
      by destruct (Hd j thj f).
    + rewrite lookup_insert_ne in Hj, Hk by done. by eapply (i_once _ _ _ _ I).
  - pose proof (i_mono _ _ _ _ I). lia.
  - intros Ha. destruct (i_std _ _ _ _ I Ha) as [H1 H2]. split; [done|]. rewrite Hfr; [done| |].
    + intros Hh. by apply (i_thr _ _ _ _ I _ _ Hi) in Hh as [_ Hh].
    + by apply (i_own _ _ _ _ I).
  - intros x Hx. apply elem_of_app in Hx as [Hx|Hx].
    + destruct (i_sent _ _ _ _ I _ Hx) as (thx & Htx & Hox).
      destruct (decide (i = sn_by x)) as [E|Hne].
      * exists th'. rewrite <-E, lookup_insert. split; [done|].
        assert (thx = th) as -> by congruence. by apply own_answer_app.
      * exists thx. by rewrite lookup_insert_ne.
    + apply Hout in Hx as [E Hx]. exists th'. rewrite E, lookup_insert. done.
Qed.

(* ---------------------------------------------------------------- turns *)

Lemma remove_one_ne n m l : m ∈ l → m ≠ n → m ∈ remove_one n l.
Proof.
  induction l as [|k l IH]; intros Hm Hne; [by apply elem_of_nil in Hm|]. cbn [remove_one].
  destruct (N.eqb_spec k n) as [->|Hk].
  - by apply elem_of_cons in Hm as [->|Hm].
  - apply elem_of_cons in Hm as [->|Hm]; [left|right; by apply IH].
Qed.
Lemma remove_one_old n m l : m ∈ remove_one n l → m ∈ l.
Proof.
  induction l as [|k l IH]; [done|]. cbn [remove_one].
  destruct (N.eqb_spec k n) as [->|Hk]; [by right|].
  intros [->|H]%elem_of_cons; [left|right; by apply IH].
Qed.
Lemma remove_one_in n m l : NoDup l → m ∈ remove_one n l ↔ m ∈ l ∧ m ≠ n.
Proof.
  intros Hnd. split.
  - intros H. split; [by eapply remove_one_old|]. intros ->.
    induction l as [|k l IH]; [by apply elem_of_nil in H|]. apply NoDup_cons in Hnd as [H1 H2].
    cbn [remove_one] in H. destruct (N.eqb_spec k n) as [->|Hk]; [done|].
    apply elem_of_cons in H as [->|H]; [done|by apply IH].
  - intros [H Hne]. by apply remove_one_ne.
Qed.
Lemma remove_one_nodup n l : NoDup l → NoDup (remove_one n l).
Proof.
  induction l as [|k l IH]; intros Hnd; [done|]. apply NoDup_cons in Hnd as [H1 H2].
  cbn [remove_one]. destruct (N.eqb_spec k n) as [->|Hk]; [done|].
  constructor; [|by apply IH]. intros H. apply H1. by eapply remove_one_old.
Qed.

(** The program closes or hands over a descriptor of its own. *)
Lemma own_frame a limit s0 s i th n :
  inv a limit s0 s → sh_threads s !! i = Some th → n ∈ sh_own s → n ∉ holds th.
Proof. intros I Hi Ho Hh. by apply (i_thr _ _ _ _ I _ _ Hi) in Hh as [_ Hh]. Qed.

Lemma chan_held th : th_at th ≠ PGone → th_chan th ∈ holds th.
Proof. unfold holds. destruct (th_at th); try done; left. Qed.

Lemma hopen_inv a limit sb s0 s s' fl :
  inv a limit s0 s → turn_step a limit sb s (HOpen fl) = Some s' → inv a limit s0 s'.
Proof.
  intros I E. unfold turn_step in E.
  destruct (fd_install _ _ _) as [[n t]|] eqn:Ei; [|done]. injection E as <-.
  apply fd_install_Some in Ei as (_ & _ & Hn & ->).
  assert (Hfr : ∀ m, is_Some (sh_tab s !! m) →
    <[n := mkFd (sh_next s) fl]> (sh_tab s) !! m = sh_tab s !! m).
  { intros m [e He]. apply lookup_insert_ne. intros ->. congruence. }
  constructor; cbn [sh_tab sh_next sh_own sh_threads sh_sent].
  - constructor; [|apply (i_nodup _ _ _ _ I)]. intros Ho.
    apply (i_own _ _ _ _ I) in Ho as [e He]. congruence.
  - intros m [->|Hm]%elem_of_cons; [rewrite lookup_insert; eauto|].
    rewrite Hfr by (by apply (i_own _ _ _ _ I)). by apply (i_own _ _ _ _ I).
  - intros i th Hi. destruct (i_thr _ _ _ _ I _ _ Hi) as [H1 H2]. split; [done|].
    intros m Hm. destruct (H2 m Hm) as [H3 H4]. split; [by rewrite Hfr|].
    intros [->|Ho]%elem_of_cons; [|done]. destruct H3 as [e He]. congruence.
  - apply (i_dis _ _ _ _ I).
  - intros i th Hi Hp. rewrite Hfr; [by apply (i_chan _ _ _ _ I _ _ Hi)|].
    apply (i_thr _ _ _ _ I _ _ Hi). by apply chan_held.
  - intros i th Hi code m Hat. destruct (i_ans _ _ _ _ I _ _ Hi _ _ Hat)
      as [Hlt (e & pre & path & flags & He & H)].
    split; [done|]. exists e, pre, path, flags. rewrite Hfr; [done|by exists e].
  - intros i th f Hi Hf. pose proof (i_new _ _ _ _ I _ _ _ Hi Hf). lia.
  - apply (i_once _ _ _ _ I).
  - pose proof (i_mono _ _ _ _ I). lia.
  - intros Ha. destruct (i_std _ _ _ _ I Ha) as [H1 H2]. split; [by right|].
    rewrite Hfr; [done|]. by apply (i_own _ _ _ _ I).
  - apply (i_sent _ _ _ _ I).
Qed.

Lemma hclose_inv a limit sb s0 s s' n :
  inv a limit s0 s → (a = Abi64 → n ≠ 0) →
  turn_step a limit sb s (HClose n) = Some s' → inv a limit s0 s'.
Proof.
  intros I H0 E. unfold turn_step in E. case_bool_decide as Hn; [|done]. injection E as <-.
  assert (Hfr : ∀ i th m, sh_threads s !! i = Some th → m ∈ holds th →
    delete n (sh_tab s) !! m = sh_tab s !! m).
  { intros i th m Hi Hm. apply lookup_delete_ne. intros <-.
    exact (own_frame _ _ _ _ _ _ _ I Hi Hn Hm). }
  constructor; cbn [sh_tab sh_next sh_own sh_threads sh_sent].
  - apply remove_one_nodup, (i_nodup _ _ _ _ I).
  - intros m [Hm Hne]%(remove_one_in _ _ _ (i_nodup _ _ _ _ I)). rewrite lookup_delete_ne by done. by apply (i_own _ _ _ _ I).
  - intros i th Hi. destruct (i_thr _ _ _ _ I _ _ Hi) as [H1 H2]. split; [done|].
    intros m Hm. destruct (H2 m Hm) as [H3 H4]. split; [by erewrite Hfr|].
    by intros [Ho _]%(remove_one_in _ _ _ (i_nodup _ _ _ _ I)).
  - apply (i_dis _ _ _ _ I).
  - intros i th Hi Hp. erewrite Hfr; [by apply (i_chan _ _ _ _ I _ _ Hi)|done|].
    by apply chan_held.
  - intros i th Hi code m Hat. destruct (i_ans _ _ _ _ I _ _ Hi _ _ Hat)
      as [Hlt (e & pre & path & flags & He & H)].
    split; [done|]. exists e, pre, path, flags. erewrite Hfr; [done|done|].
    unfold holds. rewrite Hat. right. left.
  - apply (i_new _ _ _ _ I).
  - apply (i_once _ _ _ _ I).
  - apply (i_mono _ _ _ _ I).
  - intros Ha. destruct (i_std _ _ _ _ I Ha) as [H1 H2]. split.
    + apply (remove_one_in _ _ _ (i_nodup _ _ _ _ I)). split; [done|]. intros E. by apply (H0 Ha).
    + rewrite lookup_delete_ne; [done|]. by apply H0.
  - apply (i_sent _ _ _ _ I).
Qed.

Lemma hspawn_inv a limit sb s0 s s' i audit calls n :
  inv a limit s0 s → (a = Abi64 → n ≠ 0) →
  turn_step a limit sb s (HSpawn i audit calls n) = Some s' → inv a limit s0 s'.
Proof.
  intros I H0 E. unfold turn_step in E. destruct (sh_threads s !! i) eqn:Hi; [done|].
  destruct (sh_tab s !! n) as [e|] eqn:Hn; [|done].
  case_bool_decide as Ho; [|done]. injection E as <-.
  set (th0 := mkThread audit calls n (fd_file e) [] PWait).
  assert (Hh : holds th0 = [n]) by done.
  assert (Hno : ∀ f, ¬ opened th0 f).
  { intros f (x & y & z & H). by apply elem_of_nil in H. }
  constructor; cbn [sh_tab sh_next sh_own sh_threads sh_sent].
  - apply remove_one_nodup, (i_nodup _ _ _ _ I).
  - intros m [Hm Hne]%(remove_one_in _ _ _ (i_nodup _ _ _ _ I)). by apply (i_own _ _ _ _ I).
  - intros j th [[<- <-]|[Hne Hj]]%lookup_insert_Some.
    + rewrite Hh. split; [apply NoDup_singleton|]. intros m ->%elem_of_list_singleton.
      split; [eauto|]. by intros [_ H]%(remove_one_in _ _ _ (i_nodup _ _ _ _ I)).
    + destruct (i_thr _ _ _ _ I _ _ Hj) as [H1 H2]. split; [done|].
      intros m Hm. destruct (H2 m Hm) as [H3 H4]. split; [done|].
      by intros [H _]%(remove_one_in _ _ _ (i_nodup _ _ _ _ I)).
  - assert (∀ j th, sh_threads s !! j = Some th → n ∉ holds th) as Hd.
    { intros j th Hj. exact (own_frame _ _ _ _ _ _ _ I Hj Ho). }
    intros j k thj thk m [[<- <-]|[Hj' Hj]]%lookup_insert_Some
      [[<- <-]|[Hk' Hk]]%lookup_insert_Some; [done| | |by eapply (i_dis _ _ _ _ I)];
      rewrite Hh; intros H1 H2.
    + apply elem_of_list_singleton in H1 as ->. by destruct (Hd _ _ Hk).
    + apply elem_of_list_singleton in H2 as ->. by destruct (Hd _ _ Hj).
  - intros j th [[<- <-]|[Hne Hj]]%lookup_insert_Some.
    + intros _. cbn [th_chan th_sock th0]. by rewrite Hn.
    + exact (i_chan _ _ _ _ I _ _ Hj).
  - intros j th [[<- <-]|[Hne Hj]]%lookup_insert_Some; [done|by apply (i_ans _ _ _ _ I _ _ Hj)].
  - intros j th f [[<- <-]|[Hne Hj]]%lookup_insert_Some Hf; [by apply Hno in Hf|].
    by apply (i_new _ _ _ _ I _ _ _ Hj).
  - intros j k thj thk f [[<- <-]|[Hj' Hj]]%lookup_insert_Some
      [[<- <-]|[Hk' Hk]]%lookup_insert_Some H1 H2; [done| | |by eapply (i_once _ _ _ _ I)].
    + by apply Hno in H1.
    + by apply Hno in H2.
  - apply (i_mono _ _ _ _ I).
  - intros Ha. destruct (i_std _ _ _ _ I Ha) as [H1 H2]. split; [|done].
    apply (remove_one_in _ _ _ (i_nodup _ _ _ _ I)). split; [done|]. intros E. by apply (H0 Ha).
  - intros x Hx. destruct (i_sent _ _ _ _ I _ Hx) as (th & Ht & Hx'). exists th.
    split; [|done]. rewrite lookup_insert_ne; [done|]. intros ->. congruence.
Qed.

(** What recv does to the table after recvmsg. *)
Lemma recv_rest_spec r t res t' :
  recv_rest dec_request r t = (res, t') →
  (t' = t ∨ ∃ n, head (rr_fds r) = Some n ∧ t' = delete n t) ∧
  (∀ m h, res = Ok (Some (m, Some h)) → t' = t ∧ head (rr_fds r) = Some h).
Proof.
  unfold recv_rest. destruct (rr_fds r) as [|n l] eqn:El.
  - destruct (_ || _); [intros [= <- <-]; split; [by left|done]|].
    destruct (Nat.eqb _ _); [intros [= <- <-]; split; [by left|done]|].
    destruct (deserialize _ _); intros [= <- <-]; (split; [by left|done]).
  - unfold handle_from_raw. destruct (n <? 2 ^ 31).
    2:{ intros [= <- <-]. split; [by left|done]. }
    destruct (_ || _); [intros [= <- <-]; split; [right; by exists n|done]|].
    destruct (Nat.eqb _ _); [intros [= <- <-]; split; [right; by exists n|done]|].
    destruct (deserialize _ _); intros [= <- <-].
    + split; [by left|]. by intros m h [= <- <-].
    + split; [right; by exists n|done].
Qed.

(** What serving a request does. *)
Lemma dispatch_turn env th m t o b :
  be_limit env ≤ 2 ^ 31 →
  dispatch env (th_policy th) m (mkBst t (th_trace th)) = (o, b) →
  ∃ evs, bs_trace b = th_trace th ++ evs ∧
    (∀ path flags mode f, (path, flags, mode, Ok f) ∈ opens evs →
       ∃ tr, be_open env tr path flags = Ok f) ∧
    match o with
    | Done (code, Some n) => ∃ pre path flags e,
        evs = pre ++ [BOpen path flags 384 (Ok (fd_file e))] ∧
        user_allows (th_audit th) (rules_of (th_calls th)) path flags ∧
        t !! n = None ∧ n < be_limit env ∧ bs_tab b = <[n := e]> t ∧
        fd_flags e = (if Z.testbit flags 19 then FD_CLOEXEC else 0%Z)
    | Done (_, None) | Panicked => bs_tab b = t
    | Failed => False
    end.
Proof.
  intros Hl E. pose proof (runtime_decides (th_audit th) (th_calls th)) as Hp.
  fold (th_policy th) in Hp. set (p := th_policy th) in *.
  destruct m as [|path flags|nb args ip]; unfold dispatch in E.
  - injection E as <- <-. exists []. rewrite app_nil_r. split; [done|]. split; [|done].
    intros ???? H. by apply elem_of_nil in H.
  - unfold proxied_open_file in E. cbn [bs_tab bs_trace] in E.
    pose proof (decides_verdict p _ _ path flags Hp) as Hv.
    assert (∀ q, opens (log_events p q) = []) as Hlog by apply opens_log.
    destruct (fst (evaluate_request p (FileOpen path flags))) eqn:Ev.
    2-4: injection E as <- <-; eexists; (split; [done|]); rewrite Hlog; (split; [|done]);
      intros ???? H; by apply elem_of_nil in H.
    destruct (contains [x00] path).
    { injection E as <- <-; eexists; (split; [done|]); rewrite Hlog; (split; [|done]);
      intros ???? H; by apply elem_of_nil in H. }
    unfold sys_open in E. cbn [bs_tab bs_trace] in E.
    destruct (be_open env _ path flags) as [f|err] eqn:Eo.
    + destruct (fd_install _ _ t) as [[n t1]|] eqn:Ei.
      * apply fd_install_Some in Ei as (_ & Hlt & Hn & ->).
        unfold handle_from_raw in E. replace (n <? 2 ^ 31) with true in E by lia.
        injection E as <- <-. cbn [bs_tab bs_trace].
        eexists. split; [by rewrite <-app_assoc|].
        split.
        { intros path' flags' mode f'. rewrite opens_app, Hlog. cbn.
          intros [= -> -> -> ->]%elem_of_list_singleton. eauto. }
        exists (log_events p (FileOpen path flags)), path, flags.
        eexists (mkFd f _). split; [done|]. split; [by apply Hv|]. done.
      * injection E as <- <-. eexists. cbn [bs_tab bs_trace].
        split; [by rewrite <-app_assoc|]. split; [|done].
        intros ????. rewrite opens_app, Hlog. cbn. by intros ?%elem_of_list_singleton.
    + injection E as <- <-. eexists. cbn [bs_tab bs_trace].
      split; [by rewrite <-app_assoc|]. split; [|done].
      intros ????. rewrite opens_app, Hlog. cbn. by intros ?%elem_of_list_singleton.
  - injection E as <- <-. exists (log_events p (Syscall nb args ip)). split; [done|].
    rewrite opens_log. split; [|done]. intros ???? H. by apply elem_of_nil in H.
Qed.

(** A step that adds nothing to the trace and sends nothing. *)
Lemma thread_inv_quiet a limit s0 s i th t' p :
  inv a limit s0 s → sh_threads s !! i = Some th →
  (∀ n, n ∉ holds th → is_Some (sh_tab s !! n) → t' !! n = sh_tab s !! n) →
  (p ≠ PGone → th_at th ≠ PGone ∧ t' !! th_chan th = sh_tab s !! th_chan th) →
  (p ≠ PGone → NoDup (place_fds p) ∧ th_chan th ∉ place_fds p ∧
     ∀ n, n ∈ place_fds p → (n ∈ holds th ∨ sh_tab s !! n = None) ∧ is_Some (t' !! n)) →
  (∀ code h, p ≠ PAnswer code h) →
  inv a limit s0 (set_thread s t' (sh_next s) i (th_do th (th_trace th) p) []).
Proof.
  intros I Hi Hfr Hch Hfd Hp. rewrite <-(app_nil_r (th_trace th)).
  apply thread_inv; try done.
  - intros ???? H. by apply elem_of_nil in H.
  - intros code n H. by apply Hp in H.
  - intros x H. by apply elem_of_nil in H.
Qed.

Lemma holds_at th p : th_at th = p → p ≠ PGone → holds th = th_chan th :: place_fds p.
Proof. intros E H. unfold holds. rewrite E. by destruct p. Qed.

Lemma trecv_inv a limit sb s0 s s' i ev :
  inv a limit s0 s → turn_step a limit sb s (TRecv i ev) = Some s' → inv a limit s0 s'.
Proof.
  intros I E. unfold turn_step in E. destruct (sh_threads s !! i) as [th|] eqn:Hi; [|done].
  destruct (th_at th) eqn:Hat; try done.
  pose proof (holds_at th _ Hat ltac:(done)) as Hh.
  destruct (i_thr _ _ _ _ I _ _ Hi) as [_ Hs].
  assert (is_Some (sh_tab s !! th_chan th)) as Hc.
  { apply Hs. rewrite Hh. left. }
  destruct ev as [d| |].
  - unfold sys_recvmsg in E. destruct (install_files _ _ _ _) as [ns t'] eqn:Ei.
    injection E as <-.
    apply install_files_spec in Ei as (_ & _ & H3 & H4 & H5 & H6).
    apply thread_inv_quiet; [done|done| | | |done].
    + intros n _ [e He]. apply H5. intros Hn. apply H3 in Hn as [Hn _]. congruence.
    + intros _. split; [by rewrite Hat|]. apply H5. intros Hn. apply H3 in Hn as [Hn _].
      destruct Hc as [e He]. congruence.
    + intros _. cbn [place_fds rr_fds]. split; [done|]. split.
      * intros Hn. apply H3 in Hn as [Hn _]. destruct Hc as [e He]. congruence.
      * intros n Hn. split; [right; by apply H3|].
        apply elem_of_list_lookup in Hn as [k Hk]. apply H6 in Hk as (f & _ & Hk). by eexists.
  - injection E as <-. apply thread_inv_quiet; try done.
    + intros _. by rewrite Hat.
    + intros _. split; [constructor|]. split; [apply not_elem_of_nil|].
      intros n H. by apply elem_of_nil in H.
  - injection E as <-. apply thread_inv_quiet; try done.
    + intros _. by rewrite Hat.
    + intros _. split; [constructor|]. split; [apply not_elem_of_nil|].
      intros n H. by apply elem_of_nil in H.
Qed.

Lemma tparse_inv a limit sb s0 s s' i :
  inv a limit s0 s → turn_step a limit sb s (TParse i) = Some s' → inv a limit s0 s'.
Proof.
  intros I E. unfold turn_step in E. destruct (sh_threads s !! i) as [th|] eqn:Hi; [|done].
  destruct (th_at th) eqn:Hat; try done.
  pose proof (holds_at th _ Hat ltac:(done)) as Hh. cbn [place_fds] in Hh.
  destruct (i_thr _ _ _ _ I _ _ Hi) as [Hnd Hs]. rewrite Hh in Hnd.
  apply NoDup_cons in Hnd as [Hnc Hnd].
  destruct (recv_rest dec_request r (sh_tab s)) as [res t'] eqn:Er. injection E as <-.
  apply recv_rest_spec in Er as [Ht Hr].
  set (p := match res with Ok (Some (m, None)) => PAsked m
            | Ok (Some (_, Some h)) => PDrop (Some h) false | _ => PLeave end).
  assert (Hpl : place_fds p = [] ∨
    ∃ h, place_fds p = [h] ∧ t' = sh_tab s ∧ head (rr_fds r) = Some h).
  { destruct res as [[[m [h|]]|]|]; [right|by left..]. exists h. split; [done|].
    by eapply Hr. }
  apply thread_inv_quiet; [done|done| | | |].
  - intros n Hn _. destruct Ht as [->|(k & Hk & ->)]; [done|].
    apply lookup_delete_ne. intros <-. apply Hn. rewrite Hh. right.
    destruct (rr_fds r); [done|]. injection Hk as ->. left.
  - intros _. split; [by rewrite Hat|]. destruct Ht as [->|(k & Hk & ->)]; [done|].
    apply lookup_delete_ne. intros ->. apply Hnc.
    destruct (rr_fds r); [done|]. injection Hk as ->. left.
  - intros _. destruct Hpl as [->|(h & -> & -> & Hk)].
    + split; [constructor|]. split; [apply not_elem_of_nil|].
      intros n H. by apply elem_of_nil in H.
    + assert (h ∈ rr_fds r) as Hin.
      { destruct (rr_fds r); [done|]. injection Hk as ->. left. }
      split; [apply NoDup_singleton|]. split.
      * intros E%elem_of_list_singleton. by rewrite E in Hnc.
      * intros n ->%elem_of_list_singleton.
        assert (h ∈ holds th) as Hhh by (rewrite Hh; by right).
        split; [by left|]. by apply Hs.
  - intros code h E. subst p. by destruct res as [[[m [?|]]|]|].
Qed.

Lemma tserve_inv a limit sb s0 s s' i refusal :
  limit ≤ 2 ^ 31 → inv a limit s0 s →
  turn_step a limit sb s (TServe i refusal) = Some s' → inv a limit s0 s'.
Proof.
  intros Hl I E. unfold turn_step in E. destruct (sh_threads s !! i) as [th|] eqn:Hi; [|done].
  destruct (th_at th) eqn:Hat; try done.
  pose proof (holds_at th _ Hat ltac:(done)) as Hh. cbn [place_fds] in Hh.
  destruct (i_thr _ _ _ _ I _ _ Hi) as [_ Hs].
  assert (is_Some (sh_tab s !! th_chan th)) as [ec Hc].
  { apply Hs. rewrite Hh. left. }
  destruct (dispatch _ _ _ _) as [o b] eqn:Ed. injection E as <-.
  apply dispatch_turn in Ed as (evs & Htr & Hop & Ho); [|done]. rewrite Htr.
  assert (Hcase : (∃ code n e, o = Done (code, Some n) ∧ sh_tab s !! n = None ∧ n < limit ∧
      bs_tab b = <[n := e]> (sh_tab s) ∧ ∃ pre path flags,
        evs = pre ++ [BOpen path flags 384 (Ok (fd_file e))] ∧
        user_allows (th_audit th) (rules_of (th_calls th)) path flags) ∨
    (bs_tab b = sh_tab s ∧ ∀ code n, o ≠ Done (code, Some n))).
  { destruct o as [[code [n|]]| |]; [|by right|done|by right].
    destruct Ho as (pre & path & flags & e & H1 & H2 & H3 & H4 & H5 & _).
    left. exists code, n, e. split; [done|]. split; [done|]. split; [done|]. split; [done|].
    by exists pre, path, flags. }
  apply thread_inv; [done|done|lia| | | | | |].
  - intros path flags mode f Hf. apply Hop in Hf as [tr Hf]. cbn [be_open step_env] in Hf.
    destruct refusal; [done|]. injection Hf as <-. lia.
  - intros n _ [e He].
    destruct Hcase as [(code & k & e' & _ & Hk & _ & -> & _)|[-> _]]; [|done].
    apply lookup_insert_ne. intros ->. congruence.
  - intros _. split; [by rewrite Hat|].
    destruct Hcase as [(code & k & e' & _ & Hk & _ & -> & _)|[-> _]]; [|done].
    apply lookup_insert_ne. intros ->. congruence.
  - intros _. destruct Hcase as [(code & k & e' & -> & Hk & _ & -> & _)|[_ Hno]].
    + cbn [place_fds]. split; [apply NoDup_singleton|]. split.
      * intros E%elem_of_list_singleton. congruence.
      * intros n ->%elem_of_list_singleton. split; [by right|]. rewrite lookup_insert. eauto.
    + assert (place_fds (match o with Done (code, h) => PAnswer code h | _ => PLeave end) = [])
        as ->.
      { destruct o as [[code [n|]]| |]; try done. by destruct (Hno code n). }
      split; [constructor|]. split; [apply not_elem_of_nil|].
      intros n H. by apply elem_of_nil in H.
  - intros code n. cbn [th_do th_at th_trace th_audit th_calls]. intros Ep.
    destruct Hcase as [(code' & k & e' & -> & Hk & Hlt & -> & pre & path & flags & -> & Hu)|[_ Hno]].
    + injection Ep as -> ->. split; [done|].
      exists e', (th_trace th ++ pre), path, flags. rewrite lookup_insert.
      split; [done|]. split; [by rewrite app_assoc|done].
    + destruct o as [[code' [n'|]]| |]; try done. by destruct (Hno code' n').
  - intros x H. by apply elem_of_nil in H.
Qed.

Lemma tsend_inv a limit sb s0 s s' i refusal :
  limit ≤ 2 ^ 31 → inv a limit s0 s →
  turn_step a limit sb s (TSend i refusal) = Some s' → inv a limit s0 s'.
Proof.
  intros Hl I E. unfold turn_step in E. destruct (sh_threads s !! i) as [th|] eqn:Hi; [|done].
  destruct (th_at th) eqn:Hat; try done.
  pose proof (holds_at th _ Hat ltac:(done)) as Hh.
  destruct (i_thr _ _ _ _ I _ _ Hi) as [Hnd Hs]. rewrite Hh in Hnd.
  apply NoDup_cons in Hnd as [Hnc Hnd].
  assert (th_at th ≠ PGone) as Hng by (by rewrite Hat).
  pose proof (i_chan _ _ _ _ I _ _ Hi Hng) as Hch.
  destruct (sh_tab s !! th_chan th) as [e|] eqn:Hc; [|done]. injection Hch as Hch.
  destruct (broker_send _ _ _ _) as [ok b] eqn:Eb.
  pose proof (broker_send_spec (step_env a limit sb (sh_next s) refusal)
    (OutSyscallResult code) h (mkBst (sh_tab s) (th_trace th))) as (ev & Hb & Hev).
  rewrite Eb in Hb, Hev. cbn [fst snd bs_tab bs_trace be_abi be_sndbuf step_env] in Hb, Hev.
  subst b. injection E as <-. cbn [bs_trace].
  assert (Hpl : place_fds (PDrop h ok) = place_fds (PAnswer code h)) by done.
  apply thread_inv; [done|done|lia| |done| | | |].
  - intros path flags mode f. destruct ok.
    + destruct Hev as (d & -> & _). cbn. intros H. by apply elem_of_nil in H.
    + subst ev. cbn. intros H. by apply elem_of_nil in H.
  - intros _. by split.
  - intros _. rewrite Hpl. split; [done|]. split; [done|]. intros n Hn.
    assert (n ∈ holds th) as Hin by (rewrite Hh; by right). split; [by left|]. by apply Hs.
  - done.
  - intros x Hx. rewrite last_snoc in Hx. destruct ok.
    2:{ subst ev. by apply elem_of_nil in Hx. }
    destruct Hev as (d & -> & Hd). apply elem_of_list_singleton in Hx as ->.
    cbn [sn_by]. split; [done|]. split; [cbn [sn_to th_sock th_do]; done|].
    cbn [sn_files th_do th_trace th_audit th_calls].
    apply channel_send_files in Hd. destruct h as [n|]; [|by left]. right.
    destruct (i_ans _ _ _ _ I _ _ Hi _ _ Hat) as [Hlt (e1 & pre & path & flags & He1 & Htr & Hu)].
    destruct Hd as (e2 & He2 & Hd); [lia|]. assert (e2 = e1) as -> by congruence.
    exists pre, [], path, flags, (fd_file e1), (dg_payload d).
    split; [rewrite Htr; by rewrite <-!app_assoc|]. split; [done|].
    destruct a; [|done]. destruct Hd as (e0 & He0 & Hd).
    destruct (i_std _ _ _ _ I eq_refl) as [_ H0]. exists e0. by rewrite <-H0.
Qed.

Lemma tclose_inv a limit sb s0 s s' i :
  inv a limit s0 s → turn_step a limit sb s (TClose i) = Some s' → inv a limit s0 s'.
Proof.
  intros I E. unfold turn_step in E. destruct (sh_threads s !! i) as [th|] eqn:Hi; [|done].
  destruct (th_at th) eqn:Hat; try done.
  - pose proof (holds_at th _ Hat ltac:(done)) as Hh.
    destruct (i_thr _ _ _ _ I _ _ Hi) as [Hnd Hs]. rewrite Hh in Hnd.
    apply NoDup_cons in Hnd as [Hnc Hnd].
    assert (∀ p, p = PWait ∨ p = PLeave →
      ∀ t, (t = sh_tab s ∨ ∃ n, h = Some n ∧ t = delete n (sh_tab s)) →
      inv a limit s0 (set_thread s t (sh_next s) i (th_do th (th_trace th) p) [])) as Hgo.
    { intros p Hp t Ht. assert (place_fds p = []) as Hpl by (by destruct Hp as [-> | ->]).
      apply thread_inv_quiet; [done|done| | | |by destruct Hp as [-> | ->]].
      - intros n Hn _. destruct Ht as [->|(k & -> & ->)]; [done|].
        apply lookup_delete_ne. intros <-. apply Hn. rewrite Hh. right. left.
      - intros _. split; [by rewrite Hat|]. destruct Ht as [->|(k & -> & ->)]; [done|].
        apply lookup_delete_ne. intros ->. apply Hnc. left.
      - intros _. rewrite Hpl. split; [constructor|]. split; [apply not_elem_of_nil|].
        intros n H. by apply elem_of_nil in H. }
    unfold drop_handle in E. destruct h as [n|].
    + unfold handle_drop, sys_close in E. cbn [bs_tab bs_trace] in E.
      destruct (sh_tab s !! n); injection E as <-.
      * apply Hgo; [destruct go_on; auto|]. right. by exists n.
      * apply Hgo; [auto|by left].
    + injection E as <-. apply Hgo; [destruct go_on; auto|by left].
  - injection E as <-. pose proof (holds_at th _ Hat ltac:(done)) as Hh.
    apply thread_inv_quiet; try done.
    intros n Hn _. apply lookup_delete_ne. intros <-. apply Hn. rewrite Hh. left.
Qed.

Lemma inv_start a limit s :
  fresh_program s → (a = Abi64 → 0 ∈ sh_own s) → inv a limit s s.
Proof.
  intros (Ht & Hs & Hn & Ho & _) H0.
  constructor; rewrite ?Ht, ?Hs; try done.
  - intros Ha. split; [by apply H0|done].
  - intros x H. by apply elem_of_nil in H.
Qed.

Lemma turns_inv a limit sb s0 s xs s' :
  limit ≤ 2 ^ 31 → no_second_close xs →
  (a = Abi64 → HClose 0 ∉ xs ∧ ∀ i audit calls, HSpawn i audit calls 0 ∉ xs) →
  inv a limit s0 s → turns a limit sb s xs = Some s' → inv a limit s0 s'.
Proof.
  intros Hl. revert s. induction xs as [|x xs IH]; intros s Hf Hk I E.
  { injection E as <-. done. }
  cbn [turns] in E. destruct (turn_step a limit sb s x) as [s1|] eqn:E1; [|done].
  apply IH in E; [done| | |].
  - intros n Hn. apply (Hf n). by right.
  - intros Ha. destruct (Hk Ha) as [H1 H2].
    split; [intros H; apply H1; by right|intros i au ca H; apply (H2 i au ca); by right].
  - clear E IH. destruct x.
    + by eapply hopen_inv.
    + eapply hclose_inv; [done| |done]. intros Ha ->. destruct (Hk Ha) as [H1 _]. apply H1. left.
    + destruct (Hf n). left.
    + eapply hspawn_inv; [done| |done]. intros Ha ->. destruct (Hk Ha) as [_ H1].
      eapply H1. left.
    + by eapply trecv_inv.
    + by eapply tparse_inv.
    + by eapply tserve_inv.
    + by eapply tsend_inv.
    + by eapply tclose_inv.
Qed.

(* ---------------------------------------------------------------- C119 *)

(** Partial: for programs that do not close a descriptor twice and, on x86_64, keep
    their standard input open, every reply with a file carries the file its thread
    opened just before under its own policy, goes to its own socket, and no reply
    carries a file opened for another worker. *)
Theorem C119_workers_apart_partial a limit sndbuf s xs s' x :
  limit ≤ 2 ^ 31 → fresh_program s → no_second_close xs →
  (a = Abi64 → keeps_stdin s xs) →
  turns a limit sndbuf s xs = Some s' → x ∈ sh_sent s' →
  stays s' x ∧ ∃ th, sh_threads s' !! sn_by x = Some th ∧ own_answer a s th x.
Proof.
  intros Hl Hfp Hf Hk E Hx.
  assert (inv a limit s s') as I.
  { eapply turns_inv; [done|done| |apply inv_start; [done|]|done].
    - intros Ha. by destruct (Hk Ha) as (_ & ?).
    - intros Ha. by destruct (Hk Ha) as (? & _). }
  destruct (i_sent _ _ _ _ I _ Hx) as (th & Hth & Ho). split; [|by exists th].
  destruct Ho as [Hto Ho]. split; [intros th' H; congruence|].
  intros f j thj Hin Hj Hop. destruct Ho as [Ho|Ho].
  { rewrite Ho in Hin. by apply elem_of_nil in Hin. }
  destruct Ho as (pre & post & path & flags & f1 & payload & Htr & _ & Hfs).
  assert (opened th f1) as Hop1.
  { exists path, flags, 384%Z. rewrite Htr, !opens_app. apply elem_of_app. right.
    apply elem_of_app. left. cbn. left. }
  assert (f = f1 → j = sn_by x) as Hsame.
  { intros ->. by eapply (i_once _ _ _ _ I). }
  destruct a.
  - destruct Hfs as (e0 & He0 & Hfs). rewrite Hfs in Hin.
    apply elem_of_cons in Hin as [Hin|Hin]; [by apply Hsame|].
    apply elem_of_list_singleton in Hin. subst f.
    pose proof (i_new _ _ _ _ I _ _ _ Hj Hop) as Hlt.
    destruct Hfp as (_ & _ & _ & _ & Hfp). apply Hfp in He0. lia.
  - rewrite Hfs in Hin. apply elem_of_list_singleton in Hin. by apply Hsame.
Qed.
Print Assumptions C119_workers_apart_partial.

(* ---------------------------------------------------------------- a lone thread *)

Definition turn_of (i : nat) (x : turn) : Prop :=
  match x with
  | TRecv j _ | TParse j | TServe j _ | TSend j _ | TClose j => j = i
  | _ => False
  end.

Lemma dispatch_env env env' p m s :
  be_limit env = be_limit env' → be_open env = be_open env' →
  dispatch env p m s = dispatch env' p m s.
Proof.
  intros H1 H2. destruct m as [|path flags|nb args ip]; [done| |done].
  unfold dispatch, proxied_open_file, sys_open. by rewrite H1, H2.
Qed.

Lemma turns_cons a limit sb s x s1 xs s2 :
  turn_step a limit sb s x = Some s1 → turns a limit sb s1 xs = Some s2 →
  turns a limit sb s (x :: xs) = Some s2.
Proof. intros H1 H2. cbn [turns]. by rewrite H1. Qed.

(** One event of a lone thread. *)
Lemma alone_step a limit sndbuf s i th ev ro rs st b :
  sh_threads s !! i = Some th → th_at th = PWait → is_Some (sh_tab s !! th_chan th) →
  broker_step
    (mkBenv a limit sndbuf
       (λ _ _ _, match ro with None => Ok (sh_next s) | Some e => Err e end) (λ _, rs))
    (th_policy th) ev (mkBst (sh_tab s) (th_trace th)) = (st, b) →
  ∃ xs s', Forall (turn_of i) xs ∧ turns a limit sndbuf s xs = Some s' ∧
    sh_tab s' = bs_tab b ∧ sh_own s' = sh_own s ∧
    sh_threads s' !! i =
      Some (th_do th (bs_trace b) (match st with Serving => PWait | _ => PLeave end)).
Proof.
  intros Hi Hat [ec Hc] E. unfold broker_step in E. cbn [be_abi be_limit bs_tab bs_trace] in E.
  set (env := mkBenv _ _ _ _ _) in E.
  destruct ev as [d| |].
  2:{ injection E as <- <-.
      exists [TRecv i EvEof], (set_thread s (sh_tab s) (sh_next s) i (th_do th (th_trace th) PLeave) []).
      split; [by repeat constructor|].
      split; [eapply turns_cons; [unfold turn_step; rewrite Hi, Hat; reflexivity|reflexivity]|].
      split; [done|]. split; [done|]. cbn [sh_threads set_thread]. by rewrite lookup_insert. }
  2:{ injection E as <- <-.
      exists [TRecv i (EvError errno)],
        (set_thread s (sh_tab s) (sh_next s) i (th_do th (th_trace th) PLeave) []).
      split; [by repeat constructor|].
      split; [eapply turns_cons; [unfold turn_step; rewrite Hi, Hat; reflexivity|reflexivity]|].
      split; [done|]. split; [done|]. cbn [sh_threads set_thread]. by rewrite lookup_insert. }
  rewrite recv_cut in E.
  destruct (sys_recvmsg a limit IPC_MESSAGE_MAX_SIZE (CMSG_SIZE a) d (sh_tab s)) as [r t1] eqn:Er.
  assert (t1 !! th_chan th = Some ec) as Hc1.
  { unfold sys_recvmsg in Er. destruct (install_files _ _ _ _) as [ns t'] eqn:Ei.
    injection Er as _ <-. apply install_files_spec in Ei as (_ & _ & H3 & _ & H5 & _).
    rewrite H5; [done|]. intros Hn. apply H3 in Hn as [Hn _]. congruence. }
  set (s1 := set_thread s t1 (sh_next s) i (th_do th (th_trace th) (PParse r)) []).
  assert (S1 : turn_step a limit sndbuf s (TRecv i (EvDatagram d)) = Some s1).
  { unfold turn_step. rewrite Hi, Hat, Er. done. }
  destruct (recv_rest dec_request r t1) as [res t2] eqn:E2.
  assert (L1 : sh_threads s1 !! i = Some (th_do th (th_trace th) (PParse r))).
  { unfold s1. cbn [sh_threads set_thread]. by rewrite lookup_insert. }
  set (p := match res with Ok (Some (m, None)) => PAsked m
            | Ok (Some (_, Some h)) => PDrop (Some h) false | _ => PLeave end).
  set (s2 := set_thread s1 t2 (sh_next s) i (th_do th (th_trace th) p) []).
  assert (S2 : turn_step a limit sndbuf s1 (TParse i) = Some s2).
  { unfold turn_step. rewrite L1. cbn [th_at th_do]. unfold s1 at 1. cbn [sh_tab set_thread].
    rewrite E2. done. }
  assert (L2 : sh_threads s2 !! i = Some (th_do th (th_trace th) p)).
  { unfold s2. cbn [sh_threads set_thread]. by rewrite lookup_insert. }
  assert (Hleave : st = Exited → b = mkBst t2 (th_trace th) → p = PLeave →
    ∃ xs s', Forall (turn_of i) xs ∧ turns a limit sndbuf s xs = Some s' ∧
    sh_tab s' = bs_tab b ∧ sh_own s' = sh_own s ∧
    sh_threads s' !! i =
      Some (th_do th (bs_trace b) (match st with Serving => PWait | _ => PLeave end))).
  { intros -> -> Ep. exists [TRecv i (EvDatagram d); TParse i], s2.
    split; [by repeat constructor|].
    split; [eapply turns_cons; [exact S1|]; eapply turns_cons; [exact S2|done]|].
    split; [done|]. split; [done|]. by rewrite L2, Ep. }
  destruct res as [[[m [h|]]|]|err].
  3,4: injection E as <- <-; by apply Hleave.
  - (* a handle came along *)
    assert (t2 = t1) as -> by (by eapply recv_rest_spec in E2 as [_ H]; eapply H).
    clear Hleave. unfold drop_handle in E. cbn [bs_tab bs_trace] in E.
    exists [TRecv i (EvDatagram d); TParse i; TClose i].
    destruct (handle_drop h t1) as [t3| |] eqn:Ed.
    2:{ unfold handle_drop in Ed. by destruct (sys_close h t1). }
    + injection E as <- <-.
      exists (set_thread s2 t3 (sh_next s) i (th_do th (th_trace th) PLeave) []).
      split; [by repeat constructor|].
      split.
      { eapply turns_cons; [exact S1|]; eapply turns_cons; [exact S2|]; eapply turns_cons; [|done].
        unfold turn_step. rewrite L2. unfold p. cbn [th_at th_do drop_handle bs_tab].
        replace (sh_tab s2) with t1 by done. rewrite Ed. done. }
      split; [done|]. split; [done|]. cbn [sh_threads set_thread]. by rewrite lookup_insert.
    + injection E as <- <-.
      exists (set_thread s2 t1 (sh_next s) i (th_do th (th_trace th) PLeave) []).
      split; [by repeat constructor|].
      split.
      { eapply turns_cons; [exact S1|]; eapply turns_cons; [exact S2|]; eapply turns_cons; [|done].
        unfold turn_step. rewrite L2. unfold p. cbn [th_at th_do drop_handle bs_tab].
        replace (sh_tab s2) with t1 by done. rewrite Ed. done. }
      split; [done|]. split; [done|]. cbn [sh_threads set_thread]. by rewrite lookup_insert.
  - (* a request *)
    clear Hleave.
    assert (t2 !! th_chan th = Some ec) as Hc2.
    { assert (t2 = t1) as ->; [|done]. unfold recv_rest in E2.
      destruct (rr_fds r) as [|n l].
      - destruct (_ || _); [done|]. destruct (Nat.eqb _ _); [done|].
        destruct (deserialize _ _); [|done]. by injection E2 as _ <-.
      - destruct (handle_from_raw n); [|done]. destruct (_ || _); [done|].
        destruct (Nat.eqb _ _); [done|]. by destruct (deserialize _ _). }
    destruct (dispatch env (th_policy th) m (mkBst t2 (th_trace th))) as [o b1] eqn:Ed.
    assert (Ed' : dispatch (step_env a limit sndbuf (sh_next s) ro) (th_policy th) m
      (mkBst t2 (th_trace th)) = (o, b1)) by (rewrite <-Ed; by apply dispatch_env).
    set (p3 := match o with Done (code, h) => PAnswer code h | _ => PLeave end).
    set (s3 := set_thread s2 (bs_tab b1) (sh_next s + 1) i (th_do th (bs_trace b1) p3) []).
    assert (S3 : turn_step a limit sndbuf s2 (TServe i ro) = Some s3).
    { unfold turn_step. rewrite L2. unfold p.
      change (th_policy (th_do th (th_trace th) (PAsked m))) with (th_policy th).
      cbn [th_at th_do th_trace].
      replace (sh_tab s2) with t2 by done. replace (sh_next s2) with (sh_next s) by done.
      rewrite Ed'. done. }
    assert (L3 : sh_threads s3 !! i = Some (th_do th (bs_trace b1) p3)).
    { unfold s3. cbn [sh_threads set_thread]. by rewrite lookup_insert. }
    assert (Hc3 : bs_tab b1 !! th_chan th = Some ec).
    { clear -Ed Hc2. destruct m as [|path flags|nb args ip]; unfold dispatch in Ed.
      - by injection Ed as _ <-.
      - unfold proxied_open_file in Ed. destruct (fst (evaluate_request _ _)).
        2-4: by injection Ed as _ <-.
        destruct (contains _ _); [by injection Ed as _ <-|].
        unfold sys_open in Ed. cbn [bs_tab bs_trace] in Ed. destruct (be_open env _ _ _).
        + destruct (fd_install _ _ _) as [[n t]|] eqn:Ei; [|by injection Ed as _ <-].
          apply fd_install_Some in Ei as (_ & _ & Hn & ->).
          destruct (handle_from_raw n); injection Ed as _ <-; cbn [bs_tab];
            (rewrite lookup_insert_ne; [done|congruence]).
        + by injection Ed as _ <-.
      - by injection Ed as _ <-. }
    destruct o as [[code h]| |].
    2,3: injection E as <- <-; exists [TRecv i (EvDatagram d); TParse i; TServe i ro], s3;
      (split; [by repeat constructor|]);
      (split; [eapply turns_cons; [exact S1|]; eapply turns_cons; [exact S2|];
               eapply turns_cons; [exact S3|done]|]);
      (split; [done|]); (split; [done|]); by rewrite L3.
    destruct (broker_send env (OutSyscallResult code) h b1) as [ok b2] eqn:Eb.
    assert (Eb' : broker_send (step_env a limit sndbuf (sh_next s3) rs) (OutSyscallResult code) h
      (mkBst (bs_tab b1) (bs_trace b1)) = (ok, b2)).
    { rewrite <-Eb. by destruct b1. }
    assert (Ht2 : bs_tab b2 = bs_tab b1).
    { pose proof (broker_send_spec env (OutSyscallResult code) h b1) as (e & Hb & _).
      rewrite Eb in Hb. cbn [snd] in Hb. by rewrite Hb. }
    assert (∃ out, turn_step a limit sndbuf s3 (TSend i rs) = Some
      (set_thread s3 (bs_tab b1) (sh_next s3) i (th_do th (bs_trace b2) (PDrop h ok)) out))
      as [out S4].
    { unfold turn_step. rewrite L3. unfold p3. cbn [th_at th_do th_chan th_trace].
      replace (sh_tab s3) with (bs_tab b1) by done. rewrite Hc3, Eb'. eauto. }
    set (s4 := set_thread s3 _ _ _ _ _) in S4.
    assert (L4 : sh_threads s4 !! i = Some (th_do th (bs_trace b2) (PDrop h ok))).
    { unfold s4. cbn [sh_threads set_thread]. by rewrite lookup_insert. }
    exists [TRecv i (EvDatagram d); TParse i; TServe i ro; TSend i rs; TClose i].
    assert (Hrun : ∀ s5, turn_step a limit sndbuf s4 (TClose i) = Some s5 →
      turns a limit sndbuf s [TRecv i (EvDatagram d); TParse i; TServe i ro; TSend i rs; TClose i]
      = Some s5).
    { intros s5 H5. eapply turns_cons; [exact S1|]. eapply turns_cons; [exact S2|].
      eapply turns_cons; [exact S3|]. eapply turns_cons; [exact S4|].
      eapply turns_cons; [exact H5|done]. }
    assert (Hd : drop_handle h (mkBst (sh_tab s4) (bs_trace b2)) = drop_handle h b2).
    { replace (sh_tab s4) with (bs_tab b1) by done. rewrite <-Ht2. by destruct b2. }
    assert (Htr : ∀ b3, drop_handle h b2 = Done b3 → bs_trace b3 = bs_trace b2).
    { intros b3. unfold drop_handle. destruct h; [|by intros [= <-]].
      destruct (handle_drop _ _); try done. by intros [= <-]. }
    destruct (drop_handle h b2) as [b3| |] eqn:Edr.
    + injection E as <- <-.
      exists (set_thread s4 (bs_tab b3) (sh_next s4) i
        (th_do th (bs_trace b2) (if ok then PWait else PLeave)) []).
      split; [by repeat constructor|]. split.
      { apply Hrun. unfold turn_step. rewrite L4. cbn [th_at th_do th_trace]. rewrite Hd. done. }
      split; [done|]. split; [done|]. cbn [sh_threads set_thread]. rewrite lookup_insert.
      rewrite (Htr b3 eq_refl). by destruct ok.
    + exfalso. unfold drop_handle in Edr. destruct h; [|done].
      unfold handle_drop in Edr. by destruct (sys_close _ _).
    + injection E as <- <-.
      exists (set_thread s4 (sh_tab s4) (sh_next s4) i (th_do th (bs_trace b2) PLeave) []).
      split; [by repeat constructor|]. split.
      { apply Hrun. unfold turn_step. rewrite L4. cbn [th_at th_do th_trace]. rewrite Hd. done. }
      split; [cbn [sh_tab set_thread]; by rewrite Ht2|]. split; [done|].
      cbn [sh_threads set_thread]. by rewrite lookup_insert.
Qed.

Lemma turns_app a limit sb s xs s1 ys :
  turns a limit sb s xs = Some s1 →
  turns a limit sb s (xs ++ ys) = turns a limit sb s1 ys.
Proof.
  revert s. induction xs as [|x xs IH]; intros s; cbn [turns app].
  - intros E. by injection E as ->.
  - destruct (turn_step a limit sb s x); [apply IH|done].
Qed.

(** With nobody in between, a thread does what the loop of BrokerModel does: for every
    event there are turns of this thread alone that end in the same table and trace; the
    thread waits for the next event when the loop does and is gone, its channel closed,
    when the loop has ended. *)
Theorem C119_alone a limit sndbuf s i th ev ro rs st b :
  sh_threads s !! i = Some th → th_at th = PWait → is_Some (sh_tab s !! th_chan th) →
  broker_loop
    (mkBenv a limit sndbuf
       (λ _ _ _, match ro with None => Ok (sh_next s) | Some e => Err e end) (λ _, rs))
    (th_policy th) (th_chan th) [ev] (mkBst (sh_tab s) (th_trace th)) = (st, b) →
  ∃ xs s', Forall (turn_of i) xs ∧ turns a limit sndbuf s xs = Some s' ∧
    sh_tab s' = bs_tab b ∧ sh_own s' = sh_own s ∧
    sh_threads s' !! i =
      Some (th_do th (bs_trace b) (match st with Serving => PWait | _ => PGone end)).
Proof.
  intros Hi Hat Hc E. cbn [broker_loop] in E.
  destruct (broker_step _ _ _ _) as [st' b'] eqn:Es.
  destruct (alone_step _ _ _ _ _ _ _ _ _ _ _ Hi Hat Hc Es)
    as (xs & s' & Hxs & Hrun & Htab & Hown & Hth).
  assert (st' = Serving ∨ st' ≠ Serving) as [->|Hst] by (destruct st'; (by left) || (by right)).
  { injection E as <- <-. by exists xs, s'. }
  assert (st = st' ∧ b = mkBst (delete (th_chan th) (bs_tab b')) (bs_trace b')) as [-> ->].
  { destruct st'; [done| |]; injection E as <- <-; done. }
  set (th' := th_do th (bs_trace b') PLeave).
  assert (sh_threads s' !! i = Some th') as Hth' by (by destruct st').
  exists (xs ++ [TClose i]),
    (set_thread s' (delete (th_chan th) (sh_tab s')) (sh_next s') i
       (th_do th' (bs_trace b') PGone) []).
  split; [apply Forall_app; split; [done|by repeat constructor]|].
  split.
  { rewrite (turns_app _ _ _ _ _ _ _ Hrun). cbn [turns turn_step]. by rewrite Hth'. }
  cbn [set_thread sh_tab sh_own sh_threads bs_tab bs_trace]. rewrite Htab.
  split; [done|]. split; [done|]. rewrite lookup_insert. by destruct st'.
Qed.
Print Assumptions C119_alone.

(* A program with standard descriptors and the broker ends of two channels. *)
Definition ex_program : share :=
  mkShare (<[0 := mkFd 10 0]> (<[1 := mkFd 11 0]> (<[2 := mkFd 12 0]>
            (<[3 := mkFd 13 FD_CLOEXEC]> {[4 := mkFd 14 FD_CLOEXEC]}))))
    20 [0; 1; 2; 3; 4] ∅ [].
Definition ex_rules (d : str) : list api_call := [CallRule (AllowDirRead d)].
Definition ex_ask (i : nat) (path : str) : list turn :=
  [TRecv i (dgram (ReqOpenFile path 0)); TParse i; TServe i None].
Definition ex_spawn : list turn :=
  [HSpawn 0 false (ex_rules (lit "/a")) 3; HSpawn 1 false (ex_rules (lit "/b")) 4].
(* What can be seen: datagrams, and files opened per thread. *)
Definition ex_seen (s : share) : list sent * list (list (str * Z * Z * result N N)) :=
  (sh_sent s,
   map (λ i, match sh_threads s !! i with Some th => opens (th_trace th) | None => [] end)
     [0; 1]%nat).
Lemma ex_program_fresh : fresh_program ex_program.
Proof.
  split; [done|]. split; [done|].
  split; [apply (bool_decide_unpack _); vm_compute; exact I|]. split.
  - intros n Hn. cbn [sh_own ex_program] in Hn.
    repeat (apply elem_of_cons in Hn as [->|Hn]; [vm_compute; eauto|]).
    by apply elem_of_nil in Hn.
  - intros n e He. cbn [sh_tab ex_program sh_next] in He |- *.
    repeat (apply lookup_insert_Some in He as [[<- <-]|[_ He]]; [cbn [fd_file]; lia|]).
    apply lookup_singleton_Some in He as [<- <-]. cbn [fd_file]. lia.
Qed.

(* Worker 1 opens a file while the standard input is closed: its file gets number 0 and
   goes along with the reply to worker 0. *)
Definition ex_stdin : list turn :=
  ex_spawn ++ [HClose 0] ++ ex_ask 1 (lit "/b/x") ++ ex_ask 0 (lit "/a/y") ++ [TSend 0 None].
(* A descriptor closed by a configuration and by the program. *)
Definition ex_twice : list turn :=
  [HOpen 1] ++ ex_spawn ++ [HForget 5] ++ ex_ask 1 (lit "/b/x") ++ [HClose 5] ++
  ex_ask 0 (lit "/a/y") ++ [TSend 1 None].

(** A run whose visible part is known. *)
Lemma seen_run a xs out os :
  option_map ex_seen (turns a 1024 200000 ex_program xs) = Some (out, os) →
  ∃ s, turns a 1024 200000 ex_program xs = Some s ∧ sh_sent s = out ∧
    ∀ i o, os !! i = Some o → (i < 2)%nat → o ≠ [] →
      ∃ th, sh_threads s !! i = Some th ∧ opens (th_trace th) = o.
Proof.
  destruct (turns _ _ _ _ _) as [s|]; [|done]. intros E. exists s. split; [done|].
  apply (inj Some) in E. unfold ex_seen in E.
  split; [exact (f_equal fst E)|]. apply (f_equal snd) in E. cbn [snd] in E.
  intros i o Hi Hlt Hne. rewrite <-E in Hi. cbn [map] in Hi.
  destruct i as [|[|i]]; [| |lia]; cbn in Hi.
  - destruct (sh_threads s !! 0%nat) as [th|]; injection Hi as <-; [by exists th|done].
  - destruct (sh_threads s !! 1%nat) as [th|]; injection Hi as <-; [by exists th|done].
Qed.

(** On x86_64 the full statement fails as soon as the program closes its standard
    input. *)
Theorem C119_stdin_refuted :
  ∃ xs s' x, fresh_program ex_program ∧ no_second_close xs ∧
    turns Abi64 1024 200000 ex_program xs = Some s' ∧ x ∈ sh_sent s' ∧ ¬ stays s' x.
Proof.
  destruct (seen_run Abi64 ex_stdin [mkSent 0 13 [21; 20]]
    [[(lit "/a/y", 0%Z, 384%Z, Ok 21)]; [(lit "/b/x", 0%Z, 384%Z, Ok 20)]])
    as (s & E & Hs & Ho).
  { vm_compute. reflexivity. }
  exists ex_stdin, s, (mkSent 0 13 [21; 20]).
  split; [apply ex_program_fresh|]. split.
  { intros n H. unfold ex_stdin, ex_spawn, ex_ask in H. cbn [app] in H.
    repeat (apply elem_of_cons in H as [H|H]; [discriminate H|]). by apply elem_of_nil in H. }
  split; [exact E|]. split; [rewrite Hs; left|]. intros [_ H].
  destruct (Ho 1%nat _ eq_refl ltac:(lia) ltac:(done)) as (th & Hth & Ht).
  specialize (H 20 1%nat th). cbn [sn_files sn_by] in H.
  assert (1%nat = 0%nat); [|done]. apply H; [right; left|exact Hth|].
  exists (lit "/b/x"), 0%Z, 384%Z. rewrite Ht. left.
Qed.
Print Assumptions C119_stdin_refuted.

(** And on any architecture when a configuration of the C interface and the program
    both close a descriptor. *)
Theorem C119_second_close_refuted :
  ∃ xs s' x, fresh_program ex_program ∧ keeps_stdin ex_program xs ∧
    turns Abi32 1024 200000 ex_program xs = Some s' ∧ x ∈ sh_sent s' ∧ ¬ stays s' x.
Proof.
  destruct (seen_run Abi32 ex_twice [mkSent 1 14 [22]]
    [[(lit "/a/y", 0%Z, 384%Z, Ok 22)]; [(lit "/b/x", 0%Z, 384%Z, Ok 21)]])
    as (s & E & Hs & Ho).
  { vm_compute. reflexivity. }
  exists ex_twice, s, (mkSent 1 14 [22]).
  split; [apply ex_program_fresh|]. split.
  { split; [left|]. split; [|intros i au ca];
    (intros H; unfold ex_twice, ex_spawn, ex_ask in H; cbn [app] in H;
     repeat (apply elem_of_cons in H as [H|H]; [discriminate H|]); by apply elem_of_nil in H). }
  split; [exact E|]. split; [rewrite Hs; left|]. intros [_ H].
  destruct (Ho 0%nat _ eq_refl ltac:(lia) ltac:(done)) as (th & Hth & Ht).
  specialize (H 22 0%nat th). cbn [sn_files sn_by] in H.
  assert (0%nat = 1%nat); [|done]. apply H; [left|exact Hth|].
  exists (lit "/a/y"), 0%Z, 384%Z. rewrite Ht. left.
Qed.
Print Assumptions C119_second_close_refuted.

(* The number of a worker's channel, closed by a configuration and by the program, is
   given to the channel of the next worker before the reply is sent. *)
Definition ex_socket : list turn :=
  [HOpen 1; HForget 5; HOpen 1; HSpawn 0 false (ex_rules (lit "/a")) 5] ++
  ex_ask 0 (lit "/a/y") ++ [HClose 5; HOpen 1; HSpawn 1 false (ex_rules (lit "/b")) 5] ++
  [TSend 0 None].
Definition ex_socks (s : share) : list sent * list (option N) :=
  (sh_sent s, map (λ i, th_sock <$> sh_threads s !! i) [0; 1]%nat).

(** Then even the reply goes to the other worker. *)
Theorem C119_other_socket_refuted :
  ∃ xs s' x th th', fresh_program ex_program ∧ keeps_stdin ex_program xs ∧
    turns Abi32 1024 200000 ex_program xs = Some s' ∧ x ∈ sh_sent s' ∧ sn_files x ≠ [] ∧
    sh_threads s' !! sn_by x = Some th ∧ sn_to x ≠ th_sock th ∧
    sh_threads s' !! 1%nat = Some th' ∧ sn_by x ≠ 1%nat ∧ sn_to x = th_sock th'.
Proof.
  assert (option_map ex_socks (turns Abi32 1024 200000 ex_program ex_socket) =
    Some ([mkSent 0 23 [22]], [Some 21; Some 23])) as E by (vm_compute; reflexivity).
  destruct (turns Abi32 1024 200000 ex_program ex_socket) as [s|] eqn:Es; [|done].
  apply (inj Some) in E. unfold ex_socks in E.
  pose proof (f_equal fst E) as E1. pose proof (f_equal snd E) as E2. cbn [fst snd map] in E1, E2.
  destruct (sh_threads s !! 0%nat) as [th|] eqn:H0; [|done].
  destruct (sh_threads s !! 1%nat) as [th'|] eqn:H1; [|done].
  cbn [fmap option_fmap option_map] in E2. injection E2 as E2 E3.
  exists ex_socket, s, (mkSent 0 23 [22]), th, th'. split; [apply ex_program_fresh|]. split.
  { clear. split; [left|]. split; [|intros i au ca];
    (intros H; unfold ex_socket, ex_ask in H; cbn [app] in H;
     repeat (apply elem_of_cons in H as [H|H]; [discriminate H|]); by apply elem_of_nil in H). }
  split; [exact Es|]. split; [rewrite E1; left|]. cbn [sn_files sn_by sn_to].
  split; [done|]. split; [exact H0|]. split; [rewrite E2; done|]. split; [exact H1|].
  split; [done|]. by rewrite E3.
Qed.
Print Assumptions C119_other_socket_refuted.

Theorem C119_refuted : ¬ C119_full.
Proof.
  intros H. destruct C119_stdin_refuted as (xs & s & x & Hf & _ & E & Hx & Hn).
  apply Hn. eapply H; [|exact Hf|exact E|exact Hx]. done.
Qed.
Print Assumptions C119_refuted.

(* Two workers served in turns: each gets its file and the standard input. *)
Definition ex_turns : list turn :=
  ex_spawn ++ ex_ask 1 (lit "/b/x") ++ ex_ask 0 (lit "/a/y") ++
  [TSend 0 None; HOpen 1; TSend 1 None; TClose 1] ++ ex_ask 1 (lit "/a/y") ++
  [TSend 1 None; TClose 0; TClose 1].
Example C119_example :
  option_map ex_seen (turns Abi64 1024 200000 ex_program ex_turns) =
  Some ([mkSent 0 13 [21; 10]; mkSent 1 14 [20; 10]; mkSent 1 14 []],
        [[(lit "/a/y", 0%Z, 384%Z, Ok 21)]; [(lit "/b/x", 0%Z, 384%Z, Ok 20)]]) ∧
  no_second_close ex_turns ∧ keeps_stdin ex_program ex_turns.
Proof.
  split; [vm_compute; reflexivity|]. split.
  { intros n H. unfold ex_turns, ex_spawn, ex_ask in H. cbn [app] in H.
    repeat (apply elem_of_cons in H as [H|H]; [discriminate H|]). by apply elem_of_nil in H. }
  split; [left|]. split; [|intros i au ca];
    (intros H; unfold ex_turns, ex_spawn, ex_ask in H; cbn [app] in H;
     repeat (apply elem_of_cons in H as [H|H]; [discriminate H|]); by apply elem_of_nil in H).
Qed.
