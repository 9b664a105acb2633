(** What the broker's answers tell a worker about files outside its rules: C163. The code is
    that of BrokerModel, the file system that of FsModel. *)
From stdpp Require Import prelude gmap.
From Verif Require Import Bytes BytesProofs PolicyModel PolicySpec PolicyProofs LinuxPolicyModel
  LinuxPolicySpec LinuxPolicyProofs PostcardModel FdModel ChannelModel
  BrokerModel BrokerSpec BrokerProofs BrokerProps FsModel FsProps.
Local Open Scope N_scope.

(* ---------------------------------------------------------------- specification *)

(** A broker whose opens are answered from a file system, which may change at any time; [num]
    numbers the open files. *)
Definition with_files (env : benv) (q : proc) (files : list bevent → fs)
    (num : list bevent → opened → N) : benv :=
  mkBenv (be_abi env) (be_limit env) (be_sndbuf env)
    (λ tr path flags,
      match kernel_open (files tr) q path flags with Ok o => Ok (num tr o) | Err e => Err e end)
    (be_send env).

(** The rules say something about the place. *)
Definition covered (h : list rule) (cs : list str) : Prop :=
  canonical cs ∧ (entitled h cs RRead ∨ entitled h cs RWrite).
(** The same object, or none, is there in both. *)
Definition same_at (s1 s2 : fs) (root : N) (cs : list str) : Prop :=
  named s1 root cs = named s2 root cs ∧
  ∀ i, named s1 root cs = Some i → s1 !! i = s2 !! i.

(** Full statement: file systems that are the same at all places the rules cover give the
    worker the same answers. *)
Definition C163_full : Prop :=
  ∀ env q files1 files2 num calls ch evs t,
    (∀ tr cs, covered (rules_of calls) cs → same_at (files1 tr) (files2 tr) (p_root q) cs) →
    replies (bs_trace (snd (session (with_files env q files1 num) false calls ch evs t))) =
    replies (bs_trace (snd (session (with_files env q files2 num) false calls ch evs t))).

(** Same kind of object: directories may have other entries. *)
Definition same_kind (a b : option node) : Prop :=
  match a, b with
  | Some (NDir _ _), Some (NDir _ _) => True
  | Some NFile, Some NFile => True
  | None, None => True
  | _, _ => False
  end.
(** The way to a place is the same in both, and has no links. *)
Definition same_way (s1 s2 : fs) (root : N) (cs : list str) : Prop :=
  ∀ pre, pre `prefix_of` cs →
    named s1 root pre = named s2 root pre ∧
    ∀ i, named s1 root pre = Some i → same_kind (s1 !! i) (s2 !! i).

(* ---------------------------------------------------------------- the broker *)

(** The two brokers differ at most in opens the rules do not allow. *)
Definition alike (h : list rule) (env1 env2 : benv) : Prop :=
  be_abi env1 = be_abi env2 ∧ be_limit env1 = be_limit env2 ∧ be_sndbuf env1 = be_sndbuf env2 ∧
  (∀ tr, be_send env1 tr = be_send env2 tr) ∧
  ∀ tr path flags, should_grant h path flags → be_open env1 tr path flags = be_open env2 tr path flags.

Lemma granted_check p path flags :
  audit_only p = false → fst (evaluate_request p (FileOpen path flags)) = Granted →
  check_file_open p path flags = Granted.
Proof. unfold evaluate_request. intros ->. cbn. by destruct (check_file_open p path flags). Qed.
Lemma alike_dispatch h env1 env2 p m s :
  alike h env1 env2 → decides p false h → dispatch env1 p m s = dispatch env2 p m s.
Proof.
  intros (_ & Hl & _ & _ & Ho) [Ha Hd]. destruct m as [|path flags|nb args ip]; [done| |done].
  cbn [dispatch]. unfold proxied_open_file.
  destruct (fst (evaluate_request p (FileOpen path flags))) eqn:E; [|done..].
  apply granted_check in E; [|done]. apply Hd in E.
  destruct (contains [x00] path); [done|]. unfold sys_open. cbn [bs_trace bs_tab].
  by rewrite (Ho _ _ _ E), Hl.
Qed.
Lemma alike_step h env1 env2 p ev s :
  alike h env1 env2 → decides p false h → broker_step env1 p ev s = broker_step env2 p ev s.
Proof.
  intros Hk Hd. pose proof Hk as (Habi & Hl & Hb & Hs & _). unfold broker_step. rewrite Habi, Hl.
  destruct (channel_recv _ _ _ _ _ _) as [r t]. destruct r as [[[m [n|]]|]|e]; [done| |done..].
  rewrite (alike_dispatch h env1 env2) by done.
  destruct (dispatch env2 p m _) as [[[code n]| |] s']; [|done..].
  assert (broker_send env1 (OutSyscallResult code) n s' = broker_send env2 (OutSyscallResult code) n s')
    as ->; [|done].
  unfold broker_send. by rewrite Hs, Habi, Hb.
Qed.
(** Opens the rules do not allow leave no trace in a session. *)
Theorem C163_session env1 env2 calls ch evs t :
  alike (rules_of calls) env1 env2 →
  session env1 false calls ch evs t = session env2 false calls ch evs t.
Proof.
  intros Hk. unfold session.
  pose proof (runtime_decides false calls) as Hd.
  generalize (mkBst t []) as s. induction evs as [|ev evs IH]; intros s; [done|].
  cbn [broker_loop]. rewrite (alike_step _ _ _ _ _ _ Hk Hd).
  destruct (broker_step env2 _ ev s) as [[] s']; [apply IH|done..].
Qed.
Print Assumptions C163_session.

(* ---------------------------------------------------------------- the file system *)

Lemma same_way_down s1 s2 i c cs e1 p1 e2 p2 j :
  s1 !! i = Some (NDir e1 p1) → s2 !! i = Some (NDir e2 p2) → e1 !! c = Some j → e2 !! c = Some j →
  same_way s1 s2 i (c :: cs) → same_way s1 s2 j cs.
Proof.
  intros H1 H2 E1 E2 H pre Hp. specialize (H (c :: pre) (prefix_cons _ _ _ Hp)).
  cbn [named] in H. by rewrite H1, H2, E1, E2 in H.
Qed.
Lemma same_resolve links s1 s2 q follow cs : ∀ i tail,
  Forall (good_name slash) cs → same_way s1 s2 i cs → tail = [] ∨ tail = [[]] →
  resolve links s1 q follow i (cs ++ tail) = resolve links s2 q follow i (cs ++ tail) ∧
  ∀ j, resolve links s1 q follow i (cs ++ tail) = Found j → same_kind (s1 !! j) (s2 !! j).
Proof.
  induction cs as [|c cs IH]; intros i tail Hg Hw Ht.
  - destruct (Hw [] (prefix_nil _)) as [_ Hk]. specialize (Hk i eq_refl).
    destruct Ht as [-> | ->]; cbn [app]; [rewrite !resolve_end; split; [done|by intros j [= <-]]|].
    rewrite !resolve_step.
    destruct (s1 !! i) as [[e1 p1| |to1]|] eqn:E1, (s2 !! i) as [[e2 p2| |to2]|] eqn:E2; try done.
    rewrite bool_decide_eq_true_2 by (by left). rewrite !resolve_end. split; [done|].
    intros j [= <-]. by rewrite E1, E2.
  - apply Forall_cons in Hg as [Hc Hg]. rewrite <-app_comm_cons.
    destruct (Hw [] (prefix_nil _)) as [_ Hk]. specialize (Hk i eq_refl).
    destruct (s1 !! i) as [[e1 p1| |to1]|] eqn:E1, (s2 !! i) as [[e2 p2| |to2]|] eqn:E2; try done;
      [|by rewrite !resolve_step, E1, E2..].
    rewrite (resolve_name _ _ _ _ _ _ _ _ _ Hc E1), (resolve_name _ _ _ _ _ _ _ _ _ Hc E2).
    destruct (Hw [c]) as [He Hkc]; [by exists cs|]. cbn [named] in He, Hkc.
    rewrite E1 in He, Hkc. rewrite E2 in He.
    assert (e1 !! c = e2 !! c) as Ee by (by destruct (e1 !! c), (e2 !! c)).
    destruct (e1 !! c) as [j|] eqn:Ej1; [|rewrite <-Ee; split; [done|]; intros j; by destruct (bool_decide _)].
    symmetry in Ee. rewrite Ee. specialize (Hkc j eq_refl).
    destruct (IH j tail Hg) as [Hr Hf]; [by eapply same_way_down|done|].
    destruct (s1 !! j) as [[]|], (s2 !! j) as [[]|]; try done.
Qed.
Lemma same_open s1 s2 q path flags cs :
  canonical cs → names slash path cs → same_way s1 s2 (p_root q) cs →
  kernel_open s1 q path flags = kernel_open s2 q path flags.
Proof.
  intros [Hne Hg] Hp Hw. unfold kernel_open. generalize MAX_LINKS as n. intros n. unfold open_within.
  rewrite (names_absolute _ _ Hne Hp).
  destruct (split_names _ _ Hg Hp) as (tail & Ht & Hs). rewrite Hs.
  set (follow := negb _). clearbody follow.
  destruct (Hw [] (prefix_nil _)) as [_ Hk]. specialize (Hk _ eq_refl).
  destruct (same_resolve n s1 s2 q follow cs (p_root q) tail Hg Hw Ht) as [Hr Hf].
  rewrite !resolve_step.
  destruct (s1 !! p_root q) as [[e1 p1| |to1]|] eqn:E1, (s2 !! p_root q) as [[e2 p2| |to2]|] eqn:E2; try done.
  rewrite bool_decide_eq_true_2 by (by left). rewrite <-Hr.
  destruct (resolve n s1 q follow (p_root q) (cs ++ tail)) as [i|d c|e]; [|done..].
  specialize (Hf i eq_refl). destruct (_ && Z.testbit flags 7); [done|].
  destruct (s1 !! i) as [[]|], (s2 !! i) as [[]|]; done.
Qed.

(** Partial: the answers, and all the broker does, depend only on what is on the ways to the
    places the rules cover, if no links are there. *)
Theorem C163_partial env q files1 files2 num calls ch evs t :
  (∀ tr cs, covered (rules_of calls) cs → same_way (files1 tr) (files2 tr) (p_root q) cs) →
  session (with_files env q files1 num) false calls ch evs t =
  session (with_files env q files2 num) false calls ch evs t.
Proof.
  intros H. apply C163_session. split_and!; [done..|].
  intros tr path flags (_ & cs & Hc & Hp & Ha & _). cbn [with_files be_open].
  rewrite (same_open (files1 tr) (files2 tr) q path flags cs); [done..|]. apply H. by split.
Qed.
Print Assumptions C163_partial.

(* ---------------------------------------------------------------- refutations *)

(** Parts of two file systems that are the same and lead nowhere else. *)
Lemma named_same (P : N → Prop) s1 s2 :
  (∀ i, P i → s1 !! i = s2 !! i ∧ ∀ e p c j, s1 !! i = Some (NDir e p) → e !! c = Some j → P j) →
  ∀ cs i, P i → same_at s1 s2 i cs.
Proof.
  intros H cs. induction cs as [|c cs IH]; intros i Hi; destruct (H i Hi) as [E Hd].
  - split; [done|]. by intros j [= <-].
  - unfold same_at. cbn [named]. rewrite <-E.
    destruct (s1 !! i) as [[e p| |]|] eqn:E1; [|done..].
    destruct (e !! c) as [j|] eqn:Ec; [|done]. apply IH. by eapply Hd.
Qed.

(** /etc/shadow is not there. *)
Definition bare_fs : fs := <[4 := NDir ∅ 1]> (delete 5 link_fs).
(** The answer for a link in an allowed directory tells whether there is a file elsewhere. *)
Theorem C163_refuted : ¬ C163_full.
Proof.
  intros H.
  specialize (H ex_env ex_broker (λ _, link_fs) (λ _, bare_fs) (λ _ _, 7) link_calls 3
    [dgram (ReqOpenFile (lit "/srv/data/x") 0)] ex_tab3).
  assert (∀ cs, covered (rules_of link_calls) cs → same_at link_fs bare_fs 1 cs) as Hs.
  2: { specialize (H (λ _, Hs)). vm_compute in H. discriminate H. }
  intros cs [[_ Hg] Hx].
  assert (∃ rest, cs = lit "srv" :: lit "data" :: rest) as [rest ->].
  { assert (∃ x, entitled (rules_of link_calls) cs x) as (x & r & Hin & Hc & _) by (destruct Hx; eauto).
    apply elem_of_list_singleton in Hin as ->.
    destruct Hc as [[[] _]|(_ & anc & rest & E & _ & Hn)]; [done|]. exists rest. rewrite E.
    rewrite E in Hg. apply Forall_app in Hg as [Hg _].
    destruct (split_names _ _ Hg Hn) as (tail & Ht & Hs).
    assert ([] :: anc ++ tail = [[]; lit "srv"; lit "data"]) as Ha by (rewrite <-Hs; by vm_compute).
    injection Ha as Ha. destruct Ht as [-> | ->].
    - rewrite app_nil_r in Ha. by rewrite Ha.
    - change [lit "srv"; lit "data"] with ([lit "srv"] ++ [lit "data"]) in Ha.
      by apply app_inj_tail in Ha as [_ Ha]. }
  assert (same_at link_fs bare_fs 3 rest) as Hr.
  { apply (named_same (λ i, i = 3 ∨ i = 6 ∨ i = 7)); [|by left].
    intros i Hi. split.
    - destruct Hi as [-> |[-> | ->]]; done.
    - intros e p c j E Ec. destruct Hi as [-> |[-> | ->]]; [|done..]. injection E as <- <-.
      apply lookup_insert_Some in Ec as [[_ <-]|[_ Ec]]; [by right; left|].
      apply lookup_insert_Some in Ec as [[_ <-]|[_ Ec]]; [by right; right|].
      by rewrite lookup_empty in Ec. }
  exact Hr.
Qed.
Print Assumptions C163_refuted.

(** So do the answers for a place whose parent the rules do not cover: ENOTDIR or ENOENT. *)
Definition file_fs : fs := <[1 := NDir (<[lit "a" := 2]> ∅) 1]> (<[2 := NFile]> ∅).
Definition root_fs : fs := <[1 := NDir ∅ 1]> ∅.
Definition parent_calls : list api_call := [CallRule (AllowFileRead (lit "/a/b"))].
Theorem C163_parent_refuted :
  ∃ env q s1 s2 num calls ch evs t,
    (∀ i to, s1 !! i ≠ Some (NLink to)) ∧ (∀ i to, s2 !! i ≠ Some (NLink to)) ∧
    (∀ cs, covered (rules_of calls) cs → same_at s1 s2 (p_root q) cs) ∧
    replies (bs_trace (snd (session (with_files env q (λ _, s1) num) false calls ch evs t))) ≠
    replies (bs_trace (snd (session (with_files env q (λ _, s2) num) false calls ch evs t))).
Proof.
  exists ex_env, ex_broker, file_fs, root_fs, (λ _ _, 7), parent_calls, 3,
    [dgram (ReqOpenFile (lit "/a/b") 0)], ex_tab3. split_and!.
  - intros i to E. unfold file_fs in E. apply lookup_insert_Some in E as [[_ E]|[_ E]]; [done|].
    apply lookup_insert_Some in E as [[_ E]|[_ E]]; [done|]. by rewrite lookup_empty in E.
  - intros i to E. unfold root_fs in E. apply lookup_insert_Some in E as [[_ E]|[_ E]]; [done|]. by rewrite lookup_empty in E.
  - intros cs [[_ Hg] Hx].
    assert (∃ x, entitled (rules_of parent_calls) cs x) as (x & r & Hin & Hc & _) by (destruct Hx; eauto).
    apply elem_of_list_singleton in Hin as ->. destruct Hc as [[_ Hn]|[[] _]].
    destruct (split_names _ _ Hg Hn) as (tail & Ht & Hs).
    assert ([] :: cs ++ tail = [[]; lit "a"; lit "b"]) as Ha by (rewrite <-Hs; by vm_compute).
    injection Ha as Ha. destruct Ht as [-> | ->].
    + rewrite app_nil_r in Ha. rewrite Ha. split; [by vm_compute|]. by intros i Hi.
    + change [lit "a"; lit "b"] with ([lit "a"] ++ [lit "b"]) in Ha.
      by apply app_inj_tail in Ha as [_ Ha].
  - intros H. vm_compute in H. discriminate H.
Qed.
Print Assumptions C163_parent_refuted.

(** Two file systems that differ below /etc only, asked for /srv/data/y, for a name that is not
    there, and for /etc/shadow. *)
Definition quiet_fs : fs := <[3 := NDir (<[lit "y" := 7]> ∅) 2]> link_fs.
Definition quiet_evs : list sock_event :=
  [dgram (ReqOpenFile (lit "/srv/data/y") 0); dgram (ReqOpenFile (lit "/srv/data/z") 0);
   dgram (ReqOpenFile (lit "/etc/shadow") 0)].
Example C163_example :
  replies (bs_trace (snd (session (with_files ex_env ex_broker (λ _, quiet_fs) (λ _ _, 7)) false
    link_calls 3 quiet_evs ex_tab3))) =
  [(reply_bytes 0, [7]); (reply_bytes (-2), []); (reply_bytes (-13), [])] ∧
  replies (bs_trace (snd (session
    (with_files ex_env ex_broker (λ _, <[4 := NDir ∅ 1]> (delete 5 quiet_fs)) (λ _ _, 7)) false
    link_calls 3 quiet_evs ex_tab3))) =
  [(reply_bytes 0, [7]); (reply_bytes (-2), []); (reply_bytes (-13), [])].
Proof. by vm_compute. Qed.
