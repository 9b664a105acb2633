(** Completing a Windows policy from what an audit run logged: C166.
    policy/src/windows/policy.rs:88-119, policy/src/policy.rs:46-50. The code is that of
    WinBrokerModel and WinPolicyModel. *)
From stdpp Require Import prelude gmap.
From Coq Require Import Strings.Byte.
From Verif Require Import Bytes BytesProofs PolicyModel PolicySpec PolicyProofs LinuxPolicyModel
  LinuxPolicySpec LinuxPolicyProofs PostcardModel PostcardSpec PostcardProofs PostcardProps
  WinPolicyModel WinPolicySpec WinPolicyProofs WinPolicyProps
  WinBrokerModel WinBrokerSpec WinBrokerProofs WinBrokerProps.
Local Open Scope N_scope.

(* ---------------------------------------------------------------- specification *)

(** What a request asks for, by bits of its fields (see WinPolicySpec). *)
Definition any (l : list Z) (w : Z) : bool := existsb (Z.testbit w) l.
Definition reads (f : file_request) : bool :=
  any [0; 3; 7; 28; 31]%Z (fr_access f) && ((fr_disposition f =? 1)%Z || (fr_disposition f =? 3)%Z).
Definition writes (f : file_request) : bool :=
  any [1; 2; 4; 8; 16; 18; 19; 28; 30]%Z (fr_access f) || negb (fr_disposition f =? 1)%Z ||
  Z.testbit (fr_options f) 12 || match fr_ea f with [] => false | _ => true end.
Definition blocks (f : file_request) (n : Z) : bool := negb (Z.testbit (fr_share f) n).
Definition asks (f : file_request) : bool :=
  reads f || writes f || blocks f 0 || blocks f 1 || blocks f 2.
(** The rules for a file request: those it asks for, or reading if it asks for nothing. [full]
    is what GetFullPathNameW answers. *)
Definition file_rules (full : str → option str) (f : file_request) : list win_call :=
  let p := drop 4 (fr_path f) in
  if starts_with (lit "\??\") (fr_path f) then
    (if reads f || negb (asks f) then [WinRule (AllowFileRead p) (full p)] else []) ++
    (if writes f then [WinRule (AllowFileWrite p) (full p)] else []) ++
    [WinRule (AllowFileLock p (blocks f 0) (blocks f 1) (blocks f 2)) (full p)]
  else [].
(** The rules for a key request; the bits that only observe a key need both (C65). *)
Definition key_name (path : str) : option str :=
  if starts_with (lit "\REGISTRY\MACHINE") path then Some (lit "HKEY_LOCAL_MACHINE" ++ drop 17 path)
  else if starts_with (lit "\REGISTRY\USER") path then Some (lit "HKEY_USERS" ++ drop 14 path)
  else None.
Definition observes (desired : Z) : bool := any [4; 8; 9; 17; 20]%Z desired.
Definition key_wr (desired : Z) (create : bool) : bool := any [1; 2; 16; 18; 19]%Z desired || create.
Definition key_rules (sid path : str) (desired : Z) (create : bool) : list win_call :=
  match key_name path with
  | Some n =>
      (if any [0; 3]%Z desired || observes desired || negb (key_wr desired create)
       then [WinRegRead n sid] else []) ++
      (if key_wr desired create || observes desired then [WinRegWrite n sid] else [])
  | None => []
  end.
Definition rules_for (full : str → option str) (sid : str) (q : win_request) : list win_call :=
  match q with
  | WinFileOpen f => file_rules full f
  | WinRegKeyOpen path desired _ create => key_rules sid path desired create
  end.
(** Those for everything callback [cb] was told is refused. *)
Definition told (full : str → option str) (sid : str) (cb : N) (e : wevent) : list win_call :=
  match e with
  | WCallback c q v => if decide (c = cb ∧ v ≠ Granted) then rules_for full sid q else []
  | _ => []
  end.
Definition inventory full sid cb (tr : list wevent) : list win_call :=
  concat (map (told full sid cb) tr).
Definition completed full sid (calls : list win_call) cb (tr : list wevent) : list win_call :=
  calls ++ inventory full sid cb tr.

Definition quiet (tr : list wevent) : list wevent :=
  filter (λ e, match e with WCallback _ _ _ => false | _ => true end = true) tr.
(** The kernel does not see the callbacks. *)
Definition blind (env : wenv) : Prop :=
  (∀ tr c, we_call env tr c = we_call env (quiet tr) c) ∧
  (∀ tr X, we_pick env tr X = we_pick env (quiet tr) X) ∧
  (∀ tr, we_dup env tr = we_dup env (quiet tr)) ∧
  ∀ tr, we_write env tr = we_write env (quiet tr).
(** A thread past the handshake (in which it tells the worker the policy). *)
Definition serving (env : wenv) (audit : bool) (calls : list win_call) (ch : N) (ph : option N)
    (rds : list wread) (t : gmap N N) : wstatus * wstate :=
  win_loop env (get_runtime_policy (win_build audit calls)) ch ph rds (mkWst t []).
(** Two runs do the same: end, handles, calls, answers. *)
Definition same_run (a b : wstatus * wstate) : Prop :=
  a.1 = b.1 ∧ ws_tab a.2 = ws_tab b.2 ∧ quiet (ws_trace a.2) = quiet (ws_trace b.2).
Definition callbacks (calls : list win_call) : list N :=
  omap (λ c, match c with WinAddLogCallback cb => Some cb | _ => None end) calls.
Definition is_sid (sid : str) : Prop := sid ≠ [] ∧ backslash ∉ sid.

(** Full statement: enforcing the completed policy is like the audit run it came from. *)
Definition C166_full : Prop :=
  ∀ env full sid calls cb ch ph rds t,
    we_debug env = false → blind env → cb ∈ callbacks calls → is_sid sid →
    Forall good_reg_call calls →
    same_run (serving env true calls ch ph rds t)
      (serving env false
        (completed full sid calls cb (ws_trace (serving env true calls ch ph rds t).2)) ch ph rds t).

(** Requests rules can be written for. *)
Definition plain_names (cs : list str) : Prop := Forall (λ c, c ≠ [] ∧ backslash ∉ c) cs.
Definition grantable (full : str → option str) (q : win_request) : Prop :=
  match q with
  | WinFileOpen f =>
      file_supported f ∧ ∃ p cs, fr_path f = nt_form p ∧ drive_absolute p ∧
        default p (full p) = p ∧ well_formed cs ∧ names backslash (fr_path f) cs
  | WinRegKeyOpen path desired options _ =>
      key_supported desired options ∧ ∃ root rest sub,
        (root = lit "\REGISTRY\MACHINE" ∨ root = lit "\REGISTRY\USER") ∧ path = root ++ rest ∧
        plain_names sub ∧ names backslash rest sub
  end.

(* ---------------------------------------------------------------- policies *)

Definition set_audit (b : bool) (p : policy) : policy :=
  mkPolicy (log_callbacks p) (inherit_handles p) (file_access p) (dir_access p) (regkey_access p) b.
Lemma foldl_set_audit {A} (g : policy → A → policy) b l :
  (∀ p x, g (set_audit b p) x = set_audit b (g p x)) →
  ∀ p, foldl g (set_audit b p) l = set_audit b (foldl g p l).
Proof. intros Hg. induction l as [|x l IH]; intros p; [done|]. cbn [foldl]. by rewrite Hg, IH. Qed.
Lemma call_set_audit b p c :
  win_apply_call_ignore (set_audit b p) c = set_audit b (win_apply_call_ignore p c).
Proof.
  unfold win_apply_call_ignore. destruct c as [r full|path sid|path sid|cb|raw inh].
  - cbn [win_apply_call]. rewrite !win_apply_rule_eq. destruct (bool_decide _); [|done].
    unfold allow_one. by destruct (rule_dirb r).
  - cbn [win_apply_call]. unfold allow_regkey_access. destruct (derive_reg_key_paths sid path); [|done].
    by apply foldl_set_audit.
  - cbn [win_apply_call]. unfold allow_regkey_access. destruct (derive_reg_key_paths sid path); [|done].
    by apply foldl_set_audit.
  - done.
  - cbn [win_apply_call]. unfold allow_inherit_handle. by destruct inh as [[]|].
Qed.
Lemma build_set_audit b calls : win_build b calls = set_audit b (win_build false calls).
Proof.
  unfold win_build. rewrite <-(foldl_set_audit win_apply_call_ignore b calls (call_set_audit b)).
  by destruct b.
Qed.
(** What the callbacks of an audit run are told. *)
Lemma audit_raw calls q :
  win_raw_verdict false (get_runtime_policy (win_build true calls)) q = win_verdict false calls q.
Proof.
  unfold win_verdict. rewrite win_evaluate_enforcing, build_set_audit. by destruct q.
Qed.
Lemma build_callbacks audit calls : log_callbacks (win_build audit calls) = callbacks calls.
Proof.
  unfold win_build.
  assert (∀ p, log_callbacks (foldl win_apply_call_ignore p calls) = log_callbacks p ++ callbacks calls)
    as H.
  { induction calls as [|c calls IH]; intros p; [by rewrite app_nil_r|]. cbn [foldl]. rewrite IH.
    unfold win_apply_call_ignore. destruct c as [r full|path sid|path sid|cb|raw inh].
    - cbn [win_apply_call]. rewrite win_apply_rule_eq. destruct (bool_decide _); [|done].
      unfold allow_one. by destruct (rule_dirb r).
    - cbn [win_apply_call]. unfold allow_regkey_access.
      destruct (derive_reg_key_paths sid path) as [l|]; [|done].
      assert (∀ q, log_callbacks (foldl (reg_one (true, false)) q l) = log_callbacks q) as ->; [|done].
      induction l as [|y l IHl]; intros q; [done|]. cbn [foldl]. by rewrite IHl.
    - cbn [win_apply_call]. unfold allow_regkey_access.
      destruct (derive_reg_key_paths sid path) as [l|]; [|done].
      assert (∀ q, log_callbacks (foldl (reg_one (false, true)) q l) = log_callbacks q) as ->; [|done].
      induction l as [|y l IHl]; intros q; [done|]. cbn [foldl]. by rewrite IHl.
    - cbn. by rewrite <-app_assoc.
    - cbn [win_apply_call]. unfold allow_inherit_handle. by destruct inh as [[]|]. }
  rewrite H. by destruct audit.
Qed.

(* ---------------------------------------------------------------- rules *)

Lemma any_spec l w : any l w = true ↔ some_bit l w.
Proof.
  unfold any, some_bit, bit. rewrite existsb_exists. setoid_rewrite elem_of_list_In. done.
Qed.
Lemma reads_spec f : reads f = true ↔ file_needs_read f.
Proof.
  unfold reads, file_needs_read, file_reads. rewrite andb_true_iff, orb_true_iff, any_spec, !Z.eqb_eq.
  done.
Qed.
Lemma writes_spec f : writes f = true ↔ file_writes f.
Proof.
  unfold writes, file_writes, bit. rewrite !orb_true_iff, negb_true_iff, any_spec, Z.eqb_neq.
  assert ((match fr_ea f with [] => false | _ => true end) = true ↔ fr_ea f ≠ []) as ->
    by (by destruct (fr_ea f)).
  tauto.
Qed.
Lemma blocks_spec f n : blocks f n = true ↔ ¬ bit (fr_share f) n.
Proof. unfold blocks, bit. by destruct (Z.testbit (fr_share f) n). Qed.
Lemma asks_spec f : asks f = true ↔ ∃ x, file_needs f x.
Proof.
  unfold asks. rewrite !orb_true_iff, reads_spec, writes_spec, !blocks_spec. split.
  - intros [[[[H|H]|H]|H]|H];
      [by exists RRead|by exists RWrite|by exists RBlockReaders|by exists RBlockWriters|by exists RBlockDeleters].
  - intros [[] H]; cbn [file_needs] in H; tauto.
Qed.

Lemma entitled_more calls calls' cs x :
  (∀ c, c ∈ calls → c ∈ calls') → win_entitled calls cs x → win_entitled calls' cs x.
Proof. intros H (r & full & Hin & Hc). exists r, full. split; [by apply H|done]. Qed.
Lemma reg_entitled_more calls calls' cs x :
  (∀ c, c ∈ calls → c ∈ calls') → reg_entitled calls cs x → reg_entitled calls' cs x.
Proof.
  intros H (path & sid & anc & rest & Hin & Hc). exists path, sid, anc, rest. split; [by apply H|done].
Qed.

(** The key of a grantable request. *)
Lemma key_place root rest sub sid :
  root = lit "\REGISTRY\MACHINE" ∨ root = lit "\REGISTRY\USER" → plain_names sub →
  names backslash rest sub →
  ∃ n nt, key_name (root ++ rest) = Some n ∧ well_formed (nt ++ sub) ∧
    names backslash (root ++ rest) (nt ++ sub) ∧ key_names sid n (nt ++ sub) ∧
    (is_sid sid → good_reg_call (WinRegRead n sid) ∧ good_reg_call (WinRegWrite n sid)).
Proof.
  intros Hroot Hsub Hn.
  assert (∀ nt, Forall (λ c, c ≠ [] ∧ backslash ∉ c) nt → nt ≠ [] → well_formed (nt ++ sub)) as Hwf.
  { intros nt Hnt Hne. split; [by destruct nt|]. apply Forall_app. by split. }
  assert (∀ nt root', root' = render backslash nt → names backslash (root' ++ rest) (nt ++ sub)) as Hnames.
  { intros nt root' ->. unfold names, render in *. rewrite map_app, concat_app.
    destruct Hn as [-> | ->]; [by left|right]. by rewrite app_assoc. }
  assert (∀ hk nt, (hk, nt) ∈ root_keys sid → key_names sid (hk ++ rest) (nt ++ sub)) as Hkey.
  { intros hk nt Hin. by exists hk, nt, sub, rest. }
  assert (rest = [] ∨ ∃ t, rest = backslash :: t) as Hrest.
  { destruct Hn as [-> | ->]; destruct sub as [|c sub]; [by left|right; by eexists|right; by eexists..]. }
  assert (∀ hk nt, (hk, nt) ∈ root_keys sid → is_sid sid →
    good_reg_call (WinRegRead (hk ++ rest) sid) ∧ good_reg_call (WinRegWrite (hk ++ rest) sid)) as Hgood.
  { intros hk nt Hin Hs.
    split; (split; [done|]); intros _; by exists hk, nt, rest. }
  assert (∀ c, c ∈ [lit "REGISTRY"; lit "MACHINE"; lit "USER"] → c ≠ [] ∧ backslash ∉ c) as Hlit.
  { intros c Hc. rewrite !elem_of_cons, elem_of_nil in Hc.
    destruct Hc as [-> | [-> | [-> | []]]]; (split; [done|]); apply no_backslash; by vm_compute. }
  destruct Hroot as [-> | ->].
  - exists (lit "HKEY_LOCAL_MACHINE" ++ rest), [lit "REGISTRY"; lit "MACHINE"].
    split; [by vm_compute|]. split; [|split; [|split]].
    + apply Hwf; [|done]. repeat (apply Forall_cons; split); [apply Hlit; set_solver..|by apply Forall_nil].
    + by apply Hnames.
    + apply Hkey. unfold root_keys. rewrite !elem_of_cons. auto.
    + apply (Hgood _ [lit "REGISTRY"; lit "MACHINE"]). unfold root_keys. rewrite !elem_of_cons. auto.
  - exists (lit "HKEY_USERS" ++ rest), [lit "REGISTRY"; lit "USER"].
    split; [by vm_compute|]. split; [|split; [|split]].
    + apply Hwf; [|done]. repeat (apply Forall_cons; split); [apply Hlit; set_solver..|by apply Forall_nil].
    + by apply Hnames.
    + apply Hkey. unfold root_keys. rewrite !elem_of_cons. auto.
    + apply (Hgood _ [lit "REGISTRY"; lit "USER"]). unfold root_keys. rewrite !elem_of_cons. auto.
Qed.

(** More calls grant no less. *)
Lemma granted_more full calls calls' q :
  grantable full q → Forall good_reg_call calls → Forall good_reg_call calls' →
  (∀ c, c ∈ calls → c ∈ calls') →
  win_verdict false calls q = Granted → win_verdict false calls' q = Granted.
Proof.
  intros Hg H1 H2 Hsub. destruct q as [f|path desired options create].
  - destruct Hg as (Hs & p & cs & _ & _ & _ & Hc & Hn).
    rewrite !(C61_exact _ f cs) by done. intros (_ & (x & Hx) & Hall). split; [done|].
    split; [exists x; by eapply entitled_more|]. intros y Hy. by eapply entitled_more; [|apply Hall].
  - destruct Hg as (Hs & root & rest & sub & Hroot & -> & Hsb & Hn).
    destruct (key_place root rest sub [] Hroot Hsb Hn) as (n & nt & _ & Hwf & Hnm & _).
    rewrite !(C65_complete_partial false _ (root ++ rest) (nt ++ sub)) by done.
    intros ((_ & (x & Hx) & Hall) & Hh). split; [split; [done|]; split|].
    + exists x. by eapply reg_entitled_more.
    + intros y Hy. by eapply reg_entitled_more; [|apply Hall].
    + intros Ho. destruct (Hh Ho). split; by eapply reg_entitled_more.
Qed.
(** The rules for a request are enough for it. *)
Lemma enough full sid calls q :
  grantable full q → is_sid sid → Forall good_reg_call calls →
  (∀ c, c ∈ rules_for full sid q → c ∈ calls) → win_verdict false calls q = Granted.
Proof.
  intros Hg Hsid Hgood Hin. destruct q as [f|path desired options create].
  - destruct Hg as (Hs & p & cs & Hp & Hd & Hfull & Hc & Hn). cbn [rules_for] in Hin.
    apply (C61_exact _ f cs); [done..|]. unfold file_rules in Hin.
    assert (starts_with (lit "\??\") (fr_path f) = true) as Hsw.
    { apply BytesProofs.starts_with_app. by exists p. }
    rewrite Hsw in Hin. assert (drop 4 (fr_path f) = p) as Hdrop by (by rewrite Hp).
    rewrite Hdrop in Hin.
    assert (∀ r, ¬ rule_is_dir r → rule_path r = p → WinRule r (full p) ∈ calls →
      ∀ x, rule_gives r x → win_entitled calls cs x) as Hent.
    { intros r Hr Hrp Hrin x Hx. exists r, (full p). split; [done|]. split; [|done].
      unfold win_covers. rewrite Hrp, Hfull. split; [done|]. left. split; [done|]. by rewrite <-Hp. }
    assert (reads f || negb (asks f) = true → win_entitled calls cs RRead) as Hr.
    { intros E. rewrite E in Hin. apply (Hent (AllowFileRead p)); [by intros []|done| |done].
      apply Hin, elem_of_app. left. by left. }
    assert (writes f = true → win_entitled calls cs RWrite) as Hw.
    { intros E. rewrite E in Hin. apply (Hent (AllowFileWrite p)); [by intros []|done| |done].
      apply Hin. rewrite !elem_of_app. right. left. by left. }
    assert (∀ x, rule_gives (AllowFileLock p (blocks f 0) (blocks f 1) (blocks f 2)) x →
      win_entitled calls cs x) as Hl.
    { apply Hent; [by intros []|done|]. apply Hin. rewrite !elem_of_app. right. right. by left. }
    assert (∀ x, file_needs f x → win_entitled calls cs x) as Hall.
    { intros [] Hx; cbn [file_needs] in Hx.
      - apply Hr. apply reads_spec in Hx. by rewrite Hx.
      - by apply Hw, writes_spec.
      - by apply Hl, blocks_spec.
      - by apply Hl, blocks_spec.
      - by apply Hl, blocks_spec. }
    split; [done|]. split; [|done]. destruct (asks f) eqn:Ea.
    + apply asks_spec in Ea as [x Hx]. exists x. by apply Hall.
    + exists RRead. apply Hr. apply orb_true_r.
  - destruct Hg as (Hs & root & rest & sub & Hroot & -> & Hsb & Hn). cbn [rules_for] in Hin.
    destruct (key_place root rest sub sid Hroot Hsb Hn) as (n & nt & En & Hwf & Hnm & Hkn & _).
    apply (C65_complete_partial false _ (root ++ rest) (nt ++ sub)); [done..|].
    unfold key_rules in Hin. rewrite En in Hin.
    assert (any [0; 3]%Z desired || observes desired || negb (key_wr desired create) = true →
      reg_entitled calls (nt ++ sub) RegRead) as Hr.
    { intros E. rewrite E in Hin. exists n, sid, (nt ++ sub), []. rewrite app_nil_r.
      split; [|done]. apply Hin, elem_of_app. left. by left. }
    assert (key_wr desired create || observes desired = true →
      reg_entitled calls (nt ++ sub) RegWrite) as Hw.
    { intros E. rewrite E in Hin. exists n, sid, (nt ++ sub), []. rewrite app_nil_r.
      split; [|done]. apply Hin, elem_of_app. right. by left. }
    split; [split; [done|]; split|].
    + destruct (key_wr desired create) eqn:Ek; [exists RegWrite; by apply Hw|].
      exists RegRead. apply Hr. apply orb_true_r.
    + intros [] Hx; cbn [reg_needs] in Hx.
      * apply Hr. apply any_spec in Hx. by rewrite Hx.
      * apply Hw. unfold key_wr. destruct Hx as [Hx| ->]; [|by rewrite orb_true_r].
        apply any_spec in Hx. by rewrite Hx.
    + intros Ho. apply any_spec in Ho. fold (observes desired) in Ho. split.
      * apply Hr. rewrite Ho. by destruct (any _ desired).
      * apply Hw. rewrite Ho. apply orb_true_r.
Qed.
(** The added calls are well formed. *)
Lemma rules_good full sid q c :
  grantable full q → is_sid sid → c ∈ rules_for full sid q → good_reg_call c.
Proof.
  intros Hg Hs Hin. destruct q as [f|path desired options create].
  - cbn [rules_for] in Hin. unfold file_rules in Hin.
    destruct (starts_with _ _); [|by apply elem_of_nil in Hin].
    rewrite !elem_of_app, elem_of_list_singleton in Hin.
    destruct Hin as [Hin|[Hin| ->]]; [| |done].
    + destruct (_ || _); [|by apply elem_of_nil in Hin]. by apply elem_of_list_singleton in Hin as ->.
    + destruct (writes f); [|by apply elem_of_nil in Hin]. by apply elem_of_list_singleton in Hin as ->.
  - destruct Hg as (_ & root & rest & sub & Hroot & -> & Hsb & Hn). cbn [rules_for] in Hin.
    destruct (key_place root rest sub sid Hroot Hsb Hn) as (n & nt & En & _ & _ & _ & Hgood).
    destruct (Hgood Hs) as [H1 H2]. unfold key_rules in Hin. rewrite En in Hin.
    apply elem_of_app in Hin as [Hin|Hin].
    + destruct (_ || _); [|by apply elem_of_nil in Hin]. by apply elem_of_list_singleton in Hin as ->.
    + destruct (_ || _); [|by apply elem_of_nil in Hin]. by apply elem_of_list_singleton in Hin as ->.
Qed.
Lemma elem_inventory full sid cb tr c :
  c ∈ inventory full sid cb tr ↔
  ∃ q v, WCallback cb q v ∈ tr ∧ v ≠ Granted ∧ c ∈ rules_for full sid q.
Proof.
  unfold inventory. rewrite elem_of_list_In, in_concat. split.
  - intros (l & Hl & Hr). apply elem_of_list_In, elem_of_list_fmap in Hl as (e & -> & He).
    apply elem_of_list_In in Hr. destruct e as [c' q v| | | | |]; cbn [told] in Hr;
      try (by apply elem_of_nil in Hr).
    destruct (decide (c' = cb ∧ v ≠ Granted)) as [[-> Hv]|]; [|by apply elem_of_nil in Hr].
    by exists q, v.
  - intros (q & v & He & Hv & Hr). exists (rules_for full sid q).
    split; [|by apply elem_of_list_In]. apply elem_of_list_In, elem_of_list_fmap.
    exists (WCallback cb q v). split; [|done]. cbn [told]. by rewrite decide_True.
Qed.

(* ---------------------------------------------------------------- runs *)

Definition rel (s1 s2 : wstate) : Prop :=
  ws_tab s1 = ws_tab s2 ∧ quiet (ws_trace s1) = quiet (ws_trace s2).
Lemma quiet_app a b : quiet (a ++ b) = quiet a ++ quiet b.
Proof. apply filter_app. Qed.
Lemma quiet_log d p q : quiet (wlog_events d p q) = [].
Proof.
  unfold wlog_events. induction (snd (win_evaluate_request d p q)) as [|[[c r] v] l IH]; [done|].
  cbn [map]. unfold quiet in *. by rewrite filter_cons_False by done.
Qed.
Lemma rel_trace t1 t2 l1 l2 a b :
  t1 = t2 → quiet l1 = quiet l2 → quiet a = quiet b → rel (mkWst t1 (l1 ++ a)) (mkWst t2 (l2 ++ b)).
Proof. intros -> H1 H2. split; [done|]. cbn [ws_trace]. rewrite !quiet_app. by f_equal. Qed.
Lemma rel_log s1 s2 a b : rel s1 s2 → quiet a = quiet b → rel (wlog s1 a) (wlog s2 b).
Proof. intros [H1 H2] H. by apply rel_trace. Qed.
Lemma rel_drop h s1 s2 : rel s1 s2 → rel (win_drop h s1) (win_drop h s2).
Proof.
  intros Hr. destruct h as [v|]; [|done]. destruct Hr as [H1 H2]. apply rel_trace; [by rewrite H1|done..].
Qed.
Lemma rel_call env c s1 s2 :
  blind env → rel s1 s2 →
  (do_nt_call env c s1).1 = (do_nt_call env c s2).1 ∧
  rel (do_nt_call env c s1).2 (do_nt_call env c s2).2.
Proof.
  intros (Hc & Hp & _) [H1 H2]. unfold do_nt_call. rewrite Hc, H2, <-Hc.
  rewrite (Hp (ws_trace s1)), H2, <-Hp, H1.
  destruct (nt_success _); (split; [done|]); by apply rel_trace.
Qed.
Lemma rel_send env m h s1 s2 :
  blind env → rel s1 s2 →
  match win_send env m h s1, win_send env m h s2 with
  | Some (a, s), Some (b, s') => a = b ∧ rel s s'
  | None, None => True
  | _, _ => False
  end.
Proof.
  intros (_ & _ & Hd & Hw) Hr. unfold win_send.
  assert (∀ remote s s', rel s s' →
    match
      (match serialize (enc_wrapped enc_wrep) (m, remote) IPC_MESSAGE_MAX_SIZE with
       | None => (false, wlog s [WSendFailed])
       | Some b => if we_write env (ws_trace s) then (true, wlog s [WSent b]) else (false, wlog s [WSendFailed])
       end),
      (match serialize (enc_wrapped enc_wrep) (m, remote) IPC_MESSAGE_MAX_SIZE with
       | None => (false, wlog s' [WSendFailed])
       | Some b => if we_write env (ws_trace s') then (true, wlog s' [WSent b]) else (false, wlog s' [WSendFailed])
       end)
    with (a, s), (b, s') => a = b ∧ rel s s' end) as Hwrite.
  { intros remote s s' Hr'. pose proof Hr' as [_ Hq].
    destruct (serialize _ _ _); [|split; [done|]; by apply rel_log].
    rewrite Hw, Hq, <-Hw. destruct (we_write env (ws_trace s')); (split; [done|]); by apply rel_log. }
  destruct h as [local|]; [|by apply Hwrite].
  destruct (we_remote env); [|done]. pose proof Hr as [Ht Hq].
  rewrite Hd, Hq, <-Hd. destruct (we_dup env (ws_trace s2)).
  - apply Hwrite. rewrite Ht. by apply rel_log.
  - split; [done|]. by apply rel_log.
Qed.
Lemma rel_dispatch env p1 p2 m s1 s2 :
  blind env → rel s1 s2 → audit_only p1 = true →
  (∀ q, question m q → (win_evaluate_request (we_debug env) p2 q).1 = Granted) →
  match win_dispatch env p1 m s1, win_dispatch env p2 m s2 with
  | Some (r, h, s), Some (r', h', s') => r = r' ∧ h = h' ∧ rel s s'
  | None, None => True
  | _, _ => False
  end.
Proof.
  intros Hb Hr Ha Hg.
  assert (∀ q, (win_evaluate_request (we_debug env) p1 q).1 = Granted) as Hg1.
  { intros q. unfold win_evaluate_request. cbn [fst]. by rewrite Ha. }
  assert (∀ q, rel (wlog s1 (wlog_events (we_debug env) p1 q)) (wlog s2 (wlog_events (we_debug env) p2 q)))
    as Hl.
  { intros q. apply rel_log; [done|]. by rewrite !quiet_log. }
  destruct m as [|access path alloc attributes share disposition options ea|
    access path title class options do_create]; [done|..]; cbn [win_dispatch].
  - unfold proxied_ntcreatefile. rewrite lor_reparse.
    set (q := WinFileOpen _) in *. rewrite Hg1, (Hg q) by done.
    set (c := NtCreateFile _ _ _ _ _ _ _ _).
    destruct (rel_call env c _ _ Hb (Hl q)) as [H1 H2].
    destruct (do_nt_call env c (wlog s1 _)) as [[a h] s], (do_nt_call env c (wlog s2 _)) as [[a' h'] s'].
    cbn [fst snd] in H1, H2. by injection H1 as -> ->.
  - unfold proxied_ntcreatekey. set (q := WinRegKeyOpen _ _ _ _) in *. rewrite Hg1, (Hg q) by done.
    destruct do_create.
    + set (c := NtCreateKey _ _ _ _ _).
      destruct (rel_call env c _ _ Hb (Hl q)) as [H1 H2].
      destruct (do_nt_call env c (wlog s1 _)) as [[a h] s], (do_nt_call env c (wlog s2 _)) as [[a' h'] s'].
      cbn [fst snd] in H1, H2. by injection H1 as -> ->.
    + set (c := NtOpenKey _ _).
      destruct (rel_call env c _ _ Hb (Hl q)) as [H1 H2].
      destruct (do_nt_call env c (wlog s1 _)) as [[a h] s], (do_nt_call env c (wlog s2 _)) as [[a' h'] s'].
      cbn [fst snd] in H1, H2. by injection H1 as -> ->.
Qed.
Lemma rel_step env p1 p2 rd s1 s2 :
  blind env → rel s1 s2 → audit_only p1 = true →
  (∀ m q, plain_read rd m → question m q → (win_evaluate_request (we_debug env) p2 q).1 = Granted) →
  (win_step env p1 rd s1).1 = (win_step env p2 rd s2).1 ∧
  rel (win_step env p1 rd s1).2 (win_step env p2 rd s2).2.
Proof.
  intros Hb Hr Ha Hg. unfold win_step.
  destruct (win_recv dec_wreq rd) as [[[m [h|]]|]|[]] eqn:E; [|..].
  - split; [done|]. by apply (rel_drop (Some h)).
  - apply win_recv_plain in E.
    pose proof (rel_dispatch env p1 p2 m s1 s2 Hb Hr Ha (λ q, Hg m q E)) as Hd. revert Hd.
    destruct (win_dispatch env p1 m s1) as [[[r h] a]|], (win_dispatch env p2 m s2) as [[[r' h'] a']|];
      try done.
    intros (<- & <- & Hr'). pose proof (rel_send env (WOut r) h a a' Hb Hr') as Hs. revert Hs.
    destruct (win_send env (WOut r) h a) as [[b s]|], (win_send env (WOut r) h a') as [[b' s']|]; try done.
    + intros [<- Hr'']. split; [done|]. by apply rel_drop.
    + intros _. split; [done|]. by apply rel_drop.
  - done.
  - done.
Qed.

(** [s'] comes after [s], without callbacks in between. *)
Definition adds (s s' : wstate) : Prop :=
  ∃ es, ws_trace s' = ws_trace s ++ es ∧ quiet es = es.
Lemma adds_refl s : adds s s.
Proof. exists []. by rewrite app_nil_r. Qed.
Lemma adds_trans a b c : adds a b → adds b c → adds a c.
Proof.
  intros (x & Hx & Hqx) (y & Hy & Hqy). exists (x ++ y). rewrite Hy, Hx, app_assoc. split; [done|].
  by rewrite quiet_app, Hqx, Hqy.
Qed.
Lemma adds_drop h s : adds s (win_drop h s).
Proof. destruct h as [v|]; [|apply adds_refl]. by exists [WClosed v]. Qed.
Lemma adds_call env c s : adds s (do_nt_call env c s).2.
Proof. unfold do_nt_call. destruct (nt_success _); by eexists [_]. Qed.
Lemma adds_send env m h s b s' : win_send env m h s = Some (b, s') → adds s s'.
Proof.
  unfold win_send. destruct h as [local|].
  - destruct (we_remote env); [|done]. destruct (we_dup env _) as [remote|].
    + intros H.
      apply (adds_trans _ (wlog s [WDuplicated local remote (default 0 (ws_tab s !! local))]));
        [by eexists [_]|].
      revert H. destruct (serialize _ _ _); [destruct (we_write env _)|]; intros [= <- <-]; by eexists [_].
    + intros [= <- <-]. by eexists [_].
  - destruct (serialize _ _ _); [destruct (we_write env _)|]; intros [= <- <-]; by eexists [_].
Qed.
Lemma adds_elem s s' cb q v : adds s s' → WCallback cb q v ∈ ws_trace s' ↔ WCallback cb q v ∈ ws_trace s.
Proof.
  intros (es & -> & Hq). rewrite elem_of_app. split; [|by left]. intros [?|Hin]; [done|].
  rewrite <-Hq in Hin. by apply elem_of_list_filter in Hin as [? _].
Qed.
Lemma log_elem d p q cb q' v :
  WCallback cb q' v ∈ wlog_events d p q ↔ cb ∈ log_callbacks p ∧ q' = q ∧ v = win_raw_verdict d p q.
Proof.
  unfold wlog_events, win_evaluate_request, log_verdict. cbn [snd]. rewrite map_map, elem_of_list_fmap.
  split; [intros (c & [= -> -> ->] & Hc); done|]. intros (Hc & -> & ->). by exists cb.
Qed.
(** Serving a request logs that request. *)
Lemma dispatch_logs env p m s r h s' :
  win_dispatch env p m s = Some (r, h, s') →
  ∃ q, question m q ∧ adds (wlog s (wlog_events (we_debug env) p q)) s'.
Proof.
  destruct m as [|access path alloc attributes share disposition options ea|
    access path title class options do_create]; cbn [win_dispatch]; [done|..]; intros [= H].
  - unfold proxied_ntcreatefile in H. rewrite lor_reparse in H. set (q := WinFileOpen _) in *.
    exists q. split; [done|]. set (s0 := wlog s _) in *.
    destruct (win_evaluate_request (we_debug env) p q).1;
      [|injection H as <- <- <-; apply adds_refl..].
    set (c := NtCreateFile _ _ _ _ _ _ _ _) in *. pose proof (adds_call env c s0) as Ha.
    destruct (do_nt_call env c s0) as [[a h0] s1]. by injection H as <- <- <-.
  - unfold proxied_ntcreatekey in H. set (q := WinRegKeyOpen _ _ _ _) in *.
    exists q. split; [done|]. set (s0 := wlog s _) in *.
    destruct (win_evaluate_request (we_debug env) p q).1;
      [|injection H as <- <- <-; apply adds_refl..].
    destruct do_create.
    + set (c := NtCreateKey _ _ _ _ _) in *. pose proof (adds_call env c s0) as Ha.
      destruct (do_nt_call env c s0) as [[a h0] s1]. by injection H as <- <- <-.
    + set (c := NtOpenKey _ _) in *. pose proof (adds_call env c s0) as Ha.
      destruct (do_nt_call env c s0) as [[a h0] s1]. by injection H as <- <- <-.
Qed.
Lemma question_fun m q q' : question m q → question m q' → q = q'.
Proof. destruct m; cbn [question]; [done|by intros -> ->..]. Qed.
Lemma step_log env p rd s cb q v :
  WCallback cb q v ∈ ws_trace (win_step env p rd s).2 ↔
  WCallback cb q v ∈ ws_trace s ∨
  (∃ m, plain_read rd m ∧ question m q) ∧ cb ∈ log_callbacks p ∧
    v = win_raw_verdict (we_debug env) p q.
Proof.
  unfold win_step. destruct (win_recv dec_wreq rd) as [[[m [h|]]|]|[]] eqn:E.
  - cbn [snd]. rewrite (adds_elem s) by apply adds_drop. split; [by left|].
    intros [?|[(m' & Hm & _) _]]; [done|]. apply win_recv_plain in Hm. congruence.
  - apply win_recv_plain in E. destruct (win_dispatch env p m s) as [[[r h] s1]|] eqn:Ed.
    + apply dispatch_logs in Ed as (q0 & Hq & Ha).
      assert (WCallback cb q v ∈ ws_trace s1 ↔ WCallback cb q v ∈ ws_trace s ∨
        (∃ m, plain_read rd m ∧ question m q) ∧ cb ∈ log_callbacks p ∧
        v = win_raw_verdict (we_debug env) p q) as <-.
      { rewrite (adds_elem _ _ _ _ _ Ha). cbn [wlog ws_trace]. rewrite elem_of_app, log_elem.
        split.
        - intros [?|(Hc & -> & ->)]; [by left|right]. split; [by exists m|done].
        - intros [?|((m' & Hm & Hq') & Hc & ->)]; [by left|right].
          rewrite (plain_read_fun rd m' m) in Hq' by done.
          by rewrite (question_fun m q q0) by done. }
      destruct (win_send env (WOut r) h s1) as [[b s2]|] eqn:Es; cbn [snd].
      * apply adds_elem. eapply adds_trans; [by eapply adds_send|apply adds_drop].
      * apply adds_elem, adds_drop.
    + cbn [snd]. split; [by left|]. intros [?|[(m' & Hm & Hq) _]]; [done|].
      rewrite (plain_read_fun rd m' m) in Hq by done. by destruct m.
  - cbn [snd]. split; [by left|]. intros [?|[(m' & Hm & _) _]]; [done|].
    apply win_recv_plain in Hm. congruence.
  - cbn [snd]. split; [by left|]. intros [?|[(m' & Hm & _) _]]; [done|].
    apply win_recv_plain in Hm. congruence.
Qed.
Lemma loop_log env p ch ph rds cb q v : ∀ s,
  (WCallback cb q v ∈ ws_trace s → WCallback cb q v ∈ ws_trace (win_loop env p ch ph rds s).2) ∧
  (WCallback cb q v ∈ ws_trace (win_loop env p ch ph rds s).2 →
    WCallback cb q v ∈ ws_trace s ∨
    (∃ rd m, rd ∈ rds ∧ plain_read rd m ∧ question m q) ∧ v = win_raw_verdict (we_debug env) p q).
Proof.
  assert (∀ s, adds s (win_end ch ph s)) as Hend.
  { intros s. unfold win_end. eapply adds_trans; apply adds_drop. }
  induction rds as [|rd rds IH]; intros s; [by split; [|left]|]. cbn [win_loop].
  pose proof (step_log env p rd s cb q v) as Hs.
  destruct (win_step env p rd s) as [st s'] eqn:E. cbn [snd] in Hs.
  assert (ws_trace s' = ws_trace s' →
    (WCallback cb q v ∈ ws_trace s' → WCallback cb q v ∈ ws_trace s ∨
     (∃ rd0 m, rd0 ∈ rd :: rds ∧ plain_read rd0 m ∧ question m q) ∧
     v = win_raw_verdict (we_debug env) p q)) as Hb.
  { intros _ H. apply Hs in H as [?|((m & Hm & Hq) & _ & Hv)]; [by left|right].
    split; [|done]. exists rd, m. split; [by left|done]. }
  destruct st.
  - destruct (IH s') as [H1 H2]. split; [intros H; apply H1, Hs; by left|].
    intros H. apply H2 in H as [H|((rd' & m & Hr & Hm) & Hv)]; [by apply Hb|right].
    split; [|done]. exists rd', m. split; [by right|done].
  - cbn [snd]. rewrite (adds_elem _ _ _ _ _ (Hend s')). split; [intros H; apply Hs; by left|by apply Hb].
  - cbn [snd]. rewrite (adds_elem _ _ _ _ _ (Hend s')). split; [intros H; apply Hs; by left|by apply Hb].
Qed.

Lemma rel_loop env p1 p2 cb ch ph rds : ∀ s1 s2,
  blind env → rel s1 s2 → audit_only p1 = true → cb ∈ log_callbacks p1 →
  (∀ rd m q, rd ∈ rds → plain_read rd m → question m q →
    WCallback cb q (win_raw_verdict (we_debug env) p1 q) ∈ ws_trace (win_loop env p1 ch ph rds s1).2 →
    (win_evaluate_request (we_debug env) p2 q).1 = Granted) →
  (win_loop env p1 ch ph rds s1).1 = (win_loop env p2 ch ph rds s2).1 ∧
  rel (win_loop env p1 ch ph rds s1).2 (win_loop env p2 ch ph rds s2).2.
Proof.
  induction rds as [|rd rds IH]; intros s1 s2 Hb Hr Ha Hcb Hg; [done|].
  cbn [win_loop] in Hg |- *.
  assert (∀ m q, plain_read rd m → question m q →
    (win_evaluate_request (we_debug env) p2 q).1 = Granted) as Hg1.
  { intros m q Hm Hq. apply (Hg rd m q); [by left|done|done|].
    assert (WCallback cb q (win_raw_verdict (we_debug env) p1 q) ∈ ws_trace (win_step env p1 rd s1).2)
      as Hin by (apply step_log; right; split; [by exists m|done]).
    destruct (win_step env p1 rd s1) as [[] s']; cbn [snd] in Hin |- *; [by apply loop_log|..];
      unfold win_end; rewrite !(adds_elem _ _ _ _ _ (adds_drop _ _)); done. }
  destruct (rel_step env p1 p2 rd s1 s2 Hb Hr Ha Hg1) as [He Hr'].
  destruct (win_step env p1 rd s1) as [st1 a1], (win_step env p2 rd s2) as [st2 a2].
  cbn [fst snd] in He, Hr'. subst st2. destruct st1.
  - apply IH; [done..|]. intros rd' m q Hin. apply (Hg rd' m q). by right.
  - split; [done|]. by apply (rel_drop ph), (rel_drop (Some ch)).
  - split; [done|]. by apply (rel_drop ph), (rel_drop (Some ch)).
Qed.

(** PARTIAL: when every request is one that rules can be written for: a supported file request
    for a drive path in the form that GetFullPathNameW gives, or a supported key request under
    one of the two hives. Then one audit run is enough: enforced, the completed policy gives the
    same calls, the same answers and the same end. *)
Theorem C166_partial env full sid calls cb ch ph rds t :
  we_debug env = false → blind env → cb ∈ callbacks calls → is_sid sid →
  Forall good_reg_call calls →
  (∀ rd m q, rd ∈ rds → plain_read rd m → question m q → grantable full q) →
  same_run (serving env true calls ch ph rds t)
    (serving env false
      (completed full sid calls cb (ws_trace (serving env true calls ch ph rds t).2)) ch ph rds t).
Proof.
  intros Hd Hb Hcb Hsid Hgood Hok. unfold same_run.
  set (tr := ws_trace (serving env true calls ch ph rds t).2).
  assert (Forall good_reg_call (completed full sid calls cb tr)) as Hgood'.
  { apply Forall_app. split; [done|]. apply Forall_forall. intros c Hc.
    apply elem_inventory in Hc as (q & v & Hin & _ & Hc).
    unfold tr, serving in Hin. apply loop_log in Hin as [Hin|((rd & m & Hr & Hm & Hq) & _)];
      [by apply elem_of_nil in Hin|].
    eapply rules_good; [|done|done]. by eapply Hok. }
  apply (rel_loop env _ _ cb ch ph rds); [done|done| | |].
  - cbn. apply win_build_audit.
  - cbn. by rewrite build_callbacks.
  - intros rd m q Hr Hm Hq Hin. rewrite Hd in *. rewrite audit_raw in Hin.
    assert (grantable full q) as Hgq by (by eapply Hok).
    change (win_verdict false (completed full sid calls cb tr) q = Granted).
    destruct (decide (win_verdict false calls q = Granted)) as [E|E].
    + eapply granted_more; [done|exact Hgood|done| |done]. intros c Hc. apply elem_of_app. by left.
    + apply (enough full sid); [done..|]. intros c Hc. apply elem_of_app. right.
      apply elem_inventory. by exists q, (win_verdict false calls q).
Qed.
Print Assumptions C166_partial.

(* ---------------------------------------------------------------- not too many *)

Lemma starts_drop a s : starts_with a s = true → s = a ++ drop (length a) s.
Proof. intros H. apply BytesProofs.starts_with_app in H as [r ->]. by rewrite drop_app. Qed.

(** Every right the completed policy has on a file and the first had not is one that a refused
    request of the run asks for on that file. *)
Theorem C166_minimal env full sid calls cb ch ph rds t cs x :
  we_debug env = false →
  win_entitled (completed full sid calls cb (ws_trace (serving env true calls ch ph rds t).2)) cs x →
  win_entitled calls cs x ∨
  ∃ rd m f p, rd ∈ rds ∧ plain_read rd m ∧ question m (WinFileOpen f) ∧
    win_verdict false calls (WinFileOpen f) ≠ Granted ∧ fr_path f = nt_form p ∧
    names backslash (nt_form (default p (full p))) cs ∧
    (file_needs f x ∨ x = RRead ∧ ∀ y, ¬ file_needs f y).
Proof.
  intros Hd (r & fl & Hin & (Habs & Hc) & Hx).
  apply elem_of_app in Hin as [Hin|Hin]; [left; exists r, fl; by split|right].
  apply elem_inventory in Hin as (q & v & Hin & Hv & Hc').
  unfold serving in Hin. apply loop_log in Hin as [Hin|((rd & m & Hr & Hm & Hq) & ->)];
    [by apply elem_of_nil in Hin|].
  rewrite Hd, audit_raw in Hv.
  destruct q as [f|path desired options create]; cbn [rules_for] in Hc'.
  2:{ unfold key_rules in Hc'. destruct (key_name path) as [n|]; [|by apply elem_of_nil in Hc'].
      apply elem_of_app in Hc' as [Hc'|Hc']; (destruct (_ || _); [|by apply elem_of_nil in Hc']);
        by apply elem_of_list_singleton in Hc'. }
  unfold file_rules in Hc'.
  destruct (starts_with (lit "\??\") (fr_path f)) eqn:Es; [|by apply elem_of_nil in Hc'].
  apply starts_drop in Es. set (p := drop 4 (fr_path f)) in *.
  change (drop (length (lit "\??\")) (fr_path f)) with p in Es.
  exists rd, m, f, p. split; [done|]. split; [done|]. split; [done|]. split; [done|].
  split; [exact Es|]. clearbody p. rewrite !elem_of_app, elem_of_list_singleton in Hc'.
  destruct Hc' as [Hc'|[Hc'|Hc']].
  - destruct (reads f || negb (asks f)) eqn:E; [|by apply elem_of_nil in Hc'].
    apply elem_of_list_singleton in Hc' as [= -> ->]. destruct Hc as [[_ Hc]|[[] _]].
    split; [done|]. destruct x; try done. apply orb_true_iff in E as [E|E].
    + left. by apply reads_spec.
    + right. split; [done|]. intros y Hy.
      assert (asks f = true) as Ha by (apply asks_spec; by exists y). by rewrite Ha in E.
  - destruct (writes f) eqn:E; [|by apply elem_of_nil in Hc'].
    apply elem_of_list_singleton in Hc' as [= -> ->]. destruct Hc as [[_ Hc]|[[] _]].
    split; [done|]. destruct x; try done. left. by apply writes_spec.
  - injection Hc' as -> ->. destruct Hc as [[_ Hc]|[[] _]]. split; [done|].
    left. destruct x; try done; by apply blocks_spec.
Qed.
Print Assumptions C166_minimal.

Lemma key_name_inv sid path n cs :
  key_name path = Some n → key_names sid n cs → names backslash path cs.
Proof.
  assert (∀ nt root rest sub, root = render backslash nt → names backslash rest sub →
    names backslash (root ++ rest) (nt ++ sub)) as Hnames.
  { intros nt root rest sub -> Hn. unfold names, render in *. rewrite map_app, concat_app.
    destruct Hn as [-> | ->]; [by left|right]. by rewrite app_assoc. }
  unfold key_name. destruct (starts_with (lit "\REGISTRY\MACHINE") path) eqn:E1.
  - apply starts_drop in E1. intros [= <-]. rewrite E1. clear E1.
    change (length (lit "\REGISTRY\MACHINE")) with 17%nat. generalize (drop 17 path) as rest.
    intros rest (root & nt & sub & rest' & Hin & Heq & Hn & ->). unfold root_keys in Hin.
    rewrite !elem_of_cons, elem_of_nil in Hin.
    destruct Hin as [[= -> ->]|[[= -> ->]|[[= -> ->]|[[= -> ->]|[[= -> ->]|[]]]]]]; try discriminate Heq.
    injection Heq as <-. by apply (Hnames [lit "REGISTRY"; lit "MACHINE"]).
  - destruct (starts_with (lit "\REGISTRY\USER") path) eqn:E2; [|done].
    apply starts_drop in E2. intros [= <-]. rewrite E2. clear E1 E2.
    change (length (lit "\REGISTRY\USER")) with 14%nat. generalize (drop 14 path) as rest.
    intros rest (root & nt & sub & rest' & Hin & Heq & Hn & ->). unfold root_keys in Hin.
    rewrite !elem_of_cons, elem_of_nil in Hin.
    destruct Hin as [[= -> ->]|[[= -> ->]|[[= -> ->]|[[= -> ->]|[[= -> ->]|[]]]]]]; try discriminate Heq.
    injection Heq as <-. by apply (Hnames [lit "REGISTRY"; lit "USER"]).
Qed.
(** For keys: at or below a key that a refused request of the run names (rules for keys have no
    form without the keys below). *)
Theorem C166_minimal_keys env full sid calls cb ch ph rds t cs x :
  we_debug env = false →
  reg_entitled (completed full sid calls cb (ws_trace (serving env true calls ch ph rds t).2)) cs x →
  reg_entitled calls cs x ∨
  ∃ rd m path desired options create anc rest, rd ∈ rds ∧ plain_read rd m ∧
    question m (WinRegKeyOpen path desired options create) ∧
    win_verdict false calls (WinRegKeyOpen path desired options create) ≠ Granted ∧
    cs = anc ++ rest ∧ names backslash path anc ∧
    (reg_needs desired create x ∨ key_harmless desired ∨
     x = RegRead ∧ ∀ y, ¬ reg_needs desired create y).
Proof.
  intros Hd (n & sid' & anc & rest & Hin & Hcs & Hkn).
  apply elem_of_app in Hin as [Hin|Hin]; [left; by exists n, sid', anc, rest|right].
  apply elem_inventory in Hin as (q & v & Hin & Hv & Hc').
  unfold serving in Hin. apply loop_log in Hin as [Hin|((rd & m & Hr & Hm & Hq) & ->)];
    [by apply elem_of_nil in Hin|].
  rewrite Hd, audit_raw in Hv.
  destruct q as [f|path desired options create]; cbn [rules_for] in Hc'.
  { unfold file_rules in Hc'. destruct (starts_with _ _); [|by apply elem_of_nil in Hc'].
    rewrite !elem_of_app, elem_of_list_singleton in Hc'.
    destruct Hc' as [Hc'|[Hc'|Hc']].
    - destruct (_ || _); [|by apply elem_of_nil in Hc']. apply elem_of_list_singleton in Hc'. by destruct x.
    - destruct (writes f); [|by apply elem_of_nil in Hc']. apply elem_of_list_singleton in Hc'. by destruct x.
    - by destruct x. }
  exists rd, m, path, desired, options, create, anc, rest.
  split; [done|]. split; [done|]. split; [done|]. split; [done|]. split; [done|].
  unfold key_rules in Hc'. destruct (key_name path) as [n'|] eqn:En; [|by apply elem_of_nil in Hc'].
  assert (n = n' ∧ sid' = sid ∧
    (x = RegRead ∧ any [0; 3]%Z desired || observes desired || negb (key_wr desired create) = true ∨
     x = RegWrite ∧ key_wr desired create || observes desired = true)) as (-> & -> & Hx).
  { apply elem_of_app in Hc' as [Hc'|Hc'].
    - destruct (_ || negb _); [|by apply elem_of_nil in Hc']. apply elem_of_list_singleton in Hc'.
      destruct x; [|done]. injection Hc' as -> ->. auto.
    - destruct (key_wr _ _ || _); [|by apply elem_of_nil in Hc']. apply elem_of_list_singleton in Hc'.
      destruct x; [done|]. injection Hc' as -> ->. auto. }
  split; [by eapply key_name_inv|].
  assert (key_wr desired create = true ↔ reg_needs desired create RegWrite) as Hw.
  { unfold key_wr. cbn [reg_needs]. unfold key_writes. by rewrite orb_true_iff, any_spec. }
  destruct Hx as [[-> Hx]|[-> Hx]].
  - destruct (any [0; 3]%Z desired) eqn:Ea; [left; by apply any_spec|].
    destruct (observes desired) eqn:Eo; [right; left; by apply any_spec|].
    right. right. split; [done|]. intros [] Hy.
    + apply any_spec in Hy. by rewrite Ea in Hy.
    + apply Hw in Hy. by rewrite Hy in Hx.
  - apply orb_true_iff in Hx as [Hx|Hx]; [left; by apply Hw|right; left; by apply any_spec].
Qed.
Print Assumptions C166_minimal_keys.

(* ---------------------------------------------------------------- what rules cannot help *)

(** A file that is not on a drive letter cannot be allowed by any calls. *)
Theorem C166_hopeless calls f c cs :
  well_formed (c :: cs) → names backslash (fr_path f) (c :: cs) → c ≠ lit "??" →
  win_verdict false calls (WinFileOpen f) ≠ Granted.
Proof.
  intros Hwf Hn Hne Hg. apply (C61_exact _ f _ Hwf Hn) in Hg as (_ & (x & Hx) & _).
  destruct Hx as (r & full & _ & (_ & Hc) & _).
  assert (∃ rest, names backslash (nt_form (default (rule_path r) full)) (c :: rest)) as [rest Hr].
  { destruct Hc as [[_ Hc]|[_ (anc & rest & Heq & Ha & Hc)]]; [by exists cs|].
    destruct anc as [|a anc]; [done|]. injection Heq as -> _. by exists anc. }
  apply Hne. clear -Hwf Hr. destruct Hwf as [_ Hf]. apply Forall_cons in Hf as [[Hc0 Hcb] _].
  generalize dependent (default (rule_path r) full). intros abs Hr. unfold nt_form in Hr.
  assert (∃ tail, lit "??\" ++ abs = c ++ tail ∧ (tail = [] ∨ ∃ u, tail = backslash :: u)) as (tail & He & Ht).
  { unfold names, render in Hr. cbn [map concat] in Hr.
    destruct Hr as [Hr|Hr]; injection Hr as Hr.
    - eexists. split; [exact Hr|]. destruct rest; [by left|right; by eexists].
    - rewrite <-app_assoc in Hr. eexists. split; [exact Hr|].
      destruct rest; right; by eexists. }
  destruct c as [|c1 [|c2 [|c3 c]]]; [done|..].
  - injection He as <- He. destruct Ht as [-> |[u ->]]; done.
  - by injection He as <- <- _.
  - injection He as <- <- <- _. exfalso. apply Hcb. right. right. by left.
Qed.
Print Assumptions C166_hopeless.

Definition pipe_read : list wread :=
  [ex_read (WReqFile 0x80000000 (lit "\Device\NamedPipe\p") 0 0x80 7 1 0 []) None].
(** A named pipe: the audit run opens it, and no policy does. *)
Theorem C166_refuted : ¬ C166_full.
Proof.
  intros H. unfold C166_full in H.
  specialize (H (ex_env 0 (Some 9)) (λ _, None) (lit "S-1-5-18") [WinAddLogCallback 7] 7 100 None
    pipe_read ∅).
  destruct H as (_ & _ & H); [done|by split_and!|by left| |by constructor|].
  - split; [done|]. apply no_backslash. by vm_compute.
  - apply (f_equal calls_of) in H. by vm_compute in H.
Qed.
Print Assumptions C166_refuted.

Example C166_example :
  let rds := [ex_read (WReqFile 0xC0000000 (lit "\??\C:\d\f") 0 0x80 3 3 0 []) None;
              ex_read (WReqKey 0x20019 (lit "\REGISTRY\MACHINE\App") 0 None 0 false) None] in
  let audit := serving (ex_env 0 (Some 9)) true [WinAddLogCallback 7] 100 None rds ∅ in
  let more := inventory (λ _, None) (lit "S-1-5-18") 7 (ws_trace audit.2) in
  more = [WinRule (AllowFileRead (lit "C:\d\f")) None; WinRule (AllowFileWrite (lit "C:\d\f")) None;
          WinRule (AllowFileLock (lit "C:\d\f") false false true) None;
          WinRegRead (lit "HKEY_LOCAL_MACHINE\App") (lit "S-1-5-18");
          WinRegWrite (lit "HKEY_LOCAL_MACHINE\App") (lit "S-1-5-18")] ∧
  session_calls (serving (ex_env 0 (Some 9)) false (WinAddLogCallback 7 :: more) 100 None rds ∅) =
    [NtCreateFile (units (lit "\??\C:\d\f")) 0xC0000000 0 0x80 3 3 0x200000 [];
     NtOpenKey (units (lit "\REGISTRY\MACHINE\App")) 0x20019] ∧
  session_calls (serving (ex_env 0 (Some 9)) false [WinAddLogCallback 7] 100 None rds ∅) = [].
Proof. split; [by vm_compute|]. split; by vm_compute. Qed.
