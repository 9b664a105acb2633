(** Properties of starting Windows workers: C70-C73 and C88-C93. *)
From stdpp Require Import prelude gmap sorting.
From Coq Require Import Strings.Byte.
From Verif Require Import Bytes PolicyModel LinuxPolicyModel FdModel BpfModel SeccompModel
  PostcardModel ChannelModel BrokerModel EntryModel ProcessModel WinProcessModel WinProcessSpec
  WinProcessProofs.
Local Open Scope N_scope.

(** A system where everything works; one that refuses attribute [bad]; one where the first
    process creation fails. *)
Definition good_env : penv :=
  mkPenv (λ _ _, true) true 4242 (λ _ _, 0%Z) (λ _ _, true) (λ _ _, Some 77) (λ _, 900).
Definition refusing_env (bad : kind) : penv :=
  mkPenv (λ _ _, true) true 4242 (λ _ _, 0%Z)
    (λ _ a, match kind_of a, bad with
            | KContainer, KContainer | KLess, KLess | KHandles, KHandles | KChild, KChild
            | KMitigations, KMitigations => false
            | _, _ => true
            end) (λ _ _, Some 77) (λ _, 900).
Definition failed_before (tr : list pevent) : bool :=
  existsb (λ e, match e with PCreate _ None => true | _ => false end) tr.
Definition flaky_env : penv :=
  mkPenv (λ _ _, true) true 4242 (λ _ _, 0%Z) (λ _ _, true)
    (λ tr _, if failed_before tr then Some 77 else None) (λ _, 900).
Definition some_config : config :=
  mkConfig (lit "C:\app\w.exe") [lit "w"; lit "-x"] [lit "A=1"] (Some (lit "C:\app")) (Some 8) None None.
Definition no_sys : str → option str := λ _, None.
Definition start : pstate := mkPst [] 1.
Definition win_dir : option str := Some (lit "C:\Windows").

(* ---------------------------------------------------------------- C70 *)

(** Creating a process ends after at most six passes, whatever the system answers. *)
Theorem C70_ends fuel env sys windir c handles s :
  (6 ≤ fuel)%nat →
  ∃ r s', win_process_new fuel env sys windir c handles s = Some (r, s') ∧
    win_process_new 6 env sys windir c handles s = Some (r, s').
Proof.
  intros Hf. unfold win_process_new. destruct (cf_argv c); [eauto|].
  destruct windir as [dir|]; [|eauto].
  match goal with |- context [create_loop 6 env ?i all_opts s] => set (inp := i) end.
  destruct (create_loop_total 6 env inp all_opts s) as [[r s'] E].
  { rewrite weight_all. lia. }
  exists r, s'. split; [|done]. by eapply create_loop_more.
Qed.
Print Assumptions C70_ends.
Theorem C70_passes fuel env sys windir c handles n r s' :
  win_process_new fuel env sys windir c handles (mkPst [] n) = Some (r, s') →
  (lists (ps_trace s') ≤ 6)%nat.
Proof.
  intros H. destruct (process_new_cases _ _ _ _ _ _ _ _ _ H) as [[-> _]|(dir & _ & Hl)].
  { unfold lists. simpl. lia. }
  destruct (create_loop_spec _ _ _ _ _ _ _ Hl) as (es & Hf).
  rewrite (lf_trace _ _ _ _ _ _ _ Hf). simpl.
  pose proof (lf_lists _ _ _ _ _ _ _ Hf). rewrite weight_all in *. lia.
Qed.
Print Assumptions C70_passes.
(** Every process creation has as many attributes as slots, no attribute twice. *)
Theorem C70_slots fuel env sys windir c handles n r s' a h :
  win_process_new fuel env sys windir c handles (mkPst [] n) = Some (r, s') →
  PCreate a h ∈ ps_trace s' →
  N.of_nat (length (cp_attrs a)) = cp_slots a ∧ NoDup (kind_of <$> cp_attrs a).
Proof.
  intros H Hi. destruct (process_new_cases _ _ _ _ _ _ _ _ _ H) as [[-> _]|(dir & _ & Hl)].
  { by apply elem_of_nil in Hi. }
  destruct (create_loop_spec _ _ _ _ _ _ _ Hl) as (es & Hf).
  rewrite (lf_trace _ _ _ _ _ _ _ Hf) in Hi. simpl in Hi.
  destruct (lf_create _ _ _ _ _ _ _ Hf _ _ Hi) as (o & name & _ & ->). cbn [cp_attrs cp_slots].
  split; [apply attrs_count|apply attrs_kinds].
Qed.
Print Assumptions C70_slots.
(** Six passes do happen: everything is refused, one thing at a time, on an old system. *)
Definition old_env : penv :=
  mkPenv (λ _ _, true) true 4242 (λ _ _, 0%Z)
    (λ tr a, match kind_of a with KContainer => (lists tr <=? 1)%nat | _ => false end)
    (λ _ _, None) (λ _, 900).
Example C70_example :
  (lists ∘ ps_trace ∘ snd <$> win_process_new 6 old_env no_sys win_dir some_config [3] start) =
    Some 6%nat ∧
  fst <$> win_process_new 6 old_env no_sys win_dir some_config [3] start =
    Some (Err (OsFailed (lit "CreateProcess() failed") 0)) ∧
  win_process_new 5 old_env no_sys win_dir some_config [3] start = None ∧
  fst <$> win_process_new 6 (refusing_env KChild) no_sys win_dir some_config [3] start =
    Some (Ok (mkWp 900 77 (Some (lit "IrisAppContainer_4242_2")))).
Proof. vm_compute. auto. Qed.

(* ---------------------------------------------------------------- C71 *)

(** What CreateProcess is given, for C71 and C72. *)
Lemma passed fuel env sys windir c handles n r s' a x :
  win_process_new fuel env sys windir c handles (mkPst [] n) = Some (r, s') →
  PCreate a x ∈ ps_trace s' →
  cp_envblock a = env_block (merged_env sys (cf_envp c)) ∧
  cp_cmdline a = win_cmdline (cf_exe c) (cf_argv c).
Proof.
  intros H Hi. destruct (process_new_cases _ _ _ _ _ _ _ _ _ H) as [[-> _]|(dir & _ & Hl)].
  { by apply elem_of_nil in Hi. }
  destruct (create_loop_spec _ _ _ _ _ _ _ Hl) as (es & Hf).
  rewrite (lf_trace _ _ _ _ _ _ _ Hf) in Hi. simpl in Hi.
  destruct (lf_create _ _ _ _ _ _ _ Hf _ _ Hi) as (o & name & _ & ->). done.
Qed.

(** What the system reads back is what was configured, then the variables of the table that
    were not configured; nothing else of the environment of the broker. *)
Definition env_as_wanted (sys : str → option str) (envp : list str) : Prop :=
  ∃ extra, block_holds (env_block (merged_env sys envp)) (envp ++ extra) ∧
    (∀ e, e ∈ extra ↔ ∃ name forced val,
      (name, forced) ∈ sanitized_environment ∧ ¬ configured envp name ∧
      (forced = Some val ∨ (forced = None ∧ sys name = Some val)) ∧ e = variable name val) ∧
    NoDup extra.
Definition os_values (sys : str → option str) : Prop :=
  ∀ name val, sys name = Some val → c_string val.
Definition C71_full : Prop :=
  ∀ sys envp, os_values sys → Forall c_string envp → env_as_wanted sys envp.
Theorem C71_partial sys envp :
  os_values sys → Forall c_string envp → [] ∉ envp → env_as_wanted sys envp.
Proof.
  intros Hsys Hc Hne. unfold env_as_wanted. rewrite merged_env_eq.
  exists (omap (added sys envp) sanitized_environment).
  assert (∀ e, e ∈ omap (added sys envp) sanitized_environment ↔ ∃ name forced val,
      (name, forced) ∈ sanitized_environment ∧ ¬ configured envp name ∧
      (forced = Some val ∨ (forced = None ∧ sys name = Some val)) ∧ e = variable name val) as Hex.
  { intros e. rewrite elem_of_list_omap. unfold added, table_value. split.
    - intros ([name forced] & Hi & Ha). cbn [fst snd] in Ha.
      destruct (explicitly_set name envp) eqn:Ee; [done|].
      assert (¬ configured envp name) as Hnc.
      { rewrite <- explicitly_set_configured, Ee. done. }
      destruct forced as [v|]; simpl in Ha.
      + injection Ha as <-. exists name, (Some v), v. auto.
      + destruct (sys name) as [v|] eqn:Es; simpl in Ha; [|done]. injection Ha as <-.
        exists name, None, v. split_and!; [done|done|by right|done].
    - intros (name & forced & val & Hi & Hnc & Hv & ->). exists (name, forced).
      split; [done|]. cbn [fst snd].
      destruct (explicitly_set name envp) eqn:Ee.
      { exfalso. by apply Hnc, explicitly_set_configured. }
      destruct Hv as [->|[-> ->]]; done. }
  split_and!.
  - apply env_block_holds. apply Forall_app. split.
    + apply Forall_forall. intros e He. split.
      * intros ->. done.
      * rewrite Forall_forall in Hc. by apply Hc.
    + apply Forall_forall. intros e He.
      apply Hex in He as (name & forced & val & Hi & _ & Hv & ->).
      pose proof table_names as Ht. rewrite Forall_forall in Ht.
      destruct (Ht _ Hi) as (_ & H0 & Hn & Hf). cbn [fst snd] in *. split.
      * unfold variable. by destruct name.
      * unfold variable. rewrite !not_elem_of_app. split_and!.
        -- done.
        -- intros Hx. apply elem_of_list_singleton in Hx. discriminate.
        -- destruct Hv as [->|[-> Hs]]; [done|]. by eapply Hsys.
  - done.
  - clear Hex.
    pose proof table_names as Ht. pose proof table_nodup as Hnd.
    induction sanitized_environment as [|v L IH]; [constructor|].
    inversion Ht as [|?? Hv Ht']; subst. rewrite fmap_cons in Hnd.
    inversion Hnd as [|?? Hn Hnd']; subst.
    cbn [omap list_omap]. destruct (added sys envp v) as [e|] eqn:Ea; [|by apply IH].
    constructor; [|by apply IH]. intros Hi.
    apply elem_of_list_omap in Hi as (v' & Hv' & Ea').
    unfold added in Ea, Ea'.
    destruct (explicitly_set v.1 envp); [done|]. destruct (explicitly_set v'.1 envp); [done|].
    destruct (table_value sys v) as [x|]; [|done]. destruct (table_value sys v') as [x'|]; [|done].
    simpl in Ea, Ea'. injection Ea as <-. injection Ea' as E.
    rewrite Forall_forall in Ht'. destruct (Ht' _ Hv') as (H1 & _).
    apply variable_inj in E as [E _]; [|done|by destruct Hv].
    apply Hn. rewrite <- E. by apply elem_of_list_fmap_1.
Qed.
Print Assumptions C71_partial.
Theorem C71_passed fuel env sys windir c handles n r s' a x :
  os_values sys → Forall c_string (cf_envp c) → [] ∉ cf_envp c →
  win_process_new fuel env sys windir c handles (mkPst [] n) = Some (r, s') →
  PCreate a x ∈ ps_trace s' →
  ∃ extra, block_holds (cp_envblock a) (cf_envp c ++ extra) ∧
    ∀ e, e ∈ extra → ∃ name forced val, (name, forced) ∈ sanitized_environment ∧
      e = variable name val.
Proof.
  intros Hs Hc Hne H Hi. rewrite (proj1 (passed _ _ _ _ _ _ _ _ _ _ _ H Hi)).
  destruct (C71_partial sys (cf_envp c) Hs Hc Hne) as (extra & Hb & Hex & _).
  exists extra. split; [done|]. intros e He.
  apply Hex in He as (name & forced & val & ? & _ & _ & ?). eauto.
Qed.
Print Assumptions C71_passed.
(** An empty configured entry ends the block: no variable after it reaches the worker, not
    even that of its channel, and [set_environment_variable] accepts empty entries. *)
Theorem C71_refuted : ¬ C71_full.
Proof.
  intros H. destruct (H no_sys [[]; lit "A=1"]) as (extra & Hb & _).
  - intros name val. discriminate.
  - repeat constructor; apply free_of_spec; reflexivity.
  - destruct Hb as [Hf _]. inversion Hf as [|?? [Hne _] _]; done.
Qed.
Print Assumptions C71_refuted.
Theorem C71_refuted_lost c c1 c2 inheritable wch permitted handles fuel env sys windir n r s' a x :
  Forall (λ s, s ≠ [] ∧ c_string s) (cf_envp c) →
  set_environment_variable [] c = Ok c1 →
  win_worker_config inheritable wch c1 permitted = Ok (c2, handles) →
  win_process_new fuel env sys windir c2 handles (mkPst [] n) = Some (r, s') →
  PCreate a x ∈ ps_trace s' → block_holds (cp_envblock a) (cf_envp c).
Proof.
  intros Hc H1 H2 H Hi. rewrite (proj1 (passed _ _ _ _ _ _ _ _ _ _ _ H Hi)).
  rewrite merged_env_eq. split; [done|].
  unfold win_worker_config in H2. destruct (forallb _ _); [|done].
  unfold set_environment_variable in H1, H2.
  destruct (existsb _ _) in H1; [done|]. injection H1 as <-.
  destruct (existsb _ _) in H2; [done|]. injection H2 as <- _.
  cbn [cf_envp]. unfold env_block. rewrite !map_app, !concat_app, <- !app_assoc.
  cbn [map concat app]. eexists. reflexivity.
Qed.
Print Assumptions C71_refuted_lost.
(** Names are compared with their case, which Windows ignores: a configured lower-case name
    gives two values for one variable. *)
Definition lower (b : byte) : byte :=
  match Byte.to_nat b with
  | n => if (65 <=? n)%nat && (n <=? 90)%nat then byte_of_N (N.of_nat (n + 32)) else b
  end.
Definition C71_one_value : Prop :=
  ∀ sys envp, os_values sys → Forall c_string envp → [] ∉ envp →
  NoDup (map lower ∘ name_from_env <$> envp) →
  NoDup (map lower ∘ name_from_env <$> merged_env sys envp).
Theorem C71_case_refuted : ¬ C71_one_value.
Proof.
  intros H.
  specialize (H (λ n, if decide (n = lit "WINDIR") then Some (lit "C:\Windows") else None)
                [lit "windir=D:\"]).
  assert (lit "windir" ∈ drop 1 (map lower ∘ name_from_env <$> merged_env
    (λ n, if decide (n = lit "WINDIR") then Some (lit "C:\Windows") else None) [lit "windir=D:\"]))
    as Hd.
  { rewrite merged_env_eq.
    match goal with |- _ ∈ ?l => let l' := eval vm_compute in l in change l with l' end.
    repeat first [apply elem_of_list_here | apply elem_of_list_further]. }
  assert (Hn : NoDup (map lower ∘ name_from_env <$> merged_env
    (λ n, if decide (n = lit "WINDIR") then Some (lit "C:\Windows") else None) [lit "windir=D:\"])).
  { apply H.
    - intros name val Hv. destruct (decide _); [|done]. injection Hv as <-.
      by apply free_of_spec.
    - repeat constructor; by apply free_of_spec.
    - intros Hx. apply elem_of_list_singleton in Hx. discriminate.
    - repeat constructor. intros Hx. by apply elem_of_nil in Hx. }
  rewrite merged_env_eq in Hn, Hd.
  set (l := _ <$> _ ++ _) in Hn, Hd.
  assert (∃ r, l = lit "windir" :: r) as (r & E).
  { unfold l. rewrite fmap_app. eexists. reflexivity. }
  rewrite E in Hn, Hd. simpl in Hd. inversion Hn. contradiction.
Qed.
Print Assumptions C71_case_refuted.
Example C71_example :
  block_holds (env_block (merged_env (λ n, if decide (n = lit "OS") then Some (lit "NT") else None)
                 [lit "USERNAME=me"; lit "A=1"]))
    [lit "USERNAME=me"; lit "A=1"; lit "COMPUTERNAME=PC"; lit "LOGONSERVER=\\PC";
     lit "USERDOMAIN=PC"; lit "USERDOMAIN_ROAMINGPROFILE=PC"; lit "OS=NT"].
Proof.
  split; [repeat (constructor; [split; [discriminate|by apply free_of_spec]|]); constructor|].
  exists []. vm_compute. reflexivity.
Qed.

Example C71_lost_example :
  ∃ c1 c2 h, set_environment_variable [] some_config = Ok c1 ∧
    win_worker_config (λ _, true) 12 c1 [3] = Ok (c2, h) ∧
    cf_envp c2 = [lit "A=1"; []; lit "SANDBOX_IPC_HANDLE=12"].
Proof. do 3 eexists. vm_compute. auto. Qed.

(* ---------------------------------------------------------------- C72 *)

(** A program that splits its command line as the Microsoft C runtime does gets the
    configured arguments, after the name of the program. *)
Definition C72_full : Prop :=
  ∀ exe argv, c_string exe → Forall c_string argv → argv ≠ [] →
  split_cmdline (win_cmdline exe argv) = exe :: tail argv.
Theorem C72_partial exe argv :
  x22 ∉ exe → Forall simple_arg (tail argv) →
  split_cmdline (win_cmdline exe argv) = exe :: tail argv.
Proof. apply split_win_cmdline. Qed.
Print Assumptions C72_partial.
Theorem C72_passed fuel env sys windir c handles n r s' a x :
  win_process_new fuel env sys windir c handles (mkPst [] n) = Some (r, s') →
  PCreate a x ∈ ps_trace s' →
  x22 ∉ cf_exe c → Forall simple_arg (tail (cf_argv c)) →
  split_cmdline (cp_cmdline a) = cf_exe c :: tail (cf_argv c).
Proof.
  intros H Hi He Ha. rewrite (proj2 (passed _ _ _ _ _ _ _ _ _ _ _ H Hi)). by apply C72_partial.
Qed.
Print Assumptions C72_passed.
Definition worker_exe : str := lit "C:\w.exe".
Definition seen (args : list str) : list str :=
  split_cmdline (win_cmdline worker_exe (lit "w" :: args)).
(** Empty arguments vanish; tabs split; quotes vanish, swallow the next argument or start
    new ones; a backslash at the end of an argument with a space glues the next one. *)
Theorem C72_refuted :
  seen [[]; lit "b"] = [worker_exe; lit "b"] ∧
  seen [[x61; x09; x62]] = [worker_exe; lit "a"; lit "b"] ∧
  seen [[x22]; lit "b"] = [worker_exe; lit " b"] ∧
  seen [[x61; x22; x20; x22; x62]] = [worker_exe; lit "a"; lit "b"] ∧
  seen [lit "C:\Program Files\"; lit "b"] =
    [worker_exe; lit "C:\Program Files" ++ [x22; x20] ++ lit "b"] ∧
  ¬ C72_full.
Proof.
  assert (seen [[]; lit "b"] = [worker_exe; lit "b"]) as H1 by (vm_compute; reflexivity).
  split_and!; [exact H1|vm_compute; reflexivity..|].
  intros H. specialize (H worker_exe [lit "w"; []; lit "b"]).
  assert (Hx : seen [[]; lit "b"] = [worker_exe; []; lit "b"]).
  { apply H; [by apply free_of_spec| |done]. repeat constructor; by apply free_of_spec. }
  rewrite H1 in Hx. discriminate Hx.
Qed.
Print Assumptions C72_refuted.
(** [argv[0]] is replaced by the path of the program. *)
Theorem C72_first_argument exe a0 a0' rest :
  win_cmdline exe (a0 :: rest) = win_cmdline exe (a0' :: rest).
Proof. done. Qed.
Print Assumptions C72_first_argument.
Example C72_example :
  seen [lit "a b"; lit "c\"; lit "C:\d e\f"; lit "-g=h"] =
    [worker_exe; lit "a b"; lit "c\"; lit "C:\d e\f"; lit "-g=h"].
Proof. vm_compute. reflexivity. Qed.

(* ---------------------------------------------------------------- C73 *)

(** The list of handles given to the system holds every permitted one once, nothing else. *)
Theorem C73_handles fuel env sys windir c handles n r s' a h l :
  win_process_new fuel env sys windir c handles (mkPst [] n) = Some (r, s') →
  PCreate a h ∈ ps_trace s' → AHandles l ∈ cp_attrs a →
  NoDup l ∧ ∀ x, x ∈ l ↔ x ∈ handles.
Proof.
  intros H Hi Ha. destruct (process_new_cases _ _ _ _ _ _ _ _ _ H) as [[-> _]|(dir & _ & Hl)].
  { by apply elem_of_nil in Hi. }
  destruct (create_loop_spec _ _ _ _ _ _ _ Hl) as (es & Hf).
  rewrite (lf_trace _ _ _ _ _ _ _ Hf) in Hi. simpl in Hi.
  destruct (lf_create _ _ _ _ _ _ _ Hf _ _ Hi) as (o & name & _ & ->). cbn [cp_attrs] in Ha.
  apply attrs_handles in Ha as [_ ->]. split; [apply handle_list_nodup|].
  intros x. apply handle_list_elem.
Qed.
Print Assumptions C73_handles.
(** For a worker these are the handles of the policy, its channel and its standard streams;
    the streams are those configured, and the channel is named in the environment. *)
Theorem C73_worker inheritable wch c permitted c' handles fuel env sys windir n r s' a h l :
  win_worker_config inheritable wch c permitted = Ok (c', handles) →
  win_process_new fuel env sys windir c' handles (mkPst [] n) = Some (r, s') →
  PCreate a h ∈ ps_trace s' → AHandles l ∈ cp_attrs a →
  (∀ x, x ∈ l ↔ x ∈ permitted ∨ x = wch ∨ cf_stdin c = Some x ∨ cf_stdout c = Some x ∨
                cf_stderr c = Some x) ∧
  (∀ x, x ∈ l → x ∈ permitted ∨ inheritable x = true) ∧
  cp_std a = (default INVALID_HANDLE (cf_stdin c), default INVALID_HANDLE (cf_stdout c),
              default INVALID_HANDLE (cf_stderr c)) ∧
  cf_envp c' = cf_envp c ++ [ipc_variable wch].
Proof.
  intros Hw H Hi Ha. destruct (C73_handles _ _ _ _ _ _ _ _ _ _ _ _ H Hi Ha) as [_ Hl].
  unfold win_worker_config in Hw.
  destruct (forallb inheritable _) eqn:Hinh; [|done].
  unfold set_environment_variable in Hw.
  destruct (existsb _ _); [done|]. injection Hw as <- <-.
  assert (∀ x, x ∈ permitted ++ wch :: omap id [cf_stdin c; cf_stdout c; cf_stderr c] ↔
    x ∈ permitted ∨ x = wch ∨ cf_stdin c = Some x ∨ cf_stdout c = Some x ∨ cf_stderr c = Some x)
    as Hx.
  { intros x. rewrite elem_of_app, elem_of_cons, elem_of_list_omap. split.
    - intros [?|[?|(o & Ho & Hs)]]; [auto..|]. unfold id in Hs. subst o.
      rewrite !elem_of_cons, elem_of_nil in Ho.
      destruct Ho as [Ho|[Ho|[Ho|[]]]]; rewrite <- Ho; auto 6.
    - intros [?|[?|[E|[E|E]]]]; [auto..| | |]; right; right; exists (Some x); (split; [|done]);
        rewrite E, !elem_of_cons; auto. }
  split_and!.
  - intros x. by rewrite Hl, Hx.
  - intros x. rewrite Hl, elem_of_app. intros [?|Hin]; [by left|right].
    rewrite forallb_forall in Hinh. apply Hinh. by apply elem_of_list_In.
  - destruct (process_new_cases _ _ _ _ _ _ _ _ _ H) as [[-> _]|(dir & _ & Hlo)].
    { by apply elem_of_nil in Hi. }
    destruct (create_loop_spec _ _ _ _ _ _ _ Hlo) as (es & Hf).
    rewrite (lf_trace _ _ _ _ _ _ _ Hf) in Hi. simpl in Hi.
    destruct (lf_create _ _ _ _ _ _ _ Hf _ _ Hi) as (o & name & _ & ->). done.
  - done.
Qed.
Print Assumptions C73_worker.
Example C73_example :
  handle_list [8; 3; 8; 5; 3] = [3; 5; 8] ∧
  (λ '(r, s), (r, omap (λ e, match e with PSet (AHandles l) _ => Some l | _ => None end)
     (ps_trace s))) <$>
   win_process_new 6 good_env no_sys win_dir some_config [8; 3; 8] start =
  Some (Ok (mkWp 900 77 (Some (lit "IrisAppContainer_4242_1"))), [[3; 8]]).
Proof. vm_compute. auto. Qed.

(* ---------------------------------------------------------------- C88 *)

(** The process that a worker gets was created with every hardening option that the system
    did not refuse, at full strength. *)
Definition C88_full : Prop :=
  ∀ fuel env sys windir c handles n p s',
  win_process_new fuel env sys windir c handles (mkPst [] n) = Some (Ok p, s') →
  ∃ a, PCreate a (Some (wp_handle p)) ∈ ps_trace s' ∧
    (∀ a' h, PCreate a' (Some h) ∈ ps_trace s' → a' = a) ∧
    (∀ k, k ∈ kind_of <$> cp_attrs a ∨ os_refused (pe_appcontainers env) (ps_trace s') k) ∧
    (∀ x, x ∈ cp_attrs a → full_strength x).
Lemma attrs_strength o inp name x : x ∈ attrs_of o inp name → full_strength x.
Proof.
  intros Hx.
  assert (∀ m, m ∈ MITIGATIONS → N.land mitigation_policy m = m) as Hm.
  { intros m Hm. unfold MITIGATIONS in Hm.
    repeat (apply elem_of_cons in Hm as [->|Hm]; [vm_compute; reflexivity|]).
    by apply elem_of_nil in Hm. }
  destruct o as [[] [] [] [] []]; unfold attrs_of in Hx; simpl in Hx;
    repeat (apply elem_of_cons in Hx as [->|Hx]; [first [exact I|reflexivity|exact Hm]|]);
    by apply elem_of_nil in Hx.
Qed.
(** It holds but for the mitigations, which are also given up after any failure to create a
    process. *)
Theorem C88_partial fuel env sys windir c handles n p s' :
  win_process_new fuel env sys windir c handles (mkPst [] n) = Some (Ok p, s') →
  ∃ a, PCreate a (Some (wp_handle p)) ∈ ps_trace s' ∧
    (∀ a' h, PCreate a' (Some h) ∈ ps_trace s' → a' = a) ∧
    (∀ k, k ∈ kind_of <$> cp_attrs a ∨ os_refused (pe_appcontainers env) (ps_trace s') k ∨
          (k = KMitigations ∧ ∃ a', PCreate a' None ∈ ps_trace s')) ∧
    (∀ x, x ∈ cp_attrs a → full_strength x).
Proof.
  intros H. destruct (process_new_cases _ _ _ _ _ _ _ _ _ H) as [[-> [e ?]]|(dir & _ & Hl)];
    [done|].
  destruct (create_loop_spec _ _ _ _ _ _ _ Hl) as (es & Hf).
  destruct (lf_ok _ _ _ _ _ _ _ Hf p eq_refl []) as (o' & name & a & A & B & C & D & E & F & G).
  { intros k. destruct k; discriminate. }
  rewrite (lf_trace _ _ _ _ _ _ _ Hf). cbn [ps_trace app] in *.
  exists a. split_and!; [done|done| |].
  - intros k. destruct (has o' k) eqn:Hk.
    + left. rewrite D. cbn [cp_attrs]. by apply attrs_has.
    + right. by apply A.
  - intros x. rewrite D. apply attrs_strength.
Qed.
Print Assumptions C88_partial.
(** One failure of CreateProcess is enough to lose the mitigations. *)
Theorem C88_refuted : ¬ C88_full.
Proof.
  intros H.
  destruct (win_process_new 6 flaky_env no_sys win_dir some_config [3] (mkPst [] 1))
    as [[[p|e] s']|] eqn:E; [|vm_compute in E; discriminate E..].
  destruct (H _ _ _ _ _ _ _ _ _ E) as (a & Ha & _ & Hk & _).
  vm_compute in E. injection E as <- <-. cbn [ps_trace wp_handle] in *.
  specialize (Hk KMitigations).
  repeat (apply elem_of_cons in Ha as [Ha|Ha]; [try discriminate Ha; injection Ha as ->|]);
    [|by apply elem_of_nil in Ha].
  cbn in Hk. destruct Hk as [Hk|[(x & Hx & Hi)|[[[?|?] _]|[? _]]]]; try discriminate.
  - repeat (apply elem_of_cons in Hk as [Hk|Hk]; [discriminate Hk|]). by apply elem_of_nil in Hk.
  - repeat (apply elem_of_cons in Hi as [Hi|Hi]; [discriminate Hi|]). by apply elem_of_nil in Hi.
Qed.
Print Assumptions C88_refuted.
Definition created (x : option (result win_process broker_error * pstate)) : list (list kind) :=
  match x with
  | Some (_, s) => omap (λ e, match e with
                             | PCreate a (Some _) => Some (kind_of <$> cp_attrs a)
                             | _ => None
                             end) (ps_trace s)
  | None => []
  end.
Definition run_with (env : penv) := win_process_new 6 env no_sys win_dir some_config [3] start.
Example C88_example :
  created (run_with good_env) = [[KContainer; KLess; KHandles; KChild; KMitigations]] ∧
  created (run_with (refusing_env KContainer)) = [[KHandles; KChild; KMitigations]] ∧
  created (run_with (refusing_env KLess)) = [[KContainer; KHandles; KChild; KMitigations]] ∧
  created (run_with (refusing_env KChild)) = [[KContainer; KLess; KHandles; KMitigations]] ∧
  created (run_with flaky_env) = [[KContainer; KLess; KHandles; KChild]].
Proof. vm_compute. auto. Qed.

(* ---------------------------------------------------------------- C89 *)

(** The worker inherits the permitted handles only. *)
Definition C89_full : Prop :=
  ∀ fuel env sys windir c handles inheritable n p s' a h,
  win_process_new fuel env sys windir c handles (mkPst [] n) = Some (Ok p, s') →
  PCreate a (Some h) ∈ ps_trace s' → ∀ x, inherited inheritable a x ↔ x ∈ handles.
(** True unless the system refuses the handle list. *)
Theorem C89_partial fuel env sys windir c handles inheritable n p s' a h :
  win_process_new fuel env sys windir c handles (mkPst [] n) = Some (Ok p, s') →
  PCreate a (Some h) ∈ ps_trace s' → (∀ l, PSet (AHandles l) false ∉ ps_trace s') →
  ∀ x, inherited inheritable a x ↔ x ∈ handles.
Proof.
  intros H Hc Hno x.
  destruct (C88_partial _ _ _ _ _ _ _ _ _ H) as (a' & Ha & Huniq & Hk & _).
  rewrite <- (Huniq _ _ Hc) in Hk. clear Huniq Ha a'.
  assert (∃ l, AHandles l ∈ cp_attrs a) as (l & Hl).
  { destruct (Hk KHandles) as [Hi|[[(y & Hy & Hi)|[[[?|?] _]|[? _]]]|[? _]]]; try discriminate.
    - apply elem_of_list_fmap in Hi as (y & Hy & Hi). destruct y; try discriminate. eauto.
    - destruct y; try discriminate. exfalso. by eapply Hno. }
  pose proof (C73_handles _ _ _ _ _ _ _ _ _ _ _ _ H Hc Hl) as [_ Hx]. unfold inherited. split.
  - intros [(l' & Hl' & Hi)|[Hn _]]; [|by destruct (Hn l)].
    by apply (C73_handles _ _ _ _ _ _ _ _ _ _ _ _ H Hc Hl').
  - intros Hi. left. exists l. split; [done|]. by apply Hx.
Qed.
Print Assumptions C89_partial.
(** If it is refused the process is created all the same, with every inheritable handle. *)
Theorem C89_refuted : ¬ C89_full.
Proof.
  intros H.
  destruct (win_process_new 6 (refusing_env KHandles) no_sys win_dir some_config [3] (mkPst [] 1))
    as [[[p|e] s']|] eqn:E; [|vm_compute in E; discriminate E..].
  assert (∃ a, PCreate a (Some 77) ∈ ps_trace s' ∧ ∀ l, AHandles l ∉ cp_attrs a) as (a & Ha & Hn).
  { vm_compute in E. injection E as <- <-. eexists. split.
    - repeat first [apply elem_of_list_here | apply elem_of_list_further].
    - intros l Hi. cbn [cp_attrs] in Hi.
      repeat (apply elem_of_cons in Hi as [Hi|Hi]; [discriminate Hi|]). by apply elem_of_nil in Hi. }
  pose proof (H _ _ _ _ _ _ [3; 55] _ _ _ _ _ E Ha 55) as [H1 _].
  assert (55 ∈ [3]) as Hx.
  { apply H1. right. split; [done|]. repeat first [apply elem_of_list_here | apply elem_of_list_further]. }
  apply elem_of_list_singleton in Hx. discriminate Hx.
Qed.
Print Assumptions C89_refuted.
Example C89_example :
  ∃ p s' a, run_with good_env = Some (Ok p, s') ∧ PCreate a (Some 77) ∈ ps_trace s' ∧
    inherited [3; 55] a 3 ∧ ¬ inherited [3; 55] a 55.
Proof.
  destruct (run_with good_env) as [[[p|e] s']|] eqn:E; [|vm_compute in E; discriminate E..].
  assert (∃ a, PCreate a (Some 77) ∈ ps_trace s') as (a & Ha).
  { vm_compute in E. injection E as <- <-. eexists.
    repeat first [apply elem_of_list_here | apply elem_of_list_further]. }
  exists p, s', a. split; [done|]. split; [done|].
  assert (∀ l, PSet (AHandles l) false ∉ ps_trace s') as Hno.
  { vm_compute in E. injection E as <- <-. intros l Hi. cbn [ps_trace] in Hi.
    repeat (apply elem_of_cons in Hi as [Hi|Hi]; [discriminate Hi|]). by apply elem_of_nil in Hi. }
  pose proof (C89_partial _ _ _ _ _ _ [3; 55] _ _ _ _ _ E Ha Hno) as Hx.
  rewrite !Hx. split; [apply elem_of_list_here|].
  intros Hy. apply elem_of_list_singleton in Hy. discriminate Hy.
Qed.

(* ---------------------------------------------------------------- C90 *)

(** No AppContainer profile stays behind: not after a failure, and not after the worker
    object is dropped. *)
Definition C90_full : Prop :=
  ∀ fuel env sys windir c handles n r s' X,
  win_process_new fuel env sys windir c handles (mkPst [] n) = Some (r, s') →
  profiles (ps_trace (match r with Ok p => drop_process env p s' | Err _ => s' end)) X ⊆ X.
(** True if the first pass succeeds. *)
Theorem C90_partial fuel env sys windir c handles n p s' X :
  pe_appcontainers env = true →
  win_process_new fuel env sys windir c handles (mkPst [] n) = Some (Ok p, s') →
  lists (ps_trace s') = 1%nat →
  profiles (ps_trace (drop_process env p s')) X ⊆ X.
Proof.
  intros Happ H H1. destruct (process_new_cases _ _ _ _ _ _ _ _ _ H) as [[-> [e ?]]|(dir & _ & Hl)];
    [done|].
  destruct (create_loop_spec _ _ _ _ _ _ _ Hl) as (es & Hf).
  pose proof (lf_trace _ _ _ _ _ _ _ Hf) as Ht. cbn [ps_trace app] in Ht.
  rewrite Ht in H1. pose proof (lf_one _ _ _ _ _ _ _ Hf H1 p X eq_refl) as Hx.
  unfold drop_process. destruct (wp_container p) as [name|].
  - rewrite Happ. unfold plog. cbn [ps_trace]. rewrite profiles_app, Ht.
    unfold profiles at 1. simpl. set_solver.
  - rewrite Ht. set_solver.
Qed.
Print Assumptions C90_partial.
(** In any case only profiles of its own names, at most one for each pass, are added, and
    only such are deleted. *)
Theorem C90_own_names fuel env sys windir c handles n r s' X :
  win_process_new fuel env sys windir c handles (mkPst [] n) = Some (r, s') →
  (∀ name, name ∈ profiles (ps_trace s') X → name ∈ X ∨
    ∃ i, n ≤ i < n + 6 ∧ name = container_name (pe_own_pid env) i) ∧
  (∀ name, PUnprofile name ∈ ps_trace s' → ∃ i, name = container_name (pe_own_pid env) i).
Proof.
  intros H. destruct (process_new_cases _ _ _ _ _ _ _ _ _ H) as [[-> _]|(dir & _ & Hl)].
  { split; [by left|]. intros name Hi. by apply elem_of_nil in Hi. }
  destruct (create_loop_spec _ _ _ _ _ _ _ Hl) as (es & Hf).
  pose proof (lf_trace _ _ _ _ _ _ _ Hf) as Ht. cbn [ps_trace app] in Ht. rewrite Ht.
  split; [|apply (lf_unprofile _ _ _ _ _ _ _ Hf)].
  intros name Hi. apply (lf_profiles _ _ _ _ _ _ _ Hf) in Hi.
  apply elem_of_union in Hi as [Hi|Hi]; [by left|right].
  pose proof (lf_lists _ _ _ _ _ _ _ Hf) as [_ H6]. rewrite weight_all in H6.
  cbn [ps_next] in Hi. revert Hi.
  assert (∀ k m, name ∈ own_names (pe_own_pid env) m k →
    ∃ i, m ≤ i < m + N.of_nat k ∧ name = container_name (pe_own_pid env) i) as Hown.
  { clear. induction k as [|k IH]; intros m Hi; cbn [own_names] in Hi; [set_solver|].
    apply elem_of_union in Hi as [Hi|Hi].
    - apply elem_of_singleton in Hi. exists m. split; [lia|done].
    - destruct (IH _ Hi) as (i & Hr & E). exists i. split; [lia|done]. }
  intros Hi. destruct (Hown _ _ Hi) as (i & Hr & E). exists i. split; [lia|done].
Qed.
Print Assumptions C90_own_names.
(** A retry leaves the profile of the pass before behind: here when the system knows no less
    privileged AppContainers, and when process creation fails for good. *)
Definition failing_env : penv :=
  mkPenv (λ _ _, true) true 4242 (λ _ _, 0%Z) (λ _ _, true) (λ _ _, None) (λ _, 900).
Theorem C90_refuted : ¬ C90_full.
Proof.
  intros H.
  destruct (win_process_new 6 (refusing_env KLess) no_sys win_dir some_config [3] (mkPst [] 1))
    as [[[p|e] s']|] eqn:E; [|vm_compute in E; discriminate E..].
  pose proof (H _ _ _ _ _ _ _ _ _ ∅ E) as Hs.
  vm_compute in E. injection E as <- <-.
  assert (lit "IrisAppContainer_4242_1" ∈ (∅ : gset str)) as Hx; [|by apply elem_of_empty in Hx].
  apply Hs. apply (bool_decide_unpack _). vm_compute. exact I.
Qed.
Print Assumptions C90_refuted.
Theorem C90_failure_refuted :
  ∃ e s', win_process_new 6 failing_env no_sys win_dir some_config [3] (mkPst [] 1) = Some (Err e, s') ∧
    lit "IrisAppContainer_4242_1" ∈ profiles (ps_trace s') ∅ ∧
    lit "IrisAppContainer_4242_2" ∈ profiles (ps_trace s') ∅.
Proof.
  destruct (win_process_new 6 failing_env no_sys win_dir some_config [3] (mkPst [] 1))
    as [[[p|e] s']|] eqn:E; [vm_compute in E; discriminate E| |vm_compute in E; discriminate E].
  exists e, s'. split; [done|]. vm_compute in E. injection E as <- <-.
  split; apply (bool_decide_unpack _); vm_compute; exact I.
Qed.
Print Assumptions C90_failure_refuted.
Example C90_example :
  ∃ p s', run_with good_env = Some (Ok p, s') ∧ lists (ps_trace s') = 1%nat ∧
    wp_container p = Some (lit "IrisAppContainer_4242_1") ∧
    profiles (ps_trace s') ∅ = {[ lit "IrisAppContainer_4242_1" ]}.
Proof.
  destruct (run_with good_env) as [[[p|e] s']|] eqn:E; [|vm_compute in E; discriminate E..].
  exists p, s'. split; [done|]. vm_compute in E. injection E as <- <-.
  split; [vm_compute; reflexivity|]. split; [vm_compute; reflexivity|].
  apply (bool_decide_unpack _). vm_compute. exact I.
Qed.

(* ---------------------------------------------------------------- C91 *)

(** The DLLs opened to AppContainers are those in the directory of the program. A path is
    a directory, empty or ending in a separator, and a name; both slashes separate. *)
Definition separator (b : byte) : Prop := b = x5c ∨ b = x2f.
Definition C91_full : Prop :=
  ∀ dir name, (dir = [] ∨ ∃ d b, dir = d ++ [b] ∧ separator b) →
  Forall (λ b, ¬ separator b) name →
  dll_pattern (executable_directory (dir ++ name)) = dir ++ lit "*.dll".
Theorem C91_partial d name :
  Forall (λ b, ¬ separator b) name →
  dll_pattern (executable_directory ((d ++ [x5c]) ++ name)) = (d ++ [x5c]) ++ lit "*.dll".
Proof.
  intros Hn.
  assert (executable_directory ((d ++ [x5c]) ++ name) = d ++ [x5c]) as ->.
  { rewrite <- app_assoc. apply (executable_directory_app d name).
    intros Hi. rewrite Forall_forall in Hn. apply (Hn _ Hi). by left. }
  unfold dll_pattern. rewrite last_snoc. rewrite decide_True by done. done.
Qed.
Print Assumptions C91_partial.
(** For any path without a backslash, a bare name or one with slashes, they are those in the
    root of the current drive. *)
Theorem C91_refuted exe :
  x5c ∉ exe → dll_pattern (executable_directory exe) = lit "\*.dll".
Proof. intros H. rewrite executable_directory_none by done. vm_compute. reflexivity. Qed.
Print Assumptions C91_refuted.
Theorem C91_full_refuted : ¬ C91_full.
Proof.
  intros H. specialize (H [] (lit "worker.exe") (or_introl eq_refl)).
  rewrite C91_refuted in H.
  - discriminate H. apply Forall_forall. intros b Hb [-> | ->]; revert Hb; by apply free_of_spec.
  - by apply free_of_spec.
Qed.
Print Assumptions C91_full_refuted.
Example C91_example :
  dll_pattern (executable_directory (lit "C:\app\w.exe")) = lit "C:\app\*.dll" ∧
  dll_pattern (lit "C:\Windows") = lit "C:\Windows\*.dll" ∧
  dll_pattern (executable_directory (lit "C:/app/w.exe")) = lit "\*.dll".
Proof. vm_compute. auto. Qed.

(* ---------------------------------------------------------------- C92 *)

(** Workers start in the configured directory. *)
Definition C92_full : Prop :=
  ∀ fuel env sys windir c handles n r s' a h d,
  win_process_new fuel env sys windir c handles (mkPst [] n) = Some (r, s') →
  PCreate a h ∈ ps_trace s' → cf_cwd c = Some d → cp_dir a = d.
(** They start in the Windows directory; the configured one is ignored. *)
Theorem C92_windows_directory fuel env sys windir c handles n r s' a h :
  win_process_new fuel env sys windir c handles (mkPst [] n) = Some (r, s') →
  PCreate a h ∈ ps_trace s' → windir = Some (cp_dir a).
Proof.
  intros H Hi. destruct (process_new_cases _ _ _ _ _ _ _ _ _ H) as [[-> _]|(dir & -> & Hl)].
  { by apply elem_of_nil in Hi. }
  destruct (create_loop_spec _ _ _ _ _ _ _ Hl) as (es & Hf).
  rewrite (lf_trace _ _ _ _ _ _ _ Hf) in Hi. simpl in Hi.
  destruct (lf_create _ _ _ _ _ _ _ Hf _ _ Hi) as (o & name & _ & ->). done.
Qed.
Print Assumptions C92_windows_directory.
Theorem C92_refuted : ¬ C92_full.
Proof.
  intros H.
  destruct (win_process_new 6 good_env no_sys win_dir some_config [3] (mkPst [] 1))
    as [[r s']|] eqn:E; [|vm_compute in E; discriminate E].
  assert (∃ a, PCreate a (Some 77) ∈ ps_trace s') as (a & Ha).
  { vm_compute in E. injection E as <- <-. eexists.
    repeat first [apply elem_of_list_here | apply elem_of_list_further]. }
  pose proof (H _ _ _ _ _ _ _ _ _ _ _ _ E Ha eq_refl) as H1.
  pose proof (C92_windows_directory _ _ _ _ _ _ _ _ _ _ _ E Ha) as H2.
  rewrite H1 in H2. discriminate H2.
Qed.
Print Assumptions C92_refuted.
Example C92_example :
  omap (λ e, match e with PCreate a (Some _) => Some (cp_dir a) | _ => None end)
    (default [] (ps_trace ∘ snd <$> run_with good_env)) = [lit "C:\Windows"] ∧
  cf_cwd some_config = Some (lit "C:\app").
Proof. vm_compute. auto. Qed.

(* ---------------------------------------------------------------- C93 *)

(** [IpcChannel::new] finds a pipe name, for any process id. *)
Definition C93_full : Prop :=
  ∀ os pid, pid < 2 ^ 32 → ∃ fuel r, find_pipe fuel os pid 0 = Some r.
(** It takes the first name not in use, below 2^31; the buffer is always large enough. *)
Lemma find_pipe_first os pid k id :
  pid < 2 ^ 32 → (0 ≤ id)%Z → (id + Z.of_nat (S k) < 2 ^ 31)%Z →
  (∀ j, (id < j < id + Z.of_nat (S k))%Z → os (pipe_path pid j) = PipeInUse) →
  os (pipe_path pid (id + Z.of_nat (S k))) ≠ PipeInUse →
  ∀ fuel, (S k ≤ fuel)%nat → find_pipe fuel os pid id =
    match os (pipe_path pid (id + Z.of_nat (S k))) with
    | PipeError e => Some (Err e)
    | _ => Some (Ok (id + Z.of_nat (S k))%Z)
    end.
Proof.
  intros Hp. revert id. induction k as [|k IH]; intros id H0 Hlt Hused Hfree fuel Hfuel.
  - destruct fuel as [|fuel]; [lia|]. rewrite find_pipe_step by done.
    rewrite next_id_small by lia. change (Z.of_nat 1) with 1%Z in *.
    destruct (os (pipe_path pid (id + 1))); done.
  - destruct fuel as [|fuel]; [lia|]. rewrite find_pipe_step by done.
    rewrite next_id_small by lia. rewrite Hused by lia.
    replace (id + Z.of_nat (S (S k)))%Z with (id + 1 + Z.of_nat (S k))%Z in * by lia.
    apply IH; [lia|lia| |done|lia]. intros j Hj. apply Hused. lia.
Qed.
Theorem C93_partial os pid k :
  pid < 2 ^ 32 → (Z.of_nat (S k) < 2 ^ 31)%Z →
  (∀ j, (0 < j < Z.of_nat (S k))%Z → os (pipe_path pid j) = PipeInUse) →
  os (pipe_path pid (Z.of_nat (S k))) ≠ PipeInUse →
  ∀ fuel, (S k ≤ fuel)%nat → find_pipe fuel os pid 0 =
    match os (pipe_path pid (Z.of_nat (S k))) with
    | PipeError e => Some (Err e)
    | _ => Some (Ok (Z.of_nat (S k)))
    end.
Proof. intros. by apply (find_pipe_first os pid k 0). Qed.
Print Assumptions C93_partial.
(** If the system answers "access denied" for every name it never ends. *)
Theorem C93_refuted : ¬ C93_full.
Proof.
  intros H. destruct (H (λ _, PipeInUse) 4 ltac:(lia)) as (fuel & r & E).
  revert E. generalize 0%Z. induction fuel as [|fuel IH]; intros id E; [done|].
  rewrite find_pipe_step in E by lia. by apply IH in E.
Qed.
Print Assumptions C93_refuted.
Example C93_example :
  pipe_path 4242 1 = lit "\\.\pipe\ipc-4242-1" ++ [x00] ∧
  find_pipe 5 (λ p, if bool_decide (p = pipe_path 4242 3) then PipeOk else PipeInUse) 4242 0 =
    Some (Ok 3%Z) ∧
  next_id (2 ^ 31 - 1) = (- 2 ^ 31)%Z.
Proof. vm_compute. auto. Qed.
