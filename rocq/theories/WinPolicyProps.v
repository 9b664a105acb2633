(** Properties C61, C62, C65, C66, C67, C83 and C84. *)
From stdpp Require Import prelude gmap.
From Verif Require Import Bytes BytesProofs PolicyModel PolicySpec PolicyProofs
  LinuxPolicyModel LinuxPolicySpec LinuxPolicyProofs WinPolicyModel WinPolicySpec WinPolicyProofs.
Local Open Scope Z_scope.

(** The verdict an enforcing policy built by [calls] gives. *)
Definition win_verdict (debug : bool) (calls : list win_call) (req : win_request) : verdict :=
  (win_evaluate_request debug (win_build false calls) req).1.

(* ---------------------------------------------------------------- C61 *)

(** For every path that has components: granted exactly when every bit is supported,
    some rule covers the path, and each right needed is given by a covering rule. *)
Theorem C61_exact calls f cs :
  well_formed cs → names backslash (fr_path f) cs →
  win_verdict false calls (WinFileOpen f) = Granted ↔ win_should_grant calls f cs.
Proof.
  intros Hc Hp. unfold win_verdict. rewrite win_evaluate_enforcing. by apply win_check_exact.
Qed.
Print Assumptions C61_exact.

(** A path string, malformed or not, gets a right from a rule whose NT path is this one, or
    from a directory rule whose NT path ends just before a separator of it. *)
Definition string_entitled (calls : list win_call) (path : str) (x : right) : Prop :=
  ∃ r full, WinRule r full ∈ calls ∧ rule_gives r x ∧
    drive_absolute (default (rule_path r) full) ∧
    ∃ key p, (nt_form (default (rule_path r) full) = key ∨
              nt_form (default (rule_path r) full) = key ++ [backslash]) ∧
      (path = p ∨ path = p ++ [backslash]) ∧
      (key = p ∨ (rule_is_dir r ∧ ∃ rest, p = key ++ backslash :: rest)).

(** For every path string, also malformed: a granted request only has supported bits, its
    path begins with a separator, some rule is for that path, and each right needed comes
    from such a rule. *)
Theorem C61_sound calls f :
  win_verdict false calls (WinFileOpen f) = Granted →
  file_supported f ∧ (∃ t, fr_path f = backslash :: t) ∧
  (∃ x, string_entitled calls (fr_path f) x) ∧
  ∀ x, file_needs f x → string_entitled calls (fr_path f) x.
Proof.
  unfold win_verdict. rewrite win_evaluate_enforcing. simpl. rewrite win_check_release.
  intros (Hs & Hp & Hx & Hn). split; [done|]. split.
  { unfold win_path_is_sane in Hp. destruct (fr_path f) as [|y t]; [done|].
    simpl in Hp. exists t. f_equal. by apply bool_decide_eq_true in Hp. }
  assert (∀ x, has (get_filepath_allowed_access backslash (win_build false calls) (fr_path f)) x = true →
    string_entitled calls (fr_path f) x) as Hall.
  { intros x Hr. apply win_rights_prefix in Hr as (r & full & H1 & H2 & H3 & H4).
    exists r, full. split_and!; try done.
    exists (strip_suffix_or_self backslash (nt_form (default (rule_path r) full))),
      (strip_suffix_or_self backslash (fr_path f)).
    split_and!; [| |exact H4].
    - destruct (strip_suffix_or_self_cases backslash (nt_form (default (rule_path r) full)))
        as [E|[E _]]; [by right|by left].
    - destruct (strip_suffix_or_self_cases backslash (fr_path f)) as [E|[E _]]; [by right|by left]. }
  split; [|by eauto]. destruct Hx as [x Hx]. exists x. by apply Hall.
Qed.
Print Assumptions C61_sound.

Definition ex_calls : list win_call :=
  [WinRule (AllowDirRead (lit "C:\Windows")) (Some (lit "C:\Windows"));
   WinRule (AllowDirLock (lit "C:\Windows\Temp\") true false true) None;
   WinRule (AllowFileWrite (lit "log.txt")) (Some (lit "D:\app\log.txt"))].
(** GENERIC_READ of a file below C:\Windows\Temp, sharing only writes. *)
Definition ex_req (path : str) (access share disposition options : Z) : file_request :=
  mkFileReq path access 0x80 share disposition options [].
Example C61_example :
  win_verdict false ex_calls
    (WinFileOpen (ex_req (lit "\??\C:\Windows\Temp\a.txt") 0x80100000 2 1 0x200000)) = Granted ∧
  win_verdict false ex_calls
    (WinFileOpen (ex_req (lit "\??\C:\Windows\Temp\a.txt") 0x80100000 0 1 0x200000)) =
    DeniedByPolicy (lit "requests to block other readers writers deleters but can only block readers deleters") ∧
  win_verdict false ex_calls
    (WinFileOpen (ex_req (lit "\??\D:\app\log.txt") 0x40000000 7 5 0x200000)) = Granted ∧
  win_verdict false ex_calls
    (WinFileOpen (ex_req (lit "\??\D:\app\log.txt") 0x80000000 7 1 0x200000)) =
    DeniedByPolicy (lit "requests read-only, but can only write") ∧
  (∃ cs, well_formed cs ∧ names backslash (lit "\??\C:\Windows\Temp\a.txt") cs).
Proof.
  split; [by vm_compute|]. split; [by vm_compute|]. split; [by vm_compute|].
  split; [by vm_compute|].
  exists [lit "??"; lit "C:"; lit "Windows"; lit "Temp"; lit "a.txt"]. split.
  - split; [done|]. repeat constructor; try done; apply no_backslash; by vm_compute.
  - left. done.
Qed.

(* ---------------------------------------------------------------- C62 *)

(** Renaming a file does not change the verdict when the rules cover both names alike. *)
Definition C62_full (debug : bool) : Prop :=
  ∀ calls f f' cs cs',
    well_formed cs → names backslash (fr_path f) cs →
    well_formed cs' → names backslash (fr_path f') cs' →
    f' = mkFileReq (fr_path f') (fr_access f) (fr_attributes f) (fr_share f)
           (fr_disposition f) (fr_options f) (fr_ea f) →
    (∀ x, win_entitled calls cs x ↔ win_entitled calls cs' x) →
    win_verdict debug calls (WinFileOpen f) = Granted ↔
    win_verdict debug calls (WinFileOpen f') = Granted.

(** Release builds. *)
Theorem C62_release_partial : C62_full false.
Proof.
  intros calls f f' cs cs' Hc Hp Hc' Hp' Ef He.
  rewrite (C61_exact calls f cs Hc Hp), (C61_exact calls f' cs' Hc' Hp').
  unfold win_should_grant.
  assert (file_supported f' ↔ file_supported f) as -> by (rewrite Ef; done).
  assert (∀ x, file_needs f' x ↔ file_needs f x) as Hn
    by (intros x; rewrite Ef; by destruct x).
  setoid_rewrite Hn. setoid_rewrite He. done.
Qed.
Print Assumptions C62_release_partial.

(** Builds with debug assertions: an empty policy lets a worker overwrite any file with
    ".pdb" anywhere in its path. *)
Theorem C62_debug_refuted : ¬ C62_full true.
Proof.
  intros H.
  set (mk p := ex_req p 0x40000000 0 5 0).
  assert (win_verdict true [] (WinFileOpen (mk (lit "\??\C:\x.pdb\y.exe"))) = Granted ↔
    win_verdict true [] (WinFileOpen (mk (lit "\??\C:\x.txt\y.exe"))) = Granted) as Hiff.
  { apply (H [] (mk (lit "\??\C:\x.pdb\y.exe")) (mk (lit "\??\C:\x.txt\y.exe"))
      [lit "??"; lit "C:"; lit "x.pdb"; lit "y.exe"] [lit "??"; lit "C:"; lit "x.txt"; lit "y.exe"]).
    - split; [done|]. repeat constructor; try done; apply no_backslash; by vm_compute.
    - by left.
    - split; [done|]. repeat constructor; try done; apply no_backslash; by vm_compute.
    - by left.
    - done.
    - intros x. unfold win_entitled. setoid_rewrite elem_of_nil. naive_solver. }
  destruct Hiff as [Hiff _]. specialize (Hiff ltac:(by vm_compute)). by vm_compute in Hiff.
Qed.
Print Assumptions C62_debug_refuted.

Example C62_example :
  win_verdict true [] (WinFileOpen (ex_req (lit "\??\C:\x.pdb\y.exe") 0x40000000 0 5 0)) = Granted ∧
  win_verdict false [] (WinFileOpen (ex_req (lit "\??\C:\x.pdb\y.exe") 0x40000000 0 5 0x200000)) =
    DeniedByPolicy (lit "has no access to that path").
Proof. split; by vm_compute. Qed.

(* ---------------------------------------------------------------- C65 *)

Definition C65_full : Prop :=
  ∀ calls path cs desired options do_create,
    Forall good_reg_call calls → well_formed cs → names backslash path cs →
    win_verdict false calls (WinRegKeyOpen path desired options do_create) = Granted ↔
    reg_should_grant calls cs desired options do_create.

(** Nothing is granted without the rules for it. *)
Theorem C65_sound debug calls path cs desired options do_create :
  Forall good_reg_call calls → well_formed cs → names backslash path cs →
  win_verdict debug calls (WinRegKeyOpen path desired options do_create) = Granted →
  reg_should_grant calls cs desired options do_create.
Proof.
  intros Hg Hc Hp. unfold win_verdict. rewrite win_evaluate_enforcing. simpl.
  rewrite check_reg_granted.
  assert (∀ x, rhas (get_regkey_allowed_access (win_build false calls) path) x = true ↔
    reg_entitled calls cs x) as HR by (intros x; by apply reg_rights).
  setoid_rewrite HR. intros (Hs & He & Hn). split_and!; [done|done|].
  intros [] Hx; apply Hn; simpl in *.
  - destruct Hx as (n & Hin & Hb). exists n. split; [|done]. set_solver.
  - destruct Hx as [(n & Hin & Hb)|?]; [|by right]. left. exists n. split; [|done]. set_solver.
Qed.
Print Assumptions C65_sound.

(** With every key path string: the key of the rule is the requested key or an ancestor. *)
Theorem C65_sound_any_path debug calls path desired options do_create :
  win_verdict debug calls (WinRegKeyOpen path desired options do_create) = Granted →
  key_supported desired options ∧
  ∀ x, reg_needs desired do_create x →
    ∃ rpath sid root nt rest,
      (match x with RegRead => WinRegRead rpath sid | RegWrite => WinRegWrite rpath sid end) ∈ calls ∧
      (root, nt) ∈ root_keys sid ∧ rpath = root ++ rest ∧
      ∃ key p, (render backslash nt ++ rest = key ∨
                render backslash nt ++ rest = key ++ [backslash]) ∧
        (path = p ∨ path = p ++ [backslash]) ∧
        (key = p ∨ ∃ sub, p = key ++ backslash :: sub).
Proof.
  unfold win_verdict. rewrite win_evaluate_enforcing. simpl.
  rewrite check_reg_granted. intros (Hs & _ & Hn). split; [done|]. intros x Hx.
  assert (reg_asked desired do_create x) as Ha.
  { destruct x; simpl in *.
    - destruct Hx as (n & Hin & Hb). exists n. split; [|done]. set_solver.
    - destruct Hx as [(n & Hin & Hb)|?]; [|by right]. left. exists n. split; [|done]. set_solver. }
  apply Hn in Ha. unfold get_regkey_allowed_access in Ha.
  apply reg_walk_prefix in Ha as [Ha|(k & Hk & H)]; [by destruct x|].
  apply win_build_reg in Hk as (c & Hin & rpath & sid & k' & -> & (root & nt & rest & H1 & H2 & ->) & H3).
  exists rpath, sid, root, nt, rest. split_and!; try done.
  exists k, (strip_suffix_or_self backslash path). split_and!; [| |exact H].
  - destruct (strip_suffix_or_self_cases backslash (render backslash nt ++ rest)) as [E|[E _]];
      rewrite H3 in E; [by right|by left].
  - destruct (strip_suffix_or_self_cases backslash path) as [E|[E _]]; [by right|by left].
Qed.
Print Assumptions C65_sound_any_path.

(** Complete for masks without notify, view, read-security and synchronise bits. With one
    of those bits the library asks for both a read and a write rule. *)
Theorem C65_complete_partial debug calls path cs desired options do_create :
  Forall good_reg_call calls → well_formed cs → names backslash path cs →
  win_verdict debug calls (WinRegKeyOpen path desired options do_create) = Granted ↔
  reg_should_grant calls cs desired options do_create ∧
  (key_harmless desired → reg_entitled calls cs RegRead ∧ reg_entitled calls cs RegWrite).
Proof.
  intros Hg Hc Hp. unfold win_verdict. rewrite win_evaluate_enforcing. simpl.
  rewrite check_reg_granted.
  assert (∀ x, rhas (get_regkey_allowed_access (win_build false calls) path) x = true ↔
    reg_entitled calls cs x) as HR by (intros x; by apply reg_rights).
  setoid_rewrite HR. unfold reg_should_grant.
  assert ((∀ x, reg_asked desired do_create x → reg_entitled calls cs x) ↔
    (∀ x, reg_needs desired do_create x → reg_entitled calls cs x) ∧
    (key_harmless desired → reg_entitled calls cs RegRead ∧ reg_entitled calls cs RegWrite)) as ->.
  { split.
    - intros H. split.
      + intros [] Hx; apply H; simpl in *.
        * destruct Hx as (n & Hin & Hb). exists n. split; [|done]. set_solver.
        * destruct Hx as [(n & Hin & Hb)|?]; [|by right]. left. exists n. split; [|done]. set_solver.
      + intros (n & Hin & Hb). split; apply H; [|left]; exists n; (split; [|done]); set_solver.
    - intros [H1 H2] [] Hx; simpl in Hx.
      + destruct Hx as (n & Hin & Hb).
        rewrite !elem_of_cons, elem_of_nil in Hin.
        destruct Hin as [->|[->|[->|[->|[->|[->|[->|[]]]]]]]].
        1,2: apply (H1 RegRead); eexists; (split; [|exact Hb]); set_solver.
        all: apply H2; eexists; (split; [|exact Hb]); set_solver.
      + destruct Hx as [(n & Hin & Hb)|Hx]; [|apply (H1 RegWrite); by right].
        rewrite !elem_of_cons, elem_of_nil in Hin.
        destruct Hin as [->|[->|[->|[->|[->|[->|[->|[->|[->|[->|[]]]]]]]]]]].
        1,2,6,8,9: apply (H1 RegWrite); left; eexists; (split; [|exact Hb]); set_solver.
        all: apply H2; eexists; (split; [|exact Hb]); set_solver. }
  tauto.
Qed.
Print Assumptions C65_complete_partial.

(** KEY_READ (0x20019) is refused to a worker with a read rule: READ_CONTROL and KEY_NOTIFY
    count as writing. *)
Theorem C65_key_read_refuted : ¬ C65_full.
Proof.
  intros H.
  set (calls := [WinRegRead (lit "HKEY_LOCAL_MACHINE\SOFTWARE\App") (lit "S-1-5-18")]).
  set (cs := [lit "REGISTRY"; lit "MACHINE"; lit "SOFTWARE"; lit "App"]).
  assert (win_verdict false calls (WinRegKeyOpen (lit "\REGISTRY\MACHINE\SOFTWARE\App") 0x20019 0 false)
    = Granted) as Hg.
  { apply (H calls _ cs).
    - repeat constructor; [done|apply no_backslash; by vm_compute|]. intros _.
      exists (lit "HKEY_LOCAL_MACHINE"), [lit "REGISTRY"; lit "MACHINE"], (lit "\SOFTWARE\App").
      split; [do 2 apply elem_of_list_further; apply elem_of_list_here|]. split; [done|]. right. eauto.
    - split; [done|]. repeat constructor; try done; apply no_backslash; by vm_compute.
    - by left.
    - assert (reg_entitled calls cs RegRead) as He.
      { exists (lit "HKEY_LOCAL_MACHINE\SOFTWARE\App"), (lit "S-1-5-18"), cs, []. split_and!.
        - apply elem_of_list_here.
        - done.
        - exists (lit "HKEY_LOCAL_MACHINE"), [lit "REGISTRY"; lit "MACHINE"],
            [lit "SOFTWARE"; lit "App"], (lit "\SOFTWARE\App").
          split; [do 2 apply elem_of_list_further; apply elem_of_list_here|].
          split; [done|]. split; [by left|done]. }
      split_and!.
      + split.
        * apply (only_bits_spec (ors [KEY_READ_RIGHTS; KEY_WRITE_RIGHTS; KEY_ALWAYS_GRANTED_RIGHTS]));
            by vm_compute.
        * apply (only_bits_spec (ors [REG_OPTION_VOLATILE; REG_OPTION_NON_VOLATILE])); by vm_compute.
      + eauto.
      + intros [] Hx; [done|]. exfalso. simpl in Hx. destruct Hx as [(n & Hin & Hb)|Hx]; [|done].
        rewrite !elem_of_cons, elem_of_nil in Hin.
        destruct Hin as [->|[->|[->|[->|[->|[]]]]]]; vm_compute in Hb; discriminate Hb. }
  vm_compute in Hg. discriminate Hg.
Qed.
Print Assumptions C65_key_read_refuted.

Example C65_example :
  let calls := [WinRegRead (lit "HKEY_CURRENT_USER\Software\") (lit "S-1-5-21-7");
                WinRegWrite (lit "HKEY_CURRENT_USER\Software\App") (lit "S-1-5-21-7")] in
  win_verdict false calls
    (WinRegKeyOpen (lit "\REGISTRY\USER\S-1-5-21-7\Software\App\Cfg\") 0x20019 0 false) = Granted ∧
  win_verdict false calls
    (WinRegKeyOpen (lit "\REGISTRY\USER\S-1-5-21-7\Software\Other") 0x1 0 false) = Granted ∧
  win_verdict false calls
    (WinRegKeyOpen (lit "\REGISTRY\USER\S-1-5-21-7\Software\Other") 0x20019 0 false) =
    DeniedByPolicy (lit "requests read-write access, but can only read") ∧
  win_verdict false calls
    (WinRegKeyOpen (lit "\REGISTRY\USER\S-1-5-21-7\Software\Other") 0x1 0 true) =
    DeniedByPolicy (lit "requests read-write access, but can only read").
Proof. split_and!; by vm_compute. Qed.

(* ---------------------------------------------------------------- C66 *)

Definition reads_only (f : file_request) : Prop :=
  file_supported f ∧ ∀ x, file_needs f x → x = RRead.

Definition C66_full : Prop :=
  ∀ calls path full q f,
    win_apply_call (win_build false calls) (WinRule (AllowFileRead path) full) = Ok q →
    fr_path f = nt_form (default path full) → reads_only f →
    (win_evaluate_request false q (WinFileOpen f)).1 = Granted.

(** When the absolute path has a drive letter and no empty component. *)
Theorem C66_drive_partial calls path full q f cs :
  win_apply_call (win_build false calls) (WinRule (AllowFileRead path) full) = Ok q →
  drive_absolute (default path full) → well_formed cs →
  names backslash (nt_form (default path full)) cs →
  names backslash (fr_path f) cs → reads_only f →
  (win_evaluate_request false q (WinFileOpen f)).1 = Granted.
Proof.
  intros Hq Hd Hc Hn Hp [Hs Hr].
  assert (q = win_build false (calls ++ [WinRule (AllowFileRead path) full])) as ->.
  { unfold win_build. rewrite foldl_app. fold (win_build false calls). cbn [foldl].
    unfold win_apply_call_ignore. by rewrite Hq. }
  apply (C61_exact _ f cs Hc Hp).
  assert (win_entitled (calls ++ [WinRule (AllowFileRead path) full]) cs RRead) as He.
  { exists (AllowFileRead path), full. split_and!.
    - apply elem_of_app. right. apply elem_of_list_here.
    - split; [done|]. left. split; [by intros []|done].
    - done. }
  split_and!; [done|by eauto|]. intros x Hx. by rewrite (Hr x Hx).
Qed.
Print Assumptions C66_drive_partial.

(** A UNC path: the call succeeds and nothing at all is granted afterwards. *)
Theorem C66_refuted : ¬ C66_full.
Proof.
  intros H.
  assert ((win_evaluate_request false (win_build false [])
    (WinFileOpen (ex_req (nt_form (lit "\\server\share\f.txt")) 0x80000000 7 1 0x200000))).1 = Granted) as E.
  { eapply (H [] (lit "\\server\share\f.txt") (Some (lit "\\server\share\f.txt"))).
    - reflexivity.
    - reflexivity.
    - split.
      + unfold file_supported. split_and!.
        * apply (only_bits_spec (ors [FILE_ALWAYS_GRANTED_RIGHTS; FILE_READ_RIGHTS; FILE_WRITE_RIGHTS]));
            by vm_compute.
        * apply (only_bits_spec SUPPORTED_FILE_ATTRIBUTES); by vm_compute.
        * by vm_compute.
        * simpl. lia.
        * simpl. lia.
      + intros x Hx. destruct x; [done|exfalso..]; simpl in Hx.
        * destruct Hx as [(n & Hin & Hb)|[?|[Hb|?]]]; [|simpl in *; lia|by vm_compute in Hb|done].
          rewrite !elem_of_cons, elem_of_nil in Hin.
          destruct Hin as [->|[->|[->|[->|[->|[->|[->|[->|[->|[]]]]]]]]]]; by vm_compute in Hb.
        * apply Hx. by vm_compute.
        * apply Hx. by vm_compute.
        * apply Hx. by vm_compute. }
  by vm_compute in E.
Qed.
Print Assumptions C66_refuted.

(** A rule has an effect only if its absolute path has a drive letter. *)
Theorem C66_no_effect calls r full :
  ¬ drive_absolute (default (rule_path r) full) →
  win_apply_call (win_build false calls) (WinRule r full) = Ok (win_build false calls).
Proof.
  intros Hd. simpl. rewrite win_apply_rule_eq.
  rewrite bool_decide_eq_false_2; [done|]. by rewrite drive_absolute_spec.
Qed.
Print Assumptions C66_no_effect.

Example C66_example :
  ∃ q, win_apply_call (win_build false []) (WinRule (AllowFileRead (lit "a.txt")) (Some (lit "C:\w\a.txt")))
         = Ok q ∧
    (win_evaluate_request false q (WinFileOpen
       (ex_req (lit "\??\C:\w\a.txt") 0x80000000 7 1 0x200000))).1 = Granted.
Proof. eexists. split; [reflexivity|]. by vm_compute. Qed.

(* ---------------------------------------------------------------- C67 *)

Definition C67_full : Prop :=
  ∀ sid path, sid ≠ [] ∧ backslash ∉ sid →
    (root_key_path sid path →
       ∃ k, derive_reg_key_paths sid path = Ok [k] ∧
         ∀ cs, Forall (λ c, c ≠ [] ∧ backslash ∉ c) cs →
           names backslash k cs ↔ key_names sid path cs) ∧
    (¬ root_key_path sid path →
       derive_reg_key_paths sid path = Err (UnsupportedRegistryPath path)).

(** Well-formed key paths are translated to the NT path of the same key; paths that do
    not begin like a root key are rejected. *)
Theorem C67_partial sid path :
  sid ≠ [] ∧ backslash ∉ sid →
  (root_key_path sid path →
     ∃ k, derive_reg_key_paths sid path = Ok [k] ∧
       ∀ cs, Forall (λ c, c ≠ [] ∧ backslash ∉ c) cs →
         names backslash k cs ↔ key_names sid path cs) ∧
  ((∀ root nt rest, (root, nt) ∈ root_keys sid → path ≠ root ++ rest) →
     derive_reg_key_paths sid path = Err (UnsupportedRegistryPath path)).
Proof.
  intros Hsid. split.
  - intros Hroot. pose proof Hroot as (root & nt & rest & Hin & Hp & Hr).
    exists (render backslash nt ++ rest). split.
    { apply derive_reg_Ok. eexists. split; [done|]. by exists root, nt, rest. }
    intros cs Hcs.
    pose proof (reg_hits_names cs RegRead (WinRegRead path sid) Hcs) as H.
    rewrite <-strip_names by done. split.
    + intros E. destruct H as [H _]; [split; [done|by intros _]|].
      destruct H as (path' & sid' & [= <- <-] & Hk); [|done].
      exists path, sid, (render backslash nt ++ rest). split_and!; [done|by exists root, nt, rest|done].
    + intros Hk. destruct H as [_ H]; [split; [done|by intros _]|].
      destruct H as (path' & sid' & k' & [= <- <-] & Hnt & E); [by exists path, sid|].
      assert (k' = render backslash nt ++ rest) as -> by
        (eapply nt_key_fun; [done|by exists root, nt, rest]). done.
  - intros H. destruct (derive_reg_cases sid path) as [(k & Hk & _)|[_ E]]; [|done].
    destruct Hk as (root & nt & rest & H1 & H2 & _). exfalso. by eapply H.
Qed.
Print Assumptions C67_partial.

(** HKEY_CURRENT_USER_LOCAL_SETTINGS, another root key, is taken for the key
    "<sid>_LOCAL_SETTINGS" of the users' hive. *)
Theorem C67_refuted : ¬ C67_full.
Proof.
  intros H. destruct (H (lit "S-1-5-18") (lit "HKEY_CURRENT_USER_LOCAL_SETTINGS\Software")) as [_ H2].
  { split; [done|]. apply no_backslash. by vm_compute. }
  assert (derive_reg_key_paths (lit "S-1-5-18") (lit "HKEY_CURRENT_USER_LOCAL_SETTINGS\Software")
    = Ok [lit "\REGISTRY\USER\S-1-5-18_LOCAL_SETTINGS\Software"]) as E by (by vm_compute).
  rewrite E in H2. discriminate H2. intros (root & nt & rest & Hin & Hp & Hr).
  unfold root_keys in Hin. rewrite !elem_of_cons, elem_of_nil in Hin.
  destruct Hin as [[= -> ->]|[[= -> ->]|[[= -> ->]|[[= -> ->]|[[= -> ->]|[]]]]]]; try discriminate Hp.
  simpl in Hp. injection Hp as <-. destruct Hr as [Hr|(t & Hr)]; discriminate Hr.
Qed.
Print Assumptions C67_refuted.

Example C67_example :
  derive_reg_key_paths (lit "S-1-5-18") (lit "HKEY_CURRENT_USER\Software\A\") =
    Ok [lit "\REGISTRY\USER\S-1-5-18\Software\A\"] ∧
  derive_reg_key_paths (lit "S-1-5-18") (lit "HKEY_USERSFOO") = Ok [lit "\REGISTRY\USERFOO"] ∧
  derive_reg_key_paths (lit "S-1-5-18") (lit "HKLM\Software") =
    Err (UnsupportedRegistryPath (lit "HKLM\Software")).
Proof. split_and!; by vm_compute. Qed.

(* ---------------------------------------------------------------- C83 *)

(** A handle that can read needs a read rule. *)
Definition C83_full : Prop :=
  ∀ calls f cs, well_formed cs → names backslash (fr_path f) cs →
    win_verdict false calls (WinFileOpen f) = Granted →
    (file_reads f → win_entitled calls cs RRead) ∧ (file_writes f → win_entitled calls cs RWrite).

(** Writing always needs a write rule; reading needs a read rule when an existing file can
    be opened with its contents. *)
Theorem C83_partial calls f cs :
  well_formed cs → names backslash (fr_path f) cs →
  win_verdict false calls (WinFileOpen f) = Granted →
  (file_reads f → fr_disposition f = 1 ∨ fr_disposition f = 3 → win_entitled calls cs RRead) ∧
  (file_writes f → win_entitled calls cs RWrite).
Proof.
  intros Hc Hp Hg. apply (C61_exact calls f cs Hc Hp) in Hg as (_ & _ & Hn). split.
  - intros Hr Hd. apply (Hn RRead). by split.
  - apply (Hn RWrite).
Qed.
Print Assumptions C83_partial.

(** Replacing a file with a handle that can also read it takes a write rule only; the
    handle then sees what others write to the file. *)
Theorem C83_refuted : ¬ C83_full.
Proof.
  intros H.
  set (calls := [WinRule (AllowFileWrite (lit "C:\log")) None]).
  set (cs := [lit "??"; lit "C:"; lit "log"]).
  destruct (H calls (ex_req (lit "\??\C:\log") 0xC0000000 7 0 0x200000) cs) as [Hr _].
  - split; [done|]. repeat constructor; try done; apply no_backslash; by vm_compute.
  - by left.
  - by vm_compute.
  - destruct Hr as (r & full & Hin & _ & Hg).
    + exists 31. split; [set_solver|by vm_compute].
    + apply elem_of_list_singleton in Hin as [= -> ->]. done.
Qed.
Print Assumptions C83_refuted.

Example C83_example :
  win_verdict false [WinRule (AllowFileWrite (lit "C:\log")) None]
    (WinFileOpen (ex_req (lit "\??\C:\log") 0xC0000000 7 3 0x200000)) =
    DeniedByPolicy (lit "requests read and write, but can only write") ∧
  win_verdict false [WinRule (AllowFileWrite (lit "C:\log")) None]
    (WinFileOpen (ex_req (lit "\??\C:\log") 0xC0000000 7 2 0x200000)) = Granted.
Proof. split; by vm_compute. Qed.

(* ---------------------------------------------------------------- C84 *)

(** As on Linux, a granted path has no "." or ".." component. *)
Definition C84_full : Prop :=
  ∀ calls f, win_verdict false calls (WinFileOpen f) = Granted →
    ∃ cs, cs ≠ [] ∧ Forall (good_name backslash) cs ∧ names backslash (fr_path f) cs.

(** The Windows check only looks at the first character. *)
Theorem C84_refuted : ¬ C84_full.
Proof.
  intros H.
  destruct (H [WinRule (AllowDirRead (lit "C:\d")) None]
    (ex_req (lit "\??\C:\d\..\secret") 0x80000000 7 1 0x200000)) as (cs & Hn & Hg & Hp).
  { by vm_compute. }
  assert (Forall (plain_name backslash) cs) as Hpl
    by (eapply Forall_impl; [exact Hg|]; apply good_plain).
  apply strip_names in Hp; [|done].
  change (strip_suffix_or_self backslash _) with
    (render backslash [lit "??"; lit "C:"; lit "d"; lit ".."; lit "secret"]) in Hp.
  apply render_inj in Hp; [|repeat constructor; try done; apply no_backslash; by vm_compute|done].
  rewrite <-Hp in Hg. rewrite Forall_forall in Hg.
  destruct (Hg (lit "..")) as (_ & _ & _ & Hdd); [|by apply Hdd].
  repeat first [apply elem_of_list_here | apply elem_of_list_further].
Qed.
Print Assumptions C84_refuted.

(** Granted paths begin with a separator. *)
Theorem C84_partial debug calls f :
  (debug = true → contains (lit ".pdb") (fr_path f) = false) →
  win_verdict debug calls (WinFileOpen f) = Granted → ∃ t, fr_path f = backslash :: t.
Proof.
  intros Hd Hg.
  assert (win_verdict false calls (WinFileOpen f) = Granted) as Hg'.
  { unfold win_verdict in *. rewrite win_evaluate_enforcing in *. simpl in *.
    unfold win_check_file_open in *. destruct debug; [|done]. rewrite Hd in Hg by done. done. }
  apply C61_sound in Hg' as (_ & ? & _). done.
Qed.
Print Assumptions C84_partial.

Example C84_example :
  win_verdict false [WinRule (AllowDirRead (lit "C:\d")) None]
    (WinFileOpen (ex_req (lit "\??\C:\d\..\secret") 0x80000000 7 1 0x200000)) = Granted ∧
  win_verdict false [WinRule (AllowDirRead (lit "C:\d")) None]
    (WinFileOpen (ex_req (lit "C:\d\x") 0x80000000 7 1 0x200000)) =
  InvalidRequestParameters (lit "path") (lit "path to open ""C:\d\x"" is not in canonical form").
Proof. split; by vm_compute. Qed.
