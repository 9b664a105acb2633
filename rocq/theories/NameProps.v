(** Property C174: does a name mean the same file in a call that the kernel carries out for
    the worker (newfstatat) and in one that the broker carries out (open)? *)
From stdpp Require Import prelude gmap.
From Coq Require Import Strings.Byte ZifyN ZifyNat ZifyBool.
From Verif Require Import Bytes BytesProofs PolicyModel PolicySpec PolicyProofs LinuxPolicyModel
  LinuxPolicySpec LinuxPolicyProofs PostcardModel PostcardSpec PostcardProofs FdModel FdProofs ChannelModel
  BrokerModel BrokerSpec BrokerProofs BrokerProps WorkerModel WorkerSpec WorkerProofs WorkerProps
  FsModel FsProps NameModel.
Local Open Scope N_scope.

(** What newfstatat says of a name fits what open made of it: it described the object that
    was opened, or said there was none when a new file was made. *)
Definition described (s : fs) (p : proc) (path : str) (o : opened) : Prop :=
  match o with
  | Existing i => kernel_fstatat s p path 0 = Ok i
  | New _ _ => kernel_fstatat s p path 0 = Err ENOENT
  end.

(** A program opens [path] and gets a descriptor of [o]. [s] are the files, the same all
    along, [q] is the broker, [p] the worker. *)
Definition opened_by_name (env : wenv) (calls : list api_call) (s : fs) (p q : proc) (path : str)
  (o : opened) : Prop :=
  ∃ w r flags mode what v w' f,
    ready env false calls w ∧ answered (we_broker env) (bs_trace (w_broker w)) ∧
    on_files (we_broker env) q (λ _, s) what ∧ p_root p = p_root q ∧
    (∀ d, we_cwd env = Some d → reasonable d) ∧
    opens_path env r path flags mode ∧ reasonable path ∧ is_utf8 path ∧
    trap env r w = (HRet v, w') ∧ (0 ≤ v)%Z ∧
    fd_file <$> w_tab w' !! Z.to_N v = Some f ∧ o = what f.

(** Full statement; false, see below. *)
Definition C174_full : Prop := ∀ env calls s p q path o,
  opened_by_name env calls s p q path o → described s p path o.

(** Links that lead the broker and the worker to the same place, on the way to [path]. *)
Definition links_alike (s : fs) (p q : proc) (path : str) : Prop :=
  ∀ j to, visits s q (p_root q) (split slash path) j → s !! j = Some (NLink to) →
    to (p_id p) = to (p_id q).

(* ---------------------------------------------------------------- helpers *)

Lemma send_recv_answered env m w x w' :
  answered (we_broker env) (bs_trace (w_broker w)) → send_recv env m w = (x, w') →
  answered (we_broker env) (bs_trace (w_broker w')).
Proof.
  intros H E. unfold send_recv in E. destruct (channel_send _ _ _ _ _ _ _) as [d|]; [|by simplify_eq].
  destruct (broker_step _ _ _ _) as [st bs] eqn:Es. apply step_answered in Es; [|done].
  destruct (channel_recv _ _ _ _ _ _) as [r t].
  destruct r as [[y|]|]; injection E as <- <-; done.
Qed.
Lemma openat_answered env path flags w x w' :
  answered (we_broker env) (bs_trace (w_broker w)) → openat_request env path flags w = (x, w') →
  answered (we_broker env) (bs_trace (w_broker w')).
Proof.
  intros H E. unfold openat_request in E.
  destruct (send_recv _ _ _) as [y w1] eqn:Es. apply send_recv_answered in Es; [|done].
  destruct y as [[m [h|]]| |]; [destruct m; by simplify_eq..| |]; by simplify_eq.
Qed.
Lemma trap_answered env r path flags mode w x w' :
  opens_path env r path flags mode →
  answered (we_broker env) (bs_trace (w_broker w)) → trap env r w = (x, w') →
  answered (we_broker env) (bs_trace (w_broker w')).
Proof.
  intros Ho H E. rewrite (trap_open _ _ _ _ _ _ Ho) in E. unfold handle_openat in E.
  destruct (starts_with_byte slash (lossy path)); [by eapply openat_answered|].
  assert (answered (we_broker env) (bs_trace (w_broker (current_dir env w).2))) as H1.
  { unfold current_dir. destruct (we_filtered env); [|done].
    destruct (send_recv _ _ _) as [y w1] eqn:Es. apply send_recv_answered in Es; [|done].
    destruct y as [[m [h|]]| |]; [destruct m; done..| |]; done. }
  destruct (current_dir env w) as [[cwd| |] w1]; [by eapply openat_answered|by simplify_eq..].
Qed.

Lemma resolve_missing s q links : ∀ cs cur d c,
  resolve links s q false cur cs = Missing d c → resolve links s q true cur cs = Missing d c.
Proof.
  induction links as [links IHl] using lt_wf_ind.
  induction cs as [|x cs IH]; intros cur d c; [by rewrite !resolve_end|].
  rewrite !resolve_step.
  destruct (s !! cur) as [[entries parent| |]|]; [|done..].
  case_bool_decide; [apply IH|]. case_bool_decide; [apply IH|].
  destruct (entries !! x) as [k|]; [|done].
  destruct (s !! k) as [[es p| |to]|]; try apply IH.
  rewrite andb_false_r. destruct (bool_decide (cs = []) && negb false); [done|].
  destruct links as [|links]; [done|].
  destruct (to (p_id q)); apply IHl; lia.
Qed.

(** What the broker's open made of an absolute path is what newfstatat says of it. *)
Lemma open_described s p q path flags o :
  p_root p = p_root q → starts_with_byte slash path = true → links_alike s p q path →
  Z.testbit flags 17 = false →
  kernel_open s q path flags = Ok o → described s p path o.
Proof.
  intros Hr Ha Hl Hf. unfold kernel_open, open_within, described, kernel_fstatat.
  rewrite Hf, Ha. cbn [orb]. change (Z.testbit 0 8) with false. cbn [negb].
  rewrite Hr, (resolve_same s q p) by done.
  rewrite bool_decide_eq_false_2 by (by intros ->).
  set (ex := (Z.testbit flags 6 && negb (Z.testbit flags 21)) && Z.testbit flags 7).
  destruct ex; cbn [negb].
  - destruct (resolve MAX_LINKS s q false _ _) as [i|d c|e] eqn:E; [done| |done].
    apply resolve_missing in E. rewrite E.
    destruct (_ && _); [by intros [= <-]|done].
  - destruct (resolve MAX_LINKS s q true _ _) as [i|d c|e] eqn:E; [| |done].
    + destruct (s !! i) as [[es pr| |to]|]; [| | |done].
      * by intros [= <-].
      * destruct (Z.testbit flags 16); [done|]. by intros [= <-].
      * destruct (Z.testbit flags 21); [|done]. by intros [= <-].
    + destruct (_ && _); [by intros [= <-]|done].
Qed.

(** The broker's open behind a successful open of the worker. *)
Lemma opened_open env calls s p q path o :
  opened_by_name env calls s p q path o → p_root p = p_root q ∧
  ∃ flags, Z.testbit flags 17 = false ∧ kernel_open s q (asked env false path) flags = Ok o.
Proof.
  intros (w & r & flags & mode & what & v & w' & f & Hr & Han & Hon & Hrt & Hc & Ho & Hp & Hu & E & Hv & Hf & ->).
  split; [done|]. exists flags.
  pose proof (trap_answered _ _ _ _ _ _ _ _ Ho Han E) as Han'.
  destruct (open_spec env false calls r path flags mode w Hr Ho Hp Hc)
    as (v1 & w1 & os & ms & E1 & (_ & Htr & _) & _ & _ & _ & Hans).
  rewrite E in E1. injection E1 as <- <-.
  destruct Hans as [(_ & _ & -> & _)|(Hgr & res & -> & Hres)]; [lia|].
  destruct Hgr as [?|(Hsup & _)]; [done|].
  destruct res as [file|e]; [|destruct Hres as (-> & ? & _); lia].
  destruct Hres as (-> & _ & Hl & _). rewrite N2Z.id, Hl in Hf. injection Hf as <-.
  split.
  { destruct (Z.testbit flags 17) eqn:E17; [|done]. exfalso.
    specialize (Hsup 17%Z ltac:(lia) E17). revert Hsup. apply (bool_decide_unpack _). by vm_compute. }
  assert ((asked env false path, flags, 384%Z, Ok file) ∈ opens (bs_trace (w_broker w'))) as Hin.
  { rewrite Htr. apply elem_of_app. right. left. }
  unfold opens in Hin. apply elem_of_list_omap in Hin as (ev & Hin & Hev).
  destruct ev; try done. injection Hev as -> -> -> ->.
  apply elem_of_list_split in Hin as (pre & post & Htr').
  apply (Hon pre). by eapply Han'.
Qed.

(* ---------------------------------------------------------------- C174 *)

(** Partial: absolute names, if the links on the way lead both to the same place. Missing:
    relative names, links of /proc. *)
Theorem C174_absolute_partial env calls s p q path o :
  opened_by_name env calls s p q path o → starts_with_byte slash path = true →
  links_alike s p q path → described s p path o.
Proof.
  intros H Ha Hl. assert (is_utf8 path) as Hu by (by destruct H as (?&?&?&?&?&?&?&?&?&?&?&?&?&?&?&?&_)).
  destruct (opened_open _ _ _ _ _ _ _ H) as (Hr & flags & H17 & Hk).
  unfold asked in Hk. rewrite Ha in Hk. apply lossy_id in Hu. rewrite Hu in Hk.
  by eapply open_described.
Qed.
Print Assumptions C174_absolute_partial.

(** A relative name is looked up in the root directory by open: it gives what newfstatat
    says of the name with a slash before it. *)
Theorem C174_relative env calls s p q path o :
  opened_by_name env calls s p q path o → we_filtered env = true →
  starts_with_byte slash path = false → links_alike s p q (slash :: path) →
  described s p (slash :: path) o.
Proof.
  intros H Hf Ha Hl. assert (is_utf8 path) as Hu by (by destruct H as (?&?&?&?&?&?&?&?&?&?&?&?&?&?&?&?&_)).
  destruct (opened_open _ _ _ _ _ _ _ H) as (Hr & flags & H17 & Hk).
  unfold asked, absolute in Hk. rewrite Ha, Hf in Hk. apply lossy_id in Hu. rewrite Hu in Hk.
  by eapply open_described.
Qed.
Print Assumptions C174_relative.

(** So relative names mean the same only if the worker was started in the root directory. *)
Theorem C174_root_partial env calls s p q path o :
  opened_by_name env calls s p q path o → we_filtered env = true → path ≠ [] →
  starts_with_byte slash path = false → links_alike s p q (slash :: path) →
  p_cwd p = p_root p → described s p path o.
Proof.
  intros H Hf Hne Ha Hl Hc.
  pose proof (C174_relative _ _ _ _ _ _ _ H Hf Ha Hl) as Hd.
  assert (kernel_fstatat s p (slash :: path) 0 = kernel_fstatat s p path 0) as Heq.
  { unfold kernel_fstatat. rewrite Ha, Hc.
    rewrite !bool_decide_eq_false_2 by done.
    change (starts_with_byte slash (slash :: path)) with true. cbn iota.
    replace (split slash (slash :: path)) with ([] :: split slash path)
      by (symmetry; apply (split_app slash [] path); set_solver).
    rewrite resolve_step.
    destruct (s !! p_root p) as [[es pr| |]|] eqn:Es.
    - by rewrite bool_decide_eq_true_2 by (by left).
    - destruct (split slash path) as [|c cs] eqn:E; [by apply split_not_nil in E|].
      by rewrite resolve_step, Es.
    - destruct (split slash path) as [|c cs] eqn:E; [by apply split_not_nil in E|].
      by rewrite resolve_step, Es.
    - destruct (split slash path) as [|c cs] eqn:E; [by apply split_not_nil in E|].
      by rewrite resolve_step, Es. }
  unfold described in *. by rewrite <-Heq.
Qed.
Print Assumptions C174_root_partial.

(* ---------------------------------------------------------------- false in general *)

(** /f and /home/f, no links; a worker in /home that may read /f. *)
Definition two_fs : fs :=
  <[1 := NDir (<[lit "home" := 2]> (<[lit "f" := 5]> ∅)) 1]>
  (<[2 := NDir (<[lit "f" := 4]> ∅) 1]> (<[4 := NFile]> (<[5 := NFile]> ∅))).
Definition two_calls : list api_call := [CallRule (AllowFileRead (lit "/f"))].
Definition two_worker (cwd : N) : proc := mkProc 200 1 cwd.
Definition two_env (path : str) : wenv :=
  mkWenv (fs_env two_fs ex_broker) (get_runtime_policy (build false two_calls)) false true 1024 200000
    (λ a, if (a =? 4096)%Z then Some path else None) (Some (lit "/home"))
    [0%Z; 0%Z; 0%Z; 0%Z; 0%Z; 0%Z] 0 (λ _, None) (λ _, None) (λ _ _, 77%Z).
Lemma open_errno n s q path flags e : open_within n s q path flags = Err e → 0 < e < 4096.
Proof.
  assert (∀ links follow cs cur e, resolve links s q follow cur cs = Stopped e → 0 < e < 4096) as H.
  { clear. induction links as [links IHl] using lt_wf_ind.
    induction cs as [|x cs IH]; intros cur e; [by rewrite !resolve_end|].
    rewrite !resolve_step.
    destruct (s !! cur) as [[entries parent| |]|]; [|by intros [= <-]..].
    case_bool_decide; [apply IH|]. case_bool_decide; [apply IH|].
    destruct (entries !! x) as [k|]; [|case_bool_decide; [done|by intros [= <-]]].
    destruct (s !! k) as [[es p| |to]|]; try apply IH.
    destruct (bool_decide (cs = []) && negb follow); [done|].
    destruct links as [|links]; [by intros [= <-]|].
    destruct (to (p_id q)); apply IHl; lia. }
  unfold open_within. cbv zeta. destruct (resolve _ _ _ _ _ _) as [i|d c|e'] eqn:E.
  - destruct (_ && _ && _); [by intros [= <-]|].
    destruct (s !! i) as [[]|]; [done| | |by intros [= <-]].
    + destruct (Z.testbit flags 16); [by intros [= <-]|done].
    + destruct (Z.testbit flags 21); [done|by intros [= <-]].
  - clear E. destruct (_ && _); [done|by intros [= <-]].
  - intros [= <-]. by eapply H.
Qed.
Lemma fs_errno s q tr path flags e : be_open (fs_env s q) tr path flags = Err e → 0 < e < 4096.
Proof.
  cbn [fs_env be_open]. unfold kernel_open. generalize MAX_LINKS. intros n.
  destruct (open_within n s q path flags) as [[i|d c]|e'] eqn:E.
  - done.
  - by intros [= <-].
  - intros [= <-]. exact (open_errno _ _ _ _ _ _ E).
Qed.
Lemma two_ready path : x00 ∉ path → ready (two_env path) false two_calls exw_world.
Proof.
  intros Hp. split; [|split; [done|unfold has_room; by vm_compute]].
  constructor; try exact (fs_errno two_fs ex_broker); cbn [two_env we_broker we_limit we_fstat
    we_fchdir we_sndbuf we_mem we_cwd we_getcwd_args we_getcwd_ip fs_env be_limit be_send be_sndbuf];
    try done; try lia.
  - intros a s' H. destruct (a =? 4096)%Z; by simplify_eq.
  - intros s' [= <-]. apply (bool_decide_unpack _). by vm_compute.
  - split; [done|]. repeat (constructor; [unfold is_i64; lia|]). constructor.
Qed.
Lemma two_opened path cwd :
  x00 ∉ path → reasonable path → is_utf8 path →
  (λ x, (x.1, fd_file <$> w_tab x.2 !! 3)) (trap (two_env path) (call 5 4096 0) exw_world) =
    (HRet 3%Z, Some 5) →
  opened_by_name (two_env path) two_calls two_fs (two_worker cwd) ex_broker path (Existing 5).
Proof.
  intros Hn Hp Hu E. destruct (trap _ _ _) as [x w'] eqn:Et. injection E as -> E.
  exists exw_world, (call 5 4096 0), 0%Z, 0%Z, Existing, 3%Z, w', 5.
  split; [by apply two_ready|]. split; [apply answered_nil|]. split; [apply fs_env_on|].
  split; [done|]. split; [by intros d [= <-]|]. split; [left; done|]. done.
Qed.
Lemma two_relative cwd :
  opened_by_name (two_env (lit "f")) two_calls two_fs (two_worker cwd) ex_broker (lit "f") (Existing 5).
Proof.
  apply two_opened; [by apply (bool_decide_unpack _); vm_compute|done| |by vm_compute].
  apply utf8_valid_spec. by vm_compute.
Qed.

(** In /home, newfstatat("f") describes /home/f and open("f") opens /f. *)
Theorem C174_refuted : ¬ C174_full.
Proof.
  intros H. specialize (H _ _ _ _ _ _ _ (two_relative 2)). revert H. by vm_compute.
Qed.
Print Assumptions C174_refuted.

(* The worker in / is told of the file it gets, the one in /home of another; absolute names
   are fine; a file without rules is described all the same. *)
Example C174_example :
  opened_by_name (two_env (lit "f")) two_calls two_fs (two_worker 1) ex_broker (lit "f") (Existing 5) ∧
  described two_fs (two_worker 1) (lit "f") (Existing 5) ∧
  kernel_fstatat two_fs (two_worker 2) (lit "f") 0 = Ok 4 ∧
  opened_by_name (two_env (lit "/f")) two_calls two_fs (two_worker 2) ex_broker (lit "/f") (Existing 5) ∧
  described two_fs (two_worker 2) (lit "/f") (Existing 5) ∧
  links_alike two_fs (two_worker 2) ex_broker (lit "/f") ∧
  kernel_fstatat two_fs (two_worker 2) (lit "/home/f") 0 = Ok 4 ∧
  (trap (two_env (lit "/home/f")) (call 5 4096 0) exw_world).1 = HRet (-13)%Z.
Proof.
  split; [apply two_relative|]. split; [by vm_compute|]. split; [by vm_compute|]. split.
  { apply two_opened; [by apply (bool_decide_unpack _); vm_compute|done| |by vm_compute].
    apply utf8_valid_spec. by vm_compute. }
  split; [by vm_compute|]. split; [|split; by vm_compute].
  intros j to _ Hj. exfalso. revert Hj. unfold two_fs.
  rewrite !lookup_insert_Some, lookup_empty. naive_solver.
Qed.
