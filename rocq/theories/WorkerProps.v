(** Properties C34-C39 and C78-C80: what a trapped system call does. A run is one call
    of the SIGSYS handler with any saved registers, against the broker of the policy
    that was configured, for any answers of the kernel. *)
From stdpp Require Import prelude gmap.
From Coq Require Import Strings.Byte ZifyN ZifyNat ZifyBool.
From Verif Require Import Bytes BytesProofs PolicyModel PolicySpec PolicyProofs LinuxPolicyModel
  LinuxPolicySpec LinuxPolicyProofs PostcardModel PostcardSpec PostcardProofs FdModel FdProofs
  ChannelModel ChannelProofs BrokerModel BrokerSpec BrokerProofs WorkerModel WorkerSpec
  WorkerProofs.
Local Open Scope N_scope.

(** Saved registers: number, six arguments, instruction pointer. *)
Record regs := mkRegs { r_nr : Z; r0 : Z; r1 : Z; r2 : Z; r3 : Z; r4 : Z; r5 : Z; r_ip : Z }.
Definition r_args (r : regs) : list Z := [r0 r; r1 r; r2 r; r3 r; r4 r; r5 r].
Definition regs_ok (r : regs) : Prop :=
  is_i64 (r_nr r) ∧ Forall is_i64 (r_args r) ∧ is_i64 (r_ip r).
Definition trap (env : wenv) (r : regs) (w : world) : hres Z * world :=
  sigsys_handler env (r_nr r) (r0 r) (r1 r) (r2 r) (r3 r) (r4 r) (r5 r) (r_ip r) w.

(** A C string of ordinary length (PATH_MAX is 4096). *)
Definition reasonable (s : str) : Prop := N.of_nat (length s) ≤ 10000.
Definition ready (env : wenv) (audit : bool) (calls : list api_call) (w : world) : Prop :=
  kernel_ok env ∧ set_up env audit calls ∧ has_room env w.

(** The registers are those of open(path, flags, mode), or openat with an absolute path
    or the current directory as base. *)
Definition opens_path (env : wenv) (r : regs) (path : str) (flags mode : Z) : Prop :=
  (r_nr r = nr_open (nos (be_abi (we_broker env))) ∧ we_mem env (r0 r) = Some path ∧
   flags = as_i32 (r1 r) ∧ mode = as_i32 (r2 r)) ∨
  (r_nr r = nr_openat (nos (be_abi (we_broker env))) ∧
   (as_i32 (r0 r) = AT_FDCWD ∨ starts_with_byte slash path = true) ∧
   we_mem env (r1 r) = Some path ∧ flags = as_i32 (r2 r) ∧ mode = as_i32 (r3 r)).
Definition accesses_path (env : wenv) (r : regs) (path : str) (mode : Z) : Prop :=
  r_nr r = nr_access (nos (be_abi (we_broker env))) ∧ we_mem env (r0 r) = Some path ∧
  mode = as_i32 (r1 r).
Definition stats_path (env : wenv) (r : regs) (path : str) : Prop :=
  r_nr r = nr_stat (nos (be_abi (we_broker env))) ∧ we_mem env (r0 r) = Some path.
Definition chdirs_path (env : wenv) (r : regs) (path : str) : Prop :=
  r_nr r = nr_chdir (nos (be_abi (we_broker env))) ∧ we_mem env (r0 r) = Some path.

Lemma trap_open env r path flags mode w :
  opens_path env r path flags mode →
  trap env r w = handle_openat env (lossy path) flags mode w.
Proof.
  intros H. unfold trap, sigsys_handler, read_string_from_ptr.
  destruct H as [(-> & -> & -> & ->)|(-> & Hb & -> & -> & ->)];
    destruct (be_abi (we_broker env)); try done; simpl;
    (destruct (as_i32 (r0 r) =? AT_FDCWD)%Z eqn:E; [done|]);
    (destruct Hb as [Hb| ->]; [lia|done]).
Qed.
Lemma trap_access env r path mode w :
  accesses_path env r path mode → trap env r w = handle_access env (lossy path) mode w.
Proof.
  intros (Hn & Hm & ->). unfold trap, sigsys_handler, read_string_from_ptr.
  by rewrite Hn, Hm, Z.eqb_refl.
Qed.
Lemma trap_stat env r path w :
  stats_path env r path → trap env r w = handle_stat env (lossy path) w.
Proof.
  intros (Hn & Hm). unfold trap, sigsys_handler, read_string_from_ptr. rewrite Hn, Hm.
  by destruct (be_abi (we_broker env)).
Qed.
Lemma trap_chdir env r path w :
  chdirs_path env r path → trap env r w = handle_chdir env (lossy path) w.
Proof.
  intros (Hn & Hm). unfold trap, sigsys_handler, read_string_from_ptr. rewrite Hn, Hm.
  by destruct (be_abi (we_broker env)).
Qed.

Lemma short_lossy s : reasonable s → short (lossy s).
Proof. unfold reasonable, short. pose proof (lossy_length s). lia. Qed.

Lemma absolute_ok cwd path :
  (∀ d, cwd = Some d → reasonable d ∧ x00 ∉ d) → reasonable path → x00 ∉ path →
  let p := absolute cwd (lossy path) in is_utf8 p ∧ x00 ∉ p ∧ short p.
Proof.
  intros Hd Hp Hn p. subst p. unfold absolute.
  set (d := match cwd with Some d => lossy d | None => [] end).
  assert (is_utf8 d ∧ x00 ∉ d ∧ (N.of_nat (length d) ≤ 30000)) as (Hu & Hz & Hl).
  { unfold d. destruct cwd as [d0|].
    - destruct (Hd d0 eq_refl) as [Hr Hn0]. split; [apply lossy_utf8|].
      split; [by apply lossy_nul|]. pose proof (lossy_length d0). unfold reasonable in *. lia.
    - split; [apply is_utf8_nil|]. split; [set_solver|simpl; lia]. }
  assert (is_utf8 [slash]) as Hs by (apply utf8_valid_spec; by vm_compute).
  assert (x00 ∉ [slash]) as Hs0 by (rewrite elem_of_list_singleton; done).
  pose proof (lossy_length path) as Hlp. unfold reasonable, short in *.
  destruct (ends_with_byte slash d).
  - split; [apply is_utf8_app; [done|apply lossy_utf8]|]. split.
    + rewrite elem_of_app. intros [?|?]; [done|]. by apply (lossy_nul path).
    + rewrite app_length. lia.
  - split; [apply is_utf8_app; [by apply is_utf8_app|apply lossy_utf8]|]. split.
    + rewrite !elem_of_app. intros [[?|?]|?]; [done..|]. by apply (lossy_nul path).
    + rewrite !app_length. simpl. lia.
Qed.

(** The path the worker asks for. *)
Definition asked (env : wenv) (audit : bool) (path : str) : str :=
  if starts_with_byte slash path then lossy path
  else absolute (if we_filtered env && negb audit then None else we_cwd env) (lossy path).

Lemma open_spec env audit calls r path flags mode w :
  ready env audit calls w → opens_path env r path flags mode → reasonable path →
  (∀ d, we_cwd env = Some d → reasonable d) →
  ∃ v w' os ms, trap env r w = (HRet v, w') ∧
    effect w w' (ms ++ [ReqOpenFile (asked env audit path) flags]) os ∧
    (∀ m, m ∈ ms → ∃ nb args ip, m = ReqSyscall nb args ip) ∧
    (starts_with_byte slash path = true → ms = []) ∧
    w_dir w' = w_dir w ∧
    open_answer audit (rules_of calls) (asked env audit path) flags os v (w_tab w) (w_tab w').
Proof.
  intros (K & Hs & Hr) Ho Hp Hcwd. rewrite (trap_open _ _ _ _ _ _ Ho).
  assert (x00 ∉ path) as Hn.
  { destruct Ho as [(_ & Hm & _)|(_ & _ & Hm & _)]; by eapply ko_mem. }
  assert (is_i32 flags) as Hf.
  { destruct Ho as [(_ & _ & -> & _)|(_ & _ & _ & -> & _)]; apply as_i32_range. }
  unfold handle_openat, asked. rewrite lossy_slash.
  destruct (starts_with_byte slash path) eqn:E.
  - destruct (openat_request_spec env audit calls (lossy path) flags w) as (v & w' & os & H & He & Hd & Ha).
    + done. + done. + apply lossy_utf8. + by apply lossy_nul. + by apply short_lossy. + done. + done.
    + exists v, w', os, []. split; [done|]. split; [done|]. split; [set_solver|]. done.
  - destruct (current_dir_spec env audit calls w K Hs) as (w1 & ms & Ec & He1 & Hms & Hd1 & Ht1).
    rewrite Ec.
    destruct (absolute_ok (if we_filtered env && negb audit then None else we_cwd env) path)
      as (H1 & H2 & H3); [|done|done|].
    { intros d Hdd. destruct (we_filtered env && negb audit); [done|].
      split; [by apply Hcwd|by eapply ko_cwd]. }
    destruct (openat_request_spec env audit calls
      (absolute (if we_filtered env && negb audit then None else we_cwd env) (lossy path)) flags w1)
      as (v & w' & os & H & He & Hd & Ha); [done..| |].
    { unfold has_room. by rewrite Ht1. }
    exists v, w', os, ms. split; [done|]. split.
    + exact (effect_trans _ _ _ _ _ _ _ He1 He).
    + split; [done|]. split; [done|]. split; [congruence|]. by rewrite <-Ht1.
Qed.

Local Ltac no_nul := apply (bool_decide_unpack _); by vm_compute.

(* Concrete world for the examples: the policy allows reading below /home/u and the
   file /etc; the kernel opens three files. *)
Definition exw_broker : benv :=
  mkBenv Abi32 1024 200000
    (λ _ path _, if bool_decide (path = lit "/home/u/f") then Ok 42
                 else if bool_decide (path = lit "/f") then Ok 43 else Err 2) (λ _, None).
Definition exw_calls : list api_call :=
  [CallRule (AllowDirRead (lit "/home/u")); CallRule (AllowFileRead (lit "/f"))].
Definition exw_env (audit filtered : bool) (s : str) : wenv :=
  mkWenv exw_broker (get_runtime_policy (build audit exw_calls)) audit filtered 1024 200000
    (λ a, if (a =? 4096)%Z then Some s else None) (Some (lit "/home/u")) [0%Z; 0%Z; 0%Z; 0%Z; 0%Z; 0%Z] 0
    (λ _, None) (λ _, None) (λ _ _, 77%Z).
Definition exw_tab : fdtab := <[0 := mkFd 100 0]> (<[1 := mkFd 101 0]> (<[2 := mkFd 102 0]> ∅)).
Definition exw_world : world := mkWorld exw_tab (mkBst exw_tab []) [] 7.
Definition exw_run (env : wenv) (r : regs) :=
  let '(v, w) := trap env r exw_world in (v, w_sent w, map fd_file (map_to_list (w_tab w)).*2).
Definition call (nr a0 a1 : Z) : regs := mkRegs nr a0 a1 0 0 0 0 0.

Lemma exw_kernel_ok audit filtered s : x00 ∉ s → kernel_ok (exw_env audit filtered s).
Proof.
  intros Hs. constructor; simpl; try done; try lia.
  - intros _ p f e H. repeat case_bool_decide; simplify_eq. lia.
  - intros a s' H. destruct (a =? 4096)%Z; by simplify_eq.
  - intros s' [= <-]. no_nul.
  - split; [done|]. repeat (constructor; [unfold is_i64; lia|]). constructor.
Qed.
Lemma exw_ready audit filtered s :
  x00 ∉ s → ready (exw_env audit filtered s) audit exw_calls exw_world.
Proof.
  intros Hs. split; [by apply exw_kernel_ok|]. split; [done|].
  unfold has_room. by vm_compute.
Qed.

(* ---------------------------------------------------------------- C34 *)

(** Absolute paths are asked for as they are. *)
Theorem C34_absolute env audit calls r path flags mode w :
  ready env audit calls w → opens_path env r path flags mode → reasonable path →
  (∀ d, we_cwd env = Some d → reasonable d) →
  is_utf8 path → starts_with_byte slash path = true →
  ∃ v w' os, trap env r w = (HRet v, w') ∧ effect w w' [ReqOpenFile path flags] os ∧
    open_answer audit (rules_of calls) path flags os v (w_tab w) (w_tab w').
Proof.
  intros Hr Ho Hp Hc Hu Ha.
  destruct (open_spec env audit calls r path flags mode w Hr Ho Hp Hc)
    as (v & w' & os & ms & E & He & _ & Hms & _ & Hans).
  unfold asked in *. rewrite Ha in *. apply lossy_id in Hu. rewrite Hu in *.
  rewrite Hms in He by done. eauto 10.
Qed.
Print Assumptions C34_absolute.

(** In audit mode, and when no filter is loaded, a relative path is asked for relative
    to the current directory. *)
Theorem C34_relative_partial env audit calls r path flags mode w cwd :
  ready env audit calls w → opens_path env r path flags mode → reasonable path →
  we_cwd env = Some cwd → reasonable cwd → is_utf8 path → is_utf8 cwd →
  audit = true ∨ we_filtered env = false →
  ∃ v w' os ms, trap env r w = (HRet v, w') ∧
    effect w w' (ms ++ [ReqOpenFile (meant cwd path) flags]) os ∧
    (∀ m, m ∈ ms → ∃ nb args ip, m = ReqSyscall nb args ip) ∧
    open_answer audit (rules_of calls) (meant cwd path) flags os v (w_tab w) (w_tab w').
Proof.
  intros Hr Ho Hp Hc Hcr Hu Huc Hm.
  destruct (open_spec env audit calls r path flags mode w Hr Ho Hp)
    as (v & w' & os & ms & E & He & Hms & _ & _ & Hans).
  { intros d. rewrite Hc. by intros [= <-]. }
  assert (asked env audit path = meant cwd path) as Hask.
  { unfold asked, meant, absolute. apply lossy_id in Hu, Huc.
    replace (we_filtered env && negb audit) with false
      by (destruct Hm as [-> | ->]; [by rewrite andb_false_r|done]).
    rewrite Hc, Hu, Huc. destruct (starts_with_byte slash path); [done|].
    destruct (ends_with_byte slash cwd); [done|]. by rewrite <-app_assoc. }
  rewrite Hask in *. eauto 10.
Qed.
Print Assumptions C34_relative_partial.

(** With a filter loaded and enforcing, the current directory is never found out
    (getcwd is itself refused): the path asked for starts at the root. *)
Theorem C34_relative_refuted env calls r path flags mode w :
  ready env false calls w → opens_path env r path flags mode → reasonable path →
  (∀ d, we_cwd env = Some d → reasonable d) →
  we_filtered env = true → is_utf8 path → starts_with_byte slash path = false →
  ∃ v w' os ms, trap env r w = (HRet v, w') ∧
    effect w w' (ms ++ [ReqOpenFile (slash :: path) flags]) os ∧
    open_answer false (rules_of calls) (slash :: path) flags os v (w_tab w) (w_tab w').
Proof.
  intros Hr Ho Hp Hc Hf Hu Ha.
  destruct (open_spec env false calls r path flags mode w Hr Ho Hp Hc)
    as (v & w' & os & ms & E & He & _ & _ & _ & Hans).
  assert (asked env false path = slash :: path) as Hask.
  { unfold asked, absolute. rewrite Ha, Hf. apply lossy_id in Hu. by rewrite Hu. }
  rewrite Hask in *. eauto 10.
Qed.
Print Assumptions C34_relative_refuted.

(* open("f") in /home/u gives the file /f; open("/home/u/f") the right one; in audit mode
   open("f") gives /home/u/f. *)
Example C34_example :
  exw_run (exw_env false true (lit "f")) (call 5 4096 0) =
    (HRet 3%Z, [ReqSyscall 183 [0; 0; 0; 0; 0; 0]%Z 0; ReqOpenFile (lit "/f") 0],
     [100; 101; 43; 102]) ∧
  exw_run (exw_env false true (lit "/home/u/f")) (call 5 4096 0) =
    (HRet 3%Z, [ReqOpenFile (lit "/home/u/f") 0], [100; 101; 42; 102]) ∧
  exw_run (exw_env true true (lit "f")) (call 5 4096 0) =
    (HRet 3%Z, [ReqSyscall 183 [0; 0; 0; 0; 0; 0]%Z 0; ReqOpenFile (lit "/home/u/f") 0],
     [100; 101; 42; 102]) ∧
  meant (lit "/home/u") (lit "f") = lit "/home/u/f" ∧
  ready (exw_env false true (lit "f")) false exw_calls exw_world.
Proof.
  split; [by vm_compute|]. split; [by vm_compute|]. split; [by vm_compute|].
  split; [by vm_compute|]. apply exw_ready. no_nul.
Qed.

(* ---------------------------------------------------------------- C35 *)

(** A valid mode of access(2): any of R_OK = 4, W_OK = 2, X_OK = 1. *)
Definition access_mode (mode : Z) : Prop := (0 ≤ mode < 8)%Z.

Lemma small_testbit mode n : (0 ≤ mode < 8 → 3 ≤ n → Z.testbit mode n = false)%Z.
Proof.
  intros H Hn. destruct (decide (mode = 0)%Z) as [->|Hne]; [apply Z.bits_0|].
  apply Z.bits_above_log2; [lia|]. apply Z.log2_lt_pow2; [lia|].
  assert (2 ^ 3 ≤ 2 ^ n)%Z by (apply Z.pow_le_mono_r; lia). lia.
Qed.

(** In enforcing mode access succeeds only if the broker could open the file and the
    rules give the rights asked for. *)
Theorem C35_access_only_if env calls r path mode w :
  ready env false calls w → accesses_path env r path mode → reasonable path →
  access_mode mode →
  ∃ v w', trap env r w = (HRet v, w') ∧ (v = 0 ∨ - 4096 < v < 0)%Z ∧
    (v = 0%Z →
      (∃ file, opens (bs_trace (w_broker w')) =
         opens (bs_trace (w_broker w)) ++ [(lossy path, mode, 384%Z, Ok file)]) ∧
      ∃ cs, canonical cs ∧ names slash (lossy path) cs ∧
        (entitled (rules_of calls) cs RRead ∨ entitled (rules_of calls) cs RWrite) ∧
        (bit mode 1 → entitled (rules_of calls) cs RWrite) ∧
        (bit mode 2 → entitled (rules_of calls) cs RRead)).
Proof.
  intros (K & Hs & Hr) Ha Hp Hm. rewrite (trap_access _ _ _ _ _ Ha).
  destruct Ha as (_ & Hmem & Hmode).
  destruct (handle_access_spec env false calls (lossy path) mode w) as (v & w' & os & E & He & _ & _ & Hans).
  - done. - done. - apply lossy_utf8. - apply lossy_nul. by eapply ko_mem. - by apply short_lossy.
  - rewrite Hmode. apply as_i32_range. - done.
  - exists v, w'. split; [done|].
    destruct Hans as [(_ & _ & ->)|(Hu & res & -> & Hres)]; [split; lia|].
    destruct res as [file|e]; [|destruct Hres as [-> ?]; split; lia].
    subst v. split; [lia|]. intros _. split.
    + exists file. by destruct He as (_ & -> & _).
    + destruct Hu as [?|(Hsup & cs & Hcs & Hn & Hany & Hrd & Hwr)]; [done|].
      exists cs. split_and!; [done..| |].
      * intros Hb. apply Hwr. split; [|by right; left].
        unfold path_only, bit. rewrite small_testbit by (unfold access_mode in *; lia). done.
      * intros Hb. specialize (Hsup 2%Z ltac:(lia) Hb). set_solver.
Qed.
Print Assumptions C35_access_only_if.

(** access(R_OK), alone or with other bits, is refused whatever the rules and the
    kernel say: R_OK is taken for an unsupported open flag. *)
Theorem C35_read_ok_refuted env calls r path mode w :
  ready env false calls w → accesses_path env r path mode → reasonable path →
  bit mode 2 →
  ∃ w', trap env r w = (HRet (-13)%Z, w') ∧ effect w w' [ReqOpenFile (lossy path) mode] [].
Proof.
  intros (K & Hs & Hr) Ha Hp Hm. rewrite (trap_access _ _ _ _ _ Ha).
  destruct Ha as (_ & Hmem & Hmode).
  destruct (handle_access_spec env false calls (lossy path) mode w) as (v & w' & os & E & He & _ & _ & Hans).
  - done. - done. - apply lossy_utf8. - apply lossy_nul. by eapply ko_mem. - by apply short_lossy.
  - rewrite Hmode. apply as_i32_range. - done.
  - exists w'. destruct Hans as [(_ & -> & ->)|([?|(Hsup & _)] & _)]; [done|done|].
    specialize (Hsup 2%Z ltac:(lia) Hm). set_solver.
Qed.
Print Assumptions C35_read_ok_refuted.

(** access(W_OK) is refused on a file with a write rule and no read rule. *)
Theorem C35_write_ok_refuted env calls r path w :
  ready env false calls w → accesses_path env r path 2 → reasonable path →
  (∀ cs, canonical cs → names slash (lossy path) cs → ¬ entitled (rules_of calls) cs RRead) →
  ∃ w', trap env r w = (HRet (-13)%Z, w') ∧ effect w w' [ReqOpenFile (lossy path) 2] [].
Proof.
  intros (K & Hs & Hr) Ha Hp Hno. rewrite (trap_access _ _ _ _ _ Ha).
  destruct Ha as (_ & Hmem & Hmode).
  destruct (handle_access_spec env false calls (lossy path) 2%Z w) as (v & w' & os & E & He & _ & _ & Hans).
  - done. - done. - apply lossy_utf8. - apply lossy_nul. by eapply ko_mem. - by apply short_lossy.
  - unfold is_i32. lia. - done.
  - exists w'. destruct Hans as [(_ & -> & ->)|([?|(_ & cs & Hcan & Hn & _ & Hrd & _)] & _)]; [done|done|].
    destruct (Hno cs Hcan Hn). apply Hrd. split; by vm_compute.
Qed.
Print Assumptions C35_write_ok_refuted.

(* access on a file with a read rule: F_OK succeeds, W_OK and R_OK fail. *)
Example C35_example :
  exw_run (exw_env false true (lit "/home/u/f")) (call 33 4096 0) =
    (HRet 0%Z, [ReqOpenFile (lit "/home/u/f") 0], [100; 101; 102]) ∧
  exw_run (exw_env false true (lit "/home/u/f")) (call 33 4096 2) =
    (HRet (-13)%Z, [ReqOpenFile (lit "/home/u/f") 2], [100; 101; 102]) ∧
  exw_run (exw_env false true (lit "/home/u/f")) (call 33 4096 4) =
    (HRet (-13)%Z, [ReqOpenFile (lit "/home/u/f") 4], [100; 101; 102]) ∧
  accesses_path (exw_env false true (lit "/home/u/f")) (call 33 4096 4) (lit "/home/u/f") 4 ∧
  bit 4 2.
Proof. by vm_compute. Qed.

(* ---------------------------------------------------------------- C36 *)

(** Some read or write right on a canonical absolute path. *)
Definition some_right (h : list rule) (path : str) : Prop :=
  ∃ cs, canonical cs ∧ names slash path cs ∧ (entitled h cs RRead ∨ entitled h cs RWrite).

Lemma grant_path_only h path : should_grant h path O_PATH ↔ some_right h path.
Proof.
  assert (path_only O_PATH) as Hpo by done. split.
  - intros (_ & cs & Hc & Hn & Hany & _). by exists cs.
  - intros (cs & Hc & Hn & Hany). split.
    + intros n Hn0 Hb. unfold bit, O_PATH in Hb.
      assert (n = 21)%Z as ->; [|set_solver].
      change 2097152%Z with (2 ^ 21)%Z in Hb. rewrite Z.pow2_bits_eqb in Hb by lia. lia.
    + exists cs. split_and!; [done..| |]; by intros [? _].
Qed.

(** stat: the policy part is exactly "some right on the canonical absolute path"; then
    the kernel's answers to open and fstat decide. *)
Theorem C36_stat env calls r path w :
  ready env false calls w → stats_path env r path → reasonable path →
  ∃ v w' os, trap env r w = (HRet v, w') ∧
    effect w w' [ReqOpenFile (lossy path) O_PATH] os ∧
    (v = 0%Z → some_right (rules_of calls) (lossy path)) ∧
    (¬ some_right (rules_of calls) (lossy path) → v = (-13)%Z ∧ os = []) ∧
    (some_right (rules_of calls) (lossy path) →
       ∃ res, os = [(lossy path, O_PATH, 384%Z, res)] ∧
         v = match res with
             | Err e => (- Z.of_N e)%Z
             | Ok file => match we_fstat env file with
                          | Some e => (- Z.of_N e)%Z | None => 0%Z end
             end).
Proof.
  intros (K & Hs & Hr) Ha Hp. rewrite (trap_stat _ _ _ _ Ha).
  destruct Ha as (_ & Hmem).
  destruct (handle_stat_spec env false calls (lossy path) w) as (v & w' & os & E & He & _ & _ & Hans).
  - done. - done. - apply lossy_utf8. - apply lossy_nul. by eapply ko_mem. - by apply short_lossy.
  - done.
  - exists v, w', os. split; [done|]. split; [done|]. rewrite <-grant_path_only.
    destruct Hans as [(Hno & -> & ->)|([?|Hu] & res & -> & Hres)]; [|done|].
    + split; [lia|]. split; [done|]. intros Hy. destruct Hno. by right.
    + split; [done|]. split; [done|]. intros _. exists res. split; [done|].
      destruct res as [file|e]; [|by destruct Hres]. unfold answer_of in Hres.
      destruct (we_fstat env file); [by destruct Hres|done].
Qed.
Print Assumptions C36_stat.

(** A relative path is refused by stat whatever the rules and the current directory. *)
Theorem C36_relative_refuted env calls r path w :
  ready env false calls w → stats_path env r path ∨ chdirs_path env r path →
  reasonable path → starts_with_byte slash path = false →
  ∃ w', trap env r w = (HRet (-13)%Z, w') ∧ w_dir w' = w_dir w.
Proof.
  intros (K & Hs & Hr) Ha Hp Hrel.
  assert (¬ user_allows false (rules_of calls) (lossy path) O_PATH) as Hno.
  { intros [?|Hu]; [done|]. apply grant_path_only in Hu as (cs & [Hc _] & Hn & _).
    apply names_slash in Hn; [|done]. rewrite lossy_slash in Hn. congruence. }
  assert (x00 ∉ lossy path) as Hnul.
  { apply lossy_nul. destruct Ha as [[_ Hm]|[_ Hm]]; by eapply ko_mem. }
  destruct Ha as [Ha|Ha].
  - rewrite (trap_stat _ _ _ _ Ha).
    destruct (handle_stat_spec env false calls (lossy path) w) as (v & w' & os & E & He & Hd & _ & Hans).
    + done. + done. + apply lossy_utf8. + done. + by apply short_lossy. + done.
    + exists w'. split; [|done]. by destruct Hans as [(_ & _ & ->)|[? _]].
  - rewrite (trap_chdir _ _ _ _ Ha).
    destruct (handle_chdir_spec env false calls (lossy path) w) as (v & w' & os & ms & E & He & _ & _ & Hd & Hans).
    + done. + done. + apply lossy_utf8. + done. + by apply short_lossy. + done.
    + exists w'. destruct Hans as [(_ & _ & ->)|[? _]]; [|done]. split; [done|]. by apply Hd.
Qed.
Print Assumptions C36_relative_refuted.

(** With a filter loaded and enforcing, chdir never succeeds and never moves, whatever
    the rules and the kernel say. *)
Theorem C36_chdir_refuted env calls r path w :
  ready env false calls w → chdirs_path env r path → reasonable path →
  we_filtered env = true →
  ∃ v w', trap env r w = (HRet v, w') ∧ (- 4096 < v < 0)%Z ∧ w_dir w' = w_dir w.
Proof.
  intros (K & Hs & Hr) Ha Hp Hf. rewrite (trap_chdir _ _ _ _ Ha). destruct Ha as (_ & Hmem).
  destruct (handle_chdir_spec env false calls (lossy path) w) as (v & w' & os & ms & E & He & _ & _ & Hd & Hans).
  - done. - done. - apply lossy_utf8. - apply lossy_nul. by eapply ko_mem. - by apply short_lossy.
  - done.
  - exists v, w'. split; [done|].
    assert (chdir_works env = false) as Hw.
    { unfold chdir_works. destruct Hs as [_ ->]. by rewrite Hf. }
    assert (- 4096 < v < 0)%Z as Hv.
    { destruct Hans as [(_ & _ & ->)|(_ & res & _ & Hres)]; [lia|].
      destruct res as [file|e]; [|lia]. rewrite Hw in Hres. lia. }
    split; [done|]. apply Hd. lia.
Qed.
Print Assumptions C36_chdir_refuted.

(** In audit mode or without a filter, chdir moves to the directory the broker opened;
    when enforcing that needs some right on the path. *)
Theorem C36_chdir_partial env audit calls r path w :
  ready env audit calls w → chdirs_path env r path → reasonable path →
  we_filtered env = false ∨ audit = true →
  ∃ v w' os, trap env r w = (HRet v, w') ∧ (v ≠ 0%Z → w_dir w' = w_dir w) ∧
    opens (bs_trace (w_broker w')) = opens (bs_trace (w_broker w)) ++ os ∧
    (v = 0%Z → ∃ file, os = [(lossy path, O_PATH, 384%Z, Ok file)] ∧ w_dir w' = file ∧
       (audit = true ∨ some_right (rules_of calls) (lossy path))) ∧
    (audit = true ∨ some_right (rules_of calls) (lossy path) →
       ∃ res, os = [(lossy path, O_PATH, 384%Z, res)] ∧
         v = match res with
             | Err e => (- Z.of_N e)%Z
             | Ok file => match we_fchdir env file with
                          | Some e => (- Z.of_N e)%Z | None => 0%Z end
             end).
Proof.
  intros (K & Hs & Hr) Ha Hp Hf. rewrite (trap_chdir _ _ _ _ Ha). destruct Ha as (_ & Hmem).
  destruct (handle_chdir_spec env audit calls (lossy path) w) as (v & w' & os & ms & E & He & _ & _ & Hd & Hans).
  - done. - done. - apply lossy_utf8. - apply lossy_nul. by eapply ko_mem. - by apply short_lossy.
  - done.
  - assert (chdir_works env = true) as Hw.
    { unfold chdir_works. destruct Hs as [_ ->]. destruct Hf as [-> | ->]; [done|].
      by rewrite orb_true_r. }
    exists v, w', os. split; [done|]. split; [done|]. split; [apply He|].
    rewrite <-grant_path_only. unfold probe_answer, user_allows in Hans.
    destruct Hans as [(Hno & -> & ->)|(Hu & res & -> & Hres)]; [split; [lia|done]|].
    rewrite Hw in Hres. split.
    + intros ->. destruct res as [file|e]; [|lia]. exists file. split; [done|].
      split; [by apply Hres|]. by rewrite <-grant_path_only.
    + intros _. exists res. split; [done|]. destruct res as [file|e]; [|by destruct Hres].
      destruct Hres as [Hres _]. unfold answer_of in Hres.
      destruct (we_fchdir env file); [by destruct Hres|done].
Qed.
Print Assumptions C36_chdir_partial.

Example C36_example :
  exw_run (exw_env false true (lit "/home/u/f")) (call 106 4096 0) =
    (HRet 0%Z, [ReqOpenFile (lit "/home/u/f") 2097152], [100; 101; 102]) ∧
  exw_run (exw_env false true (lit "f")) (call 106 4096 0) =
    (HRet (-13)%Z, [ReqOpenFile (lit "f") 2097152], [100; 101; 102]) ∧
  fst (trap (exw_env false true (lit "/home/u/f")) (call 12 4096 0) exw_world) = HRet (-38)%Z ∧
  w_dir (snd (trap (exw_env true true (lit "/home/u/f")) (call 12 4096 0) exw_world)) = 42 ∧
  some_right (rules_of exw_calls) (lit "/home/u/f").
Proof.
  split; [by vm_compute|]. split; [by vm_compute|]. split; [by vm_compute|].
  split; [by vm_compute|]. rewrite <-grant_path_only, <-(build_granted false). by vm_compute.
Qed.

(* ---------------------------------------------------------------- C37 *)

(** The bytes asked for are those of the program exactly when they are UTF-8. *)
Theorem C37_bytes env audit calls r path flags mode w :
  ready env audit calls w → opens_path env r path flags mode → reasonable path →
  (∀ d, we_cwd env = Some d → reasonable d) → starts_with_byte slash path = true →
  ∃ v w' req, trap env r w = (HRet v, w') ∧
    w_sent w' = w_sent w ++ [ReqOpenFile req flags] ∧ (req = path ↔ is_utf8 path).
Proof.
  intros Hr Ho Hp Hc Ha.
  destruct (open_spec env audit calls r path flags mode w Hr Ho Hp Hc)
    as (v & w' & os & ms & E & He & _ & Hms & _ & _).
  exists v, w', (lossy path). split; [done|]. split; [|apply lossy_id].
  destruct He as (-> & _). rewrite Hms by done. unfold asked. by rewrite Ha.
Qed.
Print Assumptions C37_bytes.

(** Some C string is asked for with other bytes, and two different names become the
    same request. *)
Theorem C37_lossy_refuted :
  ∃ env calls w r1 r2 p1 p2 w1 w2 req,
    ready env false calls w ∧ opens_path env r1 p1 0 0 ∧ opens_path env r2 p2 0 0 ∧
    p1 ≠ p2 ∧ req ≠ p1 ∧ req ≠ p2 ∧
    trap env r1 w = (HRet 3%Z, w1) ∧ trap env r2 w = (HRet 3%Z, w2) ∧
    opens (bs_trace (w_broker w1)) = [(req, 0%Z, 384%Z, Ok 44)] ∧
    opens (bs_trace (w_broker w2)) = [(req, 0%Z, 384%Z, Ok 44)].
Proof.
  set (p1 := lit "/home/u/" ++ [xff]). set (p2 := lit "/home/u/" ++ [xfe]).
  set (benv := mkBenv Abi32 1024 200000 (λ _ _ _, Ok 44) (λ _, None)).
  set (env := mkWenv benv (get_runtime_policy (build false exw_calls)) false true 1024 200000
    (λ a, if (a =? 4096)%Z then Some p1 else if (a =? 8192)%Z then Some p2 else None)
    None [0%Z; 0%Z; 0%Z; 0%Z; 0%Z; 0%Z] 0 (λ _, None) (λ _, None) (λ _ _, 77%Z)).
  exists env, exw_calls, exw_world, (call 5 4096 0), (call 5 8192 0), p1, p2.
  eexists _, _, (lit "/home/u/" ++ replacement).
  split_and!.
  - split; [|split; [done|by vm_compute]].
    constructor; simpl; try done; try lia.
    + intros a s' H. destruct (a =? 4096)%Z; simplify_eq; [no_nul|].
      destruct (a =? 8192)%Z; simplify_eq. no_nul.
    + split; [done|]. repeat (constructor; [unfold is_i64; lia|]). constructor.
  - left. by vm_compute.
  - left. by vm_compute.
  - by vm_compute.
  - by vm_compute.
  - by vm_compute.
  - by vm_compute.
  - by vm_compute.
  - by vm_compute.
  - by vm_compute.
Qed.
Print Assumptions C37_lossy_refuted.

Example C37_example :
  lossy (lit "/home/u/" ++ [xc3; xa9]) = lit "/home/u/" ++ [xc3; xa9] ∧
  lossy [xff; x61] = [xef; xbf; xbd; x61] ∧ lossy [xe2; x82; x61] = [xef; xbf; xbd; x61].
Proof. by vm_compute. Qed.

(* ---------------------------------------------------------------- C38 *)

(** Memory the call looks at is readable and holds strings of ordinary length. *)
Definition readable (env : wenv) : Prop :=
  (∀ a, is_Some (we_mem env a)) ∧ (∀ a s, we_mem env a = Some s → reasonable s) ∧
  (∀ s, we_cwd env = Some s → reasonable s).

(** Then no trapped call crashes the worker, and the value returned is zero or a
    negated errno, or the new descriptor, or, in audit mode, what the re-run gave. *)
Theorem C38_no_panic_partial env audit calls r w :
  ready env audit calls w → regs_ok r → readable env →
  ∃ v w', trap env r w = (HRet v, w') ∧ kept (w_tab w) (w_tab w') ∧
    ((- 4096 < v ≤ 0)%Z ∨
     (v = Z.of_N (lowest_free (w_tab w)) ∧ is_Some (w_tab w' !! lowest_free (w_tab w))) ∨
     (audit = true ∧ v = we_rerun env (r_nr r) (r_args r))).
Proof.
  intros Hrdy (Hnr & Hargs & Hip) (Hmem & Hreas & Hcwd).
  assert (∀ path flags mode, opens_path env r path flags mode →
    ∃ v w', trap env r w = (HRet v, w') ∧ kept (w_tab w) (w_tab w') ∧
    ((- 4096 < v ≤ 0)%Z ∨
     (v = Z.of_N (lowest_free (w_tab w)) ∧ is_Some (w_tab w' !! lowest_free (w_tab w))) ∨
     (audit = true ∧ v = we_rerun env (r_nr r) (r_args r)))) as Hopen.
  { intros path flags mode Ho.
    destruct (open_spec env audit calls r path flags mode w Hrdy Ho) as (v & w' & os & ms & E & _ & _ & _ & _ & Ha).
    { destruct Ho as [(_ & Hm & _)|(_ & _ & Hm & _)]; by eapply Hreas. } { done. }
    exists v, w'. split; [done|].
    destruct Ha as [(_ & _ & -> & Ht)|(_ & res & _ & Hres)].
    - split; [by unfold kept; rewrite Ht|]. left. lia.
    - destruct res as [file|e].
      + destruct Hres as (-> & _ & Hn & Hk). split; [done|]. right. left. by rewrite Hn.
      + destruct Hres as (-> & ? & Ht). split; [by unfold kept; rewrite Ht|]. left. lia. }
  destruct Hrdy as (K & Hs & Hr).
  assert (∀ v P audit' h path flags os, probe_answer audit' h path flags os v P →
    (∀ f x, P f x → (- 4096 < x ≤ 0)%Z) → (- 4096 < v ≤ 0)%Z) as Hprobe.
  { intros v P a h path flags os [(_ & _ & ->)|(_ & res & _ & Hres)] HP; [lia|].
    destruct res; [by eapply HP|lia]. }
  assert (∀ o v, answer_of o v → (- 4096 < v ≤ 0)%Z) as Hans.
  { intros [e|] v; simpl; lia. }
  assert (trap env r w = handle_syscall env (r_nr r) (r_args r) (r_ip r) w →
    ∃ v w', trap env r w = (HRet v, w') ∧ kept (w_tab w) (w_tab w') ∧
    ((- 4096 < v ≤ 0)%Z ∨
     (v = Z.of_N (lowest_free (w_tab w)) ∧ is_Some (w_tab w' !! lowest_free (w_tab w))) ∨
     (audit = true ∧ v = we_rerun env (r_nr r) (r_args r)))) as Hother.
  { intros ->. destruct (handle_syscall_spec env audit calls (r_nr r) (r_args r) (r_ip r) w)
      as (w' & E & _ & _ & Ht); [done..|].
    eexists _, w'. split; [exact E|]. split; [by unfold kept; rewrite Ht|].
    destruct audit; [by right; right|left; lia]. }
  destruct (Hmem (r0 r)) as [s0 Hs0]. destruct (Hmem (r1 r)) as [s1 Hs1].
  assert (x00 ∉ lossy s0 ∧ short (lossy s0)) as [Hn0 Hsh0].
  { split; [apply lossy_nul; by eapply ko_mem|by apply short_lossy, (Hreas (r0 r))]. }
  destruct (decide (r_nr r = nr_access (nos (be_abi (we_broker env))))) as [E1|N1].
  { assert (accesses_path env r s0 (as_i32 (r1 r))) as Ha by done.
    rewrite (trap_access _ _ _ _ _ Ha).
    destruct (handle_access_spec env audit calls (lossy s0) (as_i32 (r1 r)) w)
      as (v & w' & os & E & _ & _ & Hk & Hv); [try apply lossy_utf8; try apply as_i32_range; done..|].
    exists v, w'. split; [done|]. split; [done|]. left. eapply Hprobe; [done|]. simpl. lia. }
  destruct (decide (r_nr r = nr_stat (nos (be_abi (we_broker env))))) as [E2|N2].
  { assert (stats_path env r s0) as Ha by done.
    rewrite (trap_stat _ _ _ _ Ha).
    destruct (handle_stat_spec env audit calls (lossy s0) w)
      as (v & w' & os & E & _ & _ & Hk & Hv); [try apply lossy_utf8; done..|].
    exists v, w'. split; [done|]. split; [done|]. left. eapply Hprobe; [done|]. simpl. eauto. }
  destruct (decide (r_nr r = nr_open (nos (be_abi (we_broker env))))) as [E3|N3].
  { apply (Hopen s0 (as_i32 (r1 r)) (as_i32 (r2 r))). by left. }
  destruct (decide (r_nr r = nr_chdir (nos (be_abi (we_broker env))))) as [E4|N4].
  { assert (chdirs_path env r s0) as Ha by done.
    rewrite (trap_chdir _ _ _ _ Ha).
    destruct (handle_chdir_spec env audit calls (lossy s0) w)
      as (v & w' & os & ms & E & _ & Hk & _ & _ & Hv); [try apply lossy_utf8; done..|].
    exists v, w'. split; [done|]. split; [done|]. left. eapply Hprobe; [done|].
    intros f x Hx. cbv beta in Hx. destruct (chdir_works env); [|lia].
    destruct Hx as [Hx _]. eauto. }
  assert (∀ a b, a ≠ b → (a =? b)%Z = false) as Hneq by (intros; lia).
  destruct (decide (r_nr r = nr_openat (nos (be_abi (we_broker env))))) as [E5|N5].
  - destruct (decide (as_i32 (r0 r) = AT_FDCWD ∨ starts_with_byte slash s1 = true)) as [Hb|Hb].
    { apply (Hopen s1 (as_i32 (r2 r)) (as_i32 (r3 r))). right. done. }
    apply Hother. unfold trap, sigsys_handler.
    rewrite (Hneq _ _ N1), (Hneq _ _ N2), (Hneq _ _ N3), E5, Z.eqb_refl, Hs1.
    destruct (as_i32 (r0 r) =? AT_FDCWD)%Z eqn:Ef; [destruct Hb; left; lia|].
    destruct (starts_with_byte slash s1); [destruct Hb; by right|done].
  - apply Hother. unfold trap, sigsys_handler.
    by rewrite (Hneq _ _ N1), (Hneq _ _ N2), (Hneq _ _ N3), (Hneq _ _ N4), (Hneq _ _ N5).
Qed.
Print Assumptions C38_no_panic_partial.

(** A path whose request does not fit in a message crashes the worker. *)
Theorem C38_long_path_refuted env r path flags mode w :
  opens_path env r path flags mode → starts_with_byte slash path = true →
  is_utf8 path → 65536 ≤ N.of_nat (length path) → fst (trap env r w) = HPanic.
Proof.
  intros Ho Ha Hu Hl. rewrite (trap_open _ _ _ _ _ _ Ho). unfold handle_openat.
  rewrite lossy_slash, Ha. apply lossy_id in Hu. rewrite Hu.
  unfold openat_request, send_recv.
  assert (channel_send enc_request (be_abi (we_broker env)) (we_sndbuf env) (w_tab w)
    (ReqOpenFile path flags) None IPC_MESSAGE_MAX_SIZE = Err IpcSerialization) as ->; [|done].
  unfold channel_send, serialize.
  replace (N.of_nat (length (enc_request (ReqOpenFile path flags))) <=? IPC_MESSAGE_MAX_SIZE)
    with false; [done|].
  unfold enc_request, enc_str, enc_bytes, enc_u64, enc_u32, IPC_MESSAGE_MAX_SIZE.
  rewrite !app_length. change (length (enc_varint 5 1)) with 1%nat. lia.
Qed.
Print Assumptions C38_long_path_refuted.

(** A worker whose descriptor table is full crashes on an open that is granted and
    that the kernel grants to the broker. *)
Theorem C38_full_table_refuted :
  ∃ env calls w r, kernel_ok env ∧ set_up env false calls ∧ regs_ok r ∧ readable env ∧
    fst (trap env r w) = HPanic.
Proof.
  set (env := mkWenv exw_broker (get_runtime_policy (build false exw_calls)) false true 3 200000
    (λ _, Some (lit "/f")) None [0%Z; 0%Z; 0%Z; 0%Z; 0%Z; 0%Z] 0
    (λ _, None) (λ _, None) (λ _ _, 77%Z)).
  exists env, exw_calls, exw_world, (call 5 4096 0). split_and!.
  - constructor; simpl; try done; try lia.
    + intros _ p f e H. repeat case_bool_decide; simplify_eq. lia.
    + intros _ s' [= <-]. no_nul.
    + split; [done|]. repeat (constructor; [unfold is_i64; lia|]). constructor.
  - done.
  - split; [unfold is_i64; simpl; lia|]. split; [|unfold is_i64; simpl; lia].
    repeat (constructor; [unfold is_i64; simpl; lia|]). constructor.
  - split; [by eexists|]. split; [|done]. intros _ s [= <-]. unfold reasonable. by vm_compute.
  - by vm_compute.
Qed.
Print Assumptions C38_full_table_refuted.

Example C38_example :
  fst (trap (exw_env false true (lit "/f")) (call 5 4096 0) exw_world) = HRet 3%Z ∧
  fst (trap (exw_env false true (lit "/g")) (call 5 4096 0) exw_world) = HRet (-13)%Z ∧
  fst (trap (exw_env false true (lit "/home/u/g")) (call 5 4096 0) exw_world) = HRet (-2)%Z ∧
  fst (trap (exw_env false true (lit "/f")) (call 999 4096 0) exw_world) = HRet (-38)%Z ∧
  fst (trap (exw_env true true (lit "/f")) (call 999 4096 0) exw_world) = HRet 77%Z ∧
  regs_ok (call 999 4096 0).
Proof.
  do 5 (split; [by vm_compute|]).
  split; [unfold is_i64; simpl; lia|]. split; [|unfold is_i64; simpl; lia].
  repeat (constructor; [unfold is_i64; simpl; lia|]). constructor.
Qed.

(* ---------------------------------------------------------------- C39 *)

Definition raw_call (m : ipc_request) : Prop := ∃ nb args ip, m = ReqSyscall nb args ip.
(** The five calls that are turned into open requests. *)
Definition path_call (env : wenv) (r : regs) : Prop :=
  (∃ path flags mode, opens_path env r path flags mode) ∨
  (∃ path mode, accesses_path env r path mode) ∨
  (∃ path, stats_path env r path) ∨ (∃ path, chdirs_path env r path).

(** What is asked of the broker for each kind of call. *)
Theorem C39_routing env audit calls r w :
  ready env audit calls w → regs_ok r → readable env →
  ∃ v w' ms, trap env r w = (HRet v, w') ∧ w_sent w' = w_sent w ++ ms ∧
    (∀ path flags mode, opens_path env r path flags mode →
       ∃ ms', ms = ms' ++ [ReqOpenFile (asked env audit path) flags] ∧ Forall raw_call ms') ∧
    (∀ path mode, accesses_path env r path mode → ms = [ReqOpenFile (lossy path) mode]) ∧
    (∀ path, stats_path env r path → ms = [ReqOpenFile (lossy path) 0x200000]) ∧
    (∀ path, chdirs_path env r path →
       ∃ ms', ms = ReqOpenFile (lossy path) 0x200000 :: ms' ∧ Forall raw_call ms') ∧
    (¬ path_call env r → ms = [ReqSyscall (r_nr r) (r_args r) (r_ip r)]).
Proof.
  intros Hrdy (Hnr & Hargs & Hip) (Hmem & Hreas & Hcwd).
  destruct (Hmem (r0 r)) as [s0 Hs0]. destruct (Hmem (r1 r)) as [s1 Hs1].
  pose proof Hrdy as (K & Hs & Hr).
  assert (x00 ∉ lossy s0 ∧ short (lossy s0)) as [Hn0 Hsh0].
  { split; [apply lossy_nul; by eapply ko_mem|by apply short_lossy, (Hreas (r0 r))]. }
  set (n := nos (be_abi (we_broker env))).
  assert (nr_access n ≠ nr_stat n ∧ nr_access n ≠ nr_open n ∧ nr_access n ≠ nr_openat n ∧
    nr_access n ≠ nr_chdir n ∧ nr_stat n ≠ nr_open n ∧ nr_stat n ≠ nr_openat n ∧
    nr_stat n ≠ nr_chdir n ∧ nr_open n ≠ nr_openat n ∧ nr_open n ≠ nr_chdir n ∧
    nr_openat n ≠ nr_chdir n) as Hdist.
  { unfold n. by destruct (be_abi (we_broker env)). }
  destruct (decide (r_nr r = nr_access n)) as [E1|N1].
  { assert (accesses_path env r s0 (as_i32 (r1 r))) as Ha by done.
    rewrite (trap_access _ _ _ _ _ Ha).
    destruct (handle_access_spec env audit calls (lossy s0) (as_i32 (r1 r)) w)
      as (v & w' & os & E & (Hsent & _) & _);
      [try apply lossy_utf8; try apply as_i32_range; done..|].
    exists v, w', [ReqOpenFile (lossy s0) (as_i32 (r1 r))].
    split; [done|]. split; [done|]. split; [|split; [|split; [|split]]].
    - intros p f m [(H & _)|(H & _)]; fold n in H; rewrite E1 in H; lia.
    - intros p m (_ & H & ->). by simplify_eq.
    - intros p (H & _). fold n in H. rewrite E1 in H. lia.
    - intros p (H & _). fold n in H. rewrite E1 in H. lia.
    - intros []. right. left. eauto. }
  destruct (decide (r_nr r = nr_stat n)) as [E2|N2].
  { assert (stats_path env r s0) as Ha by done.
    rewrite (trap_stat _ _ _ _ Ha).
    destruct (handle_stat_spec env audit calls (lossy s0) w)
      as (v & w' & os & E & (Hsent & _) & _); [try apply lossy_utf8; done..|].
    exists v, w', [ReqOpenFile (lossy s0) O_PATH].
    split; [done|]. split; [done|]. split; [|split; [|split; [|split]]].
    - intros p f m [(H & _)|(H & _)]; fold n in H; rewrite E2 in H; lia.
    - intros p m (H & _). done.
    - intros p (_ & H). by simplify_eq.
    - intros p (H & _). fold n in H. rewrite E2 in H. lia.
    - intros []. right. right. left. eauto. }
  destruct (decide (r_nr r = nr_chdir n)) as [E4|N4].
  { assert (chdirs_path env r s0) as Ha by done.
    rewrite (trap_chdir _ _ _ _ Ha).
    destruct (handle_chdir_spec env audit calls (lossy s0) w)
      as (v & w' & os & ms & E & (Hsent & _) & _ & Hms & _); [try apply lossy_utf8; done..|].
    exists v, w', (ReqOpenFile (lossy s0) O_PATH :: ms).
    split; [done|]. split; [done|]. split; [|split; [|split; [|split]]].
    - intros p f m [(H & _)|(H & _)]; fold n in H; rewrite E4 in H; lia.
    - intros p m (H & _). done.
    - intros p (H & _). done.
    - intros p (_ & H). simplify_eq. exists ms. split; [done|]. by apply Forall_forall.
    - intros []. right. right. right. eauto. }
  destruct (decide (r_nr r = nr_open n ∨ (r_nr r = nr_openat n ∧
    (as_i32 (r0 r) = AT_FDCWD ∨ starts_with_byte slash s1 = true)))) as [Ho|Ho].
  { assert (∃ path flags mode, opens_path env r path flags mode ∧ reasonable path) as
      (path & flags & mode & Hop & Hreas').
    { destruct Ho as [Ho|[Ho Hb]].
      - exists s0, (as_i32 (r1 r)), (as_i32 (r2 r)). split; [by left|by eapply Hreas].
      - exists s1, (as_i32 (r2 r)), (as_i32 (r3 r)). split; [by right|by eapply Hreas]. }
    destruct (open_spec env audit calls r path flags mode w Hrdy Hop Hreas' Hcwd)
      as (v & w' & os & ms & E & (Hsent & _) & Hms & _).
    exists v, w', (ms ++ [ReqOpenFile (asked env audit path) flags]).
    split; [done|]. split; [done|]. split; [|split; [|split; [|split]]].
    - intros p f m Hop'.
      assert (p = path ∧ f = flags) as [-> ->].
      { destruct Hop as [(Ha & Hb & -> & _)|(Ha & _ & Hb & -> & _)];
          destruct Hop' as [(Ha' & Hb' & -> & _)|(Ha' & _ & Hb' & -> & _)];
          fold n in Ha, Ha'.
        - rewrite Hb in Hb'. by injection Hb' as ->.
        - rewrite Ha in Ha'. by destruct Hdist as (_ & _ & _ & _ & _ & _ & _ & ? & _).
        - rewrite Ha in Ha'. by destruct Hdist as (_ & _ & _ & _ & _ & _ & _ & ? & _).
        - rewrite Hb in Hb'. by injection Hb' as ->. }
      exists ms. split; [done|]. by apply Forall_forall.
    - intros p m (H & _). done.
    - intros p (H & _). done.
    - intros p (H & _). done.
    - intros []. left. eauto. }
  assert (trap env r w = handle_syscall env (r_nr r) (r_args r) (r_ip r) w) as ->.
  { assert (∀ a b, a ≠ b → (a =? b)%Z = false) as Hneq by (intros; lia).
    unfold trap, sigsys_handler. fold n.
    rewrite (Hneq _ _ N1), (Hneq _ _ N2), (Hneq _ _ N4), Hs1.
    rewrite (Hneq (r_nr r) (nr_open n)) by lia.
    destruct (r_nr r =? nr_openat n)%Z eqn:E5; [|done].
    destruct (as_i32 (r0 r) =? AT_FDCWD)%Z eqn:Ef; [destruct Ho; right; split; [lia|left; lia]|].
    destruct (starts_with_byte slash s1) eqn:Eb; [destruct Ho; right; split; [lia|by right]|done]. }
  destruct (handle_syscall_spec env audit calls (r_nr r) (r_args r) (r_ip r) w)
    as (w' & E & (Hsent & _) & _); [done..|].
  eexists _, w', _. split; [exact E|]. split; [done|].
  split; [|split; [|split; [|split]]].
  - intros p f m [(H & _)|(H & Hb & Hm & _)]; [destruct Ho; by left|].
    destruct Ho. right. split; [done|]. by simplify_eq.
  - intros p m (H & _). done.
  - intros p (H & _). done.
  - intros p (H & _). done.
  - done.
Qed.
Print Assumptions C39_routing.

(* openat with another base directory and a relative path is forwarded; so is anything
   else. *)
Example C39_example :
  exw_run (exw_env false true (lit "f")) (mkRegs 295 5 4096 0 0 0 0 99) =
    (HRet (-38)%Z, [ReqSyscall 295 [5; 4096; 0; 0; 0; 0]%Z 99], [100; 101; 102]) ∧
  exw_run (exw_env false true (lit "/f")) (mkRegs 295 5 4096 0 0 0 0 99) =
    (HRet 3%Z, [ReqOpenFile (lit "/f") 0], [100; 101; 43; 102]) ∧
  exw_run (exw_env false true (lit "/f")) (mkRegs 295 4294967196 4096 0 0 0 0 99) =
    (HRet 3%Z, [ReqOpenFile (lit "/f") 0], [100; 101; 43; 102]) ∧
  ¬ path_call (exw_env false true (lit "f")) (mkRegs 295 5 4096 0 0 0 0 99).
Proof.
  split; [by vm_compute|]. split; [by vm_compute|]. split; [by vm_compute|].
  intros [(p & f & m & [(H & _)|(_ & [H|H] & Hm & _)])|[(p & m & H & _)|[(p & H & _)|(p & H & _)]]];
    try by vm_compute in H.
  vm_compute in Hm. injection Hm as <-. by vm_compute in H.
Qed.

(* ---------------------------------------------------------------- C78 *)

(** From end to end: in enforcing mode open of an absolute path yields a descriptor
    exactly when the user's rules give the needed rights and the kernel opened that
    path for the broker; the descriptor is the lowest free one and refers to that file.
    Otherwise the descriptors are unchanged; an open the rules do not allow is never
    attempted. *)
Theorem C78_open_end_to_end env calls r path flags mode w :
  ready env false calls w → opens_path env r path flags mode → reasonable path →
  (∀ d, we_cwd env = Some d → reasonable d) →
  is_utf8 path → starts_with_byte slash path = true →
  ∃ v w' os, trap env r w = (HRet v, w') ∧
    opens (bs_trace (w_broker w')) = opens (bs_trace (w_broker w)) ++ os ∧
    bs_tab (w_broker w') = bs_tab (w_broker w) ∧ kept (w_tab w) (w_tab w') ∧
    ((0 ≤ v)%Z ↔ should_grant (rules_of calls) path flags ∧ ∃ file, os = [(path, flags, 384%Z, Ok file)]) ∧
    ((0 ≤ v)%Z → v = Z.of_N (lowest_free (w_tab w)) ∧
       ∃ file, os = [(path, flags, 384%Z, Ok file)] ∧
         fd_file <$> w_tab w' !! Z.to_N v = Some file) ∧
    ((v < 0)%Z → w_tab w' = w_tab w) ∧
    (¬ should_grant (rules_of calls) path flags → v = (-13)%Z ∧ os = []) ∧
    (should_grant (rules_of calls) path flags → (v < 0)%Z →
       ∃ e, os = [(path, flags, 384%Z, Err e)] ∧ v = (- Z.of_N e)%Z).
Proof.
  intros Hr Ho Hp Hc Hu Ha.
  destruct (C34_absolute env false calls r path flags mode w) as (v & w' & os & E & He & Hans); [done..|].
  exists v, w', os. split; [done|]. split; [apply He|]. split; [apply He|].
  destruct Hans as [(Hno & -> & -> & Ht)|([?|Hy] & res & -> & Hres)]; [|done|].
  - assert (¬ should_grant (rules_of calls) path flags) as Hno' by (intros ?; apply Hno; by right).
    split; [by unfold kept; rewrite Ht|]. split; [split; [lia|by intros [? _]]|].
    split; [lia|]. done.
  - destruct res as [file|e].
    + destruct Hres as (-> & _ & Hn & Hk). split; [done|].
      split; [split; [by eauto|lia]|]. split.
      { intros _. split; [done|]. exists file. split; [done|]. by rewrite N2Z.id, Hn. }
      split; [lia|]. split; [done|]. lia.
    + destruct Hres as (-> & He' & Ht). split; [by unfold kept; rewrite Ht|].
      split; [split; [lia|by intros (_ & ? & ?)]|]. split; [lia|].
      split; [done|]. split; [done|]. eauto.
Qed.
Print Assumptions C78_open_end_to_end.

Example C78_example :
  exw_run (exw_env false true (lit "/home/u/f")) (call 5 4096 0) =
    (HRet 3%Z, [ReqOpenFile (lit "/home/u/f") 0], [100; 101; 42; 102]) ∧
  exw_run (exw_env false true (lit "/home/u/f")) (call 5 4096 1) =
    (HRet (-13)%Z, [ReqOpenFile (lit "/home/u/f") 1], [100; 101; 102]) ∧
  opens_path (exw_env false true (lit "/home/u/f")) (call 5 4096 0) (lit "/home/u/f") 0 0.
Proof. split; [by vm_compute|]. split; [by vm_compute|]. left. by vm_compute. Qed.

(* ---------------------------------------------------------------- C79 *)

(** The mode of the program is not used: the broker always opens with 0600. The new
    descriptor is always close-on-exec, also when the program did not ask for it. *)
Theorem C79_mode_and_cloexec_refuted env audit calls r path flags mode w :
  ready env audit calls w → opens_path env r path flags mode → reasonable path →
  (∀ d, we_cwd env = Some d → reasonable d) →
  ∃ v w' os, trap env r w = (HRet v, w') ∧
    opens (bs_trace (w_broker w')) = opens (bs_trace (w_broker w)) ++ os ∧
    (∀ p f m res, (p, f, m, res) ∈ os → f = flags ∧ m = 384%Z) ∧
    ((0 ≤ v)%Z → fd_flags <$> w_tab w' !! Z.to_N v = Some FD_CLOEXEC).
Proof.
  intros Hr Ho Hp Hc.
  destruct (open_spec env audit calls r path flags mode w Hr Ho Hp Hc)
    as (v & w' & os & ms & E & He & _ & _ & _ & Hans).
  exists v, w', os. split; [done|]. split; [apply He|].
  destruct Hans as [(_ & -> & -> & _)|(_ & res & -> & Hres)].
  - split; [set_solver|lia].
  - split; [intros p f m res' [= -> -> -> ->]%elem_of_list_singleton; done|].
    destruct res as [file|e]; [|lia]. destruct Hres as (-> & _ & Hn & _). intros _.
    by rewrite N2Z.id, Hn.
Qed.
Print Assumptions C79_mode_and_cloexec_refuted.

(** The flags reach the kernel unchanged (same theorem, first part of the claim). *)
Example C79_example :
  let env := mkWenv exw_broker (get_runtime_policy (build false
      [CallRule (AllowDirWrite (lit "/home/u"))])) false true 1024 200000
    (λ _, Some (lit "/home/u/f")) None [0%Z; 0%Z; 0%Z; 0%Z; 0%Z; 0%Z] 0
    (λ _, None) (λ _, None) (λ _ _, 77%Z) in
  let w := snd (trap env (mkRegs 5 4096 65 420 0 0 0 0) exw_world) in
  opens (bs_trace (w_broker w)) = [(lit "/home/u/f", 65%Z, 384%Z, Ok 42)] ∧
  w_tab w !! 3 = Some (mkFd 42 FD_CLOEXEC) ∧
  opens_path env (mkRegs 5 4096 65 420 0 0 0 0) (lit "/home/u/f") 65 420.
Proof. split; [by vm_compute|]. split; [by vm_compute|]. left. by vm_compute. Qed.

(* ---------------------------------------------------------------- C80 *)

(** A bad pointer kills the worker instead of failing with EFAULT, for each of the five
    calls. *)
Theorem C80_bad_pointer_refuted env r w :
  let n := nos (be_abi (we_broker env)) in
  ((r_nr r = nr_open n ∨ r_nr r = nr_access n ∨ r_nr r = nr_stat n ∨ r_nr r = nr_chdir n) ∧
     we_mem env (r0 r) = None) ∨
  (r_nr r = nr_openat n ∧ we_mem env (r1 r) = None) →
  trap env r w = (HFault, w).
Proof.
  intros n. subst n. unfold trap, sigsys_handler, read_string_from_ptr.
  destruct (be_abi (we_broker env)); simpl;
    intros [[[-> |[-> |[-> | ->]]] ->]|[-> ->]]; simpl; try done; by destruct (as_i32 (r0 r) =? _)%Z.
Qed.
Print Assumptions C80_bad_pointer_refuted.

(** A readable string never faults (part of C38). *)
Example C80_example :
  fst (trap (exw_env false true (lit "/f")) (call 5 0 0) exw_world) = HFault ∧
  fst (trap (exw_env false true (lit "/f")) (call 5 4096 0) exw_world) = HRet 3%Z.
Proof. by vm_compute. Qed.
