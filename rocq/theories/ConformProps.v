(** What the project's own tests of file access expect, of the model and for every path: C157.
    tests/tests/file_path_open.rs with tests/src/bin/file_path_open_worker.rs runs a table of
    opens on one temporary file under four policies; tests/tests/unix_file_path_policy_decision.rs
    asks for verdicts on a few paths. *)
From stdpp Require Import prelude gmap.
From Coq Require Import Strings.Byte.
From Verif Require Import Bytes PolicyModel PolicySpec LinuxPolicyModel LinuxPolicySpec
  LinuxPolicyProofs PostcardSpec FdModel BrokerModel BrokerSpec WorkerModel WorkerSpec WorkerProofs WorkerProps.
From Verif Require Import WinPolicyModel WinPolicySpec.
From Verif Require LinuxPolicyProps WinPolicyProps.
Local Open Scope Z_scope.

(** tests/src/bin/file_path_open_worker.rs:140-150: open flags, and whether they should work
    for a file that the policy makes [readable] and [writable]. *)
Definition open_table : list (Z * (bool → bool → bool)) :=
  [ (0,                       λ r w, r);            (* O_RDONLY *)
    (Z.lor 0 524288,          λ r w, r);            (* O_RDONLY | O_CLOEXEC *)
    (1,                       λ r w, w);            (* O_WRONLY *)
    (2,                       λ r w, r && w);       (* O_RDWR *)
    (Z.lor 1 1024,            λ r w, w);            (* O_WRONLY | O_APPEND *)
    (Z.lor 2 1024,            λ r w, r && w);       (* O_RDWR | O_APPEND *)
    (2097152,                 λ r w, r || w);       (* O_PATH *)
    (Z.lor 0 64,              λ r w, r && w);       (* O_RDONLY | O_CREAT *)
    (Z.lor 0 128,             λ r w, r && w);       (* O_RDONLY | O_EXCL *)
    (Z.lor 0 512,             λ r w, r && w) ].     (* O_RDONLY | O_TRUNC *)
(** tests/tests/file_path_open.rs:76-86 *)
Definition test_calls (readable writable : bool) (path : str) : list api_call :=
  (if readable then [CallRule (AllowFileRead path)] else []) ++
  (if writable then [CallRule (AllowFileWrite path)] else []).
(** tests/src/bin/file_path_open_worker.rs:77-135 (check_fd): what the descriptor is good for. *)
Definition test_can_read (flags : Z) : bool := Z.land flags (Z.lor 1 2097152) =? 0.
Definition test_can_write (flags : Z) : bool :=
  negb (Z.land flags (Z.lor 1 2) =? 0) && (Z.land flags 2097152 =? 0).

Lemma test_entitled r w path cs :
  names slash path cs →
  (entitled (rules_of (test_calls r w path)) cs RRead ↔ r = true) ∧
  (entitled (rules_of (test_calls r w path)) cs RWrite ↔ w = true).
Proof.
  intros Hn. unfold entitled, rules_of, test_calls.
  split; split.
  - intros (x & Hx & _ & Hg). destruct r; [done|]. destruct w; cbn in Hx.
    + apply elem_of_list_singleton in Hx as ->. done.
    + by apply elem_of_nil in Hx.
  - intros ->. exists (AllowFileRead path). split; [by left|]. split; [|done]. left. split; [by intros []|done].
  - intros (x & Hx & _ & Hg). destruct w; [done|]. destruct r; cbn in Hx.
    + apply elem_of_list_singleton in Hx as ->. done.
    + by apply elem_of_nil in Hx.
  - intros ->. exists (AllowFileWrite path). split; [|split; [left; split; [by intros []|done]|done]].
    destruct r; cbn; [by right; left|by left].
Qed.
Lemma table_needs flags f :
  (flags, f) ∈ open_table →
  supported_flags flags ∧
  ∀ r w, f r w = (r || w) && implb (requests_read (effective_flags flags)) r &&
    implb (requests_write (effective_flags flags)) w.
Proof.
  intros H. unfold open_table in H. rewrite <- supported_spec.
  repeat (apply elem_of_cons in H as [[= -> ->]|H];
    [split; [by vm_compute|intros [] []; by vm_compute]|]).
  by apply elem_of_nil in H.
Qed.

(** The verdicts of the table, for every file named by a canonical path. *)
Theorem C157_table path cs readable writable flags should_work :
  canonical cs → names slash path cs → (flags, should_work) ∈ open_table →
  should_grant (rules_of (test_calls readable writable path)) path flags ↔
  should_work readable writable = true.
Proof.
  intros Hc Hn Ht. destruct (table_needs _ _ Ht) as [Hsup Hf]. rewrite Hf.
  rewrite !andb_true_iff, orb_true_iff, !implb_true_iff, requests_read_spec, requests_write_spec.
  destruct (test_entitled readable writable path cs Hn) as [Hr Hw].
  unfold should_grant. split.
  - intros (_ & cs' & Hc' & Hn' & H1 & H2 & H3).
    destruct (test_entitled readable writable path cs' Hn') as [Hr' Hw'].
    rewrite Hr', Hw' in H1. rewrite Hr' in H2. rewrite Hw' in H3. done.
  - intros [[H1 H2] H3]. split; [done|]. exists cs. rewrite Hr, Hw. done.
Qed.
Print Assumptions C157_table.

(** The whole call, by open or openat, for every such path a program can have in memory:
    what should work gives a descriptor of what the broker opened or the error its open met;
    the rest is EACCES and opens nothing. *)
Theorem C157_open env readable writable r path cs flags should_work mode w :
  ready env false (test_calls readable writable path) w → opens_path env r path flags mode →
  reasonable path → (∀ d, we_cwd env = Some d → reasonable d) → is_utf8 path →
  canonical cs → names slash path cs → (flags, should_work) ∈ open_table →
  ∃ v w' os, trap env r w = (HRet v, w') ∧
    opens (bs_trace (w_broker w')) = opens (bs_trace (w_broker w)) ++ os ∧
    (should_work readable writable = true →
       (∃ file, os = [(path, flags, 384, Ok file)] ∧ v = Z.of_N (FdModel.lowest_free (w_tab w)) ∧
          fd_file <$> w_tab w' !! Z.to_N v = Some file) ∨
       (∃ e, os = [(path, flags, 384, Err e)] ∧ v = - Z.of_N e)) ∧
    (should_work readable writable = false → v = -13 ∧ os = [] ∧ w_tab w' = w_tab w).
Proof.
  intros Hr Ho Hp Hd Hu Hc Hn Ht.
  assert (starts_with_byte slash path = true) as Hs.
  { apply (names_slash path cs); [by destruct Hc|done]. }
  destruct (C78_open_end_to_end env _ r path flags mode w Hr Ho Hp Hd Hu Hs)
    as (v & w' & os & E & Hos & _ & _ & Hiff & Hpos & Hneg & Hno & Hyes).
  rewrite (C157_table path cs readable writable flags should_work Hc Hn Ht) in *.
  exists v, w', os. split; [done|]. split; [done|]. split.
  - intros Hw. destruct (decide (0 ≤ v)) as [Hv|Hv].
    + destruct (Hpos Hv) as (-> & file & -> & Hf). left. by exists file.
    + right. apply Hyes; [done|lia].
  - intros Hw. destruct Hno as [-> ->]; [by rewrite Hw|]. split; [done|]. split; [done|].
    by apply Hneg.
Qed.
Print Assumptions C157_open.

(** The descriptor of a table entry can be used as the test tries to. *)
Theorem C157_use flags should_work :
  (flags, should_work) ∈ open_table →
  (kernel_can_read flags ↔ test_can_read flags = true) ∧
  (¬ path_only flags ∧ (accmode flags = 1 ∨ accmode flags = 2) ↔ test_can_write flags = true).
Proof.
  intros H. unfold open_table in H.
  repeat (apply elem_of_cons in H as [[= -> ->]|H];
    [unfold kernel_can_read, path_only, accmode, bit, test_can_read, test_can_write;
     vm_compute; naive_solver|]).
  by apply elem_of_nil in H.
Qed.
Print Assumptions C157_use.

(** tests/tests/unix_file_path_policy_decision.rs:7-162, assertion by assertion. *)
Definition asks (rules : list rule) (path : str) (flags : Z) : verdict :=
  fst (evaluate_request (build false (CallRule <$> rules)) (FileOpen path flags)).
Definition denied (v : verdict) : bool := match v with DeniedByPolicy _ => true | _ => false end.
Definition invalid (v : verdict) : bool :=
  match v with InvalidRequestParameters _ _ => true | _ => false end.
Example C157_decisions :
  let hosts := [AllowFileRead (lit "/etc/hosts")] in
  let slashless := [AllowDirWrite (lit "/without_trailing_slash")] in
  let etc := [AllowDirRead (lit "/etc/")] in
  let cache := [AllowDirRead (lit "/home/me/"); AllowDirWrite (lit "/home/me/.cache/")] in
  let me := [AllowDirRead (lit "/home/me/")] in
  asks hosts (lit "/etc/hosts") 0 = Granted ∧
  denied (asks hosts (lit "/etc/nothosts") 0) = true ∧
  denied (asks hosts (lit "/etc/hosts") 1) = true ∧
  denied (asks hosts (lit "/etc/hosts ") 0) = true ∧
  asks slashless (lit "/without_trailing_slash") 1 = Granted ∧
  asks slashless (lit "/without_trailing_slash/") 1 = Granted ∧
  denied (asks slashless (lit "/not_without_trailing_slash") 1) = true ∧
  denied (asks slashless (lit "/without_trailing_slash") 0) = true ∧
  asks etc (lit "/etc/hosts") 0 = Granted ∧
  asks etc (lit "/etc/ssh/ssh_config") 0 = Granted ∧
  asks cache (lit "/home/me/.cache/a.txt") 2 = Granted ∧
  invalid (asks me (lit "a.txt") 0) = true ∧
  invalid (asks me (lit "../../../../../../../../home/me/a.txt") 0) = true ∧
  invalid (asks me (lit "/home/me/../a.txt") 0) = true ∧
  invalid (asks me (lit "/home/me/./a.txt") 0) = true.
Proof. by vm_compute. Qed.

(** The general facts behind them. *)
Theorem C157_general rules path flags :
  (asks rules path flags = Granted ↔ should_grant rules path flags) ∧
  (invalid (asks rules path flags) = true ↔
     supported_flags flags ∧ ¬ ∃ cs, canonical cs ∧ names slash path cs).
Proof.
  split.
  - unfold asks. rewrite LinuxPolicyProps.C02_exact_grant. unfold rules_of.
    assert (omap (λ c, match c with CallRule r => Some r | _ => None end) (CallRule <$> rules) = rules)
      as ->; [|done].
    induction rules as [|r rules IH]; [done|]. cbn. by f_equal.
  - unfold asks, evaluate_request. cbn [fst].
    assert (audit_only (build false (CallRule <$> rules)) = false) as ->.
    { unfold build. assert (∀ p, audit_only (foldl apply_call_ignore p (CallRule <$> rules)) = audit_only p) as H.
      { induction rules as [|r rules IH]; intros p; [done|]. cbn [fmap list_fmap foldl].
        rewrite IH. unfold apply_call_ignore, apply_call, apply_rule, allow_file_access.
        destruct r; destruct (derive_all_file_paths_from_path _) as [ps|] eqn:E; try done;
          unfold derive_all_file_paths_from_path in E; destruct (starts_with_byte _ _); by simplify_eq. }
      by rewrite H. }
    cbn [raw_verdict]. unfold check_file_open.
    rewrite <- supported_spec.
    destruct (Z.land flags (Z.lnot SUPPORTED_FILE_OPEN_FLAGS) =? 0) eqn:Ef; cbn [negb].
    + apply Z.eqb_eq in Ef. destruct (path_is_sane path) eqn:Es; cbn [negb].
      * apply path_is_sane_spec in Es as (cs & Hc & Hn).
        split; [by destruct (_ || _ || _)|]. intros [_ []]. by exists cs.
      * split; [|done]. intros _. split; [done|]. intros (cs & Hc & Hn).
        assert (path_is_sane path = true) by (apply path_is_sane_spec; by exists cs). congruence.
    + apply Z.eqb_neq in Ef. split; [done|]. by intros [? _].
Qed.
Print Assumptions C157_general.

(** The same test on Windows, tests/src/bin/file_path_open_worker.rs:373-409: the access
    masks; the sharing mode is all, the disposition FILE_OPEN, the options
    FILE_NON_DIRECTORY_FILE | FILE_SYNCHRONOUS_IO_NONALERT, to which
    broker/src/windows/brokered_syscalls.rs:68 adds FILE_FLAG_OPEN_REPARSE_POINT. *)
Definition win_open_table : list (Z * (bool → bool → bool)) :=
  [ (Z.lor 0x1 0x100000,         λ r w, r);       (* FILE_READ_DATA | SYNCHRONIZE *)
    (Z.lor 0x80000000 0x100000,  λ r w, r);       (* GENERIC_READ | SYNCHRONIZE *)
    (Z.lor 0x2 0x100000,         λ r w, w);       (* FILE_WRITE_DATA | SYNCHRONIZE *)
    (Z.lor 0x40000000 0x100000,  λ r w, w) ].     (* GENERIC_WRITE | SYNCHRONIZE *)
Definition win_test_request (path : str) (access : Z) : file_request :=
  mkFileReq path access 0 7 1 (Z.lor (Z.lor 0x40 0x20) 0x200000) [].
Definition win_test_calls (readable writable : bool) (path : str) (full : option str) : list win_call :=
  (if readable then [WinRule (AllowFileRead path) full] else []) ++
  (if writable then [WinRule (AllowFileWrite path) full] else []).

Lemma win_test_entitled r w path full cs :
  drive_absolute (default path full) → names backslash (nt_form (default path full)) cs →
  (win_entitled (win_test_calls r w path full) cs RRead ↔ r = true) ∧
  (win_entitled (win_test_calls r w path full) cs RWrite ↔ w = true) ∧
  ∀ x, win_entitled (win_test_calls r w path full) cs x → x = RRead ∨ x = RWrite.
Proof.
  intros Hd Hn. unfold win_entitled, win_test_calls.
  split; [|split]; [split|split|].
  - intros (x & f & Hx & _ & Hg). destruct r; [done|]. destruct w; cbn in Hx.
    + apply elem_of_list_singleton in Hx as [= -> ->]. done.
    + by apply elem_of_nil in Hx.
  - intros ->. exists (AllowFileRead path), full. split; [by left|]. split; [|done].
    split; [done|]. left. split; [by intros []|done].
  - intros (x & f & Hx & _ & Hg). destruct w; [done|]. destruct r; cbn in Hx.
    + apply elem_of_list_singleton in Hx as [= -> ->]. done.
    + by apply elem_of_nil in Hx.
  - intros ->. exists (AllowFileWrite path), full. split; [destruct r; cbn; [by right; left|by left]|].
    split; [|done]. split; [done|]. left. split; [by intros []|done].
  - intros x (y & f & Hy & _ & Hg). apply elem_of_app in Hy as [Hy|Hy].
    + destruct r; [|by apply elem_of_nil in Hy]. apply elem_of_list_singleton in Hy as [= -> ->].
      destruct x; cbn in Hg; try done. by left.
    + destruct w; [|by apply elem_of_nil in Hy]. apply elem_of_list_singleton in Hy as [= -> ->].
      destruct x; cbn in Hg; try done. by right.
Qed.
Lemma bits_small (b : Z) (l : list Z) (k : nat) :
  0 ≤ b < 2 ^ Z.of_nat k →
  forallb (λ n, negb (Z.testbit b (Z.of_nat n)) || existsb (Z.eqb (Z.of_nat n)) l) (seq 0 k) = true →
  only_bits l b.
Proof.
  intros Hb Hall n Hn Hbit. rewrite forallb_forall in Hall.
  destruct (decide (n < Z.of_nat k)) as [Hlt|Hge].
  - specialize (Hall (Z.to_nat n)). rewrite Z2Nat.id in Hall by done.
    unfold bit in Hbit. rewrite Hbit in Hall. cbn [negb orb] in Hall.
    destruct (existsb (Z.eqb n) l) eqn:E.
    + apply existsb_exists in E as (m & Hm & E). apply Z.eqb_eq in E as ->. by apply elem_of_list_In.
    + discriminate Hall. apply in_seq. lia.
  - unfold bit in Hbit.
    assert (Z.testbit b n = false) as E; [|congruence].
    destruct (decide (b = 0)) as [->|Hb0]; [apply Z.testbit_0_l|].
    apply Z.bits_above_log2; [lia|]. assert (Z.log2 b < Z.of_nat k) by (apply Z.log2_lt_pow2; lia). lia.
Qed.

Lemma some_bit_exists l w : some_bit l w ↔ existsb (Z.testbit w) l = true.
Proof.
  unfold some_bit, bit. rewrite existsb_exists. split.
  - intros (n & Hn & Hb). exists n. by rewrite <- elem_of_list_In.
  - intros (n & Hn & Hb). exists n. by rewrite elem_of_list_In.
Qed.

(** The verdicts of that table, for every drive-absolute path. *)
Theorem C157_win_table path full cs readable writable access should_work :
  drive_absolute (default path full) → well_formed cs →
  names backslash (nt_form (default path full)) cs → (access, should_work) ∈ win_open_table →
  WinPolicyProps.win_verdict false (win_test_calls readable writable path full)
    (WinFileOpen (win_test_request (nt_form (default path full)) access)) = Granted ↔
  should_work readable writable = true.
Proof.
  intros Hd Hc Hn Ht. rewrite (WinPolicyProps.C61_exact _ (win_test_request (nt_form (default path full)) access) cs Hc Hn).
  destruct (win_test_entitled readable writable path full cs Hd Hn) as (Hr & Hw & Hx).
  assert (file_supported (win_test_request (nt_form (default path full)) access)) as Hsup.
  { unfold win_open_table in Ht.
    repeat (apply elem_of_cons in Ht as [[= -> ->]|Ht];
      [split; [apply (bits_small _ _ 32); by vm_compute|];
       split; [apply (bits_small _ _ 32); by vm_compute|]; by vm_compute|]).
    by apply elem_of_nil in Ht. }
  assert (∀ x, file_needs (win_test_request (nt_form (default path full)) access) x →
    x = RRead ∨ x = RWrite) as Hshare.
  { intros []; cbn [file_needs]; auto; intros []; by vm_compute. }
  assert (∃ nr nw : bool,
    (file_needs (win_test_request (nt_form (default path full)) access) RRead ↔ nr = true) ∧
    (file_needs (win_test_request (nt_form (default path full)) access) RWrite ↔ nw = true) ∧
    ∀ r w, should_work r w = (r || w) && implb nr r && implb nw w) as (nr & nw & Hnr & Hnw & Hsw).
  { cbn [file_needs]. unfold file_needs_read, file_reads, file_writes, win_test_request.
    cbn [fr_access fr_disposition fr_options fr_ea].
    unfold win_open_table in Ht.
    repeat (apply elem_of_cons in Ht as [[= -> ->]|Ht]; [|]); [exists true, false|exists true, false|
      exists false, true|exists false, true|by apply elem_of_nil in Ht];
    (split; [|split; [|intros [] []; by vm_compute]]).
    all: rewrite some_bit_exists; unfold bit; vm_compute; naive_solver. }
  unfold win_should_grant. rewrite Hsw, !andb_true_iff, orb_true_iff, !implb_true_iff.
  rewrite <- Hnr, <- Hnw. split.
  - intros (_ & (x & Hex) & Hall). split; [split|].
    + destruct (Hx x Hex) as [-> | ->]; [left; by apply Hr|right; by apply Hw].
    + intros H. by apply Hr, Hall.
    + intros H. by apply Hw, Hall.
  - intros [[Hor H1] H2]. split; [done|]. split.
    + destruct Hor as [H|H]; [exists RRead; by apply Hr|exists RWrite; by apply Hw].
    + intros x Hneed. destruct (Hshare x Hneed) as [-> | ->]; [apply Hr|apply Hw]; auto.
Qed.
Print Assumptions C157_win_table.

Example C157_example :
  canonical [lit "tmp"; lit "f"] ∧ names slash (lit "/tmp/f") [lit "tmp"; lit "f"] ∧
  (λ '(flags, _), bool_decide (asks (rules_of (test_calls true false (lit "/tmp/f"))) (lit "/tmp/f") flags = Granted))
    <$> open_table = [true; true; false; false; false; false; true; false; false; false] ∧
  (λ '(access, _), bool_decide (WinPolicyProps.win_verdict false (win_test_calls false true (lit "C:\tmp\f") None)
     (WinFileOpen (win_test_request (lit "\??\C:\tmp\f") access)) = Granted))
    <$> win_open_table = [false; false; true; true].
Proof.
  split.
  - split; [done|]. repeat constructor; try done; apply (bool_decide_unpack _); by vm_compute.
  - split; [by left|]. split; by vm_compute.
Qed.
