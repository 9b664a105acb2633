(** Properties C75-C77 and C99-C101: the C interface. A program is any list of calls,
    run from a process with any open descriptors. *)
From stdpp Require Import prelude gmap.
From Coq Require Import Strings.Byte ZifyN ZifyNat ZifyBool.
From Verif Require Import Bytes BytesProofs PolicyModel LinuxPolicyModel LinuxPolicySpec
  LinuxPolicyProofs PostcardModel PostcardSpec PostcardProofs FdModel FdProofs ChannelModel
  ChannelProofs BrokerModel BrokerSpec BrokerProofs ProcessModel ProcessProofs WinPolicyModel
  BrokerProps ProcessProps WorkerNewProps CApiModel CApiSpec CApiProofs.
Local Open Scope N_scope.

(* ---------------------------------------------------------------- C75 *)

(** Only success is 0, statuses have different codes, no error becomes success, and
    errors of different kinds get different statuses. *)
Theorem C75_statuses :
  (∀ s, status_code s = 0 ↔ s = SSuccess) ∧
  (∀ s s', status_code s = status_code s' → s = s') ∧
  (∀ e, status_code (status_of_policy_error e) ≠ 0) ∧
  (∀ e, status_code (status_of_broker_error e) ≠ 0) ∧
  (∀ e, status_code (status_of_ipc_err e) ≠ 0) ∧
  (∀ e, status_code (status_of_handle_err e) ≠ 0) ∧
  (∀ e f, status_code (status_of_policy_error e) = status_code (status_of_policy_error f) →
     same_policy_error e f) ∧
  (∀ e f, status_code (status_of_broker_error e) = status_code (status_of_broker_error f) →
     same_broker_error e f) ∧
  (∀ e f, status_code (status_of_ipc_err e) = status_code (status_of_ipc_err f) →
     same_ipc_err e f) ∧
  (∀ e f, status_code (status_of_ipc_err e) ≠ status_code (status_of_handle_err f)) ∧
  (∀ e f, status_code (status_of_ipc_err e) ≠ status_code (status_of_broker_error f)) ∧
  (∀ e f, status_code (status_of_handle_err e) ≠ status_code (status_of_broker_error f)).
Proof.
  split_and!.
  - intros []; split; by intros.
  - intros [] []; by intros.
  - by intros [].
  - intros [| |[]|? ?|[]]; done.
  - by intros [].
  - by intros [].
  - intros [] []; by intros.
  - intros [| |[]|? ?|[]] [| |[]|? ?|[]]; by intros.
  - intros [] []; by intros.
  - intros [] []; by intros.
  - intros [] [| |[]|? ?|[]]; by intros.
  - intros [] [| |[]|? ?|[]]; by intros.
Qed.
Print Assumptions C75_statuses.
Example C75_example :
  map status_code [status_of_broker_error (OsFailed (lit "fork") 12);
                   status_of_broker_error (CannotBuildPolicyForWorker (InvalidHandleValue 7));
                   status_of_ipc_err (IInvalidProcessID 3)] = [2003; 1004; 3003].
Proof. done. Qed.

(* ---------------------------------------------------------------- C76 *)

(** Full statement of C76: a call that fails changes no object, makes the library close
    nothing and leaves every descriptor as it was. (A worker that could not be started
    may leave a descriptor behind, see C54.) *)
Definition C76_full : Prop := ∀ t cs rs s c st out s',
  c_run cs (c_init t) = CDone (rs, s) → c_step c s = CDone ((st, out), s') → st ≠ SSuccess →
  (∀ ptr, see <$> c_heap s' !! ptr = see <$> c_heap s !! ptr) ∧
  c_closes s' = c_closes s ∧ c_tab s ⊆ c_tab s' ∧
  ((∀ cfg pol o ne evs, c ≠ WorkerNew cfg pol o ne evs) → c_tab s' = c_tab s).

(** Partial: for programs that offer each policy at most 32 handles, failed offers
    included. *)
Theorem C76_rejected_partial t cs rs s c st out s' :
  few_handles (cs ++ [c]) →
  c_run cs (c_init t) = CDone (rs, s) → c_step c s = CDone ((st, out), s') → st ≠ SSuccess →
  (∀ ptr, see <$> c_heap s' !! ptr = see <$> c_heap s !! ptr) ∧
  c_closes s' = c_closes s ∧ c_tab s ⊆ c_tab s' ∧
  ((∀ cfg pol o ne evs, c ≠ WorkerNew cfg pol o ne evs) → c_tab s' = c_tab s).
Proof.
  intros Hf Hr Hs Hst.
  pose proof (room_run cs [c] _ _ _ (room_init t _ Hf) Hr) as [R1 _ _].
  pose proof (c_step_effect _ _ _ _ Hs) as He.
  inversion He; subst; try done.
  - split; [|done]. intros x. cbn [c_put c_heap]. destruct (decide (ptr = x)) as [<-|Hne].
    + rewrite lookup_insert.
      match goal with E : c_heap s !! ptr = Some _ |- _ => by rewrite E end.
    + by rewrite lookup_insert_ne.
  - exfalso.
    match goal with E : c_heap s !! ptr = Some _ |- _ => specialize (R1 _ _ E) end.
    rewrite offered_cons in R1. cbn [offers] in R1.
    rewrite N.eqb_refl, (proj2 (N.ltb_lt h (2 ^ 31))) in R1 by done. cbn [andb] in R1.
    by apply (fill_slot_room h (cp_slots p)); [lia|].
  - split; [done|]. split; [done|]. split.
    + cbn [c_set_tab c_tab]. apply worker_new_keeps. congruence.
    + intros Hn. by destruct (Hn cfg pol true ne evs).
Qed.
Print Assumptions C76_rejected_partial.

(** Freeing a policy closes nothing and touches nothing else. *)
Theorem C76_policy_free ptr s r s' :
  c_step (PolicyFree ptr) s = CDone (r, s') →
  c_tab s' = c_tab s ∧ c_closes s' = c_closes s ∧ c_heap s' = delete ptr (c_heap s).
Proof.
  cbn [c_step]. unfold iris_policy_free, with_policy.
  destruct (c_heap s !! ptr) as [[]|]; try done. by intros [= <- <-].
Qed.
Print Assumptions C76_policy_free.

(** Whatever the program, the 33rd handle offered to a policy is refused and takes the
    policy with it; the handle offered is closed. *)
Theorem C76_thirty_third_refuted t cs rs s ptr h p :
  c_run cs (c_init t) = CDone (rs, s) → c_heap s !! ptr = Some (OPolicy p) →
  offered ptr cs = 32%nat → h < 2 ^ 31 →
  ∃ s', c_step (PolicyInherit ptr h) s = CDone ((STooManyHandles, None), s') ∧
    c_heap s' !! ptr = None ∧ c_tab s' !! h = None ∧
    ∀ raw, raw ∈ inherit_handles (cp_inner p) → c_tab s' !! raw = None.
Proof.
  intros Hr Hp Ho Hh.
  pose proof (used_run _ _ _ _ _ (used_init t) Hr) as [U1 _ _ U4].
  pose proof (run_heap_inv _ _ _ _ Hr) as Hi.
  destruct (hi_made _ _ Hi _ _ Hp) as (_ & _ & _ & _ & Hin).
  specialize (U1 _ _ Hp). cbn [app] in U1. rewrite Ho in U1.
  destruct (overflow_step ptr h p s) as (s' & Hs & Hh' & _ & Ht);
    [intros ->; congruence|done|done|apply fill_slot_full; lia|].
  exists s'. split; [done|]. split; [by rewrite Hh', lookup_delete|]. split.
  - rewrite Ht, decide_True; [done|]. by left.
  - intros raw Hraw. rewrite Ht, decide_True; [done|]. right. by apply Hin.
Qed.
Print Assumptions C76_thirty_third_refuted.

(** 33 files, each opened and allowed. *)
Definition c76_program : list c_call :=
  PolicyNew :: flat_map (λ i, [HostOpen 1024 (N.of_nat i) 0; PolicyInherit 1 (N.of_nat i)])
    (seq 0 32) ++ [HostOpen 1024 32 0].
Lemma c76_run :
  match c_run c76_program (c_init ∅) with
  | CDone (rs, s) => match c_heap s !! 1 with
                     | Some (OPolicy _) => bool_decide (c_tab s !! 32 = Some (mkFd 32 0))
                     | _ => false
                     end
  | _ => false
  end = true.
Proof. vm_compute. reflexivity. Qed.
Theorem C76_refuted : ¬ C76_full.
Proof.
  intros H. pose proof c76_run as K.
  destruct (c_run c76_program (c_init ∅)) as [[rs s]| |] eqn:Hr; [|discriminate K..].
  destruct (c_heap s !! 1) as [[p| |]|] eqn:Hp; try discriminate K.
  apply bool_decide_eq_true in K.
  destruct (C76_thirty_third_refuted ∅ c76_program rs s 1 32 p Hr Hp) as (s' & Hs & _ & Ht & _);
    [vm_compute; reflexivity|done|].
  destruct (H _ _ _ _ _ _ _ _ Hr Hs) as (_ & _ & Hsub & _); [done|].
  rewrite (lookup_weaken _ _ _ _ K Hsub) in Ht. discriminate Ht.
Qed.
Print Assumptions C76_refuted.

(** A descriptor that cannot be inherited is refused, and both survive. *)
Example C76_example :
  match c_run [PolicyNew; HostOpen 1024 7 1; PolicyInherit 1 0] (c_init ∅) with
  | CDone (rs, s) => rs = [(SSuccess, Some 1); (SSuccess, Some 0);
                           (SPolicyHandleNotInheritable, None)] ∧
      c_tab s !! 0 = Some (mkFd 7 1) ∧
      see <$> c_heap s !! 1 = Some (SeePolicy nothing_allowed)
  | _ => False
  end.
Proof. vm_compute. split_and!; reflexivity. Qed.

(* ---------------------------------------------------------------- C77 *)

(** Full statement of C77, for programs that do what the documentation asks. *)
Definition C77_full : Prop := ∀ t cs rs s,
  few_handles cs → as_documented cs (c_init t) t → c_run cs (c_init t) = CDone (rs, s) →
  (∀ h open, (h, open) ∈ c_closes s → open = true) ∧ owns t (zip cs rs) ⊆ c_tab s.

(** Partial: if a descriptor passed to a redirection belongs to the configuration from
    then on, and the program passes only what it owns, then the library closes no
    descriptor that is not open and everything the program owns stays open and what it
    was. *)
Theorem C77_partial t cs rs s :
  few_handles cs → hands_over cs (c_init t) t → c_run cs (c_init t) = CDone (rs, s) →
  (∀ h open, (h, open) ∈ c_closes s → open = true) ∧ owns t (zip cs rs) ⊆ c_tab s.
Proof.
  intros Hf Hh Hr.
  destruct (own_run cs _ t rs s (room_init t cs Hf) (own_init t) Hh Hr) as [H1 _ _ H4].
  by split.
Qed.
Print Assumptions C77_partial.

Ltac doc_steps :=
  repeat match goal with
  | |- as_documented [] _ _ => exact I
  | |- as_documented (_ :: _) _ _ =>
      split; [|split; [|let E := fresh in intros ? ? E; vm_compute in E; injection E as <- <-]];
      [let E := fresh in intros ? E; vm_compute in E; first [discriminate E|injection E as <-];
         vm_compute; eexists; reflexivity
      |let E := fresh in intros ? E; first [discriminate E|injection E as <-];
         vm_compute; eexists; reflexivity|]
  end.

(** One file as standard output and standard error: it is closed twice. *)
Theorem C77_same_file_refuted : ∃ cs rs s,
  few_handles cs ∧ as_documented cs (c_init ∅) ∅ ∧ c_run cs (c_init ∅) = CDone (rs, s) ∧
  c_closes s = [(0, true); (0, false)].
Proof.
  exists [HostOpen 1024 7 0; ConfigNew (Some (lit "/bin/x")) (Some [lit "x"]) true;
          ConfigStdout 1 0; ConfigStderr 1 0; ConfigFree 1].
  eexists _, _. split; [intros ptr; change (0 ≤ 32)%nat; lia|]. split; [doc_steps|].
  split; vm_compute; reflexivity.
Qed.
Print Assumptions C77_same_file_refuted.

(** The same with a file the program opens in between: its own file is closed. *)
Theorem C77_own_file_refuted : ∃ cs rs s,
  few_handles cs ∧ as_documented cs (c_init ∅) ∅ ∧ c_run cs (c_init ∅) = CDone (rs, s) ∧
  owns ∅ (zip cs rs) !! 0 = Some (mkFd 8 0) ∧ c_tab s !! 0 = None.
Proof.
  exists [HostOpen 1024 7 0; ConfigNew (Some (lit "/bin/x")) (Some [lit "x"]) true;
          ConfigStdout 1 0; ConfigStderr 1 0; ConfigStdout 1 18446744073709551615;
          HostOpen 1024 8 0; ConfigFree 1].
  eexists _, _. split; [intros ptr; change (0 ≤ 32)%nat; lia|]. split; [doc_steps|].
  split; [vm_compute; reflexivity|]. split; vm_compute; reflexivity.
Qed.
Print Assumptions C77_own_file_refuted.
Theorem C77_refuted : ¬ C77_full.
Proof.
  intros H. destruct C77_own_file_refuted as (cs & rs & s & Hf & Hd & Hr & Ho & Ht).
  destruct (H _ _ _ _ Hf Hd Hr) as [_ Hs]. rewrite (lookup_weaken _ _ _ _ Ho Hs) in Ht. done.
Qed.
Print Assumptions C77_refuted.

(** Two files handed over; a third stays the program's. *)
Example C77_example :
  let cs := [HostOpen 1024 7 0; HostOpen 1024 8 0; HostOpen 1024 9 0;
             ConfigNew (Some (lit "/bin/x")) (Some [lit "x"]) true;
             ConfigStdout 1 0; ConfigStderr 1 1; ConfigStdout 1 18446744073709551615;
             ConfigFree 1] in
  few_handles cs ∧ hands_over cs (c_init ∅) ∅ ∧
  match c_run cs (c_init ∅) with
  | CDone (rs, s) => c_closes s = [(0, true); (1, true)] ∧ map_to_list (c_tab s) = [(2, mkFd 9 0)]
  | _ => False
  end.
Proof.
  cbv zeta. split; [intros ptr; change (0 ≤ 32)%nat; lia|]. split.
  - repeat match goal with
    | |- hands_over [] _ _ => exact I
    | |- hands_over (_ :: _) _ _ =>
        split; [|split; [|let E := fresh in intros ? ? E; vm_compute in E; injection E as <- <-]];
        [let E := fresh in intros ? E; vm_compute in E; first [discriminate E|injection E as <-];
           vm_compute; eexists; reflexivity
        |let E := fresh in intros ? E; discriminate E|]
    end.
  - vm_compute. split; reflexivity.
Qed.

(* ---------------------------------------------------------------- C99 *)

(** A policy made through the C interface is what the calls that succeeded asked for: it
    was made by one call; it grants the opens that the rules of the successful calls
    allow; it lets the worker inherit exactly the handles accepted; it logs to exactly
    the callbacks added. *)
Theorem C99_policy_as_asked t cs rs s ptr p :
  c_run cs (c_init t) = CDone (rs, s) → c_heap s !! ptr = Some (OPolicy p) →
  ∃ audit,
    (∀ audit', (made_by audit', (SSuccess, Some ptr)) ∈ zip cs rs ↔ audit' = audit) ∧
    (∀ path flags, fst (evaluate_request (cp_inner p) (FileOpen path flags)) = Granted ↔
       audit = true ∨ should_grant (rules_of (asked_of ptr (zip cs rs))) path flags) ∧
    (∀ nb args ip, fst (evaluate_request (cp_inner p) (Syscall nb args ip)) = Granted ↔
       audit = true) ∧
    (∀ raw, raw ∈ inherit_handles (cp_inner p) ↔
       ∃ out, (PolicyInherit ptr raw, (SSuccess, out)) ∈ zip cs rs) ∧
    log_callbacks (cp_inner p) = callbacks_of (asked_of ptr (zip cs rs)).
Proof.
  intros Hr Hp. pose proof (run_heap_inv _ _ _ _ Hr) as Hi.
  destruct (hi_made _ _ Hi _ _ Hp) as (audit & H1 & H2 & _). exists audit.
  split; [done|]. rewrite H2. unfold evaluate_request. cbn [fst]. rewrite build_audit.
  split; [|split; [|split]].
  - intros path flags. cbn [raw_verdict]. destruct audit.
    + split; [by left|done].
    + rewrite build_granted. split; [by right|by intros [?|?]].
  - intros nb args ip. by destruct audit.
  - intros raw. rewrite build_handles. unfold accepted_handle, asked_of.
    rewrite elem_of_list_omap. split.
    + intros ([c [st out]] & Hin & Ha). unfold asked in Ha.
      destruct st; try done. destruct c; try done;
        repeat (case_match; simplify_eq/=; try done). eauto.
    + intros (out & Hin). exists (PolicyInherit ptr raw, (SSuccess, out)). split; [done|].
      cbn [asked]. by rewrite decide_True.
  - apply build_callbacks.
Qed.
Print Assumptions C99_policy_as_asked.

(** The same for the workers started with it: every open(2) the broker makes for such a
    worker was allowed by a call on that policy. *)
Theorem C99_worker_opens t cs rs s pol cp c ne evs path flags mode res :
  c_run cs (c_init t) = CDone (rs, s) → c_heap s !! pol = Some (OPolicy cp) →
  (PolicyNewAudit, (SSuccess, Some pol)) ∉ zip cs rs →
  kernel_ok ne (c_tab s) →
  (path, flags, mode, res) ∈ opens (wo_trace (worker_new ne c (cp_inner cp) evs (c_tab s))) →
  should_grant (rules_of (asked_of pol (zip cs rs))) path flags.
Proof.
  intros Hr Hp Hna Hk Hin. pose proof (run_heap_inv _ _ _ _ Hr) as Hi.
  destruct (hi_made _ _ Hi _ _ Hp) as (audit & H1 & H2 & _). rewrite H2 in Hin.
  destruct (C103_opens_allowed _ _ _ _ _ _ _ _ _ _ Hk Hin) as [->|H]; [|done].
  destruct Hna. by apply (H1 true).
Qed.
Print Assumptions C99_worker_opens.

(** Two policies: a refused path and a refused handle leave no trace, the calls on one
    policy do not change the other. *)
Example C99_example :
  let cs := [PolicyNew; PolicyNew; HostOpen 1024 7 0; HostOpen 1024 8 1;
             PolicyFileRead 1 (Some (lit "/etc/hosts")); PolicyFileRead 1 (Some (lit "a/../b"));
             PolicyDirWrite 2 (Some (lit "/tmp")); PolicyInherit 1 0; PolicyInherit 1 1;
             PolicyLog 1 99] in
  match c_run cs (c_init ∅) with
  | CDone (rs, s) =>
      map fst rs = [SSuccess; SSuccess; SSuccess; SSuccess; SSuccess;
                    SPolicyUnsupportedFilesystemPath; SSuccess; SSuccess;
                    SPolicyHandleNotInheritable; SSuccess] ∧
      asked_of 1 (zip cs rs) =
        [CallRule (AllowFileRead (lit "/etc/hosts")); CallInherit 0 (Ok true);
         CallAddLogCallback 99] ∧
      asked_of 2 (zip cs rs) = [CallRule (AllowDirWrite (lit "/tmp"))] ∧
      match c_heap s !! 1 with
      | Some (OPolicy p) =>
          fst (evaluate_request (cp_inner p) (FileOpen (lit "/etc/hosts") O_RDONLY)) = Granted ∧
          fst (evaluate_request (cp_inner p) (FileOpen (lit "/tmp/x") O_WRONLY)) ≠ Granted
      | _ => False
      end
  | _ => False
  end.
Proof. vm_compute. split_and!; try reflexivity. discriminate. Qed.

(* ---------------------------------------------------------------- C100 *)

Lemma contains_nul w : contains [x00] w = true ↔ x00 ∈ w.
Proof.
  rewrite contains_true. split.
  - intros (a & b & ->). apply elem_of_app. right. by left.
  - intros (a & b & ->)%elem_of_list_split. by exists a, b.
Qed.
Lemma c_string_ok w : x00 ∉ w → ∃ mem, c_string w = Done mem ∧ holds_string mem w.
Proof.
  intros H. exists (w ++ [x00]). unfold c_string.
  destruct (contains [x00] w) eqn:E; [by apply contains_nul in E|]. split; [done|].
  split; [done|]. by exists [].
Qed.
Lemma c_string_nul w : x00 ∈ w → c_string w = Panicked.
Proof. intros H%contains_nul. unfold c_string. by rewrite H. Qed.

Lemma digit_nul d : d < 16 → digit d ≠ x00.
Proof.
  intros H E. assert (d = 0 ∨ d = 1 ∨ d = 2 ∨ d = 3 ∨ d = 4 ∨ d = 5 ∨ d = 6 ∨ d = 7 ∨
    d = 8 ∨ d = 9 ∨ d = 10 ∨ d = 11 ∨ d = 12 ∨ d = 13 ∨ d = 14 ∨ d = 15) as Hd by lia.
  revert E. repeat (destruct Hd as [->|Hd]; [by vm_compute|]). subst d. by vm_compute.
Qed.
Lemma digits_aux_nul fuel : ∀ base n acc,
  base ≤ 16 → base ≠ 0 → x00 ∉ acc → x00 ∉ digits_aux fuel base n acc.
Proof.
  induction fuel as [|fuel IH]; intros base n acc Hb Hz Ha; cbn [digits_aux]; [done|].
  assert (x00 ∉ digit (n mod base) :: acc) as Hc.
  { intros H. apply elem_of_cons in H as [H|H]; [|done].
    apply (digit_nul (n mod base)); [|done].
    pose proof (N.mod_upper_bound n base Hz). lia. }
  destruct (n <? base); [done|]. by apply IH.
Qed.

(** No verdict text holds a NUL that the path does not. *)
Lemma denial_reason_nul a b c d : x00 ∉ denial_reason a b c d.
Proof.
  intros H%contains_nul. destruct a, b, c, d; vm_compute in H; discriminate H.
Qed.
Lemma lit_nul w : contains [x00] w = false → x00 ∉ w.
Proof. intros E H%contains_nul. congruence. Qed.

Lemma verdict_strings p path flags :
  x00 ∉ path → ∃ fv, ffi_of_verdict (raw_verdict p (FileOpen path flags)) = Done fv ∧
    verdict_passed (raw_verdict p (FileOpen path flags)) fv.
Proof.
  intros Hn. cbn [raw_verdict]. unfold check_file_open.
  destruct (negb _).
  - set (why := lit "open flag " ++ _). assert (x00 ∉ why) as Hw.
    { unfold why, fmt_hex_i32, digits. rewrite !not_elem_of_app. split_and!;
        [by apply lit_nul|by apply lit_nul|by apply digits_aux_nul; [| |apply not_elem_of_nil]
        |by apply lit_nul]. }
    destruct (c_string_ok why Hw) as (mem & E & Hm). exists (FfiUnsupported mem).
    cbn [ffi_of_verdict]. by rewrite E.
  - destruct (negb (path_is_sane path)).
    + set (why := lit "path to open """ ++ _). assert (x00 ∉ why) as Hw.
      { unfold why. rewrite !not_elem_of_app. split_and!; [by apply lit_nul|done|by apply lit_nul]. }
      destruct (c_string_ok why Hw) as (mem & E & Hm).
      destruct (c_string_ok (lit "path")) as (mem' & E' & Hm'); [by apply lit_nul|].
      exists (FfiInvalid mem' mem). cbn [ffi_of_verdict]. by rewrite E, E'.
    + cbv zeta. destruct (_ || _ || _); [|by exists FfiGranted].
      set (why := denial_reason _ _ _ _). assert (x00 ∉ why) as Hw by apply denial_reason_nul.
      destruct (c_string_ok why Hw) as (mem & E & Hm). exists (FfiDenied mem).
      cbn [ffi_of_verdict]. by rewrite E.
Qed.

(** The request that a message of the worker makes the broker evaluate. *)
Definition evaluated (m : ipc_request) : option lx_request :=
  match m with
  | ReqOpenFile path flags => Some (FileOpen path flags)
  | ReqSyscall nb args ip => Some (Syscall nb args ip)
  | ReqInitialization => None
  end.
(** A message as the decoder makes them: six arguments. *)
Definition six_args (m : ipc_request) : Prop :=
  match m with ReqSyscall _ args _ => length args = 6%nat | _ => True end.

(** Full statement of C100: every C callback gets, for every request evaluated, exactly
    the request and the policy's verdict, in the order of registration; and the broker
    answers as it does without callbacks in C. *)
Definition C100_full : Prop := ∀ env p m s,
  six_args m →
  (∀ r, evaluated m = Some r →
     ∃ l, ffi_calls (snd (evaluate_request p r)) = Done l ∧
       Forall2 (λ cb x, fst (fst x) = cb ∧ request_passed r (snd (fst x)) ∧
                  verdict_passed (raw_verdict p r) (snd x)) (log_callbacks p) l) ∧
  ffi_dispatch env p m s = dispatch env p m s.

(** Partial: for paths without a NUL. *)
Theorem C100_callbacks_partial env p m s :
  six_args m → (∀ path flags, m = ReqOpenFile path flags → x00 ∉ path) →
  (∀ r, evaluated m = Some r →
     ∃ l, ffi_calls (snd (evaluate_request p r)) = Done l ∧
       Forall2 (λ cb x, fst (fst x) = cb ∧ request_passed r (snd (fst x)) ∧
                  verdict_passed (raw_verdict p r) (snd x)) (log_callbacks p) l) ∧
  ffi_dispatch env p m s = dispatch env p m s.
Proof.
  intros H6 Hn.
  assert (∀ r, evaluated m = Some r →
     ∃ l, ffi_calls (snd (evaluate_request p r)) = Done l ∧
       Forall2 (λ cb x, fst (fst x) = cb ∧ request_passed r (snd (fst x)) ∧
                  verdict_passed (raw_verdict p r) (snd x)) (log_callbacks p) l) as Hl.
  { intros r Hr.
    assert (∃ fr fv, ffi_call r (raw_verdict p r) = Done (fr, fv) ∧ request_passed r fr ∧
      verdict_passed (raw_verdict p r) fv) as (fr & fv & Hc & Hq & Hv).
    { unfold ffi_call. destruct m as [|path flags|nb args ip]; [done|..];
        cbn [evaluated] in Hr; injection Hr as <-.
      - specialize (Hn _ _ eq_refl). destruct (c_string_ok path Hn) as (mem & E & Hm).
        destruct (verdict_strings p path flags Hn) as (fv & Ev & Hv).
        exists (FfiFileOpen mem flags), fv. cbn [ffi_of_request]. rewrite E, Ev. done.
      - cbn [six_args] in H6. destruct args as [|a0 [|a1 [|a2 [|a3 [|a4 [|a5 [|]]]]]]]; try done.
        set (why := lit "unsupported system call").
        assert (x00 ∉ why) as Hw by by apply lit_nul.
        destruct (c_string_ok why Hw) as (mem & E & Hm).
        exists (FfiSyscall nb a0 a1 a2 a3 a4 a5 ip), (FfiUnsupported mem).
        cbn [ffi_of_request raw_verdict ffi_of_verdict]. fold why. by rewrite E. }
    unfold evaluate_request. cbn [snd]. unfold log_verdict.
    exists (map (λ cb, (cb, fr, fv)) (log_callbacks p)). split.
    - induction (log_callbacks p) as [|cb cbs IH]; [done|].
      cbn [map ffi_calls]. by rewrite Hc, IH.
    - induction (log_callbacks p) as [|cb cbs IH]; [constructor|]. cbn [map]. by constructor. }
  split; [done|]. unfold ffi_dispatch. fold (evaluated m).
  destruct (evaluated m) as [r|]; [|done].
  destruct (Hl r eq_refl) as (l & E & _). by rewrite E.
Qed.
Print Assumptions C100_callbacks_partial.

(** With a callback in C, every path with a NUL makes the broker's thread panic: allowed
    or not, before any reply. *)
Theorem C100_nul_panics_refuted env p path flags s :
  log_callbacks p ≠ [] → x00 ∈ path →
  ffi_dispatch env p (ReqOpenFile path flags) s = (Panicked, s).
Proof.
  intros Hc Hn. unfold ffi_dispatch, evaluate_request, log_verdict. cbn [snd].
  destruct (log_callbacks p) as [|cb cbs]; [done|]. cbn [map ffi_calls].
  unfold ffi_call. cbn [ffi_of_request]. by rewrite (c_string_nul _ Hn).
Qed.
Print Assumptions C100_nul_panics_refuted.
Definition c100_env : benv := mkBenv Abi32 1024 200000 (λ _ _ _, Err 2) (λ _, None).
Theorem C100_refuted : ¬ C100_full.
Proof.
  intros H. pose (p := build false [CallAddLogCallback 1]).
  destruct (H c100_env p (ReqOpenFile [x2f; x00] 0) (mkBst ∅ []) I) as [_ K].
  rewrite C100_nul_panics_refuted in K; [by vm_compute in K|by vm_compute|].
  right. by left.
Qed.
Print Assumptions C100_refuted.

(** The same on Windows for a request without extended attributes: the block for them has
    size 0, which [alloc] does not allow. *)
Theorem C100_windows_refuted f : fr_ea f = [] → win_ffi_of_request (WinFileOpen f) = CUndefined.
Proof. intros H. cbn [win_ffi_of_request]. by rewrite H. Qed.
Print Assumptions C100_windows_refuted.

Example C100_example :
  ffi_calls (snd (evaluate_request (build false [CallAddLogCallback 5; CallAddLogCallback 6])
                    (FileOpen (lit "/a") 0))) =
  Done [(5, FfiFileOpen (lit "/a" ++ [x00]) 0,
            FfiDenied (lit "requests read-only access, but has no access to that path" ++ [x00]));
        (6, FfiFileOpen (lit "/a" ++ [x00]) 0,
            FfiDenied (lit "requests read-only access, but has no access to that path" ++ [x00]))].
Proof. by vm_compute. Qed.

(* ---------------------------------------------------------------- C101 *)

(** The documentation of [iris_worker_free]: it frees the worker and kills its process. *)
Definition C101_full : Prop := ∀ t cs rs s w pid s',
  c_run cs (c_init t) = CDone (rs, s) → c_heap s !! w = Some (OWorker pid) →
  c_step (WorkerFree w) s = CDone ((SSuccess, None), s') → pid ∉ c_running s'.

(** What it does, for every program: the process stays, and so do all descriptors. *)
Theorem C101_process_stays_refuted t cs rs s w pid :
  c_run cs (c_init t) = CDone (rs, s) → c_heap s !! w = Some (OWorker pid) →
  pid ∈ c_running s ∧
  ∃ s', c_step (WorkerFree w) s = CDone ((SSuccess, None), s') ∧
    c_running s' = c_running s ∧ c_tab s' = c_tab s.
Proof.
  intros Hr Hw. split.
  - revert Hr. change (c_running s) with (c_running s).
    assert (∀ cs s0 rs s, (∀ w pid, c_heap s0 !! w = Some (OWorker pid) → pid ∈ c_running s0) →
      c_run cs s0 = CDone (rs, s) → ∀ w pid, c_heap s !! w = Some (OWorker pid) → pid ∈ c_running s)
      as K.
    { clear. induction cs as [|c cs IH]; intros s0 rs s H0; cbn [c_run].
      { by intros [= <- <-]. }
      destruct (c_step c s0) as [[r s1]| |] eqn:Es; try done.
      destruct (c_run cs s1) as [[rs1 s2]| |] eqn:Er; try done.
      intros [= <- <-]. eapply IH; [|done]. clear IH Er.
      pose proof (running_step _ _ _ _ Es) as [Hw Hp].
      intros w pid H. destruct (Hw w pid H) as [H1|H1]; [apply Hp; eauto|done]. }
    intros Hr. eapply K; [|done|done]. intros w' pid'. cbn. by rewrite lookup_empty.
  - eexists. cbn [c_step]. unfold iris_worker_free. rewrite Hw. split; [done|]. done.
Qed.
Print Assumptions C101_process_stays_refuted.

(** A program that starts one worker and frees it. *)
Definition c101_program : list c_call :=
  [PolicyNew; ConfigNew (Some (lit "/bin/worker")) (Some [lit "worker"]) true;
   WorkerNew 2 1 true (ex_new None None) [dgram ReqInitialization]].
Lemma c101_run :
  match c_run c101_program (c_init ex_table) with
  | CDone (rs, s) => bool_decide (rs = [(SSuccess, Some 1); (SSuccess, Some 2); (SSuccess, Some 3)])
      && match c_heap s !! 3 with Some (OWorker pid) => pid =? 4321 | _ => false end
  | _ => false
  end = true.
Proof. vm_compute. reflexivity. Qed.
Theorem C101_refuted : ¬ C101_full.
Proof.
  intros H. pose proof c101_run as K.
  destruct (c_run c101_program (c_init ex_table)) as [[rs s]| |] eqn:Hr; [|discriminate K..].
  apply andb_prop in K as [_ K].
  destruct (c_heap s !! 3) as [[| |pid]|] eqn:Hw; try discriminate K.
  destruct (C101_process_stays_refuted _ _ _ _ _ _ Hr Hw) as (Hin & s' & Hs & Hrun & _).
  apply (H _ _ _ _ _ _ _ Hr Hw Hs). by rewrite Hrun.
Qed.
Print Assumptions C101_refuted.
Example C101_example :
  match c_run (c101_program ++ [WorkerGetPid 3 true; WorkerFree 3]) (c_init ex_table) with
  | CDone (rs, s) => rs = [(SSuccess, Some 1); (SSuccess, Some 2); (SSuccess, Some 3);
                           (SSuccess, Some 4321); (SSuccess, None)] ∧ c_running s = [4321]
  | _ => False
  end.
Proof. vm_compute. split; reflexivity. Qed.

(* ---------------------------------------------------------------- C102, through C *)

(** A program that closes a handle after the policy accepted it: its worker starts with
    the broker's end (file 104) of its own channel. *)
Theorem C102_through_c_refuted : ∃ cs rs s cc cp,
  few_handles cs ∧ as_documented cs (c_init ex_table) ex_table ∧
  c_run cs (c_init ex_table) = CDone (rs, s) ∧
  c_heap s !! 1 = Some (OPolicy cp) ∧ c_heap s !! 2 = Some (OConfig cc) ∧
  match wo_child (worker_new (ex_new None None) (cc_inner cc) (cp_inner cp)
                    [dgram ReqInitialization] (c_tab s)) with
  | Some (_, EntryModel.EpStarted s') => fd_file <$> EntryModel.ep_tab s' !! 4 = Some 104
  | _ => False
  end.
Proof.
  exists [PolicyNew; ConfigNew (Some (lit "/bin/worker")) (Some [lit "worker"]) true;
          HostOpen 1024 200 0; PolicyInherit 1 4; HostClose 4].
  eexists _, _, _, _. split.
  { intros ptr. unfold offered. rewrite !filter_cons. repeat case_decide; cbn; lia. }
  split; [doc_steps|]. split; [vm_compute; reflexivity|].
  split; [vm_compute; reflexivity|]. split; [vm_compute; reflexivity|]. vm_compute. reflexivity.
Qed.
Print Assumptions C102_through_c_refuted.
