(** Properties of the hooks of a Windows worker: C74, C94-C98. *)
From stdpp Require Import prelude gmap.
From Coq Require Import Strings.Byte.
From Verif Require Import Bytes PostcardModel PostcardSpec PostcardProofs TrampolineModel TrampolineProofs
  WinPolicyModel WinBrokerModel WinBrokerSpec WinBrokerProofs WinBrokerProps WinHookModel WinHookSpec
  WinHookProofs.
Local Open Scope Z_scope.

(* ---------------------------------------------------------------- C74 *)

(** A trampoline written anywhere jumps to its target, if the stack does not overlap it. *)
Theorem C74_trampoline w m loc target sp :
  is_addr w target → is_addr w sp → stack_clear w sp loc →
  jumps w (write_trampoline w m loc target) loc target sp.
Proof. intros. apply trampoline_jumps; [apply code_written|done..]. Qed.
Print Assumptions C74_trampoline.

(** The trampoline occupies fourteen bytes at most; the rest of the memory is as before. *)
Theorem C74_size w m loc target x :
  (∀ j, 0 ≤ j < 14 → x ≠ (loc + j) mod wmod w) → write_trampoline w m loc target x = m x.
Proof.
  intros H. apply store_bytes_other. rewrite trampoline_length. intros i Hi. apply H. destruct w; lia.
Qed.
Print Assumptions C74_size.

(** A target whose low half has the top bit set (the pushed half is sign-extended). *)
Example C74_example :
  let m := write_trampoline W64 (λ _, 0) 0x7FFE00010000 0x7FF6F0001230 in
  load_bytes (2 ^ 64) m 0x7FFE00010000 14 =
    [0x68; 0x30; 0x12; 0x00; 0xF0; 0xC7; 0x44; 0x24; 0x04; 0xF6; 0x7F; 0x00; 0x00; 0xC3] ∧
  (∃ m', msteps W64 3 (mkMachine 0x7FFE00010000 0x1000 m) = Some (mkMachine 0x7FF6F0001230 0x1000 m')) ∧
  (∃ m', msteps W32 1 (mkMachine 0x77010000 0x1000 (write_trampoline W32 (λ _, 0) 0x77010000 0x401000)) =
         Some (mkMachine 0x401000 0x1000 m')).
Proof.
  split; [by vm_compute|]. split; eexists.
  - etransitivity; [|apply f_equal, f_equal; reflexivity].
    cbv [msteps]. reflexivity.
  - reflexivity.
Qed.

(* ---------------------------------------------------------------- C94 *)

(** After hooking, every table entry that led to a hooked function leads to its hook, and
    every other entry is unchanged. *)
Definition C94_full : Prop :=
  ∀ w env fuel k hooks os ds m ds' s',
    manager_ok w env os →
    Forall (dll_ok w) ds → Forall2 (λ h o, get_proc ds k h.1 = Some o) hooks os → NoDup os →
    (∀ o, o ∈ os → o ≠ 0) → (∀ h, h ∈ hooks → is_addr w h.2 ∧ h.2 ≠ 0 ∧ h.2 ∉ os) →
    hook_functions fuel w env k hooks ds (mkHs m []) = Some (ds', s') →
    Forall2 (redirected w (hs_mem s') (zip os hooks.*2)) ds ds'.

(** With room for the trampolines within 4 GiB above each module that exports a hooked
    function. *)
Theorem C94_partial w env fuel k hooks os ds m ds' s' :
  manager_ok w env os →
  (w = W64 → ∀ d e o, d ∈ ds → o ∈ os → export_at d e o →
     room env (length hooks * length ds) (dl_base d)) →
  Forall (dll_ok w) ds → Forall2 (λ h o, get_proc ds k h.1 = Some o) hooks os → NoDup os →
  (∀ o, o ∈ os → o ≠ 0) → (∀ h, h ∈ hooks → is_addr w h.2 ∧ h.2 ≠ 0 ∧ h.2 ∉ os) →
  hook_functions fuel w env k hooks ds (mkHs m []) = Some (ds', s') →
  Forall2 (redirected w (hs_mem s') (zip os hooks.*2)) ds ds'.
Proof.
  intros Henv Hroom Hds Hos Hnd Hz Hh E.
  eapply (hook_functions_spec w env os fuel k (length hooks * length ds) Henv) in E
    as (_ & _ & H); [| | | |exact Hos|done| |].
  - eapply Forall2_impl; [exact H|]. intros d d' [(A0 & A1 & A2) (B1 & B2 & B3)].
    split_and!; [done|done| |done|done].
    intros e a Ha. destruct (A2 e a Ha) as (a' & X1 & X2 & X3). exists a'. split_and!; [done| |done].
    intros o n Hin Hao. destruct (X2 o n Hin Hao) as [->|[Ht Hc]]; [by left|]. right.
    intros sp Hsp Hcl. apply trampoline_jumps; [done| |done|done].
    apply elem_of_zip_r in Hin. apply elem_of_list_fmap in Hin as (h & -> & Hin). by apply Hh.
  - apply Forall_forall. intros d Hd. split.
    + apply (proj1 (Forall_forall _ _) Hds d Hd).
    + intros e o Ho He Ew. by apply (Hroom Ew d e o).
  - intros t Ht. by apply elem_of_nil in Ht.
  - cbn [hs_tramps length]. lia.
  - intros o Ho. split; [by apply Hz|done].
  - intros h Hin. destruct (Hh h Hin) as (_ & ? & ?). done.
Qed.
Print Assumptions C94_partial.

(** On 32-bit systems nothing is missing. *)
Theorem C94_32 env fuel k hooks os ds m ds' s' :
  manager_ok W32 env os →
  Forall (dll_ok W32) ds → Forall2 (λ h o, get_proc ds k h.1 = Some o) hooks os → NoDup os →
  (∀ o, o ∈ os → o ≠ 0) → (∀ h, h ∈ hooks → is_addr W32 h.2 ∧ h.2 ≠ 0 ∧ h.2 ∉ os) →
  hook_functions fuel W32 env k hooks ds (mkHs m []) = Some (ds', s') →
  Forall2 (redirected W32 (hs_mem s') (zip os hooks.*2)) ds ds'.
Proof. intros. eapply C94_partial; done. Qed.
Print Assumptions C94_32.

(** A memory manager: everything below [lim] is taken, what is above is free but for the
    trampolines. *)
Definition clear_of (p : Z) (T : list Z) : Prop := Forall (λ t, p + 14 ≤ t ∨ t + 14 ≤ p) T.
Global Instance clear_of_dec p T : Decision (clear_of p T).
Proof. unfold clear_of. apply _. Defined.
Definition ex_manager (w : width) (lim : Z) : hook_env :=
  mkHookEnv 65536
    (λ T p, if decide (p < lim) then Some (false, lim - p)
            else if decide (p + 14 ≤ wmod w) then
              if decide (clear_of p T) then Some (true, 65536) else Some (false, 1)
            else None)
    (λ _ _, true).
Lemma ex_manager_ok w lim code : 0 ≤ lim → (∀ a, a ∈ code → a < lim) → manager_ok w (ex_manager w lim) code.
Proof.
  intros Hl Hc. split_and!; [done| |].
  - intros T p size. cbn [ex_manager he_query]. destruct (decide (p < lim)); [done|].
    destruct (decide (p + 14 ≤ wmod w)); [|done]. destruct (decide (clear_of p T)) as [H|]; [|done].
    intros _. split_and!; [lia|done| |].
    + intros Ha. apply Hc in Ha. lia.
    + apply Forall_forall, H.
  - intros T p size. cbn [ex_manager he_query]. destruct (decide (p < lim)).
    + intros [= <-]. split; [lia|]. intros q size' Hq. by rewrite decide_True by lia.
    + destruct (decide (p + 14 ≤ wmod w)) eqn:E1; [|done].
      destruct (decide (clear_of p T)) eqn:E2; [done|]. intros [= <-]. split; [lia|].
      intros q size' Hq. assert (q = p) as -> by lia. rewrite decide_False by lia. by rewrite E1, E2.
Qed.
Lemma ex_place lim T :
  ∃ i, (i ≤ length T)%nat ∧ clear_of (lim + 65536 * Z.of_nat i) T.
Proof.
  destruct (decide (Exists (λ i, clear_of (lim + 65536 * Z.of_nat i) T) (seq 0 (S (length T))))) as [H|H].
  { apply Exists_exists in H as (i & Hi & H). exists i. split; [|done]. apply elem_of_seq in Hi. lia. }
  exfalso. set (g := λ t, Z.to_nat ((t - lim + 14) / 65536)).
  assert (incl (seq 0 (S (length T))) (map g T)) as Hincl.
  { intros i Hi. apply elem_of_list_In, elem_of_seq in Hi.
    assert (¬ clear_of (lim + 65536 * Z.of_nat i) T) as Hn.
    { intros Hc. apply H, Exists_exists. exists i. split; [|done]. apply elem_of_seq. lia. }
    unfold clear_of in Hn. apply not_Forall_Exists in Hn; [|apply _].
    apply Exists_exists in Hn as (t & Ht & Hb). apply in_map_iff. exists t. split.
    - unfold g. simpl in Hb. assert ((t - lim + 14) / 65536 = Z.of_nat i) as ->; [|lia].
      symmetry. apply (Z.div_unique _ _ _ (t - lim + 14 - 65536 * Z.of_nat i)); [left; lia|lia].
    - by apply elem_of_list_In. }
  apply NoDup_incl_length in Hincl; [|apply NoDup_ListNoDup, NoDup_seq].
  rewrite map_length, seq_length in Hincl. lia.
Qed.
Lemma ex_manager_room w lim n base :
  lim mod 65536 = 0 → base ≤ lim → lim + 65536 * Z.of_nat n ≤ base + 2 ^ 32 →
  lim + 65536 * Z.of_nat n + 14 ≤ wmod w → room (ex_manager w lim) n base.
Proof.
  intros Hm Hb Hn Hw T HT. destruct (ex_place lim T) as (i & Hi & Hc).
  exists (lim + 65536 * Z.of_nat i), 65536. split_and!; [lia|lia| |].
  - cbn [ex_manager he_granularity].
    replace (lim + 65536 * Z.of_nat i) with (lim + Z.of_nat i * 65536) by ring.
    rewrite Z.mod_add by lia. done.
  - cbn [ex_manager he_query]. rewrite decide_False by lia. rewrite decide_True by lia.
    by rewrite decide_True.
Qed.

(** ntdll, exporting three functions, the first one twice, and another one; a program that
    imports some of them, and what lies behind the end of its import list. *)
Definition ex_ntdll : Z := 0x7FF800000000.
Definition ex_modules : list dll :=
  [mkDll 0x7FF600000000 []
     [mkDesc 0x100 0x200 [ex_ntdll + 0x1000; ex_ntdll + 0x4000; 0; ex_ntdll + 0x1000];
      mkDesc 0x300 0x400 [ex_ntdll + 0x3000]; mkDesc 0 0 [ex_ntdll + 0x2000]];
   mkDll ex_ntdll [0x1000; 0x2000; 0x3000; 0x4000; 0x1000] []].
Definition ex_hooks : list (nat * Z) :=
  [(0%nat, 0x7FF600001000); (1%nat, 0x7FF600002000); (2%nat, 0x7FF600003000)].
Example C94_example :
  (∃ T, fst <$> hook_functions 10 W64 (ex_manager W64 0x7FF800200000) 1 ex_hooks ex_modules
                  (mkHs (λ _, 0) []) = Some T ∧
    T = [mkDll 0x7FF600000000 []
           [mkDesc 0x100 0x200 [0x7FF600001000; ex_ntdll + 0x4000; 0; ex_ntdll + 0x1000];
            mkDesc 0x300 0x400 [0x7FF600003000]; mkDesc 0 0 [ex_ntdll + 0x2000]];
         mkDll ex_ntdll [0x200000; 0x210000; 0x220000; 0x4000; 0x200000] []]) ∧
  Forall (λ d, room (ex_manager W64 0x7FF800200000) 6 (dl_base d)) (drop 1 ex_modules).
Proof.
  split; [eexists; split; [vm_compute; reflexivity|reflexivity]|].
  constructor; [|constructor]. apply ex_manager_room; vm_compute; congruence.
Qed.

(** The trampoline's distance is cut to 32 bits: when nothing is free within 4 GiB above a
    module, its export leads to another place. *)
Theorem C94_refuted : ¬ C94_full.
Proof.
  unfold C94_full. intros H.
  set (env := ex_manager W64 (ex_ntdll + 2 ^ 33)).
  set (ds := [mkDll ex_ntdll [0x1000] []]).
  destruct (hook_functions 3 W64 env 0 [(0%nat, 0x7FF600001000)] ds (mkHs (λ _, 0) []))
    as [[ds' s']|] eqn:E; [|vm_compute in E; discriminate E].
  assert (ds' = [mkDll ex_ntdll [0] []]) as Hds'.
  { apply (f_equal (fmap fst)) in E. cbn [fmap option_fmap option_map fst] in E.
    assert (Some ds' = Some [mkDll ex_ntdll [0] []]) as X; [|by injection X].
    rewrite <-E. vm_compute. reflexivity. }
  assert (hs_mem s' ex_ntdll = 0) as Hm.
  { apply (f_equal (λ r, match r with Some (_, s) => hs_mem s ex_ntdll | None => 1 end)) in E.
    rewrite <-E. vm_compute. reflexivity. }
  apply H with (os := [ex_ntdll + 0x1000]) in E.
  - subst ds'. apply Forall2_cons in E as [(_ & _ & E & _) _].
    destruct (E 0%nat (ex_ntdll + 0x1000)) as (a' & (rva & Hr & ->) & X & _).
    { exists 0x1000. done. }
    injection Hr as <-.
    destruct (X (ex_ntdll + 0x1000) 0x7FF600001000) as [F|J]; [left|done|by vm_compute in F|].
    destruct (J 0x1000) as ([|n] & m' & Hrun & _).
    + done.
    + intros i j Hi Hj. cbn [dl_base]. unfold ex_ntdll. change (wmod W64) with (2 ^ 64).
      rewrite !Z.mod_small by lia. lia.
    + cbn [msteps] in Hrun. injection Hrun as F _. vm_compute in F. discriminate F.
    + cbn [msteps dl_base] in Hrun. rewrite Z.add_0_r in Hrun.
      cbv beta delta [mstep] zeta iota in Hrun. cbn [load_bytes] in Hrun.
      change (ex_ntdll mod wmod W64) with ex_ntdll in Hrun. by rewrite Hm in Hrun.
  - apply ex_manager_ok; [done|]. intros a Ha. apply elem_of_list_singleton in Ha as ->. done.
  - constructor; [|constructor]. split; [done|]. intros [|e] a (rva & Hr & ->); [|done].
    by injection Hr as <-.
  - constructor; [done|constructor].
  - apply NoDup_singleton.
  - intros o Ho. by apply elem_of_list_singleton in Ho as ->.
  - intros h Hh. apply elem_of_list_singleton in Hh as ->. split_and!; [done|done|].
    intros Hx. by apply elem_of_list_singleton in Hx.
Qed.
Print Assumptions C94_refuted.

(* ---------------------------------------------------------------- C95 *)

(** The message sent for a call of NtCreateFile or NtOpenFile, or NtCreateKey, stands for
    that call: same name, same parameters (the broker forces the attributes and the
    reparse-point option, see C63 and C64). *)
Definition file_call (a : file_args) (us : list N) : nt_call :=
  NtCreateFile us (fa_access a) (default 0 (fa_alloc a)) 0x80 (fa_share a) (fa_disposition a)
    (Z.setbit (fa_options a) 21) [].
Definition file_question (a : file_args) (path : str) : win_request :=
  WinFileOpen (mkFileReq path (fa_access a) (fa_attributes a) (fa_share a) (fa_disposition a)
    (Z.setbit (fa_options a) 21) []).
Definition C95_full : Prop :=
  ∀ w tr a us b, file_args_ok a → file_name a us → b ∈ (hook_ntcreatefile w tr a).1 →
    asks_for b (file_question a) us (file_call a us).

Lemma sent_inv tr m r (f : option (win_reply_in * option N) → hook_end) b :
  (let '(sent, r) := win_send_recv tr m in (sent, f r)) = r → b ∈ r.1 →
  b = enc_wrapped enc_wreq (m, None).
Proof.
  destruct (win_send_recv tr m) as [sent x] eqn:E. intros <-. cbn [fst].
  apply win_send_recv_inv in E as [[-> _]|[-> _]]; intros Hb.
  - by apply elem_of_nil in Hb.
  - by apply elem_of_list_singleton in Hb.
Qed.

Theorem C95_create_partial w tr a us b :
  file_args_ok a → file_name a us → well_formed us → b ∈ (hook_ntcreatefile w tr a).1 →
  asks_for b (file_question a) us (file_call a us).
Proof.
  intros Ha Hn Hw Hb. destruct (file_message_ok a us Ha Hn) as (u & Hu & -> & Hm & Hk).
  eapply sent_inv in Hb; [|symmetry; apply Hk]. subst b.
  exists (file_message a u), (from_utf16_lossy (us_units u)).
  split; [by apply wreq_plain|]. split; [by apply lossy_well_formed|]. split; [done|].
  intros c. cbn [file_message call_for]. split.
  - intros (name & Hname & ->). apply (name_for_units_back u name Hu Hw) in Hname as ->. done.
  - intros ->. exists (us_units u). split; [by apply name_for_units_back|done].
Qed.
Print Assumptions C95_create_partial.

Theorem C95_open_partial w tr a us b :
  open_args_ok a → open_name a us → well_formed us → b ∈ (hook_ntopenfile w tr a).1 →
  asks_for b
    (λ path, WinFileOpen (mkFileReq path (op_access a) 0 (op_share a) 1 (Z.setbit (op_options a) 21) []))
    us (NtCreateFile us (op_access a) 0 0x80 (op_share a) 1 (Z.setbit (op_options a) 21) []).
Proof.
  intros Ha Hn Hw Hb. destruct (open_message_ok a us Ha Hn) as (u & Hu & -> & Hm & Hk).
  eapply sent_inv in Hb; [|symmetry; apply Hk]. subst b.
  eexists _, (from_utf16_lossy (us_units u)).
  split; [by apply wreq_plain|]. split; [by apply lossy_well_formed|]. split; [done|].
  intros c. cbn [call_for]. split.
  - intros (name & Hname & ->). apply (name_for_units_back u name Hu Hw) in Hname as ->. done.
  - intros ->. exists (us_units u). split; [by apply name_for_units_back|done].
Qed.
Print Assumptions C95_open_partial.

Theorem C95_key_partial w tr a us b :
  key_args_ok a → key_name a us → well_formed us →
  (∀ c, ka_class a = Some c → well_formed (us_units c)) → b ∈ (hook_ntcreatekey w tr a).1 →
  asks_for b (λ path, WinRegKeyOpen path (ka_access a) (ka_options a) true) us
    (NtCreateKey us (ka_access a) 0 (us_units <$> ka_class a) (ka_options a)).
Proof.
  intros Ha Hn Hw Hcw Hb. destruct (key_message_ok a us Ha Hn) as (u & Hu & -> & Hm & Hk).
  assert (ka_title a = 0) as Ht by apply Hn.
  assert (∀ c, ka_class a = Some c → us_ok c) as Hcu by apply Ha.
  eapply sent_inv in Hb; [|symmetry; apply Hk]. subst b.
  exists (key_message a u), (from_utf16_lossy (us_units u)).
  split; [by apply wreq_plain|]. split; [by apply lossy_well_formed|]. split; [done|].
  intros c. cbn [key_message call_for]. rewrite Ht. destruct (ka_class a) as [cl|] eqn:Ec.
  - specialize (Hcw _ eq_refl). specialize (Hcu _ eq_refl). split.
    + intros (name & cname & Hname & -> & n & Hcn & ->).
      apply (name_for_units_back u name Hu Hw) in Hname as ->.
      apply (name_for_units_back cl n Hcu Hcw) in Hcn as ->. done.
    + intros ->. exists (us_units u), (Some (us_units cl)). split; [by apply name_for_units_back|].
      split; [done|]. exists (us_units cl). split; [by apply name_for_units_back|done].
  - split.
    + intros (name & cname & Hname & -> & ->).
      by apply (name_for_units_back u name Hu Hw) in Hname as ->.
    + intros ->. exists (us_units u), None. split; [by apply name_for_units_back|]. done.
Qed.
Print Assumptions C95_key_partial.

(** A name with an unpaired surrogate: the broker is asked for another file. *)
Definition lone_args : file_args :=
  mkFileArgs true 0x80000000 (Some (mkOa 0 (Some (mkUS 8 [0x5C; 0x61; 0xD800; 0x62]%N)) 0 0)) true
    None 0 7 1 0 0.
Definition told_args : file_args :=
  mkFileArgs true 0x80000000 (Some (mkOa 0 (Some (mkUS 8 [0x5C; 0x61; 0xFFFD; 0x62]%N)) 0 0)) true
    None 0 7 1 0 0.
Definition deaf_pipe : pipe := λ _, Some RdBroken.
Lemma not_well_formed_lone : ¬ well_formed [0x5C; 0x61; 0xD800; 0x62]%N.
Proof.
  intros [s H]. pose proof (lossy_inverse _ _ H) as E.
  assert (utf16_of s [0x5C; 0x61; 0xFFFD; 0x62]%N) as H2.
  { rewrite <-E. eexists [0x5C; 0x61; 0xFFFD; 0x62]%N, [[0x5C]; [0x61]; [0xFFFD]; [0x62]]%N.
    split_and!; [|vm_compute; reflexivity| |done].
    - repeat constructor; unfold scalar; lia.
    - repeat constructor; left; (split; [lia|done]). }
  pose proof (utf16_of_fun _ _ _ H H2) as F. discriminate F.
Qed.
Lemma ex_name_ok oa_a oa_s us : oa_ok (Some (mkOa 0 (Some (mkUS 8 us)) oa_a oa_s)) ↔ us_ok (mkUS 8 us).
Proof.
  split.
  - intros H. eapply H; reflexivity.
  - intros H x u [= <-] [= <-]. done.
Qed.
Theorem C95_refuted :
  ¬ C95_full ∧
  ∃ b, b ∈ (hook_ntcreatefile W64 deaf_pipe lone_args).1 ∧
       b ∈ (hook_ntcreatefile W64 deaf_pipe told_args).1 ∧
       asks_for b (file_question told_args) [0x5C; 0x61; 0xFFFD; 0x62]%N
         (file_call told_args [0x5C; 0x61; 0xFFFD; 0x62]%N).
Proof.
  assert ((hook_ntcreatefile W64 deaf_pipe lone_args).1 =
          (hook_ntcreatefile W64 deaf_pipe told_args).1) as Eq by (vm_compute; reflexivity).
  destruct (hook_ntcreatefile W64 deaf_pipe told_args).1 as [|b [|]] eqn:E;
    [vm_compute in E; discriminate E| |vm_compute in E; discriminate E].
  assert (file_args_ok lone_args ∧ file_name lone_args [0x5C; 0x61; 0xD800; 0x62]%N) as [H1 H2].
  { split.
    - split_and!; try done. apply ex_name_ok. split; [done|]. repeat constructor.
    - split_and!; [done..|]. eexists _, _. split_and!; reflexivity. }
  assert (file_args_ok told_args ∧ file_name told_args [0x5C; 0x61; 0xFFFD; 0x62]%N) as [H3 H4].
  { split.
    - split_and!; try done. apply ex_name_ok. split; [done|]. repeat constructor.
    - split_and!; [done..|]. eexists _, _. split_and!; reflexivity. }
  split.
  - intros H. destruct (H W64 deaf_pipe lone_args [0x5C; 0x61; 0xD800; 0x62]%N b H1 H2) as (m & p & _ & Hp & _).
    { rewrite Eq. left. }
    apply not_well_formed_lone. by exists p.
  - exists b. rewrite Eq. split_and!; [left|left|].
    apply (C95_create_partial W64 deaf_pipe); [done|done| |rewrite E; left].
    exists (concat (map utf8_encode [0x5C; 0x61; 0xFFFD; 0x62]%N)).
    eexists [0x5C; 0x61; 0xFFFD; 0x62]%N, [[0x5C]; [0x61]; [0xFFFD]; [0x62]]%N.
    split_and!; [|done| |done].
    + repeat constructor; unfold scalar; lia.
    + repeat constructor; left; (split; [lia|done]).
Qed.
Print Assumptions C95_refuted.
(** A name outside the basic plane goes through; NtOpenFile, NtCreateKey with a class. *)
Example C95_example :
  (hook_ntcreatefile W64 deaf_pipe
     (mkFileArgs true 1 (Some (mkOa 0 (Some (mkUS 4 [0xD83D; 0xDE00; 0x41]%N)) 0 0)) true
        (Some 5) 0x80 7 1 0 0)).1 =
    [enc_wrapped enc_wreq (WReqFile 1 (map byte_of_N [0xF0; 0x9F; 0x98; 0x80]%N) 5 0x80 7 1 0 [], None)] ∧
  (hook_ntopenfile W64 deaf_pipe
     (mkOpenArgs true 1 (Some (mkOa 0 (Some (mkUS 2 [0x41]%N)) 0 0)) true 7 0x20)).1 =
    [enc_wrapped enc_wreq (WReqFile 1 (lit "A") 0 0 7 1 0x20 [], None)] ∧
  (hook_ntcreatekey W64 deaf_pipe
     (mkKeyArgs true 1 (Some (mkOa 0 (Some (mkUS 2 [0x41]%N)) 0 0)) 0 (Some (mkUS 2 [0x42]%N)) 0 true)).1 =
    [enc_wrapped enc_wreq (WReqKey 1 (lit "A") 0 (Some (lit "B")) 0 true, None)].
Proof. split_and!; vm_compute; reflexivity. Qed.

(* ---------------------------------------------------------------- C97 *)

(** The reply to a request served by the broker, as the worker reads it. *)
Lemma served_reply w tr b m t granted es :
  plain_read (RdMessage b) m → served w tr b t granted es →
  ∃ b', tr b = Some (RdMessage b') ∧
  ((¬ granted ∧ win_recv dec_wrep (RdMessage b') =
       PolicyModel.Ok (Some (WIn (WRepStatus (-1073741790)), None))) ∨
   (granted ∧ ∃ c a r, WCalled c a ∈ es ∧ call_for m c ∧ reply_for m a r ∧
      ((nt_status a < 0 ∧
        win_recv dec_wrep (RdMessage b') = PolicyModel.Ok (Some (WIn r, None))) ∨
       (0 ≤ nt_status a ∧ ∃ local remote, WDuplicated local remote (nt_object a) ∈ es ∧
          Z.of_N remote < wmod w ∧
          win_recv dec_wrep (RdMessage b') = PolicyModel.Ok (Some (WIn r, Some remote)))))).
Proof.
  intros Hm (m' & b' & Hm' & He & [Hok Hdup] & Hin & Htr).
  rewrite <-(plain_read_fun _ _ _ Hm Hm') in He. exists b'. split; [done|].
  assert (∀ c a r, WCalled c a ∈ es → call_for m c → reply_for m a r → wreply_ok r) as Hty.
  { intros c a r Hca Hcf Hrf. destruct (Hok c a Hca) as [Hst Hinf].
    destruct m as [|? ? ? ? ? ? ? ?|? ? ? ? ? []]; cbn [call_for reply_for] in *; [done|..].
    - destruct Hcf as (name & _ & ->). subst r. done.
    - destruct Hcf as (name & cname & _ & -> & _). destruct Hrf as (d & -> & D1 & D2).
      split; [|done]. destruct (decide (0 ≤ nt_status a)); [by rewrite D1|]. rewrite D2 by lia. done.
    - destruct Hcf as (name & _ & ->). destruct Hrf as (d & -> & D1 & D2).
      split; [|done]. destruct (decide (0 ≤ nt_status a)); [by rewrite D1|]. rewrite D2 by lia. done. }
  assert (∀ r h, wreply_ok r → (∀ n, h = Some n → Z.of_N n < wmod w) →
     win_recv dec_wrep (RdMessage (reply_bytes r h)) = PolicyModel.Ok (Some (WIn r, h))) as Hrd.
  { intros r h Hs Hh. unfold win_recv.
    assert (∀ n, h = Some n → (n < 2 ^ 64)%N) as Hh2.
    { intros n Hn. specialize (Hh n Hn). assert (wmod w ≤ 2 ^ 64) by (destruct w; by vm_compute). lia. }
    pose proof (C87_reply_survives r h [] Hs Hh2) as E. rewrite app_nil_r in E.
    unfold reply_bytes. by rewrite E. }
  destruct He as (cbs & Hcb & [[Hg ->]|(Hg & c & a & r & Hc & Hr & H)]).
  - left. split; [done|].
    assert (WSent b' = WSent (reply_bytes (WRepStatus (-1073741790)) None)) as [= ->].
    { apply elem_of_app in Hin as [Hin|Hin]; [|by apply elem_of_list_singleton in Hin].
      by apply (proj1 (Forall_forall _ _) Hcb) in Hin. }
    by apply Hrd.
  - assert (WCalled c a ∈ es) as Hca.
    { destruct H as [[_ ->]|(_ & local & remote & _ & ->)]; apply elem_of_app; right; left. }
    pose proof (Hty _ _ _ Hca Hc Hr) as Hrok.
    right. split; [done|]. exists c, a, r. destruct H as [[Hs ->]|(Hs & local & remote & _ & ->)].
    + split_and!; [|done|done|].
      { apply elem_of_app. right. left. }
      left. split; [done|].
      assert (WSent b' = WSent (reply_bytes r None)) as [= ->].
      { apply elem_of_app in Hin as [Hin|Hin].
        - by apply (proj1 (Forall_forall _ _) Hcb) in Hin.
        - apply elem_of_cons in Hin as [Hin|Hin]; [done|]. by apply elem_of_list_singleton in Hin. }
      by apply Hrd.
    + split_and!; [|done|done|].
      { apply elem_of_app. right. left. }
      right. split; [done|]. exists local, remote.
      assert (WDuplicated local remote (nt_object a) ∈
        cbs ++ [WCalled c a; WDuplicated local remote (nt_object a);
                WSent (reply_bytes r (Some remote)); WClosed local]) as Hd.
      { apply elem_of_app. right. right. left. }
      pose proof (Hdup _ _ _ Hd) as Hrem. split_and!; [done|done|].
      assert (WSent b' = WSent (reply_bytes r (Some remote))) as [= ->].
      { apply elem_of_app in Hin as [Hin|Hin].
        - by apply (proj1 (Forall_forall _ _) Hcb) in Hin.
        - apply elem_of_cons in Hin as [Hin|Hin]; [done|].
          apply elem_of_cons in Hin as [Hin|Hin]; [done|].
          apply elem_of_cons in Hin as [Hin|Hin]; [done|]. by apply elem_of_list_singleton in Hin. }
      apply Hrd; [done|]. by intros n [= <-].
Qed.

Lemma hook_reads tr m (f : option (win_reply_in * option N) → hook_end) b r rd x :
  (let '(sent, r) := win_send_recv tr m in (sent, f r)) = ([b], r) → tr b = Some rd →
  win_recv dec_wrep rd = PolicyModel.Ok (Some x) → b = enc_wrapped enc_wreq (m, None) ∧ r = f (Some x).
Proof.
  destruct (win_send_recv tr m) as [sent y] eqn:E. intros [= -> <-] Htr Hrd.
  apply win_send_recv_inv in E as [[? _]|[[= ->] (rd' & H1 & ->)]]; [done|].
  rewrite Htr in H1. injection H1 as <-. by rewrite Hrd.
Qed.
Lemma hook_sent tr m (f : option (win_reply_in * option N) → hook_end) b r :
  (let '(sent, r) := win_send_recv tr m in (sent, f r)) = ([b], r) →
  b = enc_wrapped enc_wreq (m, None).
Proof. intros E. eapply sent_inv; [exact E|]. cbn [fst]. left. Qed.

(** What the caller of a hooked function gets is the outcome of the broker's system call:
    the status, the handle (null unless the call succeeded) and the information; or
    STATUS_ACCESS_DENIED and a null handle. *)
Definition file_outcome (granted : Prop) (es : list wevent) (r : hook_end) : Prop :=
  (¬ granted ∧ r = Returned (-1073741790) (Some 0%N) (Some 0%N) None) ∨
  (granted ∧ ∃ status h info, outcome es status h info ∧ r = Returned status (Some h) (Some info) None).

Lemma file_reply_outcome w tr b m t granted es r :
  (∃ access path alloc attributes share disposition options,
     m = WReqFile access path alloc attributes share disposition options []) →
  wmsg_ok m →
  (let '(sent, r) := win_send_recv tr m in (sent, file_reply w r)) = ([b], r) →
  served w tr b t granted es → file_outcome granted es r.
Proof.
  intros Hf Hm E Hs. pose proof (hook_sent _ _ _ _ _ E) as Hb.
  assert (plain_read (RdMessage b) m) as Hp by (rewrite Hb; by apply wreq_plain).
  destruct (served_reply _ _ _ _ _ _ _ Hp Hs) as (b' & Htr & [[Hg Hr]|(Hg & c & a & rep & Hc & _ & Hrep & H)]).
  - destruct (hook_reads _ _ _ _ _ _ _ E Htr Hr) as [_ ->]. by left.
  - right. split; [done|]. destruct Hf as (? & ? & ? & ? & ? & ? & ? & ->). cbn [reply_for] in Hrep. subst rep.
    destruct H as [[Hst Hr]|(Hst & local & remote & Hd & Hw & Hr)].
    + destruct (hook_reads _ _ _ _ _ _ _ E Htr Hr) as [_ ->]. cbn [file_reply handle_fits].
      eexists _, _, _. split; [|reflexivity]. exists c, a. split_and!; [done..|]. by left.
    + destruct (hook_reads _ _ _ _ _ _ _ E Htr Hr) as [_ ->]. cbn [file_reply handle_fits].
      rewrite bool_decide_true by done. eexists _, _, _. split; [|reflexivity].
      exists c, a. split_and!; [done..|]. right. split; [done|]. by exists local.
Qed.

Theorem C97_create_partial w tr a us b r t granted es :
  file_args_ok a → file_name a us → hook_ntcreatefile w tr a = ([b], r) →
  served w tr b t granted es → file_outcome granted es r.
Proof.
  intros Ha Hn E Hs. destruct (file_message_ok a us Ha Hn) as (u & _ & _ & Hm & Hk).
  rewrite Hk in E. eapply file_reply_outcome; [|exact Hm|exact E|exact Hs].
  unfold file_message. repeat eexists.
Qed.
Print Assumptions C97_create_partial.
Theorem C97_open_partial w tr a us b r t granted es :
  open_args_ok a → open_name a us → hook_ntopenfile w tr a = ([b], r) →
  served w tr b t granted es → file_outcome granted es r.
Proof.
  intros Ha Hn E Hs. destruct (open_message_ok a us Ha Hn) as (u & _ & _ & Hm & Hk).
  rewrite Hk in E. eapply file_reply_outcome; [|exact Hm|exact E|exact Hs]. repeat eexists.
Qed.
Print Assumptions C97_open_partial.
Theorem C97_key w tr a us b r t granted es :
  key_args_ok a → key_name a us → hook_ntcreatekey w tr a = ([b], r) →
  served w tr b t granted es →
  let out d := if ka_disposition a then Some d else None in
  (¬ granted ∧ r = Returned (-1073741790) (Some 0%N) (out 0%N) None) ∨
  (granted ∧ ∃ status h info d, outcome es status h info ∧
     r = Returned status (Some h) (out d) None ∧ (0 ≤ status → d = info)).
Proof.
  intros Ha Hn E Hs out. destruct (key_message_ok a us Ha Hn) as (u & _ & _ & Hm & Hk).
  rewrite Hk in E. pose proof (hook_sent _ _ _ _ _ E) as Hb.
  assert (plain_read (RdMessage b) (key_message a u)) as Hp by (rewrite Hb; by apply wreq_plain).
  destruct (served_reply _ _ _ _ _ _ _ Hp Hs) as (b' & Htr & [[Hg Hr]|(Hg & c & an & rep & Hc & _ & Hrep & H)]).
  - destruct (hook_reads _ _ _ _ _ _ _ E Htr Hr) as [_ ->]. by left.
  - right. split; [done|]. cbn [key_message reply_for] in Hrep. destruct Hrep as (d & -> & Hd0 & _).
    destruct H as [[Hst Hr]|(Hst & local & remote & Hd & Hw & Hr)].
    + destruct (hook_reads _ _ _ _ _ _ _ E Htr Hr) as [_ ->]. cbn [key_reply handle_fits].
      eexists _, _, _, d. split; [|split; [reflexivity|lia]]. exists c, an. split_and!; [done..|]. by left.
    + destruct (hook_reads _ _ _ _ _ _ _ E Htr Hr) as [_ ->]. cbn [key_reply handle_fits].
      rewrite bool_decide_true by done. eexists _, _, _, d. split; [|split; [reflexivity|done]].
      exists c, an. split_and!; [done..|]. right. split; [done|]. by exists local.
Qed.
Print Assumptions C97_key.

(** The full property also wants the status in the IO_STATUS_BLOCK, as NtCreateFile is
    documented to write it; the hooks leave that field as it was. *)
Definition C97_full : Prop :=
  ∀ w tr a us b t granted es code h info st,
    file_args_ok a → file_name a us → hook_ntcreatefile w tr a = ([b], Returned code h info st) →
    served w tr b t granted es → st = Some code.
Definition refusing_pipe : pipe := λ _, Some (RdMessage (reply_bytes (WRepStatus (-1073741790)) None)).
Lemma refusal_served w b t m :
  plain_read (RdMessage b) m →
  served w refusing_pipe b t False [WSent (reply_bytes (WRepStatus (-1073741790)) None)].
Proof.
  intros Hm. exists m, (reply_bytes (WRepStatus (-1073741790)) None). split_and!; [done| | |left|done].
  - exists []. split; [constructor|]. left. split; [by intros []|done].
  - split; intros ? ? ? Hin || intros ? ? Hin; by apply elem_of_list_singleton in Hin.
Qed.
Lemma told_ok : file_args_ok told_args ∧ file_name told_args [0x5C; 0x61; 0xFFFD; 0x62]%N.
Proof.
  split.
  - split_and!; try done. apply ex_name_ok. split; [done|]. repeat constructor.
  - split_and!; [done..|]. eexists _, _. split_and!; reflexivity.
Qed.
Theorem C97_refuted : ¬ C97_full.
Proof.
  intros H. destruct told_ok as [H1 H2].
  destruct (hook_ntcreatefile W64 refusing_pipe told_args) as [sent r] eqn:E.
  assert (sent = [enc_wrapped enc_wreq (file_message told_args (mkUS 8 [0x5C; 0x61; 0xFFFD; 0x62]%N), None)] ∧
          r = Returned (-1073741790) (Some 0%N) (Some 0%N) None) as [-> ->].
  { vm_compute in E. injection E as <- <-. split; [vm_compute; reflexivity|reflexivity]. }
  specialize (H W64 refusing_pipe told_args _ _ ∅ False
    [WSent (reply_bytes (WRepStatus (-1073741790)) None)] _ _ _ _ H1 H2 E).
  assert (None = Some (-1073741790)) as F; [|discriminate F]. apply H.
  eapply refusal_served, wreq_plain.
  destruct (file_message_ok _ _ H1 H2) as (u & _ & _ & Hm & _).
  cbn [file_message wmsg_ok]. split; [done|]. split.
  { apply lossy_rust_str. split; [done|]. repeat constructor. }
  repeat (split; [done|]). done.
Qed.
Print Assumptions C97_refuted.

(** A broker that opens the file, and one whose system call fails. *)
Example C97_example :
  hook_ntcreatefile W64 (λ _, Some (RdMessage (reply_bytes (WRepFile 1 0) (Some 9%N)))) told_args =
    ((hook_ntcreatefile W64 deaf_pipe told_args).1, Returned 0 (Some 9%N) (Some 1%N) None) ∧
  (hook_ntcreatefile W64 (λ _, Some (RdMessage (reply_bytes (WRepFile 0 (-1073741772)) None))) told_args).2 =
    Returned (-1073741772) (Some 0%N) (Some 0%N) None ∧
  (hook_ntcreatefile W64 refusing_pipe told_args).2 = Returned (-1073741790) (Some 0%N) (Some 0%N) None.
Proof. split_and!; vm_compute; reflexivity. Qed.

(* ---------------------------------------------------------------- C96 *)

(** As long as the broker answers, a hooked call returns. *)
Definition answering (w : width) (tr : pipe) : Prop :=
  ∀ b m, plain_read (RdMessage b) m → m ≠ WReqInit → ∃ t granted es, served w tr b t granted es.
Definition C96_full : Prop :=
  ∀ w tr a, answering w tr → file_args_ok a → (hook_ntcreatefile w tr a).2 ≠ Panicked.

Lemma fits_sent tr m b : b = enc_wrapped enc_wreq (m, None) → (N.of_nat (length b) ≤ 65536)%N →
  ∀ rd, tr b = Some rd → ∃ r, win_send_recv tr m = ([b], r).
Proof.
  intros -> Hl rd Hrd. unfold win_send_recv, serialize.
  destruct (N.leb_spec (N.of_nat (length (enc_wrapped enc_wreq (m, None)))) IPC_MESSAGE_MAX_SIZE) as [_|Hf].
  - rewrite Hrd. eauto.
  - unfold IPC_MESSAGE_MAX_SIZE in Hf. lia.
Qed.

Theorem C96_create_partial w tr a :
  answering w tr → file_args_ok a →
  (∀ us, file_name a us → (N.of_nat (length us) ≤ 21800)%N) →
  (hook_ntcreatefile w tr a).2 ≠ Panicked.
Proof.
  intros Htr Ha Hl.
  destruct (decide (fa_handle a = true)) as [N1|N1].
  2:{ unfold hook_ntcreatefile. by destruct (fa_handle a). }
  destruct (fa_oa a) as [oa|] eqn:N2.
  2:{ unfold hook_ntcreatefile. by rewrite N1, N2. }
  destruct (fa_iosb a) eqn:N3.
  2:{ unfold hook_ntcreatefile. by rewrite N1, N2, N3. }
  destruct (decide (oa_root oa ≠ 0%N ∨ fa_ea_length a ≠ 0)) as [N4|N4].
  { unfold hook_ntcreatefile. rewrite N1, N2, N3. by rewrite decide_True. }
  destruct (oa_name oa) as [u|] eqn:N5.
  2:{ unfold hook_ntcreatefile. rewrite N1, N2, N3. rewrite decide_False by done. by rewrite N5. }
  assert (file_name a (us_units u)) as Hn.
  { split_and!; [done|done|lia|]. exists oa, u. split_and!; [done|lia|done|done]. }
  specialize (Hl _ Hn). destruct (file_message_ok a _ Ha Hn) as (u' & Hu & Eu & Hm & Hk).
  set (b := enc_wrapped enc_wreq (file_message a u', None)).
  assert (plain_read (RdMessage b) (file_message a u')) as Hp by (by apply wreq_plain).
  destruct (Htr b _ Hp ltac:(done)) as (t & granted & es & Hs).
  assert (N.of_nat (length b) ≤ 65536)%N as Hsz.
  { destruct (us_units_ok u' Hu) as [Hf _]. pose proof (lossy_length _ Hf) as L.
    pose proof (file_message_size (fa_access a) (from_utf16_lossy (us_units u')) (default 0 (fa_alloc a))
      (fa_attributes a) (fa_share a) (fa_disposition a) (fa_options a)) as [_ L2].
    rewrite Eu in Hl. unfold b, file_message. lia. }
  destruct Hs as (m & b' & S1 & S2 & S3 & S4 & S5).
  destruct (fits_sent tr _ b eq_refl Hsz _ S5) as [r Er].
  destruct (hook_ntcreatefile w tr a) as [sent e] eqn:E. cbn [snd].
  assert (sent = [b]) as ->. { rewrite Hk, Er in E. by injection E. }
  destruct (C97_create_partial w tr a _ b e t granted es Ha Hn E) as [[_ ->]|(_ & ? & ? & ? & _ & ->)]; [|done|done].
  by exists m, b'.
Qed.
Print Assumptions C96_create_partial.

Theorem C96_open_partial w tr a :
  answering w tr → open_args_ok a →
  (∀ us, open_name a us → (N.of_nat (length us) ≤ 21800)%N) →
  (hook_ntopenfile w tr a).2 ≠ Panicked.
Proof.
  intros Htr Ha Hl.
  destruct (decide (op_handle a = true)) as [N1|N1].
  2:{ unfold hook_ntopenfile. by destruct (op_handle a). }
  destruct (op_oa a) as [oa|] eqn:N2.
  2:{ unfold hook_ntopenfile. by rewrite N1, N2. }
  destruct (op_iosb a) eqn:N3.
  2:{ unfold hook_ntopenfile. by rewrite N1, N2, N3. }
  destruct (decide (oa_root oa ≠ 0%N)) as [N4|N4].
  { unfold hook_ntopenfile. rewrite N1, N2, N3. by rewrite decide_True. }
  destruct (oa_name oa) as [u|] eqn:N5.
  2:{ unfold hook_ntopenfile. rewrite N1, N2, N3. rewrite decide_False by done. by rewrite N5. }
  assert (open_name a (us_units u)) as Hn.
  { split_and!; [done|done|]. exists oa, u. split_and!; [done|lia|done|done]. }
  specialize (Hl _ Hn). destruct (open_message_ok a _ Ha Hn) as (u' & Hu & Eu & Hm & Hk).
  set (msg := WReqFile (op_access a) (from_utf16_lossy (us_units u)) 0 0 (op_share a) 1 (op_options a) []) in *.
  set (b := enc_wrapped enc_wreq (msg, None)).
  assert (plain_read (RdMessage b) msg) as Hp by (by apply wreq_plain).
  destruct (Htr b _ Hp ltac:(done)) as (t & granted & es & Hs).
  assert (N.of_nat (length b) ≤ 65536)%N as Hsz.
  { destruct (us_units_ok u' Hu) as [Hf _]. pose proof (lossy_length _ Hf) as L. rewrite <-Eu in L.
    pose proof (file_message_size (op_access a) (from_utf16_lossy (us_units u)) 0 0 (op_share a) 1
      (op_options a)) as [_ L2]. unfold b, msg. lia. }
  destruct Hs as (m & b' & S1 & S2 & S3 & S4 & S5).
  destruct (fits_sent tr _ b eq_refl Hsz _ S5) as [r Er].
  destruct (hook_ntopenfile w tr a) as [sent e] eqn:E. cbn [snd].
  assert (sent = [b]) as ->. { rewrite Hk, Er in E. by injection E. }
  destruct (C97_open_partial w tr a _ b e t granted es Ha Hn E) as [[_ ->]|(_ & ? & ? & ? & _ & ->)]; [|done|done].
  by exists m, b'.
Qed.
Print Assumptions C96_open_partial.

Theorem C96_key_partial w tr a :
  answering w tr → key_args_ok a →
  (∀ us, key_name a us →
     (N.of_nat (length us) + match ka_class a with Some c => N.of_nat (length (us_units c)) | None => 0 end
      ≤ 21800)%N) →
  (hook_ntcreatekey w tr a).2 ≠ Panicked.
Proof.
  intros Htr Ha Hl.
  destruct (decide (ka_handle a = true)) as [N1|N1].
  2:{ unfold hook_ntcreatekey. by destruct (ka_handle a). }
  destruct (ka_oa a) as [oa|] eqn:N2.
  2:{ unfold hook_ntcreatekey. by rewrite N1, N2. }
  destruct (decide (oa_root oa ≠ 0%N ∨ ka_title a ≠ 0)) as [N4|N4].
  { unfold hook_ntcreatekey. rewrite N1, N2. by rewrite decide_True. }
  destruct (oa_name oa) as [u|] eqn:N5.
  2:{ unfold hook_ntcreatekey. rewrite N1, N2. rewrite decide_False by done. by rewrite N5. }
  assert (key_name a (us_units u)) as Hn.
  { split_and!; [done|lia|]. exists oa, u. split_and!; [done|lia|done|done]. }
  specialize (Hl _ Hn). destruct (key_message_ok a _ Ha Hn) as (u' & Hu & Eu & Hm & Hk).
  set (b := enc_wrapped enc_wreq (key_message a u', None)).
  assert (plain_read (RdMessage b) (key_message a u')) as Hp by (by apply wreq_plain).
  destruct (Htr b _ Hp ltac:(done)) as (t & granted & es & Hs).
  assert (N.of_nat (length b) ≤ 65536)%N as Hsz.
  { destruct (us_units_ok u' Hu) as [Hf _]. pose proof (lossy_length _ Hf) as L. rewrite Eu in Hl.
    unfold b, key_message.
    match goal with |- context [WReqKey ?x ?y ?z ?c ?o ?d] =>
      pose proof (key_message_size x y z c o d) as [_ L2] end.
    destruct (ka_class a) as [cl|] eqn:Ec; cbn [class_length] in L2; [|lia].
    destruct (us_units_ok cl) as [Hfc _]; [by apply Ha|].
    pose proof (lossy_length _ Hfc). lia. }
  destruct Hs as (m & b' & S1 & S2 & S3 & S4 & S5).
  destruct (fits_sent tr _ b eq_refl Hsz _ S5) as [r Er].
  destruct (hook_ntcreatekey w tr a) as [sent e] eqn:E. cbn [snd].
  assert (sent = [b]) as ->. { rewrite Hk, Er in E. by injection E. }
  destruct (C97_key w tr a _ b e t granted es Ha Hn E) as [[_ ->]|(_ & ? & ? & ? & ? & _ & -> & _)]; [|done|done].
  by exists m, b'.
Qed.
Print Assumptions C96_key_partial.

(** A name that fits a UNICODE_STRING but not a message. *)
Definition long_name : unicode_string := mkUS 60000 (replicate (N.to_nat 30000) 0x20AC%N).
Definition long_args : file_args :=
  mkFileArgs true 1 (Some (mkOa 0 (Some long_name) 0 0)) true None 0 7 1 0 0.
Lemma decode_euro n : decode_utf16 (replicate n 0x20AC%N) = replicate n 0x20AC%N.
Proof. induction n as [|n IH]; [done|]. cbn [replicate decode_utf16]. rewrite decide_True by lia. by rewrite IH. Qed.
Lemma euro_length n : length (concat (map utf8_encode (replicate n 0x20AC%N))) = (3 * n)%nat.
Proof.
  induction n as [|n IH]; [done|]. cbn [replicate map concat]. rewrite app_length, IH.
  change (length (utf8_encode 0x20AC)) with 3%nat. lia.
Qed.
Lemma long_units : us_units long_name = replicate (N.to_nat 30000) 0x20AC%N.
Proof.
  unfold us_units, long_name. cbn [us_length us_buffer]. change (60000 / 2)%N with 30000%N.
  apply take_ge. by rewrite replicate_length.
Qed.
Lemma long_path : N.of_nat (length (from_utf16_lossy (us_units long_name))) = 90000%N.
Proof. rewrite lossy_text, long_units, decode_euro, euro_length. lia. Qed.
Lemma long_args_ok : file_args_ok long_args.
Proof.
  split_and!; try done. intros x u [= <-] [= <-]. split; [done|].
  unfold long_name. cbn [us_buffer]. apply Forall_forall. intros x Hx.
  apply elem_of_replicate in Hx as [-> _]. done.
Qed.
(** It panics whatever is at the other end of the pipe. *)
Theorem C96_long_name_panics w tr : hook_ntcreatefile w tr long_args = ([], Panicked).
Proof.
  assert (file_name long_args (us_units long_name)) as Hn.
  { split_and!; [done..|]. eexists _, _. split_and!; reflexivity. }
  unfold hook_ntcreatefile. cbn [long_args fa_handle fa_oa fa_iosb oa_root fa_ea_length].
  rewrite decide_False by (intros [Hx|Hx]; by apply Hx). cbn [oa_name].
  unfold win_send_recv, serialize, file_message.
  match goal with |- context [N.leb ?x _] => destruct (N.leb_spec x IPC_MESSAGE_MAX_SIZE) as [Hf|_] end;
    [|done].
  exfalso. pose proof long_path as L.
  match type of Hf with context [WReqFile ?x1 ?x2 ?x3 ?x4 ?x5 ?x6 ?x7 []] =>
    pose proof (file_message_size x1 x2 x3 x4 x5 x6 x7) as [L2 _] end.
  unfold IPC_MESSAGE_MAX_SIZE in Hf. lia.
Qed.
Print Assumptions C96_long_name_panics.
Theorem C96_refuted : ¬ C96_full.
Proof.
  intros H. apply (H W64 refusing_pipe long_args).
  - intros b m Hm _. exists ∅, False, [WSent (reply_bytes (WRepStatus (-1073741790)) None)].
    by eapply refusal_served.
  - apply long_args_ok.
  - by rewrite C96_long_name_panics.
Qed.
Print Assumptions C96_refuted.
Example C96_example :
  answering W64 refusing_pipe ∧ (hook_ntcreatefile W64 refusing_pipe told_args).2 ≠ Panicked ∧
  (hook_ntcreatefile W64 deaf_pipe told_args).2 = Panicked.
Proof.
  split_and!.
  - intros b m Hm _. exists ∅, False, [WSent (reply_bytes (WRepStatus (-1073741790)) None)].
    by eapply refusal_served.
  - vm_compute. discriminate.
  - vm_compute. reflexivity.
Qed.

(* ---------------------------------------------------------------- C98 *)

(** A call that the message cannot express is refused without asking, and gives no handle.
    No two calls that differ send the same message. *)
Definition refused (x : list str * hook_end) : Prop :=
  x.1 = [] ∧ ∃ code h info, x.2 = Returned code h info None ∧
    (code = -1073741811 ∨ code = -1073741637) ∧ (h = None ∨ h = Some 0%N).
Definition C98_full : Prop :=
  ∀ w tr a a' us us' b r r', file_args_ok a → file_args_ok a' → file_name a us → file_name a' us' →
    hook_ntcreatefile w tr a = ([b], r) → hook_ntcreatefile w tr a' = ([b], r') →
    us = us' ∧ fa_access a = fa_access a' ∧ default 0 (fa_alloc a) = default 0 (fa_alloc a') ∧
    fa_attributes a = fa_attributes a' ∧ fa_share a = fa_share a' ∧
    fa_disposition a = fa_disposition a' ∧ fa_options a = fa_options a' ∧
    (oa_attributes <$> fa_oa a) = (oa_attributes <$> fa_oa a') ∧
    (oa_security <$> fa_oa a) = (oa_security <$> fa_oa a').

Lemma refused_intro code h info :
  (code = -1073741811 ∨ code = -1073741637) → (h = None ∨ h = Some 0%N) →
  refused ([], Returned code h info None).
Proof. intros H1 H2. split; [done|]. by exists code, h, info. Qed.
Theorem C98_create_refused w tr a : ¬ (∃ us, file_name a us) → refused (hook_ntcreatefile w tr a).
Proof.
  intros H. unfold hook_ntcreatefile.
  destruct (fa_handle a) eqn:N1; [|apply refused_intro; auto].
  destruct (fa_oa a) as [oa|] eqn:N2; [|apply refused_intro; auto].
  destruct (fa_iosb a) eqn:N3; [|apply refused_intro; auto].
  destruct (decide _) as [N4|N4]; [apply refused_intro; auto|].
  destruct (oa_name oa) as [u|] eqn:N5; [|apply refused_intro; auto].
  exfalso. apply H. exists (us_units u). split_and!; [done|done|lia|]. exists oa, u.
  split_and!; [done|lia|done|done].
Qed.
Print Assumptions C98_create_refused.
Theorem C98_open_refused w tr a : ¬ (∃ us, open_name a us) → refused (hook_ntopenfile w tr a).
Proof.
  intros H. unfold hook_ntopenfile.
  destruct (op_handle a) eqn:N1; [|apply refused_intro; auto].
  destruct (op_oa a) as [oa|] eqn:N2; [|apply refused_intro; auto].
  destruct (op_iosb a) eqn:N3; [|apply refused_intro; auto].
  destruct (decide _) as [N4|N4]; [apply refused_intro; auto|].
  destruct (oa_name oa) as [u|] eqn:N5; [|apply refused_intro; auto].
  exfalso. apply H. exists (us_units u). split_and!; [done|done|]. exists oa, u.
  split_and!; [done|lia|done|done].
Qed.
Print Assumptions C98_open_refused.
Theorem C98_key_refused w tr a : ¬ (∃ us, key_name a us) → refused (hook_ntcreatekey w tr a).
Proof.
  intros H. unfold hook_ntcreatekey.
  destruct (ka_handle a) eqn:N1; [|apply refused_intro; auto].
  destruct (ka_oa a) as [oa|] eqn:N2; [|apply refused_intro; auto].
  destruct (decide _) as [N4|N4]; [apply refused_intro; auto|].
  destruct (oa_name oa) as [u|] eqn:N5; [|apply refused_intro; auto].
  exfalso. apply H. exists (us_units u). split_and!; [done|lia|]. exists oa, u.
  split_and!; [done|lia|done|done].
Qed.
Print Assumptions C98_key_refused.

Lemma lossy_inj us us' : well_formed us → well_formed us' →
  from_utf16_lossy us = from_utf16_lossy us' → us = us'.
Proof.
  intros H H' E. apply lossy_well_formed in H, H'. rewrite E in H. by eapply utf16_of_fun.
Qed.
(** Everything but the flags and the security descriptor of the OBJECT_ATTRIBUTES gets to
    the broker. *)
Theorem C98_create_partial w tr a a' us us' b r r' :
  file_args_ok a → file_args_ok a' → file_name a us → file_name a' us' →
  hook_ntcreatefile w tr a = ([b], r) → hook_ntcreatefile w tr a' = ([b], r') →
  (well_formed us → well_formed us' → us = us') ∧
  fa_access a = fa_access a' ∧ default 0 (fa_alloc a) = default 0 (fa_alloc a') ∧
  fa_attributes a = fa_attributes a' ∧ fa_share a = fa_share a' ∧
  fa_disposition a = fa_disposition a' ∧ fa_options a = fa_options a'.
Proof.
  intros Ha Ha' Hn Hn' E E'.
  destruct (file_message_ok a us Ha Hn) as (u & Hu & -> & Hm & Hk).
  destruct (file_message_ok a' us' Ha' Hn') as (u' & Hu' & -> & Hm' & Hk').
  rewrite Hk in E. rewrite Hk' in E'. apply hook_sent in E, E'. rewrite E in E'.
  apply C87_unambiguous in E' as [E' _]; [|done..].
  unfold file_message in E'. injection E' as -> Ep -> -> -> -> ->.
  split_and!; try done. intros W W'. by apply lossy_inj.
Qed.
Print Assumptions C98_create_partial.
Theorem C98_key_partial w tr a a' us us' b r r' :
  key_args_ok a → key_args_ok a' → key_name a us → key_name a' us' →
  hook_ntcreatekey w tr a = ([b], r) → hook_ntcreatekey w tr a' = ([b], r') →
  (well_formed us → well_formed us' → us = us') ∧
  ka_access a = ka_access a' ∧ ka_options a = ka_options a' ∧
  (ka_class a = None ↔ ka_class a' = None) ∧
  (∀ c c', ka_class a = Some c → ka_class a' = Some c' →
     well_formed (us_units c) → well_formed (us_units c') → us_units c = us_units c').
Proof.
  intros Ha Ha' Hn Hn' E E'.
  destruct (key_message_ok a us Ha Hn) as (u & Hu & -> & Hm & Hk).
  destruct (key_message_ok a' us' Ha' Hn') as (u' & Hu' & -> & Hm' & Hk').
  rewrite Hk in E. rewrite Hk' in E'. apply hook_sent in E, E'. rewrite E in E'.
  apply C87_unambiguous in E' as [E' _]; [|done..].
  unfold key_message in E'. injection E' as -> Ep _ Ec ->.
  split_and!; try done.
  - intros W W'. by apply lossy_inj.
  - by destruct (ka_class a), (ka_class a').
  - intros c c' Hc Hc' W W'. rewrite Hc, Hc' in Ec. injection Ec as Ec. by apply lossy_inj.
Qed.
Print Assumptions C98_key_partial.

(** A call asking for an inheritable handle, and with a security descriptor for the new
    file, sends what a call without them sends. *)
Definition inherit_args : file_args :=
  mkFileArgs true 0x80000000 (Some (mkOa 0 (Some (mkUS 8 [0x5C; 0x61; 0xFFFD; 0x62]%N)) 2 0x1000)) true
    None 0 7 1 0 0.
Theorem C98_refuted : ¬ C98_full.
Proof.
  intros H. destruct told_ok as [H1 H2].
  destruct (hook_ntcreatefile W64 deaf_pipe told_args) as [sent r] eqn:E.
  assert (hook_ntcreatefile W64 deaf_pipe inherit_args = (sent, r)) as E'.
  { rewrite <-E. vm_compute. reflexivity. }
  destruct sent as [|b [|]]; [vm_compute in E; discriminate E| |vm_compute in E; discriminate E].
  destruct (H W64 deaf_pipe told_args inherit_args [0x5C; 0x61; 0xFFFD; 0x62]%N [0x5C; 0x61; 0xFFFD; 0x62]%N b r r H1) as
    (_ & _ & _ & _ & _ & _ & _ & F & _); [|exact H2| |exact E|exact E'|discriminate F].
  - split_and!; try done. apply ex_name_ok. split; [done|]. repeat constructor.
  - split_and!; [done..|]. eexists _, _. split_and!; reflexivity.
Qed.
Print Assumptions C98_refuted.
(** A relative name, extended attributes and a null name are refused. *)
Example C98_example :
  let name := Some (mkUS 2 [0x41]%N) in
  hook_ntcreatefile W64 refusing_pipe (mkFileArgs true 1 (Some (mkOa 4 name 0 0)) true None 0 7 1 0 0) =
    ([], Returned (-1073741637) (Some 0%N) (Some 0%N) None) ∧
  hook_ntcreatefile W64 refusing_pipe (mkFileArgs true 1 (Some (mkOa 0 name 0 0)) true None 0 7 1 0 8) =
    ([], Returned (-1073741637) (Some 0%N) (Some 0%N) None) ∧
  hook_ntcreatekey W64 refusing_pipe (mkKeyArgs true 1 (Some (mkOa 0 None 0 0)) 0 None 0 false) =
    ([], Returned (-1073741811) (Some 0%N) None None) ∧
  (hook_ntopenfile W64 refusing_pipe (mkOpenArgs true 1 (Some (mkOa 0 name 0 0)) true 7 0)).2 =
    Returned (-1073741790) (Some 0%N) (Some 0%N) None.
Proof. split_and!; vm_compute; reflexivity. Qed.
