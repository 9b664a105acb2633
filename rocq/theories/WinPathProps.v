(** Property C121: the paths that a Windows file rule covers. *)
From stdpp Require Import prelude gmap.
From Coq Require Import Strings.Byte ZifyN ZifyNat ZifyBool.
From Verif Require Import Bytes BytesProofs PolicyModel LinuxPolicyModel PostcardModel
  PostcardSpec PostcardProofs WinPolicyModel WinPolicySpec WinPolicyProofs WinBrokerModel
  WinBrokerSpec WinBrokerProofs WinHookModel WinHookSpec WinHookProofs WinPathModel.
Local Open Scope N_scope.

(** The result is one of those that WinPolicyModel allows. *)
Lemma derive_refines os path :
  ∃ full, win_derive_file_paths path full = Ok (derive_all_file_paths os path).
Proof. by exists (Some (absolute_path os path)). Qed.

(** Full statement: a rule is entered for the path that the OS says the given path
    names, as a whole. *)
Definition C121_full : Prop := ∀ os path q,
  is_utf8 path → q ∈ derive_all_file_paths os path →
  ∃ us when full fu, utf16_of path us ∧ 0 ∉ us ∧ os when us = Some fu ∧
    utf16_of full fu ∧ q = nt_form full.

(* ---------------------------------------------------------------- lemmas *)

Lemma c_units_stop us rest : 0 ∉ us → c_units (us ++ 0 :: rest) = us.
Proof.
  induction us as [|u us IH]; intros H; [done|]. cbn [app c_units].
  apply not_elem_of_cons in H as [H1 H2]. replace (u =? 0) with false by lia. by rewrite IH.
Qed.

Lemma utf16_of_app s us s' us' : utf16_of s us → utf16_of s' us' → utf16_of (s ++ s') (us ++ us').
Proof.
  intros (cs & uss & H1 & -> & H2 & ->) (cs' & uss' & H1' & -> & H2' & ->).
  exists (cs ++ cs'), (uss ++ uss'). split; [by apply Forall_app|].
  split; [by rewrite map_app, concat_app|]. split; [by apply Forall2_app|]. by rewrite concat_app.
Qed.
Lemma utf16_of_nul : utf16_of [x00] [0].
Proof.
  exists [0], [[0]]. split; [constructor; [left; lia|constructor]|]. split; [done|].
  split; [|done]. constructor; [left; split; [lia|done]|constructor].
Qed.
Lemma utf16_of_utf8 s us : utf16_of s us → is_utf8 s.
Proof. intros (cs & uss & H1 & -> & _). by exists cs. Qed.
Lemma utf16_of_encode s us : utf16_of s us → encode_utf16 s = us.
Proof.
  intros H. eapply utf16_of_fun; [|exact H]. apply encode_utf16_spec. by eapply utf16_of_utf8.
Qed.

Lemma utf16_char_valid c us rest :
  scalar c → utf16_char c us → utf16_valid (us ++ rest) = utf16_valid rest.
Proof.
  intros Hs [[Hc ->]|(Hc & hi & lo & -> & Hhi & Hlo & _)]; cbn [app utf16_valid].
  - rewrite decide_True; [done|]. unfold scalar in Hs. lia.
  - rewrite decide_False by lia. rewrite decide_False by lia. by rewrite decide_True by lia.
Qed.
Lemma utf16_of_valid s us : utf16_of s us → utf16_valid us = true.
Proof.
  intros (cs & uss & Hs & _ & H & ->). induction H as [|c us cs uss Hc H IH]; [done|].
  apply Forall_cons in Hs as [Hs1 Hs]. cbn [concat].
  rewrite (utf16_char_valid c) by done. by apply IH.
Qed.
Lemma from_utf16_of s us : utf16_of s us → from_utf16 us = Some s.
Proof.
  intros H. unfold from_utf16. rewrite (utf16_of_valid s) by done.
  destruct H as (cs & uss & Hs & -> & H & ->). by rewrite lossy_text, (decode_chars cs).
Qed.

(** The code with a name before the NUL and the OS's two answers. *)
Lemma absolute_name os path us rest f1 f2 :
  encode_utf16 path ++ [0] = us ++ 0 :: rest → 0 ∉ us →
  os false us = Some f1 → os true us = Some f2 → f1 ≠ [] → f2 ≠ [] →
  absolute_path os path =
    (if (length f2 <=? length f1)%nat
     then default path (from_utf16 (take (length f1) (f2 ++ replicate (length f1 - length f2) 0)))
     else path).
Proof.
  intros E H0 H1 H2 Hf1 Hf2. unfold absolute_path. rewrite E, c_units_stop by done.
  rewrite H1, H2. unfold get_full_path_name at 1.
  replace (0 <=? N.of_nat (length f1)) with true by lia.
  replace (N.of_nat (length f1) + 1 =? 0) with false by lia. unfold get_full_path_name.
  assert (length f2 ≠ 0%nat) by (by destruct f2).
  destruct (length f2 <=? length f1)%nat eqn:El.
  - replace (N.of_nat (length f1) + 1 <=? N.of_nat (length f2)) with false by lia.
    replace ((N.of_nat (length f2) =? 0) || (N.of_nat (length f1) + 1 <? N.of_nat (length f2)))
      with false by lia.
    replace (N.to_nat (N.of_nat (length f1) + 1)) with (S (length f1)) by lia.
    replace (S (length f1) - 1)%nat with (length f1) by lia.
    rewrite drop_replicate.
    assert (take (length f1) (f2 ++ [0] ++ replicate (S (length f1) - S (length f2)) 0) =
            take (length f1) (f2 ++ replicate (length f1 - length f2) 0)) as ->.
    { replace ([0] ++ replicate (S (length f1) - S (length f2)) 0)
        with (replicate (length f1 - length f2) 0 ++ [0]).
      2:{ replace (S (length f1) - S (length f2))%nat with (length f1 - length f2)%nat by lia.
          induction (length f1 - length f2)%nat as [|k IH]; [done|].
          cbn [replicate app]. f_equal. exact IH. }
      rewrite app_assoc, take_app_le; [done|]. rewrite app_length, replicate_length. lia. }
    by destruct (from_utf16 _).
  - replace (N.of_nat (length f1) + 1 <=? N.of_nat (length f2)) with true by lia.
    replace ((N.of_nat (length f2) + 1 =? 0) || (N.of_nat (length f1) + 1 <? N.of_nat (length f2) + 1))
      with true by lia. done.
Qed.

(* ---------------------------------------------------------------- C121 *)

Lemma derive_in os path full q :
  absolute_path os path = full →
  q ∈ derive_all_file_paths os path ↔ q = nt_form full ∧ drive_absolute full.
Proof.
  intros Ha. unfold derive_all_file_paths. rewrite Ha. unfold nt_form.
  assert (take 2 (drop 1 full) = lit ":\" ↔ drive_absolute full) as Hd.
  { unfold drive_absolute. split.
    - destruct full as [|d rest]; [done|]. cbn [drop]. rewrite drop_0. intros E.
      exists d, (drop 2 rest). by rewrite <-E, take_drop.
    - intros (d & rest & ->). done. }
  case_bool_decide as Hb.
  - rewrite elem_of_list_singleton. tauto.
  - split; [intros H; by apply elem_of_nil in H|]. intros [_ H]. tauto.
Qed.

(** Partial: for a path without NUL whose full path the OS gives twice alike, in
    well-formed UTF-16, the rule is for exactly that full path. *)
Theorem C121_full_path_partial os path us fu full :
  utf16_of path us → 0 ∉ us → (∀ when, os when us = Some fu) → fu ≠ [] →
  utf16_of full fu →
  ∀ q, q ∈ derive_all_file_paths os path ↔ q = nt_form full ∧ drive_absolute full.
Proof.
  intros Hu H0 Hos Hne Hf q. apply derive_in.
  rewrite (absolute_name os path us [] fu fu); [|by rewrite (utf16_of_encode _ us)|done..].
  rewrite Nat.leb_refl, Nat.sub_diag. cbn [replicate]. rewrite app_nil_r, take_ge by lia.
  by rewrite (from_utf16_of full).
Qed.
Print Assumptions C121_full_path_partial.

(** A rule for a path with a NUL is a rule for what comes before the NUL. *)
Theorem C121_nul_refuted os path us fu full rest :
  utf16_of path us → 0 ∉ us → (∀ when, os when us = Some fu) → fu ≠ [] →
  utf16_of full fu → is_utf8 rest →
  ∀ q, q ∈ derive_all_file_paths os (path ++ x00 :: rest) ↔
    q = nt_form full ∧ drive_absolute full.
Proof.
  intros Hu H0 Hos Hne Hf Hr q. apply derive_in.
  assert (encode_utf16 (path ++ x00 :: rest) = us ++ 0 :: encode_utf16 rest) as E.
  { apply utf16_of_encode. apply (utf16_of_app _ _ (x00 :: rest) (0 :: encode_utf16 rest) Hu).
    apply (utf16_of_app [x00] [0]); [apply utf16_of_nul|by apply encode_utf16_spec]. }
  rewrite (absolute_name os _ us (encode_utf16 rest ++ [0]) fu fu);
    [|by rewrite E, <-app_assoc|done..].
  rewrite Nat.leb_refl, Nat.sub_diag. cbn [replicate]. rewrite app_nil_r, take_ge by lia.
  by rewrite (from_utf16_of full).
Qed.
Print Assumptions C121_nul_refuted.

Lemma utf16_of_nuls k : utf16_of (replicate k x00) (replicate k 0).
Proof.
  induction k as [|k IH].
  - exists [], []. by repeat split; try constructor.
  - apply (utf16_of_app [x00] [0]); [apply utf16_of_nul|done].
Qed.

(** If the second answer is shorter, the rule is for a path that ends in NULs. *)
Theorem C121_race_refuted os path us f1 f2 full :
  utf16_of path us → 0 ∉ us → os false us = Some f1 → os true us = Some f2 →
  f2 ≠ [] → (length f2 < length f1)%nat → utf16_of full f2 →
  ∀ q, q ∈ derive_all_file_paths os path ↔
    q = nt_form (full ++ replicate (length f1 - length f2) x00) ∧
    drive_absolute (full ++ replicate (length f1 - length f2) x00).
Proof.
  intros Hu H0 H1 H2 Hne Hlt Hf q. apply derive_in.
  rewrite (absolute_name os path us [] f1 f2);
    [|by rewrite (utf16_of_encode _ us)|done|done|done|by destruct f1; [simpl in Hlt; lia|]|done].
  replace (length f2 <=? length f1)%nat with true by lia.
  rewrite take_ge by (rewrite app_length, replicate_length; lia).
  rewrite (from_utf16_of (full ++ replicate (length f1 - length f2) x00)); [done|].
  apply utf16_of_app; [done|apply utf16_of_nuls].
Qed.
Print Assumptions C121_race_refuted.

Definition ascii_units (s : str) : list N := map Byte.to_N s.
Definition ex_os : os_paths := λ _ us, Some (ascii_units (lit "C:\public")).
Lemma ascii_utf16 s : Forall (λ b, Byte.to_N b < 128) s → utf16_of s (ascii_units s).
Proof.
  induction s as [|b s IH]; intros H.
  - exists [], []. by repeat split; try constructor.
  - apply Forall_cons in H as [Hb H]. apply (utf16_of_app [b] [Byte.to_N b]); [|by apply IH].
    exists [Byte.to_N b], [[Byte.to_N b]]. split; [constructor; [left; lia|constructor]|].
    split; [|split; [constructor; [left; split; [lia|done]|constructor]|done]].
    cbn [map concat]. rewrite app_nil_r. unfold utf8_encode.
    replace (Byte.to_N b <? 128) with true by lia. cbn [map]. by rewrite byte_of_N_to_N.
Qed.

Theorem C121_refuted : ¬ C121_full.
Proof.
  intros H. set (p := lit "C:\public") in *.
  assert (Hb : Forall (λ b, Byte.to_N b < 128) p) by (repeat constructor).
  assert (Hx : utf16_of (lit "x") (ascii_units (lit "x"))).
  { apply ascii_utf16. repeat constructor. }
  assert (Hu : utf16_of p (ascii_units p)) by (by apply ascii_utf16).
  assert (H0 : 0 ∉ ascii_units p).
  { apply (bool_decide_unpack _). vm_compute. exact I. }
  assert (Hw : utf16_of (p ++ x00 :: lit "x") (ascii_units p ++ 0 :: ascii_units (lit "x"))).
  { apply (utf16_of_app _ _ (x00 :: lit "x") (0 :: ascii_units (lit "x")) Hu).
    apply (utf16_of_app [x00] [0]); [apply utf16_of_nul|exact Hx]. }
  destruct (H ex_os (p ++ x00 :: lit "x") (nt_form p)) as (us & w & full & fu & Hus & Hn & _).
  - by eapply utf16_of_utf8.
  - apply (C121_nul_refuted ex_os p _ (ascii_units p) p (lit "x") Hu H0);
      [done|done|exact Hu|by eapply utf16_of_utf8|].
    split; [done|]. by exists x43, (lit "public").
  - apply Hn. rewrite (utf16_of_fun _ _ _ Hus Hw). apply elem_of_app. right. left.
Qed.
Print Assumptions C121_refuted.

(* A relative path, the same with a NUL, and a current directory that changes from
   C:\users to C:\u between the calls. *)
Definition ex_cwd : os_paths := λ second us,
  Some (ascii_units (if second then lit "C:\u\" else lit "C:\users\") ++ us).
Definition ex_same : os_paths := λ _ us, Some (ascii_units (lit "C:\users\") ++ us).
Example C121_example :
  derive_all_file_paths ex_same (lit "a.txt") = [lit "\??\C:\users\a.txt"] ∧
  derive_all_file_paths ex_same (lit "a.txt" ++ x00 :: lit ".bak") = [lit "\??\C:\users\a.txt"] ∧
  derive_all_file_paths ex_cwd (lit "a.txt") =
    [lit "\??\C:\u\a.txt" ++ [x00; x00; x00; x00]] ∧
  derive_all_file_paths (λ second, ex_cwd (negb second)) (lit "a.txt") = [].
Proof. by vm_compute. Qed.
