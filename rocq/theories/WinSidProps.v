(** Property C133: adding a registry rule on Windows. *)
From stdpp Require Import prelude gmap.
From Verif Require Import Bytes PolicyModel FdModel WinPolicyModel WinSidModel.
Local Open Scope N_scope.

(* ---------------------------------------------------------------- specification *)

(** Nothing opened or allocated is left, and nothing is closed or freed twice or before. *)
Inductive cleaned : list sid_event → Prop :=
  | cleaned_nil : cleaned []
  | cleaned_token h t u : cleaned t → cleaned u → cleaned (TokenOpened h :: t ++ TokenClosed h :: u)
  | cleaned_text a t u : cleaned t → cleaned u → cleaned (TextAllocated a :: t ++ TextFreed a :: u).

(** The text of the current user's SID, if the OS tells it. *)
Definition os_tells (os : user_token) (text : str) : Prop :=
  ∃ h sid a, ut_open os = Ok h ∧ ut_user os (ut_size os) = Ok sid ∧ ut_text os sid = Ok (a, text).

(** Full statement: the call returns, enters the rule for the current user's key if the OS
    tells who that is, and cleans up. *)
Definition C133_full : Prop := ∀ os path a p,
  ∃ r t, allow_regkey_access_os os path a p = (Done r, t) ∧ cleaned t ∧
    (∀ text, os_tells os text → r = allow_regkey_access text path a p).

Definition for_current_user (path : str) : Prop := ∃ rest, path = lit "HKEY_CURRENT_USER" ++ rest.

(* ---------------------------------------------------------------- proofs *)

Lemma starts_with_spec (a s : str) : starts_with a s = true ↔ ∃ r, s = a ++ r.
Proof.
  revert s. induction a as [|c a IH]; intros s; cbn [starts_with app].
  - split; [by exists s|done].
  - destruct s as [|d s]; [split; [done|intros [r Hr]; done]|].
    rewrite andb_true_iff, bool_decide_eq_true, IH. split.
    + intros [-> [r ->]]. by exists r.
    + intros [r Hr]. injection Hr as -> ->. split; [done|by exists r].
Qed.
Lemma strip_current path rest :
  path = lit "HKEY_CURRENT_USER" ++ rest →
  strip_prefix_str (lit "HKEY_CURRENT_USER") path = Some rest.
Proof.
  intros ->. unfold strip_prefix_str.
  rewrite (proj2 (starts_with_spec _ _)) by (by exists rest). by rewrite drop_app.
Qed.
Lemma strip_other path : ¬ for_current_user path →
  strip_prefix_str (lit "HKEY_CURRENT_USER") path = None.
Proof.
  intros H. unfold strip_prefix_str. destruct (starts_with _ path) eqn:E; [|done].
  exfalso. apply H. by apply starts_with_spec in E.
Qed.

Lemma cleaned_pair h : cleaned [TokenOpened h; TokenClosed h].
Proof. exact (cleaned_token h [] [] cleaned_nil cleaned_nil). Qed.
Lemma cleaned_all h a : cleaned [TokenOpened h; TextAllocated a; TextFreed a; TokenClosed h].
Proof.
  refine (cleaned_token h [TextAllocated a; TextFreed a] [] _ cleaned_nil).
  exact (cleaned_text a [] [] cleaned_nil cleaned_nil).
Qed.

(** Whatever the OS answers, also when the call panics, nothing is left behind. *)
Theorem C133_cleaned os path a p : cleaned (allow_regkey_access_os os path a p).2.
Proof.
  unfold allow_regkey_access_os, derive_reg_key_paths_os.
  destruct (strip_prefix_str _ path) as [rest|].
  - unfold get_current_user_sid. destruct (ut_open os) as [h|]; [|constructor].
    destruct (ut_user os (ut_size os)) as [sid|]; [|apply cleaned_pair].
    destruct (ut_text os sid) as [[al text]|]; [apply cleaned_all|apply cleaned_pair].
  - destruct (derive_reg_key_paths [] path); constructor.
Qed.
Print Assumptions C133_cleaned.

(** If the OS tells the user, the call returns what [allow_regkey_access] describes: the
    rule is entered for that user's key. *)
Theorem C133_told_partial os path a p text :
  os_tells os text →
  (allow_regkey_access_os os path a p).1 = Done (allow_regkey_access text path a p).
Proof.
  intros (h & sid & al & Ho & Hu & Ht).
  unfold allow_regkey_access_os, derive_reg_key_paths_os, allow_regkey_access, derive_reg_key_paths.
  destruct (strip_prefix_str (lit "HKEY_CURRENT_USER") path) as [rest|].
  - unfold get_current_user_sid. by rewrite Ho, Hu, Ht.
  - repeat (destruct (strip_prefix_str _ path); [done|]). done.
Qed.
Print Assumptions C133_told_partial.

(** Paths of other root keys: the OS is not asked, and the call returns. *)
Theorem C133_other_partial os path a p : ¬ for_current_user path →
  ∀ sid, allow_regkey_access_os os path a p = (Done (allow_regkey_access sid path a p), []).
Proof.
  intros H sid.
  unfold allow_regkey_access_os, derive_reg_key_paths_os, allow_regkey_access, derive_reg_key_paths.
  rewrite (strip_other path H).
  repeat (destruct (strip_prefix_str _ path); [done|]). done.
Qed.
Print Assumptions C133_other_partial.

(** Every refusal of the OS is a panic of the caller, for every path below the current
    user's key, though the call could return an error. *)
Theorem C133_panics_refuted os path a p :
  for_current_user path → (¬ ∃ text, os_tells os text) →
  (allow_regkey_access_os os path a p).1 = Panicked.
Proof.
  intros [rest Hr] Hn. unfold allow_regkey_access_os, derive_reg_key_paths_os.
  rewrite (strip_current path rest Hr). unfold get_current_user_sid.
  destruct (ut_open os) as [h|] eqn:Ho; [|done].
  destruct (ut_user os (ut_size os)) as [sid|] eqn:Hu; [|done].
  destruct (ut_text os sid) as [[al text]|] eqn:Ht; [|done].
  destruct Hn. exists text, h, sid, al. done.
Qed.
Print Assumptions C133_panics_refuted.

Theorem C133_refuted : ¬ C133_full.
Proof.
  intros H.
  destruct (H (mkToken (Err 5) 0 (λ _, Err 87) (λ _, Err 87)) (lit "HKEY_CURRENT_USER\Software")
    (true, false) nothing_allowed) as (r & t & E & _).
  apply (f_equal fst) in E. rewrite C133_panics_refuted in E; [done|by eexists|].
  intros (text & h & sid & al & Ho & _). done.
Qed.
Print Assumptions C133_refuted.

(** A user, with what the calls do; and a token that cannot be opened. *)
Example C133_example :
  let os := mkToken (Ok 300) 44 (λ n, if bool_decide (44 ≤ n) then Ok (lit "sid") else Err 122)
    (λ _, Ok (7, lit "S-1-5-21-7")) in
  os_tells os (lit "S-1-5-21-7") ∧
  (∃ q, allow_regkey_access_os os (lit "HKEY_CURRENT_USER\Software\") (true, false) nothing_allowed =
     (Done (Ok q), [TokenOpened 300; TextAllocated 7; TextFreed 7; TokenClosed 300]) ∧
   regkey_access q !! lit "\REGISTRY\USER\S-1-5-21-7\Software" = Some (true, false)) ∧
  (∃ q, allow_regkey_access_os (mkToken (Err 5) 0 (λ _, Err 87) (λ _, Err 87))
     (lit "HKEY_LOCAL_MACHINE\Software") (true, true) nothing_allowed = (Done (Ok q), [])) ∧
  allow_regkey_access_os (mkToken (Err 5) 0 (λ _, Err 87) (λ _, Err 87))
     (lit "HKEY_CURRENT_USER") (true, true) nothing_allowed = (Panicked, []).
Proof.
  cbv zeta. split_and!.
  - exists 300, (lit "sid"), 7. split_and!; by vm_compute.
  - eexists. split; [reflexivity|by vm_compute].
  - eexists. reflexivity.
  - reflexivity.
Qed.
