(** Vocabulary for the properties of the DLL permissions: what searches found, which lists files
    have, and what access control lists allow. *)
From stdpp Require Import prelude gmap.
From Coq Require Import Strings.Byte.
From Verif Require Import Bytes PolicyModel LinuxPolicyModel FdModel BpfModel SeccompModel
  PostcardModel ChannelModel BrokerModel EntryModel ProcessModel WinProcessModel WinDllModel.
Local Open Scope N_scope.

(** The names found by each search, with its pattern; [cur] is the pattern of the current one. *)
Fixpoint found_by (cur : str) (tr : list devent) : list (str * str) :=
  match tr with
  | [] => []
  | DFind p (Found n) :: tr => (p, n) :: found_by p tr
  | DFind p _ :: tr => found_by p tr
  | DNext (Found n) :: tr => (cur, n) :: found_by cur tr
  | _ :: tr => found_by cur tr
  end.

(** The lists of files after the changes that succeeded. *)
Fixpoint replay (files : gmap str dacl) (tr : list devent) : gmap str dacl :=
  match tr with
  | [] => files
  | DSet path new 0 :: tr => replay (<[path := Some new]> files) tr
  | _ :: tr => replay files tr
  end.

(** Access checks: entries for the SID are taken in order, those that are only there for
    children (flag 8) are skipped; an allowing entry (type 0) gives its rights, a denying one
    (type 1) refuses if it names a right not given yet. *)
Definition applies (sid : str) (a : ace) : bool :=
  bool_decide (ac_sid a = sid) && negb (N.testbit (ac_flags a) 3).
Fixpoint allows (sid : str) (want : N) (l : list ace) : bool :=
  match l with
  | [] => want =? 0
  | a :: l =>
      if applies sid a then
        if ac_type a =? 0 then allows sid (N.ldiff want (ac_mask a)) l
        else if ac_type a =? 1 then (N.land want (ac_mask a) =? 0) && allows sid want l
        else allows sid want l
      else allows sid want l
  end.
(** A file can be loaded as a DLL: FILE_READ_DATA, FILE_READ_EA, FILE_EXECUTE,
    FILE_READ_ATTRIBUTES, READ_CONTROL and SYNCHRONIZE. A file without a list is open to all. *)
Definition loadable (sid : str) (d : dacl) : Prop :=
  match d with None => True | Some l => allows sid 0x1200a9 l = true end.

(** No entry for the SID denies, or is there for children only. *)
Definition clean (sid : str) (l : list ace) : Prop :=
  ∀ a, a ∈ l → ac_sid a = sid → ac_type a ≠ 1 ∧ N.testbit (ac_flags a) 3 = false.

(** SetEntriesInAcl does what its documentation says for GRANT_ACCESS: the rights are added and
    the other rights stay. *)
Definition documented (env : denv) : Prop :=
  ∀ tr old e new, en_mode e = 1 → de_entries env tr old e = Some new →
  allows (en_sid e) (en_mask e) new = true ∧
  (∀ sid m, allows sid m old = true → allows sid m new = true) ∧
  (∀ sid, clean sid old → clean sid new).

(** The OS carried out every operation. *)
Definition carried_out (e : devent) : Prop :=
  match e with
  | DGet _ code | DSet _ _ code => code = 0
  | DEntries _ _ new => is_Some new
  | _ => True
  end.

(** Searches that found a file, and lists made by SetEntriesInAcl. *)
Fixpoint searches (tr : list devent) : N :=
  match tr with
  | [] => 0
  | DFind _ (Found _) :: tr => 1 + searches tr
  | _ :: tr => searches tr
  end.
Fixpoint made_lists (tr : list devent) : N :=
  match tr with
  | [] => 0
  | DEntries _ _ (Some _) :: tr => 1 + made_lists tr
  | _ :: tr => made_lists tr
  end.
