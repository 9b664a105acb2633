(** How a policy is printed: the Debug output of policy/src/policy.rs:268-321. *)
From stdpp Require Import prelude gmap.
From Coq Require Import Strings.Byte.
From Verif Require Import Bytes PolicyModel.

(** policy.rs:290-294 and 302-306: the same word for all three. *)
Definition show_access (a : access) : str :=
  (if a_read a then lit " read" else []) ++
  (if a_write a then lit " write" else []) ++
  (if a_block_readers a then lit " block_readers" else []) ++
  (if a_block_writers a then lit " block_readers" else []) ++
  (if a_block_deleters a then lit " block_readers" else []).
(** policy.rs:314-315 *)
Definition show_reg (a : bool * bool) : str :=
  (if a.1 then lit " read" else []) ++ (if a.2 then lit " write" else []).

(** policy.rs:283: [derive(Debug)] of Handle, ipc/src/linux/handle.rs:8-11 and
    ipc/src/windows/handle.rs:14-17. *)
Definition show_handle (h : N) : str :=
  lit "    Inherit handle Handle { val: Some(" ++ fmt_dec h ++ lit ") }".
Definition show_file (x : str * access) : str := lit "    " ++ x.1 ++ lit " file" ++ show_access x.2.
Definition show_dir (x : str * access) : str := lit "    " ++ x.1 ++ lit " directory" ++ show_access x.2.
Definition show_regkey (x : str * (bool * bool)) : str :=
  lit "    " ++ x.1 ++ lit " registry key" ++ show_reg x.2.

(** policy.rs:268-321. The orders in which the hash tables are walked are parameters. *)
Definition show_lines (hs : list N) (fs ds : list (str * access)) (rs : list (str * (bool * bool)))
  : list str :=
  (show_handle <$> hs) ++ (show_file <$> fs) ++ (show_dir <$> ds) ++ (show_regkey <$> rs).
Definition show_policy (audit : bool) (hs : list N) (fs ds : list (str * access))
  (rs : list (str * (bool * bool))) : str :=
  (if audit then lit "Policy [/!\ audit mode, nothing will be blocked] {" ++ [x0a]
   else lit "Policy {" ++ [x0a]) ++
  concat ((λ l, l ++ [x0a]) <$> show_lines hs fs ds rs) ++
  lit "}" ++ [x0a].
