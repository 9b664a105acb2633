(** The messages of policy/src/policy.rs:238-265 (the part of [log_verdict] that
    PolicyModel leaves out) with the requests as printed by
    policy/src/linux/policy.rs:99-112 and policy/src/windows/policy.rs:350-388. *)
From stdpp Require Import prelude gmap.
From Coq Require Import Strings.Byte.
From Verif Require Import Bytes PolicyModel LinuxPolicyModel WinPolicyModel.
Local Open Scope Z_scope.

(** Levels of the [log] crate that are used. *)
Inductive level := Info | Warn.
Global Instance level_eq_dec : EqDecision level.
Proof. solve_decision. Defined.

(** Rust [{:#X}] of a signed or unsigned integer of so many bits. *)
Definition fmt_hex (bits : Z) (z : Z) : str :=
  lit "0x" ++ digits 16 (Z.to_N (z mod 2 ^ bits)).
(** Rust [{}] of a signed integer. *)
Definition fmt_int (z : Z) : str :=
  if z <? 0 then lit "-" ++ fmt_dec (Z.to_N (- z)) else fmt_dec (Z.to_N z).

(** policy/src/linux/policy.rs:99-112. [args[0]] to [args[5]] of a fixed array. *)
Definition show_request (r : lx_request) : str :=
  match r with
  | FileOpen path flags => lit "file " ++ path ++ lit " with flags " ++ fmt_hex 32 flags
  | Syscall nb args ip =>
      lit "syscall nb#" ++ fmt_int nb ++ lit " with arguments (" ++
      fmt_hex 64 (nth 0 args 0) ++ lit ", " ++ fmt_hex 64 (nth 1 args 0) ++ lit ", " ++
      fmt_hex 64 (nth 2 args 0) ++ lit ", " ++ fmt_hex 64 (nth 3 args 0) ++ lit ", " ++
      fmt_hex 64 (nth 4 args 0) ++ lit ", " ++ fmt_hex 64 (nth 5 args 0) ++
      lit ") at address " ++ fmt_hex 64 ip
  end.

(** policy/src/windows/policy.rs:350-388 *)
Definition show_win_request (r : win_request) : str :=
  match r with
  | WinFileOpen f =>
      lit "file " ++ fr_path f ++ lit " with access_mask " ++ fmt_hex 32 (fr_access f) ++
      lit " (sharing " ++ fmt_hex 32 (fr_share f) ++ lit ") (attributes " ++
      fmt_hex 32 (fr_attributes f) ++ lit ") (create_disposition " ++
      fmt_hex 32 (fr_disposition f) ++ lit " and create_options " ++
      fmt_hex 32 (fr_options f) ++ lit ")" ++
      (match fr_ea f with
       | [] => []
       | ea => lit "with " ++ fmt_dec (N.of_nat (length ea)) ++
               lit " bytes of extended attributes"
       end)
  | WinRegKeyOpen path access options do_create =>
      lit "registry key " ++ path ++ lit " with access_mask " ++ fmt_hex 32 access ++
      (if do_create
       then lit ", creating it with options " ++ fmt_hex 32 options ++
            lit " if it does not exist"
       else [])
  end.

(** policy/src/policy.rs:239-262 *)
Definition log_record (request : str) (v : verdict) : level * str :=
  match v with
  | Granted => (Info, lit "Worker granted access to " ++ request)
  | DelegationToSandboxNotSupported why =>
      (Warn, lit "Worker tried to access " ++ request ++
             lit " but delegation is not supported: " ++ why)
  | DeniedByPolicy why =>
      (Warn, lit "Worker tried to access " ++ request ++
             lit " but it is not allowed by its policy: " ++ why)
  | InvalidRequestParameters argument_name why =>
      (Warn, lit "Worker tried to access " ++ request ++ lit " but """ ++ argument_name ++
             lit """ was unexpected: " ++ why)
  end.

(** policy/src/linux/policy.rs:27-39 and policy/src/windows/policy.rs:88-119: the one
    message of a request. The verdict logged is that of the rules, in audit mode too. *)
Definition logged (p : policy) (r : lx_request) : level * str :=
  log_record (show_request r) (raw_verdict p r).
Definition win_logged (debug : bool) (p : policy) (r : win_request) : level * str :=
  log_record (show_win_request r) (win_raw_verdict debug p r).
