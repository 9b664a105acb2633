(** Registry rules on Windows with the calls that find out the current user:
    policy/src/windows/path.rs:67-144 and policy/src/windows/policy.rs:229-272. *)
From stdpp Require Import prelude gmap.
From Verif Require Import Bytes PolicyModel FdModel WinPolicyModel.

(** The answers of the OS. [ut_size] is the size the first GetTokenInformation reports,
    [ut_user] the answer of the second one for a buffer of that size, [ut_text] the text
    ConvertSidToStringSidA makes of a SID, with the memory it is in. *)
Record user_token := mkToken {
  ut_open : result N N;
  ut_size : N;
  ut_user : N → result str N;
  ut_text : str → result (N * str) N }.

Inductive sid_event :=
  | TokenOpened (h : N)
  | TokenClosed (h : N)
  | TextAllocated (a : N)
  | TextFreed (a : N).
Global Instance sid_event_eq_dec : EqDecision sid_event.
Proof. solve_decision. Defined.

(** path.rs:94-144. The text of a SID is ASCII, so [to_string_lossy] (140) keeps it. [Handle]
    closes the token when it goes out of scope, also when a panic unwinds the stack. *)
Definition get_current_user_sid (os : user_token) : outcome str * list sid_event :=
  match ut_open os with
  | Err _ => (Panicked, [])
  | Ok h =>
      match ut_user os (ut_size os) with
      | Err _ => (Panicked, [TokenOpened h; TokenClosed h])
      | Ok sid =>
          match ut_text os sid with
          | Err _ => (Panicked, [TokenOpened h; TokenClosed h])
          | Ok (a, text) =>
              (Done text, [TokenOpened h; TextAllocated a; TextFreed a; TokenClosed h])
          end
      end
  end.

(** path.rs:67-92: only the first prefix asks for the user. *)
Definition derive_reg_key_paths_os (os : user_token) (path : str)
  : outcome (result (list str) policy_error) * list sid_event :=
  match strip_prefix_str (lit "HKEY_CURRENT_USER") path with
  | Some rest =>
      match get_current_user_sid os with
      | (Done sid, t) => (Done (Ok [lit "\REGISTRY\USER\" ++ sid ++ rest]), t)
      | (Failed, t) => (Failed, t)
      | (Panicked, t) => (Panicked, t)
      end
  | None => (Done (derive_reg_key_paths [] path), [])
  end.

(** policy.rs:229-272 *)
Definition allow_regkey_access_os (os : user_token) (path : str) (a : bool * bool) (p : policy)
  : outcome (result policy policy_error) * list sid_event :=
  match derive_reg_key_paths_os os path with
  | (Done (Ok paths), t) => (Done (Ok (foldl (reg_one a) p paths)), t)
  | (Done (Err e), t) => (Done (Err e), t)
  | (Failed, t) => (Failed, t)
  | (Panicked, t) => (Panicked, t)
  end.
