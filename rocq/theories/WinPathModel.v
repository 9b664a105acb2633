(** Model of policy/src/windows/path.rs:26-65 down to GetFullPathNameW: UTF-16, NUL
    termination and the two calls. WinPolicyModel takes their result as an argument. *)
From stdpp Require Import prelude gmap.
From Coq Require Import Strings.Byte.
From Verif Require Import Bytes PolicyModel LinuxPolicyModel PostcardModel WinPolicyModel
  WinBrokerModel WinHookModel.
Local Open Scope N_scope.

(** The OS: the full path of a name at the first and at the second call (the current
    directory is shared by all threads and may change in between); [None] is a
    failure. *)
Definition os_paths : Type := bool → list N → option (list N).

(** A pointer to a NUL-terminated wide string, as its reader sees it. *)
Fixpoint c_units (us : list N) : list N :=
  match us with
  | [] => []
  | u :: us => if u =? 0 then [] else u :: c_units us
  end.

(** GetFullPathNameW (Windows documentation): 0 on failure; the size needed, with the
    NUL, if the buffer is too small; else the path and a NUL are stored and the length
    without the NUL is returned. Sizes fit in a DWORD. *)
Definition get_full_path_name (answer : option (list N)) (size : N) (buf : list N)
  : N * list N :=
  match answer with
  | None => (0, buf)
  | Some full =>
      let len := N.of_nat (length full) in
      if size <=? len then (len + 1, buf)
      else (len, full ++ [0] ++ drop (S (length full)) buf)
  end.

(** No unpaired surrogate. *)
Fixpoint utf16_valid (us : list N) : bool :=
  match us with
  | [] => true
  | u :: rest =>
      if decide (u < 0xD800 ∨ 0xE000 ≤ u) then utf16_valid rest
      else if decide (0xDC00 ≤ u) then false
      else
        match rest with
        | [] => false
        | v :: rest' => if decide (0xDC00 ≤ v < 0xE000) then utf16_valid rest' else false
        end
  end.
(** Rust alloc [String::from_utf16]. *)
Definition from_utf16 (us : list N) : option str :=
  if utf16_valid us then Some (from_utf16_lossy us) else None.

(** path.rs:27-57: what the code takes as the absolute path. *)
Definition absolute_path (os : os_paths) (path : str) : str :=
  let name := c_units (encode_utf16 path ++ [0]) in
  let '(str_len, _) := get_full_path_name (os false name) 0 [] in
  if str_len =? 0 then path
  else
    let buf := replicate (N.to_nat str_len) 0 in
    let '(res, buf) := get_full_path_name (os true name) str_len buf in
    if (res =? 0) || (str_len <? res) then path
    else
      match from_utf16 (take (N.to_nat str_len - 1) buf) with
      | Some s => s
      | None => path
      end.

(** path.rs:26-65 *)
Definition derive_all_file_paths (os : os_paths) (path : str) : list str :=
  let absolute := absolute_path os path in
  if bool_decide (take 2 (drop 1 absolute) = lit ":\") then [lit "\??\" ++ absolute] else [].
