(** Model of the functions of broker/src/windows/process.rs that open DLLs to AppContainers
    (lines 541-818 and their calls at 240-268). *)
From stdpp Require Import prelude gmap.
From Coq Require Import Strings.Byte.
From Verif Require Import Bytes PolicyModel LinuxPolicyModel FdModel BpfModel SeccompModel
  PostcardModel ChannelModel BrokerModel EntryModel ProcessModel WinProcessModel.
Local Open Scope N_scope.

(** Access control entries: their type (0 allows, 1 denies), inheritance flags, rights and the
    bytes of the SID. A list is absent when the file has a null DACL. *)
Record ace := mkAce { ac_type : N; ac_flags : N; ac_mask : N; ac_sid : str }.
Definition dacl : Type := option (list ace).
(** The EXPLICIT_ACCESS given to SetEntriesInAcl. *)
Record entry := mkEntry { en_mask : N; en_mode : N; en_inherit : N; en_sid : str }.

(** FindFirstFile and FindNextFile: a file name, up to its NUL, or the last error. *)
Inductive find_answer := Found (name : str) | FindError (code : N).

Inductive devent :=
  | DFind (pattern : str) (a : find_answer)
  | DNext (a : find_answer)
  | DGet (path : str) (code : N)
  | DEntries (old : list ace) (e : entry) (new : option (list ace))
  | DSet (path : str) (new : list ace) (code : N).

(** Answers of the OS; each may depend on what happened before. [de_sid] is the SID made from
    a string, empty when GetLengthSid fails. *)
Record denv := mkDenv {
  de_sid : str → option str;
  de_first : list devent → str → find_answer;
  de_next : list devent → find_answer;
  de_get : list devent → str → N;
  de_info : list devent → list ace → bool;
  de_ace : list devent → N → bool;
  de_entries : list devent → list ace → entry → option (list ace);
  de_set : list devent → str → list ace → N;
  de_last : list devent → N }.

(** The events so far, the lists of the files, the search handles open, and the blocks
    allocated by the OS for the broker and not freed yet. *)
Record dstate := mkDst {
  ds_trace : list devent; ds_files : gmap str dacl; ds_searches : N; ds_blocks : N }.
Definition dlog (s : dstate) (e : devent) : dstate :=
  mkDst (ds_trace s ++ [e]) (ds_files s) (ds_searches s) (ds_blocks s).
Definition alloc (s : dstate) : dstate :=
  mkDst (ds_trace s) (ds_files s) (ds_searches s) (ds_blocks s + 1).
Definition local_free (s : dstate) : dstate :=
  mkDst (ds_trace s) (ds_files s) (ds_searches s) (ds_blocks s - 1).

Definition os_err (d : str) (code : N) : result unit broker_error := Err (OsFailed d code).

(** process.rs:44-49, the constants of winnt.h *)
Definition FILE_READ_DATA : N := 0x1.
Definition FILE_READ_EA : N := 0x8.
Definition FILE_EXECUTE : N := 0x20.
Definition FILE_READ_ATTRIBUTES : N := 0x80.
Definition SYNCHRONIZE : N := 0x100000.
Definition READ_CONTROL : N := 0x20000.
Definition RIGHTS_TO_LOAD_DLL : N :=
  foldl N.lor 0
    [FILE_READ_DATA; FILE_READ_EA; FILE_EXECUTE; FILE_READ_ATTRIBUTES; SYNCHRONIZE; READ_CONTROL].
Definition ERROR_FILE_NOT_FOUND : N := 2.
Definition ERROR_ACCESS_DENIED : N := 5.
Definition ERROR_NO_MORE_FILES : N := 18.
Definition ACCESS_ALLOWED_ACE_TYPE : N := 0.
Definition GRANT_ACCESS : N := 1.
Definition NO_INHERITANCE : N := 0.

(** process.rs:541-563. The block of the SID is not freed when GetLengthSid fails. *)
Definition get_sid_from_str (env : denv) (text : str) (s : dstate)
  : result str broker_error * dstate :=
  match de_sid env text with
  | None => (Err (OsFailed (lit "ConvertStringSidToSid() failed") (de_last env (ds_trace s))), s)
  | Some [] => (Err (OsFailed (lit "GetLengthSid() failed") (de_last env (ds_trace s))), alloc s)
  | Some sid => (Ok sid, local_free (alloc s))
  end.

(** process.rs:712-741: the entries are looked at in order, [false] when GetAce fails; an entry
    delegates when it allows the rights to the trustee, whatever its flags. *)
Definition delegates (trustee : str) (a : ace) : bool :=
  (ac_type a =? ACCESS_ALLOWED_ACE_TYPE) &&
  (N.land (ac_mask a) RIGHTS_TO_LOAD_DLL =? RIGHTS_TO_LOAD_DLL) &&
  bool_decide (ac_sid a = trustee).
Fixpoint scan_aces (env : denv) (tr : list devent) (trustee : str) (i : N) (l : list ace)
  : option bool :=
  match l with
  | [] => Some false
  | a :: l =>
      if de_ace env tr i then
        match scan_aces env tr trustee (i + 1) l with
        | Some b => Some (delegates trustee a || b)
        | None => None
        end
      else None
  end.

(** process.rs:656-818. GetNamedSecurityInfo fails for files that do not exist, and
    GetAclInformation for a null DACL. SetNamedSecurityInfo changes the list of the file when it
    returns 0. The list made by SetEntriesInAcl is never freed. *)
Definition ensure_dll (env : denv) (path trustee : str) (s : dstate)
  : result unit broker_error * dstate :=
  let code := match ds_files s !! path with
              | Some _ => de_get env (ds_trace s) path
              | None => ERROR_FILE_NOT_FOUND
              end in
  let s := dlog s (DGet path code) in
  if negb (code =? 0) then
    let err := de_last env (ds_trace s) in
    if err =? ERROR_ACCESS_DENIED then (Ok tt, s)
    else (os_err (lit "GetNamedSecurityInfo() on a DLL next to the worker executable failed") err, s)
  else
  let s := alloc s in
  match ds_files s !! path with
  | Some (Some old) =>
      if negb (de_info env (ds_trace s) old) then
        (os_err (lit "GetAclInformation(AclSizeInformation) on a DLL next to the worker executable failed")
           (de_last env (ds_trace s)), local_free s)
      else
      match scan_aces env (ds_trace s) trustee 0 old with
      | None => (os_err (lit "GetAce() on a DLL next to the worker executable failed")
                   (de_last env (ds_trace s)), local_free s)
      | Some true => (Ok tt, local_free s)
      | Some false =>
          let e := mkEntry (N.lor RIGHTS_TO_LOAD_DLL READ_CONTROL) GRANT_ACCESS NO_INHERITANCE trustee in
          let new := de_entries env (ds_trace s) old e in
          let s := dlog s (DEntries old e new) in
          match new with
          | None => (os_err (lit "SetEntriesInAclW() on a DLL next to the worker executable failed")
                       (de_last env (ds_trace s)), local_free s)
          | Some new =>
              let s := local_free (alloc s) in
              let code := de_set env (ds_trace s) path new in
              let s := dlog s (DSet path new code) in
              if code =? 0 then
                (Ok tt, mkDst (ds_trace s) (<[path := Some new]> (ds_files s)) (ds_searches s) (ds_blocks s))
              else
                let err := de_last env (ds_trace s) in
                if err =? ERROR_ACCESS_DENIED then (Ok tt, s)
                else (os_err (lit "GetNamedSecurityInfo() on a DLL next to the worker executable failed")
                        err, s)
          end
      end
  | _ => (os_err (lit "GetAclInformation(AclSizeInformation) on a DLL next to the worker executable failed")
            (de_last env (ds_trace s)), local_free s)
  end.

(** process.rs:614-634: errors are only logged. *)
Definition ensure_both (env : denv) (path all restricted : str) (s : dstate) : dstate :=
  snd (ensure_dll env path restricted (snd (ensure_dll env path all s))).

(** process.rs:578-583 *)
Definition dll_folder (folder : str) : str :=
  match last folder with
  | Some b => if decide (b = backslash) then folder else folder ++ [backslash]
  | None => folder ++ [backslash]
  end.

(** process.rs:603-652; [None] when [fuel] files are not the end. *)
Fixpoint dll_loop (fuel : nat) (env : denv) (folder all restricted name : str) (s : dstate)
  : option (result unit broker_error * dstate) :=
  match fuel with
  | O => None
  | S fuel =>
      let s := ensure_both env (folder ++ name) all restricted s in
      let a := de_next env (ds_trace s) in
      let s := dlog s (DNext a) in
      match a with
      | Found name => dll_loop fuel env folder all restricted name s
      | FindError err =>
          if err =? ERROR_NO_MORE_FILES then Some (Ok tt, s)
          else Some (os_err (lit "FindNextFile(*.dll) failed within the target executable directory") err, s)
      end
  end.

(** process.rs:569-654. The search handle is never closed. *)
Definition ensure_dlls (fuel : nat) (env : denv) (folder : str) (s : dstate)
  : option (result unit broker_error * dstate) :=
  let '(r, s) := get_sid_from_str env (lit "S-1-15-2-1") s in
  match r with
  | Err e => Some (Err e, s)
  | Ok all =>
      let '(r, s) := get_sid_from_str env (lit "S-1-15-2-2") s in
      match r with
      | Err e => Some (Err e, s)
      | Ok restricted =>
          let pattern := dll_pattern folder in
          let a := de_first env (ds_trace s) pattern in
          let s := dlog s (DFind pattern a) in
          match a with
          | FindError err =>
              if err =? ERROR_FILE_NOT_FOUND then Some (Ok tt, s)
              else Some (os_err (lit "FindFirstFile(*.dll) failed within the target executable directory") err, s)
          | Found name =>
              dll_loop fuel env (dll_folder folder) all restricted name
                (mkDst (ds_trace s) (ds_files s) (ds_searches s + 1) (ds_blocks s))
          end
      end
  end.

(** process.rs:240-268: both folders, errors are only logged. *)
Definition prepare_dlls (fuel : nat) (env : denv) (exe windir : str) (s : dstate) : option dstate :=
  match ensure_dlls fuel env (executable_directory exe) s with
  | None => None
  | Some (_, s) =>
      match ensure_dlls fuel env windir s with
      | None => None
      | Some (_, s) => Some s
      end
  end.
