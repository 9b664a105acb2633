(** Model of how a Linux worker isolates itself before its program starts:
    linux-entrypoint/src/entry.rs:44-152, with the kernel's side of user, mount and UTS
    namespaces. The rest of the entry point is in [EntryModel]. *)
From stdpp Require Import prelude.
From Coq Require Import Strings.Byte.
From Verif Require Import Bytes PolicyModel SeccompModel EntryModel ProcessModel.
Local Open Scope N_scope.

(* ---------------------------------------------------------------- kernel *)

(** One line of a uid_map or gid_map file: ids from [im_in] on are those from [im_out] on. *)
Record idmap := mkMap { im_in : N; im_out : N; im_count : N }.

(** A user namespace made for the worker; [None]: no map was written yet. *)
Record userns := mkUns { un_uid : option idmap; un_gid : option idmap; un_setgroups : bool }.

(** What the worker shares with the host, and the host itself. [iso_shared]: mounts of the host
    are shared (mount_namespaces(7)), so that mounting in a copy of them mounts in all copies.
    Mounts are (path, kind, pid namespace for proc: is it the worker's?). *)
Record mount := mkMount { mo_path : str; mo_kind : str; mo_worker_pids : bool }.
Record host := mkHost { ho_name : str; ho_mounts : list mount; ho_shared : bool }.
Record iso := mkIso {
  is_host : host;
  is_user : option userns;             (* the worker's own user namespace *)
  is_pids : bool;                      (* it has its own pid namespace *)
  is_own : list namespace;             (* namespaces it has left the host's for *)
  is_name : str;                       (* host name that it sees *)
  is_mounts : list mount }.            (* mounts that it sees *)

(** The broker: real and effective ids, and whether it has CAP_SYS_ADMIN. Answers of the kernel
    on top of the rules below: limits, security modules. *)
Record iso_env := mkIsoEnv {
  ie_uid : N; ie_gid : N; ie_euid : N; ie_egid : N; ie_admin : bool;
  ie_open : str → bool;
  ie_unshare : namespace → bool;
  ie_name : bool;                      (* sethostname *)
  ie_mount : bool }.

(** CAP_SYS_ADMIN in the worker's user namespace: a new one gives it. *)
Definition iso_admin (e : iso_env) (k : iso) : bool :=
  match is_user k with Some _ => true | None => ie_admin e end.

(** What the kernel reads from one line (map_write in kernel/user_namespace.c): three decimal
    numbers, spaces between them, and the end of the line. *)
Definition parse_map (b : str) : option idmap :=
  match split x20 (strip_suffix_or_self x0a b) with
  | [a; b; c] =>
      match parse_digits 0 a, parse_digits 0 b, parse_digits 0 c with
      | Some a, Some b, Some c => Some (mkMap a b c)
      | _, _, _ => None
      end
  | _ => None
  end.
(** Writing a map (new_idmap_permitted): once, and without rights in the host's user namespace
    only the effective id of the broker; for groups setgroups must be off. *)
Definition write_uid_map (e : iso_env) (b : str) (k : iso) : iso :=
  match is_user k, parse_map b with
  | Some (mkUns None g sg), Some m =>
      if (im_count m =? 1) && (im_out m =? ie_euid e)
      then mkIso (is_host k) (Some (mkUns (Some m) g sg)) (is_pids k) (is_own k) (is_name k) (is_mounts k)
      else k
  | _, _ => k
  end.
Definition write_gid_map (e : iso_env) (b : str) (k : iso) : iso :=
  match is_user k, parse_map b with
  | Some (mkUns u None false), Some m =>
      if (im_count m =? 1) && (im_out m =? ie_egid e)
      then mkIso (is_host k) (Some (mkUns u (Some m) false)) (is_pids k) (is_own k) (is_name k) (is_mounts k)
      else k
  | _, _ => k
  end.
(** proc_setgroups_write: "deny" is accepted until a group map is there. *)
Definition write_setgroups (k : iso) : iso :=
  match is_user k with
  | Some (mkUns u None _) =>
      mkIso (is_host k) (Some (mkUns u None false)) (is_pids k) (is_own k) (is_name k) (is_mounts k)
  | _ => k
  end.
(** unshare(2) of one namespace. *)
Definition iso_unshare (e : iso_env) (n : namespace) (k : iso) : bool * iso :=
  if iso_admin e k && ie_unshare e n then
    (true, mkIso (is_host k) (is_user k) (is_pids k) (is_own k ++ [n]) (is_name k) (is_mounts k))
  else (false, k).
(** sethostname(2) takes the bytes given; readers see them up to the first zero byte. *)
Fixpoint to_zero (b : str) : str :=
  match b with [] => [] | c :: b => if decide (c = x00) then [] else c :: to_zero b end.
(** mount(2) of proc on /proc: needs rights over the pid namespace, which belongs to the worker's
    user namespace if both are new, and to the host's otherwise. A copy of shared mounts is
    shared with the host unless it belongs to a new user namespace (copy_mnt_ns). *)
Definition mount_proc (e : iso_env) (k : iso) : iso :=
  let may := match is_user k with Some _ => is_pids k | None => ie_admin e end in
  if may && ie_mount e then
    let m := mkMount (lit "/proc") (lit "proc") (is_pids k) in
    let h := is_host k in
    let h' := match is_user k with
              | None => if ho_shared h then mkHost (ho_name h) (ho_mounts h ++ [m]) (ho_shared h) else h
              | Some _ => h
              end in
    mkIso h' (is_user k) (is_pids k) (is_own k) (is_name k) (is_mounts k ++ [m])
  else k.

(* ---------------------------------------------------------------- entry.rs:44-152 *)

(** entry.rs:6-7 *)
Definition UTS_HOSTNAME : str := lit "sandbox" ++ [x00].

(** entry.rs:44-95: setgroups, then the maps; failures are only logged. *)
Definition iso_ids (e : iso_env) (uid_map gid_map : str) (k : iso) : iso :=
  let k := if ie_open e (lit "/proc/self/setgroups") then write_setgroups k else k in
  let k := match uid_map with
           | [] => k
           | m => if ie_open e (lit "/proc/self/uid_map") then write_uid_map e m k else k
           end in
  match gid_map with
  | [] => k
  | m => if ie_open e (lit "/proc/self/gid_map") then write_gid_map e m k else k
  end.
(** entry.rs:97-152 *)
Definition iso_spaces (e : iso_env) (k : iso) : iso :=
  let k := (iso_unshare e NsIpc k).2 in
  let k := (iso_unshare e NsNet k).2 in
  let '(ok, k) := iso_unshare e NsUts k in
  let k := if ok && ie_name e
           then mkIso (is_host k) (is_user k) (is_pids k) (is_own k) (to_zero UTS_HOSTNAME) (is_mounts k)
           else k in
  let k := (iso_unshare e NsCgroup k).2 in
  let '(ok, k) := iso_unshare e NsMount k in
  if ok then mount_proc e k else k.
(** A worker cloned with [fl] (process.rs:71-80 and 104-106): it starts with what the host has. *)
Definition isolate (e : iso_env) (fl : clone_flags) (h : host) : iso :=
  iso_spaces e (iso_ids e (id_map (ie_uid e)) (id_map (ie_gid e))
    (mkIso h (if newuser fl then Some (mkUns None None true) else None) (newpid fl) []
       (ho_name h) (ho_mounts h))).
