(** Model of what open files and byte-range locks of a worker do to other programs on
    Windows: the broker's check of a request (WinPolicyModel.v, policy/src/windows/policy.rs:
    121-241), its NtCreateFile (broker/src/windows/brokered_syscalls.rs:57-128), and the rules of NT for share
    access and byte-range locks (IoCheckShareAccess, FsRtlProcessFileLock and
    FsRtlCheckLockForReadAccess as documented).

    Files are numbers; [look] gives the file of an NT name, and names do not change. A
    successful open gives all the access that was asked for. Handles are not duplicated.
    Locks of length 0, oplocks and deletion are left out. *)
From stdpp Require Import prelude gmap.
From Verif Require Import Bytes PolicyModel WinPolicyModel.
Local Open Scope N_scope.

(** The generic rights of files (winnt.h: FILE_GENERIC_READ, _WRITE, _EXECUTE,
    FILE_ALL_ACCESS). *)
Definition generic_map (a : Z) : Z :=
  ors [a; if Z.testbit a 31 then 0x120089 else 0; if Z.testbit a 30 then 0x120116 else 0;
       if Z.testbit a 29 then 0x1200A0 else 0; if Z.testbit a 28 then 0x1F01FF else 0]%Z.
(** IoCheckShareAccess: FILE_EXECUTE or FILE_READ_DATA; FILE_WRITE_DATA or FILE_APPEND_DATA;
    DELETE. *)
Definition s_read (a : Z) : bool := Z.testbit (generic_map a) 0 || Z.testbit (generic_map a) 5.
Definition s_write (a : Z) : bool := Z.testbit (generic_map a) 1 || Z.testbit (generic_map a) 2.
Definition s_delete (a : Z) : bool := Z.testbit (generic_map a) 16.
(** Opens with none of these are neither counted nor checked. *)
Definition s_counts (a : Z) : bool := s_read a || s_write a || s_delete a.

(** A file object: whether a worker has it, the file, access and sharing. *)
Record fobj := mkFobj { fo_worker : bool; fo_file : N; fo_access : Z; fo_share : Z }.
Definition clash (e : fobj) (a sh : Z) : bool :=
  s_counts a && s_counts (fo_access e) &&
  ((s_read a && negb (Z.testbit (fo_share e) 0)) ||
   (s_write a && negb (Z.testbit (fo_share e) 1)) ||
   (s_delete a && negb (Z.testbit (fo_share e) 2)) ||
   (s_read (fo_access e) && negb (Z.testbit sh 0)) ||
   (s_write (fo_access e) && negb (Z.testbit sh 1)) ||
   (s_delete (fo_access e) && negb (Z.testbit sh 2))).

(** A byte-range lock, with the handle that has it. *)
Record rlock := mkRlock { rl_handle : N; rl_off : N; rl_len : N; rl_excl : bool }.
Record shares := mkShares { sh_objs : gmap N fobj; sh_locks : list rlock }.

Definition some_obj (P : N → fobj → bool) (m : gmap N fobj) : bool :=
  existsb (λ x, P x.1 x.2) (map_to_list m).

(** NtCreateFile of file [i] giving handle [id] (handles of all processes are told apart). *)
Definition k_create (w : bool) (i : N) (a sh : Z) (id : N) (s : shares) : shares :=
  match sh_objs s !! id with
  | Some _ => s
  | None =>
      if some_obj (λ _ e, N.eqb (fo_file e) i && clash e a sh) (sh_objs s) then s
      else mkShares (<[id := mkFobj w i a sh]> (sh_objs s)) (sh_locks s)
  end.

Definition overlap (l : rlock) (off len : N) : bool :=
  (rl_off l <? off + len) && (off <? rl_off l + rl_len l).
(** Locks on the same file that overlap. *)
Definition same_file (s : shares) (i : N) (l : rlock) : bool :=
  match sh_objs s !! rl_handle l with Some e => N.eqb (fo_file e) i | None => false end.
(** FILE_READ_DATA or FILE_WRITE_DATA *)
Definition may_lock (a : Z) : bool :=
  Z.testbit (generic_map a) 0 || Z.testbit (generic_map a) 1.
(** NtLockFile with FailImmediately *)
Definition k_lock (id off len : N) (excl : bool) (s : shares) : shares :=
  match sh_objs s !! id with
  | Some e =>
      if may_lock (fo_access e) &&
         negb (existsb (λ l, same_file s (fo_file e) l && overlap l off len &&
                             (excl || rl_excl l)) (sh_locks s))
      then mkShares (sh_objs s) (mkRlock id off len excl :: sh_locks s)
      else s
  | None => s
  end.
(** FsRtlCheckLockForReadAccess and ..WriteAccess: a read or write is refused with
    STATUS_FILE_LOCK_CONFLICT. *)
Definition io_refused (s : shares) (id off len : N) (wr : bool) : bool :=
  match sh_objs s !! id with
  | Some e =>
      existsb (λ l, same_file s (fo_file e) l && overlap l off len &&
        (if rl_excl l then negb (N.eqb (rl_handle l) id) else wr)) (sh_locks s)
  | None => true
  end.

Inductive sop :=
  | SWorker (f : file_request) (id : N)             (* the broker opens for the worker *)
  | SOther (i : N) (a sh : Z) (id : N)              (* another program opens *)
  | SLock (id off len : N) (excl : bool)            (* whoever has the handle *)
  | SUnlock (id off len : N)
  | SClose (id : N).

(** broker/src/windows/brokered_syscalls.rs:57-128: the request is evaluated and the call made when granted. *)
Definition share_step (look : str → option N) (pol : policy) (s : shares) (o : sop) : shares :=
  match o with
  | SWorker f id =>
      match (win_evaluate_request false pol (WinFileOpen f)).1 with
      | Granted =>
          match look (fr_path f) with
          | Some i => k_create true i (fr_access f) (fr_share f) id s
          | None => s
          end
      | _ => s
      end
  | SOther i a sh id => k_create false i a sh id s
  | SLock id off len excl => k_lock id off len excl s
  | SUnlock id off len =>
      mkShares (sh_objs s)
        (filter (λ l : rlock, negb (N.eqb (rl_handle l) id && N.eqb (rl_off l) off &&
                                    N.eqb (rl_len l) len) = true) (sh_locks s))
  | SClose id =>
      mkShares (delete id (sh_objs s))
        (filter (λ l : rlock, negb (N.eqb (rl_handle l) id) = true) (sh_locks s))
  end.
Definition share_run look pol (s : shares) (ops : list sop) : shares :=
  foldl (share_step look pol) s ops.
