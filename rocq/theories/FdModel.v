(** Linux descriptor tables (kernel model) and ipc/src/linux/handle.rs. *)
From stdpp Require Import prelude gmap.
From Verif Require Import Bytes PolicyModel.
Local Open Scope N_scope.

(** An open file description is an opaque number. [fd_flags] is what
    [fcntl(F_GETFD)] returns; bit 0 is [FD_CLOEXEC]. *)
Record fdent := mkFd { fd_file : N; fd_flags : Z }.
Global Instance fdent_eq_dec : EqDecision fdent.
Proof. solve_decision. Defined.
Notation fdtab := (gmap N fdent).

Definition FD_CLOEXEC : Z := 1.

(** Kernel: new descriptors get the lowest free number. At most [size t] numbers
    are taken, so the search ends within [S (size t)] steps
    ([lowest_free_spec] in FdProofs.v). *)
Fixpoint free_from (fuel : nat) (n : N) (t : fdtab) : N :=
  match fuel with
  | O => n
  | S f => match t !! n with None => n | Some _ => free_from f (n + 1) t end
  end.
Definition lowest_free (t : fdtab) : N := free_from (size t) 0 t.

(** Kernel: allocate a descriptor below the RLIMIT_NOFILE limit. *)
Definition fd_install (limit : N) (e : fdent) (t : fdtab) : option (N * fdtab) :=
  let n := lowest_free t in
  if n <? limit then Some (n, <[n := e]> t) else None.

(** dup(2): same description, flags cleared. *)
Definition sys_dup (limit : N) (fd : N) (t : fdtab) : option (N * fdtab) :=
  match t !! fd with
  | None => None
  | Some e => fd_install limit (mkFd (fd_file e) 0) t
  end.

(** close(2): [None] is EBADF. *)
Definition sys_close (fd : N) (t : fdtab) : option fdtab :=
  match t !! fd with None => None | Some _ => Some (delete fd t) end.

(** fcntl(F_GETFD) and fcntl(F_SETFD). *)
Definition sys_getfd (fd : N) (t : fdtab) : option Z := fd_flags <$> t !! fd.
Definition sys_setfd (fd : N) (flags : Z) (t : fdtab) : option fdtab :=
  match t !! fd with
  | None => None
  | Some e => Some (<[fd := mkFd (fd_file e) flags]> t)
  end.

(** ipc/src/linux/handle.rs:14-24. A u64 that does not fit a non-negative c_int
    is refused. *)
Definition handle_from_raw (raw : N) : option N :=
  if raw <? 2 ^ 31 then Some raw else None.

(** What an operation of the library can end in. *)
Inductive outcome (A : Type) :=
  | Done (a : A)
  | Failed            (* an [Err] value was returned *)
  | Panicked.
Arguments Done {A} a.
Arguments Failed {A}.
Arguments Panicked {A}.

(** ipc/src/linux/handle.rs:26-51 *)
Definition handle_set_inheritable (h : N) (allow : bool) (t : fdtab) : outcome fdtab :=
  match sys_getfd h t with
  | None => Failed
  | Some cur =>
      match sys_setfd h (Z.lor (Z.land cur (Z.lnot FD_CLOEXEC))
                               (if allow then 0%Z else FD_CLOEXEC)) t with
      | None => Failed
      | Some t' => Done t'
      end
  end.

(** ipc/src/linux/handle.rs:53-64 *)
Definition handle_is_inheritable (h : N) (t : fdtab) : outcome bool :=
  match sys_getfd h t with
  | None => Failed
  | Some cur => Done (Z.land cur FD_CLOEXEC =? 0)%Z
  end.

(** ipc/src/linux/handle.rs:78-90, a debug build (a release build only logs). *)
Definition handle_drop (h : N) (t : fdtab) : outcome fdtab :=
  match sys_close h t with None => Panicked | Some t' => Done t' end.

(** ipc/src/linux/handle.rs:92-104 *)
Definition handle_clone (limit : N) (h : N) (t : fdtab) : outcome (N * fdtab) :=
  match sys_dup limit h t with
  | None => Panicked
  | Some (n, t') =>
      match handle_from_raw n with None => Panicked | Some h' => Done (h', t') end
  end.

(** A program using handles. [live] are the [Handle] values it owns (their
    descriptor numbers), [raws] the descriptors it took out with [into_raw] and is
    responsible for. *)
Record hstate := mkHs { hs_tab : fdtab; hs_live : list N; hs_raws : list N }.

Inductive hop :=
  | OpOpen (file : N) (flags : Z)  (* a kernel call returns a descriptor, wrapped by from_raw *)
  | OpFromRaw (i : nat)            (* from_raw on the i-th raw descriptor *)
  | OpIntoRaw (i : nat)            (* ipc/src/linux/handle.rs:70-75 on the i-th handle *)
  | OpClone (i : nat)
  | OpDrop (i : nat)
  | OpSetInheritable (i : nat) (allow : bool)
  | OpIsInheritable (i : nat).

(** One operation. Operations on an index that does not exist do nothing (Rust's
    ownership makes them impossible). *)
Definition hstep (limit : N) (o : hop) (s : hstate) : outcome hstate :=
  let t := hs_tab s in
  match o with
  | OpOpen file flags =>
      match fd_install limit (mkFd file flags) t with
      | None => Done s
      | Some (n, t') =>
          match handle_from_raw n with
          | None => Failed
          | Some h => Done (mkHs t' (h :: hs_live s) (hs_raws s))
          end
      end
  | OpFromRaw i =>
      match hs_raws s !! i with
      | None => Done s
      | Some n =>
          match handle_from_raw n with
          | None => Failed
          | Some h => Done (mkHs t (h :: hs_live s) (delete i (hs_raws s)))
          end
      end
  | OpIntoRaw i =>
      match hs_live s !! i with
      | None => Done s
      | Some h => Done (mkHs t (delete i (hs_live s)) (h :: hs_raws s))
      end
  | OpClone i =>
      match hs_live s !! i with
      | None => Done s
      | Some h =>
          match handle_clone limit h t with
          | Done (h', t') => Done (mkHs t' (h' :: hs_live s) (hs_raws s))
          | Failed => Failed
          | Panicked => Panicked
          end
      end
  | OpDrop i =>
      match hs_live s !! i with
      | None => Done s
      | Some h =>
          match handle_drop h t with
          | Done t' => Done (mkHs t' (delete i (hs_live s)) (hs_raws s))
          | Failed => Failed
          | Panicked => Panicked
          end
      end
  | OpSetInheritable i b =>
      match hs_live s !! i with
      | None => Done s
      | Some h =>
          match handle_set_inheritable h b t with
          | Done t' => Done (mkHs t' (hs_live s) (hs_raws s))
          | Failed => Failed
          | Panicked => Panicked
          end
      end
  | OpIsInheritable i =>
      match hs_live s !! i with
      | None => Done s
      | Some h =>
          match handle_is_inheritable h t with
          | Done _ => Done s
          | Failed => Failed
          | Panicked => Panicked
          end
      end
  end.

Fixpoint hrun (limit : N) (os : list hop) (s : hstate) : outcome hstate :=
  match os with
  | [] => Done s
  | o :: os =>
      match hstep limit o s with
      | Done s' => hrun limit os s'
      | Failed => Failed
      | Panicked => Panicked
      end
  end.
