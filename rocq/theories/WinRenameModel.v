(** Model of how files come and go under their names on Windows while a worker runs: the
    broker's check of a request (WinPolicyModel.v, policy/src/windows/policy.rs:121-241), its
    NtCreateFile (broker/src/windows/brokered_syscalls.rs:57-128) whose handle goes to the
    worker with the access it asked for (broker/src/windows/ipc_loop.rs:51-72), and what the
    worker then does with the handle by itself: NtSetInformationFile is not among the
    functions the worker library redirects (worker/src/windows/lockdown.rs:763-769) and NT
    checks it against the access of the handle only (FileRenameInformation and
    FileDispositionInformation need DELETE).

    A rename here takes a new last name and no root directory: renames into other
    directories and renames over existing files open the target with the token of the
    caller, which is taken to have no rights of its own. Names are compared exactly; there are no reparse
    points, streams, short names, hard links or opens by identifier (C149). NT refuses some
    of the steps (directories with open files below, share access, read-only files); here
    they succeed. *)
From stdpp Require Import prelude.
From Verif Require Import Bytes PolicyModel WinPolicyModel WinShareModel.
Local Open Scope N_scope.

(** The places of a volume: the components of the NT name and the file or directory there. *)
Notation place := (list str).
Notation tree := (list (place * N)).
Fixpoint at_place (t : tree) (cs : place) : option N :=
  match t with
  | [] => None
  | (p, i) :: t => if bool_decide (p = cs) then Some i else at_place t cs
  end.
Fixpoint place_of (t : tree) (i : N) : option place :=
  match t with
  | [] => None
  | (p, j) :: t => if N.eqb j i then Some p else place_of t i
  end.
(** The part of [cs] behind [d]. *)
Fixpoint below (d cs : place) : option place :=
  match d, cs with
  | [], _ => Some cs
  | a :: d, b :: cs => if bool_decide (a = b) then below d cs else None
  | _ :: _, [] => None
  end.

(** The object manager's reading of a name: components between separators, one separator
    at the end left out. *)
Definition no_tail (l : list str) : list str :=
  match last l with Some [] => removelast l | _ => l end.
Definition some_name (x : str) : bool := match x with [] => false | _ => true end.
Definition good_comp (x : str) : bool := some_name x && negb (bool_decide (backslash ∈ x)).
Definition comps (path : str) : option place :=
  match path with
  | c :: path =>
      if bool_decide (c = backslash) then
        let cs := no_tail (split backslash path) in
        if forallb some_name cs && negb (bool_decide (cs = []))
        then Some cs else None
      else None
  | [] => None
  end.

(** The volume, the worker's handles (file and access), and the next number of a file. *)
Record rstate := mkR { r_tree : tree; r_handles : list (N * Z); r_next : N }.

(** Moving [d] and what is below to [d']. *)
Definition moved (d d' : place) (x : place * N) : place * N :=
  match below d x.1 with Some rest => (d' ++ rest, x.2) | None => x end.
(** Nothing is at a place or below. *)
Definition free_place (t : tree) (d : place) : bool :=
  forallb (λ x : place * N, match below d x.1 with Some _ => false | None => true end) t.
(** Nothing is below a place. *)
Definition empty_dir (t : tree) (d : place) : bool :=
  forallb (λ x : place * N, match below d x.1 with Some (_ :: _) => false | _ => true end) t.

(** brokered_syscalls.rs:57-128: FILE_OPEN and FILE_OVERWRITE need the file,
    FILE_CREATE needs it not to be there. *)
Definition k_open (f : file_request) (cs : place) (s : rstate) : rstate :=
  match at_place (r_tree s) cs with
  | Some i =>
      if Z.eqb (fr_disposition f) 2 then s
      else mkR (r_tree s) ((i, fr_access f) :: r_handles s) (r_next s)
  | None =>
      if Z.eqb (fr_disposition f) 1 || Z.eqb (fr_disposition f) 4 then s
      else mkR ((cs, r_next s) :: r_tree s) ((r_next s, fr_access f) :: r_handles s)
             (r_next s + 1)
  end.
(** policy.rs:121-241 in front of it *)
Definition w_open (pol : policy) (f : file_request) (s : rstate) : rstate :=
  match (win_evaluate_request false pol (WinFileOpen f)).1, comps (fr_path f) with
  | Granted, Some cs => k_open f cs s
  | _, _ => s
  end.
(** FileRenameInformation: not of the two components in front of the directories of a volume,
    and to a free name. *)
Definition k_rename (h : nat) (new : str) (s : rstate) : rstate :=
  match r_handles s !! h with
  | Some (i, a) =>
      match place_of (r_tree s) i with
      | Some d =>
          let d' := removelast d ++ [new] in
          if s_delete a && (3 <=? N.of_nat (length d)) &&
             good_comp new && free_place (r_tree s) d'
          then mkR (map (moved d d') (r_tree s)) (r_handles s) (r_next s)
          else s
      | None => s
      end
  | None => s
  end.
(** FileDispositionInformation, and the handle closed *)
Definition k_delete (h : nat) (s : rstate) : rstate :=
  match r_handles s !! h with
  | Some (i, a) =>
      match place_of (r_tree s) i with
      | Some d =>
          if s_delete a && empty_dir (r_tree s) d
          then mkR (List.filter (λ x : place * N, negb (N.eqb x.2 i)) (r_tree s))
                 (delete h (r_handles s)) (r_next s)
          else s
      | None => s
      end
  | None => s
  end.

Inductive rop :=
  | ROpen (f : file_request)
  | RRename (h : nat) (new : str)
  | RDelete (h : nat)
  | RClose (h : nat)
  (* other programs make and remove files *)
  | OMake (cs : place)
  | ORemove (cs : place).
Definition rstep (pol : policy) (s : rstate) (o : rop) : rstate :=
  match o with
  | ROpen f => w_open pol f s
  | RRename h new => k_rename h new s
  | RDelete h => k_delete h s
  | RClose h => mkR (r_tree s) (delete h (r_handles s)) (r_next s)
  | OMake cs =>
      match at_place (r_tree s) cs with
      | Some _ => s
      | None =>
          if forallb good_comp cs && negb (bool_decide (cs = []))
          then mkR ((cs, r_next s) :: r_tree s) (r_handles s) (r_next s + 1)
          else s
      end
  | ORemove cs =>
      mkR (List.filter (λ x : place * N, negb (bool_decide (x.1 = cs))) (r_tree s))
        (r_handles s) (r_next s)
  end.
Definition rrun (pol : policy) (s : rstate) (ops : list rop) : rstate :=
  foldl (rstep pol) s ops.
