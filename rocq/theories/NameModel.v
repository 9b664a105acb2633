(** What newfstatat(2) tells a worker about a name. broker/src/linux/seccomp.rs:8-93 allows
    the call with any arguments, so the kernel carries it out for the worker; it is not
    code of the repository. The walk is that of FsModel.v. *)
From stdpp Require Import prelude gmap.
From Verif Require Import Bytes PolicyModel LinuxPolicyModel FsModel.
Local Open Scope N_scope.

(** newfstatat(AT_FDCWD, path, _, flags) by [q], by flag bit: 8 AT_SYMLINK_NOFOLLOW. The
    answer is the object described. AT_EMPTY_PATH, other base directories and missing search
    permission are left out. *)
Definition kernel_fstatat (s : fs) (q : proc) (path : str) (flags : Z) : result N N :=
  if bool_decide (path = []) then Err ENOENT
  else
    match resolve MAX_LINKS s q (negb (Z.testbit flags 8))
            (if starts_with_byte slash path then p_root q else p_cwd q) (split slash path) with
    | Found i => match s !! i with Some _ => Ok i | None => Err ENOENT end
    | Missing _ _ => Err ENOENT
    | Stopped e => Err e
    end.
