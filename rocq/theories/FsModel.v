(** What open(2) opens: the kernel's side of broker/src/linux/brokered_syscalls.rs:20,
    which BrokerModel leaves to [be_open]. This is path_resolution(7) with symbolic links,
    and the links of /proc that lead to another place for every process. It is not code of
    the repository. *)
From stdpp Require Import prelude gmap.
From Verif Require Import Bytes PolicyModel LinuxPolicyModel.
Local Open Scope N_scope.

(** Where a link leads: to a path, or straight to an object (as /proc/self/fd/3 does). *)
Inductive target := ToPath (p : str) | ToNode (i : N).
(** Objects by number. What a link leads to may depend on who follows it. *)
Inductive node :=
  | NDir (entries : gmap str N) (parent : N)
  | NFile
  | NLink (to : N → target).
Notation fs := (gmap N node).
(** A process: its number, root directory and working directory. *)
Record proc := mkProc { p_id : N; p_root : N; p_cwd : N }.

Definition ENOENT : N := 2.
Definition EEXIST : N := 17.
Definition ENOTDIR : N := 20.
Definition ELOOP : N := 40.

(** The end of a walk: an object, or a free name in a directory. *)
Inductive walked := Found (i : N) | Missing (dir : N) (name : str) | Stopped (errno : N).

(** path_resolution(7). [follow] says what becomes of a link at the very end; at most
    [links] links are followed. *)
Fixpoint resolve (links : nat) (s : fs) (q : proc) (follow : bool) : N → list str → walked :=
  fix walk (cur : N) (cs : list str) : walked :=
    match cs with
    | [] => Found cur
    | c :: cs =>
        match s !! cur with
        | Some (NDir entries parent) =>
            if bool_decide (c = [] ∨ c = lit ".") then walk cur cs
            else if bool_decide (c = lit "..") then
              walk (if cur =? p_root q then cur else parent) cs
            else
              match entries !! c with
              | None => if bool_decide (cs = []) then Missing cur c else Stopped ENOENT
              | Some j =>
                  match s !! j with
                  | Some (NLink to) =>
                      if bool_decide (cs = []) && negb follow then Found j
                      else
                        match links with
                        | O => Stopped ELOOP
                        | S links =>
                            match to (p_id q) with
                            | ToNode k => resolve links s q follow k cs
                            | ToPath p =>
                                resolve links s q follow
                                  (if starts_with_byte slash p then p_root q else cur)
                                  (split slash p ++ cs)
                            end
                        end
                  | _ => walk j cs
                  end
              end
        | Some _ => Stopped ENOTDIR
        | None => Stopped ENOENT
        end
    end.

(** What was opened: something that was there, or a new file. *)
Inductive opened := Existing (i : N) | New (dir : N) (name : str).

(** open(2) by flag bits: 6 create, 7 exclusive, 16 directory, 17 no-follow, 21 path-only
    (6 and 7 are then ignored). Permissions and the other reasons for a refusal are left out. *)
Definition open_within (links : nat) (s : fs) (q : proc) (path : str) (flags : Z)
  : result opened N :=
  let create := Z.testbit flags 6 && negb (Z.testbit flags 21) in
  let exclusive := create && Z.testbit flags 7 in
  match resolve links s q (negb (Z.testbit flags 17 || exclusive))
          (if starts_with_byte slash path then p_root q else p_cwd q) (split slash path) with
  | Stopped e => Err e
  | Missing d c => if create then Ok (New d c) else Err ENOENT
  | Found i =>
      if exclusive then Err EEXIST
      else
        match s !! i with
        | Some (NDir _ _) => Ok (Existing i)
        | Some NFile => if Z.testbit flags 16 then Err ENOTDIR else Ok (Existing i)
        | Some (NLink _) => if Z.testbit flags 21 then Ok (Existing i) else Err ELOOP
        | None => Err ENOENT
        end
  end.

(** MAXSYMLINKS of the kernel. *)
Definition MAX_LINKS : nat := 40.
Definition kernel_open : fs → proc → str → Z → result opened N := open_within MAX_LINKS.
