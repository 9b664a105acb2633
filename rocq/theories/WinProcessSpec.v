(** Specification vocabulary for starting Windows workers. *)
From stdpp Require Import prelude gmap.
From Coq Require Import Strings.Byte.
From Verif Require Import Bytes WinProcessModel.

(* ---------------------------------------------------------------- command lines *)

(** How the Microsoft C runtime splits a command line. Blanks separate arguments outside
    quotes; quotes group; 2n backslashes before a quote stand for n backslashes, one more
    makes the quote literal; two quotes inside quotes are a literal quote. [cur] is the
    argument read so far, [slashes] the backslashes just read. *)
Definition blank (b : byte) : bool := bool_decide (b = x20) || bool_decide (b = x09).
Fixpoint split_args (s : str) (quoted : bool) (slashes : nat) (cur : option str) : list str :=
  match s with
  | [] => match cur with None => [] | Some c => [c ++ replicate slashes x5c] end
  | b :: s =>
      let c := default [] cur in
      if decide (b = x5c) then split_args s quoted (S slashes) (Some c)
      else if decide (b = x22) then
        let c := c ++ replicate (slashes / 2) x5c in
        if Nat.odd slashes then split_args s quoted 0 (Some (c ++ [x22]))
        else if quoted then
          match s with
          | b2 :: s2 => if decide (b2 = x22) then split_args s2 true 0 (Some (c ++ [x22]))
                        else split_args s false 0 (Some c)
          | [] => split_args s false 0 (Some c)
          end
        else split_args s true 0 (Some c)
      else if blank b && negb quoted then
        match cur with
        | None => split_args s false 0 None
        | Some c => (c ++ replicate slashes x5c) :: split_args s false 0 None
        end
      else split_args s quoted 0 (Some (c ++ replicate slashes x5c ++ [b]))
  end.
(** The program name: quotes group, backslashes mean nothing. *)
Fixpoint split_program (s : str) (quoted : bool) (cur : str) : str * str :=
  match s with
  | [] => (cur, [])
  | b :: s =>
      if decide (b = x22) then split_program s (negb quoted) cur
      else if blank b && negb quoted then (cur, s)
      else split_program s quoted (cur ++ [b])
  end.
Definition split_cmdline (s : str) : list str :=
  let '(prog, rest) := split_program s false [] in prog :: split_args rest false 0 None.

(** Text of a C string. *)
Definition c_string (s : str) : Prop := x00 ∉ s.

(** Arguments that need no quoting beyond what the library does. *)
Definition simple_arg (a : str) : Prop :=
  a ≠ [] ∧ x22 ∉ a ∧ x09 ∉ a ∧ (x20 ∈ a → last a ≠ Some x5c).

(* ---------------------------------------------------------------- environment blocks *)

(** CreateProcess reads the strings [l] from [block]: the first empty one ends it. *)
Definition block_holds (block : str) (l : list str) : Prop :=
  Forall (λ s, s ≠ [] ∧ x00 ∉ s) l ∧
  ∃ junk, block = concat (map (λ s, s ++ [x00]) l) ++ x00 :: junk.
Definition variable (name val : str) : str := name ++ [x3d] ++ val.
Definition configured (envp : list str) (name : str) : Prop := ∃ val, variable name val ∈ envp.

(* ---------------------------------------------------------------- attributes *)

Inductive kind := KContainer | KLess | KHandles | KChild | KMitigations.
Definition kind_of (a : win_attr) : kind :=
  match a with
  | ACapabilities _ => KContainer
  | ALessPrivileged _ => KLess
  | AHandles _ => KHandles
  | AChildPolicy _ => KChild
  | AMitigations _ => KMitigations
  end.
(** The OS said no to hardening of kind [k]: to the attribute, or to the profile it needs. *)
Definition os_refused (supported : bool) (tr : list pevent) (k : kind) : Prop :=
  (∃ a, kind_of a = k ∧ PSet a false ∈ tr) ∨
  ((k = KContainer ∨ k = KLess) ∧
   (supported = false ∨ ∃ name hr, hr ≠ 0%Z ∧ PProfile name hr ∈ tr)) ∨
  (k = KLess ∧ ∃ a, kind_of a = KContainer ∧ PSet a false ∈ tr).

(** Handles a process gets: the listed ones, or all that are inheritable. *)
Definition inherited (inheritable : list N) (c : cp_args) (h : N) : Prop :=
  (∃ l, AHandles l ∈ cp_attrs c ∧ h ∈ l) ∨
  ((∀ l, AHandles l ∉ cp_attrs c) ∧ h ∈ inheritable).

(** AppContainer profiles that exist after a trace. *)
Definition profiles (tr : list pevent) (X : gset str) : gset str :=
  foldl (λ X e, match e with
                | PProfile n hr => if (hr =? 0)%Z then X ∪ {[ n ]} else X
                | PUnprofile n => X ∖ {[ n ]}
                | _ => X
                end) X tr.

Definition is_list (e : pevent) : Prop := match e with PList _ => True | _ => False end.
Global Instance is_list_dec e : Decision (is_list e).
Proof. destruct e; simpl; apply _. Defined.
(** How many attribute lists were allocated, that is, passes made. *)
Definition lists (tr : list pevent) : nat := length (filter is_list tr).

(** Mitigations asked for: DEP, SEHOP, forced relocation (also of images without
    relocations), heap termination, bottom-up and high-entropy ASLR, no win32k system calls
    (winnt.h). *)
Definition MITIGATIONS : list N :=
  [1; 2 ^ 2; 1 * 2 ^ 8; 3 * 2 ^ 8; 2 ^ 12; 2 ^ 16; 2 ^ 20; 2 ^ 28]%N.
Definition full_strength (a : win_attr) : Prop :=
  match a with
  | ACapabilities _ | AHandles _ => True
  | ALessPrivileged v => v = 1%N                      (* OPT_OUT *)
  | AChildPolicy v => v = 1%N                         (* RESTRICTED *)
  | AMitigations v => ∀ m, m ∈ MITIGATIONS → N.land v m = m
  end.
