(** Specification vocabulary for Linux policies: what a list of rules entitles a
    worker to, and what the kernel does with open flags. *)
From stdpp Require Import prelude.
From Verif Require Import Bytes PolicySpec LinuxPolicyModel.
Local Open Scope Z_scope.

Definition rule_path (r : rule) : str :=
  match r with
  | AllowFileRead p | AllowFileWrite p | AllowFileLock p _ _ _
  | AllowDirRead p | AllowDirWrite p | AllowDirLock p _ _ _ => p
  end.

Definition rule_is_dir (r : rule) : Prop :=
  match r with
  | AllowFileRead _ | AllowFileWrite _ | AllowFileLock _ _ _ _ => False
  | AllowDirRead _ | AllowDirWrite _ | AllowDirLock _ _ _ _ => True
  end.

Definition rule_gives (r : rule) (x : right) : Prop :=
  match r, x with
  | (AllowFileRead _ | AllowDirRead _), RRead => True
  | (AllowFileWrite _ | AllowDirWrite _), RWrite => True
  | (AllowFileLock _ a _ _ | AllowDirLock _ a _ _), RBlockReaders => a = true
  | (AllowFileLock _ _ a _ | AllowDirLock _ _ a _), RBlockWriters => a = true
  | (AllowFileLock _ _ _ a | AllowDirLock _ _ _ a), RBlockDeleters => a = true
  | _, _ => False
  end.

(** A file rule covers the path it names. A directory rule covers the path it
    names and everything below. *)
Definition covers (r : rule) (cs : list str) : Prop :=
  (¬ rule_is_dir r ∧ names slash (rule_path r) cs) ∨
  (rule_is_dir r ∧ ∃ anc rest, cs = anc ++ rest ∧ anc ≠ [] ∧ names slash (rule_path r) anc).

Definition entitled (h : list rule) (cs : list str) (x : right) : Prop :=
  ∃ r, r ∈ h ∧ covers r cs ∧ rule_gives r x.

(** Kernel meaning of open(2) flags, by bit number (x86_64):
    bits 0-1 access mode (0 read, 1 write, 2 read-write, 3 neither),
    6 create, 7 exclusive, 9 truncate, 10 append, 16 directory, 19 close-on-exec,
    21 path-only (all other bits but 16, 17 and 19 are then ignored). *)
Definition bit (flags : Z) (n : Z) : Prop := Z.testbit flags n = true.
Definition path_only (flags : Z) : Prop := bit flags 21.
Definition accmode (flags : Z) : Z := flags mod 4.
Definition kernel_can_read (flags : Z) : Prop :=
  ¬ path_only flags ∧ (accmode flags = 0 ∨ accmode flags = 2).
Definition kernel_can_modify (flags : Z) : Prop :=
  ¬ path_only flags ∧
  (accmode flags = 1 ∨ accmode flags = 2 ∨ bit flags 6 ∨ bit flags 9).

(** Flag bits the library accepts. *)
Definition supported_flags (flags : Z) : Prop :=
  ∀ n, 0 ≤ n → bit flags n → n ∈ [0; 1; 6; 7; 9; 10; 16; 19; 21].

(** What the library asks of the rules for given flags. *)
Definition needs_read (flags : Z) : Prop := ¬ path_only flags ∧ ¬ bit flags 0.
Definition needs_write (flags : Z) : Prop :=
  ¬ path_only flags ∧
  (bit flags 0 ∨ bit flags 1 ∨ bit flags 6 ∨ bit flags 7 ∨ bit flags 9 ∨ bit flags 10).

(** The policy meaning of a rule list, for an open request. *)
Definition should_grant (h : list rule) (path : str) (flags : Z) : Prop :=
  supported_flags flags ∧
  ∃ cs, canonical cs ∧ names slash path cs ∧
    (entitled h cs RRead ∨ entitled h cs RWrite) ∧
    (needs_read flags → entitled h cs RRead) ∧
    (needs_write flags → entitled h cs RWrite).

(** Parts of an API call history. *)
Definition rules_of (calls : list api_call) : list rule :=
  omap (λ c, match c with CallRule r => Some r | _ => None end) calls.
Definition callbacks_of (calls : list api_call) : list N :=
  omap (λ c, match c with CallAddLogCallback cb => Some cb | _ => None end) calls.
(** Handles that were accepted: the kernel said they are inheritable. *)
Definition accepted_handle (calls : list api_call) (raw : N) : Prop :=
  CallInherit raw (PolicyModel.Ok true) ∈ calls.
