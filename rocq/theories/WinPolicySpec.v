(** Specification vocabulary for Windows policies: what a history of API calls entitles
    a worker to, and which rights an NT request stands for, by bit number. *)
From stdpp Require Import prelude.
From Verif Require Import Bytes PolicySpec LinuxPolicyModel LinuxPolicySpec WinPolicyModel.
Local Open Scope Z_scope.

(** A component list usable as an NT path. *)
Definition well_formed (cs : list str) : Prop :=
  cs ≠ [] ∧ Forall (λ c, c ≠ [] ∧ backslash ∉ c) cs.

(** [X:\...] *)
Definition drive_absolute (p : str) : Prop :=
  ∃ d rest, p = d :: lit ":\" ++ rest.
(** The NT form of a drive-absolute path. *)
Definition nt_form (p : str) : str := lit "\??\" ++ p.

(** A file rule covers the path it names, a directory rule also everything below. *)
Definition win_covers (r : rule) (full : option str) (cs : list str) : Prop :=
  let abs := default (rule_path r) full in
  drive_absolute abs ∧
  ((¬ rule_is_dir r ∧ names backslash (nt_form abs) cs) ∨
   (rule_is_dir r ∧
      ∃ anc rest, cs = anc ++ rest ∧ anc ≠ [] ∧ names backslash (nt_form abs) anc)).
Definition win_entitled (calls : list win_call) (cs : list str) (x : right) : Prop :=
  ∃ r full, WinRule r full ∈ calls ∧ win_covers r full cs ∧ rule_gives r x.

Definition only_bits (l : list Z) (w : Z) : Prop := ∀ n, 0 ≤ n → bit w n → n ∈ l.
Definition some_bit (l : list Z) (w : Z) : Prop := ∃ n, n ∈ l ∧ bit w n.

(** Access mask bits of files: 0 read data, 1 write data, 2 append, 3 read attributes
    (extended), 4 write attributes (extended), 7 read attributes, 8 write attributes,
    16 delete, 17 read security, 18 write security, 19 write owner, 20 synchronise,
    28 everything, 30 generic write, 31 generic read. *)
Definition file_supported (f : file_request) : Prop :=
  only_bits [0; 1; 2; 3; 4; 7; 8; 16; 17; 18; 19; 20; 28; 30; 31] (fr_access f) ∧
  only_bits [7; 20; 25; 26; 27; 28; 29; 31] (fr_attributes f) ∧
  bit (fr_options f) 21 ∧
  0 ≤ fr_disposition f ≤ 5.
Definition file_reads (f : file_request) : Prop := some_bit [0; 3; 7; 28; 31] (fr_access f).
(** Dispositions: 0 supersede, 1 open, 2 create, 3 open or create, 4 overwrite,
    5 overwrite or create. All but 1 can change the file system. Option bit 12 is
    delete-on-close. *)
Definition file_writes (f : file_request) : Prop :=
  some_bit [1; 2; 4; 8; 16; 18; 19; 28; 30] (fr_access f) ∨ fr_disposition f ≠ 1 ∨
  bit (fr_options f) 12 ∨ fr_ea f ≠ [].
(** What the library asks for reading: nothing when the disposition leaves no old
    contents. *)
Definition file_needs_read (f : file_request) : Prop :=
  file_reads f ∧ (fr_disposition f = 1 ∨ fr_disposition f = 3).
(** Sharing bits: 0 read, 1 write, 2 delete. *)
Definition file_needs (f : file_request) (x : right) : Prop :=
  match x with
  | RRead => file_needs_read f
  | RWrite => file_writes f
  | RBlockReaders => ¬ bit (fr_share f) 0
  | RBlockWriters => ¬ bit (fr_share f) 1
  | RBlockDeleters => ¬ bit (fr_share f) 2
  end.
Definition win_should_grant (calls : list win_call) (f : file_request) (cs : list str) : Prop :=
  file_supported f ∧ (∃ x, win_entitled calls cs x) ∧
  ∀ x, file_needs f x → win_entitled calls cs x.

(* ---------------------------------------------------------------- registry *)

(** Root keys and the components of their NT names. *)
Definition root_keys (sid : str) : list (str * list str) :=
  [(lit "HKEY_CURRENT_USER", [lit "REGISTRY"; lit "USER"; sid]);
   (lit "HKEY_USERS", [lit "REGISTRY"; lit "USER"]);
   (lit "HKEY_LOCAL_MACHINE", [lit "REGISTRY"; lit "MACHINE"]);
   (lit "HKEY_CLASSES_ROOT", [lit "REGISTRY"; lit "MACHINE"; lit "SOFTWARE"; lit "Classes"]);
   (lit "HKEY_CURRENT_CONFIG",
     [lit "REGISTRY"; lit "MACHINE"; lit "SYSTEM"; lit "CurrentControlSet";
      lit "Hardware Profiles"; lit "Current"])].
(** [path], a root key followed by subkeys, is the key with the NT components [cs]. *)
Definition key_names (sid path : str) (cs : list str) : Prop :=
  ∃ root nt sub rest, (root, nt) ∈ root_keys sid ∧ path = root ++ rest ∧
    names backslash rest sub ∧ cs = nt ++ sub.
(** [path] is one of the root keys alone or with a separator and anything behind. *)
Definition root_key_path (sid path : str) : Prop :=
  ∃ root nt rest, (root, nt) ∈ root_keys sid ∧ path = root ++ rest ∧
    (rest = [] ∨ ∃ t, rest = backslash :: t).

(** Calls with a user identifier that is one name, and whose key path, if it begins like
    a root key, is that root key or below it. *)
Definition good_reg_call (c : win_call) : Prop :=
  match c with
  | WinRegRead path sid | WinRegWrite path sid =>
      (sid ≠ [] ∧ backslash ∉ sid) ∧
      ((∃ root, root ∈ (root_keys sid).*1 ∧ starts_with root path = true) →
       root_key_path sid path)
  | _ => True
  end.

Inductive reg_right := RegRead | RegWrite.
Definition reg_entitled (calls : list win_call) (cs : list str) (x : reg_right) : Prop :=
  ∃ path sid anc rest,
    (match x with RegRead => WinRegRead path sid | RegWrite => WinRegWrite path sid end) ∈ calls ∧
    cs = anc ++ rest ∧ key_names sid path anc.

(** Access mask bits of keys: 0 query, 1 set, 2 create subkey, 3 enumerate, 4 notify,
    8 and 9 which registry view, 16 delete, 17 read security, 18 write security,
    19 write owner, 20 synchronise. Option bit 0: volatile. *)
Definition key_supported (desired options : Z) : Prop :=
  only_bits [0; 1; 2; 3; 4; 8; 9; 16; 17; 18; 19; 20] desired ∧ only_bits [0] options.
Definition key_reads (desired : Z) : Prop := some_bit [0; 3] desired.
Definition key_writes (desired : Z) (do_create : bool) : Prop :=
  some_bit [1; 2; 16; 18; 19] desired ∨ do_create = true.
(** Bits that only observe the key: notify, view, read security, synchronise. *)
Definition key_harmless (desired : Z) : Prop := some_bit [4; 8; 9; 17; 20] desired.
Definition reg_needs (desired : Z) (do_create : bool) (x : reg_right) : Prop :=
  match x with
  | RegRead => key_reads desired
  | RegWrite => key_writes desired do_create
  end.
Definition reg_should_grant (calls : list win_call) (cs : list str) (desired options : Z)
  (do_create : bool) : Prop :=
  key_supported desired options ∧ (∃ x, reg_entitled calls cs x) ∧
  ∀ x, reg_needs desired do_create x → reg_entitled calls cs x.
