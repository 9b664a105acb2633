(** Independent notions for the codec properties. *)
From stdpp Require Import prelude gmap.
From Verif Require Import Bytes PolicyModel PostcardModel.
Local Open Scope N_scope.

(** Unicode scalar values and their UTF-8 form (RFC 3629). *)
Definition scalar (c : N) : Prop := c < 0xD800 ∨ (0xE000 ≤ c ∧ c < 0x110000).
Definition utf8_encode (c : N) : str :=
  if c <? 0x80 then [byte_of_N c]
  else if c <? 0x800 then
    [byte_of_N (0xC0 + c / 64); byte_of_N (0x80 + c mod 64)]
  else if c <? 0x10000 then
    [byte_of_N (0xE0 + c / 4096); byte_of_N (0x80 + c / 64 mod 64); byte_of_N (0x80 + c mod 64)]
  else
    [byte_of_N (0xF0 + c / 262144); byte_of_N (0x80 + c / 4096 mod 64);
     byte_of_N (0x80 + c / 64 mod 64); byte_of_N (0x80 + c mod 64)].
Definition is_utf8 (s : str) : Prop :=
  ∃ cs, Forall scalar cs ∧ s = concat (map utf8_encode cs).

(** Values that the Rust types can hold. *)
Definition is_i32 (z : Z) : Prop := (- 2 ^ 31 ≤ z < 2 ^ 31)%Z.
Definition is_i64 (z : Z) : Prop := (- 2 ^ 63 ≤ z < 2 ^ 63)%Z.
Definition is_usize (n : nat) : Prop := N.of_nat n < 2 ^ 64.
Definition is_rust_str (s : str) : Prop := is_utf8 s ∧ is_usize (length s).

Definition request_ok (m : ipc_request) : Prop :=
  match m with
  | ReqInitialization => True
  | ReqOpenFile path flags => is_rust_str path ∧ is_i32 flags
  | ReqSyscall nb args ip => is_i64 nb ∧ length args = 6%nat ∧ Forall is_i64 args ∧ is_i64 ip
  end.

(** An enumeration of the three maps of a policy: a hash map's iterator yields every
    entry once, in any order. *)
Definition enumerates (p : policy) (o : policy_order) : Prop :=
  o_file o ≡ₚ map_to_list (file_access p) ∧
  o_dir o ≡ₚ map_to_list (dir_access p) ∧
  o_reg o ≡ₚ map_to_list (regkey_access p).
