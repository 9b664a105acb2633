(** Model of the message encoding: ipc/src/channel.rs:29-77 on top of postcard 1.0
    (documented wire format; the crate itself is not in /repo). Decoding errors are
    not told apart: [None]. *)
From stdpp Require Import prelude gmap.
From Coq Require Import Strings.Byte.
From Verif Require Import Bytes PolicyModel.
Local Open Scope N_scope.

Definition parser (A : Type) := str → option (A * str).

(** postcard varint: 7 bits per byte, least significant group first, high bit set
    on all bytes but the last. [max] is the largest number of bytes for the type:
    5 for u32, 10 for u64. *)
Fixpoint enc_varint (max : nat) (n : N) : str :=
  match max with
  | O => []
  | S m =>
      if n <? 128 then [byte_of_N n]
      else byte_of_N (n mod 128 + 128) :: enc_varint m (n / 128)
  end.

(** postcard [try_take_varint_*]: [last] is the largest value of the last possible
    byte (15 for u32, 1 for u64). Non-shortest forms are accepted. *)
Fixpoint dec_varint (max : nat) (last : N) (s : str) : option (N * str) :=
  match max with
  | O => None
  | S m =>
      match s with
      | [] => None
      | c :: r =>
          let b := Byte.to_N c in
          if b <? 128 then
            if (match m with O => last <? b | S _ => false end) then None
            else Some (b, r)
          else
            match dec_varint m last r with
            | Some (hi, r') => Some ((b - 128) + 128 * hi, r')
            | None => None
            end
      end
  end.

Definition enc_u32 (n : N) : str := enc_varint 5 n.
Definition dec_u32 : parser N := dec_varint 5 15.
Definition enc_u64 (n : N) : str := enc_varint 10 n.
Definition dec_u64 : parser N := dec_varint 10 1.

(** postcard zigzag: 0, -1, 1, -2, ... become 0, 1, 2, 3, ... *)
Definition zigzag (z : Z) : N := if (0 <=? z)%Z then Z.to_N (2 * z) else Z.to_N (-2 * z - 1).
Definition unzigzag (n : N) : Z :=
  if N.even n then Z.of_N (n / 2) else (- Z.of_N (n / 2) - 1)%Z.

Definition enc_i32 (z : Z) : str := enc_u32 (zigzag z).
Definition dec_i32 : parser Z := fun s =>
  match dec_u32 s with Some (n, r) => Some (unzigzag n, r) | None => None end.
Definition enc_i64 (z : Z) : str := enc_u64 (zigzag z).
Definition dec_i64 : parser Z := fun s =>
  match dec_u64 s with Some (n, r) => Some (unzigzag n, r) | None => None end.

(** bool: one byte 0 or 1. *)
Definition enc_bool (b : bool) : str := [if b then x01 else x00].
Definition dec_bool : parser bool := fun s =>
  match s with
  | x00 :: r => Some (false, r)
  | x01 :: r => Some (true, r)
  | _ => None
  end.

(** Byte strings: length as varint, then the bytes. *)
Definition enc_bytes (b : str) : str := enc_u64 (N.of_nat (length b)) ++ b.
Definition take_n (n : N) : parser str := fun s =>
  if n <=? N.of_nat (length s) then Some (take (N.to_nat n) s, drop (N.to_nat n) s)
  else None.
Definition dec_bytes : parser str := fun s =>
  match dec_u64 s with Some (n, r) => take_n n r | None => None end.

(** Rust core [str::from_utf8]: Unicode table 3-7. *)
Definition in_range (lo hi : N) (c : byte) : bool :=
  (lo <=? Byte.to_N c) && (Byte.to_N c <=? hi).
(** One well-formed scalar value at the head of [s]: the number of bytes it takes. *)
Definition utf8_head (s : str) : option nat :=
  match s with
  | [] => None
  | a :: r =>
      if in_range 0x00 0x7F a then Some 1%nat
      else if in_range 0xC2 0xDF a then
        match r with
        | b :: _ => if in_range 0x80 0xBF b then Some 2%nat else None
        | _ => None
        end
      else if in_range 0xE0 0xEF a then
        match r with
        | b :: c :: _ =>
            if (if in_range 0xE0 0xE0 a then in_range 0xA0 0xBF b
                else if in_range 0xED 0xED a then in_range 0x80 0x9F b
                else in_range 0x80 0xBF b) && in_range 0x80 0xBF c
            then Some 3%nat else None
        | _ => None
        end
      else if in_range 0xF0 0xF4 a then
        match r with
        | b :: c :: d :: _ =>
            if (if in_range 0xF0 0xF0 a then in_range 0x90 0xBF b
                else if in_range 0xF4 0xF4 a then in_range 0x80 0x8F b
                else in_range 0x80 0xBF b) && in_range 0x80 0xBF c && in_range 0x80 0xBF d
            then Some 4%nat else None
        | _ => None
        end
      else None
  end.
Fixpoint utf8_valid_aux (fuel : nat) (s : str) : bool :=
  match s with
  | [] => true
  | _ =>
      match fuel with
      | O => false
      | S f =>
          match utf8_head s with
          | Some n => utf8_valid_aux f (drop n s)
          | None => false
          end
      end
  end.
Definition utf8_valid (s : str) : bool := utf8_valid_aux (length s) s.

(** Strings: like bytes, and must be UTF-8. *)
Definition enc_str (b : str) : str := enc_bytes b.
Definition dec_str : parser str := fun s =>
  match dec_bytes s with
  | Some (b, r) => if utf8_valid b then Some (b, r) else None
  | None => None
  end.

(** Option: 0, or 1 and the value. *)
Definition enc_option {A} (e : A → str) (o : option A) : str :=
  match o with None => [x00] | Some a => x01 :: e a end.
Definition dec_option {A} (d : parser A) : parser (option A) := fun s =>
  match s with
  | x00 :: r => Some (None, r)
  | x01 :: r => match d r with Some (a, r') => Some (Some a, r') | None => None end
  | _ => None
  end.

(** Fixed-size arrays and tuples: the elements one after the other. *)
Definition enc_array {A} (e : A → str) (l : list A) : str := concat (map e l).
Fixpoint dec_array {A} (d : parser A) (n : nat) : parser (list A) := fun s =>
  match n with
  | O => Some ([], s)
  | S m =>
      match d s with
      | Some (a, r) =>
          match dec_array d m r with
          | Some (l, r') => Some (a :: l, r')
          | None => None
          end
      | None => None
      end
  end.

(** Sequences and maps: the count as varint, then the elements. Every element takes
    at least one byte, so a decoder that runs more than [length s] times has run out
    of bytes: [fuel] is [S (length s)]. *)
Definition enc_seq {A} (e : A → str) (l : list A) : str :=
  enc_u64 (N.of_nat (length l)) ++ enc_array e l.
Fixpoint dec_items {A} (fuel : nat) (d : parser A) (n : N) : parser (list A) := fun s =>
  match fuel with
  | O => None
  | S f =>
      if n =? 0 then Some ([], s)
      else
        match d s with
        | Some (a, r) =>
            match dec_items f d (n - 1) r with
            | Some (l, r') => Some (a :: l, r')
            | None => None
            end
        | None => None
        end
  end.
Definition dec_seq {A} (d : parser A) : parser (list A) := fun s =>
  match dec_u64 s with
  | Some (n, r) => dec_items (S (length r)) d n r
  | None => None
  end.

Definition enc_pair {A B} (ea : A → str) (eb : B → str) (x : A * B) : str :=
  ea x.1 ++ eb x.2.
Definition dec_pair {A B} (da : parser A) (db : parser B) : parser (A * B) := fun s =>
  match da s with
  | Some (a, r) => match db r with Some (b, r') => Some ((a, b), r') | None => None end
  | None => None
  end.

(** The value of [file_access] and [dir_access] entries (policy/src/policy.rs:28-29). *)
Definition enc_access (a : access) : str :=
  enc_bool (a_read a) ++ enc_bool (a_write a) ++ enc_bool (a_block_readers a) ++
  enc_bool (a_block_writers a) ++ enc_bool (a_block_deleters a).
Definition dec_access : parser access := fun s =>
  match dec_array dec_bool 5 s with
  | Some ([a; b; c; d; e], r) => Some (mkAccess a b c d e, r)
  | _ => None
  end.

(** A [HashMap] is written in its (arbitrary) iteration order and rebuilt by
    inserting the entries one by one. *)
Definition enc_map {V} (ev : V → str) (entries : list (str * V)) : str :=
  enc_seq (enc_pair enc_str ev) entries.
Definition map_of_entries {V} (entries : list (str * V)) : gmap str V :=
  foldl (λ m kv, <[kv.1 := kv.2]> m) ∅ entries.
Definition dec_map {V} (dv : parser V) : parser (gmap str V) := fun s =>
  match dec_seq (dec_pair dec_str dv) s with
  | Some (l, r) => Some (map_of_entries l, r)
  | None => None
  end.

(** The entries of the three maps in the order the hash maps enumerate them. *)
Record policy_order := mkOrder {
  o_file : list (str * access);
  o_dir : list (str * access);
  o_reg : list (str * (bool * bool)) }.

(** Derived [Serialize] of policy/src/policy.rs:22-32: two fields are skipped. *)
Definition enc_policy (o : policy_order) (audit : bool) : str :=
  enc_map enc_access (o_file o) ++ enc_map enc_access (o_dir o) ++
  enc_map (enc_pair enc_bool enc_bool) (o_reg o) ++ enc_bool audit.

(** Derived [Deserialize] of policy/src/policy.rs:22-32: skipped fields get their
    default (empty) value. *)
Definition dec_policy : parser policy := fun s =>
  match dec_map dec_access s with
  | None => None
  | Some (fa, s) =>
  match dec_map dec_access s with
  | None => None
  | Some (da, s) =>
  match dec_map (dec_pair dec_bool dec_bool) s with
  | None => None
  | Some (ra, s) =>
  match dec_bool s with
  | None => None
  | Some (au, s) => Some (mkPolicy [] ∅ fa da ra au, s)
  end end end end.

(** ipc-messages/src/linux/mod.rs:13-21 *)
Inductive ipc_request :=
  | ReqInitialization
  | ReqOpenFile (path : str) (flags : Z)
  | ReqSyscall (nb : Z) (args : list Z) (ip : Z).

(** ipc-messages/src/linux/mod.rs:24-30. What the broker sends: a policy given by
    its entries in enumeration order. *)
Inductive ipc_response_out :=
  | OutInitialization (o : policy_order) (audit : bool) (filter : str)
  | OutSyscallResult (code : Z).
(** What the worker decodes. *)
Inductive ipc_response :=
  | RespInitialization (p : policy) (filter : str)
  | RespSyscallResult (code : Z).

(** Enum variants: the index as u32 varint, then the fields in order. *)
Definition enc_request (m : ipc_request) : str :=
  match m with
  | ReqInitialization => enc_u32 0
  | ReqOpenFile path flags => enc_u32 1 ++ enc_str path ++ enc_i32 flags
  | ReqSyscall nb args ip => enc_u32 2 ++ enc_i64 nb ++ enc_array enc_i64 args ++ enc_i64 ip
  end.
Definition dec_request : parser ipc_request := fun s =>
  match dec_u32 s with
  | None => None
  | Some (0, s) => Some (ReqInitialization, s)
  | Some (1, s) =>
      match dec_str s with
      | None => None
      | Some (path, s) =>
          match dec_i32 s with
          | None => None
          | Some (flags, s) => Some (ReqOpenFile path flags, s)
          end
      end
  | Some (2, s) =>
      match dec_i64 s with
      | None => None
      | Some (nb, s) =>
          match dec_array dec_i64 6 s with
          | None => None
          | Some (args, s) =>
              match dec_i64 s with
              | None => None
              | Some (ip, s) => Some (ReqSyscall nb args ip, s)
              end
          end
      end
  | Some _ => None
  end.

Definition enc_response (m : ipc_response_out) : str :=
  match m with
  | OutInitialization o audit filter => enc_u32 0 ++ enc_policy o audit ++ enc_bytes filter
  | OutSyscallResult code => enc_u32 1 ++ enc_i64 code
  end.
Definition dec_response : parser ipc_response := fun s =>
  match dec_u32 s with
  | None => None
  | Some (0, s) =>
      match dec_policy s with
      | None => None
      | Some (p, s) =>
          match dec_bytes s with
          | None => None
          | Some (f, s) => Some (RespInitialization p f, s)
          end
      end
  | Some (1, s) =>
      match dec_i64 s with
      | None => None
      | Some (c, s) => Some (RespSyscallResult c, s)
      end
  | Some _ => None
  end.

(** ipc/src/lib.rs:26 *)
Definition IPC_MESSAGE_MAX_SIZE : N := 65536.

(** ipc/src/channel.rs:29-48: [postcard::to_slice] fails when the encoding does not
    fit the buffer. *)
Definition serialize {A} (enc : A → str) (m : A) (bufsize : N) : option str :=
  let e := enc m in if N.of_nat (length e) <=? bufsize then Some e else None.

(** ipc/src/channel.rs:50-77: [postcard::from_bytes] ignores bytes left over. *)
Definition deserialize {A} (dec : parser A) (s : str) : option A :=
  match dec s with Some (a, _) => Some a | None => None end.
