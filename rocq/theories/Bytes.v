(** Byte strings and the Rust [str] operations used by the project. *)
From stdpp Require Import prelude gmap.
From Coq Require Export Init.Byte.
From stdpp Require Export strings.
From Coq Require Import Strings.Byte.

(** Rust [str], [String], [&[u8]] and [CString] contents: a list of bytes.
    Separators used by the code are ASCII, so byte-wise splitting is the same as
    char-wise splitting on UTF-8. Theorems quantify over all byte lists, which
    include all UTF-8 strings. *)
Definition str := list byte.

Global Instance byte_eq_dec : EqDecision byte := Byte.byte_eq_dec.
Global Program Instance byte_countable : Countable byte :=
  inj_countable Byte.to_N Byte.of_N _.
Next Obligation. intros x; apply Byte.of_to_N. Qed.
Global Instance byte_inhabited : Inhabited byte := populate x00.

(** ASCII literal. *)
Definition lit (x : string) : str := list_byte_of_string x.
Arguments lit _%string_scope.

(** Rust [u8 as] conversions. *)
Definition byte_of_N (n : N) : byte :=
  match Byte.of_N (n mod 256)%N with Some b => b | None => x00 end.
Definition byte_of_Z (z : Z) : byte := byte_of_N (Z.to_N (z mod 256)%Z).

Definition slash : byte := x2f.
Definition backslash : byte := x5c.

(** Rust core [str::strip_suffix(char)] for an ASCII char. *)
Definition strip_suffix (sep : byte) (p : str) : option str :=
  match reverse p with
  | c :: r => if decide (c = sep) then Some (reverse r) else None
  | [] => None
  end.

(** Rust core [str::strip_prefix(char)] for an ASCII char. *)
Definition strip_prefix (sep : byte) (p : str) : option str :=
  match p with
  | c :: r => if decide (c = sep) then Some r else None
  | [] => None
  end.

(** Rust core [s.strip_suffix(sep).unwrap_or(s)]. *)
Definition strip_suffix_or_self (sep : byte) (p : str) : str :=
  match strip_suffix sep p with Some r => r | None => p end.

(** Rust core [str::starts_with(char)]. *)
Definition starts_with_byte (sep : byte) (p : str) : bool :=
  match p with c :: _ => bool_decide (c = sep) | [] => false end.

(** Rust core [str::split(char)]: always at least one piece. *)
Fixpoint split (sep : byte) (p : str) : list str :=
  match p with
  | [] => [[]]
  | c :: r =>
      if decide (c = sep) then [] :: split sep r
      else match split sep r with
           | [] => [[c]]
           | h :: t => (c :: h) :: t
           end
  end.

(** Rust core [str::rsplit_once(char)]: split around the last occurrence. *)
Fixpoint rsplit_once (sep : byte) (p : str) : option (str * str) :=
  match p with
  | [] => None
  | c :: r =>
      match rsplit_once sep r with
      | Some (a, b) => Some (c :: a, b)
      | None => if decide (c = sep) then Some ([], r) else None
      end
  end.

(** Rust core [str::split_once(char)]: split around the first occurrence. *)
Fixpoint split_once (sep : byte) (p : str) : option (str * str) :=
  match p with
  | [] => None
  | c :: r =>
      if decide (c = sep) then Some ([], r)
      else match split_once sep r with
           | Some (a, b) => Some (c :: a, b)
           | None => None
           end
  end.

(** Rust core [str::starts_with(&str)]. *)
Fixpoint starts_with (pre p : str) : bool :=
  match pre, p with
  | [], _ => true
  | a :: pre', b :: p' => bool_decide (a = b) && starts_with pre' p'
  | _ :: _, [] => false
  end.

(** Rust core [str::contains(&str)]. *)
Fixpoint contains (needle p : str) : bool :=
  starts_with needle p ||
  match p with [] => false | _ :: p' => contains needle p' end.

(** Digits of [n] in base [base], most significant first; Rust integer
    formatting ([{}] for base 10, [{:X}] for base 16). *)
Definition digit (d : N) : byte :=
  if (d <? 10)%N then byte_of_N (48 + d) else byte_of_N (55 + d).
Fixpoint digits_aux (fuel : nat) (base n : N) (acc : str) : str :=
  match fuel with
  | O => acc
  | S f =>
      let acc' := digit (n mod base)%N :: acc in
      if (n <? base)%N then acc' else digits_aux f base (n / base)%N acc'
  end.
Definition digits (base n : N) : str := digits_aux (S (N.to_nat (N.log2 n))) base n [].

(** Rust [format!("{}", n)] for an unsigned integer. *)
Definition fmt_dec (n : N) : str := digits 10 n.
(** Rust [format!("{:#X}", n)] for an [i32]: two's complement, upper case. *)
Definition fmt_hex_i32 (z : Z) : str :=
  lit "0x" ++ digits 16 (Z.to_N (z mod 2 ^ 32)%Z).

(** Rust core [u64::from_str]: decimal digits, an optional leading plus,
    overflow is an error. *)
Definition digit_val (c : byte) : option N :=
  let n := Byte.to_N c in
  if ((48 <=? n) && (n <=? 57))%N then Some (n - 48)%N else None.
Fixpoint parse_digits (acc : N) (p : str) : option N :=
  match p with
  | [] => Some acc
  | c :: r =>
      match digit_val c with
      | Some d =>
          let acc' := (acc * 10 + d)%N in
          if (acc' <? 2 ^ 64)%N then parse_digits acc' r else None
      | None => None
      end
  end.
Definition parse_u64 (p : str) : option N :=
  match p with
  | [] => None
  | c :: r =>
      if decide (c = x2b) then
        match r with [] => None | _ => parse_digits 0 r end
      else parse_digits 0 p
  end.
