(** Model of classic BPF as used by seccomp, of the audit prelude the broker puts
    before the filter (broker/src/linux/seccomp.rs:205-277) and of the worker's patching
    and loading (worker/src/linux/lockdown.rs:81-184). *)
From stdpp Require Import prelude.
From Coq Require Import Strings.Byte.
From Verif Require Import Bytes.
Local Open Scope N_scope.

(* ---------------------------------------------------------------- classic BPF *)

(** struct sock_filter *)
Record insn := mkInsn { i_code : N; i_jt : N; i_jf : N; i_k : N }.
Global Instance insn_eq_dec : EqDecision insn.
Proof. solve_decision. Defined.

(** struct seccomp_data; fields are unsigned words of 32 and 64 bits. *)
Record sdata := mkSdata { sd_nr : N; sd_arch : N; sd_ip : N; sd_args : list N }.
Definition lo32 (x : N) : N := x mod 2 ^ 32.
Definition hi32 (x : N) : N := x / 2 ^ 32 mod 2 ^ 32.
(** The 32-bit word at byte offset [off] (little endian); 64 bytes in all. *)
Definition data_word (d : sdata) (off : N) : option N :=
  if off =? 0 then Some (sd_nr d)
  else if off =? 4 then Some (sd_arch d)
  else if off =? 8 then Some (lo32 (sd_ip d))
  else if off =? 12 then Some (hi32 (sd_ip d))
  else if (16 <=? off) && (off <? 64) && (off mod 4 =? 0) then
    let a := default 0 (sd_args d !! N.to_nat ((off - 16) / 8)) in
    Some (if off mod 8 =? 0 then lo32 a else hi32 a)
  else None.

(** Operations of seccomp filters (linux/kernel/seccomp.c, seccomp_check_filter). *)
Inductive alu := Add | Sub | Mul | Div | Or | And | Lsh | Rsh | Xor.
Inductive cmp := Jeq | Jgt | Jge | Jset.
Inductive op :=
  | LdAbs | LdImm | LdMem | LdLen | LdxImm | LdxMem | LdxLen | St | Stx
  | AluK (o : alu) | AluX (o : alu) | Neg
  | Ja | JmpK (c : cmp) | JmpX (c : cmp) | RetK | RetA | Tax | Txa.
(** linux/include/uapi/linux/bpf_common.h and filter.h *)
Definition op_of (code : N) : option op :=
  match code with
  | 0 => Some LdImm | 32 => Some LdAbs | 96 => Some LdMem | 128 => Some LdLen
  | 1 => Some LdxImm | 97 => Some LdxMem | 129 => Some LdxLen | 2 => Some St | 3 => Some Stx
  | 4 => Some (AluK Add) | 12 => Some (AluX Add) | 20 => Some (AluK Sub) | 28 => Some (AluX Sub)
  | 36 => Some (AluK Mul) | 44 => Some (AluX Mul) | 52 => Some (AluK Div) | 60 => Some (AluX Div)
  | 68 => Some (AluK Or) | 76 => Some (AluX Or) | 84 => Some (AluK And) | 92 => Some (AluX And)
  | 100 => Some (AluK Lsh) | 108 => Some (AluX Lsh) | 116 => Some (AluK Rsh)
  | 124 => Some (AluX Rsh) | 164 => Some (AluK Xor) | 172 => Some (AluX Xor) | 132 => Some Neg
  | 5 => Some Ja | 21 => Some (JmpK Jeq) | 29 => Some (JmpX Jeq) | 37 => Some (JmpK Jgt)
  | 45 => Some (JmpX Jgt) | 53 => Some (JmpK Jge) | 61 => Some (JmpX Jge)
  | 69 => Some (JmpK Jset) | 77 => Some (JmpX Jset)
  | 6 => Some RetK | 22 => Some RetA | 7 => Some Tax | 135 => Some Txa
  | _ => None
  end.

(** 32-bit arithmetic. Division by zero ends the filter with result 0. *)
Definition do_alu (o : alu) (a b : N) : option N :=
  match o with
  | Add => Some ((a + b) mod 2 ^ 32)
  | Sub => Some ((a + 2 ^ 32 - b) mod 2 ^ 32)
  | Mul => Some (a * b mod 2 ^ 32)
  | Div => if b =? 0 then None else Some (a / b)
  | Or => Some (N.lor a b)
  | And => Some (N.land a b)
  | Lsh => Some (N.shiftl a (b mod 32) mod 2 ^ 32)
  | Rsh => Some (N.shiftr a (b mod 32))
  | Xor => Some (N.lxor a b)
  end.
Definition do_cmp (c : cmp) (a b : N) : bool :=
  match c with
  | Jeq => a =? b
  | Jgt => b <? a
  | Jge => b <=? a
  | Jset => negb (N.land a b =? 0)
  end.

(** Accumulator, index register and scratch memory. *)
Record bpf_regs := mkBpf { b_a : N; b_x : N; b_m : list N }.
Definition bpf_start : bpf_regs := mkBpf 0 0 (replicate 16 0).

(** Run from the first instruction of [prog]; jumps go forward only. None: the program
    is not one the kernel accepts (unknown code, bad offset, no return). Every
    instruction moves forward, so [fuel] = number of instructions is enough. *)
Fixpoint bpf_exec (fuel : nat) (d : sdata) (prog : list insn) (r : bpf_regs) : option N :=
  match fuel with
  | O => None
  | S fuel =>
      match prog with
      | [] => None
      | i :: rest =>
          let k := i_k i in
          let a := b_a r in
          let x := b_x r in
          let set_a v := mkBpf v x (b_m r) in
          let set_x v := mkBpf a v (b_m r) in
          let jump (b : bool) :=
            bpf_exec fuel d (drop (N.to_nat (if b then i_jt i else i_jf i)) rest) r in
          match op_of (i_code i) with
          | None => None
          | Some o =>
              match o with
              | LdAbs => match data_word d k with
                         | Some v => bpf_exec fuel d rest (set_a v)
                         | None => None
                         end
              | LdImm => bpf_exec fuel d rest (set_a k)
              | LdMem => match b_m r !! N.to_nat k with
                         | Some v => bpf_exec fuel d rest (set_a v)
                         | None => None
                         end
              | LdLen => bpf_exec fuel d rest (set_a 64)
              | LdxImm => bpf_exec fuel d rest (set_x k)
              | LdxMem => match b_m r !! N.to_nat k with
                          | Some v => bpf_exec fuel d rest (set_x v)
                          | None => None
                          end
              | LdxLen => bpf_exec fuel d rest (set_x 64)
              | St => bpf_exec fuel d rest (mkBpf a x (<[N.to_nat k := a]> (b_m r)))
              | Stx => bpf_exec fuel d rest (mkBpf a x (<[N.to_nat k := x]> (b_m r)))
              | AluK o => match do_alu o a k with
                          | Some v => bpf_exec fuel d rest (set_a v)
                          | None => Some 0
                          end
              | AluX o => match do_alu o a x with
                          | Some v => bpf_exec fuel d rest (set_a v)
                          | None => Some 0
                          end
              | Neg => bpf_exec fuel d rest (set_a ((2 ^ 32 - a) mod 2 ^ 32))
              | Ja => bpf_exec fuel d (drop (N.to_nat k) rest) r
              | JmpK c => jump (do_cmp c a k)
              | JmpX c => jump (do_cmp c a x)
              | RetK => Some k
              | RetA => Some a
              | Tax => bpf_exec fuel d rest (set_x a)
              | Txa => bpf_exec fuel d rest (set_a x)
              end
          end
      end
  end.
(** Registers start at zero (linux/net/core/filter.c, bpf_convert_filter). *)
Definition bpf_run (prog : list insn) (d : sdata) : option N :=
  bpf_exec (length prog) d prog bpf_start.

(* ---------------------------------------------------------------- bytes *)

(** Little endian words ([to_ne_bytes] on x86). *)
Fixpoint n_bytes (n : nat) (v : N) : str :=
  match n with O => [] | S n => byte_of_N (v mod 256) :: n_bytes n (v / 256) end.
Fixpoint n_of_bytes (s : str) : N :=
  match s with [] => 0 | b :: s => Byte.to_N b + 256 * n_of_bytes s end.

(** broker/src/linux/seccomp.rs:270-277: the memory of a sock_filter. *)
Definition enc_insn (i : insn) : str :=
  n_bytes 2 (i_code i) ++ n_bytes 1 (i_jt i) ++ n_bytes 1 (i_jf i) ++ n_bytes 4 (i_k i).
Definition enc_prog (p : list insn) : str := concat (map enc_insn p).
(** The kernel reads [n] instructions from a buffer. *)
Fixpoint dec_prog (n : nat) (s : str) : option (list insn) :=
  match n with
  | O => Some []
  | S n =>
      match s with
      | c0 :: c1 :: jt :: jf :: k0 :: k1 :: k2 :: k3 :: rest =>
          match dec_prog n rest with
          | Some p => Some (mkInsn (n_of_bytes [c0; c1]) (Byte.to_N jt) (Byte.to_N jf)
                              (n_of_bytes [k0; k1; k2; k3]) :: p)
          | None => None
          end
      | _ => None
      end
  end.

(* ---------------------------------------------------------------- audit prelude *)

(** ipc-messages/src/linux/mod.rs:10 *)
Definition IPC_SECCOMP_CALL_SITE_PLACEHOLDER : N := 0xCAFECAFEC0DEC0DE.
(** libc constants *)
Definition SECCOMP_RET_ALLOW : N := 0x7fff0000.
Definition SECCOMP_RET_TRAP : N := 0x00030000.

(** broker/src/linux/seccomp.rs:217-261 *)
Definition audit_prelude (site : N) : list insn :=
  [mkInsn 32 0 0 8;
   mkInsn 21 0 3 (lo32 site);
   mkInsn 32 0 0 12;
   mkInsn 21 0 1 (hi32 site);
   mkInsn 6 0 0 SECCOMP_RET_ALLOW].
(** broker/src/linux/seccomp.rs:205-267: [exported] is the file libseccomp wrote. *)
Definition filter_bytes (audit : bool) (exported : str) : str :=
  (if audit then enc_prog (audit_prelude IPC_SECCOMP_CALL_SITE_PLACEHOLDER) else []) ++ exported.

(* ---------------------------------------------------------------- patching *)

(** [v[start..start + 4]] and [clone_from_slice] on it. *)
Definition window (s : str) (start : nat) : str := take 4 (drop start s).
Definition write4 (s : str) (start : nat) (v : str) : str :=
  take start s ++ v ++ drop (start + 4) s.
(** worker/src/linux/lockdown.rs:139-148 *)
Definition patch_at (pf ps af as' : str) (start : nat) (s : str) : str :=
  let s := if decide (window s start = pf) then write4 s start af else s in
  if decide (window s start = ps) then write4 s start as' else s.
Fixpoint patch_loop (fuel : nat) (pf ps af as' : str) (start : nat) (s : str) : str :=
  match fuel with
  | O => s
  | S fuel =>
      if (start + 4 <? length s)%nat
      then patch_loop fuel pf ps af as' (S start) (patch_at pf ps af as' start s)
      else s
  end.
(** worker/src/linux/lockdown.rs:126-149; [site] is [actual_call_site]. Every round
    moves [start] on, so the length is fuel enough. *)
Definition patch (site : N) (s : str) : str :=
  let a := n_bytes 8 site in
  let p := n_bytes 8 IPC_SECCOMP_CALL_SITE_PLACEHOLDER in
  patch_loop (length s) (take 4 p) (drop 4 p) (take 4 a) (drop 4 a) 0 s.

(* ---------------------------------------------------------------- loading *)

(** What the worker does with the filter it received. *)
Inductive load_outcome :=
  | Unfiltered                    (* goes on without any filter *)
  | Loaded (prog : list insn) (all_threads : bool)
  | LoadPanic.

(** worker/src/linux/lockdown.rs:81-184 after the handshake. [handler_ok]: sigaction
    succeeded and no other handler was set (107-124). [tsync] and [single] are the
    kernel's answers to seccomp(2) and prctl(2), for the program it is given. *)
Definition load_filter (audit : bool) (site : N) (handler_ok : bool)
  (tsync single : list insn → bool) (bytes : str) : load_outcome :=
  match bytes with
  | [] => Unfiltered
  | _ =>
      if negb handler_ok then LoadPanic
      else
        let bytes := if audit then patch site bytes else bytes in
        let count := N.of_nat (length bytes) / 8 in
        let len := count mod 2 ^ 16 in   (* as u16, line 153 *)
        match dec_prog (N.to_nat len) bytes with
        | None => LoadPanic               (* unreachable: the buffer is long enough *)
        | Some prog =>
            if tsync prog then Loaded prog true
            else if single prog then Loaded prog false
            else LoadPanic
        end
  end.
