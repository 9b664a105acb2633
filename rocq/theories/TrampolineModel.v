(** Model of the assembly trampolines that run a system call again in audit mode:
    worker/src/linux/arch/x86_64/seccomp.rs and arch/i686/seccomp.rs. Only the used
    instructions exist; flags are left out (no instruction reads them). *)
From stdpp Require Import prelude.
Local Open Scope Z_scope.

(** General registers; i686 has the first eight, under their e-names. *)
Inductive reg := RAX | RCX | RDX | RBX | RSP | RBP | RSI | RDI
  | R8 | R9 | R10 | R11 | R12 | R13 | R14 | R15.

(** Intel SDM vol. 2: register numbers. *)
Definition reg_num (r : reg) : Z :=
  match r with
  | RAX => 0 | RCX => 1 | RDX => 2 | RBX => 3 | RSP => 4 | RBP => 5 | RSI => 6 | RDI => 7
  | R8 => 8 | R9 => 9 | R10 => 10 | R11 => 11 | R12 => 12 | R13 => 13 | R14 => 14 | R15 => 15
  end.

(** [Load d b o]: mov d,[b+o]; [Store b o s]: mov [b+o],s; [SysCall]: syscall on x86_64,
    int 0x80 on i686. *)
Inductive instr :=
  | SubImm (r : reg) (n : Z)
  | AddImm (r : reg) (n : Z)
  | Mov (d s : reg)
  | Load (d b : reg) (o : Z)
  | Store (b : reg) (o : Z) (s : reg)
  | Push (r : reg)
  | Pop (r : reg)
  | SysCall
  | Ret.

Global Instance reg_eq_dec : EqDecision reg.
Proof. solve_decision. Defined.
Global Instance instr_eq_dec : EqDecision instr.
Proof. solve_decision. Defined.

(** Register width in bytes: 8 for x86_64, 4 for i686. *)
Inductive width := W64 | W32.
Definition wbytes (w : width) : nat := match w with W64 => 8 | W32 => 4 end.
Definition wmod (w : width) : Z := match w with W64 => 2 ^ 64 | W32 => 2 ^ 32 end.

(** Intel SDM vol. 2, instruction encodings (the assembler takes the shortest). Bytes
    as numbers. REX.W with R for the register field and B for the base or r/m field. *)
Definition rex (r b : reg) : Z := 72 + 4 * (reg_num r / 8) + reg_num b / 8.
Definition modrm (md r rm : Z) : Z := 64 * md + 8 * (r mod 8) + rm mod 8.
Definition mem_operand (r b : reg) (o : Z) : list Z :=
  (* base rsp/r12 needs a SIB byte; base rbp/r13 always has a displacement *)
  let sib := if decide (reg_num b mod 8 = 4) then [36] else [] in
  if decide (o = 0 ∧ reg_num b mod 8 ≠ 5) then modrm 0 (reg_num r) (reg_num b) :: sib
  else if decide (o < 128) then modrm 1 (reg_num r) (reg_num b) :: sib ++ [o]
  else modrm 2 (reg_num r) (reg_num b) :: sib ++ [o mod 256; o / 256 mod 256; 0; 0].
Definition encode (w : width) (i : instr) : list Z :=
  let pre r b := match w with W64 => [rex r b] | W32 => [] end in
  match i with
  | SubImm r n => pre RAX r ++ [131; modrm 3 5 (reg_num r); n]
  | AddImm r n => pre RAX r ++ [131; modrm 3 0 (reg_num r); n]
  | Mov d s => pre s d ++ [137; modrm 3 (reg_num s) (reg_num d)]
  | Load d b o => pre d b ++ 139 :: mem_operand d b o
  | Store b o s => pre s b ++ 137 :: mem_operand s b o
  | Push r => [80 + reg_num r]
  | Pop r => [88 + reg_num r]
  | SysCall => match w with W64 => [15; 5] | W32 => [205; 128] end
  | Ret => [195]
  end.

(** Memory: a byte per address; addresses wrap around. *)
Definition memory := Z → Z.
Fixpoint load_bytes (M : Z) (m : memory) (a : Z) (n : nat) : list Z :=
  match n with O => [] | S n => m (a mod M) :: load_bytes M m (a + 1) n end.
Fixpoint store_bytes (M : Z) (m : memory) (a : Z) (bs : list Z) : memory :=
  match bs with
  | [] => m
  | b :: bs => store_bytes M (λ x, if decide (x = a mod M) then b else m x) (a + 1) bs
  end.
(** Little endian words. *)
Fixpoint le_bytes (n : nat) (v : Z) : list Z :=
  match n with O => [] | S n => v mod 256 :: le_bytes n (v / 256) end.
Fixpoint of_le (bs : list Z) : Z :=
  match bs with [] => 0 | b :: bs => b + 256 * of_le bs end.
Definition load (w : width) (m : memory) (a : Z) : Z := of_le (load_bytes (wmod w) m a (wbytes w)).
Definition store (w : width) (m : memory) (a v : Z) : memory :=
  store_bytes (wmod w) m a (le_bytes (wbytes w) v).

(** A system call as the kernel sees it: number, arguments, instruction pointer (the
    address after the instruction, as in seccomp_data) and memory. *)
Record syscall_seen := mkSeen { ss_nr : Z; ss_args : list Z; ss_ip : Z; ss_mem : memory }.
(** The kernel's answer: result, memory after, and the values it leaves in rcx and r11
    (x86_64). *)
Definition kernel := syscall_seen → Z * memory * Z * Z.

(** Register contents. *)
Record regfile := mkRegs {
  r_rax : Z; r_rcx : Z; r_rdx : Z; r_rbx : Z; r_rsp : Z; r_rbp : Z; r_rsi : Z; r_rdi : Z;
  r_r8 : Z; r_r9 : Z; r_r10 : Z; r_r11 : Z; r_r12 : Z; r_r13 : Z; r_r14 : Z; r_r15 : Z }.
Definition get (f : regfile) (r : reg) : Z :=
  match r with
  | RAX => r_rax f | RCX => r_rcx f | RDX => r_rdx f | RBX => r_rbx f
  | RSP => r_rsp f | RBP => r_rbp f | RSI => r_rsi f | RDI => r_rdi f
  | R8 => r_r8 f | R9 => r_r9 f | R10 => r_r10 f | R11 => r_r11 f
  | R12 => r_r12 f | R13 => r_r13 f | R14 => r_r14 f | R15 => r_r15 f
  end.
Definition upd (f : regfile) (r : reg) (v : Z) : regfile :=
  let 'mkRegs a c d b sp bp si di e8 e9 e10 e11 e12 e13 e14 e15 := f in
  match r with
  | RAX => mkRegs v c d b sp bp si di e8 e9 e10 e11 e12 e13 e14 e15
  | RCX => mkRegs a v d b sp bp si di e8 e9 e10 e11 e12 e13 e14 e15
  | RDX => mkRegs a c v b sp bp si di e8 e9 e10 e11 e12 e13 e14 e15
  | RBX => mkRegs a c d v sp bp si di e8 e9 e10 e11 e12 e13 e14 e15
  | RSP => mkRegs a c d b v bp si di e8 e9 e10 e11 e12 e13 e14 e15
  | RBP => mkRegs a c d b sp v si di e8 e9 e10 e11 e12 e13 e14 e15
  | RSI => mkRegs a c d b sp bp v di e8 e9 e10 e11 e12 e13 e14 e15
  | RDI => mkRegs a c d b sp bp si v e8 e9 e10 e11 e12 e13 e14 e15
  | R8 => mkRegs a c d b sp bp si di v e9 e10 e11 e12 e13 e14 e15
  | R9 => mkRegs a c d b sp bp si di e8 v e10 e11 e12 e13 e14 e15
  | R10 => mkRegs a c d b sp bp si di e8 e9 v e11 e12 e13 e14 e15
  | R11 => mkRegs a c d b sp bp si di e8 e9 e10 v e12 e13 e14 e15
  | R12 => mkRegs a c d b sp bp si di e8 e9 e10 e11 v e13 e14 e15
  | R13 => mkRegs a c d b sp bp si di e8 e9 e10 e11 e12 v e14 e15
  | R14 => mkRegs a c d b sp bp si di e8 e9 e10 e11 e12 e13 v e15
  | R15 => mkRegs a c d b sp bp si di e8 e9 e10 e11 e12 e13 e14 v
  end.

Record cpu := mkCpu { c_file : regfile; c_mem : memory; c_seen : list syscall_seen }.
Definition c_regs (c : cpu) (r : reg) : Z := get (c_file c) r.
Definition set_reg (r : reg) (v : Z) (c : cpu) : cpu :=
  mkCpu (upd (c_file c) r v) (c_mem c) (c_seen c).
Definition set_mem (m : memory) (c : cpu) : cpu := mkCpu (c_file c) m (c_seen c).

(** Registers of the Linux system call convention (arch/x86_64/seccomp.rs:41-47,
    arch/i686/seccomp.rs:30-36). *)
Definition arg_regs (w : width) : list reg :=
  match w with
  | W64 => [RDI; RSI; RDX; R10; R8; R9]
  | W32 => [RBX; RCX; RDX; RSI; RDI; RBP]
  end.

(** One instruction other than ret; [next] is the address after it. *)
Definition exec (w : width) (k : kernel) (next : Z) (i : instr) (c : cpu) : cpu :=
  let M := wmod w in
  let sz := Z.of_nat (wbytes w) in
  match i with
  | SubImm r n => set_reg r ((c_regs c r - n) mod M) c
  | AddImm r n => set_reg r ((c_regs c r + n) mod M) c
  | Mov d s => set_reg d (c_regs c s) c
  | Load d b o => set_reg d (load w (c_mem c) (c_regs c b + o)) c
  | Store b o s => set_mem (store w (c_mem c) (c_regs c b + o) (c_regs c s)) c
  | Push r =>
      let sp := (c_regs c RSP - sz) mod M in
      set_reg RSP sp (set_mem (store w (c_mem c) sp (c_regs c r)) c)
  | Pop r =>
      let v := load w (c_mem c) (c_regs c RSP) in
      set_reg r v (set_reg RSP ((c_regs c RSP + sz) mod M) c)
  | SysCall =>
      let seen := mkSeen (c_regs c RAX) (c_regs c <$> arg_regs w) (next mod M) (c_mem c) in
      let '(res, m, rcx, r11) := k seen in
      let c := mkCpu (c_file c) m (c_seen c ++ [seen]) in
      let c := match w with W64 => set_reg RCX rcx (set_reg R11 r11 c) | W32 => c end in
      set_reg RAX (res mod M) c
  | Ret => c
  end.

(** Run from address [pc]; the result has the address returned to. *)
Fixpoint run (w : width) (k : kernel) (pc : Z) (is : list instr) (c : cpu) : option (Z * cpu) :=
  match is with
  | [] => None
  | Ret :: _ =>
      Some (load w (c_mem c) (c_regs c RSP),
            set_reg RSP ((c_regs c RSP + Z.of_nat (wbytes w)) mod wmod w) c)
  | i :: is =>
      let next := pc + Z.of_nat (length (encode w i)) in
      run w k next is (exec w k next i c)
  end.

(** worker/src/linux/arch/x86_64/seccomp.rs:12-37 *)
Definition rerun_syscall64 : list instr :=
  [SubImm RSP 88; Store RSP 0 R9; Mov R10 R8; Load R8 RSP 0; Store RSP 8 RCX; Mov RAX RDX;
   Load RDX RSP 8; Store RSP 16 RAX; Mov RAX RSI; Load RSI RSP 16; Store RSP 24 RAX;
   Mov RAX RDI; Load RDI RSP 24; Load R9 RSP 96; Store RSP 40 RAX; Store RSP 48 RDI;
   Store RSP 56 RSI; Store RSP 64 RDX; Store RSP 72 R10; Store RSP 80 R8; SysCall;
   Store RSP 32 RAX; Load RAX RSP 32; AddImm RSP 88; Ret].
(** worker/src/linux/arch/i686/seccomp.rs:8-26 *)
Definition rerun_syscall32 : list instr :=
  [Push RBP; Mov RBP RSP; Push RBX; Push RSI; Push RDI; Load RAX RBP 8; Load RBX RBP 12;
   Load RCX RBP 16; Load RDX RBP 20; Load RSI RBP 24; Load RDI RBP 28; Load RBP RBP 32;
   SysCall; Pop RDI; Pop RSI; Pop RBX; Pop RBP; Ret].
Definition rerun_syscall (w : width) : list instr :=
  match w with W64 => rerun_syscall64 | W32 => rerun_syscall32 end.

(** arch/x86_64/seccomp.rs:3 and arch/i686/seccomp.rs:3 *)
Definition SYSCALL_ASM_OFFSET (w : width) : Z := match w with W64 => 91 | W32 => 29 end.
(** worker/src/linux/lockdown.rs:127-128; [start] is the trampoline's address. *)
Definition actual_call_site (w : width) (start : Z) : Z := start + SYSCALL_ASM_OFFSET w.
