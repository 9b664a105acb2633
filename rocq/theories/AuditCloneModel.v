(** Calls that start threads, processes and programs, in audit mode. The handler runs them again
    through the trampoline (worker/src/linux/lockdown.rs:407-418), "hopefully they are already
    handled separately"; nothing in lockdown.rs:238-283 does. The new thread or process comes
    back from the system call inside the trampoline. *)
From stdpp Require Import prelude.
From Coq Require Import Strings.Byte.
From Verif Require Import Bytes PolicyModel SeccompModel SigMaskModel TrampolineModel.
Local Open Scope Z_scope.

(** The trampoline's instructions up to and with its system call, and the rest. *)
Fixpoint split_syscall (is : list instr) : list instr * list instr :=
  match is with
  | [] => ([], [])
  | SysCall :: is => ([SysCall], is)
  | i :: is => let '(a, b) := split_syscall is in (i :: a, b)
  end.
(** As [run], without ret: the address reached and the state there. *)
Fixpoint steps (w : width) (k : kernel) (pc : Z) (is : list instr) (c : cpu) : Z * cpu :=
  match is with
  | [] => (pc, c)
  | i :: is =>
      let next := pc + Z.of_nat (length (encode w i)) in
      steps w k next is (exec w k next i c)
  end.

(** clone(2) in the new thread or process: the call gives 0; [mem] is its memory, shared or
    copied; its stack pointer is [stack], or that of the caller if that is 0 (fork, vfork). The
    rest of the registers are the caller's. *)
Definition child_kernel (mem : syscall_seen → memory) (rcx r11 : Z) : kernel :=
  λ s, (0, mem s, rcx, r11).
Definition rerun_child (w : width) (start stack : Z) (mem : syscall_seen → memory) (rcx r11 : Z)
  (c : cpu) : option (Z * cpu) :=
  let k := child_kernel mem rcx r11 in
  let '(before, after) := split_syscall (rerun_syscall w) in
  let '(pc, c1) := steps w k start before c in
  run w k pc after (if stack =? 0 then c1 else set_reg RSP stack c1).

(** vfork(2): the memory is shared, and the caller waits. The child returns from the trampoline
    and goes on in the handler; its next call of a function pushes the return address [v]. Then
    the caller comes back, with the number of the child. *)
Definition rerun_vfork (w : width) (start pid v : Z) (mem : syscall_seen → memory) (rcx r11 : Z)
  (c : cpu) : option (Z * cpu) :=
  match rerun_child w start 0 mem rcx r11 c with
  | None => None
  | Some (_, c1) =>
      let sp := (c_regs c1 RSP - Z.of_nat (wbytes w)) mod wmod w in
      let m := store w (c_mem c1) sp v in
      run w (λ _, (pid, m, rcx, r11)) start (rerun_syscall w) c
  end.

(** broker/src/linux/seccomp.rs:217-268: in audit mode calls from the trampoline are allowed. *)
Definition audit_decision (site ip : Z) (rs : list rule) (a : arch) (name : str) (args : list N)
  : action :=
  if ip =? site then Allow else decision rs a name args.
(** The calls of a program, with the address of each, in a thread in state [st]. *)
Fixpoint audit_calls (rs : list rule) (a : arch) (site : Z) (st : sigthread)
  (calls : list (Z * str * list N)) : list seen :=
  match calls with
  | [] => []
  | (ip, name, args) :: calls =>
      match audit_decision site ip rs a name args with
      | Allow => SeenDone :: audit_calls rs a site st calls
      | Trap =>
          match trapped_call rs a st with
          | SeenKilled => [SeenKilled]
          | s => s :: audit_calls rs a site st calls
          end
      end
  end.
(** execve(2): the filter stays, the handler does not. *)
Definition after_execve (st : sigthread) : sigthread := inherited (st_blocked st) (st_action st).
