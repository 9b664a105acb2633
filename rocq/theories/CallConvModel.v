(** Calls between the library and Windows at the level of the stack. The declarations say how a
    function is called; Windows' own headers say how it was compiled. *)
From stdpp Require Import prelude strings.
Local Open Scope Z_scope.
Local Coercion Z.of_nat : nat >-> Z.

Inductive warch := X86 | X64.
(** What is written after extern in Rust. *)
Inductive abi := AbiC | AbiSystem.
Inductive conv := CDecl | StdCall | Win64.
(** The Rust reference: "system" is stdcall on 32-bit x86 Windows; on x86_64 there is but one
    convention. *)
Definition conv_of (a : warch) (b : abi) : conv :=
  match a, b with
  | X86, AbiC => CDecl
  | X86, AbiSystem => StdCall
  | X64, _ => Win64
  end.

(** Stack pointer, memory in words, and the four argument registers of the 64-bit convention. *)
Record mach := mkMach { sp : Z; smem : Z → Z; rargs : list Z }.
Definition word (c : conv) : Z := match c with Win64 => 8 | _ => 4 end.
Definition upd (p v : Z) (m : Z → Z) : Z → Z := λ x, if x =? p then v else m x.
Fixpoint put_words (w p : Z) (vs : list Z) (m : Z → Z) : Z → Z :=
  match vs with [] => m | v :: vs => upd p v (put_words w (p + w) vs m) end.
Definition get_words (w p : Z) (n : nat) (m : Z → Z) : list Z :=
  map (λ i : nat, m (p + w * i)) (seq 0 n).

(** The bytes of stack that the arguments take. Win64: 32 bytes for the registers, then the others
    (the alignment of the stack is not modelled). *)
Definition area (c : conv) (n : nat) : Z :=
  match c with Win64 => 32 + 8 * (Z.of_nat (n - 4)) | _ => 4 * Z.of_nat n end.
(** The caller passes the arguments and calls; [ret] is where it goes on. *)
Definition caller_before (c : conv) (args : list Z) (ret : Z) (m : mach) : mach :=
  let p := sp m - area c (length args) in
  let mem := match c with
             | Win64 => put_words 8 (p + 32) (drop 4 args) (smem m)
             | _ => put_words 4 p args (smem m)
             end in
  mkMach (p - word c) (upd (p - word c) ret mem) (match c with Win64 => take 4 args | _ => rargs m end).
(** A function of [k] arguments finds them. *)
Definition callee_args (c : conv) (k : nat) (m : mach) : list Z :=
  match c with
  | Win64 => take k (rargs m) ++ get_words 8 (sp m + 8 + 32) (k - 4) (smem m)
  | _ => get_words 4 (sp m + 4) k (smem m)
  end.
(** It returns; a stdcall function takes its arguments off the stack. *)
Definition callee_return (c : conv) (k : nat) (m : mach) : mach :=
  mkMach (sp m + word c + match c with StdCall => 4 * Z.of_nat k | _ => 0 end) (smem m) (rargs m).
(** The caller goes on; unless the function was stdcall it takes the arguments off itself. *)
Definition caller_after (c : conv) (n : nat) (m : mach) : mach :=
  mkMach (sp m + match c with StdCall => 0 | _ => area c n end) (smem m) (rargs m).

(** A call by a caller that takes the function to be [cr], of a function that is [ce] and has [k]
    arguments. [body] is what it does: a result and the memory it leaves. Result: the arguments
    that the function found, its result, and the machine of the caller afterwards. *)
Definition wcall (cr ce : conv) (k : nat) (body : list Z → (Z → Z) → Z * (Z → Z)) (args : list Z)
  (ret : Z) (m : mach) : list Z * Z * mach :=
  let m1 := caller_before cr args ret m in
  let found := callee_args ce k m1 in
  let '(r, mem) := body found (smem m1) in
  (found, r, caller_after cr (length args) (callee_return ce k (mkMach (sp m1) mem (rargs m1)))).
(** The caller stores a word on the stack, as any later call does. *)
Definition push4 (v : Z) (m : mach) : mach := mkMach (sp m - 4) (upd (sp m - 4) v (smem m)) (rargs m).

(** A declaration: name, what is written after extern, number of arguments. *)
Record decl := mkDecl { d_name : string; d_abi : abi; d_args : nat }.
(** broker/src/windows/brokered_syscalls.rs:27-55 and process.rs:109-117;
    worker/src/windows/lockdown.rs:94-102. *)
Definition calls_out : list decl := [
  mkDecl "NtCreateFile" AbiSystem 11; mkDecl "NtCreateKey" AbiSystem 7;
  mkDecl "NtOpenKey" AbiSystem 3; mkDecl "NtQueryInformationProcess" AbiSystem 5;
  mkDecl "CreateAppContainerProfile" AbiC 6; mkDecl "DeleteAppContainerProfile" AbiC 1 ].
(** worker/src/windows/lockdown.rs:512-524, 594-601, 655-663: what is called in place of functions
    of ntdll. *)
Definition calls_in : list decl := [
  mkDecl "NtCreateFile" AbiSystem 11; mkDecl "NtOpenFile" AbiSystem 6;
  mkDecl "NtCreateKey" AbiSystem 7 ].
(** winternl.h and wdm.h (NTSYSAPI NTSTATUS NTAPI) and userenv.h (HRESULT WINAPI): all of them are
    __stdcall. *)
Definition windows_functions : list (string * nat) := [
  ("NtCreateFile", 11%nat); ("NtOpenFile", 6%nat); ("NtCreateKey", 7%nat); ("NtOpenKey", 3%nat);
  ("NtQueryInformationProcess", 5%nat);
  ("CreateAppContainerProfile", 6%nat); ("DeleteAppContainerProfile", 1%nat) ]%string.
Definition windows_conv (a : warch) : conv := match a with X86 => StdCall | X64 => Win64 end.
