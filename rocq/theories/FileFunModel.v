(** Which system calls the C library's functions on files make on the two targets, for
    broker/src/linux/seccomp.rs:8-187 (the calls that are allowed) and
    worker/src/linux/lockdown.rs:198-290 (the calls that are handled).

    The table is that of glibc before 2.33 for programs with 64-bit file offsets, which is what
    Rust's std asks for on both targets (arch/x86/entry/syscalls/syscall_32.tbl and
    syscall_64.tbl of Linux for the numbers). Functions of sockets are left out: libseccomp
    treats socketcall in a way of its own. *)
From stdpp Require Import prelude.
From Coq Require Import Strings.Byte.
From Verif Require Import Bytes PolicyModel FdModel ChannelModel SeccompModel.
Local Open Scope Z_scope.

Inductive file_fun :=
  | FOpen | FAccess | FChdir | FStat | FFstat | FFcntl | FFtruncate | FLseek | FSendfile
  | FMmap | FMprotect | FMunmap | FRead | FWrite | FClose | FDup | FSelect.

(** Name and number of the call. *)
Definition libc_call (a : abi) (f : file_fun) : str * Z :=
  match a, f with
  | Abi64, FOpen => (lit "openat", 257) | Abi32, FOpen => (lit "openat", 295)
  | Abi64, FAccess => (lit "access", 21) | Abi32, FAccess => (lit "access", 33)
  | Abi64, FChdir => (lit "chdir", 80) | Abi32, FChdir => (lit "chdir", 12)
  | Abi64, FStat => (lit "stat", 4) | Abi32, FStat => (lit "stat64", 195)
  | Abi64, FFstat => (lit "fstat", 5) | Abi32, FFstat => (lit "fstat64", 197)
  | Abi64, FFcntl => (lit "fcntl", 72) | Abi32, FFcntl => (lit "fcntl64", 221)
  | Abi64, FFtruncate => (lit "ftruncate", 77) | Abi32, FFtruncate => (lit "ftruncate64", 194)
  | Abi64, FLseek => (lit "lseek", 8) | Abi32, FLseek => (lit "_llseek", 140)
  | Abi64, FSendfile => (lit "sendfile", 40) | Abi32, FSendfile => (lit "sendfile64", 239)
  | Abi64, FMmap => (lit "mmap", 9) | Abi32, FMmap => (lit "mmap2", 192)
  | Abi64, FMprotect => (lit "mprotect", 10) | Abi32, FMprotect => (lit "mprotect", 125)
  | Abi64, FMunmap => (lit "munmap", 11) | Abi32, FMunmap => (lit "munmap", 91)
  | Abi64, FRead => (lit "read", 0) | Abi32, FRead => (lit "read", 3)
  | Abi64, FWrite => (lit "write", 1) | Abi32, FWrite => (lit "write", 4)
  | Abi64, FClose => (lit "close", 3) | Abi32, FClose => (lit "close", 6)
  | Abi64, FDup => (lit "dup", 32) | Abi32, FDup => (lit "dup", 41)
  | Abi64, FSelect => (lit "select", 23) | Abi32, FSelect => (lit "_newselect", 142)
  end.

(** The target's architecture as libseccomp calls it. *)
Definition arch_of (a : abi) : arch := match a with Abi64 => X8664 | Abi32 => X86 end.
