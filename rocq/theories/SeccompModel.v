(** Model of the rules the broker gives to libseccomp (broker/src/linux/seccomp.rs:8-190)
    and of the fallback of clone (broker/src/linux/process.rs:100-106, 148-178).

    libseccomp is not modelled beyond the meaning of its rules: the exported program is
    taken to decide a call by these rules (and to be valid BPF). *)
From stdpp Require Import prelude.
From Coq Require Import Strings.Byte.
From Verif Require Import Bytes PolicyModel FdModel.
Local Open Scope N_scope.

(** The three architectures registered (lines 117-119). *)
Inductive arch := X86 | X8664 | X32.

(** [scmp_cmp!($argN & mask == value)] and [scmp_cmp!($argN == value)]. *)
Inductive cond :=
  | MaskedEqual (arg : nat) (mask value : N)
  | Equal (arg : nat) (value : N).
(** A rule with action Allow; system calls are named, libseccomp finds the number on
    each architecture. *)
Record rule := mkRule { r_name : str; r_conds : list cond }.

(** broker/src/linux/seccomp.rs:8-93 *)
Definition SYSCALLS_ALLOWED_BY_DEFAULT : list str := map lit [
  "read"; "write"; "readv"; "writev"; "recvmsg"; "sendmsg"; "tee"; "fstat"; "fstat64";
  "newfstatat"; "lseek"; "_llseek"; "select"; "_newselect"; "accept"; "accept4"; "ftruncate";
  "close"; "memfd_create"; "sigaltstack"; "munmap"; "nanosleep"; "exit_group";
  "restart_syscall"; "rt_sigreturn"; "rt_sigprocmask"; "rt_sigaction"; "getpid"; "gettid";
  "alarm"; "arch_prctl"; "brk"; "cacheflush"; "close_range"; "getresuid"; "getresgid";
  "getresuid32"; "getresgid32"; "getrandom"; "getuid"; "getuid32"; "readdir"; "timer_create";
  "timer_delete"; "timer_getoverrun"; "timer_gettime"; "timer_settime"; "timerfd_create";
  "timerfd_gettime"; "timerfd_settime"; "times"; "sched_yield"; "time"; "uname"; "fsync";
  "fdatasync"; "shutdown"; "nice"; "pause"; "clock_nanosleep"; "clock_gettime";
  "clock_gettime64"; "clock_getres"; "poll"; "pipe"; "mremap"; "msync"; "mincore"; "madvise";
  "dup"; "dup2"; "dup3"; "fcntl"; "getitimer"; "setitimer"; "sendfile"; "listen";
  "getsockname"; "getpeername"; "socketpair"; "getsockopt"; "futex"; "exit"; "exit_group"]%string.

(** [!(0x1u64 | 0x2 | 0x8 | 0x10 | 0x01000000 | 0x02000000)], line 137 *)
Definition denied_page_protection_flags : N :=
  N.ldiff (N.ones 64)
    (N.lor 0x1 (N.lor 0x2 (N.lor 0x8 (N.lor 0x10 (N.lor 0x01000000 0x02000000))))).

(** The rules in the order they are added, lines 121-187. *)
Definition wanted_rules (pid : N) : list rule :=
  map (λ n, mkRule n []) SYSCALLS_ALLOWED_BY_DEFAULT ++
  [mkRule (lit "mmap") [MaskedEqual 2 denied_page_protection_flags 0];
   mkRule (lit "mmap2") [MaskedEqual 2 denied_page_protection_flags 0];
   mkRule (lit "mprotect") [MaskedEqual 2 denied_page_protection_flags 0];
   mkRule (lit "kill") [Equal 0 pid];
   mkRule (lit "tgkill") [Equal 0 pid];
   mkRule (lit "ioctl") [Equal 1 21505]].

(** What libseccomp and the file system answer. *)
Record lib := mkLib {
  lib_new : option N;                  (* error of new_filter *)
  lib_arch : arch → option N;          (* error of add_arch *)
  lib_known : str → bool;              (* from_name finds the name *)
  lib_add : list rule → rule → option N;  (* error of add_rule after these rules *)
  lib_tmp : bool;                      (* a temporary file could be made and read back *)
  lib_export : list rule → result str N }.   (* export_bpf *)

(** Lines 121-187: names that are not known are skipped, an error ends the function. *)
Fixpoint add_rules (l : lib) (rs : list rule) (done : list rule) : result (list rule) N :=
  match rs with
  | [] => Ok done
  | r :: rs =>
      if lib_known l (r_name r) then
        match lib_add l done r with
        | Some e => Err e
        | None => add_rules l rs (done ++ [r])
        end
      else add_rules l rs done
  end.

(** broker/src/linux/seccomp.rs:109-190 up to the export; the prelude of audit mode is
    [filter_bytes] in BpfModel. Panicked: no temporary file (194-200). *)
Definition build_rules (l : lib) (pid : N) : result (list rule) N :=
  match lib_new l with
  | Some e => Err e
  | None =>
      match lib_arch l X86, lib_arch l X8664, lib_arch l X32 with
      | None, None, None => add_rules l (wanted_rules pid) []
      | Some e, _, _ => Err e
      | None, Some e, _ => Err e
      | None, None, Some e => Err e
      end
  end.
Definition compute_seccomp_filter (l : lib) (pid : N) : outcome (result str N) :=
  match build_rules l pid with
  | Err e => Done (Err e)
  | Ok rs => if lib_tmp l then Done (lib_export l rs) else Panicked
  end.

(* ---------------------------------------------------------------- meaning of rules *)

Inductive action := Allow | Trap.

(** libseccomp compares 64-bit values on x86_64 and 32-bit values on the others. *)
Definition word (a : arch) (x : N) : N :=
  match a with X8664 => x mod 2 ^ 64 | _ => x mod 2 ^ 32 end.
Definition arg (args : list N) (n : nat) : N := default 0 (args !! n).
Definition cond_holds (a : arch) (args : list N) (c : cond) : bool :=
  match c with
  | MaskedEqual n m v => N.land (word a (arg args n)) (word a m) =? word a v
  | Equal n v => word a (arg args n) =? word a v
  end.
Definition rule_matches (a : arch) (name : str) (args : list N) (r : rule) : bool :=
  bool_decide (r_name r = name) && forallb (cond_holds a args) (r_conds r).
(** The default action is Trap (line 110). *)
Definition decision (rs : list rule) (a : arch) (name : str) (args : list N) : action :=
  if existsb (rule_matches a name args) rs then Allow else Trap.

(* ---------------------------------------------------------------- clone *)

(** Which flags the kernel accepts in clone(2). *)
Record clone_flags := mkFlags { newuser : bool; newpid : bool }.
(** broker/src/linux/process.rs:104-106: the flags of the clone that succeeded. *)
Definition clone_fallback (accepts : clone_flags → bool) : option clone_flags :=
  if accepts (mkFlags true true) then Some (mkFlags true true)
  else if accepts (mkFlags false true) then Some (mkFlags false true)
  else if accepts (mkFlags false false) then Some (mkFlags false false)
  else None.
(** [get_pid] (line 143-145) is the number clone returned, in the broker's namespace.
    In a PID namespace of its own the first process is number 1 (pid_namespaces(7)). *)
Definition own_pid (fl : clone_flags) (broker_pid : N) : N :=
  if newpid fl then 1 else broker_pid.
