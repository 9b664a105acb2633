(** What a trapped stat stores for the program. worker/src/linux/lockdown.rs:347-365 takes the
    program's pointer for one to the C library's struct stat and lets the C library's fstat fill
    it; the program that made the system call expects the kernel's struct stat there. *)
From stdpp Require Import prelude gmap.
From Coq Require Import Strings.Byte.
From Verif Require Import Bytes PolicyModel LinuxPolicyModel PostcardModel FdModel ChannelModel
  BrokerModel WorkerModel TrampolineModel.
Local Open Scope Z_scope.

(** What stat tells about a file. *)
Inductive sfield := StDev | StIno | StMode | StNlink | StUid | StGid | StRdev | StSize | StBlksize
  | StBlocks | StAtime | StAtimeNs | StMtime | StMtimeNs | StCtime | StCtimeNs.
Global Instance sfield_eq_dec : EqDecision sfield.
Proof. solve_decision. Defined.

(** The members of a C structure in order, with their sizes; None is padding with a name. *)
Definition members := list (option sfield * Z).
(** Linux, arch/x86/include/uapi/asm/stat.h: struct stat. *)
Definition kernel_stat (w : width) : members :=
  match w with
  | W64 => [(Some StDev, 8); (Some StIno, 8); (Some StNlink, 8); (Some StMode, 4); (Some StUid, 4);
            (Some StGid, 4); (None, 4); (Some StRdev, 8); (Some StSize, 8); (Some StBlksize, 8);
            (Some StBlocks, 8); (Some StAtime, 8); (Some StAtimeNs, 8); (Some StMtime, 8);
            (Some StMtimeNs, 8); (Some StCtime, 8); (Some StCtimeNs, 8); (None, 24)]
  | W32 => [(Some StDev, 4); (Some StIno, 4); (Some StMode, 2); (Some StNlink, 2); (Some StUid, 2);
            (Some StGid, 2); (Some StRdev, 4); (Some StSize, 4); (Some StBlksize, 4);
            (Some StBlocks, 4); (Some StAtime, 4); (Some StAtimeNs, 4); (Some StMtime, 4);
            (Some StMtimeNs, 4); (Some StCtime, 4); (Some StCtimeNs, 4); (None, 4); (None, 4)]
  end.
(** The GNU C library, sysdeps/unix/sysv/linux/x86/bits/struct_stat.h: struct stat, which is
    libc::stat in Rust. *)
Definition libc_stat (w : width) : members :=
  match w with
  | W64 => [(Some StDev, 8); (Some StIno, 8); (Some StNlink, 8); (Some StMode, 4); (Some StUid, 4);
            (Some StGid, 4); (None, 4); (Some StRdev, 8); (Some StSize, 8); (Some StBlksize, 8);
            (Some StBlocks, 8); (Some StAtime, 8); (Some StAtimeNs, 8); (Some StMtime, 8);
            (Some StMtimeNs, 8); (Some StCtime, 8); (Some StCtimeNs, 8); (None, 24)]
  | W32 => [(Some StDev, 8); (None, 2); (Some StIno, 4); (Some StMode, 4); (Some StNlink, 4);
            (Some StUid, 4); (Some StGid, 4); (Some StRdev, 8); (None, 2); (Some StSize, 4);
            (Some StBlksize, 4); (Some StBlocks, 4); (Some StAtime, 4); (Some StAtimeNs, 4);
            (Some StMtime, 4); (Some StMtimeNs, 4); (Some StCtime, 4); (Some StCtimeNs, 4);
            (None, 4); (None, 4)]
  end.

(** System V ABI: a member is aligned to its size, on i386 to 4 at most; the three reserved
    words at the end on x86_64 are one member here. *)
Definition alignment (w : width) (n : Z) : Z := Z.min n (match w with W64 => 8 | W32 => 4 end).
Definition round_up (a n : Z) : Z := (a + n - 1) / n * n.
Fixpoint offsets (w : width) (o : Z) (ms : members) : list (option sfield * Z * Z) :=
  match ms with
  | [] => []
  | (f, n) :: ms => let p := round_up o (alignment w n) in (f, p, n) :: offsets w (p + n) ms
  end.
Fixpoint end_of (w : width) (o : Z) (ms : members) : Z :=
  match ms with
  | [] => o
  | (_, n) :: ms => end_of w (round_up o (alignment w n) + n) ms
  end.

(** Filling a structure at [ptr]: the members, not the padding. *)
Definition fill (w : width) (es : list (option sfield * Z * Z)) (st : sfield → Z) (ptr : Z)
  (m : memory) : memory :=
  foldl (λ m e, match e with
                | (Some f, o, n) => store_bytes (wmod w) m (ptr + o) (le_bytes (Z.to_nat n) (st f))
                | (None, _, _) => m
                end) m es.
Definition abi_width (a : abi) : width := match a with Abi64 => W64 | Abi32 => W32 end.
(** lockdown.rs:347-365: the memory of the program after [handle_stat] with the pointer [out].
    [stats] is what fstat says of an open file. *)
Definition stat_memory (env : wenv) (stats : N → sfield → Z) (path : str) (out : Z) (w : world)
  (m : memory) : memory :=
  let a := abi_width (be_abi (we_broker env)) in
  match get_fd_for_path_with_perms env path O_PATH w with
  | (HRet (inl fd), w) =>
      match w_tab w !! fd with
      | None => m
      | Some e =>
          match we_fstat env (fd_file e) with
          | Some _ => m
          | None => fill a (offsets a 0 (libc_stat a)) (stats (fd_file e)) out m
          end
      end
  | _ => m
  end.
