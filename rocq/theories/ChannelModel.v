(** Model of ipc/src/linux/channel.rs and of the kernel's SOCK_SEQPACKET and
    SCM_RIGHTS behaviour it relies on. *)
From stdpp Require Import prelude gmap.
From Coq Require Import Strings.Byte.
From Verif Require Import Bytes PolicyModel PostcardModel FdModel.
Local Open Scope N_scope.

(** Word size of the target in bytes: 8 on x86_64, 4 on i686. *)
Inductive abi := Abi64 | Abi32.
Definition word (a : abi) : N := match a with Abi64 => 8 | Abi32 => 4 end.

(** struct cmsghdr { size_t cmsg_len; int cmsg_level; int cmsg_type; } *)
Definition cmsghdr_size (a : abi) : N := word a + 8.
(** libc macros CMSG_ALIGN, CMSG_SPACE, CMSG_LEN. *)
Definition CMSG_ALIGN (a : abi) (n : N) : N := (n + word a - 1) / word a * word a.
Definition CMSG_SPACE (a : abi) (n : N) : N := CMSG_ALIGN a n + CMSG_ALIGN a (cmsghdr_size a).
Definition CMSG_LEN (a : abi) (n : N) : N := CMSG_ALIGN a (cmsghdr_size a) + n.

(** ipc/src/linux/channel.rs:10 *)
Definition CMSG_SIZE (a : abi) : N := CMSG_SPACE a 4.

Definition SOL_SOCKET : N := 1.
Definition SCM_RIGHTS : N := 1.
Definition SCM_MAX_FD : N := 253.
Definition EBADF : N := 9.
Definition EINVAL : N := 22.
Definition EMSGSIZE : N := 90.

(** Little-endian integers. *)
Fixpoint le (k : nat) (n : N) : str :=
  match k with O => [] | S k => byte_of_N (n mod 256) :: le k (n / 256) end.
Fixpoint un_le (s : str) : N :=
  match s with [] => 0 | b :: r => Byte.to_N b + 256 * un_le r end.
Definition slice (s : str) (off len : N) : str :=
  take (N.to_nat len) (drop (N.to_nat off) s).
(** Read a little-endian integer of [len] bytes at [off]. *)
Definition read_le (s : str) (off len : N) : N := un_le (slice s off len).
(** A C int: a value of at least 2^31 is negative. *)
Definition fd_of_int (n : N) : option N := if n <? 2 ^ 31 then Some n else None.

(** A message in the socket queue: bytes and references to open files. *)
Record datagram := mkDgram { dg_payload : str; dg_files : list N }.

(** Kernel scm_fp_copy: look up each descriptor in the sender's table. *)
Fixpoint files_of (t : fdtab) (data : str) (count : nat) : option (list N) :=
  match count with
  | O => Some []
  | S c =>
      match fd_of_int (read_le data 0 4) with
      | None => None
      | Some fd =>
          match t !! fd with
          | None => None
          | Some e =>
              match files_of t (drop 4 data) c with
              | None => None
              | Some l => Some (fd_file e :: l)
              end
          end
      end
  end.

(** Kernel __scm_send on a control buffer holding one header (the only case
    channel.rs produces: cmsg_len is the whole buffer): the number of descriptors
    is (cmsg_len - sizeof(struct cmsghdr)) / sizeof(int). *)
Definition scm_send (a : abi) (t : fdtab) (control : str) : result (list N) N :=
  let len := N.of_nat (length control) in
  if len <? cmsghdr_size a then Ok []
  else
    let cmsg_len := read_le control 0 (word a) in
    let level := read_le control (word a) 4 in
    let type := read_le control (word a + 4) 4 in
    if (cmsg_len <? cmsghdr_size a) || (len <? cmsg_len) then Err EINVAL
    else if negb (level =? SOL_SOCKET) then Ok []
    else if negb (type =? SCM_RIGHTS) then Err EINVAL
    else
      let count := (cmsg_len - cmsghdr_size a) / 4 in
      if SCM_MAX_FD <? count then Err EINVAL
      else match files_of t (drop (N.to_nat (cmsghdr_size a)) control) (N.to_nat count) with
           | None => Err EBADF
           | Some l => Ok l
           end.

(** Kernel sendmsg on a SOCK_SEQPACKET socket: all of the bytes or an error
    ([sndbuf] is the largest datagram the socket takes). *)
Definition sys_sendmsg (a : abi) (sndbuf : N) (t : fdtab) (payload control : str)
  : result datagram N :=
  match scm_send a t control with
  | Err e => Err e
  | Ok files =>
      if sndbuf <? N.of_nat (length payload) then Err EMSGSIZE
      else Ok (mkDgram payload files)
  end.

(** ipc/src/error.rs, without descriptions. *)
Inductive ipc_error :=
  | IpcOs (errno : N)
  | IpcHandle
  | IpcSerialization
  | IpcDeserialization
  | IpcTooBig.

Definition zeros (n : N) : str := replicate (N.to_nat n) x00.

(** ipc/src/linux/channel.rs:64 and 79-102: the control buffer. It starts zeroed;
    level, type, length (= CMSG_SIZE, line 82) and the descriptor are stored at
    their offsets. CMSG_DATA is right after the header. *)
Definition control_buffer (a : abi) (fd : N) : str :=
  le (N.to_nat (word a)) (CMSG_SIZE a) ++ le 4 SOL_SOCKET ++ le 4 SCM_RIGHTS ++
  le 4 fd ++ zeros (CMSG_SIZE a - cmsghdr_size a - 4).

(** ipc/src/linux/channel.rs:52-117 *)
Definition channel_send {A} (enc : A → str) (a : abi) (sndbuf : N) (t : fdtab)
  (m : A) (handle : option N) (bufsize : N) : result datagram ipc_error :=
  match serialize enc m bufsize with
  | None => Err IpcSerialization
  | Some payload =>
      let control := match handle with None => [] | Some fd => control_buffer a fd end in
      match sys_sendmsg a sndbuf t payload control with
      | Err e => Err (IpcOs e)
      | Ok d => Ok d
      end
  end.

(** Kernel scm_detach_fds: install descriptors until the space, the files or the
    table limit run out. MSG_CMSG_CLOEXEC sets close-on-exec. *)
Fixpoint install_files (limit : N) (files : list N) (fdmax : nat) (t : fdtab)
  : list N * fdtab :=
  match files, fdmax with
  | f :: fs, S m =>
      match fd_install limit (mkFd f FD_CLOEXEC) t with
      | None => ([], t)
      | Some (n, t') => let '(ns, t'') := install_files limit fs m t' in (n :: ns, t'')
      end
  | _, _ => ([], t)
  end.

(** Result of recvmsg: bytes, installed descriptors as they appear in the control
    message, truncation flags. No SO_PASSCRED, so no other ancillary data. *)
Record recv_result := mkRecv {
  rr_bytes : str; rr_fds : list N; rr_trunc : bool; rr_ctrunc : bool }.

Definition sys_recvmsg (a : abi) (limit : N) (buflen controllen : N) (d : datagram)
  (t : fdtab) : recv_result * fdtab :=
  let fdmax := if controllen <=? cmsghdr_size a then 0
               else (controllen - cmsghdr_size a) / 4 in
  let '(ns, t') := install_files limit (dg_files d) (N.to_nat fdmax) t in
  (mkRecv (take (N.to_nat buflen) (dg_payload d)) ns
     (buflen <? N.of_nat (length (dg_payload d)))
     (Nat.ltb (length ns) (length (dg_files d))), t').

(** What the socket hands out: a datagram, end of stream, or an error. *)
Inductive sock_event := EvDatagram (d : datagram) | EvEof | EvError (errno : N).

(** Closing a received descriptor when its [Handle] is dropped. *)
Definition drop_opt (h : option N) (t : fdtab) : fdtab :=
  match h with None => t | Some n => delete n t end.

(** ipc/src/linux/channel.rs:119-212. The loop at 159-198 sees at most one header
    (the kernel merges all descriptors in one) and takes its first descriptor; if
    any later header existed it would have to start beyond the control buffer.
    The result carries the returned handle; it is in the table. *)
Definition channel_recv {A} (dec : parser A) (a : abi) (limit bufsize : N)
  (ev : sock_event) (t : fdtab)
  : result (option (A * option N)) ipc_error * fdtab :=
  match ev with
  | EvError e => (Err (IpcOs e), t)
  | EvEof => (Ok None, t)
  | EvDatagram d =>
      let '(r, t) := sys_recvmsg a limit bufsize (CMSG_SIZE a) d t in
      match (match rr_fds r with
             | [] => Some None
             | fd :: _ => match handle_from_raw fd with
                          | Some h => Some (Some h) | None => None end
             end) with
      | None => (Err IpcHandle, t)
      | Some handle =>
          if rr_trunc r || rr_ctrunc r then (Err IpcTooBig, drop_opt handle t)
          else if Nat.eqb (length (rr_bytes r)) 0 then (Ok None, drop_opt handle t)
          else
            match deserialize dec (rr_bytes r) with
            | None => (Err IpcDeserialization, drop_opt handle t)
            | Some m => (Ok (Some (m, handle)), t)
            end
      end
  end.

(** The descriptor owned by what [recv] returned. *)
Definition owned_by_result {A} (r : result (option (A * option N)) ipc_error) : option N :=
  match r with Ok (Some (_, h)) => h | _ => None end.
