(** What a worker does with its descriptors: reads, writes, seeks, ftruncate and fcntl F_SETFL,
    which the filter allows whatever their arguments (broker/src/linux/seccomp.rs:9-12, 19, 25,
    78-81). Descriptors of one open file description share its offset and status flags, in the
    program as well as in the worker: redirected streams and inherited handles are duplicates
    (linux-entrypoint/src/entry.rs:230-240, broker/src/linux/process.rs:60-95), while every
    open of broker/src/linux/brokered_syscalls.rs:20 makes a new description, which the
    broker gives away (ipc_loop.rs:68-71). The kernel's side is open(2), fcntl(2), lseek(2),
    write(2) and ftruncate(2); it is not code of the repository.

    Simplifications: regular files that exist; mappings of files are not modelled. *)
From stdpp Require Import prelude gmap.
From Verif Require Import Bytes PolicyModel LinuxPolicyModel FifoModel.
Local Open Scope N_scope.

(** An open file description. *)
Record ofd := mkOfd {
  o_ino : N; o_read : bool; o_write : bool;
  o_append : bool; o_nonblock : bool; o_off : nat }.
(** Descriptions by number, the next number, the worker's descriptors, contents of files, and
    what the worker has read. *)
Record kworld := mkK {
  s_ofds : gmap N ofd; s_next : N; s_fds : gmap N N; s_files : gmap N str;
  s_seen : list (N * str) }.

Inductive kop :=
  | KOpen (path : str) (flags : Z) (fd : N)    (* through the broker; [fd]: the number it gets *)
  | KDup (fd fd' : N)
  | KClose (fd : N)
  | KSetfl (fd : N) (append nonblock : bool)
  | KSeek (fd : N) (off : nat)
  | KRead (fd : N) (n : nat)
  | KWrite (fd : N) (data : str)
  | KTrunc (fd : N) (n : nat).

Definition contents (i : N) (s : kworld) : str := default [] (s_files s !! i).
(** Bytes [n] long: cut, or filled with zeroes. *)
Definition sized (n : nat) (old : str) : str := take n old ++ replicate (n - length old) x00.
Definition write_at (off : nat) (data old : str) : str :=
  sized off old ++ data ++ drop (off + length data) old.

Definition with_ofd (id : N) (o : ofd) (s : kworld) : kworld :=
  mkK (<[id := o]> (s_ofds s)) (s_next s) (s_fds s) (s_files s) (s_seen s).
Definition with_file (i : N) (c : str) (s : kworld) : kworld :=
  mkK (s_ofds s) (s_next s) (s_fds s) (<[i := c]> (s_files s)) (s_seen s).
Definition at_off (o : ofd) (off : nat) : ofd :=
  mkOfd (o_ino o) (o_read o) (o_write o) (o_append o) (o_nonblock o) off.
(** The description behind a descriptor of the worker. *)
Definition behind (fd : N) (s : kworld) : option (N * ofd) :=
  id ← s_fds s !! fd; o ← s_ofds s !! id; Some (id, o).

(** Bits: 21 path only, 9 truncate, 10 append; the two lowest: 0 read, 1 write, 2 both. *)
Definition open_ofd (i : N) (flags : Z) : ofd :=
  let p := Z.testbit flags 21 in
  mkOfd i (negb p && ((flags mod 4 =? 0)%Z || (flags mod 4 =? 2)%Z))
    (negb p && ((flags mod 4 =? 1)%Z || (flags mod 4 =? 2)%Z))
    (Z.testbit flags 10) false 0.

Definition kstep (look : str → option N) (pol : policy) (s : kworld) (o : kop) : kworld :=
  match o with
  | KOpen path flags fd =>
      if granted pol path flags then
        match look path with
        | Some i =>
            let s1 :=
              if Z.testbit flags 9 && negb (Z.testbit flags 21) then with_file i [] s else s in
            mkK (<[s_next s := open_ofd i flags]> (s_ofds s1)) (s_next s + 1)
              (<[fd := s_next s]> (s_fds s1)) (s_files s1) (s_seen s1)
        | None => s
        end
      else s
  | KDup fd fd' =>
      match s_fds s !! fd with
      | Some id => mkK (s_ofds s) (s_next s) (<[fd' := id]> (s_fds s)) (s_files s) (s_seen s)
      | None => s
      end
  | KClose fd => mkK (s_ofds s) (s_next s) (delete fd (s_fds s)) (s_files s) (s_seen s)
  | KSetfl fd append nonblock =>
      match behind fd s with
      | Some (id, o) =>
          with_ofd id (mkOfd (o_ino o) (o_read o) (o_write o) append nonblock (o_off o)) s
      | None => s
      end
  | KSeek fd off =>
      match behind fd s with Some (id, o) => with_ofd id (at_off o off) s | None => s end
  | KRead fd n =>
      match behind fd s with
      | Some (id, o) =>
          if o_read o then
            let got := take n (drop (o_off o) (contents (o_ino o) s)) in
            let s1 := with_ofd id (at_off o (o_off o + length got)) s in
            mkK (s_ofds s1) (s_next s1) (s_fds s1) (s_files s1) ((o_ino o, got) :: s_seen s1)
          else s
      | None => s
      end
  | KWrite fd data =>
      match behind fd s with
      | Some (id, o) =>
          if o_write o then
            let off := if o_append o then length (contents (o_ino o) s) else o_off o in
            with_ofd id (at_off o (off + length data))
              (with_file (o_ino o) (write_at off data (contents (o_ino o) s)) s)
          else s
      | None => s
      end
  | KTrunc fd n =>
      match behind fd s with
      | Some (_, o) =>
          if o_write o then with_file (o_ino o) (sized n (contents (o_ino o) s)) s else s
      | None => s
      end
  end.
Definition krun (look : str → option N) (pol : policy) (s : kworld) (ops : list kop) : kworld :=
  foldl (kstep look pol) s ops.
