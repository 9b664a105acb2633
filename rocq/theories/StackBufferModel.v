(** Model of ipc/src/stackbuffer.rs. *)
From stdpp Require Import prelude.
From Coq Require Import Strings.Byte.
From Verif Require Import Bytes FdModel.

(** ipc/src/stackbuffer.rs:4-7 *)
Record stack_buffer := mkSb { sb_buf : list byte; sb_used : nat }.

(** stackbuffer.rs:9-16 *)
Definition sb_default (size : nat) : stack_buffer := mkSb (replicate size x00) 0.

(** stackbuffer.rs:18-22; the slice [0..used] must lie within the array. *)
Definition sb_as_bytes (b : stack_buffer) : outcome str :=
  if (sb_used b <=? length (sb_buf b))%nat then Done (take (sb_used b) (sb_buf b)) else Panicked.

(** The loop at 27-32: copies byte by byte until either side ends. *)
Fixpoint copy_over (dst src : list byte) : list byte :=
  match dst, src with
  | _ :: dst, b :: src => b :: copy_over dst src
  | dst, _ => dst
  end.

(** stackbuffer.rs:24-36. [self.buf.len() - 1] underflows on an empty array (a debug build
    panics), and slicing [used..capacity] panics when used > capacity. The sum at line 33
    cannot overflow: strings are at most isize::MAX bytes. *)
Definition sb_write_str (b : stack_buffer) (s : str) : outcome stack_buffer :=
  match length (sb_buf b) with
  | O => Panicked
  | S capacity =>
      if (sb_used b <=? capacity)%nat then
        let pre := take (sb_used b) (sb_buf b) in
        let mid := take (capacity - sb_used b) (drop (sb_used b) (sb_buf b)) in
        let post := drop capacity (sb_buf b) in
        Done (mkSb (pre ++ copy_over mid s ++ post)
                (Nat.min capacity (sb_used b + length s)))
      else Panicked
  end.

(** A sequence of writes; [write_fmt] calls [write_str] once per piece. *)
Fixpoint sb_writes (b : stack_buffer) (ss : list str) : outcome stack_buffer :=
  match ss with
  | [] => Done b
  | s :: ss =>
      match sb_write_str b s with
      | Done b => sb_writes b ss
      | Failed => Failed
      | Panicked => Panicked
      end
  end.
