(** Leases on Linux: the filter allows fcntl whatever its arguments
    (broker/src/linux/seccomp.rs:81), so a worker takes leases (F_SETLEASE) on what it has opened
    through the broker (worker/src/linux/lockdown.rs:305-337). fcntl(2) and open(2) are the
    kernel's side (fs/locks.c, fs/open.c):

    - F_RDLCK is refused while the file is open for writing, F_WRLCK while there is any other
      open description or lease; both need a regular file of one's own (or CAP_LEASE).
    - open(2) counts the new description first, tells the holders of conflicting leases, and
      waits until they are gone or lowered, at most [T] ticks (/proc/sys/fs/lease-break-time, not
      0); with O_NONBLOCK it fails instead.

    Left out: truncate(2), descriptions shared between processes (C162), lease signals. *)
From stdpp Require Import prelude gmap.
From Verif Require Import Bytes PolicyModel LinuxPolicyModel FifoModel.
Local Open Scope N_scope.

(** An open description: the process, the file, the flags, and when open(2) was called. *)
Record odesc := mkOd { od_proc : N; od_ino : N; od_flags : Z; od_since : N }.
(** A lease; [le_down], [le_brk]: when it is lowered to F_RDLCK, and removed. *)
Record lease := mkLease { le_ino : N; le_excl : bool; le_down : option N; le_brk : option N }.
(** Descriptions and leases (one for each description at most), and the time. *)
Record leases := mkLeases { ls_ods : gmap N odesc; ls_leases : gmap N lease; ls_now : N }.

Definition o_path (f : Z) : bool := Z.testbit f 21.
Definition o_nonblock (f : Z) : bool := Z.testbit f 11.
(** Descriptions that i_readcount and i_writecount count, and those the latter counts. *)
Definition counted (f : Z) : bool := negb (o_path f) && negb (f mod 4 =? 3)%Z.
Definition writer (f : Z) : bool := counted f && negb (f mod 4 =? 0)%Z.
(** fs/locks.c, __break_lease: [want_write]. *)
Definition want_write (f : Z) : bool := negb (f mod 4 =? 0)%Z.
Definition breaks (l : lease) (i : N) (f : Z) : bool :=
  N.eqb (le_ino l) i && negb (o_path f) && (le_excl l || want_write f).

(** __break_lease for one lease. *)
Definition tell (T now : N) (i : N) (f : Z) (l : lease) : lease :=
  if breaks l i f then
    if want_write f then
      mkLease (le_ino l) (le_excl l) (le_down l) (Some (default (now + T) (le_brk l)))
    else
      match le_down l, le_brk l with
      | None, None => mkLease (le_ino l) (le_excl l) (Some (now + T)) None
      | _, _ => l
      end
  else l.

Definition some_lease (P : N → lease → bool) (m : gmap N lease) : bool :=
  existsb (λ x, P x.1 x.2) (map_to_list m).
Definition some_od (P : N → odesc → bool) (m : gmap N odesc) : bool :=
  existsb (λ x, P x.1 x.2) (map_to_list m).

(** open(2) of file [i] by process [q]. *)
Definition k_open (T : N) (q i : N) (f : Z) (id : N) (s : leases) : leases :=
  match ls_ods s !! id with
  | Some _ => s
  | None =>
      let conflict := some_lease (λ _ l, breaks l i f) (ls_leases s) in
      mkLeases (if conflict && o_nonblock f then ls_ods s
                else <[id := mkOd q i f (ls_now s)]> (ls_ods s))
        (tell T (ls_now s) i f <$> ls_leases s) (ls_now s)
  end.

(** fs/locks.c, check_conflicting_open and generic_add_lease. *)
Definition may_lease (own : N → N → bool) (id : N) (o : odesc) (excl : bool) (s : leases) : bool :=
  negb (o_path (od_flags o)) && own (od_proc o) (od_ino o) &&
  (if excl then
     negb (some_od (λ id' o', negb (N.eqb id id') && N.eqb (od_ino o') (od_ino o) &&
       counted (od_flags o')) (ls_ods s)) &&
     negb (some_lease (λ id' l, negb (N.eqb id id') && N.eqb (le_ino l) (od_ino o)) (ls_leases s))
   else
     negb (some_od (λ _ o', N.eqb (od_ino o') (od_ino o) && writer (od_flags o')) (ls_ods s)) &&
     negb (some_lease (λ id' l, negb (N.eqb id id') && N.eqb (le_ino l) (od_ino o) &&
       match le_brk l with Some _ => true | None => false end) (ls_leases s))).
(** fcntl(id, F_SETLEASE, F_WRLCK or F_RDLCK): a lease that is there is changed; what it was
    told stays, but for lowering. *)
Definition k_setlease (own : N → N → bool) (id : N) (excl : bool) (s : leases) : leases :=
  match ls_ods s !! id with
  | Some o =>
      if may_lease own id o excl s then
        let old := ls_leases s !! id in
        mkLeases (ls_ods s)
          (<[id := mkLease (od_ino o) excl
              (if excl then old ≫= le_down else None) (old ≫= le_brk)]> (ls_leases s)) (ls_now s)
      else s
  | None => s
  end.

(** A tick: fs/locks.c, time_out_leases. *)
Definition time_out (now : N) (l : lease) : option lease :=
  let past t := match t with Some d => d <=? now | None => false end in
  if past (le_brk l) then None
  else if past (le_down l) then Some (mkLease (le_ino l) false None (le_brk l))
  else Some l.
Definition k_tick (s : leases) : leases :=
  let now := ls_now s + 1 in
  mkLeases (ls_ods s) (omap (time_out now) (ls_leases s)) now.

Inductive lop :=
  | LWorker (path : str) (flags : Z) (id : N)     (* an open of worker [p], through the broker *)
  | LOther (q i : N) (flags : Z) (id : N)         (* an open of another process *)
  | LLease (id : N) (excl : bool)                 (* whoever has the description *)
  | LUnlease (id : N)
  | LClose (id : N)
  | LTick.

Definition lease_step (T : N) (own : N → N → bool) (look : str → option N) (pol : policy) (p : N)
  (s : leases) (o : lop) : leases :=
  match o with
  | LWorker path flags id =>
      if granted pol path flags then
        match look path with Some i => k_open T p i flags id s | None => s end
      else s
  | LOther q i flags id => if N.eqb q p then s else k_open T q i flags id s
  | LLease id excl => k_setlease own id excl s
  | LUnlease id => mkLeases (ls_ods s) (delete id (ls_leases s)) (ls_now s)
  | LClose id => mkLeases (delete id (ls_ods s)) (delete id (ls_leases s)) (ls_now s)
  | LTick => k_tick s
  end.
Definition lease_run T own look pol p (s : leases) (ops : list lop) : leases :=
  foldl (lease_step T own look pol p) s ops.
