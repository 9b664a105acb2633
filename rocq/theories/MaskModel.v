(** Permissions of the files that a worker's program creates itself, before it lowers its
    privileges: umask(2) as set by linux-entrypoint/src/entry.rs:35-37 ([ep_umask]). *)
From stdpp Require Import prelude.
Local Open Scope N_scope.

(** open(2), mkdir(2) and bind(2) take the bits of the mask from the mode; the nine bits of
    permissions are those of the owner (6-8), the group (3-5) and others (0-2). *)
Definition created_mode (mode mask : N) : N := N.ldiff (N.land mode 0x1ff) mask.
