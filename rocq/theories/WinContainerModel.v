(** AppContainers of the workers of a machine on Windows: broker/src/windows/process.rs:100 and
    303-345. The SID of an AppContainer is computed from its name, so processes with the same
    name are in the same AppContainer, and may open each other's objects. *)
From stdpp Require Import prelude gmap.
From Verif Require Import Bytes PolicyModel ProcessModel WinProcessModel.
Local Open Scope N_scope.

(** A program that uses the library: the number of its start among all starts of programs and
    [PER_PROCESS_APPCONTAINER_ID], process.rs:100, with what its threads did. The counter is
    not modelled to wrap around at 2^64. *)
Record program := mkProgram { pg_start : N; pg_state : pstate }.
(** A worker that runs: who started it, and its AppContainer. *)
Record running := mkRunning { rn_start : N; rn_pid : N; rn_container : option str }.
(** The programs by process id, the next start, the workers. *)
Record machine := mkMachine {
  mc_programs : gmap N program; mc_next : N; mc_running : list running }.

(** The threads of a program go through the loop of process.rs:281-533 in any order; the
    counter is the only thing they share, and a pass takes one number ([fetch_add], 304), so
    one step is one pass. Nothing ends workers when their program ends. The OS may give the
    process id of a program that has ended to another one. *)
Inductive mstep :=
  | MStart (pid : N)
  | MExit (pid : N)
  | MPass (pid : N) (env : penv) (inp : pinput) (o : popts)
  | MEnd (i : nat).

Definition with_pid (env : penv) (pid : N) : penv :=
  mkPenv (pe_list env) (pe_appcontainers env) pid (pe_profile env) (pe_set env) (pe_create env)
    (pe_pid env).

Definition mstep_run (m : machine) (x : mstep) : machine :=
  match x with
  | MStart pid =>
      match mc_programs m !! pid with
      | Some _ => m
      | None => mkMachine (<[pid := mkProgram (mc_next m) (mkPst [] 0)]> (mc_programs m))
                  (mc_next m + 1) (mc_running m)
      end
  | MExit pid => mkMachine (delete pid (mc_programs m)) (mc_next m) (mc_running m)
  | MPass pid env inp o =>
      match mc_programs m !! pid with
      | None => m
      | Some g =>
          match attempt (with_pid env pid) inp o (pg_state g) with
          | (res, s) =>
              mkMachine (<[pid := mkProgram (pg_start g) s]> (mc_programs m)) (mc_next m)
                (mc_running m ++
                 match res with
                 | Done (Ok w) => [mkRunning (pg_start g) pid (wp_container w)]
                 | _ => []
                 end)
          end
      end
  | MEnd i => mkMachine (mc_programs m) (mc_next m) (delete i (mc_running m))
  end.
Definition machine_run (xs : list mstep) : machine :=
  foldl mstep_run (mkMachine ∅ 0 []) xs.
