(** Threads of a process and the locks in its memory, for locks of any kind. *)
From stdpp Require Import prelude gmap.
Local Open Scope N_scope.

(** What a thread does with the locks, in order. *)
Inductive lock_op (L : Type) := Take (l : L) | Give (l : L).
Arguments Take {L} l.
Arguments Give {L} l.
(** The memory of a process: the holder of each lock and the threads, with what each still
    does. *)
Record lock_mem (L : Type) := mkLockMem {
  lm_word : L → option N;
  lm_threads : gmap N (list (lock_op L)) }.
Arguments mkLockMem {L} lm_word lm_threads.
Arguments lm_word {L} l _.
Arguments lm_threads {L} l.
Definition set_word {L} `{EqDecision L} (l : L) (o : option N) (w : L → option N) : L → option N :=
  λ k, if decide (k = l) then o else w k.
(** One step of one thread: a lock that is held cannot be taken, not even by its holder; only
    its holder gives it back. *)
Inductive lock_step {L} `{EqDecision L} : lock_mem L → lock_mem L → Prop :=
  | StepTake m tid l ops :
      lm_threads m !! tid = Some (Take l :: ops) → lm_word m l = None →
      lock_step m (mkLockMem (set_word l (Some tid) (lm_word m)) (<[tid := ops]> (lm_threads m)))
  | StepGive m tid l ops :
      lm_threads m !! tid = Some (Give l :: ops) → lm_word m l = Some tid →
      lock_step m (mkLockMem (set_word l None (lm_word m)) (<[tid := ops]> (lm_threads m))).
