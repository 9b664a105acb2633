(** Model of how a Windows worker patches the tables of its modules in memory:
    worker/src/windows/lockdown.rs:158-401 and 443-511, with the protections of pages. The values
    written, and which entries are patched, are in [WinHookModel] over tables as lists; here the
    tables are read from and written to memory. *)
From stdpp Require Import prelude gmap.
From Verif Require Import Bytes TrampolineModel WinHookModel.
Local Open Scope Z_scope.

(* ---------------------------------------------------------------- memory manager *)

(** The protection of a page. PAGE_WRITECOPY counts as writable, guard pages are left out. *)
Record prot := mkProt { p_read : bool; p_write : bool; p_exec : bool }.
Definition READWRITE : prot := mkProt true true false.
Definition EXECUTE_READ : prot := mkProt true false true.
Global Instance prot_eq_dec : EqDecision prot.
Proof. solve_decision. Defined.

Definition PAGE : Z := 4096.
Definition page (a : Z) : Z := a / PAGE.
(** Pages with a byte of [a, a + n). *)
Definition pages (a n : Z) : list Z := seqZ (page a) (page (a + n - 1) - page a + 1).

(** Memory, the committed pages, every protection that was set, in order, and the trampolines. *)
Record mm := mkMm {
  mm_mem : memory; mm_prot : gmap Z prot; mm_log : list (Z * prot); mm_tramps : list Z }.

(** Answers of the OS besides the rules below. *)
Record mm_env := mkMmEnv {
  me_query : Z → bool;                       (* VirtualQuery in unprotect_memory_area *)
  me_protect : list (Z * prot) → Z → bool;   (* VirtualProtect, after these changes *)
  me_flush : bool;
  me_hooks : hook_env }.

Definition set_pages (ps : list Z) (p : prot) (s : mm) : mm :=
  mkMm (mm_mem s) (foldr (λ q, <[q := p]>) (mm_prot s) ps) (mm_log s ++ ((λ q, (q, p)) <$> ps))
    (mm_tramps s).
(** VirtualProtect: all pages must be committed; the old protection given back is that of the
    first of them. *)
Definition virtual_protect (env : mm_env) (a n : Z) (p : prot) (s : mm) : option (prot * mm) :=
  match mm_prot s !! page a with
  | None => None
  | Some old =>
      if forallb (λ q, bool_decide (is_Some (mm_prot s !! q))) (pages a n) && me_protect env (mm_log s) a
      then Some (old, set_pages (pages a n) p s)
      else None
  end.
(** VirtualAlloc with MEM_RESERVE: no page may be in use. *)
Definition virtual_alloc (a n : Z) (p : prot) (s : mm) : option mm :=
  if forallb (λ q, bool_decide (mm_prot s !! q = None)) (pages a n)
  then Some (set_pages (pages a n) p s) else None.
(** Writing bytes; [None]: an access violation. *)
Definition write_bytes (w : width) (a : Z) (bs : list Z) (s : mm) : option mm :=
  if forallb (λ q, match mm_prot s !! q with Some p => p_write p | None => false end)
       (pages a (Z.of_nat (length bs)))
  then Some (mkMm (store_bytes (wmod w) (mm_mem s) a bs) (mm_prot s) (mm_log s) (mm_tramps s))
  else None.

(* ---------------------------------------------------------------- lockdown.rs:443-511 *)

(** lockdown.rs:443-455 (hotpatch_u32 and hotpatch_u64) with 457-511; [None]: a panic. *)
Definition hotpatch (w : width) (env : mm_env) (a : Z) (bs : list Z) (s : mm) : option mm :=
  let n := Z.of_nat (length bs) in
  if negb (me_query env a) then None else
  match virtual_protect env a n READWRITE s with
  | None => None
  | Some (old, s) =>
      match write_bytes w a bs s with
      | None => None
      | Some s =>
          match virtual_protect env a n old s with
          | None => None
          | Some (_, s) => Some s
          end
      end
  end.

(** lockdown.rs:236-340: a place for a trampoline, which is written and then made executable. *)
Definition new_trampoline (fuel : nat) (w : width) (env : mm_env) (base new : Z) (s : mm)
  : option (Z * mm) :=
  let g := he_granularity (me_hooks env) in
  match find_hole fuel (me_hooks env) (mm_tramps s) (align_up base g) 0 with
  | None => None
  | Some t =>
      match virtual_alloc t g READWRITE s with
      | None => None
      | Some s =>
          match write_bytes w t (trampoline w t new) s with
          | None => None
          | Some s =>
              match virtual_protect env t g EXECUTE_READ s with
              | None => None
              | Some (_, s) =>
                  if me_flush env
                  then Some (t, mkMm (mm_mem s) (mm_prot s) (mm_log s) (mm_tramps s ++ [t]))
                  else None
              end
          end
      end
  end.

(** lockdown.rs:222-354: [n] entries of the export table from address [a] on. *)
Fixpoint mem_exports (fuel : nat) (w : width) (env : mm_env) (base orig new a : Z) (n : nat)
    (tramp : option Z) (s : mm) : option mm :=
  match n with
  | O => Some s
  | S n =>
      let rva := of_le (load_bytes (wmod w) (mm_mem s) a 4) in
      if decide (base + rva = orig) then
        let r :=
          if decide (base < new ∧ new - base < 2 ^ 32) then Some (new - base, tramp, s)
          else
            match tramp with
            | Some t => Some ((t - base) mod 2 ^ 32, tramp, s)
            | None =>
                match new_trampoline fuel w env base new s with
                | None => None
                | Some (t, s) => Some ((t - base) mod 2 ^ 32, Some t, s)
                end
            end in
        match r with
        | None => None
        | Some (v, tramp, s) =>
            match hotpatch w env a (le_bytes 4 v) s with
            | None => None
            | Some s => mem_exports fuel w env base orig new (a + 4) n tramp s
            end
        end
      else mem_exports fuel w env base orig new (a + 4) n tramp s
  end.

(** lockdown.rs:373-396: the thunks from address [a] on, up to a zero; [None] also when there is
    none within [fuel] entries. *)
Fixpoint mem_thunks (fuel : nat) (w : width) (env : mm_env) (orig new a : Z) (s : mm) : option mm :=
  match fuel with
  | O => None
  | S fuel =>
      let t := load w (mm_mem s) a in
      if decide (t = 0) then Some s
      else
        let s' := if decide (t = orig) then hotpatch w env a (le_bytes (wbytes w) new) s else Some s in
        match s' with
        | None => None
        | Some s => mem_thunks fuel w env orig new (a + Z.of_nat (wbytes w)) s
        end
  end.
(** A loaded module: its base, its export table (RVA and number of entries), and the descriptors
    of its imports (FirstThunk and Name). Headers and descriptors are not patched. *)
Record module := mkModule {
  md_base : Z; md_exports : option (Z * nat); md_imports : list (Z * Z) }.
(** lockdown.rs:361-397 *)
Fixpoint mem_imports (fuel : nat) (w : width) (env : mm_env) (orig new base : Z)
    (ds : list (Z * Z)) (s : mm) : option mm :=
  match ds with
  | [] => Some s
  | (first, name) :: ds =>
      if decide (first = 0 ∨ name = 0) then Some s
      else
        match mem_thunks fuel w env orig new (base + first) s with
        | None => None
        | Some s => mem_imports fuel w env orig new base ds s
        end
  end.
(** lockdown.rs:158-400 *)
Fixpoint mem_modules (fuel : nat) (w : width) (env : mm_env) (orig new : Z) (ms : list module)
    (s : mm) : option mm :=
  match ms with
  | [] => Some s
  | m :: ms =>
      let s' := match md_exports m with
                | None => Some s
                | Some (rva, n) => mem_exports fuel w env (md_base m) orig new (md_base m + rva) n None s
                end in
      match s' with
      | None => None
      | Some s =>
          match mem_imports fuel w env orig new (md_base m) (md_imports m) s with
          | None => None
          | Some s => mem_modules fuel w env orig new ms s
          end
      end
  end.
(** lockdown.rs:764-771 and 108-127: the functions hooked one after the other; the address of each
    is read from entry [e] of the export table of module [k]. *)
Fixpoint mem_hook (fuel : nat) (w : width) (env : mm_env) (k : module) (hooks : list (nat * Z))
    (ms : list module) (s : mm) : option mm :=
  match hooks with
  | [] => Some s
  | (e, new) :: hooks =>
      match md_exports k with
      | None => None
      | Some (rva, n) =>
          let orig := md_base k +
            of_le (load_bytes (wmod w) (mm_mem s) (md_base k + rva + 4 * Z.of_nat e) 4) in
          match mem_modules fuel w env orig new ms s with
          | None => None
          | Some s => mem_hook fuel w env k hooks ms s
          end
      end
  end.
