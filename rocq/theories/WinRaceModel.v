(** Hooking a function while other threads load and bind modules. worker/src/windows/lockdown.rs:154-401
    goes through the list of modules without any lock: of each module it changes the export table
    first and then the import tables. "Patch exports before imports, so that there is no race
    condition: if a thread starts importing before we patch, we will fix it during the imports
    fixup, and if it imports after we patch, it will have the right address" (lines 198-199). *)
From stdpp Require Import prelude gmap.
Local Open Scope N_scope.

(** Where calls of the hooked function may lead. *)
Inductive target := Original | Hook | Elsewhere.
Global Instance target_dec : EqDecision target.
Proof. solve_decision. Defined.

(** A module in InMemoryOrderModuleList: whether it exports the function (ntdll.dll does), and the
    number of entries in its import tables. *)
Record wmod := mkWm { wm_exports : bool; wm_slots : N }.
(** Where the hooking thread is: before the exports of a module, before an entry of its import
    tables, or through. *)
Inductive place := PExport (i : nat) | PImport (i : nat) (s : N) | PThrough.
Record wstate := mkWs {
  ws_mods : list wmod;
  ws_export : target;                  (* what GetProcAddress and the loader find *)
  ws_table : gmap (nat * N) target;    (* entries of import tables that are bound *)
  ws_place : place;
  ws_found : gmap N target }.          (* looked up by a thread, not stored yet *)

(** One step of the hooking thread. It steps over the exports (lines 200-346), one entry of an
    import table (lines 369-396), or to the next module (line 400). Reading an entry and changing it
    are one step here: what another thread stores in between is overwritten with the hook. *)
Definition hook_step (w : wstate) : wstate :=
  let go p := mkWs (ws_mods w) (ws_export w) (ws_table w) p (ws_found w) in
  match ws_place w with
  | PThrough => w
  | PExport i =>
      match ws_mods w !! i with
      | None => go PThrough
      | Some m => mkWs (ws_mods w) (if wm_exports m then Hook else ws_export w) (ws_table w)
                    (PImport i 0) (ws_found w)
      end
  | PImport i s =>
      match ws_mods w !! i with
      | None => go PThrough
      | Some m =>
          if s <? wm_slots m then
            let t := ws_table w in
            let t := if bool_decide (t !! (i, s) = Some Original) then <[(i, s) := Hook]> t else t in
            mkWs (ws_mods w) (ws_export w) t (PImport i (s + 1)) (ws_found w)
          else go (PExport (S i))
      end
  end.

(** What other threads do: load a module (it goes to the end of the list; its entries are not
    bound yet), look the function up, store what was found in an entry; or the last two at
    once. *)
Inductive other :=
  | OLoad (slots : N)
  | OFind (thread : N)
  | OStore (thread : N) (i : nat) (s : N)
  | OBind (i : nat) (s : N).
Definition put (i : nat) (s : N) (a : target) (w : wstate) : wstate :=
  match ws_mods w !! i with
  | Some m =>
      if s <? wm_slots m then
        mkWs (ws_mods w) (ws_export w) (<[(i, s) := a]> (ws_table w)) (ws_place w) (ws_found w)
      else w
  | None => w
  end.
Definition other_step (o : other) (w : wstate) : wstate :=
  match o with
  | OLoad n => mkWs (ws_mods w ++ [mkWm false n]) (ws_export w) (ws_table w) (ws_place w) (ws_found w)
  | OFind t => mkWs (ws_mods w) (ws_export w) (ws_table w) (ws_place w) (<[t := ws_export w]> (ws_found w))
  | OStore t i s => match ws_found w !! t with Some a => put i s a w | None => w end
  | OBind i s => put i s (ws_export w) w
  end.

(** An interleaving: [None] is a step of the hooking thread. *)
Definition race_step (w : wstate) (e : option other) : wstate :=
  match e with None => hook_step w | Some o => other_step o w end.
Definition race (w : wstate) (es : list (option other)) : wstate := foldl race_step w es.
