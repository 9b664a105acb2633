(** Specification vocabulary for the hooks of a Windows worker. *)
From stdpp Require Import prelude gmap.
From Verif Require Import Bytes PostcardModel PostcardSpec TrampolineModel WinBrokerModel WinBrokerSpec WinHookModel.
Local Open Scope Z_scope.

(** Running from [loc] gets to [target] with the stack pointer back where it was and no
    memory changed but the eight bytes below it. *)
Definition jumps (w : width) (m : memory) (loc target sp : Z) : Prop :=
  ∃ n m', msteps w n (mkMachine loc sp m) = Some (mkMachine target sp m') ∧
    ∀ x, (∀ i, 0 < i ≤ 8 → x ≠ (sp - i) mod wmod w) → m' x = m x.
(** The eight bytes below the stack pointer are not in the fourteen bytes at [loc]. *)
Definition stack_clear (w : width) (sp loc : Z) : Prop :=
  ∀ i j, 0 < i ≤ 8 → 0 ≤ j < 14 → (sp - i) mod wmod w ≠ (loc + j) mod wmod w.
Definition is_addr (w : width) (a : Z) : Prop := 0 ≤ a < wmod w.

(** Calling [a] runs [f]: directly or through a trampoline, whatever the stack pointer. *)
Definition runs (w : width) (m : memory) (a f : Z) : Prop :=
  a = f ∨ ∀ sp, is_addr w sp → stack_clear w sp a → jumps w m a f sp.

(** Address that entry [e] of the exports of a module stands for; thunk [j] of its import
    descriptor [i]. *)
Definition export_at (d : dll) (e : nat) (a : Z) : Prop :=
  ∃ rva, dl_exports d !! e = Some rva ∧ a = dl_base d + rva.
Definition thunk_at (d : dll) (i j : nat) (a : Z) : Prop :=
  ∃ de, dl_imports d !! i = Some de ∧ de_thunks de !! j = Some a.
(** An import the loader knows of: no end marker before it in either list. *)
Definition live (d : dll) (i j : nat) : Prop :=
  (∀ k de, (k ≤ i)%nat → dl_imports d !! k = Some de → de_first_thunk de ≠ 0 ∧ de_name de ≠ 0) ∧
  (∀ k a, (k ≤ j)%nat → thunk_at d i k a → a ≠ 0).

(** The memory manager: a region said to be free is inside the address space, clear of the
    trampolines and of every address in [code]; a region said to be taken has no free place. *)
Definition manager_ok (w : width) (env : hook_env) (code : list Z) : Prop :=
  0 < he_granularity env ∧
  (∀ T p size, he_query env T p = Some (true, size) →
     0 ≤ p ∧ p + 14 ≤ wmod w ∧ p ∉ code ∧ ∀ t, t ∈ T → p + 14 ≤ t ∨ t + 14 ≤ p) ∧
  (∀ T p size, he_query env T p = Some (false, size) → 0 < size ∧
     ∀ q size', p ≤ q < p + size → he_query env T q ≠ Some (true, size')).
(** With fewer than [n] trampolines, there is room within 4 GiB above [base]. *)
Definition room (env : hook_env) (n : nat) (base : Z) : Prop :=
  ∀ T, (length T < n)%nat → ∃ p size, base ≤ p < base + 2 ^ 32 ∧ p mod he_granularity env = 0 ∧
    he_query env T p = Some (true, size).

(** Modules inside the address space. *)
Definition dll_ok (w : width) (d : dll) : Prop :=
  is_addr w (dl_base d) ∧ ∀ e a, export_at d e a → is_addr w a.

(** [d'] is [d] with every entry for the first function of a pair, and only those, leading
    to the second. *)
Definition redirected (w : width) (m : memory) (pairs : list (Z * Z)) (d d' : dll) : Prop :=
  dl_base d' = dl_base d ∧
  length (dl_exports d') = length (dl_exports d) ∧
  (∀ e a, export_at d e a → ∃ a', export_at d' e a' ∧
     (∀ o n, (o, n) ∈ pairs → a = o → runs w m a' n) ∧ (a ∉ pairs.*1 → a' = a)) ∧
  (∀ i j a, thunk_at d i j a → ∃ a', thunk_at d' i j a' ∧
     (∀ o n, (o, n) ∈ pairs → live d i j → a = o → a' = n) ∧
     (¬ live d i j ∨ a ∉ pairs.*1 → a' = a)) ∧
  (∀ i j a', thunk_at d' i j a' → ∃ a, thunk_at d i j a).

(** Names without unpaired surrogates. *)
Definition well_formed (us : list N) : Prop := ∃ s, utf16_of s us.
Definition us_ok (u : unicode_string) : Prop :=
  (us_length u < 2 ^ 16)%N ∧ Forall (λ x, x < 2 ^ 16)%N (us_buffer u).

(** Values the parameters can hold. *)
Definition oa_ok (oa : option object_attributes) : Prop :=
  ∀ x u, oa = Some x → oa_name x = Some u → us_ok u.
Definition file_args_ok (a : file_args) : Prop :=
  is_u32 (fa_access a) ∧ is_u32 (fa_attributes a) ∧ is_u32 (fa_share a) ∧
  is_u32 (fa_disposition a) ∧ is_u32 (fa_options a) ∧ (∀ z, fa_alloc a = Some z → is_i64 z) ∧
  oa_ok (fa_oa a).
Definition open_args_ok (a : open_args) : Prop :=
  is_u32 (op_access a) ∧ is_u32 (op_share a) ∧ is_u32 (op_options a) ∧ oa_ok (op_oa a).
Definition key_args_ok (a : key_args) : Prop :=
  is_u32 (ka_access a) ∧ is_u32 (ka_options a) ∧ oa_ok (ka_oa a) ∧
  (∀ c, ka_class a = Some c → us_ok c).

(** A call that can be passed on: the name is given in full, and nothing is asked for that
    the message cannot hold. *)
Definition file_name (a : file_args) (us : list N) : Prop :=
  fa_handle a = true ∧ fa_iosb a = true ∧ fa_ea_length a = 0 ∧
  ∃ oa u, fa_oa a = Some oa ∧ oa_root oa = 0%N ∧ oa_name oa = Some u ∧ us = us_units u.
Definition open_name (a : open_args) (us : list N) : Prop :=
  op_handle a = true ∧ op_iosb a = true ∧
  ∃ oa u, op_oa a = Some oa ∧ oa_root oa = 0%N ∧ oa_name oa = Some u ∧ us = us_units u.
Definition key_name (a : key_args) (us : list N) : Prop :=
  ka_handle a = true ∧ ka_title a = 0 ∧
  ∃ oa u, ka_oa a = Some oa ∧ oa_root oa = 0%N ∧ oa_name oa = Some u ∧ us = us_units u.

(** [b] is a message the broker takes for a call of [c], subject to question [q]. *)
Definition asks_for (b : str) (q : str → WinPolicyModel.win_request) (us : list N) (c : nt_call) : Prop :=
  ∃ m path, plain_read (RdMessage b) m ∧ utf16_of path us ∧ question m (q path) ∧
    ∀ c', call_for m c' ↔ c' = c.

(** The kernel's answers have the types of the answer's fields, and the handles announced
    fit the worker's pointers. *)
Definition answers_ok (w : width) (es : list wevent) : Prop :=
  (∀ c a, WCalled c a ∈ es → is_i32 (nt_status a) ∧
     (nt_info a < match c with NtCreateFile _ _ _ _ _ _ _ _ => 2 ^ 64 | _ => 2 ^ 32 end)%N) ∧
  (∀ l r o, WDuplicated l r o ∈ es → Z.of_N r < wmod w).
(** The request [b] was served by the broker in the events [es]; what it sent came back. *)
Definition served (w : width) (tr : pipe) (b : str) (t : gmap N N) (granted : Prop)
    (es : list wevent) : Prop :=
  ∃ m b', plain_read (RdMessage b) m ∧ exchange t granted m es ∧ answers_ok w es ∧
    WSent b' ∈ es ∧ tr b = Some (RdMessage b').
(** The outcome of the system call made in [es]: its status, the object's handle in the
    worker or null, and the Information value. *)
Definition outcome (es : list wevent) (status : Z) (handle : N) (info : N) : Prop :=
  ∃ c a, WCalled c a ∈ es ∧ status = nt_status a ∧ info = nt_info a ∧
    ((nt_status a < 0 ∧ handle = 0%N) ∨
     (0 ≤ nt_status a ∧ ∃ local, WDuplicated local handle (nt_object a) ∈ es)).
