(** Model of worker/src/windows/lockdown.rs: the trampolines, the patching of the export
    and import tables of the loaded modules, and the hooked system calls. *)
From stdpp Require Import prelude.
From Coq Require Import Strings.Byte.
From Verif Require Import Bytes PolicyModel PostcardModel TrampolineModel WinBrokerModel.
Local Open Scope Z_scope.

(* ---------------------------------------------------------------- trampolines *)

(** lockdown.rs:423-442 (x86_64) and 404-421 (x86): the bytes of [patch]. On x86 [isize] is
    32 bits wide, so the offset wraps and the [expect] never fails. *)
Definition trampoline (w : width) (loc target : Z) : list Z :=
  match w with
  | W64 => 104 :: le_bytes 4 (target mod 2 ^ 32) ++ [199; 68; 36; 4] ++
           le_bytes 4 (target / 2 ^ 32) ++ [195]
  | W32 => 233 :: le_bytes 4 (target - (loc + 5))
  end.
(** lockdown.rs:417-420 and 438-441: the copy to [location]. *)
Definition write_trampoline (w : width) (m : memory) (loc target : Z) : memory :=
  store_bytes (wmod w) m loc (trampoline w loc target).

(** The processor: instruction pointer, stack pointer, memory. The four instructions below
    change nothing else (Intel SDM vol. 2: PUSH imm32, MOV r/m32 imm32 with base rsp and an
    8-bit displacement, RET, JMP rel32). Protection of pages is in WinPatchModel only. *)
Record machine := mkMachine { mc_ip : Z; mc_sp : Z; mc_mem : memory }.
Definition sext (bits v : Z) : Z := if decide (v < 2 ^ (bits - 1)) then v else v - 2 ^ bits.
Definition mstep (w : width) (c : machine) : option machine :=
  let M := wmod w in
  let '(mkMachine ip sp m) := c in
  let imm a := of_le (load_bytes M m a 4) in
  match load_bytes M m ip 1, w with
  | [104], W64 =>
      let sp' := (sp - 8) mod M in
      Some (mkMachine ((ip + 5) mod M) sp' (store W64 m sp' (sext 32 (imm (ip + 1)))))
  | [199], W64 =>
      match load_bytes M m (ip + 1) 3 with
      | [68; 36; d] =>
          Some (mkMachine ((ip + 8) mod M) sp
                  (store_bytes M m (sp + sext 8 d) (le_bytes 4 (imm (ip + 4)))))
      | _ => None
      end
  | [195], _ => Some (mkMachine (load w m sp) ((sp + Z.of_nat (wbytes w)) mod M) m)
  | [233], _ => Some (mkMachine ((ip + 5 + sext 32 (imm (ip + 1))) mod M) sp m)
  | _, _ => None
  end.
Fixpoint msteps (w : width) (n : nat) (c : machine) : option machine :=
  match n with
  | O => Some c
  | S n => match mstep w c with Some c' => msteps w n c' | None => None end
  end.

(* ---------------------------------------------------------------- patching *)

(** An import descriptor, with the thunks its FirstThunk leads to. *)
Record descriptor := mkDesc { de_first_thunk : Z; de_name : Z; de_thunks : list Z }.
(** A loaded module: base address, export RVAs, import descriptors; the lists are empty
    when the directory is absent. A descriptor or thunk list ends where the code stops
    reading; header magics and the architecture are taken to be as expected (lines 165-193,
    otherwise the code panics). Addresses do not wrap: [base + rva] is below [wmod w]. *)
Record dll := mkDll { dl_base : Z; dl_exports : list Z; dl_imports : list descriptor }.

(** The memory manager, given the trampolines allocated so far: VirtualQuery (is the region
    free, and its size), and whether VirtualAlloc, VirtualProtect and FlushInstructionCache
    all succeed at a place (otherwise the code panics). *)
Record hook_env := mkHookEnv {
  he_granularity : Z;
  he_query : list Z → Z → option (bool * Z);
  he_alloc : list Z → Z → bool }.

(** lockdown.rs:104-106 *)
Definition align_up (p g : Z) : Z := (p + g - 1) / g * g.
(** lockdown.rs:247-283: the loop, [size] being mem_info.RegionSize. [None]: panic, or out
    of fuel. *)
Fixpoint find_hole (fuel : nat) (env : hook_env) (T : list Z) (p size : Z) : option Z :=
  match fuel with
  | O => None
  | S f =>
      let p' := align_up (p + size) (he_granularity env) in
      match he_query env T p' with
      | None => None
      | Some (false, size') => find_hole f env T p' size'
      | Some (true, _) => if he_alloc env T p' then Some p' else None
      end
  end.

(** What changes while hooking: the memory at the trampolines, and where they are. *)
Record hook_state := mkHs { hs_mem : memory; hs_tramps : list Z }.

(** lockdown.rs:232-343: the new RVA of a matching export, [tramp] being trampoline_addr. *)
Definition hook_rva (fuel : nat) (w : width) (env : hook_env) (base new : Z)
    (tramp : option Z) (s : hook_state) : option (Z * option Z * hook_state) :=
  if decide (base < new ∧ new - base < 2 ^ 32) then Some (new - base, tramp, s)
  else
    match tramp with
    | Some t => Some ((t - base) mod 2 ^ 32, tramp, s)
    | None =>
        match find_hole fuel env (hs_tramps s) (align_up base (he_granularity env)) 0 with
        | None => None
        | Some t =>
            Some ((t - base) mod 2 ^ 32, Some t,
                  mkHs (write_trampoline w (hs_mem s) t new) (hs_tramps s ++ [t]))
        end
    end.
(** lockdown.rs:222-354 *)
Fixpoint patch_exports (fuel : nat) (w : width) (env : hook_env) (base orig new : Z)
    (rvas : list Z) (tramp : option Z) (s : hook_state) : option (list Z * hook_state) :=
  match rvas with
  | [] => Some ([], s)
  | rva :: rest =>
      if decide (base + rva = orig) then
        match hook_rva fuel w env base new tramp s with
        | None => None
        | Some (r, tramp', s') =>
            match patch_exports fuel w env base orig new rest tramp' s' with
            | None => None
            | Some (rest', s'') => Some (r :: rest', s'')
            end
        end
      else
        match patch_exports fuel w env base orig new rest tramp s with
        | None => None
        | Some (rest', s'') => Some (rva :: rest', s'')
        end
  end.
(** lockdown.rs:373-396 *)
Fixpoint patch_thunks (orig new : Z) (ts : list Z) : list Z :=
  match ts with
  | [] => []
  | t :: rest =>
      if decide (t = 0) then t :: rest
      else (if decide (t = orig) then new else t) :: patch_thunks orig new rest
  end.
(** lockdown.rs:361-397 *)
Fixpoint patch_imports (orig new : Z) (ds : list descriptor) : list descriptor :=
  match ds with
  | [] => []
  | d :: rest =>
      if decide (de_first_thunk d = 0 ∨ de_name d = 0) then d :: rest
      else mkDesc (de_first_thunk d) (de_name d) (patch_thunks orig new (de_thunks d)) ::
           patch_imports orig new rest
  end.
(** lockdown.rs:158-400: the loop over the loaded modules. *)
Fixpoint patch_dlls (fuel : nat) (w : width) (env : hook_env) (orig new : Z) (ds : list dll)
    (s : hook_state) : option (list dll * hook_state) :=
  match ds with
  | [] => Some ([], s)
  | d :: rest =>
      match patch_exports fuel w env (dl_base d) orig new (dl_exports d) None s with
      | None => None
      | Some (rvas, s') =>
          match patch_dlls fuel w env orig new rest s' with
          | None => None
          | Some (rest', s'') =>
              Some (mkDll (dl_base d) rvas (patch_imports orig new (dl_imports d)) :: rest', s'')
          end
      end
  end.
(** lockdown.rs:108-127: GetProcAddress reads entry [e] of the export table of module [k]. *)
Definition get_proc (ds : list dll) (k e : nat) : option Z :=
  match ds !! k with
  | None => None
  | Some d => match dl_exports d !! e with None => None | Some rva => Some (dl_base d + rva) end
  end.
(** lockdown.rs:108-401 *)
Definition hook_function (fuel : nat) (w : width) (env : hook_env) (k e : nat) (new : Z)
    (ds : list dll) (s : hook_state) : option (list dll * hook_state) :=
  match get_proc ds k e with
  | None => None
  | Some orig => patch_dlls fuel w env orig new ds s
  end.
(** lockdown.rs:764-771, [hooks] being the three functions hooked, in order. *)
Fixpoint hook_functions (fuel : nat) (w : width) (env : hook_env) (k : nat)
    (hooks : list (nat * Z)) (ds : list dll) (s : hook_state) : option (list dll * hook_state) :=
  match hooks with
  | [] => Some (ds, s)
  | (e, new) :: rest =>
      match hook_function fuel w env k e new ds s with
      | None => None
      | Some (ds', s') => hook_functions fuel w env k rest ds' s'
      end
  end.

(* ---------------------------------------------------------------- the hooked calls *)

(** Rust core [char::decode_utf16] with U+FFFD for an unpaired surrogate, as
    [String::from_utf16_lossy] has it. *)
Fixpoint decode_utf16 (us : list N) : list N :=
  match us with
  | [] => []
  | u :: rest =>
      if decide (u < 0xD800 ∨ 0xE000 ≤ u)%N then u :: decode_utf16 rest
      else if decide (0xDC00 ≤ u)%N then 0xFFFD%N :: decode_utf16 rest
      else
        match rest with
        | [] => [0xFFFD%N]
        | v :: rest' =>
            if decide (0xDC00 ≤ v < 0xE000)%N then
              (0x10000 + (u - 0xD800) * 0x400 + (v - 0xDC00))%N :: decode_utf16 rest'
            else 0xFFFD%N :: decode_utf16 rest
        end
  end.
(** Rust core [char::encode_utf8]. *)
Definition utf8_of_char (c : N) : str :=
  map byte_of_N
    (if decide (c < 0x80) then [c]
     else if decide (c < 0x800) then [0xC0 + c / 64; 0x80 + c mod 64]
     else if decide (c < 0x10000) then [0xE0 + c / 4096; 0x80 + c / 64 mod 64; 0x80 + c mod 64]
     else [0xF0 + c / 262144; 0x80 + c / 4096 mod 64; 0x80 + c / 64 mod 64; 0x80 + c mod 64])%N.
Definition from_utf16_lossy (us : list N) : str := concat (map utf8_of_char (decode_utf16 us)).

(** OBJECT_ATTRIBUTES. *)
Record object_attributes := mkOa {
  oa_root : N; oa_name : option unicode_string; oa_attributes : Z; oa_security : N }.

Definition STATUS_INVALID_PARAMETER : Z := -1073741811. (* 0xC000000D *)
Definition STATUS_NOT_SUPPORTED : Z := -1073741637.     (* 0xC00000BB *)

(** How a hooked call ends: its status, and what it wrote at the pointers it was given: the
    handle, the Information (or disposition) and the Status field of the IO_STATUS_BLOCK;
    [None] is for not written. *)
Inductive hook_end :=
  | Returned (code : Z) (handle : option N) (info : option N) (iosb_status : option Z)
  | Panicked.

(** The pipe, from the worker's side: what reading gives once [b] was written, [None] when
    the write fails. *)
Definition pipe := str → option wread.

(** lockdown.rs:730-743, with the first component for what was written to the pipe. *)
Definition win_send_recv (tr : pipe) (m : win_msg) : list str * option (win_reply_in * option N) :=
  match serialize (enc_wrapped enc_wreq) (m, None) IPC_MESSAGE_MAX_SIZE with
  | None => ([], None)
  | Some b =>
      match tr b with
      | None => ([], None)
      | Some r =>
          ([b], match win_recv dec_wrep r with Ok (Some x) => Some x | _ => None end)
      end
  end.

(** [usize::try_from] of a received handle. *)
Definition handle_fits (w : width) (h : option N) : bool :=
  match h with None => true | Some h => bool_decide (Z.of_N h < wmod w) end.

(** The parameters of NtCreateFile; [false] or [None] for a null pointer. *)
Record file_args := mkFileArgs {
  fa_handle : bool; fa_access : Z; fa_oa : option object_attributes; fa_iosb : bool;
  fa_alloc : option Z; fa_attributes : Z; fa_share : Z; fa_disposition : Z; fa_options : Z;
  fa_ea_length : Z }.
(** lockdown.rs:549-576: an EA of length zero is all that gets here (line 532). *)
Definition file_message (a : file_args) (u : unicode_string) : win_msg :=
  WReqFile (fa_access a) (from_utf16_lossy (us_units u)) (default 0 (fa_alloc a))
    (fa_attributes a) (fa_share a) (fa_disposition a) (fa_options a) [].
(** lockdown.rs:577-591 *)
Definition file_reply (w : width) (r : option (win_reply_in * option N)) : hook_end :=
  match r with
  | Some (WIn (WRepFile info code), h) =>
      if handle_fits w h then Returned code (Some (default 0%N h)) (Some info) None else Panicked
  | Some (WIn (WRepStatus code), None) => Returned code (Some 0%N) (Some 0%N) None
  | _ => Panicked
  end.
(** lockdown.rs:512-592 *)
Definition hook_ntcreatefile (w : width) (tr : pipe) (a : file_args) : list str * hook_end :=
  match fa_handle a, fa_oa a, fa_iosb a with
  | true, Some oa, true =>
      if decide (oa_root oa ≠ 0%N ∨ fa_ea_length a ≠ 0) then
        ([], Returned STATUS_NOT_SUPPORTED (Some 0%N) (Some 0%N) None)
      else
        match oa_name oa with
        | None => ([], Returned STATUS_INVALID_PARAMETER (Some 0%N) (Some 0%N) None)
        | Some u =>
            let '(sent, r) := win_send_recv tr (file_message a u) in
            (sent, file_reply w r)
        end
  | _, _, _ => ([], Returned STATUS_INVALID_PARAMETER None None None)
  end.
Definition FILE_OPEN : Z := 1.
(** The parameters of NtOpenFile. *)
Record open_args := mkOpenArgs {
  op_handle : bool; op_access : Z; op_oa : option object_attributes; op_iosb : bool;
  op_share : Z; op_options : Z }.
(** lockdown.rs:594-653 *)
Definition hook_ntopenfile (w : width) (tr : pipe) (a : open_args) : list str * hook_end :=
  match op_handle a, op_oa a, op_iosb a with
  | true, Some oa, true =>
      if decide (oa_root oa ≠ 0%N) then
        ([], Returned STATUS_NOT_SUPPORTED (Some 0%N) (Some 0%N) None)
      else
        match oa_name oa with
        | None => ([], Returned STATUS_INVALID_PARAMETER (Some 0%N) (Some 0%N) None)
        | Some u =>
            let '(sent, r) := win_send_recv tr
              (WReqFile (op_access a) (from_utf16_lossy (us_units u)) 0 0 (op_share a)
                 FILE_OPEN (op_options a) []) in
            (sent, file_reply w r)
        end
  | _, _, _ => ([], Returned STATUS_INVALID_PARAMETER None None None)
  end.

(** The parameters of NtCreateKey. *)
Record key_args := mkKeyArgs {
  ka_handle : bool; ka_access : Z; ka_oa : option object_attributes; ka_title : Z;
  ka_class : option unicode_string; ka_options : Z; ka_disposition : bool }.
(** lockdown.rs:687-706 *)
Definition key_message (a : key_args) (u : unicode_string) : win_msg :=
  WReqKey (ka_access a) (from_utf16_lossy (us_units u)) (ka_title a)
    (match ka_class a with Some c => Some (from_utf16_lossy (us_units c)) | None => None end)
    (ka_options a) true.
(** lockdown.rs:707-727; [given]: the disposition pointer is not null. *)
Definition key_reply (w : width) (given : bool) (r : option (win_reply_in * option N)) : hook_end :=
  let out n := if given then Some n else None in
  match r with
  | Some (WIn (WRepKey d code), h) =>
      if handle_fits w h then Returned code (Some (default 0%N h)) (out d) None else Panicked
  | Some (WIn (WRepStatus code), None) => Returned code (Some 0%N) (out 0%N) None
  | _ => Panicked
  end.
(** lockdown.rs:655-728 *)
Definition hook_ntcreatekey (w : width) (tr : pipe) (a : key_args) : list str * hook_end :=
  let out n := if ka_disposition a then Some n else None in
  match ka_handle a, ka_oa a with
  | true, Some oa =>
      if decide (oa_root oa ≠ 0%N ∨ ka_title a ≠ 0) then
        ([], Returned STATUS_NOT_SUPPORTED (Some 0%N) (out 0%N) None)
      else
        match oa_name oa with
        | None => ([], Returned STATUS_INVALID_PARAMETER (Some 0%N) (out 0%N) None)
        | Some u =>
            let '(sent, r) := win_send_recv tr (key_message a u) in
            (sent, key_reply w (ka_disposition a) r)
        end
  | _, _ => ([], Returned STATUS_INVALID_PARAMETER None None None)
  end.

(** lockdown.rs:752-763: the first exchange. [false]: panic. *)
Definition win_worker_init (tr : pipe) : list str * bool :=
  let '(sent, r) := win_send_recv tr WReqInit in
  (sent, match r with Some (WInInit _, None) => true | _ => false end).
