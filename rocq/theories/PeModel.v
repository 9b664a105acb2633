(** How hooking finds the tables of the loaded modules: worker/src/windows/lockdown.rs:128-222 and
    355-372 read the process environment block, the list of modules and the headers of each
    module in memory. [WinPatchModel] and [WinHookModel] start from the tables found here.

    Simplifications: NtQueryInformationProcess gives the address of the block (a failure
    panics); the export directory's name is read for a message only (208-214); headers and
    import descriptors are read before anything is patched, which changes neither (C118). *)
From stdpp Require Import prelude strings.
From Verif Require Import Bytes TrampolineModel WinHookModel WinPatchModel.
Local Open Scope Z_scope.
Local Coercion Z.of_nat : nat >-> Z.

(* ---------------------------------------------------------------- repr(C) *)

(** Fields with their size and alignment. Rust places each at the next multiple of its
    alignment, which a packed structure limits to [pack]. *)
Definition fields := list (string * (Z * Z)).
Definition next_multiple (x a : Z) : Z := (x + a - 1) / a * a.
Fixpoint offset_from (pack x : Z) (fs : fields) (name : string) : option Z :=
  match fs with
  | [] => None
  | (f, (size, align)) :: fs =>
      let o := next_multiple x (Z.min pack align) in
      if bool_decide (f = name) then Some o else offset_from pack (o + size) fs name
  end.
Definition offset_in (pack : Z) (fs : fields) (name : string) : Z :=
  default 0 (offset_from pack 0 fs name).
Definition align_of (pack : Z) (fs : fields) : Z :=
  foldr (λ f, Z.max (Z.min pack f.2.2)) 1 fs.
Fixpoint end_from (pack x : Z) (fs : fields) : Z :=
  match fs with
  | [] => x
  | (_, (size, align)) :: fs => end_from pack (next_multiple x (Z.min pack align) + size) fs
  end.
Definition size_in (pack : Z) (fs : fields) : Z :=
  next_multiple (end_from pack 0 fs) (align_of pack fs).
Definition scalar (n : Z) : Z * Z := (n, n).
Definition array (k : Z) (t : Z * Z) : Z * Z := (k * t.1, t.2).
Definition struct (pack : Z) (fs : fields) : Z * Z := (size_in pack fs, align_of pack fs).

(* ---------------------------------------------------------------- structures *)

Definition BYTE := scalar 1.
Definition WORD := scalar 2.
Definition DWORD := scalar 4.
Definition PVOID (w : width) := scalar (wbytes w).
(** The packing of the structures of the library. *)
Definition NATURAL : Z := 8.

(** lockdown.rs:56-60 *)
Definition LIST_ENTRY (w : width) : fields := [("Flink", PVOID w); ("Blink", PVOID w)].
(** lockdown.rs:61-68 *)
Definition LDR_DATA_TABLE_ENTRY (w : width) : fields :=
  [("Reserved1", array 2 (PVOID w)); ("InMemoryOrderLinks", struct NATURAL (LIST_ENTRY w));
   ("Reserved2", array 2 (PVOID w)); ("DllBase", PVOID w)].
(** lockdown.rs:69-74 *)
Definition PEB_LDR_DATA (w : width) : fields :=
  [("Reserved1", array 8 BYTE); ("Reserved2", array 3 (PVOID w));
   ("InMemoryOrderModuleList", struct NATURAL (LIST_ENTRY w))].
(** lockdown.rs:75-82 *)
Definition PEB (w : width) : fields :=
  [("Reserved1", array 2 BYTE); ("BeingDebugged", BYTE); ("Reserved2", BYTE);
   ("Reserved3", array 2 (PVOID w)); ("Ldr", PVOID w)].

(** winnt.h, as the winapi crate has it (lockdown.rs:26-33). winnt.h packs them (two bytes for
    the DOS header, four for the others); [pack] is the packing. *)
Definition IMAGE_DOS_HEADER : fields :=
  [("e_magic", WORD); ("e_cblp", WORD); ("e_cp", WORD); ("e_crlc", WORD); ("e_cparhdr", WORD);
   ("e_minalloc", WORD); ("e_maxalloc", WORD); ("e_ss", WORD); ("e_sp", WORD); ("e_csum", WORD);
   ("e_ip", WORD); ("e_cs", WORD); ("e_lfarlc", WORD); ("e_ovno", WORD); ("e_res", array 4 WORD);
   ("e_oemid", WORD); ("e_oeminfo", WORD); ("e_res2", array 10 WORD); ("e_lfanew", DWORD)].
Definition IMAGE_FILE_HEADER : fields :=
  [("Machine", WORD); ("NumberOfSections", WORD); ("TimeDateStamp", DWORD);
   ("PointerToSymbolTable", DWORD); ("NumberOfSymbols", DWORD); ("SizeOfOptionalHeader", WORD);
   ("Characteristics", WORD)].
Definition IMAGE_DATA_DIRECTORY : fields := [("VirtualAddress", DWORD); ("Size", DWORD)].
Definition IMAGE_OPTIONAL_HEADER (w : width) (pack : Z) : fields :=
  let SIZE := match w with W64 => scalar 8 | W32 => DWORD end in
  [("Magic", WORD); ("MajorLinkerVersion", BYTE); ("MinorLinkerVersion", BYTE);
   ("SizeOfCode", DWORD); ("SizeOfInitializedData", DWORD); ("SizeOfUninitializedData", DWORD);
   ("AddressOfEntryPoint", DWORD); ("BaseOfCode", DWORD)] ++
  match w with W64 => [] | W32 => [("BaseOfData", DWORD)] end ++
  [("ImageBase", SIZE); ("SectionAlignment", DWORD); ("FileAlignment", DWORD);
   ("MajorOperatingSystemVersion", WORD); ("MinorOperatingSystemVersion", WORD);
   ("MajorImageVersion", WORD); ("MinorImageVersion", WORD); ("MajorSubsystemVersion", WORD);
   ("MinorSubsystemVersion", WORD); ("Win32VersionValue", DWORD); ("SizeOfImage", DWORD);
   ("SizeOfHeaders", DWORD); ("CheckSum", DWORD); ("Subsystem", WORD);
   ("DllCharacteristics", WORD); ("SizeOfStackReserve", SIZE); ("SizeOfStackCommit", SIZE);
   ("SizeOfHeapReserve", SIZE); ("SizeOfHeapCommit", SIZE); ("LoaderFlags", DWORD);
   ("NumberOfRvaAndSizes", DWORD);
   ("DataDirectory", array 16 (struct pack IMAGE_DATA_DIRECTORY))].
Definition IMAGE_NT_HEADERS (w : width) (pack : Z) : fields :=
  [("Signature", DWORD); ("FileHeader", struct pack IMAGE_FILE_HEADER);
   ("OptionalHeader", struct pack (IMAGE_OPTIONAL_HEADER w pack))].
Definition IMAGE_EXPORT_DIRECTORY : fields :=
  [("Characteristics", DWORD); ("TimeDateStamp", DWORD); ("MajorVersion", WORD);
   ("MinorVersion", WORD); ("Name", DWORD); ("Base", DWORD); ("NumberOfFunctions", DWORD);
   ("NumberOfNames", DWORD); ("AddressOfFunctions", DWORD); ("AddressOfNames", DWORD);
   ("AddressOfNameOrdinals", DWORD)].
Definition IMAGE_IMPORT_DESCRIPTOR : fields :=
  [("OriginalFirstThunk", DWORD); ("TimeDateStamp", DWORD); ("ForwarderChain", DWORD);
   ("Name", DWORD); ("FirstThunk", DWORD)].

(* ---------------------------------------------------------------- reading *)

Definition rd (w : width) (m : memory) (a : Z) (n : nat) : Z := of_le (load_bytes (wmod w) m a n).

(** lockdown.rs:361-372 *)
Fixpoint read_descriptors (fuel : nat) (w : width) (m : memory) (pack a : Z) : option (list (Z * Z)) :=
  match fuel with
  | O => None
  | S fuel =>
      let first := rd w m (a + offset_in pack IMAGE_IMPORT_DESCRIPTOR "FirstThunk") 4 in
      let name := rd w m (a + offset_in pack IMAGE_IMPORT_DESCRIPTOR "Name") 4 in
      if decide (first = 0 ∨ name = 0) then Some []
      else
        match read_descriptors fuel w m pack (a + size_in pack IMAGE_IMPORT_DESCRIPTOR) with
        | Some ds => Some ((first, name) :: ds)
        | None => None
        end
  end.

(** lockdown.rs:158-222 and 355-360: one module; [None]: a panic, or [fuel] descriptors are not
    the end. *)
Definition read_module (fuel : nat) (w : width) (pack : Z) (m : memory) (base : Z) : option module :=
  if negb (rd w m (base + offset_in pack IMAGE_DOS_HEADER "e_magic") 2 =? 0x5A4D) then None else
  let pe := base + sext 32 (rd w m (base + offset_in pack IMAGE_DOS_HEADER "e_lfanew") 4) in
  if negb (rd w m (pe + offset_in pack (IMAGE_NT_HEADERS W32 pack) "Signature") 4 =? 0x4550) then None else
  let arch := rd w m (pe + offset_in pack (IMAGE_NT_HEADERS W32 pack) "FileHeader" +
                      offset_in pack IMAGE_FILE_HEADER "Machine") 2 in
  let headers :=
    if arch =? 0x8664 then Some W64 else if arch =? 0x14C then Some W32 else None in
  match headers with
  | None => None
  | Some h =>
      let dirs := pe + offset_in pack (IMAGE_NT_HEADERS h pack) "OptionalHeader" +
                  offset_in pack (IMAGE_OPTIONAL_HEADER h pack) "DataDirectory" in
      let address k := rd w m (dirs + k * size_in pack IMAGE_DATA_DIRECTORY +
                               offset_in pack IMAGE_DATA_DIRECTORY "VirtualAddress") 4 in
      let size k := rd w m (dirs + k * size_in pack IMAGE_DATA_DIRECTORY +
                            offset_in pack IMAGE_DATA_DIRECTORY "Size") 4 in
      let exports :=
        if negb (address 0 =? 0) && negb (size 0 =? 0) then
          let e := base + address 0 in
          Some (rd w m (e + offset_in pack IMAGE_EXPORT_DIRECTORY "AddressOfFunctions") 4,
                Z.to_nat (rd w m (e + offset_in pack IMAGE_EXPORT_DIRECTORY "NumberOfFunctions") 4))
        else None in
      let imports :=
        if negb (address 1 =? 0) && negb (size 1 =? 0)
        then read_descriptors fuel w m pack (base + address 1)
        else Some [] in
      match imports with
      | Some ds => Some (mkModule base exports ds)
      | None => None
      end
  end.

(** lockdown.rs:158-163, 399: the list from position [pos] on. *)
Fixpoint walk (fuel depth : nat) (w : width) (pack : Z) (m : memory) (head pos : Z) : option (list module) :=
  match fuel with
  | O => None
  | S fuel =>
      if decide (pos = head) then Some []
      else
        let to_base := offset_in NATURAL (LDR_DATA_TABLE_ENTRY w) "DllBase" -
                       offset_in NATURAL (LDR_DATA_TABLE_ENTRY w) "InMemoryOrderLinks" in
        match read_module depth w pack m (load w m (pos + to_base)) with
        | None => None
        | Some d =>
            match walk fuel depth w pack m head
                    (load w m (pos + offset_in NATURAL (LIST_ENTRY w) "Flink")) with
            | Some ds => Some (d :: ds)
            | None => None
            end
        end
  end.
(** lockdown.rs:147-157 *)
Definition find_modules (fuel depth : nat) (w : width) (pack : Z) (m : memory) (peb : Z)
  : option (list module) :=
  let ldr := load w m (peb + offset_in NATURAL (PEB w) "Ldr") in
  let head := (ldr + offset_in NATURAL (PEB_LDR_DATA w) "InMemoryOrderModuleList") mod wmod w in
  walk fuel depth w pack m head (load w m (head + offset_in NATURAL (LIST_ENTRY w) "Flink")).
