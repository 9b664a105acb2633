(** The memory behind what log callbacks in C are given: bindings/C/broker/src/policy.rs:274-346,
    linux/mod.rs:23-53 and windows/mod.rs:27-97. *)
From stdpp Require Import prelude gmap.
From Coq Require Import Strings.Byte.
From Verif Require Import Bytes PolicyModel LinuxPolicyModel WinPolicyModel.
Local Open Scope N_scope.

(** A block of the Rust allocator. Addresses are numbers of blocks. *)
Record block := mkBlock { bk_size : N; bk_align : N; bk_bytes : list byte }.
Notation blocks := (gmap N block).

(** What is given to the callback. *)
Inductive given_request :=
  | GFileOpen (path : N) (flags : Z)
  | GSyscall (nb : Z) (args : list Z) (ip : Z)
  | GWinFileOpen (path : N) (numbers : list Z) (ea : N) (ea_length : N)
  | GWinRegKeyOpen (path : N) (numbers : list Z) (do_create : bool).
Inductive given_verdict :=
  | GGranted
  | GDenied (why : N)
  | GUnsupported (why : N)
  | GInvalid (argument_name why : N).

(** What the allocator and the callback see: requests for memory with their layout, memory that is
    given back with its layout, and the call with the memory at that time. *)
Inductive mevent :=
  | EvAlloc (a size align : N)
  | EvFree (a size align : N)
  | EvCallback (q : given_request) (v : given_verdict) (h : blocks).
Record cmem := mkCmem { cm_heap : blocks; cm_next : N; cm_events : list mevent }.

Definition c_alloc (size align : N) (bytes : list byte) (m : cmem) : N * cmem :=
  (cm_next m, mkCmem (<[cm_next m := mkBlock size align bytes]> (cm_heap m)) (cm_next m + 1)
                (cm_events m ++ [EvAlloc (cm_next m) size align])).
Definition c_free (a size align : N) (m : cmem) : cmem :=
  mkCmem (delete a (cm_heap m)) (cm_next m) (cm_events m ++ [EvFree a size align]).
(** std::alloc::alloc and copy_nonoverlapping, windows/mod.rs:45-50 *)
Definition raw_new (bytes : list byte) (m : cmem) : N * cmem :=
  c_alloc (N.of_nat (length bytes)) 16 bytes m.
(** CString::new(s).unwrap().into_raw(); [None] is the panic. The buffer that CString::new gives
    back before the panic is not modelled. *)
Definition string_new (w : str) (m : cmem) : option N * cmem :=
  if contains [x00] w then (None, m)
  else let '(a, m) := c_alloc (N.of_nat (length w) + 1) 1 (w ++ [x00]) m in (Some a, m).
(** CString::from_raw finds the length again with strlen. *)
Fixpoint c_strlen (b : list byte) : N :=
  match b with [] => 0 | c :: b => if Byte.eqb c x00 then 0 else 1 + c_strlen b end.
Definition string_drop (a : N) (m : cmem) : cmem :=
  let len := match cm_heap m !! a with Some b => c_strlen (bk_bytes b) | None => 0 end in
  c_free a (len + 1) 1 m.

Inductive any_request := OnLinux (r : lx_request) | OnWindows (r : win_request).
(** linux/mod.rs:23-42 and windows/mod.rs:27-75 *)
Definition given_of_request (r : any_request) (m : cmem) : option given_request * cmem :=
  match r with
  | OnLinux (FileOpen path flags) =>
      let '(a, m) := string_new path m in ((λ a, GFileOpen a flags) <$> a, m)
  | OnLinux (Syscall nb args ip) => (Some (GSyscall nb args ip), m)
  | OnWindows (WinFileOpen f) =>
      let '(ea, m) := raw_new (fr_ea f) m in
      let '(a, m) := string_new (fr_path f) m in
      ((λ a, GWinFileOpen a [fr_access f; fr_attributes f; fr_share f; fr_disposition f; fr_options f]
               ea (N.of_nat (length (fr_ea f)))) <$> a, m)
  | OnWindows (WinRegKeyOpen path access options create) =>
      let '(a, m) := string_new path m in ((λ a, GWinRegKeyOpen a [access; options] create) <$> a, m)
  end.
(** linux/mod.rs:44-53 and windows/mod.rs:77-97 *)
Definition drop_request (q : given_request) (m : cmem) : cmem :=
  match q with
  | GFileOpen path _ => string_drop path m
  | GSyscall _ _ _ => m
  | GWinFileOpen path _ ea len => c_free ea len 16 (string_drop path m)
  | GWinRegKeyOpen path _ _ => string_drop path m
  end.
(** policy.rs:274-294 *)
Definition given_of_verdict (v : verdict) (m : cmem) : option given_verdict * cmem :=
  match v with
  | Granted => (Some GGranted, m)
  | DeniedByPolicy why => let '(a, m) := string_new why m in (GDenied <$> a, m)
  | DelegationToSandboxNotSupported why => let '(a, m) := string_new why m in (GUnsupported <$> a, m)
  | InvalidRequestParameters arg why =>
      match string_new arg m with
      | (None, m) => (None, m)
      | (Some a, m) => let '(b, m) := string_new why m in (GInvalid a <$> b, m)
      end
  end.
(** policy.rs:296-310 *)
Definition drop_verdict (v : given_verdict) (m : cmem) : cmem :=
  match v with
  | GGranted => m
  | GDenied why | GUnsupported why => string_drop why m
  | GInvalid a why => string_drop why (string_drop a m)
  end.
(** The closure at policy.rs:338-345: what it made is dropped at its end, the verdict first, and
    when it panics. [false]: it panicked. *)
Definition log_closure (r : any_request) (v : verdict) (m : cmem) : bool * cmem :=
  match given_of_request r m with
  | (None, m) => (false, m)
  | (Some q, m) =>
      match given_of_verdict v m with
      | (None, m) => (false, drop_request q m)
      | (Some gv, m) =>
          let m := mkCmem (cm_heap m) (cm_next m) (cm_events m ++ [EvCallback q gv (cm_heap m)]) in
          (true, drop_request q (drop_verdict gv m))
      end
  end.
