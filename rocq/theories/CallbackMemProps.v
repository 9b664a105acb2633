(** C148: what a log callback in C is given is there while it runs, and given back afterwards. *)
From stdpp Require Import prelude gmap.
From Coq Require Import Strings.Byte.
From Verif Require Import Bytes PolicyModel LinuxPolicyModel WinPolicyModel BrokerProofs CallbackMemModel.
Local Open Scope N_scope.

(** The contract of the allocator (std::alloc::GlobalAlloc): no request for zero bytes; memory is
    given back once, with the layout it was requested with. *)
Fixpoint contract (live : gmap N (N * N)) (evs : list mevent) : Prop :=
  match evs with
  | [] => True
  | EvAlloc a size align :: evs =>
      0 < size ∧ live !! a = None ∧ contract (<[a := (size, align)]> live) evs
  | EvFree a size align :: evs => live !! a = Some (size, align) ∧ contract (delete a live) evs
  | EvCallback _ _ _ :: evs => contract live evs
  end.
Definition layouts (h : blocks) : gmap N (N * N) := (λ b, (bk_size b, bk_align b)) <$> h.

(** What a callback in C reads: a text up to its NUL, or a number of bytes. *)
Definition text_at (h : blocks) (a : N) (w : str) : Prop :=
  ∃ b, h !! a = Some b ∧ bk_bytes b = w ++ [x00] ∧ bk_size b = N.of_nat (length (bk_bytes b)) ∧ x00 ∉ w.
Definition bytes_at (h : blocks) (a len : N) (w : str) : Prop :=
  ∃ b, h !! a = Some b ∧ bk_bytes b = w ∧ bk_size b = len ∧ len = N.of_nat (length w).
Definition shows_request (h : blocks) (q : given_request) (r : any_request) : Prop :=
  match q, r with
  | GFileOpen a flags, OnLinux (FileOpen path flags') => text_at h a path ∧ flags = flags'
  | GSyscall nb args ip, OnLinux (Syscall nb' args' ip') => nb = nb' ∧ args = args' ∧ ip = ip'
  | GWinFileOpen a ns ea len, OnWindows (WinFileOpen f) =>
      text_at h a (fr_path f) ∧ bytes_at h ea len (fr_ea f) ∧
      ns = [fr_access f; fr_attributes f; fr_share f; fr_disposition f; fr_options f]
  | GWinRegKeyOpen a ns create, OnWindows (WinRegKeyOpen path access options create') =>
      text_at h a path ∧ ns = [access; options] ∧ create = create'
  | _, _ => False
  end.
Definition shows_verdict (h : blocks) (g : given_verdict) (v : verdict) : Prop :=
  match g, v with
  | GGranted, Granted => True
  | GDenied a, DeniedByPolicy why => text_at h a why
  | GUnsupported a, DelegationToSandboxNotSupported why => text_at h a why
  | GInvalid a b, InvalidRequestParameters arg why => text_at h a arg ∧ text_at h b why
  | _, _ => False
  end.

(** The allocator never hands out memory that is in use. *)
Definition sound (m : cmem) : Prop := cm_events m = [] ∧ ∀ a, cm_next m ≤ a → cm_heap m !! a = None.
(** The callback ran once, on what it should. *)
Definition calls (evs : list mevent) : list (given_request * given_verdict * blocks) :=
  omap (λ e, match e with EvCallback q v h => Some (q, v, h) | _ => None end) evs.
Definition fine (r : any_request) (v : verdict) (m : cmem) : Prop :=
  let '(ok, m') := log_closure r v m in
  ok = true ∧ contract (layouts (cm_heap m)) (cm_events m') ∧ cm_heap m' = cm_heap m ∧
  ∃ q g h, calls (cm_events m') = [(q, g, h)] ∧ shows_request h q r ∧ shows_verdict h g v.
Definition C148_full : Prop := ∀ r v m, sound m → fine r v m.

Definition texts_of_request (r : any_request) : list str :=
  match r with
  | OnLinux (FileOpen path _) => [path]
  | OnLinux _ => []
  | OnWindows (WinFileOpen f) => [fr_path f]
  | OnWindows (WinRegKeyOpen path _ _ _) => [path]
  end.
Definition texts_of_verdict (v : verdict) : list str :=
  match v with
  | Granted => []
  | DeniedByPolicy why | DelegationToSandboxNotSupported why => [why]
  | InvalidRequestParameters arg why => [arg; why]
  end.
Definition no_nul (w : str) : Prop := x00 ∉ w.

Lemma string_new_ok w m : no_nul w →
  string_new w m = (Some (cm_next m),
    mkCmem (<[cm_next m := mkBlock (N.of_nat (length w) + 1) 1 (w ++ [x00])]> (cm_heap m)) (cm_next m + 1)
      (cm_events m ++ [EvAlloc (cm_next m) (N.of_nat (length w) + 1) 1])).
Proof.
  intros H. unfold string_new. destruct (contains [x00] w) eqn:E; [|done].
  by apply contains_nul in E.
Qed.
Lemma strlen_ok w : no_nul w → c_strlen (w ++ [x00]) = N.of_nat (length w).
Proof.
  unfold no_nul. induction w as [|c w IH]; intros H; [done|].
  apply not_elem_of_cons in H as [Hc H]. cbn [app c_strlen length].
  destruct (Byte.eqb c x00) eqn:E; [by apply Byte.byte_dec_bl in E; subst|].
  rewrite IH by done. lia.
Qed.
Lemma string_drop_ok a w s al h n evs :
  h !! a = Some (mkBlock s al (w ++ [x00])) → no_nul w →
  string_drop a (mkCmem h n evs) =
    mkCmem (delete a h) n (evs ++ [EvFree a (N.of_nat (length w) + 1) 1]).
Proof. intros E H. unfold string_drop. cbn [cm_heap]. rewrite E. cbn [bk_bytes]. by rewrite strlen_ok. Qed.

Lemma text_ok h a w : 
  h !! a = Some (mkBlock (N.of_nat (length w) + 1) 1 (w ++ [x00])) → no_nul w → text_at h a w.
Proof.
  intros E H. eexists. split; [exact E|]. cbn [bk_bytes bk_size]. split_and!; [done| |done].
  unfold str in *. rewrite app_length. cbn [length]. lia.
Qed.
Lemma bytes_ok h a w :
  h !! a = Some (mkBlock (N.of_nat (length w)) 16 w) → bytes_at h a (N.of_nat (length w)) w.
Proof. intros E. by exists (mkBlock (N.of_nat (length w)) 16 w). Qed.

Ltac maps := repeat first
  [ rewrite lookup_insert | rewrite lookup_delete
  | rewrite lookup_insert_ne by lia | rewrite lookup_delete_ne by lia ].
Ltac drops := repeat (erewrite string_drop_ok; [|maps; reflexivity|eassumption]).

(** Texts without NULs, and extended attributes that are not empty: all is fine. *)
Theorem C148_partial r v m :
  sound m → Forall no_nul (texts_of_request r ++ texts_of_verdict v) →
  match r with OnWindows (WinFileOpen f) => fr_ea f ≠ [] | _ => True end →
  fine r v m.
Proof.
  intros [Hev Hn] Ht He.
  assert (match r with OnWindows (WinFileOpen f) => 0 < N.of_nat (length (fr_ea f)) | _ => True end) as He'.
  { destruct r as [|[f|]]; [done| |done]. destruct (fr_ea f); [done|]. cbn [length]. lia. }
  clear He. unfold fine, log_closure. set (n := cm_next m) in *.
  apply Forall_app in Ht as [Hr Hv].
  assert (∀ a, n ≤ a → layouts (cm_heap m) !! a = None) as Hl.
  { intros a Ha. unfold layouts. by rewrite lookup_fmap, Hn. }
  destruct r as [[path flags|nb args ip]|[f|path access options create]];
    cbn [texts_of_request] in Hr; rewrite ?Forall_cons in Hr; destruct_and?;
    cbn [given_of_request raw_new c_alloc]; unfold raw_new, c_alloc; rewrite ?string_new_ok by done;
    destruct v as [|why|why|arg why];
    cbn [texts_of_verdict] in Hv; rewrite ?Forall_cons in Hv; destruct_and?;
    cbn [fmap option_fmap option_map given_of_verdict]; rewrite ?string_new_ok by done;
    cbn [fmap option_fmap option_map given_of_verdict drop_verdict drop_request cm_heap cm_next cm_events];
    drops; unfold c_free; cbn [cm_heap cm_next cm_events]; fold n; rewrite Hev; cbn [app];
    (split; [done|]); (split; [|split]).
  all: try (cbn [contract]; repeat (split; [first [lia|by maps; auto with lia]|]); done).
  all: try (apply map_eq; intros x; destruct (decide (x = n)), (decide (x = n + 1)), (decide (x = n + 1 + 1)),
      (decide (x = n + 1 + 1 + 1)); subst; maps; try done; try lia; by rewrite Hn by lia).
  all: try (eexists _, _, _; split; [reflexivity|]; cbn [shows_request shows_verdict];
    split_and?; first [done|apply text_ok; [by maps|done]|apply bytes_ok; by maps]).
Qed.
Print Assumptions C148_partial.

(** Extended attributes are usually empty: then the allocator is asked for zero bytes. *)
Theorem C148_empty_refuted f v m :
  sound m → Forall no_nul (fr_path f :: texts_of_verdict v) → fr_ea f = [] →
  ¬ contract (layouts (cm_heap m)) (cm_events (log_closure (OnWindows (WinFileOpen f)) v m).2).
Proof.
  intros [Hev Hn] Ht He. apply Forall_cons in Ht as [Hp Hv].
  assert (∃ evs, cm_events (log_closure (OnWindows (WinFileOpen f)) v m).2 =
    EvAlloc (cm_next m) 0 16 :: evs) as [evs ->].
  { unfold log_closure. cbn [given_of_request]. unfold raw_new, c_alloc. rewrite string_new_ok by done.
    rewrite He, Hev. destruct v as [|why|why|arg why];
      cbn [texts_of_verdict] in Hv; rewrite ?Forall_cons in Hv; destruct_and?;
      cbn [fmap option_fmap option_map given_of_verdict]; rewrite ?string_new_ok by done;
      cbn [fmap option_fmap option_map given_of_verdict drop_verdict drop_request cm_heap cm_next cm_events];
      unfold string_drop, c_free; cbn [cm_events cm_heap snd app]; by eexists. }
  cbn [contract]. intros [H _]. lia.
Qed.
Print Assumptions C148_empty_refuted.

(** A NUL in the path stops the callback; on Linux nothing stays behind, on Windows the copy of the
    extended attributes does. *)
Lemma string_new_nul w m : x00 ∈ w → string_new w m = (None, m).
Proof. intros H. unfold string_new. by rewrite (proj2 (contains_nul w) H). Qed.
Theorem C148_linux_nul path flags v m :
  x00 ∈ path → log_closure (OnLinux (FileOpen path flags)) v m = (false, m).
Proof. intros H. unfold log_closure. cbn [given_of_request]. by rewrite string_new_nul. Qed.
Print Assumptions C148_linux_nul.
Theorem C148_windows_nul_refuted f v m :
  sound m → x00 ∈ fr_path f →
  let '(ok, m') := log_closure (OnWindows (WinFileOpen f)) v m in
  ok = false ∧ calls (cm_events m') = [] ∧ cm_heap m !! cm_next m = None ∧
  cm_heap m' = <[cm_next m := mkBlock (N.of_nat (length (fr_ea f))) 16 (fr_ea f)]> (cm_heap m).
Proof.
  intros [Hev Hn] H. unfold log_closure. cbn [given_of_request]. unfold raw_new, c_alloc.
  rewrite string_new_nul by done. cbn. rewrite Hev. split_and!; try done. apply Hn. lia.
Qed.
Print Assumptions C148_windows_nul_refuted.

Theorem C148_refuted : ¬ C148_full.
Proof.
  intros H. pose (f := mkFileReq [] 0 0 0 0 0 []).
  pose proof (H (OnWindows (WinFileOpen f)) Granted (mkCmem ∅ 0 [])) as X.
  assert (sound (mkCmem ∅ 0 [])) as Hs by done. specialize (X Hs). unfold fine in X.
  pose proof (C148_empty_refuted f Granted (mkCmem ∅ 0 []) Hs) as Y.
  assert (Forall no_nul (fr_path f :: texts_of_verdict Granted)) as Hf.
  { constructor; [|constructor]. unfold no_nul. apply not_elem_of_nil. }
  specialize (Y Hf eq_refl). destruct (log_closure (OnWindows (WinFileOpen f)) Granted (mkCmem ∅ 0 [])).
  apply Y, X.
Qed.
Print Assumptions C148_refuted.

(** A refused open on Linux: two texts, the call, and both given back, the newer first; on Windows
    with five bytes of extended attributes. *)
Example C148_example :
  let kinds m := map (λ e, match e with
                           | EvAlloc a s al => (0, a, s, al)
                           | EvFree a s al => (1, a, s, al)
                           | EvCallback _ _ _ => (2, 0, 0, 0)
                           end) (cm_events m) in
  let m := mkCmem ∅ 10 [] in
  kinds (log_closure (OnLinux (FileOpen (lit "/etc") 0)) (DeniedByPolicy (lit "no")) m).2 =
    [(0, 10, 5, 1); (0, 11, 3, 1); (2, 0, 0, 0); (1, 11, 3, 1); (1, 10, 5, 1)] ∧
  kinds (log_closure (OnWindows (WinFileOpen (mkFileReq (lit "\??\C:") 0 0 0 0 0 (lit "hello")))) Granted m).2 =
    [(0, 10, 5, 16); (0, 11, 7, 1); (2, 0, 0, 0); (1, 11, 7, 1); (1, 10, 5, 16)].
Proof. by vm_compute. Qed.
