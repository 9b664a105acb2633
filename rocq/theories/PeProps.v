(** How hooking finds the tables of the loaded modules: C161. *)
From stdpp Require Import prelude strings.
From Verif Require Import Bytes TrampolineModel TrampolineProofs WinHookModel WinPatchModel PeModel.
Local Open Scope Z_scope.
Local Coercion Z.of_nat : nat >-> Z.

(* ---------------------------------------------------------------- the loader's view *)

(** A little endian word in memory. *)
Definition word_at (w : width) (m : memory) (a : Z) (n : nat) (v : Z) : Prop :=
  0 ≤ v < 256 ^ n ∧ ∀ i : nat, (i < n)%nat → m ((a + i) mod wmod w) = v / 256 ^ i mod 256.

(** A module as the loader sees it (PE format, Microsoft's documentation): its base, the place
    of its PE header, its data directories (as many as NumberOfRvaAndSizes says), the export
    address table (RVA and length) and the import descriptors (FirstThunk and Name). *)
Record image := mkImage {
  im_base : Z; im_lfanew : Z; im_dirs : list (Z * Z);
  im_functions : Z * nat; im_descs : list (Z * Z) }.
(** A directory is there if there are so many and its address is not zero. *)
Definition directory (img : image) (k : nat) : option Z :=
  match im_dirs img !! k with
  | Some (a, _) => if decide (a = 0) then None else Some a
  | None => None
  end.
Definition image_at (w : width) (m : memory) (img : image) : Prop :=
  let b := im_base img in
  let h := b + im_lfanew img in
  let dirs := h + match w with W64 => 0x88 | W32 => 0x78 end in
  0 ≤ im_lfanew img < 2 ^ 31 ∧
  word_at w m b 2 0x5a4d ∧ word_at w m (b + 0x3c) 4 (im_lfanew img) ∧
  word_at w m h 4 0x4550 ∧
  word_at w m (h + 4) 2 (match w with W64 => 0x8664 | W32 => 0x14c end) ∧
  word_at w m (dirs - 4) 4 (length (im_dirs img)) ∧
  (∀ (k : nat) a s, im_dirs img !! k = Some (a, s) →
     word_at w m (dirs + 8 * k) 4 a ∧ word_at w m (dirs + 8 * k + 4) 4 s) ∧
  (∀ e, directory img 0 = Some e →
     word_at w m (b + e + 0x14) 4 ((im_functions img).2) ∧
     word_at w m (b + e + 0x1c) 4 ((im_functions img).1)) ∧
  (∀ i, directory img 1 = Some i →
     (∀ (k : nat) first name, im_descs img !! k = Some (first, name) →
        first ≠ 0 ∧ name ≠ 0 ∧
        word_at w m (b + i + 20 * k + 0xc) 4 name ∧ word_at w m (b + i + 20 * k + 0x10) 4 first) ∧
     (word_at w m (b + i + 20 * length (im_descs img) + 0xc) 4 0 ∨
      word_at w m (b + i + 20 * length (im_descs img) + 0x10) 4 0)).

(** The process environment block leads to the loader's data, whose list (in memory order)
    goes through the entries of the modules and back. *)
Definition links (w : width) (e : Z) : Z := e + match w with W64 => 0x10 | W32 => 0x8 end.
Fixpoint chain (w : width) (m : memory) (from head : Z) (es : list (Z * image)) : Prop :=
  match es with
  | [] => word_at w m from (wbytes w) head
  | (e, _) :: es => word_at w m from (wbytes w) (links w e) ∧ chain w m (links w e) head es
  end.
Definition process_at (w : width) (m : memory) (peb : Z) (es : list (Z * image)) : Prop :=
  ∃ ldr,
    let head := ldr + match w with W64 => 0x20 | W32 => 0x14 end in
    word_at w m (peb + match w with W64 => 0x18 | W32 => 0xc end) (wbytes w) ldr ∧
    0 ≤ head < wmod w ∧ chain w m head head es ∧
    ∀ e img, (e, img) ∈ es →
      links w e ≠ head ∧
      word_at w m (e + match w with W64 => 0x30 | W32 => 0x18 end) (wbytes w) (im_base img) ∧
      image_at w m img.
(** The tables the loader uses. *)
Definition tables (img : image) : module :=
  mkModule (im_base img)
    (match directory img 0 with Some _ => Some (im_functions img) | None => None end)
    (match directory img 1 with Some _ => im_descs img | None => [] end).

(** Hooking finds the tables of all loaded modules, whatever the packing of the header
    structures. *)
Definition packing (p : Z) : Prop := p = 2 ∨ p = 4 ∨ p = 8.
Definition C161_full : Prop :=
  ∀ w m peb es pack, packing pack → process_at w m peb es →
    ∃ fuel depth, find_modules fuel depth w pack m peb = Some (tables ∘ snd <$> es).

(* ---------------------------------------------------------------- layouts *)

Lemma lay_dos pack : packing pack →
  offset_in pack IMAGE_DOS_HEADER "e_magic" = 0 ∧ offset_in pack IMAGE_DOS_HEADER "e_lfanew" = 0x3c.
Proof. by intros [-> | [-> | ->]]. Qed.
Lemma lay_nt w pack : packing pack →
  offset_in pack (IMAGE_NT_HEADERS w pack) "Signature" = 0 ∧
  offset_in pack (IMAGE_NT_HEADERS w pack) "FileHeader" = 4 ∧
  offset_in pack (IMAGE_NT_HEADERS w pack) "OptionalHeader" = 24 ∧
  offset_in pack (IMAGE_OPTIONAL_HEADER w pack) "DataDirectory" =
    (match w with W64 => 112 | W32 => 96 end) ∧
  offset_in pack IMAGE_FILE_HEADER "Machine" = 0.
Proof. by intros [-> | [-> | ->]]; destruct w. Qed.
Lemma lay_dir pack : packing pack →
  size_in pack IMAGE_DATA_DIRECTORY = 8 ∧
  offset_in pack IMAGE_DATA_DIRECTORY "VirtualAddress" = 0 ∧
  offset_in pack IMAGE_DATA_DIRECTORY "Size" = 4 ∧
  offset_in pack IMAGE_EXPORT_DIRECTORY "AddressOfFunctions" = 0x1c ∧
  offset_in pack IMAGE_EXPORT_DIRECTORY "NumberOfFunctions" = 0x14.
Proof. by intros [-> | [-> | ->]]. Qed.
Lemma lay_desc pack : packing pack →
  size_in pack IMAGE_IMPORT_DESCRIPTOR = 20 ∧
  offset_in pack IMAGE_IMPORT_DESCRIPTOR "Name" = 0xc ∧
  offset_in pack IMAGE_IMPORT_DESCRIPTOR "FirstThunk" = 0x10.
Proof. by intros [-> | [-> | ->]]. Qed.
Lemma lay_ldr w :
  offset_in NATURAL (PEB w) "Ldr" = (match w with W64 => 0x18 | W32 => 0xc end) ∧
  offset_in NATURAL (PEB_LDR_DATA w) "InMemoryOrderModuleList" =
    (match w with W64 => 0x20 | W32 => 0x14 end) ∧
  offset_in NATURAL (LIST_ENTRY w) "Flink" = 0 ∧
  offset_in NATURAL (LDR_DATA_TABLE_ENTRY w) "DllBase" =
    (match w with W64 => 0x30 | W32 => 0x18 end) ∧
  offset_in NATURAL (LDR_DATA_TABLE_ENTRY w) "InMemoryOrderLinks" =
    (match w with W64 => 0x10 | W32 => 0x8 end).
Proof. by destruct w. Qed.

(* ---------------------------------------------------------------- reading *)

Lemma load_word w m (n : nat) : ∀ a v,
  (∀ i : nat, (i < n)%nat → m ((a + i) mod wmod w) = v / 256 ^ i mod 256) →
  load_bytes (wmod w) m a n = le_bytes n v.
Proof.
  induction n as [|n IH]; intros a v H; [done|]. cbn [load_bytes le_bytes]. f_equal.
  - specialize (H 0%nat ltac:(lia)). change (Z.of_nat 0) with 0 in H.
    rewrite Z.add_0_r, Z.pow_0_r, Z.div_1_r in H. done.
  - apply IH. intros i Hi. specialize (H (S i) ltac:(lia)).
    replace (a + 1 + i) with (a + S i) by lia. rewrite H.
    replace (Z.of_nat (S i)) with (1 + i) by lia. rewrite Z.pow_add_r by lia.
    rewrite Z.pow_1_r, <- Z.div_div by lia. done.
Qed.
Lemma rd_word w m a n v : word_at w m a n v → rd w m a n = v.
Proof.
  intros [Hv H]. unfold rd. rewrite (load_word _ _ _ _ _ H), of_le_bytes.
  by apply Z.mod_small.
Qed.
Lemma load_at w m a v : word_at w m a (wbytes w) v → load w m a = v.
Proof. exact (rd_word w m a (wbytes w) v). Qed.

Lemma read_descriptors_ok w m pack ds : packing pack → ∀ a,
  (∀ (k : nat) first name, ds !! k = Some (first, name) →
     first ≠ 0 ∧ name ≠ 0 ∧
     word_at w m (a + 20 * k + 0xc) 4 name ∧ word_at w m (a + 20 * k + 0x10) 4 first) →
  (word_at w m (a + 20 * length ds + 0xc) 4 0 ∨ word_at w m (a + 20 * length ds + 0x10) 4 0) →
  ∀ fuel, (length ds < fuel)%nat → read_descriptors fuel w m pack a = Some ds.
Proof.
  intros Hp. destruct (lay_desc pack Hp) as (E1 & E2 & E3).
  induction ds as [|[first name] ds IH]; intros a Hk Ht fuel Hf;
    (destruct fuel as [|fuel]; [cbn in Hf; lia|]); cbn [read_descriptors]; rewrite E1, E2, E3.
  - cbn [length] in Ht. change (20 * Z.of_nat 0) with 0 in Ht. rewrite Z.add_0_r in Ht.
    rewrite decide_True; [done|]. destruct Ht as [Ht|Ht]; apply rd_word in Ht; auto.
  - destruct (Hk 0%nat first name eq_refl) as (Hf0 & Hn0 & Hn & Hfi).
    change (20 * Z.of_nat 0) with 0 in *. rewrite Z.add_0_r in Hn, Hfi.
    rewrite (rd_word _ _ _ _ _ Hn), (rd_word _ _ _ _ _ Hfi), decide_False by tauto.
    rewrite IH; [done| | |cbn in Hf; lia].
    + intros k f n Hl. specialize (Hk (S k) f n Hl).
      replace (a + 20 + 20 * k) with (a + 20 * S k) by lia. done.
    + cbn [length] in Ht. replace (a + 20 + 20 * length ds) with (a + 20 * S (length ds)) by lia.
      done.
Qed.

(** The code's directories are the loader's. *)
Definition usual (img : image) : Prop :=
  ∃ a s a' s' rest, im_dirs img = (a, s) :: (a', s') :: rest ∧ (a ≠ 0 → s ≠ 0) ∧ (a' ≠ 0 → s' ≠ 0).
Lemma there (a s : Z) : (a ≠ 0 → s ≠ 0) → negb (a =? 0) && negb (s =? 0) = negb (a =? 0).
Proof.
  intros H. destruct (Z.eqb_spec a 0) as [->|Ha]; [done|]. cbn. specialize (H Ha).
  by destruct (Z.eqb_spec s 0).
Qed.
Lemma read_module_ok w m pack img fuel :
  packing pack → image_at w m img → usual img → (length (im_descs img) < fuel)%nat →
  read_module fuel w pack m (im_base img) = Some (tables img).
Proof.
  intros Hp (Hl & H1 & H2 & H3 & H4 & _ & Hd & He & Hi) (a & s & a' & s' & rest & Edirs & Hs & Hs') Hf.
  destruct (lay_dos pack Hp) as [D1 D2].
  destruct (lay_nt W32 pack Hp) as (N1 & N2 & _ & _ & N5).
  destruct (lay_nt w pack Hp) as (_ & _ & N3 & N4 & _).
  destruct (lay_dir pack Hp) as (R1 & R2 & R3 & R4 & R5).
  unfold read_module. rewrite D1, D2, N1, N2, N5, Z.add_0_r.
  rewrite (rd_word _ _ _ _ _ H1). cbn [negb]. change (0x5a4d =? 0x5a4d) with true. cbn [negb].
  rewrite (rd_word _ _ _ _ _ H2).
  assert (sext 32 (im_lfanew img) = im_lfanew img) as ->.
  { unfold sext. rewrite decide_True; [done|]. change (32 - 1) with 31. lia. }
  set (h := im_base img + im_lfanew img) in *.
  rewrite !Z.add_0_r, (rd_word _ _ _ _ _ H3). change (0x4550 =? 0x4550) with true. cbn [negb].
  rewrite (rd_word _ _ _ _ _ H4).
  assert ((if match w with W64 => 0x8664 | W32 => 0x14c end =? 0x8664 then Some W64
           else if match w with W64 => 0x8664 | W32 => 0x14c end =? 0x14C then Some W32 else None) = Some w) as ->
    by (by destruct w).
  rewrite N3, N4, R1, R2, R3, R4, R5.
  assert (h + 24 + (match w with W64 => 112 | W32 => 96 end) =
    h + match w with W64 => 0x88 | W32 => 0x78 end) as -> by (destruct w; lia).
  set (dirs := h + match w with W64 => 0x88 | W32 => 0x78 end) in *.
  destruct (Hd 0%nat a s) as [W1 W2]; [by rewrite Edirs|].
  destruct (Hd 1%nat a' s') as [W3 W4]; [by rewrite Edirs|].
  change (8 * Z.of_nat 0) with 0 in *. change (8 * Z.of_nat 1) with 8 in *.
  change (0 * 8) with 0. change (1 * 8) with 8. rewrite !Z.add_0_r in *.
  rewrite (rd_word _ _ _ _ _ W1), (rd_word _ _ _ _ _ W2), (rd_word _ _ _ _ _ W3), (rd_word _ _ _ _ _ W4).
  rewrite (there a s Hs), (there a' s' Hs').
  unfold directory in He, Hi. unfold tables, directory. rewrite Edirs in *. cbn [lookup list_lookup] in *.
  assert ((if negb (a' =? 0) then read_descriptors fuel w m pack (im_base img + a') else Some []) =
    Some (if decide (a' = 0) then [] else im_descs img)) as ->.
  { destruct (decide (a' = 0)) as [->|Ha']; [done|]. rewrite (proj2 (Z.eqb_neq _ _) Ha'). cbn [negb].
    destruct (Hi a' eq_refl) as [Hk Ht]. by apply read_descriptors_ok. }
  assert (∀ P : list (Z * Z), match (if decide (a' = 0) then None else Some a') with
    | Some _ => P | None => [] end = if decide (a' = 0) then [] else P) as -> by (by intros P; destruct (decide (a' = 0))).
  f_equal. f_equal. destruct (decide (a = 0)) as [->|Ha]; [done|].
  rewrite (proj2 (Z.eqb_neq _ _) Ha). cbn [negb].
  destruct (He a eq_refl) as [E1 E2].
  rewrite (rd_word _ _ _ _ _ E1), (rd_word _ _ _ _ _ E2), Nat2Z.id. by destruct (im_functions img).
Qed.
Lemma walk_ok w m pack head depth es : packing pack → ∀ from,
  chain w m from head es →
  (∀ e img, (e, img) ∈ es → links w e ≠ head ∧
     word_at w m (e + match w with W64 => 0x30 | W32 => 0x18 end) (wbytes w) (im_base img) ∧
     image_at w m img ∧ usual img ∧ (length (im_descs img) < depth)%nat) →
  ∀ fuel, (length es < fuel)%nat →
  walk fuel depth w pack m head (load w m from) = Some (tables ∘ snd <$> es).
Proof.
  intros Hp. destruct (lay_ldr w) as (_ & _ & L1 & L2 & L3).
  induction es as [|[e img] es IH]; intros from Hc He fuel Hf;
    (destruct fuel as [|fuel]; [cbn in Hf; lia|]); cbn [walk].
  - cbn [chain] in Hc. rewrite (load_at _ _ _ _ Hc), decide_True by done. done.
  - cbn [chain] in Hc. destruct Hc as [Hc Hrest]. rewrite (load_at _ _ _ _ Hc).
    destruct (He e img) as (Hne & Hb & Hat & Hu & Hd); [apply elem_of_list_here|].
    rewrite decide_False by done. rewrite L1, L2, L3.
    assert (links w e + ((match w with W64 => 0x30 | W32 => 0x18 end) -
      (match w with W64 => 0x10 | W32 => 0x8 end)) = e + match w with W64 => 0x30 | W32 => 0x18 end) as ->.
    { unfold links. destruct w; lia. }
    rewrite (load_at _ _ _ _ Hb), (read_module_ok _ _ _ _ _ Hp Hat Hu Hd), Z.add_0_r.
    rewrite IH; [done|done| |cbn in Hf; lia].
    intros e' img' Hin. apply He. by apply elem_of_list_further.
Qed.

(** It does if each module has both directories (present or not) and no directory that is
    present has size zero. *)
Theorem C161_partial w m peb es pack fuel depth :
  packing pack → process_at w m peb es →
  (∀ e img, (e, img) ∈ es → usual img ∧ (length (im_descs img) < depth)%nat) →
  (length es < fuel)%nat →
  find_modules fuel depth w pack m peb = Some (tables ∘ snd <$> es).
Proof.
  intros Hp (ldr & Hldr & Hh & Hc & He) Hu Hf. unfold find_modules.
  destruct (lay_ldr w) as (L0 & L1 & L2 & _ & _). rewrite L0, L1, L2, (load_at _ _ _ _ Hldr), Z.add_0_r.
  rewrite Z.mod_small by done. apply walk_ok; [done|done| |done].
  intros e img Hin. destruct (He e img Hin) as (? & ? & ?). destruct (Hu e img Hin). done.
Qed.
Print Assumptions C161_partial.

(* ---------------------------------------------------------------- concrete processes *)

Definition mem_of (segments : list (Z * list Z)) : memory := λ a,
  foldr (λ seg rest, if decide (seg.1 ≤ a < seg.1 + length seg.2)
                     then default 0 (seg.2 !! Z.to_nat (a - seg.1)) else rest) 0 segments.
Lemma word_intro w m a (n : nat) v :
  0 ≤ v < 256 ^ n → load_bytes (wmod w) m a n = le_bytes n v → word_at w m a n v.
Proof.
  intros Hv E. split; [done|]. clear Hv. revert a v E.
  induction n as [|n IH]; intros a v E i Hi; [lia|]. cbn [load_bytes le_bytes] in E. injection E as E1 E2.
  destruct i as [|i].
  - change (Z.of_nat 0) with 0. by rewrite Z.add_0_r, Z.pow_0_r, Z.div_1_r.
  - replace (a + S i) with (a + 1 + i) by lia. rewrite (IH _ _ E2) by lia.
    replace (Z.of_nat (S i)) with (1 + i) by lia.
    rewrite Z.pow_add_r, Z.pow_1_r, <- Z.div_div by lia. done.
Qed.
Ltac word := apply word_intro; [by split; vm_compute|by vm_compute].

(** A process of one module at 0x10000, with its data directories and more memory. *)
Definition one_module (dirs : list (Z * Z)) (more : list (Z * list Z)) : memory :=
  mem_of ([(0x1018, le_bytes 8 0x2000); (0x2020, le_bytes 8 0x3010); (0x3010, le_bytes 8 0x2020);
           (0x3030, le_bytes 8 0x10000); (0x10000, [0x4d; 0x5a]); (0x1003c, le_bytes 4 0x80);
           (0x10080, le_bytes 4 0x4550); (0x10084, le_bytes 2 0x8664);
           (0x10104, le_bytes 4 (length dirs) ++
              mjoin ((λ d, le_bytes 4 d.1 ++ le_bytes 4 d.2) <$> dirs))] ++ more).

(** One directory: what follows the export directory is the first section's name, ".text",
    which the code takes for the import directory. *)
Definition text_image : image := mkImage 0x10000 0x80 [(0, 0)] (0, 0%nat) [].
Definition text_memory : memory :=
  one_module [(0, 0)] [(0x10110, [46; 116; 101; 120; 116; 0; 0; 0]); (0x7866742e, replicate 20 1)].
Lemma text_process : process_at W64 text_memory 0x1000 [(0x3000, text_image)].
Proof.
  exists 0x2000. cbn zeta. split_and!.
  - word.
  - by vm_compute.
  - by vm_compute.
  - split; word.
  - intros e img H. apply elem_of_list_singleton in H. injection H as -> ->.
    split; [by vm_compute|]. split; [word|]. unfold image_at. cbn zeta.
    cbn [text_image im_base im_lfanew im_dirs im_functions im_descs].
    split; [lia|]. split; [word|]. split; [word|]. split; [word|]. split; [word|]. split; [word|].
    split_and!.
    + intros [|k] a s Hk; [|done]. injection Hk as <- <-. split; word.
    + done.
    + done.
Qed.
Theorem C161_refuted : ¬ C161_full.
Proof.
  intros H. destruct (H W64 text_memory 0x1000 _ 4 (or_intror (or_introl eq_refl)) text_process)
    as (fuel & depth & E).
  assert (match find_modules fuel depth W64 4 text_memory 0x1000 with
    | Some [d] => md_imports d = [] | _ => True end) as E'.
  { rewrite E. done. }
  destruct depth as [|[|depth]]; (destruct fuel as [|[|fuel]];
    [vm_compute in E; discriminate E|vm_compute in E; discriminate E|]);
    [vm_compute in E; discriminate E|vm_compute in E; discriminate E|].
  vm_compute in E'. discriminate E'.
Qed.
Print Assumptions C161_refuted.

(** An import directory of size zero: the loader binds its imports, hooking does not see them. *)
Definition zero_image : image := mkImage 0x10000 0x80 [(0, 0); (0x200, 0)] (0, 0%nat) [(0x300, 0x400)].
Definition zero_memory : memory :=
  one_module [(0, 0); (0x200, 0)] [(0x1020c, le_bytes 4 0x400 ++ le_bytes 4 0x300)].
Lemma zero_process : process_at W64 zero_memory 0x1000 [(0x3000, zero_image)].
Proof.
  exists 0x2000. cbn zeta. split_and!.
  - word.
  - by vm_compute.
  - by vm_compute.
  - split; word.
  - intros e img H. apply elem_of_list_singleton in H. injection H as -> ->.
    split; [by vm_compute|]. split; [word|]. unfold image_at. cbn zeta.
    cbn [zero_image im_base im_lfanew im_dirs im_functions im_descs].
    split; [lia|]. split; [word|]. split; [word|]. split; [word|]. split; [word|]. split; [word|].
    split_and!.
    + intros [|[|k]] a s Hk; [..|done]; injection Hk as <- <-; split; word.
    + done.
    + intros i Hi. vm_compute in Hi. injection Hi as <-. split.
      * intros [|k] f n Hk; [|done]. injection Hk as <- <-. split_and!; [done|done|word|word].
      * left. word.
Qed.
Theorem C161_size_refuted :
  ¬ (∀ w m peb es pack, packing pack → process_at w m peb es →
       (∀ e img, (e, img) ∈ es → (2 ≤ length (im_dirs img))%nat) →
       ∃ fuel depth, find_modules fuel depth w pack m peb = Some (tables ∘ snd <$> es)).
Proof.
  intros H. destruct (H W64 zero_memory 0x1000 _ 4 (or_intror (or_introl eq_refl)) zero_process)
    as (fuel & depth & E).
  { intros e img Hin. apply elem_of_list_singleton in Hin. injection Hin as -> ->. cbn. lia. }
  assert (match find_modules fuel depth W64 4 zero_memory 0x1000 with
    | Some [d] => md_imports d = [(0x300, 0x400)] | _ => True end) as E'.
  { rewrite E. done. }
  destruct fuel as [|[|fuel]]; [vm_compute in E; discriminate E|vm_compute in E; discriminate E|].
  vm_compute in E'. discriminate E'.
Qed.
Print Assumptions C161_size_refuted.

Example C161_example :
  find_modules 5 5 W64 4
    (one_module [(0x180, 40); (0x200, 60)]
       [(0x10194, le_bytes 4 7); (0x1019c, le_bytes 4 0x500);
        (0x1020c, le_bytes 4 0x400 ++ le_bytes 4 0x300);
        (0x10220, le_bytes 4 0x410 ++ le_bytes 4 0x310)]) 0x1000 =
  Some [mkModule 0x10000 (Some (0x500, 7%nat)) [(0x300, 0x400); (0x310, 0x410)]].
Proof. by vm_compute. Qed.
