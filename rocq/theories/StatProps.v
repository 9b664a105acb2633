(** C142: a trapped stat stores what the kernel's stat would have stored. *)
From stdpp Require Import prelude gmap.
From Coq Require Import Strings.Byte ZifyNat ZifyBool.
From Verif Require Import Bytes PolicyModel PolicySpec LinuxPolicyModel LinuxPolicySpec PostcardModel
  PostcardSpec FdModel ChannelModel BrokerModel BrokerSpec WorkerModel WorkerSpec WorkerProofs
  WorkerProps TrampolineModel TrampolineProofs StatModel.
Local Open Scope Z_scope.

(** What the program reads: [n] bytes at an offset. *)
Definition peek (w : width) (m : memory) (ptr o n : Z) : Z :=
  of_le (load_bytes (wmod w) m (ptr + o) (Z.to_nat n)).
(** The offsets and sizes a program knows from the kernel's headers, as a table. *)
Definition program_view (w : width) : list (sfield * Z * Z) :=
  match w with
  | W64 => [(StDev, 0, 8); (StIno, 8, 8); (StNlink, 16, 8); (StMode, 24, 4); (StUid, 28, 4);
            (StGid, 32, 4); (StRdev, 40, 8); (StSize, 48, 8); (StBlksize, 56, 8); (StBlocks, 64, 8);
            (StAtime, 72, 8); (StAtimeNs, 80, 8); (StMtime, 88, 8); (StMtimeNs, 96, 8);
            (StCtime, 104, 8); (StCtimeNs, 112, 8)]
  | W32 => [(StDev, 0, 4); (StIno, 4, 4); (StMode, 8, 2); (StNlink, 10, 2); (StUid, 12, 2);
            (StGid, 14, 2); (StRdev, 16, 4); (StSize, 20, 4); (StBlksize, 24, 4); (StBlocks, 28, 4);
            (StAtime, 32, 4); (StAtimeNs, 36, 4); (StMtime, 40, 4); (StMtimeNs, 44, 4);
            (StCtime, 48, 4); (StCtimeNs, 52, 4)]
  end.
Definition program_size (w : width) : Z := match w with W64 => 144 | W32 => 64 end.
(** They are those of the kernel's structure. *)
Lemma program_view_ok w :
  omap (λ e, match e with (Some f, o, n) => Some (f, o, n) | _ => None end)
    (offsets w 0 (kernel_stat w)) = program_view w ∧ end_of w 0 (kernel_stat w) = program_size w.
Proof. by destruct w. Qed.

(** The numbers fit where the program looks for them. *)
Definition stats_fit (w : width) (st : sfield → Z) : Prop :=
  ∀ f o n, (f, o, n) ∈ program_view w → 0 ≤ st f < 2 ^ (8 * n).
(** The file at the descriptor that was got for the path. *)
Definition found (env : wenv) (path : str) (w : world) (fd file : N) : Prop :=
  fd_file <$> w_tab (get_fd_for_path_with_perms env path O_PATH w).2 !! fd = Some file.
(** The full statement; false, see below. *)
Definition C142_full : Prop := ∀ env stats path out w m fd,
  let a := abi_width (be_abi (we_broker env)) in
  let m' := stat_memory env stats path out w m in
  (∀ file, stats_fit a (stats file)) → (∀ file, we_fstat env file ≠ Some 0%N) →
  (handle_stat env path w).1 = HRet 0 →
  (get_fd_for_path_with_perms env path O_PATH w).1 = HRet (inl fd) →
  (∃ file, found env path w fd file ∧
     ∀ f o n, (f, o, n) ∈ program_view a → peek a m' out o n = stats file f) ∧
  ∀ x, (∀ i, 0 ≤ i < program_size a → x ≠ (out + i) mod wmod a) → m' x = m x.

Lemma fill_cons w f o n es st ptr m :
  fill w ((f, o, n) :: es) st ptr m =
  fill w es st ptr (match f with
                    | Some f => store_bytes (wmod w) m (ptr + o) (le_bytes (Z.to_nat n) (st f))
                    | None => m
                    end).
Proof. by destruct f. Qed.
Lemma fill_app w es es' st ptr m : fill w (es ++ es') st ptr m = fill w es' st ptr (fill w es st ptr m).
Proof. unfold fill. apply foldl_app. Qed.
(** Bytes that belong to no member stay. *)
Lemma fill_other w es st ptr : ∀ m x,
  (∀ f o n i, (Some f, o, n) ∈ es → 0 ≤ i < n → x ≠ (ptr + o + i) mod wmod w) →
  fill w es st ptr m x = m x.
Proof.
  induction es as [|[[f o] n] es IH]; intros m x H; [done|].
  rewrite fill_cons, IH by (intros f' o' n' i Hin Hi; eapply H; [by right|done]).
  destruct f as [f|]; [|done]. apply store_bytes_other. intros i Hi. rewrite le_bytes_length in Hi.
  eapply (H f o n i); [by left|lia].
Qed.
(** A member that no later one overlaps can be read back. *)
Lemma fill_load w pre f o n post st ptr m :
  0 < n → 0 ≤ o → o + n < 256 →
  Forall (λ e : option sfield * Z * Z, 0 ≤ e.1.2 ∧ e.1.2 + e.2 < 256 ∧
    (e.1.2 + e.2 ≤ o ∨ o + n ≤ e.1.2)) post →
  load_bytes (wmod w) (fill w (pre ++ (Some f, o, n) :: post) st ptr m) (ptr + o) (Z.to_nat n)
    = le_bytes (Z.to_nat n) (st f).
Proof.
  intros Hn Ho Hb Hpost. rewrite fill_app, fill_cons.
  set (m1 := fill w pre st ptr m). clearbody m1.
  set (m2 := store_bytes (wmod w) m1 (ptr + o) (le_bytes (Z.to_nat n) (st f))).
  rewrite (load_bytes_ext _ _ m2).
  - unfold m2. pose proof (load_store_bytes (wmod w) m1 (ptr + o) (le_bytes (Z.to_nat n) (st f))) as H.
    rewrite le_bytes_length in H. apply H. pose proof (wmod_big w). lia.
  - intros i Hi. apply fill_other. intros f' o' n' j Hin Hj E.
    rewrite Forall_forall in Hpost. destruct (Hpost _ Hin) as (H1 & H2 & H3). cbn in H1, H2, H3.
    rewrite <-!Z.add_assoc in E. pose proof (wmod_big w).
    apply mod_near in E; lia.
Qed.

(** Members that overlap nowhere, in a structure of fewer than 256 bytes. *)
Definition sep (e e' : option sfield * Z * Z) : bool :=
  (0 <=? e'.1.2) && (e'.1.2 + e'.2 <? 256) && ((e'.1.2 + e'.2 <=? e.1.2) || (e.1.2 + e.2 <=? e'.1.2)).
Fixpoint apart (es : list (option sfield * Z * Z)) : bool :=
  match es with
  | [] => true
  | e :: es => (0 <? e.2) && (0 <=? e.1.2) && (e.1.2 + e.2 <? 256) && forallb (sep e) es && apart es
  end.
Lemma fill_peek w es st ptr m f o n :
  apart es = true → (Some f, o, n) ∈ es →
  peek w (fill w es st ptr m) ptr o n = st f mod 2 ^ (8 * n).
Proof.
  intros Ha (pre & post & ->)%elem_of_list_split.
  assert (Hs : apart ((Some f, o, n) :: post) = true).
  { clear -Ha. induction pre as [|e pre IH]; [done|]. cbn [app apart] in Ha.
    apply andb_true_iff in Ha as [_ Ha]. by apply IH. }
  clear Ha. cbn [apart fst snd] in Hs.
  apply andb_true_iff in Hs as [Hs _]. apply andb_true_iff in Hs as [Hs Hp].
  apply andb_true_iff in Hs as [Hs H3]. apply andb_true_iff in Hs as [H1 H2].
  unfold peek. rewrite fill_load; [|lia|lia|lia|].
  - rewrite of_le_bytes. f_equal. rewrite Z2Nat.id by lia. by rewrite Z.pow_mul_r by lia.
  - apply Forall_forall. intros e He. rewrite forallb_forall in Hp.
    specialize (Hp e (proj1 (elem_of_list_In _ _) He)). unfold sep in Hp. cbn [fst snd] in Hp. lia.
Qed.
Lemma libc_apart w : apart (offsets w 0 (libc_stat w)) = true.
Proof. by destruct w. Qed.

(** The handler's success is that of fstat. *)
Lemma stat_filled env stats path out w m fd :
  (∀ file, we_fstat env file ≠ Some 0%N) →
  (handle_stat env path w).1 = HRet 0 →
  (get_fd_for_path_with_perms env path O_PATH w).1 = HRet (inl fd) →
  let a := abi_width (be_abi (we_broker env)) in
  ∃ file, found env path w fd file ∧ stat_memory env stats path out w m =
    fill a (offsets a 0 (libc_stat a)) (stats file) out m.
Proof.
  intros Hz. unfold handle_stat, stat_memory.
  unfold found.
  destruct (get_fd_for_path_with_perms env path O_PATH w) as [[[fd'|e]| |] w1]; cbn [fst snd];
    intros H Hfd; try done. injection Hfd as ->.
  unfold drop_and_return in H. destruct (handle_drop _ _); [|done..]. cbn [fst] in H.
  destruct (w_tab w1 !! fd) as [e|] eqn:Et; [|done].
  destruct (we_fstat env (fd_file e)) as [err|] eqn:Ef; [|by exists (fd_file e)].
  exfalso. injection H as H. apply (Hz (fd_file e)). rewrite Ef. f_equal. lia.
Qed.

(** On x86_64 the two structures are the same. Missing: i686. *)
Theorem C142_x86_64_partial env stats path out w m fd :
  be_abi (we_broker env) = Abi64 →
  let m' := stat_memory env stats path out w m in
  (∀ file, stats_fit W64 (stats file)) → (∀ file, we_fstat env file ≠ Some 0%N) →
  (handle_stat env path w).1 = HRet 0 →
  (get_fd_for_path_with_perms env path O_PATH w).1 = HRet (inl fd) →
  (∃ file, found env path w fd file ∧
     ∀ f o n, (f, o, n) ∈ program_view W64 → peek W64 m' out o n = stats file f) ∧
  ∀ x, (∀ i, 0 ≤ i < program_size W64 → x ≠ (out + i) mod wmod W64) → m' x = m x.
Proof.
  intros Habi m' Hfit Hz Hok Hfd.
  destruct (stat_filled env stats path out w m fd Hz Hok Hfd) as (file & Hfile & Hm).
  fold m' in Hm. rewrite Habi in Hm. cbn [abi_width] in Hm. clearbody m'. subst m'. split.
  - exists file. split; [done|]. intros f o n Hin.
    rewrite (fill_peek W64 _ _ _ _ f o n (libc_apart W64)).
    + apply Z.mod_small. by apply (Hfit file f o n).
    + assert (H : forallb (λ e : sfield * Z * Z,
        bool_decide ((Some e.1.1, e.1.2, e.2) ∈ offsets W64 0 (libc_stat W64))) (program_view W64) = true)
        by (by vm_compute).
      rewrite forallb_forall in H. specialize (H _ (proj1 (elem_of_list_In _ _) Hin)).
      by apply bool_decide_eq_true in H.
  - intros x Hx. apply fill_other. intros f o n i Hin Hi.
    assert (H : forallb (λ e : option sfield * Z * Z, (0 <=? e.1.2) && (e.1.2 + e.2 <=? 144))
      (offsets W64 0 (libc_stat W64)) = true) by (by vm_compute).
    rewrite forallb_forall in H. specialize (H _ (proj1 (elem_of_list_In _ _) Hin)).
    cbn [fst snd] in H. rewrite <-Z.add_assoc. apply Hx. cbn. lia.
Qed.
Print Assumptions C142_x86_64_partial.

(** That file is the one the broker opened for this path, which the rules allow, and it opened no
    other. *)
Theorem C142_opened env audit calls path w fd file :
  ready env audit calls w → is_utf8 path → x00 ∉ path → short path →
  (get_fd_for_path_with_perms env path O_PATH w).1 = HRet (inl fd) →
  found env path w fd file →
  user_allows audit (rules_of calls) path O_PATH ∧
  effect w (handle_stat env path w).2 [ReqOpenFile path O_PATH] [(path, O_PATH, 384, Ok file)].
Proof.
  intros (K & Hs & Hr) Hu Hn Hsh Hfd Hf.
  destruct (get_fd_spec env audit calls path O_PATH w K Hs Hu Hn Hsh ltac:(by vm_compute) Hr)
    as (r & w' & os & E & He & _ & Hm).
  unfold found in Hf. unfold handle_stat. rewrite E in Hfd, Hf |- *. cbn [fst snd] in Hfd, Hf.
  injection Hfd as ->. destruct Hm as (file' & Hrec & Ha & ->). split; [done|].
  assert (file' = file) as -> by (destruct Hrec as (_ & Ht & _); rewrite Ht in Hf; by injection Hf).
  unfold drop_and_return. by destruct (handle_drop _ _).
Qed.
Print Assumptions C142_opened.

(** On i686 a successful stat leaves the number of links where the program looks for the size, the
    mode where it looks for the device and so on, and overwrites 16 bytes after the program's
    structure with the times of the file. *)
Theorem C142_i686_refuted env stats path out w m fd :
  be_abi (we_broker env) = Abi32 →
  let m' := stat_memory env stats path out w m in
  (∀ file, we_fstat env file ≠ Some 0%N) →
  (handle_stat env path w).1 = HRet 0 →
  (get_fd_for_path_with_perms env path O_PATH w).1 = HRet (inl fd) →
  ∃ file, found env path w fd file ∧ let st := stats file in
    (peek W32 m' out 16 4 = st StMode mod 2 ^ 32 ∧       (* st_rdev *)
     peek W32 m' out 20 4 = st StNlink mod 2 ^ 32 ∧      (* st_size *)
     peek W32 m' out 24 4 = st StUid mod 2 ^ 32 ∧        (* st_blksize *)
     peek W32 m' out 28 4 = st StGid mod 2 ^ 32 ∧        (* st_blocks *)
     peek W32 m' out 44 4 = st StSize mod 2 ^ 32 ∧       (* st_mtime_nsec *)
     peek W32 m' out 48 4 = st StBlksize mod 2 ^ 32) ∧   (* st_ctime *)
    (peek W32 m' out 64 4 = st StMtime mod 2 ^ 32 ∧
     peek W32 m' out 68 4 = st StMtimeNs mod 2 ^ 32 ∧
     peek W32 m' out 72 4 = st StCtime mod 2 ^ 32 ∧
     peek W32 m' out 76 4 = st StCtimeNs mod 2 ^ 32).
Proof.
  intros Habi m' Hz Hok Hfd.
  destruct (stat_filled env stats path out w m fd Hz Hok Hfd) as (file & Hfile & Hm).
  fold m' in Hm. rewrite Habi in Hm. cbn [abi_width] in Hm. clearbody m'. subst m'.
  exists file. split; [done|]. cbn zeta. set (st := stats file). clearbody st. clear.
  split_and!;
    match goal with |- peek _ (fill _ _ _ _ _) _ ?o ?n = st ?f mod _ =>
      rewrite (fill_peek W32 _ _ _ _ f o n (libc_apart W32)); [done|] end;
    apply (bool_decide_unpack _); vm_compute; exact I.
Qed.
Print Assumptions C142_i686_refuted.

(** The file of the example: 1234 bytes, 1 link, changed at time 5678. *)
Definition ex_stats (file : N) (f : sfield) : Z :=
  match f with
  | StSize => 1234 | StNlink => 1 | StMode => 33188 | StMtime => 5678 | StCtime => 5679 | _ => 7
  end.
Lemma ex_stats_fit w file : stats_fit w (ex_stats file).
Proof.
  intros f o n Hin.
  assert (H : forallb (λ e : sfield * Z * Z,
    (0 <=? ex_stats file e.1.1) && (ex_stats file e.1.1 <? 2 ^ (8 * e.2))) (program_view w) = true)
    by (by destruct w; vm_compute).
  rewrite forallb_forall in H. specialize (H _ (proj1 (elem_of_list_In _ _) Hin)).
  cbn [fst snd] in H. lia.
Qed.
Lemma ex_stat_ok :
  (handle_stat (exw_env false true (lit "/f")) (lit "/f") exw_world).1 = HRet 0 ∧
  (get_fd_for_path_with_perms (exw_env false true (lit "/f")) (lit "/f") O_PATH exw_world).1
    = HRet (inl 3%N).
Proof. by vm_compute. Qed.

Theorem C142_refuted : ¬ C142_full.
Proof.
  intros H. unfold C142_full in H. destruct ex_stat_ok as [Hok Hfd].
  destruct (H (exw_env false true (lit "/f")) ex_stats (lit "/f") 4096 exw_world (λ _, 0) 3%N)
    as [(file & _ & Hf) _]; [intros; apply ex_stats_fit|done|done|done|].
  specialize (Hf StSize 20 4). feed specialize Hf.
  { apply (bool_decide_unpack _); vm_compute; exact I. }
  destruct (C142_i686_refuted (exw_env false true (lit "/f")) ex_stats (lit "/f") 4096 exw_world
    (λ _, 0) 3%N eq_refl) as (file' & _ & (_ & H2 & _) & _); [done|done|done|].
  cbn [abi_width be_abi we_broker exw_env exw_broker] in Hf.
  rewrite H2 in Hf. vm_compute in Hf. discriminate.
Qed.
Print Assumptions C142_refuted.

Example C142_example :
  let m' := stat_memory (exw_env false true (lit "/f")) ex_stats (lit "/f") 4096 exw_world (λ _, 255) in
  (** The size read by the program is 1, and the bytes after its 64 are 5678. *)
  peek W32 m' 4096 20 4 = 1 ∧ peek W32 m' 4096 64 4 = 5678 ∧ peek W32 m' 4096 88 4 = 4294967295 ∧
  (** The sizes of the structures. *)
  map (λ w, (end_of w 0 (kernel_stat w), end_of w 0 (libc_stat w))) [W64; W32] = [(144, 144); (64, 88)].
Proof. split_and!; by vm_compute. Qed.
