(** Lemmas about starting Windows workers. *)
From stdpp Require Import prelude gmap sorting.
From Coq Require Import Strings.Byte.
From Verif Require Import Bytes PolicyModel LinuxPolicyModel FdModel BpfModel SeccompModel
  PostcardModel ChannelModel BrokerModel EntryModel ProcessModel WinProcessModel WinProcessSpec.
Local Open Scope N_scope.

(* ---------------------------------------------------------------- one attempt *)

Definition norm (o : popts) : popts := if po_container o then o else no_less o.
Definition attrs_of (o : popts) (inp : pinput) (name : str) : list win_attr :=
  (if po_container o then [ACapabilities name] else []) ++
  (if po_less o then [ALessPrivileged 1] else []) ++
  (if po_handles o then [AHandles (handle_list (pi_handles inp))] else []) ++
  (if po_child o then [AChildPolicy 1] else []) ++
  (if po_mitigations o then [AMitigations mitigation_policy] else []).
(** Why an attempt is followed by another one with fewer options. *)
Definition gave_up (env : penv) (o o' : popts) (es : list pevent) : Prop :=
  (po_container o = true ∧ o' = no_container o ∧ os_refused (pe_appcontainers env) es KContainer) ∨
  (po_less o = true ∧ o' = no_less o ∧ os_refused (pe_appcontainers env) es KLess) ∨
  (po_handles o = true ∧ o' = no_handles o ∧ os_refused (pe_appcontainers env) es KHandles) ∨
  (po_child o = true ∧ o' = no_child o ∧ os_refused (pe_appcontainers env) es KChild) ∨
  (po_mitigations o = true ∧ o' = no_mitigations o ∧
   (os_refused (pe_appcontainers env) es KMitigations ∨ ∃ c, PCreate c None ∈ es)).

Record attempt_facts (env : penv) (inp : pinput) (o : popts) (cont : option str)
  (full : list win_attr) (r : attempt_result) (es : list pevent) : Prop := mkAf {
  af_lists : ∀ n, PList n ∉ es;
  af_create : ∀ c h, PCreate c h ∈ es →
    c = mkCp (count_opts o) full (pi_cmdline inp) (pi_envblock inp) (pi_dir inp) (pi_std inp);
  af_again : ∀ o', r = Again o' → gave_up env o o' es;
  af_failed : ∀ c h o', r = Again o' → PCreate c h ∈ es → h = None;
  af_ok : ∀ p, r = Done (Ok p) →
    last es = Some (PPid (wp_pid p)) ∧ wp_pid p ≠ 0 ∧
    (∃ c, PCreate c (Some (wp_handle p)) ∈ es) ∧
    (∀ c, PCreate c None ∉ es) ∧
    (∀ a, PSet a false ∉ es) ∧ wp_container p = cont;
  af_sets : ∀ a b, PSet a b ∈ es → a ∈ full }.
Definition no_profile (es : list pevent) : Prop :=
  (∀ n hr, PProfile n hr ∉ es) ∧ ∀ n, PUnprofile n ∉ es.

Ltac in_list := rewrite ?elem_of_app, ?elem_of_cons, ?elem_of_nil in *.
Ltac in_cases :=
  repeat match goal with
  | H : _ ∈ _ :: _ |- _ => apply elem_of_cons in H as [H|H]
  | H : _ ∈ [] |- _ => apply elem_of_nil in H; destruct H
  | H : @eq pevent (_ _) (_ _) |- _ => first [discriminate H | inversion H; clear H; subst]
  | H : @eq pevent (_ _ _) (_ _ _) |- _ => first [discriminate H | inversion H; clear H; subst]
  | H : @eq pevent _ _ |- _ => discriminate H
  end.

Local Arguments count_opts : simpl never.
Local Arguments container_name : simpl never.
Local Arguments mitigation_policy : simpl never.
Local Arguments handle_list : simpl never.

Lemma gave_up_mono env o o' es es' :
  (∀ e, e ∈ es → e ∈ es') → gave_up env o o' es → gave_up env o o' es'.
Proof.
  intros Hs.
  assert (∀ k, os_refused (pe_appcontainers env) es k → os_refused (pe_appcontainers env) es' k)
    as Hr.
  { intros k [(a & Hk & Ha)|[[Hk [Hf|(n & hr & Hhr & Hp)]]|[Hk (a & Hka & Ha)]]].
    - left. exists a. auto.
    - right. left. auto.
    - right. left. split; [done|]. right. exists n, hr. auto.
    - right. right. split; [done|]. exists a. auto. }
  unfold gave_up.
  intros [(A&B&C)|[(A&B&C)|[(A&B&C)|[(A&B&C)|(A&B&[C|(c&C)])]]]].
  - left. split_and!; [done..|by apply Hr].
  - right. left. split_and!; [done..|by apply Hr].
  - do 2 right. left. split_and!; [done..|by apply Hr].
  - do 3 right. left. split_and!; [done..|by apply Hr].
  - do 4 right. split_and!; [done..|left; by apply Hr].
  - do 4 right. split_and!; [done..|right]. exists c. by apply Hs.
Qed.

Lemma af_cons env inp o cont full r es e :
  attempt_facts env inp o cont full r es → es ≠ [] →
  (∃ a, e = PSet a true ∧ a ∈ full) ∨ (∃ n hr, e = PProfile n hr) ∨ (∃ n, e = PUnprofile n) →
  attempt_facts env inp o cont full r (e :: es).
Proof.
  intros [H1 H2 H3 H4 H5 H6] Hne He. constructor.
  - intros n Hn. apply elem_of_cons in Hn as [<- | Hn]; [|by eapply H1].
    destruct He as [(a&?&?)|[(n'&hr&?)|(n'&?)]]; discriminate.
  - intros c h Hn. apply elem_of_cons in Hn as [<- | Hn]; [|by eapply H2].
    destruct He as [(a&?&?)|[(n'&hr&?)|(n'&?)]]; discriminate.
  - intros o' Hr. eapply gave_up_mono; [|by apply H3]. intros x Hx. by apply elem_of_cons; right.
  - intros c h o' Hr Hn. apply elem_of_cons in Hn as [<- | Hn]; [|by eapply H4].
    destruct He as [(a&?&?)|[(n'&hr&?)|(n'&?)]]; discriminate.
  - intros p Hp. destruct (H5 p Hp) as (A & B & (c & C) & D & F & G).
    split_and!; try done.
    + by destruct es.
    + exists c. by apply elem_of_cons; right.
    + intros c' Hn. apply elem_of_cons in Hn as [<- | Hn]; [|by eapply D].
      destruct He as [(a&?&?)|[(n'&hr&?)|(n'&?)]]; discriminate.
    + intros a' Hn. apply elem_of_cons in Hn as [<- | Hn]; [|by eapply F].
      destruct He as [(a&?&?)|[(n'&hr&?)|(n'&?)]]; discriminate.
  - intros a' b Hn. apply elem_of_cons in Hn as [<- | Hn]; [|by eapply H6].
    destruct He as [(a&He&?)|[(n'&hr&He)|(n'&He)]]; by simplify_eq.
Qed.

Lemma af_refused env inp o cont full o' es a :
  es = [PSet a false] → a ∈ full → gave_up env o o' es →
  attempt_facts env inp o cont full (Again o') es.
Proof.
  intros -> Ha Hg. constructor.
  - intros n Hn. in_cases.
  - intros c h Hn. in_cases.
  - intros o'' [= <-]. done.
  - intros c h o'' _ Hn. in_cases.
  - done.
  - intros a' b Hn. in_cases. done.
Qed.

Section stages.
  Context (env : penv) (inp : pinput) (o : popts) (full : list win_attr).

  Definition mit_attrs : list win_attr :=
    if po_mitigations o then [AMitigations mitigation_policy] else [].
  Definition child_attrs : list win_attr :=
    (if po_child o then [AChildPolicy 1] else []) ++ mit_attrs.
  Definition handle_attrs : list win_attr :=
    (if po_handles o then [AHandles (handle_list (pi_handles inp))] else []) ++ child_attrs.
  Definition less_attrs : list win_attr :=
    (if po_less o then [ALessPrivileged 1] else []) ++ handle_attrs.

  Definition stage_ok (cont : option str) (s s' : pstate) (r : attempt_result) : Prop :=
    ∃ es, ps_trace s' = ps_trace s ++ es ∧ ps_next s' = ps_next s ∧ es ≠ [] ∧ no_profile es ∧
          attempt_facts env inp o cont full r es.

  Lemma stage_set cont s s' r a :
    a ∈ full → stage_ok cont (plog s (PSet a true)) s' r → stage_ok cont s s' r.
  Proof.
    intros Ha (es & E1 & E2 & E3 & [E4 E4'] & E5). exists (PSet a true :: es). split_and!.
    - rewrite E1. simpl. by rewrite <- app_assoc.
    - done.
    - done.
    - split; intros; intros Hn; apply elem_of_cons in Hn as [Hn|Hn]; try discriminate;
        [by eapply E4|by eapply E4'].
    - apply af_cons; [done..|]. left. eauto.
  Qed.
  Lemma stage_refused cont s a o' k :
    a ∈ full → kind_of a = k →
    (os_refused (pe_appcontainers env) [PSet a false] k → gave_up env o o' [PSet a false]) →
    stage_ok cont s (plog s (PSet a false)) (Again o').
  Proof.
    intros Ha Hk Hg. exists [PSet a false]. split_and!; try done.
    - split; intros; intros Hn; in_cases.
    - eapply af_refused; [done|done|]. apply Hg. left. exists a. split; [done|]. in_list. auto.
  Qed.

  Lemma create_stage cont attrs s r s' :
    try_create env inp o (count_opts o) cont attrs s = (r, s') →
    attrs = full → stage_ok cont s s' r.
  Proof.
    intros H ->. unfold try_create in H.
    set (c := mkCp _ _ _ _ _ _) in *.
    destruct (pe_create env (ps_trace s) c) as [h|] eqn:Ec.
    - set (pid := pe_pid env _) in *.
      assert (s' = plog (plog s (PCreate c (Some h))) (PPid pid) ∧
              (r = Done (Err (OsFailed (lit "GetProcessId() failed") 0)) ∨
               (pid ≠ 0 ∧ r = Done (Ok (mkWp pid h cont))))) as [-> Hr].
      { destruct (N.eqb_spec pid 0); simplify_eq; auto. }
      clear H. exists [PCreate c (Some h); PPid pid]. split_and!.
      + simpl. by rewrite <- app_assoc.
      + done.
      + done.
      + split; intros; intros Hn; in_cases.
      + constructor.
        * intros n Hn. in_cases.
        * intros c' h' Hn. in_cases. done.
        * intros o' ->. destruct Hr as [?|[??]]; discriminate.
        * intros c' h' o' ->. destruct Hr as [?|[??]]; discriminate.
        * intros p ->. destruct Hr as [?|[? [= ->]]]; [discriminate|]. split_and!; try done.
          -- exists c. in_list. auto.
          -- intros c' Hn. in_cases.
          -- intros a Hn. in_cases.
        * intros a b Hn. in_cases.
    - assert (s' = plog s (PCreate c None) ∧
        (r = Done (Err (OsFailed (lit "CreateProcess() failed") 0)) ∨
         (po_mitigations o = true ∧ r = Again (no_mitigations o)))) as [-> Hr].
      { destruct (po_mitigations o); simplify_eq; auto. }
      exists [PCreate c None]. split_and!; try done.
      + split; intros; intros Hn; in_cases.
      + constructor.
        * intros n Hn. in_cases.
        * intros c' h' Hn. in_cases. done.
        * intros o' ->. destruct Hr as [?|[Hm [= ->]]]; [discriminate|].
          do 4 right. split; [done|]. split; [done|]. right. exists c. in_list. auto.
        * intros c' h' o' _ Hn. in_cases. done.
        * intros p ->. destruct Hr as [?|[??]]; discriminate.
        * intros a b Hn. in_cases.
  Qed.

  Lemma mitigations_stage cont attrs s r s' :
    try_mitigations env inp o (count_opts o) cont attrs s = (r, s') →
    attrs ++ mit_attrs = full → stage_ok cont s s' r.
  Proof.
    intros H Hf. unfold try_mitigations, do_set, mit_attrs in *.
    destruct (po_mitigations o) eqn:Eo.
    - assert (AMitigations mitigation_policy ∈ full) as Ha by (rewrite <- Hf; in_list; auto).
      destruct (pe_set _ _ _).
      + eapply stage_set; [done|]. by eapply create_stage.
      + simplify_eq. eapply stage_refused; [done|done|]. intros ?. do 4 right. auto.
    - rewrite app_nil_r in Hf. by eapply create_stage.
  Qed.
  Lemma child_stage cont attrs s r s' :
    try_child env inp o (count_opts o) cont attrs s = (r, s') →
    attrs ++ child_attrs = full → stage_ok cont s s' r.
  Proof.
    intros H Hf. unfold try_child, do_set, child_attrs in *.
    destruct (po_child o) eqn:Eo.
    - assert (AChildPolicy 1 ∈ full) as Ha by (rewrite <- Hf; in_list; auto).
      destruct (pe_set _ _ _).
      + eapply stage_set; [done|]. eapply mitigations_stage; [done|]. by rewrite <- app_assoc.
      + simplify_eq. eapply stage_refused; [done|done|]. intros ?. do 3 right. left. auto.
    - by eapply mitigations_stage.
  Qed.
  Lemma handles_stage cont attrs s r s' :
    try_handles env inp o (count_opts o) cont attrs s = (r, s') →
    attrs ++ handle_attrs = full → stage_ok cont s s' r.
  Proof.
    intros H Hf. unfold try_handles, do_set, handle_attrs in *.
    destruct (po_handles o) eqn:Eo.
    - assert (AHandles (handle_list (pi_handles inp)) ∈ full) as Ha
        by (rewrite <- Hf; in_list; auto).
      destruct (pe_set _ _ _).
      + eapply stage_set; [done|]. eapply child_stage; [done|]. by rewrite <- app_assoc.
      + simplify_eq. eapply stage_refused; [done|done|]. intros ?. do 2 right. left. auto.
    - by eapply child_stage.
  Qed.
  Lemma less_stage name attrs s r s' :
    try_less env inp o (count_opts o) name attrs s = (r, s') →
    attrs ++ less_attrs = full → stage_ok (Some name) s s' r.
  Proof.
    intros H Hf. unfold try_less, do_set, less_attrs in *.
    destruct (po_less o) eqn:Eo.
    - assert (ALessPrivileged 1 ∈ full) as Ha by (rewrite <- Hf; in_list; auto).
      destruct (pe_set _ _ _).
      + eapply stage_set; [done|]. eapply handles_stage; [done|]. by rewrite <- app_assoc.
      + simplify_eq. eapply stage_refused; [done|done|]. intros ?. right. left. auto.
    - by eapply handles_stage.
  Qed.
End stages.

(** What one attempt does with profiles. *)
Definition profile_part (o : popts) (name : str) (s s' : pstate) (es : list pevent) : Prop :=
  ∃ pre post, es = pre ++ post ∧ no_profile post ∧
    (∀ X, profiles pre X ⊆ X ∪ {[ name ]}) ∧
    (∀ n hr, PProfile n hr ∈ pre → n = name) ∧ (∀ n, PUnprofile n ∈ pre → n = name) ∧
    (ps_next s' = ps_next s ∨ ps_next s' = ps_next s + 1) ∧
    (pre = [] ∨ ps_next s' = ps_next s + 1) ∧ (po_container o = false → pre = []).

Lemma attempt_spec env inp o s r s' :
  attempt env inp o s = (r, s') →
  let o1 := norm o in
  let name := container_name (pe_own_pid env) (ps_next s) in
  ∃ es, ps_trace s' = ps_trace s ++ PList (count_opts o1) :: es ∧
    profile_part o1 name s s' es ∧
    attempt_facts env inp o1 (if po_container o1 then Some name else None)
      (attrs_of o1 inp name) r es.
Proof.
  intros H. unfold attempt in H. fold (norm o) in H.
  assert (po_container (norm o) = false → po_less (norm o) = false) as Hn.
  { unfold norm. destruct (po_container o) eqn:E; simpl; congruence. }
  generalize dependent (norm o). clear o. intros o H Hn. intros o1 name.
  subst o1. simpl in H. fold name in H.
  destruct (pe_list env (ps_trace s) (count_opts o)) eqn:El; simpl in H.
  2:{ simplify_eq. exists []. split_and!.
      - simpl. done.
      - exists [], []. split_and!; try done.
        + split; intros; intros Hx; in_cases.
        + intros X. simpl. set_solver.
        + intros n hr Hx. in_cases.
        + intros n Hx. in_cases.
        + left. done.
        + left. done.
      - constructor; repeat intro; in_cases; congruence. }
  destruct (po_container o) eqn:Ec.
  2:{ specialize (Hn eq_refl).
      eapply (handles_stage env inp o (attrs_of o inp name)) in H as (es & E1 & E2 & E3 & E4 & E5).
      - exists es. split_and!.
        + rewrite E1. simpl. by rewrite <- app_assoc.
        + exists [], es. split_and!; try done.
          * intros X. simpl. set_solver.
          * intros n hr Hx. in_cases.
          * intros n Hx. in_cases.
          * left. done.
          * left. done.
        + done.
      - unfold attrs_of. rewrite Ec, Hn. done. }
  destruct (pe_appcontainers env) eqn:Ea.
  2:{ simplify_eq. exists []. split_and!.
      - done.
      - exists [], []. split_and!; try done.
        + split; intros; intros Hx; in_cases.
        + intros X. simpl. set_solver.
        + intros n hr Hx. in_cases.
        + intros n Hx. in_cases.
        + left. done.
        + left. done.
      - constructor; try (repeat intro; in_cases; congruence).
        intros o' [= <-]. left. split; [done|]. split; [done|]. right. left. rewrite Ea. auto. }
  clear Hn.
  destruct (create_profile env name _) as [hr s1] eqn:Ep.
  assert (∃ pre, ps_trace s1 = ps_trace s ++ PList (count_opts o) :: pre ∧
    ps_next s1 = ps_next s + 1 ∧ PProfile name hr ∈ pre ∧
    (∀ e, e ∈ pre → (∃ hr, e = PProfile name hr) ∨ e = PUnprofile name) ∧
    (∀ X, profiles pre X ⊆ X ∪ {[ name ]})) as (pre & P1 & P2 & P3 & P4 & P5).
  { unfold create_profile in Ep. simpl in Ep.
    set (hr0 := pe_profile env (ps_trace s ++ [PList (count_opts o)]) name) in *.
    destruct (hr0 =? ALREADY_EXISTS)%Z eqn:E0.
    - set (hr1 := pe_profile env (((_ ++ _) ++ _) ++ _) name) in *. clearbody hr0 hr1.
      simplify_eq. exists [PProfile name hr0; PUnprofile name; PProfile name hr]. split_and!.
      + unfold plog. simpl. rewrite <- !app_assoc. simpl. reflexivity.
      + done.
      + in_list. do 2 right. by left.
      + intros e He. in_list. naive_solver.
      + intros X. cbn [profiles foldl].
        destruct (hr0 =? 0)%Z, (_ =? 0)%Z; set_solver.
    - clearbody hr0. injection Ep as <- <-. exists [PProfile name hr0]. split_and!.
      + unfold plog. simpl. rewrite <- !app_assoc. simpl. reflexivity.
      + done.
      + in_list. auto.
      + intros e He. in_list. naive_solver.
      + intros X. cbn [profiles foldl]. destruct (hr0 =? 0)%Z; set_solver. }
  clear Ep.
  assert (∀ post cont full, no_profile post → attempt_facts env inp o cont full r post → post ≠ [] →
            ps_trace s' = ps_trace s1 ++ post → ps_next s' = ps_next s1 →
            cont = Some name → full = attrs_of o inp name →
    ∃ es, ps_trace s' = ps_trace s ++ PList (count_opts o) :: es ∧
      profile_part o name s s' es ∧
      attempt_facts env inp o (Some name) (attrs_of o inp name) r es) as Hwrap.
  { intros post cont full Hp Hf Hne Ht Hx -> ->. exists (pre ++ post). split_and!.
    - rewrite Ht, P1. rewrite <- app_assoc. done.
    - exists pre, post. split_and!; try done.
      + intros n hr' Hi. destruct (P4 _ Hi) as [[??]|?]; congruence.
      + intros n Hi. destruct (P4 _ Hi) as [[??]|?]; congruence.
      + right. congruence.
      + right. congruence.
      + congruence.
    - clear P1 P3 P5. induction pre as [|e pre IH]; [done|].
      simpl. apply af_cons.
      + apply IH. intros e' He'. apply P4. by apply elem_of_cons; right.
      + destruct pre; [|done]. done.
      + right. destruct (P4 e) as [[??]| ->]; [by apply elem_of_cons; left|eauto|eauto]. }
  destruct (hr =? 0)%Z eqn:Eh; simpl in H.
  2:{ simplify_eq. exists pre. split_and!.
      - done.
      - exists pre, []. split_and!; try done.
        + by rewrite app_nil_r.
        + split; intros; intros Hx; in_cases.
        + intros n hr' Hi. destruct (P4 _ Hi) as [[??]|?]; congruence.
        + intros n Hi. destruct (P4 _ Hi) as [[??]|?]; congruence.
        + auto.
        + auto.
        + congruence.
      - assert (∀ e, e ∈ pre → (∃ n hr, e = PProfile n hr) ∨ ∃ n, e = PUnprofile n) as P4'.
        { intros e He. destruct (P4 e He) as [[??]|?]; eauto. }
        constructor; try done.
        + intros n Hi. destruct (P4' _ Hi) as [(?&?&?)|(?&?)]; discriminate.
        + intros c h Hi. destruct (P4' _ Hi) as [(?&?&?)|(?&?)]; discriminate.
        + intros o' [= <-]. left. split; [done|]. split; [done|]. right. left.
          split; [auto|]. right. exists name, hr. split; [|done]. by apply Z.eqb_neq.
        + intros c h o' _ Hi. destruct (P4' _ Hi) as [(?&?&?)|(?&?)]; discriminate.
        + intros a b Hi. destruct (P4' _ Hi) as [(?&?&?)|(?&?)]; discriminate. }
  assert (ACapabilities name ∈ attrs_of o inp name) as Hin.
  { unfold attrs_of. rewrite Ec. in_list. auto. }
  assert (stage_ok env inp o (attrs_of o inp name) (Some name) s1 s' r)
    as (es & E1 & E2 & E3 & E4 & E5).
  { unfold do_set in H. destruct (pe_set _ _ _).
    - eapply stage_set; [done|]. eapply less_stage; [done|].
      unfold attrs_of. rewrite Ec. done.
    - simplify_eq. eapply stage_refused; [done|done|]. intros ?. left. auto. }
  eapply Hwrap; eauto.
Qed.

(* ---------------------------------------------------------------- the loop *)

Definition weight (o : popts) : nat := N.to_nat (count_opts (norm o)).
Definition has (o : popts) (k : kind) : bool :=
  match k with
  | KContainer => po_container o
  | KLess => po_less o
  | KHandles => po_handles o
  | KChild => po_child o
  | KMitigations => po_mitigations o
  end.
Definition lost (env : penv) (tr : list pevent) (o : popts) : Prop :=
  ∀ k, has o k = false →
    os_refused (pe_appcontainers env) tr k ∨ (k = KMitigations ∧ ∃ c, PCreate c None ∈ tr).

Lemma os_refused_mono b es es' k :
  (∀ e, e ∈ es → e ∈ es') → os_refused b es k → os_refused b es' k.
Proof.
  intros Hs [(a & Hk & Ha)|[[Hk [Hf|(n & hr & Hhr & Hp)]]|[Hk (a & Hka & Ha)]]].
  - left. exists a. auto.
  - right. left. auto.
  - right. left. split; [done|]. right. exists n, hr. auto.
  - right. right. split; [done|]. exists a. auto.
Qed.
Lemma lost_mono env es es' o : (∀ e, e ∈ es → e ∈ es') → lost env es o → lost env es' o.
Proof.
  intros Hs Hl k Hk. destruct (Hl k Hk) as [Hr|[He (c & Hc)]].
  - left. by eapply os_refused_mono.
  - right. split; [done|]. exists c. auto.
Qed.
Lemma container_less b tr : os_refused b tr KContainer → os_refused b tr KLess.
Proof.
  intros [(a & Hk & Ha)|[[Hk Hr]|[Hk _]]].
  - right. right. split; [done|]. exists a. done.
  - right. left. auto.
  - discriminate.
Qed.
Lemma lost_norm env tr o : lost env tr o → lost env tr (norm o).
Proof.
  intros Hl. unfold norm. destruct (po_container o) eqn:E; [done|].
  intros k Hk. destruct k; try (by apply Hl).
  destruct (Hl KContainer E) as [Hr|[He _]]; [|discriminate].
  left. by apply container_less.
Qed.
Lemma gave_up_lost env o o' es : gave_up env o o' es → lost env es o → lost env es o'.
Proof.
  intros [(A&->&C)|[(A&->&C)|[(A&->&C)|[(A&->&C)|(A&->&C)]]]] Hl k Hk;
    destruct k; simpl in Hk;
      try (left; exact C); try (apply Hl; exact Hk).
  destruct C as [C|C]; auto.
Qed.
Lemma gave_up_weight env o o' es : gave_up env (norm o) o' es → (weight o' < weight o)%nat.
Proof.
  unfold gave_up, weight. intros H.
  assert (po_container (norm o) = false → po_less (norm o) = false) as Hn.
  { unfold norm. destruct (po_container o) eqn:E; simpl; congruence. }
  generalize dependent (norm o). clear o. intros o H Hn.
  destruct H as [(A&->&_)|[(A&->&_)|[(A&->&_)|[(A&->&_)|(A&->&_)]]]];
    destruct o as [[] [] [] [] []]; simpl in A, Hn; try discriminate A; try (by specialize (Hn eq_refl));
    vm_compute; repeat constructor.
Qed.
Lemma weight_all : weight all_opts = 5%nat. Proof. reflexivity. Qed.

Lemma create_loop_total fuel env inp o s :
  (weight o < fuel)%nat → is_Some (create_loop fuel env inp o s).
Proof.
  revert o s. induction fuel as [|fuel IH]; intros o s Hw; [lia|]. simpl.
  destruct (attempt env inp o s) as [[o'|r] s'] eqn:Ea; [|eauto].
  apply IH. destruct (attempt_spec _ _ _ _ _ _ Ea) as (es & _ & _ & Hf).
  pose proof (gave_up_weight _ _ _ _ (af_again _ _ _ _ _ _ _ Hf o' eq_refl)). lia.
Qed.
Lemma create_loop_more fuel fuel' env inp o s r :
  (fuel ≤ fuel')%nat → create_loop fuel env inp o s = Some r →
  create_loop fuel' env inp o s = Some r.
Proof.
  revert fuel' o s. induction fuel as [|fuel IH]; intros fuel' o s Hl H; [done|].
  destruct fuel' as [|fuel']; [lia|]. simpl in *.
  destruct (attempt env inp o s) as [[o'|r'] s'] eqn:Ea; [|done]. apply IH; [lia|done].
Qed.

Definition good_args (inp : pinput) (c : cp_args) : Prop :=
  ∃ o name, (po_container o = false → po_less o = false) ∧
    c = mkCp (count_opts o) (attrs_of o inp name) (pi_cmdline inp) (pi_envblock inp)
          (pi_dir inp) (pi_std inp).
Lemma norm_ok o : po_container (norm o) = false → po_less (norm o) = false.
Proof. unfold norm. destruct (po_container o) eqn:E; simpl; congruence. Qed.
Lemma no_lists es : (∀ n, PList n ∉ es) → lists es = 0%nat.
Proof.
  unfold lists. induction es as [|e es IH]; intros H; [done|].
  rewrite filter_cons_False.
  - apply IH. intros n Hn. apply (H n). by apply elem_of_cons; right.
  - destruct e; simpl; auto. intros _. apply (H slots). by apply elem_of_cons; left.
Qed.
Lemma lists_app a b : lists (a ++ b) = (lists a + lists b)%nat.
Proof. unfold lists. by rewrite filter_app, app_length. Qed.
Lemma no_profile_profiles es X : no_profile es → profiles es X = X.
Proof.
  unfold profiles. revert X. induction es as [|e es IH]; intros X [H1 H2]; [done|]. simpl.
  rewrite IH.
  - destruct e; try done.
    + exfalso. by eapply H1, elem_of_list_here.
    + exfalso. by eapply H2, elem_of_list_here.
  - split; intros; intros Hn; [eapply H1|eapply H2]; by apply elem_of_list_further.
Qed.
Lemma profiles_app a b X : profiles (a ++ b) X = profiles b (profiles a X).
Proof. unfold profiles. by rewrite foldl_app. Qed.
Lemma profiles_mono es X Y : X ⊆ Y → profiles es X ⊆ profiles es Y.
Proof.
  unfold profiles. revert X Y. induction es as [|e es IH]; intros X Y H; [done|]. simpl.
  apply IH. destruct e; try done; try destruct (_ =? _)%Z; set_solver.
Qed.

(** The names of the profiles that attempts from number [n] on use. *)
Fixpoint own_names (pid n : N) (k : nat) : gset str :=
  match k with
  | O => ∅
  | S k => {[ container_name pid n ]} ∪ own_names pid (n + 1) k
  end.

Record loop_facts (env : penv) (inp : pinput) (o : popts) (s : pstate)
  (r : result win_process broker_error) (s' : pstate) (es : list pevent) : Prop := mkLf {
  lf_trace : ps_trace s' = ps_trace s ++ es;
  lf_lists : (0 < lists es ≤ S (weight o))%nat;
  lf_create : ∀ c h, PCreate c h ∈ es → good_args inp c;
  lf_ok : ∀ p, r = Ok p → ∀ es0, lost env es0 o → ∃ o' name c,
    lost env (es0 ++ es) o' ∧ last es = Some (PPid (wp_pid p)) ∧ wp_pid p ≠ 0 ∧
    c = mkCp (count_opts o') (attrs_of o' inp name) (pi_cmdline inp) (pi_envblock inp)
          (pi_dir inp) (pi_std inp) ∧
    PCreate c (Some (wp_handle p)) ∈ es ∧
    (∀ c' h, PCreate c' (Some h) ∈ es → c' = c) ∧
    wp_container p = (if po_container o' then Some name else None);
  lf_profiles : ∀ X, profiles es X ⊆ X ∪ own_names (pe_own_pid env) (ps_next s) (lists es);
  lf_unprofile : ∀ n, PUnprofile n ∈ es → ∃ id, n = container_name (pe_own_pid env) id;
  lf_one : lists es = 1%nat → ∀ p X, r = Ok p →
    profiles es X ⊆ X ∪ match wp_container p with Some n => {[ n ]} | None => ∅ end }.

Lemma own_names_more pid n k k' : (k ≤ k')%nat → own_names pid n k ⊆ own_names pid n k'.
Proof.
  revert n k'. induction k as [|k IH]; intros n k' Hl; simpl; [set_solver|].
  destruct k' as [|k']; [lia|]. simpl. pose proof (IH (n + 1) k' ltac:(lia)). set_solver.
Qed.

Lemma create_loop_spec fuel env inp o s r s' :
  create_loop fuel env inp o s = Some (r, s') → ∃ es, loop_facts env inp o s r s' es.
Proof.
  revert o s. induction fuel as [|fuel IH]; intros o s H; [done|]. simpl in H.
  destruct (attempt env inp o s) as [ar s1] eqn:Ea.
  destruct (attempt_spec _ _ _ _ _ _ Ea) as (es & Et & Hp & Hf).
  set (name := container_name (pe_own_pid env) (ps_next s)) in *.
  set (o1 := norm o) in *.
  assert (lists (PList (count_opts o1) :: es) = 1%nat) as Hl1.
  { unfold lists. rewrite filter_cons_True by done. simpl. f_equal.
    apply no_lists, (af_lists _ _ _ _ _ _ _ Hf). }
  destruct Hp as (pre & post & Hes & Hnp & Hpre & Hpn & Hun & Hnx & Hnx' & Hnone).
  assert (∀ X, profiles (PList (count_opts o1) :: es) X ⊆ X ∪ {[ name ]}) as Hprof.
  { intros X. unfold profiles. simpl. fold (profiles es X). rewrite Hes, profiles_app.
    rewrite no_profile_profiles by done. apply Hpre. }
  assert (∀ c h, PCreate c h ∈ PList (count_opts o1) :: es → good_args inp c) as Hcr.
  { intros c h Hi. apply elem_of_cons in Hi as [Hi|Hi]; [discriminate|].
    exists o1, name. split; [apply norm_ok|]. by eapply af_create. }
  assert (∀ n, PUnprofile n ∈ PList (count_opts o1) :: es →
            ∃ id, n = container_name (pe_own_pid env) id) as Hunp.
  { intros n Hi. apply elem_of_cons in Hi as [Hi|Hi]; [discriminate|].
    rewrite Hes in Hi. apply elem_of_app in Hi as [Hi|Hi].
    - exists (ps_next s). by apply Hun.
    - exfalso. by eapply (proj2 Hnp). }
  destruct ar as [o'|r'].
  - destruct (IH o' s1 H) as (es2 & [L1 L2 L3 L4 L5 L6 L7]).
    pose proof (gave_up_weight _ _ _ _ (af_again _ _ _ _ _ _ _ Hf o' eq_refl)) as Hw.
    pose proof (af_again _ _ _ _ _ _ _ Hf o' eq_refl) as Hg.
    exists ((PList (count_opts o1) :: es) ++ es2). constructor.
    + by rewrite L1, Et, app_assoc.
    + rewrite lists_app, Hl1. lia.
    + intros c h Hi. apply elem_of_app in Hi as [Hi|Hi]; eauto.
    + intros p Hpp es0 Hlost.
      destruct (L4 p Hpp (es0 ++ PList (count_opts o1) :: es)) as
        (o2 & name2 & c2 & A & B & C & D & E & F & G).
      * apply gave_up_lost with o1.
        -- eapply gave_up_mono; [|done]. intros e He. apply elem_of_app. right.
           by apply elem_of_cons; right.
        -- apply lost_norm. eapply lost_mono; [|done]. intros e He. apply elem_of_app. by left.
      * exists o2, name2, c2. split_and!; try done.
        -- by rewrite app_assoc.
        -- rewrite last_app. by rewrite B.
        -- apply elem_of_app. by right.
        -- intros c' h Hi. apply elem_of_app in Hi as [Hi|Hi]; [|by eapply F].
           apply elem_of_cons in Hi as [Hi|Hi]; [discriminate|].
           by pose proof (af_failed _ _ _ _ _ _ _ Hf _ _ o' eq_refl Hi).
    + intros X. rewrite profiles_app, lists_app, Hl1. cbn [Nat.add own_names]. fold name.
      etrans; [apply profiles_mono, Hprof|].
      destruct Hnx' as [Hpe|Hn1].
      * assert (profiles (PList (count_opts o1) :: es) X = X) as HX.
        { unfold profiles. simpl. fold (profiles es X). rewrite Hes, Hpe. simpl.
          by apply no_profile_profiles. }
        etrans; [apply L5|].
        destruct Hnx as [Hn1|Hn1]; rewrite Hn1.
        -- destruct (lists es2) as [|k] eqn:Ek; [set_solver|].
           cbn [own_names]. fold name.
           assert (own_names (pe_own_pid env) (ps_next s + 1) k ⊆
                   own_names (pe_own_pid env) (ps_next s + 1) (S k)) by
             (apply own_names_more; lia).
           set_solver.
        -- set_solver.
      * etrans; [apply L5|]. rewrite Hn1. set_solver.
    + intros n Hi. apply elem_of_app in Hi as [Hi|Hi]; eauto.
    + rewrite lists_app, Hl1. lia.
  - injection H as <- <-. exists (PList (count_opts o1) :: es). constructor.
    + done.
    + rewrite Hl1. lia.
    + done.
    + intros p -> es0 Hlost.
      destruct (af_ok _ _ _ _ _ _ _ Hf p eq_refl) as (A & B & (c & C) & D & E & F).
      exists o1, name, c. split_and!; try done.
      * apply lost_norm. eapply lost_mono; [|done]. intros e He. apply elem_of_app. by left.
      * by destruct es.
      * by eapply af_create.
      * by apply elem_of_cons; right.
      * intros c' h Hi. apply elem_of_cons in Hi as [Hi|Hi]; [discriminate|].
        rewrite (af_create _ _ _ _ _ _ _ Hf _ _ Hi), (af_create _ _ _ _ _ _ _ Hf _ _ C). done.
    + intros X. rewrite Hl1. simpl. fold name. pose proof (Hprof X). set_solver.
    + done.
    + intros _ p X ->.
      destruct (af_ok _ _ _ _ _ _ _ Hf p eq_refl) as (A & B & (c & C) & D & E & F).
      rewrite F. destruct (po_container o1) eqn:Eo; [apply Hprof|].
      specialize (Hnone eq_refl). subst pre. unfold profiles. simpl. fold (profiles es X).
      rewrite Hes. simpl. rewrite no_profile_profiles by done. set_solver.
Qed.

(* ---------------------------------------------------------------- handle lists *)

Lemma dedup_elem l h : h ∈ dedup l ↔ h ∈ l.
Proof.
  induction l as [|a r IH]; [done|]. cbn [dedup]. destruct r as [|b r]; [done|].
  destruct (N.eqb_spec a b) as [->|Hne].
  - rewrite IH, !elem_of_cons. tauto.
  - rewrite elem_of_cons, IH, (elem_of_cons (b :: r)). done.
Qed.
Lemma dedup_sorted l : StronglySorted N.le l → StronglySorted N.lt (dedup l).
Proof.
  induction l as [|a r IH]; intros Hs; [constructor|]. cbn [dedup].
  apply StronglySorted_inv in Hs as [Hs Hf].
  destruct r as [|b r]; [repeat constructor|].
  destruct (N.eqb_spec a b) as [->|Hne]; [by apply IH|].
  constructor; [by apply IH|]. apply Forall_forall. intros x Hx.
  rewrite dedup_elem in Hx. rewrite Forall_forall in Hf.
  apply StronglySorted_inv in Hs as [Hs Hfb]. rewrite Forall_forall in Hfb.
  pose proof (Hf b ltac:(apply elem_of_list_here)).
  apply elem_of_cons in Hx as [->|Hx]; [lia|]. specialize (Hfb x Hx). lia.
Qed.
Lemma strict_nodup l : StronglySorted N.lt l → NoDup l.
Proof.
  induction 1 as [|a l Hs IH Hf]; constructor; [|done].
  intros Hi. rewrite Forall_forall in Hf. specialize (Hf a Hi). lia.
Qed.
Global Instance n_le_total : Total N.le.
Proof. intros x y. lia. Qed.
Lemma handle_list_elem l h : h ∈ handle_list l ↔ h ∈ l.
Proof. unfold handle_list. rewrite dedup_elem, merge_sort_Permutation. done. Qed.
Lemma handle_list_nodup l : NoDup (handle_list l).
Proof.
  apply strict_nodup, dedup_sorted. apply (StronglySorted_merge_sort N.le).
Qed.

(* ---------------------------------------------------------------- attributes *)

Lemma attrs_count o inp name : N.of_nat (length (attrs_of o inp name)) = count_opts o.
Proof. destruct o as [[] [] [] [] []]; reflexivity. Qed.
Lemma attrs_kinds o inp name : NoDup (kind_of <$> attrs_of o inp name).
Proof.
  destruct o as [[] [] [] [] []]; unfold attrs_of; simpl;
    repeat constructor; rewrite ?elem_of_cons, ?elem_of_nil; intuition discriminate.
Qed.
Lemma attrs_has o inp name k : k ∈ kind_of <$> attrs_of o inp name ↔ has o k = true.
Proof.
  destruct o as [[] [] [] [] []], k; unfold attrs_of; simpl;
    rewrite ?elem_of_cons, ?elem_of_nil; intuition discriminate.
Qed.
Lemma attrs_handles o inp name l :
  AHandles l ∈ attrs_of o inp name ↔ po_handles o = true ∧ l = handle_list (pi_handles inp).
Proof.
  destruct o as [[] [] [] [] []]; unfold attrs_of; simpl;
    rewrite ?elem_of_cons, ?elem_of_nil; split; intros; destruct_and?; destruct_or?; simplify_eq;
    auto; tauto.
Qed.
Lemma attrs_mitigations o inp name v :
  AMitigations v ∈ attrs_of o inp name → v = mitigation_policy.
Proof.
  destruct o as [[] [] [] [] []]; unfold attrs_of; simpl;
    rewrite ?elem_of_cons, ?elem_of_nil; intros; destruct_or?; simplify_eq; auto; tauto.
Qed.

(* ---------------------------------------------------------------- command lines *)

Lemma split_program_quoted e rest cur :
  x22 ∉ e → split_program (e ++ x22 :: rest) true cur = split_program rest false (cur ++ e).
Proof.
  revert cur. induction e as [|b e IH]; intros cur Hq; simpl.
  - by rewrite app_nil_r.
  - apply not_elem_of_cons in Hq as [Hb Hq]. rewrite decide_False by done.
    rewrite andb_false_r. rewrite IH by done. by rewrite <- app_assoc.
Qed.
Lemma split_args_text a t q n c :
  x22 ∉ a → (q = true ∨ Forall (λ b, blank b = false) a) →
  ∃ n' c', split_args (a ++ t) q n (Some c) = split_args t q n' (Some c') ∧
    c' ++ replicate n' x5c = c ++ replicate n x5c ++ a ∧
    (a ≠ [] → last a ≠ Some x5c → n' = O).
Proof.
  revert n c. induction a as [|b a IH]; intros n c Hq Hb.
  - exists n, c. rewrite app_nil_r. split_and!; done.
  - apply not_elem_of_cons in Hq as [Hne Hq].
    assert (q = true ∨ Forall (λ b, blank b = false) a) as Hb'.
    { destruct Hb as [Hb|Hb]; [by left|]. right. by inversion Hb. }
    simpl. destruct (decide (b = x5c)) as [->|Hs].
    + destruct (IH (S n) c Hq Hb') as (n' & c' & E1 & E2 & E3). exists n', c'. split_and!.
      * done.
      * rewrite E2. rewrite replicate_S_end, <- app_assoc. done.
      * intros _ Hl. destruct a as [|b2 a]; [done|]. by apply E3.
    + rewrite decide_False by done.
      replace (blank b && negb q) with false.
      2:{ destruct Hb as [->|Hb]; [by rewrite andb_false_r|].
          inversion Hb as [|?? Hbb ?]; subst. by rewrite Hbb. }
      destruct (IH O (c ++ replicate n x5c ++ [b]) Hq Hb') as (n' & c' & E1 & E2 & E3).
      exists n', c'. split_and!.
      * done.
      * rewrite E2. simpl. by rewrite <- !app_assoc.
      * intros _ Hl. destruct a as [|b2 a].
        -- simpl in E1, E2. destruct n' as [|n']; [done|]. exfalso.
           rewrite replicate_S_end in E2. rewrite app_nil_r in E2.
           rewrite !app_assoc in E2. apply app_inj_tail in E2 as [_ E2]. simpl in Hl. congruence.
        -- by apply E3.
Qed.

Lemma split_args_start b s q :
  (q = true ∨ blank b = false) → split_args (b :: s) q 0 None = split_args (b :: s) q 0 (Some []).
Proof.
  intros Hb. cbn [split_args default]. destruct (decide (b = x5c)); [done|].
  destruct (decide (b = x22)); [done|].
  replace (blank b && negb q) with false; [done|].
  destruct Hb as [->| ->]; [by rewrite andb_false_r|done].
Qed.

Definition cmdline_body (a : str) : str :=
  let q := if bool_decide (space ∈ a) then [dquote] else [] in q ++ a ++ q.
Lemma split_one a t :
  simple_arg a → (t = [] ∨ ∃ t', t = x20 :: t') →
  split_args (cmdline_body a ++ t) false 0 None = a :: split_args (tail t) false 0 None.
Proof.
  intros (Hne & Hq & Ht & Hs) Htail. unfold cmdline_body.
  case_bool_decide as Hsp.
  - specialize (Hs Hsp). destruct (split_args_text a ([dquote] ++ t) true 0 [] Hq (or_introl eq_refl))
      as (n' & c' & E1 & E2 & E3).
    specialize (E3 Hne Hs). subst n'. simpl in E2. rewrite app_nil_r in E2. subst c'.
    transitivity (split_args (a ++ [dquote] ++ t) true 0 (Some [])).
    { cbn [app]. rewrite <- app_assoc. reflexivity. }
    etransitivity; [exact E1|]. destruct Htail as [->|[t' ->]]; simpl; by rewrite !app_nil_r.
  - destruct a as [|b a]; [done|]. rewrite !app_nil_r. cbn [app].
    assert (Forall (λ b, blank b = false) (b :: a)) as Hb.
    { apply Forall_forall. intros x Hx. unfold blank.
      rewrite !bool_decide_eq_false_2; [done| |]; intros ->; done. }
    rewrite split_args_start by (right; by inversion Hb).
    destruct (split_args_text (b :: a) t false 0 [] Hq (or_intror Hb))
      as (n' & c' & E1 & E2 & E3).
    etransitivity; [exact E1|]. simpl in E2.
    destruct Htail as [->|[t' ->]]; simpl; by rewrite E2.
Qed.
Lemma cmdline_arg_body a : cmdline_arg a = x20 :: cmdline_body a.
Proof. done. Qed.
Lemma split_all args :
  Forall simple_arg args →
  split_args (tail (concat (map cmdline_arg args))) false 0 None = args.
Proof.
  induction 1 as [|a args Ha Hs IH]; [done|]. cbn [map concat]. rewrite cmdline_arg_body.
  cbn [app tail]. rewrite split_one.
  - by rewrite IH.
  - done.
  - destruct args as [|a2 args]; [by left|]. right. cbn [map concat]. rewrite cmdline_arg_body.
    eexists. reflexivity.
Qed.
Lemma split_win_cmdline exe argv :
  x22 ∉ exe → Forall simple_arg (tail argv) →
  split_cmdline (win_cmdline exe argv) = exe :: tail argv.
Proof.
  intros He Ha. unfold split_cmdline, win_cmdline. cbn [split_program].
  rewrite decide_True by done. cbn [negb app]. rewrite split_program_quoted by done. cbn [app].
  pose proof (split_all _ Ha) as Hall.
  destruct (tail argv) as [|a args]; [done|]. cbn [map concat] in *.
  rewrite cmdline_arg_body in *. cbn [app tail split_program] in *.
  rewrite decide_False by done.
  replace (blank x20 && negb false) with true by done. by rewrite Hall.
Qed.

(* ---------------------------------------------------------------- environment blocks *)

Lemma block_unique block l l' : block_holds block l → block_holds block l' → l = l'.
Proof.
  intros [Hl [j Hj]] [Hl' [j' Hj']]. revert l' Hl' block Hj Hj'.
  induction Hl as [|s l [Hs1 Hs2] Hl IH]; intros l' Hl' block Hj Hj'.
  - destruct Hl' as [|s' l' [Hs1' Hs2'] Hl']; [done|]. exfalso. simpl in *.
    rewrite Hj in Hj'. destruct s' as [|b s']; [done|]. simpl in Hj'. injection Hj' as <- _.
    apply Hs2'. apply elem_of_list_here.
  - destruct Hl' as [|s' l' [Hs1' Hs2'] Hl'].
    { exfalso. simpl in *. rewrite Hj' in Hj. destruct s as [|b s]; [done|].
      simpl in Hj. injection Hj as Hb _. apply Hs2. rewrite Hb. apply elem_of_list_here. }
    simpl in Hj, Hj'. rewrite <- !app_assoc in Hj, Hj'. simpl in Hj, Hj'.
    rewrite Hj in Hj'.
    assert (s = s' ∧ concat (map (λ s, s ++ [x00]) l) ++ x00 :: j =
                     concat (map (λ s, s ++ [x00]) l') ++ x00 :: j') as [-> Hrest].
    { clear -Hs2 Hs2' Hj'.
      generalize dependent (concat (map (λ s : list byte, s ++ [x00]) l) ++ x00 :: j).
      generalize (concat (map (λ s : list byte, s ++ [x00]) l') ++ x00 :: j').
      intros r r' H. revert s' Hs2' H.
      induction s as [|b s IH]; intros [|b' s'] Hs2' H; simpl in H.
      - injection H as ->. done.
      - exfalso. injection H as <- _. apply Hs2', elem_of_list_here.
      - exfalso. injection H as -> _. apply Hs2, elem_of_list_here.
      - injection H as -> H. apply not_elem_of_cons in Hs2 as [_ Hs2].
        apply not_elem_of_cons in Hs2' as [_ Hs2'].
        destruct (IH Hs2 s' Hs2' H) as [-> ->]. done. }
    f_equal. by eapply IH.
Qed.
Lemma env_block_holds l : Forall (λ s, s ≠ [] ∧ x00 ∉ s) l → block_holds (env_block l) l.
Proof. intros H. split; [done|]. by exists []. Qed.

Lemma explicitly_set_configured name env : explicitly_set name env = true ↔ configured env name.
Proof.
  unfold explicitly_set, configured. rewrite existsb_exists. split.
  - intros (e & He & Hb). apply andb_true_iff in Hb as [H1 H2].
    apply bool_decide_eq_true in H1, H2. exists (drop (S (length name)) e).
    unfold variable. rewrite <- H1 at 1. simpl.
    replace (take (length name) e ++ x3d :: drop (S (length name)) e) with e.
    + by apply elem_of_list_In.
    + symmetry. by apply take_drop_middle.
  - intros (val & He). exists (variable name val). split; [by apply elem_of_list_In|].
    unfold variable. rewrite take_app, bool_decide_true by done. simpl.
    apply bool_decide_eq_true. by apply list_lookup_middle.
Qed.
Lemma variable_inj n v n' v' :
  x3d ∉ n → x3d ∉ n' → variable n v = variable n' v' → n = n' ∧ v = v'.
Proof.
  unfold variable. revert n'. induction n as [|b n IH]; intros [|b' n'] H1 H2 E; simpl in E.
  - by injection E as ->.
  - exfalso. injection E as <- _. apply H2, elem_of_list_here.
  - exfalso. injection E as -> _. apply H1, elem_of_list_here.
  - injection E as -> E. apply not_elem_of_cons in H1 as [_ H1].
    apply not_elem_of_cons in H2 as [_ H2]. destruct (IH n' H1 H2 E) as [-> ->]. done.
Qed.

(** The value a variable of the table gets. *)
Definition table_value (sys : str → option str) (v : str * option str) : option str :=
  match v.2 with Some val => Some val | None => sys v.1 end.
Definition added (sys : str → option str) (envp : list str) (v : str * option str) : option str :=
  if explicitly_set v.1 envp then None else variable v.1 <$> table_value sys v.

Lemma configured_app a b name : configured (a ++ b) name ↔ configured a name ∨ configured b name.
Proof.
  unfold configured. split.
  - intros (val & H). apply elem_of_app in H as [H|H]; [left|right]; eauto.
  - intros [(val & H)|(val & H)]; exists val; apply elem_of_app; auto.
Qed.
Lemma merge_step_added sys envp ex v :
  x3d ∉ v.1 → (∀ e, e ∈ ex → ∃ n val, e = variable n val ∧ x3d ∉ n ∧ n ≠ v.1) →
  merge_step sys (envp ++ ex) v = envp ++ ex ++ match added sys envp v with Some e => [e] | None => [] end.
Proof.
  intros Hv Hex. destruct v as [name forced]. unfold merge_step, added, table_value.
  cbn [fst snd] in *.
  assert (explicitly_set name (envp ++ ex) = explicitly_set name envp) as ->.
  { apply Bool.eq_iff_eq_true. rewrite !explicitly_set_configured, configured_app.
    split; [|by left]. intros [H|(val & H)]; [done|]. exfalso.
    destruct (Hex _ H) as (n & val' & E & Hn & Hne).
    apply variable_inj in E as [-> _]; done. }
  destruct (explicitly_set name envp); [by rewrite app_nil_r|].
  destruct forced as [val|]; simpl; [by rewrite app_assoc|].
  destruct (sys name); simpl; [by rewrite app_assoc|by rewrite app_nil_r].
Qed.
Lemma merge_added sys envp ex L :
  Forall (λ v, x3d ∉ v.1) L → NoDup (L.*1) →
  (∀ e, e ∈ ex → ∃ n val, e = variable n val ∧ x3d ∉ n ∧ n ∉ L.*1) →
  foldl (merge_step sys) (envp ++ ex) L = envp ++ ex ++ omap (added sys envp) L.
Proof.
  revert ex. induction L as [|v L IH]; intros ex HL Hnd Hex.
  { cbn. by rewrite app_nil_r. }
  inversion HL as [|?? Hv HL']; subst. rewrite fmap_cons in Hnd, Hex. inversion Hnd as [|?? Hn Hnd']; subst.
  cbn [foldl]. rewrite merge_step_added; [|done|].
  - rewrite IH; [|done|done|].
    + cbn [omap list_omap]. destruct (added sys envp v); simpl; rewrite <- ?app_assoc; done.
    + intros e He. apply elem_of_app in He as [He|He].
      * destruct (Hex e He) as (n & val & E1 & E2 & E3). apply not_elem_of_cons in E3 as [E3 E4].
        eauto.
      * unfold added in He. destruct (explicitly_set v.1 envp); [by apply elem_of_nil in He|].
        destruct (table_value sys v) as [val|]; simpl in He; [|by apply elem_of_nil in He].
        apply elem_of_list_singleton in He as ->. exists v.1, val. done.
  - intros e He. destruct (Hex e He) as (n & val & E1 & E2 & E3).
    apply not_elem_of_cons in E3 as [E3 E4]. eauto.
Qed.
Definition free_of (b : byte) (s : str) : bool := forallb (λ c, negb (Byte.eqb c b)) s.
Lemma free_of_spec b s : free_of b s = true → b ∉ s.
Proof.
  unfold free_of. rewrite forallb_forall. intros H Hi. apply elem_of_list_In in Hi.
  specialize (H b Hi). destruct (Byte.eqb b b) eqn:E; [done|].
  apply Byte.eqb_false in E. done.
Qed.
Lemma table_names : Forall (λ v, x3d ∉ v.1 ∧ x00 ∉ v.1 ∧ v.1 ≠ [] ∧
  match v.2 with Some f => x00 ∉ f | None => True end) sanitized_environment.
Proof.
  assert (Forall (λ v, free_of x3d v.1 && free_of x00 v.1 && negb (bool_decide (v.1 = [])) &&
    match v.2 with Some f => free_of x00 f | None => true end = true) sanitized_environment) as H
    by (unfold sanitized_environment; repeat (constructor; [vm_compute; reflexivity|]); constructor).
  eapply Forall_impl; [exact H|]. intros [n f] Hv. cbn [fst snd] in *.
  apply andb_true_iff in Hv as [Hv H4]. apply andb_true_iff in Hv as [Hv H3].
  apply andb_true_iff in Hv as [H1 H2]. split_and!.
  - by apply free_of_spec.
  - by apply free_of_spec.
  - intros ->. discriminate H3.
  - destruct f; [by apply free_of_spec|done].
Qed.
Lemma table_nodup : NoDup (sanitized_environment.*1).
Proof. apply (bool_decide_unpack _). vm_compute. exact I. Qed.
Lemma merged_env_eq sys envp :
  merged_env sys envp = envp ++ omap (added sys envp) sanitized_environment.
Proof.
  unfold merged_env. rewrite <- (app_nil_r envp) at 1. rewrite merge_added.
  - done.
  - eapply Forall_impl; [apply table_names|]. by intros v [H _].
  - apply table_nodup.
  - intros e He. by apply elem_of_nil in He.
Qed.

(* ---------------------------------------------------------------- directories *)

Lemma pop_name_app a r : backslash ∉ a → pop_name (a ++ backslash :: r) = backslash :: r.
Proof.
  induction a as [|b a IH]; intros H; simpl; [done|].
  apply not_elem_of_cons in H as [Hb H]. rewrite decide_False by done. auto.
Qed.
Lemma pop_name_none a : backslash ∉ a → pop_name a = [].
Proof.
  induction a as [|b a IH]; intros H; simpl; [done|].
  apply not_elem_of_cons in H as [Hb H]. rewrite decide_False by done. auto.
Qed.
Lemma rev_not_in (b : byte) (a : str) : b ∉ a → b ∉ rev a.
Proof. intros H Hi. apply H. apply elem_of_list_In, in_rev, elem_of_list_In. done. Qed.
Lemma executable_directory_app dir name :
  backslash ∉ name → executable_directory (dir ++ backslash :: name) = dir ++ [backslash].
Proof.
  intros H. unfold executable_directory. rewrite rev_app_distr. simpl. rewrite <- app_assoc.
  simpl. rewrite pop_name_app by by apply rev_not_in. simpl. by rewrite rev_involutive.
Qed.
Lemma executable_directory_none exe : backslash ∉ exe → executable_directory exe = [].
Proof.
  intros H. unfold executable_directory. rewrite pop_name_none by by apply rev_not_in. done.
Qed.

(* ---------------------------------------------------------------- pipe names *)

Lemma digits_aux_length fuel base n acc :
  (length (digits_aux fuel base n acc) ≤ fuel + length acc)%nat.
Proof.
  revert n acc. induction fuel as [|fuel IH]; intros n acc; [done|]. cbn [digits_aux].
  destruct (n <? base); simpl; [lia|]. etrans; [apply IH|]. simpl. lia.
Qed.
Lemma fmt_dec_length n : n < 2 ^ 32 → (length (fmt_dec n) ≤ 32)%nat.
Proof.
  intros H. unfold fmt_dec, digits. etrans; [apply digits_aux_length|]. simpl.
  destruct (N.eq_dec n 0) as [->|Hn]; [simpl; lia|].
  assert (N.log2 n < 32) by (apply N.log2_lt_pow2; lia). lia.
Qed.
Lemma pipe_path_fits pid id :
  pid < 2 ^ 32 → (- 2 ^ 31 ≤ id < 2 ^ 31)%Z → (length (pipe_path pid id) ≤ 100)%nat.
Proof.
  intros Hp Hi. unfold pipe_path, fmt_i32. rewrite !app_length.
  pose proof (fmt_dec_length pid Hp).
  assert (length (if (id <? 0)%Z then lit "-" ++ fmt_dec (Z.to_N (- id))
                  else fmt_dec (Z.to_N id)) ≤ 33)%nat as Hl.
  { destruct (Z.ltb_spec id 0).
    - rewrite app_length. pose proof (fmt_dec_length (Z.to_N (- id)) ltac:(lia)). simpl. lia.
    - pose proof (fmt_dec_length (Z.to_N id) ltac:(lia)). lia. }
  change (length (lit "\\.\pipe\ipc-")) with 13%nat. change (length (lit "-")) with 1%nat.
  cbn [length]. unfold str in *. lia.
Qed.
Lemma next_id_range id : (- 2 ^ 31 ≤ next_id id < 2 ^ 31)%Z.
Proof.
  unfold next_id. pose proof (Z.mod_pos_bound (id + 1 + 2 ^ 31) (2 ^ 32) ltac:(lia)). lia.
Qed.
Lemma next_id_small id : (- 2 ^ 31 ≤ id < 2 ^ 31 - 1)%Z → next_id id = (id + 1)%Z.
Proof. intros H. unfold next_id. rewrite Z.mod_small by lia. lia. Qed.
Lemma find_pipe_step fuel os pid id :
  pid < 2 ^ 32 →
  find_pipe (S fuel) os pid id =
    match os (pipe_path pid (next_id id)) with
    | PipeOk => Some (Ok (next_id id))
    | PipeInUse => find_pipe fuel os pid (next_id id)
    | PipeError e => Some (Err e)
    end.
Proof.
  intros Hp. cbn [find_pipe]. pose proof (pipe_path_fits pid _ Hp (next_id_range id)).
  destruct (N.ltb_spec 100 (N.of_nat (length (pipe_path pid (next_id id))))); [lia|done].
Qed.

(* ---------------------------------------------------------------- win_process_new *)

Definition input_of (sys : str → option str) (c : config) (handles : list N) (dir : str) : pinput :=
  mkPin handles (win_cmdline (cf_exe c) (cf_argv c)) (env_block (merged_env sys (cf_envp c))) dir
    (std_handle (cf_stdin c), std_handle (cf_stdout c), std_handle (cf_stderr c)).
Lemma process_new_cases fuel env sys windir c handles s r s' :
  win_process_new fuel env sys windir c handles s = Some (r, s') →
  (s' = s ∧ ∃ e, r = Err e) ∨
  ∃ dir, windir = Some dir ∧
    create_loop fuel env (input_of sys c handles dir) all_opts s = Some (r, s').
Proof.
  unfold win_process_new. intros H. destruct (cf_argv c) eqn:Ea.
  - injection H as <- <-. left. eauto.
  - destruct windir as [dir|]; [|injection H as <- <-; left; eauto].
    right. exists dir. split; [done|]. unfold input_of. by rewrite Ea.
Qed.
