(** * C71: the records of the constructor, of log_solution and create_figure, and of hypersearch
    with several processes. *)
From Coq Require Import ZArith String Ascii List Bool QArith Lia SpecFloat.
From Verif Require Import Py ProofsPy Arith Construct Spec ProofsSolve ProofsPacking ProofsSolution LocalSearch SpecSearch PropertiesSearch PropertiesHyper ProofsLoose HyperSearch MultiProcess PropertiesMulti ProofsMulti Values ProofsVal Settings Instance SpecInstance
  ProofsMachine ProofsOps ProofsRun ProofsHistory ProofsMemory SpecSettings ProofsSettings PropertiesStructures PropertiesHistory PropertiesSettings
  MultiHistory SpecMultiHistory ProofsMultiHistory Report Logging SpecLogging PropertiesLogging.
Import ListNotations.
Open Scope string_scope.
Open Scope list_scope.
Open Scope Z_scope.

(** ** Messages tell the errors apart *)
Ltac which := try match goal with
  | m : containers_msg |- _ => destruct m | m : items_msg |- _ => destruct m | m : dims_msg |- _ => destruct m
  | m : points_msg |- _ => destruct m | m : settings_msg |- _ => destruct m end.
Theorem C71_messages_differ : forall why e e' t, message why e = Some t -> message why e' = Some t -> e = e'.
Proof.
  intros why e e' t H H'. assert (E : message why e = message why e') by congruence.
  assert (N : message why e <> None) by congruence. clear H H' t.
  destruct e; try (exfalso; apply N; reflexivity); clear N; which;
    (destruct e'; try discriminate E; which; which; cbn in E; solve [reflexivity|discriminate E]).
Qed.
Print Assumptions C71_messages_differ.

(** ** The constructor *)
Section Constructor.
Context {ar : arith}.
Notation machine := (machine ar).

Definition before_settings (containers items width : pyval) : M ar unit :=
  sbind (part_width width) (fun _ => sbind sget (fun s => sbind (part_containers containers s) (fun _ =>
  sbind (new_structure ar KItems items) (fun n => smodify (fun s => set_items_ref s n))))).
Definition the_settings env settings : M ar unit := fun s => let '(c, r) := new_settings env settings in (set_cfg s c, r).
Definition after_settings : M ar unit :=
  sbind sget (fun s => sbind (get_sobj ar (m_containers s)) (fun d =>
  smodify (fun s => set_sol (set_cnum (set_pp_strategy s default_strategy) (zlen (so_data d))) [] (m_objs s)))).

Lemma sbind_ext {S A B} (m : SM S A) (f g : A -> SM S B) s : (forall a t, f a t = g a t) -> sbind m f s = sbind m g s.
Proof. intros H. unfold sbind. destruct (m s) as [s' [a|e]]; [apply H|reflexivity]. Qed.

Lemma create_in_parts env containers items settings width (s : machine) :
  create ar env containers items settings width s =
  sbind (before_settings containers items width) (fun _ => sbind (the_settings env settings) (fun _ => after_settings)) s.
Proof.
  rewrite create_parts. unfold before_settings. rewrite sbind_assoc. apply sbind_ext. intros [] s1.
  rewrite sbind_assoc. apply sbind_ext. intros s2 s3. rewrite sbind_assoc. apply sbind_ext. intros [] s4.
  unfold part_items. rewrite sbind_assoc. apply sbind_ext. intros n s5. reflexivity.
Qed.

Lemma erased_new_settings h env v : fst (new_settings_l h env v) = new_settings env v.
Proof. unfold new_settings_l, new_settings. apply erased_validate. Qed.

Definition the_settings_l h env settings : LM machine unit :=
  fun s => let '(c, r, l) := new_settings_l h env settings in (set_cfg s c, r, l).

Lemma create_l_in_parts h env containers items settings width (s : machine) :
  create_l h env containers items settings width s =
  lbind (quiet (h_why h) (before_settings containers items width)) (fun _ =>
  lbind (the_settings_l h env settings) (fun _ => quiet (h_why h) after_settings)) s.
Proof. reflexivity. Qed.
End Constructor.

Theorem C71_constructor_same_behaviour : forall ar h env containers items settings width (s : machine ar),
  fst (create_l h env containers items settings width s) = create ar env containers items settings width s.
Proof.
  intros. rewrite create_l_in_parts, create_in_parts. apply erased_bind; [apply erased_quiet|]. intros _.
  apply erased_bind; [|intros _; apply erased_quiet]. intros s1. unfold the_settings_l, the_settings.
  rewrite <- (erased_new_settings h env settings). destruct (new_settings_l h env settings) as [[c r] l]. reflexivity.
Qed.
Print Assumptions C71_constructor_same_behaviour.

Lemma empty_accepted env : exists c, new_settings env (VDict []) = (c, Ok tt).
Proof.
  destruct (new_settings env (VDict [])) as [c r] eqn:E. exists c. destruct (new_settings_cases _ _ _ _ E) as [[-> _]|[m [_ R]]]; [reflexivity|].
  exfalso. refine (reason_excludes env _ [] m true 60 (VInt 1) eq_refl R _ _ _ _); [left; split; [left; reflexivity|reflexivity]|left; split; reflexivity|left; split; [left; reflexivity|reflexivity]|left; reflexivity].
Qed.

(** Every error of the constructor is one of the library's. *)
Lemma constructor_message env containers items settings width e :
  constructor_error env containers items settings width e -> (forall c e, new_settings env settings = (c, Err e) -> exists m, e = SettingsError m) ->
  forall why, message why e <> None.
Proof.
  assert (S : forall k v e, structure_error k v e -> forall why, message why e <> None).
  { intros k v e0 H why. destruct H as [v H| |b id v a e0 _ H]; [destruct k; discriminate..|].
    destruct H; destruct k; discriminate. }
  intros H Hs why. destruct H as [H1 H2|w H1 H2|e H1 H2|cs e H1 H2|cs is_ c e H1 H2 H3]; try discriminate; [eapply S; exact H2|eapply S; exact H2|].
  destruct (Hs _ _ H3) as [m ->]. discriminate.
Qed.

(** The constructor's records: as for the other calls. The settings are looked at only when the
    containers and the items were accepted. *)
Definition structures_accepted (containers items width : pyval) : Prop :=
  exists cs is_, containers_argument containers width cs /\ structure_value KItems items is_.

Theorem C71_constructor : forall ar h env containers items settings width,
  genuine containers -> genuine items -> 1 <= h_cpus h ->
  forall (s : machine ar) r l, create_l h env containers items settings width (blank ar) = (s, r, l) ->
  exists ws twice,
    l = map (pair WARNING) ws ++ map (pair ERROR) (errors_of (h_why h) twice r) /\
    NoDup ws /\
    (forall t, In t ws <-> structures_accepted containers items width /\ settings_warning h settings t) /\
    (twice = true <-> r = Err (SettingsError S_WORKERS_VALUE) /\
       exists d w, settings = VDict d /\ has d "workers_num" w /\ a_number w) /\
    (forall e, r = Err e -> message (h_why h) e <> None).
Proof.
  intros ar h env containers items settings width Gc Gi Hc s r l E.
  assert (Ec : create ar env containers items settings width (blank ar) = (s, r))
    by (rewrite <- (C71_constructor_same_behaviour ar h), E; reflexivity).
  destruct (C31_constructor ar env containers items settings width Gc Gi) as [K1 [K2 _]].
  destruct (C31_constructor ar env containers items (VDict []) width Gc Gi) as [J1 [J2 _]].
  destruct (empty_accepted env) as [c0 Ec0].
  assert (Hlib : forall e, r = Err e -> message (h_why h) e <> None).
  { intros e ->. eapply constructor_message; [apply K2; eexists; exact Ec|]. intros c e' Hn.
    destruct (new_settings_cases _ _ _ _ Hn) as [[X _]|[m [X _]]]; [discriminate|]. injection X as ->. eauto. }
  rewrite create_l_in_parts in E. unfold lbind at 1 in E.
  destruct (quiet (h_why h) (before_settings containers items width) (blank ar)) as [[s1 r1] l1] eqn:E1.
  destruct (quiet_eq _ _ _ _ _ _ E1) as [B ->]. destruct r1 as [[]|e].
  2:{ (* the structures were rejected *)
      injection E as <- <- <-. exists [], false. split; [reflexivity|]. split; [constructor|].
      assert (NA : ~ structures_accepted containers items width).
      { intros [cs [is_ [A1 A2]]]. assert (X : exists s : machine ar, created env containers items (VDict []) width s) by (apply J1; exists cs, is_, c0; auto).
        destruct X as [x X]. unfold created in X. rewrite create_in_parts, (sbind_err _ _ _ _ _ B) in X. discriminate X. }
      split; [intros t; split; [intros []|tauto]|]. split; [|exact Hlib].
      split; [discriminate|]. intros [X _]. exfalso. injection X as ->.
      assert (Y : constructor_error env containers items (VDict []) width (SettingsError S_WORKERS_VALUE)).
      { apply J2. exists s1. rewrite create_in_parts. apply sbind_err. exact B. }
      assert (SE : forall k v, ~ structure_error k v (SettingsError S_WORKERS_VALUE)).
      { intros k v H. inversion H as [? ? [Z1 Z2]|[Z1 Z2]|? ? ? ? ? _ Z]; subst; try (destruct k; discriminate).
        inversion Z; destruct k; discriminate. }
      inversion Y as [| | ? ? Z|? ? ? Z|? ? ? ? ? ? Z]; subst; [exact (SE _ _ Z)..|]. congruence. }
  (* the structures were accepted *)
  assert (O : exists d, nth_error (m_structs s1) (m_containers s1) = Some d).
  { destruct (nth_error (m_structs s1) (m_containers s1)) as [d|] eqn:En; [eauto|exfalso].
    assert (X : create ar env containers items (VDict []) width (blank ar) = (set_cfg s1 c0, Err nothing_there)).
    { rewrite create_in_parts, (sbind_ok _ _ _ _ _ B). unfold the_settings, sbind at 1. rewrite Ec0.
      unfold after_settings, sbind, sget, get_sobj. cbn [m_structs m_containers set_cfg]. rewrite En. reflexivity. }
    assert (Y : constructor_error env containers items (VDict []) width nothing_there) by (apply J2; eexists; exact X).
    refine (constructor_message _ _ _ _ _ _ Y _ "" eq_refl). intros c e H. congruence. }
  destruct O as [d O].
  assert (SA : structures_accepted containers items width).
  { assert (X : exists s : machine ar, created env containers items (VDict []) width s).
    { eexists. unfold created. rewrite create_in_parts, (sbind_ok _ _ _ _ _ B). unfold the_settings, sbind at 1. rewrite Ec0.
      unfold after_settings, sbind, sget, get_sobj. cbn [m_structs m_containers set_cfg]. rewrite O. reflexivity. }
    apply J1 in X. destruct X as [cs [is_ [c [A1 [A2 _]]]]]. exists cs, is_. auto. }
  cbn [errors_of map] in E. unfold lbind, the_settings_l in E. destruct (new_settings_l h env settings) as [[c r2] l2] eqn:E2.
  unfold new_settings_l in E2. set (v := if truthy settings then settings else VDict []) in E2.
  match type of E2 with validate_settings_l _ _ ?C = _ => set (C0 := C) in E2 end.
  destruct (validate_records h env v C0 _ _ _ Hc eq_refl E2) as [ws [twice [G1 [G2 [G3 G4]]]]].
  assert (R : r = r2 /\ l = l2).
  { destruct r2 as [[]|e]; [|injection E as <- <- <-; auto].
    unfold quiet, after_settings, sbind, sget, get_sobj in E. cbn [m_structs m_containers set_cfg] in E. rewrite O in E.
    injection E as <- <- <-. split; [reflexivity|]. cbn [raised app]. rewrite app_nil_r. reflexivity. }
  destruct R as [-> ->]. exists ws, twice. split; [exact G1|]. split; [exact G2|].
  assert (SV : forall d', v = VDict d' -> d' = [] \/ settings = VDict d').
  { intros d' X. unfold v in X. destruct (truthy settings); [auto|]. injection X as <-. auto. }
  assert (VS : forall d', settings = VDict d' -> v = VDict d').
  { intros d' ->. unfold v. destruct d'; reflexivity. }
  assert (WE : forall w, workers_given (VDict []) w -> w = VInt 1).
  { intros w [d' [b [z [X [_ [_ W]]]]]]. injection X as <-. destruct W as [[_ ->]|[W _]]; [reflexivity|discriminate W]. }
  split; [|split; [|exact Hlib]].
  - intros t. rewrite G3. split.
    + intros H. split; [exact SA|]. assert (G : exists w, workers_given v w) by (destruct H; eauto).
      destruct G as [w [d' [b [z [X _]]]]]. destruct (SV d' X) as [->|X2]; [|rewrite X2; rewrite <- X; exact H].
      exfalso. rewrite X in H. assert (F : forall n, 1 <= n -> ~ more_than (VInt 1) n).
      { intros n Hn [[z' [[Z|[[Z _]|[Z _]]] Hz]]|[[q [Z _]]|Z]]; try discriminate Z. injection Z as <-. lia. }
      destruct H as [w' Hw M|w' Hw M _ _]; rewrite (WE _ Hw) in M; [exact (F _ Hc M)|exact (F 1 ltac:(lia) M)].
    + intros [_ H]. assert (G : exists w, workers_given settings w) by (destruct H; eauto).
      destruct G as [w [d' [b [z [X _]]]]]. rewrite (VS d' X), <- X. exact H.
  - rewrite G4. split; intros [-> X]; (split; [reflexivity|]); destruct X as [d' [w [X [X1 X2]]]].
    + destruct (SV d' X) as [->|Y]; [discriminate X1|]. exists d', w. auto.
    + exists d', w. split; [apply VS; exact X|]. auto.
Qed.
Print Assumptions C71_constructor.

(** ** log_solution and create_figure *)
Theorem C71_log_solution : forall ar h (s : machine ar),
  fst (log_solution_l h s) = log_solution s /\
  (m_sol s = [] -> log_solution_l h s = (Ok None, [(WARNING, "No solving operation has been concluded.")])) /\
  (m_sol s <> [] -> snd (log_solution_l h s) = map (pair ERROR) (errors_of (h_why h) false (log_solution s))).
Proof.
  intros ar h s. unfold log_solution_l, log_solution. destruct (m_sol s) as [|kv sol]; [repeat split; [intros X; destruct (X eq_refl)]|].
  split; [reflexivity|]. split; [discriminate|]. intros _. apply raised_errors.
Qed.
Print Assumptions C71_log_solution.

(** Settings which say neither to show the figure nor to export it. *)
Definition no_figure_wanted (show : bool) (v : pyval) : Prop :=
  show = false /\ exists d, v = VDict d /\
  (absent d "figure" \/ exists f, has d "figure" (VDict f) /\
     (absent f "show" \/ exists x, has f "show" x /\ truthy x = false) /\ (absent f "export" \/ has f "export" VNone)).

Theorem C71_create_figure : forall ar h writes show (s : machine ar) events r l,
  create_figure_l h writes show s = (events, r, l) ->
  create_figure writes show s = (events, r) /\
  (m_sol s = [] -> l = [(WARNING, "Can't create figure if a solution hasn't been found.")]) /\
  (m_sol s <> [] -> c_plotly (m_cfg s) = true -> c_plotly_ok (m_cfg s) = true -> no_figure_wanted show (settings_of s) ->
     l = [(WARNING, "If not showing or exporting the figure makes the operation obsolete.")] /\ events = [] /\ r = Ok tt) /\
  (m_sol s <> [] -> ~ (c_plotly (m_cfg s) = true /\ c_plotly_ok (m_cfg s) = true /\ no_figure_wanted show (settings_of s)) ->
     l = map (pair ERROR) (errors_of (h_why h) false r)).
Proof.
  intros ar h writes show s events r l E. unfold create_figure_l in E. unfold create_figure, settings_of.
  destruct (m_sol s) as [|kv sol]; [injection E as <- <- <-; split; [reflexivity|]; split; [reflexivity|]; split; intros X; destruct (X eq_refl)|].
  destruct (c_plotly (m_cfg s)); cbn [negb] in *.
  2:{ injection E as <- <- <-. split; [reflexivity|]. split; [discriminate|]. split; [discriminate|]. reflexivity. }
  destruct (c_plotly_ok (m_cfg s)); cbn [negb] in *.
  2:{ injection E as <- <- <-. split; [reflexivity|]. split; [discriminate|]. split; [discriminate|]. reflexivity. }
  assert (ND : forall v x, (forall d, v <> VDict d) -> message (h_why h) x = None ->
     (events, r, l) = ([], Err x, []) -> ([], Err x) = (events, r) /\
     (kv :: sol = [] -> l = [(WARNING, "Can't create figure if a solution hasn't been found.")]) /\
     (kv :: sol <> [] -> true = true -> true = true -> no_figure_wanted show v ->
       l = [(WARNING, "If not showing or exporting the figure makes the operation obsolete.")] /\ events = [] /\ r = Ok tt) /\
     (kv :: sol <> [] -> ~ (true = true /\ true = true /\ no_figure_wanted show v) -> l = map (pair ERROR) (errors_of (h_why h) false r))).
  { intros v x Hv Hx Y. injection Y as -> -> ->. split; [reflexivity|]. split; [discriminate|]. split.
    - intros _ _ _ [_ [d [X _]]]. destruct (Hv d X).
    - intros _ _. cbn. rewrite Hx. reflexivity. }
  destruct (c_settings (m_cfg s)) as [| | | | | | |d| | |] eqn:Ed;
    try (apply ND; [discriminate|reflexivity|symmetry; exact E]).
  assert (ND2 : forall v, vget d (VStr "figure") = Some v -> (forall f, v <> VDict f) -> ~ no_figure_wanted show (VDict d)).
  { intros v Hv Hf [_ [d' [X [Y|[f [Y _]]]]]]; injection X as <-; unfold absent, has in Y; rewrite Y in Hv; [discriminate|]. injection Hv as <-. exact (Hf f eq_refl). }
  assert (Q : forall x, message (h_why h) x = None -> ~ no_figure_wanted show (VDict d) -> ([], Err x, []) = (events, r, l) ->
    ([], Err x) = (events, r) /\
     (kv :: sol = [] -> l = [(WARNING, "Can't create figure if a solution hasn't been found.")]) /\
     (kv :: sol <> [] -> true = true -> true = true -> no_figure_wanted show (VDict d) ->
       l = [(WARNING, "If not showing or exporting the figure makes the operation obsolete.")] /\ events = [] /\ r = Ok tt) /\
     (kv :: sol <> [] -> ~ (true = true /\ true = true /\ no_figure_wanted show (VDict d)) -> l = map (pair ERROR) (errors_of (h_why h) false r))).
  { intros x Hx HN Y. injection Y as <- <- <-. split; [reflexivity|]. split; [discriminate|]. split; [tauto|]. intros _ _. cbn. rewrite Hx. reflexivity. }
  set (fv := match vget d (VStr "figure") with Some v => v | None => VDict [] end) in *.
  assert (FV : fv = VDict [] /\ absent d "figure" \/ has d "figure" fv).
  { unfold fv, absent, has. destruct (vget d (VStr "figure")); auto. }
  destruct fv as [| | | | | | |f| | |] eqn:Ef;
    try (destruct FV as [[X _]|FV]; [discriminate X|]; apply Q; [reflexivity|apply (ND2 _ FV); discriminate|exact E]).
  set (export := match vget f (VStr "export") with Some v => v | None => VNone end) in *.
  set (sv := match vget f (VStr "show") with Some v => v | None => VNone end) in *.
  assert (NW : negb (truthy sv || show) && is_none export = true <-> no_figure_wanted show (VDict d)).
  { rewrite andb_true_iff, negb_true_iff, orb_false_iff. unfold no_figure_wanted. split.
    - intros [[T1 T2] T3]. split; [exact T2|]. exists d. split; [reflexivity|].
      destruct FV as [[_ FV]|FV]; [left; exact FV|right; exists f]. split; [exact FV|]. unfold sv in T1. unfold export in T3. unfold absent, has. split.
      + destruct (vget f (VStr "show")); [right; eauto|left; reflexivity].
      + destruct (vget f (VStr "export")) as [[]|]; try discriminate T3; auto.
    - intros [T2 [d' [X Y]]]. injection X as <-. destruct Y as [Y|[f' [Y [Y1 Y2]]]].
      + destruct FV as [[X _]|FV]; [injection X as ->|unfold has, absent in *; congruence]. split; [split; [reflexivity|exact T2]|reflexivity].
      + assert (f' = f). { destruct FV as [[_ FV]|FV]; unfold absent, has in *; congruence. } subst f'.
        split; [split; [|exact T2]|].
        * unfold sv. destruct Y1 as [Y1|[x [Y1 Y3]]]; unfold absent, has in Y1; rewrite Y1; [reflexivity|exact Y3].
        * unfold export. destruct Y2 as [Y2|Y2]; unfold absent, has in Y2; rewrite Y2; reflexivity. }
  destruct (negb (truthy sv || show) && is_none export).
  - injection E as <- <- <-. split; [reflexivity|]. split; [discriminate|]. split; [auto|].
    intros _ X. exfalso. apply X. split; [reflexivity|]. split; [reflexivity|]. apply NW. reflexivity.
  - assert (HN : ~ no_figure_wanted show (VDict d)) by (intros X; apply NW in X; discriminate X).
    destruct (view s) as [x|]; [|apply Q; [reflexivity|exact HN|exact E]].
    destruct (figures_of writes export (truthy sv || show) x (dkeys (pb_containers (in_pb x)))) as [ev r'].
    injection E as <- <- <-. split; [reflexivity|]. split; [discriminate|]. split; [tauto|]. intros _ _. apply raised_errors.
Qed.
Print Assumptions C71_create_figure.

(** ** hypersearch with several processes *)
Section Processes.
Context {ar : arith}.
Notation machine := (machine ar).

Lemma erased_presort h (c : call ar) : erased (presort_l h c) (presort c).
Proof. apply erased_bind; [apply erased_quiet|]. intros _. apply erased_orient. Qed.

Lemma presort_l_eq h (c : call ar) (s s1 : machine) r : presort c s = (s1, r) -> exists l, presort_l h c s = (s1, r, l).
Proof. intros H. rewrite <- (erased_presort h c s) in H. destruct (presort_l h c s) as [[s2 r2] l]. cbn in H. injection H as -> ->. eauto. Qed.
Lemma presort_of_l h (c : call ar) (s s1 : machine) r l : presort_l h c s = (s1, r, l) -> presort c s = (s1, r).
Proof. intros H. rewrite <- (erased_presort h c s), H. reflexivity. Qed.

Lemma steps_trans (u : setup ar) mr md s1 s2 s3 : steps u mr md s1 s2 -> steps u mr md s2 s3 -> steps u mr md s1 s3.
Proof. intros H1 H2. induction H2 as [|s s' H2 IH H3]; [exact H1|]. eapply steps_snoc; [exact IH|exact H3]. Qed.

(** Before a call is over, all the workers were joined. *)
Definition joined (p : pphase ar) : Prop := match p with PStart _ | PJoin _ => False | _ => True end.
Lemma passed_joins (u : setup ar) mr md t' : reachable u mr md t' -> joined (s_parent t') ->
  exists t, reachable u mr md t /\ s_parent t = PJoin (workers u) /\ steps u mr md t t'.
Proof.
  unfold reachable. induction 1 as [|s s' H IH St]; intros J; [destruct J|].
  destruct St as [P|i Hi W].
  - destruct P as [s i P1 P2|s P1|s i P1 P2 P3|s P1|s j o P1 P2]; cbn [s_parent set_parent] in *; try destruct J.
    + exists s. split; [exact H|]. split; [exact P1|]. eapply steps_snoc; [apply steps_refl|]. apply St_parent. apply P_joined. exact P1.
    + rewrite P1 in IH. destruct (IH I) as [t [T1 [T2 T3]]]. exists t. split; [exact T1|]. split; [exact T2|].
      eapply steps_snoc; [exact T3|]. apply St_parent. eapply P_get; [exact P1|exact P2].
  - rewrite (worker_step_parent u mr md i s s' W) in J. destruct (IH J) as [t [T1 [T2 T3]]]. exists t. split; [exact T1|]. split; [exact T2|].
    eapply steps_snoc; [exact T3|]. eapply St_worker; eassumption.
Qed.

(** From there on the array and the queues do not change. *)
Lemma ended_stuck (u : setup ar) mr md i s s' : worker_step u mr md i s s' -> ended (s_phase s i) -> False.
Proof. intros W [E|E]; destruct W; try congruence; rewrite E in *; discriminate. Qed.

Lemma frozen (u : setup ar) mr md t t' : (forall k, (k < workers u)%nat -> ended (s_phase t k)) -> s_parent t = PJoin (workers u) ->
  steps u mr md t t' ->
  s_array t' = s_array t /\ s_queue t' = s_queue t /\ (forall k, (k < workers u)%nat -> ended (s_phase t' k)) /\
  (s_parent t' = s_parent t \/ joined (s_parent t')).
Proof.
  intros He Hp. induction 1 as [|s s' H IH St]; [auto|]. destruct IH as [I1 [I2 [I3 I4]]]. destruct St as [P|i Hi W].
  - destruct P as [s i P1 P2|s P1|s i P1 P2 P3|s P1|s j o P1 P2]; cbn [s_parent s_array s_queue s_phase set_parent set_phase].
    + exfalso. destruct I4 as [I4|I4]; rewrite P1 in I4; [congruence|exact I4].
    + exfalso. destruct I4 as [I4|I4]; rewrite P1 in I4; [congruence|exact I4].
    + exfalso. destruct I4 as [I4|I4]; rewrite P1 in I4; [rewrite Hp in I4; injection I4 as ->; lia|exact I4].
    + split; [exact I1|]. split; [exact I2|]. split; [exact I3|]. right. destruct (decide_cases (array_list u s)) as [-> |[j ->]]; exact I.
    + split; [exact I1|]. split; [exact I2|]. split; [exact I3|]. right.
      destruct (take_cases u o) as [[a [b [c ->]]]|[e ->]]; exact I.
  - destruct (ended_stuck u mr md i s s' W (I3 i Hi)).
Qed.

Lemma array_list_same (u : setup ar) t t' : s_array t' = s_array t -> array_list u t' = array_list u t.
Proof. intros H. unfold array_list. rewrite H. reflexivity. Qed.

Lemma partition_message {A} (l : list A) w e why : partition l w = Err e -> message why e = None.
Proof.
  unfold partition, strategies_chunks. destruct (as_number w) as [[| |q]|]; try (intros X; injection X as <-; reflexivity).
  destruct (Qeq_bool q 0); [intros X; injection X as <-; reflexivity|]. destruct (strategies_per_process (zlen l) q) as [p|e'] eqn:E.
  - cbn [bind]. destruct (p =? 0); [intros X; injection X as <-; reflexivity|]. destruct (p <? 0); discriminate.
  - cbn [bind]. intros X. injection X as <-. unfold strategies_per_process, sf_ceil in E.
    destruct (SFdiv _ _ _ _); try discriminate E; injection E as <-; reflexivity.
Qed.

(** The workers' constructors log nothing: each gets one worker. *)
Lemma child_quiet h env (s : machine) y : 1 <= h_cpus h -> in_force s -> inv s -> child_machine env s = Ok y -> child_records h env s = [].
Proof.
  intros Hc [d [Ed _]] I Hy. unfold settings_of in Ed. unfold child_machine in Hy. unfold child_records. rewrite Ed in *.
  destruct (worker_dict d) as [d' [E1 [_ [_ E4]]]]. rewrite E1 in *.
  destruct (struct_deepcopy s (m_containers s)) as [cs|]; [|reflexivity]. destruct (struct_deepcopy s (m_items s)) as [is_|]; [|reflexivity].
  cbn [bind] in Hy.
  assert (G : forall cv iv wv s' l, create_l h env cv iv (VDict d') wv (blank ar) = (s', Ok tt, l) -> l = []).
  { intros cv iv wv s' l E. rewrite create_l_in_parts in E. unfold lbind at 1 in E.
    destruct (quiet (h_why h) (before_settings cv iv wv) (blank ar)) as [[s1 r1] l1] eqn:Q1.
    destruct (quiet_eq _ _ _ _ _ _ Q1) as [_ ->]. destruct r1 as [[]|e]; [|discriminate E]. cbn [errors_of map] in E.
    unfold lbind, the_settings_l in E. destruct (new_settings_l h env (VDict d')) as [[c r2] l2] eqn:Q2. destruct r2 as [[]|e]; [|discriminate E].
    destruct (quiet (h_why h) after_settings (set_cfg s1 c)) as [[s3 r3] l3] eqn:Q3. destruct (quiet_eq _ _ _ _ _ _ Q3) as [_ ->].
    injection E as <- -> <-. cbn [errors_of map app]. rewrite app_nil_r. unfold new_settings_l in Q2.
    assert (Ev : (if truthy (VDict d') then VDict d' else VDict []) = VDict d') by (destruct d'; reflexivity). rewrite Ev in Q2.
    match type of Q2 with validate_settings_l _ _ ?C = _ => set (C0 := C) in Q2 end.
    destruct (validate_records h env (VDict d') C0 _ _ _ Hc eq_refl Q2) as [ws [twice [G1 [_ [G3 _]]]]]. rewrite G1. cbn [errors_of map].
    rewrite app_nil_r. destruct ws as [|t ws]; [reflexivity|exfalso]. assert (T : settings_warning h (VDict d') t) by (apply G3; left; reflexivity).
    assert (U : forall w, workers_given (VDict d') w -> w = VInt 1).
    { intros w [d2 [b [z [X [_ [_ W]]]]]]. injection X as <-. eapply (C40_values_unique d' true true 1 1); eassumption. }
    assert (F : forall n, 1 <= n -> ~ more_than (VInt 1) n).
    { intros n Hn [[z' [[Z|[[Z _]|[Z _]]] Hz]]|[[q [Z _]]|Z]]; try discriminate Z. injection Z as <-. lia. }
    destruct T as [w Hw M|w Hw M _ _]; rewrite (U _ Hw) in M; [exact (F _ Hc M)|exact (F 1 ltac:(lia) M)]. }
  assert (K : forall cv iv wv, (let sr := create ar env cv iv (VDict d') wv (blank ar) in
      match snd sr with Ok _ => Ok (set_heights (fst sr) (m_height (fst sr)) (m_min s)) | Err e => Err e end) = Ok y ->
    snd (create_l h env cv iv (VDict d') wv (blank ar)) = []).
  { intros cv iv wv X. cbv zeta in X. rewrite <- (C71_constructor_same_behaviour ar h) in X.
    destruct (create_l h env cv iv (VDict d') wv (blank ar)) as [[s' r'] l] eqn:E. cbn [fst snd] in *. destruct r' as [[]|e]; [|discriminate X].
    eapply G. exact E. }
  destruct (m_strip s); [|apply K; exact Hy].
  destruct (strip_width cs) as [w|]; [|reflexivity]. cbn [bind] in Hy. apply K. exact Hy.
Qed.

Lemma prepare_quiet h (c : call ar) (s : machine) : 1 <= h_cpus h -> inv s -> in_force s -> figure_possible (ca_env c) s ->
  prepare_records h c s = [] /\ forall e, prepare c s = Err e -> message (h_why h) e = None.
Proof.
  intros Hc I Hf Hfig. destruct (inv_view s I) as [cs [is_ [_ [_ [_ [_ [_ [_ V]]]]]]]].
  match type of V with _ = Some ?X => set (x := X) in * end.
  destruct (workers_made c s x I V Hf Hfig) as [y [yi [Y1 Y2]]].
  pose proof (child_quiet h _ _ _ Hc Hf I Y1) as Q. unfold prepare_records, prepare. rewrite V, Y1.
  destruct (partition (ca_strategies c) (c_workers (m_cfg s))) as [chunks|e] eqn:Ep.
  - cbn [bind]. rewrite Y2, Q. split; [|discriminate]. clear. induction (length chunks); [reflexivity|exact IHn].
  - split; [reflexivity|]. cbn [bind]. intros e' X. injection X as <-. eapply partition_message. exact Ep.
Qed.
End Processes.

(** The same calls are possible, with the same effects. *)
Theorem C71_processes_same_behaviour : forall ar h may_raise may_die (c : call ar) s s' r,
  multi may_raise may_die c s s' r <-> exists l, multi_l h may_raise may_die c s s' r l.
Proof.
  intros ar h mr md c s s' r. split.
  - intros [s1 e E|s1 e E Ep|s1 u t e E Ep Hr Ht|s1 u t sol objs g E Ep Hr Ht]; destruct (presort_l_eq h c s s1 _ E) as [l El].
    + exists l. apply multi_l_presort. exact El.
    + eexists. eapply multi_l_prepare; eassumption.
    + destruct (passed_joins u mr md t Hr) as [t0 [T1 [T2 T3]]]; [rewrite Ht; exact I|]. eexists. eapply multi_l_raised; eassumption.
    + destruct (passed_joins u mr md t Hr) as [t0 [T1 [T2 T3]]]; [rewrite Ht; exact I|]. eexists. eapply multi_l_returned; eassumption.
  - intros [l [s1 e l' E|s1 e l' E Ep|s1 u t t' e l' E Ep Hr Hj Hs Ht|s1 u t t' sol objs g l' E Ep Hr Hj Hs Ht]]; apply presort_of_l in E.
    + apply multi_presort. exact E.
    + eapply multi_prepare; eassumption.
    + eapply multi_raised; [exact E|exact Ep| |exact Ht]. eapply steps_trans; eassumption.
    + eapply multi_returned; [exact E|exact Ep| |exact Ht]. eapply steps_trans; eassumption.
Qed.
Print Assumptions C71_processes_same_behaviour.

(** What the caller's process logs: the warning about the orientation; then the message of the
    exception; if the call returns although some workers failed, one error saying so. *)
Theorem C71_processes : forall ar, orderly ar -> forall env containers items settings width ops (s : machine ar),
  mhistory env containers items settings width ops s -> mwithout_ior ops -> in_force s ->
  forall h c, figure_possible (ca_env c) s -> 1 <= h_cpus h ->
  forall may_raise s' r l, multi_l h may_raise nobody c s s' r l ->
  exists ws es,
    l = map (pair WARNING) ws ++ map (pair ERROR) es /\ NoDup ws /\
    (forall t, In t ws <-> (exists s1, run (OpSort (ca_sorting c)) s = (s1, Ok tt)) /\
                           orient_warning (rotation_of s) (ca_orientation c) t) /\
    (r <> Ok tt -> es = errors_of (h_why h) false r) /\
    (r = Ok tt -> exists x workers_num u t sol objs g,
       view s = Some x /\ runs x (ca_strategies c) workers_num u /\ su_forced u = ca_forced c /\
       reachable u may_raise nobody t /\ s_parent t = PReturned sol objs g /\ m_sol s' = sol /\ m_objs s' = objs /\
       ((exists k, (k < workers u)%nat /\ s_queue t k = Some failure_output) /\
          es = ["Some of the processes raised an exception. Please check logs."] \/
        (forall k, (k < workers u)%nat -> exists o, s_queue t k = Some o /\ o <> failure_output) /\ es = [])).
Proof.
  intros ar [laws vals] env containers items settings width ops s H Hops Hf h c Hfig Hc mr s' r l M.
  destruct (mhistory_good laws vals _ _ _ _ _ _ _ H Hops) as [I A].
  assert (P : forall s1 r1 l1, presort_l h c s = (s1, r1, l1) -> exists ws,
     l1 = map (pair WARNING) ws ++ map (pair ERROR) (errors_of (h_why h) false r1) /\ NoDup ws /\
     (forall t, In t ws <-> (exists s1, run (OpSort (ca_sorting c)) s = (s1, Ok tt)) /\ orient_warning (rotation_of s) (ca_orientation c) t)).
  { intros s1 r1 l1 E. unfold presort_l, lbind in E. destruct (quiet (h_why h) (do_sort ar (ca_sorting c)) s) as [[s2 r2] l2] eqn:E2.
    destruct (quiet_eq _ _ _ _ _ _ E2) as [Es ->]. destruct r2 as [[]|e].
    2:{ injection E as <- <- <-. exists []. split; [reflexivity|]. split; [constructor|]. intros t. split; [intros []|].
        intros [[s3 X] _]. cbn [run] in X. rewrite Es in X. discriminate X. }
    assert (Ec : m_cfg s2 = m_cfg s) by (apply (run_cfg (OpSort (ca_sorting c)) s s2 (Ok tt)); [intros X; exact X|exact Es]).
    destruct (do_orient_l h (ca_orientation c) s2) as [[s3 r3] l3] eqn:E3.
    destruct (orient_records h (ca_orientation c) s2 s3 r3 l3 E3) as [ws [G1 [G2 G3]]]. injection E as <- <- <-.
    exists ws. split; [exact G1|]. split; [exact G2|]. intros t. rewrite G3. unfold rotation_of. rewrite Ec. split; [|tauto].
    intros X. split; [|exact X]. exists s2. exact Es. }
  assert (PI : forall s1, presort c s = (s1, Ok tt) -> inv s1 /\ in_force s1 /\ figure_possible (ca_env c) s1).
  { intros s1 E. pose proof (presort_inv c s s1 (Ok tt) (fun _ => False) False I E) as S. pose proof (presort_cfg _ _ _ _ E) as Ec.
    split; [exact (star_inv _ _ _ _ I S)|]. split; [apply (same_cfg_in_force no_libraries s s1 Ec); exact Hf|].
    destruct Hfig as [d [D1 D2]]. exists d. split; [|exact D2]. unfold settings_of in *. rewrite Ec. exact D1. }
  assert (Run : forall s1 u t t', presort c s = (s1, Ok tt) -> prepare c s1 = Ok u -> reachable u mr nobody t -> s_parent t = PJoin (workers u) ->
     steps u mr nobody t t' -> exists x q,
     view s = Some x /\ valid_inst ar x /\ ca_strategies c <> [] /\ (0 < q)%Q /\ runs x (ca_strategies c) q u /\ su_forced u = ca_forced c /\
     reachable u mr nobody t' /\ (0 < workers u)%nat /\ array_list u t' = array_list u t /\
     (forall k, (k < workers u)%nat -> exists o, s_queue t' k = Some o /\
        (neqb ar (nm1 ar) (s_array t' k) = true <-> o = failure_output))).
  { intros s1 u t t' E Ep Hr Hj Hst. destruct (inv_view s I) as [cs [is_ [_ [_ [_ [_ [_ [_ V]]]]]]]].
    match type of V with _ = Some ?X => set (x := X) in * end.
    destruct (call_runs c s s1 u x I A Hf V E Ep) as [Hv [Hne [_ [_ [q [[_ Hq] Hru]]]]]].
    destruct (runs_facts x Hv _ _ Hq u Hru) as [_ [Hvp [Hch [_ Hw]]]].
    destruct (child_start_exists vals _ _ Hch) as [x0 [ret0 [v0 Hs0]]].
    assert (Hr' : reachable u mr nobody t') by (eapply steps_trans; eassumption).
    pose proof (sinv_reachable laws vals u mr nobody Hvp Hch x0 ret0 v0 Hs0 t Hr) as [_ Hpi].
    pose proof (sinv_reachable laws vals u mr nobody Hvp Hch x0 ret0 v0 Hs0 t' Hr') as [Hwi' _].
    unfold parent_inv in Hpi. rewrite Hj in Hpi. destruct Hpi as [_ [_ He]].
    destruct (frozen u mr nobody t t' He Hj Hst) as [F1 [F2 [F3 _]]].
    exists x, q. split; [exact V|]. split; [exact Hv|]. split; [exact Hne|]. split; [exact Hq|]. split; [exact Hru|]. split.
    { unfold prepare in Ep. destruct (view s1) as [z|]; [|discriminate Ep]. destruct (partition _ _); [|discriminate Ep]. cbn [bind] in Ep.
      destruct (child_machine (ca_env c) s1) as [y|]; [|discriminate Ep]. cbn [bind] in Ep. destruct (view y); [|discriminate Ep]. injection Ep as <-. reflexivity. }
    split; [exact Hr'|]. split; [apply Hw; exact Hne|]. split; [apply array_list_same; exact F1|].
    intros k Hk. pose proof (Hwi' k Hk) as [_ [_ W]]. destruct (F3 k Hk) as [X|X]; rewrite X in W; [|destruct W as [[] _]].
    destruct W as [o [Hqu [G|[_ [G ->]]]]]; (exists o || exists failure_output); split; try exact Hqu; split; intros Y; try reflexivity.
    - exfalso. assert (N : nonneg ar (s_array t' k)) by (eapply (good_slot_nonneg vals); [exact Hs0|exact G]). apply (vl_eq ar vals) in Y. exact (nonneg_not_m1 vals _ N (proj2 Y)).
    - eapply (good_not_failure vals) in G; [|exact Hs0]. destruct G as [G _]. contradiction.
    - rewrite G. apply (vl_eq ar vals). split; exact (m1_num vals). }
  destruct M as [s1 e l' E|s1 e l' E Ep|s1 u t t' e l' E Ep Hr Hj Hs Ht|s1 u t t' sol objs g l' E Ep Hr Hj Hs Ht];
    destruct (P _ _ _ E) as [ws [El [Nd W]]]; subst l'; apply presort_of_l in E.
  - exists ws, (errors_of (h_why h) false (@Err unit e)). split; [reflexivity|]. split; [exact Nd|]. split; [exact W|]. split; [reflexivity|discriminate].
  - destruct (PI s1 E) as [I1 [Hf1 Hfig1]]. destruct (prepare_quiet h c s1 Hc I1 Hf1 Hfig1) as [Q1 Q2]. exists ws, []. rewrite Q1.
    split; [cbn [errors_of map]; rewrite !app_nil_r; reflexivity|]. split; [exact Nd|]. split; [exact W|]. split; [|discriminate].
    intros _. cbn [errors_of]. rewrite (Q2 e Ep). reflexivity.
  - destruct (PI s1 E) as [I1 [Hf1 Hfig1]]. destruct (prepare_quiet h c s1 Hc I1 Hf1 Hfig1) as [Q1 _].
    destruct (Run s1 u t t' E Ep Hr Hj Hs) as [x [q [V [Hv [Hne [Hq [Hru [_ [Hr' [Hw [Ea Hk]]]]]]]]]]].
    destruct (C28_error_leaves_problem ar (conj laws vals) x Hv _ q u Hne Hq Hru mr nobody t' e Hr' Ht) as [-> [Hall _]].
    exists ws, ["All hypersearch processes failed."]. rewrite Q1. cbn [errors_of map app]. rewrite app_nil_r.
    split; [|split; [exact Nd|]; split; [exact W|]; split; [reflexivity|discriminate]].
    f_equal. unfold joined_records. assert (X : neqb ar (q_max (array_list u t)) (nm1 ar) = true).
    { rewrite <- Ea. assert (AL : forall z, In z (array_list u t') -> z = nm1 ar).
      { intros z Hz. unfold array_list in Hz. apply in_map_iff in Hz. destruct Hz as [k [<- Hk']]. apply in_seq in Hk'. apply Hall. lia. }
      assert (Hm : q_max (array_list u t') = nm1 ar).
      { apply AL. apply (q_max_spec ar vals); [intros C; apply (f_equal (@length (num ar))) in C; rewrite array_list_length in C; cbn in C; lia|].
        intros z Hz. rewrite (AL z Hz). exact (m1_num vals). }
      rewrite Hm. apply (vl_eq ar vals). split; exact (m1_num vals). }
    rewrite X. reflexivity.
  - destruct (PI s1 E) as [I1 [Hf1 Hfig1]]. destruct (prepare_quiet h c s1 Hc I1 Hf1 Hfig1) as [Q1 _].
    destruct (Run s1 u t t' E Ep Hr Hj Hs) as [x [q [V [Hv [Hne [Hq [Hru [Hfo [Hr' [Hw [Ea Hk]]]]]]]]]]].
    destruct (runs_facts x Hv _ _ Hq u Hru) as [_ [Hvp [Hch [_ _]]]]. destruct (child_start_exists vals _ _ Hch) as [x0 [ret0 [v0 Hs0]]].
    pose proof (sinv_reachable laws vals u mr nobody Hvp Hch x0 ret0 v0 Hs0 t' Hr') as [_ Hpi]. unfold parent_inv in Hpi. rewrite Ht in Hpi.
    assert (Hd : exists j, MultiProcess.decide (array_list u t) = PGet j).
    { destruct Hpi as [_ [D|[j [o [D _]]]]]; rewrite Ea in D; [|eauto]. destruct (decide_cases (array_list u t)) as [Y|[j Y]]; [congruence|eauto]. }
    assert (Nm : neqb ar (q_max (array_list u t)) (nm1 ar) = false).
    { destruct Hd as [j D]. unfold MultiProcess.decide in D. destruct (neqb ar (q_max (array_list u t)) (nm1 ar)); [discriminate D|reflexivity]. }
    rewrite Q1. cbn [errors_of map app]. unfold joined_records. rewrite Nm.
    exists ws, (if existsb (fun v => neqb ar (nm1 ar) v) (array_list u t) then ["Some of the processes raised an exception. Please check logs."] else []).
    split; [rewrite app_nil_r; f_equal; destruct (existsb _ _); reflexivity|]. split; [exact Nd|]. split; [exact W|]. split; [congruence|]. intros _.
    exists x, q, u, t', sol, objs, g. split; [exact V|]. split; [exact Hru|]. split; [exact Hfo|]. split; [exact Hr'|]. split; [exact Ht|].
    split; [reflexivity|]. split; [reflexivity|]. rewrite <- Ea. destruct (existsb _ (array_list u t')) eqn:Ex.
    + left. split; [|reflexivity]. apply existsb_exists in Ex. destruct Ex as [z [Hz Ez]]. unfold array_list in Hz. apply in_map_iff in Hz.
      destruct Hz as [k [<- Hk']]. apply in_seq in Hk'. exists k. split; [lia|]. destruct (Hk k ltac:(lia)) as [o [K1 K2]].
      rewrite K1. f_equal. apply K2. exact Ez.
    + right. split; [|reflexivity]. intros k Hk'. destruct (Hk k Hk') as [o [K1 K2]]. exists o. split; [exact K1|]. intros C. apply K2 in C.
      assert (Y : existsb (fun v => neqb ar (nm1 ar) v) (array_list u t') = true) by (apply existsb_exists; exists (s_array t' k); split; [unfold array_list; apply in_map; apply in_seq; lia|exact C]).
      congruence.
Qed.
Print Assumptions C71_processes.
