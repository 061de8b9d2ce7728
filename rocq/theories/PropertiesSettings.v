(** * C40-C42: settings. *)
From Coq Require Import ZArith String Ascii List Bool QArith Lia.
From Verif Require Import Py Arith Construct LocalSearch Values ProofsVal Settings Instance SpecInstance SpecSettings
  ProofsSettings ProofsVersions ProofsHistory ProofsFrame PropertiesHistory.
Import ListNotations.
Open Scope string_scope.
Open Scope list_scope.
Open Scope Z_scope.
Open Scope sm_scope.

(** ** Vocabulary *)

(** Every attribute that does not come from the settings, and every object: in particular the
    solution. *)
Definition same_but_settings {ar} (s s' : machine ar) : Prop :=
  m_dims s' = m_dims s /\ m_structs s' = m_structs s /\ m_items s' = m_items s /\
  m_containers s' = m_containers s /\ m_strip s' = m_strip s /\ m_height s' = m_height s /\
  m_min s' = m_min s /\ m_cnum s' = m_cnum s /\ m_sol s' = m_sol s /\ m_objs s' = m_objs s /\
  m_hist s' = m_hist s /\ m_strategy s' = m_strategy s /\ m_best s' = m_best s.

(** The attributes [settings], [_rotation], [_max_time_in_seconds], [_workers_num]. *)
Definition settings_of {ar} (s : machine ar) : pyval := c_settings (m_cfg s).
Definition rotation_of {ar} (s : machine ar) : bool := c_rotation (m_cfg s).
Definition max_time_of {ar} (s : machine ar) : Z := c_limit (m_cfg s).
Definition workers_of {ar} (s : machine ar) : pyval := c_workers (m_cfg s).

(** The two operations that validate a value [v] of the settings: assignment, and
    [validate_settings()] on the current settings. *)
Inductive validates {ar} (env : environment) (v : pyval) (s : machine ar) : op -> Prop :=
| by_assignment : validates env v s (OpSetSettings env v)
| by_method : v = settings_of s -> validates env v s (OpValidateSettings env).

(** What the code accepts. *)
Definition accepted_by_code (env : environment) (v : pyval) : Prop :=
  exists d b z w, v = VDict d /\ rotation_is d b /\ max_time_is d z /\ any_workers_is d w /\
    figure_by_code env d.
(** What is documented. *)
Definition documented (env : environment) (v : pyval) : Prop :=
  exists d b z w, v = VDict d /\ rotation_is d b /\ max_time_is d z /\ workers_is d w /\
    figure_documented env d.

(** ** Lemmas *)
Section Settings.
Context {ar : arith}.
Notation machine := (machine ar).

Lemma validates_run env v (s s' : machine) o r : validates env v s o -> run o s = (s', r) ->
  exists c, validate_settings env (with_settings (m_cfg s) v) = (c, r) /\ s' = set_cfg s c.
Proof.
  intros H E. destruct H as [|Hv]; cbn [run] in E; unfold on_cfg in E.
  - unfold assign_settings, sbind, smodify in E.
    destruct (validate_settings env (with_settings (m_cfg s) v)) as [c x]. injection E as <- <-. eauto.
  - assert (W : with_settings (m_cfg s) v = m_cfg s) by (subst v; unfold settings_of; destruct (m_cfg s); reflexivity).
    rewrite W. destruct (validate_settings env (m_cfg s)) as [c x]. injection E as <- <-. eauto.
Qed.

Lemma validates_cases env v (s s' : machine) o r : validates env v s o -> run o s = (s', r) ->
  same_but_settings s s' /\
  ((r = Ok tt /\ exists d, v = VDict d /\ figure_done env v d (m_cfg s') /\ figure_by_code env d) \/
   exists m, r = Err (SettingsError m) /\ mixed env v (m_cfg s) (m_cfg s') /\ reason env v m).
Proof.
  intros H E. destruct (validates_run _ _ _ _ _ _ H E) as [c [Ec ->]].
  split; [repeat (split; [reflexivity|]); reflexivity|]. cbn [m_cfg set_cfg].
  pose proof (validate_settings_tri env v (m_cfg s) _ eq_refl) as T. rewrite Ec in T.
  destruct r as [[]|e]; [left; auto|]. destruct e; try contradiction. right. destruct T as [T1 T2]. eauto.
Qed.
End Settings.

(** ** C40 *)

(** What is accepted, exactly. *)
Theorem C40_accepted_exactly : forall ar env v (s s' : machine ar) o r,
  validates env v s o -> run o s = (s', r) ->
  (r = Ok tt <-> accepted_by_code env v).
Proof.
  intros ar env v s s' o r H E. destruct (validates_cases _ _ _ _ _ _ H E) as [_ [[-> [d [Ev [F1 F2]]]]|[m [-> [_ R]]]]].
  - split; [|reflexivity]. intros _. destruct F1 as [_ [F3 [F4 [F5 _]]]]. exists d. eauto 10.
  - split; [discriminate|]. intros [d [b [z [w [Ev [G1 [G2 [G3 G4]]]]]]]]. exfalso. eapply reason_excludes; eassumption.
Qed.
Print Assumptions C40_accepted_exactly.

(** The attributes then take the values given, or the defaults. *)
Theorem C40_values_applied : forall ar env v (s s' : machine ar) o,
  validates env v s o -> run o s = (s', Ok tt) ->
  exists d, v = VDict d /\ rotation_is d (rotation_of s') /\ max_time_is d (max_time_of s') /\
    any_workers_is d (workers_of s') /\
    (settings_of s' = v \/ default_name_inserted v (settings_of s')).
Proof.
  intros ar env v s s' o H E. destruct (validates_cases _ _ _ _ _ _ H E) as [_ [[_ [d [Ev [[F1 [F2 [F3 [F4 _]]]] _]]]]|[m [X _]]]]; [|discriminate].
  exists d. auto 10.
Qed.
Print Assumptions C40_values_applied.

(** These values are determined by the settings. *)
Theorem C40_values_unique : forall d b b' z z' w w',
  (rotation_is d b -> rotation_is d b' -> b = b') /\
  (max_time_is d z -> max_time_is d z' -> z = z') /\
  (any_workers_is d w -> any_workers_is d w' -> w = w').
Proof.
  intros d b b' z z' w w'. unfold rotation_is, max_time_is, any_workers_is, absent_or_none, absent, has. split; [|split].
  - intros [[[H|H] ->]|H] [[[G|G] ->]|G]; congruence.
  - intros [[H ->]|[t [H H']]] [[G ->]|[t' [G G']]]; try congruence. assert (t' = t) by congruence. subst t'.
    apply positive_an_int in H'. apply positive_an_int in G'. eapply an_int_fun; [apply H'|apply G'].
  - assert (NN : ~ (is_positive_int VNone \/ positive_float VNone)).
    { intros [[z0 [[X|[X _]] _]]|[X|[q [X _]]]]; discriminate X. }
    intros [[[H|H] E]|[H K]] [[[G|G] E2]|[G K2]]; try congruence; exfalso; apply NN; congruence.
Qed.
Print Assumptions C40_values_unique.

(** A rejection is a SettingsError with the message of a rule that is broken. *)
Theorem C40_rejected_with_reason : forall ar env v (s s' : machine ar) o e,
  validates env v s o -> run o s = (s', Err e) -> exists m, e = SettingsError m /\ reason env v m.
Proof.
  intros ar env v s s' o e H E. destruct (validates_cases _ _ _ _ _ _ H E) as [_ [[X _]|[m [X [_ R]]]]]; [discriminate|].
  injection X as ->. eauto.
Qed.
Print Assumptions C40_rejected_with_reason.

(** As documented, for settings without a figure whose ["workers_num"] is no float. *)
Theorem C40_as_documented_partial : forall ar env d (s s' : machine ar) o r,
  validates env (VDict d) s o -> run o s = (s', r) ->
  absent d "figure" -> (forall f, ~ has d "workers_num" (VFloat f)) ->
  (r = Ok tt <-> documented env (VDict d)).
Proof.
  intros ar env d s s' o r H E Hf Hw. rewrite (C40_accepted_exactly ar env (VDict d) s s' o r H E). split.
  - intros [d' [b [z [w [[= <-] [G1 [G2 [G3 _]]]]]]]]. exists d, b, z, w. split; [reflexivity|]. split; [assumption|]. split; [assumption|].
    split; [|left; assumption]. destruct G3 as [G3|[G3 [G4|[->|[q [-> _]]]]]]; [left; assumption|right; auto|..]; exfalso; eapply Hw; exact G3.
  - intros [d' [b [z [w [[= <-] [G1 [G2 [G3 _]]]]]]]]. exists d, b, z, w. split; [reflexivity|]. split; [assumption|]. split; [assumption|].
    split; [|left; assumption]. destruct G3 as [G3|[G3 G4]]; [left; assumption|right; auto].
Qed.
Print Assumptions C40_as_documented_partial.

(** False as documented: a float, even infinity, is accepted as the number of workers. *)
Definition workers_setting (v : pyval) : pyval := VDict [(VStr "workers_num", v)].
Theorem C40_refuted :
  exists v, outcome (OpSetSettings no_libraries (workers_setting v)) bins = Ok tt /\
    workers_of (next (OpSetSettings no_libraries (workers_setting v)) bins) = VFloat (FNum (5 # 2)) /\
    outcome (OpSetSettings no_libraries (workers_setting (VFloat (FInf false)))) bins = Ok tt /\
    ~ documented no_libraries (workers_setting v).
Proof.
  exists (VFloat (FNum (5 # 2))). refine (conj _ (conj _ (conj _ _))); try (vm_compute; reflexivity).
  intros [d [b [z [w [[= <-] [_ [_ [[[[H|H] _]|[H [z' H']]] _]]]]]]]]; try discriminate H. injection H as <-.
  destruct H' as [[X|[X _]] _]; discriminate X.
Qed.
Print Assumptions C40_refuted.

(** The constructor: the same rules, but any false value ([None], [0], [""], [()], ...) counts as
    [{}]. *)
Theorem C40_constructor : forall ar env containers items settings width (s : machine ar),
  created env containers items settings width s ->
  exists d, (settings = VDict d \/ truthy settings = false /\ d = []) /\
    rotation_is d (rotation_of s) /\ max_time_is d (max_time_of s) /\ any_workers_is d (workers_of s) /\
    figure_by_code env d.
Proof.
  intros ar env containers items settings width s H.
  destruct (created_object _ _ _ _ _ _ H) as [strip [height [n1 [n2 [dc [di [c [N [Hc _]]]]]]]]].
  destruct N as [_ [_ [_ [_ [_ [_ ->]]]]]]. unfold rotation_of, max_time_of, workers_of. cbn [m_cfg].
  unfold new_settings in Hc. set (v := if truthy settings then settings else VDict []) in *.
  pose proof (validate_settings_tri env v (mkCfg v rotation_default limit_default workers_default false false false false) _ eq_refl) as T.
  unfold with_settings in T. cbn [c_rotation c_limit c_workers c_plotly c_plotly_ok c_kaleido c_kaleido_ok] in T. rewrite Hc in T.
  destruct T as [d [Ev [[_ [F1 [F2 [F3 _]]]] F]]]. exists d. split; [|auto].
  unfold v in Ev. destruct (truthy settings); [left; assumption|right]. injection Ev as <-. auto.
Qed.
Print Assumptions C40_constructor.

Theorem C40_constructor_refuted : exists s : machine qarith,
  created no_libraries two_containers three_items (VStr "") VNone s.
Proof. eexists. apply created_fst. vm_compute. reflexivity. Qed.
Print Assumptions C40_constructor_refuted.

(** Changing the dictionary in place applies nothing. *)
Theorem C40_editing_applies_nothing : forall ar d (s s' : machine ar) r,
  run (OpEditSettings d) s = (s', r) ->
  same_but_settings s s' /\ rotation_of s' = rotation_of s /\ max_time_of s' = max_time_of s /\
  workers_of s' = workers_of s /\ (r = Ok tt -> settings_of s' = VDict d) /\ (r <> Ok tt -> s' = s).
Proof.
  intros ar d s s' r E. cbn [run] in E. unfold on_cfg, edit_settings, sbind, sget in E.
  assert (W : set_cfg s (m_cfg s) = s) by (destruct s; reflexivity).
  destruct (c_settings (m_cfg s)); cbn in E; injection E as <- <-;
    (split; [repeat (split; [reflexivity|]); reflexivity|]);
    do 3 (split; [reflexivity|]); split; try discriminate; try (intros _; reflexivity); try (intros _; exact W); intros X; exfalso; apply X; reflexivity.
Qed.
Print Assumptions C40_editing_applies_nothing.

Definition some_settings : pyval :=
  VDict [(VStr "rotation", VBool false); (VStr "max_time_in_seconds", VInt 5); (VStr "workers_num", VInt 3)].
Example C40_witness :
  outcome (OpSetSettings no_libraries some_settings) bins = Ok tt /\
  rotation_of (next (OpSetSettings no_libraries some_settings) bins) = false /\
  max_time_of (next (OpSetSettings no_libraries some_settings) bins) = 5 /\
  workers_of (next (OpSetSettings no_libraries some_settings) bins) = VInt 3 /\
  outcome (OpSetSettings no_libraries (VDict [(VStr "max_time_in_seconds", VInt 0)])) bins = Err (SettingsError S_MAX_TIME_VALUE) /\
  outcome (OpSetSettings no_libraries (workers_setting (VStr "2"))) bins = Err (SettingsError S_WORKERS_VALUE) /\
  documented no_libraries some_settings.
Proof.
  refine (conj _ (conj _ (conj _ (conj _ (conj _ (conj _ _)))))); try (vm_compute; reflexivity).
  eexists. exists false, 5, (VInt 3). split; [reflexivity|]. split; [right; reflexivity|].
  split; [right; exists (VInt 5); split; [reflexivity|split; [left; reflexivity|lia]]|].
  split; [right; split; [reflexivity|exists 3; split; [left; reflexivity|lia]]|]. left. reflexivity.
Qed.
Print Assumptions C40_witness.

(** ** C41 *)

(** False as stated: the rejected settings stay, and the rules checked before the broken one have
    already been applied. *)
Definition half_bad : pyval := VDict [(VStr "rotation", VBool false); (VStr "workers_num", VInt (-1))].
Theorem C41_refuted :
  history no_libraries two_containers three_items VNone VNone [] bins /\
  outcome (OpSetSettings no_libraries half_bad) bins = Err (SettingsError S_WORKERS_VALUE) /\
  settings_of bins = VDict [] /\ rotation_of bins = true /\
  settings_of (next (OpSetSettings no_libraries half_bad) bins) = half_bad /\
  rotation_of (next (OpSetSettings no_libraries half_bad) bins) = false.
Proof.
  split; [exists bins; split; [apply bins_created|constructor]|]. refine (conj _ (conj _ (conj _ (conj _ _)))); vm_compute; reflexivity.
Qed.
Print Assumptions C41_refuted.

(** A rejected assignment always leaves its settings behind. *)
Theorem C41_rejected_settings_stay : forall ar env v (s s' : machine ar) e,
  run (OpSetSettings env v) s = (s', Err e) ->
  settings_of s' = v \/ default_name_inserted v (settings_of s').
Proof.
  intros ar env v s s' e E. destruct (validates_cases _ _ _ _ _ _ (by_assignment env v s) E) as [_ [[X _]|[m [_ [[R _] _]]]]]; [discriminate|].
  exact R.
Qed.
Print Assumptions C41_rejected_settings_stay.

(** What is true: nothing else changes, and each of the three attributes keeps its value or takes
    the valid value given for it. *)
Theorem C41_rejected_partial : forall ar env v (s s' : machine ar) o e,
  validates env v s o -> run o s = (s', Err e) ->
  same_but_settings s s' /\
  (rotation_of s' = rotation_of s \/ exists d, v = VDict d /\ rotation_is d (rotation_of s')) /\
  (max_time_of s' = max_time_of s \/ exists d, v = VDict d /\ max_time_is d (max_time_of s')) /\
  (workers_of s' = workers_of s \/ exists d, v = VDict d /\ any_workers_is d (workers_of s')).
Proof.
  intros ar env v s s' o e H E. destruct (validates_cases _ _ _ _ _ _ H E) as [K [[X _]|[m [_ [[_ [R1 [R2 [R3 _]]]] _]]]]]; [discriminate|].
  auto.
Qed.
Print Assumptions C41_rejected_partial.

(** Accepted or not, settings never touch the solution or the problem. *)
Theorem C41_settings_keep_the_solution : forall ar env v (s s' : machine ar) o r,
  validates env v s o -> run o s = (s', r) -> same_but_settings s s'.
Proof. intros ar env v s s' o r H E. exact (proj1 (validates_cases _ _ _ _ _ _ H E)). Qed.
Print Assumptions C41_settings_keep_the_solution.

(** So the attributes are valid after every history, whatever settings were rejected on the way,
    and only validating can change them. *)
Definition valid_attributes {ar} (s : machine ar) : Prop :=
  1 <= max_time_of s /\ (is_positive_int (workers_of s) \/ positive_float (workers_of s)).

Lemma max_time_valid d z : max_time_is d z -> 1 <= z.
Proof. intros [[_ ->]|[v [_ [_ H]]]]; lia. Qed.
Lemma workers_valid d w : any_workers_is d w -> is_positive_int w \/ positive_float w.
Proof. intros [[_ ->]|[_ H]]; [left; exists 1; split; [left; reflexivity|lia]|exact H]. Qed.

Lemma attributes_step ar o (s s' : machine ar) r : valid_attributes s -> run o s = (s', r) -> valid_attributes s'.
Proof.
  intros [V1 V2] E.
  assert (G : forall env v, validates env v s o -> valid_attributes s').
  { intros env v H. destruct (validates_cases _ _ _ _ _ _ H E) as [_ [[_ [d [Ev [[_ [F2 [F3 [F4 _]]]] _]]]]|[m [_ [[_ [R1 [R2 [R3 _]]]] _]]]]].
    - split; [eapply max_time_valid; exact F3|eapply workers_valid; exact F4].
    - split.
      + destruct R2 as [R2|[d [_ R2]]]; [unfold max_time_of; rewrite R2; exact V1|eapply max_time_valid; exact R2].
      + destruct R3 as [R3|[d [_ R3]]]; [unfold workers_of; rewrite R3; exact V2|eapply workers_valid; exact R3]. }
  assert (K : sets_settings o \/ ~ sets_settings o) by (destruct o; cbn; tauto).
  destruct K as [K|K].
  - destruct o; cbn in K; try contradiction.
    + eapply G. apply by_assignment.
    + eapply G. apply by_method. reflexivity.
    + destruct (C40_editing_applies_nothing _ _ _ _ _ E) as [_ [_ [E1 [E2 _]]]]. unfold valid_attributes. rewrite E1, E2. auto.
  - assert (EC : m_cfg s' = m_cfg s); [|unfold valid_attributes, max_time_of, workers_of in *; rewrite EC; auto].
    assert (S : solves o \/ ~ solves o) by (destruct o; cbn; tauto). destruct S as [S|S].
    + assert (KV : keeps m_cfg (solver_view ar)) by (unfold solver_view; apply keeps_pure).
      assert (KP : forall y, keeps m_cfg (put_back ar y)) by (intros y; unfold put_back; apply keeps_modify; reflexivity).
      destruct o; cbn in S; try contradiction; cbn [run] in E.
      * revert E. apply keeps_bind; [exact KV|]. intros x. apply keeps_bind; [apply keeps_lift|]. exact KP.
      * revert E. apply keeps_bind; [exact KV|]. intros x. apply keeps_bind; [apply keeps_get|]. intros s0. apply keeps_bind; [apply keeps_lift|].
        intros y. apply KP.
      * revert E. apply keeps_bind; [apply keeps_get|]. intros s0. destruct (one_worker _); [|apply keeps_raise].
        unfold do_hypersearch. apply keeps_bind; [apply k_sort; reflexivity|]. intros _.
        apply keeps_bind; [apply k_orient; reflexivity|]. intros _. apply keeps_bind; [exact KV|]. intros x.
        apply keeps_bind; [apply keeps_get|]. intros s1. apply keeps_bind; [apply keeps_lift|]. intros h.
        apply keeps_bind; [apply KP|]. intros _. apply keeps_modify. reflexivity.
    + revert E. apply (k_run m_cfg); try reflexivity; try assumption; auto.
Qed.

Theorem C41_attributes_always_valid : forall ar env containers items settings width l (s : machine ar),
  history env containers items settings width l s -> valid_attributes s.
Proof.
  intros ar env containers items settings width l s [s0 [H L]].
  assert (V : valid_attributes s0).
  { destruct (C40_constructor _ _ _ _ _ _ _ H) as [d [_ [_ [F2 [F3 _]]]]].
    split; [eapply max_time_valid; exact F2|eapply workers_valid; exact F3]. }
  clear H. induction L as [|s o s1 r l s' E L IH]; [assumption|]. apply IH. eapply attributes_step; eassumption.
Qed.
Print Assumptions C41_attributes_always_valid.

(** ** C42 *)

(** The names accepted, exactly. *)
Theorem C42_file_names : forall s, file_name_ok s = true <-> proper_name_or_newline s.
Proof. exact file_name_spec. Qed.
Print Assumptions C42_file_names.

(** The versions accepted, exactly (string comparison) ... *)
Theorem C42_versions : forall env,
  (plotly_ok env = true <-> plotly_by_code env) /\ (kaleido_ok env = true <-> kaleido_by_code env).
Proof. intros env. split; [apply plotly_ok_spec|apply kaleido_ok_spec]. Qed.
Print Assumptions C42_versions.

(** ... and when that is the documented range: *)
Definition ordinary_versions (env : environment) : Prop :=
  (forall v, env_plotly env = Some v -> exists a b c suffix, v = version_string a b c suffix /\ (a < 10 /\ 10 <= b < 100)%nat) /\
  (forall v, env_kaleido env = Some v -> exists a b c suffix, v = version_string a b c suffix /\ (a < 10 /\ b < 10)%nat).

Lemma ordinary_plotly env : ordinary_versions env -> (plotly_by_code env <-> plotly_documented env).
Proof.
  intros [H _]. rewrite <- plotly_ok_spec. unfold plotly_ok, plotly_documented. destruct (env_plotly env) as [v|].
  - destruct (H v eq_refl) as [a [b [c [suffix [-> [Ha Hb]]]]]]. rewrite plotly_range by assumption. split.
    + intros G. eexists. split; [reflexivity|]. exists a, b, c, suffix. tauto.
    + intros [v' [[= <-] [a' [b' [c' [suffix' [E G]]]]]]]. apply version_string_inj in E. destruct E as [-> [-> ->]]. exact G.
  - split; [discriminate|]. intros [v [[=] _]].
Qed.
Lemma ordinary_kaleido env : ordinary_versions env -> (kaleido_by_code env <-> kaleido_documented env).
Proof.
  intros [_ H]. rewrite <- kaleido_ok_spec. unfold kaleido_ok, kaleido_documented. destruct (env_kaleido env) as [v|].
  - destruct (H v eq_refl) as [a [b [c [suffix [-> [Ha Hb]]]]]]. rewrite kaleido_range by assumption. split.
    + intros G. eexists. split; [reflexivity|]. exists a, b, c, suffix. tauto.
    + intros [v' [[= <-] [a' [b' [c' [suffix' [E G]]]]]]]. apply version_string_inj in E. destruct E as [-> [-> ->]]. exact G.
  - split; [discriminate|]. intros [v [[=] _]].
Qed.

(** No newline in the name, and proper sizes (if any) also for html. *)
Definition ordinary_export (d : vdict) : Prop :=
  forall f e, has d "figure" (VDict f) -> has f "export" (VDict e) ->
    (forall n, has e "file_name" (VStr n) -> ~ In (ascii_of_nat 10) (list_ascii_of_string n)) /\
    (has e "type" (VStr "html") -> size_ok e "width" /\ size_ok e "height").

Lemma last_char t : In (ascii_of_nat 10) (list_ascii_of_string (t ++ line_feed)).
Proof. induction t as [|c t IH]; cbn; auto. Qed.

Theorem C42_as_documented_partial : forall ar env d (s s' : machine ar) o r,
  validates env (VDict d) s o -> run o s = (s', r) ->
  ordinary_versions env -> ordinary_export d -> (forall f, ~ has d "workers_num" (VFloat f)) ->
  (r = Ok tt <-> documented env (VDict d)).
Proof.
  intros ar env d s s' o r H E Hv He Hw. rewrite (C40_accepted_exactly ar env (VDict d) s s' o r H E).
  assert (W : forall w, any_workers_is d w <-> workers_is d w).
  { intros w. unfold any_workers_is, workers_is. split; [intros [G|[G [K|[->|[q [-> _]]]]]]|intros [G|[G K]]]; auto; exfalso; eapply Hw; exact G. }
  assert (F : figure_by_code env d <-> figure_documented env d).
  { unfold figure_by_code, figure_documented, figure_rules. pose proof (ordinary_plotly env Hv) as PL.
    assert (X : forall f e, has d "figure" (VDict f) -> has f "export" (VDict e) ->
       (export_rules proper_name_or_newline kaleido_by_code false env e <-> export_rules proper_name kaleido_documented true env e)).
    { intros f e Hf Hx. destruct (He f e Hf Hx) as [N S]. unfold export_rules. rewrite (ordinary_kaleido env Hv).
      assert (NM : (absent_or_none e "file_name" \/ exists n, has e "file_name" (VStr n) /\ proper_name_or_newline n) <->
                   (absent_or_none e "file_name" \/ exists n, has e "file_name" (VStr n) /\ proper_name n)).
      { split; intros [G|[n [G K]]]; auto; right; exists n; (split; [assumption|]); [|left; assumption].
        destruct K as [K|[t [_ ->]]]; [assumption|]. exfalso. apply (N _ G). apply last_char. }
      rewrite NM. split; intros [[[T _]|T] K]; (split; [|exact K]); auto; left; (split; [assumption|]); auto. }
    split; (intros [G|[f [G1 G2]]]; [left; assumption|right; exists f; split; [assumption|]]);
      (destruct G2 as [G2|[G2 [G3 G5]]]; [left; assumption|right]; split; [apply PL; assumption|]; split; [|assumption]);
      (destruct G3 as [G3|[e [G3 G4]]]; [left; assumption|right; exists e; split; [assumption|]; apply (X f e G1 G3); assumption]). }
  unfold accepted_by_code, documented. split; intros [d' [b [z [w [[= <-] [G1 [G2 [G3 G4]]]]]]]]; exists d, b, z, w.
  - rewrite W in G3. rewrite F in G4. auto 10.
  - rewrite <- W in G3. rewrite <- F in G4. auto 10.
Qed.
Print Assumptions C42_as_documented_partial.

(** False in general as documented: a newline after the name; invalid sizes with html; a version
    after 5.14.0 that is refused, a version before it that is accepted. *)
Definition libraries (plotly kaleido : string) : environment :=
  mkEnv (Some plotly) (Some kaleido) (String.eqb "/figures") (String.eqb "/figures").
Definition html_export (more : vdict) : pyval :=
  VDict [(VStr "figure", VDict [(VStr "export",
    VDict ([(VStr "type", VStr "html"); (VStr "path", VStr "/figures")] ++ more))])].

Lemma html_documented env more : documented env (html_export more) ->
  plotly_documented env /\ (size_ok ([(VStr "type", VStr "html"); (VStr "path", VStr "/figures")] ++ more) "width") /\
  (forall n, has ([(VStr "type", VStr "html"); (VStr "path", VStr "/figures")] ++ more) "file_name" (VStr n) -> proper_name n).
Proof.
  intros [d [b [z [w [[= <-] [_ [_ [_ [F|[f [F1 F2]]]]]]]]]]]; [discriminate F|]. injection F1 as <-.
  destruct F2 as [F2|[F2 [[F3|[e [F3 F4]]] _]]]; [discriminate F2|discriminate F3|]. split; [assumption|].
  injection F3 as <-. destruct F4 as [[[_ S]|[T _]] [_ N]]; [|discriminate T]. split; [apply S; reflexivity|].
  intros n Hn. destruct N as [[N|N]|[n' [N N']]]; unfold absent, has in *; cbn [app] in *; [congruence|congruence|]. assert (n' = n) by congruence. subst. assumption.
Qed.

Theorem C42_refuted :
  let good := libraries "5.18.0" "0.2.1" in
  (* a newline at the end of the name *)
  (exists n, outcome (OpSetSettings good (html_export [(VStr "file_name", VStr n)])) bins = Ok tt /\
             ~ documented good (html_export [(VStr "file_name", VStr n)])) /\
  (* sizes of an html figure *)
  (outcome (OpSetSettings good (html_export [(VStr "width", VInt (-3))])) bins = Ok tt /\
   ~ documented good (html_export [(VStr "width", VInt (-3))])) /\
  (* versions *)
  (outcome (OpSetSettings (libraries "5.9.0" "0.2.1") (html_export [])) bins = Ok tt /\
   ~ documented (libraries "5.9.0" "0.2.1") (html_export [])) /\
  (outcome (OpSetSettings (libraries "5.100.0" "0.2.1") (html_export [])) bins = Err (SettingsError S_PLOTLY_VERSION) /\
   documented (libraries "5.100.0" "0.2.1") (html_export [])).
Proof.
  cbv zeta. refine (conj _ (conj (conj _ _) (conj (conj _ _) (conj _ _)))); try (vm_compute; reflexivity).
  - exists ("plot" ++ line_feed)%string. split; [vm_compute; reflexivity|]. intros D. apply html_documented in D. destruct D as [_ [_ D]].
    specialize (D ("plot" ++ line_feed)%string eq_refl). destruct D as [_ D]. specialize (D (ascii_of_nat 10) (last_char "plot")).
    apply name_char_spec in D. discriminate D.
  - intros D. apply html_documented in D. destruct D as [_ [[[D|D]|[v [D [z [D1 D2]]]]] _]]; try discriminate D. injection D as <-.
    destruct D1 as [D1|[D1 _]]; [injection D1 as <-; lia|discriminate D1].
  - intros D. apply html_documented in D. destruct D as [[v [[= <-] [a [b [c [suffix [E [G _]]]]]]]] _].
    assert (X : "5.9.0" = version_string 5 9 0 []) by reflexivity. rewrite X in E. apply version_string_inj in E. destruct E as [<- [<- <-]].
    apply G. cbn. lia.
  - eexists. exists true, 60, (VInt 1). split; [reflexivity|]. split; [left; split; [left; reflexivity|reflexivity]|].
    split; [left; split; reflexivity|]. split; [left; split; [left; reflexivity|reflexivity]|]. right. eexists. split; [reflexivity|].
    right. split.
    + eexists. split; [reflexivity|]. exists 5%nat, 100%nat, 0%nat, []. split; [reflexivity|]. cbn. split; [lia|lia].
    + split; [right|left; reflexivity]. eexists. split; [reflexivity|]. split; [left|split].
      * split; [reflexivity|]. intros _. split; left; left; reflexivity.
      * exists "/figures". split; [reflexivity|]. split; reflexivity.
      * left. left. reflexivity.
Qed.
Print Assumptions C42_refuted.

(** Concrete: an image export that is accepted, and its refusals. *)
Definition image_export (format : string) (width : Z) : pyval :=
  VDict [(VStr "figure", VDict [(VStr "export",
    VDict [(VStr "type", VStr "image"); (VStr "format", VStr format); (VStr "path", VStr "/figures");
           (VStr "file_name", VStr "my_plot-1"); (VStr "width", VInt width)]); (VStr "show", VBool true)])].
Example C42_witness :
  ordinary_versions (libraries "5.18.0" "0.2.1") /\
  outcome (OpSetSettings (libraries "5.18.0" "0.2.1") (image_export "png" 800)) bins = Ok tt /\
  outcome (OpSetSettings (libraries "5.13.1" "0.2.1") (image_export "png" 800)) bins = Err (SettingsError S_PLOTLY_VERSION) /\
  outcome (OpSetSettings (libraries "5.18.0" "0.1.0") (image_export "png" 800)) bins = Err (SettingsError S_EXPORT_KALEIDO_VERSION) /\
  outcome (OpSetSettings (libraries "5.18.0" "0.2.1") (image_export "gif" 800)) bins = Err (SettingsError S_EXPORT_FORMAT_VALUE) /\
  outcome (OpSetSettings (libraries "5.18.0" "0.2.1") (image_export "png" 0)) bins = Err (SettingsError S_EXPORT_WIDTH_VALUE) /\
  outcome (OpSetSettings no_libraries (image_export "png" 800)) bins = Err (SettingsError S_PLOTLY_NOT_INSTALLED) /\
  settings_of (next (OpSetSettings (libraries "5.18.0" "0.2.1") (html_export [])) bins) =
    html_export [(VStr "file_name", VStr "PlotlyGraph")].
Proof.
  refine (conj _ (conj _ (conj _ (conj _ (conj _ (conj _ (conj _ _))))))); try (vm_compute; reflexivity).
  split; intros v [= <-].
  - exists 5%nat, 18%nat, 0%nat, []. split; [reflexivity|lia].
  - exists 0%nat, 2%nat, 1%nat, []. split; [reflexivity|lia].
Qed.
Print Assumptions C42_witness.
