(** * Hypersearch with several processes on the machine: lemmas. *)
From Coq Require Import ZArith String List Bool QArith Qround Lia Permutation.
From Verif Require Import Py ProofsPy Arith Construct Spec ProofsSolve ProofsPacking ProofsSolution
  LocalSearch SpecSearch ItemsManip HyperSearch MultiProcess PropertiesSearch PropertiesItems ProofsHyper PropertiesHyper ProofsLoose ProofsMulti PropertiesMulti
  Values ProofsVal Settings Instance SpecInstance ProofsMachine ProofsOps ProofsRun ProofsSolver ProofsAccept
  ProofsHistory ProofsFrame ProofsRefine SpecSettings ProofsSettings PropertiesStructures PropertiesHistory PropertiesInstance PropertiesSettings
  MultiHistory SpecMultiHistory.
Import ListNotations.
Open Scope string_scope.
Open Scope list_scope.
Open Scope Z_scope.
Open Scope sm_scope.

(** ** Chunks *)

Lemma worker_cases v : is_positive_int v \/ positive_float v ->
  (exists q, worker_number v q) \/ v = VFloat (FInf false).
Proof.
  intros [[z [[->|[-> ->]] Hz]]|[->|[q [-> Hq]]]].
  - left. exists (inject_Z z). split; [reflexivity|]. unfold Qlt, inject_Z. cbn. lia.
  - left. exists 1%Q. split; reflexivity.
  - right. reflexivity.
  - left. exists q. split; [reflexivity|exact Hq].
Qed.

(** The partition for every number of workers validation lets through. *)
Lemma partition_number {A} (l : list A) v q : worker_number v q -> partition l v = strategies_chunks l q.
Proof.
  intros [H1 H2]. unfold partition. rewrite H1. destruct (Qeq_bool q 0) eqn:Hz; [|reflexivity].
  apply Qeq_bool_iff in Hz. rewrite Hz in H2. discriminate H2.
Qed.

Lemma partition_cases {A} (l : list A) v : is_positive_int v \/ positive_float v ->
  (exists q, worker_number v q /\ partition l v = strategies_chunks l q) \/
  (v = VFloat (FInf false) /\ partition l v = Err ValueError).
Proof.
  intros H. destruct (worker_cases v H) as [[q Hq]| ->].
  - left. exists q. split; [exact Hq|]. apply partition_number. exact Hq.
  - right. split; reflexivity.
Qed.

(** ** The workers' instance *)
Section Arithmetic.
Context {ar : arith} (laws : arith_laws ar) (vals : value_laws ar).
Notation qmachine := (machine ar).

Lemma sdict_cons {A} (f : A -> pyval) i a (l : odict A) : sdict f ((i, a) :: l) = (VStr i, f a) :: sdict f l.
Proof. reflexivity. Qed.

Lemma copied_value (s : qmachine) h o es : inv s -> nth_error (m_structs s) h = Some o -> so_data o <> [] ->
  view_struct s h = Some es ->
  exists c : odict pyval, struct_deepcopy s h = Ok (sdict (fun v => v) c) /\
    structure_value (so_kind o) (VDict (sdict (fun v => v) c)) es /\ genuine (VDict (sdict (fun v => v) c)) /\
    Forall2 (fun p q => fst p = fst q /\ dims_value (so_kind o) (snd p) (snd q)) c es.
Proof.
  intros I Ho Hne Hv. unfold view_struct in Hv. rewrite Ho in Hv.
  destruct (iv_structs s I _ _ Ho) as [l [El [N1 _]]]. rewrite El in Hv.
  pose proof (viewed_of _ _ _ _ Hv) as V.
  destruct (deepcopy_viewed _ _ _ _ (iv_dims s I) V) as [c [Ec Fc]].
  exists c. unfold struct_deepcopy. rewrite Ho, El, Ec. split; [reflexivity|].
  assert (Kc : dkeys c = dkeys es).
  { clear -Fc. induction Fc as [|[i a] [j b] c es [E _] _ IH]; [reflexivity|]. cbn [fst] in E. subst j. unfold dkeys in *. cbn [map fst]. f_equal. exact IH. }
  assert (Kl : dkeys l = dkeys es) by (eapply viewed_keys; exact V).
  split; [|split].
  - exists (sdict (fun v => v) c). split; [reflexivity|]. split.
    + intros C. apply Hne. rewrite El. destruct c; [|discriminate]. destruct es; [|discriminate Kc]. destruct l; [reflexivity|discriminate Kl].
    + clear -Fc. induction Fc as [|[i a] [j b] c es [E [D _]] _ IH]; [constructor|]. cbn [fst snd] in *. subst j.
      rewrite sdict_cons. constructor; [split; [reflexivity|exact D]|exact IH].
  - intros x [= <-]. split; [apply distinct_sdict; congruence|].
    intros id w Hin. unfold sdict in Hin. apply in_map_iff in Hin. destruct Hin as [[i a] [[= <- <-] Hin]].
    clear -Fc Hin. induction Fc as [|[i' a'] [j b] c es [E [D G]] _ IH]; [destruct Hin|].
    destruct Hin as [[= -> ->]|Hin]; [exact G|exact (IH Hin)].
  - clear -Fc. induction Fc as [|[i a] [j b] c es [E [D _]] _ IH]; constructor; [split; assumption|exact IH].
Qed.

Lemma new_settings_cases env v c r : new_settings env v = (c, r) ->
  let w := if truthy v then v else VDict [] in
  (r = Ok tt /\ exists d, w = VDict d /\ figure_done env w d c /\ figure_by_code env d) \/
  (exists m, r = Err (SettingsError m) /\ reason env w m).
Proof.
  intros H w. unfold new_settings in H. fold w in H.
  pose proof (validate_settings_tri env w (mkCfg w rotation_default limit_default workers_default false false false false) _ eq_refl) as T.
  unfold with_settings in T. cbn [c_rotation c_limit c_workers c_plotly c_plotly_ok c_kaleido c_kaleido_ok] in T. rewrite H in T.
  destruct r as [[]|e].
  - left. split; [reflexivity|]. exact T.
  - right. destruct e; try contradiction. destruct T as [_ T]. eauto.
Qed.

Lemma dims_value_get k v d : dims_value k v d ->
  exists f a, v = VDict f /\ data_get f (VStr (wkey k)) = Ok a /\ positive_int a (dw d).
Proof.
  intros [a [b [Ha [Hb H]]]].
  assert (R : forall i, key_eqb (VStr i) (VStr i) = true) by (intros; apply key_eqb_str_l; reflexivity).
  destruct H as [-> | ->]; eexists; exists a; (split; [reflexivity|]); (split; [|exact Ha]);
    unfold data_get; cbn [hashable negb vget]; rewrite ?R; [reflexivity|].
  replace (key_eqb (VStr (wkey k)) (VStr (lkey k))) with false by (destruct k; reflexivity). reflexivity.
Qed.

Definition with_rotation (x : inst ar) (b : bool) : inst ar :=
  mkInst (mkProblem (pb_containers (in_pb x)) (pb_items (in_pb x)) b (pb_strategy (in_pb x)) (pb_strip (in_pb x)) (pb_height (in_pb x)))
         (in_min x) (in_cnum x) (in_sol x) (in_objs x) (in_hist x).

(** What the workers' instance is, for every outcome of the validation of its settings. *)
Lemma child_machine_cases env (s : qmachine) x : inv s -> view s = Some x ->
  forall settings, worker_settings (c_settings (m_cfg s)) = Ok settings ->
  forall c r, new_settings env settings = (c, r) ->
  match r with
  | Err e => child_machine env s = Err e
  | Ok _ => exists y yi, child_machine env s = Ok y /\ view y = Some yi /\ m_cfg y = c /\
              child_inst (with_rotation x (c_rotation c)) = Ok yi
  end.
Proof.
  intros I V settings Hset c r Hc.
  pose proof (inv_valid s x I V) as Hval.
  destruct (inv_view s I) as [cs [is_ [V1 [V2 [V3 [V4 [V5 [V6 V7]]]]]]]]. rewrite V in V7. injection V7 as ->.
  destruct (iv_items s I) as [oi [Hi [Ki Ni]]]. destruct (iv_containers s I) as [oc [Hoc [Kc Nc]]].
  destruct (copied_value s _ _ _ I Hi Ni V2) as [ci [Ei [Si [Gi _]]]].
  destruct (copied_value s _ _ _ I Hoc Nc V1) as [cc [Ecc [Sc [Gc Fc]]]]. rewrite Ki in Si. rewrite Kc in Sc, Fc.
  set (vi := VDict (sdict (fun v => v) ci)) in *. set (vc := VDict (sdict (fun v => v) cc)) in *.
  unfold child_machine. rewrite Ecc, Ei. cbn [bind]. rewrite Hset. cbn [bind]. fold vi. fold vc.
  (* the arguments *)
  assert (Arg : exists ac aw cs', genuine ac /\ containers_argument ac aw cs' /\
    (if m_strip s then bind (strip_width (sdict (fun v => v) cc)) (fun w =>
             Ok (create ar env VNone vi settings w (blank ar)))
     else Ok (create ar env vc vi settings VNone (blank ar))) =
      Ok (create ar env ac vi settings aw (blank ar)) /\
    (if m_strip s then exists w l, cs = [(strip_id, mkDims w l)] /\ cs' = [(strip_id, mkDims w (2 ^ 100))] /\ positive_int aw w
     else cs' = cs /\ aw = VNone)).
  { destruct (m_strip s) eqn:Es.
    - destruct (proj2 Hval) as [K _]; [reflexivity|]. cbn in K.
      destruct cs as [|[i d] [|]]; try discriminate. cbn in K. injection K as ->.
      inversion Fc as [|[j w] ? ? ? [Ej Hw] Ft]; subst. inversion Ft; subst. cbn [fst snd] in Ej, Hw. subst j.
      destruct (dims_value_get _ _ _ Hw) as [f [a [-> [Ha Hpa]]]]. cbn [wkey] in Ha.
      exists VNone, a, [(strip_id, mkDims (dw d) (2 ^ 100))]. split; [intros ? [=]|]. split.
      { right. split; [reflexivity|]. exists (dw d). auto. }
      split.
      { unfold strip_width. unfold data_get at 1. cbn [hashable negb sdict map vget fst snd].
        replace (key_eqb (VStr strip_id) (VStr strip_id)) with true by reflexivity. cbn [bind]. rewrite Ha. reflexivity. }
      destruct d as [w l]. exists w, l. auto.
    - exists vc, VNone, cs. split; [exact Gc|]. split; [left; auto|]. split; [reflexivity|]. auto. }
  destruct Arg as [ac [aw [cs' [Ga [Ca [-> Hcs]]]]]]. cbn [bind].
  destruct (C31_constructor ar env ac vi settings aw Ga Gi) as [K1 [K2 K3]].
  destruct r as [[]|e].
  - assert (Hex : exists y : qmachine, created env ac vi settings aw y).
    { apply K1. exists cs', is_, c. auto. }
    destruct Hex as [y Hy]. pose proof Hy as Hy'. unfold created in Hy'. rewrite Hy'. cbn [fst snd].
    destruct (K3 y cs' is_ Hy Ca Si) as [W1 [W2 W3]].
    destruct (created_object _ _ _ _ _ _ Hy) as [st [height [n1 [n2 [dc [di [c' [N [Hc' Hst]]]]]]]]].
    assert (c' = c) by congruence. subst c'.
    destruct (inv_view y (created_inv _ _ _ _ _ _ Hy)) as [cs2 [is2 [Y1 [Y2 [Y3 [Y4 [Y5 [Y6 Y7]]]]]]]].
    rewrite W1 in Y1. injection Y1 as <-. rewrite W2 in Y2. injection Y2 as <-.
    assert (Hcn : m_cnum y = zlen cs').
    { destruct N as [N1 [N2 [N3 [N4 [N5 [N6 Ny]]]]]]. rewrite Ny. cbn [m_cnum].
      rewrite Ny in W1. unfold containers_of, view_struct in W1. cbn [m_structs m_containers m_dims nth_error so_kind so_data] in W1.
      destruct (view_entries_ok (n1 ++ n2) KContainers dc) as [v' [E1 [_ [E2 _]]]].
      - intros r' o' Hr. apply nth_error_In in Hr. rewrite Forall_forall in N1, N2. apply in_app_or in Hr. destruct Hr; auto.
      - apply entries_ok_app. assumption.
      - rewrite E1 in W1. injection W1 as ->. unfold zlen. rewrite E2. reflexivity. }
    assert (Hm : m_cfg y = c /\ m_strategy y = default_strategy /\ m_strip y = st /\ m_height y = height /\ m_sol y = [] /\ m_objs y = [] /\ m_hist y = []).
    { destruct N as [_ [_ [_ [_ [_ [_ Ny]]]]]]. rewrite Ny. auto 10. }
    destruct Hm as [M1 [M2 [M3 [M4 [M5 [M6 M7]]]]]].
    exists (set_heights y (m_height y) (m_min s)).
    exists (mkInst (mkProblem cs' is_ (c_rotation c) default_strategy st (match height with Some h => h | None => 0 end))
                   (m_min s) (zlen cs') [] [] []).
    split; [reflexivity|]. split.
    { unfold view. change (view_struct (set_heights y (m_height y) (m_min s)) (m_containers (set_heights y (m_height y) (m_min s)))) with (containers_of y).
      change (view_struct (set_heights y (m_height y) (m_min s)) (m_items (set_heights y (m_height y) (m_min s)))) with (items_of y).
      rewrite W1, W2. cbn [set_heights m_cfg m_strategy m_strip m_height m_min m_cnum m_sol m_objs m_hist].
      rewrite M1, M2, M3, M4, M5, M6, M7, Hcn. reflexivity. }
    split; [exact M1|].
    assert (Est : st = m_strip s).
    { destruct (m_strip s).
      - destruct Hcs as [w [l0 [_ [_ Hw]]]]. destruct st; [reflexivity|]. destruct Hst as [-> _]. destruct Hw as [[X|[X _]] _]; discriminate.
      - destruct Hcs as [_ ->]. destruct st; [|reflexivity]. destruct Hst as [_ [w [[[X|[X _]] _] _]]]; discriminate. }
    unfold child_inst. cbn [with_rotation in_pb in_min pb_strip pb_containers pb_items pb_rotation].
    destruct (m_strip s) eqn:Es.
    + destruct Hcs as [w [l0 [-> [-> Hw]]]]. rewrite ?M3, ?Est in Hst. destruct Hst as [_ [w' [Hw' [-> _]]]]. assert (w' = w).
      { apply positive_int_spec in Hw. apply positive_int_spec in Hw'. destruct Hw, Hw'. congruence. }
      subst w'. rewrite Est. unfold dget_r. cbn [dget]. rewrite String.eqb_refl. reflexivity.
    + destruct Hcs as [-> ->]. rewrite ?M3, ?Est in Hst. destruct Hst as [_ ->]. rewrite Est. reflexivity.
  - assert (Hex : exists y : qmachine, create ar env ac vi settings aw (blank ar) = (y, Err e)).
    { apply K2. eapply ce_settings; eassumption. }
    destruct Hex as [y Hy]. rewrite Hy. reflexivity.
Qed.

(** ** What a call runs on *)

Lemma rotated_child x b y : valid_inst ar x -> child_inst (with_rotation x b) = Ok y -> child_ok x y.
Proof.
  intros Hv H. assert (Hv' : valid_inst ar (with_rotation x b)) by exact Hv.
  destruct (child_facts _ _ Hv' H). constructor; assumption.
Qed.

Lemma struct_deepcopy_ok (s : qmachine) : inv s ->
  (exists d, struct_deepcopy s (m_containers s) = Ok d) /\ (exists d, struct_deepcopy s (m_items s) = Ok d).
Proof.
  intros I. destruct (inv_view s I) as [cs [is_ [V1 [V2 _]]]].
  destruct (iv_items s I) as [oi [Hi [Ki Ni]]]. destruct (iv_containers s I) as [oc [Hoc [Kc Nc]]].
  destruct (copied_value s _ _ _ I Hi Ni V2) as [ci [Ei _]].
  destruct (copied_value s _ _ _ I Hoc Nc V1) as [cc [Ecc _]]. eauto.
Qed.

Lemma child_settings_error env (s : qmachine) e : inv s -> worker_settings (c_settings (m_cfg s)) = Err e ->
  child_machine env s = Err e.
Proof.
  intros I H. destruct (struct_deepcopy_ok s I) as [[d1 E1] [d2 E2]]. unfold child_machine. rewrite E1, E2. cbn [bind]. rewrite H. reflexivity.
Qed.

(** The setup of a call. *)
Record called (c : call ar) (s : qmachine) (u : setup ar) (x : inst ar) (y : qmachine) (settings : pyval) : Prop := {
  ca_view : view s = Some x;
  ca_parent : su_parent u = x;
  ca_child : child_ok x (su_child u);
  ca_ws : worker_settings (c_settings (m_cfg s)) = Ok settings;
  ca_new : new_settings (ca_env c) settings = (m_cfg y, Ok tt);
  ca_made : child_inst (with_rotation x (c_rotation (m_cfg y))) = Ok (su_child u);
  ca_limit : su_limit u = c_limit (m_cfg y);
  ca_chunks : partition (ca_strategies c) (c_workers (m_cfg s)) = Ok (su_chunks u);
  ca_rest : u = mkSetup x (su_child u) (su_chunks u) (ca_clocks c) (ca_start c) (su_limit u) (ca_throttle c)
              (ca_forced c) (ca_size c) (ca_capacity c)
}.

Lemma prepare_ok (c : call ar) (s : qmachine) u : inv s -> prepare c s = Ok u -> exists x y settings, called c s u x y settings.
Proof.
  intros I H. destruct (inv_view s I) as [cs [is_ [_ [_ [_ [_ [_ [_ V]]]]]]]]. unfold prepare in H. rewrite V in H.
  match type of V with _ = Some ?X => set (x := X) in * end.
  destruct (partition _ _) as [chunks|e] eqn:Ep; [|discriminate]. cbn [bind] in H.
  destruct (worker_settings (c_settings (m_cfg s))) as [settings|e] eqn:Ew.
  2: { rewrite (child_settings_error _ _ _ I Ew) in H. discriminate. }
  destruct (new_settings (ca_env c) settings) as [cf r] eqn:En.
  pose proof (child_machine_cases (ca_env c) s x I V settings Ew cf r En) as K. destruct r as [[]|e].
  - destruct K as [y [yi [K1 [K2 [K3 K4]]]]]. rewrite K1 in H. cbn [bind] in H. rewrite K2 in H. injection H as <-.
    exists x, y, settings. subst cf. pose proof (rotated_child _ _ _ (inv_valid s x I V) K4). constructor; cbn [su_parent su_child su_limit su_chunks]; try assumption; reflexivity.
  - rewrite K in H. discriminate.
Qed.

Lemma called_workers (c : call ar) (s : machine ar) u x y settings : called c s u x y settings -> valid_attributes s ->
  ca_strategies c <> [] /\ exists q, worker_number (workers_of s) q /\
    strategies_chunks (ca_strategies c) q = Ok (su_chunks u) /\ (0 < workers u)%nat.
Proof.
  intros C V. pose proof (ca_chunks _ _ _ _ _ _ C) as E.
  destruct (partition_cases (ca_strategies c) _ (proj2 V)) as [[q [Hq Eq]]|[_ Eq]]; unfold workers_of in *; rewrite Eq in E.
  - split; [exact (proj1 (chunks_cut _ _ _ (proj2 Hq) E))|]. exists q. split; [exact Hq|]. split; [exact E|]. unfold workers.
    pose proof (chunks_some (ca_strategies c) q _ (proj2 Hq) E) as K. unfold zlen in K. lia.
  - discriminate.
Qed.

(** ** Sorting and orienting first *)
Lemma presort_inv (c : call ar) (s s1 : qmachine) r P Q : inv s -> presort c s = (s1, r) -> star P Q s s1.
Proof.
  intros I H. revert I H. apply safe_bind; [apply safe_do_sort|]. intros _. apply safe_do_orient.
Qed.
Lemma presort_cfg (c : call ar) (s s1 : qmachine) r : presort c s = (s1, r) -> m_cfg s1 = m_cfg s.
Proof.
  intros H. revert H. apply (keeps_bind m_cfg); [apply k_sort; reflexivity|]. intros _. apply k_orient; reflexivity.
Qed.

Lemma put_back_same (s : qmachine) x sol objs : inv s -> view s = Some x ->
  put_back_state s (set_solution x sol objs) = set_sol s sol objs.
Proof.
  intros I V. destruct (inv_view s I) as [cs [is_ [_ [_ [_ [_ [_ [_ V']]]]]]]]. rewrite V in V'. injection V' as ->.
  unfold put_back_state, set_solution. cbn [in_pb pb_height pb_strategy in_hist in_sol in_objs].
  destruct (m_strip s) eqn:Es.
  - destruct (iv_heights s I Es) as [h [Eh _]]. destruct s. cbn in *. subst. reflexivity.
  - destruct s. cbn in *. subst. reflexivity.
Qed.

(** The result is a packing of the parent's items into its containers. *)
(** A strip of another length is filled alike. *)
Lemma solve_strip_length pb (cs : odict dims) sq : pb_strip pb = true -> dkeys cs = dkeys (pb_containers pb) ->
  (forall cid c c', In (cid, c) cs -> In (cid, c') (pb_containers pb) -> dw c' = dw c) ->
  NoDup (dkeys cs) ->
  solve ar (mkProblem cs (pb_items pb) (pb_rotation pb) (pb_strategy pb) true (pb_height pb)) sq = solve ar pb sq.
Proof.
  intros Hs. destruct pb as [cs' is_ rot g strip h]. cbn in Hs. subst strip.
  cbn [pb_containers pb_items pb_rotation pb_strategy pb_height]. intros Hk Hw Hn.
  unfold solve, solve_full, items_for. cbn [pb_items pb_containers].
  destruct (match sq with None => _ | Some _ => _ end) as [its|e]; [|reflexivity]. cbn [bind]. f_equal.
  assert (G : forall cs cs' acc, dkeys cs = dkeys cs' -> NoDup (dkeys cs) ->
     (forall cid c c', In (cid, c) cs -> In (cid, c') cs' -> dw c' = dw c) ->
     forall csa csb,
     rfold (solve_step ar (mkProblem csa is_ rot g true h)) cs acc = rfold (solve_step ar (mkProblem csb is_ rot g true h)) cs' acc).
  { clear. induction cs as [|[k c] cs IH]; intros [|[k' c'] cs'] acc Hk Hn Hw csa csb; try discriminate; [reflexivity|].
    cbn in Hk. injection Hk as <- Hk. cbn [rfold].
    assert (E : solve_step ar (mkProblem csa is_ rot g true h) acc (k, c) = solve_step ar (mkProblem csb is_ rot g true h) acc (k, c')).
    { unfold solve_step. destruct acc as [[l sol] objs]. rewrite (Hw k c c') by (left; reflexivity). reflexivity. }
    rewrite E. destruct (solve_step ar _ acc (k, c')) as [acc'|e]; cbn [bind]; [|reflexivity].
    apply IH; [exact Hk|inversion Hn; assumption|]. intros; eapply Hw; right; eassumption. }
  apply G; assumption.
Qed.

Lemma returned_packing (c : call ar) (s : qmachine) u x y settings mr md t sol objs g :
  inv s -> valid_attributes s -> called c s u x y settings ->
  reachable u mr md t -> s_parent t = PReturned sol objs g ->
  a_packing (pb_containers (in_pb x)) (pb_items (in_pb x)) (pb_strip (in_pb x)) sol /\
  a_construction (pb_containers (in_pb x)) (pb_items (in_pb x)) (pb_strip (in_pb x)) sol objs.
Proof.
  intros I A C R Ht. pose proof (inv_valid s x I (ca_view _ _ _ _ _ _ C)) as Hv.
  pose proof (ca_child _ _ _ _ _ _ C) as F. destruct (called_workers _ _ _ _ _ _ C A) as [_ [q0 [_ [_ Hw]]]].
  assert (Hv' : valid_inst ar (su_parent u)) by (rewrite (ca_parent _ _ _ _ _ _ C); exact Hv).
  assert (F' : child_ok (su_parent u) (su_child u)) by (rewrite (ca_parent _ _ _ _ _ _ C); exact F).
  destruct (returned_made (conj laws vals) u Hv' F' Hw mr md t sol objs g R Ht) as [h [Hh [seq [sol0 [M1 [M2 M3]]]]]].
  cbn [fst snd] in M2, M3. cbn [pb_items pb_with_strategy] in M1.
  set (pb := pb_with_height (pb_with_strategy (in_pb (su_child u)) (match g with None => default_strategy | Some g => g end)) h) in *.
  assert (Hp : valid_problem pb).
  { destruct (ch_valid _ _ F) as [V1 [V2 [V3 [V4 V5]]]]. split; [exact V1|]. split; [exact V2|]. split; [exact V3|]. split; [exact V4|].
    intros Es. unfold hloose in Hh. cbn in Es. rewrite Es in Hh. cbn. lia. }
  assert (P : a_packing (pb_containers pb) (pb_items pb) (pb_strip pb) sol0).
  { eapply solve_packing; [exact Hp| |exact M2]. intros i Hi. cbn [pb pb_items pb_with_height pb_with_strategy].
    eapply Permutation_in; [exact M1|exact Hi]. }
  assert (P' : a_packing (pb_containers pb) (pb_items pb) (pb_strip pb) sol).
  { eapply packing_copy; [apply Hp|exact P|exact M3]. }
  cbn [pb pb_containers pb_items pb_strip pb_with_height pb_with_strategy] in P'.
  rewrite (ch_items _ _ F), (ch_strip _ _ F) in P'. split.
  2: { exists (pb_rotation pb), (pb_strategy pb), h, (Some seq), sol0.
    split. { intros Es. unfold hloose in Hh. cbn in Hh. rewrite (ch_strip _ _ F), Es in Hh. lia. }
    split; [|exact M3]. rewrite <- M2. destruct (pb_strip (in_pb x)) eqn:Es.
    - etransitivity; [|apply (solve_strip_length pb (pb_containers (in_pb x)))].
      + subst pb. cbn [pb_items pb_rotation pb_strategy pb_height pb_with_height pb_with_strategy]. rewrite (ch_items _ _ F). reflexivity.
      + subst pb. cbn. rewrite (ch_strip _ _ F). exact Es.
      + subst pb. cbn. symmetry. apply (ch_keys _ _ F).
      + subst pb. cbn. intros cid c1 c2 H1 H2. apply (ch_widths _ _ F cid).
        * apply In_dget; [apply Hv|exact H1].
        * apply In_dget; [|exact H2]. rewrite (ch_keys _ _ F). apply Hv.
      + apply Hv.
    - f_equal. subst pb. unfold pb_with_height, pb_with_strategy. cbn. rewrite (ch_items _ _ F), (ch_strip _ _ F), (ch_containers _ _ F Es), Es. reflexivity. }
  destruct (pb_strip (in_pb x)) eqn:Es.
  - destruct P' as [P1 [P2 [P3 P4]]]. rewrite (ch_keys _ _ F) in P1. split; [exact P1|]. split; [exact P2|]. split; [|exact P4].
    intros cid csol i e H1 H2. destruct (P3 cid csol i e H1 H2) as [c' [d [G1 [G2 [G3 G4]]]]].
    assert (Hin : In cid (dkeys (pb_containers (in_pb x)))) by (rewrite <- (ch_keys _ _ F); apply dget_Some_In; eauto).
    apply dget_Some_In in Hin. destruct Hin as [c0 Hc0]. exists c0, d. split; [exact Hc0|]. split; [exact G2|]. split; [exact G3|].
    rewrite <- (ch_widths _ _ F _ _ _ Hc0 G1). exact G4.
  - rewrite (ch_containers _ _ F Es) in P'. exact P'.
Qed.

Lemma multi_star mr md (c : call ar) (s s' : qmachine) r : inv s -> valid_attributes s -> multi mr md c s s' r ->
  star (fun _ => False) True s s'.
Proof.
  intros I A H. destruct H as [s1 e E|s1 e E Ep|s1 u t e E Ep R Ht|s1 u t sol objs g E Ep R Ht];
    try (eapply presort_inv; eassumption).
  pose proof (presort_inv c s s1 (Ok tt) (fun _ => False) True I E) as S. eapply star_app; [exact S|].
  pose proof (star_inv _ _ _ _ I S) as I1.
  assert (A1 : valid_attributes s1) by (unfold valid_attributes, max_time_of, workers_of in *; rewrite (presort_cfg _ _ _ _ E); exact A).
  destruct (prepare_ok _ _ _ I1 Ep) as [x [y [settings C]]].
  pose proof (returned_packing _ _ _ _ _ _ _ _ _ _ _ _ I1 A1 C R Ht) as [P P2].
  pose proof (ca_view _ _ _ _ _ _ C) as V. pose proof (inv_valid s1 x I1 V) as Hv.
  unfold assign_result. rewrite <- (put_back_same s1 x sol objs I1 V).
  eapply star_cons; [apply (mi_put _ _ s1 x (set_solution x sol objs) Logic.I V)|apply star_one; apply mi_best; exact Logic.I].
  split; [exact P|]. split; [|exact P2]. intros Es. cbn [set_solution in_pb]. split; [|apply (proj2 Hv Es)].
  destruct Hv as [[_ [_ [_ [_ X]]]] _]. specialize (X Es). lia.
Qed.

Lemma multi_cfg mr md (c : call ar) (s s' : qmachine) r : multi mr md c s s' r -> m_cfg s' = m_cfg s.
Proof.
  intros H. destruct H as [s1 e E|s1 e E Ep|s1 u t e E Ep R Ht|s1 u t sol objs g E Ep R Ht];
    rewrite <- (presort_cfg _ _ _ _ E); reflexivity.
Qed.

(** ** Histories *)
Definition mtouches (o : mop ar) : option nat -> Prop := match o with Plain o => touches o | Processes _ => fun _ => False end.
Definition mruns_solver (o : mop ar) : Prop := match o with Plain o => runs_solver o | Processes _ => True end.

Lemma mrun_attributes o (s s' : qmachine) r : valid_attributes s -> mrun o s s' r -> valid_attributes s'.
Proof.
  intros A H. destruct H as [o s s' r _ E|c s s' r _ H].
  - eapply attributes_step; eassumption.
  - unfold valid_attributes, max_time_of, workers_of in *. rewrite (multi_cfg _ _ _ _ _ _ H). exact A.
Qed.

Lemma mrun_star o (s s' : qmachine) r : muses_ior o = false -> inv s -> valid_attributes s -> mrun o s s' r ->
  star (mtouches o) (mruns_solver o) s s'.
Proof.
  intros Ho I A H. destruct H as [o s s' r _ E|c s s' r _ H].
  - eapply run_star; [exact laws|exact Ho|exact I|exact E].
  - cbn. eapply multi_star; eassumption.
Qed.

Lemma created_attributes env containers items settings width (s : qmachine) :
  created env containers items settings width s -> valid_attributes s.
Proof.
  intros H. apply (C41_attributes_always_valid ar env containers items settings width []).
  exists s. split; [exact H|constructor].
Qed.

Lemma mleads_good (s s' : qmachine) l : mleads_to s l s' -> mwithout_ior l -> inv s -> valid_attributes s ->
  inv s' /\ valid_attributes s'.
Proof.
  intros H. induction H as [s|s o s1 r l s' E _ IH]; intros Hl I A; [auto|].
  assert (Ho : muses_ior o = false) by (apply Hl; left; reflexivity).
  apply IH; [intros x Hx; apply Hl; right; assumption| |].
  - eapply star_inv; [exact I|]. eapply mrun_star; eassumption.
  - eapply mrun_attributes; eassumption.
Qed.

Lemma mhistory_good env containers items settings width l (s : qmachine) :
  mhistory env containers items settings width l s -> mwithout_ior l -> inv s /\ valid_attributes s.
Proof.
  intros [s0 [H L]] Hl. eapply mleads_good; [exact L|exact Hl|eapply created_inv; exact H|eapply created_attributes; exact H].
Qed.

Lemma mhistory_attributes env containers items settings width l (s : qmachine) :
  mhistory env containers items settings width l s -> valid_attributes s.
Proof.
  intros [s0 [H L]]. apply created_attributes in H.
  induction L as [|s o s1 r l s' E L IH]; [assumption|]. apply IH. eapply mrun_attributes; eassumption.
Qed.

(** ** The settings the workers get *)
Section SameKey.
Context (d d' : vdict).
Lemma rotation_same b : vget d' (VStr "rotation") = vget d (VStr "rotation") -> rotation_is d b <-> rotation_is d' b.
Proof. unfold rotation_is, absent_or_none, absent, has. intros ->. tauto. Qed.
Lemma max_time_same z : vget d' (VStr "max_time_in_seconds") = vget d (VStr "max_time_in_seconds") -> max_time_is d z <-> max_time_is d' z.
Proof. unfold max_time_is, absent_or_none, absent, has. intros ->. tauto. Qed.
Lemma any_workers_same w : vget d' (VStr "workers_num") = vget d (VStr "workers_num") -> any_workers_is d w <-> any_workers_is d' w.
Proof. unfold any_workers_is, absent_or_none, absent, has. intros ->. tauto. Qed.
Lemma figure_same env : vget d' (VStr "figure") = vget d (VStr "figure") -> figure_by_code env d <-> figure_by_code env d'.
Proof. unfold figure_by_code, figure_rules, absent_or_none, absent, has. intros ->. tauto. Qed.
End SameKey.

(** Inserting the default file name changes nothing of this. *)
Lemma inserted_name d v' : default_name_inserted (VDict d) v' ->
  exists d', v' = VDict d' /\
    (forall b, rotation_is d b -> rotation_is d' b) /\ (forall z, max_time_is d z -> max_time_is d' z) /\
    (forall w, any_workers_is d w -> any_workers_is d' w) /\
    (forall env, figure_by_code env d -> figure_by_code env d').
Proof.
  intros [d0 [f [e [[= <-] [Hf [He [Hn ->]]]]]]]. eexists. split; [reflexivity|].
  split; [intros b; refine (proj1 (rotation_same d _ b _)); apply vget_vset_other; discriminate|].
  split; [intros z; refine (proj1 (max_time_same d _ z _)); apply vget_vset_other; discriminate|].
  split; [intros w; refine (proj1 (any_workers_same d _ w _)); apply vget_vset_other; discriminate|].
  intros env [G|[f0 [G1 G2]]]; [unfold absent, has in *; congruence|].
  assert (f0 = f) by (unfold has in *; congruence). subst f0.
  right. eexists. split; [apply vget_vset_same|]. destruct G2 as [G2|[G2 [G3 G4]]]; [subst f; discriminate He|].
  right. split; [exact G2|]. split.
  - right. eexists. split; [apply vget_vset_same|].
    destruct G3 as [G3|[e0 [G5 G6]]]; [unfold absent, has in *; congruence|].
    assert (e0 = e) by (unfold has in *; congruence). subst e0.
    assert (O : forall k, k <> "file_name" -> vget (vset e (VStr "file_name") (VStr "PlotlyGraph")) (VStr k) = vget e (VStr k)).
    { intros k Hk. apply vget_vset_other. congruence. }
    destruct G6 as [K1 [K2 K3]]. split; [|split].
    + unfold size_ok, absent_or_none, absent, has in *. rewrite !O by discriminate. exact K1.
    + unfold has. rewrite O by discriminate. exact K2.
    + right. exists "PlotlyGraph". split; [apply vget_vset_same|]. left. split; [cbn; lia|].
      intros c Hc. vm_compute in Hc. repeat (destruct Hc as [<-|Hc]; [vm_compute; tauto|]). destruct Hc.
  - unfold absent, has in *. rewrite vget_vset_other by discriminate. exact G4.
Qed.

(** Accepted settings are in force. *)
Lemma figure_done_in_force env v d (s : qmachine) : v = VDict d -> figure_done env v d (m_cfg s) -> figure_by_code env d ->
  in_force s /\ figure_possible env s.
Proof.
  intros -> [F1 [F2 [F3 [F4 _]]]] F5. destruct F1 as [F1|F1].
  - split; exists d; auto.
  - destruct (inserted_name _ _ F1) as [d' [E [G1 [G2 [G3 G4]]]]].
    split; exists d'; (split; [exact E|]); auto 10.
Qed.

Lemma created_in_force env containers items settings width (s : qmachine) :
  created env containers items settings width s -> in_force s /\ figure_possible env s.
Proof.
  intros H. destruct (created_object _ _ _ _ _ _ H) as [strip [height [n1 [n2 [dc [di [c [N [Hc _]]]]]]]]].
  assert (Ec : m_cfg s = c) by (destruct N as [_ [_ [_ [_ [_ [_ ->]]]]]]; reflexivity).
  destruct (new_settings_cases _ _ _ _ Hc) as [[_ [d [Ev [F1 F2]]]]|[m [X _]]]; [|discriminate].
  eapply figure_done_in_force; [exact Ev|rewrite Ec; exact F1|exact F2].
Qed.

Lemma validated_in_force env v (s s' : qmachine) o : validates env v s o -> run o s = (s', Ok tt) ->
  in_force s' /\ figure_possible env s'.
Proof.
  intros H E. destruct (validates_cases _ _ _ _ _ _ H E) as [_ [[_ [d [Ev [F1 F2]]]]|[m [X _]]]]; [|discriminate].
  eapply figure_done_in_force; eassumption.
Qed.

Lemma run_cfg o (s s' : qmachine) r : ~ sets_settings o -> run o s = (s', r) -> m_cfg s' = m_cfg s.
Proof.
  intros K E. assert (S : solves o \/ ~ solves o) by (destruct o; cbn; tauto). destruct S as [S|S].
  - assert (KV : keeps m_cfg (solver_view ar)) by (unfold solver_view; apply keeps_pure).
    assert (KP : forall y, keeps m_cfg (put_back ar y)) by (intros y; unfold put_back; apply keeps_modify; reflexivity).
    destruct o; cbn in S; try contradiction; cbn [run] in E.
    + revert E. apply keeps_bind; [exact KV|]. intros x. apply keeps_bind; [apply keeps_lift|]. exact KP.
    + revert E. apply keeps_bind; [exact KV|]. intros x. apply keeps_bind; [apply keeps_get|]. intros s0. apply keeps_bind; [apply keeps_lift|].
      intros y. apply KP.
    + revert E. apply keeps_bind; [apply keeps_get|]. intros s0. destruct (one_worker _); [|apply keeps_raise].
      unfold do_hypersearch. apply keeps_bind; [apply k_sort; reflexivity|]. intros _.
      apply keeps_bind; [apply k_orient; reflexivity|]. intros _. apply keeps_bind; [exact KV|]. intros x.
      apply keeps_bind; [apply keeps_get|]. intros s1. apply keeps_bind; [apply keeps_lift|]. intros h.
      apply keeps_bind; [apply KP|]. intros _. apply keeps_modify. reflexivity.
  - revert E. apply (k_run m_cfg); try reflexivity; try assumption; auto.
Qed.

Lemma mrun_cfg o (s s' : qmachine) r : ~ touches_settings o -> mrun o s s' r -> m_cfg s' = m_cfg s.
Proof.
  intros K E. destruct E as [o s s' r _ E|c s s' r _ E]; [|eapply multi_cfg; exact E].
  eapply run_cfg; [|exact E]. destruct o; cbn in *; tauto.
Qed.

Lemma same_cfg_in_force env (s s' : qmachine) : m_cfg s' = m_cfg s ->
  (in_force s -> in_force s') /\ (figure_possible env s -> figure_possible env s').
Proof. intros E. unfold in_force, figure_possible, settings_of, rotation_of, max_time_of, workers_of. rewrite E. auto. Qed.

Lemma mrun_in_force o (s s' : qmachine) r : in_force s -> undisturbed o r -> mrun o s s' r -> in_force s'.
Proof.
  intros H U E. assert (T : touches_settings o \/ ~ touches_settings o) by (destruct o as [[]|]; cbn; tauto).
  destruct T as [T|T].
  - destruct E as [o s s' r _ E|c s s' r _ E]; [|destruct T]. destruct o; cbn in T, U; try contradiction; subst r.
    + eapply validated_in_force; [apply by_assignment|exact E].
    + eapply validated_in_force; [apply by_method; reflexivity|exact E].
  - apply (proj1 (same_cfg_in_force no_libraries s s' (mrun_cfg _ _ _ _ T E))). exact H.
Qed.

Lemma agreed_in_force (s s' : qmachine) l : agreed s l s' -> in_force s -> in_force s'.
Proof. induction 1 as [s|s o s1 r l s' E U _ IH]; intros H; [exact H|]. apply IH. eapply mrun_in_force; eassumption. Qed.
Lemma agreed_leads (s s' : qmachine) l : agreed s l s' -> mleads_to s l s'.
Proof. induction 1; econstructor; eassumption. Qed.

Lemma worker_dict d : exists d', worker_settings (VDict d) = Ok (VDict d') /\ (if truthy (VDict d') then VDict d' else VDict []) = VDict d' /\
  (forall k, k <> "workers_num" -> vget d' (VStr k) = vget d (VStr k)) /\ any_workers_is d' (VInt 1).
Proof.
  eexists. split; [reflexivity|]. split; [destruct (if vmem d workers_key then _ else _); reflexivity|].
  unfold vmem. destruct (vget d workers_key) as [w|] eqn:E.
  - split; [intros k Hk; apply vget_vset_other; congruence|]. right. split; [apply vget_vset_same|].
    left. exists 1. split; [left; reflexivity|lia].
  - split; [reflexivity|]. left. split; [left; exact E|reflexivity].
Qed.

Lemma worker_values env (s : qmachine) settings c : in_force s -> worker_settings (c_settings (m_cfg s)) = Ok settings ->
  new_settings env settings = (c, Ok tt) -> c_rotation c = rotation_of s /\ c_limit c = max_time_of s.
Proof.
  intros [d [Ed [F1 [F2 F3]]]] Hw Hn. unfold settings_of in Ed. rewrite Ed in Hw.
  destruct (worker_dict d) as [d' [E1 [E2 [E3 E4]]]]. rewrite E1 in Hw. injection Hw as <-.
  destruct (new_settings_cases _ _ _ _ Hn) as [[_ [d2 [Ev [[_ [G1 [G2 _]]] _]]]]|[m [X _]]]; [|discriminate].
  rewrite E2 in Ev. injection Ev as <-.
  apply (rotation_same d d' _ (E3 "rotation" ltac:(discriminate))) in G1. apply (max_time_same d d' _ (E3 "max_time_in_seconds" ltac:(discriminate))) in G2.
  destruct (C40_values_unique d (c_rotation c) (rotation_of s) (c_limit c) (max_time_of s) (workers_of s) (workers_of s)) as [U1 [U2 _]].
  split; [apply U1; assumption|apply U2; assumption].
Qed.

(** ... and they are accepted. *)
Lemma workers_made (c : call ar) (s : qmachine) x : inv s -> view s = Some x -> in_force s -> figure_possible (ca_env c) s ->
  exists y yi, child_machine (ca_env c) s = Ok y /\ view y = Some yi.
Proof.
  intros I V [d [Ed [F1 [F2 F3]]]] [d0 [Ed0 F4]]. assert (d0 = d) by congruence. subst d0. unfold settings_of in Ed.
  destruct (worker_dict d) as [d' [E1 [E2 [E3 E4]]]].
  destruct (new_settings (ca_env c) (VDict d')) as [cf r] eqn:En.
  assert (Hw : worker_settings (c_settings (m_cfg s)) = Ok (VDict d')) by (rewrite Ed; exact E1).
  pose proof (child_machine_cases (ca_env c) s x I V (VDict d') Hw cf r En) as K.
  destruct (new_settings_cases _ _ _ _ En) as [[-> _]|[m [-> R]]].
  - destruct K as [y [yi [K1 [K2 _]]]]. eauto.
  - exfalso. rewrite E2 in R. eapply (reason_excludes (ca_env c) (VDict d') d'); [reflexivity|exact R|..].
    + apply (rotation_same d d'); [apply E3; discriminate|exact F1].
    + apply (max_time_same d d'); [apply E3; discriminate|exact F2].
    + exact E4.
    + apply (figure_same d d'); [apply E3; discriminate|exact F4].
Qed.

(** ** A call is a run of the system of processes *)
Lemma presort_refines (c : call ar) (s s1 : qmachine) x : inv s -> view s = Some x -> presort c s = (s1, Ok tt) ->
  exists x1, sort_items ar (ca_sorting c) x = Ok x1 /\ view s1 = Some (orient_items ar (ca_orientation c) x1).
Proof.
  intros I V H. unfold presort in H. apply sbind_inv in H. destruct H as [[s2 [[] [E1 E2]]]|[e [_ X]]]; [|discriminate].
  pose proof (sort_refines s x (ca_sorting c) I V) as R. destruct (sort_items ar (ca_sorting c) x) as [x1|e].
  - destruct R as [s2' [R1 R2]]. cbn [run] in R1. rewrite E1 in R1. injection R1 as <-. exists x1. split; [reflexivity|].
    assert (I2 : inv s2). { eapply star_inv; [exact I|]. eapply (safe_do_sort (fun _ => False) False); [exact I|exact E1]. }
    destruct (orient_refines s2 x1 (ca_orientation c) I2 R2) as [s3 [R3 R4]]. cbn [run] in R3. rewrite E2 in R3. injection R3 as <-. exact R4.
  - cbn [run] in R. rewrite E1 in R. discriminate.
Qed.

Lemma presort_error (c : call ar) (s s1 : qmachine) e : inv s -> presort c s = (s1, Err e) ->
  s1 = s /\ e = NotImplementedError /\ exists by_ rev, ca_sorting c = Some (by_, rev) /\ key_lt ar by_ = None.
Proof.
  intros I H. destruct (inv_view s I) as [cs [is_ [_ [_ [_ [_ [_ [_ V]]]]]]]]. match type of V with _ = Some ?X => set (x := X) in * end.
  unfold presort in H. pose proof (sort_refines s x (ca_sorting c) I V) as R. cbn [run] in R. apply sbind_inv in H.
  destruct (sort_items ar (ca_sorting c) x) as [x1|e'] eqn:Es.
  - destruct R as [s2 [R1 R2]]. destruct H as [[s2' [[] [E1 E2]]]|[e' [E1 _]]]; [|rewrite E1 in R1; discriminate].
    rewrite E1 in R1. injection R1 as ->.
    assert (I2 : inv s2). { eapply star_inv; [exact I|]. eapply (safe_do_sort (fun _ => False) False); [exact I|exact E1]. }
    destruct (orient_refines s2 x1 (ca_orientation c) I2 R2) as [s3 [R3 R4]]. cbn [run] in R3. rewrite E2 in R3. discriminate.
  - destruct H as [[s2' [[] [E1 E2]]]|[e2 [E1 E2]]]; rewrite E1 in R; [discriminate|].
    injection R as -> ->. injection E2 as ->. split; [reflexivity|]. unfold sort_items in Es.
    destruct (ca_sorting c) as [[by_ rev]|]; [|discriminate]. destruct (key_lt ar by_) eqn:Ek; [discriminate|].
    injection Es as <-. split; [reflexivity|]. eauto.
Qed.

Lemma with_rotation_same (x : inst ar) : with_rotation x (pb_rotation (in_pb x)) = x.
Proof. destruct x as [[] ? ? ? ? ?]. reflexivity. Qed.

Lemma call_runs (c : call ar) (s s1 : qmachine) u x : inv s -> valid_attributes s -> in_force s -> view s = Some x ->
  presort c s = (s1, Ok tt) -> prepare c s1 = Ok u ->
  valid_inst ar x /\ ca_strategies c <> [] /\ su_limit u = max_time_of s /\ view s1 = Some (su_parent u) /\
  exists q, worker_number (workers_of s) q /\ runs x (ca_strategies c) q u.
Proof.
  intros I A Hf V E Ep. pose proof (presort_inv c s s1 (Ok tt) (fun _ => False) False I E) as S.
  pose proof (star_inv _ _ _ _ I S) as I1. pose proof (presort_cfg _ _ _ _ E) as Ec.
  assert (A1 : valid_attributes s1) by (unfold valid_attributes, max_time_of, workers_of in *; rewrite Ec; exact A).
  assert (Hf1 : in_force s1) by (apply (same_cfg_in_force no_libraries s s1 Ec); exact Hf).
  destruct (prepare_ok _ _ _ I1 Ep) as [x2 [y [settings C]]].
  destruct (called_workers _ _ _ _ _ _ C A1) as [Hne [q [Hq [Hch _]]]].
  destruct (worker_values (ca_env c) s1 settings (m_cfg y) Hf1 (ca_ws _ _ _ _ _ _ C) (ca_new _ _ _ _ _ _ C)) as [Wr Wl].
  destruct (presort_refines c s s1 x I V E) as [x1 [Hs V1]].
  pose proof (ca_view _ _ _ _ _ _ C) as V2. rewrite V1 in V2. injection V2 as V2.
  split; [eapply inv_valid; [exact I|exact V]|]. split; [exact Hne|].
  assert (Wl' : su_limit u = max_time_of s).
  { rewrite (ca_limit _ _ _ _ _ _ C), Wl. unfold max_time_of. rewrite Ec. reflexivity. }
  split; [exact Wl'|]. split; [rewrite V1, (ca_parent _ _ _ _ _ _ C), V2; reflexivity|].
  exists q. split; [unfold workers_of in *; rewrite <- Ec; exact Hq|].
  assert (Hrot : pb_rotation (in_pb x2) = rotation_of s1).
  { destruct (view_all s1 x2 (ca_view _ _ _ _ _ _ C)) as [_ [_ ->]]. reflexivity. }
  pose proof (ca_made _ _ _ _ _ _ C) as Hm. rewrite Wr, <- Hrot, with_rotation_same in Hm.
  exists (ca_orientation c), (ca_sorting c), (ca_clocks c), (ca_start c), (su_limit u), (ca_throttle c), (ca_forced c), (ca_size c), (ca_capacity c).
  unfold multi_setup. rewrite Hs. cbn [bind]. rewrite Hch. cbn [bind]. rewrite V2, Hm. cbn [bind].
  f_equal. symmetry. exact (ca_rest _ _ _ _ _ _ C).
Qed.

(** ** What a call leaves unchanged *)
Lemma presort_prepared (c : call ar) (s s1 : qmachine) x : inv s -> view s = Some x -> presort c s = (s1, Ok tt) ->
  exists x2, view s1 = Some x2 /\ prepared ar (ca_orientation c) (ca_sorting c) x x2.
Proof.
  intros I V E. destruct (presort_refines c s s1 x I V E) as [x1 [H1 H2]]. eexists. split; [exact H2|]. exists x1. auto.
Qed.

Lemma dget_permuted {A} (l l' : odict A) i : NoDup (dkeys l) -> Permutation l l' -> dget l' i = dget l i.
Proof.
  intros N P. assert (N' : NoDup (dkeys l')) by (eapply Permutation_NoDup; [apply Permutation_map; exact P|exact N]).
  destruct (dget l i) as [a|] eqn:E.
  - apply In_dget; [exact N'|]. eapply Permutation_in; [exact P|apply dget_In; exact E].
  - destruct (dget l' i) as [b|] eqn:E'; [|reflexivity]. apply dget_In in E'. apply (Permutation_in _ (Permutation_sym P)) in E'.
    rewrite (In_dget _ _ _ N E') in E. discriminate.
Qed.

Lemma prepared_rearranged o1 sb (x x2 : inst ar) : valid_inst ar x -> prepared ar o1 sb x x2 ->
  rearranged (pb_items (in_pb x)) (pb_items (in_pb x2)).
Proof.
  intros Hv Hp. pose proof (prepared_ids _ _ _ _ Hp) as Hids. destruct Hp as [x1 [Hso ->]].
  destruct (C43_orient_items ar x1 o1) as [O1 [O2 _]].
  set (y := orient_items ar o1 x1) in *.
  assert (S1 : forall i, dget (pb_items (in_pb x1)) i = dget (pb_items (in_pb x)) i).
  { destruct sb as [[by_ rv]|]; [|cbn in Hso; injection Hso as <-; auto].
    assert (Vi : valid_items (pb_items (in_pb x))) by apply Hv.
    unfold sort_items in Hso. destruct (key_lt ar by_); [|discriminate]. injection Hso as <-. cbn [in_pb set_items pb_items].
    intros i. apply dget_permuted; [apply Vi|symmetry]. unfold py_sort_rev. destruct rv; apply py_sort_perm. }
  split; [symmetry; exact Hids|]. intros i d d' H1 H2. rewrite <- S1 in H1. destruct (O2 i d H1) as [d2 [E1 [E2 _]]].
  assert (d2 = d') by congruence. subst. exact E2.
Qed.

Lemma presort_kept (c : call ar) (s s1 : qmachine) : inv s -> presort c s = (s1, Ok tt) ->
  same_configuration s s1 /\
  exists its its', items_of s = Some its /\ items_of s1 = Some its' /\ rearranged its its'.
Proof.
  intros I E. destruct (inv_view s I) as [cs [is_ [_ [_ [_ [_ [_ [_ V]]]]]]]]. match type of V with _ = Some ?X => set (x := X) in * end.
  destruct (presort_prepared c s s1 x I V E) as [x2 [V2 Hp]].
  destruct (prepared_kept _ _ _ _ _ Hp) as [K1 [K2 [K3 [K4 [K5 [K6 K7]]]]]].
  destruct (view_all s x V) as [A1 [A2 A3]]. destruct (view_all s1 x2 V2) as [B1 [B2 B3]].
  split.
  - split; [unfold containers_of in *; congruence|].
    rewrite A3, B3 in *. cbn in K1, K2, K3, K4, K5, K6, K7.
    assert (Hh : m_height s1 = m_height s).
    { revert E. apply (keeps_bind m_height); [apply k_sort; reflexivity|]. intros _. apply k_orient; reflexivity. }
    repeat (split; [congruence|]). eapply presort_cfg; exact E.
  - exists (pb_items (in_pb x)), (pb_items (in_pb x2)). split; [exact A2|]. split; [exact B2|].
    eapply prepared_rearranged; [exact (inv_valid s x I V)|exact Hp].
Qed.

Lemma rearranged_refl its : rearranged its its.
Proof. split; [reflexivity|]. intros i d d' H1 H2. left. congruence. Qed.

Lemma multi_kept mr md (c : call ar) (s s' : qmachine) r : inv s -> multi mr md c s s' r ->
  same_configuration s s' /\
  exists its its', items_of s = Some its /\ items_of s' = Some its' /\ rearranged its its'.
Proof.
  intros I H. assert (G : forall s1, presort c s = (s1, Ok tt) -> same_configuration s s1 /\
    exists its its', items_of s = Some its /\ items_of s1 = Some its' /\ rearranged its its') by (intros; apply (presort_kept c); assumption).
  destruct H as [s1 e E|s1 e E Ep|s1 u t e E Ep R Ht|s1 u t sol objs g E Ep R Ht]; try (exact (G _ E)).
  destruct (presort_error _ _ _ _ I E) as [-> _]. split; [repeat split|].
  destruct (inv_view s I) as [cs [is_ [V1 [V2 _]]]]. exists is_, is_. split; [exact V2|]. split; [exact V2|apply rearranged_refl].
Qed.

(** ** Entries are turned only where rotation allows *)
Lemma placements_in sol sol' : NoDup (dkeys sol') -> same_placements sol sol' ->
  forall cid csol' i e, In (cid, csol') sol' -> In (i, e) csol' -> exists csol, In (cid, csol) sol /\ In (i, e) csol.
Proof.
  intros N2 [S1 [S2 S3]] cid csol' i e H1 H2. pose proof (In_dget _ _ _ N2 H1) as D1.
  pose proof (In_dget _ _ _ (S3 _ _ H1) H2) as D2.
  assert (Hin : In cid (dkeys sol)) by (rewrite S1; apply dget_Some_In; eauto).
  apply dget_Some_In in Hin. destruct Hin as [csol Hc]. exists csol. split; [apply dget_In; assumption|].
  apply dget_In. rewrite (S2 cid csol csol' Hc D1 i). assumption.
Qed.

Lemma solve_keys pb sq sol objs : valid_problem pb -> known_sequence pb sq -> solve ar pb sq = Ok (sol, objs) ->
  dkeys sol = dkeys (pb_containers pb).
Proof. intros Hv Hk H. apply (solve_packing ar pb sq sol objs Hv Hk H). Qed.

Lemma made_turned pb h seq sol objs sol' : valid_problem (pb_with_height pb h) -> Permutation seq (dkeys (pb_items pb)) ->
  solve ar (pb_with_height pb h) (Some seq) = Ok (sol, objs) -> same_placements sol sol' ->
  turned_as_allowed (pb_rotation pb) (pb_items pb) sol'.
Proof.
  intros Hv Hp H S cid csol' i e H1 H2.
  assert (Hk : known_sequence (pb_with_height pb h) (Some seq)).
  { intros k Hin. cbn [pb_items pb_with_height]. eapply Permutation_in; [exact Hp|exact Hin]. }
  assert (N : NoDup (dkeys sol')).
  { destruct S as [<- _]. rewrite (solve_keys _ _ _ _ Hv Hk H). apply Hv. }
  destruct (placements_in _ _ N S _ _ _ _ H1 H2) as [csol [G1 G2]].
  exact (solve_stores ar _ _ Hv Hk _ _ H cid csol i e G1 G2).
Qed.

Lemma known_of_solve pb sq sol objs : solve ar pb sq = Ok (sol, objs) -> known_sequence pb sq.
Proof.
  intros H. destruct sq as [ids|]; [|exact Logic.I]. cbn.
  destruct (forallb (fun i => existsb (String.eqb i) (dkeys (pb_items pb))) ids) eqn:F.
  - rewrite forallb_forall in F. intros i Hi. specialize (F i Hi). apply existsb_exists in F.
    destruct F as [j [Hj Ej]]. apply String.eqb_eq in Ej. subst j. assumption.
  - rewrite solve_unknown in H; [discriminate|]. intros K. rewrite (proj2 (forallb_forall _ _)) in F; [discriminate|].
    intros i Hi. apply existsb_exists. exists i. split; [apply K, Hi|apply String.eqb_refl].
Qed.

Lemma valid_with_height (x : inst ar) g h : valid_inst ar x ->
  (pb_strip (in_pb x) = true -> 0 < h) -> valid_problem (pb_with_height (pb_with_strategy (in_pb x) g) h).
Proof. intros [[V1 [V2 [V3 [V4 _]]]] _] Hh. repeat (split; [assumption|]). exact Hh. Qed.

Lemma search_turned o (s s' : qmachine) : inv s -> valid_attributes s -> in_force s -> searches o -> mrun o s s' (Ok tt) ->
  exists its, items_of s' = Some its /\ turned_as_allowed (rotation_of s') its (m_sol s').
Proof.
  intros I A Hf Ho E. remember (Ok tt) as r eqn:Er. destruct (inv_view s I) as [cs [is_ [_ [_ [_ [_ [_ [_ V]]]]]]]].
  match type of V with _ = Some ?X => set (x := X) in * end. pose proof (inv_valid s x I V) as Hv.
  (* the conclusion, from the view of the final state *)
  assert (Fin : forall y, view s' = Some y -> turned_as_allowed (pb_rotation (in_pb y)) (pb_items (in_pb y)) (in_sol y) ->
    exists its, items_of s' = Some its /\ turned_as_allowed (rotation_of s') its (m_sol s')).
  { intros y Vy Ty. destruct (view_all s' y Vy) as [_ [B2 B3]]. exists (pb_items (in_pb y)). split; [exact B2|].
    rewrite B3 in Ty. exact Ty. }
  destruct E as [o s s' r Hh E|c s s' r Hw E]; subst r.
  - destruct o; cbn in Ho; try contradiction.
    + pose proof (solve_refines s x sequence V) as H. unfold inst_solve in H.
      destruct (solve ar (in_pb x) sequence) as [[sol objs]|e] eqn:Es; [|rewrite E in H; discriminate].
      destruct H as [H1 H2]. rewrite E in H1. injection H1 as ->. apply (Fin _ H2). cbn [bind in_pb set_solution in_sol].
      intros cid csol i e G1 G2. exact (solve_stores ar _ _ (proj1 Hv) (known_of_solve _ _ _ _ Es) _ _ Es cid csol i e G1 G2).
    + destruct (local_search_refines laws s x ck throttle I V) as [y [clk [log [E1 [E2 E3]]]]]. rewrite E in E2. injection E2 as ->.
      apply (Fin _ E3).
      destruct (C15_configuration_kept ar laws x Hv _ _ _ _ _ _ _ _ E1) as [K1 [K2 [K3 [K4 [K5 [K6 [K7 K8]]]]]]].
      destruct (C15_genuine_construction ar laws x Hv _ _ _ _ _ _ _ _ E1) as [sq [h [sol [P1 [P2 [P3 P4]]]]]].
      rewrite K1, K3. eapply (made_turned (in_pb x) h); [|exact P1|exact P2|exact P3].
      apply (valid_with_height x (pb_strategy (in_pb x)) h Hv). intros Es. rewrite Es in P4.
      assert (0 < pb_height (in_pb y)); [|lia].
      pose proof (C22_strip_height ar laws x Hv Es _ _ _ _ _ _ _ _ E1). lia.
    + pose proof (hypersearch_refines laws s x ck throttle orientation sorting_by strategies I V (Hh eq_refl)) as H.
      destruct (hypersearch ar ck (c_limit (m_cfg s)) throttle orientation sorting_by strategies x 0) as [rr|e] eqn:E1;
        [|rewrite E in H; discriminate].
      destruct H as [s2 [H1 [H2 _]]]. rewrite E in H1. injection H1 as <-. apply (Fin _ H2).
      destruct (C24_genuine ar laws x Hv _ _ _ _ _ _ _ _ E1) as [x2 [g [h [sq [sol [P0 [P1 [P2 [P3 [P4 _]]]]]]]]]].
      destruct (C50_configuration_partial ar laws x Hv _ _ _ _ _ _ _ _ E1) as [x2' [P0' [Ki K]]].
      destruct P0 as [x1 [Hs0 P0]], P0' as [x1' [Hs0' P0']]. rewrite Hs0 in Hs0'. injection Hs0' as <-. rewrite <- P0 in P0'. subst x2'.
      assert (Hp : prepared ar orientation sorting_by x x2) by (exists x1; auto).
      destruct (prepared_kept _ _ _ _ _ Hp) as [_ [KR _]].
      assert (Hv2 : valid_inst ar x2) by (rewrite P0; apply orient_items_valid; eapply sort_items_valid; eassumption).
      destruct K as [_ [K _]]. rewrite Ki, K, <- KR.
      eapply (made_turned (pb_with_strategy (in_pb x2) g) h); [|exact P1|exact P3|exact P4].
      apply valid_with_height; [exact Hv2|]. intros Es. rewrite Es in P2. lia.
  - pose proof (multi_star _ _ _ _ _ _ I A E) as S.
    inversion E as [| | |s1 u t sol objs g Ep Eu R Ht]; subst.
    destruct (call_runs c s s1 u x I A Hf V Ep Eu) as [_ [Hne [_ [V1 [q [Hq Hr]]]]]].
    destruct (C27_genuine ar (conj laws vals) x Hv _ _ u Hne (proj2 Hq) Hr _ _ t sol objs g R Ht) as [h [sq [sol' [G1 [G2 [G3 G4]]]]]].
    destruct (C27_workers_problem ar (conj laws vals) x Hv _ _ u Hne (proj2 Hq) Hr) as [W1 [W2 [W3 [W4 _]]]].
    destruct (runs_facts x Hv _ _ (proj2 Hq) u Hr) as [[o1 [sb Hprep]] [Hvp [F _]]].
    assert (I1 : inv s1) by (eapply star_inv; [exact I|eapply (presort_inv c s s1 (Ok tt) (fun _ => False) False); eassumption]).
    destruct (view_all s1 _ V1) as [_ [B2 B3]]. exists (pb_items (in_pb (su_parent u))). split; [exact B2|].
    cbn [assign_result m_sol set_best set_sol]. change (rotation_of (assign_result s1 sol objs g)) with (rotation_of s1).
    replace (rotation_of s1) with (pb_rotation (in_pb (su_child u))).
    2: { rewrite W2. destruct (prepared_kept _ _ _ _ _ Hprep) as [_ [KR _]]. rewrite <- KR, B3. reflexivity. }
    rewrite <- W1. eapply (made_turned (pb_with_strategy (in_pb (su_child u)) (match g with None => default_strategy | Some g => g end)) h);
      [| |exact G3|exact G4].
    + destruct (ch_valid _ _ F) as [V1' [V2' [V3' [V4' V5']]]]. repeat (split; [assumption|]).
      cbn [pb_strip pb_height pb_with_height pb_with_strategy]. rewrite W4. intros Es. rewrite Es in G2. lia.
    + cbn [pb_items pb_with_strategy]. rewrite W1, G1. symmetry. eapply prepared_ids. exact Hprep.
Qed.


End Arithmetic.
