(** * C75: the value a hypersearch reaches does not depend on the number of processes. *)
From Coq Require Import ZArith String List Bool QArith Lia Permutation PrimFloat.
From Verif Require Import Py ProofsPy Arith Construct Spec ProofsSolve ProofsSolution ProofsValues LocalSearch SpecSearch ItemsManip HyperSearch
  ProofsHyper MultiProcess ProofsLoose ProofsMulti PropertiesSearch PropertiesHyper PropertiesMulti
  Values ProofsVal Settings Instance SpecInstance ProofsMachine ProofsOps ProofsRun ProofsAccept ProofsSolver ProofsHistory ProofsRefine
  PropertiesStructures PropertiesHistory PropertiesSettings PropertiesInstance PropertiesCount MultiHistory SpecMultiHistory ProofsMultiHistory
  PropertiesMultiHistory FloatArith ProofsFloatOrder PropertiesFloat PropertiesFloatMulti ProofsAgain PropertiesAgain ProofsProcesses.
Import ListNotations.
Open Scope string_scope.
Open Scope list_scope.
Open Scope Z_scope.

(** A hypersearch of [s] over [strategies] that time lets go through all of them: with one
    process, on an instance with the strategy it was created with (hypersearch starts from a
    construction with the strategy of the instance), or with several, under any schedule, none of
    which fails. Processes work with the settings shown (in force, see C61). *)
Inductive searched {ar} (throttle : bool) (orientation : option string) (sorting : option (string * bool))
          (strategies : list (list pclass)) (s s' : machine ar) : Prop :=
| by_one ck : one_worker (workers_of s) = true -> m_strategy s = default_strategy ->
    never_late ck (ck 0%nat) (max_time_of s) ->
    run (OpHypersearch ck throttle orientation sorting strategies) s = (s', Ok tt) ->
    searched throttle orientation sorting strategies s s'
| by_several c : one_worker (workers_of s) = false -> in_force s ->
    ca_throttle c = throttle -> ca_orientation c = orientation -> ca_sorting c = sorting -> ca_strategies c = strategies ->
    (forall i, ca_forced c i = false) -> (forall i, never_late (ca_clocks c i) (ca_start c) (max_time_of s)) ->
    multi nobody nobody c s s' (Ok tt) ->
    searched throttle orientation sorting strategies s s'.

(** What [calculate_obj_value()] returns. *)
Definition value {ar} (s : machine ar) (v : num ar) : Prop := obj_value ar (m_cnum s) (dvals (m_objs s)) = Ok v.

Section Machines.
Context {ar : arith} (o : orderly ar).

Lemma searched_best env containers items settings width l (s : machine ar) x throttle orientation sorting strategies s' :
  careful_history env containers items settings width l s -> m_strip s = false -> view s = Some x ->
  searched throttle orientation sorting strategies s s' ->
  exists x2, prepared ar orientation sorting x x2 /\ valid_inst ar x2 /\
    (never_infinite x2 throttle -> exists v, value s' v /\ best_of x2 throttle strategies v).
Proof.
  intros H Es V Hs. destruct (careful_good o _ _ _ _ _ _ _ H) as [I [A R]]. pose proof o as [laws vals].
  pose proof (inv_valid s x I V) as Hv. destruct (view_all s x V) as [A1 [A2 A3]].
  assert (Esx : pb_strip (in_pb x) = false) by (rewrite A3; exact Es).
  assert (Hcx : counted ar x). { destruct R as [cs [R1 R2]]. unfold counted. rewrite A1 in R1. injection R1 as R1. rewrite A3 at 1. cbn [in_cnum]. congruence. }
  destruct Hs as [ck Hw Hg Hl E|c Hw Hf E1 E2 E3 E4 Hn Hl M].
  - pose proof (hypersearch_refines laws s x ck throttle orientation sorting strategies I V Hw) as F. rewrite E in F.
    destruct (hypersearch ar ck (c_limit (m_cfg s)) throttle orientation sorting strategies x 0) as [r|e] eqn:Er; [|discriminate F].
    destruct F as [s2 [F1 [F2 _]]]. injection F1 as <-.
    destruct (one_best o x ck (c_limit (m_cfg s)) throttle orientation sorting strategies 0 r Hv Esx) as [x2 [P B]];
      [rewrite A3; exact Hg|exact Hl|exact Er|]. exists x2. split; [exact P|].
    split. { destruct (hypersearch_run ar laws x Hv _ _ _ _ _ _ _ _ Er) as [x2' [Hp' [Hv2 _]]].
      destruct P as [a [B1 ->]], Hp' as [b [B2 ->]]. rewrite B1 in B2. injection B2 as <-. exact Hv2. }
    intros N. destruct (B N) as [v [B1 B2]]. exists v. split; [|exact B2].
    destruct (view_all s' _ F2) as [_ [_ C3]]. unfold value. unfold calculate_obj_value in B1. rewrite C3 in B1. exact B1.
  - inversion M as [| | |s1 u t sol objs g Ep Eu Rt Ht Hs' Hr0]; subst.
    destruct (call_runs c s s1 u x I A Hf V Ep Eu) as [_ [Hne [Hlim [V1 [q [Hq Hr]]]]]].
    destruct (presort_prepared c s s1 x I V Ep) as [x2 [V1' P]]. rewrite V1 in V1'. injection V1' as <-.
    pose proof (star_inv _ _ _ _ I (presort_inv c s s1 (Ok tt) (fun _ => False) False I Ep)) as I1.
    destruct (prepare_ok _ _ _ I1 Eu) as [x2 [y [st C]]]. pose proof (ca_rest _ _ _ _ _ _ C) as Eu'.
    assert (U : su_clock u = ca_clocks c /\ su_start u = ca_start c /\ su_throttle u = ca_throttle c /\ su_forced u = ca_forced c)
      by (rewrite Eu'; auto). destruct U as [U1 [U2 [U3 U4]]].
    destruct (runs_facts x Hv _ _ (proj2 Hq) u Hr) as [_ [Hvp _]].
    exists (su_parent u). split; [exact P|]. split; [exact Hvp|]. intros N. rewrite <- U3 in N |- *.
    destruct (several_best o x (ca_strategies c) q u Hv Hcx Esx Hne (proj2 Hq) Hr) with (t := t) (sol := sol) (objs := objs) (g := g)
      as [v [B1 B2]]; [intros i; rewrite U4; apply Hn|intros i n; rewrite U1, U2, Hlim; apply Hl|exact N|exact Rt|exact Ht|].
    exists v. split; [|exact B2].
    assert (V' : view (assign_result s1 sol objs g) = Some (problem_now u t)) by (unfold problem_now; rewrite Ht; apply view_assign; exact V1).
    destruct (view_all _ _ V') as [_ [_ C3]]. unfold value. unfold calculate_obj_value in B1. rewrite C3 in B1. exact B1.
Qed.

Lemma like_any (x y : inst ar) : like_pb (pb_with_strategy (in_pb x) default_strategy) (pb_with_strategy (in_pb y) default_strategy) ->
  (pb_strip (in_pb x) = true -> in_min x = in_min y) -> in_cnum x = in_cnum y -> forall g, like (set_strategy x g) (set_strategy y g).
Proof.
  intros [H1 [H2 [H3 [_ [H5 H6]]]]] H7 H8 g. split; [|split; [exact H7|exact H8]]. cbn in *.
  split; [exact H1|]. split; [exact H2|]. split; [exact H3|]. split; [reflexivity|]. split; [exact H5|exact H6].
Qed.

Lemma shown_sym (s1 s2 : machine ar) : same_problem_shown s1 s2 -> same_problem_shown s2 s1.
Proof.
  intros [A [B [C [D E]]]]. repeat (split; [congruence|]). intros H. rewrite <- D in H. destruct (E H). split; congruence.
Qed.

Lemma searched_same env1 c1 i1 st1 w1 l1 (s1 : machine ar) env2 c2 i2 st2 w2 l2 (s2 : machine ar)
  throttle orientation sorting g1 g2 s1' s2' :
  careful_history env1 c1 i1 st1 w1 l1 s1 -> careful_history env2 c2 i2 st2 w2 l2 s2 ->
  same_problem_shown s1 s2 -> m_strip s1 = false -> (forall g, In g g1 <-> In g g2) ->
  searched throttle orientation sorting g1 s1 s1' -> searched throttle orientation sorting g2 s2 s2' ->
  (forall x x2, view s1 = Some x -> prepared ar orientation sorting x x2 -> valid_inst ar x2 -> never_infinite x2 throttle) ->
  (forall x x2, view s2 = Some x -> prepared ar orientation sorting x x2 -> valid_inst ar x2 -> never_infinite x2 throttle) ->
  exists v1 v2, value s1' v1 /\ value s2' v2 /\ neqb ar v1 v2 = true.
Proof.
  intros G1 G2 P Es Hg S1 S2 N1 N2.
  destruct (careful_good o _ _ _ _ _ _ _ G1) as [I1 [_ R1]]. destruct (careful_good o _ _ _ _ _ _ _ G2) as [I2 [_ R2]].
  destruct (inv_view s1 I1) as [cs1 [is1 [_ [_ [_ [_ [_ [_ V1]]]]]]]]. destruct (inv_view s2 I2) as [cs2 [is2 [_ [_ [_ [_ [_ [_ V2]]]]]]]].
  match type of V1 with _ = Some ?X => set (x := X) in * end. match type of V2 with _ = Some ?X => set (y := X) in * end.
  assert (Es2 : m_strip s2 = false) by (destruct P as [_ [_ [_ [E _]]]]; congruence).
  destruct (shown_like s1 s2 x y V1 V2 R1 R2 P) as [L1 [L2 L3]].
  destruct (shown_like s2 s1 y x V2 V1 R2 R1 (shown_sym _ _ P)) as [L1' [L2' L3']].
  destruct (searched_best _ _ _ _ _ _ s1 x _ _ _ _ _ G1 Es V1 S1) as [x2 [P1 [Hv1 B1]]].
  destruct (searched_best _ _ _ _ _ _ s2 y _ _ _ _ _ G2 Es2 V2 S2) as [y2 [P2 [Hv2 B2]]].
  destruct (B1 (N1 x x2 V1 P1 Hv1)) as [v1 [E1 F1]]. destruct (B2 (N2 y y2 V2 P2 Hv2)) as [v2 [E2 F2]].
  exists v1, v2. split; [exact E1|]. split; [exact E2|]. destruct o as [laws vals]. apply (vl_eq ar vals).
  eapply best_of_unique; [|exact F2].
  eapply best_of_like; [exact o|exact Hv1|exact Hv2| | |exact Hg|exact F1].
  - eapply prepared_like; [|exact P1|exact P2]. apply like_any; assumption.
  - eapply prepared_like; [|exact P2|exact P1]. apply like_any; assumption.
Qed.
End Machines.

(** ** C75 *)
Theorem C75_value_independent_partial :
  forall env1 c1 i1 st1 w1 l1 (s1 : machine qarith), careful_history env1 c1 i1 st1 w1 l1 s1 ->
  forall env2 c2 i2 st2 w2 l2 (s2 : machine qarith), careful_history env2 c2 i2 st2 w2 l2 s2 ->
  same_problem_shown s1 s2 -> m_strip s1 = false ->
  forall throttle orientation sorting strategies1 strategies2 s1' s2', (forall g, In g strategies1 <-> In g strategies2) ->
  searched throttle orientation sorting strategies1 s1 s1' -> searched throttle orientation sorting strategies2 s2 s2' ->
  exists v1 v2, value s1' v1 /\ value s2' v2 /\ (v1 == v2)%Q.
Proof.
  intros env1 c1 i1 st1 w1 l1 s1 G1 env2 c2 i2 st2 w2 l2 s2 G2 P Es throttle orientation sorting g1 g2 s1' s2' Hg S1 S2.
  destruct (searched_same qarith_orderly _ _ _ _ _ _ s1 _ _ _ _ _ _ s2 _ _ _ _ _ _ _ G1 G2 P Es Hg S1 S2) as [v1 [v2 [E1 [E2 E]]]];
    [intros ? ? ? ? ? ? ? ?; reflexivity|intros ? ? ? ? ? ? ? ?; reflexivity|].
  exists v1, v2. split; [exact E1|]. split; [exact E2|]. apply Qeq_bool_iff. exact E.
Qed.
Print Assumptions C75_value_independent_partial.

(** The number of containers is below 2^50 and the items' total area at most 2^1023: then no sum
    of utilizations is infinite. *)
Definition moderate_problem {ar} (s : machine ar) : Prop :=
  forall cs its, containers_of s = Some cs -> items_of s = Some its -> zlen cs < 2 ^ 50 /\ items_area its <= 2 ^ 1023.

Theorem C75_value_independent_doubles_partial :
  forall env1 c1 i1 st1 w1 l1 (s1 : machine farith), careful_history env1 c1 i1 st1 w1 l1 s1 ->
  forall env2 c2 i2 st2 w2 l2 (s2 : machine farith), careful_history env2 c2 i2 st2 w2 l2 s2 ->
  same_problem_shown s1 s2 -> m_strip s1 = false -> moderate_problem s1 ->
  forall throttle orientation sorting strategies1 strategies2 s1' s2', (forall g, In g strategies1 <-> In g strategies2) ->
  searched throttle orientation sorting strategies1 s1 s1' -> searched throttle orientation sorting strategies2 s2 s2' ->
  exists v1 v2, value s1' v1 /\ value s2' v2 /\ PrimFloat.eqb v1 v2 = true.
Proof.
  intros env1 c1 i1 st1 w1 l1 s1 G1 env2 c2 i2 st2 w2 l2 s2 G2 P Es Hm throttle orientation sorting g1 g2 s1' s2' Hg S1 S2.
  assert (Hm2 : moderate_problem s2).
  { destruct P as [P1 [P2 _]]. intros cs its H1 H2. apply Hm; congruence. }
  assert (Es2 : m_strip s2 = false) by (destruct P as [_ [_ [_ [E _]]]]; congruence).
  assert (G : forall env c i st w l (s : machine farith), careful_history env c i st w l s -> m_strip s = false -> moderate_problem s ->
    forall x x2, view s = Some x -> prepared farith orientation sorting x x2 -> valid_inst farith x2 -> never_infinite x2 throttle).
  { clear. intros env c i st w l s G Es Hm x x2 V Hp Hv2 g v Hr. destruct (careful_good farith_orderly _ _ _ _ _ _ _ G) as [I [_ [cs [R1 R2]]]].
    destruct (view_all s x V) as [A1 [A2 A3]]. pose proof (inv_valid s x I V) as Hv.
    assert (Hmx : moderate (in_pb x)) by (exact (Hm _ _ A1 A2)).
    pose proof (prepared_moderate _ _ _ _ Hv Hv2 Hp Hmx) as Hm2.
    destruct (prepared_kept _ _ _ _ _ Hp) as [K1 [K2 [K3 [K4 [K5 [K6 K7]]]]]].
    assert (Es2 : pb_strip (in_pb x2) = false) by (rewrite K3, A3; exact Es).
    destruct (reaches_made farith_orderly x2 throttle g v Hv2 Es2 Hr) as [sq [sol [objs [Hk [Hs Ev]]]]].
    apply finite_not_inf. eapply (finite_value (pb_with_strategy (in_pb x2) g)); [exact (proj1 (valid_strategy x2 g Hv2))|exact Hk|exact Hm2| |reflexivity|exact Hs|].
    - cbn [pb_strip pb_with_strategy]. rewrite Es2. discriminate.
    - rewrite <- Ev. f_equal. cbn [pb_containers pb_with_strategy]. rewrite K5, K1, A3. cbn [in_cnum]. rewrite R2. rewrite A1 in R1. injection R1 as R1. rewrite <- R1. rewrite A3. reflexivity. }
  destruct (searched_same farith_orderly _ _ _ _ _ _ s1 _ _ _ _ _ _ s2 _ _ _ _ _ _ _ G1 G2 P Es Hg S1 S2) as [v1 [v2 [E1 [E2 E]]]];
    [eapply G; eassumption|eapply G; eassumption|].
  exists v1, v2. split; [exact E1|]. split; [exact E2|exact E].
Qed.
Print Assumptions C75_value_independent_doubles_partial.

(** With exhaustive=True: whatever order Python's set of points has in each of the two runs (it
    changes with the hash seed). *)
Corollary C75_exhaustive_partial :
  forall env1 c1 i1 st1 w1 l1 (s1 : machine qarith), careful_history env1 c1 i1 st1 w1 l1 s1 ->
  forall env2 c2 i2 st2 w2 l2 (s2 : machine qarith), careful_history env2 c2 i2 st2 w2 l2 s2 ->
  same_problem_shown s1 s2 -> m_strip s1 = false ->
  forall order1 order2, set_order false order1 -> set_order false order2 ->
  forall throttle orientation sorting s1' s2',
  searched throttle orientation sorting (get_strategies true order1) s1 s1' ->
  searched throttle orientation sorting (get_strategies true order2) s2 s2' ->
  exists v1 v2, value s1' v1 /\ value s2' v2 /\ (v1 == v2)%Q.
Proof.
  intros env1 c1 i1 st1 w1 l1 s1 G1 env2 c2 i2 st2 w2 l2 s2 G2 P Es order1 order2 O1 O2 throttle orientation sorting s1' s2' S1 S2.
  refine (C75_value_independent_partial _ _ _ _ _ _ s1 G1 _ _ _ _ _ _ s2 G2 P Es _ _ _ _ _ s1' s2' _ S1 S2).
  intros g. destruct (C23_strategies false order1 O1) as [_ [_ H1]]. destruct (C23_strategies false order2 O2) as [_ [_ H2]].
  rewrite H1, H2. reflexivity.
Qed.
Print Assumptions C75_exhaustive_partial.

Lemma two_clean c (s s' : machine qarith) : two_process_result c s = Some s' ->
  (forall i, ca_forced c i = false) -> (forall o, (ca_size c o <= ca_capacity c)%nat) -> multi nobody nobody c s s' (Ok tt).
Proof.
  intros H Hf Hs. unfold two_process_result in H.
  destruct (presort c s) as [s1 [[]|e]] eqn:E1; [|discriminate].
  destruct (prepare c s1) as [u|e] eqn:E2; [|discriminate].
  destruct (two_workers u) as [[| | |sol objs g|]|e] eqn:E3; try discriminate. injection H as <-.
  assert (Hu : su_forced u = ca_forced c /\ su_size u = ca_size c /\ su_capacity u = ca_capacity c).
  { unfold prepare in E2. destruct (view s1); [|discriminate]. destruct (partition _ _); [|discriminate]. cbn [bind] in E2.
    destruct (child_machine _ _) as [y|]; [|discriminate]. cbn [bind] in E2. destruct (view y); [|discriminate]. injection E2 as <-. auto. }
  destruct Hu as [Hu1 [Hu2 Hu3]].
  destruct (two_workers_reach u _ E3) as [t [R1 R2]]; [intros i; rewrite Hu1; apply Hf|intros o; rewrite Hu2, Hu3; apply Hs|].
  eapply multi_returned; [exact E1|exact E2|exact R1|exact R2].
Qed.

Lemma call_searched sorting strategies (s : machine qarith) : call_returns (plain_call sorting strategies) s = true ->
  one_worker (workers_of s) = false -> in_force s -> 0 < max_time_of s ->
  searched true None sorting strategies s (call_result (plain_call sorting strategies) s).
Proof.
  intros H Hw Hf Ht. apply (by_several _ _ _ _ _ _ (plain_call sorting strategies)); try reflexivity; try assumption.
  - intros i n. exact Ht.
  - unfold call_returns, call_result in *. destruct (two_process_result (plain_call sorting strategies) s) as [s'|] eqn:E; [|discriminate].
    apply two_clean; [exact E|reflexivity|intros; apply le_n].
Qed.

Definition alone : machine qarith := after bins [OpHypersearch (fun _ => 0) true None (Some ("area", true)) (rev strategy_pool)].
Example C75_witness :
  careful_history no_libraries two_containers three_items VNone VNone [] bins /\
  careful_history no_libraries two_containers three_items (two_workers_settings true) VNone [] (pair true) /\
  same_problem_shown bins (pair true) /\ m_strip bins = false /\
  (forall g, In g (rev strategy_pool) <-> In g strategy_pool) /\
  searched true None (Some ("area", true)) (rev strategy_pool) bins alone /\
  searched true None (Some ("area", true)) strategy_pool (pair true) (call_result pool_call (pair true)) /\
  (exists v, value alone v /\ (0 < v)%Q).
Proof.
  split; [exists bins; split; [exact bins_created|constructor]|].
  split; [exists (pair true); split; [apply pair_created|constructor]|].
  split; [refine (conj _ (conj _ (conj _ (conj _ _)))); vm_compute; try reflexivity; discriminate|].
  split; [vm_compute; reflexivity|]. split; [intros g; symmetry; apply in_rev|]. split; [|split].
  - apply (by_one _ _ _ _ _ _ (fun _ => 0)); [vm_compute; reflexivity|vm_compute; reflexivity| |].
    + intros n. replace (max_time_of bins) with 60 by (vm_compute; reflexivity). reflexivity.
    + vm_compute; reflexivity.
  - apply call_searched; [vm_compute; reflexivity|vm_compute; reflexivity|eapply C61_created_in_force; apply pair_created|vm_compute; reflexivity].
  - apply Ok_with. vm_compute. reflexivity.
Qed.

(** *** Strips
    In a strip the value does depend on it: the workers search in a strip ten times as high as it
    is wide, one process in the height the instance has. With [container_height = 1] one process
    stores only one of the three items, two processes store all of them. *)
Definition low : machine qarith := after strip [OpSetHeight (VInt 1)].
Definition low_pair : machine qarith :=
  after (fst (create qarith no_libraries VNone three_items (two_workers_settings true) (VInt 5) (blank qarith))) [OpSetHeight (VInt 1)].
Definition low_alone : machine qarith := after low [OpHypersearch (fun _ => 0) true None None strategy_pool].
Definition low_both : machine qarith := call_result (plain_call None strategy_pool) low_pair.

Theorem C75_strips_refuted :
  exists v1 v2,
  careful_history no_libraries VNone three_items VNone (VInt 5) [Plain (OpSetHeight (VInt 1))] low /\
  careful_history no_libraries VNone three_items (two_workers_settings true) (VInt 5) [Plain (OpSetHeight (VInt 1))] low_pair /\
  same_problem_shown low low_pair /\
  searched true None None strategy_pool low low_alone /\ searched true None None strategy_pool low_pair low_both /\
  value low_alone v1 /\ value low_both v2 /\ ~ (v1 == v2)%Q.
Proof.
  assert (G : forall env c i st w (s : machine qarith) op, created env c i st w s -> uses_ior op = false -> is_hypersearch op = false -> up_to_date s op ->
    careful_history env c i st w [Plain op] (after s [op])).
  { intros env c i st w s op H H1 H2 H3. exists s. split; [exact H|]. unfold after. cbn [fold_left].
    eapply mcareful_cons; [exact H1|exact H3| |constructor]. apply mrun_plain; [rewrite H2; discriminate|apply surjective_pairing]. }
  exists (4 # 5)%Q, (19 # 30)%Q.
  split; [apply G; [exact strip_created|reflexivity|reflexivity|exact Logic.I]|].
  split; [apply G; [apply created_fst; vm_compute; reflexivity|reflexivity|reflexivity|exact Logic.I]|].
  split; [refine (conj _ (conj _ (conj _ (conj _ _)))); vm_compute; auto|].
  split; [|split].
  - apply (by_one _ _ _ _ _ _ (fun _ => 0)); [vm_compute; reflexivity|vm_compute; reflexivity| |].
    + intros n. replace (max_time_of low) with 60 by (vm_compute; reflexivity). reflexivity.
    + vm_compute; reflexivity.
  - apply call_searched; [vm_compute; reflexivity|vm_compute; reflexivity| |vm_compute; reflexivity].
    apply (same_cfg_in_force no_libraries (fst (create qarith no_libraries VNone three_items (two_workers_settings true) (VInt 5) (blank qarith)))).
    + vm_compute. reflexivity.
    + eapply (C61_created_in_force _ no_libraries VNone three_items (two_workers_settings true) (VInt 5)). apply created_fst. vm_compute. reflexivity.
  - refine (conj _ (conj _ _)); [vm_compute; reflexivity|vm_compute; reflexivity|]. vm_compute. discriminate.
Qed.
Print Assumptions C75_strips_refuted.
