(** * C81: more strategies never make the result worse; hypersearch is at least as good as
    local_search with any of its strategies, and as the construction. *)
From Coq Require Import ZArith String List Bool QArith Lia Permutation PrimFloat.
From Verif Require Import Py ProofsPy Arith Construct Spec ProofsSolve ProofsSolution ProofsValues LocalSearch SpecSearch ItemsManip HyperSearch
  ProofsHyper MultiProcess ProofsLoose ProofsMulti PropertiesSearch PropertiesHyper PropertiesMulti
  Values ProofsVal Settings Instance SpecInstance ProofsMachine ProofsOps ProofsRun ProofsAccept ProofsSolver ProofsHistory ProofsRefine
  PropertiesStructures PropertiesHistory PropertiesSettings PropertiesInstance PropertiesCount MultiHistory SpecMultiHistory ProofsMultiHistory
  PropertiesMultiHistory FloatArith ProofsFloatOrder PropertiesFloat PropertiesFloatMulti ProofsAgain PropertiesAgain ProofsProcesses PropertiesProcesses.
Import ListNotations.
Open Scope string_scope.
Open Scope list_scope.
Open Scope Z_scope.

(** What a search of one strategy gives on the instance as it is: [local_search()] that time does
    not stop, or [solve()] with the default strategy. *)
Inductive searched_once {ar} (throttle : bool) (strategies : list (list pclass)) (s s' : machine ar) : Prop :=
| by_local_search ck : In (m_strategy s) strategies -> never_late ck (ck 0%nat) (max_time_of s) ->
    run (OpLocalSearch ck throttle) s = (s', Ok tt) -> searched_once throttle strategies s s'
| by_solve : m_strategy s = default_strategy -> run (OpSolve None) s = (s', Ok tt) -> searched_once throttle strategies s s'.

Section More.
Context {ar : arith} (o : orderly ar).

Lemma best_of_more (x : inst ar) throttle l l' v w : incl l l' ->
  best_of x throttle l v -> best_of x throttle l' w -> at_most ar v w.
Proof.
  intros H [A1 _] [_ [B2 B3]]. destruct A1 as [A1|[g [A1 A1']]]; [apply B2; exact A1|]. eapply B3; [apply H; exact A1|exact A1'].
Qed.

Definition quiet (s : machine ar) (throttle : bool) (orientation : option string) (sorting : option (string * bool)) : Prop :=
  forall x x2, view s = Some x -> prepared ar orientation sorting x x2 -> valid_inst ar x2 -> never_infinite x2 throttle.

Lemma searched_more env1 c1 i1 st1 w1 l1 (s1 : machine ar) env2 c2 i2 st2 w2 l2 (s2 : machine ar)
  throttle orientation sorting g1 g2 s1' s2' :
  careful_history env1 c1 i1 st1 w1 l1 s1 -> careful_history env2 c2 i2 st2 w2 l2 s2 ->
  same_problem_shown s1 s2 -> m_strip s1 = false -> incl g1 g2 ->
  searched throttle orientation sorting g1 s1 s1' -> searched throttle orientation sorting g2 s2 s2' ->
  quiet s1 throttle orientation sorting -> quiet s2 throttle orientation sorting ->
  exists v1 v2, value s1' v1 /\ value s2' v2 /\ at_most ar v1 v2.
Proof.
  intros G1 G2 P Es Hg S1 S2 N1 N2.
  destruct (careful_good o _ _ _ _ _ _ _ G1) as [I1 [_ R1]]. destruct (careful_good o _ _ _ _ _ _ _ G2) as [I2 [_ R2]].
  destruct (inv_view s1 I1) as [cs1 [is1 [_ [_ [_ [_ [_ [_ V1]]]]]]]]. destruct (inv_view s2 I2) as [cs2 [is2 [_ [_ [_ [_ [_ [_ V2]]]]]]]].
  match type of V1 with _ = Some ?X => set (x := X) in * end. match type of V2 with _ = Some ?X => set (y := X) in * end.
  assert (Es2 : m_strip s2 = false) by (destruct P as [_ [_ [_ [E _]]]]; congruence).
  destruct (shown_like s1 s2 x y V1 V2 R1 R2 P) as [L1 [L2 L3]].
  destruct (shown_like s2 s1 y x V2 V1 R2 R1 (shown_sym _ _ P)) as [L1' [L2' L3']].
  destruct (searched_best o _ _ _ _ _ _ s1 x _ _ _ _ _ G1 Es V1 S1) as [x2 [P1 [Hv1 B1]]].
  destruct (searched_best o _ _ _ _ _ _ s2 y _ _ _ _ _ G2 Es2 V2 S2) as [y2 [P2 [Hv2 B2]]].
  destruct (B1 (N1 x x2 V1 P1 Hv1)) as [v1 [E1 F1]]. destruct (B2 (N2 y y2 V2 P2 Hv2)) as [v2 [E2 F2]].
  exists v1, v2. split; [exact E1|]. split; [exact E2|].
  eapply best_of_more; [exact Hg| |exact F2].
  eapply best_of_like; [exact o|exact Hv1|exact Hv2| | |intros g; reflexivity|exact F1].
  - eapply prepared_like; [|exact P1|exact P2]. apply like_any; assumption.
  - eapply prepared_like; [|exact P2|exact P1]. apply like_any; assumption.
Qed.

Lemma once_less env1 c1 i1 st1 w1 l1 (s1 : machine ar) env2 c2 i2 st2 w2 l2 (s2 : machine ar) throttle g2 s1' s2' :
  careful_history env1 c1 i1 st1 w1 l1 s1 -> careful_history env2 c2 i2 st2 w2 l2 s2 ->
  same_problem_shown s1 s2 -> m_strip s1 = false ->
  searched_once throttle g2 s1 s1' -> searched throttle None None g2 s2 s2' -> quiet s2 throttle None None ->
  exists v1 v2, value s1' v1 /\ value s2' v2 /\ at_most ar v1 v2.
Proof.
  intros G1 G2 P Es S1 S2 N2.
  destruct (careful_good o _ _ _ _ _ _ _ G1) as [I1 [_ R1]]. destruct (careful_good o _ _ _ _ _ _ _ G2) as [I2 [_ R2]].
  destruct (inv_view s1 I1) as [cs1 [is1 [_ [_ [_ [_ [_ [_ V1]]]]]]]]. destruct (inv_view s2 I2) as [cs2 [is2 [_ [_ [_ [_ [_ [_ V2]]]]]]]].
  match type of V1 with _ = Some ?X => set (x := X) in * end. match type of V2 with _ = Some ?X => set (y := X) in * end.
  assert (Es2 : m_strip s2 = false) by (destruct P as [_ [_ [_ [E _]]]]; congruence).
  destruct (shown_like s1 s2 x y V1 V2 R1 R2 P) as [L1 [L2 L3]].
  destruct (searched_best o _ _ _ _ _ _ s2 y _ _ _ _ _ G2 Es2 V2 S2) as [y2 [P2 [Hv2 B2]]].
  destruct (B2 (N2 y y2 V2 P2 Hv2)) as [v2 [E2 [_ [F2 F3]]]].
  assert (Hy2 : y2 = y). { destruct P2 as [a [A1 A2]]. cbn in A1. injection A1 as <-. exact A2. }
  subst y2. pose proof (inv_valid s1 x I1 V1) as Hvx. pose proof o as [laws V].
  destruct (view_all s1 x V1) as [_ [_ A3]].
  pose proof (like_any x y L1 L2 L3) as Lg.
  assert (Hval : forall z v, view s1' = Some z -> calculate_obj_value ar z = Ok v -> value s1' v).
  { intros z v W Ev. destruct (view_all _ _ W) as [_ [_ B3]]. unfold value, calculate_obj_value in *. rewrite B3 in Ev. exact Ev. }
  destruct S1 as [ck Hg Hl E|Hg E].
  - destruct (local_search_refines laws s1 x ck throttle I1 V1) as [z [clk [log [El [F W]]]]].
    rewrite F in E. injection E as <-.
    destruct (search_step ar laws x Hvx ck (c_limit (m_cfg s1)) throttle None 0) as [z' [clk' [log' [v1 [_ [Ez [_ [_ [_ [Ev _]]]]]]]]]].
    rewrite El in Ez. injection Ez as <- <- <-.
    exists v1, v2. split; [exact (Hval z v1 W Ev)|]. split; [exact E2|]. apply (F3 (m_strategy s1) v1 Hg).
    assert (Lx : like x (set_strategy y (m_strategy s1))).
    { pose proof (Lg (m_strategy s1)) as L. rewrite A3 in L |- *. exact L. }
    pose proof (local_search_again ck (fun _ => 0) (c_limit (m_cfg s1)) 1 throttle None (Some 0) x (set_strategy y (m_strategy s1)) 0 0 Lx) as A.
    cbn [begun fst snd] in A. specialize (A (same_late ck (ck 0%nat) (c_limit (m_cfg s1)) 1 Hl)). rewrite El in A.
    destruct (local_search ar (fun _ => 0) 1 throttle (Some 0) (set_strategy y (m_strategy s1)) 0) as [[[t c] l]|] eqn:Er; [|contradiction].
    cbn [agree fst snd] in A. exists t, c, l. split; [exact Er|]. rewrite <- Ev. symmetry. apply value_alike. apply A.
  - pose proof (solve_refines s1 x None V1) as F.
    destruct (inst_solve ar x None) as [z|e] eqn:El; [|rewrite F in E; discriminate E].
    destruct F as [F W]. rewrite F in E. injection E as <-.
    destruct (search_step ar laws x Hvx (fun _ => 0) 1 throttle None 0) as [z' [clk' [log' [_ [_ [Ez _]]]]]].
    destruct (C14_never_worse_than_initial ar laws x Hvx _ _ _ _ _ _ _ _ Ez) as [sol [objs [v1 [_ [Es1 [Ev1 _]]]]]].
    unfold inst_solve in El. rewrite Es1 in El. cbn [bind] in El. injection El as <-.
    exists v1, v2. split; [apply (Hval _ v1 W); exact Ev1|]. split; [exact E2|]. apply F2.
    exists sol, objs. split; [|rewrite <- L3; exact Ev1].
    rewrite <- Es1. symmetry. apply solve_like. pose proof (Lg default_strategy) as [L _]. cbn [in_pb set_strategy] in L.
    rewrite A3 in L |- *. rewrite Hg. exact L.
Qed.
End More.

Lemma quiet_exact (s : machine qarith) throttle orientation sorting : quiet s throttle orientation sorting.
Proof. intros ? ? _ _ _ ? ? _. reflexivity. Qed.

Lemma quiet_doubles env c i st w l (s : machine farith) throttle orientation sorting :
  careful_history env c i st w l s -> m_strip s = false -> moderate_problem s -> quiet s throttle orientation sorting.
Proof.
  intros G Es Hm x x2 V Hp Hv2 g v Hr. destruct (careful_good farith_orderly _ _ _ _ _ _ _ G) as [I [_ [cs [R1 R2]]]].
  destruct (view_all s x V) as [A1 [A2 A3]]. pose proof (inv_valid s x I V) as Hv.
  assert (Hmx : moderate (in_pb x)) by (exact (Hm _ _ A1 A2)).
  pose proof (prepared_moderate _ _ _ _ Hv Hv2 Hp Hmx) as Hm2.
  destruct (prepared_kept _ _ _ _ _ Hp) as [K1 [K2 [K3 [K4 [K5 [K6 K7]]]]]].
  assert (Es2 : pb_strip (in_pb x2) = false) by (rewrite K3, A3; exact Es).
  destruct (reaches_made farith_orderly x2 throttle g v Hv2 Es2 Hr) as [sq [sol [objs [Hk [Hs Ev]]]]].
  apply finite_not_inf. eapply (finite_value (pb_with_strategy (in_pb x2) g)); [exact (proj1 (valid_strategy x2 g Hv2))|exact Hk|exact Hm2| |reflexivity|exact Hs|].
  - cbn [pb_strip pb_with_strategy]. rewrite Es2. discriminate.
  - rewrite <- Ev. f_equal. cbn [pb_containers pb_with_strategy]. rewrite K5, K1, A3. cbn [in_cnum]. rewrite R2. rewrite A1 in R1. injection R1 as R1. rewrite <- R1. rewrite A3. reflexivity.
Qed.

Lemma shown_moderate {ar} (s1 s2 : machine ar) : same_problem_shown s1 s2 -> moderate_problem s1 -> moderate_problem s2.
Proof. intros [P1 [P2 _]] Hm cs its H1 H2. apply Hm; congruence. Qed.

(** ** C81: more strategies never make the result worse *)
(** Whatever the number of processes of each of the two calls; [throttle], orientation and sorting
    are the same in both. *)
Theorem C81_more_strategies :
  forall env1 c1 i1 st1 w1 l1 (s1 : machine qarith), careful_history env1 c1 i1 st1 w1 l1 s1 ->
  forall env2 c2 i2 st2 w2 l2 (s2 : machine qarith), careful_history env2 c2 i2 st2 w2 l2 s2 ->
  same_problem_shown s1 s2 -> m_strip s1 = false ->
  forall throttle orientation sorting fewer more s1' s2', incl fewer more ->
  searched throttle orientation sorting fewer s1 s1' -> searched throttle orientation sorting more s2 s2' ->
  exists v1 v2, value s1' v1 /\ value s2' v2 /\ (v1 <= v2)%Q.
Proof.
  intros env1 c1 i1 st1 w1 l1 s1 G1 env2 c2 i2 st2 w2 l2 s2 G2 P Es throttle orientation sorting g1 g2 s1' s2' Hg S1 S2.
  destruct (searched_more qarith_orderly _ _ _ _ _ _ s1 _ _ _ _ _ _ s2 _ _ _ _ _ _ _ G1 G2 P Es Hg S1 S2
    (quiet_exact _ _ _ _) (quiet_exact _ _ _ _)) as [v1 [v2 [E1 [E2 E]]]].
  exists v1, v2. split; [exact E1|]. split; [exact E2|]. apply Qle_bool_iff. exact E.
Qed.
Print Assumptions C81_more_strategies.

Theorem C81_more_strategies_doubles :
  forall env1 c1 i1 st1 w1 l1 (s1 : machine farith), careful_history env1 c1 i1 st1 w1 l1 s1 ->
  forall env2 c2 i2 st2 w2 l2 (s2 : machine farith), careful_history env2 c2 i2 st2 w2 l2 s2 ->
  same_problem_shown s1 s2 -> m_strip s1 = false -> moderate_problem s1 ->
  forall throttle orientation sorting fewer more s1' s2', incl fewer more ->
  searched throttle orientation sorting fewer s1 s1' -> searched throttle orientation sorting more s2 s2' ->
  exists v1 v2, value s1' v1 /\ value s2' v2 /\ PrimFloat.leb v1 v2 = true.
Proof.
  intros env1 c1 i1 st1 w1 l1 s1 G1 env2 c2 i2 st2 w2 l2 s2 G2 P Es Hm throttle orientation sorting g1 g2 s1' s2' Hg S1 S2.
  assert (Es2 : m_strip s2 = false) by (destruct P as [_ [_ [_ [E _]]]]; congruence).
  destruct (searched_more farith_orderly _ _ _ _ _ _ s1 _ _ _ _ _ _ s2 _ _ _ _ _ _ _ G1 G2 P Es Hg S1 S2
    (quiet_doubles _ _ _ _ _ _ _ _ _ _ G1 Es Hm) (quiet_doubles _ _ _ _ _ _ _ _ _ _ G2 Es2 (shown_moderate _ _ P Hm)))
    as [v1 [v2 [E1 [E2 E]]]].
  exists v1, v2. split; [exact E1|]. split; [exact E2|]. exact E.
Qed.
Print Assumptions C81_more_strategies_doubles.

(** [exhaustive=True] is never worse than the default, in whatever order Python's set lists the
    points. *)
Corollary C81_exhaustive :
  forall env1 c1 i1 st1 w1 l1 (s1 : machine qarith), careful_history env1 c1 i1 st1 w1 l1 s1 ->
  forall env2 c2 i2 st2 w2 l2 (s2 : machine qarith), careful_history env2 c2 i2 st2 w2 l2 s2 ->
  same_problem_shown s1 s2 -> m_strip s1 = false ->
  forall throttle orientation sorting order s1' s2', set_order false order ->
  searched throttle orientation sorting (get_strategies false order) s1 s1' ->
  searched throttle orientation sorting (get_strategies true order) s2 s2' ->
  exists v1 v2, value s1' v1 /\ value s2' v2 /\ (v1 <= v2)%Q.
Proof.
  intros env1 c1 i1 st1 w1 l1 s1 G1 env2 c2 i2 st2 w2 l2 s2 G2 P Es throttle orientation sorting order s1' s2' O S1 S2.
  refine (C81_more_strategies _ _ _ _ _ _ s1 G1 _ _ _ _ _ _ s2 G2 P Es throttle orientation sorting _ _ s1' s2' _ S1 S2).
  destruct (C23_strategies false order O) as [_ [_ H]]. intros g Hg. apply H.
  assert (Hg' : g = [cA; cA_; cB_; cC; cB; cD; cA__; cB__; cF; cE]) by (cbn in Hg; intuition congruence).
  subst g. split; [|exists [cA; cA_; cB_; cC; cB; cD]; reflexivity].
  apply NoDup_Permutation; [repeat constructor; simpl; intuition discriminate|repeat constructor; simpl; intuition discriminate|].
  intros p. simpl. intuition.
Qed.
Print Assumptions C81_exhaustive.

(** Without sorting and orienting, hypersearch is at least as good as [local_search()] with any of
    its strategies, and as [solve()] with the default strategy. *)
Theorem C81_local_search_partial :
  forall env1 c1 i1 st1 w1 l1 (s1 : machine qarith), careful_history env1 c1 i1 st1 w1 l1 s1 ->
  forall env2 c2 i2 st2 w2 l2 (s2 : machine qarith), careful_history env2 c2 i2 st2 w2 l2 s2 ->
  same_problem_shown s1 s2 -> m_strip s1 = false ->
  forall throttle strategies s1' s2',
  searched_once throttle strategies s1 s1' -> searched throttle None None strategies s2 s2' ->
  exists v1 v2, value s1' v1 /\ value s2' v2 /\ (v1 <= v2)%Q.
Proof.
  intros env1 c1 i1 st1 w1 l1 s1 G1 env2 c2 i2 st2 w2 l2 s2 G2 P Es throttle g s1' s2' S1 S2.
  destruct (once_less qarith_orderly _ _ _ _ _ _ s1 _ _ _ _ _ _ s2 _ _ _ _ G1 G2 P Es S1 S2
    (quiet_exact _ _ _ _)) as [v1 [v2 [E1 [E2 E]]]].
  exists v1, v2. split; [exact E1|]. split; [exact E2|]. apply Qle_bool_iff. exact E.
Qed.
Print Assumptions C81_local_search_partial.

Theorem C81_local_search_doubles_partial :
  forall env1 c1 i1 st1 w1 l1 (s1 : machine farith), careful_history env1 c1 i1 st1 w1 l1 s1 ->
  forall env2 c2 i2 st2 w2 l2 (s2 : machine farith), careful_history env2 c2 i2 st2 w2 l2 s2 ->
  same_problem_shown s1 s2 -> m_strip s1 = false -> moderate_problem s1 ->
  forall throttle strategies s1' s2',
  searched_once throttle strategies s1 s1' -> searched throttle None None strategies s2 s2' ->
  exists v1 v2, value s1' v1 /\ value s2' v2 /\ PrimFloat.leb v1 v2 = true.
Proof.
  intros env1 c1 i1 st1 w1 l1 s1 G1 env2 c2 i2 st2 w2 l2 s2 G2 P Es Hm throttle g s1' s2' S1 S2.
  assert (Es2 : m_strip s2 = false) by (destruct P as [_ [_ [_ [E _]]]]; congruence).
  destruct (once_less farith_orderly _ _ _ _ _ _ s1 _ _ _ _ _ _ s2 _ _ _ _ G1 G2 P Es S1 S2
    (quiet_doubles _ _ _ _ _ _ _ _ _ _ G2 Es2 (shown_moderate _ _ P Hm))) as [v1 [v2 [E1 [E2 E]]]].
  exists v1, v2. split; [exact E1|]. split; [exact E2|]. exact E.
Qed.
Print Assumptions C81_local_search_doubles_partial.

(** *** The user's expectation that [hypersearch()] is at least as good as [local_search()] is false:
    the default strategy, which local_search uses, is not among those hypersearch searches
    (neither by default nor with exhaustive=True), and hypersearch sorts the items. *)
Definition one_container (w l : Z) : pyval :=
  VDict [(VStr "c", VDict [(VStr "W", VInt w); (VStr "L", VInt l)])].
Definition named_items (l : list (string * (Z * Z))) : pyval :=
  VDict (map (fun p => (VStr (fst p), VDict [(VStr "w", VInt (fst (snd p))); (VStr "l", VInt (snd (snd p)))])) l).
Definition four_items : pyval := named_items [("a", (2, 2)); ("b", (1, 2)); ("c", (4, 2)); ("d", (4, 3))].
Definition five_items : pyval := named_items [("a", (2, 1)); ("b", (4, 1)); ("c", (3, 3)); ("d", (3, 2)); ("e", (1, 4))].
Definition four : machine qarith := fst (create qarith no_libraries (one_container 5 4) four_items VNone VNone (blank qarith)).
Definition five : machine qarith := fst (create qarith no_libraries (one_container 5 5) five_items VNone VNone (blank qarith)).
Definition local_of (s : machine qarith) : machine qarith := after s [OpLocalSearch (fun _ => 0) true].
Definition hyper_of (sorting : option (string * bool)) (s : machine qarith) : machine qarith :=
  after s [OpHypersearch (fun _ => 0) true None sorting strategy_pool].

Lemma four_created : created no_libraries (one_container 5 4) four_items VNone VNone four.
Proof. apply created_fst. vm_compute. reflexivity. Qed.
Lemma five_created : created no_libraries (one_container 5 5) five_items VNone VNone five.
Proof. apply created_fst. vm_compute. reflexivity. Qed.

(** The strategy an instance is created with is never searched by hypersearch. *)
Theorem C81_default_never_searched : forall strip order, set_order strip order ->
  ~ In default_strategy (get_strategies true order) /\ ~ In default_strategy (get_strategies false order).
Proof.
  intros strip order O. split.
  - intros H. destruct (C23_strategies strip order O) as [_ [_ H']]. apply H' in H. destruct H as [_ [front H]].
    assert (G : skipn 6 default_strategy = [cA__; cB__; cF; cE]).
    { rewrite H. assert (L : length front = 6%nat).
      { apply (f_equal (@length pclass)) in H. rewrite app_length in H. cbn in H. lia. }
      rewrite <- L. rewrite skipn_app, skipn_all, Nat.sub_diag. reflexivity. }
    vm_compute in G. discriminate.
  - cbn. intuition discriminate.
Qed.
Print Assumptions C81_default_never_searched.

(** With the default parameters of both methods: 9/10 against 7/10. *)
Theorem C81_hypersearch_worse_refuted :
  history no_libraries (one_container 5 4) four_items VNone VNone [] four /\
  run (OpLocalSearch (fun _ => 0) true) four = (local_of four, Ok tt) /\
  searched true None (Some ("area", true)) strategy_pool four (hyper_of (Some ("area", true)) four) /\
  exists v1 v2, value (local_of four) v1 /\ value (hyper_of (Some ("area", true)) four) v2 /\
    (v1 == 9 # 10)%Q /\ (v2 == 7 # 10)%Q.
Proof.
  split; [exists four; split; [exact four_created|constructor]|].
  split; [vm_compute; reflexivity|]. split.
  - apply (by_one _ _ _ _ _ _ (fun _ => 0)); [vm_compute; reflexivity|vm_compute; reflexivity| |vm_compute; reflexivity].
    intros n. replace (max_time_of four) with 60 by (vm_compute; reflexivity). reflexivity.
  - eexists _, _. split; [vm_compute; reflexivity|]. split; [vm_compute; reflexivity|]. split; vm_compute; reflexivity.
Qed.
Print Assumptions C81_hypersearch_worse_refuted.

(** Sorting is not the only reason: without it, 1 against 21/25. *)
Theorem C81_unsorted_refuted :
  history no_libraries (one_container 5 5) five_items VNone VNone [] five /\
  run (OpLocalSearch (fun _ => 0) true) five = (local_of five, Ok tt) /\
  searched true None None strategy_pool five (hyper_of None five) /\
  exists v1 v2, value (local_of five) v1 /\ value (hyper_of None five) v2 /\
    (v1 == 1)%Q /\ (v2 == 21 # 25)%Q.
Proof.
  split; [exists five; split; [exact five_created|constructor]|].
  split; [vm_compute; reflexivity|]. split.
  - apply (by_one _ _ _ _ _ _ (fun _ => 0)); [vm_compute; reflexivity|vm_compute; reflexivity| |vm_compute; reflexivity].
    intros n. replace (max_time_of five) with 60 by (vm_compute; reflexivity). reflexivity.
  - eexists _, _. split; [vm_compute; reflexivity|]. split; [vm_compute; reflexivity|]. split; vm_compute; reflexivity.
Qed.
Print Assumptions C81_unsorted_refuted.

(** ** Witness: the same five items with the default strategy added to the pool. *)
Definition wider : list (list pclass) := default_strategy :: strategy_pool.
Definition hyper_more : machine qarith := after five [OpHypersearch (fun _ => 0) true None None wider].

Example C81_witness :
  careful_history no_libraries (one_container 5 5) five_items VNone VNone [] five /\
  same_problem_shown five five /\ m_strip five = false /\ incl strategy_pool wider /\
  searched_once true wider five (local_of five) /\
  searched true None None strategy_pool five (hyper_of None five) /\ searched true None None wider five hyper_more /\
  exists v1 v2, value (hyper_of None five) v1 /\ value hyper_more v2 /\ (v1 == 21 # 25)%Q /\ (v2 == 1)%Q.
Proof.
  assert (Hl : never_late (fun _ => 0) 0 (max_time_of five)).
  { intros n. replace (max_time_of five) with 60 by (vm_compute; reflexivity). reflexivity. }
  split; [exists five; split; [exact five_created|constructor]|].
  split; [repeat (split; [reflexivity|]); intros; split; reflexivity|]. split; [vm_compute; reflexivity|].
  split; [intros g Hg; right; exact Hg|]. split; [|split; [|split]].
  - apply (by_local_search _ _ _ _ (fun _ => 0)); [left; vm_compute; reflexivity|exact Hl|vm_compute; reflexivity].
  - apply (by_one _ _ _ _ _ _ (fun _ => 0)); [vm_compute; reflexivity|vm_compute; reflexivity|exact Hl|vm_compute; reflexivity].
  - apply (by_one _ _ _ _ _ _ (fun _ => 0)); [vm_compute; reflexivity|vm_compute; reflexivity|exact Hl|vm_compute; reflexivity].
  - eexists _, _. split; [vm_compute; reflexivity|]. split; [vm_compute; reflexivity|]. split; vm_compute; reflexivity.
Qed.
