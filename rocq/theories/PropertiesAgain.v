(** * C74: searches depend on the problem shown, not on the history. C75: nor does the value a
    hypersearch reaches depend on the number of processes. *)
From Coq Require Import ZArith String List Bool QArith Lia Permutation.
From Verif Require Import Py ProofsPy Arith Construct Spec ProofsSolve ProofsSolution ProofsValues LocalSearch SpecSearch ItemsManip HyperSearch
  ProofsHyper MultiProcess ProofsLoose ProofsMulti PropertiesSearch PropertiesHyper PropertiesMulti
  Values ProofsVal Settings Instance SpecInstance ProofsMachine ProofsOps ProofsRun ProofsAccept ProofsSolver ProofsHistory ProofsRefine
  PropertiesStructures PropertiesHistory PropertiesSettings PropertiesInstance PropertiesCount MultiHistory SpecMultiHistory ProofsMultiHistory
  PropertiesMultiHistory FloatArith ProofsFloatOrder PropertiesFloat PropertiesFloatMulti ProofsAgain.
Import ListNotations.
Open Scope string_scope.
Open Scope list_scope.
Open Scope Z_scope.

(** A history in which only the objects in use are changed (see C38), and not by |=. *)
Definition careful_history {ar} env containers items settings width (l : list (mop ar)) (s : machine ar) : Prop :=
  exists s0, created env containers items settings width s0 /\ mcareful s0 l s.

(** The two instances show the same problem; each may have any solution, any settings besides the
    rotation, and has been used in its own way. *)
Definition same_problem_shown {ar} (s1 s2 : machine ar) : Prop :=
  containers_of s1 = containers_of s2 /\ items_of s1 = items_of s2 /\ rotation_of s1 = rotation_of s2 /\
  m_strip s1 = m_strip s2 /\ (m_strip s1 = true -> m_height s1 = m_height s2 /\ m_min s1 = m_min s2).

(** Both searches read the same times and have the same limit, or neither meets its limit. *)
Definition never_late (ck : clock) (start limit : Z) : Prop := forall n, ck n - start < limit.
Definition same_time {ar} (ck1 ck2 : clock) (s1 s2 : machine ar) : Prop :=
  ((forall n, ck1 n = ck2 n) /\ max_time_of s1 = max_time_of s2) \/
  (never_late ck1 (ck1 0%nat) (max_time_of s1) /\ never_late ck2 (ck2 0%nat) (max_time_of s2)).

Lemma careful_good {ar} (o : orderly ar) env containers items settings width l (s : machine ar) :
  careful_history env containers items settings width l s -> inv s /\ valid_attributes s /\ right_count s.
Proof.
  intros [s0 [H0 Hc]]. pose proof (C38_count_processes_partial ar o _ _ _ _ _ _ _ _ H0 Hc) as R.
  assert (M : mleads_to s0 l s /\ mwithout_ior l).
  { clear -Hc. induction Hc as [s|s o s1 r l s' Ho _ E _ [IH1 IH2]]; [split; [constructor|intros ? []]|].
    split; [econstructor; eassumption|]. intros x [<-|Hx]; [exact Ho|apply IH2; exact Hx]. }
  destruct M as [M1 M2]. destruct o as [laws vals].
  destruct (mhistory_good laws vals env containers items settings width l s (ex_intro _ s0 (conj H0 M1)) M2) as [I A]. auto.
Qed.

Section Machines.
Context {ar : arith} (o : orderly ar).

Lemma shown_like (s1 s2 : machine ar) x y : view s1 = Some x -> view s2 = Some y -> right_count s1 -> right_count s2 ->
  same_problem_shown s1 s2 -> like_pb (pb_with_strategy (in_pb x) default_strategy) (pb_with_strategy (in_pb y) default_strategy) /\
  (pb_strip (in_pb x) = true -> in_min x = in_min y) /\ in_cnum x = in_cnum y.
Proof.
  intros V1 V2 [c1 [R1 R1']] [c2 [R2 R2']] [S1 [S2 [S3 [S4 S5]]]].
  destruct (view_all s1 x V1) as [A1 [A2 A3]]. destruct (view_all s2 y V2) as [B1 [B2 B3]].
  assert (E1 : pb_containers (in_pb x) = pb_containers (in_pb y)) by congruence.
  assert (E2 : pb_items (in_pb x) = pb_items (in_pb y)) by congruence.
  rewrite A3, B3. unfold like_pb. cbn [in_pb in_min in_cnum pb_with_strategy pb_containers pb_items pb_rotation pb_strategy pb_strip pb_height].
  split; [|split].
  - split; [exact E1|]. split; [exact E2|]. split; [exact S3|]. split; [reflexivity|]. split; [exact S4|]. intros Hs. destruct (S5 Hs) as [-> _]. reflexivity.
  - intros Hs. apply S5. exact Hs.
  - congruence.
Qed.

Lemma shown_like_strategy (s1 s2 : machine ar) x y : view s1 = Some x -> view s2 = Some y -> right_count s1 -> right_count s2 ->
  same_problem_shown s1 s2 -> m_strategy s1 = m_strategy s2 -> like x y.
Proof.
  intros V1 V2 R1 R2 S E. destruct (shown_like _ _ _ _ V1 V2 R1 R2 S) as [[H1 [H2 [H3 [_ [H5 H6]]]]] [H7 H8]].
  destruct (view_all s1 x V1) as [_ [_ A3]]. destruct (view_all s2 y V2) as [_ [_ B3]].
  split; [|split; assumption]. split; [exact H1|]. split; [exact H2|]. split; [exact H3|]. split; [rewrite A3, B3; exact E|]. split; assumption.
Qed.

(** Reading the result off what the two instances show afterwards. *)
Lemma alike_shown (s1 s2 : machine ar) x y : view s1 = Some x -> view s2 = Some y -> alike x y ->
  (m_strip s1 = true -> exists h1 h2, m_height s1 = Some h1 /\ m_height s2 = Some h2) ->
  same_problem_shown s1 s2 /\ m_strategy s1 = m_strategy s2 /\ m_sol s1 = m_sol s2 /\ m_objs s1 = m_objs s2.
Proof.
  intros V1 V2 [[[H1 [H2 [H3 [H4 [H5 H6]]]]] [H7 H8]] [E1 E2]] Hh.
  destruct (view_all s1 x V1) as [A1 [A2 A3]]. destruct (view_all s2 y V2) as [B1 [B2 B3]].
  rewrite A3, B3 in *. cbn in *. split; [|auto]. split; [congruence|]. split; [congruence|]. split; [exact H3|]. split; [exact H5|].
  intros Hs. split; [|apply H7; exact Hs]. destruct (Hh Hs) as [h1 [h2 [Z1 Z2]]]. rewrite Z1, Z2 in *. f_equal. apply H6. exact Hs.
Qed.
End Machines.

(** What the caller sees of a search: the solution and its utilizations, and the configuration. *)
Definition same_result {ar} (s1 s2 : machine ar) : Prop :=
  m_sol s1 = m_sol s2 /\ m_objs s1 = m_objs s2 /\ m_strategy s1 = m_strategy s2 /\ same_problem_shown s1 s2.

Section Again.
Context {ar : arith} (o : orderly ar).

Lemma heights_there (s1 s2 : machine ar) : inv s1 -> inv s2 -> m_strip s1 = m_strip s2 ->
  m_strip s1 = true -> exists h1 h2, m_height s1 = Some h1 /\ m_height s2 = Some h2.
Proof.
  intros I1 I2 E H. destruct (iv_heights s1 I1 H) as [h1 [E1 _]]. destruct (iv_heights s2 I2 ltac:(congruence)) as [h2 [E2 _]]. eauto.
Qed.

Lemma step_inv op (s s' : machine ar) r : inv s -> uses_ior op = false -> run op s = (s', r) -> inv s'.
Proof. destruct o as [laws _]. apply inv_next. exact laws. Qed.

Lemma strip_of_like (s1 s2 : machine ar) x y : view s1 = Some x -> view s2 = Some y -> alike x y -> m_strip s1 = m_strip s2.
Proof.
  intros V1 V2 [[[_ [_ [_ [_ [H _]]]]] _] _]. destruct (view_all s1 x V1) as [_ [_ A3]]. destruct (view_all s2 y V2) as [_ [_ B3]].
  rewrite A3, B3 in H. exact H.
Qed.

Lemma time_answers (ck1 ck2 : clock) (s1 s2 : machine ar) : same_time ck1 ck2 s1 s2 ->
  in_step ck1 ck2 (c_limit (m_cfg s1)) (c_limit (m_cfg s2)) (ck1 0%nat) (ck2 0%nat) 1 1.
Proof.
  change (c_limit (m_cfg s1)) with (max_time_of s1). change (c_limit (m_cfg s2)) with (max_time_of s2).
  intros [[E <-]|[N1 N2]]; split; intros n; unfold out_of_time, over_time.
  - rewrite !E. reflexivity.
  - rewrite !E. reflexivity.
  - specialize (N1 (1 + n)%nat). specialize (N2 (1 + n)%nat). destruct (Z.geb_spec (ck1 (1 + n)%nat - ck1 0%nat) (max_time_of s1)), (Z.geb_spec (ck2 (1 + n)%nat - ck2 0%nat) (max_time_of s2)); lia || reflexivity.
  - specialize (N1 (1 + n)%nat). specialize (N2 (1 + n)%nat). destruct (Z.gtb_spec (ck1 (1 + n)%nat - ck1 0%nat) (max_time_of s1)), (Z.gtb_spec (ck2 (1 + n)%nat - ck2 0%nat) (max_time_of s2)); lia || reflexivity.
Qed.
End Again.

(** ** C74: what a search returns depends on the problem shown, not on what was done before. *)
Theorem C74_construction : forall ar, orderly ar ->
  forall env1 c1 i1 st1 w1 l1 (s1 : machine ar), careful_history env1 c1 i1 st1 w1 l1 s1 ->
  forall env2 c2 i2 st2 w2 l2 (s2 : machine ar), careful_history env2 c2 i2 st2 w2 l2 s2 ->
  same_problem_shown s1 s2 -> m_strategy s1 = m_strategy s2 ->
  forall sequence s1' s2' r1 r2, run (OpSolve sequence) s1 = (s1', r1) -> run (OpSolve sequence) s2 = (s2', r2) ->
  r1 = r2 /\ (r1 = Ok tt -> same_result s1' s2').
Proof.
  intros ar ord env1 c1 i1 st1 w1 l1 s1 G1 env2 c2 i2 st2 w2 l2 s2 G2 P Eg sequence s1' s2' r1 r2 E1 E2.
  destruct (careful_good ord _ _ _ _ _ _ _ G1) as [I1 [_ R1]]. destruct (careful_good ord _ _ _ _ _ _ _ G2) as [I2 [_ R2]].
  destruct (inv_view s1 I1) as [? [? [_ [_ [_ [_ [_ [_ V1]]]]]]]]. destruct (inv_view s2 I2) as [? [? [_ [_ [_ [_ [_ [_ V2]]]]]]]].
  pose proof (shown_like_strategy s1 s2 _ _ V1 V2 R1 R2 P Eg) as L.
  pose proof (solve_refines s1 _ sequence V1) as F1. pose proof (solve_refines s2 _ sequence V2) as F2.
  pose proof (solve_agree _ _ sequence L) as A.
  destruct (inst_solve ar _ sequence) as [y1|e1] in F1, A; destruct (inst_solve ar _ sequence) as [y2|e2] in F2, A; cbn [agree] in A; try contradiction.
  - destruct F1 as [F1 W1], F2 as [F2 W2]. rewrite F1 in E1. rewrite F2 in E2. injection E1 as <- <-. injection E2 as <- <-. split; [reflexivity|]. intros _.
    pose proof (strip_of_like _ _ _ _ W1 W2 A) as Es.
    destruct (alike_shown _ _ _ _ W1 W2 A) as [B1 [B2 [B3 B4]]]; [|split; [exact B3|split; [exact B4|split; [exact B2|exact B1]]]].
    apply (heights_there (put_back_state s1 y1) (put_back_state s2 y2)); [eapply (step_inv ord _ _ _ _ I1); [|exact F1]; reflexivity|eapply (step_inv ord _ _ _ _ I2); [|exact F2]; reflexivity|exact Es].
  - rewrite F1 in E1. rewrite F2 in E2. injection E1 as <- <-. injection E2 as <- <-. subst e2. split; [reflexivity|discriminate].
Qed.
Print Assumptions C74_construction.

Theorem C74_local_search : forall ar, orderly ar ->
  forall env1 c1 i1 st1 w1 l1 (s1 : machine ar), careful_history env1 c1 i1 st1 w1 l1 s1 ->
  forall env2 c2 i2 st2 w2 l2 (s2 : machine ar), careful_history env2 c2 i2 st2 w2 l2 s2 ->
  same_problem_shown s1 s2 -> m_strategy s1 = m_strategy s2 ->
  forall ck1 ck2 throttle, same_time ck1 ck2 s1 s2 ->
  exists s1' s2', run (OpLocalSearch ck1 throttle) s1 = (s1', Ok tt) /\ run (OpLocalSearch ck2 throttle) s2 = (s2', Ok tt) /\
    same_result s1' s2'.
Proof.
  intros ar ord env1 c1 i1 st1 w1 l1 s1 G1 env2 c2 i2 st2 w2 l2 s2 G2 P Eg ck1 ck2 throttle T.
  destruct (careful_good ord _ _ _ _ _ _ _ G1) as [I1 [_ R1]]. destruct (careful_good ord _ _ _ _ _ _ _ G2) as [I2 [_ R2]].
  destruct (inv_view s1 I1) as [? [? [_ [_ [_ [_ [_ [_ V1]]]]]]]]. destruct (inv_view s2 I2) as [? [? [_ [_ [_ [_ [_ [_ V2]]]]]]]].
  pose proof (shown_like_strategy s1 s2 _ _ V1 V2 R1 R2 P Eg) as L. pose proof ord as [laws _].
  destruct (local_search_refines laws s1 _ ck1 throttle I1 V1) as [y1 [k1 [lg1 [S1 [F1 W1]]]]].
  destruct (local_search_refines laws s2 _ ck2 throttle I2 V2) as [y2 [k2 [lg2 [S2 [F2 W2]]]]].
  pose proof (local_search_again ck1 ck2 (c_limit (m_cfg s1)) (c_limit (m_cfg s2)) throttle None None _ _ 0 0 L) as A.
  rewrite S1, S2 in A. cbn [begun fst snd agree] in A. destruct (A (proj1 (time_answers _ _ _ _ T))) as [A1 _]. clear A.
  exists (put_back_state s1 y1), (put_back_state s2 y2). split; [exact F1|]. split; [exact F2|].
  pose proof (strip_of_like _ _ _ _ W1 W2 A1) as Es.
  destruct (alike_shown _ _ _ _ W1 W2 A1) as [B1 [B2 [B3 B4]]]; [|split; [exact B3|split; [exact B4|split; [exact B2|exact B1]]]].
  apply (heights_there (put_back_state s1 y1) (put_back_state s2 y2)); [eapply (step_inv ord _ _ _ _ I1); [|exact F1]; reflexivity|eapply (step_inv ord _ _ _ _ I2); [|exact F2]; reflexivity|exact Es].
Qed.
Print Assumptions C74_local_search.

Theorem C74_hypersearch : forall ar, orderly ar ->
  forall env1 c1 i1 st1 w1 l1 (s1 : machine ar), careful_history env1 c1 i1 st1 w1 l1 s1 ->
  forall env2 c2 i2 st2 w2 l2 (s2 : machine ar), careful_history env2 c2 i2 st2 w2 l2 s2 ->
  same_problem_shown s1 s2 -> m_strategy s1 = m_strategy s2 ->
  one_worker (workers_of s1) = true -> one_worker (workers_of s2) = true ->
  forall ck1 ck2 throttle, same_time ck1 ck2 s1 s2 ->
  forall orientation sorting strategies s1' s2' r1 r2,
  run (OpHypersearch ck1 throttle orientation sorting strategies) s1 = (s1', r1) ->
  run (OpHypersearch ck2 throttle orientation sorting strategies) s2 = (s2', r2) ->
  r1 = r2 /\ (r1 = Ok tt -> same_result s1' s2' /\ m_best s1' = m_best s2').
Proof.
  intros ar ord env1 c1 i1 st1 w1 l1 s1 G1 env2 c2 i2 st2 w2 l2 s2 G2 P Eg O1 O2 ck1 ck2 throttle T orientation sorting strategies s1' s2' r1 r2 E1 E2.
  destruct (careful_good ord _ _ _ _ _ _ _ G1) as [I1 [_ R1]]. destruct (careful_good ord _ _ _ _ _ _ _ G2) as [I2 [_ R2]].
  destruct (inv_view s1 I1) as [? [? [_ [_ [_ [_ [_ [_ V1]]]]]]]]. destruct (inv_view s2 I2) as [? [? [_ [_ [_ [_ [_ [_ V2]]]]]]]].
  pose proof (shown_like_strategy s1 s2 _ _ V1 V2 R1 R2 P Eg) as L. pose proof ord as [laws _].
  pose proof (hypersearch_refines laws s1 _ ck1 throttle orientation sorting strategies I1 V1 O1) as F1.
  pose proof (hypersearch_refines laws s2 _ ck2 throttle orientation sorting strategies I2 V2 O2) as F2.
  pose proof (hypersearch_again ck1 ck2 (c_limit (m_cfg s1)) (c_limit (m_cfg s2)) throttle orientation sorting strategies _ _ 0 0 L (time_answers _ _ _ _ T)) as A.
  assert (J1 : inv s1') by (eapply (step_inv ord _ _ _ _ I1); [|exact E1]; reflexivity).
  assert (J2 : inv s2') by (eapply (step_inv ord _ _ _ _ I2); [|exact E2]; reflexivity).
  rewrite E1 in F1. rewrite E2 in F2.
  destruct (hypersearch ar ck1 _ _ _ _ _ _ _) as [a|e1]; destruct (hypersearch ar ck2 _ _ _ _ _ _ _) as [b|e2]; cbn [agree] in A; try contradiction.
  - destruct F1 as [t1 [F1 [W1 M1]]], F2 as [t2 [F2 [W2 M2]]]. injection F1 as Et1 Er1. injection F2 as Et2 Er2. subst t1 t2 r1 r2.
    split; [reflexivity|]. intros _. destruct A as [A1 [A2 A3]]. split; [|congruence].
    pose proof (strip_of_like _ _ _ _ W1 W2 A1) as Es.
    destruct (alike_shown _ _ _ _ W1 W2 A1) as [B1 [B2 [B3 B4]]]; [|split; [exact B3|split; [exact B4|split; [exact B2|exact B1]]]].
    apply heights_there; assumption.
  - injection F1 as Et1 Er1. injection F2 as Et2 Er2. subst. split; [reflexivity|discriminate].
Qed.
Print Assumptions C74_hypersearch.

(** A new instance, and one that was solved, given another container, searched, and given the
    first containers back (with a solution on it): the same problem, so the same results. *)
Definition used : list op :=
  [OpSolve None; OpStructSet 0 (VStr "C3") (py_dims KContainers 2 2); OpLocalSearch (fun _ => 0) true;
   OpSetContainers two_containers; OpSolve None].
Example C74_witness :
  careful_history no_libraries two_containers three_items VNone VNone [] bins /\
  careful_history no_libraries two_containers three_items VNone VNone (map Plain used) (after bins used) /\
  same_problem_shown bins (after bins used) /\ m_strategy bins = m_strategy (after bins used) /\
  m_sol bins = [] /\ m_sol (after bins used) <> [] /\
  one_worker (workers_of bins) = true /\ one_worker (workers_of (after bins used)) = true /\
  same_time (fun _ => 7) (fun _ => 3) bins (after bins used).
Proof.
  split; [exists bins; split; [exact bins_created|constructor]|].
  split.
  - exists bins. split; [exact bins_created|].
    assert (G : forall o (s : machine qarith) l s', uses_ior o = false -> is_hypersearch o = false -> up_to_date s o ->
       mcareful (next o s) l s' -> mcareful s (Plain o :: l) s').
    { intros o s l s' H1 H2 H3 H4. econstructor; [exact H1|exact H3| |exact H4]. apply mrun_plain; [rewrite H2; discriminate|apply surjective_pairing]. }
    unfold used, after. cbn [fold_left map].
    repeat (apply G; [reflexivity|reflexivity| |]); try apply mcareful_nil; cbn [up_to_date]; try exact Logic.I.
    + left. vm_compute. reflexivity.
    + intros d [= <-]. split; [repeat constructor|].
      intros id w [[= <- <-]|[[= <- <-]|[]]]; intros d [= <-]; repeat constructor.
  - refine (conj (conj _ (conj _ (conj _ (conj _ _)))) (conj _ (conj _ (conj _ (conj _ (conj _ _)))))); try (vm_compute; reflexivity).
    + vm_compute. discriminate.
    + vm_compute. discriminate.
    + right. split; intros n.
      * replace (max_time_of bins) with 60 by (vm_compute; reflexivity). reflexivity.
      * replace (max_time_of (after bins used)) with 60 by (vm_compute; reflexivity). reflexivity.
Qed.
