(** * C82: height to spare in a strip changes nothing. *)
From Coq Require Import ZArith String List Bool QArith Lia Permutation.
From Verif Require Import Py ProofsPy Arith Construct Spec ProofsSolve ProofsSolution ProofsValues LocalSearch SpecSearch ItemsManip HyperSearch
  ProofsHyper MultiProcess ProofsLoose ProofsMulti PropertiesSearch PropertiesHyper PropertiesMulti
  Values ProofsVal Settings Instance SpecInstance ProofsMachine ProofsOps ProofsRun ProofsAccept ProofsSolver ProofsHistory ProofsRefine
  PropertiesStructures PropertiesHistory PropertiesSettings PropertiesInstance PropertiesCount MultiHistory SpecMultiHistory ProofsMultiHistory
  PropertiesMultiHistory FloatArith ProofsFloatOrder PropertiesFloat PropertiesFloatMulti ProofsFloatSame ProofsAgain PropertiesAgain
  ProofsTall ProofsTallSearch.
Import ListNotations.
Open Scope string_scope.
Open Scope list_scope.
Open Scope Z_scope.

(** The sum of the items' longer sides. *)
Definition longer_sides (items : odict dims) : Z := fold_right (fun kv n => Z.max (dw (snd kv)) (dl (snd kv)) + n) 0 items.

(** The height in use is at least five times that sum. *)
Definition height_to_spare {ar} (s : machine ar) : Prop :=
  exists items h, items_of s = Some items /\ m_height s = Some h /\ 5 * longer_sides items <= h.

(** Two strips with the same problem, up to the height. *)
Definition same_strip {ar} (s1 s2 : machine ar) : Prop :=
  containers_of s1 = containers_of s2 /\ items_of s1 = items_of s2 /\ rotation_of s1 = rotation_of s2 /\
  m_strip s1 = true /\ m_strip s2 = true /\ m_min s1 = m_min s2.

(** From [s1] and [s2] to [s1'] and [s2']: the same solution and utilizations; the heights are now
    the same, or neither was touched. *)
Definition same_but_height {ar} (s1 s2 s1' s2' : machine ar) : Prop :=
  m_sol s1' = m_sol s2' /\ m_objs s1' = m_objs s2' /\ m_strategy s1' = m_strategy s2' /\ same_strip s1' s2' /\
  (m_height s1' = m_height s2' \/ (m_height s1' = m_height s1 /\ m_height s2' = m_height s2)).

Section Machines.
Context {ar : arith} (o : orderly ar) (bound : Z).
Hypothesis ratio : forall d w, 0 <= d -> 0 < w < bound -> ratio_le_fifth ar d w = (5 * d <=? w).

Definition in_reach (s : machine ar) : Prop := forall h, m_height s = Some h -> h < bound.

Lemma view_is (s : machine ar) x : inv s -> view s = Some x -> m_strip s = true -> m_height s = Some (pb_height (in_pb x)).
Proof.
  intros I V Es. destruct (view_all s x V) as [_ [_ A3]]. destruct (iv_heights s I Es) as [h [E _]]. rewrite A3. cbn. rewrite E. reflexivity.
Qed.

Lemma view_near (s1 s2 : machine ar) x y : inv s1 -> inv s2 -> right_count s1 -> right_count s2 ->
  view s1 = Some x -> view s2 = Some y -> same_strip s1 s2 -> m_strategy s1 = m_strategy s2 ->
  height_to_spare s1 -> height_to_spare s2 -> in_reach s1 -> in_reach s2 ->
  let T := longer_sides (pb_items (in_pb x)) in
  @spare ar T (pb_height (in_pb x)) (pb_height (in_pb y)) /\ near T (pb_height (in_pb x)) (pb_height (in_pb y)) x y.
Proof.
  intros I1 I2 [c1 [R1 R1']] [c2 [R2 R2']] V1 V2 [S1 [S2 [S3 [S4 [S5 S6]]]]] Eg [it1 [h1 [P1 [P2 P3]]]] [it2 [h2 [Q1 [Q2 Q3]]]] B1 B2 T.
  pose proof (view_is _ _ I1 V1 S4) as H1. pose proof (view_is _ _ I2 V2 S5) as H2.
  specialize (B1 _ H1). specialize (B2 _ H2). rewrite H1 in P2. rewrite H2 in Q2. injection P2 as <-. injection Q2 as <-.
  destruct (view_all s1 x V1) as [A1 [A2 A3]]. destruct (view_all s2 y V2) as [C1 [C2 C3]].
  assert (E1 : pb_containers (in_pb x) = pb_containers (in_pb y)) by congruence.
  assert (E2 : pb_items (in_pb x) = pb_items (in_pb y)) by congruence.
  assert (it1 = pb_items (in_pb x)) by congruence. assert (it2 = pb_items (in_pb x)) by congruence. subst it1 it2.
  pose proof (inv_valid s1 x I1 V1) as W1.
  assert (Ex : pb_strip (in_pb x) = true) by (rewrite A3; exact S4). assert (Ey : pb_strip (in_pb y) = true) by (rewrite C3; exact S5).
  pose proof (proj1 (proj1 W1)) as VI.
  assert (HT : 1 <= T).
  { pose proof (proj1 (proj2 (proj2 (proj1 W1)))) as Hne. unfold T. pose proof (valid_pos _ VI) as Hp.
    destruct (pb_items (in_pb x)) as [|[i d] t]; [congruence|]. inversion Hp as [|? ? [D1 D2] Hp']. subst. cbn [snd] in D1, D2.
    pose proof (reach_nonneg t Hp') as G. change (longer_sides ((i, d) :: t)) with (Z.max (dw d) (dl d) + reach t). lia. }
  split.
  - split; [lia|]. split; [lia|]. split; [lia|]. intros d Hd. rewrite !ratio by lia.
    destruct (Z.leb_spec (5 * d) (pb_height (in_pb x))), (Z.leb_spec (5 * d) (pb_height (in_pb y))); lia || reflexivity.
  - split; [|split].
    + unfold near_pb, heights. split; [exact E1|]. split; [exact E2|]. split; [rewrite A3, C3; exact S3|]. split; [rewrite A3, C3; exact Eg|].
      split; [exact Ex|]. split; [exact Ey|]. split; [right; auto|]. split; [apply Z.le_refl|]. split; [exact VI|]. apply W1. exact Ex.
    + rewrite A3, C3. exact S6.
    + rewrite A3, C3. cbn. congruence.
Qed.

Lemma nearly_shown (s1 s2 s1' s2' : machine ar) T x y x' y' : inv s1 -> inv s2 -> inv s1' -> inv s2' ->
  view s1 = Some x -> view s2 = Some y -> view s1' = Some x' -> view s2' = Some y' -> m_strip s1 = true -> m_strip s2 = true ->
  nearly T (pb_height (in_pb x)) (pb_height (in_pb y)) x' y' -> same_but_height s1 s2 s1' s2'.
Proof.
  intros I1 I2 J1 J2 V1 V2 W1 W2 Z1 Z2 [[[N1 [N2 [N3 [N4 [N5 [N6 [N7 _]]]]]]] [N8 N9]] [E1 E2]].
  destruct (view_all s1' x' W1) as [A1 [A2 A3]]. destruct (view_all s2' y' W2) as [C1 [C2 C3]].
  assert (F1 : m_strip s1' = true) by (rewrite A3 in N5; exact N5). assert (F2 : m_strip s2' = true) by (rewrite C3 in N6; exact N6).
  unfold same_but_height. rewrite (view_is _ _ I1 V1 Z1), (view_is _ _ I2 V2 Z2), (view_is _ _ J1 W1 F1), (view_is _ _ J2 W2 F2).
  split; [rewrite A3, C3 in E1; exact E1|]. split; [rewrite A3, C3 in E2; exact E2|]. split; [rewrite A3, C3 in N4; exact N4|].
  split; [|destruct N7 as [->|[-> ->]]; auto].
  split; [congruence|]. split; [congruence|]. split; [rewrite A3, C3 in N3; exact N3|]. split; [exact F1|]. split; [exact F2|].
  rewrite A3, C3 in N8. exact N8.
Qed.

Lemma tall_construction env1 c1 i1 st1 w1 l1 (s1 : machine ar) env2 c2 i2 st2 w2 l2 (s2 : machine ar) sequence s1' s2' r1 r2 :
  careful_history env1 c1 i1 st1 w1 l1 s1 -> careful_history env2 c2 i2 st2 w2 l2 s2 ->
  same_strip s1 s2 -> m_strategy s1 = m_strategy s2 -> height_to_spare s1 -> height_to_spare s2 -> in_reach s1 -> in_reach s2 ->
  run (OpSolve sequence) s1 = (s1', r1) -> run (OpSolve sequence) s2 = (s2', r2) ->
  r1 = r2 /\ (r1 = Ok tt -> same_but_height s1 s2 s1' s2').
Proof.
  intros G1 G2 P Eg P1 P2 B1 B2 E1 E2.
  destruct (careful_good o _ _ _ _ _ _ _ G1) as [I1 [_ R1]]. destruct (careful_good o _ _ _ _ _ _ _ G2) as [I2 [_ R2]].
  destruct (inv_view s1 I1) as [? [? [_ [_ [_ [_ [_ [_ V1]]]]]]]]. destruct (inv_view s2 I2) as [? [? [_ [_ [_ [_ [_ [_ V2]]]]]]]].
  destruct (view_near s1 s2 _ _ I1 I2 R1 R2 V1 V2 P Eg P1 P2 B1 B2) as [Sp N].
  pose proof (solve_refines s1 _ sequence V1) as F1. pose proof (solve_refines s2 _ sequence V2) as F2.
  pose proof (near_solve_agree _ _ _ Sp _ _ sequence N) as A.
  destruct (inst_solve ar _ sequence) as [y1|e1] in F1, A; destruct (inst_solve ar _ sequence) as [y2|e2] in F2, A; cbn [agree] in A; try contradiction.
  - destruct F1 as [F1 W1], F2 as [F2 W2]. rewrite F1 in E1. rewrite F2 in E2. injection E1 as <- <-. injection E2 as <- <-. split; [reflexivity|]. intros _.
    eapply nearly_shown; [exact I1|exact I2| | |exact V1|exact V2|exact W1|exact W2| | |exact A].
    + eapply (step_inv o _ _ _ _ I1); [|exact F1]; reflexivity.
    + eapply (step_inv o _ _ _ _ I2); [|exact F2]; reflexivity.
    + apply P.
    + apply P.
  - rewrite F1 in E1. rewrite F2 in E2. injection E1 as <- <-. injection E2 as <- <-. subst e2. split; [reflexivity|discriminate].
Qed.

Lemma tall_local_search env1 c1 i1 st1 w1 l1 (s1 : machine ar) env2 c2 i2 st2 w2 l2 (s2 : machine ar) ck1 ck2 throttle :
  careful_history env1 c1 i1 st1 w1 l1 s1 -> careful_history env2 c2 i2 st2 w2 l2 s2 ->
  same_strip s1 s2 -> m_strategy s1 = m_strategy s2 -> height_to_spare s1 -> height_to_spare s2 -> in_reach s1 -> in_reach s2 ->
  same_time ck1 ck2 s1 s2 ->
  exists s1' s2', run (OpLocalSearch ck1 throttle) s1 = (s1', Ok tt) /\ run (OpLocalSearch ck2 throttle) s2 = (s2', Ok tt) /\
    same_but_height s1 s2 s1' s2'.
Proof.
  intros G1 G2 P Eg P1 P2 B1 B2 Ht.
  destruct (careful_good o _ _ _ _ _ _ _ G1) as [I1 [_ R1]]. destruct (careful_good o _ _ _ _ _ _ _ G2) as [I2 [_ R2]].
  destruct (inv_view s1 I1) as [? [? [_ [_ [_ [_ [_ [_ V1]]]]]]]]. destruct (inv_view s2 I2) as [? [? [_ [_ [_ [_ [_ [_ V2]]]]]]]].
  destruct (view_near s1 s2 _ _ I1 I2 R1 R2 V1 V2 P Eg P1 P2 B1 B2) as [Sp N]. pose proof o as [laws _].
  destruct (local_search_refines laws s1 _ ck1 throttle I1 V1) as [y1 [k1 [lg1 [S1 [F1 W1]]]]].
  destruct (local_search_refines laws s2 _ ck2 throttle I2 V2) as [y2 [k2 [lg2 [S2 [F2 W2]]]]].
  destruct (near_search _ _ _ Sp ck1 ck2 (c_limit (m_cfg s1)) (c_limit (m_cfg s2)) throttle None None _ _ 0%nat 0%nat _ _ N (proj1 (time_answers _ _ _ _ Ht)) S1 S2) as [A _].
  cbn [fst snd] in A.
  exists (put_back_state s1 y1), (put_back_state s2 y2). split; [exact F1|]. split; [exact F2|].
  eapply nearly_shown; [exact I1|exact I2| | |exact V1|exact V2|exact W1|exact W2| | |exact A].
  - eapply (step_inv o _ _ _ _ I1); [|exact F1]; reflexivity.
  - eapply (step_inv o _ _ _ _ I2); [|exact F2]; reflexivity.
  - apply P.
  - apply P.
Qed.

Lemma tall_hypersearch env1 c1 i1 st1 w1 l1 (s1 : machine ar) env2 c2 i2 st2 w2 l2 (s2 : machine ar) ck1 ck2 throttle
    orientation sorting strategies s1' s2' r1 r2 :
  careful_history env1 c1 i1 st1 w1 l1 s1 -> careful_history env2 c2 i2 st2 w2 l2 s2 ->
  same_strip s1 s2 -> m_strategy s1 = m_strategy s2 -> height_to_spare s1 -> height_to_spare s2 -> in_reach s1 -> in_reach s2 ->
  one_worker (workers_of s1) = true -> one_worker (workers_of s2) = true -> same_time ck1 ck2 s1 s2 ->
  run (OpHypersearch ck1 throttle orientation sorting strategies) s1 = (s1', r1) ->
  run (OpHypersearch ck2 throttle orientation sorting strategies) s2 = (s2', r2) ->
  r1 = r2 /\ (r1 = Ok tt -> same_but_height s1 s2 s1' s2' /\ m_best s1' = m_best s2').
Proof.
  intros G1 G2 P Eg P1 P2 B1 B2 O1 O2 Ht E1 E2.
  destruct (careful_good o _ _ _ _ _ _ _ G1) as [I1 [_ R1]]. destruct (careful_good o _ _ _ _ _ _ _ G2) as [I2 [_ R2]].
  destruct (inv_view s1 I1) as [? [? [_ [_ [_ [_ [_ [_ V1]]]]]]]]. destruct (inv_view s2 I2) as [? [? [_ [_ [_ [_ [_ [_ V2]]]]]]]].
  destruct (view_near s1 s2 _ _ I1 I2 R1 R2 V1 V2 P Eg P1 P2 B1 B2) as [Sp N]. pose proof o as [laws _].
  pose proof (hypersearch_refines laws s1 _ ck1 throttle orientation sorting strategies I1 V1 O1) as F1.
  pose proof (hypersearch_refines laws s2 _ ck2 throttle orientation sorting strategies I2 V2 O2) as F2.
  pose proof (near_hypersearch laws _ _ _ Sp ck1 ck2 (c_limit (m_cfg s1)) (c_limit (m_cfg s2)) throttle orientation sorting strategies _ _ 0%nat 0%nat N
    (inv_valid _ _ I1 V1) (inv_valid _ _ I2 V2) (time_answers _ _ _ _ Ht)) as A.
  assert (J1 : inv s1') by (eapply (step_inv o _ _ _ _ I1); [|exact E1]; reflexivity).
  assert (J2 : inv s2') by (eapply (step_inv o _ _ _ _ I2); [|exact E2]; reflexivity).
  rewrite E1 in F1. rewrite E2 in F2.
  destruct (hypersearch ar ck1 _ _ _ _ _ _ _) as [a|e1]; destruct (hypersearch ar ck2 _ _ _ _ _ _ _) as [b|e2]; cbn [agree] in A; try contradiction.
  - destruct F1 as [t1 [F1 [W1 M1]]], F2 as [t2 [F2 [W2 M2]]]. injection F1 as Et1 Er1. injection F2 as Et2 Er2. subst t1 t2 r1 r2.
    split; [reflexivity|]. intros _. destruct A as [A1 [A2 A3]]. split; [|congruence].
    eapply nearly_shown; [exact I1|exact I2|exact J1|exact J2|exact V1|exact V2|exact W1|exact W2| | |exact A1]; apply P.
  - injection F1 as Et1 Er1. injection F2 as Et2 Er2. subst. split; [reflexivity|discriminate].
Qed.
End Machines.

(** ** C82: with height to spare, the height of a strip is not observable *)
Lemma exact_ratio d w : ratio_le_fifth qarith d w = (5 * d <=? w).
Proof. reflexivity. Qed.

Definition highest {ar} (s1 s2 : machine ar) : Z :=
  match m_height s1, m_height s2 with Some h1, Some h2 => Z.max h1 h2 + 1 | _, _ => 0 end.
Lemma highest_l {ar} (s1 s2 : machine ar) : height_to_spare s2 -> in_reach (highest s1 s2) s1.
Proof. intros [_ [h2 [_ [E _]]]] h1 E1. unfold highest. rewrite E, E1. lia. Qed.
Lemma highest_r {ar} (s1 s2 : machine ar) : height_to_spare s1 -> in_reach (highest s1 s2) s2.
Proof. intros [_ [h2 [_ [E _]]]] h1 E1. unfold highest. rewrite E, E1. lia. Qed.

Theorem C82_construction :
  forall env1 c1 i1 st1 w1 l1 (s1 : machine qarith), careful_history env1 c1 i1 st1 w1 l1 s1 ->
  forall env2 c2 i2 st2 w2 l2 (s2 : machine qarith), careful_history env2 c2 i2 st2 w2 l2 s2 ->
  same_strip s1 s2 -> m_strategy s1 = m_strategy s2 -> height_to_spare s1 -> height_to_spare s2 ->
  forall sequence s1' s2' r1 r2, run (OpSolve sequence) s1 = (s1', r1) -> run (OpSolve sequence) s2 = (s2', r2) ->
  r1 = r2 /\ (r1 = Ok tt -> same_but_height s1 s2 s1' s2').
Proof.
  intros env1 c1 i1 st1 w1 l1 s1 G1 env2 c2 i2 st2 w2 l2 s2 G2 P Eg P1 P2 sequence s1' s2' r1 r2 E1 E2.
  eapply (tall_construction qarith_orderly (highest s1 s2) (fun d w _ _ => exact_ratio d w)); eauto using highest_l, highest_r.
Qed.
Print Assumptions C82_construction.

Theorem C82_local_search :
  forall env1 c1 i1 st1 w1 l1 (s1 : machine qarith), careful_history env1 c1 i1 st1 w1 l1 s1 ->
  forall env2 c2 i2 st2 w2 l2 (s2 : machine qarith), careful_history env2 c2 i2 st2 w2 l2 s2 ->
  same_strip s1 s2 -> m_strategy s1 = m_strategy s2 -> height_to_spare s1 -> height_to_spare s2 ->
  forall ck1 ck2 throttle, same_time ck1 ck2 s1 s2 ->
  exists s1' s2', run (OpLocalSearch ck1 throttle) s1 = (s1', Ok tt) /\ run (OpLocalSearch ck2 throttle) s2 = (s2', Ok tt) /\
    same_but_height s1 s2 s1' s2'.
Proof.
  intros env1 c1 i1 st1 w1 l1 s1 G1 env2 c2 i2 st2 w2 l2 s2 G2 P Eg P1 P2 ck1 ck2 throttle Ht.
  eapply (tall_local_search qarith_orderly (highest s1 s2) (fun d w _ _ => exact_ratio d w)); eauto using highest_l, highest_r.
Qed.
Print Assumptions C82_local_search.

Theorem C82_hypersearch :
  forall env1 c1 i1 st1 w1 l1 (s1 : machine qarith), careful_history env1 c1 i1 st1 w1 l1 s1 ->
  forall env2 c2 i2 st2 w2 l2 (s2 : machine qarith), careful_history env2 c2 i2 st2 w2 l2 s2 ->
  same_strip s1 s2 -> m_strategy s1 = m_strategy s2 -> height_to_spare s1 -> height_to_spare s2 ->
  one_worker (workers_of s1) = true -> one_worker (workers_of s2) = true ->
  forall ck1 ck2 throttle, same_time ck1 ck2 s1 s2 ->
  forall orientation sorting strategies s1' s2' r1 r2,
  run (OpHypersearch ck1 throttle orientation sorting strategies) s1 = (s1', r1) ->
  run (OpHypersearch ck2 throttle orientation sorting strategies) s2 = (s2', r2) ->
  r1 = r2 /\ (r1 = Ok tt -> same_but_height s1 s2 s1' s2' /\ m_best s1' = m_best s2').
Proof.
  intros env1 c1 i1 st1 w1 l1 s1 G1 env2 c2 i2 st2 w2 l2 s2 G2 P Eg P1 P2 O1 O2 ck1 ck2 throttle Ht orientation sorting strategies s1' s2' r1 r2 E1 E2.
  eapply (tall_hypersearch qarith_orderly (highest s1 s2) (fun d w _ _ => exact_ratio d w)); eauto using highest_l, highest_r.
Qed.
Print Assumptions C82_hypersearch.

(** With the source's doubles, for heights below 2^51. *)
Definition height_below (bound : Z) {ar} (s : machine ar) : Prop := forall h, m_height s = Some h -> h < bound.

Theorem C82_construction_doubles :
  forall env1 c1 i1 st1 w1 l1 (s1 : machine farith), careful_history env1 c1 i1 st1 w1 l1 s1 ->
  forall env2 c2 i2 st2 w2 l2 (s2 : machine farith), careful_history env2 c2 i2 st2 w2 l2 s2 ->
  same_strip s1 s2 -> m_strategy s1 = m_strategy s2 -> height_to_spare s1 -> height_to_spare s2 ->
  height_below (2 ^ 51) s1 -> height_below (2 ^ 51) s2 ->
  forall sequence s1' s2' r1 r2, run (OpSolve sequence) s1 = (s1', r1) -> run (OpSolve sequence) s2 = (s2', r2) ->
  r1 = r2 /\ (r1 = Ok tt -> same_but_height s1 s2 s1' s2').
Proof.
  intros env1 c1 i1 st1 w1 l1 s1 G1 env2 c2 i2 st2 w2 l2 s2 G2 P Eg P1 P2 B1 B2 sequence s1' s2' r1 r2 E1 E2.
  eapply (tall_construction farith_orderly (2 ^ 51) fifth_exact); eauto.
Qed.
Print Assumptions C82_construction_doubles.

Theorem C82_local_search_doubles :
  forall env1 c1 i1 st1 w1 l1 (s1 : machine farith), careful_history env1 c1 i1 st1 w1 l1 s1 ->
  forall env2 c2 i2 st2 w2 l2 (s2 : machine farith), careful_history env2 c2 i2 st2 w2 l2 s2 ->
  same_strip s1 s2 -> m_strategy s1 = m_strategy s2 -> height_to_spare s1 -> height_to_spare s2 ->
  height_below (2 ^ 51) s1 -> height_below (2 ^ 51) s2 ->
  forall ck1 ck2 throttle, same_time ck1 ck2 s1 s2 ->
  exists s1' s2', run (OpLocalSearch ck1 throttle) s1 = (s1', Ok tt) /\ run (OpLocalSearch ck2 throttle) s2 = (s2', Ok tt) /\
    same_but_height s1 s2 s1' s2'.
Proof.
  intros env1 c1 i1 st1 w1 l1 s1 G1 env2 c2 i2 st2 w2 l2 s2 G2 P Eg P1 P2 B1 B2 ck1 ck2 throttle Ht.
  eapply (tall_local_search farith_orderly (2 ^ 51) fifth_exact); eauto.
Qed.
Print Assumptions C82_local_search_doubles.

Theorem C82_hypersearch_doubles :
  forall env1 c1 i1 st1 w1 l1 (s1 : machine farith), careful_history env1 c1 i1 st1 w1 l1 s1 ->
  forall env2 c2 i2 st2 w2 l2 (s2 : machine farith), careful_history env2 c2 i2 st2 w2 l2 s2 ->
  same_strip s1 s2 -> m_strategy s1 = m_strategy s2 -> height_to_spare s1 -> height_to_spare s2 ->
  height_below (2 ^ 51) s1 -> height_below (2 ^ 51) s2 ->
  one_worker (workers_of s1) = true -> one_worker (workers_of s2) = true ->
  forall ck1 ck2 throttle, same_time ck1 ck2 s1 s2 ->
  forall orientation sorting strategies s1' s2' r1 r2,
  run (OpHypersearch ck1 throttle orientation sorting strategies) s1 = (s1', r1) ->
  run (OpHypersearch ck2 throttle orientation sorting strategies) s2 = (s2', r2) ->
  r1 = r2 /\ (r1 = Ok tt -> same_but_height s1 s2 s1' s2' /\ m_best s1' = m_best s2').
Proof.
  intros env1 c1 i1 st1 w1 l1 s1 G1 env2 c2 i2 st2 w2 l2 s2 G2 P Eg P1 P2 B1 B2 O1 O2 ck1 ck2 throttle Ht orientation sorting strategies s1' s2' r1 r2 E1 E2.
  eapply (tall_hypersearch farith_orderly (2 ^ 51) fifth_exact); eauto.
Qed.
Print Assumptions C82_hypersearch_doubles.

(** *** Cases *)
(** The strip at its default height (ten times its width) and one that was solved and made twenty
    times higher. *)
Definition raised : list op := [OpSolve None; OpSetHeight (VInt 1000)].
Lemma careful_after {ar} env c i st w (s0 : machine ar) l : created env c i st w s0 ->
  (forall o, In o l -> uses_ior o = false /\ is_hypersearch o = false /\ forall s, up_to_date (ar := ar) s o) ->
  careful_history env c i st w (map Plain l) (after s0 l).
Proof.
  intros H0 H. exists s0. split; [exact H0|]. clear H0. revert s0 H. induction l as [|o t IH]; intros s H; [constructor|].
  destruct (H o (or_introl eq_refl)) as [A [B C]]. cbn [map]. econstructor; [exact A|apply C| |].
  - apply mrun_plain; [rewrite B; discriminate|apply surjective_pairing].
  - apply (IH (fst (run o s))). intros o' Ho. apply H. right. exact Ho.
Qed.

Example C82_witness :
  careful_history no_libraries VNone three_items VNone (VInt 5) [] strip /\
  careful_history no_libraries VNone three_items VNone (VInt 5) (map Plain raised) (after strip raised) /\
  same_strip strip (after strip raised) /\ m_strategy strip = m_strategy (after strip raised) /\
  height_to_spare strip /\ height_to_spare (after strip raised) /\
  m_height strip = Some 50 /\ m_height (after strip raised) = Some 1000 /\
  one_worker (workers_of strip) = true /\ one_worker (workers_of (after strip raised)) = true.
Proof.
  split; [exists strip; split; [exact strip_created|constructor]|].
  split.
  - apply careful_after; [exact strip_created|]. intros o [<-|[<-|[]]]; repeat split.
  - refine (conj (conj _ (conj _ (conj _ (conj _ (conj _ _))))) (conj _ (conj _ (conj _ (conj _ (conj _ (conj _ _))))))); try (vm_compute; reflexivity).
    + exists [("a", mkDims 2 3); ("b", mkDims 4 1); ("c", mkDims 3 3)], 50. split; [vm_compute; reflexivity|]. split; [vm_compute; reflexivity|].
      vm_compute. discriminate.
    + exists [("a", mkDims 2 3); ("b", mkDims 4 1); ("c", mkDims 3 3)], 1000. split; [vm_compute; reflexivity|]. split; [vm_compute; reflexivity|].
      vm_compute. discriminate.
Qed.

(** A factor of one is not enough: a strip of width 4, items 1x2, 2x2 and 3x2, whose longer sides
    add up to 7. Nothing can be higher than 7, yet heights 8 and 35 give different solutions and
    different values (the class a point gets, B' or F, is a matter of its distance over the height
    of the strip). *)
Definition low_items : pyval :=
  VDict [(VStr "a", py_dims KItems 1 2); (VStr "b", py_dims KItems 2 2); (VStr "c", py_dims KItems 3 2)].
Definition low_strip : machine qarith := fst (create qarith no_libraries VNone low_items VNone (VInt 4) (blank qarith)).
Definition b_prime_first : pyval :=
  VTuple (map VStr ["B_"; "A"; "B"; "C"; "D"; "A_"; "B__"; "A__"; "E"; "F"]).
Definition at_height (h : Z) : list op := [OpSetStrategy b_prime_first; OpSetHeight (VInt h)].

Theorem C82_one_reach_not_enough :
  exists (s1 s2 : machine qarith),
    careful_history no_libraries VNone low_items VNone (VInt 4) (map Plain (at_height 8)) s1 /\
    careful_history no_libraries VNone low_items VNone (VInt 4) (map Plain (at_height 35)) s2 /\
    same_strip s1 s2 /\ m_strategy s1 = m_strategy s2 /\ m_height s1 = Some 8 /\ m_height s2 = Some 35 /\
    items_of s1 = Some [("a", mkDims 1 2); ("b", mkDims 2 2); ("c", mkDims 3 2)] /\
    m_sol (after s1 [OpSolve None]) <> m_sol (after s2 [OpSolve None]) /\
    m_objs (after s1 [OpSolve None]) <> m_objs (after s2 [OpSolve None]).
Proof.
  exists (after low_strip (at_height 8)), (after low_strip (at_height 35)).
  assert (C : created no_libraries VNone low_items VNone (VInt 4) low_strip) by (apply created_fst; vm_compute; reflexivity).
  split; [apply careful_after; [exact C|]; intros o [<-|[<-|[]]]; repeat split|].
  split; [apply careful_after; [exact C|]; intros o [<-|[<-|[]]]; repeat split|].
  refine (conj (conj _ (conj _ (conj _ (conj _ (conj _ _))))) (conj _ (conj _ (conj _ (conj _ (conj _ _)))))); try (vm_compute; reflexivity).
  - vm_compute. discriminate.
  - vm_compute. discriminate.
Qed.
Print Assumptions C82_one_reach_not_enough.
