(** * Properties of [hypersearch()] in one process: C23-C25, C50, C54, and C21/C30 for it. *)
From Coq Require Import ZArith String List Bool QArith Lia Permutation Sorted.
From Coq Require Import ZifyBool ZifyNat.
From Verif Require Import Py Arith Construct Spec Runs LocalSearch SpecSearch Perms ItemsManip
  HyperSearch ProofsPy ProofsConstruct ProofsSolve ProofsPacking ProofsSolution ProofsValues
  ProofsLocalSearch ProofsSearchRun PropertiesSolve PropertiesSearch PropertiesItems ProofsHyper.
Import ListNotations.
Open Scope string_scope.
Open Scope list_scope.
Open Scope Z_scope.

Definition pclass_dec : forall a b : pclass, {a = b} + {a <> b}.
Proof. decide equality. Defined.

(** ** C23. [order] is the iteration order of a Python set, any of the possible ones. *)
Theorem C23_strategies : forall strip order, set_order strip order ->
  let gs := get_strategies true order in
  length gs = 720%nat /\ NoDup gs /\
  (* exactly the rearrangements of the ten classes that end in the suffix *)
  forall g, In g gs <->
    Permutation g default_strategy /\ exists front, g = front ++ [cA__; cB__; cF; cE].
Proof.
  intros strip order [Hn Hin] gs.
  assert (Hp : Permutation order [cA; cB; cC; cD; cA_; cB_]).
  { apply NoDup_Permutation; [assumption|repeat constructor; simpl; intuition discriminate|].
    intros p. rewrite Hin. destruct strip; destruct p; simpl; intuition discriminate. }
  assert (Hl : length order = 6%nat) by (rewrite (Permutation_length Hp); reflexivity).
  unfold gs, get_strategies. split; [|split].
  - rewrite map_length, permutations_length, Hl. reflexivity.
  - apply FinFun.Injective_map_NoDup.
    + intros a b E. apply app_inv_tail in E. assumption.
    + apply NoDup_permutations. assumption.
  - intros g. rewrite in_map_iff. unfold strategies_suffix. split.
    + intros [p [<- H]]. apply in_permutations in H. split; [|eauto]. rewrite H, Hp.
      apply NoDup_Permutation.
      * repeat constructor; simpl; intuition discriminate.
      * repeat constructor; simpl; intuition discriminate.
      * intros q. destruct q; simpl; intuition discriminate.
    + intros [H [front ->]]. exists front. split; [reflexivity|]. apply in_permutations.
      rewrite Hp. apply (Permutation_app_inv_r [cA__; cB__; cF; cE]). rewrite H.
      apply NoDup_Permutation.
      * repeat constructor; simpl; intuition discriminate.
      * repeat constructor; simpl; intuition discriminate.
      * intros q. destruct q; simpl; intuition discriminate.
Qed.
Print Assumptions C23_strategies.

Definition order1 : list pclass := [cA; cB; cC; cD; cA_; cB_].
Definition order2 : list pclass := [cB; cA; cC; cD; cA_; cB_].
Example order2_possible : set_order false order2 /\ set_order true order2.
Proof.
  split; (split; [repeat constructor; simpl; intuition discriminate|]);
    intros p; destruct p; simpl; intuition discriminate.
Qed.

(** ** What hypersearch runs on: the items sorted and oriented. *)
Definition prepared (ar : arith) (orientation : option string) (sorting_by : option (string * bool))
           (x x2 : inst ar) : Prop :=
  exists x1, sort_items ar sorting_by x = Ok x1 /\ x2 = orient_items ar orientation x1.

Lemma prepared_kept ar o sb (x x2 : inst ar) : prepared ar o sb x x2 ->
  pb_containers (in_pb x2) = pb_containers (in_pb x) /\
                  pb_rotation (in_pb x2) = pb_rotation (in_pb x) /\
                  pb_strip (in_pb x2) = pb_strip (in_pb x) /\ in_min x2 = in_min x /\
                  in_cnum x2 = in_cnum x /\ pb_height (in_pb x2) = pb_height (in_pb x) /\
                  pb_strategy (in_pb x2) = pb_strategy (in_pb x).
Proof.
  intros Hp. destruct Hp as [x1 [Hs ->]].
    assert (H1 : pb_containers (in_pb x1) = pb_containers (in_pb x) /\
                  pb_rotation (in_pb x1) = pb_rotation (in_pb x) /\
                  pb_strip (in_pb x1) = pb_strip (in_pb x) /\ in_min x1 = in_min x /\
                  in_cnum x1 = in_cnum x /\ pb_height (in_pb x1) = pb_height (in_pb x) /\
                  pb_strategy (in_pb x1) = pb_strategy (in_pb x)).
    { unfold sort_items in Hs. destruct sb as [[by_ rv]|]; [|injection Hs as <-; repeat split].
      destruct (key_lt ar by_); [|discriminate]. injection Hs as <-. repeat split. }
    assert (G : forall f t, in_pb (orient_all ar f t x1) = in_pb x1 \/
       in_pb (orient_all ar f t x1) = in_pb (set_items x1 (pb_items (in_pb (orient_all ar f t x1))))).
    { intros f t. unfold orient_all. destruct (existsb _ _); [right; reflexivity|left; reflexivity]. }
    assert (G2 : forall f t, in_min (orient_all ar f t x1) = in_min x1 /\ in_cnum (orient_all ar f t x1) = in_cnum x1).
    { intros f t. unfold orient_all. destruct (existsb _ _); split; reflexivity. }
    unfold orient_items. destruct o as [o|]; [|exact H1]. destruct (negb _); [exact H1|].
    destruct (String.eqb o "wide").
    { destruct (G2 orient_wide (fun d => dl d >? dw d)) as [-> ->].
      destruct (G orient_wide (fun d => dl d >? dw d)) as [->| ->]; exact H1. }
    destruct (String.eqb o "long"); [|exact H1].
    destruct (G2 orient_long (fun d => dl d <? dw d)) as [-> ->].
    destruct (G orient_long (fun d => dl d <? dw d)) as [->| ->]; exact H1.
Qed.

(** The value [w] was reached by a local search on the prepared items with strategy [g]. *)
Definition local_search_value (ar : arith) (ck : clock) (limit : Z) (throttle : bool) (start : Z)
           (x2 : inst ar) (g : list pclass) (w : num ar) : Prop :=
  exists y clk y' clk' log,
    in_pb y = pb_with_height (pb_with_strategy (in_pb x2) g) (pb_height (in_pb y)) /\
    (if pb_strip (in_pb x2) then 1 <= pb_height (in_pb y) <= pb_height (in_pb x2)
     else pb_height (in_pb y) = pb_height (in_pb x2)) /\
    in_min y = in_min x2 /\ in_cnum y = in_cnum x2 /\
    local_search ar ck limit throttle (Some start) y clk = Ok (y', clk', log) /\
    calculate_obj_value ar y' = Ok w.

Lemma hypersearch_run ar : arith_laws ar -> forall x, valid_inst ar x ->
  forall ck limit throttle orientation sorting_by strategies clk r,
  hypersearch ar ck limit throttle orientation sorting_by strategies x clk = Ok r ->
  exists x2, prepared ar orientation sorting_by x x2 /\ valid_inst ar x2 /\
  exists s0 s imp, hstart ar x2 s0 (S clk) /\
    r = mkHsR (set_solution (hs_st s) (fst (hs_ret s)) (snd (hs_ret s))) (hs_strategy s)
              (S (hs_clk s)) (hr_log r) /\
    hinv ar x2 s imp /\ hrun ar x2 ck limit throttle (ck clk) strategies s0 s imp (hr_log r).
Proof.
  intros laws x Hv ck limit throttle o sb strategies clk r H. unfold hypersearch in H.
  destruct (sort_items ar sb x) as [x1|] eqn:Es; [|discriminate]. cbn [bind] in H.
  pose proof (sort_items_valid ar x x1 sb Hv Es) as Hv1.
  pose proof (orient_items_valid ar x1 o Hv1) as Hv2.
  set (x2 := orient_items ar o x1) in *.
  destruct (single_process_run ar laws x2 Hv2 ck limit throttle (ck clk) strategies (S clk))
    as [s0 [s [imp [log [H1 [H2 [H3 H4]]]]]]].
  rewrite H2 in H. cbn [bind] in H. injection H as <-. exists x2. split; [exists x1; auto|].
  split; [assumption|]. exists s0, s, imp. auto.
Qed.

(** ** C24 *)
Theorem C24_best_value_returned : forall ar, arith_laws ar -> forall x, valid_inst ar x ->
  forall ck limit throttle orientation sorting_by strategies clk r,
  hypersearch ar ck limit throttle orientation sorting_by strategies x clk = Ok r ->
  exists x2 sol0 objs0 v0 v,
    prepared ar orientation sorting_by x x2 /\
    solve ar (in_pb x2) None = Ok (sol0, objs0) /\
    obj_value ar (in_cnum x2) (dvals objs0) = Ok v0 /\
    calculate_obj_value ar (hr_inst r) = Ok v /\
    (* at least the initial value, and nothing met was better *)
    at_least ar v v0 /\ (forall g w, In (g, w) (hr_log r) -> ngtb ar w v = false) /\
    (* every logged value is that of a local search, in the order of the strategies *)
    (forall g w, In (g, w) (hr_log r) -> local_search_value ar ck limit throttle (ck clk) x2 g w) /\
    (exists rest, strategies = map fst (hr_log r) ++ rest) /\
    (* it is one of them, and best_strategy says which *)
    ((v = v0 /\ in_objs (hr_inst r) = objs0 /\ same_placements sol0 (in_sol (hr_inst r))) \/
     In (hr_best_strategy r, v) (hr_log r)).
Proof.
  intros ar laws x Hv ck limit throttle o sb strategies clk r H.
  destruct (hypersearch_run ar laws x Hv _ _ _ _ _ _ _ _ H)
    as [x2 [Hp [Hv2 [s0 [s [imp [Hs0 [Er [Hi Hr]]]]]]]]].
  destruct (hst_sol _ _ _ _ Hs0) as [sol0 [objs0 [S1 [S2 [S3 S4]]]]].
  exists x2, sol0, objs0, (hs_best s0), (hs_best s).
  split; [exact Hp|]. split; [assumption|]. split; [assumption|]. split.
  { rewrite Er. cbn [hr_inst]. unfold calculate_obj_value. cbn [in_cnum in_objs set_solution].
    destruct (hi_config _ _ _ _ Hi) as [_ [_ E]]. rewrite E. apply (hi_value _ _ _ _ Hi). }
  split; [exact (hrun_value _ _ _ _ _ _ _ _ _ _ _ Hr)|].
  split; [exact (hrun_max _ _ _ _ _ _ _ _ _ _ _ Hr)|].
  split.
  { intros g w Hin. destruct (hrun_searched _ _ _ _ _ _ _ _ _ _ _ Hr g w Hin)
      as [y [c [y' [c' [lg [Y1 [Y2 [Y3 [Y4 Y5]]]]]]]]].
    exists y, c, y', c', lg. destruct Y1 as [Y1 [Y6 Y7]]. rewrite Y3 in Y1. auto 8. }
  split.
  { destruct (hrun_prefix _ _ _ _ _ _ _ _ _ _ _ Hr) as [rest [E _]]. eauto. }
  rewrite Er. cbn [hr_inst hr_best_strategy hr_log in_objs in_sol set_solution].
  destruct (hrun_which _ _ _ _ _ _ _ _ _ _ _ Hr) as [[_ [E1 [E2 E3]]]|[_ E]].
  - left. rewrite E2. auto.
  - right. assumption.
Qed.
Print Assumptions C24_best_value_returned.

(** The solution is a genuine construction, and hypersearch always finishes. *)
Theorem C24_genuine : forall ar, arith_laws ar -> forall x, valid_inst ar x ->
  forall ck limit throttle orientation sorting_by strategies clk r,
  hypersearch ar ck limit throttle orientation sorting_by strategies x clk = Ok r ->
  exists x2 g h seq sol,
    prepared ar orientation sorting_by x x2 /\
    Permutation seq (dkeys (pb_items (in_pb x2))) /\
    (if pb_strip (in_pb x2) then 1 <= h <= pb_height (in_pb x2) else h = pb_height (in_pb x2)) /\
    solve ar (pb_with_height (pb_with_strategy (in_pb x2) g) h) (Some seq) = Ok (sol, in_objs (hr_inst r)) /\
    same_placements sol (in_sol (hr_inst r)) /\
    (* the strategy that made it is [best_strategy], unless no strategy tried was better than
       the initial construction: then [best_strategy] is the default one *)
    (g = hr_best_strategy r \/
     (g = pb_strategy (in_pb x2) /\ hr_best_strategy r = default_strategy)).
Proof.
  intros ar laws x Hv ck limit throttle o sb strategies clk r H.
  destruct (hypersearch_run ar laws x Hv _ _ _ _ _ _ _ _ H)
    as [x2 [Hp [Hv2 [s0 [s [imp [Hs0 [Er [Hi Hr]]]]]]]]].
  destruct (hi_made _ _ _ _ Hi) as [g [h [Hg [Hh [seq [sol [M1 [M2 M3]]]]]]]].
  exists x2, g, h, seq, sol. rewrite Er. cbn [hr_inst hr_best_strategy in_objs in_sol set_solution].
  split; [assumption|]. split; [exact M1|]. split; [exact Hh|]. split; [exact M2|]. split; [exact M3|].
  unfold strategy_of in Hg. destruct imp; [left; symmetry; assumption|]. right. tauto.
Qed.
Print Assumptions C24_genuine.

Theorem C24_terminates : forall ar, arith_laws ar -> forall x, valid_inst ar x ->
  forall ck limit throttle orientation sorting_by strategies clk,
  (forall by_ reverse, sorting_by = Some (by_, reverse) -> forall d, criterion by_ d <> None) ->
  exists r, hypersearch ar ck limit throttle orientation sorting_by strategies x clk = Ok r.
Proof.
  intros ar laws x Hv ck limit throttle o sb strategies clk Hsb.
  assert (Hs : exists x1, sort_items ar sb x = Ok x1).
  { destruct sb as [[by_ reverse]|]; [|eexists; reflexivity].
    destruct (C44_other_criteria ar x by_ reverse) as [_ [[C|[y E]] _]]; [|eauto].
    exfalso. apply (Hsb by_ reverse eq_refl (mkDims 1 1)). apply C. }
  destruct Hs as [x1 E]. unfold hypersearch. rewrite E. cbn [bind].
  pose proof (orient_items_valid ar x1 o (sort_items_valid ar x x1 sb Hv E)) as Hv2.
  destruct (single_process_run ar laws _ Hv2 ck limit throttle (ck clk) strategies (S clk))
    as [s0 [s [imp [log [H1 [H2 [H3 H4]]]]]]].
  rewrite H2. cbn [bind]. eauto.
Qed.
Print Assumptions C24_terminates.

(** A clock that stops everything at the [n]-th reading. *)
Definition strikes_at (n : nat) : clock := fun k => if (k <? n)%nat then 0 else 1000.

(** To exhibit a result without writing it down. *)
Lemma Ok_with {A} (r : result A) (P : A -> Prop) :
  match r with Ok a => P a | Err _ => False end -> exists a, r = Ok a /\ P a.
Proof. destruct r; [eauto|contradiction]. Qed.

Definition hyper_pb : inst qarith := fresh {|
  pb_containers := [("bin", mkDims 3 3)];
  pb_items := [("a", mkDims 1 2); ("b", mkDims 2 2); ("c", mkDims 1 3)];
  pb_rotation := true; pb_strategy := default_strategy; pb_strip := false; pb_height := 0 |} None.
Example hyper_demo : valid_inst qarith hyper_pb /\
  exists r, hypersearch qarith (strikes_at 8) 60 true (Some "wide") (Some ("area", true))
              (get_strategies true order2) hyper_pb 0 = Ok r /\
    length (hr_log r) = 2%nat /\
    hr_best_strategy r = default_strategy.
Proof.
  split; [split; [valid_demo|discriminate]|].
  apply Ok_with. vm_compute. repeat split.
Qed.

(** ** C25: false of the code. The "optimum" compared with is infinity, so that in exact
    arithmetic only the time limit ends the loop early: *)
Theorem C25_stops_only_for_time : forall x, valid_inst qarith x ->
  forall ck limit throttle orientation sorting_by strategies clk r,
  hypersearch qarith ck limit throttle orientation sorting_by strategies x clk = Ok r ->
  (forall n, ck n - ck clk <= limit) -> map fst (hr_log r) = strategies.
Proof.
  intros x Hv ck limit throttle o sb strategies clk r H Hck.
  destruct (hypersearch_run qarith qarith_laws x Hv _ _ _ _ _ _ _ _ H)
    as [x2 [Hp [Hv2 [s0 [s [imp [Hs0 [Er [Hi Hr]]]]]]]]].
  destruct (hrun_prefix _ _ _ _ _ _ _ _ _ _ _ Hr) as [rest [E [->|[g [w [pre [n [_ [C|[C _]]]]]]]]]].
  - rewrite app_nil_r in E. congruence.
  - discriminate.
  - unfold over_time in C. specialize (Hck n). lia.
Qed.
Print Assumptions C25_stops_only_for_time.

(** One item that fills its bin: utilization 1 from the start, and 720 local searches. *)
Definition full_demo : inst qarith := fresh {|
  pb_containers := [("bin", mkDims 3 2)]; pb_items := [("a", mkDims 3 2)];
  pb_rotation := true; pb_strategy := default_strategy; pb_strip := false; pb_height := 0 |} None.

Theorem C25_stops_at_full_utilization_refuted :
  valid_inst qarith full_demo /\
  solve qarith (in_pb full_demo) None =
    Ok ([("bin", [("a", mkEntry 0 0 3 2)])], [("bin", 1%Q)]) /\
  forall order throttle clk, set_order false order ->
  exists r, hypersearch qarith frozen 60 throttle (Some "wide") (Some ("area", true))
              (get_strategies true order) full_demo clk = Ok r /\
    length (hr_log r) = 720%nat.
Proof.
  assert (Hv : valid_inst qarith full_demo).
  { split; [valid_demo|discriminate]. }
  split; [exact Hv|]. split; [vm_compute; reflexivity|]. intros order throttle clk Ho.
  destruct (C24_terminates qarith qarith_laws full_demo Hv frozen 60 throttle (Some "wide")
              (Some ("area", true)) (get_strategies true order) clk) as [r Hr].
  { intros by_ reverse [= <- <-] d. discriminate. }
  exists r. split; [exact Hr|].
  rewrite <- (map_length fst). rewrite (C25_stops_only_for_time full_demo Hv _ _ _ _ _ _ _ _ Hr).
  - apply (C23_strategies false order Ho).
  - intros n. unfold frozen. lia.
Qed.
Print Assumptions C25_stops_at_full_utilization_refuted.

(** What remains true: the loop goes through the strategies in order and ends early only after a
    strategy whose value reached the (infinite) optimum or when the time limit has passed. *)
Theorem C25_partial : forall ar, arith_laws ar -> forall x, valid_inst ar x ->
  forall ck limit throttle orientation sorting_by strategies clk r,
  hypersearch ar ck limit throttle orientation sorting_by strategies x clk = Ok r ->
  exists rest, strategies = map fst (hr_log r) ++ rest /\
    (rest = [] \/ exists pre g w, hr_log r = pre ++ [(g, w)] /\
       (nge_inf ar w = true \/ exists n, ck n - ck clk > limit /\ hr_clk r = S (S n))).
Proof.
  intros ar laws x Hv ck limit throttle o sb strategies clk r H.
  destruct (hypersearch_run ar laws x Hv _ _ _ _ _ _ _ _ H)
    as [x2 [Hp [Hv2 [s0 [s [imp [Hs0 [Er [Hi Hr]]]]]]]]].
  destruct (hrun_prefix _ _ _ _ _ _ _ _ _ _ _ Hr) as [rest [E D]]. exists rest. split; [exact E|].
  destruct D as [D|[g [w [pre [n [D1 D2]]]]]]; [left; assumption|]. right. exists pre, g, w.
  split; [assumption|]. destruct D2 as [D2|[D2 D3]]; [left; assumption|]. right. exists n.
  unfold over_time in D2. split; [lia|]. rewrite Er. cbn [hr_clk]. congruence.
Qed.
Print Assumptions C25_partial.

(** ** C50 *)
Theorem C50_configuration_partial : forall ar, arith_laws ar -> forall x, valid_inst ar x ->
  forall ck limit throttle orientation sorting_by strategies clk r,
  hypersearch ar ck limit throttle orientation sorting_by strategies x clk = Ok r ->
  exists x2, prepared ar orientation sorting_by x x2 /\
  let y := hr_inst r in
  pb_items (in_pb y) = pb_items (in_pb x2) /\
  pb_containers (in_pb y) = pb_containers (in_pb x) /\ pb_rotation (in_pb y) = pb_rotation (in_pb x) /\
  pb_strip (in_pb y) = pb_strip (in_pb x) /\ in_min y = in_min x /\ in_cnum y = in_cnum x /\
  (pb_strip (in_pb x) = false -> pb_height (in_pb y) = pb_height (in_pb x)) /\
  (* the strategy is left at the last one tried *)
  pb_strategy (in_pb y) = last (map fst (hr_log r)) (pb_strategy (in_pb x)).
Proof.
  intros ar laws x Hv ck limit throttle o sb strategies clk r H.
  destruct (hypersearch_run ar laws x Hv _ _ _ _ _ _ _ _ H)
    as [x2 [Hp [Hv2 [s0 [s [imp [Hs0 [Er [Hi Hr]]]]]]]]].
  exists x2. split; [assumption|].
  pose proof (prepared_kept ar o sb x x2 Hp) as Hkept.
  destruct Hkept as [K1 [K2 [K3 [K4 [K5 [K6 K7]]]]]].
  destruct (hi_config _ _ _ _ Hi) as [C1 [C2 C3]].
  rewrite Er. cbn [hr_inst in_pb in_min in_cnum set_solution].
  rewrite C1. cbn [pb_items pb_containers pb_rotation pb_strip pb_height pb_strategy pb_with_height pb_with_strategy].
  split; [reflexivity|]. split; [assumption|]. split; [assumption|]. split; [assumption|].
  split; [congruence|]. split; [congruence|]. split.
  { intros Es. pose proof (hi_height _ _ _ _ Hi) as Hh. unfold height_within in Hh.
    rewrite K3, Es in Hh. congruence. }
  cbn [hr_log]. destruct (hr_log r) as [|gw t] eqn:El using rev_ind.
  - rewrite (hrun_none _ _ _ _ _ _ _ _ _ _ _ Hr eq_refl). cbn [map last].
    rewrite (hst_strategy _ _ _ _ Hs0). assumption.
  - destruct gw as [g w]. rewrite (hrun_last _ _ _ _ _ _ _ _ _ _ _ Hr _ _ _ eq_refl).
    rewrite map_app. cbn [map fst]. rewrite last_last. reflexivity.
Qed.
Print Assumptions C50_configuration_partial.

(** False of the code: after hypersearch() [potential_points_strategy] is not what it was, and
    [best_strategy] need not be the strategy that produced the solution. *)
Definition custom_demo : inst qarith := fresh {|
  pb_containers := [("bin", mkDims 3 2)];
  pb_items := [("a", mkDims 1 1); ("b", mkDims 1 1); ("c", mkDims 1 1)];
  pb_rotation := true; pb_strategy := [cB; cA]; pb_strip := false; pb_height := 0 |} None.

Theorem C50_configuration_refuted :
  valid_inst qarith custom_demo /\
  exists r, hypersearch qarith frozen 60 true None None strategy_pool custom_demo 0 = Ok r /\
    pb_strategy (in_pb custom_demo) = [cB; cA] /\
    (* the strategy has been replaced *)
    pb_strategy (in_pb (hr_inst r)) = [cA; cA_; cB_; cC; cB; cD; cA__; cB__; cF; cE] /\
    (* the solution is the one the custom strategy gave... *)
    solve qarith (in_pb custom_demo) None = Ok (in_sol (hr_inst r), in_objs (hr_inst r)) /\
    (* ...but the one reported is the default strategy, which never gives it *)
    hr_best_strategy r = default_strategy /\
    forall seq sol objs, Permutation seq ["a"; "b"; "c"] ->
      solve qarith (pb_with_strategy (in_pb custom_demo) default_strategy) (Some seq) = Ok (sol, objs) ->
      ~ same_placements sol (in_sol (hr_inst r)).
Proof.
  split; [split; [valid_demo|discriminate]|].
  set (y := [("bin", [("a", mkEntry 0 0 1 1); ("b", mkEntry 1 0 1 1); ("c", mkEntry 2 0 1 1)])]).
  enough (G : exists r, hypersearch qarith frozen 60 true None None strategy_pool custom_demo 0 = Ok r /\
    pb_strategy (in_pb (hr_inst r)) = [cA; cA_; cB_; cC; cB; cD; cA__; cB__; cF; cE] /\
    solve qarith (in_pb custom_demo) None = Ok (in_sol (hr_inst r), in_objs (hr_inst r)) /\
    hr_best_strategy r = default_strategy /\ in_sol (hr_inst r) = y).
  2: { apply Ok_with. vm_compute. repeat split. }
  destruct G as [r [G1 [G2 [G3 [G4 G5]]]]]. exists r.
  split; [exact G1|]. split; [reflexivity|]. split; [exact G2|]. split; [exact G3|]. split; [exact G4|].
  rewrite G5. unfold y.
  intros seq sol objs Hp H.
  apply in_permutations in Hp. cbv [permutations perms_n picks length map concat app fst snd] in Hp.
  intros [_ [C _]].
  repeat (destruct Hp as [<-|Hp];
    [vm_compute in H; injection H as <- <-;
     pose proof (C "bin" _ _ eq_refl eq_refl "a") as Ca; pose proof (C "bin" _ _ eq_refl eq_refl "b") as Cb;
     pose proof (C "bin" _ _ eq_refl eq_refl "c") as Cc; cbn in Ca, Cb, Cc; discriminate|]).
  destruct Hp.
Qed.
Print Assumptions C50_configuration_refuted.

(** With the default strategy in force, [best_strategy] is right. *)
Theorem C50_best_strategy_partial : forall ar, arith_laws ar -> forall x, valid_inst ar x ->
  forall ck limit throttle orientation sorting_by strategies clk r,
  hypersearch ar ck limit throttle orientation sorting_by strategies x clk = Ok r ->
  pb_strategy (in_pb x) = default_strategy ->
  exists x2 h seq sol,
    prepared ar orientation sorting_by x x2 /\ Permutation seq (dkeys (pb_items (in_pb x2))) /\
    solve ar (pb_with_height (pb_with_strategy (in_pb x2) (hr_best_strategy r)) h) (Some seq) =
      Ok (sol, in_objs (hr_inst r)) /\
    same_placements sol (in_sol (hr_inst r)).
Proof.
  intros ar laws x Hv ck limit throttle o sb strategies clk r H Hd.
  destruct (C24_genuine ar laws x Hv _ _ _ _ _ _ _ _ H)
    as [x2 [g [h [seq [sol [G1 [G2 [G3 [G4 [G5 G6]]]]]]]]]].
  exists x2, h, seq, sol. split; [assumption|]. split; [assumption|]. split; [|assumption].
  replace (hr_best_strategy r) with g; [exact G4|].
  destruct G6 as [G6|[G6 G7]]; [assumption|]. rewrite G6, G7, <- Hd.
  destruct G1 as [x1 [Hs ->]].
  assert (H1 : pb_strategy (in_pb x1) = pb_strategy (in_pb x)).
  { unfold sort_items in Hs. destruct sb as [[by_ rv]|]; [|injection Hs as <-; reflexivity].
    destruct (key_lt ar by_); [|discriminate]. injection Hs as <-. reflexivity. }
  rewrite <- H1. unfold orient_items. destruct o as [o|]; [|reflexivity]. destruct (negb _); [reflexivity|].
  unfold orient_all.
  destruct (String.eqb o "wide"); [destruct (existsb _ _); reflexivity|].
  destruct (String.eqb o "long"); [destruct (existsb _ _); reflexivity|reflexivity].
Qed.
Print Assumptions C50_best_strategy_partial.

(** ** C21 for hypersearch. With every parameter at its default, the initial construction stores
    all the items, and so does the first local search, but the solution returned omits one: the
    second strategy starts at the lowered height, and its incomplete construction wins. *)
Definition strip_loses : inst qarith := fresh {|
  pb_containers := [("strip-pack-container", mkDims 4 (2 ^ 100))];
  pb_items := [("a", mkDims 1 1); ("b", mkDims 3 2); ("c", mkDims 2 2)];
  pb_rotation := true; pb_strategy := default_strategy; pb_strip := true; pb_height := 40 |} None.

Theorem C21_hypersearch_refuted :
  valid_inst qarith strip_loses /\
  (exists sol objs, solve qarith (in_pb strip_loses) None = Ok (sol, objs) /\
     strip_full qarith strip_loses sol) /\
  exists r, hypersearch qarith (strikes_at 9) 60 true (Some "wide") (Some ("area", true))
              (get_strategies true order2) strip_loses 0 = Ok r /\
    (* two strategies were searched; the first one ended with a full solution *)
    map snd (hr_log r) = [11 # 8; 7 # 4] /\
    in_sol (hr_inst r) = [("strip-pack-container", [("b", mkEntry 0 0 3 2); ("a", mkEntry 3 0 1 1)])] /\
    ~ strip_full qarith strip_loses (in_sol (hr_inst r)).
Proof.
  split; [split; [valid_demo|split; [reflexivity|discriminate]]|].
  split.
  { eexists _, _. split; [vm_compute; reflexivity|]. eexists. split; [reflexivity|]. cbn. intros i.
    intuition congruence. }
  apply Ok_with. vm_compute. split; [reflexivity|]. split; [reflexivity|].
  intros [c [E H]]. injection E as <-.
  assert (C : In "c" ["b"; "a"]) by (apply H; cbn; tauto). cbn in C. intuition discriminate.
Qed.
Print Assumptions C21_hypersearch_refuted.

(** ** C54: after a strip hypersearch the solution fits the final [container_height]. False of the
    code when a minimum height is set: a later strategy may lower the height with a worse
    solution, while the one returned is the higher one. *)
Definition strip_sticks_out : inst qarith := fresh {|
  pb_containers := [(strip_id, mkDims 4 (2 ^ 100))];
  pb_items := [("a", mkDims 3 3); ("b", mkDims 2 4); ("c", mkDims 2 2); ("d", mkDims 4 5)];
  pb_rotation := false; pb_strategy := default_strategy; pb_strip := true; pb_height := 6 |} (Some 2).

Theorem C54_fits_final_height_refuted :
  valid_inst qarith strip_sticks_out /\
  exists r, hypersearch qarith frozen 60 true None None strategy_pool strip_sticks_out 0 = Ok r /\
    (* the solution is 5 high and container_height is 3 *)
    in_sol (hr_inst r) = [(strip_id, [("d", mkEntry 0 0 4 5)])] /\
    pb_height (in_pb (hr_inst r)) = 3.
Proof.
  split; [split; [valid_demo|]|].
  { intros _. split; [reflexivity|]. intros m [= <-]. cbn. lia. }
  apply Ok_with. vm_compute. split; reflexivity.
Qed.
Print Assumptions C54_fits_final_height_refuted.

(** What holds of every strip hypersearch in one process: the solution fits in the height the
    strip had before (also C30), and the height only shrinks, not below the minimum. *)
Theorem C54_fits_initial_height_partial : forall ar, arith_laws ar -> forall x, valid_inst ar x ->
  pb_strip (in_pb x) = true ->
  forall ck limit throttle orientation sorting_by strategies clk r,
  hypersearch ar ck limit throttle orientation sorting_by strategies x clk = Ok r ->
  (forall cid csol i e, dget (in_sol (hr_inst r)) cid = Some csol -> dget csol i = Some e ->
     e_y e + e_l e <= pb_height (in_pb x)) /\
  1 <= pb_height (in_pb (hr_inst r)) <= pb_height (in_pb x) /\
  (forall m, in_min x = Some m -> m <= pb_height (in_pb (hr_inst r))).
Proof.
  intros ar laws x Hv Hs ck limit throttle o sb strategies clk r H.
  destruct (hypersearch_run ar laws x Hv _ _ _ _ _ _ _ _ H)
    as [x2 [Hp [Hv2 [s0 [s [imp [Hs0 [Er [Hi Hr]]]]]]]]].
  destruct (prepared_kept ar o sb x x2 Hp) as [K1 [K2 [K3 [K4 [K5 [K6 K7]]]]]].
  split; [|split].
  - destruct (C24_genuine ar laws x Hv _ _ _ _ _ _ _ _ H)
      as [x3 [g [h [seq [sol [G1 [G2 [G3 [G4 [G5 G6]]]]]]]]]].
    destruct (prepared_kept ar o sb x x3 G1) as [J1 [J2 [J3 [J4 [J5 [J6 J7]]]]]].
    rewrite J3, Hs, J6 in G3. intros cid csol' i e H1 H2. destruct G5 as [G5 [G5' _]].
    assert (Hin : In cid (dkeys sol)) by (rewrite G5; apply dget_Some_In; eauto).
    apply dget_Some_In in Hin. destruct Hin as [csol Hc].
    rewrite <- (G5' cid csol csol' Hc H1 i) in H2.
    assert (Hv3 : valid_inst ar x3).
    { destruct G1 as [x1 [Es ->]]. apply orient_items_valid. exact (sort_items_valid ar x x1 sb Hv Es). }
    assert (Hvp : valid_problem (pb_with_height (pb_with_strategy (in_pb x3) g) h)).
    { destruct Hv3 as [[V1 [V2 [V3 [V4 V5]]]] _]. unfold valid_problem.
      cbn [pb_items pb_containers pb_strip pb_height pb_with_height pb_with_strategy].
      split; [exact V1|]. split; [exact V2|]. split; [exact V3|]. split; [exact V4|]. intros _. lia. }
    assert (Hks : known_sequence (pb_with_height (pb_with_strategy (in_pb x3) g) h) (Some seq)).
    { intros k Hk. exact (Permutation_in _ G2 Hk). }
    destruct (C01_inside_container _ _ _ _ _ Hvp Hks G4 cid csol i e (dget_In _ _ _ Hc) (dget_In _ _ _ H2))
      as [c [_ Hins]].
    unfold available_height in Hins. cbn [pb_strip pb_height pb_with_height pb_with_strategy] in Hins.
      rewrite J3, Hs in Hins. unfold inside in Hins. lia.
  - rewrite Er. cbn [hr_inst in_pb set_solution]. pose proof (hi_height _ _ _ _ Hi) as Hh.
    unfold height_within in Hh. rewrite K3, Hs, K6 in Hh. assumption.
  - intros m Hm. rewrite Er. cbn [hr_inst in_pb set_solution].
    destruct (hi_valid _ _ _ _ Hi) as [_ V]. destruct (hi_config _ _ _ _ Hi) as [C1 [C2 _]].
    apply V; [|congruence]. rewrite C1. cbn. congruence.
Qed.
Print Assumptions C54_fits_initial_height_partial.
