(** * C76: a longer time limit never makes the result worse. *)
From Coq Require Import ZArith String List Bool Lia QArith Permutation.
From Coq Require Import ZifyBool ZifyNat.
From Verif Require Import Py Arith Construct Spec LocalSearch SpecSearch Perms ItemsManip HyperSearch
  ProofsHyper ProofsLonger PropertiesSolve PropertiesSearch PropertiesHyper FloatArith FloatLaws.
Import ListNotations.
Open Scope string_scope.
Open Scope list_scope.
Open Scope Z_scope.

(** ** Local search *)
(** The same problem, clock readings and parameters, a longer limit: the value is as good. *)
Theorem C76_local_search : forall ar, arith_laws ar -> forall x, valid_inst ar x ->
  forall ck limit limit' throttle start clk, limit <= limit' ->
  exists y c log v y' c' log' v',
    local_search ar ck limit throttle start x clk = Ok (y, c, log) /\ calculate_obj_value ar y = Ok v /\
    local_search ar ck limit' throttle start x clk = Ok (y', c', log') /\ calculate_obj_value ar y' = Ok v' /\
    at_least ar v' v.
Proof.
  intros ar laws x Hv ck limit limit' throttle start clk Hl.
  destruct (search_step ar laws x Hv ck limit throttle start clk) as [y [c [log [v [_ [E [_ [_ [_ [Ev _]]]]]]]]]].
  destruct (search_step ar laws x Hv ck limit' throttle start clk) as [y' [c' [log' [v' [_ [E' [_ [_ [_ [Ev' _]]]]]]]]]].
  exists y, c, log, v, y', c', log', v'. repeat (split; [assumption|]).
  destruct (local_search_longer laws _ _ _ _ _ _ _ _ _ _ _ _ _ Hl E E')
    as [[-> _]|[_ [_ [_ [w [w' [W [W' G]]]]]]]].
  - left. congruence.
  - rewrite Ev in W. rewrite Ev' in W'. injection W as <-. injection W' as <-. exact G.
Qed.
Print Assumptions C76_local_search.

(** A limit that no reading reached plays no part: a longer one gives the same solution. *)
Theorem C76_limit_not_reached : forall ar, arith_laws ar -> forall x, valid_inst ar x ->
  forall ck limit limit' throttle start clk y c log, limit <= limit' ->
  local_search ar ck limit throttle start x clk = Ok (y, c, log) ->
  (forall k, (k < c)%nat -> ck k - match start with None => ck clk | Some t => t end < limit) ->
  local_search ar ck limit' throttle start x clk = Ok (y, c, log).
Proof.
  intros ar laws x Hv ck limit limit' throttle start clk y c log Hl E Hk.
  destruct (search_step ar laws x Hv ck limit' throttle start clk) as [y' [c' [log' [v' [_ [E' _]]]]]].
  destruct (local_search_longer laws _ _ _ _ _ _ _ _ _ _ _ _ _ Hl E E') as [[-> [-> ->]]|[_ [C [D _]]]]; [exact E'|].
  exfalso. specialize (Hk (pred c) ltac:(lia)). unfold out_of_time in D. lia.
Qed.
Print Assumptions C76_limit_not_reached.

(** ** hypersearch *)
(** With a clock that never goes back and that is never read exactly [limit] after the start. *)
Theorem C76_hypersearch_partial : forall ar, arith_laws ar -> forall x, valid_inst ar x ->
  forall ck limit limit' throttle orientation sorting_by strategies clk r r', limit <= limit' ->
  (forall n, ck n <= ck (S n)) -> (forall n, ck n - ck clk <> limit) ->
  hypersearch ar ck limit throttle orientation sorting_by strategies x clk = Ok r ->
  hypersearch ar ck limit' throttle orientation sorting_by strategies x clk = Ok r' ->
  exists v v', calculate_obj_value ar (hr_inst r) = Ok v /\ calculate_obj_value ar (hr_inst r') = Ok v' /\
    at_least ar v' v.
Proof.
  intros ar laws x Hv ck limit limit' throttle o sb strategies clk r r' Hl Hm Hne H H'.
  unfold hypersearch in H, H'.
  destruct (sort_items ar sb x) as [x1|] eqn:Es; [|discriminate]. cbn [bind] in H, H'.
  pose proof (orient_items_valid ar x1 o (sort_items_valid ar x x1 sb Hv Es)) as Hv2.
  set (x2 := orient_items ar o x1) in *.
  destruct (single_process_run ar laws x2 Hv2 ck limit throttle (ck clk) strategies (S clk))
    as [s0 [s [imp [log [_ [H2 [H3 _]]]]]]].
  destruct (single_process_run ar laws x2 Hv2 ck limit' throttle (ck clk) strategies (S clk))
    as [s0' [s' [imp' [log' [_ [H2' [H3' _]]]]]]].
  rewrite H2 in H. rewrite H2' in H'. cbn [bind] in H, H'. injection H as <-. injection H' as <-.
  assert (Hval : forall (t : hs ar) i, hinv ar x2 t i ->
            calculate_obj_value ar (set_solution (hs_st t) (fst (hs_ret t)) (snd (hs_ret t))) = Ok (hs_best t)).
  { intros t i I0. unfold calculate_obj_value. cbn [in_cnum in_objs set_solution].
    destruct (hi_config _ _ _ _ I0) as [_ [_ ->]]. exact (hi_value _ _ _ _ I0). }
  exists (hs_best s), (hs_best s'). cbn [hr_inst]. split; [exact (Hval _ _ H3)|]. split; [exact (Hval _ _ H3')|].
  unfold single_process in H2, H2'.
  destruct (get_init_solution ar x2) as [[x0 ret]|]; [|discriminate]. cbn [bind] in H2, H2'.
  destruct (calculate_obj_value ar x0) as [best|]; [|discriminate]. cbn [bind] in H2, H2'.
  exact (hs_loop_longer laws ck limit limit' throttle (ck clk) Hl (conj Hm Hne) strategies _ _ _ _ _ H2 H2').
Qed.
Print Assumptions C76_hypersearch_partial.

(** In exact arithmetic: [v <= v']. *)
Corollary C76_hypersearch_exact_partial : forall x, valid_inst qarith x ->
  forall ck limit limit' throttle orientation sorting_by strategies clk r r', limit <= limit' ->
  (forall n, ck n <= ck (S n)) -> (forall n, ck n - ck clk <> limit) ->
  hypersearch qarith ck limit throttle orientation sorting_by strategies x clk = Ok r ->
  hypersearch qarith ck limit' throttle orientation sorting_by strategies x clk = Ok r' ->
  exists v v' : Q, calculate_obj_value qarith (hr_inst r) = Ok v /\ calculate_obj_value qarith (hr_inst r') = Ok v' /\
    (v <= v')%Q.
Proof.
  intros x Hv ck limit limit' throttle o sb strategies clk r r' Hl Hm Hne H H'.
  destruct (C76_hypersearch_partial qarith qarith_laws x Hv _ _ _ _ _ _ _ _ _ _ Hl Hm Hne H H') as [v [v' [E [E' G]]]].
  exists v, v'. split; [exact E|]. split; [exact E'|]. destruct G as [->|G]; [apply Qle_refl|].
  apply Qlt_le_weak, qbelow, G.
Qed.
Print Assumptions C76_hypersearch_exact_partial.

(** Both hold of doubles as well. *)
Corollary C76_local_search_doubles : forall x, valid_inst farith x ->
  forall ck limit limit' throttle start clk, limit <= limit' ->
  exists y c log v y' c' log' v',
    local_search farith ck limit throttle start x clk = Ok (y, c, log) /\ calculate_obj_value farith y = Ok v /\
    local_search farith ck limit' throttle start x clk = Ok (y', c', log') /\ calculate_obj_value farith y' = Ok v' /\
    at_least farith v' v.
Proof. exact (C76_local_search farith farith_laws). Qed.
Print Assumptions C76_local_search_doubles.

(** ** False when a reading falls exactly on the limit *)
(** local_search stops at [elapsed >= limit] (abstract.py:169), hypersearch at [elapsed > limit]
    (heuristics.py:487): read exactly at the limit, the first search of the shorter run stops but
    the next strategy is still tried; the longer run spends that time on the first strategy. *)
Definition two_readings : clock := fun n => match n with 0%nat => 0 | 1%nat => 5 | 2%nat => 5 | _ => 100 end.
Definition exact_bin : inst qarith := fresh {|
  pb_containers := [("bin", mkDims 5 5)];
  pb_items := [("a", mkDims 3 4); ("b", mkDims 1 3); ("c", mkDims 4 4); ("d", mkDims 4 3); ("e", mkDims 4 2)];
  pb_rotation := false; pb_strategy := default_strategy; pb_strip := false; pb_height := 0 |} None.
Definition exact_order : list pclass := [cD; cB_; cC; cA_; cB; cA].

Definition value_of (r : result (hs_result qarith)) : option Q :=
  match r with Ok r => match calculate_obj_value qarith (hr_inst r) with Ok v => Some v | Err _ => None end | Err _ => None end.

Theorem C76_hypersearch_refuted :
  valid_inst qarith exact_bin /\ set_order false exact_order /\
  (forall n, two_readings n <= two_readings (S n)) /\
  exists r r' v v',
    hypersearch qarith two_readings 5 true None None (get_strategies true exact_order) exact_bin 0 = Ok r /\
    hypersearch qarith two_readings 6 true None None (get_strategies true exact_order) exact_bin 0 = Ok r' /\
    calculate_obj_value qarith (hr_inst r) = Ok v /\ calculate_obj_value qarith (hr_inst r') = Ok v' /\ (v' < v)%Q.
Proof.
  split; [split; [valid_demo|discriminate]|].
  split.
  { split; [repeat constructor; cbn; intuition discriminate|]. intros p.
    destruct p; cbn; split; intros H; try tauto; try (split; [tauto|intuition discriminate]); intuition discriminate. }
  split; [intros [|[|[|n]]]; cbn; lia|].
  assert (G : exists v v', value_of (hypersearch qarith two_readings 5 true None None (get_strategies true exact_order) exact_bin 0) = Some v /\
                value_of (hypersearch qarith two_readings 6 true None None (get_strategies true exact_order) exact_bin 0) = Some v' /\ Qgtb v v' = true).
  { eexists _, _. split; [vm_compute; reflexivity|]. split; [vm_compute; reflexivity|]. vm_compute; reflexivity. }
  destruct G as [v [v' [G1 [G2 G3]]]].
  destruct (hypersearch qarith two_readings 5 _ _ _ _ _ _) as [r|]; [|discriminate G1].
  destruct (hypersearch qarith two_readings 6 _ _ _ _ _ _) as [r'|]; [|discriminate G2].
  cbn [value_of] in G1, G2.
  destruct (calculate_obj_value qarith (hr_inst r)) as [w|] eqn:E1; [|discriminate G1].
  destruct (calculate_obj_value qarith (hr_inst r')) as [w'|] eqn:E2; [|discriminate G2].
  injection G1 as ->. injection G2 as ->. exists r, r', v, v'. repeat (split; [reflexivity || assumption|]).
  apply qbelow. exact G3.
Qed.
Print Assumptions C76_hypersearch_refuted.

(** ** Non-vacuity: more time does help *)
Definition seconds : clock := fun n => Z.of_nat n.
Definition search_value (limit : Z) : option Q :=
  match local_search qarith seconds limit true None (set_strategy exact_bin (exact_order ++ strategies_suffix)) 0 with
  | Ok (y, _, _) => match calculate_obj_value qarith y with Ok v => Some v | Err _ => None end
  | Err _ => None
  end.
Definition every_second_second : clock := fun n => 2 * Z.of_nat n.
Definition hyper_value (limit : Z) : option Q :=
  value_of (hypersearch qarith every_second_second limit true None None (get_strategies true exact_order) exact_bin 0).

Example C76_witness :
  valid_inst qarith exact_bin /\
  map search_value [1; 2; 6] = [Some (3 # 5); Some (19 # 25); Some (23 # 25)]%Q /\
  (forall n, every_second_second n <= every_second_second (S n)) /\
  (forall n, every_second_second n - every_second_second 0%nat <> 3) /\
  map hyper_value [1; 3; 9] = [Some (3 # 5); Some (19 # 25); Some (23 # 25)]%Q.
Proof.
  split; [split; [valid_demo|discriminate]|]. split; [vm_compute; reflexivity|].
  split; [intros n; unfold every_second_second; lia|]. split; [intros n; unfold every_second_second; lia|].
  vm_compute. reflexivity.
Qed.
