(** * Searches in double precision: C27 and C64 for hypersearch.

    The values the processes compare are finite doubles for every problem of reasonable size, so
    that the theorems of PropertiesMulti.v about complete searches hold of the doubles; and the
    exact utilization of what hypersearch returns is, up to a few units in the 52nd binary place,
    at least that of every construction it compared. *)
From Coq Require Import ZArith String List Bool QArith Qabs Qreals Reals Lra Lia Psatz Floats Permutation.
From Coq Require Lqa.
From Flocq Require Import Core BinarySingleNaN PrimFloat.
From Verif Require Import Py Arith Construct Spec LocalSearch SpecSearch FloatArith FloatLaws SpecFloats ProofsFloat
  ProofsFloatValues ProofsFloatSums ProofsFloatOrder ProofsPy ProofsConstruct ProofsPacking ProofsLocalSearch ProofsSearchRun ProofsSolve ProofsSolution ProofsValues PropertiesSolve PropertiesSearch
  ItemsManip HyperSearch MultiProcess ProofsHyper PropertiesHyper ProofsLoose ProofsMulti PropertiesMulti
  SpecMultiHistory ProofsMultiHistory PropertiesFloat.
Import ListNotations.
Open Scope string_scope.
Open Scope list_scope.
Open Scope Z_scope.

#[local] Existing Instance fexp64_valid.

(** Fewer than [2^50] containers, and a total area of the items below [2^1023]. *)
Definition moderate (pb : problem) : Prop :=
  zlen (pb_containers pb) < 2 ^ 50 /\ items_area (pb_items pb) <= 2 ^ 1023.

(** ** Areas *)
(** The stored items' area is at most that of all the items. *)
Lemma stored_area ar pb sequence sol objs cid csol :
  valid_problem pb -> known_sequence pb sequence -> solve ar pb sequence = Ok (sol, objs) -> sol = [(cid, csol)] ->
  0 <= total_area (entries csol) <= items_area (pb_items pb).
Proof.
  intros Hv Hk H ->.
  destruct (solve_run_of _ _ _ Hv Hk _ _ H) as [items [rest [_ [[Hvi [Hw Hd]] [_ Hrun]]]]].
  destruct (run_perm _ _ _ _ _ _ _ Hrun) as [ds [Hp [Hds HF]]].
  simpl in HF. rewrite app_nil_r in HF. rewrite <- (stores_area _ _ _ HF).
  assert (Hsub : incl ds (pb_items pb)).
  { intros [i d] Hin. apply dget_In. apply Hd. eapply Permutation_in; [exact Hp|]. apply in_or_app. auto. }
  assert (Hpos : forall i d, In (i, d) (pb_items pb) -> pos_dims d) by apply Hv.
  split; [apply items_area_nonneg; intros i d Hin; eapply Hpos; apply Hsub; exact Hin|].
  apply area_incl; [|exact Hsub|exact Hpos].
  assert (Hnd : NoDup (dkeys (ds ++ rest))).
  { eapply Permutation_NoDup; [apply Permutation_map, Permutation_sym, Hp|]. apply Hvi. }
  unfold dkeys in Hnd. rewrite map_app in Hnd. apply NoDup_app_iff in Hnd. destruct Hnd as [Hnd _].
  eapply NoDup_map_inv. exact Hnd.
Qed.

(** ** Finite values *)
Lemma FR_lt_emax x : (Rabs (FR x) < bpow radix2 1024)%R.
Proof. unfold FR. apply (abs_B2R_lt_emax 53 1024). Qed.

Lemma finite_value pb sequence sol objs cnum v :
  valid_problem pb -> known_sequence pb sequence -> moderate pb ->
  (pb_strip pb = true -> exists i, dkeys (pb_containers pb) = [i]) -> cnum = zlen (pb_containers pb) ->
  solve farith pb sequence = Ok (sol, objs) -> obj_value farith cnum (dvals objs) = Ok v -> finite v.
Proof.
  intros Hv Hk [M1 M2] Hstrip -> H Hval. destruct (pb_strip pb) eqn:Es.
  - destruct (Hstrip eq_refl) as [i Hkeys].
    assert (Hks : dkeys sol = [i] /\ dkeys objs = [i]).
    { pose proof H as H'. rewrite C04_solve_is_solve_full in H'. destruct H' as [left H'].
      destruct (C04_ids_stored_once farith _ _ _ _ _ Hv Hk H') as [A [B _]]. rewrite A, B. auto. }
    destruct Hks as [K1 K2]. destruct sol as [|[i1 csol] [|]]; try discriminate K1. injection K1 as ->.
    destruct objs as [|[i2 obj] [|]]; try discriminate K2. injection K2 as ->.
    assert (Hc1 : zlen (pb_containers pb) = 1).
    { apply (f_equal (@length _)) in Hkeys. unfold dkeys in Hkeys. rewrite map_length in Hkeys. unfold zlen. rewrite Hkeys. reflexivity. }
    rewrite Hc1 in Hval. unfold obj_value in Hval. cbn [Z.eqb] in Hval. cbn [dvals map snd] in Hval. injection Hval as <-.
    pose proof (stored_area _ _ _ _ _ _ _ Hv Hk H eq_refl) as A.
    assert (Hobj : FF obj = true /\ (Rabs (rnd (FR 0 + FR obj)) < bpow radix2 1024)%R).
    { assert (Hd : dget [(i, csol)] i = Some csol /\ dget [(i, obj)] i = Some obj) by (cbn; rewrite String.eqb_refl; auto).
      destruct (container_obj pb sequence Hv Hk farith _ _ _ _ _ H (proj1 Hd) (proj2 Hd)) as [c [its [its' [_ [[Hw _] [_ [_ Hb]]]]]]].
      destruct Hb as [_ _ _ ->|s _ _ _ _ _ -> ->].
      - destruct FR_0 as [F0 R0]. split; [exact F0|]. cbn [num0 farith]. rewrite R0, Rplus_0_l, rnd_0, Rabs_R0. apply bpow_gt_0.
      - rewrite entries_result in A. unfold final_obj. rewrite Es. cbn [ndiv farith].
        set (D := dw c * _). assert (HD : 0 < D) by (unfold D; nia).
        destruct (div_FR_le _ D 1023 (proj1 A) HD ltac:(lia) ltac:(lia)) as [F R]. split; [exact F|].
        destruct FR_0 as [_ R0]. rewrite R0, Rplus_0_l. unfold rnd. rewrite round_generic; [|auto with typeclass_instances|apply format_FR].
        apply FR_lt_emax. }
    destruct Hobj as [F B]. apply finite_FF. cbn [nsum farith fold_left].
    destruct (add_FR 0 obj (proj1 FR_0) F B) as [G _]. exact G.
  - set (x := mkInst (ar := farith) pb None (zlen (pb_containers pb)) [] [] []).
    destruct (C64_objective_value x) with (sequence := sequence) (sol := sol) (objs := objs) as [w [W [F _]]];
      try assumption; try reflexivity.
    { split; [exact Hv|]. cbn [x in_pb]. rewrite Es. discriminate. }
    unfold calculate_obj_value in W. cbn [in_cnum in_objs set_solution x] in W. rewrite Hval in W. injection W as ->. exact F.
Qed.

Lemma finite_not_inf v : finite v -> nge_inf farith v = false.
Proof.
  intros F. apply finite_FF in F. cbn [nge_inf farith]. rewrite leb_equiv. unfold FF in F.
  destruct (Prim2B v) as [| | |[] m e He] eqn:E; try discriminate F; reflexivity.
Qed.

(** The area of the items does not change when they are sorted and turned. *)
Lemma rearranged_area a b : NoDup (dkeys a) -> NoDup (dkeys b) -> rearranged a b -> items_area a = items_area b.
Proof.
  intros Ha Hb [P R].
  set (f := map (fun kd : string * dims => (fst kd, dw (snd kd) * dl (snd kd)))).
  assert (K : forall l, dkeys (f l) = dkeys l) by (intros; unfold f, dkeys; rewrite map_map; reflexivity).
  assert (A : forall l, items_area l = fold_right Z.add 0 (map snd (f l))).
  { induction l as [|[i d] t IH]; [reflexivity|]. change (items_area ((i, d) :: t)) with (dw d * dl d + items_area t).
    rewrite IH. reflexivity. }
  assert (G : forall l i, dget (f l) i = option_map (fun d => dw d * dl d) (dget l i)).
  { induction l as [|[j d] t IH]; intros i; [reflexivity|]. cbn. destruct (String.eqb i j); [reflexivity|apply IH]. }
  assert (E : Permutation (f a) (f b)).
  { apply dget_perm; [rewrite K; exact Ha|rewrite K; exact Hb|]. intros i. rewrite !G.
    destruct (dget a i) as [d|] eqn:Ea.
    - assert (Hi : In i (dkeys b)) by (eapply Permutation_in; [exact P|apply dget_Some_In; eauto]).
      apply dget_Some_In in Hi. destruct Hi as [d' Eb]. rewrite Eb. cbn.
      destruct (R i d d' Ea Eb) as [->| ->]; cbn; f_equal; lia.
    - destruct (dget b i) as [d'|] eqn:Eb; [|reflexivity].
      assert (Hi : In i (dkeys a)) by (eapply Permutation_in; [symmetry; exact P|apply dget_Some_In; eauto]).
      apply dget_Some_In in Hi. destruct Hi as [d Ed]. congruence. }
  rewrite !A. apply (Permutation_map snd) in E. clear -E. induction E; cbn; lia.
Qed.

Lemma prepared_moderate o1 sb (x x2 : inst farith) : valid_inst farith x -> valid_inst farith x2 ->
  prepared farith o1 sb x x2 -> moderate (in_pb x) -> moderate (in_pb x2).
Proof.
  intros Hv Hv2 Hp [M1 M2]. destruct (prepared_kept _ _ _ _ _ Hp) as [K1 _]. split; [rewrite K1; exact M1|].
  rewrite <- (rearranged_area (pb_items (in_pb x)) (pb_items (in_pb x2))); [exact M2|apply Hv|apply Hv2|].
  eapply prepared_rearranged; eassumption.
Qed.

(** ** C27 for doubles *)

(** Every value a worker compares is a finite double. *)
Theorem C27_values_finite : forall x : inst farith, valid_inst farith x -> moderate (in_pb x) ->
  forall strategies workers_num u, strategies <> [] -> (0 < workers_num)%Q -> runs x strategies workers_num u ->
  forall i g v, worker_value u i g v -> finite v.
Proof.
  intros x Hv Hm strategies workers_num u Hne Hn Hr i g v [z [clk [z' [clk' [Z1 [Z2 [Z3 [Z4 [[fuel [log Z5]] Z6]]]]]]]]].
  destruct (runs_facts x Hv _ _ Hn u Hr) as [[o1 [sb Hp]] [Hvp [F _]]].
  pose proof (prepared_moderate _ _ _ _ Hv Hvp Hp Hm) as [M1 M2].
  pose proof (child_loose _ _ Hvp F) as [L1 L2].
  assert (Hsz : pb_strip (in_pb z) = pb_strip (in_pb (su_child u))) by (rewrite Z1; reflexivity).
  assert (Hcz : pb_containers (in_pb z) = pb_containers (in_pb (su_child u))) by (rewrite Z1; reflexivity).
  assert (Hiz : pb_items (in_pb z) = pb_items (in_pb (su_child u))) by (rewrite Z1; reflexivity).
  assert (Hl : loose farith z).
  { split.
    - destruct L1 as [V1 [V2 [V3 [V4 V5]]]]. unfold valid_problem. rewrite Hiz, Hcz, Hsz.
      repeat (split; [assumption|]). intros Es. rewrite Es in Z4. lia.
    - rewrite Hsz, Hcz, Z2. exact L2. }
  destruct (loose_search_run farith farith_laws _ _ _ _ _ _ _ _ _ _ Hl Z5) as [_ [Hcfg [_ [sol' [_ [h [Hh Hmade]]]]]]].
  destruct Hmade as [sq [sl [P1 [P2 _]]]]. cbn [snd] in P2.
  unfold calculate_obj_value in Z6. destruct Hcfg as [_ [_ Ec]]. rewrite Ec, Z3, (ch_cnum _ _ F), <- Hcz in Z6.
  eapply (finite_value (pb_with_height (in_pb z) h)); [| | | | |exact P2|exact Z6].
  - destruct Hl as [[V1 [V2 [V3 [V4 V5]]]] _]. repeat (split; [assumption|]).
    cbn [pb_strip pb_height pb_with_height]. intros Es. unfold hloose in Hh. rewrite Es in Hh. lia.
  - intros k Hk. cbn [pb_items pb_with_height]. eapply Permutation_in; [exact P1|exact Hk].
  - split; cbn [pb_containers pb_items pb_with_height].
    + rewrite Hcz. unfold zlen in *. pose proof (f_equal (@length _) (ch_keys _ _ F)) as El. unfold dkeys in El.
      rewrite !map_length in El. rewrite El. exact M1.
    + rewrite Hiz, (ch_items _ _ F). exact M2.
  - cbn [pb_strip pb_containers pb_with_height]. rewrite Hsz, Hcz. intros Es. exists strip_id. apply (L2 Es).
  - reflexivity.
Qed.
Print Assumptions C27_values_finite.

Theorem C27_all_strategies_searched_doubles : forall x : inst farith, valid_inst farith x -> counted farith x ->
  moderate (in_pb x) ->
  forall strategies workers_num u, strategies <> [] -> (0 < workers_num)%Q -> runs x strategies workers_num u ->
  none_forced u ->
  (forall i n, su_clock u i n - su_start u <= su_limit u) ->
  forall s sol objs best_strategy, reachable u nobody nobody s -> s_parent s = PReturned sol objs best_strategy ->
  exists v, calculate_obj_value farith (problem_now u s) = Ok v /\
    let log := concat (map (s_log s) (seq 0 (workers u))) in
    map fst log = strategies /\ forall g w, In (g, w) log -> PrimFloat.leb w v = true.
Proof.
  intros x Hv Hc Hm strategies workers_num u Hne Hn Hr Hnf Hclk s sol objs g Hs Hp.
  apply (C27_all_strategies_searched farith farith_orderly x Hv Hc strategies workers_num u Hne Hn Hr Hnf Hclk) with (sol := sol) (objs := objs) (best_strategy := g);
    [|exact Hs|exact Hp].
  intros i g' v Hw. apply finite_not_inf. eapply (C27_values_finite x Hv Hm); eassumption.
Qed.
Print Assumptions C27_all_strategies_searched_doubles.

(** ** C64 for hypersearch, bins *)

(** The value a search compares is the weighted exact utilization up to the rounding. *)
Lemma close_value pb sq sol objs sol' cnum v :
  valid_problem pb -> known_sequence pb sq -> pb_strip pb = false -> zlen (pb_containers pb) < 2 ^ 50 ->
  cnum = zlen (pb_containers pb) -> solve farith pb sq = Ok (sol, objs) -> same_placements sol sol' ->
  obj_value farith cnum (dvals objs) = Ok v ->
  finite v /\ (Qabs (fvalue v - weighted (utilizations pb sol')) <=
    inject_Z (zlen (pb_items pb) + 2 * zlen (pb_containers pb) * zlen (pb_containers pb)) * ulp52)%Q.
Proof.
  intros Hv Hk Es Hm -> H S Hval.
  set (x := mkInst (ar := farith) pb None (zlen (pb_containers pb)) [] [] []).
  assert (Hvx : valid_inst farith x) by (split; [exact Hv|cbn [x in_pb]; rewrite Es; discriminate]).
  destruct (C64_objective_value x Hvx eq_refl Es Hm sq sol objs Hk H) as [w [W [F [_ B]]]].
  unfold calculate_obj_value in W. cbn [in_cnum in_objs set_solution x] in W. rewrite Hval in W. injection W as <-.
  split; [exact F|]. destruct (stored_le _ _ _ _ Hv Hk H) as [D1 [D2 N1]].
  rewrite <- (same_utilizations _ _ _ D1 D2 S). cbn [x in_pb] in B.
  eapply Qle_trans; [exact B|]. apply Qmult_le_compat_r; [|discriminate]. rewrite <- Zle_Qle. lia.
Qed.

Lemma not_above w v : finite w -> finite v -> PrimFloat.ltb v w = false -> (fvalue w <= fvalue v)%Q.
Proof.
  intros Fw Fv H. apply finite_FF in Fw, Fv. rewrite ltb_FR in H by assumption.
  apply Q_of_R_le. rewrite !FR_fvalue. destruct (Rlt_bool_spec (FR v) (FR w)) as [|G]; [discriminate H|exact G].
Qed.

Lemma at_most_value w v : finite w -> finite v -> at_most farith w v -> (fvalue w <= fvalue v)%Q.
Proof.
  intros Fw Fv H. unfold at_most in H. cbn [ngeb farith] in H. apply finite_FF in Fw, Fv. rewrite leb_FR in H by assumption.
  apply Q_of_R_le. rewrite !FR_fvalue. destruct (Rle_bool_spec (FR w) (FR v)) as [G|]; [exact G|discriminate H].
Qed.

Lemma close_le (a b u v e : Q) : (Qabs (a - u) <= e)%Q -> (Qabs (b - v) <= e)%Q -> (a <= b)%Q -> (u <= v + (e + e))%Q.
Proof. intros H1 H2 H. apply Qabs_Qle_condition in H1, H2. destruct H1, H2. Lqa.lra. Qed.

(** The exact weighted utilization of what hypersearch leaves is at most a few units in the 52nd
    binary place below that of the construction it starts with, and below that of the result of
    each local search it makes. *)
Definition slack (pb : problem) : Q :=
  (inject_Z (2 * zlen (pb_items pb) + 4 * zlen (pb_containers pb) * zlen (pb_containers pb)) * ulp52)%Q.

Lemma slack_double pb :
  (inject_Z (zlen (pb_items pb) + 2 * zlen (pb_containers pb) * zlen (pb_containers pb)) * ulp52 +
   inject_Z (zlen (pb_items pb) + 2 * zlen (pb_containers pb) * zlen (pb_containers pb)) * ulp52 == slack pb)%Q.
Proof.
  unfold slack. set (N := zlen (pb_items pb)). set (K := zlen (pb_containers pb)).
  replace (2 * N + 4 * K * K) with ((N + 2 * K * K) + (N + 2 * K * K)) by ring.
  rewrite (inject_Z_plus (N + 2 * K * K)). ring.
Qed.

Theorem C64_hypersearch : forall x, valid_inst farith x -> counted farith x -> pb_strip (in_pb x) = false ->
  zlen (pb_containers (in_pb x)) < 2 ^ 50 ->
  forall ck limit throttle orientation sorting_by strategies clk r,
  hypersearch farith ck limit throttle orientation sorting_by strategies x clk = Ok r ->
  exists x2 sol0 objs0, prepared farith orientation sorting_by x x2 /\ solve farith (in_pb x2) None = Ok (sol0, objs0) /\
    let reached := weighted (utilizations (in_pb x) (in_sol (hr_inst r))) in
    (weighted (utilizations (in_pb x) sol0) <= reached + slack (in_pb x))%Q /\
    forall g w, In (g, w) (hr_log r) -> exists y n y' n' log,
      in_pb y = pb_with_strategy (in_pb x2) g /\
      local_search farith ck limit throttle (Some (ck clk)) y n = Ok (y', n', log) /\ calculate_obj_value farith y' = Ok w /\
      (weighted (utilizations (in_pb x) (in_sol y')) <= reached + slack (in_pb x))%Q.
Proof.
  intros x Hv Hc Es Hk ck limit throttle o sb strategies clk r H.
  destruct (C24_best_value_returned farith farith_laws x Hv _ _ _ _ _ _ _ _ H)
    as [x2 [sol0 [objs0 [v0 [v [Hp [S0 [V0 [V [Hat [Hmax [Hlog _]]]]]]]]]]]].
  destruct (C24_genuine farith farith_laws x Hv _ _ _ _ _ _ _ _ H) as [x2' [g [h [sq [sol [Hp' [P1 [P2 [P3 [P4 _]]]]]]]]]].
  assert (x2' = x2).
  { destruct Hp as [a [A1 A2]], Hp' as [b [B1 B2]]. rewrite A1 in B1. injection B1 as <-. congruence. }
  subst x2'. clear Hp'.
  assert (Hv2 : valid_inst farith x2).
  { destruct Hp as [x1 [A1 ->]]. apply orient_items_valid. eapply sort_items_valid; eassumption. }
  destruct (prepared_kept _ _ _ _ _ Hp) as [K1 [_ [K3 [_ [K5 _]]]]].
  assert (Hn2 : zlen (pb_items (in_pb x2)) = zlen (pb_items (in_pb x))).
  { pose proof (Permutation_length (prepared_ids _ _ _ _ Hp)) as L. unfold dkeys in L. rewrite !map_length in L. unfold zlen. lia. }
  assert (Hut : forall s, utilizations (in_pb x) s = utilizations (in_pb x2) s) by (intros; unfold utilizations; rewrite K1; reflexivity).
  assert (Hbound : (inject_Z (zlen (pb_items (in_pb x2)) + 2 * zlen (pb_containers (in_pb x2)) * zlen (pb_containers (in_pb x2))) * ulp52 ==
                    inject_Z (zlen (pb_items (in_pb x)) + 2 * zlen (pb_containers (in_pb x)) * zlen (pb_containers (in_pb x))) * ulp52)%Q)
    by (rewrite Hn2, K1; reflexivity).
  assert (Es2 : pb_strip (in_pb x2) = false) by congruence. rewrite Es2 in P2. subst h.
  assert (Hc2 : in_cnum x2 = zlen (pb_containers (in_pb x2))) by (rewrite K5, K1; exact Hc).
  assert (Hk2 : zlen (pb_containers (in_pb x2)) < 2 ^ 50) by (rewrite K1; exact Hk).
  destruct (C50_configuration_partial farith farith_laws x Hv _ _ _ _ _ _ _ _ H) as [x2' [Hp' [_ Hkept]]].
  assert (Ec : in_cnum (hr_inst r) = in_cnum x2) by (rewrite K5; apply Hkept).
  clear x2' Hp' Hkept.
  (* the result *)
  pose proof (proj1 Hv2) as Hvp.
  assert (Cr : finite v /\ (Qabs (fvalue v - weighted (utilizations (in_pb x) (in_sol (hr_inst r)))) <=
     inject_Z (zlen (pb_items (in_pb x)) + 2 * zlen (pb_containers (in_pb x)) * zlen (pb_containers (in_pb x))) * ulp52)%Q).
  { rewrite <- Hbound, Hut.
    apply (close_value (pb_with_height (pb_with_strategy (in_pb x2) g) (pb_height (in_pb x2))) (Some sq) sol (in_objs (hr_inst r)) _ (in_cnum x2));
      try assumption.
    - intros i Hi. cbn [pb_items pb_with_height pb_with_strategy]. eapply Permutation_in; [exact P1|exact Hi].
    - unfold calculate_obj_value in V. rewrite <- Ec. exact V. }
  destruct Cr as [Fv Bv].
  exists x2, sol0, objs0. split; [exact Hp|]. split; [exact S0|]. cbv zeta. split.
  - assert (Hnd : NoDup (dkeys sol0) /\ NoDup (stored_ids sol0)) by (destruct (stored_le _ None _ _ Hvp I S0) as [D1 [D2 _]]; auto).
    assert (Sr : same_placements sol0 sol0).
    { split; [reflexivity|]. split; [intros cid a b Ha Hb i; congruence|]. intros cid csol Hi. eapply stored_nodup; [apply Hnd|exact Hi]. }
    destruct (close_value (in_pb x2) None sol0 objs0 sol0 (in_cnum x2) v0 Hvp I Es2 Hk2 Hc2 S0 Sr V0) as [F0 B0].
    rewrite Hbound, <- Hut in B0. rewrite <- slack_double. eapply close_le; [exact B0|exact Bv|].
    destruct Hat as [->|Hgt]; [apply Qle_refl|]. apply not_above; [exact F0|exact Fv|].
    cbn [ngtb farith] in Hgt. apply finite_FF in F0, Fv. rewrite ltb_FR in * by assumption.
    destruct (Rlt_bool_spec (FR v0) (FR v)) as [G|]; [|discriminate Hgt]. apply Rlt_bool_false. lra.
  - intros g' w Hin. pose proof (Hmax g' w Hin) as Hw. destruct (Hlog g' w Hin) as [y [n [y' [n' [lg [Y1 [Y2 [Y3 [Y4 [Y5 Y6]]]]]]]]]].
    rewrite Es2 in Y2. rewrite Y2 in Y1.
    change (in_pb y = pb_with_height (pb_with_strategy (in_pb x2) g') (pb_height (pb_with_strategy (in_pb x2) g'))) in Y1.
    rewrite pb_height_same in Y1.
    assert (Hvy : valid_inst farith y).
    { split; [rewrite Y1; exact Hvp|]. rewrite Y1. cbn [pb_strip pb_with_strategy]. rewrite Es2. discriminate. }
    exists y, n, y', n', lg. split; [exact Y1|]. split; [exact Y5|]. split; [exact Y6|].
    destruct (C15_genuine_construction farith farith_laws y Hvy _ _ _ _ _ _ _ _ Y5) as [sq' [h' [sl [Q1 [Q2 [Q3 Q4]]]]]].
    destruct (C15_configuration_kept farith farith_laws y Hvy _ _ _ _ _ _ _ _ Y5) as [_ [_ [_ [_ [_ [_ [Ey _]]]]]]].
    assert (Esy : pb_strip (in_pb y) = false) by (rewrite Y1; exact Es2). rewrite Esy in Q4. subst h'.
    assert (Cw : finite w /\ (Qabs (fvalue w - weighted (utilizations (in_pb x) (in_sol y'))) <=
     inject_Z (zlen (pb_items (in_pb x)) + 2 * zlen (pb_containers (in_pb x)) * zlen (pb_containers (in_pb x))) * ulp52)%Q).
    { rewrite <- Hbound, Hut.
      assert (Z1 : pb_items (in_pb y) = pb_items (in_pb x2)) by (rewrite Y1; reflexivity).
      assert (Z2 : pb_containers (in_pb y) = pb_containers (in_pb x2)) by (rewrite Y1; reflexivity).
      replace (utilizations (in_pb x2) (in_sol y')) with (utilizations (in_pb y) (in_sol y')) by (unfold utilizations; rewrite Z2; reflexivity).
      rewrite <- Z1, <- Z2.
      rewrite (pb_height_same (in_pb y)) in Q2.
      apply (close_value (in_pb y) (Some sq') sl (in_objs y') _ (in_cnum x2)); try assumption.
      - apply Hvy.
      - intros i Hi. eapply Permutation_in; [exact Q1|exact Hi].
      - rewrite Z2. exact Hk2.
      - rewrite Z2. exact Hc2.
      - unfold calculate_obj_value in Y6. rewrite Ey, Y4 in Y6. exact Y6. }
    destruct Cw as [Fw Bw]. rewrite <- slack_double. eapply close_le; [exact Bw|exact Bv|].
    apply not_above; [exact Fw|exact Fv|]. exact Hw.
Qed.
Print Assumptions C64_hypersearch.

(** The same with several processes, whatever their interleaving and failures: no successful
    worker found more than a few units in the 52nd place above what is returned. *)
Theorem C64_several_processes : forall x, valid_inst farith x -> counted farith x -> pb_strip (in_pb x) = false ->
  zlen (pb_containers (in_pb x)) < 2 ^ 50 ->
  forall strategies workers_num u, strategies <> [] -> (0 < workers_num)%Q -> runs x strategies workers_num u ->
  forall may_raise may_die s sol objs best_strategy, reachable u may_raise may_die s ->
  s_parent s = PReturned sol objs best_strategy ->
  let reached := weighted (utilizations (in_pb x) sol) in
  (exists sol0 objs0, solve farith (in_pb (su_child u)) None = Ok (sol0, objs0) /\
    (weighted (utilizations (in_pb x) sol0) <= reached + slack (in_pb x))%Q) /\
  forall i o g w, (i < workers u)%nat -> s_queue s i = Some o -> o <> failure_output -> In (g, w) (s_log s i) ->
  exists z n z' n', in_pb z = pb_with_strategy (in_pb (su_child u)) g /\ worker_search u i z n z' n' /\
    calculate_obj_value farith z' = Ok w /\
    (weighted (utilizations (in_pb x) (in_sol z')) <= reached + slack (in_pb x))%Q.
Proof.
  intros x Hv Hc Es Hk strategies workers_num u Hne Hn Hr mr md s sol objs best Hs Hp. cbv zeta.
  destruct (C27_winner_is_best farith farith_orderly x Hv Hc _ _ u Hne Hn Hr mr md s sol objs best Hs Hp)
    as [v [v0 [V [[sol0 [objs0 [S0 V0]]] [Hat [_ [Hlogs _]]]]]]].
  destruct (C27_genuine farith farith_orderly x Hv _ _ u Hne Hn Hr mr md s sol objs best Hs Hp) as [h [sq [sol' [P1 [P2 [P3 P4]]]]]].
  rewrite Es in P2. subst h.
  destruct (runs_facts x Hv _ _ Hn u Hr) as [[o1 [sb Hprep]] [Hvp [F _]]].
  destruct (prepared_kept _ _ _ _ _ Hprep) as [K1 [_ [K3 [_ [K5 _]]]]].
  set (pb := in_pb (su_child u)) in *.
  assert (Ec : pb_containers pb = pb_containers (in_pb x)).
  { unfold pb. rewrite (ch_containers _ _ F); congruence. }
  assert (Ei : Permutation (dkeys (pb_items pb)) (dkeys (pb_items (in_pb x)))).
  { unfold pb. rewrite (ch_items _ _ F). eapply prepared_ids. exact Hprep. }
  assert (Ess : pb_strip pb = false) by (unfold pb; rewrite (ch_strip _ _ F); congruence).
  assert (Hn2 : zlen (pb_items pb) = zlen (pb_items (in_pb x))).
  { pose proof (Permutation_length Ei) as L. unfold dkeys in L. rewrite !map_length in L. unfold zlen. lia. }
  assert (Hut : forall s, utilizations (in_pb x) s = utilizations pb s) by (intros; unfold utilizations; rewrite Ec; reflexivity).
  assert (Hbound : (inject_Z (zlen (pb_items pb) + 2 * zlen (pb_containers pb) * zlen (pb_containers pb)) * ulp52 ==
                    inject_Z (zlen (pb_items (in_pb x)) + 2 * zlen (pb_containers (in_pb x)) * zlen (pb_containers (in_pb x))) * ulp52)%Q)
    by (rewrite Hn2, Ec; reflexivity).
  assert (Hvpb : valid_problem pb) by exact (ch_valid _ _ F).
  assert (Hcn : in_cnum (su_child u) = zlen (pb_containers pb)) by exact (ch_cnum _ _ F).
  assert (Hk2 : zlen (pb_containers pb) < 2 ^ 50) by (rewrite Ec; exact Hk).
  assert (Hcp : counted farith (su_parent u)) by (unfold counted in *; congruence).
  assert (Cr : finite v /\ (Qabs (fvalue v - weighted (utilizations (in_pb x) sol)) <=
     inject_Z (zlen (pb_items (in_pb x)) + 2 * zlen (pb_containers (in_pb x)) * zlen (pb_containers (in_pb x))) * ulp52)%Q).
  { rewrite <- Hbound, Hut.
    apply (close_value (pb_with_height (pb_with_strategy pb (match best with None => default_strategy | Some g => g end)) (pb_height pb))
                       (Some sq) sol' objs _ (in_cnum (su_child u))); try assumption.
    - intros i Hi. cbn [pb_items pb_with_height pb_with_strategy]. eapply Permutation_in; [symmetry; exact Ei|]. eapply Permutation_in; [exact P1|exact Hi].
    - unfold problem_now in V. rewrite Hp in V. unfold calculate_obj_value in V. cbn [in_cnum in_objs set_solution] in V.
      rewrite (ch_same_cnum _ _ F Hcp). exact V. }
  destruct Cr as [Fv Bv]. split.
  - exists sol0, objs0. split; [exact S0|].
    assert (Sr : same_placements sol0 sol0).
    { destruct (stored_le _ None _ _ Hvpb I S0) as [D1 [D2 _]]. split; [reflexivity|]. split; [intros cid a b Ha Hb i; congruence|].
      intros cid csol Hi. eapply stored_nodup; [exact D2|exact Hi]. }
    destruct (close_value pb None sol0 objs0 sol0 _ v0 Hvpb I Ess Hk2 Hcn S0 Sr V0) as [F0 B0].
    rewrite Hbound, <- Hut in B0. rewrite <- slack_double. eapply close_le; [exact B0|exact Bv|].
    apply at_most_value; assumption.
  - intros i o g w Hi Hq Ho Hin. pose proof (Hlogs i o g w Hi Hq Ho Hin) as Hle.
    destruct (C27_logs farith farith_orderly x Hv _ _ u Hne Hn Hr) as [chunks [_ [_ Hlg]]]. destruct (Hlg mr md s Hs i Hi) as [_ [Hwv _]].
    destruct (Hwv g w Hin) as [z [n [z' [n' [Z1 [Z2 [Z3 [Z4 [Z5 Z6]]]]]]]]]. fold pb in Z1, Z4. rewrite Ess in Z4. rewrite Z4 in Z1.
    change (in_pb z = pb_with_height (pb_with_strategy pb g) (pb_height (pb_with_strategy pb g))) in Z1. rewrite pb_height_same in Z1.
    exists z, n, z', n'. split; [exact Z1|]. split; [exact Z5|]. split; [exact Z6|].
    assert (Hvz : valid_inst farith z).
    { split; [rewrite Z1; exact Hvpb|]. rewrite Z1. cbn [pb_strip pb_with_strategy]. rewrite Ess. discriminate. }
    destruct Z5 as [fuel [log Z5]].
    destruct (C16_terminates farith farith_laws z Hvz (su_clock u i) (su_limit u) (su_throttle u) (Some (su_start u)) n) as [z1 [n1 [log1 [E _]]]].
    pose proof (local_search_fuel_any _ _ _ _ _ _ _ _ _ _ _ _ Z5 E) as X. injection X as -> -> ->.
    destruct (C15_genuine_construction farith farith_laws z Hvz _ _ _ _ _ _ _ _ E) as [sq' [h' [sl [Q1 [Q2 [Q3 Q4]]]]]].
    destruct (C15_configuration_kept farith farith_laws z Hvz _ _ _ _ _ _ _ _ E) as [_ [_ [_ [_ [_ [_ [Ey _]]]]]]].
    assert (Esz : pb_strip (in_pb z) = false) by (rewrite Z1; exact Ess). rewrite Esz in Q4. subst h'.
    assert (Cw : finite w /\ (Qabs (fvalue w - weighted (utilizations (in_pb x) (in_sol z'))) <=
     inject_Z (zlen (pb_items (in_pb x)) + 2 * zlen (pb_containers (in_pb x)) * zlen (pb_containers (in_pb x))) * ulp52)%Q).
    { rewrite <- Hbound, Hut.
      assert (Y1 : pb_items (in_pb z) = pb_items pb) by (rewrite Z1; reflexivity).
      assert (Y2 : pb_containers (in_pb z) = pb_containers pb) by (rewrite Z1; reflexivity).
      replace (utilizations pb (in_sol z')) with (utilizations (in_pb z) (in_sol z')) by (unfold utilizations; rewrite Y2; reflexivity).
      rewrite <- Y1, <- Y2. rewrite (pb_height_same (in_pb z)) in Q2.
      apply (close_value (in_pb z) (Some sq') sl (in_objs z') _ (in_cnum (su_child u))); try assumption.
      - apply Hvz.
      - intros k Hk'. eapply Permutation_in; [exact Q1|exact Hk'].
      - rewrite Y2. exact Hk2.
      - rewrite Y2. exact Hcn.
      - unfold calculate_obj_value in Z6. rewrite Ey, Z3 in Z6. exact Z6. }
    destruct Cw as [Fw Bw]. rewrite <- slack_double. eapply close_le; [exact Bw|exact Bv|].
    apply at_most_value; assumption.
Qed.
Print Assumptions C64_several_processes.

(** ** A run in doubles *)
Definition double_bins : inst farith := mkInst (in_pb bin_demo) None (in_cnum bin_demo) [] [] [].
Example double_bins_ok : valid_inst farith double_bins /\ counted farith double_bins /\ moderate (in_pb double_bins) /\
  pb_strip (in_pb double_bins) = false.
Proof.
  split; [split; [valid_demo|discriminate]|]. split; [reflexivity|]. split; [split; vm_compute; [reflexivity|discriminate]|reflexivity].
Qed.
Lemma setup_fields {ar} o sb strategies q cks start limit throttle forced size cap (x : inst ar) u :
  multi_setup o sb strategies q cks start limit throttle forced size cap x = Ok u ->
  su_clock u = cks /\ su_start u = start /\ su_limit u = limit /\ su_forced u = forced /\ su_size u = size /\ su_capacity u = cap.
Proof.
  unfold multi_setup. destruct (sort_items ar sb x) as [x1|]; [|discriminate]. cbn [bind].
  destruct (strategies_chunks strategies q) as [chunks|]; [|discriminate]. cbn [bind].
  destruct (child_inst _) as [c|]; [|discriminate]. cbn [bind]. intros [= <-]. auto 8.
Qed.
Example two_workers_doubles : exists u p, runs double_bins strategy_pool 2 u /\ two_workers u = Ok p /\ none_forced u /\
  (forall o, (su_size u o <= su_capacity u)%nat) /\ (forall i n, su_clock u i n - su_start u <= su_limit u) /\
  exists sol objs g, p = PReturned sol objs (Some g).
Proof.
  assert (T : match multi_setup None None strategy_pool 2 (fun _ _ => 0) 0 60 true (fun _ => false) (fun _ => 0%nat) 0 double_bins with
              | Ok u => match two_workers u with Ok (PReturned _ _ (Some _)) => True | _ => False end
              | Err _ => False
              end) by (vm_compute; exact I).
  destruct (multi_setup None None strategy_pool 2 (fun _ _ => 0) 0 60 true (fun _ => false) (fun _ => 0%nat) 0 double_bins)
    as [u|e] eqn:E; [|destruct T].
  destruct (two_workers u) as [p|] eqn:E2; [|destruct T]. exists u, p.
  destruct (setup_fields _ _ _ _ _ _ _ _ _ _ _ _ _ E) as [F1 [F2 [F3 [F4 [F5 F6]]]]].
  split; [exists None, None, (fun _ _ => 0), 0, 60, true, (fun _ => false), (fun _ => 0%nat), 0%nat; exact E|].
  split; [exact E2|]. split; [intros i; rewrite F4; reflexivity|]. split; [intros o; rewrite F5, F6; apply le_n|].
  split; [intros i n; rewrite F1, F2, F3; discriminate|].
  destruct p as [| | |sol objs [g|]|]; try destruct T. eauto.
Qed.
Example hypersearch_doubles :
  match hypersearch farith frozen 60 true None None strategy_pool double_bins 0 with
  | Ok r => hr_log r <> [] /\ in_sol (hr_inst r) <> []
  | Err _ => False
  end.
Proof. vm_compute. split; discriminate. Qed.
