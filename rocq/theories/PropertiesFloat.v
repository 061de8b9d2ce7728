(** * Objective values in double precision: C64 (and C44 for doubles).

    [farith] is the arithmetic CPython computes with: correctly rounded [int / int], IEEE binary64
    addition, multiplication and comparison. [fvalue] is the exact rational of a double. *)
From Coq Require Import ZArith String List Bool QArith Qabs Qreals Reals Lra Lia Psatz Floats Permutation Sorted.
From Coq Require Lqa.
From Flocq Require Import Core.
From Verif Require Import Py Arith Construct Spec LocalSearch SpecSearch FloatArith FloatLaws SpecFloats ProofsFloat
  ProofsFloatValues ProofsFloatSums ProofsFloatSame ProofsPy ProofsSolve ProofsSolution ProofsValues PropertiesSolve PropertiesSearch
  PropertiesObjective ItemsManip PropertiesItems.
Import ListNotations.
Open Scope string_scope.
Open Scope list_scope.
Open Scope Z_scope.

#[local] Existing Instance fexp64_valid.

Lemma Q_of_R_le p q : (Q2R p <= Q2R q)%R -> (p <= q)%Q.
Proof. apply Rle_Qle. Qed.

(** ** The value of one bin *)
(** The double reported for a bin is the exact share of its area, up to one unit in the 52nd
    binary place per stored item. *)
Theorem C64_bin_value : forall pb sequence sol objs cid csol obj,
  valid_problem pb -> known_sequence pb sequence -> pb_strip pb = false ->
  solve farith pb sequence = Ok (sol, objs) -> dget sol cid = Some csol -> dget objs cid = Some obj ->
  exists c, dget (pb_containers pb) cid = Some c /\ finite obj /\ (0 <= fvalue obj <= 2)%Q /\
    (Qabs (fvalue obj - ratio (total_area (entries csol)) (dw c * dl c)) <= inject_Z (zlen csol) * ulp52)%Q.
Proof.
  intros pb sequence sol objs cid csol obj Hv Hk Hs H H1 H2.
  destruct (bin_close pb sequence Hv Hk _ _ _ _ _ Hs H H1 H2) as [c [Hc [HD [F [B E]]]]].
  exists c. split; [exact Hc|]. split; [apply finite_FF; exact F|].
  split; [split; apply Q_of_R_le; rewrite FR_fvalue, ?Q2R_0; [|change 2%Q with (inject_Z 2); rewrite Q2R_inject]; apply B|].
  apply Q_of_R_le. rewrite Q2R_abs, Q2R_minus, Q2R_mult, Q2R_ratio, Q2R_inject, FR_fvalue, Q2R_ulp by lia.
  rewrite INR_zlen in E. replace (zlen csol) with (zlen (entries csol)); [exact E|].
  unfold zlen, entries. rewrite map_length. reflexivity.
Qed.
Print Assumptions C64_bin_value.

(** The solver stops filling a bin when the double reaches 1. Rounding never makes that happen
    before the stored items really add up to the bin's area. *)
Theorem C64_full_when_one : forall pb sequence sol objs cid csol obj c,
  valid_problem pb -> known_sequence pb sequence -> pb_strip pb = false ->
  solve farith pb sequence = Ok (sol, objs) -> dget sol cid = Some csol -> dget objs cid = Some obj ->
  dget (pb_containers pb) cid = Some c -> zlen csol * (dw c * dl c) < 2 ^ 52 ->
  (1 <= fvalue obj)%Q -> dw c * dl c <= total_area (entries csol).
Proof.
  intros pb sequence sol objs cid csol obj c Hv Hk Hs H H1 H2 Hc Hn Hge.
  destruct (bin_close pb sequence Hv Hk _ _ _ _ _ Hs H H1 H2) as [c' [Hc' [HD [F [B E]]]]].
  assert (c' = c) by congruence. subst c'.
  apply Qle_Rle in Hge. rewrite FR_fvalue in Hge. change 1%Q with (inject_Z 1) in Hge. rewrite Q2R_inject in Hge.
  destruct (Z_le_gt_dec (dw c * dl c) (total_area (entries csol))) as [|G]; [assumption|exfalso].
  rewrite INR_zlen in E. replace (zlen (entries csol)) with (zlen csol) in E by (unfold zlen, entries; rewrite map_length; reflexivity).
  apply Rabs_le_inv in E. set (D := dw c * dl c) in *. set (A := total_area (entries csol)) in *.
  assert (RD : (0 < IZR D)%R) by (apply IZR_lt; exact HD).
  assert (E1 : (IZR D <= IZR A + IZR (zlen csol * D) * eps)%R).
  { rewrite mult_IZR. replace (IZR A)%R with (IZR A / IZR D * IZR D)%R by (field; lra).
    destruct E as [_ E]. nra. }
  assert (E2 : (IZR (zlen csol * D) * eps < 1)%R).
  { replace 1%R with (bpow radix2 52 * eps)%R by (rewrite <- bpow_plus; reflexivity).
    apply Rmult_lt_compat_r; [apply eps_pos|].
    replace (bpow radix2 52) with (IZR (2 ^ 52)) by (apply (IZR_Zpower radix2); lia). apply IZR_lt. exact Hn. }
  assert (E3 : (IZR A + 1 <= IZR D)%R) by (rewrite <- plus_IZR; apply IZR_le; lia). lra.
Qed.
Print Assumptions C64_full_when_one.

(** The converse fails: ten unit squares fill a 10 x 1 bin, but the ten 0.1 add up to
    0.9999999999999999. *)
Definition ten : inst farith := mkInst {|
  pb_containers := [("bin", mkDims 10 1)];
  pb_items := map (fun i => (i, mkDims 1 1)) ["a"; "b"; "c"; "d"; "e"; "f"; "g"; "h"; "i"; "j"];
  pb_rotation := true; pb_strategy := default_strategy; pb_strip := false; pb_height := 0 |} None 1 [] [] [].

Theorem C64_full_bin_reaches_one_refuted :
  ~ (forall pb sequence sol objs cid csol obj c,
      valid_problem pb -> known_sequence pb sequence -> pb_strip pb = false ->
      solve farith pb sequence = Ok (sol, objs) -> dget sol cid = Some csol -> dget objs cid = Some obj ->
      dget (pb_containers pb) cid = Some c -> dw c * dl c <= total_area (entries csol) ->
      (1 <= fvalue obj)%Q).
Proof.
  intros C.
  assert (Hv : valid_problem (in_pb ten)) by valid_demo.
  destruct (solve farith (in_pb ten) None) as [[sol objs]|] eqn:E; [|vm_compute in E; discriminate].
  pose proof (C (in_pb ten) None sol objs "bin") as C0. clear C.
  revert E. vm_compute. intros E. injection E as <- <-.
  specialize (C0 _ _ (mkDims 10 1) Hv I eq_refl eq_refl eq_refl eq_refl eq_refl). vm_compute in C0.
  specialize (C0 ltac:(discriminate)). apply C0. reflexivity.
Qed.
Print Assumptions C64_full_bin_reaches_one_refuted.

(** Its value, [C64_bin_value] and [C64_full_when_one] at work. *)
Example ten_value : exists sol objs csol obj, solve farith (in_pb ten) None = Ok (sol, objs) /\
  dget sol "bin" = Some csol /\ dget objs "bin" = Some obj /\
  total_area (entries csol) = 10 /\ (fvalue obj == 1 - (1 # 2) * ulp52)%Q /\ zlen csol * (10 * 1) < 2 ^ 52.
Proof. eexists _, _, _, _. split; [vm_compute; reflexivity|]. repeat (split; [vm_compute; reflexivity|]). vm_compute; reflexivity. Qed.

(** ** The placements do not depend on the rounding *)
(** In strips, and in bins whose rectangles do not overlap (C02), doubles and exact arithmetic
    store the same items at the same places. *)
Theorem C64_same_placements : forall pb sequence sol objs,
  valid_problem pb -> known_sequence pb sequence ->
  (forall cid c, dget (pb_containers pb) cid = Some c ->
     dw c < 2 ^ 51 /\ available_height pb c < 2 ^ 51 /\
     (pb_strip pb = false -> zlen (pb_items pb) * (dw c * dl c) < 2 ^ 52)) ->
  solve farith pb sequence = Ok (sol, objs) ->
  (pb_strip pb = true \/ forall cid csol, dget sol cid = Some csol -> no_overlaps (entries csol)) ->
  exists exact_objs, solve qarith pb sequence = Ok (sol, exact_objs).
Proof.
  intros pb sequence sol objs Hv Hk Hm H Hno.
  destruct (solve_run_of farith pb sequence Hv Hk sol objs H) as [items [rest [Hit [Hok [_ Hrun]]]]].
  assert (Hnc : NoDup (dkeys (pb_containers pb))) by apply Hv.
  destruct (run_same pb (pb_containers pb) items rest sol objs (zlen (pb_items pb)) Hrun) as [objs' Hrun'].
  - apply Hok.
  - destruct Hok as [[Hn _] [_ Hsub]].
    assert (Hl : (length (dkeys items) <= length (dkeys (pb_items pb)))%nat).
    { apply NoDup_incl_length; [exact Hn|]. intros i Hi. apply in_map_iff in Hi. destruct Hi as [[k d] [<- Hi]].
      apply Hsub in Hi. apply dget_Some_In. exists d. exact Hi. }
    unfold dkeys in Hl. rewrite !map_length in Hl. unfold zlen. lia.
  - intros cid c Hc. pose proof (rooms_ok _ Hv cid c Hc) as [Hw Hl]. apply In_dget in Hc; [|exact Hnc].
    destruct (Hm cid c Hc) as [M1 [M2 M3]]. unfold moderate. unfold available_height in M2. unfold container_length in *.
    split; [lia|]. split; [lia|exact M3].
  - destruct Hno as [|Hno]; [auto|right]. intros cid csol Hin. apply (Hno cid). apply In_dget; [|exact Hin].
    destruct (run_keys _ _ _ _ _ _ _ Hrun) as [-> _]. exact Hnc.
  - destruct (solve_spec qarith pb sequence Hv Hk) as [items' [rest' [sol' [objs2 [Hit' [_ [Hrun2 [_ H2]]]]]]]].
    assert (items' = items) by congruence. subst items'.
    destruct (run_det pb qarith _ _ _ _ _ Hrun' _ _ _ Hrun2) as [_ [<- <-]]. exists objs'. exact H2.
Qed.
Print Assumptions C64_same_placements.

(** ** [calculate_obj_value()] *)
Lemma solve_stands pb sequence sol objs :
  valid_problem pb -> known_sequence pb sequence -> pb_strip pb = false ->
  solve farith pb sequence = Ok (sol, objs) ->
  exists l : list (PrimFloat.float * (R * R)), map fst l = dvals objs /\ map (fun t => fst (snd t)) l = map Q2R (utilizations pb sol) /\
    map (fun t => snd (snd t)) l = map (fun kc => IZR (zlen (snd kc))) sol /\
    Forall (fun t => stands (fst t) (fst (snd t)) (snd (snd t))) l /\ length l = length (pb_containers pb).
Proof.
  intros Hv Hk Hs H.
  assert (Hkeys : dkeys sol = dkeys (pb_containers pb) /\ dkeys objs = dkeys (pb_containers pb)).
  { pose proof H as H'. rewrite C04_solve_is_solve_full in H'. destruct H' as [left H'].
    destruct (C04_ids_stored_once farith _ _ _ _ _ Hv Hk H') as [A [B _]]. auto. }
  destruct Hkeys as [K1 K2]. assert (Hnc : NoDup (dkeys (pb_containers pb))) by apply Hv.
  assert (Hall : forall cid csol obj, In (cid, csol) sol -> In (cid, obj) objs ->
     stands obj (Q2R (match dget (pb_containers pb) cid with Some c => ratio (total_area (entries csol)) (dw c * dl c) | None => 0%Q end))
            (IZR (zlen csol))).
  { intros cid csol obj H1 H2. apply In_dget in H1; [|rewrite K1; exact Hnc]. apply In_dget in H2; [|rewrite K2; exact Hnc].
    destruct (bin_close pb sequence Hv Hk _ _ _ _ _ Hs H H1 H2) as [c [Hc [HD [F [B E]]]]]. rewrite Hc.
    rewrite Q2R_ratio by lia. split; [exact F|]. split; [exact B|]. split; [apply IZR_le; unfold zlen; lia|].
    rewrite INR_zlen in E. replace (zlen csol) with (zlen (entries csol)); [exact E|].
    unfold zlen, entries. rewrite map_length. reflexivity. }
  assert (Ks : dkeys sol = dkeys objs) by congruence.
  assert (Hlen : length objs = length (pb_containers pb)).
  { apply (f_equal (@length _)) in K2. unfold dkeys in K2. rewrite !map_length in K2. exact K2. }
  rewrite <- Hlen. unfold utilizations. clear - Hall Ks.
  revert objs Hall Ks. induction sol as [|[cid csol] sol IH]; intros objs Hall Ks.
  - destruct objs; [|discriminate Ks]. exists []. cbn. auto.
  - destruct objs as [|[cid' obj] objs]; [discriminate Ks|]. cbn in Ks. injection Ks as <- Ks.
    destruct (IH objs) as [l [L1 [L2 [L3 [L4 L5]]]]].
    + intros; eapply Hall; right; eassumption.
    + exact Ks.
    + exists ((obj, (Q2R (match dget (pb_containers pb) cid with Some c => ratio (total_area (entries csol)) (dw c * dl c) | None => 0%Q end),
                IZR (zlen csol))) :: l).
      cbn [map fst snd dvals]. unfold dvals in L1. cbn [map fst snd]. rewrite L1, L2, L3. repeat (split; [reflexivity|]).
      split; [|cbn [length]; congruence].
      constructor; [|exact L4]. cbn [fst snd]. apply Hall; left; reflexivity.
Qed.

Lemma stored_count sol : fold_right Rplus 0%R (map (fun kc : string * odict entry => IZR (zlen (snd kc))) sol) = IZR (zlen (stored_ids sol)).
Proof.
  unfold stored_ids. induction sol as [|[cid csol] sol IH]; cbn [map concat fold_right snd]; [reflexivity|].
  rewrite IH, <- plus_IZR. f_equal. unfold zlen, dkeys. rewrite app_length, map_length. lia.
Qed.

(** The reported objective value is the weighted exact utilization, up to a few units in the
    52nd binary place: one per stored item and twice the square of the number of containers. *)
Theorem C64_objective_value : forall x, valid_inst farith x -> counted farith x -> pb_strip (in_pb x) = false ->
  zlen (pb_containers (in_pb x)) < 2 ^ 50 ->
  forall sequence sol objs, known_sequence (in_pb x) sequence -> solve farith (in_pb x) sequence = Ok (sol, objs) ->
  exists v, calculate_obj_value farith (set_solution x sol objs) = Ok v /\ finite v /\ (0 <= fvalue v)%Q /\
    (Qabs (fvalue v - weighted (utilizations (in_pb x) sol)) <=
     inject_Z (zlen (stored_ids sol) + 2 * zlen (pb_containers (in_pb x)) * zlen (pb_containers (in_pb x))) * ulp52)%Q.
Proof.
  intros x [Hv _] Hc Hs Hk50 sequence sol objs Hk H.
  destruct (solve_stands _ _ _ _ Hv Hk Hs H) as [l [L1 [L2 [L3 [L4 L5]]]]].
  assert (Hz : zlen l = zlen (pb_containers (in_pb x))) by (unfold zlen; rewrite L5; reflexivity).
  destruct (value_stands l) as [v [V1 [V2 [V3 V4]]]].
  - intros ->. destruct Hv as [_ [_ [_ [Hne _]]]]. apply Hne. apply length_zero_iff_nil. symmetry. exact L5.
  - exact L4.
  - apply (Z.le_lt_trans _ (zlen (pb_containers (in_pb x)))); [apply Z.eq_le_incl; exact Hz|exact Hk50].
  - exists v. unfold calculate_obj_value. cbn [in_cnum in_objs set_solution]. rewrite Hc, <- Hz, <- L1.
    split; [exact V1|]. split; [apply finite_FF; exact V2|].
    split; [apply Q_of_R_le; rewrite FR_fvalue, Q2R_0; apply V3|].
    apply Q_of_R_le. rewrite Q2R_abs, Q2R_minus, Q2R_mult, Q2R_inject, FR_fvalue, Q2R_ulp, Q2R_weighted, <- L2.
    eapply Rle_trans; [exact V4|]. right. f_equal. rewrite L3, stored_count, plus_IZR, !mult_IZR. reflexivity.
Qed.
Print Assumptions C64_objective_value.

(** Three bins, one of them full: 1 + 2/3 + 7/10 * 0. *)
Definition three : inst farith := mkInst {|
  pb_containers := [("x", mkDims 2 1); ("y", mkDims 3 1); ("z", mkDims 7 7)];
  pb_items := [("a", mkDims 2 1); ("b", mkDims 2 1); ("c", mkDims 3 4)];
  pb_rotation := true; pb_strategy := default_strategy; pb_strip := false; pb_height := 0 |} None 3 [] [] [].
Example three_valid : valid_inst farith three /\ counted farith three.
Proof. split; [split; [valid_demo|discriminate]|reflexivity]. Qed.
Example three_value : exists sol objs v, solve farith (in_pb three) None = Ok (sol, objs) /\
  calculate_obj_value farith (set_solution three sol objs) = Ok v /\
  (weighted (utilizations (in_pb three) sol) == 1 + (2 # 3) + (7 # 10) * (12 # 49))%Q /\
  Qeq_bool (fvalue v) (weighted (utilizations (in_pb three) sol)) = false.
Proof. eexists _, _, _. split; [vm_compute; reflexivity|]. repeat (split; [vm_compute; reflexivity|]). vm_compute; reflexivity. Qed.

(** ** [local_search()] *)
Lemma area_perm a b : Permutation a b -> total_area a = total_area b.
Proof. unfold total_area. induction 1; cbn [fold_right]; lia. Qed.

Lemma dget_perm {A} (l l' : odict A) : NoDup (dkeys l) -> NoDup (dkeys l') -> (forall k, dget l k = dget l' k) -> Permutation l l'.
Proof.
  intros Hn Hn' H. apply NoDup_Permutation.
  - apply (NoDup_map_inv fst). exact Hn.
  - apply (NoDup_map_inv fst). exact Hn'.
  - intros [k v]. split; intros Hi.
    + apply In_dget in Hi; [|exact Hn]. rewrite H in Hi. apply dget_In. exact Hi.
    + apply In_dget in Hi; [|exact Hn']. rewrite <- H in Hi. apply dget_In. exact Hi.
Qed.

Lemma stored_nodup sol cid csol : NoDup (stored_ids sol) -> In (cid, csol) sol -> NoDup (dkeys csol).
Proof.
  unfold stored_ids. induction sol as [|[k c] t IH]; cbn; [tauto|]. intros Hn [E|Hin].
  - injection E as -> ->. apply NoDup_app_iff in Hn. tauto.
  - apply NoDup_app_iff in Hn. apply IH; tauto.
Qed.

Lemma same_utilizations pb sol sol' : NoDup (dkeys sol) -> NoDup (stored_ids sol) -> same_placements sol sol' ->
  utilizations pb sol = utilizations pb sol'.
Proof.
  intros Hn Hs [H1 [H2 H3]]. unfold utilizations.
  assert (Hn' : NoDup (dkeys sol')) by (rewrite <- H1; exact Hn).
  assert (Hp : forall cid csol csol', In (cid, csol) sol -> In (cid, csol') sol' -> total_area (entries csol) = total_area (entries csol')).
  { intros cid csol csol' I1 I2. apply area_perm. unfold entries. apply Permutation_map. apply dget_perm.
    - eapply stored_nodup; eassumption.
    - eapply H3. exact I2.
    - apply (H2 cid); apply In_dget; assumption. }
  clear - Hp H1. revert sol' Hp H1. induction sol as [|[cid csol] sol IH]; intros [|[cid' csol'] sol'] Hp H1; try discriminate H1; [reflexivity|].
  cbn in H1. injection H1 as <- H1. cbn [map fst snd]. f_equal.
  - rewrite (Hp cid csol csol'); [reflexivity|left; reflexivity|left; reflexivity].
  - apply IH; [|exact H1]. intros; eapply Hp; right; eassumption.
Qed.

Lemma stored_le pb sequence sol objs : valid_problem pb -> known_sequence pb sequence ->
  solve farith pb sequence = Ok (sol, objs) ->
  NoDup (dkeys sol) /\ NoDup (stored_ids sol) /\ zlen (stored_ids sol) <= zlen (pb_items pb).
Proof.
  intros Hv Hk H. rewrite C04_solve_is_solve_full in H. destruct H as [left H].
  destruct (C04_ids_stored_once farith _ _ _ _ _ Hv Hk H) as [A [_ [B C]]].
  split; [rewrite A; apply Hv|]. apply NoDup_app_iff in B. destruct B as [B _]. split; [exact B|].
  assert (Hl : (length (stored_ids sol) <= length (dkeys (pb_items pb)))%nat).
  { apply NoDup_incl_length; [exact B|]. intros i Hi. assert (Hw : In i (wanted pb sequence)) by (apply C; auto).
    destruct sequence as [ids|]; cbn in Hw; [apply Hk|]; exact Hw. }
  unfold dkeys in Hl. rewrite map_length in Hl. unfold zlen. lia.
Qed.

(** Whatever the rounding does to the comparisons, the exact weighted utilization after a local
    search is at most a few units in the 52nd binary place below that of the initial solution. *)
Theorem C64_local_search : forall x, valid_inst farith x -> counted farith x -> pb_strip (in_pb x) = false ->
  zlen (pb_containers (in_pb x)) < 2 ^ 50 ->
  forall ck limit throttle start clk y clk' log,
  local_search farith ck limit throttle start x clk = Ok (y, clk', log) ->
  exists sol0 objs0, solve farith (in_pb x) None = Ok (sol0, objs0) /\
    (weighted (utilizations (in_pb x) sol0) <= weighted (utilizations (in_pb x) (in_sol y)) +
     inject_Z (2 * zlen (pb_items (in_pb x)) + 4 * zlen (pb_containers (in_pb x)) * zlen (pb_containers (in_pb x))) * ulp52)%Q.
Proof.
  intros x Hv Hc Hs Hk ck limit throttle start clk y clk' log H.
  destruct (C14_doubles x Hv _ _ _ _ _ _ _ _ H) as [sol0 [objs0 [v0 [v [S0 [V0 [V Hle]]]]]]].
  destruct (C15_genuine_construction farith farith_laws x Hv _ _ _ _ _ _ _ _ H) as [seq [h [sol [P [S1 [Hsame Hh]]]]]].
  rewrite Hs in Hh. subst h.
  assert (Epb : pb_with_height (in_pb x) (pb_height (in_pb x)) = in_pb x) by (destruct (in_pb x); reflexivity).
  rewrite Epb in S1.
  assert (Kn : known_sequence (in_pb x) (Some seq)) by (intros i Hi; eapply Permutation_in; [exact P|exact Hi]).
  exists sol0, objs0. split; [exact S0|].
  pose proof Hv as [Hvp _].
  destruct (C64_objective_value x Hv Hc Hs Hk None sol0 objs0 I S0) as [w0 [W0 [F0 [_ B0]]]].
  destruct (C64_objective_value x Hv Hc Hs Hk (Some seq) sol (in_objs y) Kn S1) as [w [W [F [_ B]]]].
  destruct (C15_configuration_kept farith farith_laws x Hv _ _ _ _ _ _ _ _ H) as [_ [_ [_ [_ [_ [_ [Ec _]]]]]]].
  unfold calculate_obj_value in W0, W, V. cbn [in_cnum in_objs set_solution] in W0, W. rewrite Ec in V.
  assert (w0 = v0) by congruence. assert (w = v) by congruence. subst w0 w.
  destruct (stored_le _ None _ _ Hvp I S0) as [_ [_ N0]].
  destruct (stored_le _ _ _ _ Hvp Kn S1) as [D1 [D2 N1]].
  rewrite <- (same_utilizations _ _ _ D1 D2 Hsame).
  assert (Hvv : (fvalue v0 <= fvalue v)%Q).
  { destruct Hle as [->|Hlt]; [apply Qle_refl|]. apply finite_FF in F0, F. rewrite ltb_FR in Hlt by assumption.
    apply Q_of_R_le. rewrite !FR_fvalue. destruct (Rlt_bool_spec (FR v0) (FR v)) as [G|]; [|discriminate Hlt]. apply Rlt_le. exact G. }
  set (K := zlen (pb_containers (in_pb x))) in *. set (N := zlen (pb_items (in_pb x))) in *.
  assert (U : forall n, n <= N -> (inject_Z (n + 2 * K * K) * ulp52 <= inject_Z (N + 2 * K * K) * ulp52)%Q).
  { intros n Hn. apply Qmult_le_compat_r; [|discriminate]. rewrite <- Zle_Qle. lia. }
  pose proof (Qle_trans _ _ _ B0 (U _ N0)) as B0'. pose proof (Qle_trans _ _ _ B (U _ N1)) as B'.
  apply Qabs_Qle_condition in B0', B'. destruct B0' as [B1 _], B' as [_ B2].
  replace (2 * N + 4 * K * K) with ((N + 2 * K * K) + (N + 2 * K * K)) by ring.
  rewrite inject_Z_plus. set (e := (inject_Z (N + 2 * K * K))%Q) in *.
  set (u0 := weighted (utilizations (in_pb x) sol0)) in *. set (u1 := weighted (utilizations (in_pb x) sol)) in *.
  clearbody e u0 u1.
  clear - B1 B2 Hvv. set (d := (e * ulp52)%Q) in *. assert (E : ((e + e) * ulp52 == d + d)%Q) by (unfold d; ring).
  rewrite E. clearbody d. Lqa.lra.
Qed.
Print Assumptions C64_local_search.

(** With one bin (of moderate size) that is no loss at all: the area of the stored items never
    gets smaller. *)
Theorem C64_local_search_area : forall x, valid_inst farith x -> counted farith x -> pb_strip (in_pb x) = false ->
  forall cid c, pb_containers (in_pb x) = [(cid, c)] ->
  (2 * zlen (pb_items (in_pb x)) + 4) * (dw c * dl c) < 2 ^ 52 ->
  forall ck limit throttle start clk y clk' log,
  local_search farith ck limit throttle start x clk = Ok (y, clk', log) ->
  exists csol0 csol objs0, solve farith (in_pb x) None = Ok ([(cid, csol0)], objs0) /\ in_sol y = [(cid, csol)] /\
    total_area (entries csol0) <= total_area (entries csol).
Proof.
  intros x Hv Hc Hs cid c Ec Hm ck limit throttle start clk y clk' log H.
  destruct (C64_local_search x Hv Hc Hs ltac:(rewrite Ec; reflexivity) _ _ _ _ _ _ _ _ H) as [sol0 [objs0 [S0 B]]].
  destruct (C15_placements farith farith_laws x Hv _ _ _ _ _ _ _ _ H) as [Ky _].
  pose proof Hv as [Hvp _].
  assert (K0 : dkeys sol0 = dkeys (pb_containers (in_pb x))).
  { pose proof S0 as H'. rewrite C04_solve_is_solve_full in H'. destruct H' as [left H'].
    apply (C04_ids_stored_once farith _ None _ _ _ Hvp I H'). }
  rewrite Ec in Ky, K0, B. cbn [dkeys map fst] in Ky, K0.
  destruct sol0 as [|[k0 csol0] [|? ?]]; try discriminate K0. injection K0 as ->.
  destruct (in_sol y) as [|[k1 csol] [|? ?]]; try discriminate Ky. injection Ky as ->.
  exists csol0, csol, objs0. split; [exact S0|]. split; [reflexivity|].
  unfold utilizations in B. rewrite Ec in B. cbn [map fst snd dget] in B. rewrite String.eqb_refl in B.
  unfold weighted in B. cbn [rev app] in B. change (zlen [(cid, c)]) with 1 in B.
  assert (HD : 0 < dw c * dl c).
  { destruct Hvp as [_ [[_ Hcp] _]]. rewrite Ec in Hcp. destruct (Hcp cid c (or_introl eq_refl)). nia. }
  apply Qle_Rle in B. rewrite Q2R_plus, Q2R_mult, !Q2R_ratio, Q2R_inject, Q2R_ulp in B by lia.
  set (D := dw c * dl c) in *. set (A0 := total_area (entries csol0)) in *. set (A := total_area (entries csol)) in *.
  replace (4 * 1 * 1) with 4 in B by reflexivity. set (M := 2 * zlen (pb_items (in_pb x)) + 4) in *.
  assert (RD : (0 < IZR D)%R) by (apply IZR_lt; exact HD).
  apply (Rmult_le_compat_r (IZR D)) in B; [|lra].
  replace (IZR A0 / IZR D * IZR D)%R with (IZR A0) in B by (field; lra).
  replace ((IZR A / IZR D + IZR M * eps) * IZR D)%R with (IZR A + IZR (M * D) * eps)%R in B by (rewrite mult_IZR; field; lra).
  assert (E2 : (IZR (M * D) * eps < 1)%R).
  { replace 1%R with (bpow radix2 52 * eps)%R by (rewrite <- bpow_plus; reflexivity).
    apply Rmult_lt_compat_r; [apply eps_pos|].
    replace (bpow radix2 52) with (IZR (2 ^ 52)) by (apply (IZR_Zpower radix2); lia). apply IZR_lt. exact Hm. }
  apply Z.lt_succ_r. apply lt_IZR. unfold Z.succ. rewrite plus_IZR. lra.
Qed.
Print Assumptions C64_local_search_area.

(** A search in doubles that really improves: 6 of 6 cells instead of 3. *)
Definition one_bin : inst farith := mkInst {|
  pb_containers := [("bin", mkDims 3 2)];
  pb_items := [("a", mkDims 1 1); ("c", mkDims 2 2); ("d", mkDims 1 2)];
  pb_rotation := true; pb_strategy := default_strategy; pb_strip := false; pb_height := 0 |} None 1 [] [] [].
Example one_bin_search : valid_inst farith one_bin /\ counted farith one_bin /\
  match local_search farith frozen 60 true None one_bin 0, solve farith (in_pb one_bin) None with
  | Ok (y, _, _), Ok (sol0, _) =>
      map (fun kc => total_area (entries (snd kc))) sol0 = [3] /\
      map (fun kc => total_area (entries (snd kc))) (in_sol y) = [6]
  | _, _ => False
  end.
Proof. split; [split; [valid_demo|discriminate]|]. split; [reflexivity|]. vm_compute. split; reflexivity. Qed.

(** ** Strips *)
(** The double reported for a strip is the one nearest to the exact area divided by the area up to
    the height counted (C09: one less than the stack's, at least 1). *)
Theorem C64_strip_value : forall pb sequence sol objs cid csol obj,
  valid_problem pb -> known_sequence pb sequence -> pb_strip pb = true ->
  solve farith pb sequence = Ok (sol, objs) -> dget sol cid = Some csol -> dget objs cid = Some obj ->
  entries csol <> [] -> total_area (entries csol) <= 2 ^ 1023 ->
  exists c, dget (pb_containers pb) cid = Some c /\
    nearest obj (ratio (total_area (entries csol)) (dw c * Z.max 1 (stack_height (entries csol) - 1))).
Proof.
  intros pb sequence sol objs cid csol obj Hv Hk Hs H H1 H2 Hne Hbig.
  destruct (strip_FR pb sequence Hv Hk _ _ _ _ _ Hs H H1 H2 Hne) as [c [Hc [Hw ->]]]. exists c. split; [exact Hc|].
  set (A := total_area _) in *. set (D := dw c * _). assert (HD : 0 < D) by (unfold D; nia).
  assert (HA : 0 <= A).
  { unfold A. assert (Hpos : forall e, In e (entries csol) -> 0 <= entry_area e).
    { intros e He. unfold entries in He. apply in_map_iff in He. destruct He as [[k e'] [<- He]].
      destruct (solve_inside _ _ _ Hv Hk _ _ H cid csol k e' (dget_In _ _ _ H1) He) as [? [_ Hin]].
      unfold inside in Hin. unfold entry_area. simpl. nia. }
    clear - Hpos. induction (entries csol) as [|e t IH]; [reflexivity|].
    change (total_area (e :: t)) with (entry_area e + total_area t).
    pose proof (Hpos e (or_introl eq_refl)). assert (0 <= total_area t) by (apply IH; intros; apply Hpos; right; assumption). lia. }
  destruct (div_FR_le A D 1023 HA HD ltac:(lia) Hbig) as [F R]. split; [apply finite_FF; exact F|].
  intros y Hy. apply finite_FF in Hy. apply Q_of_R_le. rewrite !Q2R_abs, !Q2R_minus, !FR_fvalue, R, Q2R_ratio by lia.
  destruct (round_N_pt radix2 fexp64 (fun z => negb (Z.even z)) (IZR A / IZR D)) as [_ G].
  apply G. apply format_FR.
Qed.
Print Assumptions C64_strip_value.

(** C10 for doubles: with all the items stored, a lower stack never has a smaller double, and
    above two rows it has a strictly larger one. *)
Theorem C64_lower_is_better : forall pb pb' sq sq' cid csol csol' (obj obj' : PrimFloat.float),
  valid_problem pb -> valid_problem pb' -> same_strip pb pb' ->
  known_sequence pb sq -> known_sequence pb' sq' ->
  solve farith pb sq = Ok ([(cid, csol)], [(cid, obj)]) ->
  solve farith pb' sq' = Ok ([(cid, csol')], [(cid, obj')]) ->
  stores_all pb csol -> stores_all pb' csol' ->
  stack_height (entries csol) < stack_height (entries csol') ->
  items_area (pb_items pb) <= 2 ^ 1000 ->
  PrimFloat.leb obj' obj = true /\
  ((forall c, dget (pb_containers pb) cid = Some c -> dw c <= 2 ^ 900) ->
   2 < stack_height (entries csol') < 2 ^ 52 -> PrimFloat.ltb obj' obj = true).
Proof.
  intros pb pb' sq sq' cid csol csol' obj obj' Hv Hv' [Hs [Hs' [Hit Hco]]] Hk Hk' H H' Hf Hf' Hlt Hbig.
  assert (Hget : forall (T : Type) (x : T), dget [(cid, x)] cid = Some x).
  { intros T x. simpl. rewrite String.eqb_refl. reflexivity. }
  assert (Hne : forall p cs, valid_problem p -> stores_all p cs -> entries cs <> []).
  { intros p cs [_ [_ [Hi _]]] Hfp E. unfold entries in E. apply map_eq_nil in E. subst.
    destruct (pb_items p) as [|[k d] t] eqn:Ei; [congruence|]. apply (Hfp k). rewrite Ei. left. reflexivity. }
  destruct (strip_FR pb sq Hv Hk _ _ cid csol obj Hs H (Hget _ _) (Hget _ _) (Hne _ _ Hv Hf)) as [c [Hc [Hw ->]]].
  destruct (strip_FR pb' sq' Hv' Hk' _ _ cid csol' obj' Hs' H' (Hget _ _) (Hget _ _) (Hne _ _ Hv' Hf')) as [c' [Hc' [_ ->]]].
  rewrite Hco in Hc'. assert (c' = c) by congruence. subst c'.
  pose proof (full_area _ _ _ _ _ _ _ Hv Hk H eq_refl Hf) as Ha.
  pose proof (full_area _ _ _ _ _ _ _ Hv' Hk' H' eq_refl Hf') as Ha'.
  rewrite Hit in Ha'. rewrite Ha, Ha'. set (A := items_area (pb_items pb)) in *.
  set (h := stack_height (entries csol)) in *. set (h' := stack_height (entries csol')) in *.
  assert (HA : 0 < A).
  { destruct Hv as [[_ Hp] [_ [Hi _]]]. unfold A. clear - Hp Hi.
    assert (G : forall l, (forall i d, In (i, d) l -> pos_dims d) -> 0 <= items_area l).
    { induction l as [|[i d] t IH]; intros Hl; [reflexivity|].
      change (items_area ((i, d) :: t)) with (dw d * dl d + items_area t).
      destruct (Hl i d (or_introl eq_refl)). assert (0 <= items_area t) by (apply IH; intros; eapply Hl; right; eassumption). nia. }
    destruct (pb_items pb) as [|[i d] t]; [congruence|].
    change (items_area ((i, d) :: t)) with (dw d * dl d + items_area t).
    destruct (Hp i d (or_introl eq_refl)). assert (0 <= items_area t) by (apply G; intros; eapply Hp; right; eassumption). nia. }
  set (m := Z.max 1 (h - 1)). set (m' := Z.max 1 (h' - 1)).
  assert (Hm : 1 <= m <= m') by (unfold m, m'; lia).
  destruct (div_FR_le A (dw c * m) 1000) as [F1 R1]; [lia|nia|lia|lia|].
  destruct (div_FR_le A (dw c * m') 1000) as [F2 R2]; [lia|nia|lia|lia|].
  assert (RW : (0 < IZR (dw c))%R) by (apply IZR_lt; exact Hw).
  assert (Rm : (1 <= IZR m)%R) by (apply IZR_le; lia). assert (Rm' : (1 <= IZR m')%R) by (apply IZR_le; lia).
  assert (RA : (0 < IZR A)%R) by (apply IZR_lt; exact HA).
  split.
  - rewrite leb_FR by assumption. apply Rle_bool_true. rewrite R1, R2. apply rnd_le. rewrite !mult_IZR.
    assert (IZR m <= IZR m')%R by (apply IZR_le; lia).
    apply Rmult_le_compat_l; [lra|]. apply Rinv_le_contravar; [apply Rmult_lt_0_compat; lra|]. apply Rmult_le_compat_l; lra.
  - intros Hwb Hh. specialize (Hwb c Hc).
    rewrite ltb_FR by assumption. apply Rlt_bool_true. rewrite R1, R2. apply rnd_lt.
    + eapply Rle_trans; [apply (bpow_le radix2 _ (- (1000))); lia|]. apply quot_ge; [lia|nia|lia|].
      apply Z.le_trans with (2 ^ 900 * 2 ^ 52); [apply Z.mul_le_mono_nonneg; unfold m'; lia|].
      rewrite <- Z.pow_add_r by lia. apply Z.pow_le_mono_r; lia.
    + assert (Hmm : m + 1 <= m') by (unfold m, m'; lia).
      assert (Rmm : (IZR m + 1 <= IZR m')%R) by (rewrite <- plus_IZR; apply IZR_le; lia).
      assert (Rb : (eps * IZR m' < 1)%R).
      { replace 1%R with (eps * bpow radix2 52)%R by (rewrite <- bpow_plus; reflexivity).
        apply Rmult_lt_compat_l; [apply eps_pos|]. replace (bpow radix2 52) with (IZR (2 ^ 52)) by (apply (IZR_Zpower radix2); lia).
        apply IZR_lt. unfold m'. lia. }
      rewrite !mult_IZR. apply Rmult_lt_reg_r with (IZR (dw c) * IZR m * IZR m' / IZR A)%R.
      { apply Rdiv_lt_0_compat; [|exact RA]. apply Rmult_lt_0_compat; [apply Rmult_lt_0_compat|]; lra. }
      replace (eps * (IZR A / (IZR (dw c) * IZR m)) * (IZR (dw c) * IZR m * IZR m' / IZR A))%R with (eps * IZR m')%R by (field; lra).
      replace ((IZR A / (IZR (dw c) * IZR m) - IZR A / (IZR (dw c) * IZR m')) * (IZR (dw c) * IZR m * IZR m' / IZR A))%R
        with (IZR m' - IZR m)%R by (field; lra). lra.
Qed.
Print Assumptions C64_lower_is_better.

(** ** C44 for doubles *)
Lemma farith_exact : exact_ratios farith (2 ^ 25).
Proof.
  intros a b c d Ha Hb Hc Hd. change (ngtb farith (ndiv farith a b) (ndiv farith c d)) with (PrimFloat.ltb (int_div c d) (int_div a b)).
  rewrite div_gt; [| lia | lia | lia | lia | | | |].
  - split.
    + intros H. apply Qlt_shift_div_l; [apply inject_pos; lia|].
      assert (E : (inject_Z c / inject_Z d * inject_Z b == inject_Z (c * b) / inject_Z d)%Q).
      { rewrite inject_Z_mult. field. apply inject_nz. lia. }
      rewrite E. apply Qlt_shift_div_r; [apply inject_pos; lia|]. rewrite <- inject_Z_mult, <- Zlt_Qlt. exact H.
    + intros H. apply (Qmult_lt_compat_r _ _ (inject_Z b * inject_Z d)) in H.
      2:{ rewrite <- inject_Z_mult. apply inject_pos. nia. }
      assert (E : (inject_Z c / inject_Z d * (inject_Z b * inject_Z d) == inject_Z (c * b))%Q).
      { rewrite inject_Z_mult. field. apply inject_nz. lia. }
      assert (E' : (inject_Z a / inject_Z b * (inject_Z b * inject_Z d) == inject_Z (a * d))%Q).
      { rewrite inject_Z_mult. field. apply inject_nz. lia. }
      rewrite E, E', <- Zlt_Qlt in H. exact H.
  - apply Z.le_trans with (2 ^ 25); [lia|]. apply Z.pow_le_mono_r; lia.
  - apply Z.le_trans with (2 ^ 25); [lia|]. apply Z.pow_le_mono_r; lia.
  - apply Z.le_trans with (2 ^ 25); [lia|]. apply Z.pow_le_mono_r; lia.
  - apply Z.le_lt_trans with (2 ^ 25 * 2 ^ 25); [apply Z.mul_le_mono_nonneg; lia|]. rewrite <- Z.pow_add_r by lia. apply Z.pow_lt_mono_r; lia.
Qed.

(** With sides up to 2^25 the doubles order the items exactly as the ratios themselves do. *)
Theorem C44_doubles : forall x by_ reverse y, valid_items (pb_items (in_pb x)) ->
  (forall i d, In (i, d) (pb_items (in_pb x)) -> sides_up_to (2 ^ 25) d) ->
  sort_items farith (Some (by_, reverse)) x = Ok y ->
  exists items, items_replaced x items y /\ Permutation items (pb_items (in_pb x)) /\
    StronglySorted (fun a b => if reverse then comes_before by_ b a else comes_before by_ a b) items.
Proof.
  intros x by_ reverse y Hv Hup H.
  apply (C44_sort_items farith (2 ^ 25) x by_ reverse y (fun _ => farith_exact) Hv Hup H).
Qed.
Print Assumptions C44_doubles.

(** Witnesses: two strips of the same items, of heights 3 and 6. *)
Definition low_high (strategy : list pclass) : problem := {|
  pb_containers := [("strip-pack-container", mkDims 4 20)];
  pb_items := [("a", mkDims 2 3); ("b", mkDims 2 3)];
  pb_rotation := false; pb_strategy := strategy; pb_strip := true; pb_height := 20 |}.
Example lower_demo : exists csol csol' obj obj',
  valid_problem (low_high [cB; cA]) /\ valid_problem (low_high [cA; cB]) /\
  solve farith (low_high [cB; cA]) None = Ok ([("strip-pack-container", csol)], [("strip-pack-container", obj)]) /\
  solve farith (low_high [cA; cB]) None = Ok ([("strip-pack-container", csol')], [("strip-pack-container", obj')]) /\
  stack_height (entries csol) = 3 /\ stack_height (entries csol') = 6 /\ dkeys csol = ["a"; "b"] /\ dkeys csol' = ["a"; "b"] /\
  (fvalue obj == 3 # 2)%Q /\ PrimFloat.ltb obj' obj = true /\ Qeq_bool (fvalue obj') (ratio 12 (4 * 5)) = false.
Proof.
  eexists _, _, _, _. split; [valid_demo|]. split; [valid_demo|]. split; [vm_compute; reflexivity|].
  split; [vm_compute; reflexivity|]. repeat (split; [vm_compute; reflexivity|]). vm_compute; reflexivity.
Qed.

(** Sorting in doubles: ratios 1/3 and 2/6 tie, so the ids decide. *)
Definition sort_input : inst farith := mkInst {|
  pb_containers := [("bin", mkDims 10 10)];
  pb_items := [("b", mkDims 3 1); ("c", mkDims 1 1); ("a", mkDims 2 6); ("d", mkDims 5 2)];
  pb_rotation := true; pb_strategy := default_strategy; pb_strip := false; pb_height := 0 |} None 1 [] [] [].
Example sort_doubles_demo :
  match sort_items farith (Some ("longest_side_ratio", false)) sort_input with
  | Ok y => dkeys (pb_items (in_pb y)) = ["c"; "d"; "a"; "b"]
  | Err _ => False
  end /\
  (forall i d, In (i, d) (pb_items (in_pb sort_input)) -> sides_up_to (2 ^ 25) d).
Proof.
  split; [vm_compute; reflexivity|].
  intros i d H. cbn in H. unfold sides_up_to. intuition (match goal with E : _ = (i, d) |- _ => injection E as <- <- end; cbn; lia).
Qed.
