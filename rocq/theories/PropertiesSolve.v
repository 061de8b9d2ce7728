(** * Properties of [solve()]: C01-C12, C48, C51, C52. *)
From Coq Require Import ZArith String List Bool QArith Lia Permutation.
From Verif Require Import Py Arith Construct Spec Runs ProofsPy ProofsConstruct ProofsSolve
  ProofsPacking ProofsSolution ProofsValues.
Import ListNotations.
Open Scope string_scope.
Open Scope list_scope.
Open Scope Z_scope.

(** ** A concrete problem meeting the hypotheses used below *)
Definition demo : problem := {|
  pb_containers := [("bin-1", mkDims 4 4); ("bin-2", mkDims 3 2)];
  pb_items := [("a", mkDims 2 2); ("b", mkDims 1 4); ("c", mkDims 5 1); ("d", mkDims 2 1);
               ("e", mkDims 3 2)];
  pb_rotation := true;
  pb_strategy := default_strategy;
  pb_strip := false;
  pb_height := 0 |}.

Definition demo_strip : problem := {|
  pb_containers := [("strip-pack-container", mkDims 4 40)];
  pb_items := [("a", mkDims 2 2); ("b", mkDims 1 3); ("c", mkDims 4 1)];
  pb_rotation := true; pb_strategy := default_strategy; pb_strip := true; pb_height := 40 |}.

Ltac valid_demo :=
  split; [|split; [|split; [discriminate|split; [discriminate|]]]];
  [ split; [repeat constructor; simpl; intuition congruence
           |simpl; unfold pos_dims; intros ? ?; intuition (try congruence);
            repeat match goal with H : (_, _) = (_, _) |- _ => injection H as <- <- end;
            simpl; lia]
  | split; [repeat constructor; simpl; intuition congruence
           |simpl; unfold pos_dims; intros ? ?; intuition (try congruence);
            repeat match goal with H : (_, _) = (_, _) |- _ => injection H as <- <- end;
            simpl; lia]
  | simpl; (discriminate || lia) ].

Example demo_valid : valid_problem demo. Proof. valid_demo. Qed.
Example demo_strip_valid : valid_problem demo_strip. Proof. valid_demo. Qed.
Example demo_sequence : known_sequence demo (Some ["e"; "b"; "a"]).
Proof. intros i H. simpl in *. tauto. Qed.

(** What [solve] does on it: two containers filled, one item too large for both. *)
Example demo_result :
  solve qarith demo None =
  Ok ([("bin-1", [("a", mkEntry 0 0 2 2); ("b", mkEntry 0 2 4 1); ("d", mkEntry 0 3 2 1)]);
       ("bin-2", [("e", mkEntry 0 0 3 2)])],
      [("bin-1", 5 # 8); ("bin-2", 1%Q)]).
Proof. vm_compute. reflexivity. Qed.

(** ** C01 *)
Theorem C01_inside_container : forall ar pb sequence sol objs,
  valid_problem pb -> known_sequence pb sequence ->
  solve ar pb sequence = Ok (sol, objs) ->
  forall cid csol i e, In (cid, csol) sol -> In (i, e) csol ->
  exists c, dget (pb_containers pb) cid = Some c /\ inside (dw c) (available_height pb c) e.
Proof. exact (fun ar pb sq sol objs Hv Hk => solve_inside ar pb sq Hv Hk sol objs). Qed.
Print Assumptions C01_inside_container.

(** ** C02: false of the code. *)
Definition overlap_problem : problem := {|
  pb_containers := [("bin", mkDims 4 4)];
  pb_items := [("i0", mkDims 2 2); ("i1", mkDims 1 2); ("i2", mkDims 4 1); ("i3", mkDims 3 1)];
  pb_rotation := true; pb_strategy := default_strategy; pb_strip := false; pb_height := 0 |}.

Example overlap_problem_valid : valid_problem overlap_problem. Proof. valid_demo. Qed.

Theorem C02_no_overlap_refuted :
  ~ (forall ar pb sequence sol objs,
       valid_problem pb -> known_sequence pb sequence ->
       solve ar pb sequence = Ok (sol, objs) ->
       forall cid csol, In (cid, csol) sol -> no_overlaps (entries csol)).
Proof.
  intros H. assert (E : solve qarith overlap_problem None =
    Ok ([("bin", [("i0", mkEntry 0 0 2 2); ("i1", mkEntry 0 2 1 2);
                  ("i2", mkEntry 2 0 1 4); ("i3", mkEntry 1 2 3 1)])],
        [("bin", 13 # 16)])) by (vm_compute; reflexivity).
  specialize (H qarith overlap_problem None _ _ overlap_problem_valid I E "bin" _ (or_introl eq_refl)).
  unfold entries, no_overlaps in H. simpl in H.
  inversion H as [|? ? _ H1]; subst. inversion H1 as [|? ? _ H2]; subst.
  inversion H2 as [|? ? H3 _]; subst. inversion H3 as [|? ? H4 _]; subst.
  apply H4. exists 2, 2. unfold covers. simpl. lia.
Qed.
Print Assumptions C02_no_overlap_refuted.

(** Also without rotation. *)
Definition overlap_problem2 : problem := {|
  pb_containers := [("bin", mkDims 4 3)];
  pb_items := [("i0", mkDims 2 2); ("i1", mkDims 1 3); ("i2", mkDims 1 1); ("i3", mkDims 3 1)];
  pb_rotation := false; pb_strategy := default_strategy; pb_strip := false; pb_height := 0 |}.

Theorem C02_no_overlap_without_rotation_refuted :
  valid_problem overlap_problem2 /\
  exists csol objs, solve qarith overlap_problem2 None = Ok ([("bin", csol)], objs) /\
    ~ no_overlaps (entries csol).
Proof.
  split; [valid_demo|]. eexists _, _. split; [vm_compute; reflexivity|].
  intros H. unfold entries, no_overlaps in H. simpl in H.
  inversion H as [|? ? _ H1]; subst. inversion H1 as [|? ? _ H2]; subst.
  inversion H2 as [|? ? H3 _]; subst. inversion H3 as [|? ? H4 _]; subst.
  apply H4. exists 2, 2. unfold covers. simpl. lia.
Qed.
Print Assumptions C02_no_overlap_without_rotation_refuted.

(** The strongest true variant: no overlap at all when no permitted orientation of an item is
    wider than 2. *)
Theorem C02_no_overlap_partial : forall ar pb sequence sol objs,
  valid_problem pb -> known_sequence pb sequence ->
  solve ar pb sequence = Ok (sol, objs) ->
  (forall i d, In (i, d) (pb_items pb) -> dw d <= 2 /\ (pb_rotation pb = true -> dl d <= 2)) ->
  forall cid csol, In (cid, csol) sol -> no_overlaps (entries csol).
Proof. exact (fun ar pb sq sol objs Hv Hk => narrow_no_overlap ar pb sq Hv Hk sol objs). Qed.
Print Assumptions C02_no_overlap_partial.

(** The bound 2 is the best possible: the witnesses above use items of width 3. *)
Example narrow_demo :
  let pb := {| pb_containers := [("bin", mkDims 4 4)];
               pb_items := [("a", mkDims 2 1); ("b", mkDims 1 2); ("c", mkDims 2 2)];
               pb_rotation := true; pb_strategy := default_strategy; pb_strip := false;
               pb_height := 0 |} in
  valid_problem pb /\
  (forall i d, In (i, d) (pb_items pb) -> dw d <= 2 /\ (pb_rotation pb = true -> dl d <= 2)).
Proof.
  split; [valid_demo|]. simpl. intros i d.
  intuition (try congruence);
    repeat match goal with H : (_, _) = (_, _) |- _ => injection H as <- <- end; simpl; lia.
Qed.

(** ** C03 *)
Theorem C03_overlap_only_on_top_row : forall ar pb sequence sol objs,
  valid_problem pb -> known_sequence pb sequence ->
  solve ar pb sequence = Ok (sol, objs) ->
  forall cid csol pre i1 e1 mid i2 e2 post,
    In (cid, csol) sol ->
    csol = pre ++ (i1, e1) :: mid ++ (i2, e2) :: post ->
    forall x y, covers e1 x y -> covers e2 x y ->
      y = e_y e2 + e_l e2 - 1 /\ e_x e2 < x < e_x e2 + e_w e2 - 1.
Proof.
  intros ar pb sq sol objs Hv Hk H cid csol pre i1 e1 mid i2 e2 post Hin Heq x y H1 H2.
  pose proof (solve_order ar pb sq Hv Hk sol objs H cid csol Hin) as Ho.
  unfold placed_in_order in Ho.
  assert (Hb : benign e1 e2).
  { apply (ForallOrdPairs_nth _ _ Ho (length pre) (length pre + S (length mid))).
    - lia.
    - subst csol. unfold entries. rewrite map_app. rewrite nth_error_app2 by (rewrite map_length; lia).
      rewrite map_length, Nat.sub_diag. reflexivity.
    - subst csol. unfold entries. rewrite map_app. rewrite nth_error_app2 by (rewrite map_length; lia).
      rewrite map_length. replace (length pre + S (length mid) - length pre)%nat
        with (S (length mid)) by lia. simpl. rewrite map_app.
      rewrite nth_error_app2 by (rewrite map_length; lia).
      rewrite map_length, Nat.sub_diag. reflexivity. }
  exact (Hb x y H1 H2).
Qed.
Print Assumptions C03_overlap_only_on_top_row.

(** ** C04 *)
Theorem C04_ids_stored_once : forall ar pb sequence left sol objs,
  valid_problem pb -> known_sequence pb sequence ->
  solve_full ar pb sequence = Ok (left, sol, objs) ->
  dkeys sol = dkeys (pb_containers pb) /\
  dkeys objs = dkeys (pb_containers pb) /\
  NoDup (stored_ids sol ++ dkeys left) /\
  (forall i, In i (wanted pb sequence) <-> In i (stored_ids sol) \/ In i (dkeys left)).
Proof. exact (fun ar pb sq l sol objs Hv Hk => solve_ids ar pb sq Hv Hk l sol objs). Qed.
Print Assumptions C04_ids_stored_once.

Theorem C04_solve_is_solve_full : forall ar pb sequence sol objs,
  solve ar pb sequence = Ok (sol, objs) <->
  exists left, solve_full ar pb sequence = Ok (left, sol, objs).
Proof.
  intros. unfold solve. destruct (solve_full ar pb sequence) as [[[l s] o]|e]; simpl.
  - split; [intros [= <- <-]; eauto|]. intros [l' [= _ <- <-]]. reflexivity.
  - split; [discriminate|]. intros [l' H]. discriminate.
Qed.
Print Assumptions C04_solve_is_solve_full.

(** ** C05 *)
Theorem C05_stored_dimensions : forall ar pb sequence sol objs,
  valid_problem pb -> known_sequence pb sequence ->
  solve ar pb sequence = Ok (sol, objs) ->
  forall cid csol before i e after,
    In (cid, csol) sol -> csol = before ++ (i, e) :: after ->
  exists c d, dget (pb_containers pb) cid = Some c /\ dget (pb_items pb) i = Some d /\
    ( (e_w e, e_l e) = (dw d, dl d) \/
      ( (e_w e, e_l e) = (dl d, dw d) /\ pb_rotation pb = true /\
        ~ passes_fit_test (dw c) (available_height pb c) (entries before)
                          (e_x e) (e_y e) (dw d) (dl d)) ).
Proof.
  intros ar pb sq sol objs Hv Hk H cid csol before i e after Hin Heq.
  destruct (solve_explained ar pb sq Hv Hk sol objs H cid csol before i e after Hin Heq)
    as [c [d [Hc [Hd [Hst [_ Hrot]]]]]].
  exists c, d. split; [exact Hc|]. split; [exact Hd|].
  destruct (Z.eq_dec (e_w e) (dw d)) as [E1|E1]; [destruct (Z.eq_dec (e_l e) (dl d)) as [E2|E2]|].
  - left. congruence.
  - right. destruct Hrot as [Hr Hn]; [congruence|].
    destruct Hst as [[? ?]|[_ [Ew El]]]; [congruence|].
    split; [rewrite Ew, El; reflexivity|auto].
  - right. destruct Hrot as [Hr Hn]; [congruence|].
    destruct Hst as [[? ?]|[_ [Ew El]]]; [congruence|].
    split; [rewrite Ew, El; reflexivity|auto].
Qed.
Print Assumptions C05_stored_dimensions.

(** ** C06: total, no exception, and the model's loop bound is never the reason to stop. *)
Theorem C06_solve_never_fails : forall ar pb sequence,
  valid_problem pb -> known_sequence pb sequence ->
  exists sol objs, solve ar pb sequence = Ok (sol, objs).
Proof. exact solve_total. Qed.
Print Assumptions C06_solve_never_fails.

(** More fuel never changes the outcome: the [while True] loop really ended. *)
Theorem C06_fuel_is_irrelevant : forall ar W L strip rotation strategy items n,
  0 < W -> 0 < L -> valid_items items ->
  exists s, construct_loop ar (n + construct_fuel items) W L strip rotation strategy
              (init_state ar W L items) = Ok s /\ stopped ar s.
Proof.
  intros ar W L strip rotation strategy items n HW HL Hi.
  destruct (construct_loop_result ar W L strip rotation strategy items HW HL Hi)
    as [s [Hs [_ [Hstop _]]]].
  exists s. split; [|exact Hstop]. apply construct_loop_fuel. exact Hs.
Qed.
Print Assumptions C06_fuel_is_irrelevant.

(** An unknown id in the sequence is a KeyError (not part of the guarantee above). *)
Example C06_unknown_id : solve qarith demo (Some ["a"; "zz"]) = Err KeyError.
Proof. reflexivity. Qed.

(** ** C07 *)
Theorem C07_bin_objective_is_utilization : forall pb sequence sol objs cid csol obj,
  valid_problem pb -> known_sequence pb sequence -> pb_strip pb = false ->
  solve qarith pb sequence = Ok (sol, objs) ->
  dget sol cid = Some csol -> dget objs cid = Some obj ->
  exists c, dget (pb_containers pb) cid = Some c /\
    (obj == inject_Z (total_area (entries csol)) / inject_Z (dw c * dl c))%Q.
Proof. exact (fun pb sq sol objs cid csol obj Hv Hk => bin_value pb sq Hv Hk sol objs cid csol obj). Qed.
Print Assumptions C07_bin_objective_is_utilization.

(** ** C08: false of the code. *)
Definition over_full : problem := {|
  pb_containers := [("bin", mkDims 4 3)];
  pb_items := [("i0", mkDims 2 2); ("i1", mkDims 1 1); ("i2", mkDims 3 1); ("i3", mkDims 2 1);
               ("i4", mkDims 1 3)];
  pb_rotation := true; pb_strategy := default_strategy; pb_strip := false; pb_height := 0 |}.

Theorem C08_at_most_full_refuted :
  ~ (forall pb sequence sol objs cid (obj : Q),
       valid_problem pb -> known_sequence pb sequence -> pb_strip pb = false ->
       solve qarith pb sequence = Ok (sol, objs) -> dget objs cid = Some obj -> (obj <= 1)%Q).
Proof.
  intros H. assert (Hv : valid_problem over_full) by valid_demo.
  assert (E : exists sol, solve qarith over_full None = Ok (sol, [("bin", 13 # 12)]))
    by (eexists; vm_compute; reflexivity).
  destruct E as [sol E]. specialize (H over_full None sol _ "bin" (13 # 12)%Q Hv I eq_refl E eq_refl).
  unfold Qle in H. simpl in H. lia.
Qed.
Print Assumptions C08_at_most_full_refuted.

(** True: an overlap-free container is at most 100% used. *)
Theorem C08_at_most_full_partial : forall pb sequence sol objs cid csol obj,
  valid_problem pb -> known_sequence pb sequence -> pb_strip pb = false ->
  solve qarith pb sequence = Ok (sol, objs) ->
  dget sol cid = Some csol -> dget objs cid = Some obj ->
  no_overlaps (entries csol) -> (obj <= 1)%Q.
Proof. exact (fun pb sq sol objs cid csol obj Hv Hk => bin_value_le_1 pb sq Hv Hk sol objs cid csol obj). Qed.
Print Assumptions C08_at_most_full_partial.

(** True without any condition: the construction stops before 200%. *)
Theorem C08_below_twice_full_partial : forall pb sequence sol objs cid csol obj,
  valid_problem pb -> known_sequence pb sequence -> pb_strip pb = false ->
  solve qarith pb sequence = Ok (sol, objs) ->
  dget sol cid = Some csol -> dget objs cid = Some obj -> (obj < 2)%Q.
Proof. exact (fun pb sq sol objs cid csol obj Hv Hk => bin_value_lt_2 pb sq Hv Hk sol objs cid csol obj). Qed.
Print Assumptions C08_below_twice_full_partial.

(** ** C09: false of the code: the height used is one less than the height of the stack. *)
Definition small_strip : problem := {|
  pb_containers := [("strip-pack-container", mkDims 2 20)];
  pb_items := [("a", mkDims 2 2)];
  pb_rotation := true; pb_strategy := default_strategy; pb_strip := true; pb_height := 20 |}.

Theorem C09_strip_objective_refuted :
  ~ (forall pb sequence sol objs cid csol (obj : Q),
       valid_problem pb -> known_sequence pb sequence -> pb_strip pb = true ->
       solve qarith pb sequence = Ok (sol, objs) ->
       dget sol cid = Some csol -> dget objs cid = Some obj -> entries csol <> [] ->
       exists c, dget (pb_containers pb) cid = Some c /\
         (obj == inject_Z (total_area (entries csol)) /
                 inject_Z (dw c * stack_height (entries csol)))%Q).
Proof.
  intros H. assert (Hv : valid_problem small_strip) by valid_demo.
  assert (E : solve qarith small_strip None =
     Ok ([("strip-pack-container", [("a", mkEntry 0 0 2 2)])], [("strip-pack-container", 2%Q)]))
    by (vm_compute; reflexivity).
  destruct (H small_strip None _ _ "strip-pack-container" _ 2%Q Hv I eq_refl E eq_refl eq_refl)
    as [c [Hc Hq]]; [discriminate|].
  simpl in Hc. injection Hc as <-. vm_compute in Hq. discriminate.
Qed.
Print Assumptions C09_strip_objective_refuted.

(** The exact value: area / (W * max(1, height - 1)). It is the documented utilization exactly
    when the height is 1. *)
Theorem C09_strip_objective_partial : forall pb sequence sol objs cid csol obj,
  valid_problem pb -> known_sequence pb sequence -> pb_strip pb = true ->
  solve qarith pb sequence = Ok (sol, objs) ->
  dget sol cid = Some csol -> dget objs cid = Some obj -> entries csol <> [] ->
  exists c, dget (pb_containers pb) cid = Some c /\
    (obj == inject_Z (total_area (entries csol)) /
            inject_Z (dw c * Z.max 1 (stack_height (entries csol) - 1)))%Q.
Proof. exact (fun pb sq sol objs cid csol obj Hv Hk => strip_value pb sq Hv Hk sol objs cid csol obj). Qed.
Print Assumptions C09_strip_objective_partial.

(** ** C10 *)
(** [pb'] is the same strip problem, possibly with another height, strategy or rotation. *)
Definition same_strip (pb pb' : problem) : Prop :=
  pb_strip pb = true /\ pb_strip pb' = true /\
  pb_items pb' = pb_items pb /\ pb_containers pb' = pb_containers pb.

Definition stores_all (pb : problem) (csol : odict entry) : Prop :=
  forall i, In i (dkeys (pb_items pb)) -> In i (dkeys csol).

Theorem C10_lower_is_better_refuted :
  ~ (forall pb pb' sq sq' cid csol csol' (obj obj' : Q),
       valid_problem pb -> valid_problem pb' -> same_strip pb pb' ->
       known_sequence pb sq -> known_sequence pb' sq' ->
       solve qarith pb sq = Ok ([(cid, csol)], [(cid, obj)]) ->
       solve qarith pb' sq' = Ok ([(cid, csol')], [(cid, obj')]) ->
       stores_all pb csol -> stores_all pb' csol' ->
       stack_height (entries csol) < stack_height (entries csol') -> (obj' < obj)%Q).
Proof.
  intros H.
  pose (mk := fun strat => {|
    pb_containers := [("strip-pack-container", mkDims 2 20)];
    pb_items := [("a", mkDims 1 1); ("b", mkDims 1 1)];
    pb_rotation := true; pb_strategy := strat; pb_strip := true; pb_height := 20 |}).
  assert (Hv1 : valid_problem (mk [cB; cA])) by valid_demo.
  assert (Hv2 : valid_problem (mk [cA; cB])) by valid_demo.
  specialize (H (mk [cB; cA]) (mk [cA; cB]) None None "strip-pack-container"
    [("a", mkEntry 0 0 1 1); ("b", mkEntry 1 0 1 1)]
    [("a", mkEntry 0 0 1 1); ("b", mkEntry 0 1 1 1)] 1%Q 1%Q Hv1 Hv2).
  assert (1 < 1)%Q; [apply H|].
  - repeat split.
  - exact I.
  - exact I.
  - vm_compute. reflexivity.
  - vm_compute. reflexivity.
  - intros i Hi. exact Hi.
  - intros i Hi. exact Hi.
  - vm_compute. reflexivity.
  - unfold Qlt in H0. simpl in H0. lia.
Qed.
Print Assumptions C10_lower_is_better_refuted.

(** True for every pair of heights except 1 against 2 (where the values are equal). *)
Theorem C10_lower_is_better_partial : forall pb pb' sq sq' cid csol csol' (obj obj' : Q),
  valid_problem pb -> valid_problem pb' -> same_strip pb pb' ->
  known_sequence pb sq -> known_sequence pb' sq' ->
  solve qarith pb sq = Ok ([(cid, csol)], [(cid, obj)]) ->
  solve qarith pb' sq' = Ok ([(cid, csol')], [(cid, obj')]) ->
  stores_all pb csol -> stores_all pb' csol' ->
  stack_height (entries csol) < stack_height (entries csol') ->
  (2 < stack_height (entries csol') -> (obj' < obj)%Q) /\
  (stack_height (entries csol') <= 2 -> (obj' == obj)%Q).
Proof.
  intros pb pb' sq sq' cid csol csol' obj obj' Hv Hv' [Hs [Hs' [Hit Hco]]] Hk Hk' H H' Hf Hf' Hlt.
  assert (Hne : forall p sq0 cs o, valid_problem p -> known_sequence p sq0 ->
            solve qarith p sq0 = Ok ([(cid, cs)], [(cid, o)]) -> stores_all p cs ->
            entries cs <> [] /\ 0 < total_area (entries cs)).
  { intros p sq0 cs o Hvp Hkp Hsp Hfp.
    assert (Hne : entries cs <> []).
    { destruct Hvp as [_ [_ [Hi _]]]. intros E. unfold entries in E. apply map_eq_nil in E. subst.
      destruct (pb_items p) as [|[k d] t] eqn:Ei; [congruence|].
      apply (Hfp k). rewrite Ei. left. reflexivity. }
    split; [exact Hne|].
    assert (Hpos : forall e, In e (entries cs) -> 0 < entry_area e).
    { intros e He. unfold entries in He. apply in_map_iff in He. destruct He as [[k e'] [<- He]].
      destruct (solve_inside _ _ _ Hvp Hkp _ _ Hsp cid cs k e' (or_introl eq_refl) He)
        as [c [_ Hin]]. unfold inside in Hin. unfold entry_area. simpl. nia. }
    clear - Hne Hpos. destruct (entries cs) as [|e t]; [congruence|].
    assert (0 <= total_area t).
    { assert (Ht : forall e, In e t -> 0 < entry_area e) by (intros; apply Hpos; right; assumption).
      clear - Ht. induction t as [|e t IH]; simpl; [lia|].
      pose proof (Ht e (or_introl eq_refl)).
      assert (0 <= total_area t) by (apply IH; intros; apply Ht; right; assumption).
      unfold total_area in *. lia. }
    pose proof (Hpos e (or_introl eq_refl)). simpl. unfold total_area in *. lia. }
  destruct (Hne _ _ _ _ Hv Hk H Hf) as [Hn Hpos].
  destruct (Hne _ _ _ _ Hv' Hk' H' Hf') as [Hn' _].
  assert (Hget : forall (T : Type) (x : T), dget [(cid, x)] cid = Some x).
  { intros T x. simpl. rewrite String.eqb_refl. reflexivity. }
  destruct (strip_value pb sq Hv Hk _ _ cid csol obj Hs H (Hget _ _) (Hget _ _) Hn) as [c [Hc Ho]].
  destruct (strip_value pb' sq' Hv' Hk' _ _ cid csol' obj' Hs' H' (Hget _ _) (Hget _ _) Hn')
    as [c' [Hc' Ho']].
  rewrite Hco in Hc'. assert (c' = c) by congruence. subst c'.
  pose proof (full_area _ _ _ _ _ _ _ Hv Hk H eq_refl Hf) as Ha.
  pose proof (full_area _ _ _ _ _ _ _ Hv' Hk' H' eq_refl Hf') as Ha'.
  rewrite Hit in Ha'. rewrite <- Ha in Ha'. rewrite Ha' in Ho'.
  assert (Hw : 0 < dw c).
  { destruct Hv as [_ [[_ Hcp] _]]. apply dget_In in Hc. apply (Hcp _ _ Hc). }
  set (A := total_area (entries csol)) in *.
  set (h := stack_height (entries csol)) in *. set (h' := stack_height (entries csol')) in *.
  assert (Hq : forall n, 0 < n -> ~ (inject_Z n == 0)%Q).
  { intros n Hn0 E. unfold Qeq in E. simpl in E. lia. }
  split; intros Hh.
  - rewrite Ho, Ho'. apply Qlt_shift_div_r; [apply inject_pos; nia|].
    assert (E : (inject_Z A / inject_Z (dw c * Z.max 1 (h - 1)) * inject_Z (dw c * Z.max 1 (h' - 1))
                 == inject_Z (A * (dw c * Z.max 1 (h' - 1))) / inject_Z (dw c * Z.max 1 (h - 1)))%Q).
    { rewrite (inject_Z_mult A). field. apply Hq. nia. }
    rewrite E. apply Qlt_shift_div_l; [apply inject_pos; nia|].
    rewrite <- inject_Z_mult, <- Zlt_Qlt.
    assert (Z.max 1 (h - 1) < Z.max 1 (h' - 1)) by lia. nia.
  - rewrite Ho, Ho'. replace (Z.max 1 (h' - 1)) with 1 by lia.
    replace (Z.max 1 (h - 1)) with 1 by lia. reflexivity.
Qed.
Print Assumptions C10_lower_is_better_partial.

(** ** C11 *)
(** At every point [p] processed while filling a W x L container: either the first item of the
    remaining sequence that passes the fit test is placed at [p] (rotated only if it does not
    pass unrotated), or no item passes and nothing is placed. *)
Theorem C11_first_fit : forall ar W L strip rotation strategy items s p,
  0 < W -> 0 < L -> valid_items items ->
  steps ar W L strip rotation strategy (init_state ar W L items) s -> running ar s p ->
  exists s', loop_body ar W L strip rotation strategy s p = Ok s' /\
  ( (exists i d earlier later w l,
       st_ids s = earlier ++ i :: later /\ dget items i = Some d /\
       (forall j dj, In j earlier -> dget items j = Some dj ->
                     fits_nowhere W L rotation (placed_entries ar s) p dj) /\
       ((w = dw d /\ l = dl d) \/
        (rotation = true /\ w = dl d /\ l = dw d /\
         ~ pfit W L (placed_entries ar s) p (dw d) (dl d))) /\
       pfit W L (placed_entries ar s) p w l /\
       placed_entries ar s' = placed_entries ar s ++ [mkEntry (fst p) (snd p) w l] /\
       dkeys (st_sol s') = dkeys (st_sol s) ++ [i])
    \/
    ((forall i d, In i (st_ids s) -> dget items i = Some d ->
                  fits_nowhere W L rotation (placed_entries ar s) p d) /\
     st_sol s' = st_sol s) ).
Proof.
  exact (fun ar W L strip rotation strategy items s p HW HL Hi =>
           first_fit_in_sequence ar W L strip rotation strategy items HW HL Hi s p).
Qed.
Print Assumptions C11_first_fit.

(** The run the theorem speaks about is the one whose result [solve] stores. *)
Theorem C11_runs_are_constructions : forall ar W L strip rotation strategy items,
  0 < W -> 0 < L -> valid_items items ->
  exists s obj pend, steps ar W L strip rotation strategy (init_state ar W L items) s /\
    stopped ar s /\
    construct_solution ar W L strip rotation strategy items =
      Ok (st_items s, obj, map (fun kp => (fst kp, export (snd kp))) (st_sol s), pend).
Proof.
  intros ar W L strip rotation strategy items HW HL Hi.
  destruct (construct_solution_spec ar W L strip rotation strategy items HW HL Hi)
    as [s [Hc [Hst [Hstop _]]]].
  exists s, (final_obj ar W L strip s), (st_pending s).
  split; [exact Hst|]. split; [exact Hstop|]. exact Hc.
Qed.
Print Assumptions C11_runs_are_constructions.

Example C11_hypotheses_met :
  let items := [("a", mkDims 2 2); ("b", mkDims 1 4)] in
  running qarith (init_state qarith 4 4 items) (0, 0) /\ valid_items items.
Proof.
  split; [repeat split; discriminate|]. split; [repeat constructor; simpl; intuition congruence|].
  simpl. intros i d. intuition (try congruence);
    repeat match goal with H : (_, _) = (_, _) |- _ => injection H as <- <- end;
    unfold pos_dims; simpl; lia.
Qed.

(** ** C12 *)
Theorem C12_leftovers_fit_nowhere : forall ar W L strip rotation strategy items s,
  0 < W -> 0 < L -> valid_items items ->
  steps ar W L strip rotation strategy (init_state ar W L items) s -> stopped ar s ->
  st_ids s <> [] -> ngeb ar (st_obj s) (num1 ar) = false ->
  forall past c p,
    (* [p] was the current point, or queued in a class of the strategy, at some moment *)
    steps ar W L strip rotation strategy (init_state ar W L items) past ->
    steps ar W L strip rotation strategy past s ->
    st_cur past = Some p \/ (In c strategy /\ In p (st_pools past c)) ->
    forall i d, dget (st_items s) i = Some d ->
    fits_nowhere W L rotation (placed_entries ar s) p d.
Proof.
  intros ar W L strip rotation strategy items s HW HL Hi Hst Hstop Hids Hobj past c p H1 H2 Hp i d Hd.
  assert (Hnone : st_cur s = None).
  { destruct (st_cur s) as [q|] eqn:E; [|reflexivity]. exfalso. apply (Hstop q).
    split; [exact E|]. auto. }
  refine (leftovers_do_not_fit ar W L strip rotation strategy items HW HL Hi past s H2 _ _ Hnone c p Hp i d Hd).
  - refine (steps_inv ar W L strip rotation strategy items Hi _ _ H1 _). apply inv_init; assumption.
  - exact (drained_init ar W L strip rotation strategy items HW HL Hi past H1).
Qed.
Print Assumptions C12_leftovers_fit_nowhere.

(** A container left empty although items were available cannot hold any of them, even alone. *)
Theorem C12_empty_container : forall ar W L strip rotation strategy items rest obj pend,
  arith_laws ar -> 0 < W -> 0 < L -> valid_items items ->
  construct_solution ar W L strip rotation strategy items = Ok (rest, obj, [], pend) ->
  rest = items /\
  forall i d, In (i, d) items ->
    ~ (dw d <= W /\ dl d <= L) /\ (rotation = true -> ~ (dl d <= W /\ dw d <= L)).
Proof.
  intros ar W L strip rotation strategy items rest obj pend laws HW HL Hi H.
  pose (pb := {| pb_containers := [("c", mkDims W L)]; pb_items := items;
                 pb_rotation := rotation; pb_strategy := strategy; pb_strip := strip;
                 pb_height := L |}).
  assert (Hcl : container_length pb (mkDims W L) = L).
  { unfold container_length. simpl. destruct strip; reflexivity. }
  assert (Hah : available_height pb (mkDims W L) = L).
  { unfold available_height. simpl. destruct strip; reflexivity. }
  assert (Hr : room_ok pb (mkDims W L)) by (split; [exact HW|]; rewrite Hcl; exact HL).
  destruct (construct_solution_spec ar W L strip rotation strategy items HW HL Hi)
    as [s [Hc [Hst [Hstop Hinv]]]].
  rewrite Hc in H. injection H as H1 H2 H3 H4.
  destruct items as [|kd its] eqn:Ei.
  { simpl in *. pose proof (i_perm _ _ _ _ _ _ _ Hinv) as Hp.
    apply Permutation_sym, Permutation_nil in Hp. apply app_eq_nil in Hp.
    split; [|intros i d []]. rewrite <- H1. apply Hp. }
  rewrite <- Ei in *.
  assert (Hb : built ar pb (mkDims W L) items rest [] (final_obj ar W L strip s)).
  { eapply built_run with (s := s).
    - rewrite Ei. discriminate.
    - rewrite Hcl. exact Hst.
    - exact Hstop.
    - rewrite Hcl. exact Hinv.
    - symmetry. exact H1.
    - symmetry. exact H3.
    - rewrite Hcl. reflexivity. }
  destruct (built_empty_none_fit ar pb laws _ _ _ _ Hr Hi Hb) as [Hrest Hno].
  split; [exact Hrest|]. intros i d Hin. specialize (Hno i d Hin). rewrite Hah in Hno. exact Hno.
Qed.
Print Assumptions C12_empty_container.

Example C12_empty_container_case :
  exists obj pend,
    construct_solution qarith 3 3 false true default_strategy [("big", mkDims 4 4)] =
    Ok ([("big", mkDims 4 4)], obj, [], pend).
Proof.
  assert (H : match construct_solution qarith 3 3 false true default_strategy
                      [("big", mkDims 4 4)] with
              | Ok (r, _, s, _) => r = [("big", mkDims 4 4)] /\ s = []
              | Err _ => False
              end) by (vm_compute; auto).
  destruct (construct_solution _ _ _ _ _ _ _) as [[[[r o] s] pe]|]; [|contradiction].
  destruct H as [-> ->]. eauto.
Qed.

(** ** C48 *)
Theorem C48_points_on_free_cells : forall ar W L strip rotation strategy items s p s',
  0 < W -> 0 < L -> valid_items items ->
  steps ar W L strip rotation strategy (init_state ar W L items) s -> running ar s p ->
  loop_body ar W L strip rotation strategy s p = Ok s' ->
  forall c q, In q (st_pending s' c) ->
    (0 <= fst q < W /\ 0 <= snd q < L) /\
    (~ In q (st_pools s c) -> In c [cA; cB; cC; cD; cA__; cB__] ->
     forall e, In e (placed_entries ar s') -> ~ covers e (fst q) (snd q)).
Proof.
  intros ar W L strip rotation strategy items s p s' HW HL Hi Hst Hrun Hb c q Hq.
  destruct (points_on_free_cells ar W L strip rotation strategy items HW HL Hi s p s' Hst Hrun Hb c q Hq)
    as [H1 H2].
  split; [exact H1|]. intros Hn Hc. apply H2; [exact Hn|].
  simpl in Hc. intuition (subst; exact I).
Qed.
Print Assumptions C48_points_on_free_cells.

(** ** C51: the first item stored in a container is at its origin. *)
Theorem C51_first_item_at_origin : forall ar pb sequence sol objs,
  valid_problem pb -> known_sequence pb sequence ->
  solve ar pb sequence = Ok (sol, objs) ->
  forall cid i e later, In (cid, (i, e) :: later) sol -> e_x e = 0 /\ e_y e = 0.
Proof. exact (fun ar pb sq sol objs Hv Hk => solve_first_at_origin ar pb sq Hv Hk sol objs). Qed.
Print Assumptions C51_first_item_at_origin.

(** ** C52: every stored entry passed the fit test against what was stored before it. *)
Theorem C52_every_entry_passed_the_fit_test : forall ar pb sequence sol objs,
  valid_problem pb -> known_sequence pb sequence ->
  solve ar pb sequence = Ok (sol, objs) ->
  forall cid csol before i e after,
    In (cid, csol) sol -> csol = before ++ (i, e) :: after ->
  exists c, dget (pb_containers pb) cid = Some c /\
    passes_fit_test (dw c) (available_height pb c) (entries before)
                    (e_x e) (e_y e) (e_w e) (e_l e).
Proof.
  intros ar pb sq sol objs Hv Hk H cid csol before i e after Hin Heq.
  destruct (solve_explained ar pb sq Hv Hk sol objs H cid csol before i e after Hin Heq)
    as [c [d [Hc [_ [_ [Hp _]]]]]]. eauto.
Qed.
Print Assumptions C52_every_entry_passed_the_fit_test.

(** ** C13 (function level): [solve()] is [solve(list(items))]. *)
Theorem C13_default_sequence : forall ar pb,
  NoDup (dkeys (pb_items pb)) ->
  solve ar pb None = solve ar pb (Some (dkeys (pb_items pb))).
Proof. exact solve_default_sequence. Qed.
Print Assumptions C13_default_sequence.
