(** * C77, continued: with several processes the value a hypersearch reaches does not depend on the
    ids either (problems with containers, no sorting). *)
From Coq Require Import ZArith String List Bool QArith Lia Permutation FinFun.
From Verif Require Import Py ProofsPy Arith Construct Spec ProofsSolve ProofsSolution ProofsValues LocalSearch SpecSearch ItemsManip HyperSearch
  ProofsHyper MultiProcess ProofsLoose ProofsMulti PropertiesSearch PropertiesHyper PropertiesMulti
  Values ProofsVal Settings Instance SpecInstance ProofsMachine ProofsOps ProofsRun ProofsAccept ProofsSolver ProofsHistory ProofsRefine
  PropertiesStructures PropertiesHistory PropertiesSettings PropertiesInstance PropertiesCount MultiHistory SpecMultiHistory ProofsMultiHistory
  PropertiesMultiHistory FloatArith ProofsFloatOrder PropertiesFloat PropertiesFloatMulti ProofsAgain PropertiesAgain ProofsProcesses
  PropertiesProcesses ProofsRename PropertiesRename PropertiesMore.
Import ListNotations.
Open Scope string_scope.
Open Scope list_scope.
Open Scope Z_scope.

(** The same dimensions in the same order and the same rotation; the ids are free. *)
Definition renamed_bins {ar} (s1 s2 : machine ar) : Prop :=
  (exists cs1 cs2, containers_of s1 = Some cs1 /\ containers_of s2 = Some cs2 /\ dvals cs1 = dvals cs2) /\
  (exists is1 is2, items_of s1 = Some is1 /\ items_of s2 = Some is2 /\ dvals is1 = dvals is2) /\
  rotation_of s1 = rotation_of s2 /\ m_strip s1 = false /\ m_strip s2 = false.

Section Renamed.
Context {ar : arith} (o : orderly ar).

Lemma like_sym (x y : inst ar) : like x y -> like y x.
Proof.
  intros [[H1 [H2 [H3 [H4 [H5 H6]]]]] [H7 H8]]. split; [|split; [|congruence]].
  - repeat (split; [congruence|]). intros Hs. symmetry. apply H6. congruence.
  - intros Hs. symmetry. apply H7. congruence.
Qed.

Lemma best_of_ren f g (x : inst ar) throttle strategies v : Injective f -> Injective g -> pb_strip (in_pb x) = false ->
  best_of x throttle strategies v -> best_of (ren_inst ar f g x) throttle strategies v.
Proof.
  intros If Ig Es.
  assert (Hi : forall w, inits (ren_inst ar f g x) w -> inits x w).
  { intros w [sol' [objs' [E Ev]]]. pose proof (solve_ren ar f g If Ig (pb_with_strategy (in_pb x) default_strategy) None) as R. cbn [option_map] in R.
    change (ren_pb f g (pb_with_strategy (in_pb x) default_strategy)) with (pb_with_strategy (in_pb (ren_inst ar f g x)) default_strategy) in R.
    rewrite E in R. unfold inits. destruct (solve ar (pb_with_strategy (in_pb x) default_strategy) None) as [[sol objs]|]; cbn [rres] in R; [|discriminate].
    exists sol, objs. split; [reflexivity|]. unfold ren_pair in R. injection R as _ R. rewrite R in Ev. rewrite dvals_ren in Ev. exact Ev. }
  assert (Hi' : forall w, inits x w -> inits (ren_inst ar f g x) w).
  { intros w [sol [objs [E Ev]]]. pose proof (solve_ren ar f g If Ig (pb_with_strategy (in_pb x) default_strategy) None) as R. cbn [option_map] in R.
    rewrite E in R. cbn [rres ren_pair] in R. exists (ren_sol f g sol), (ren g objs). split; [exact R|]. rewrite dvals_ren. exact Ev. }
  assert (K : forall s, strip_kept ar g (set_strategy x s)).
  { intros s Hs. cbn in Hs. congruence. }
  assert (Hr : forall s w, reaches (ren_inst ar f g x) throttle s w <-> reaches x throttle s w).
  { intros s w. unfold reaches.
    pose proof (local_search_ren ar f g If Ig (fun _ => 0) 1 throttle (Some 0) (set_strategy x s) 0%nat (K s)) as R.
    change (ren_inst ar f g (set_strategy x s)) with (set_strategy (ren_inst ar f g x) s) in R. rewrite R.
    destruct (local_search ar (fun _ => 0) 1 throttle (Some 0) (set_strategy x s) 0) as [[[y c] lg]|]; cbn [rres ren_out].
    - split; intros [y' [c' [l' [E Ev]]]].
      + injection E as <- <- <-. rewrite calculate_obj_value_ren in Ev. eauto.
      + injection E as <- <- <-. exists (ren_inst ar f g y), c, lg. split; [reflexivity|]. rewrite calculate_obj_value_ren. exact Ev.
    - split; intros [y' [c' [l' [E Ev]]]]; discriminate. }
  intros [A1 [A2 A3]]. split; [|split].
  - destruct A1 as [A1|[s [A1 A1']]]; [left; apply Hi'; exact A1|right; exists s; split; [exact A1|apply Hr; exact A1']].
  - intros w Hw. apply A2. apply Hi. exact Hw.
  - intros s w Hs Hw. apply (A3 s w Hs). apply Hr. exact Hw.
Qed.

Lemma searched_renamed env1 c1 i1 st1 w1 l1 (s1 : machine ar) env2 c2 i2 st2 w2 l2 (s2 : machine ar)
  throttle orientation g1 g2 s1' s2' :
  careful_history env1 c1 i1 st1 w1 l1 s1 -> careful_history env2 c2 i2 st2 w2 l2 s2 ->
  renamed_bins s1 s2 -> (forall g, In g g1 <-> In g g2) ->
  searched throttle orientation None g1 s1 s1' -> searched throttle orientation None g2 s2 s2' ->
  (forall x x2, view s1 = Some x -> prepared ar orientation None x x2 -> valid_inst ar x2 -> never_infinite x2 throttle) ->
  (forall x x2, view s2 = Some x -> prepared ar orientation None x x2 -> valid_inst ar x2 -> never_infinite x2 throttle) ->
  exists v1 v2, value s1' v1 /\ value s2' v2 /\ neqb ar v1 v2 = true.
Proof.
  intros G1 G2 [[ca [cb [Ca [Cb Ec]]]] [[ia [ib [Ia [Ib Ei]]]] [Er [Es1 Es2]]]] Hg S1 S2 N1 N2.
  destruct (careful_good o _ _ _ _ _ _ _ G1) as [I1 [_ R1]]. destruct (careful_good o _ _ _ _ _ _ _ G2) as [I2 [_ R2]].
  destruct (inv_view s1 I1) as [cs1 [is1 [_ [_ [_ [_ [_ [_ V1]]]]]]]]. destruct (inv_view s2 I2) as [cs2 [is2 [_ [_ [_ [_ [_ [_ V2]]]]]]]].
  match type of V1 with _ = Some ?X => set (x := X) in * end. match type of V2 with _ = Some ?X => set (y := X) in * end.
  destruct (searched_best o _ _ _ _ _ _ s1 x _ _ _ _ _ G1 Es1 V1 S1) as [x2 [P1 [Hv1 B1]]].
  destruct (searched_best o _ _ _ _ _ _ s2 y _ _ _ _ _ G2 Es2 V2 S2) as [y2 [P2 [Hv2 B2]]].
  destruct (B1 (N1 x x2 V1 P1 Hv1)) as [v1 [E1 F1]]. destruct (B2 (N2 y y2 V2 P2 Hv2)) as [v2 [E2 F2]].
  exists v1, v2. split; [exact E1|]. split; [exact E2|]. destruct o as [laws vals]. apply (vl_eq ar vals).
  eapply best_of_unique; [|exact F2].
  pose proof (inv_valid s1 x I1 V1) as W1. pose proof (inv_valid s2 y I2 V2) as W2.
  destruct (view_all s1 x V1) as [A1 [A2 A3]]. destruct (view_all s2 y V2) as [D1 [D2 D3]].
  clearbody x y.
  assert (Q1 : dvals (pb_containers (in_pb y)) = dvals (pb_containers (in_pb x))) by congruence.
  assert (Q2 : dvals (pb_items (in_pb y)) = dvals (pb_items (in_pb x))) by congruence.
  assert (Sx : pb_strip (in_pb x) = false) by (rewrite A3; exact Es1).
  assert (Sy : pb_strip (in_pb y) = false) by (rewrite D3; exact Es2).
  assert (Rot : pb_rotation (in_pb x) = pb_rotation (in_pb y)) by (rewrite A3, D3; exact Er).
  assert (Cnt : in_cnum x = in_cnum y).
  { destruct R1 as [k1 [K1 K1']], R2 as [k2 [K2 K2']]. rewrite A3, D3. cbn [in_cnum]. rewrite K1', K2'.
    assert (k1 = pb_containers (in_pb x)) by congruence. assert (k2 = pb_containers (in_pb y)) by congruence. subst k1 k2.
    apply (f_equal (@length dims)) in Q1. unfold dvals in Q1. rewrite !map_length in Q1. unfold zlen. lia. }
  set (y0 := mkInst (mkProblem (pb_containers (in_pb y)) (pb_items (in_pb y)) (pb_rotation (in_pb x)) (pb_strategy (in_pb x)) (pb_strip (in_pb x)) (pb_height (in_pb x)))
               (in_min x) (in_cnum x) [] [] [] : inst ar).
  assert (W0 : valid_inst ar y0).
  { destruct W2 as [[U1 [U2 [U3 [U4 _]]]] _]. split; [|cbn; congruence].
    split; [exact U1|]. split; [exact U2|]. split; [exact U3|]. split; [exact U4|]. cbn. congruence. }
  assert (SB : same_but_names_inst x y0) by (split; [constructor; cbn; assumption || reflexivity|split; reflexivity]).
  destruct (renaming_inst ar x y0 W1 W0 SB) as [f [g [If [Ig [_ [Ep L]]]]]].
  set (z := ren_inst ar f g x).
  assert (Lz : forall s, like (set_strategy z s) (set_strategy y s)).
  { intros s. destruct L as [[L1 [L2 [L3 [L4 [L5 L6]]]]] [L7 L8]]. cbn in L1, L2, L3, L5, L7, L8. split; [|split].
    - unfold like_pb. cbn. split; [exact L1|]. split; [exact L2|]. split; [exact Rot|]. split; [reflexivity|]. split; [congruence|]. rewrite Sx. discriminate.
    - cbn. congruence.
    - exact Cnt. }
  assert (Pz : prepared ar orientation None z (orient_items ar orientation z)) by (exists z; split; reflexivity).
  destruct P1 as [a [B B']]. injection B as <-. 
  assert (Ez : orient_items ar orientation z = ren_inst ar f g x2) by (rewrite B'; apply orient_items_ren).
  assert (Wz : valid_inst ar z).
  { split; [change (in_pb z) with (ren_pb f g (in_pb x)); rewrite <- Ep; apply W0|]. cbn. congruence. }
  eapply (best_of_like (conj laws vals) (orient_items ar orientation z) y2); [apply orient_items_valid; exact Wz|exact Hv2| | |exact Hg|].
  - apply (prepared_like orientation None z y); [exact Lz|exact Pz|exact P2].
  - apply (prepared_like orientation None y z); [intros s; apply like_sym; apply Lz|exact P2|exact Pz].
  - rewrite Ez. apply best_of_ren; [exact If|exact Ig| |exact F1]. rewrite B'. rewrite orient_strip. exact Sx.
Qed.
End Renamed.

Theorem C77_several_processes_partial :
  forall env1 c1 i1 st1 w1 l1 (s1 : machine qarith), careful_history env1 c1 i1 st1 w1 l1 s1 ->
  forall env2 c2 i2 st2 w2 l2 (s2 : machine qarith), careful_history env2 c2 i2 st2 w2 l2 s2 ->
  renamed_bins s1 s2 ->
  forall throttle orientation strategies s1' s2',
  searched throttle orientation None strategies s1 s1' -> searched throttle orientation None strategies s2 s2' ->
  exists v1 v2, value s1' v1 /\ value s2' v2 /\ (v1 == v2)%Q.
Proof.
  intros env1 c1 i1 st1 w1 l1 s1 G1 env2 c2 i2 st2 w2 l2 s2 G2 P throttle orientation g s1' s2' S1 S2.
  destruct (searched_renamed qarith_orderly _ _ _ _ _ _ s1 _ _ _ _ _ _ s2 _ _ _ g _ _ G1 G2 P (fun _ => iff_refl _) S1 S2) as [v1 [v2 [E1 [E2 E]]]];
    [intros ? ? ? ? ? ? ? ?; reflexivity|intros ? ? ? ? ? ? ? ?; reflexivity|].
  exists v1, v2. split; [exact E1|]. split; [exact E2|]. apply Qeq_bool_iff. exact E.
Qed.
Print Assumptions C77_several_processes_partial.

Theorem C77_several_processes_doubles_partial :
  forall env1 c1 i1 st1 w1 l1 (s1 : machine farith), careful_history env1 c1 i1 st1 w1 l1 s1 ->
  forall env2 c2 i2 st2 w2 l2 (s2 : machine farith), careful_history env2 c2 i2 st2 w2 l2 s2 ->
  renamed_bins s1 s2 -> moderate_problem s1 -> moderate_problem s2 ->
  forall throttle orientation strategies s1' s2',
  searched throttle orientation None strategies s1 s1' -> searched throttle orientation None strategies s2 s2' ->
  exists v1 v2, value s1' v1 /\ value s2' v2 /\ PrimFloat.eqb v1 v2 = true.
Proof.
  intros env1 c1 i1 st1 w1 l1 s1 G1 env2 c2 i2 st2 w2 l2 s2 G2 P M1 M2 throttle orientation g s1' s2' S1 S2.
  pose proof P as [_ [_ [_ [Es1 Es2]]]].
  exact (searched_renamed farith_orderly _ _ _ _ _ _ s1 _ _ _ _ _ _ s2 _ _ _ g _ _ G1 G2 P (fun _ => iff_refl _) S1 S2
    (quiet_doubles _ _ _ _ _ _ _ _ _ _ G1 Es1 M1) (quiet_doubles _ _ _ _ _ _ _ _ _ _ G2 Es2 M2)).
Qed.
Print Assumptions C77_several_processes_doubles_partial.

(** The same five items in the same order under ids that sort the other way round, and another container
    id; one process on one side, the class's own search on the other. *)
Definition five_renamed_items : pyval := named_items [("z", (2, 1)); ("y", (4, 1)); ("x", (3, 3)); ("w", (3, 2)); ("v", (1, 4))].
Definition another_container (w l : Z) : pyval :=
  VDict [(VStr "bin", VDict [(VStr "W", VInt w); (VStr "L", VInt l)])].
Definition five_renamed : machine qarith :=
  fst (create qarith no_libraries (another_container 5 5) five_renamed_items VNone VNone (blank qarith)).

Example C77_several_processes_witness :
  careful_history no_libraries (one_container 5 5) five_items VNone VNone [] five /\
  careful_history no_libraries (another_container 5 5) five_renamed_items VNone VNone [] five_renamed /\
  renamed_bins five five_renamed /\ items_of five <> items_of five_renamed /\
  searched true None None strategy_pool five (hyper_of None five) /\
  searched true None None strategy_pool five_renamed (hyper_of None five_renamed) /\
  exists v1 v2, value (hyper_of None five) v1 /\ value (hyper_of None five_renamed) v2 /\ (v1 == 21 # 25)%Q /\ (v2 == 21 # 25)%Q.
Proof.
  assert (Hl : never_late (fun _ => 0) 0 (max_time_of five)).
  { intros n. replace (max_time_of five) with 60 by (vm_compute; reflexivity). reflexivity. }
  assert (Hl' : never_late (fun _ => 0) 0 (max_time_of five_renamed)).
  { intros n. replace (max_time_of five_renamed) with 60 by (vm_compute; reflexivity). reflexivity. }
  assert (Hc : created no_libraries (another_container 5 5) five_renamed_items VNone VNone five_renamed) by (vm_compute; reflexivity).
  split; [exists five; split; [exact five_created|constructor]|].
  split; [exists five_renamed; split; [exact Hc|constructor]|].
  split.
  - split; [eexists _, _; split; [vm_compute; reflexivity|split; vm_compute; reflexivity]|].
    split; [eexists _, _; split; [vm_compute; reflexivity|split; vm_compute; reflexivity]|].
    split; [vm_compute; reflexivity|]. split; vm_compute; reflexivity.
  - split; [vm_compute; discriminate|]. split; [|split].
    + apply (by_one _ _ _ _ _ _ (fun _ => 0)); [vm_compute; reflexivity|vm_compute; reflexivity|exact Hl|vm_compute; reflexivity].
    + apply (by_one _ _ _ _ _ _ (fun _ => 0)); [vm_compute; reflexivity|vm_compute; reflexivity|exact Hl'|vm_compute; reflexivity].
    + eexists _, _. split; [vm_compute; reflexivity|]. split; [vm_compute; reflexivity|]. split; vm_compute; reflexivity.
Qed.
