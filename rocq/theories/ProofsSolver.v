(** * The solver on the machine; histories keep the invariant. *)
From Coq Require Import ZArith String List Bool Lia Permutation.
From Verif Require Import Py ProofsPy Arith Construct Spec ProofsConstruct ProofsSolve ProofsPacking
  ProofsSolution LocalSearch SpecSearch ProofsLocalSearch ProofsSearchRun PropertiesSolve PropertiesSearch
  ItemsManip HyperSearch ProofsHyper PropertiesHyper
  Values ProofsVal Settings Instance SpecInstance ProofsMachine ProofsOps ProofsRun.
Import ListNotations.
Open Scope list_scope.
Open Scope Z_scope.
Open Scope sm_scope.

(** ** Solutions are packings *)
Lemma stores_true b d e : stores b d e -> stores true d e.
Proof. unfold stores. intros [H|[_ H]]; [left|right]; tauto. Qed.

Lemma ForallOrdPairs_In {A} (R : A -> A -> Prop) l a b :
  ForallOrdPairs R l -> In a l -> In b l -> a = b \/ R a b \/ R b a.
Proof.
  induction 1 as [|c l Hc Hl IH]; [intros []|]. rewrite Forall_forall in Hc.
  intros [->|Ha] [->|Hb]; auto.
Qed.

Lemma ForallOrdPairs_map {A B} (f : A -> B) (R : B -> B -> Prop) l :
  ForallOrdPairs R (map f l) -> ForallOrdPairs (fun a b => R (f a) (f b)) l.
Proof.
  induction l as [|a l IH]; intros H; [constructor|]. inversion H as [|? ? H1 H2]; subst.
  constructor; [|auto]. rewrite Forall_forall in *. intros b Hb. apply H1. apply in_map. assumption.
Qed.

Lemma solve_packing ar pb sq sol objs :
  valid_problem pb -> known_sequence pb sq -> solve ar pb sq = Ok (sol, objs) ->
  a_packing (pb_containers pb) (pb_items pb) (pb_strip pb) sol.
Proof.
  intros Hv Hk H. destruct (proj1 (C04_solve_is_solve_full _ _ _ _ _) H) as [left Hf].
  destruct (C04_ids_stored_once _ _ _ _ _ _ Hv Hk Hf) as [K1 [_ [K3 _]]].
  split; [assumption|]. apply NoDup_app_iff in K3. split; [apply K3|]. split.
  - intros cid csol i e H1 H2.
    destruct (solve_inside ar pb sq Hv Hk sol objs H cid csol i e H1 H2) as [c [Hc Hi]].
    destruct (solve_stores ar pb sq Hv Hk sol objs H cid csol i e H1 H2) as [d [Hd Hs]].
    exists c, d. split; [assumption|]. split; [assumption|]. split; [eapply stores_true; eassumption|].
    unfold available_height in Hi. destruct (pb_strip pb); [|assumption]. unfold inside in Hi. tauto.
  - intros cid csol i1 e1 i2 e2 H1 H2 H3 Hne.
    pose proof (solve_order ar pb sq Hv Hk sol objs H cid csol H1) as Ho.
    apply (ForallOrdPairs_map snd) in Ho.
    destruct (ForallOrdPairs_In _ _ _ _ Ho H2 H3) as [E|[Hb|Hb]]; [congruence|left; exact Hb|right; exact Hb].
Qed.

Lemma packing_copy cs is_ strip sol sol' :
  NoDup (dkeys cs) -> a_packing cs is_ strip sol -> same_placements sol sol' -> a_packing cs is_ strip sol'.
Proof.
  intros Hcs [P1 [P2 [P3 P4]]] [S1 [S2 S3]].
  assert (N1 : NoDup (dkeys sol)) by congruence. assert (N2 : NoDup (dkeys sol')) by congruence.
  assert (G : forall cid csol' i e, In (cid, csol') sol' -> In (i, e) csol' ->
            exists csol, In (cid, csol) sol /\ In (i, e) csol).
  { intros cid csol' i e H1 H2. pose proof (In_dget _ _ _ N2 H1) as D1.
    pose proof (In_dget _ _ _ (S3 _ _ H1) H2) as D2.
    assert (Hin : In cid (dkeys sol)) by (rewrite S1; apply dget_Some_In; eauto).
    apply dget_Some_In in Hin. destruct Hin as [csol Hc]. exists csol. split; [apply dget_In; assumption|].
    apply dget_In. rewrite (S2 cid csol csol' Hc D1 i). assumption. }
  split; [congruence|]. split; [|split].
  - assert (Hp : Permutation (stored_ids sol) (stored_ids sol')).
    { assert (N3 : forall cid csol, In (cid, csol) sol -> NoDup (dkeys csol)).
      { intros cid csol Hin. apply (NoDup_concat_in (map (fun kc => dkeys (snd kc)) sol)); [exact P2|].
        apply in_map_iff. exists (cid, csol). auto. }
      clear P1 P2 P3 P4 G. revert sol' S1 S2 S3 N2. induction sol as [|[cid csol] sol IH]; intros [|[cid' csol'] sol'] S1 S2 S3 N2;
        try discriminate; [constructor|].
      cbn in S1. injection S1 as <- S1. unfold stored_ids. cbn [map concat snd].
      cbn in N1, N2. inversion N1 as [|? ? M1 M2]; subst. inversion N2 as [|? ? M3 M4]; subst.
      apply Permutation_app.
      - apply NoDup_Permutation; [apply (N3 cid); left; reflexivity|apply (S3 cid); left; reflexivity|].
        intros i. assert (E : dget csol i = dget csol' i).
        { apply (S2 cid); cbn; rewrite String.eqb_refl; reflexivity. }
        rewrite <- !dget_Some_In. rewrite E. tauto.
      - apply IH; try assumption.
        + intros; eapply N3; right; eassumption.
        + intros c a b Ha Hb i.
          assert (Hne : c <> cid). { intros ->. apply M1. apply dget_Some_In. eauto. }
          apply (S2 c); cbn; destruct (String.eqb_spec c cid); congruence.
        + intros; eapply S3; right; eassumption. }
    eapply Permutation_NoDup; eassumption.
  - intros cid csol' i e H1 H2. destruct (G _ _ _ _ H1 H2) as [csol [G1 G2]]. eapply P3; eassumption.
  - intros cid csol' i1 e1 i2 e2 H1 H2 H3 Hne. destruct (G _ _ _ _ H1 H2) as [csol [G1 G2]].
    destruct (G _ _ _ _ H1 H3) as [csol2 [G3 G4]].
    assert (csol2 = csol). { apply (In_dget _ _ _ N1) in G1. apply (In_dget _ _ _ N1) in G3. congruence. }
    subst csol2. eapply P4; eassumption.
Qed.

Lemma made_packing ar (x : inst ar) g h seq sol sol' objs :
  valid_inst ar x -> (pb_strip (in_pb x) = true -> 1 <= h) ->
  Permutation seq (dkeys (pb_items (in_pb x))) ->
  solve ar (pb_with_height (pb_with_strategy (in_pb x) g) h) (Some seq) = Ok (sol, objs) ->
  same_placements sol sol' ->
  a_packing (pb_containers (in_pb x)) (pb_items (in_pb x)) (pb_strip (in_pb x)) sol'.
Proof.
  intros Hv Hh Hp H S. assert (Hv' : valid_problem (pb_with_height (pb_with_strategy (in_pb x) g) h)).
  { destruct Hv as [[V1 [V2 [V3 [V4 _]]]] _]. repeat (split; [assumption|]). cbn. intros Hs. specialize (Hh Hs). lia. }
  eapply packing_copy; [apply Hv| |exact S].
  apply (solve_packing _ _ _ _ _ Hv') in H; [exact H|].
  intros i Hi. cbn. eapply Permutation_in; eassumption.
Qed.

(** Genuine constructions. *)
Lemma solve_construction ar pb sq sol objs :
  valid_problem pb -> known_sequence pb sq -> solve ar pb sq = Ok (sol, objs) ->
  a_construction (pb_containers pb) (pb_items pb) (pb_strip pb) sol objs.
Proof.
  intros Hv Hk H. exists (pb_rotation pb), (pb_strategy pb), (pb_height pb), sq, sol.
  split; [intros Hs; destruct Hv as [_ [_ [_ [_ V]]]]; specialize (V Hs); lia|].
  split; [destruct pb; exact H|]. destruct (solve_packing _ _ _ _ _ Hv Hk H) as [_ [N _]].
  split; [reflexivity|]. split; [congruence|].
  intros cid csol Hin. apply (NoDup_concat_in (map (fun kc => dkeys (snd kc)) sol)); [exact N|].
  apply in_map_iff. exists (cid, csol). auto.
Qed.

Lemma made_construction ar (x : inst ar) g h seq sol sol' objs :
  (pb_strip (in_pb x) = true -> 1 <= h) ->
  solve ar (pb_with_height (pb_with_strategy (in_pb x) g) h) (Some seq) = Ok (sol, objs) ->
  same_placements sol sol' ->
  a_construction (pb_containers (in_pb x)) (pb_items (in_pb x)) (pb_strip (in_pb x)) sol' objs.
Proof.
  intros Hh H S. exists (pb_rotation (in_pb x)), g, h, (Some seq), sol. split; [exact Hh|]. split; [exact H|exact S].
Qed.

Section Solver.
Context {ar : arith} (laws : arith_laws ar).
Notation machine := (machine ar).


Lemma deepcopy_seq_known (items : odict dims) ids (d d' : odict dims) :
  rfold (fun d i => bind (dget_r items i) (fun it => Ok (dset d i it))) ids d = Ok d' ->
  forall i, In i ids -> In i (dkeys items).
Proof.
  revert d. induction ids as [|j ids IH]; intros d H; [intros ? []|]. cbn in H. unfold dget_r at 1 in H.
  destruct (dget items j) as [it|] eqn:E; [|discriminate]. cbn [bind] in H.
  intros i [<-|Hi]; [apply dget_Some_In; eauto|eapply IH; eassumption].
Qed.

Lemma solve_known pb sq r : solve ar pb sq = Ok r -> known_sequence pb sq.
Proof.
  destruct sq as [ids|]; [|intros _; exact Logic.I]. unfold solve, solve_full, items_for, deepcopy_seq. intros H.
  match type of H with context [rfold ?f ids []] => destruct (rfold f ids []) as [d|e] eqn:E end; [|discriminate].
  cbn. eapply deepcopy_seq_known. exact E.
Qed.

Lemma safe_do_solve P (Q : Prop) sq : Q -> safe P Q (do_solve ar sq).
Proof.
  intros HQ s s' r I H. unfold do_solve, sbind at 1, solver_view at 1 in H.
  destruct (inv_view s I) as [cs [is_ [V1 [V2 [V3 [V4 [V5 [V6 V7]]]]]]]].
  rewrite V7 in H. pose proof (inv_valid s _ I V7) as Hv.
  set (x := mkInst _ _ _ _ _ _) in *. unfold sbind, slift in H. unfold inst_solve in H.
  destruct (solve ar (in_pb x) sq) as [[sol objs]|e] eqn:E; cbn [bind] in H; [|injection H as <- _; constructor].
  injection H as <- _. apply star_one. apply (mi_put P Q s x (set_solution x sol objs) HQ V7).
  split; [|split; [intros Hs; split; [|apply (proj2 Hv Hs)]|]].
  - eapply solve_packing; [apply Hv|eapply solve_known; exact E|exact E].
  - destruct Hv as [[_ [_ [_ [_ V]]]] _]. specialize (V Hs). cbn in *. lia.
  - eapply solve_construction; [apply Hv|eapply solve_known; exact E|exact E].
Qed.

Lemma search_result (x y : inst ar) ck limit throttle start clk clk' log :
  valid_inst ar x -> local_search ar ck limit throttle start x clk = Ok (y, clk', log) -> solver_result x y.
Proof.
  intros Hv H. split; [|split].
  - destruct (C15_genuine_construction ar laws x Hv _ _ _ _ _ _ _ _ H) as [seq [h [sol [G1 [G2 [G3 G4]]]]]].
    apply (made_packing ar x (pb_strategy (in_pb x)) h seq sol _ (in_objs y) Hv).
    + intros Hs. rewrite Hs in G4. destruct (C22_strip_height ar laws x Hv Hs _ _ _ _ _ _ _ _ H) as [K _]. lia.
    + assumption.
    + destruct (in_pb x). exact G2.
    + assumption.
  - intros Hs. destruct (C22_strip_height ar laws x Hv Hs _ _ _ _ _ _ _ _ H) as [K1 [K2 _]].
    split; [lia|]. intros m Hm. split; [|apply K2; assumption].
    destruct (proj2 Hv Hs) as [_ V]. specialize (V m Hm). lia.
  - destruct (C15_genuine_construction ar laws x Hv _ _ _ _ _ _ _ _ H) as [seq [h [sol [G1 [G2 [G3 G4]]]]]].
    apply (made_construction ar x (pb_strategy (in_pb x)) h seq sol).
    + intros Hs. rewrite Hs in G4. destruct (C22_strip_height ar laws x Hv Hs _ _ _ _ _ _ _ _ H) as [K _]. lia.
    + destruct (in_pb x). exact G2.
    + assumption.
Qed.

Lemma safe_do_local_search P (Q : Prop) ck throttle : Q -> safe P Q (do_local_search ar ck throttle).
Proof.
  intros HQ s s' r I H. unfold do_local_search, sbind at 1, solver_view at 1 in H.
  destruct (inv_view s I) as [cs [is_ [V1 [V2 [V3 [V4 [V5 [V6 V7]]]]]]]].
  rewrite V7 in H. pose proof (inv_valid s _ I V7) as Hv.
  set (x := mkInst _ _ _ _ _ _) in *. unfold sbind, slift, sget in H.
  destruct (local_search ar ck (c_limit (m_cfg s)) throttle None x 0) as [[[y clk] log]|e] eqn:E;
    [|injection H as <- _; constructor].
  injection H as <- _. apply star_one. apply (mi_put P Q s x y HQ V7). eapply search_result; eassumption.
Qed.

Lemma safe_orient_one P Q turn h id : safe P Q (orient_one ar turn h id).
Proof.
  unfold orient_one. apply safe_bind; [apply safe_get_sobj|]. intros d.
  apply safe_bind; [apply safe_lift|]. intros v. destruct v; try apply safe_raise.
  apply safe_bind; [apply safe_get_dobj|]. intros o.
  apply safe_bind; [apply safe_lift|]. intros w. apply safe_bind; [apply safe_lift|]. intros l.
  destruct (as_int w), (as_int l); try apply safe_raise.
  destruct (turn _ _); [|apply safe_ret]. apply safe_bind; [apply safe_dim_set|]. intros _. apply safe_dim_set.
Qed.

Lemma safe_orient_each P Q turn h ids : safe P Q (orient_each ar turn h ids).
Proof.
  induction ids as [|id t IH]; [apply safe_ret|]. cbn [orient_each]. apply safe_bind; [apply safe_orient_one|auto].
Qed.

Lemma safe_do_orient P Q o : safe P Q (do_orient ar o).
Proof.
  destruct o as [o|]; [|apply safe_ret]. unfold do_orient. apply safe_bind; [apply safe_get|]. intros s0.
  apply safe_bind; [apply safe_get_sobj|]. intros d.
  repeat match goal with |- safe _ _ (if ?b then _ else _) => destruct b end;
    try apply safe_ret; apply safe_orient_each.
Qed.

Lemma safe_do_sort P Q sb : safe P Q (do_sort ar sb).
Proof.
  destruct sb as [[by_ rev]|]; [|apply safe_ret]. unfold do_sort.
  apply safe_bind; [apply safe_solver_view|]. intros x. apply safe_bind; [apply safe_get|]. intros s0.
  apply safe_bind; [apply safe_get_sobj|]. intros d.
  destruct (key_lt ar by_); [|apply safe_raise]. destruct (deepcopy_entries _ _); [|apply safe_raise].
  apply safe_assign_items.
Qed.

Lemma hyper_result (x : inst ar) ck limit throttle start strategies clk h log :
  valid_inst ar x -> single_process ar ck limit throttle start strategies x clk = Ok (h, log) ->
  solver_result x (set_solution (hs_st h) (fst (hs_ret h)) (snd (hs_ret h))).
Proof.
  intros Hv H.
  destruct (single_process_run ar laws x Hv ck limit throttle start strategies clk)
    as [s0 [s [imp [log' [_ [E [Hi _]]]]]]]. rewrite H in E. injection E as <- _.
  destruct Hi as [Hv1 [Hc1 [Hc2 Hc3]] Hh _ [g [hh [_ [Hhh [seq [sol [M1 [M2 M3]]]]]]]]].
  split; [|split].
  - eapply (made_packing ar x g hh seq sol); try eassumption.
    intros Hs. unfold height_within in Hhh. rewrite Hs in Hhh. lia.
  - intros Hs. assert (Hs' : pb_strip (in_pb (hs_st h)) = true) by (rewrite Hc1; exact Hs).
    unfold height_within in Hh. rewrite Hs in Hh. split; [cbn; lia|]. intros m Hm.
    destruct (proj2 Hv1 Hs') as [_ V]. rewrite <- Hc2 in Hm. apply (V m Hm).
  - eapply (made_construction ar x g hh seq sol); try eassumption.
    intros Hs. unfold height_within in Hhh. rewrite Hs in Hhh. lia.
Qed.

Lemma safe_do_hypersearch P (Q : Prop) ck throttle o sb strategies : Q ->
  safe P Q (do_hypersearch ar ck throttle o sb strategies).
Proof.
  intros HQ. unfold do_hypersearch. apply safe_bind; [apply safe_do_sort|]. intros _.
  apply safe_bind; [apply safe_do_orient|]. intros _. intros s s' r I H.
  unfold sbind at 1, solver_view at 1 in H.
  destruct (inv_view s I) as [cs [is_ [V1 [V2 [V3 [V4 [V5 [V6 V7]]]]]]]].
  rewrite V7 in H. pose proof (inv_valid s _ I V7) as Hv.
  set (x := mkInst _ _ _ _ _ _) in *. unfold sbind, slift, sget in H.
  destruct (single_process _ _ _ _ _ _ x _) as [[h log]|e] eqn:E; [|injection H as <- _; constructor].
  injection H as <- _. cbn [fst]. eapply star_cons.
  - apply (mi_put P Q s x (set_solution (hs_st h) (fst (hs_ret h)) (snd (hs_ret h))) HQ V7). eapply hyper_result; eassumption.
  - apply star_one. apply (mi_best P Q _ _ HQ).
Qed.

(** ** All the operations *)

(** Structures an operation may change. *)
Definition touches (o : op) : option nat -> Prop := fun t =>
  match o with
  | OpStructSet h _ _ | OpStructDel h _ | OpStructPop h _ _ | OpStructPopitem h | OpStructClear h
  | OpStructUpdate h _ | OpStructSetdefault h _ _ => t = Some h
  | OpSetContainers _ => t = None
  | _ => False
  end.
Definition runs_solver (o : op) : Prop :=
  match o with OpSolve _ | OpLocalSearch _ _ | OpHypersearch _ _ _ _ _ => True | _ => False end.

Lemma safe_ignore {A} P Q (m : M ar A) : safe P Q m -> safe P Q (ignore ar m).
Proof. intros H. apply safe_bind; [assumption|]. intros. apply safe_ret. Qed.

Lemma safe_run (o : op) : uses_ior o = false -> safe (touches o) (runs_solver o) (run o : M ar unit).
Proof.
  intros Ho. destruct o; try discriminate Ho; cbn [run];
    try apply safe_raise; try (apply safe_ignore).
  - apply safe_assign_items.
  - apply safe_assign_containers. reflexivity.
  - apply safe_assign_height.
  - apply safe_assign_min_height.
  - apply safe_reset_height.
  - apply safe_assign_strategy.
  - apply safe_on_cfg.
  - apply safe_on_cfg.
  - apply safe_on_cfg.
  - apply safe_struct_set. reflexivity.
  - apply safe_struct_del. reflexivity.
  - apply safe_struct_pop. reflexivity.
  - apply safe_struct_popitem. reflexivity.
  - apply safe_struct_clear. reflexivity.
  - apply safe_update. intros. apply safe_struct_set. reflexivity.
  - apply safe_struct_setdefault. reflexivity.
  - apply safe_struct_copy.
  - apply safe_struct_copy_copy.
  - apply safe_dim_set.
  - apply safe_dim_pop.
  - apply safe_dim_popitem.
  - apply safe_dim_clear.
  - apply safe_update. intros. apply safe_dim_set.
  - apply safe_dim_setdefault.
  - apply safe_dim_copy.
  - apply safe_dim_copy_copy.
  - apply safe_do_orient.
  - apply safe_do_sort.
  - apply safe_do_solve. exact Logic.I.
  - apply safe_do_local_search. exact Logic.I.
  - apply safe_bind; [apply safe_get|]. intros s0. destruct (one_worker _); [|apply safe_raise].
    apply safe_do_hypersearch. exact Logic.I.
Qed.
End Solver.
