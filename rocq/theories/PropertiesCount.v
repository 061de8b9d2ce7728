(** * C38, C39: the number of containers and the strategy, after any history. *)
From Coq Require Import ZArith String QArith List Bool Lia Permutation.
From Verif Require Import Py ProofsPy Arith Construct Spec LocalSearch SpecSearch Values ProofsVal
  Settings Instance SpecInstance ProofsMachine ProofsOps ProofsRun ProofsSolver ProofsAccept ProofsHistory
  SpecSearch PropertiesObjective HyperSearch ProofsHyper PropertiesHyper ProofsFrame ProofsRefine PropertiesSearch PropertiesStructures PropertiesHistory.
Import ListNotations.
Open Scope string_scope.
Open Scope list_scope.
Open Scope Z_scope.
Open Scope sm_scope.

(** ** C38 *)

(** The number of containers kept by the instance is the real one. *)
Definition right_count {ar} (s : machine ar) : Prop :=
  exists cs, containers_of s = Some cs /\ m_cnum s = zlen cs.

(** The object [h] an operation changes is the current [p.containers], or an Items object: not a
    Containers object that is no longer, or never was, that of the problem. An assigned dict has
    no key twice (as any dict). *)
Definition up_to_date {ar} (s : machine ar) (o : op) : Prop :=
  match o with
  | OpStructSet h _ _ | OpStructDel h _ | OpStructPop h _ _ | OpStructPopitem h | OpStructClear h
  | OpStructUpdate h _ | OpStructSetdefault h _ _ =>
      h = m_containers s \/ exists d, nth_error (m_structs s) h = Some (mkSobj KItems d)
  | OpSetContainers v => genuine v
  | _ => True
  end.

Inductive careful {ar} : machine ar -> list op -> machine ar -> Prop :=
| careful_nil s : careful s [] s
| careful_cons s o s1 r l s' :
    uses_ior o = false -> up_to_date s o -> run o s = (s1, r) -> careful s1 l s' -> careful s (o :: l) s'.

Section Count.
Context {ar : arith}.
Notation machine := (machine ar).

Definition counted_data (s : machine) : Prop :=
  exists o, nth_error (m_structs s) (m_containers s) = Some o /\ m_cnum s = zlen (so_data o).

Lemma counted_view s : inv s -> counted_data s -> right_count s.
Proof.
  intros I [o [Ho E]].
  destruct (view_entries_ok (m_dims s) (so_kind o) (so_data o) (iv_dims s I) (iv_structs s I _ _ Ho)) as [v [V1 [_ [V3 _]]]].
  exists v. unfold containers_of, view_struct. rewrite Ho. split; [assumption|].
  rewrite E. unfold zlen. rewrite V3. reflexivity.
Qed.

Definition owns (P : option nat -> Prop) (s : machine) : Prop :=
  ~ P None /\ forall h, P (Some h) -> h = m_containers s \/ exists o, nth_error (m_structs s) h = Some o /\ so_kind o = KItems.

Lemma counted_change (s : machine) h o data (s1 s2 : machine) :
  counted_data s -> inv s -> nth_error (m_structs s) h = Some o ->
  (h = m_containers s \/ exists o, nth_error (m_structs s) h = Some o /\ so_kind o = KItems) ->
  m_structs s1 = list_set (m_structs s) h (mkSobj (so_kind o) data) -> m_containers s1 = m_containers s ->
  m_cnum s1 = m_cnum s -> s2 = recount (so_kind o) (zlen data) s1 -> counted_data s2.
Proof.
  intros [oc [Hc Ec]] I Ho Hh E1 E2 E3 ->.
  destruct (iv_containers s I) as [oc' [Hc' [Kc _]]]. rewrite Hc in Hc'. injection Hc' as <-.
  assert (Hl : (h < length (m_structs s))%nat) by (apply nth_error_Some; congruence).
  destruct (Nat.eq_dec h (m_containers s)) as [->|Hne].
  - rewrite Hc in Ho. injection Ho as <-. exists (mkSobj (so_kind oc) data). rewrite Kc in *. cbn.
    rewrite E1, E2, list_set_same by assumption. auto.
  - destruct Hh as [?|[o' [Ho' Ko]]]; [contradiction|]. rewrite Ho in Ho'. injection Ho' as <-.
    rewrite Ko in *. exists oc. cbn. rewrite E1, E2, E3, list_set_other by assumption. auto.
Qed.

Lemma owns_structs (P : option nat -> Prop) (s s' : machine) :
  owns P s -> m_containers s' = m_containers s ->
  (forall h o, nth_error (m_structs s) h = Some o -> exists o', nth_error (m_structs s') h = Some o' /\ so_kind o' = so_kind o) ->
  owns P s'.
Proof.
  intros [H1 H2] E H. split; [assumption|]. intros h Hh. destruct (H2 h Hh) as [->|[o [Ho Ko]]]; [auto|].
  destruct (H _ _ Ho) as [o' [Ho' Ko']]. right. exists o'. split; [assumption|congruence].
Qed.

Lemma kinds_set (l : list sobj) h k data :
  (exists o, nth_error l h = Some o /\ so_kind o = k) ->
  forall n o, nth_error l n = Some o -> exists o', nth_error (list_set l h (mkSobj k data)) n = Some o' /\ so_kind o' = so_kind o.
Proof.
  intros [x [Hx Kx]] n o Ho. destruct (Nat.eq_dec h n) as [->|Hne].
  - rewrite list_set_same by (apply nth_error_Some; congruence). rewrite Hx in Ho. injection Ho as <-.
    eexists. split; [reflexivity|]. cbn. congruence.
  - rewrite list_set_other by assumption. eauto.
Qed.

Lemma micro_counted P Q s s' : inv s -> counted_data s -> owns P s -> micro P Q s s' -> counted_data s' /\ owns P s'.
Proof.
  intros I C W M. destruct M; try (split; assumption).
  - destruct C as [oc [Hc Ec]]. split.
    + exists oc. split; [apply nth_error_keep; assumption|assumption].
    + apply (owns_structs P s); [assumption|reflexivity|]. intros h d Hd. exists d. split; [apply nth_error_keep; assumption|reflexivity].
  - split.
    + eapply (counted_change s h o data (set_sol (set_structs s (list_set (m_structs s) h (mkSobj (so_kind o) data))) [] [])); [exact C|exact I|exact H0|apply W; assumption|reflexivity|reflexivity|reflexivity|reflexivity].
    + apply (owns_structs P s); [assumption|destruct (so_kind o); reflexivity|].
      intros n x Hx. pose proof (kinds_set (m_structs s) h (so_kind o) data (ex_intro _ o (conj H0 eq_refl)) n x Hx) as G.
      destruct (so_kind o); exact G.
  - split.
    + eapply (counted_change s h o data (set_sol (set_structs s (list_set (m_structs s) h (mkSobj (so_kind o) data))) [] [])); [exact C|exact I|exact H0|apply W; assumption|reflexivity|reflexivity|reflexivity|reflexivity].
    + apply (owns_structs P s); [assumption|destruct (so_kind o); reflexivity|].
      intros n x Hx. pose proof (kinds_set (m_structs s) h (so_kind o) data (ex_intro _ o (conj H0 eq_refl)) n x Hx) as G.
      destruct (so_kind o); exact G.
  - destruct W as [W _]. contradiction.
Qed.

Lemma star_counted P Q s s' : inv s -> counted_data s -> owns P s -> star P Q s s' -> counted_data s'.
Proof.
  intros I C W S. induction S as [s|s1 s2 s3 M S IH]; [assumption|].
  destruct (micro_counted _ _ _ _ I C W M) as [C2 W2]. apply IH; try assumption. eapply micro_inv; eassumption.
Qed.

Lemma run_counted (laws : arith_laws ar) o s s' r :
  inv s -> counted_data s -> uses_ior o = false -> up_to_date s o -> run o s = (s', r) -> counted_data s'.
Proof.
  intros I C Ho Hu E. destruct (match o with OpSetContainers _ => true | _ => false end) eqn:Et.
  - destruct o; try discriminate. cbn [run] in E. cbn [up_to_date] in Hu.
    unfold assign_containers, sbind at 1, sget in E. rewrite swhen_cases in E.
    destruct (m_strip s) eqn:Es; [injection E as <- _; assumption|].
    assert (N : forall (s1 : machine) r1, new_structure ar KContainers v s = (s1, r1) -> counted_data s1).
    { intros s1 r1 E1. eapply (star_counted (fun _ => False) False); [exact I|exact C| |eapply safe_new_structure; eassumption].
      split; [tauto|]. intros ? []. }
    apply sbind_inv in E. destruct E as [[s1 [h [E1 E2]]]|[e [E1 _]]]; [|eapply N; eassumption].
    apply new_structure_cases in E1.
    destruct E1 as [[e [new [b [X _]]]]|[data [new [d [[= ->] [-> [_ [F [He [Hne [Hz ->]]]]]]]]]]]; [discriminate|].
    injection E2 as <- _. exists (mkSobj KContainers data). cbn. split; [apply nth_error_last|].
    symmetry. apply Hz. apply (Hu d eq_refl).
  - eapply star_counted; [exact I|exact C| |eapply run_star; eassumption].
    destruct o; try discriminate; try (split; [tauto|intros ? []]); cbn in Hu |- *;
      (split; [discriminate|]); intros n [= ->]; (destruct Hu as [?|[d Hd]]; [auto|]); right; eexists; (split; [exact Hd|reflexivity]).
Qed.

Lemma careful_counted (laws : arith_laws ar) s l s' : inv s -> counted_data s -> careful s l s' -> right_count s'.
Proof.
  intros I C H. induction H as [s|s o s1 r l s' H1 H2 E _ IH]; [apply counted_view; assumption|].
  apply IH.
  - eapply star_inv; [exact I|]. eapply run_star; eassumption.
  - eapply run_counted; eassumption.
Qed.

Lemma created_counted env containers items settings width s :
  created env containers items settings width s -> counted_data s.
Proof.
  intros H. apply created_object in H. destruct H as [st [height [new1 [new2 [dc [di [c [N _]]]]]]]].
  destruct N as [_ [_ [_ [_ [_ [_ ->]]]]]]. eexists. split; reflexivity.
Qed.
End Count.

Theorem C38_count_partial : forall ar, arith_laws ar ->
  forall env containers items settings width (s0 : machine ar) l s,
  created env containers items settings width s0 -> careful s0 l s -> right_count s.
Proof.
  intros ar laws env containers items settings width s0 l s H1 H2.
  eapply careful_counted; try eassumption; [eapply created_inv|eapply created_counted]; eassumption.
Qed.
Print Assumptions C38_count_partial.

(** After [solve()] in such a history: the sum of the containers' values, the last one (if there
    are several) counting for 7/10. *)
Theorem C38_objective_partial :
  forall env containers items settings width (s0 : machine qarith) l s sequence s',
  created env containers items settings width s0 -> careful s0 l s ->
  run (OpSolve sequence) s = (s', Ok tt) ->
  exists cs v, containers_of s' = Some cs /\ dkeys (m_objs s') = dkeys cs /\
    obj_value qarith (m_cnum s') (dvals (m_objs s')) = Ok v /\
    match rev (dvals (m_objs s')) with
    | [] => False
    | [only] => (v == only)%Q
    | last :: front => (v == qsum front + (7 # 10) * last)%Q
    end.
Proof.
  intros env containers items settings width s0 l s sequence s' H1 H2 E.
  pose proof (C38_count_partial qarith qarith_laws _ _ _ _ _ _ _ _ H1 H2) as [cs [Hcs Hn]].
  assert (I : inv s).
  { pose proof (created_inv _ _ _ _ _ _ H1) as I. clear -I H2.
    induction H2 as [s|s o s1 r l s' Ho _ E _ IH]; [assumption|]. apply IH.
    eapply star_inv; [exact I|]. eapply run_star; [exact qarith_laws|exact Ho|exact I|exact E]. }
  destruct (inv_view s I) as [cs' [is_ [V1 [_ [_ [_ [_ [_ V]]]]]]]]. rewrite Hcs in V1. injection V1 as <-.
  pose proof (inv_valid s _ I V) as Hv.
  cbn [run] in E. unfold do_solve, sbind at 1, solver_view at 1 in E. rewrite V in E.
  set (x := mkInst _ _ _ _ _ _) in *. unfold sbind, slift, inst_solve in E.
  destruct (solve qarith (in_pb x) sequence) as [[sol objs]|e] eqn:Es; cbn [bind] in E; [|discriminate].
  injection E as <-.
  destruct (C55_objective_value x Hv) with (sequence := sequence) (sol := sol) (objs := objs) as [v [Ev Hw]].
  - exact Hn.
  - eapply solve_known. exact Es.
  - exact Es.
  - exists cs, v. split; [exact Hcs|].
    assert (K : dkeys objs = dkeys cs /\ match rev (dvals objs) with
      | [] => False | [only] => (v == only)%Q | last :: front => (v == qsum front + (7 # 10) * last)%Q end).
    { unfold dvals. rewrite <- map_rev. destruct (rev objs) as [|[c1 q1] [|[c2 q2] t]]; [destruct Hw| |];
        destruct Hw as [K1 K2]; (split; [symmetry; exact K1|exact K2]). }
    destruct K as [K1 K2]. split; [exact K1|]. split; [exact Ev|exact K2].
Qed.
Print Assumptions C38_objective_partial.

Definition count_work : list op :=
  [OpStructSet 0 (VStr "C3") (py_dims KContainers 2 2); OpStructDel 0 (VStr "C1"); OpStructDel 1 (VStr "a");
   OpSetContainers two_containers; OpStructDel 1 (VStr "a"); OpSort (Some ("area", true));
   OpStructClear 2; OpSolve None].

Example C38_witness :
  careful bins count_work (after bins count_work) /\
  m_cnum (after bins count_work) = 1 /\ containers_of (after bins count_work) = Some [("C2", mkDims 5 3)].
Proof.
  split; [|split; vm_compute; reflexivity].
  assert (G : forall o (s : machine qarith) l s', uses_ior o = false -> up_to_date s o ->
     careful (next o s) l s' -> careful s (o :: l) s').
  { intros o s l s' H1 H2 H3. econstructor; [exact H1|exact H2|apply surjective_pairing|exact H3]. }
  unfold count_work, after. cbn [fold_left].
  repeat (apply G; [reflexivity| |]); try apply careful_nil; cbn [up_to_date]; try exact Logic.I.
  - left. vm_compute. reflexivity.
  - left. vm_compute. reflexivity.
  - right. eexists. vm_compute. reflexivity.
  - intros d [= <-]. split; [repeat constructor|].
    intros id w [[= <- <-]|[[= <- <-]|[]]]; intros d [= <-]; repeat constructor.
  - right. eexists. vm_compute. reflexivity.
  - left. vm_compute. reflexivity.
Qed.

(** [old = p.containers; p.containers = {one}; old["x"] = ...] sets the number of containers to 3:
    the only container of the problem now counts for 0.7. Also [x |= ...] changes the containers
    without counting them. *)
Theorem C38_refuted :
  let one := VDict [(VStr "C", py_dims KContainers 6 6)] in
  let s := after bins [OpSetContainers one; OpStructSet 0 (VStr "x") (py_dims KContainers 1 1); OpSolve None] in
  let t := after bins [OpStructIor 0 (VDict [(VStr "x", VDims 0)])] in
  (containers_of s = Some [("C", mkDims 6 6)] /\ m_cnum s = 3 /\
   m_objs s = [("C", (19 # 36)%Q)] /\ obj_value qarith (m_cnum s) (dvals (m_objs s)) = Ok (133 # 360)%Q) /\
  (containers_of t = Some [("C1", mkDims 4 4); ("C2", mkDims 5 3); ("x", mkDims 4 4)] /\ m_cnum t = 2).
Proof.
  cbv zeta. refine (conj (conj _ (conj _ (conj _ _))) (conj _ _)); vm_compute; reflexivity.
Qed.
Print Assumptions C38_refuted.

(** ** C39 *)

(** The names of the points. *)
Definition point_name (c : pclass) : string :=
  match c with
  | cA => "A" | cB => "B" | cC => "C" | cD => "D" | cA_ => "A_" | cB_ => "B_" | cB__ => "B__"
  | cA__ => "A__" | cF => "F" | cE => "E"
  end.

(** A tuple of distinct names of points. *)
Definition strategy_value (v : pyval) (g : list pclass) : Prop :=
  NoDup g /\ v = VTuple (map (fun c => VStr (point_name c)) g).

(** The documented errors. *)
Inductive strategy_error : pyval -> exn -> Prop :=
| ste_type v : (forall l, v <> VTuple l) -> strategy_error v (PotentialPointsError PP_TYPE)
| ste_elem g v rest : NoDup g -> (forall i, v <> VStr i) ->
    strategy_error (VTuple (map (fun c => VStr (point_name c)) g ++ v :: rest)) (PotentialPointsError PP_ELEMENT_TYPE)
| ste_point g i rest : NoDup g -> (forall c, i <> point_name c) ->
    strategy_error (VTuple (map (fun c => VStr (point_name c)) g ++ VStr i :: rest)) (PotentialPointsError PP_ELEMENT_NOT_POINT)
| ste_dup g c rest : NoDup g -> In c g ->
    strategy_error (VTuple (map (fun c => VStr (point_name c)) g ++ VStr (point_name c) :: rest)) (PotentialPointsError PP_DUPLICATE).

Lemma point_name_inj a b : point_name a = point_name b -> a = b.
Proof. destruct a, b; intros E; try reflexivity; discriminate. Qed.

Lemma point_names_name c : dget point_names (point_name c) = Some c.
Proof. destruct c; reflexivity. Qed.

Lemma point_names_only i c : dget point_names i = Some c -> i = point_name c.
Proof.
  intros H. apply dget_In in H. cbn in H.
  repeat (destruct H as [[= <- <-]|H]; [reflexivity|]). destruct H.
Qed.

Lemma checked_name c seen : existsb (String.eqb (point_name c)) (map point_name seen) = true <-> In c seen.
Proof.
  rewrite existsb_exists. split.
  - intros [i [Hi E]]. apply String.eqb_eq in E. subst i. apply in_map_iff in Hi. destruct Hi as [d [E Hd]].
    apply point_name_inj in E. subst d. assumption.
  - intros H. exists (point_name c). split; [apply in_map; assumption|apply String.eqb_refl].
Qed.

Definition pclass_eq_dec : forall a b : pclass, {a = b} + {a <> b}.
Proof. decide equality. Defined.

Lemma check_points_spec l : forall seen, NoDup seen ->
  match check_points l (map point_name (rev seen)) with
  | Ok g => l = map (fun c => VStr (point_name c)) g /\ NoDup (seen ++ g)
  | Err e => strategy_error (VTuple (map (fun c => VStr (point_name c)) seen ++ l)) e
  end.
Proof.
  induction l as [|v l IH]; intros seen Hs; cbn [check_points].
  - split; [reflexivity|]. rewrite app_nil_r. assumption.
  - destruct v as [| | | |i| | | | | |]; try (apply ste_elem; [assumption|discriminate]).
    destruct (dget point_names i) as [c|] eqn:Ei.
    + apply point_names_only in Ei. subst i.
      destruct (existsb (String.eqb (point_name c)) (map point_name (rev seen))) eqn:Ex.
      * apply checked_name in Ex. apply ste_dup; [assumption|apply in_rev; assumption].
      * assert (Hn : ~ In c seen). { intros Hc. apply in_rev in Hc. apply checked_name in Hc. congruence. }
        assert (Hs' : NoDup (seen ++ [c])).
        { apply (Permutation_NoDup (Permutation_cons_append seen c)). constructor; assumption. }
        specialize (IH (seen ++ [c]) Hs'). rewrite rev_app_distr in IH. cbn [rev app map] in IH.
        destruct (check_points l (point_name c :: map point_name (rev seen))) as [g|e]; cbn [bind].
        -- destruct IH as [-> IH]. split; [reflexivity|]. rewrite <- app_assoc in IH. exact IH.
        -- rewrite map_app, <- app_assoc in IH. exact IH.
    + apply ste_point; [assumption|]. intros c ->. rewrite point_names_name in Ei. discriminate.
Qed.

(** Every value is accepted or refused, and how. *)
Theorem C39_assign : forall ar (s : machine ar) v,
  (exists g, strategy_value v g /\ run (OpSetStrategy v) s = (set_pp_strategy s g, Ok tt)) \/
  (exists e, strategy_error v e /\ run (OpSetStrategy v) s = (s, Err e)).
Proof.
  intros ar s v. destruct v as [| | | | |l| | | | |];
    try (right; eexists; split; [apply ste_type; discriminate|reflexivity]).
  pose proof (check_points_spec l [] (NoDup_nil _)) as H. cbn [rev map app] in H.
  cbn [run assign_strategy]. unfold sbind, slift. destruct (check_points l []) as [g|e].
  - destruct H as [-> Hn]. left. exists g. split; [split; [exact Hn|reflexivity]|reflexivity].
  - right. exists e. split; [exact H|reflexivity].
Qed.
Print Assumptions C39_assign.

(** The two cases exclude each other. *)
Lemma names_prefix g g' v rest :
  map (fun c => VStr (point_name c)) g = map (fun c => VStr (point_name c)) g' ++ v :: rest ->
  exists c t, v = VStr (point_name c) /\ g = g' ++ c :: t.
Proof.
  revert g'. induction g as [|a g IH]; intros [|b g']; cbn; try discriminate.
  - intros [= <- _]. eauto.
  - intros [= E1 E2]. apply point_name_inj in E1. subst b. destruct (IH _ E2) as [c [t [H1 H2]]].
    exists c, t. split; [assumption|]. cbn. congruence.
Qed.

Theorem C39_exact : forall v g e, strategy_value v g -> ~ strategy_error v e.
Proof.
  intros v g e [Hn ->] H. inversion H as [? H1|g' v rest H1 H2 H3|g' i rest H1 H2 H3|g' c rest H1 H2 H3]; subst.
  - exact (H1 _ eq_refl).
  - symmetry in H3. apply names_prefix in H3. destruct H3 as [c [t [-> _]]]. exact (H2 _ eq_refl).
  - symmetry in H3. apply names_prefix in H3. destruct H3 as [c [t [[= ->] _]]]. exact (H2 _ eq_refl).
  - symmetry in H3. apply names_prefix in H3. destruct H3 as [c' [t [[= E] ->]]]. apply point_name_inj in E. subst c'.
    apply NoDup_remove_2 in Hn. apply Hn. apply in_or_app. left. assumption.
Qed.
Print Assumptions C39_exact.

(** [del p.potential_points_strategy] *)
Theorem C39_delete : forall ar (s : machine ar),
  run OpDelStrategy s = (s, Err (PotentialPointsError PP_DELETE)).
Proof. reflexivity. Qed.

(** In every reachable state, also through [|=], the strategy has no point twice, provided the
    strategies hypersearch is asked to try have none. *)
Definition tries_valid (o : op) : Prop :=
  match o with OpHypersearch _ _ _ _ gs => forall g, In g gs -> NoDup g | _ => True end.

Lemma strategy_step {ar} (laws : arith_laws ar) o (s s' : machine ar) r :
  inv s -> uses_ior o = false -> tries_valid o -> run o s = (s', r) -> NoDup (m_strategy s) -> NoDup (m_strategy s').
Proof.
  intros I Ho Ht E Hn.
  destruct (match o with OpSetStrategy _ | OpSolve _ | OpLocalSearch _ _ | OpHypersearch _ _ _ _ _ => true | _ => false end) eqn:Ek.
  2: { enough (X : m_strategy s' = m_strategy s) by (rewrite X; assumption).
       eapply (k_run m_strategy); try exact E; try (intros; reflexivity).
       - intros g. left. destruct o; try discriminate; exact (fun H => H).
       - right. reflexivity.
       - destruct o; try discriminate; exact (fun H => H). }
  destruct (inv_view s I) as [cs [is_ [_ [_ [_ [_ [_ [_ V]]]]]]]]. set (x := mkInst _ _ _ _ _ _) in V.
  pose proof (inv_valid s x I V) as Hv.
  destruct o; try discriminate.
  - destruct (C39_assign ar s v) as [[g [[Hg _] X]]|[e [_ X]]]; rewrite X in E; injection E as <- _; assumption.
  - pose proof (solve_refines s x sequence V) as X. unfold inst_solve in X.
    destruct (solve ar (in_pb x) sequence) as [[sol objs]|e]; cbn [bind] in X.
    + destruct X as [X _]. rewrite X in E. injection E as <- _. assumption.
    + rewrite X in E. injection E as <- _. assumption.
  - destruct (local_search_refines laws s x ck throttle I V) as [y [clk [log [E1 [X _]]]]].
    rewrite X in E. injection E as <- _. cbn.
    destruct (C15_configuration_kept ar laws x Hv _ _ _ _ _ _ _ _ E1) as [_ [_ [_ [-> _]]]]. assumption.
  - destruct (one_worker (c_workers (m_cfg s))) eqn:Ew.
    2: { cbn [run] in E. unfold sbind at 1, sget at 1 in E. rewrite Ew in E. injection E as <- _. assumption. }
    pose proof (hypersearch_refines laws s x ck throttle orientation sorting_by strategies I V Ew) as X.
    destruct (hypersearch ar ck (c_limit (m_cfg s)) throttle orientation sorting_by strategies x 0) as [rr|e] eqn:E1.
    + destruct X as [s1 [X [V1 _]]]. rewrite X in E. injection E as <- _.
      assert (Es : m_strategy s1 = pb_strategy (in_pb (hr_inst rr))).
      { destruct (view_all s1 _ V1) as [_ [_ V3]]. rewrite V3. reflexivity. }
      rewrite Es.
      destruct (C50_configuration_partial ar laws x Hv _ _ _ _ _ _ _ _ E1) as [x2 [_ [_ [_ [_ [_ [_ [_ [_ K]]]]]]]]].
      rewrite K. destruct (hypersearch_run ar laws x Hv _ _ _ _ _ _ _ _ E1) as [x3 [_ [_ [a [b [imp [_ [_ [_ Hr]]]]]]]]].
      destruct (hrun_prefix _ _ _ _ _ _ _ _ _ _ _ Hr) as [rest [Ep _]].
      destruct (map fst (hr_log rr)) as [|g t] eqn:Em using rev_ind; [exact Hn|].
      rewrite last_last. apply Ht. rewrite Ep. apply in_or_app. left. apply in_or_app. right. left. reflexivity.
    + rewrite X in E. injection E as <- _. assumption.
Qed.

Theorem C39_history_partial : forall ar, arith_laws ar ->
  forall env containers items settings width l (s : machine ar),
  history env containers items settings width l s -> without_ior l -> (forall o, In o l -> tries_valid o) ->
  NoDup (m_strategy s).
Proof.
  intros ar laws env containers items settings width l s [s0 [H1 H2]] Hl Ht.
  assert (N0 : NoDup (m_strategy s0)).
  { apply created_object in H1. destruct H1 as [st [height [new1 [new2 [dc [di [c [N _]]]]]]]].
    destruct N as [_ [_ [_ [_ [_ [_ ->]]]]]]. cbn. repeat constructor; cbn; intuition discriminate. }
  pose proof (created_inv _ _ _ _ _ _ H1) as I0. clear H1.
  induction H2 as [s|s o s1 r l s' E _ IH]; [assumption|].
  assert (Ho : uses_ior o = false) by (apply Hl; left; reflexivity).
  apply IH.
  - intros x Hx. apply Hl. right. assumption.
  - intros x Hx. apply Ht. right. assumption.
  - eapply strategy_step; try eassumption. apply Ht. left. reflexivity.
  - eapply inv_next; eassumption.
Qed.
Print Assumptions C39_history_partial.

(** The strategies hypersearch generates have no point twice. *)
Lemma C39_pool : forall g, In g strategy_pool -> NoDup g.
Proof. apply Forall_forall. repeat constructor; cbn; intuition discriminate. Qed.

Lemma C39_exhaustive : forall strip order, set_order strip order ->
  forall g, In g (get_strategies true order) -> NoDup g.
Proof.
  intros strip order H g Hg. apply (C23_strategies strip order H) in Hg. destruct Hg as [Hp _].
  eapply Permutation_NoDup; [symmetry; exact Hp|]. repeat constructor; cbn; intuition discriminate.
Qed.

Example C39_witness :
  let l := [OpSetStrategy (VTuple [VStr "B"; VStr "A_"; VStr "E"]); OpSetStrategy (VTuple [VStr "B"; VStr "B"]); OpSolve None] in
  without_ior l /\ (forall o, In o l -> tries_valid o) /\ m_strategy (after bins l) = [cB; cA_; cE] /\
  strategy_value (VTuple [VStr "B"; VStr "A_"; VStr "E"]) [cB; cA_; cE] /\
  strategy_error (VTuple [VStr "B"; VStr "B"]) (PotentialPointsError PP_DUPLICATE).
Proof.
  split; [intros o H; cbn in H; intuition (subst; reflexivity)|].
  split; [intros o H; cbn in H; intuition (subst; exact Logic.I)|].
  split; [vm_compute; reflexivity|]. split.
  - split; [repeat constructor; cbn; intuition discriminate|reflexivity].
  - apply (ste_dup [cB] cB []); [repeat constructor; cbn; intuition discriminate|left; reflexivity].
Qed.
