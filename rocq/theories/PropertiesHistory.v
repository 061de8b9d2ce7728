(** * C32-C38: what holds after any history of operations on an instance. *)
From Coq Require Import ZArith String List Bool Lia Permutation.
From Verif Require Import Py ProofsPy Arith Construct Spec LocalSearch SpecSearch Values ProofsVal
  Settings Instance SpecInstance ProofsMachine ProofsOps ProofsRun ProofsSolver ProofsAccept ProofsHistory
  PropertiesStructures.
Import ListNotations.
Open Scope string_scope.
Open Scope list_scope.
Open Scope Z_scope.
Open Scope sm_scope.

(** ** Concrete histories *)
Definition after {ar} (s : machine ar) (l : list op) : machine ar := fold_left (fun s o => fst (run o s)) l s.

Lemma leads_after {ar} l : forall s : machine ar, leads_to s l (after s l).
Proof.
  induction l as [|o l IH]; intros s; [constructor|]. cbn. destruct (run o s) as [s1 r] eqn:E.
  econstructor; [exact E|]. apply IH.
Qed.

Definition no_libraries : environment := mkEnv None None (fun _ => false) (fun _ => false).
Definition py_dims (k : kind) (w l : Z) : pyval := VDict [(VStr (wkey k), VInt w); (VStr (lkey k), VInt l)].
Definition two_containers : pyval :=
  VDict [(VStr "C1", py_dims KContainers 4 4); (VStr "C2", py_dims KContainers 5 3)].
Definition three_items : pyval :=
  VDict [(VStr "a", py_dims KItems 2 3); (VStr "b", py_dims KItems 4 1); (VStr "c", py_dims KItems 3 3)].

Definition bins : machine qarith :=
  fst (create qarith no_libraries two_containers three_items VNone VNone (blank qarith)).
Definition strip : machine qarith :=
  fst (create qarith no_libraries VNone three_items VNone (VInt 5) (blank qarith)).

Lemma created_fst {ar} env containers items settings width :
  snd (create ar env containers items settings width (blank ar)) = Ok tt ->
  created env containers items settings width (fst (create ar env containers items settings width (blank ar))).
Proof. intros H. unfold created. rewrite <- H. apply surjective_pairing. Qed.

Lemma bins_created : created no_libraries two_containers three_items VNone VNone bins.
Proof. apply created_fst. vm_compute. reflexivity. Qed.
Lemma strip_created : created no_libraries VNone three_items VNone (VInt 5) strip.
Proof. apply created_fst. vm_compute. reflexivity. Qed.

(** The result and the next state of an operation. *)
Notation outcome o s := (snd (run o s)).
Notation next o s := (fst (run o s)).

Lemma bins_history l : history no_libraries two_containers three_items VNone VNone l (after bins l).
Proof. exists bins. split; [apply bins_created|apply leads_after]. Qed.
Lemma strip_history l : history no_libraries VNone three_items VNone (VInt 5) l (after strip l).
Proof. exists strip. split; [apply strip_created|apply leads_after]. Qed.

(** The object numbers: structure 0 is [p.containers], 1 is [p.items]; dimensions are numbered in
    the order they were given (strip: 0 is the strip). *)
Definition some_work : list op :=
  [OpSolve None; OpStructSet 1 (VStr "d") (py_dims KItems 1 2); OpDimSet 2 (VStr "w") (VInt 0);
   OpSort (Some ("area", true)); OpLocalSearch (fun _ => 0) true; OpStructDel 0 (VStr "C1")].

(** ** C32 *)
Theorem C32_well_formed_partial : forall ar, arith_laws ar ->
  forall env containers items settings width l (s : machine ar),
  history env containers items settings width l s -> without_ior l -> well_formed s.
Proof.
  intros ar laws env containers items settings width l s H Hl.
  pose proof (history_inv laws _ _ _ _ _ _ _ H Hl) as I.
  destruct (inv_view s I) as [cs [is_ [V1 [V2 [V3 [V4 [V5 [V6 _]]]]]]]].
  exists cs, is_. auto 8.
Qed.
Print Assumptions C32_well_formed_partial.

Example C32_witness :
  history no_libraries two_containers three_items VNone VNone some_work (after bins some_work) /\
  without_ior some_work /\
  containers_of (after bins some_work) = Some [("C2", mkDims 5 3)] /\
  items_of (after bins some_work) =
    Some [("c", mkDims 3 3); ("a", mkDims 2 3); ("b", mkDims 4 1); ("d", mkDims 1 2)].
Proof.
  split; [apply bins_history|]. split.
  - intros o H. cbn in H. intuition (subst; reflexivity).
  - split; vm_compute; reflexivity.
Qed.

(** [items["a"] |= {"w": -1}] and [x = p.items; x |= {"a": 5}]: no validation. *)
Theorem C32_ior_refuted :
  ~ (forall env containers items settings width l (s : machine qarith),
       history env containers items settings width l s -> well_formed s) /\
  items_of (after bins [OpDimIor 2 (VDict [(VStr "w", VInt (-1))])]) =
    Some [("a", mkDims (-1) 3); ("b", mkDims 4 1); ("c", mkDims 3 3)] /\
  items_of (after bins [OpStructIor 1 (VDict [(VStr "a", VInt 5)])]) = None.
Proof.
  split; [|split; vm_compute; reflexivity]. intros H.
  specialize (H _ _ _ _ _ _ _ (bins_history [OpDimIor 2 (VDict [(VStr "w", VInt (-1))])])).
  destruct H as [cs [is_ [_ [H2 [_ [_ [_ H6]]]]]]].
  assert (E : items_of (after bins [OpDimIor 2 (VDict [(VStr "w", VInt (-1))])]) =
    Some [("a", mkDims (-1) 3); ("b", mkDims 4 1); ("c", mkDims 3 3)]) by (vm_compute; reflexivity).
  rewrite E in H2. injection H2 as <-. destruct H6 as [_ H6].
  destruct (H6 "a" _ (or_introl eq_refl)) as [H _]. cbn in H. lia.
Qed.
Print Assumptions C32_ior_refuted.

(** ** C33 *)

(** Whole assignments, [x[key] = v], [del x[key]], [x.pop(key)], [x.popitem()]. *)
Definition direct_change (o : op) : Prop :=
  match o with
  | OpSetItems _ | OpSetContainers _ | OpStructSet _ _ _ | OpStructDel _ _ | OpStructPop _ _ false
  | OpStructPopitem _ | OpDimSet _ _ _ => True
  | _ => False
  end.

Lemma no_solution_recount {ar} k n (s : machine ar) : no_solution s -> no_solution (recount k n s).
Proof. destruct k; exact (fun H => H). Qed.

(** In every state, also one reached through [|=]. *)
Theorem C33_direct_change_resets : forall ar (s s' : machine ar) o,
  direct_change o -> run o s = (s', Ok tt) -> no_solution s'.
Proof.
  intros ar s s' o Ho H.
  assert (D : forall h id, struct_del ar h id s = (s', Ok tt) -> no_solution s').
  { intros h id E. apply struct_del_cases in E. destruct E as [[e [X _]]|[_ [d [_ [_ [_ ->]]]]]]; [discriminate|].
    apply no_solution_recount. split; reflexivity. }
  destruct o; try contradiction; cbn [run] in H.
  - unfold assign_items in H. apply sbind_inv in H. destruct H as [[s1 [h [E1 E2]]]|[e [_ X]]]; [|discriminate].
    apply new_structure_cases in E1.
    destruct E1 as [[e [? [? [X _]]]]|[data [new [d [_ [_ [_ [_ [_ [_ [_ ->]]]]]]]]]]]; [discriminate|].
    injection E2 as <-. split; reflexivity.
  - unfold assign_containers, sbind at 1, sget in H. rewrite swhen_cases in H.
    destruct (m_strip s); [discriminate|]. apply sbind_inv in H.
    destruct H as [[s1 [h [E1 E2]]]|[e [_ X]]]; [|discriminate].
    apply new_structure_cases in E1.
    destruct E1 as [[e [? [? [X _]]]]|[data [new [d [_ [_ [_ [_ [_ [_ [_ ->]]]]]]]]]]]; [discriminate|].
    injection E2 as <-. split; reflexivity.
  - apply struct_set_cases in H. destruct H as [[e [X _]]|[_ [o [i [data [_ [_ [_ [_ [_ [_ ->]]]]]]]]]]]; [discriminate|].
    apply no_solution_recount. split; reflexivity.
  - eapply D. eassumption.
  - destruct default; [contradiction|]. unfold struct_pop, sbind, get_sobj in H.
    destruct (nth_error (m_structs s) h) as [d|]; [|discriminate].
    destruct (data_get (so_data d) id) as [v|[]]; try discriminate. eapply D. eassumption.
  - unfold struct_popitem, sbind, get_sobj in H.
    destruct (nth_error (m_structs s) h) as [d|]; [|discriminate].
    destruct (so_data d) as [|[k v] t]; [discriminate|]. eapply D. eassumption.
  - apply dim_set_cases in H. destruct H as [[e [X _]]|[_ [o [_ [_ [_ ->]]]]]]; [discriminate|]. split; reflexivity.
Qed.
Print Assumptions C33_direct_change_resets.

Example C33_direct_witness :
  let s := after bins [OpSolve None] in
  outcome (OpDimSet 2 (VStr "w") (VInt 1)) s = Ok tt /\ m_sol s <> [].
Proof. split; vm_compute; [reflexivity|discriminate]. Qed.

(** Any other operation but [|=] and the solver's own, whether it succeeds or not: either
    everything that can be seen is as before, or the solution is reset. *)
Theorem C33_any_change_resets_partial : forall ar, arith_laws ar ->
  forall env containers items settings width l (s : machine ar),
  history env containers items settings width l s -> without_ior l ->
  forall o s' r, uses_ior o = false -> ~ runs_solver o -> run o s = (s', r) ->
  (items_of s' = items_of s /\ containers_of s' = containers_of s /\
   m_sol s' = m_sol s /\ m_objs s' = m_objs s) \/ no_solution s'.
Proof.
  intros ar laws env containers items settings width l s H Hl o s' r Ho Hq E.
  pose proof (history_inv laws _ _ _ _ _ _ _ H Hl) as I.
  pose proof (run_star laws o s s' r Ho I E) as S.
  destruct (star_views _ _ _ _ I S Hq) as [[[V1 [V2 _]] [V3 V4]]|N]; [left|right]; auto.
Qed.
Print Assumptions C33_any_change_resets_partial.

(** [x = p.items; x |= {"z": p.items["a"]}] and [p.items["a"] |= {"w": 1}] keep the old solution. *)
Theorem C33_ior_refuted :
  let s := after bins [OpSolve None] in
  let o1 := OpDimIor 2 (VDict [(VStr "w", VInt 1)]) in
  let o2 := OpStructIor 1 (VDict [(VStr "z", VDims 2)]) in
  (outcome o1 s = Ok tt /\
   items_of (next o1 s) = Some [("a", mkDims 1 3); ("b", mkDims 4 1); ("c", mkDims 3 3)] /\
   m_sol (next o1 s) = m_sol s /\ m_sol s <> []) /\
  (outcome o2 s = Ok tt /\
   items_of (next o2 s) = Some [("a", mkDims 2 3); ("b", mkDims 4 1); ("c", mkDims 3 3); ("z", mkDims 2 3)] /\
   m_sol (next o2 s) = m_sol s /\ m_sol s <> []).
Proof.
  cbv zeta. refine (conj (conj _ (conj _ (conj _ _))) (conj _ (conj _ (conj _ _))));
    vm_compute; solve [reflexivity|discriminate].
Qed.
Print Assumptions C33_ior_refuted.

(** ** C34 *)

(** Operations on one key. *)
Definition one_key (o : op) : Prop :=
  match o with
  | OpStructSet _ _ _ | OpStructDel _ _ | OpStructPop _ _ _ | OpStructPopitem _ | OpStructSetdefault _ _ _
  | OpDimSet _ _ _ | OpDimDel _ _ | OpDimPop _ _ _ | OpDimPopitem _ | OpDimSetdefault _ _ _
  | OpDelItems | OpDelContainers => True
  | _ => False
  end.

(** In every state. *)
Theorem C34_one_key_partial : forall ar (s s' : machine ar) o e,
  one_key o -> run o s = (s', Err e) -> s' = s.
Proof.
  intros ar s s' o e Ho H.
  assert (SS : forall h id v, struct_set ar h id v s = (s', Err e) -> s' = s).
  { intros h id v E. apply struct_set_cases in E. destruct E as [[? [_ E]]|[E _]]; [assumption|discriminate]. }
  assert (SD : forall h id, struct_del ar h id s = (s', Err e) -> s' = s).
  { intros h id E. apply struct_del_cases in E. destruct E as [[? [_ E]]|[E _]]; [assumption|discriminate]. }
  assert (DS : forall h id v, dim_set ar h id v s = (s', Err e) -> s' = s).
  { intros h id v E. apply dim_set_cases in E. destruct E as [[? [_ E]]|[E _]]; [assumption|discriminate]. }
  destruct o; try contradiction; cbn [run] in H; try (injection H; auto; fail); eauto.
  - unfold struct_pop, sbind, get_sobj in H. destruct (nth_error (m_structs s) h) as [d|]; [|injection H; auto].
    destruct (data_get (so_data d) id) as [v|[]]; try (injection H; auto; fail); eauto.
    destruct default; [discriminate|injection H; auto].
  - unfold struct_popitem, sbind, get_sobj in H. destruct (nth_error (m_structs s) h) as [d|]; [|injection H; auto].
    destruct (so_data d) as [|[k v] t]; [injection H; auto|eauto].
  - unfold struct_setdefault, sbind, get_sobj in H. destruct (nth_error (m_structs s) h) as [d|]; [|injection H; auto].
    destruct (data_get (so_data d) id) as [u|[]]; try discriminate; try (injection H; auto; fail); eauto.
  - unfold dim_pop, sbind, get_dobj in H. destruct (nth_error (m_dims s) h) as [d|]; [|injection H; auto].
    destruct (data_get (do_data d) key) as [v|[]]; try (injection H; auto; fail); eauto.
    destruct default; [discriminate|injection H; auto].
  - unfold dim_popitem, sbind, get_dobj in H. destruct (nth_error (m_dims s) h) as [d|]; [|injection H; auto].
    destruct (do_data d) as [|[k v] t]; injection H; auto.
  - unfold dim_setdefault, sbind, get_dobj in H. destruct (nth_error (m_dims s) h) as [d|]; [|injection H; auto].
    destruct (data_get (do_data d) key) as [u|[]]; try discriminate; try (injection H; auto; fail); eauto.
Qed.
Print Assumptions C34_one_key_partial.

(** A whole assignment that raises leaves containers and items; the solution may be lost. *)
Theorem C34_assignment_partial : forall ar, arith_laws ar ->
  forall env containers items settings width l (s : machine ar),
  history env containers items settings width l s -> without_ior l ->
  forall o s' e, (exists v, o = OpSetItems v \/ o = OpSetContainers v) -> run o s = (s', Err e) ->
  items_of s' = items_of s /\ containers_of s' = containers_of s /\ m_cnum s' = m_cnum s /\
  (m_sol s' = m_sol s /\ m_objs s' = m_objs s \/ no_solution s').
Proof.
  intros ar laws env containers items settings width l s H Hl o s' e [v Ho] E.
  pose proof (history_inv laws _ _ _ _ _ _ _ H Hl) as I.
  assert (G : s' = s \/ exists new b, grown s s' new b).
  { destruct Ho as [-> | ->]; cbn [run] in E.
    - right. unfold assign_items in E. apply sbind_inv in E. destruct E as [[s1 [h [_ E2]]]|[e' [E1 _]]]; [discriminate|].
      apply new_structure_cases in E1. destruct E1 as [[? [new [b [_ G]]]]|[? [? [? [X _]]]]]; [eauto|discriminate].
    - unfold assign_containers, sbind at 1, sget in E. rewrite swhen_cases in E.
      destruct (m_strip s); [left; injection E; auto|]. right.
      apply sbind_inv in E. destruct E as [[s1 [h [_ E2]]]|[e' [E1 _]]]; [discriminate|].
      apply new_structure_cases in E1. destruct E1 as [[? [new [b [_ G]]]]|[? [? [? [X _]]]]]; [eauto|discriminate]. }
  destruct G as [->|[new [b [_ ->]]]]; [auto 6|].
  set (s1 := if b then set_sol s [] [] else s).
  assert (V : forall h, view_struct (set_dims s1 (m_dims s ++ new)) h = view_struct s h).
  { intros h. assert (R : view_struct (set_dims s1 (m_dims s ++ new)) h = view_struct (set_dims s (m_dims s ++ new)) h)
      by (unfold s1; destruct b; reflexivity).
    rewrite R. apply (view_struct_dims s _ _ I). intros. apply nth_error_keep. assumption. }
  unfold items_of, containers_of. rewrite !V.
  unfold s1. destruct b; cbn; (split; [apply V || reflexivity|]); (split; [apply V || reflexivity|]);
    (split; [reflexivity|]); [right; split; reflexivity|left; split; reflexivity].
Qed.
Print Assumptions C34_assignment_partial.

(** After solving: [p.items = {good, bad}] raises and loses the solution; [items.update({good, bad})]
    raises and keeps the first change; [items.clear()] raises and deletes all the items but one;
    [items |= [("z", items["a"]), 5]] raises and has added "z". *)
Theorem C34_refuted :
  let s := after bins [OpSolve None] in
  let good := py_dims KItems 1 1 in
  let bad := py_dims KItems 0 1 in
  let o1 := OpSetItems (VDict [(VStr "x", good); (VStr "y", bad)]) in
  let o2 := OpStructUpdate 1 (VDict [(VStr "a", good); (VStr "y", bad)]) in
  let o3 := OpStructClear 1 in
  let o4 := OpStructIor 1 (VTuple [VTuple [VStr "z"; VDims 2]; VInt 5]) in
  m_sol s <> [] /\
  (outcome o1 s = Err (DimensionsError D_VALUE) /\ items_of (next o1 s) = items_of s /\ m_sol (next o1 s) = []) /\
  (outcome o2 s = Err (DimensionsError D_VALUE) /\
   items_of (next o2 s) = Some [("a", mkDims 1 1); ("b", mkDims 4 1); ("c", mkDims 3 3)] /\ m_sol (next o2 s) = []) /\
  (outcome o3 s = Err (ItemsError I_CANT_DELETE_STRUCTURE) /\
   items_of (next o3 s) = Some [("c", mkDims 3 3)] /\ m_sol (next o3 s) = []) /\
  (outcome o4 s = Err TypeError /\
   items_of (next o4 s) = Some [("a", mkDims 2 3); ("b", mkDims 4 1); ("c", mkDims 3 3); ("z", mkDims 2 3)]).
Proof.
  cbv zeta. refine (conj _ (conj (conj _ (conj _ _)) (conj (conj _ (conj _ _)) (conj (conj _ (conj _ _)) (conj _ _)))));
    vm_compute; solve [reflexivity|discriminate].
Qed.
Print Assumptions C34_refuted.

(** ** C58 *)
Theorem C58_one_key_changes_are_atomic : forall ar (s s' : machine ar) o e,
  one_key o -> run o s = (s', Err e) -> s' = s.
Proof. exact C34_one_key_partial. Qed.
Print Assumptions C58_one_key_changes_are_atomic.

(** Rejected one-key changes after solving; the structures with handles 0 and 1 are the containers
    and the items, the dimensions with handle 2 those of item "a". *)
Example C58_witness :
  let s := after bins [OpSolve None] in
  let raises o e := one_key o /\ outcome o s = Err e in
  m_sol s <> [] /\
  raises (OpStructSet 1 (VStr "a") (py_dims KItems 0 1)) (DimensionsError D_VALUE) /\
  raises (OpStructPop 1 (VStr "no") false) KeyError /\
  raises (OpDimSet 2 (VStr "w") (VInt 0)) (DimensionsError D_VALUE) /\
  raises (OpDimDel 2 (VStr "w")) (DimensionsError D_CANT_DELETE) /\
  raises OpDelItems (ItemsError I_CANT_DELETE) /\
  outcome (OpStructDel 1 (VStr "a")) s = Ok tt.
Proof.
  cbv zeta. refine (conj _ (conj (conj I _) (conj (conj I _) (conj (conj I _) (conj (conj I _) (conj (conj I _) _))))));
    vm_compute; solve [reflexivity|discriminate].
Qed.
Print Assumptions C58_witness.

(** ** C35 *)
Theorem C35_solution_fits_partial : forall ar, arith_laws ar ->
  forall env containers items settings width l (s : machine ar),
  history env containers items settings width l s -> without_ior l ->
  m_sol s = [] \/
  exists cs is_, containers_of s = Some cs /\ items_of s = Some is_ /\ a_packing cs is_ (m_strip s) (m_sol s).
Proof.
  intros ar laws env containers items settings width l s H Hl.
  apply (iv_fresh s (history_inv laws _ _ _ _ _ _ _ H Hl)).
Qed.
Print Assumptions C35_solution_fits_partial.

Example C35_witness :
  let l := [OpSort (Some ("area", true)); OpLocalSearch (fun _ => 0) true; OpSetStrategy (VInt 3);
            OpSetItems VNone; OpStructDel 0 (VStr "no")] in
  without_ior l /\ m_sol (after bins l) <> [].
Proof.
  split; [intros o H; cbn in H; intuition (subst; reflexivity)|]. vm_compute. discriminate.
Qed.

(** [|=] leaves a solution for other items; a strip can be made lower than its solution. *)
Theorem C35_refuted :
  (let s := after bins [OpSolve None; OpDimIor 2 (VDict [(VStr "w", VInt 1)])] in
   m_sol s <> [] /\ forall cs is_, containers_of s = Some cs -> items_of s = Some is_ ->
     ~ a_packing cs is_ (m_strip s) (m_sol s)) /\
  (let s := after strip [OpSolve None; OpSetHeight (VInt 1)] in
   m_height s = Some 1 /\ exists csol, dget (m_sol s) strip_id = Some csol /\
     dget csol "a" = Some (mkEntry 0 0 2 3)).
Proof.
  cbv zeta. split.
  - split; [vm_compute; discriminate|]. intros cs is_ _ Hi [_ [_ [H _]]].
    set (s := after _ _) in *.
    assert (E1 : m_sol s = [("C1", [("a", mkEntry 0 0 2 3); ("b", mkEntry 0 3 4 1)]); ("C2", [("c", mkEntry 0 0 3 3)])])
      by (vm_compute; reflexivity).
    assert (E2 : items_of s = Some [("a", mkDims 1 3); ("b", mkDims 4 1); ("c", mkDims 3 3)]) by (vm_compute; reflexivity).
    rewrite E2 in Hi. injection Hi as <-.
    destruct (H "C1" [("a", mkEntry 0 0 2 3); ("b", mkEntry 0 3 4 1)] "a" (mkEntry 0 0 2 3)) as [c [d [_ [Hd [Hs _]]]]].
    + rewrite E1. left. reflexivity.
    + left. reflexivity.
    + injection Hd as <-. unfold stores in Hs. cbn in Hs. lia.
  - split; [vm_compute; reflexivity|]. eexists. split; vm_compute; reflexivity.
Qed.
Print Assumptions C35_refuted.

(** ** C36 *)
Theorem C36_strip_fixed_partial : forall ar, arith_laws ar ->
  forall env items settings width w l (s : machine ar),
  history env VNone items settings width l s -> positive_int width w -> without_ior l ->
  m_strip s = true /\ containers_of s = Some [(strip_id, mkDims w (2 ^ 100))].
Proof.
  intros ar laws env items settings width w l s [s0 [H1 H2]] Hw Hl.
  pose proof (created_inv _ _ _ _ _ _ H1) as I0. apply created_object in H1.
  destruct H1 as [st [height [new1 [new2 [dc [di [c [N [_ Hst]]]]]]]]].
  destruct st.
  2: { destruct Hst as [-> _]. destruct Hw as [[E|[E _]] _]; discriminate. }
  destruct Hst as [_ [w' [Hw' [_ [Hc _]]]]].
  assert (w' = w). { apply positive_int_spec in Hw. apply positive_int_spec in Hw'. destruct Hw, Hw'. congruence. }
  subst w'. assert (Hs : m_strip s0 = true) by (destruct N as [_ [_ [_ [_ [_ [_ ->]]]]]]; reflexivity).
  rewrite <- Hc. clear - laws I0 Hs H2 Hl.
  enough (m_strip s = m_strip s0 /\ containers_of s = containers_of s0) by (rewrite <- Hs; assumption).
  induction H2 as [s|s o s1 r l s' E H IH]; [auto|].
  assert (S : star (touches o) (runs_solver o) s s1).
  { eapply run_star; [exact laws| |exact I0|exact E]. apply Hl. left. reflexivity. }
  pose proof (star_strip _ _ _ _ S) as E1. pose proof (star_strip_fixed _ _ _ _ I0 Hs S) as E2.
  destruct IH as [E3 E4].
  - intros x Hx. apply Hl. right. assumption.
  - eapply star_inv; eassumption.
  - congruence.
  - split; congruence.
Qed.
Print Assumptions C36_strip_fixed_partial.

Definition strip_work : list op :=
  [OpStructSet 0 (VStr "new") (py_dims KContainers 4 4); OpDimSet 0 (VStr "W") (VInt 9); OpSolve None;
   OpStructClear 0; OpDimUpdate 0 (py_dims KContainers 1 1); OpSetContainers two_containers;
   OpStructDel 0 (VStr strip_id); OpLocalSearch (fun _ => 0) true].

Example C36_witness : without_ior strip_work /\ m_sol (after strip strip_work) <> [] /\
  containers_of (after strip strip_work) = Some [(strip_id, mkDims 5 (2 ^ 100))].
Proof.
  split; [intros o H; cbn in H; intuition (subst; reflexivity)|].
  split; vm_compute; [discriminate|reflexivity].
Qed.

(** [p.containers["strip-pack-container"] |= {"W": 1}], [x = p.containers; x |= {...}]. *)
Theorem C36_ior_refuted :
  containers_of (after strip [OpDimIor 0 (VDict [(VStr "W", VInt 1)])]) = Some [(strip_id, mkDims 1 (2 ^ 100))] /\
  containers_of (after strip [OpStructIor 0 (VDict [(VStr "x", VDims 0)])]) =
    Some [(strip_id, mkDims 5 (2 ^ 100)); ("x", mkDims 5 (2 ^ 100))].
Proof. split; vm_compute; reflexivity. Qed.
Print Assumptions C36_ior_refuted.

(** ** C37 *)
Theorem C37_heights_partial : forall ar, arith_laws ar ->
  forall env containers items settings width l (s : machine ar),
  history env containers items settings width l s -> without_ior l -> m_strip s = true ->
  exists h, m_height s = Some h /\ 1 <= h /\ forall m, m_min s = Some m -> 1 <= m <= h.
Proof.
  intros ar laws env containers items settings width l s H Hl.
  apply (iv_heights s (history_inv laws _ _ _ _ _ _ _ H Hl)).
Qed.
Print Assumptions C37_heights_partial.

(** The setters, in every state. *)
Theorem C37_set_height : forall ar (s : machine ar) v,
  let ok z := positive_int v z /\ forall m, m_min s = Some m -> m <= z in
  (forall z, ok z -> run (OpSetHeight v) s = (set_heights s (Some z) (m_min s), Ok tt)) /\
  ((forall z, ~ positive_int v z) -> run (OpSetHeight v) s = (s, Err (DimensionsError D_VALUE))) /\
  (forall z, positive_int v z -> ~ ok z ->
     run (OpSetHeight v) s = (s, Err (ContainersError C_STRIP_PACK_MIN_HEIGHT))).
Proof.
  intros ar s v ok.
  assert (G : forall z, positive_int v z -> run (OpSetHeight v) s =
     if match m_min s with Some m => z <? m | None => false end
     then (s, Err (ContainersError C_STRIP_PACK_MIN_HEIGHT)) else (set_heights s (Some z) (m_min s), Ok tt)).
  { intros z Hz. apply positive_int_spec in Hz. destruct Hz as [E Hz]. cbn [run]. unfold assign_height. rewrite E.
    rewrite swhen_cases. destruct (Z.ltb_spec z 1); [lia|]. unfold sbind at 1, sget. rewrite swhen_cases.
    destruct (m_min s) as [m|] eqn:Em; [destruct (z <? m)|]; try reflexivity; unfold smodify; rewrite Em; reflexivity. }
  split; [|split].
  - intros z [Hz Hm]. rewrite (G z Hz). destruct (m_min s) as [m|]; [|reflexivity].
    specialize (Hm m eq_refl). destruct (Z.ltb_spec z m); [lia|reflexivity].
  - intros H. cbn [run]. unfold assign_height. destruct (as_int v) as [z|] eqn:E; [|reflexivity].
    rewrite swhen_cases. destruct (Z.ltb_spec z 1); [reflexivity|]. exfalso. apply (H z). apply positive_int_spec. split; [assumption|lia].
  - intros z Hz Hn. rewrite (G z Hz). destruct (m_min s) as [m|] eqn:E.
    + destruct (Z.ltb_spec z m); [reflexivity|]. exfalso. apply Hn. split; [assumption|]. intros m' [= <-]. lia.
    + exfalso. apply Hn. split; [assumption|]. discriminate.
Qed.
Print Assumptions C37_set_height.

Theorem C37_set_min_height : forall ar (s : machine ar) v,
  ((forall z, ~ positive_int v z) -> run (OpSetMinHeight v) s = (s, Err (DimensionsError D_VALUE))) /\
  (forall z h, positive_int v z -> m_height s = Some h ->
     run (OpSetMinHeight v) s =
       if z <=? h then (set_heights s (Some h) (Some z), Ok tt)
       else (s, Err (ContainersError C_STRIP_PACK_MIN_HEIGHT))) /\
  (* a bin-packing problem without height: any valid value raises TypeError *)
  (forall z, positive_int v z -> m_height s = None -> run (OpSetMinHeight v) s = (s, Err TypeError)).
Proof.
  intros ar s v. split; [|split].
  - intros H. cbn [run]. unfold assign_min_height. destruct (as_int v) as [z|] eqn:E; [|reflexivity].
    rewrite swhen_cases. destruct (Z.ltb_spec z 1); [reflexivity|]. exfalso. apply (H z). apply positive_int_spec. split; [assumption|lia].
  - intros z h Hz Hh. apply positive_int_spec in Hz. destruct Hz as [E Hz]. cbn [run]. unfold assign_min_height. rewrite E.
    rewrite swhen_cases. destruct (Z.ltb_spec z 1); [lia|]. unfold sbind at 1, sget. rewrite Hh, swhen_cases.
    rewrite Z.gtb_ltb. destruct (Z.ltb_spec h z); destruct (Z.leb_spec z h); try lia; [reflexivity|].
    unfold smodify. rewrite Hh. reflexivity.
  - intros z Hz Hh. apply positive_int_spec in Hz. destruct Hz as [E Hz]. cbn [run]. unfold assign_min_height. rewrite E.
    rewrite swhen_cases. destruct (Z.ltb_spec z 1); [lia|]. unfold sbind at 1, sget. rewrite Hh. reflexivity.
Qed.
Print Assumptions C37_set_min_height.

Theorem C37_reset_height_partial : forall ar, arith_laws ar ->
  forall env items settings width w l (s : machine ar),
  history env VNone items settings width l s -> positive_int width w -> without_ior l ->
  run OpResetHeight s = (set_heights s (Some (10 * w)) None, Ok tt).
Proof.
  intros ar laws env items settings width w l s H Hw Hl.
  destruct (C36_strip_fixed_partial ar laws env items settings width w l s H Hw Hl) as [Hs Hc].
  pose proof (history_inv laws _ _ _ _ _ _ _ H Hl) as I.
  destruct (inv_view s I) as [cs [is_ [V1 [V2 [_ [_ [_ [_ V]]]]]]]]. rewrite Hc in V1. injection V1 as <-.
  cbn [run]. unfold reset_height, sbind at 1, sget. rewrite Hs. unfold sbind at 1, solver_view. rewrite V.
  cbn [in_pb pb_containers]. unfold sbind, slift, dget_r. cbn [dget]. rewrite String.eqb_refl. unfold smodify.
  cbn [dw]. rewrite Z.mul_comm. reflexivity.
Qed.
Print Assumptions C37_reset_height_partial.

Example C37_witness :
  let l := [OpSetMinHeight (VInt 4); OpSetHeight (VInt 3); OpSetHeight (VInt 7); OpLocalSearch (fun _ => 0) true] in
  without_ior l /\ m_strip (after strip l) = true /\ m_height (after strip l) = Some 7 /\ m_min (after strip l) = Some 4.
Proof.
  split; [intros o H; cbn in H; intuition (subst; reflexivity)|].
  split; [|split]; vm_compute; reflexivity.
Qed.

(** [p.containers["strip-pack-container"] |= {"W": -3}; p.reset_container_height()]. *)
Theorem C37_ior_refuted :
  m_height (after strip [OpDimIor 0 (VDict [(VStr "W", VInt (-3))]); OpResetHeight]) = Some (-30).
Proof. vm_compute. reflexivity. Qed.
Print Assumptions C37_ior_refuted.
