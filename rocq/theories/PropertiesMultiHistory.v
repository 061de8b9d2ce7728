(** * Histories with several processes: C26-C28, C32, C33, C35-C39, C41, C50, C61. *)
From Coq Require Import ZArith String List Bool QArith Qround Lia Permutation.
From Verif Require Import Py ProofsPy Arith Construct Spec ProofsSolve ProofsPacking ProofsSolution
  LocalSearch SpecSearch PropertiesSearch ItemsManip HyperSearch MultiProcess ProofsHyper PropertiesHyper ProofsLoose ProofsMulti
  PropertiesMulti Values ProofsVal Settings Instance SpecInstance ProofsMachine ProofsOps ProofsRun ProofsSolver
  ProofsAccept ProofsHistory ProofsFrame ProofsRefine SpecSettings ProofsSettings PropertiesStructures
  PropertiesHistory PropertiesCount PropertiesSettings MultiHistory SpecMultiHistory ProofsMultiHistory PropertiesPartition SpecMapping ProofsMapping.
Import ListNotations.
Open Scope string_scope.
Open Scope list_scope.
Open Scope Z_scope.
Open Scope sm_scope.

Lemma mleads_app {ar} (s s1 s' : machine ar) l l' : mleads_to s l s1 -> mleads_to s1 l' s' -> mleads_to s (l ++ l') s'.
Proof. induction 1; [auto|]. intros. econstructor; eauto. Qed.


(** ** Concrete calls *)
Lemma reachable_more {ar} (u : setup ar) (mr mr' md md' : nat -> Prop) t : (forall i, mr i -> mr' i) -> (forall i, md i -> md' i) ->
  reachable u mr md t -> reachable u mr' md' t.
Proof.
  intros H1 H2 H. induction H as [|s s' _ IH St]; [apply steps_refl|]. eapply steps_snoc; [exact IH|].
  destruct St as [P|i P W]; [apply St_parent; exact P|]. apply (St_worker _ _ _ _ _ i P). destruct W; try (econstructor; eauto; fail).
Qed.

(** What a call with two strategies and two workers, none of them failing, gives. *)
Definition two_process_result (c : call qarith) (s : machine qarith) : option (machine qarith) :=
  match presort c s with
  | (s1, Ok tt) =>
      match prepare c s1 with
      | Ok u => match two_workers u with
                | Ok (PReturned sol objs g) => Some (assign_result s1 sol objs g)
                | _ => None
                end
      | Err _ => None
      end
  | _ => None
  end.

Lemma two_processes c (s s' : machine qarith) : two_process_result c s = Some s' ->
  (forall i, ca_forced c i = false) -> (forall o, (ca_size c o <= ca_capacity c)%nat) ->
  one_worker (workers_of s) = false -> mrun (Processes c) s s' (Ok tt).
Proof.
  intros H Hf Hs Hw. constructor; [exact Hw|]. unfold two_process_result in H.
  destruct (presort c s) as [s1 [[]|e]] eqn:E1; [|discriminate].
  destruct (prepare c s1) as [u|e] eqn:E2; [|discriminate].
  destruct (two_workers u) as [[| | |sol objs g|]|e] eqn:E3; try discriminate. injection H as <-.
  assert (Hu : su_forced u = ca_forced c /\ su_size u = ca_size c /\ su_capacity u = ca_capacity c).
  { unfold prepare in E2. destruct (view s1); [|discriminate]. destruct (partition _ _); [|discriminate]. cbn [bind] in E2.
    destruct (child_machine _ _) as [y|]; [|discriminate]. cbn [bind] in E2. destruct (view y); [|discriminate]. injection E2 as <-. auto. }
  destruct Hu as [Hu1 [Hu2 Hu3]].
  destruct (two_workers_reach u _ E3) as [t [R1 R2]]; [intros i; rewrite Hu1; apply Hf|intros o; rewrite Hu2, Hu3; apply Hs|].
  eapply multi_returned; [exact E1|exact E2| |exact R2].
  eapply reachable_more; [| |exact R1]; intros ? [].
Qed.

(** Two workers; sorting by area, then the two strategies of the pool. *)
Definition plain_call (sorting : option (string * bool)) (strategies : list (list pclass)) : call qarith :=
  mkCall no_libraries None sorting strategies true (fun _ _ => 0) 0 (fun _ => false) (fun _ => 0%nat) 0.
Definition pool_call : call qarith := plain_call (Some ("area", true)) strategy_pool.
Definition two_workers_settings (rotation : bool) : pyval :=
  VDict [(VStr "workers_num", VInt 2); (VStr "rotation", VBool rotation)].
Definition pair (rotation : bool) : machine qarith :=
  fst (create qarith no_libraries two_containers three_items (two_workers_settings rotation) VNone (blank qarith)).
Lemma pair_created rotation : created no_libraries two_containers three_items (two_workers_settings rotation) VNone (pair rotation).
Proof. apply created_fst. destruct rotation; vm_compute; reflexivity. Qed.

Definition call_result (c : call qarith) (s : machine qarith) : machine qarith :=
  match two_process_result c s with Some s' => s' | None => s end.
Definition call_returns (c : call qarith) (s : machine qarith) : bool :=
  match two_process_result c s with Some _ => true | None => false end.
Lemma plain_call_runs sorting strategies (s : machine qarith) : call_returns (plain_call sorting strategies) s = true ->
  one_worker (workers_of s) = false ->
  mrun (Processes (plain_call sorting strategies)) s (call_result (plain_call sorting strategies) s) (Ok tt).
Proof.
  intros H Hw. unfold call_returns, call_result in *.
  destruct (two_process_result (plain_call sorting strategies) s) as [s'|] eqn:E; [|discriminate].
  apply two_processes; [exact E|reflexivity|intros; apply le_n|exact Hw].
Qed.

(** A history with a call of several processes: settings, hypersearch, a change, solve. *)
Definition calling : list (mop qarith) := [Processes pool_call].
Definition working : list (mop qarith) :=
  [Plain (OpSetStrategy (VTuple [VStr "B"; VStr "A"])); Processes pool_call; Plain (OpDimSet 2 (VStr "w") (VInt 1)); Plain (OpSolve None)].
Definition working_first : machine qarith := after (pair true) [OpSetStrategy (VTuple [VStr "B"; VStr "A"])].
Definition working_end : machine qarith :=
  after (call_result pool_call working_first) [OpDimSet 2 (VStr "w") (VInt 1); OpSolve None].

Lemma plain_leads l : forall s : machine qarith, (forall o, In o l -> is_hypersearch o = false) ->
  mleads_to s (map Plain l) (after s l).
Proof.
  induction l as [|o l IH]; intros s H; [constructor|]. cbn [map after fold_left]. destruct (run o s) as [s1 r] eqn:E.
  econstructor; [apply mrun_plain; [|exact E]|].
  - rewrite H by (left; reflexivity). discriminate.
  - apply IH. intros x Hx. apply H. right. exact Hx.
Qed.

Lemma pool_call_runs : mrun (Processes pool_call) (pair true) (call_result pool_call (pair true)) (Ok tt).
Proof. apply plain_call_runs; vm_compute; reflexivity. Qed.
Lemma calling_history : mhistory no_libraries two_containers three_items (two_workers_settings true) VNone calling
  (call_result pool_call (pair true)).
Proof. exists (pair true). split; [apply pair_created|]. eapply mleads_cons; [exact pool_call_runs|constructor]. Qed.

Lemma working_history : mhistory no_libraries two_containers three_items (two_workers_settings true) VNone working working_end.
Proof.
  exists (pair true). split; [apply pair_created|].
  assert (H : forall o, In o [OpSetStrategy (VTuple [VStr "B"; VStr "A"])] -> is_hypersearch o = false) by (intros o [<-|[]]; reflexivity).
  apply (mleads_app _ _ _ _ _ (plain_leads _ (pair true) H)). fold working_first.
  eapply mleads_cons; [apply plain_call_runs; vm_compute; reflexivity|].
  apply (plain_leads [OpDimSet 2 (VStr "w") (VInt 1); OpSolve None]). intros o [<-|[<-|[]]]; reflexivity.
Qed.
Example working_demo : mwithout_ior working /\ items_of (call_result pool_call working_first) =
    Some [("c", mkDims 3 3); ("a", mkDims 2 3); ("b", mkDims 4 1)] /\
  m_sol (call_result pool_call working_first) <> [] /\ m_strategy (call_result pool_call working_first) = [cB; cA] /\
  workers_of working_end = VInt 2 /\ items_of working_end = Some [("c", mkDims 3 3); ("a", mkDims 2 3); ("b", mkDims 4 1)].
Proof.
  split; [intros o [<-|[<-|[<-|[<-|[]]]]]; reflexivity|].
  refine (conj _ (conj _ (conj _ (conj _ _)))); vm_compute; try reflexivity; discriminate.
Qed.
(** ** C32 *)
Theorem C32_well_formed_processes_partial : forall ar, orderly ar -> forall env containers items settings width l (s : machine ar),
  mhistory env containers items settings width l s -> mwithout_ior l -> well_formed s.
Proof.
  intros ar [laws vals] env containers items settings width l s H Hl. destruct (mhistory_good laws vals _ _ _ _ _ _ _ H Hl) as [I _].
  destruct (inv_view s I) as [cs [is_ [V1 [V2 [V3 [V4 [V5 [V6 _]]]]]]]]. exists cs, is_. auto 8.
Qed.
Print Assumptions C32_well_formed_processes_partial.
Example C32_processes_demo : well_formed working_end.
Proof. eapply (C32_well_formed_processes_partial qarith qarith_orderly); [exact working_history|apply working_demo]. Qed.

(** ** C33 *)
Theorem C33_any_change_resets_processes_partial : forall ar, orderly ar -> forall env containers items settings width l (s : machine ar),
  mhistory env containers items settings width l s -> mwithout_ior l ->
  forall o s' r, muses_ior o = false -> ~ searches o -> mrun o s s' r ->
  (items_of s' = items_of s /\ containers_of s' = containers_of s /\
   m_sol s' = m_sol s /\ m_objs s' = m_objs s) \/ no_solution s'.
Proof.
  intros ar [laws vals] env containers items settings width l s H Hl o s' r Ho Hs E.
  destruct (mhistory_good laws vals _ _ _ _ _ _ _ H Hl) as [I A].
  pose proof (mrun_star laws vals o s s' r Ho I A E) as S.
  assert (N : ~ mruns_solver o) by (destruct o as [[]|]; cbn in *; tauto).
  destruct (star_views _ _ _ _ I S N) as [[[V1 [V2 _]] [V3 V4]]|K]; [left|right]; auto.
Qed.
Print Assumptions C33_any_change_resets_processes_partial.
(** Not vacuous: changing an item after the search discards its solution. *)
Example C33_processes_demo :
  m_sol (call_result pool_call (pair true)) <> [] /\
  no_solution (next (OpDimSet 2 (VStr "w") (VInt 1)) (call_result pool_call (pair true))).
Proof. split; [vm_compute; discriminate|split; vm_compute; reflexivity]. Qed.

(** ** C35 *)
Theorem C35_solution_fits_processes_partial : forall ar, orderly ar -> forall env containers items settings width l (s : machine ar),
  mhistory env containers items settings width l s -> mwithout_ior l ->
  m_sol s = [] \/
  exists cs is_, containers_of s = Some cs /\ items_of s = Some is_ /\ a_packing cs is_ (m_strip s) (m_sol s).
Proof.
  intros ar [laws vals] env containers items settings width l s H Hl. destruct (mhistory_good laws vals _ _ _ _ _ _ _ H Hl) as [I _].
  apply (iv_fresh s I).
Qed.
Print Assumptions C35_solution_fits_processes_partial.
Example C35_processes_demo :
  mhistory no_libraries two_containers three_items (two_workers_settings true) VNone calling (call_result pool_call (pair true)) /\
  m_sol (call_result pool_call (pair true)) =
    [("C1", [("c", mkEntry 0 0 3 3); ("b", mkEntry 0 3 4 1)]); ("C2", [("a", mkEntry 0 0 2 3)])].
Proof. split; [exact calling_history|vm_compute; reflexivity]. Qed.

(** ** C36 *)
Theorem C36_strip_fixed_processes_partial : forall ar, orderly ar -> forall env items settings width w l (s : machine ar),
  mhistory env VNone items settings width l s -> positive_int width w -> mwithout_ior l ->
  m_strip s = true /\ containers_of s = Some [(strip_id, mkDims w (2 ^ 100))].
Proof.
  intros ar [laws vals] env items settings width w l s [s0 [H1 H2]] Hw Hl.
  assert (H0 : m_strip s0 = true /\ containers_of s0 = Some [(strip_id, mkDims w (2 ^ 100))]).
  { apply (C36_strip_fixed_partial ar laws env items settings width w []);
      [exists s0; split; [exact H1|constructor]|exact Hw|intros ? []]. }
  destruct H0 as [Hs Hc]. rewrite <- Hc.
  pose proof (created_inv _ _ _ _ _ _ H1) as I0. pose proof (created_attributes _ _ _ _ _ _ H1) as A0.
  enough (m_strip s = m_strip s0 /\ containers_of s = containers_of s0) by (rewrite <- Hs; assumption).
  clear H1 Hc. induction H2 as [s|s o s1 r l s' E H IH]; [auto|].
  assert (S : star (mtouches o) (mruns_solver o) s s1).
  { eapply (mrun_star laws vals); [|exact I0|exact A0|exact E]. apply Hl. left. reflexivity. }
  pose proof (star_strip _ _ _ _ S) as E1. pose proof (star_strip_fixed _ _ _ _ I0 Hs S) as E2.
  destruct IH as [E3 E4].
  - intros x Hx. apply Hl. right. assumption.
  - congruence.
  - eapply star_inv; eassumption.
  - eapply mrun_attributes; eassumption.
  - split; congruence.
Qed.
Print Assumptions C36_strip_fixed_processes_partial.

(** ** C37 *)
Theorem C37_heights_processes_partial : forall ar, orderly ar -> forall env containers items settings width l (s : machine ar),
  mhistory env containers items settings width l s -> mwithout_ior l -> m_strip s = true ->
  exists h, m_height s = Some h /\ 1 <= h /\ forall m, m_min s = Some m -> 1 <= m <= h.
Proof.
  intros ar [laws vals] env containers items settings width l s H Hl. destruct (mhistory_good laws vals _ _ _ _ _ _ _ H Hl) as [I _].
  apply (iv_heights s I).
Qed.
Print Assumptions C37_heights_processes_partial.

(** ** C41: also through [|=]. *)
Theorem C41_attributes_always_valid_processes : forall ar env containers items settings width l (s : machine ar),
  mhistory env containers items settings width l s -> valid_attributes s.
Proof. intros ar. exact mhistory_attributes. Qed.
Print Assumptions C41_attributes_always_valid_processes.

(** ** C38: searching with several processes keeps the count. *)
Inductive mcareful {ar} : machine ar -> list (mop ar) -> machine ar -> Prop :=
| mcareful_nil s : mcareful s [] s
| mcareful_cons s o s1 r l s' : muses_ior o = false ->
    match o with Plain o => up_to_date s o | Processes _ => True end ->
    mrun o s s1 r -> mcareful s1 l s' -> mcareful s (o :: l) s'.

Theorem C38_count_processes_partial : forall ar, orderly ar -> forall env containers items settings width (s0 : machine ar) l s,
  created env containers items settings width s0 -> mcareful s0 l s -> right_count s.
Proof.
  intros ar [laws vals] env containers items settings width s0 l s H0 H.
  pose proof (created_inv _ _ _ _ _ _ H0) as I. pose proof (created_counted _ _ _ _ _ _ H0) as C.
  pose proof (created_attributes _ _ _ _ _ _ H0) as A. clear H0.
  induction H as [s|s o s1 r l s' H1 H2 E _ IH]; [apply counted_view; assumption|].
  apply IH.
  - eapply star_inv; [exact I|]. eapply (mrun_star laws vals); eassumption.
  - destruct E as [o s sx r0 _ E|c s sx r0 _ E].
    + eapply (run_counted laws); [exact I|exact C|exact H1|exact H2|exact E].
    + eapply (star_counted (fun _ => False) True); [exact I|exact C| |eapply (multi_star laws vals); eassumption].
      split; [tauto|]. intros ? [].
  - eapply mrun_attributes; eassumption.
Qed.
Print Assumptions C38_count_processes_partial.
Example C38_processes_demo : mcareful (pair true) calling (call_result pool_call (pair true)) /\
  m_cnum (call_result pool_call (pair true)) = 2.
Proof.
  split; [|vm_compute; reflexivity]. eapply mcareful_cons; [reflexivity|exact Logic.I|exact pool_call_runs|constructor].
Qed.

(** ** C39 *)
Definition mtries_valid {ar} (o : mop ar) : Prop := match o with Plain o => tries_valid o | Processes _ => True end.

Theorem C39_history_processes_partial : forall ar, orderly ar -> forall env containers items settings width l (s : machine ar),
  mhistory env containers items settings width l s -> mwithout_ior l -> (forall o, In o l -> mtries_valid o) ->
  NoDup (m_strategy s).
Proof.
  intros ar [laws vals] env containers items settings width l s [s0 [H0 H]] Hl Ht.
  pose proof (created_inv _ _ _ _ _ _ H0) as I. pose proof (created_attributes _ _ _ _ _ _ H0) as A.
  assert (N : NoDup (m_strategy s0)).
  { apply (C39_history_partial ar laws env containers items settings width []);
      [exists s0; split; [exact H0|constructor]|intros ? []|intros ? []]. }
  clear H0. induction H as [s|s o s1 r l s' E _ IH]; [assumption|].
  assert (Ho : muses_ior o = false) by (apply Hl; left; reflexivity).
  apply IH.
  - intros x Hx. apply Hl. right. exact Hx.
  - intros x Hx. apply Ht. right. exact Hx.
  - eapply star_inv; [exact I|]. eapply (mrun_star laws vals); eassumption.
  - eapply mrun_attributes; eassumption.
  - pose proof (Ht o ltac:(left; reflexivity)) as To. destruct E as [o s sx r0 _ E|c s sx r0 _ E].
    + eapply (strategy_step laws); [exact I|exact Ho|exact To|exact E|exact N].
    + destruct (multi_kept _ _ _ _ _ _ I E) as [[_ [_ [-> _]]] _]. exact N.
Qed.
Print Assumptions C39_history_processes_partial.
Example C39_processes_demo : NoDup (m_strategy working_end) /\ m_strategy working_end = [cB; cA].
Proof.
  split; [|vm_compute; reflexivity].
  eapply (C39_history_processes_partial qarith qarith_orderly); [exact working_history|apply working_demo|].
  intros o [<-|[<-|[<-|[<-|[]]]]]; exact Logic.I.
Qed.

(** ** C61: the settings shown are the settings used *)

(** Right after creation, and after settings were accepted, ... *)
Theorem C61_created_in_force : forall ar env containers items settings width (s : machine ar),
  created env containers items settings width s -> in_force s.
Proof. intros ar env containers items settings width s H. apply (created_in_force _ _ _ _ _ _ H). Qed.
Print Assumptions C61_created_in_force.
Theorem C61_accepted_in_force : forall ar env v (s s' : machine ar) o,
  validates env v s o -> run o s = (s', Ok tt) -> in_force s'.
Proof. intros ar env v s s' o H E. apply (validated_in_force _ _ _ _ _ H E). Qed.
Print Assumptions C61_accepted_in_force.

(** ... the attributes the solver reads have the values [p.settings] shows, and they keep them as
    long as no settings are rejected and the dictionary is not changed in place. *)
Theorem C61_stays_in_force_partial : forall ar env containers items settings width (s0 s : machine ar) l,
  created env containers items settings width s0 -> agreed s0 l s -> in_force s.
Proof. intros ar env containers items settings width s0 s l H A. eapply agreed_in_force; [exact A|]. eapply (C61_created_in_force ar). exact H. Qed.
Print Assumptions C61_stays_in_force_partial.

(** Then [rotation: False] is respected by every kind of search, whatever the number of
    processes: every entry stored has its item's own width and length. *)
Theorem C61_rotation_respected : forall ar, orderly ar -> forall env containers items settings width l (s : machine ar),
  mhistory env containers items settings width l s -> mwithout_ior l -> in_force s ->
  forall o s', searches o -> mrun o s s' (Ok tt) ->
  rotation_of s' = rotation_of s /\
  exists its, items_of s' = Some its /\ turned_as_allowed (rotation_of s) its (m_sol s').
Proof.
  intros ar [laws vals] env containers items settings width l s H Hl Hf o s' Ho E.
  destruct (mhistory_good laws vals _ _ _ _ _ _ _ H Hl) as [I A].
  assert (R : rotation_of s' = rotation_of s).
  { unfold rotation_of. rewrite (mrun_cfg o s s' (Ok tt)); [reflexivity| |exact E]. destruct o as [[]|]; cbn in *; tauto. }
  split; [exact R|]. rewrite <- R. eapply (search_turned laws vals); eassumption.
Qed.
Print Assumptions C61_rotation_respected.

Example C61_demo : in_force (pair false) /\ rotation_of (pair false) = false /\
  mrun (Processes pool_call) (pair false) (call_result pool_call (pair false)) (Ok tt) /\
  m_sol (call_result pool_call (pair false)) <> [] /\ m_objs (call_result pool_call (pair false)) <> [].
Proof.
  split; [eapply C61_created_in_force; apply pair_created|]. split; [vm_compute; reflexivity|].
  split; [apply plain_call_runs; vm_compute; reflexivity|]. split; vm_compute; discriminate.
Qed.

(** Refutation: after [p.settings["rotation"] = True] on an instance made with
    [rotation: False], [solve()] does not turn the item but hypersearch with two processes does,
    although [p._rotation] is still [False]: the workers validate a copy of the dictionary. *)
Definition narrow : machine qarith :=
  fst (create qarith no_libraries (VDict [(VStr "C", py_dims KContainers 3 2)]) (VDict [(VStr "a", py_dims KItems 2 3)])
         (two_workers_settings false) VNone (blank qarith)).
Definition edited : machine qarith :=
  after narrow [OpEditSettings [(VStr "workers_num", VInt 2); (VStr "rotation", VBool true)]].
Theorem C61_refuted :
  mhistory no_libraries (VDict [(VStr "C", py_dims KContainers 3 2)]) (VDict [(VStr "a", py_dims KItems 2 3)])
    (two_workers_settings false) VNone [Plain (OpEditSettings [(VStr "workers_num", VInt 2); (VStr "rotation", VBool true)])] edited /\
  rotation_of edited = false /\
  m_sol (next (OpSolve None) edited) = [("C", [])] /\
  exists s', mrun (Processes (plain_call None strategy_pool)) edited s' (Ok tt) /\ rotation_of s' = false /\
    m_sol s' = [("C", [("a", mkEntry 0 0 3 2)])] /\ items_of s' = Some [("a", mkDims 2 3)].
Proof.
  split.
  - exists narrow. split; [apply created_fst; vm_compute; reflexivity|].
    apply (plain_leads [OpEditSettings [(VStr "workers_num", VInt 2); (VStr "rotation", VBool true)]] narrow).
    intros o [<-|[]]; reflexivity.
  - split; [vm_compute; reflexivity|]. split; [vm_compute; reflexivity|].
    exists (call_result (plain_call None strategy_pool) edited). split; [apply plain_call_runs; vm_compute; reflexivity|].
    refine (conj _ (conj _ _)); vm_compute; reflexivity.
Qed.
Print Assumptions C61_refuted.

Lemma view_assign {ar} (s1 : machine ar) x sol objs g : view s1 = Some x ->
  view (assign_result s1 sol objs g) = Some (set_solution x sol objs).
Proof.
  intros V. destruct (view_all s1 x V) as [B1 [B2 B3]].
  rewrite (view_make (assign_result s1 sol objs g) (pb_containers (in_pb x)) (pb_items (in_pb x)) B1 B2).
  destruct x as [[c1 i1 r1 g1 st1 h1] m1 n1 so1 ob1 hi1]. cbn in B3 |- *. injection B3 as -> -> -> -> -> -> _ _ ->. reflexivity.
Qed.

(** ** C27: a call on the instance is a run of the processes of MultiProcess.v

    With the settings in force, the workers get the instance's rotation and time limit, and the
    theorems C27-C30 and C50 hold of [u] and [t]. *)
Theorem C27_calls_are_runs : forall ar, orderly ar -> forall env containers items settings width l (s : machine ar),
  mhistory env containers items settings width l s -> mwithout_ior l -> in_force s ->
  forall c s', mrun (Processes c) s s' (Ok tt) ->
  exists x workers_num u t sol objs best_strategy,
    view s = Some x /\ valid_inst ar x /\ ca_strategies c <> [] /\
    worker_number (workers_of s) workers_num /\ runs x (ca_strategies c) workers_num u /\
    su_limit u = max_time_of s /\ su_clock u = ca_clocks c /\ su_forced u = ca_forced c /\
    reachable u anybody anybody t /\ s_parent t = PReturned sol objs best_strategy /\
    view s' = Some (problem_now u t) /\ m_best s' = best_strategy /\
    m_sol s' = sol /\ m_objs s' = objs.
Proof.
  intros ar [laws vals] env containers items settings width l s H Hl Hf c s' E. destruct (mhistory_good laws vals _ _ _ _ _ _ _ H Hl) as [I A].
  inversion E as [|? ? ? ? Hw M]; subst. inversion M as [| | |s1 u t sol objs g Ep Eu R Ht]; subst.
  destruct (inv_view s I) as [cs [is_ [_ [_ [_ [_ [_ [_ V]]]]]]]]. match type of V with _ = Some ?X => set (x := X) in * end.
  destruct (call_runs c s s1 u x I A Hf V Ep Eu) as [Hv [Hne [Hlim [V1 [q [Hq Hr]]]]]].
  exists x, q, u, t, sol, objs, g. split; [exact V|]. split; [exact Hv|]. split; [exact Hne|]. split; [exact Hq|]. split; [exact Hr|].
  split; [exact Hlim|].
  assert (Hu : su_clock u = ca_clocks c /\ su_forced u = ca_forced c).
  { pose proof (star_inv _ _ _ _ I (presort_inv c s s1 (Ok tt) (fun _ => False) False I Ep)) as I1.
    destruct (prepare_ok _ _ _ I1 Eu) as [x2 [y [st C]]]. rewrite (ca_rest _ _ _ _ _ _ C). auto. }
  destruct Hu as [Hu1 Hu2]. split; [exact Hu1|]. split; [exact Hu2|]. split; [exact R|]. split; [exact Ht|].
  split; [|split; [reflexivity|split; reflexivity]].
  unfold problem_now. rewrite Ht. apply view_assign. exact V1.
Qed.
Print Assumptions C27_calls_are_runs.

(** What is returned is what [solve] builds, in some order of the items and with the strategy
    named by [best_strategy] (the default one for [None]), from the items, widths and rotation of
    the instance. *)
Corollary C27_history_genuine : forall ar, orderly ar -> forall env containers items settings width l (s : machine ar),
  mhistory env containers items settings width l s -> mwithout_ior l -> in_force s ->
  forall c s', mrun (Processes c) s s' (Ok tt) ->
  exists its pb sq sol, items_of s' = Some its /\ pb_items pb = its /\ pb_rotation pb = rotation_of s /\
    pb_strip pb = m_strip s /\
    pb_strategy pb = match m_best s' with None => default_strategy | Some g => g end /\
    (m_strip s = false -> containers_of s' = Some (pb_containers pb)) /\
    Permutation sq (dkeys its) /\ solve ar pb (Some sq) = Ok (sol, m_objs s') /\ same_placements sol (m_sol s').
Proof.
  intros ar [laws vals] env containers items settings width l s H Hl Hf c s' E.
  destruct (C27_calls_are_runs ar (conj laws vals) _ _ _ _ _ _ _ H Hl Hf _ _ E)
    as [x [q [u [t [sol [objs [g [V [Hv [Hne [Hq [Hr [_ [_ [_ [R [Ht [V' [Hb [Hs Ho]]]]]]]]]]]]]]]]]]]].
  destruct (C27_genuine ar (conj laws vals) x Hv _ _ u Hne (proj2 Hq) Hr _ _ t sol objs g R Ht) as [h [sq [sol' [G1 [G2 [G3 G4]]]]]].
  destruct (C27_workers_problem ar (conj laws vals) x Hv _ _ u Hne (proj2 Hq) Hr) as [W1 [W2 [W3 [W4 [_ [W5 _]]]]]].
  destruct (runs_facts x Hv _ _ (proj2 Hq) u Hr) as [[o1 [sb Hprep]] _].
  destruct (view_all s' _ V') as [B1 [B2 _]]. unfold problem_now in B1, B2. rewrite Ht in B1, B2. cbn [in_pb set_solution] in B1, B2.
  destruct (view_all s x V) as [_ [_ V3]].
  exists (pb_items (in_pb (su_parent u))), (pb_with_height (pb_with_strategy (in_pb (su_child u)) (match g with None => default_strategy | Some g => g end)) h), sq, sol'.
  split; [exact B2|]. split; [exact W1|]. split; [cbn [pb_rotation pb_with_height pb_with_strategy]; rewrite W2, V3; reflexivity|].
  split; [cbn [pb_strip pb_with_height pb_with_strategy]; rewrite W4, V3; reflexivity|].
  split; [rewrite Hb; reflexivity|]. split.
  { intros Es. cbn [pb_containers pb_with_height pb_with_strategy]. rewrite W5 by (rewrite V3; exact Es). transitivity (Some (pb_containers (in_pb (su_parent u)))); [exact B1|].
    destruct (prepared_kept _ _ _ _ _ Hprep) as [-> _]. reflexivity. }
  split; [rewrite G1; symmetry; eapply prepared_ids; exact Hprep|].
  rewrite Hs, Ho. split; [exact G3|exact G4].
Qed.
Print Assumptions C27_history_genuine.

(** ** C50 *)
Theorem C50_processes_configuration : forall ar, orderly ar -> forall env containers items settings width l (s : machine ar),
  mhistory env containers items settings width l s -> mwithout_ior l ->
  forall c s' r, mrun (Processes c) s s' r ->
  same_configuration s s' /\
  exists its its', items_of s = Some its /\ items_of s' = Some its' /\ rearranged its its'.
Proof.
  intros ar [laws vals] env containers items settings width l s H Hl c s' r E. destruct (mhistory_good laws vals _ _ _ _ _ _ _ H Hl) as [I A].
  inversion E as [|? ? ? ? Hw M]; subst. eapply multi_kept; eassumption.
Qed.
Print Assumptions C50_processes_configuration.
Example C50_processes_demo : items_of (pair true) = Some [("a", mkDims 2 3); ("b", mkDims 4 1); ("c", mkDims 3 3)] /\
  items_of (call_result pool_call (pair true)) = Some [("c", mkDims 3 3); ("a", mkDims 2 3); ("b", mkDims 4 1)].
Proof. split; vm_compute; reflexivity. Qed.

(** ** C26, C28: the errors a call can end in *)
Theorem C28_call_errors : forall ar, orderly ar -> forall env containers items settings width l (s : machine ar),
  mhistory env containers items settings width l s -> mwithout_ior l -> in_force s ->
  forall c s' e, figure_possible (ca_env c) s -> mrun (Processes c) s s' (Err e) ->
  ((e = NotImplementedError /\ s' = s /\
      exists by_ reverse, ca_sorting c = Some (by_, reverse) /\ by_ <> "area" /\ by_ <> "perimeter" /\ by_ <> "longest_side_ratio") \/
   (e = ValueError /\ (workers_of s = VFloat (FInf false) \/
      exists q, worker_number (workers_of s) q /\ (inject_Z (zlen (ca_strategies c) * 2 ^ 1075) <= q)%Q)) \/
   (e = OverflowError /\ exists q, worker_number (workers_of s) q /\
      (q * inject_Z (2 ^ 1024 - 2 ^ 970) <= inject_Z (zlen (ca_strategies c)))%Q) \/
   (e = MultiProcessError /\ exists q, worker_number (workers_of s) q)) /\
  (items_of s' = items_of s /\ m_sol s' = m_sol s /\ m_objs s' = m_objs s \/ no_solution s').
Proof.
  intros ar [laws vals] env containers items settings width l s H Hl Hf c s' e Hfig E. destruct (mhistory_good laws vals _ _ _ _ _ _ _ H Hl) as [I A].
  inversion E as [|? ? ? ? Hw M]; subst.
  assert (K : forall s1, presort c s = (s1, Ok tt) -> items_of s1 = items_of s /\ m_sol s1 = m_sol s /\ m_objs s1 = m_objs s \/ no_solution s1).
  { intros s1 Ep. pose proof (presort_inv c s s1 (Ok tt) (fun _ => False) False I Ep) as S.
    destruct (star_views _ _ _ _ I S (fun x => x)) as [[[V1 _] [V3 V4]]|X]; [left|right; exact X]. split; [exact V1|auto]. }
  assert (P : forall s1, presort c s = (s1, Ok tt) -> inv s1 /\ valid_attributes s1 /\ in_force s1 /\ figure_possible (ca_env c) s1 /\ workers_of s1 = workers_of s).
  { intros s1 Ep. pose proof (presort_cfg _ _ _ _ Ep) as Ec. split.
    - eapply star_inv; [exact I|]. exact (presort_inv c s s1 (Ok tt) (fun _ => False) False I Ep).
    - split; [unfold valid_attributes, max_time_of, workers_of in *; rewrite Ec; exact A|].
      destruct (same_cfg_in_force (ca_env c) s s1 Ec) as [F1 F2]. split; [exact (F1 Hf)|]. split; [exact (F2 Hfig)|]. unfold workers_of. rewrite Ec. reflexivity. }
  inversion M as [s1 e0 Ep|s1 e0 Ep Eu|s1 u t e0 Ep Eu R Ht|]; subst.
  - destruct (presort_error _ _ _ _ I Ep) as [-> [-> [by_ [rev [E1 E2]]]]]. split; [|left; auto]. left.
    split; [reflexivity|]. split; [reflexivity|]. exists by_, rev. split; [exact E1|].
    unfold key_lt in E2. destruct (String.eqb by_ "area") eqn:Q1; [discriminate|].
    destruct (String.eqb by_ "perimeter") eqn:Q2; [discriminate|]. destruct (String.eqb by_ "longest_side_ratio") eqn:Q3; [discriminate|].
    apply String.eqb_neq in Q1, Q2, Q3. auto.
  - split; [|exact (K _ Ep)]. right. destruct (P _ Ep) as [I1 [A1 [Hf1 [Hfig1 Hw1]]]].
    destruct (inv_view s' I1) as [cs [is_ [_ [_ [_ [_ [_ [_ V]]]]]]]].
    destruct (workers_made c s' _ I1 V Hf1 Hfig1) as [y [yi [Y1 Y2]]].
    unfold prepare in Eu. rewrite V, Y1 in Eu. unfold workers_of in *.
    destruct (partition_cases (ca_strategies c) (c_workers (m_cfg s')) (proj2 A1)) as [[q [Hq Eq]]|[D Eq]]; rewrite Eq in Eu; cbn [bind] in Eu.
    + destruct (C26_outcome _ (ca_strategies c) q (proj2 Hq)) as [O1 [O2 O3]].
      destruct (Qlt_le_dec q (inject_Z (zlen (ca_strategies c) * 2 ^ 1075))) as [B1|B1].
      * destruct (Qlt_le_dec (inject_Z (zlen (ca_strategies c))) (q * inject_Z (2 ^ 1024 - 2 ^ 970))) as [B2|B2].
        -- destruct (O3 B1 B2) as [chunks Eh]. rewrite Eh in Eu. cbn [bind] in Eu. rewrite Y2 in Eu. discriminate.
        -- rewrite (O2 B2) in Eu. injection Eu as <-. right. left. split; [reflexivity|]. exists q. rewrite <- Hw1. auto.
      * rewrite (O1 B1) in Eu. injection Eu as <-. left. split; [reflexivity|]. right. exists q. rewrite <- Hw1. auto.
    + injection Eu as <-. left. split; [reflexivity|]. rewrite <- Hw1. tauto.
  - split; [|exact (K _ Ep)]. right. right. right. destruct (P _ Ep) as [I1 [A1 [Hf1 [Hfig1 Hw1]]]].
    destruct (prepare_ok _ _ _ I1 Eu) as [x [y [st C]]]. destruct (called_workers _ _ _ _ _ _ C A1) as [_ [q [Hq [_ Hwk]]]].
    split; [|exists q; rewrite <- Hw1; exact Hq].
    eapply (raised_error (conj laws vals) u); [| |exact Hwk|exact R|exact Ht].
    + rewrite (ca_parent _ _ _ _ _ _ C). eapply inv_valid; [exact I1|]. exact (ca_view _ _ _ _ _ _ C).
    + rewrite (ca_parent _ _ _ _ _ _ C). exact (ca_child _ _ _ _ _ _ C).
Qed.
Print Assumptions C28_call_errors.

Lemma presort_ok {ar} c (s : machine ar) : snd (presort c s) = Ok tt -> presort c s = (fst (presort c s), Ok tt).
Proof. intros <-. apply surjective_pairing. Qed.

Lemma infinite_fails {ar} c (s s' : machine ar) : workers_of s = VFloat (FInf false) -> ~ mrun (Processes c) s s' (Ok tt).
Proof.
  intros H E. inversion E as [|? ? ? ? _ M]; subst. inversion M as [| | |s1 u t sol objs g Ep Eu R Ht]; subst.
  assert (Hw : c_workers (m_cfg s1) = VFloat (FInf false)) by (rewrite (presort_cfg _ _ _ _ Ep); exact H).
  unfold prepare in Eu. destruct (view s1); [|discriminate]. rewrite Hw in Eu. discriminate.
Qed.

(** With [workers_num: inf], which is accepted (C40), every call fails, and sorting has already
    discarded the solution. *)
Theorem C26_infinite_refuted :
  let settings := VDict [(VStr "workers_num", VFloat (FInf false))] in
  let s := after bins [OpSetSettings no_libraries settings; OpSolve None] in
  outcome (OpSetSettings no_libraries settings) bins = Ok tt /\ m_sol s <> [] /\
  (exists s', mrun (Processes pool_call) s s' (Err ValueError) /\ no_solution s') /\
  forall c s', ~ mrun (Processes c) s s' (Ok tt).
Proof.
  cbv zeta. set (st := VDict _). set (s := after bins _).
  split; [vm_compute; reflexivity|]. split; [vm_compute; discriminate|]. split.
  - exists (fst (presort pool_call s)). split.
    + constructor; [vm_compute; reflexivity|]. apply multi_prepare; [apply presort_ok; vm_compute; reflexivity|vm_compute; reflexivity].
    + split; vm_compute; reflexivity.
  - intros c s'. apply infinite_fails. vm_compute. reflexivity.
Qed.
Print Assumptions C26_infinite_refuted.

(** The same for an integer too large for the division of doubles, and for a float that is too
    small: both are accepted, and the call raises after the solution was discarded. *)
Theorem C26_extreme_refuted :
  let case v e :=
    let settings := VDict [(VStr "workers_num", v)] in
    let s := after bins [OpSetSettings no_libraries settings; OpSolve None] in
    outcome (OpSetSettings no_libraries settings) bins = Ok tt /\ m_sol s <> [] /\
    exists s', mrun (Processes pool_call) s s' (Err e) /\ no_solution s' in
  case (VInt (2 ^ 1100)) ValueError /\ case (VFloat (FNum (1 # (2 ^ 1074)))) OverflowError.
Proof.
  cbv zeta. split.
  - set (s := after bins _).
    split; [vm_compute; reflexivity|]. split; [vm_compute; discriminate|].
    exists (fst (presort pool_call s)). split.
    + constructor; [vm_compute; reflexivity|]. apply multi_prepare; [apply presort_ok; vm_compute; reflexivity|vm_compute; reflexivity].
    + split; vm_compute; reflexivity.
  - set (s := after bins _).
    split; [vm_compute; reflexivity|]. split; [vm_compute; discriminate|].
    exists (fst (presort pool_call s)). split.
    + constructor; [vm_compute; reflexivity|]. apply multi_prepare; [apply presort_ok; vm_compute; reflexivity|vm_compute; reflexivity].
    + split; vm_compute; reflexivity.
Qed.
Print Assumptions C26_extreme_refuted.

(** Settings that were rejected stay in the attribute and are validated again for the workers:
    an instance with a solution, whose settings were rejected, can no longer search with several
    processes, and loses the solution. *)
Definition bad_figure : pyval := VDict [(VStr "workers_num", VInt 2); (VStr "figure", VInt 5)].
Theorem C28_rejected_settings_refuted :
  let s := after bins [OpSetSettings no_libraries bad_figure; OpSolve None] in
  outcome (OpSetSettings no_libraries bad_figure) bins = Err (SettingsError S_FIGURE_KEY_TYPE) /\
  workers_of s = VInt 2 /\ m_sol s <> [] /\
  exists s', mrun (Processes pool_call) s s' (Err (SettingsError S_FIGURE_KEY_TYPE)) /\ no_solution s'.
Proof.
  cbv zeta. set (s := after bins _).
  split; [vm_compute; reflexivity|]. split; [vm_compute; reflexivity|]. split; [vm_compute; discriminate|].
  exists (fst (presort pool_call s)). split.
  - constructor; [vm_compute; reflexivity|]. apply multi_prepare; [apply presort_ok; vm_compute; reflexivity|vm_compute; reflexivity].
  - split; vm_compute; reflexivity.
Qed.
Print Assumptions C28_rejected_settings_refuted.

(** ** C63 *)
Theorem C63_calls_processes : forall ar, orderly ar -> forall env containers items settings width ops (s : machine ar),
  mhistory env containers items settings width ops s -> mwithout_ior ops ->
  forall h o l p c s' r, nth_error (m_structs s) h = Some o -> view_struct s h = Some l ->
  is_call s h p c -> run p s = (s', r) ->
  (exists l', view_struct s' h = Some l' /\ becomes (so_kind o) (locked s (so_kind o)) l c l' r) /\
  (forall h' l2, h' <> h -> view_struct s h' = Some l2 -> view_struct s' h' = Some l2).
Proof.
  intros ar [laws vals] env containers items settings width ops s H Hi h o l p c s' r Ho Hl Hc Hr.
  destruct (mhistory_good laws vals _ _ _ _ _ _ _ H Hi) as [I _].
  destruct (call_does s s' h o p c r I Ho Hc Hr) as [_ [_ [_ [D4 D5]]]]. split; [apply D5; exact Hl|exact D4].
Qed.
Print Assumptions C63_calls_processes.
Example C63_processes_demo :
  mhistory no_libraries two_containers three_items (two_workers_settings true) VNone working working_end /\
  view_struct working_end (m_items working_end) = Some [("c", mkDims 3 3); ("a", mkDims 2 3); ("b", mkDims 4 1)] /\
  is_call working_end (m_items working_end) (OpStructPopitem (m_items working_end)) CPopitem.
Proof. split; [exact working_history|]. split; [vm_compute; reflexivity|constructor]. Qed.
