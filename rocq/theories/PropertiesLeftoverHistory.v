(** * C83, continued: at every moment of every history the solution shown is what solving the stored
    items alone gives. *)
From Coq Require Import ZArith String List Bool QArith Lia Permutation.
From Verif Require Import Py ProofsPy Arith Construct Spec ProofsSolve LocalSearch SpecSearch PropertiesSolve PropertiesSearch
  MultiProcess Values ProofsVal Settings Instance SpecInstance ProofsMachine ProofsOps ProofsRun ProofsSolver ProofsHistory PropertiesStructures PropertiesHistory PropertiesSettings PropertiesCount MultiHistory
  SpecMultiHistory ProofsMultiHistory PropertiesMultiHistory PropertiesProvenance PropertiesMore PropertiesOversize ProofsLeftover PropertiesLeftover.
Import ListNotations.
Open Scope string_scope.
Open Scope list_scope.
Open Scope Z_scope.

(** Exactly the stored items, with the dimensions they have now. *)
Definition only_stored (is_ : odict dims) (sol : solution) (only : odict dims) : Prop :=
  NoDup (dkeys only) /\ (forall i, In i (dkeys only) <-> In i (stored_ids sol)) /\
  (forall i d, In (i, d) only -> dget is_ i = Some d).

Lemma construction_only {ar} cs is_ strip sol (objs : objvals ar) :
  cs <> [] -> is_ <> [] -> valid_items cs -> valid_items is_ ->
  (strip = true -> length cs = 1%nat /\ stored_ids sol <> []) ->
  a_construction cs is_ strip sol objs ->
  exists only, only_stored is_ sol only /\ a_construction cs only strip sol objs.
Proof.
  intros H1 H2 H3 H4 Hst [rot [g [h [sq [built [Hh [Hs Sp]]]]]]].
  set (pb := mkProblem cs is_ rot g strip h) in *.
  assert (Hv : valid_problem pb).
  { split; [exact H4|]. split; [exact H3|]. split; [exact H2|]. split; [exact H1|]. cbn. intros E. specialize (Hh E). lia. }
  assert (Hk : known_sequence pb sq) by (eapply known_of; exact Hs).
  destruct (solve_spec ar pb sq Hv Hk) as [items [rest [sol' [objs' [E1 [[Hvi [Hkeys Hin]] [_ [E2 E3]]]]]]]].
  assert (X : sol' = built /\ objs' = objs) by (rewrite Hs in E3; injection E3 as -> ->; split; reflexivity). destruct X as [-> ->].
  destruct (C04_ids_stored_once ar pb sq rest built objs Hv Hk E2) as [Kc [_ [N P]]].
  assert (Nc : NoDup (dkeys built)) by (rewrite Kc; apply H3).
  unfold solve_full in E2. rewrite E1 in E2. cbn [bind] in E2.
  set (keep := fun i => if in_dec string_dec i (stored_ids built) then true else false).
  assert (Hkeep : forall i, keep i = true <-> In i (stored_ids built)).
  { intros i. unfold keep. destruct (in_dec string_dec i (stored_ids built)); split; congruence || tauto. }
  assert (Hb : forall i, In i (stored_ids built) -> In i (dkeys items)).
  { intros i Hi. apply Hkeys. apply P. left. exact Hi. }
  destruct (leave_out ar pb items rest built objs keep Hv Hvi E2) as [rest' E].
  - intros i Hi Ki. apply Hkeys in Hi. apply P in Hi. destruct Hi as [Hi|Hi]; [|exact Hi].
    apply Hkeep in Hi. rewrite Hi in Ki. discriminate.
  - apply NoDup_app_iff in N. apply N.
  - intros Es. destruct (Hst Es) as [C1 C2]. split; [exact C1|]. destruct (stored_ids sol) as [|k ks] eqn:F; [congruence|].
    assert (K : In k (stored_ids built)) by (apply (same_stored built sol k Nc Sp); rewrite F; left; reflexivity).
    exists k. split; [apply Hb; exact K|apply Hkeep; exact K].
  - exists (kept keep items). split; [split; [|split]|].
    + rewrite dels_kept by apply Hvi. generalize (filter (fun i => negb (keep i)) (dkeys items)). intros l. pose proof (proj1 Hvi) as Nd. clear - Nd.
      revert items Nd. induction l as [|i l IH]; intros items Nd; [exact Nd|]. cbn. apply (IH (ddel items i)). apply NoDup_ddel. exact Nd.
    + intros i. rewrite in_kept, Hkeep, <- (same_stored built sol i Nc Sp). split; [tauto|]. intros Hi. split; [apply Hb|]; exact Hi.
    + intros i d Hi. apply filter_In in Hi. exact (Hin i d (proj1 Hi)).
    + exists rot, g, h, None, built. split; [exact Hh|]. split; [|exact Sp].
      unfold solve, solve_full. cbn [items_for pb_items pb_containers bind].
      change (solve_step ar (mkProblem cs (kept keep items) rot g strip h)) with (solve_step ar pb).
      refine (bind_val _ _ _ E).
Qed.

Theorem C83_history : forall ar, orderly ar -> forall env containers items settings width l (s : machine ar),
  mhistory env containers items settings width l s -> mwithout_ior l ->
  m_sol s <> [] -> (m_strip s = true -> stored_ids (m_sol s) <> []) ->
  exists cs is_ only, containers_of s = Some cs /\ items_of s = Some is_ /\
    only_stored is_ (m_sol s) only /\ a_construction cs only (m_strip s) (m_sol s) (m_objs s).
Proof.
  intros ar [laws vals] env containers items settings width l s H Hl Hne Hst.
  destruct (mhistory_good laws vals _ _ _ _ _ _ _ H Hl) as [I _].
  destruct (iv_made s I) as [[N _]|[cs [is_ [C1 [C2 C3]]]]]; [contradiction|].
  destruct (inv_view s I) as [cs' [is' [V1 [V2 [V3 [V4 [V5 [V6 V7]]]]]]]].
  rewrite C1 in V1. injection V1 as <-. rewrite C2 in V2. injection V2 as <-.
  destruct (construction_only cs is_ (m_strip s) (m_sol s) (m_objs s) V3 V4 V5 V6) as [only [O1 O2]]; [|exact C3|eauto 10].
  intros Es. split; [|exact (Hst Es)]. pose proof (inv_valid s _ I V7) as [_ Hvs]. destruct (Hvs Es) as [Hone _].
  apply (f_equal (@length string)) in Hone. cbn in Hone. unfold dkeys in Hone. rewrite map_length in Hone. exact Hone.
Qed.
Print Assumptions C83_history.

(** Witness: three of five items are stored; the solution comes from them alone. *)
Definition crowded_items : pyval := named_items [("a", (2, 2)); ("plank", (5, 1)); ("b", (4, 2)); ("e", (3, 3)); ("c", (1, 3))].
Definition crowded_new : machine qarith :=
  fst (create qarith no_libraries (one_container 4 4) crowded_items VNone VNone (blank qarith)).
Definition crowded_end : machine qarith := after crowded_new [OpSolve None].

Example C83_history_witness :
  mhistory no_libraries (one_container 4 4) crowded_items VNone VNone [Plain (OpSolve None)] crowded_end /\
  mwithout_ior [Plain (OpSolve None) : mop qarith] /\ m_strip crowded_end = false /\
  stored_ids (m_sol crowded_end) = ["a"; "b"] /\
  option_map dkeys (items_of crowded_end) = Some ["a"; "plank"; "b"; "e"; "c"].
Proof.
  split; [|split; [|split; [|split]]].
  - exists crowded_new. split; [vm_compute; reflexivity|]. apply (plain_leads [OpSolve None]). intros o [<-|[]]. reflexivity.
  - intros o [<-|[]]. reflexivity.
  - vm_compute. reflexivity.
  - vm_compute. reflexivity.
  - vm_compute. reflexivity.
Qed.
