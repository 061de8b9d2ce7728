(** * C13: solve() on an instance, in any state reached by any history. *)
From Coq Require Import ZArith String List Bool Lia Permutation.
From Verif Require Import Py ProofsPy Arith Construct Spec ProofsSolve ProofsValues LocalSearch SpecSearch Values ProofsVal
  Settings Instance SpecInstance ProofsMachine ProofsOps ProofsRun ProofsSolver ProofsAccept ProofsHistory ProofsRefine
  PropertiesStructures PropertiesHistory.
Import ListNotations.
Open Scope string_scope.
Open Scope list_scope.
Open Scope Z_scope.
Open Scope sm_scope.

(** ** Vocabulary *)

(** The ids a sequence names all exist. *)
Definition known {ar} (s : machine ar) (sequence : option (list string)) : Prop :=
  forall ids items i, sequence = Some ids -> items_of s = Some items -> In i ids -> In i (dkeys items).

(** Every attribute but [solution] and [obj_val_per_container], and every object. *)
Definition same_but_solution {ar} (s s' : machine ar) : Prop :=
  m_dims s' = m_dims s /\ m_structs s' = m_structs s /\ m_items s' = m_items s /\
  m_containers s' = m_containers s /\ m_strip s' = m_strip s /\ m_height s' = m_height s /\
  m_min s' = m_min s /\ m_cnum s' = m_cnum s /\ m_hist s' = m_hist s /\
  m_strategy s' = m_strategy s /\ m_best s' = m_best s /\ m_cfg s' = m_cfg s.

(** Two instances agree on what [solve(sequence)] may depend on: the containers, the items named
    by the sequence (all, in order, without a sequence), rotation, strategy, and the height of a
    strip. *)
Definition same_input {ar} (sequence : option (list string)) (s1 s2 : machine ar) : Prop :=
  containers_of s1 = containers_of s2 /\
  (exists i1 i2, items_of s1 = Some i1 /\ items_of s2 = Some i2 /\
     match sequence with
     | None => i1 = i2
     | Some ids => forall i, In i ids -> dget i1 i = dget i2 i
     end) /\
  c_rotation (m_cfg s1) = c_rotation (m_cfg s2) /\
  m_strategy s1 = m_strategy s2 /\ m_strip s1 = m_strip s2 /\
  (m_strip s1 = true -> m_height s1 = m_height s2).

(** ** Lemmas *)
Section C13.
Context {ar : arith}.
Notation machine := (machine ar).

Lemma solve_outcome (s : machine) x sq : inv s -> view s = Some x ->
  run (OpSolve sq) s = match solve ar (in_pb x) sq with
                       | Ok (sol, objs) => (set_sol s sol objs, Ok tt)
                       | Err e => (s, Err e)
                       end.
Proof.
  intros I V. pose proof (solve_refines s x sq V) as H. unfold inst_solve in H.
  destruct (solve ar (in_pb x) sq) as [[sol objs]|e]; cbn [bind] in H; [|exact H].
  destruct H as [H _]. rewrite H. f_equal. unfold put_back_state.
  destruct (view_all s x V) as [_ [_ ->]]. cbn.
  destruct s as [ds ss it ct st he mi cn so ob hi g be cf]. unfold set_sol, set_history, set_pp_strategy, set_heights. cbn in *.
  destruct st; [|reflexivity]. destruct (iv_heights _ I eq_refl) as [h [E _]]. cbn in E. subst he. reflexivity.
Qed.

Lemma solve_unknown pb ids : ~ (forall i, In i ids -> In i (dkeys (pb_items pb))) ->
  solve ar pb (Some ids) = Err KeyError.
Proof.
  intros H. unfold solve, solve_full, items_for, deepcopy_seq.
  assert (G : forall acc, rfold (fun d i => bind (dget_r (pb_items pb) i) (fun it => Ok (dset d i it))) ids acc = Err KeyError).
  { induction ids as [|i ids IH]; [exfalso; apply H; intros ? []|]. intros acc. cbn. unfold dget_r at 1.
    destruct (dget (pb_items pb) i) as [d|] eqn:E; cbn [bind]; [|reflexivity].
    apply IH. intros H'. apply H. intros j [<-|Hj]; [apply dget_Some_In; eauto|auto]. }
  rewrite G. reflexivity.
Qed.

Lemma deepcopy_seq_ext i1 i2 ids : (forall i, In i ids -> dget i1 i = dget i2 i) ->
  deepcopy_seq i1 ids = deepcopy_seq i2 ids.
Proof.
  unfold deepcopy_seq. generalize (@nil (string * dims)). induction ids as [|i ids IH]; intros acc H; [reflexivity|].
  cbn. unfold dget_r at 1 3. rewrite (H i) by (left; reflexivity). destruct (dget i2 i); cbn [bind]; [|reflexivity].
  apply IH. intros j Hj. apply H. right. assumption.
Qed.

Lemma solve_step_ext pb1 pb2 : pb_rotation pb1 = pb_rotation pb2 -> pb_strategy pb1 = pb_strategy pb2 ->
  pb_strip pb1 = pb_strip pb2 -> (pb_strip pb1 = true -> pb_height pb1 = pb_height pb2) ->
  forall acc kc, solve_step ar pb1 acc kc = solve_step ar pb2 acc kc.
Proof.
  intros H1 H2 H3 H4 [[its sol] objs] [cid c]. unfold solve_step. destruct its; [reflexivity|].
  assert (E : container_length pb1 c = container_length pb2 c).
  { unfold container_length. rewrite <- H3. destruct (pb_strip pb1); [auto|reflexivity]. }
  rewrite E, H1, H2, H3. reflexivity.
Qed.
Lemma rfold_ext {A B} (f g : A -> B -> result A) l : (forall a b, f a b = g a b) -> forall a, rfold f l a = rfold g l a.
Proof.
  intros H. induction l as [|b l IH]; intros a; [reflexivity|]. cbn. rewrite H. destruct (g a b); [apply IH|reflexivity].
Qed.
End C13.

(** ** C13 *)

(** In every reachable state [solve(sequence)] returns if every id of the sequence is known, and
    raises KeyError otherwise (no sequence: it returns). *)
Theorem C13_outcome : forall ar, arith_laws ar ->
  forall env containers items settings width l (s s' : machine ar) sequence r,
  history env containers items settings width l s -> without_ior l ->
  run (OpSolve sequence) s = (s', r) ->
  (known s sequence /\ r = Ok tt) \/ (~ known s sequence /\ r = Err KeyError).
Proof.
  intros ar laws env cs0 is0 st w l s s' sq r H Hl E.
  pose proof (history_inv laws _ _ _ _ _ _ _ H Hl) as I.
  destruct (inv_view s I) as [cs [is_ [V1 [V2 [V3 [V4 [V5 [V6 V7]]]]]]]].
  rewrite (solve_outcome s _ sq I V7) in E. pose proof (inv_valid s _ I V7) as [Hv _].
  set (x := mkInst _ _ _ _ _ _) in *.
  assert (D : known_sequence (in_pb x) sq \/ ~ known_sequence (in_pb x) sq).
  { destruct sq as [ids|]; [|left; exact Logic.I]. cbn.
    destruct (forallb (fun i => existsb (String.eqb i) (dkeys is_)) ids) eqn:F.
    - left. rewrite forallb_forall in F. intros i Hi. specialize (F i Hi). apply existsb_exists in F.
      destruct F as [j [Hj Ej]]. apply String.eqb_eq in Ej. subst j. assumption.
    - right. intros K. assert (forallb (fun i => existsb (String.eqb i) (dkeys is_)) ids = true); [|congruence].
      apply forallb_forall. intros i Hi. apply existsb_exists. exists i. split; [apply K, Hi|apply String.eqb_refl]. }
  assert (K : known s sq <-> known_sequence (in_pb x) sq).
  { unfold known. destruct sq as [ids|]; cbn; split; auto.
    - intros G i Hi. eapply G; eauto.
    - intros G ids' its i [= <-] Hits Hi. assert (its = is_) by congruence. subst its. auto.
    - intros _ ids' its i [=]. }
  destruct D as [D|D].
  - left. split; [apply K, D|]. destruct (solve_spec ar _ sq Hv D) as [? [? [sol [objs [_ [_ [_ [_ Hs]]]]]]]].
    rewrite Hs in E. injection E as _ <-. reflexivity.
  - right. split; [rewrite K; exact D|]. destruct sq as [ids|]; [|exfalso; apply D; exact Logic.I].
    rewrite (solve_unknown (in_pb x) ids D) in E. injection E as _ <-. reflexivity.
Qed.
Print Assumptions C13_outcome.

(** Whatever its outcome, [solve] changes nothing but the solution attributes, and these only if
    it returns. *)
Theorem C13_changes_only_the_solution : forall ar, arith_laws ar ->
  forall env containers items settings width l (s s' : machine ar) sequence r,
  history env containers items settings width l s -> without_ior l ->
  run (OpSolve sequence) s = (s', r) ->
  same_but_solution s s' /\ (r <> Ok tt -> s' = s).
Proof.
  intros ar laws env cs0 is0 st w l s s' sq r H Hl E.
  pose proof (history_inv laws _ _ _ _ _ _ _ H Hl) as I.
  destruct (inv_view s I) as [cs [is_ [_ [_ [_ [_ [_ [_ V7]]]]]]]].
  rewrite (solve_outcome s _ sq I V7) in E.
  match type of E with match ?x with _ => _ end = _ => destruct x as [[sol objs]|e] end; injection E as <- <-.
  - split; [|congruence]. repeat (split; [reflexivity|]). reflexivity.
  - split; [|reflexivity]. repeat (split; [reflexivity|]). reflexivity.
Qed.
Print Assumptions C13_changes_only_the_solution.

(** [solve] gives the same on any two instances, each with its own history (and previous
    solution, settings, minimum height, further items, ...), that agree on what it depends on. *)
Theorem C13_depends_only_on_input : forall ar, arith_laws ar ->
  forall env1 containers1 items1 settings1 width1 l1 env2 containers2 items2 settings2 width2 l2
         (s1 s2 s1' s2' : machine ar) sequence r1 r2,
  history env1 containers1 items1 settings1 width1 l1 s1 -> without_ior l1 ->
  history env2 containers2 items2 settings2 width2 l2 s2 -> without_ior l2 ->
  same_input sequence s1 s2 ->
  run (OpSolve sequence) s1 = (s1', r1) -> run (OpSolve sequence) s2 = (s2', r2) ->
  r1 = r2 /\ (r1 = Ok tt -> m_sol s1' = m_sol s2' /\ m_objs s1' = m_objs s2').
Proof.
  intros ar laws ? ? ? ? ? l1 ? ? ? ? ? l2 s1 s2 s1' s2' sq r1 r2 H1 Hl1 H2 Hl2 [A1 [[i1 [i2 [A2 [A2' A2'']]]] [A3 [A4 [A5 A6]]]]] E1 E2.
  pose proof (history_inv laws _ _ _ _ _ _ _ H1 Hl1) as I1. pose proof (history_inv laws _ _ _ _ _ _ _ H2 Hl2) as I2.
  destruct (inv_view s1 I1) as [cs [is1 [V1 [V2 [_ [_ [_ [_ V7]]]]]]]].
  destruct (inv_view s2 I2) as [cs' [is2 [V1' [V2' [_ [_ [_ [_ V7']]]]]]]].
  assert (cs' = cs) by congruence. assert (is1 = i1) by congruence. assert (is2 = i2) by congruence. subst cs' is1 is2.
  rewrite (solve_outcome s1 _ sq I1 V7) in E1. rewrite (solve_outcome s2 _ sq I2 V7') in E2. cbn [in_pb] in E1, E2.
  match type of E1 with match solve ar ?p1 sq with _ => _ end = _ => set (pb1 := p1) in * end.
  match type of E2 with match solve ar ?p2 sq with _ => _ end = _ => set (pb2 := p2) in * end.
  assert (E : solve ar pb1 sq = solve ar pb2 sq).
  { unfold solve, solve_full. replace (items_for pb2 sq) with (items_for pb1 sq).
    2: { unfold items_for. destruct sq as [ids|]; cbn; [apply deepcopy_seq_ext; assumption|congruence]. }
    destruct (items_for pb1 sq) as [its|]; cbn [bind]; [|reflexivity].
    change (pb_containers pb2) with (pb_containers pb1). f_equal.
    apply rfold_ext. apply solve_step_ext; cbn; auto. intros Hs. rewrite (A6 Hs). reflexivity. }
  rewrite E in E1. destruct (solve ar pb2 sq) as [[sol objs]|e]; injection E1 as <- <-; injection E2 as <- <-.
  - split; [reflexivity|]. intros _. split; reflexivity.
  - split; [reflexivity|]. discriminate.
Qed.
Print Assumptions C13_depends_only_on_input.

(** In particular solving again, after anything that keeps the input, gives the same. *)
Theorem C13_solving_again : forall ar, arith_laws ar ->
  forall env containers items settings width l (s s1 s2 : machine ar) sequence,
  history env containers items settings width l s -> without_ior l ->
  run (OpSolve sequence) s = (s1, Ok tt) -> run (OpSolve sequence) s1 = (s2, Ok tt) -> s2 = s1.
Proof.
  intros ar laws env cs0 is0 st w l s s1 s2 sq H Hl E1 E2.
  pose proof (history_inv laws _ _ _ _ _ _ _ H Hl) as I.
  destruct (inv_view s I) as [cs [is_ [V1 [V2 [_ [_ [_ [_ V7]]]]]]]].
  rewrite (solve_outcome s _ sq I V7) in E1.
  cbn [in_pb] in E1. match type of E1 with match solve ar ?p sq with _ => _ end = _ => set (pb := p) in * end.
  destruct (solve ar pb sq) as [[sol objs]|e] eqn:S; [|discriminate].
  assert (Es : s1 = set_sol s sol objs) by congruence.
  assert (I1 : inv s1). { eapply (inv_next laws (OpSolve sq)); [exact I|reflexivity|]. rewrite (solve_outcome s _ sq I V7). cbn [in_pb].
    fold pb. rewrite S, Es. reflexivity. }
  assert (V : view s1 = Some (mkInst pb (m_min s) (m_cnum s) sol objs (m_hist s))).
  { rewrite Es. exact (view_make (set_sol s sol objs) cs is_ V1 V2). }
  rewrite (solve_outcome s1 _ sq I1 V) in E2. cbn [in_pb] in E2. rewrite S in E2. injection E2 as <-. rewrite Es. reflexivity.
Qed.
Print Assumptions C13_solving_again.

(** [solve()] is [solve(list(items))]. *)
Theorem C13_default_is_items_order : forall ar, arith_laws ar ->
  forall env containers items settings width l (s : machine ar) its,
  history env containers items settings width l s -> without_ior l ->
  items_of s = Some its ->
  run (OpSolve None) s = run (OpSolve (Some (dkeys its))) s.
Proof.
  intros ar laws env cs0 is0 st w l s its H Hl Hi.
  pose proof (history_inv laws _ _ _ _ _ _ _ H Hl) as I.
  destruct (inv_view s I) as [cs [is_ [V1 [V2 [_ [_ [_ [[Hn _] V7]]]]]]]].
  rewrite !(solve_outcome s _ _ I V7). cbn [in_pb]. rewrite solve_default_sequence by exact Hn.
  assert (is_ = its) by congruence. subst is_. reflexivity.
Qed.
Print Assumptions C13_default_is_items_order.

(** Concrete: an instance with a long history and a fresh one with other items besides. *)
Definition before_solving : list op :=
  [OpSolve None; OpStructSet 1 (VStr "d") (py_dims KItems 1 2); OpLocalSearch (fun _ => 0) true;
   OpStructDel 1 (VStr "b")].
Definition sequence_ca : option (list string) := Some ["c"; "a"].

Example C13_witness :
  history no_libraries two_containers three_items VNone VNone before_solving (after bins before_solving) /\
  without_ior before_solving /\
  same_input sequence_ca (after bins before_solving) bins /\
  items_of (after bins before_solving) <> items_of bins /\
  m_sol (next (OpSolve sequence_ca) (after bins before_solving)) =
    [("C1", [("c", mkEntry 0 0 3 3)]); ("C2", [("a", mkEntry 0 0 2 3)])] /\
  known (after bins before_solving) sequence_ca /\
  ~ known (after bins before_solving) (Some ["b"]) /\
  outcome (OpSolve (Some ["b"])) (after bins before_solving) = Err KeyError.
Proof.
  refine (conj _ (conj _ (conj _ (conj _ (conj _ (conj _ (conj _ _))))))).
  - apply bins_history.
  - intros o [<-|[<-|[<-|[<-|[]]]]]; reflexivity.
  - refine (conj _ (conj _ (conj _ (conj _ (conj _ _))))); [vm_compute; reflexivity| |vm_compute; reflexivity..|].
    + exists [("a", mkDims 2 3); ("c", mkDims 3 3); ("d", mkDims 1 2)], [("a", mkDims 2 3); ("b", mkDims 4 1); ("c", mkDims 3 3)].
      refine (conj _ (conj _ _)); try (vm_compute; reflexivity).
      intros i [<-|[<-|[]]]; reflexivity.
    + vm_compute. discriminate.
  - vm_compute. discriminate.
  - vm_compute. reflexivity.
  - intros ids its i [= <-] E Hi. assert (its = [("a", mkDims 2 3); ("c", mkDims 3 3); ("d", mkDims 1 2)]).
    { assert (G : items_of (after bins before_solving) = Some [("a", mkDims 2 3); ("c", mkDims 3 3); ("d", mkDims 1 2)]) by (vm_compute; reflexivity).
      rewrite G in E. injection E as <-. reflexivity. }
    subst its. cbn. destruct Hi as [<-|[<-|[]]]; tauto.
  - intros K. assert (G : items_of (after bins before_solving) = Some [("a", mkDims 2 3); ("c", mkDims 3 3); ("d", mkDims 1 2)]) by (vm_compute; reflexivity).
    specialize (K _ _ "b" eq_refl G (or_introl eq_refl)). cbn in K.
    clear G. destruct K as [K|[K|[K|[]]]]; discriminate K.
  - vm_compute. reflexivity.
Qed.
Print Assumptions C13_witness.
