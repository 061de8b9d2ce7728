(** * C72: the solution and the values belong together, at every moment. *)
From Coq Require Import ZArith String List Bool QArith Lia Permutation.
From Verif Require Import Py ProofsPy Arith Construct Spec ProofsConstruct ProofsSolve ProofsPacking ProofsSolution ProofsValues
  LocalSearch SpecSearch ProofsSearchRun PropertiesSolve PropertiesSearch PropertiesObjective MultiProcess
  Values ProofsVal Settings Instance SpecInstance ProofsMachine ProofsOps ProofsRun ProofsSolver ProofsHistory
  PropertiesStructures PropertiesHistory PropertiesCount MultiHistory SpecMultiHistory ProofsMultiHistory PropertiesMultiHistory.
Import ListNotations.
Open Scope string_scope.
Open Scope list_scope.
Open Scope Z_scope.

(** ** Copies *)
Lemma same_permutation {A} (l l' : odict A) : NoDup (dkeys l) -> NoDup (dkeys l') ->
  (forall i, dget l i = dget l' i) -> Permutation l l'.
Proof.
  intros N N' H. apply NoDup_Permutation; [eapply NoDup_map_inv; exact N|eapply NoDup_map_inv; exact N'|].
  intros [i a]. split; intros Hin.
  - apply dget_In. rewrite <- H. apply In_dget; assumption.
  - apply dget_In. rewrite H. apply In_dget; assumption.
Qed.

Lemma total_area_perm a b : Permutation a b -> total_area a = total_area b.
Proof. induction 1; cbn [total_area fold_right] in *; unfold total_area in *; lia. Qed.

Lemma stack_height_perm a b : Permutation a b -> stack_height a = stack_height b.
Proof. induction 1; cbn [stack_height fold_right] in *; unfold stack_height in *; lia. Qed.

Lemma known_of {ar} pb sq r : solve ar pb sq = Ok r -> known_sequence pb sq.
Proof. apply solve_known. Qed.

(** The entries of a container before and after copying. *)
Lemma placements_entries built sol cid csol : NoDup (stored_ids built) -> same_placements built sol -> NoDup (dkeys sol) ->
  dget sol cid = Some csol -> exists csol0, dget built cid = Some csol0 /\ Permutation (entries csol0) (entries csol).
Proof.
  intros N [S1 [S2 S3]] N2 H.
  assert (Hin : In cid (dkeys built)) by (rewrite S1; apply dget_Some_In; eauto).
  apply dget_Some_In in Hin. destruct Hin as [csol0 H0]. exists csol0. split; [exact H0|].
  apply Permutation_map. apply same_permutation.
  - apply (NoDup_concat_in (map (fun kc => dkeys (snd kc)) built)); [exact N|]. apply in_map_iff. exists (cid, csol0).
    split; [reflexivity|apply dget_In; exact H0].
  - apply (S3 cid). apply dget_In. exact H.
  - exact (S2 cid csol0 csol H0 H).
Qed.

(** ** C72 *)
Theorem C72_one_construction_partial : forall ar, orderly ar -> forall env containers items settings width l (s : machine ar),
  mhistory env containers items settings width l s -> mwithout_ior l ->
  (m_sol s = [] /\ m_objs s = []) \/
  exists cs is_, containers_of s = Some cs /\ items_of s = Some is_ /\
    a_construction cs is_ (m_strip s) (m_sol s) (m_objs s).
Proof.
  intros ar [laws vals] env containers items settings width l s H Hl.
  destruct (mhistory_good laws vals _ _ _ _ _ _ _ H Hl) as [I _]. exact (iv_made s I).
Qed.
Print Assumptions C72_one_construction_partial.

(** The value of a container: the utilization of a bin by the items the solution shows in it; for a
    strip, see C09. *)
Definition value_of_container (strip : bool) (c : dims) (es : list entry) (obj : Q) : Prop :=
  (if strip then es <> [] -> obj == inject_Z (total_area es) / inject_Z (dw c * Z.max 1 (stack_height es - 1))
   else obj == inject_Z (total_area es) / inject_Z (dw c * dl c))%Q.

Lemma construction_values cs is_ strip sol (objs : objvals qarith) :
  cs <> [] -> is_ <> [] -> valid_items cs -> valid_items is_ ->
  a_construction cs is_ strip sol objs ->
  dkeys sol = dkeys cs /\ dkeys objs = dkeys cs /\
  forall cid c csol obj, dget cs cid = Some c -> dget sol cid = Some csol -> dget objs cid = Some obj ->
    value_of_container strip c (entries csol) obj.
Proof.
  intros H1 H2 H3 H4 [rot [g [h [sq [built [Hh [Hs Sp]]]]]]].
  set (pb := mkProblem cs is_ rot g strip h) in *.
  assert (Hv : valid_problem pb).
  { split; [exact H4|]. split; [exact H3|]. split; [exact H2|]. split; [exact H1|]. cbn. intros E. specialize (Hh E). lia. }
  assert (Hk : known_sequence pb sq) by (eapply solve_known; exact Hs).
  destruct (proj1 (C04_solve_is_solve_full _ _ _ _ _) Hs) as [left Hf].
  destruct (C04_ids_stored_once _ _ _ _ _ _ Hv Hk Hf) as [K1 [K2 [K3 _]]]. cbn [pb pb_containers] in K1, K2.
  assert (K4 : dkeys sol = dkeys cs) by (rewrite <- (proj1 Sp); exact K1).
  split; [exact K4|]. split; [exact K2|].
  intros cid c csol obj Hc Hsol Ho.
  apply NoDup_app_iff in K3. destruct K3 as [K3 _].
  assert (Nc : NoDup (dkeys sol)) by (rewrite K4; apply H3).
  destruct (placements_entries _ _ _ _ K3 Sp Nc Hsol) as [csol0 [B1 B2]].
  unfold value_of_container. destruct strip.
  - intros Hne. assert (Hne0 : entries csol0 <> []).
    { intros E. rewrite E in B2. apply Permutation_nil in B2. contradiction. }
    destruct (C09_strip_objective_partial pb sq built objs cid csol0 obj Hv Hk eq_refl Hs B1 Ho Hne0) as [c' [E1 E2]].
    cbn in E1. rewrite Hc in E1. injection E1 as <-.
    rewrite (total_area_perm _ _ B2), (stack_height_perm _ _ B2) in E2. exact E2.
  - destruct (C07_bin_objective_is_utilization pb sq built objs cid csol0 obj Hv Hk eq_refl Hs B1 Ho) as [c' [E1 E2]].
    cbn in E1. rewrite Hc in E1. injection E1 as <-. rewrite (total_area_perm _ _ B2) in E2. exact E2.
Qed.

(** At every moment: no solution and no values, or one value per container, computed from what the
    solution shows and the containers as they are now. *)
Theorem C72_values_partial : forall env containers items settings width l (s : machine qarith),
  mhistory env containers items settings width l s -> mwithout_ior l ->
  (m_sol s = [] /\ m_objs s = []) \/
  exists cs, containers_of s = Some cs /\ dkeys (m_sol s) = dkeys cs /\ dkeys (m_objs s) = dkeys cs /\
    forall cid c csol obj, dget cs cid = Some c -> dget (m_sol s) cid = Some csol -> dget (m_objs s) cid = Some obj ->
      value_of_container (m_strip s) c (entries csol) obj.
Proof.
  intros env containers items settings width l s H Hl.
  destruct (mhistory_good qarith_laws (proj2 qarith_orderly) _ _ _ _ _ _ _ H Hl) as [I _].
  destruct (iv_made s I) as [N|[cs [is_ [C1 [C2 C3]]]]]; [left; exact N|right].
  destruct (inv_view s I) as [cs' [is' [V1 [V2 [V3 [V4 [V5 [V6 _]]]]]]]].
  rewrite C1 in V1. injection V1 as <-. rewrite C2 in V2. injection V2 as <-.
  exists cs. split; [exact C1|]. apply (construction_values cs is_); assumption.
Qed.
Print Assumptions C72_values_partial.

(** [calculate_obj_value()] at every moment of a history in which only the objects in use are
    changed (see C38): the value of the only container, or the sum of the values with the last one
    counting for 7/10. *)
Theorem C72_objective_partial : forall env containers items settings width (s0 : machine qarith) l s,
  created env containers items settings width s0 -> mcareful s0 l s -> m_sol s <> [] ->
  exists v, obj_value qarith (m_cnum s) (dvals (m_objs s)) = Ok v /\
    match rev (dvals (m_objs s)) with
    | [] => False
    | [only] => (v == only)%Q
    | last :: front => (v == qsum front + (7 # 10) * last)%Q
    end.
Proof.
  intros env containers items settings width s0 l s H0 Hc Hne.
  pose proof (C38_count_processes_partial qarith qarith_orderly _ _ _ _ _ _ _ _ H0 Hc) as [cs [Hcs Hn]].
  assert (M : mleads_to s0 l s /\ mwithout_ior l).
  { clear -Hc. induction Hc as [s|s o s1 r l s' Ho _ E _ [IH1 IH2]]; [split; [constructor|intros ? []]|].
    split; [econstructor; eassumption|]. intros x [<-|Hx]; [exact Ho|apply IH2; exact Hx]. }
  destruct M as [M1 M2].
  destruct (C72_values_partial env containers items settings width l s) as [[E _]|[cs' [E1 [_ [E2 _]]]]];
    [exists s0; auto|exact M2|contradiction|].
  rewrite Hcs in E1. injection E1 as <-.
  assert (Hlen : zlen (m_objs s) = m_cnum s).
  { rewrite Hn. unfold zlen. f_equal. apply (f_equal (@length _)) in E2. unfold dkeys in E2. rewrite !map_length in E2. exact E2. }
  assert (Hobj : m_objs s <> []).
  { intros E. rewrite E in E2. destruct (C32_well_formed_processes_partial qarith qarith_orderly env containers items settings width l s) as [c1 [i1 [W1 [_ [W2 _]]]]];
      [exists s0; auto|exact M2|]. rewrite Hcs in W1. injection W1 as <-. destruct cs; [congruence|discriminate E2]. }
  destruct (exists_last Hobj) as [front [[cid last] E]]. rewrite E in *. unfold obj_value, dvals. rewrite map_app. cbn [map snd].
  rewrite rev_app_distr. cbn [rev app].
  assert (Hz : zlen (front ++ [(cid, last)]) = zlen front + 1) by (unfold zlen; rewrite app_length; cbn [length]; lia).
  destruct front as [|f front] using rev_ind.
  - replace (m_cnum s =? 1) with true by (rewrite <- Hlen, Hz; reflexivity).
    eexists. split; [reflexivity|]. cbn [rev app map]. rewrite nsum_qsum. cbn [qsum fold_right app]. ring.
  - clear IHfront. replace (m_cnum s =? 1) with false.
    2:{ symmetry. apply Z.eqb_neq. rewrite <- Hlen, Hz. unfold zlen. rewrite app_length. cbn [length]. lia. }
    rewrite last_get, front_slice. cbn [bind]. eexists. split; [reflexivity|].
    rewrite map_app. cbn [map snd]. rewrite rev_app_distr. cbn [rev app].
    set (a := nsum qarith (map snd front ++ [snd f])).
    change (Qred ((a : Q) + Qred ((7 # 10) * (last : Q))) == qsum (snd f :: rev (map snd front)) + (7 # 10) * last)%Q.
    rewrite !Qred_correct. apply Qplus_inj_r. unfold a. rewrite nsum_qsum.
    assert (P : forall l l' : list Q, Permutation l l' -> (qsum l == qsum l')%Q).
    { clear. intros l l' Hp. induction Hp; cbn [qsum fold_right]; fold qsum in *.
      - reflexivity.
      - unfold qsum in *. rewrite IHHp. reflexivity.
      - unfold qsum. ring.
      - etransitivity; eassumption. }
    apply P. etransitivity; [apply Permutation_app_comm|]. cbn [app]. constructor. apply Permutation_rev.
Qed.
Print Assumptions C72_objective_partial.

(** ** Areas *)
(** Total area of everything stored. *)
Definition stored_area (sol : solution) : Z := fold_right (fun kc n => total_area (entries (snd kc)) + n) 0 sol.

Lemma packing_area cs is_ strip sol : valid_items cs -> valid_items is_ -> a_packing cs is_ strip sol ->
  0 <= stored_area sol <= items_area is_ /\
  (stored_area sol = items_area is_ <-> forall i, In i (dkeys is_) -> In i (stored_ids sol)).
Proof.
  intros Vc [Ni Pi] [P1 [P2 [P3 _]]].
  set (all := concat (map snd sol)).
  assert (Eids : stored_ids sol = dkeys all).
  { unfold stored_ids, all, dkeys. rewrite concat_map, map_map. reflexivity. }
  assert (Earea : stored_area sol = total_area (entries all)).
  { unfold all. clear. induction sol as [|[k c] t IH]; [reflexivity|]. cbn [stored_area fold_right map concat snd].
    unfold entries in *. rewrite map_app, total_area_app, <- IH. reflexivity. }
  assert (Hall : forall i e, In (i, e) all -> exists d, dget is_ i = Some d /\ stores true d e).
  { intros i e Hin. apply in_concat in Hin. destruct Hin as [csol [H1 H2]]. apply in_map_iff in H1. destruct H1 as [[cid c] [<- H1]].
    destruct (P3 cid c i e H1 H2) as [_ [d [_ [Hd [Hs _]]]]]. eauto. }
  rewrite Earea, Eids. rewrite Eids in P2. clearbody all. clear P1 P3 Earea Eids sol cs Vc.
  assert (Hds : exists ds, dkeys ds = dkeys all /\ incl ds is_ /\ items_area ds = total_area (entries all)).
  { clear P2. induction all as [|[i e] t IH]; [exists []; repeat split; intros ? []|].
    destruct IH as [ds [D1 [D2 D3]]]; [intros; apply Hall; right; assumption|].
    destruct (Hall i e (or_introl eq_refl)) as [d [Hd Hs]]. exists ((i, d) :: ds). split; [cbn; f_equal; exact D1|]. split.
    - intros x [<-|Hx]; [apply dget_In; exact Hd|apply D2; exact Hx].
    - change (dw d * dl d + items_area ds = entry_area e + total_area (entries t)). rewrite D3. unfold entry_area.
      destruct Hs as [[-> ->]|[_ [-> ->]]]; lia. }
  destruct Hds as [ds [D1 [D2 D3]]]. rewrite <- D3, <- D1. rewrite <- D1 in P2. clear D3 D1 Hall.
  assert (Nds : NoDup ds) by (eapply NoDup_map_inv; exact P2).
  split; [split|].
  - apply items_area_nonneg. intros i d Hin. eapply Pi. apply D2. exact Hin.
  - apply area_incl; assumption.
  - split; [|intros Hf; apply items_area_perm; apply NoDup_same_perm; auto].
    + intros E i Hi. destruct (in_dec string_dec i (dkeys ds)) as [Y|N]; [exact Y|exfalso].
      apply dget_Some_In in Hi. destruct Hi as [d Hd]. apply dget_In in Hd.
      assert (L : items_area ((i, d) :: ds) <= items_area is_).
      { apply area_incl; [|intros x [<-|Hx]; [exact Hd|apply D2; exact Hx]|exact Pi].
        constructor; [|exact Nds]. intros C. apply N. apply in_map_iff. exists (i, d). auto. }
      change (items_area ((i, d) :: ds)) with (dw d * dl d + items_area ds) in L. destruct (Pi i d Hd). nia.
    + intros i d Hin. apply In_dget; [exact Ni|]. apply D2. exact Hin.
Qed.

(** The stored items never have more area than the items there are, and exactly as much when all
    of them are stored. *)
Theorem C72_area_partial : forall ar, orderly ar -> forall env containers items settings width l (s : machine ar) is_,
  mhistory env containers items settings width l s -> mwithout_ior l -> items_of s = Some is_ ->
  0 <= stored_area (m_sol s) <= items_area is_ /\
  (stored_area (m_sol s) = items_area is_ <-> forall i, In i (dkeys is_) -> In i (stored_ids (m_sol s))).
Proof.
  intros ar [laws vals] env containers items settings width l s is_ H Hl Hi.
  destruct (mhistory_good laws vals _ _ _ _ _ _ _ H Hl) as [I _].
  destruct (inv_view s I) as [cs [is' [V1 [V2 [V3 [V4 [V5 [V6 _]]]]]]]]. rewrite Hi in V2. injection V2 as <-.
  destruct (iv_fresh s I) as [E|[cs' [is' [F1 [F2 F3]]]]].
  - rewrite E. cbn [stored_area fold_right]. assert (Hp : 0 < items_area is_).
    { destruct is_ as [|[i d] t]; [congruence|]. change (0 < dw d * dl d + items_area t).
      assert (0 <= items_area t) by (apply items_area_nonneg; intros; eapply (proj2 V6); right; eassumption).
      destruct (proj2 V6 i d (or_introl eq_refl)). nia. }
    split; [lia|]. split; [lia|]. intros C. exfalso. destruct is_ as [|[i d] t]; [apply V4; reflexivity|]. destruct (C i). left. reflexivity.
  - rewrite Hi in F2. injection F2 as <-. rewrite V1 in F1. injection F1 as <-. apply (packing_area cs is_ (m_strip s)); assumption.
Qed.
Print Assumptions C72_area_partial.

(** Hence one bin that is at least as large as all the items is never reported more than full,
    overlaps (C02) or not, and full only with all the items in it. *)
Theorem C72_large_bin_partial : forall env containers items settings width l (s : machine qarith) is_ cid c csol obj,
  mhistory env containers items settings width l s -> mwithout_ior l ->
  m_strip s = false -> items_of s = Some is_ -> containers_of s = Some [(cid, c)] ->
  items_area is_ <= dw c * dl c ->
  dget (m_sol s) cid = Some csol -> dget (m_objs s) cid = Some obj ->
  (obj <= 1)%Q /\
  ((obj == 1)%Q <-> items_area is_ = dw c * dl c /\ forall i, In i (dkeys is_) -> In i (dkeys csol)).
Proof.
  intros env containers items settings width l s is_ cid c csol obj H Hl Hs Hi Hc Ha Hsol Hobj.
  destruct (C72_values_partial _ _ _ _ _ _ _ H Hl) as [[E _]|[cs [E1 [E2 [E3 E4]]]]]; [rewrite E in Hsol; discriminate|].
  rewrite Hc in E1. injection E1 as <-.
  assert (Hd : dget [(cid, c)] cid = Some c) by (cbn; rewrite String.eqb_refl; reflexivity).
  specialize (E4 cid c csol obj Hd Hsol Hobj). rewrite Hs in E4. cbn [value_of_container] in E4.
  assert (Esol : m_sol s = [(cid, csol)]).
  { destruct (m_sol s) as [|[k cs] [|]]; try discriminate. cbn in E2. injection E2 as ->. cbn in Hsol.
    rewrite String.eqb_refl in Hsol. injection Hsol as ->. reflexivity. }
  destruct (C72_area_partial qarith qarith_orderly _ _ _ _ _ _ _ _ H Hl Hi) as [A1 A2].
  rewrite Esol in A1, A2. unfold stored_ids in A2. cbn [stored_area fold_right snd map concat] in A1, A2.
  rewrite app_nil_r in A2. rewrite Z.add_0_r in A1, A2.
  destruct (C32_well_formed_processes_partial qarith qarith_orderly _ _ _ _ _ _ _ H Hl) as [c1 [i1 [W1 [_ [_ [_ [W2 _]]]]]]].
  rewrite Hc in W1. injection W1 as <-. destruct (proj2 W2 cid c (or_introl eq_refl)) as [P1 P2].
  set (t := total_area (entries csol)) in *. set (A := dw c * dl c) in *.
  assert (HA : 0 < A) by (unfold A; nia).
  assert (Q1 : (inject_Z t / inject_Z A <= 1)%Q <-> t <= A).
  { unfold Qle, Qdiv, Qmult, Qinv, inject_Z. destruct A as [|a|a]; cbn; lia. }
  assert (Q2 : (inject_Z t / inject_Z A == 1)%Q <-> t = A).
  { unfold Qeq, Qdiv, Qmult, Qinv, inject_Z. destruct A as [|a|a]; cbn; lia. }
  rewrite E4, Q1, Q2. split; [lia|]. split.
  - intros E. split; [lia|]. apply A2. lia.
  - intros [B1 B2]. apply A2 in B2. lia.
Qed.
Print Assumptions C72_large_bin_partial.

(** [|=] changes a container without resetting the solution: the value is then not that of any
    container there is. *)
Theorem C72_ior_refuted :
  let s := after bins [OpSolve None; OpDimIor 0 (VDict [(VStr "W", VInt 8)])] in
  containers_of s = Some [("C1", mkDims 8 4); ("C2", mkDims 5 3)] /\
  exists csol obj, dget (m_sol s) "C1" = Some csol /\ dget (m_objs s) "C1" = Some obj /\
    ~ value_of_container false (mkDims 8 4) (entries csol) obj.
Proof.
  cbv zeta. split; [vm_compute; reflexivity|].
  exists [("a", mkEntry 0 0 2 3); ("b", mkEntry 0 3 4 1)], (5 # 8)%Q.
  split; [vm_compute; reflexivity|]. split; [vm_compute; reflexivity|]. vm_compute. discriminate.
Qed.
Print Assumptions C72_ior_refuted.

(** ** Examples *)
(** One bin for all the items: 19 of its 20 cells are used. *)
Definition one_bin (w : Z) : machine qarith :=
  fst (create qarith no_libraries (VDict [(VStr "B", py_dims KContainers w 5)]) three_items VNone VNone (blank qarith)).
Example C72_large_bin_demo :
  let s := after (one_bin 4) [OpLocalSearch (fun _ => 0) true] in
  m_strip s = false /\ items_of s = Some [("a", mkDims 2 3); ("b", mkDims 4 1); ("c", mkDims 3 3)] /\
  containers_of s = Some [("B", mkDims 4 5)] /\ m_objs s = [("B", (19 # 20)%Q)] /\
  stored_area (m_sol s) = 19.
Proof. cbv zeta. refine (conj _ (conj _ (conj _ (conj _ _)))); vm_compute; reflexivity. Qed.

(** A history with several processes, changes and a new solution. *)
Example C72_demo :
  m_objs working_end = [("C1", 13 # 16); ("C2", 2 # 5)] /\ stored_area (m_sol working_end) = 19 /\ mwithout_ior working.
Proof. split; [vm_compute; reflexivity|]. split; [vm_compute; reflexivity|apply working_demo]. Qed.
