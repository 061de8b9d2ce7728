(** * Which values are accepted. *)
From Coq Require Import ZArith String List Bool Lia Permutation.
From Verif Require Import Py ProofsPy Arith Construct Spec LocalSearch SpecSearch Values ProofsVal
  Settings Instance SpecInstance ProofsMachine ProofsOps ProofsRun.
Import ListNotations.
Open Scope list_scope.
Open Scope Z_scope.
Open Scope sm_scope.

Lemma positive_int_spec v z : positive_int v z <-> as_int v = Some z /\ 0 < z.
Proof.
  unfold positive_int. split.
  - intros [[->|[-> ->]] H]; cbn; auto.
  - intros [H1 H2]. split; [|assumption]. destruct v; try discriminate H1.
    + destruct b; injection H1 as <-; [auto|lia].
    + injection H1 as ->. auto.
Qed.

Lemma posval_iff v : posval v <-> exists z, positive_int v z.
Proof. unfold posval. split; intros [z H]; exists z; apply positive_int_spec; assumption. Qed.

Lemma posval_dec v : posval v \/ forall z, ~ positive_int v z.
Proof.
  destruct (as_int v) as [z|] eqn:E.
  - destruct (Z.leb_spec z 0).
    + right. intros z' Hp. apply positive_int_spec in Hp. destruct Hp as [H1 H2]. rewrite E in H1. injection H1 as <-. lia.
    + left. exists z. auto.
  - right. intros z' Hp. apply positive_int_spec in Hp. destruct Hp. congruence.
Qed.

Lemma is_proper_iff k key : is_proper k key = true <-> key = VStr (wkey k) \/ key = VStr (lkey k).
Proof. unfold is_proper. rewrite orb_true_iff, !key_eqb_str_r. tauto. Qed.

Lemma vmem_str d i : vmem d (VStr i) = true <-> In (VStr i) (vkeys d).
Proof.
  unfold vmem. induction d as [|[k v] d IH]; cbn [vget vkeys map In fst]; [split; [discriminate|intros []]|].
  destruct (key_eqb (VStr i) k) eqn:E.
  - apply key_eqb_str_l in E. subst. tauto.
  - rewrite IH. split; [auto|]. intros [H|H]; [|assumption]. subst k.
    rewrite (proj2 (key_eqb_str_l i (VStr i)) eq_refl) in E. discriminate.
Qed.

Lemma has_proper_keys_iff k d : has_proper_keys k d = true <-> exactly_proper_keys k d.
Proof.
  unfold has_proper_keys, exactly_proper_keys. rewrite !andb_true_iff, !vmem_str, forallb_forall. split.
  - intros [[H1 H2] H3] key. split.
    + intros H. apply is_proper_iff. auto.
    + intros [H|H]; subst; assumption.
  - intros H. split; [split|].
    + intros key Hk. apply is_proper_iff. apply H. assumption.
    + apply H. auto.
    + apply H. auto.
Qed.

Lemma two_keys k d : distinct_keys d -> exactly_proper_keys k d ->
  exists a b, d = [(VStr (wkey k), a); (VStr (lkey k), b)] \/ d = [(VStr (lkey k), b); (VStr (wkey k), a)].
Proof.
  intros Hd H.
  assert (R : forall i, key_eqb (VStr i) (VStr i) = true) by (intros; apply key_eqb_str_l; reflexivity).
  assert (G : forall k1 v1 k2 v2 k3 v3 (t : vdict), d = (k1, v1) :: (k2, v2) :: (k3, v3) :: t -> False).
  { intros k1 v1 k2 v2 k3 v3 t ->.
    assert (H1 := proj1 (H k1) ltac:(cbn; auto)). assert (H2 := proj1 (H k2) ltac:(cbn; auto)).
    assert (H3 := proj1 (H k3) ltac:(cbn; auto)).
    inversion Hd as [|? ? F1 Hd2]; subst. inversion Hd2 as [|? ? F2 _]; subst.
    rewrite Forall_forall in F1, F2.
    assert (N12 := F1 (k2, v2) ltac:(cbn; auto)). assert (N13 := F1 (k3, v3) ltac:(cbn; auto)).
    assert (N23 := F2 (k3, v3) ltac:(cbn; auto)). cbn [fst] in *.
    destruct H1, H2, H3; subst; try (rewrite R in N12; discriminate); try (rewrite R in N13; discriminate);
      rewrite R in N23; discriminate. }
  destruct d as [|[k1 v1] [|[k2 v2] [|[k3 v3] t]]]; [| | |exfalso; eapply G; reflexivity].
  - exfalso. apply (H (VStr (wkey k))). auto.
  - exfalso. destruct (proj2 (H (VStr (wkey k))) (or_introl eq_refl)) as [E1|[]].
    destruct (proj2 (H (VStr (lkey k))) (or_intror eq_refl)) as [E2|[]]. cbn in *. rewrite E1 in E2.
    injection E2. apply wkey_lkey.
  - assert (H1 := proj1 (H k1) ltac:(cbn; auto)). assert (H2 := proj1 (H k2) ltac:(cbn; auto)).
    inversion Hd as [|? ? F1 _]; subst. rewrite Forall_forall in F1.
    assert (N12 := F1 (k2, v2) ltac:(cbn; auto)). cbn [fst] in *.
    destruct H1, H2; subst; try (rewrite R in N12; discriminate); eauto.
Qed.

Lemma fill_dims_bad k d : forall data, (forall key, In key (vkeys d) -> is_proper k key = true) ->
  (exists key v, In (key, v) d /\ ~ posval v) -> fill_dims k d data = Err (DimensionsError D_VALUE).
Proof.
  induction d as [|[key v] d IH]; intros data Hk [key' [v' [Hin Hn]]]; [destruct Hin|]. cbn [fill_dims].
  destruct (posval_dec v) as [Hv|Hv].
  - rewrite validate_data_accepts; [|apply Hk; left; reflexivity|assumption]. cbn [bind].
    apply IH; [intros; apply Hk; right; assumption|]. destruct Hin as [E|Hin]; [congruence|eauto].
  - unfold validate_data. assert (Hp := Hk key (or_introl eq_refl)). rewrite Hp.
    destruct (is_proper_str _ _ Hp) as [i [-> _]]. cbn [hashable negb].
    destruct (as_int v) as [z|] eqn:E; [|reflexivity]. destruct (Z.leb_spec z 0); [reflexivity|].
    exfalso. apply (Hv z). apply positive_int_spec. auto.
Qed.

Section Accept.
Context {ar : arith}.
Notation machine := (machine ar).

Lemma new_dimensions_accepts k v d (s : machine) : dims_value k v d ->
  exists data, view_dobj (mkDobj k data) = Some d /\
    new_dimensions ar k v s = (set_dims (set_sol s [] []) (m_dims s ++ [mkDobj k data]), Ok (length (m_dims s))).
Proof.
  intros [a [b [Ha [Hb H]]]]. apply positive_int_spec in Ha. apply positive_int_spec in Hb.
  destruct Ha as [Ha1 Ha2]. destruct Hb as [Hb1 Hb2].
  assert (Pw : is_proper k (VStr (wkey k)) = true) by (apply is_proper_iff; auto).
  assert (Pl : is_proper k (VStr (lkey k)) = true) by (apply is_proper_iff; auto).
  assert (Va : posval a) by (exists (dw d); auto). assert (Vb : posval b) by (exists (dl d); auto).
  pose proof (wkey_lkey k) as Hne.
  destruct H as [-> | ->]; unfold new_dimensions; rewrite swhen_cases.
  - assert (Hh : has_proper_keys k [(VStr (wkey k), a); (VStr (lkey k), b)] = true).
    { apply has_proper_keys_iff. intros key. cbn. intuition congruence. }
    rewrite Hh. cbn [negb]. unfold sbind, slift. cbn [fill_dims].
    rewrite !validate_data_accepts by assumption. cbn [bind].
    assert (E : vset (vset [] (VStr (wkey k)) a) (VStr (lkey k)) b = [(VStr (wkey k), a); (VStr (lkey k), b)]).
    { cbn [vset]. rewrite key_eqb_strs. destruct (String.eqb_spec (lkey k) (wkey k)); [congruence|reflexivity]. }
    rewrite E. eexists. split; [|reflexivity]. unfold view_dobj. cbn [do_data do_kind vget].
    rewrite !key_eqb_strs. rewrite String.eqb_refl. destruct (String.eqb_spec (lkey k) (wkey k)); [congruence|].
    rewrite String.eqb_refl, Ha1, Hb1. destruct d; reflexivity.
  - assert (Hh : has_proper_keys k [(VStr (lkey k), b); (VStr (wkey k), a)] = true).
    { apply has_proper_keys_iff. intros key. cbn. intuition congruence. }
    rewrite Hh. cbn [negb]. unfold sbind, slift. cbn [fill_dims].
    rewrite !validate_data_accepts by assumption. cbn [bind].
    assert (E : vset (vset [] (VStr (lkey k)) b) (VStr (wkey k)) a = [(VStr (lkey k), b); (VStr (wkey k), a)]).
    { cbn [vset]. rewrite key_eqb_strs. destruct (String.eqb_spec (wkey k) (lkey k)); [congruence|reflexivity]. }
    rewrite E. eexists. split; [|reflexivity]. unfold view_dobj. cbn [do_data do_kind vget].
    rewrite !key_eqb_strs. rewrite String.eqb_refl. destruct (String.eqb_spec (wkey k) (lkey k)); [congruence|].
    rewrite String.eqb_refl, Ha1, Hb1. destruct d; reflexivity.
Qed.

Lemma get_dimensions_accepts k i v d (s : machine) : dims_value k v d ->
  exists data, view_dobj (mkDobj k data) = Some d /\
    get_dimensions ar k (VStr i) v s =
      (set_dims (set_sol s [] []) (m_dims s ++ [mkDobj k data]), Ok (length (m_dims s))).
Proof. intros H. unfold get_dimensions. rewrite swhen_cases. apply new_dimensions_accepts. assumption. Qed.

Lemma get_dimensions_rejects k id v e (s : machine) : entry_error k id v e ->
  get_dimensions ar k id v s = (s, Err e).
Proof.
  intros H. unfold get_dimensions. rewrite swhen_cases. destruct H.
  - destruct id; try reflexivity. exfalso. eapply H. reflexivity.
  - cbn [is_str negb]. destruct v; try reflexivity. exfalso. eapply H. reflexivity.
  - reflexivity.
  - cbn [is_str negb]. unfold new_dimensions. destruct d as [|p d]; [congruence|]. rewrite swhen_cases.
    destruct (has_proper_keys k (p :: d)) eqn:E; [|reflexivity].
    exfalso. apply H0. apply has_proper_keys_iff. assumption.
  - cbn [is_str negb]. unfold new_dimensions. destruct d as [|p d]; [destruct H0|]. rewrite swhen_cases.
    rewrite (proj2 (has_proper_keys_iff k (p :: d)) H). cbn [negb]. unfold sbind, slift.
    rewrite fill_dims_bad; [reflexivity| |].
    + intros key' Hk. apply is_proper_iff. apply H. assumption.
    + exists key, v. split; [assumption|]. intros Hp. apply posval_iff in Hp. destruct Hp as [z Hz]. eapply H1; eauto.
Qed.

Lemma dims_value_or_error k v : genuine_dims v ->
  (exists d, dims_value k v d) \/ (exists e, forall i, entry_error k (VStr i) v e).
Proof.
  intros Hg. destruct v; try (right; eexists; intros; apply ee_type; discriminate).
  destruct d as [|p d]; [right; eexists; intros; apply ee_missing|].
  destruct (has_proper_keys k (p :: d)) eqn:Hk.
  2: { right. eexists. intros. apply ee_keys; [discriminate|]. intros H. apply has_proper_keys_iff in H. congruence. }
  apply has_proper_keys_iff in Hk. destruct (two_keys k _ (Hg _ eq_refl) Hk) as [a [b E]].
  assert (Hin : In (VStr (wkey k), a) (p :: d) /\ In (VStr (lkey k), b) (p :: d))
    by (destruct E as [-> | ->]; cbn; auto).
  destruct (posval_dec a) as [Ha|Ha]; [|right; eexists; intros; apply (ee_value k i _ (VStr (wkey k)) a); [exact Hk|apply Hin|assumption]].
  destruct (posval_dec b) as [Hb|Hb]; [|right; eexists; intros; apply (ee_value k i _ (VStr (lkey k)) b); [exact Hk|apply Hin|assumption]].
  apply posval_iff in Ha. apply posval_iff in Hb. destruct Ha as [za Ha]. destruct Hb as [zb Hb].
  left. exists (mkDims za zb), a, b. split; [assumption|]. split; [assumption|].
  destruct E as [-> | ->]; auto.
Qed.

Lemma value_or_error k id v : genuine_dims v ->
  (exists i d, id = VStr i /\ dims_value k v d) \/ (exists e, entry_error k id v e).
Proof.
  intros Hg. assert (D : (exists i, id = VStr i) \/ forall i, id <> VStr i).
  { destruct id; try (right; discriminate). left; eauto. }
  destruct D as [[i ->]|D]; [|right; eexists; apply ee_id; assumption].
  destruct (dims_value_or_error k v Hg) as [[d H]|[e H]]; [left; eauto|right; eauto].
Qed.

(** *** Whole structures *)
Definition viewed (ds : list dobj) (k : kind) (l : odict nat) (es : odict dims) : Prop :=
  Forall2 (fun p q => fst p = fst q /\ exists o, nth_error ds (snd p) = Some o /\ do_kind o = k /\
                      view_dobj o = Some (snd q)) l es.

Lemma viewed_view ds k l es : viewed ds k l es -> view_entries ds k (sdict VDims l) = Some es.
Proof.
  induction 1 as [|[i r] [j d] l es [E [o [Ho [Hk Hv]]]] _ IH]; [reflexivity|]. cbn [fst snd] in *. subst j.
  rewrite view_entries_cons, Ho, Hv, IH, Hk. destruct k; reflexivity.
Qed.

Lemma viewed_app ds k l es new : viewed ds k l es -> viewed (ds ++ new) k l es.
Proof.
  induction 1 as [|p q l es [E [o [Ho H]]] _ IH]; constructor; [|assumption].
  split; [assumption|]. exists o. split; [apply nth_error_keep; assumption|assumption].
Qed.

Lemma dset_new {A} (l : odict A) i a : ~ In i (dkeys l) -> dset l i a = l ++ [(i, a)].
Proof.
  induction l as [|[j b] l IH]; intros H; [reflexivity|]. cbn in *.
  destruct (String.eqb_spec i j); [subst; tauto|]. rewrite IH by tauto. reflexivity.
Qed.

Lemma viewed_keys ds k l es : viewed ds k l es -> dkeys l = dkeys es.
Proof. unfold dkeys. induction 1 as [|p q l es [E _] _ IH]; [reflexivity|]. cbn. rewrite E, IH. reflexivity. Qed.

Lemma fill_struct_accepts k l es :
  Forall2 (fun p q => fst p = VStr (fst q) /\ dims_value k (snd p) (snd q)) l es ->
  forall l0 es0 (s : machine), viewed (m_dims s) k l0 es0 -> NoDup (dkeys es0 ++ dkeys es) ->
  exists s' l1, fill_struct ar k l (sdict VDims l0) s = (s', Ok (sdict VDims l1)) /\
    viewed (m_dims s') k l1 (es0 ++ es).
Proof.
  induction 1 as [|[id v] [i d] l es [E Hd] _ IH]; intros l0 es0 s Hv Hn.
  - exists s, l0. rewrite app_nil_r. split; [reflexivity|assumption].
  - cbn [fst snd] in *. subst id. cbn [fill_struct].
    destruct (get_dimensions_accepts k i v d s Hd) as [data [Hdv Hg]].
    erewrite sbind_ok by exact Hg. cbn [fst].
    assert (Hi : ~ In i (dkeys l0)).
    { rewrite (viewed_keys _ _ _ _ Hv). intros Hin. cbn in Hn. apply NoDup_remove_2 in Hn. apply Hn.
      apply in_or_app. auto. }
    rewrite vset_sdict, (dset_new l0 i _ Hi).
    edestruct (IH (l0 ++ [(i, length (m_dims s))]) (es0 ++ [(i, d)])) as [s' [l1 [F1 F2]]].
    3: { exists s', l1. split; [exact F1|]. rewrite <- app_assoc in F2. exact F2. }
    + cbn [m_dims set_dims]. apply Forall2_app; [apply viewed_app; exact Hv|]. constructor; [|constructor].
      split; [reflexivity|]. exists (mkDobj k data). split; [apply nth_error_last|]. split; [reflexivity|assumption].
    + unfold dkeys. rewrite map_app, <- app_assoc. exact Hn.
Qed.

Lemma fill_struct_rejects k before id v after e :
  Forall (fun p => exists i d, fst p = VStr i /\ dims_value k (snd p) d) before -> entry_error k id v e ->
  forall data (s : machine), exists s', fill_struct ar k (before ++ (id, v) :: after) data s = (s', Err e).
Proof.
  intros H He. induction H as [|[id0 v0] before [i [d [E Hd]]] _ IH]; intros data s.
  - cbn [app fill_struct]. erewrite sbind_err by (apply get_dimensions_rejects; exact He). eauto.
  - cbn [fst snd] in *. subst id0. cbn [app fill_struct].
    destruct (get_dimensions_accepts k i v0 d s Hd) as [dd [_ Hg]]. erewrite sbind_ok by exact Hg. apply IH.
Qed.

Lemma structure_keys_nodup k l es : distinct_keys l ->
  Forall2 (fun p q => fst p = VStr (fst q) /\ dims_value k (snd p) (snd q)) l es -> NoDup (dkeys es).
Proof.
  intros Hd H. induction H as [|[id v] [i d] l es [E _] H IH]; [constructor|]. cbn [fst snd] in *. subst id.
  inversion Hd as [|? ? F Hd']; subst. cbn. constructor; [|auto]. intros Hin. rewrite Forall_forall in F.
  clear - H Hin F. induction H as [|[id v'] [j d'] l es [E _] H IH]; [destruct Hin|]. cbn [fst snd] in *. subst id.
  cbn in Hin. destruct Hin as [->|Hin].
  - assert (N := F (VStr i, v') (or_introl eq_refl)). cbn [fst] in N.
    rewrite (proj2 (key_eqb_str_l i (VStr i)) eq_refl) in N. discriminate.
  - apply IH; try assumption. intros x Hx. apply F. right. assumption.
Qed.

Lemma new_structure_accepts k v es (s : machine) : genuine v -> structure_value k v es ->
  exists s', new_structure ar k v s = (s', Ok (length (m_structs s))) /\
    view_struct s' (length (m_structs s)) = Some es /\ no_solution s'.
Proof.
  intros Hg [l [-> [Hne H]]]. destruct (Hg l eq_refl) as [Hd _].
  destruct (fill_struct_accepts k l es H [] [] s) as [s1 [l1 [F1 F2]]].
  - constructor.
  - eapply structure_keys_nodup; eassumption.
  - destruct (new_structure ar k (VDict l) s) as [s' r] eqn:E. pose proof E as E'.
    apply new_structure_cases in E. destruct l as [|p l]; [congruence|].
    unfold new_structure in E'. change (@nil (pyval * pyval)) with (sdict VDims []) in E'.
    rewrite (sbind_ok _ _ _ _ _ F1) in E'. injection E' as <- <-.
    destruct E as [[e [? [? [X _]]]]|[data [new [d [X [_ [_ [_ [_ [_ [_ Hs]]]]]]]]]]]; [discriminate|].
    injection X as X. exists (set_structs s1 (m_structs s1 ++ [mkSobj k (sdict VDims l1)])).
    rewrite <- X. split; [reflexivity|]. split.
    + unfold view_struct. cbn [m_structs set_structs]. rewrite nth_error_last. cbn [so_kind so_data m_dims].
      apply viewed_view. exact F2.
    + rewrite Hs. split; reflexivity.
Qed.

Lemma new_structure_rejects k v e (s : machine) : structure_error k v e ->
  exists s', new_structure ar k v s = (s', Err e).
Proof.
  intros H. destruct H.
  - destruct v; try (eexists; reflexivity). exfalso. eapply H. reflexivity.
  - eexists. reflexivity.
  - destruct (fill_struct_rejects k before id v after e H H0 [] s) as [s' Hs]. exists s'.
    unfold new_structure. destruct (before ++ (id, v) :: after) as [|p t] eqn:E; [destruct before; discriminate|].
    apply sbind_err. exact Hs.
Qed.

Lemma structure_or_error k v : genuine v ->
  (exists es, structure_value k v es) \/ (exists e, structure_error k v e).
Proof.
  intros Hg. destruct v; try (right; eexists; apply se_type; discriminate).
  destruct d as [|p0 d0]; [right; eexists; apply se_missing|]. destruct (Hg _ eq_refl) as [_ Hi].
  set (l := p0 :: d0) in *. assert (Hne : l <> []) by discriminate. clearbody l.
  enough (G : (exists es, Forall2 (fun p q => fst p = VStr (fst q) /\ dims_value k (snd p) (snd q)) l es) \/
    exists before id v after e, l = before ++ (id, v) :: after /\
      Forall (fun p => exists i d, fst p = VStr i /\ dims_value k (snd p) d) before /\ entry_error k id v e).
  { destruct G as [[es G]|[before [id [v [after [e [-> [G1 G2]]]]]]]].
    - left. exists es, l. auto.
    - right. exists e. apply se_entry; assumption. }
  clear Hne Hg. induction l as [|[id v] l IH].
  - left. exists []. constructor.
  - destruct (value_or_error k id v) as [[i [d [-> Hd]]]|[e He]].
    + apply (Hi id). left. reflexivity.
    + destruct IH as [[es G]|[before [id [v' [after [e [-> [G1 G2]]]]]]]].
      * intros; eapply Hi; right; eassumption.
      * left. exists ((i, d) :: es). constructor; [|assumption]. auto.
      * right. exists ((VStr i, v) :: before), id, v', after, e. split; [reflexivity|].
        split; [|assumption]. constructor; [|assumption]. cbn. eauto.
    + right. exists [], id, v, l, e. split; [reflexivity|]. split; [constructor|assumption].
Qed.
End Accept.
