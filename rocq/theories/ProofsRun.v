(** * Structures, attributes and the constructor as elementary steps. *)
From Coq Require Import ZArith String List Bool Lia Permutation.
From Verif Require Import Py ProofsPy Arith Construct Spec LocalSearch SpecSearch Values ProofsVal
  Settings Instance SpecInstance ProofsMachine ProofsOps.
Import ListNotations.
Open Scope list_scope.
Open Scope Z_scope.
Open Scope sm_scope.

Lemma vset_length_new d k v : vmem d k = false -> length (vset d k v) = S (length d).
Proof.
  unfold vmem. induction d as [|[k' v'] d IH]; cbn [vget vset]; intros H; [reflexivity|].
  destruct (key_eqb k k'); [discriminate|]. cbn. rewrite IH; auto.
Qed.

Lemma vmem_vset_other d i v k : vmem d k = false -> key_eqb k (VStr i) = false -> vmem (vset d (VStr i) v) k = false.
Proof.
  unfold vmem. induction d as [|[k' v'] d IH]; cbn [vget vset]; intros H1 H2.
  - rewrite H2. reflexivity.
  - destruct (key_eqb (VStr i) k') eqn:E.
    + apply key_eqb_str_l in E. subst k'. cbn [vget]. rewrite H2 in *. assumption.
    + cbn [vget]. destruct (key_eqb k k'); [discriminate|]. apply IH; assumption.
Qed.

Section Run.
Context {ar : arith}.
Notation machine := (machine ar).

(** The dimensions heap grew by good objects; the solution may have been reset. *)
Definition grown (s s' : machine) (new : list dobj) (b : bool) : Prop :=
  Forall good_dobj new /\
  s' = set_dims (if b then set_sol s [] [] else s) (m_dims s ++ new).

Lemma set_dims_id (s : machine) : set_dims s (m_dims s) = s.
Proof. destruct s; reflexivity. Qed.

Lemma grown_nil s : grown s s [] false.
Proof. split; [constructor|]. cbn. rewrite app_nil_r, set_dims_id. reflexivity. Qed.

Lemma grown_cons s o s' new b :
  good_dobj o -> grown (set_dims (set_sol s [] []) (m_dims s ++ [o])) s' new b -> grown s s' (o :: new) true.
Proof.
  intros G [F ->]. split; [constructor; assumption|]. destruct b; cbn; rewrite <- app_assoc; reflexivity.
Qed.

Lemma star_grown P Q s s' new b : grown s s' new b -> star P Q s s'.
Proof.
  intros [F ->]. apply (star_app _ _ _ (if b then set_sol s [] [] else s)).
  { destruct b; [apply star_one; constructor|constructor]. }
  set (s1 := if b then set_sol s [] [] else s).
  assert (E : m_dims s = m_dims s1) by (unfold s1; destruct b; reflexivity). rewrite E. clearbody s1. clear E b.
  revert s1. induction F as [|o new G F IH]; intros s1.
  - rewrite app_nil_r, set_dims_id. constructor.
  - econstructor; [apply (mi_dims _ _ s1 o G)|].
    specialize (IH (set_dims s1 (m_dims s1 ++ [o]))). cbn [m_dims set_dims] in IH.
    rewrite <- app_assoc in IH. exact IH.
Qed.

Lemma entries_ok_app ds k data new : entries_ok ds k data -> entries_ok (ds ++ new) k data.
Proof.
  intros H. eapply entries_ok_keep; [exact H|]. intros r o Ho. exists o.
  split; [apply nth_error_keep; assumption|auto].
Qed.

Lemma entries_ref_fresh ds k data : entries_ok ds k data -> ~ In (VDims (length ds)) (map snd data).
Proof.
  intros [l [-> [_ [_ Hl]]]] Hin. unfold sdict in Hin. rewrite map_map in Hin. apply in_map_iff in Hin.
  destruct Hin as [[i r] [[= Hr] Hin]]. destruct (Hl i r Hin) as [d [Hd _]]. rewrite Hr in Hd.
  assert (length ds < length ds)%nat by (apply nth_error_Some; congruence). lia.
Qed.

Lemma fill_struct_cases k d : forall data (s s' : machine) r,
  entries_ok (m_dims s) k data -> fill_struct ar k d data s = (s', r) ->
  exists new b, grown s s' new b /\
    forall data', r = Ok data' ->
      entries_ok (m_dims s') k data' /\ (d <> [] -> b = true /\ data' <> []) /\
      (distinct_keys d -> (forall x v, In (x, v) d -> vmem data x = false) ->
       length data' = (length data + length d)%nat).
Proof.
  induction d as [|[id v] d IH]; cbn [fill_struct]; intros data s s' r He H.
  - injection H as <- <-. exists [], false. split; [apply grown_nil|]. intros data' [= <-].
    split; [assumption|]. split; [congruence|]. intros _ _. cbn. lia.
  - unfold sbind at 1, get_dimensions in H. rewrite swhen_cases in H.
    destruct (negb (is_str id)) eqn:Ei.
    { injection H as <- <-. exists [], false. split; [apply grown_nil|]. discriminate. }
    destruct id as [| | | |i| | | | | |]; try discriminate.
    destruct (new_dimensions ar k v s) as [s1 r1] eqn:E1. pose proof E1 as E1'.
    apply new_dimensions_cases in E1. destruct E1 as [[e [-> ->]]|[dd [-> [G1 [G2 [_ Es1]]]]]].
    { injection H as <- <-. exists [], false. split; [apply grown_nil|]. discriminate. }
    assert (He1 : entries_ok (m_dims s1) k (vset data (VStr i) (VDims (length (m_dims s))))).
    { subst s1. cbn [m_dims set_dims]. eapply entries_ok_set.
      - apply entries_ok_app. exact He.
      - apply nth_error_last.
      - reflexivity.
      - exact G2.
      - eapply entries_ref_fresh. eassumption. }
    destruct (IH _ s1 s' r He1 H) as [new [b [Hg Hr]]].
    exists (mkDobj k dd :: new), true. split.
    { apply (grown_cons s (mkDobj k dd) s' new b); [exact G1|]. rewrite <- Es1. exact Hg. }
    intros data' Hd. destruct (Hr data' Hd) as [R1 [R2 R3]]. split; [assumption|]. split.
    + intros _. split; [reflexivity|]. destruct d as [|x d']; [|apply R2; discriminate].
      cbn [fill_struct] in H. injection H as <- <-. injection Hd as <-. apply vset_nonempty.
    + intros Hdis Hfr. inversion Hdis as [|? ? F1 F2]; subst.
      rewrite R3.
      * rewrite vset_length_new by (apply (Hfr _ v); left; reflexivity). cbn. lia.
      * assumption.
      * intros x u Hin. apply vmem_vset_other; [apply (Hfr x u); right; assumption|].
        rewrite Forall_forall in F1. apply (F1 (x, u)). assumption.
Qed.

Lemma new_structure_cases k v (s s' : machine) r :
  new_structure ar k v s = (s', r) ->
  (exists e new b, r = Err e /\ grown s s' new b) \/
  (exists data new d, r = Ok (length (m_structs s)) /\ v = VDict d /\ d <> [] /\
     Forall good_dobj new /\ entries_ok (m_dims s ++ new) k data /\ data <> [] /\
     (distinct_keys d -> zlen data = zlen d) /\
     s' = set_structs (set_dims (set_sol s [] []) (m_dims s ++ new)) (m_structs s ++ [mkSobj k data])).
Proof.
  intros H. destruct v; try (left; injection H as <- <-; eexists _, [], false; split; [reflexivity|apply grown_nil]).
  destruct d as [|kv d]; [left; injection H as <- <-; eexists _, [], false; split; [reflexivity|apply grown_nil]|].
  unfold new_structure in H. apply sbind_inv in H.
  assert (He : entries_ok (m_dims s) k []).
  { exists []. split; [reflexivity|]. split; [constructor|]. split; [constructor|]. intros ? ? []. }
  destruct H as [[s1 [data [E1 E2]]]|[e [E1 ->]]].
  - destruct (fill_struct_cases k _ _ _ _ _ He E1) as [new [b [Hg Hr]]].
    destruct (Hr data eq_refl) as [R1 [R2 R3]]. destruct (R2 ltac:(discriminate)) as [-> Hne].
    right. destruct Hg as [F ->]. exists data, new, (kv :: d). injection E2 as <- <-.
    split; [reflexivity|]. split; [reflexivity|]. split; [discriminate|]. split; [assumption|].
    split; [exact R1|]. split; [assumption|]. split; [|reflexivity].
    intros Hd. unfold zlen. rewrite R3; [reflexivity|assumption|reflexivity].
  - destruct (fill_struct_cases k _ _ _ _ _ He E1) as [new [b [Hg _]]]. left. eauto 6.
Qed.

Lemma star_new_struct P Q (s : machine) k data new :
  Forall good_dobj new -> entries_ok (m_dims s ++ new) k data ->
  star P Q s (set_structs (set_dims (set_sol s [] []) (m_dims s ++ new)) (m_structs s ++ [mkSobj k data])).
Proof.
  intros F He. apply (star_app _ _ _ (set_dims (set_sol s [] []) (m_dims s ++ new))).
  - apply (star_grown P Q s _ new true). split; [assumption|reflexivity].
  - apply star_one. apply (mi_struct P Q (set_dims (set_sol s [] []) (m_dims s ++ new)) (mkSobj k data)). exact He.
Qed.

Lemma safe_new_structure P Q k v : safe P Q (new_structure ar k v).
Proof.
  intros s s' r I H. apply new_structure_cases in H.
  destruct H as [[e [new [b [_ Hg]]]]|[data [new [d [_ [_ [_ [F [He [_ [_ ->]]]]]]]]]]].
  - eapply star_grown. eassumption.
  - apply star_new_struct; assumption.
Qed.

Lemma safe_assign_items P Q v : safe P Q (assign_items ar v).
Proof.
  intros s s' r I H. unfold assign_items in H. apply sbind_inv in H.
  destruct H as [[s1 [h [E1 E2]]]|[e [E1 _]]]; [|eapply safe_new_structure; eassumption].
  eapply star_app; [eapply safe_new_structure; eassumption|].
  apply new_structure_cases in E1.
  destruct E1 as [[e [new [b [X _]]]]|[data [new [d [[= ->] [_ [_ [F [He [Hne [_ ->]]]]]]]]]]]; [discriminate|].
  injection E2 as <- _. apply star_one.
  apply (mi_items_ref P Q _ _ (mkSobj KItems data)).
  - apply nth_error_last.
  - reflexivity.
  - assumption.
  - split; reflexivity.
Qed.

Lemma safe_assign_containers (P : option nat -> Prop) Q v : P None -> safe P Q (assign_containers ar v).
Proof.
  intros HP s s' r I H. unfold assign_containers, sbind at 1, sget in H. rewrite swhen_cases in H.
  destruct (m_strip s) eqn:Es; [injection H as <- <-; constructor|].
  apply sbind_inv in H.
  destruct H as [[s1 [h [E1 E2]]]|[e [E1 _]]]; [|eapply safe_new_structure; eassumption].
  eapply star_app; [eapply safe_new_structure; eassumption|].
  apply new_structure_cases in E1.
  destruct E1 as [[e [new [b [X _]]]]|[data [new [d [[= ->] [-> [_ [F [He [Hne [Hz ->]]]]]]]]]]]; [discriminate|].
  injection E2 as <- _. apply star_one.
  apply (mi_containers_ref P Q _ _ (mkSobj KContainers data) (VDict d)).
  - assumption.
  - apply nth_error_last.
  - reflexivity.
  - assumption.
  - intros d' [= <-]. exact Hz.
  - split; reflexivity.
  - exact Es.
Qed.

Lemma safe_assign_height P Q v : safe P Q (assign_height ar v).
Proof.
  intros s s' r I H. unfold assign_height in H.
  destruct (as_int v) as [z|]; [|injection H as <- <-; constructor].
  rewrite swhen_cases in H. destruct (z <? 1) eqn:Ez; [injection H as <- <-; constructor|].
  unfold sbind at 1, sget in H. rewrite swhen_cases in H.
  destruct (m_min s) as [m|] eqn:Em.
  - destruct (z <? m) eqn:E2; [injection H as <- <-; constructor|]. injection H as <- _.
    apply star_one. constructor. intros Hs. exists z. split; [reflexivity|]. split; [lia|].
    intros m' Hm. rewrite Em in Hm. injection Hm as <-.
    destruct (iv_heights s I Hs) as [h [_ [_ Hh]]]. specialize (Hh m Em). lia.
  - injection H as <- _. apply star_one. constructor. intros Hs. exists z. split; [reflexivity|].
    split; [lia|]. rewrite Em. discriminate.
Qed.

Lemma safe_assign_min_height P Q v : safe P Q (assign_min_height ar v).
Proof.
  intros s s' r I H. unfold assign_min_height in H.
  destruct (as_int v) as [z|]; [|injection H as <- <-; constructor].
  rewrite swhen_cases in H. destruct (z <? 1) eqn:Ez; [injection H as <- <-; constructor|].
  unfold sbind at 1, sget in H.
  destruct (m_height s) as [h|] eqn:Eh; [|injection H as <- <-; constructor].
  rewrite swhen_cases in H. destruct (z >? h) eqn:E2; [injection H as <- <-; constructor|].
  injection H as <- _. apply star_one. constructor. intros Hs.
  destruct (iv_heights s I Hs) as [h' [H1 [H2 _]]]. exists h'. split; [assumption|]. split; [assumption|].
  rewrite Eh in H1. injection H1 as ->. intros m' [= <-]. lia.
Qed.

(** The view of a good state. *)
Lemma inv_view (s : machine) : inv s -> exists cs is_,
  containers_of s = Some cs /\ items_of s = Some is_ /\ cs <> [] /\ is_ <> [] /\
  valid_items cs /\ valid_items is_ /\
  view s = Some (mkInst (mkProblem cs is_ (c_rotation (m_cfg s)) (m_strategy s) (m_strip s)
                              (match m_height s with Some h => h | None => 0 end))
                   (m_min s) (m_cnum s) (m_sol s) (m_objs s) (m_hist s)).
Proof.
  intros I. destruct (iv_items s I) as [oi [Hi [Ki Ni]]]. destruct (iv_containers s I) as [oc [Hc [Kc Nc]]].
  destruct (view_entries_ok (m_dims s) (so_kind oi) (so_data oi) (iv_dims s I) (iv_structs s I _ _ Hi)) as [vi [Vi1 [Vi2 [Vi3 _]]]].
  destruct (view_entries_ok (m_dims s) (so_kind oc) (so_data oc) (iv_dims s I) (iv_structs s I _ _ Hc)) as [vc [Vc1 [Vc2 [Vc3 _]]]].
  exists vc, vi. unfold containers_of, items_of, view, view_struct. rewrite Hi, Hc, Vi1, Vc1.
  split; [reflexivity|]. split; [reflexivity|].
  split. { intros ->. apply Nc. destruct (so_data oc); [reflexivity|discriminate]. }
  split. { intros ->. apply Ni. destruct (so_data oi); [reflexivity|discriminate]. }
  split; [assumption|]. split; [assumption|]. reflexivity.
Qed.

Lemma inv_strip_keys (s : machine) cs : inv s -> m_strip s = true -> containers_of s = Some cs -> dkeys cs = [strip_id].
Proof.
  intros I Hs H. destruct (iv_strip s I Hs) as [r Hr].
  destruct (view_entries_ok (m_dims s) _ _ (iv_dims s I) (iv_structs s I _ _ Hr)) as [v [V1 [_ [_ V4]]]].
  unfold containers_of, view_struct in H. rewrite Hr in H. rewrite V1 in H. injection H as ->.
  cbn in V4. destruct (dkeys cs) as [|a [|]]; try discriminate. injection V4 as <-. reflexivity.
Qed.

Lemma inv_valid (s : machine) x : inv s -> view s = Some x -> valid_inst ar x.
Proof.
  intros I H. destruct (inv_view s I) as [cs [is_ [V1 [V2 [V3 [V4 [V5 [V6 V7]]]]]]]].
  rewrite H in V7. injection V7 as ->. split.
  - split; [assumption|]. split; [assumption|]. split; [assumption|]. split; [assumption|].
    cbn. intros Hs. destruct (iv_heights s I Hs) as [h [-> [Hh _]]]. lia.
  - cbn. intros Hs. split; [apply (inv_strip_keys s); assumption|].
    destruct (iv_heights s I Hs) as [h [-> [_ Hh]]]. assumption.
Qed.

Lemma safe_solver_view P Q : safe P Q (solver_view ar).
Proof. apply safe_pure. Qed.

Lemma safe_reset_height P Q : safe P Q (reset_height ar).
Proof.
  intros s s' r I H. unfold reset_height, sbind at 1, sget in H.
  destruct (m_strip s) eqn:Es; [|injection H as <- <-; constructor].
  destruct (inv_view s I) as [cs [is_ [V1 [V2 [V3 [V4 [V5 [V6 V7]]]]]]]].
  unfold sbind at 1, solver_view at 1 in H. rewrite V7 in H. cbn [pb_containers in_pb] in H.
  unfold sbind, slift in H. unfold dget_r in H.
  pose proof (inv_strip_keys s cs I Es V1) as Hk.
  destruct (dget cs strip_id) as [c|] eqn:Ec.
  2: { exfalso. apply dget_None in Ec. apply Ec. rewrite Hk. left. reflexivity. }
  injection H as <- _. apply star_one. constructor. intros _. eexists. split; [reflexivity|].
  destruct V5 as [_ Hp]. destruct (Hp _ _ (dget_In _ _ _ Ec)) as [Hw _]. unfold max_w_l_ratio.
  split; [lia|discriminate].
Qed.

Lemma safe_assign_strategy P Q v : safe P Q (assign_strategy ar v).
Proof.
  destruct v; try apply safe_raise. apply safe_bind; [apply safe_lift|]. intros g s s' r I [= <- _].
  apply star_one. constructor.
Qed.

Lemma safe_on_cfg P Q f : safe P Q (on_cfg ar f).
Proof.
  intros s s' r I H. unfold on_cfg in H. destruct (f (m_cfg s)) as [c x]. injection H as <- _.
  apply star_one. constructor.
Qed.
End Run.
