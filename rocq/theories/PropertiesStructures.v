(** * C31, C32, C33, C34: containers and items. *)
From Coq Require Import ZArith String List Bool Lia Permutation.
From Verif Require Import Py ProofsPy Arith Construct Spec LocalSearch SpecSearch Values ProofsVal
  Settings Instance SpecInstance ProofsMachine ProofsOps ProofsRun ProofsSolver ProofsAccept ProofsHistory.
Import ListNotations.
Open Scope string_scope.
Open Scope list_scope.
Open Scope Z_scope.
Open Scope sm_scope.

(** ** C31 *)

(** The outcome of an operation is decided by two relations on values: [accepts] and [rejects]. *)
Definition decided {ar} (o : op) (s : machine ar) (accepts : Prop) (rejects : exn -> Prop) : Prop :=
  ((exists s', run o s = (s', Ok tt)) <-> accepts) /\
  (forall e, (exists s', run o s = (s', Err e)) <-> rejects e).

Lemma decide {ar} (o : op) (s : machine ar) (accepts : Prop) (rejects : exn -> Prop) :
  accepts \/ (exists e, rejects e) ->
  (accepts -> exists s', run o s = (s', Ok tt)) ->
  (forall e, rejects e -> exists s', run o s = (s', Err e)) ->
  decided o s accepts rejects.
Proof.
  intros D H1 H2. split.
  - split; [|assumption]. intros [s' E]. destruct D as [D|[e D]]; [assumption|].
    destruct (H2 e D) as [s2 E2]. congruence.
  - intros e. split; [|apply H2]. intros [s' E]. destruct D as [D|[e' D]].
    + destruct (H1 D) as [s2 E2]. congruence.
    + destruct (H2 e' D) as [s2 E2]. rewrite E in E2. injection E2 as _ ->. assumption.
Qed.

(** [p.items = v]; in every state. *)
Theorem C31_assign_items : forall ar (s : machine ar) v, genuine v ->
  decided (OpSetItems v) s (exists items, structure_value KItems v items) (structure_error KItems v) /\
  (forall items s', structure_value KItems v items -> run (OpSetItems v) s = (s', Ok tt) ->
     items_of s' = Some items /\ no_solution s').
Proof.
  intros ar s v Hg.
  assert (A : forall items, structure_value KItems v items -> exists s',
            run (OpSetItems v) s = (s', Ok tt) /\ items_of s' = Some items /\ no_solution s').
  { intros items H. destruct (new_structure_accepts KItems v items s Hg H) as [s1 [E [Hv Hn]]].
    eexists. cbn [run]. unfold assign_items. rewrite (sbind_ok _ _ _ _ _ E). split; [reflexivity|].
    split; [exact Hv|exact Hn]. }
  split.
  - apply decide.
    + apply structure_or_error. assumption.
    + intros [items H]. destruct (A items H) as [s' [E _]]. eauto.
    + intros e H. destruct (new_structure_rejects KItems v e s H) as [s1 E]. exists s1. cbn [run].
      unfold assign_items. apply sbind_err. exact E.
  - intros items s' H E. destruct (A items H) as [s2 [E2 R]]. rewrite E in E2. injection E2 as ->. exact R.
Qed.
Print Assumptions C31_assign_items.

(** [p.containers = v]. *)
Theorem C31_assign_containers : forall ar (s : machine ar) v, genuine v ->
  (m_strip s = true -> run (OpSetContainers v) s = (s, Err (ContainersError C_STRIP_PACK_ONLY))) /\
  (m_strip s = false ->
   decided (OpSetContainers v) s (exists cs, structure_value KContainers v cs) (structure_error KContainers v) /\
   (forall cs s', structure_value KContainers v cs -> run (OpSetContainers v) s = (s', Ok tt) ->
      containers_of s' = Some cs /\ no_solution s')).
Proof.
  intros ar s v Hg. split; intros Hs; cbn [run].
  { unfold assign_containers, sbind at 1, sget. rewrite swhen_cases, Hs. reflexivity. }
  assert (R : assign_containers ar v s = (h <~ new_structure ar KContainers v ;;
               smodify (fun s => set_cnum (set_containers_ref s h) (vlen v))) s).
  { unfold assign_containers, sbind at 1, sget. rewrite swhen_cases, Hs. reflexivity. }
  assert (A : forall cs, structure_value KContainers v cs -> exists s',
            run (OpSetContainers v) s = (s', Ok tt) /\ containers_of s' = Some cs /\ no_solution s').
  { intros cs H. destruct (new_structure_accepts KContainers v cs s Hg H) as [s1 [E [Hv Hn]]].
    eexists. cbn [run]. rewrite R, (sbind_ok _ _ _ _ _ E). split; [reflexivity|].
    split; [exact Hv|exact Hn]. }
  split.
  - apply decide.
    + apply structure_or_error. assumption.
    + intros [cs H]. destruct (A cs H) as [s' [E _]]. eauto.
    + intros e H. destruct (new_structure_rejects KContainers v e s H) as [s1 E]. exists s1. cbn [run].
      rewrite R. apply sbind_err. exact E.
  - intros cs s' H E. destruct (A cs H) as [s2 [E2 X]]. cbn [run] in E2. rewrite E in E2. injection E2 as ->. exact X.
Qed.
Print Assumptions C31_assign_containers.

Lemma view_entries_set ds k i r o d : forall data es,
  view_entries ds k data = Some es -> nth_error ds r = Some o -> do_kind o = k -> view_dobj o = Some d ->
  view_entries ds k (vset data (VStr i) (VDims r)) = Some (dset es i d).
Proof.
  induction data as [|[key v] data IH]; intros es H Ho Hk Hd.
  - injection H as <-. cbn [vset view_entries]. rewrite Ho, Hd, Hk. destruct k; reflexivity.
  - cbn [view_entries] in H. destruct key; try discriminate. destruct v; try discriminate.
    destruct (nth_error ds h) as [o'|] eqn:Eo; [|discriminate].
    destruct (view_entries ds k data) as [rest|] eqn:Er.
    2: { destruct (do_kind o'), k, (view_dobj o'); discriminate. }
    assert (Hes : exists x, view_dobj o' = Some x /\ do_kind o' = k /\ es = (s, x) :: rest).
    { destruct (do_kind o') eqn:Ek, k; try discriminate; destruct (view_dobj o') as [x|]; try discriminate;
        injection H as <-; eauto. }
    destruct Hes as [x [Ex [Ek ->]]]. cbn [vset dset]. rewrite key_eqb_strs. destruct (String.eqb_spec i s) as [->|Hne].
    + cbn [view_entries]. rewrite Ho, Hd, Hk, Er. destruct k; reflexivity.
    + cbn [view_entries]. rewrite Eo, Ex, Ek, (IH _ eq_refl Ho Hk Hd). destruct k; reflexivity.
Qed.

Lemma view_entries_more ds ds' k data es :
  (forall r o, nth_error ds r = Some o -> nth_error ds' r = Some o) ->
  view_entries ds k data = Some es -> view_entries ds' k data = Some es.
Proof.
  intros Hm. revert es. induction data as [|[key v] data IH]; intros es H; [assumption|].
  cbn [view_entries] in *. destruct key; try discriminate. destruct v; try discriminate.
  destruct (nth_error ds h) as [o|] eqn:E; [|discriminate]. rewrite (Hm _ _ E).
  destruct (view_entries ds k data) as [rest|].
  - rewrite (IH rest eq_refl). assumption.
  - destruct (do_kind o), k, (view_dobj o); discriminate.
Qed.

(** [x[id] = v] on items or containers [x]. *)
Theorem C31_assign_key : forall ar (s : machine ar) h o id v, nth_error (m_structs s) h = Some o -> genuine_dims v ->
  (m_strip s = true -> so_kind o = KContainers ->
     run (OpStructSet h id v) s = (s, Err (ContainersError C_STRIP_PACK_ONLY))) /\
  (m_strip s = false \/ so_kind o = KItems ->
   decided (OpStructSet h id v) s (exists i d, id = VStr i /\ dims_value (so_kind o) v d)
           (entry_error (so_kind o) id v) /\
   (forall i d s' entries, id = VStr i -> dims_value (so_kind o) v d ->
      run (OpStructSet h id v) s = (s', Ok tt) -> view_struct s h = Some entries ->
      view_struct s' h = Some (dset entries i d) /\ no_solution s')).
Proof.
  intros ar s h o id v Ho Hg. split.
  { intros Hs Hk. cbn [run]. unfold struct_set, sbind at 1, get_sobj. rewrite Ho.
    unfold sbind at 1, sget. rewrite swhen_cases, Hs, Hk. reflexivity. }
  intros Hs.
  assert (R : struct_set ar h id v s = (r <~ get_dimensions ar (so_kind o) id v ;;
     put_sobj ar h (mkSobj (so_kind o) (vset (so_data o) id (VDims r))) ;;; struct_reset ar h) s).
  { unfold struct_set, sbind at 1, get_sobj. rewrite Ho. unfold sbind at 1, sget. rewrite swhen_cases.
    replace (m_strip s && _) with false; [reflexivity|].
    destruct Hs as [->|Hk]; [reflexivity|]. rewrite Hk. rewrite andb_false_r. reflexivity. }
  assert (Hl : (h < length (m_structs s))%nat) by (apply nth_error_Some; congruence).
  assert (A : forall i d, id = VStr i -> dims_value (so_kind o) v d -> exists data,
      view_dobj (mkDobj (so_kind o) data) = Some d /\
      run (OpStructSet h id v) s =
        (recount (so_kind o) (zlen (vset (so_data o) (VStr i) (VDims (length (m_dims s)))))
           (set_sol (set_structs (set_dims (set_sol s [] []) (m_dims s ++ [mkDobj (so_kind o) data]))
              (list_set (m_structs s) h (mkSobj (so_kind o) (vset (so_data o) (VStr i) (VDims (length (m_dims s))))))) [] []),
         Ok tt)).
  { intros i d -> Hd. destruct (get_dimensions_accepts (so_kind o) i v d s Hd) as [data [Hv E]].
    exists data. split; [assumption|]. cbn [run]. rewrite R, (sbind_ok _ _ _ _ _ E).
    unfold sbind, put_sobj, smodify.
    rewrite (struct_reset_eq h _ (mkSobj (so_kind o) (vset (so_data o) (VStr i) (VDims (length (m_dims s)))))); [reflexivity|].
    cbn [m_structs set_structs set_dims set_sol]. apply list_set_same. assumption. }
  split.
  - apply decide.
    + apply value_or_error. assumption.
    + intros [i [d [E Hd]]]. destruct (A i d E Hd) as [data [_ E2]]. eauto.
    + intros e He. exists s. cbn [run]. rewrite R. apply sbind_err. apply get_dimensions_rejects. assumption.
  - intros i d s' es E Hd Hr Hv. destruct (A i d E Hd) as [data [Hv1 E2]]. rewrite Hr in E2. injection E2 as ->.
    split.
    + unfold view_struct in *. rewrite Ho in Hv.
      set (s2 := set_sol _ _ _).
      assert (E1 : m_structs (recount (so_kind o) (zlen (vset (so_data o) (VStr i) (VDims (length (m_dims s))))) s2) = m_structs s2)
        by (unfold recount; destruct (so_kind o); reflexivity).
      assert (E2 : m_dims (recount (so_kind o) (zlen (vset (so_data o) (VStr i) (VDims (length (m_dims s))))) s2) = m_dims s2)
        by (unfold recount; destruct (so_kind o); reflexivity).
      rewrite E1, E2. unfold s2. cbn [m_structs m_dims set_sol set_structs set_dims].
      rewrite list_set_same by assumption. cbn [so_kind so_data].
      eapply view_entries_set; [| | |exact Hv1].
      * eapply view_entries_more; [|exact Hv]. intros. apply nth_error_keep. assumption.
      * apply nth_error_last.
      * reflexivity.
    + unfold recount. destruct (so_kind o); split; reflexivity.
Qed.
Print Assumptions C31_assign_key.

(** [x[key] = v] on the dimensions [x] of an item or container. *)
Inductive dimension_error (k : kind) : pyval -> pyval -> exn -> Prop :=
| de_unhashable key v : hashable key = false -> dimension_error k key v TypeError
| de_key key v : hashable key = true -> key <> VStr (wkey k) -> key <> VStr (lkey k) ->
    dimension_error k key v (DimensionsError D_KEYS)
| de_value key v : key = VStr (wkey k) \/ key = VStr (lkey k) -> (forall z, ~ positive_int v z) ->
    dimension_error k key v (DimensionsError D_VALUE).

Theorem C31_assign_dimension : forall ar (s : machine ar) h o key v, nth_error (m_dims s) h = Some o ->
  (m_strip s = true -> do_kind o = KContainers -> do_data o <> [] ->
     run (OpDimSet h key v) s = (s, Err (ContainersError C_STRIP_PACK_ONLY))) /\
  (m_strip s = false \/ do_kind o = KItems ->
   decided (OpDimSet h key v) s
     ((key = VStr (wkey (do_kind o)) \/ key = VStr (lkey (do_kind o))) /\ exists z, positive_int v z)
     (dimension_error (do_kind o) key v) /\
   (forall z s' d, positive_int v z -> run (OpDimSet h key v) s = (s', Ok tt) -> view_dobj o = Some d ->
      no_solution s' /\ exists o', nth_error (m_dims s') h = Some o' /\
        view_dobj o' = Some (if key_eqb key (VStr (wkey (do_kind o))) then mkDims z (dl d) else mkDims (dw d) z))).
Proof.
  intros ar s h o key v Ho. split.
  { intros Hs Hk Hd. cbn [run]. unfold dim_set, sbind at 1, get_dobj. rewrite Ho.
    unfold sbind at 1, sget. rewrite swhen_cases, Hs, Hk. destruct (do_data o); [congruence|reflexivity]. }
  intros Hs.
  assert (R : dim_set ar h key v s = (slift (validate_data (do_kind o) key v) ;;;
     put_dobj ar h (mkDobj (do_kind o) (vset (do_data o) key v)) ;;; reset ar) s).
  { unfold dim_set, sbind at 1, get_dobj. rewrite Ho. unfold sbind at 1, sget. rewrite swhen_cases.
    replace (m_strip s && _ && _) with false; [reflexivity|].
    destruct Hs as [->|Hk]; [reflexivity|]. rewrite Hk, andb_false_r. reflexivity. }
  assert (Hl : (h < length (m_dims s))%nat) by (apply nth_error_Some; congruence).
  assert (A : is_proper (do_kind o) key = true -> posval v -> run (OpDimSet h key v) s =
     (set_sol (set_dims s (list_set (m_dims s) h (mkDobj (do_kind o) (vset (do_data o) key v)))) [] [], Ok tt)).
  { intros Hp Hv. cbn [run]. rewrite R. unfold sbind, slift. rewrite validate_data_accepts by assumption. reflexivity. }
  split.
  - apply decide.
    + destruct (hashable key) eqn:Hh; [|right; eexists; apply de_unhashable; assumption].
      destruct (is_proper (do_kind o) key) eqn:Hp.
      * apply is_proper_iff in Hp. destruct (posval_dec v) as [Hv|Hv].
        -- left. split; [assumption|]. apply posval_iff. assumption.
        -- right. eexists. apply de_value; assumption.
      * right. eexists. apply de_key; [assumption| |]; intros E;
          rewrite (proj2 (is_proper_iff (do_kind o) key)) in Hp; auto; discriminate.
    + intros [Hp Hv]. rewrite A; [eauto|apply is_proper_iff; assumption|apply posval_iff; assumption].
    + intros e He. exists s. cbn [run]. rewrite R. unfold sbind, slift, validate_data. destruct He as [key v Hh|key v Hh H1 H2|key v Hk Hv].
      * rewrite Hh. reflexivity.
      * rewrite Hh. replace (is_proper (do_kind o) key) with false; [reflexivity|].
        symmetry. apply not_true_iff_false. rewrite is_proper_iff. tauto.
      * assert (Hh : hashable key = true) by (destruct Hk; subst; reflexivity). rewrite Hh.
        rewrite (proj2 (is_proper_iff _ _) Hk). cbn [negb].
        destruct (as_int v) as [z|] eqn:E; [|reflexivity]. destruct (Z.leb_spec z 0); [reflexivity|].
        exfalso. apply (Hv z). apply positive_int_spec. auto.
  - intros z s' d Hz Hr Hd. pose proof Hr as Hr'. cbn [run] in Hr'. rewrite R in Hr'.
    unfold sbind at 1, slift at 1 in Hr'. destruct (validate_data (do_kind o) key v) as [[]|e] eqn:Ev; [|discriminate].
    destruct (validate_data_ok _ _ _ Ev) as [Hp Hv]. rewrite A in Hr by assumption. injection Hr as <-.
    split; [split; reflexivity|]. eexists. split.
    { cbn [m_dims set_sol set_dims]. apply list_set_same. assumption. }
    destruct (is_proper_str _ _ Hp) as [i [-> Hi]]. apply positive_int_spec in Hz. destruct Hz as [Hz _].
    assert (V : forall data j, vget (vset data (VStr i) v) (VStr j) =
              if String.eqb j i then Some v else vget data (VStr j)).
    { clear. induction data as [|[k' v'] data IH]; intros j; cbn [vset vget].
      - rewrite key_eqb_strs. reflexivity.
      - destruct (key_eqb (VStr i) k') eqn:E1.
        + apply key_eqb_str_l in E1. subst k'. cbn [vget]. rewrite !key_eqb_strs. destruct (String.eqb j i); reflexivity.
        + cbn [vget]. destruct (key_eqb (VStr j) k') eqn:E2; [|apply IH].
          apply key_eqb_str_l in E2. subst k'. rewrite key_eqb_strs in E1. rewrite String.eqb_sym, E1. reflexivity. }
    unfold view_dobj in *. cbn [do_kind do_data]. rewrite !V, key_eqb_strs. pose proof (wkey_lkey (do_kind o)) as Hne.
    destruct (vget (do_data o) (VStr (wkey (do_kind o)))) as [a|]; [|discriminate].
    destruct (vget (do_data o) (VStr (lkey (do_kind o)))) as [b|]; [|discriminate].
    destruct (as_int a) as [za|] eqn:Ea; [|discriminate]. destruct (as_int b) as [zb|] eqn:Eb; [|discriminate].
    injection Hd as <-. cbn [dw dl].
    destruct Hi as [-> | ->].
    + rewrite String.eqb_refl. destruct (String.eqb_spec (lkey (do_kind o)) (wkey (do_kind o))); [congruence|].
      rewrite Hz, Eb. reflexivity.
    + rewrite String.eqb_refl. destruct (String.eqb_spec (wkey (do_kind o)) (lkey (do_kind o))); [congruence|].
      destruct (String.eqb_spec (lkey (do_kind o)) (wkey (do_kind o))); [congruence|].
      rewrite Ea, Hz. reflexivity.
Qed.
Print Assumptions C31_assign_dimension.

(** The constructor [HyperPack(containers, items, settings, strip_pack_width=width)]. *)
Definition containers_argument (containers width : pyval) (cs : odict dims) : Prop :=
  (width = VNone /\ structure_value KContainers containers cs) \/
  (containers = VNone /\ exists w, positive_int width w /\ cs = [(strip_id, mkDims w (2 ^ 100))]).

Inductive constructor_error (env : environment) (containers items settings width : pyval) : exn -> Prop :=
| ce_width : width <> VNone -> (forall w, ~ positive_int width w) ->
    constructor_error env containers items settings width (DimensionsError D_VALUE)
| ce_strip w : positive_int width w -> containers <> VNone ->
    constructor_error env containers items settings width (ContainersError C_STRIP_PACK_ONLY)
| ce_containers e : width = VNone -> structure_error KContainers containers e ->
    constructor_error env containers items settings width e
| ce_items cs e : containers_argument containers width cs -> structure_error KItems items e ->
    constructor_error env containers items settings width e
| ce_settings cs is_ c e : containers_argument containers width cs -> structure_value KItems items is_ ->
    new_settings env settings = (c, Err e) ->
    constructor_error env containers items settings width e.

Section Constructor.
Context {ar : arith} (env : environment) (containers items settings width : pyval).
Context (Hgc : genuine containers) (Hgi : genuine items).
Notation machine := (machine ar).

Definition part_width : M ar unit :=
  match width with
  | VNone => smodify (fun s => set_heights (set_strip s false) None None)
  | _ =>
      match as_int width with
      | None => sraise (DimensionsError D_VALUE)
      | Some w =>
          swhen (w <=? 0) (DimensionsError D_VALUE) ;;;
          smodify (fun s => set_heights (set_strip s true) (Some (max_w_l_ratio * w)) None) ;;;
          h <~ new_structure ar KContainers
                 (VDict [(VStr strip_id, VDict [(VStr "W", width); (VStr "L", VInt (2 ^ 100))])]) ;;
          smodify (fun s => set_containers_ref s h)
      end
  end.
Definition part_containers (s : machine) : M ar unit :=
  if negb (m_strip s)
  then h <~ new_structure ar KContainers containers ;; smodify (fun s => set_containers_ref s h)
  else match containers with VNone => sret tt | _ => sraise strip_only end.
Definition part_items : M ar unit :=
  h <~ new_structure ar KItems items ;;
  smodify (fun s => set_items_ref s h) ;;;
  (fun s => let '(c, r) := new_settings env settings in (set_cfg s c, r)) ;;;
  s <~ sget ;;
  d <~ get_sobj ar (m_containers s) ;;
  smodify (fun s => set_sol (set_cnum (set_pp_strategy s default_strategy) (zlen (so_data d))) [] (m_objs s)).

Lemma create_parts : create ar env containers items settings width =
  (part_width ;;; s <~ sget ;; part_containers s ;;; part_items).
Proof. reflexivity. Qed.

Lemma part_width_strip w : positive_int width w -> exists s1,
  part_width (blank ar) = (s1, Ok tt) /\ m_strip s1 = true /\
  containers_of s1 = Some [(strip_id, mkDims w (2 ^ 100))].
Proof.
  intros Hp. pose proof Hp as Hp'. apply positive_int_spec in Hp'. destruct Hp' as [Ew Hw].
  assert (D : width <> VNone) by (intros ->; discriminate).
  assert (Hsv : structure_value KContainers (VDict [(VStr strip_id, VDict [(VStr "W", width); (VStr "L", VInt (2 ^ 100))])])
              [(strip_id, mkDims w (2 ^ 100))]).
  { eexists. split; [reflexivity|]. split; [discriminate|]. constructor; [|constructor]. split; [reflexivity|].
    exists width, (VInt (2 ^ 100)). split; [exact Hp|]. split; [|left; reflexivity].
    split; [left; reflexivity|reflexivity]. }
  assert (Hg : genuine (VDict [(VStr strip_id, VDict [(VStr "W", width); (VStr "L", VInt (2 ^ 100))])])).
  { intros l [= <-]. split; [repeat constructor|]. intros id v [[= <- <-]|[]]. intros d [= <-].
    repeat constructor. }
  set (s2 := set_heights (set_strip (blank ar) true) (Some (max_w_l_ratio * w)) None).
  destruct (new_structure_accepts KContainers _ _ s2 Hg Hsv) as [s3 [F1 [F2 F3]]].
  exists (set_containers_ref s3 0%nat). split; [|split].
  - unfold part_width. destruct width; try congruence; try discriminate Ew; rewrite Ew, swhen_cases;
      destruct (Z.leb_spec w 0); try lia; unfold sbind at 1, smodify at 1; fold s2;
      rewrite (sbind_ok _ _ _ _ _ F1); reflexivity.
  - apply new_structure_cases in F1.
    destruct F1 as [[e [? [? [X _]]]]|[dc [new1 [d [_ [_ [_ [_ [_ [_ [_ ->]]]]]]]]]]]; [discriminate|reflexivity].
  - exact F2.
Qed.

Lemma arguments_ok cs : containers_argument containers width cs -> exists s1 s2,
  part_width (blank ar) = (s1, Ok tt) /\ part_containers s1 s1 = (s2, Ok tt) /\ containers_of s2 = Some cs.
Proof.
  intros [[Ew Hc]|[Ec [w [Hw ->]]]].
  - assert (E1 : part_width (blank ar) = (set_heights (set_strip (blank ar) false) None None, Ok tt))
      by (unfold part_width; rewrite Ew; reflexivity).
    set (s1 := set_heights _ _ _) in *.
    destruct (new_structure_accepts KContainers _ _ s1 Hgc Hc) as [s3 [F1 [F2 F3]]].
    exists s1, (set_containers_ref s3 (length (m_structs s1))). split; [exact E1|]. split; [|exact F2].
    unfold part_containers. cbn [m_strip s1 set_heights set_strip negb]. rewrite (sbind_ok _ _ _ _ _ F1). reflexivity.
  - destruct (part_width_strip w Hw) as [s1 [E1 [E2 E3]]]. exists s1, s1. split; [exact E1|].
    split; [|exact E3]. unfold part_containers. rewrite E2, Ec. reflexivity.
Qed.

Lemma part_items_ok is_ (s : machine) cs c r : structure_value KItems items is_ -> containers_of s = Some cs ->
  new_settings env settings = (c, r) -> exists s', part_items s = (s', r) /\
    (r = Ok tt -> items_of s' = Some is_ /\ containers_of s' = Some cs /\ no_solution s').
Proof.
  intros Hi Hc Hn. destruct (new_structure_accepts KItems _ _ s Hgi Hi) as [s3 [F1 [F2 F3]]].
  unfold part_items. rewrite (sbind_ok _ _ _ _ _ F1). unfold sbind, smodify, sget, get_sobj. rewrite Hn.
  destruct r as [[]|e]; [|eexists; split; [reflexivity|discriminate]].
  apply new_structure_cases in F1.
  destruct F1 as [[e [? [? [X _]]]]|[di [new [d [_ [_ [_ [_ [_ [_ [_ Es3]]]]]]]]]]]; [discriminate|].
  unfold containers_of, view_struct in Hc. destruct (nth_error (m_structs s) (m_containers s)) as [o|] eqn:Ho; [|discriminate].
  assert (Ho3 : nth_error (m_structs s3) (m_containers s3) = Some o).
  { rewrite Es3. cbn. apply nth_error_keep. assumption. }
  cbn [m_structs m_containers set_cfg set_items_ref]. rewrite Ho3. eexists. split; [reflexivity|]. intros _.
  split; [exact F2|]. split; [|split; [reflexivity|apply F3]].
  unfold containers_of, view_struct. cbn [m_structs m_containers m_dims set_sol set_cnum set_pp_strategy set_cfg set_items_ref].
  rewrite Ho3. eapply view_entries_more; [|exact Hc]. intros r' o' Hr. rewrite Es3. cbn. apply nth_error_keep. assumption.
Qed.
End Constructor.

Theorem C31_constructor : forall ar env containers items settings width,
  genuine containers -> genuine items ->
  ((exists s : machine ar, created env containers items settings width s) <->
   (exists cs is_ c, containers_argument containers width cs /\ structure_value KItems items is_ /\
      new_settings env settings = (c, Ok tt))) /\
  (forall e, (exists s, create ar env containers items settings width (blank ar) = (s, Err e)) <->
             constructor_error env containers items settings width e) /\
  (forall (s : machine ar) cs is_, created env containers items settings width s ->
     containers_argument containers width cs -> structure_value KItems items is_ ->
     containers_of s = Some cs /\ items_of s = Some is_ /\ m_sol s = []).
Proof.
  intros ar env containers items settings width Hgc Hgi.
  assert (A : forall cs is_ c r, containers_argument containers width cs -> structure_value KItems items is_ ->
     new_settings env settings = (c, r) -> exists s : machine ar,
     create ar env containers items settings width (blank ar) = (s, r) /\
     (r = Ok tt -> items_of s = Some is_ /\ containers_of s = Some cs /\ no_solution s)).
  { intros cs is_ c r H1 H2 H3. destruct (arguments_ok (ar := ar) containers width Hgc cs H1) as [s1 [s2 [E1 [E2 E3]]]].
    destruct (part_items_ok env items settings Hgi is_ s2 cs c r H2 E3 H3) as [s' [E4 E5]].
    exists s'. split; [|exact E5]. rewrite create_parts. rewrite (sbind_ok _ _ _ _ _ E1).
    unfold sbind at 1, sget. rewrite (sbind_ok _ _ _ _ _ E2). exact E4. }
  assert (R : forall e, constructor_error env containers items settings width e ->
     exists s : machine ar, create ar env containers items settings width (blank ar) = (s, Err e)).
  { intros e H. destruct H as [H1 H2|w H1 H2|e H1 H2|cs e H1 H2|cs is_ c e H1 H2 H3].
    - exists (blank ar). rewrite create_parts. apply sbind_err. unfold part_width.
      destruct width; try congruence; try reflexivity.
      + cbn [as_int]. rewrite swhen_cases. destruct b; [|reflexivity]. exfalso. apply (H2 1). apply positive_int_spec. split; reflexivity.
      + cbn [as_int]. rewrite swhen_cases. destruct (Z.leb_spec z 0); [reflexivity|]. exfalso. apply (H2 z).
        apply positive_int_spec. auto.
    - destruct (part_width_strip (ar := ar) width w H1) as [s1 [E1 [E2 _]]]. exists s1.
      rewrite create_parts, (sbind_ok _ _ _ _ _ E1). unfold sbind at 1, sget. apply sbind_err.
      unfold part_containers. rewrite E2. cbn [negb]. destruct containers; try reflexivity. congruence.
    - rewrite create_parts. rewrite H1.
      destruct (new_structure_rejects KContainers containers e (set_heights (set_strip (blank ar) false) None None) H2) as [s' E].
      exists s'. erewrite sbind_ok by reflexivity. unfold sbind at 1, sget. apply sbind_err.
      unfold part_containers. cbn [m_strip set_heights set_strip negb]. apply sbind_err. exact E.
    - destruct (arguments_ok (ar := ar) containers width Hgc cs H1) as [s1 [s2 [E1 [E2 _]]]].
      destruct (new_structure_rejects KItems items e s2 H2) as [s' E]. exists s'.
      rewrite create_parts. rewrite (sbind_ok _ _ _ _ _ E1). unfold sbind at 1, sget. rewrite (sbind_ok _ _ _ _ _ E2).
      apply sbind_err. exact E.
    - destruct (A cs is_ c (Err e) H1 H2 H3) as [s [E _]]. eauto. }
  assert (D : (exists cs is_ c, containers_argument containers width cs /\ structure_value KItems items is_ /\
      new_settings env settings = (c, Ok tt)) \/ exists e, constructor_error env containers items settings width e).
  { assert (DC : (exists cs, containers_argument containers width cs) \/ exists e, constructor_error env containers items settings width e).
    { assert (DW : width = VNone \/ width <> VNone) by (destruct width; auto; right; discriminate).
      destruct DW as [DW|DW].
      - destruct (structure_or_error KContainers containers Hgc) as [[cs H]|[e H]].
        + left. exists cs. left. auto.
        + right. exists e. apply ce_containers; assumption.
      - destruct (posval_dec width) as [Hv|Hv]; [|right; eexists; apply ce_width; assumption].
        apply posval_iff in Hv. destruct Hv as [w Hw].
        assert (DN : containers = VNone \/ containers <> VNone) by (destruct containers; auto; right; discriminate).
        destruct DN as [DN|DN]; [|right; eexists; eapply ce_strip; eassumption].
        left. eexists. right. eauto. }
    destruct DC as [[cs H1]|H]; [|right; exact H].
    destruct (structure_or_error KItems items Hgi) as [[is_ H2]|[e H2]]; [|right; eexists; eapply ce_items; eassumption].
    destruct (new_settings env settings) as [c [[]|e]] eqn:E; [left; eauto 8|right; eexists; eapply ce_settings; eassumption]. }
  split; [|split].
  - split.
    + intros [s E]. destruct D as [D|[e D]]; [assumption|]. destruct (R e D) as [s' E']. unfold created in E. congruence.
    + intros [cs [is_ [c [H1 [H2 H3]]]]]. destruct (A _ _ _ _ H1 H2 H3) as [s [E _]]. exists s. exact E.
  - intros e. split; [|apply R]. intros [s E]. destruct D as [[cs [is_ [c [H1 [H2 H3]]]]]|[e' D]].
    + destruct (A _ _ _ _ H1 H2 H3) as [s' [E' _]]. congruence.
    + destruct (R e' D) as [s' E']. rewrite E in E'. injection E' as _ ->. assumption.
  - intros s cs is_ E H1 H2. destruct (new_settings env settings) as [c r] eqn:En.
    destruct (A _ _ _ _ H1 H2 eq_refl) as [s' [E' V]]. unfold created in E. rewrite E in E'. injection E' as <- <-.
    destruct (V eq_refl) as [V1 [V2 [V3 _]]]. auto.
Qed.
Print Assumptions C31_constructor.
