(** * The operations of the machine compute the functions of ItemsManip.v, LocalSearch.v and
    HyperSearch.v on what the instance shows. *)
From Coq Require Import ZArith String List Bool Lia Permutation.
From Verif Require Import Py ProofsPy Arith Construct Spec LocalSearch SpecSearch ItemsManip HyperSearch
  PropertiesSearch PropertiesItems ProofsHyper PropertiesHyper Values ProofsVal
  Settings Instance SpecInstance ProofsMachine ProofsOps ProofsRun ProofsSolver ProofsAccept ProofsHistory ProofsFrame.
Import ListNotations.
Open Scope string_scope.
Open Scope list_scope.
Open Scope Z_scope.
Open Scope sm_scope.

Lemma list_set_twice {A} (l : list A) n a b : list_set (list_set l n a) n b = list_set l n b.
Proof. revert n. induction l as [|x l IH]; intros [|n]; cbn; try reflexivity. rewrite IH. reflexivity. Qed.

Lemma vget_vset_same d i v : vget (vset d (VStr i) v) (VStr i) = Some v.
Proof.
  induction d as [|[k u] d IH]; cbn [vset vget]; [rewrite (proj2 (key_eqb_str_l i (VStr i)) eq_refl); reflexivity|].
  destruct (key_eqb (VStr i) k) eqn:E; cbn [vget]; rewrite E; [reflexivity|apply IH].
Qed.
Lemma vget_vset_other d i j v : i <> j -> vget (vset d (VStr i) v) (VStr j) = vget d (VStr j).
Proof.
  intros H. induction d as [|[k u] d IH]; cbn [vset vget].
  - replace (key_eqb (VStr j) (VStr i)) with false; [reflexivity|]. symmetry. rewrite key_eqb_strs. apply String.eqb_neq. congruence.
  - destruct (key_eqb (VStr i) k) eqn:E; cbn [vget].
    + apply key_eqb_str_l in E. subst k. replace (key_eqb (VStr j) (VStr i)) with false; [reflexivity|].
      symmetry. rewrite key_eqb_strs. apply String.eqb_neq. congruence.
    + rewrite IH. reflexivity.
Qed.

Section Refine.
Context {ar : arith} (laws : arith_laws ar).
Notation machine := (machine ar).

(** ** Orientation *)
Definition turned (turn : Z -> Z -> bool) (d : dims) : dims :=
  if turn (dw d) (dl d) then mkDims (dl d) (dw d) else d.

Lemma dim_set_items r i v (s : machine) o :
  nth_error (m_dims s) r = Some o -> do_kind o = KItems -> i = "w" \/ i = "l" -> posval v ->
  dim_set ar r (VStr i) v s =
    (set_sol (set_dims s (list_set (m_dims s) r (mkDobj KItems (vset (do_data o) (VStr i) v)))) [] [], Ok tt).
Proof.
  intros Ho Hk Hi Hv. unfold dim_set, sbind at 1, get_dobj. rewrite Ho.
  unfold sbind at 1, sget at 1. rewrite Hk, swhen_cases, andb_false_r, andb_false_l.
  rewrite validate_data_accepts; [reflexivity| |assumption].
  apply is_proper_iff. cbn. destruct Hi; subst; auto.
Qed.

Lemma orient_one_eq turn h i r (s : machine) data o d :
  inv s -> nth_error (m_structs s) h = Some (mkSobj KItems data) -> vget data (VStr i) = Some (VDims r) ->
  nth_error (m_dims s) r = Some o -> do_kind o = KItems -> view_dobj o = Some d ->
  exists o', do_kind o' = KItems /\ view_dobj o' = Some (mkDims (dl d) (dw d)) /\
    orient_one ar turn h (VStr i) s =
      (if turn (dw d) (dl d) then set_sol (set_dims s (list_set (m_dims s) r o')) [] [] else s, Ok tt).
Proof.
  intros I Hs Hi Ho Hk Hd. pose proof (iv_dims s I _ _ Ho) as Hg.
  unfold view_dobj in Hd. rewrite Hk in Hd. cbn [wkey lkey] in Hd.
  destruct (vget (do_data o) (VStr "w")) as [vw|] eqn:Ew; [|discriminate].
  destruct (vget (do_data o) (VStr "l")) as [vl|] eqn:El; [|discriminate].
  destruct (as_int vw) as [zw|] eqn:Aw; [|discriminate]. destruct (as_int vl) as [zl|] eqn:Al; [|discriminate].
  injection Hd as <-. cbn [dw dl].
  assert (Pw : posval vw /\ posval vl).
  { destruct Hg as [l [E [_ Hl]]]. rewrite E in Ew, El. rewrite vget_sdict in Ew, El.
    destruct (dget l "w") as [a|] eqn:Ea; [|discriminate]. destruct (dget l "l") as [b|] eqn:Eb; [|discriminate].
    cbn in Ew, El. injection Ew as <-. injection El as <-.
    split; [apply (Hl _ _ (dget_In _ _ _ Ea))|apply (Hl _ _ (dget_In _ _ _ Eb))]. }
  destruct Pw as [Pw Pl].
  exists (mkDobj KItems (vset (vset (do_data o) (VStr "w") vl) (VStr "l") vw)).
  split; [reflexivity|]. split.
  { unfold view_dobj. cbn [do_kind do_data wkey lkey]. rewrite vget_vset_same, vget_vset_other by discriminate.
    rewrite vget_vset_same, Aw, Al. reflexivity. }
  unfold orient_one, sbind at 1, get_sobj. rewrite Hs. cbn [so_data].
  unfold sbind at 1, slift at 1, data_get. cbn [hashable negb]. rewrite Hi.
  unfold sbind at 1, get_dobj. rewrite Ho. unfold sbind at 1, slift at 1, data_get. cbn [hashable negb]. rewrite Ew.
  unfold sbind at 1, slift at 1, data_get. cbn [hashable negb]. rewrite El, Aw, Al.
  destruct (turn zw zl); [|reflexivity].
  erewrite sbind_ok by (apply (dim_set_items r "w" vl s o); auto).
  rewrite (dim_set_items r "l" vw _ (mkDobj KItems (vset (do_data o) (VStr "w") vl))); auto.
  - cbn [m_dims set_sol set_dims do_data]. rewrite list_set_twice. reflexivity.
  - cbn. apply list_set_same. apply nth_error_Some. congruence.
Qed.

Lemma viewed_set ds k l es r o : viewed ds k l es -> ~ In r (dvals l) -> viewed (list_set ds r o) k l es.
Proof.
  induction 1 as [|p q l es [E [x [Hx H]]] _ IH]; intros Hn; [constructor|]. cbn in Hn. constructor.
  - split; [assumption|]. exists x. split; [|assumption]. rewrite list_set_other by (intros ->; tauto). assumption.
  - apply IH. tauto.
Qed.

Lemma viewed_ext ds ds' k l es : viewed ds k l es -> (forall r, In r (dvals l) -> nth_error ds' r = nth_error ds r) -> viewed ds' k l es.
Proof.
  induction 1 as [|p q l es [E [x [Hx H]]] _ IH]; intros Hn; constructor.
  - split; [assumption|]. exists x. split; [|assumption]. rewrite Hn by (left; reflexivity). assumption.
  - apply IH. intros r Hr. apply Hn. right. assumption.
Qed.

Lemma orient_each_eq turn h l l2 es : forall s : machine, inv s ->
  nth_error (m_structs s) h = Some (mkSobj KItems (sdict VDims l)) ->
  (forall i r, In (i, r) l2 -> dget l i = Some r) -> NoDup (dvals l2) -> viewed (m_dims s) KItems l2 es ->
  exists ds, orient_each ar turn h (map VStr (dkeys l2)) s =
      (if existsb (fun kd => turn (dw (snd kd)) (dl (snd kd))) es then set_sol (set_dims s ds) [] [] else s, Ok tt) /\
    viewed ds KItems l2 (map (fun kd => (fst kd, turned turn (snd kd))) es) /\
    (forall r, ~ In r (dvals l2) -> nth_error ds r = nth_error (m_dims s) r) /\
    (existsb (fun kd => turn (dw (snd kd)) (dl (snd kd))) es = false -> ds = m_dims s).
Proof.
  revert es. induction l2 as [|[i r] l2 IH]; intros es s I Hs Hl Hn Hv.
  - inversion Hv; subst. exists (m_dims s). split; [reflexivity|]. split; [constructor|]. auto.
  - inversion Hv as [|p q l' es' [E [o [Ho [Hk Hd]]]] Hv']; subst. destruct q as [j d]. cbn [fst snd] in *. subst j.
    cbn in Hn. inversion Hn as [|? ? N1 N2]; subst.
    destruct (orient_one_eq turn h i r s (sdict VDims l) o d I Hs) as [o' [Hk' [Hd' E1]]]; try assumption.
    { rewrite vget_sdict. rewrite (Hl i r (or_introl eq_refl)). reflexivity. }
    cbn [dkeys map fst orient_each existsb snd]. change (map fst l2) with (dkeys l2).
    erewrite sbind_ok by exact E1.
    assert (Hlen : (r < length (m_dims s))%nat) by (apply nth_error_Some; congruence).
    destruct (turn (dw d) (dl d)) eqn:Et; cbn [orb].
    + set (s1 := set_sol (set_dims s (list_set (m_dims s) r o')) [] []) in *.
      assert (I1 : inv s1).
      { eapply star_inv; [exact I|]. eapply (safe_orient_one (fun _ => False) False); [exact I|exact E1]. }
      destruct (IH es' s1 I1 Hs) as [ds [F1 [F2 [F3 F4]]]].
      * intros a b Hab. apply Hl. right. assumption.
      * assumption.
      * cbn. apply viewed_set; assumption.
      * exists ds. split; [|split; [|split]].
        -- rewrite F1. f_equal. destruct (existsb _ es') eqn:Ex; [reflexivity|]. rewrite (F4 eq_refl). reflexivity.
        -- cbn [map fst snd]. constructor; [|exact F2]. split; [reflexivity|]. cbn [snd fst].
           exists o'. rewrite F3 by assumption. cbn. rewrite list_set_same by assumption. unfold turned. rewrite Et. auto.
        -- intros r' Hr'. cbn in Hr'. rewrite F3 by tauto. cbn. apply list_set_other. tauto.
        -- discriminate.
    + destruct (IH es' s I Hs) as [ds [F1 [F2 [F3 F4]]]].
      * intros a b Hab. apply Hl. right. assumption.
      * assumption.
      * assumption.
      * exists ds. split; [exact F1|]. split; [|split].
        -- cbn [map fst snd]. constructor; [|exact F2]. split; [reflexivity|]. cbn [snd fst].
           exists o. rewrite F3 by assumption. unfold turned. rewrite Et. auto.
        -- intros r' Hr'. cbn in Hr'. apply F3. tauto.
        -- exact F4.
Qed.

Lemma viewed_of ds k (l : odict nat) es : view_entries ds k (sdict VDims l) = Some es -> viewed ds k l es.
Proof.
  revert es. induction l as [|[i r] l IH]; intros es H; [injection H as <-; constructor|].
  rewrite view_entries_cons in H. destruct (nth_error ds r) as [o|] eqn:Ho; [|discriminate].
  destruct (do_kind o) eqn:Hk, k; try discriminate;
    (destruct (view_dobj o) as [d|] eqn:Hd; [|discriminate];
     destruct (view_entries ds _ (sdict VDims l)) as [rest|] eqn:Hr; [|discriminate]; injection H as <-;
     constructor; [split; [reflexivity|exists o; auto]|apply IH; reflexivity]).
Qed.

Lemma view_all (s : machine) x : view s = Some x ->
  containers_of s = Some (pb_containers (in_pb x)) /\ items_of s = Some (pb_items (in_pb x)) /\
  x = mkInst (mkProblem (pb_containers (in_pb x)) (pb_items (in_pb x)) (c_rotation (m_cfg s)) (m_strategy s) (m_strip s)
                        (match m_height s with Some h => h | None => 0 end))
             (m_min s) (m_cnum s) (m_sol s) (m_objs s) (m_hist s).
Proof.
  unfold view, containers_of, items_of. destruct (view_struct s (m_containers s)); [|discriminate].
  destruct (view_struct s (m_items s)); [|discriminate]. intros [= <-]. auto.
Qed.

Lemma view_make (s : machine) cs is_ : containers_of s = Some cs -> items_of s = Some is_ ->
  view s = Some (mkInst (mkProblem cs is_ (c_rotation (m_cfg s)) (m_strategy s) (m_strip s)
                        (match m_height s with Some h => h | None => 0 end))
             (m_min s) (m_cnum s) (m_sol s) (m_objs s) (m_hist s)).
Proof. unfold view, containers_of, items_of. intros -> ->. reflexivity. Qed.

Theorem orient_refines (s : machine) x o : inv s -> view s = Some x ->
  exists s', run (OpOrient o) s = (s', Ok tt) /\ view s' = Some (orient_items ar o x).
Proof.
  intros I V. destruct (view_all s x V) as [V1 [V2 V3]].
  cbn [run]. unfold do_orient, orient_items. destruct o as [o|]; [|exists s; split; [reflexivity|exact V]].
  destruct (iv_items s I) as [oi [Hi [Ki _]]].
  destruct (iv_structs s I _ _ Hi) as [l [El [Hn1 [Hn2 Hl]]]]. rewrite Ki in Hl.
  assert (Hs : nth_error (m_structs s) (m_items s) = Some (mkSobj KItems (sdict VDims l))).
  { destruct oi. cbn in *. congruence. }
  unfold sbind at 1, sget at 1. unfold sbind at 1, get_sobj at 1. rewrite Hs. cbn [so_data].
  assert (Er : pb_rotation (in_pb x) = c_rotation (m_cfg s)) by (rewrite V3; reflexivity). rewrite Er.
  destruct (negb (c_rotation (m_cfg s))); [exists s; split; [reflexivity|exact V]|].
  assert (Hv : viewed (m_dims s) KItems l (pb_items (in_pb x))).
  { apply viewed_of. unfold items_of, view_struct in V2. rewrite Hs in V2. exact V2. }
  assert (G : forall turn, exists s', orient_each ar turn (m_items s) (map VStr (dkeys l)) s = (s', Ok tt) /\
     view s' = Some (orient_all ar (turned turn) (fun d => turn (dw d) (dl d)) x)).
  { intros turn. destruct (orient_each_eq turn (m_items s) l l (pb_items (in_pb x)) s I Hs) as [ds [F1 [F2 [F3 F4]]]].
    - intros i r Hin. apply In_dget; assumption.
    - assumption.
    - assumption.
    - eexists. split; [exact F1|]. unfold orient_all. destruct (existsb _ _); [|exact V].
      rewrite (view_make _ (pb_containers (in_pb x)) (map (fun kd => (fst kd, turned turn (snd kd))) (pb_items (in_pb x)))).
      + unfold set_items. rewrite V3. reflexivity.
      + rewrite <- V1.
        destruct (iv_containers s I) as [oc [Hc [Kc _]]].
        destruct (iv_structs s I _ _ Hc) as [lc [Elc [_ [_ Hlc]]]].
        unfold containers_of, view_struct. cbn [m_structs m_containers set_sol set_dims m_dims]. rewrite Hc, Elc.
        apply view_entries_ext. intros id r Hr. apply F3. intros Hin. unfold dvals in Hin. apply in_map_iff in Hin.
        destruct Hin as [[i0 r'] [Er' Hin]]. cbn in Er'. subst r'.
        destruct (Hl _ _ Hin) as [d1 [D1 [D2 _]]]. destruct (Hlc _ _ Hr) as [d2 [D3 [D4 _]]].
        rewrite D1 in D3. injection D3 as <-. congruence.
      + unfold items_of, view_struct. cbn [m_structs m_items set_sol set_dims m_dims]. rewrite Hs. cbn [so_kind so_data].
        apply viewed_view. exact F2. }
  rewrite vkeys_sdict.
  destruct (String.eqb o "wide"); [apply G|]. destruct (String.eqb o "long"); [apply G|]. exists s; split; [reflexivity|exact V].
Qed.

(** ** Sorting *)
Lemma distinct_sdict {A} (f : A -> pyval) (l : odict A) : NoDup (dkeys l) -> distinct_keys (sdict f l).
Proof.
  unfold distinct_keys. induction l as [|[i a] l IH]; intros H; [constructor|]. cbn in H. inversion H as [|? ? N1 N2]; subst.
  cbn. constructor; [|apply IH; assumption]. apply Forall_forall. intros [k v] Hin. unfold sdict in Hin.
  apply in_map_iff in Hin. destruct Hin as [[j b] [[= <- <-] Hin]]. cbn [fst]. rewrite key_eqb_strs.
  apply String.eqb_neq. intros ->. apply N1. unfold dkeys. change i with (fst (i, b)). apply in_map. assumption.
Qed.

Lemma dobj_value k o d : good_dobj o -> do_kind o = k -> view_dobj o = Some d ->
  dims_value k (VDict (do_data o)) d /\ distinct_keys (do_data o).
Proof.
  intros [l [El [Hn Hl]]] Hk Hd. assert (D : distinct_keys (do_data o)) by (rewrite El; apply distinct_sdict; assumption).
  split; [|assumption]. unfold view_dobj in Hd. rewrite Hk in Hd, Hl.
  destruct (vget (do_data o) (VStr (wkey k))) as [vw|] eqn:Ew; [|discriminate].
  destruct (vget (do_data o) (VStr (lkey k))) as [vl|] eqn:Ev; [|discriminate].
  destruct (as_int vw) as [zw|] eqn:Aw; [|discriminate]. destruct (as_int vl) as [zl|] eqn:Al; [|discriminate].
  injection Hd as <-.
  assert (M : forall i v, vget (do_data o) (VStr i) = Some v -> In (VStr i) (vkeys (do_data o)) /\ posval v).
  { intros i v E. split; [apply vmem_str; unfold vmem; rewrite E; reflexivity|].
    rewrite El, vget_sdict in E. destruct (dget l i) as [u|] eqn:Eu; [|discriminate]. injection E as <-.
    apply (Hl _ _ (dget_In _ _ _ Eu)). }
  destruct (M _ _ Ew) as [Iw Pw]. destruct (M _ _ Ev) as [Il Pl].
  assert (X : exactly_proper_keys k (do_data o)).
  { intros key. split; [|intros [-> | ->]; assumption]. rewrite El, vkeys_sdict. intros Hin.
    apply in_map_iff in Hin. destruct Hin as [i [<- Hin]]. unfold dkeys in Hin. apply in_map_iff in Hin.
    destruct Hin as [[j v] [E Hin]]. cbn in E. subst j. destruct (Hl _ _ Hin) as [[-> | ->] _]; auto. }
  destruct (two_keys k _ D X) as [a [b E]].
  assert (Eab : a = vw /\ b = vl).
  { assert (Ne : key_eqb (VStr (wkey k)) (VStr (lkey k)) = false /\ key_eqb (VStr (lkey k)) (VStr (wkey k)) = false)
      by (destruct k; split; reflexivity). destruct Ne as [Ne1 Ne2].
    assert (R : forall i, key_eqb (VStr i) (VStr i) = true) by (intros; apply key_eqb_str_l; reflexivity).
    destruct E as [E|E]; rewrite E in Ew, Ev; cbn [vget] in Ew, Ev; 
      rewrite ?Ne1, ?Ne2, ?R in Ew; rewrite ?Ne1, ?Ne2, ?R in Ev; split; congruence. }
  destruct Eab as [-> ->]. exists vw, vl. cbn [dw dl].
  split; [apply positive_int_spec; destruct Pw as [z [Pz Hz]]; rewrite Aw in Pz; injection Pz as <-; auto|].
  split; [apply positive_int_spec; destruct Pl as [z [Pz Hz]]; rewrite Al in Pz; injection Pz as <-; auto|].
  destruct E as [-> | ->]; auto.
Qed.

Lemma deepcopy_viewed ds k l es : (forall r o, nth_error ds r = Some o -> good_dobj o) -> viewed ds k l es ->
  exists c : odict pyval, deepcopy_entries ds (sdict VDims l) = Some (sdict (fun v => v) c) /\
    Forall2 (fun p q => fst p = fst q /\ dims_value k (snd p) (snd q) /\ genuine_dims (snd p)) c es.
Proof.
  intros Hg. induction 1 as [|[i r] [j d] l es [E [o [Ho [Hk Hd]]]] _ [c [IH1 IH2]]].
  - exists []. split; [reflexivity|constructor].
  - cbn [fst snd] in *. subst j. exists ((i, VDict (do_data o)) :: c).
    destruct (dobj_value k o d (Hg _ _ Ho) Hk Hd) as [D1 D2]. split.
    + change (sdict VDims ((i, r) :: l)) with ((VStr i, VDims r) :: sdict VDims l).
      cbn [deepcopy_entries]. rewrite Ho, IH1. reflexivity.
    + constructor; [|assumption]. cbn [fst snd]. split; [reflexivity|]. split; [assumption|]. intros x [= <-]. assumption.
Qed.

Lemma forall2_dget {A B} (R : A -> B -> Prop) (c : odict A) (es : odict B) i d :
  Forall2 (fun p q => fst p = fst q /\ R (snd p) (snd q)) c es -> NoDup (dkeys es) -> In (i, d) es ->
  exists v, dget c i = Some v /\ R v d.
Proof.
  induction 1 as [|[j a] [j' b] c es [E H] _ IH]; intros Hn Hin; [destruct Hin|]. cbn [fst snd] in *. subst j'.
  cbn in Hn. inversion Hn as [|? ? N1 N2]; subst. cbn [dget]. destruct Hin as [[= -> ->]|Hin].
  - rewrite String.eqb_refl. eauto.
  - destruct (String.eqb_spec i j) as [->|]; [|apply IH; assumption].
    exfalso. apply N1. unfold dkeys. change j with (fst (j, d)). apply in_map. assumption.
Qed.

Lemma py_sort_rev_perm {A} (lt : A -> A -> bool) b l : Permutation (py_sort_rev lt b l) l.
Proof. unfold py_sort_rev. destruct b; apply py_sort_perm. Qed.

Theorem sort_refines (s : machine) x sb : inv s -> view s = Some x ->
  match sort_items ar sb x with
  | Ok y => exists s', run (OpSort sb) s = (s', Ok tt) /\ view s' = Some y
  | Err e => run (OpSort sb) s = (s, Err e)
  end.
Proof.
  intros I V. destruct (view_all s x V) as [V1 [V2 V3]].
  cbn [run]. unfold do_sort, sort_items. destruct sb as [[by_ reverse]|]; [|exists s; split; [reflexivity|exact V]].
  destruct (iv_items s I) as [oi [Hi [Ki Ni]]].
  destruct (iv_structs s I _ _ Hi) as [l [El [Hn1 [Hn2 Hl]]]].
  assert (Hs : nth_error (m_structs s) (m_items s) = Some (mkSobj KItems (sdict VDims l))).
  { destruct oi. cbn in *. congruence. }
  erewrite !sbind_ok by (unfold solver_view; rewrite V; reflexivity).
  erewrite !sbind_ok by reflexivity.
  erewrite !sbind_ok by (unfold get_sobj; rewrite Hs; reflexivity). cbn [so_data].
  destruct (key_lt ar by_) as [lt|]; [|reflexivity].
  assert (Hv : viewed (m_dims s) KItems l (pb_items (in_pb x))).
  { apply viewed_of. unfold items_of, view_struct in V2. rewrite Hs in V2. exact V2. }
  destruct (deepcopy_viewed _ _ _ _ (iv_dims s I) Hv) as [c [Ec Hc]]. rewrite Ec.
  set (es := pb_items (in_pb x)) in *. set (sorted := py_sort_rev (elem_lt lt) reverse es).
  assert (Hp : Permutation sorted es) by apply py_sort_rev_perm.
  assert (Hne : NoDup (dkeys es)) by (rewrite <- (viewed_keys _ _ _ _ Hv); assumption).
  assert (Hns : NoDup (dkeys sorted)).
  { eapply Permutation_NoDup; [|exact Hne]. apply Permutation_map. symmetry. exact Hp. }
  set (d := map _ (map fst sorted)).
  assert (Hget : forall i dd, In (i, dd) sorted -> exists v, vget (sdict (fun v => v) c) (VStr i) = Some v /\
     dims_value KItems v dd /\ genuine_dims v).
  { intros i dd Hin. assert (Hin' : In (i, dd) es) by (eapply Permutation_in; [exact Hp|exact Hin]).
    destruct (forall2_dget (fun v q => dims_value KItems v q /\ genuine_dims v) c es i dd Hc Hne Hin') as [v [Ev Hv']].
    exists v. rewrite vget_sdict, Ev. split; [reflexivity|exact Hv']. }
  assert (Hd : d = sdict (fun v => v) (map (fun p => (fst p, match vget (sdict (fun v => v) c) (VStr (fst p)) with
                                             | Some v => v | None => VNone end)) sorted)).
  { unfold d, sdict. rewrite !map_map. reflexivity. }
  assert (Hsv : structure_value KItems (VDict d) sorted).
  { exists d. split; [reflexivity|]. split.
    - unfold d. destruct sorted as [|p t] eqn:Es; [|discriminate].
      apply Permutation_nil in Hp. exfalso. apply Ni. rewrite El. rewrite Hp in Hv. inversion Hv. reflexivity.
    - rewrite Hd. clear -Hget. induction sorted as [|[i dd] t IH]; [constructor|]. cbn. constructor.
      + cbn. split; [reflexivity|]. destruct (Hget i dd (or_introl eq_refl)) as [v [E [H _]]]. rewrite E. exact H.
      + apply IH. intros. apply Hget. right. assumption. }
  assert (Hgen : genuine (VDict d)).
  { intros d0 [= <-]. split.
    - rewrite Hd. apply distinct_sdict. unfold dkeys. rewrite map_map. exact Hns.
    - intros id w Hin. rewrite Hd in Hin. unfold sdict in Hin. rewrite map_map in Hin. apply in_map_iff in Hin.
      destruct Hin as [[i dd] [[= <- <-] Hin]]. cbn [fst snd]. destruct (Hget i dd Hin) as [v [E [_ G]]]. unfold sdict in E. rewrite E. exact G. }
  destruct (new_structure_accepts KItems (VDict d) sorted s Hgen Hsv) as [s1 [E1 [W1 W2]]].
  eexists. split; [unfold assign_items; erewrite sbind_ok by exact E1; reflexivity|].
  pose proof E1 as E2. apply new_structure_cases in E2.
  destruct E2 as [[e [? [? [X _]]]]|[data [new [d0 [_ [_ [_ [F [He [_ [_ Es1]]]]]]]]]]]; [discriminate|].
  rewrite (view_make _ (pb_containers (in_pb x)) sorted).
  - rewrite Es1. unfold set_items. rewrite V3. reflexivity.
  - rewrite <- V1. rewrite Es1. destruct (iv_containers s I) as [oc [Hoc [Kc _]]].
    unfold containers_of, view_struct. cbn [m_structs m_containers set_items_ref set_structs set_dims set_sol m_dims].
    rewrite (nth_error_keep _ _ _ _ Hoc), Hoc.
    destruct (iv_structs s I _ _ Hoc) as [lc [-> [_ [_ Hlc]]]]. apply view_entries_ext.
    intros id r Hr. destruct (Hlc _ _ Hr) as [o [Ho _]]. rewrite Ho. apply nth_error_keep. assumption.
  - exact W1.
Qed.

(** ** The solver *)
Definition same_problem (x y : inst ar) : Prop :=
  pb_containers (in_pb y) = pb_containers (in_pb x) /\ pb_items (in_pb y) = pb_items (in_pb x) /\
  pb_rotation (in_pb y) = pb_rotation (in_pb x) /\ pb_strip (in_pb y) = pb_strip (in_pb x) /\
  in_min y = in_min x /\ in_cnum y = in_cnum x /\
  (pb_strip (in_pb x) = false -> pb_height (in_pb y) = pb_height (in_pb x)).

Lemma view_put_back (s : machine) x y : view s = Some x -> same_problem x y -> view (put_back_state s y) = Some y.
Proof.
  intros V [H1 [H2 [H3 [H4 [H5 [H6 H7]]]]]]. destruct (view_all s x V) as [V1 [V2 V3]].
  rewrite (view_make (put_back_state s y) (pb_containers (in_pb x)) (pb_items (in_pb x)) V1 V2). cbn.
  rewrite V3 in H3, H4, H5, H6, H7. cbn in H3, H4, H5, H6, H7.
  destruct y as [[c i ro g st h] mi cn so ob hi]. cbn in *. subst.
  destruct (m_strip s); [reflexivity|]. rewrite H7 by reflexivity. reflexivity.
Qed.

Theorem solve_refines (s : machine) x sq : view s = Some x ->
  match inst_solve ar x sq with
  | Ok y => run (OpSolve sq) s = (put_back_state s y, Ok tt) /\ view (put_back_state s y) = Some y
  | Err e => run (OpSolve sq) s = (s, Err e)
  end.
Proof.
  intros V. cbn [run]. unfold do_solve. erewrite !sbind_ok by (unfold solver_view; rewrite V; reflexivity). unfold sbind, slift.
  destruct (inst_solve ar x sq) as [y|e] eqn:E; [|reflexivity]. split; [reflexivity|].
  apply (view_put_back s x); [assumption|]. unfold inst_solve in E.
  destruct (solve ar (in_pb x) sq) as [[sol objs]|]; [|discriminate]. injection E as <-. repeat split.
Qed.

Theorem local_search_refines (s : machine) x ck throttle : inv s -> view s = Some x ->
  exists y clk log, local_search ar ck (c_limit (m_cfg s)) throttle None x 0 = Ok (y, clk, log) /\
    run (OpLocalSearch ck throttle) s = (put_back_state s y, Ok tt) /\ view (put_back_state s y) = Some y.
Proof.
  intros I V. pose proof (inv_valid s x I V) as Hv.
  destruct (search_step ar laws x Hv ck (c_limit (m_cfg s)) throttle None 0) as [y [clk [log [_ [_ [E _]]]]]].
  exists y, clk, log. split; [exact E|]. split.
  - cbn [run]. unfold do_local_search, sbind at 1, solver_view at 1. rewrite V. unfold sbind, sget, slift. rewrite E. reflexivity.
  - apply (view_put_back s x); [assumption|].
    destruct (C15_configuration_kept ar laws x Hv _ _ _ _ _ _ _ _ E) as [K1 [K2 [K3 [K4 [K5 [K6 [K7 K8]]]]]]].
    split; [assumption|]. split; [assumption|]. auto.
Qed.

Lemma inv_next o (s s' : machine) r : inv s -> uses_ior o = false -> run o s = (s', r) -> inv s'.
Proof. intros I Ho E. eapply star_inv; [exact I|]. eapply run_star; eassumption. Qed.

Theorem hypersearch_refines (s : machine) x ck throttle o sb strategies : inv s -> view s = Some x ->
  one_worker (c_workers (m_cfg s)) = true ->
  match hypersearch ar ck (c_limit (m_cfg s)) throttle o sb strategies x 0 with
  | Ok r => exists s', run (OpHypersearch ck throttle o sb strategies) s = (s', Ok tt) /\
              view s' = Some (hr_inst r) /\ m_best s' = Some (hr_best_strategy r)
  | Err e => run (OpHypersearch ck throttle o sb strategies) s = (s, Err e)
  end.
Proof.
  intros I V Hw. assert (R : run (OpHypersearch ck throttle o sb strategies) s = do_hypersearch ar ck throttle o sb strategies s).
  { cbn [run]. unfold sbind at 1, sget at 1. rewrite Hw. reflexivity. }
  rewrite R. clear R.
  unfold hypersearch, do_hypersearch. pose proof (sort_refines s x sb I V) as Hs. cbn [run] in Hs.
  destruct (sort_items ar sb x) as [x1|e]; cbn [bind]; [|erewrite sbind_err by exact Hs; reflexivity].
  destruct Hs as [s1 [E1 V1]]. erewrite sbind_ok by exact E1.
  assert (I1 : inv s1) by (eapply (inv_next (OpSort sb)); [exact I|reflexivity|exact E1]).
  assert (C1 : m_cfg s1 = m_cfg s) by (eapply (k_sort m_cfg); [..|exact E1]; reflexivity).
  destruct (orient_refines s1 x1 o I1 V1) as [s2 [E2 V2]].
  assert (I2 : inv s2) by (eapply (inv_next (OpOrient o)); [exact I1|reflexivity|exact E2]).
  assert (C2 : m_cfg s2 = m_cfg s1) by (eapply (k_orient m_cfg); [..|exact E2]; reflexivity).
  erewrite sbind_ok by exact E2. unfold sbind at 1, solver_view at 1. rewrite V2. unfold sbind at 1, sget at 1.
  rewrite C2, C1. pose proof (inv_valid s2 _ I2 V2) as Hv2.
  set (x2 := orient_items ar o x1) in *.
  destruct (single_process_run ar laws x2 Hv2 ck (c_limit (m_cfg s)) throttle (ck 0%nat) strategies 1)
    as [s0 [h [imp [log [_ [E3 [Hi _]]]]]]]. rewrite E3. cbn [bind].
  unfold sbind at 1, slift at 1. cbn [fst].
  eexists. split; [reflexivity|]. cbn [hr_inst hr_best_strategy]. split; [|reflexivity].
  change (view (put_back_state s2 (set_solution (hs_st h) (fst (hs_ret h)) (snd (hs_ret h)))) =
          Some (set_solution (hs_st h) (fst (hs_ret h)) (snd (hs_ret h)))).
  apply (view_put_back s2 x2); [assumption|].
  destruct (hi_config _ _ _ _ Hi) as [D1 [D2 D3]]. pose proof (hi_height _ _ _ _ Hi) as Hh.
  unfold same_problem. cbn [in_pb set_solution in_min in_cnum]. rewrite D1. cbn.
  repeat (split; [reflexivity || assumption|]). intros Es. unfold height_within in Hh. rewrite Es in Hh. exact Hh.
Qed.
End Refine.
Print Assumptions hypersearch_refines.
