(** * Invariant of the machine and the elementary steps its operations consist of. *)
From Coq Require Import ZArith String List Bool Lia Permutation.
From Verif Require Import Py ProofsPy Arith Construct Spec LocalSearch SpecSearch Values ProofsVal
  Settings Instance SpecInstance.
Import ListNotations.
Open Scope list_scope.
Open Scope Z_scope.

(** ** Objects *)
Definition posval (v : pyval) : Prop := exists z, as_int v = Some z /\ 0 < z.

Definition good_data (k : kind) (data : vdict) : Prop :=
  exists l : odict pyval, data = sdict (fun v => v) l /\ NoDup (dkeys l) /\
    forall i v, In (i, v) l -> (i = wkey k \/ i = lkey k) /\ posval v.
Definition complete_data (k : kind) (data : vdict) : Prop :=
  vmem data (VStr (wkey k)) = true /\ vmem data (VStr (lkey k)) = true.

Definition good_dobj (o : dobj) : Prop := good_data (do_kind o) (do_data o).
Definition complete (o : dobj) : Prop := complete_data (do_kind o) (do_data o).

Definition entries_ok (ds : list dobj) (k : kind) (data : vdict) : Prop :=
  exists l : odict nat, data = sdict VDims l /\ NoDup (dkeys l) /\ NoDup (dvals l) /\
    forall id r, In (id, r) l -> exists o, nth_error ds r = Some o /\ do_kind o = k /\ complete o.

Lemma wkey_lkey k : wkey k <> lkey k.
Proof. destruct k; discriminate. Qed.

Lemma good_view o : good_dobj o -> complete o -> exists d, view_dobj o = Some d /\ pos_dims d.
Proof.
  intros [l [E [Hn H]]] [C1 C2]. unfold view_dobj, vmem in *. rewrite E in *. rewrite !vget_sdict in *.
  destruct (dget l (wkey (do_kind o))) as [w|] eqn:Ew; [|discriminate].
  destruct (dget l (lkey (do_kind o))) as [v|] eqn:Ev; [|discriminate]. cbn [option_map].
  destruct (H _ _ (dget_In _ _ _ Ew)) as [_ [zw [-> Hw]]].
  destruct (H _ _ (dget_In _ _ _ Ev)) as [_ [zv [-> Hz]]].
  eexists. split; [reflexivity|]. split; assumption.
Qed.

Lemma good_vset k data key v :
  good_data k data -> is_proper k key = true -> posval v -> good_data k (vset data key v).
Proof.
  intros [l [-> [Hn H]]] Hp Hv. unfold is_proper in Hp.
  assert (Hk : exists i, key = VStr i /\ (i = wkey k \/ i = lkey k)).
  { apply orb_true_iff in Hp. destruct Hp as [Hp|Hp]; apply key_eqb_str_r in Hp; eauto. }
  destruct Hk as [i [-> Hi]]. exists (dset l i v). split; [apply (vset_sdict (fun v => v))|].
  split; [apply NoDup_dset; assumption|]. intros j u Hin.
  apply In_dget in Hin; [|apply NoDup_dset; assumption].
  destruct (string_dec j i) as [->|Hne].
  - rewrite dget_dset_same in Hin. injection Hin as <-. split; assumption.
  - rewrite dget_dset_other in Hin by congruence. apply H. apply dget_In. assumption.
Qed.

Lemma complete_vset k data key v :
  complete_data k data -> is_proper k key = true -> complete_data k (vset data key v).
Proof.
  unfold complete_data, vmem, is_proper. intros [C1 C2] Hp.
  assert (Hk : exists i, key = VStr i).
  { apply orb_true_iff in Hp. destruct Hp as [Hp|Hp]; apply key_eqb_str_r in Hp; eauto. }
  destruct Hk as [i ->].
  assert (G : forall d x, match vget d (VStr x) with Some _ => true | None => false end = true ->
              match vget (vset d (VStr i) v) (VStr x) with Some _ => true | None => false end = true).
  { induction d as [|[k' v'] d IH]; intros x; [discriminate|]. cbn [vset].
    destruct (key_eqb (VStr i) k') eqn:E1.
    - apply key_eqb_str_l in E1. subst k'. cbn [vget]. destruct (key_eqb (VStr x) (VStr i)); auto.
    - cbn [vget]. destruct (key_eqb (VStr x) k'); auto. }
  split; apply G; assumption.
Qed.

Lemma entries_ok_keep ds k data ds' :
  entries_ok ds k data ->
  (forall r o, nth_error ds r = Some o -> exists o', nth_error ds' r = Some o' /\ do_kind o' = do_kind o /\
      (complete o -> complete o')) ->
  entries_ok ds' k data.
Proof.
  intros [l [E [H1 [H2 H3]]]] H. exists l. split; [assumption|]. split; [assumption|].
  split; [assumption|]. intros id r Hin. destruct (H3 id r Hin) as [o [Ho [Hk Hc]]].
  destruct (H r o Ho) as [o' [Ho' [Hk' Hc']]]. exists o'. split; [assumption|]. split; [congruence|auto].
Qed.

(** ** Views *)
Lemma view_entries_cons ds k id r l :
  view_entries ds k (sdict VDims ((id, r) :: l)) =
  match nth_error ds r with
  | Some o => match do_kind o, k with
              | KContainers, KContainers | KItems, KItems =>
                  match view_dobj o, view_entries ds k (sdict VDims l) with
                  | Some x, Some rest => Some ((id, x) :: rest)
                  | _, _ => None
                  end
              | _, _ => None
              end
  | None => None
  end.
Proof. reflexivity. Qed.

Lemma view_entries_ok ds k data :
  (forall r o, nth_error ds r = Some o -> good_dobj o) -> entries_ok ds k data ->
  exists v, view_entries ds k data = Some v /\ valid_items v /\ length v = length data /\
            vkeys data = map VStr (dkeys v).
Proof.
  intros Hg [l [-> [H1 [H2 H3]]]]. rewrite vkeys_sdict, length_sdict.
  enough (G : exists v, view_entries ds k (sdict VDims l) = Some v /\ dkeys v = dkeys l /\
            forall i d, In (i, d) v -> pos_dims d).
  { destruct G as [v [G1 [G2 G3]]]. exists v. split; [assumption|]. split; [split; [congruence|assumption]|].
    split; [|congruence]. unfold dkeys in G2. apply (f_equal (@length _)) in G2. rewrite !map_length in G2. assumption. }
  clear H1 H2. induction l as [|[id r] l IH].
  - exists []. split; [reflexivity|]. split; [reflexivity|]. intros ? ? [].
  - destruct IH as [v [G1 [G2 G3]]]; [intros; eapply H3; right; eassumption|].
    rewrite view_entries_cons. destruct (H3 id r (or_introl eq_refl)) as [o [Ho [Hk Hc]]].
    rewrite Ho. destruct (good_view o (Hg _ _ Ho) Hc) as [d [Ed Hd]]. rewrite Ed, G1.
    exists ((id, d) :: v). split.
    + rewrite Hk. destruct k; reflexivity.
    + split; [simpl; congruence|]. intros i d' [[= <- <-]|Hin]; [assumption|eauto].
Qed.

Lemma view_entries_ext ds ds' k (l : odict nat) :
  (forall id r, In (id, r) l -> nth_error ds' r = nth_error ds r) ->
  view_entries ds' k (sdict VDims l) = view_entries ds k (sdict VDims l).
Proof.
  induction l as [|[id r] l IH]; intros H; [reflexivity|].
  rewrite !view_entries_cons. rewrite (H id r (or_introl eq_refl)).
  rewrite IH by (intros; apply (H id0); right; assumption). reflexivity.
Qed.

Section Machine.
Context {ar : arith}.
Notation machine := (machine ar).

Record inv (s : machine) : Prop := {
  iv_dims : forall h o, nth_error (m_dims s) h = Some o -> good_dobj o;
  iv_structs : forall h o, nth_error (m_structs s) h = Some o -> entries_ok (m_dims s) (so_kind o) (so_data o);
  iv_items : exists o, nth_error (m_structs s) (m_items s) = Some o /\ so_kind o = KItems /\ so_data o <> [];
  iv_containers : exists o, nth_error (m_structs s) (m_containers s) = Some o /\ so_kind o = KContainers /\ so_data o <> [];
  iv_strip : m_strip s = true ->
    exists r, nth_error (m_structs s) (m_containers s) = Some (mkSobj KContainers [(VStr strip_id, VDims r)]);
  iv_heights : heights_ok s;
  iv_fresh : m_sol s = [] \/ exists cs is_, containers_of s = Some cs /\ items_of s = Some is_ /\
    a_packing cs is_ (m_strip s) (m_sol s);
  iv_made : no_solution s \/ exists cs is_, containers_of s = Some cs /\ items_of s = Some is_ /\
    a_construction cs is_ (m_strip s) (m_sol s) (m_objs s)
}.

(** ** Elementary steps *)

(** The effect of [struct_reset] on the number of containers. *)
Definition recount (k : kind) (n : Z) (s : machine) : machine :=
  match k with KContainers => set_cnum s n | KItems => s end.

Definition put_back_state (s : machine) (y : inst ar) : machine :=
  set_sol (set_history (set_pp_strategy
      (set_heights s (if m_strip s then Some (pb_height (in_pb y)) else m_height s) (m_min s))
      (pb_strategy (in_pb y))) (in_hist y)) (in_sol y) (in_objs y).

Definition solver_result (x y : inst ar) : Prop :=
  a_packing (pb_containers (in_pb x)) (pb_items (in_pb x)) (pb_strip (in_pb x)) (in_sol y) /\
  (pb_strip (in_pb x) = true -> 1 <= pb_height (in_pb y) /\
     forall m, in_min x = Some m -> 1 <= m <= pb_height (in_pb y)) /\
  a_construction (pb_containers (in_pb x)) (pb_items (in_pb x)) (pb_strip (in_pb x)) (in_sol y) (in_objs y).

(** [P (Some h)]: the structure [h] may change; [P None]: the containers may be replaced;
    [Q]: a solver may run. *)
Inductive micro (P : option nat -> Prop) (Q : Prop) : machine -> machine -> Prop :=
| mi_dims s o : good_dobj o -> micro P Q s (set_dims s (m_dims s ++ [o]))
| mi_reset s : micro P Q s (set_sol s [] [])
| mi_dim_set s h o key v :
    nth_error (m_dims s) h = Some o ->
    (m_strip s = true -> do_kind o = KContainers -> do_data o = []) ->
    is_proper (do_kind o) key = true -> posval v ->
    micro P Q s (set_sol (set_dims s (list_set (m_dims s) h (mkDobj (do_kind o) (vset (do_data o) key v)))) [] [])
| mi_struct s o : entries_ok (m_dims s) (so_kind o) (so_data o) ->
    micro P Q s (set_structs s (m_structs s ++ [o]))
| mi_struct_set s h o id r d :
    P (Some h) -> nth_error (m_structs s) h = Some o ->
    (m_strip s = true -> so_kind o = KItems) ->
    nth_error (m_dims s) r = Some d -> do_kind d = so_kind o -> complete d ->
    ~ In (VDims r) (map snd (so_data o)) ->
    let data := vset (so_data o) (VStr id) (VDims r) in
    micro P Q s (recount (so_kind o) (zlen data)
                   (set_sol (set_structs s (list_set (m_structs s) h (mkSobj (so_kind o) data))) [] []))
| mi_struct_del s h o id :
    P (Some h) -> nth_error (m_structs s) h = Some o -> zlen (so_data o) <> 1 ->
    In (VStr id) (vkeys (so_data o)) ->
    let data := vdel (so_data o) (VStr id) in
    micro P Q s (recount (so_kind o) (zlen data)
                   (set_sol (set_structs s (list_set (m_structs s) h (mkSobj (so_kind o) data))) [] []))
| mi_items_ref s h o :
    nth_error (m_structs s) h = Some o -> so_kind o = KItems -> so_data o <> [] -> no_solution s ->
    micro P Q s (set_items_ref s h)
| mi_containers_ref s h o v :
    P None -> nth_error (m_structs s) h = Some o -> so_kind o = KContainers -> so_data o <> [] ->
    (forall d, v = VDict d -> distinct_keys d -> zlen (so_data o) = zlen d) ->
    no_solution s -> m_strip s = false ->
    micro P Q s (set_cnum (set_containers_ref s h) (vlen v))
| mi_heights s h m :
    (m_strip s = true -> exists z, h = Some z /\ 1 <= z /\ forall m', m = Some m' -> 1 <= m' <= z) ->
    micro P Q s (set_heights s h m)
| mi_strategy s g : micro P Q s (set_pp_strategy s g)
| mi_cfg s c : micro P Q s (set_cfg s c)
| mi_best s g : Q -> micro P Q s (set_best s g)
| mi_put s x y : Q -> view s = Some x -> solver_result x y -> micro P Q s (put_back_state s y).

Inductive star (P : option nat -> Prop) (Q : Prop) : machine -> machine -> Prop :=
| star_nil s : star P Q s s
| star_cons s1 s2 s3 : micro P Q s1 s2 -> star P Q s2 s3 -> star P Q s1 s3.

Lemma star_one P Q s s' : micro P Q s s' -> star P Q s s'.
Proof. intros. econstructor; [eassumption|constructor]. Qed.
Lemma star_app P Q s1 s2 s3 : star P Q s1 s2 -> star P Q s2 s3 -> star P Q s1 s3.
Proof. induction 1; [auto|]. intros. econstructor; eauto. Qed.

(** ** Preservation *)
Definition same_views (s s' : machine) : Prop :=
  items_of s' = items_of s /\ containers_of s' = containers_of s /\ m_strip s' = m_strip s.

Lemma fresh_same_views s s' : inv s -> same_views s s' -> m_sol s' = m_sol s ->
  m_sol s' = [] \/ exists cs is_, containers_of s' = Some cs /\ items_of s' = Some is_ /\
    a_packing cs is_ (m_strip s') (m_sol s').
Proof.
  intros I [V1 [V2 V3]] E. rewrite E, V1, V2, V3. apply (iv_fresh s I).
Qed.

Lemma made_same_views s s' : inv s -> same_views s s' -> m_sol s' = m_sol s -> m_objs s' = m_objs s ->
  no_solution s' \/ exists cs is_, containers_of s' = Some cs /\ items_of s' = Some is_ /\
    a_construction cs is_ (m_strip s') (m_sol s') (m_objs s').
Proof.
  intros I [V1 [V2 V3]] E1 E2. unfold no_solution. rewrite E1, E2, V1, V2, V3. apply (iv_made s I).
Qed.

Lemma view_struct_dims s d h : inv s ->
  (forall r o, nth_error (m_dims s) r = Some o -> nth_error d r = Some o) ->
  view_struct (set_dims s d) h = view_struct s h.
Proof.
  intros I H. unfold view_struct. cbn [m_structs set_dims].
  destruct (nth_error (m_structs s) h) as [o|] eqn:E; [|reflexivity].
  destruct (iv_structs s I h o E) as [l [El [_ [_ Hl]]]]. rewrite El. cbn [m_dims set_dims].
  apply view_entries_ext. intros id r Hin. destruct (Hl id r Hin) as [d' [Hd _]].
  rewrite Hd. apply H. assumption.
Qed.

Lemma micro_views P Q s s' : inv s -> micro P Q s s' ->
  (same_views s s' /\ (m_sol s' = m_sol s /\ m_objs s' = m_objs s \/ Q)) \/ no_solution s'.
Proof.
  intros I M. destruct M.
  - left. split; [|auto]. split; [|split]; [| |reflexivity].
    + apply (view_struct_dims s _ _ I). intros. apply nth_error_keep. assumption.
    + apply (view_struct_dims s _ _ I). intros. apply nth_error_keep. assumption.
  - right. split; reflexivity.
  - right. split; reflexivity.
  - left. split; [|auto]. destruct (iv_items s I) as [oi [Hi _]]. destruct (iv_containers s I) as [oc [Hc _]].
    split; [|split]; [| |reflexivity].
    + unfold items_of, view_struct. cbn [m_structs m_items set_structs m_dims].
      rewrite Hi. erewrite nth_error_keep by eassumption. reflexivity.
    + unfold containers_of, view_struct. cbn [m_structs m_containers set_structs m_dims].
      rewrite Hc. erewrite nth_error_keep by eassumption. reflexivity.
  - right. unfold recount. destruct (so_kind o); split; reflexivity.
  - right. unfold recount. destruct (so_kind o); split; reflexivity.
  - right. assumption.
  - right. assumption.
  - left. split; [|auto]. repeat split.
  - left. split; [|auto]. repeat split.
  - left. split; [|auto]. repeat split.
  - left. split; [|auto]. repeat split.
  - left. split; [|auto]. repeat split.
Qed.

Lemma micro_strip P Q s s' : micro P Q s s' -> m_strip s' = m_strip s.
Proof. intros []; try reflexivity; unfold recount; destruct (so_kind o); reflexivity. Qed.

(** A list longer than one, or other than one, keeps an element. *)
Lemma vdel_nonempty data id : zlen data <> 1 -> In (VStr id) (vkeys data) -> vdel data (VStr id) <> [].
Proof.
  destruct data as [|[k v] [|[k2 v2] t]]; intros H1 H2.
  - destruct H2.
  - exfalso. apply H1. reflexivity.
  - cbn [vdel]. destruct (key_eqb (VStr id) k); discriminate.
Qed.

Lemma In_dvals_in {A} (l : odict A) i a : In (i, a) l -> In a (dvals l).
Proof. intros H. change a with (snd (i, a)). apply in_map. assumption. Qed.

Lemma NoDup_dvals_dset (l : odict nat) i r : NoDup (dvals l) -> ~ In r (dvals l) -> NoDup (dvals (dset l i r)).
Proof.
  induction l as [|[j b] l IH]; intros H1 H2; cbn in *.
  - constructor; [auto|constructor].
  - inversion H1 as [|? ? N1 N2]; subst. destruct (String.eqb i j); cbn.
    + constructor; tauto.
    + constructor; [|apply IH; tauto]. intros Hin. apply In_dvals_dset in Hin. destruct Hin as [->|Hin]; tauto.
Qed.

Lemma In_dset {A} (l : odict A) i a j b : In (j, b) (dset l i a) -> (j = i /\ b = a) \/ In (j, b) l.
Proof.
  induction l as [|[k c] l IH]; cbn.
  - intros [[= <- <-]|[]]. auto.
  - destruct (String.eqb_spec i k) as [->|Hne]; cbn.
    + intros [[= <- <-]|H]; auto.
    + intros [[= <- <-]|H]; auto. apply IH in H. tauto.
Qed.

Lemma entries_ok_set ds k data id r o :
  entries_ok ds k data -> nth_error ds r = Some o -> do_kind o = k -> complete o ->
  ~ In (VDims r) (map snd data) -> entries_ok ds k (vset data (VStr id) (VDims r)).
Proof.
  intros [l [-> [H1 [H2 H3]]]] Ho Hk Hc Hn. exists (dset l id r). split; [apply vset_sdict|].
  split; [apply NoDup_dset; assumption|]. split.
  - apply NoDup_dvals_dset; [assumption|]. intros Hin. apply Hn. unfold sdict. rewrite map_map. cbn.
    unfold dvals in Hin. apply in_map_iff in Hin. destruct Hin as [p [Hp Hin]].
    apply in_map_iff. exists p. split; [congruence|assumption].
  - intros i r' Hin. apply In_dset in Hin. destruct Hin as [[-> ->]|Hin]; eauto.
Qed.

Lemma entries_ok_del ds k data id : entries_ok ds k data -> entries_ok ds k (vdel data (VStr id)).
Proof.
  intros [l [-> [H1 [H2 H3]]]]. exists (ddel l id). split; [apply vdel_sdict|].
  split; [apply NoDup_ddel; assumption|]. split; [|intros; eapply H3; eapply ddel_incl; eassumption].
  clear H1 H3. induction l as [|[j b] l IH]; cbn in *; [constructor|].
  inversion H2 as [|? ? N1 N2]; subst. destruct (String.eqb id j); [assumption|].
  cbn. constructor; [|auto]. intros Hin. apply N1. unfold dvals in *.
  apply in_map_iff in Hin. destruct Hin as [p [Hp Hin]]. apply in_map_iff. exists p.
  split; [assumption|eapply ddel_incl; eassumption].
Qed.

Lemma iv_structs_dims s d :
  inv s ->
  (forall r o, nth_error (m_dims s) r = Some o -> exists o', nth_error d r = Some o' /\
      do_kind o' = do_kind o /\ (complete o -> complete o')) ->
  forall h o, nth_error (m_structs s) h = Some o -> entries_ok d (so_kind o) (so_data o).
Proof. intros I H h o Ho. eapply entries_ok_keep; [apply (iv_structs s I _ _ Ho)|assumption]. Qed.

Lemma vset_nonempty d k v : vset d k v <> [].
Proof. destruct d as [|[k' v'] d]; cbn; [discriminate|]. destruct (key_eqb k k'); discriminate. Qed.

Lemma recount_fields k n s :
  m_dims (recount k n s) = m_dims s /\ m_structs (recount k n s) = m_structs s /\
  m_items (recount k n s) = m_items s /\ m_containers (recount k n s) = m_containers s /\
  m_strip (recount k n s) = m_strip s /\ m_height (recount k n s) = m_height s /\
  m_min (recount k n s) = m_min s /\ m_sol (recount k n s) = m_sol s.
Proof. destruct k; repeat split. Qed.

(** Replacing the data of one structure. *)
Lemma inv_struct_change s h o data s' :
  inv s -> nth_error (m_structs s) h = Some o ->
  entries_ok (m_dims s) (so_kind o) data -> (so_data o <> [] -> data <> []) ->
  (m_strip s = true -> h = m_containers s -> data = so_data o) ->
  m_dims s' = m_dims s -> m_structs s' = list_set (m_structs s) h (mkSobj (so_kind o) data) ->
  m_items s' = m_items s -> m_containers s' = m_containers s -> m_strip s' = m_strip s ->
  m_height s' = m_height s -> m_min s' = m_min s -> m_sol s' = [] -> m_objs s' = [] -> inv s'.
Proof.
  intros I Ho He Hne Hst E1 E2 E3 E4 E5 E6 E7 E8 E9.
  assert (Hl : (h < length (m_structs s))%nat) by (apply nth_error_Some; congruence).
  assert (G : forall n o1, nth_error (m_structs s) n = Some o1 ->
     exists o2, nth_error (m_structs s') n = Some o2 /\ so_kind o2 = so_kind o1 /\ (so_data o1 <> [] -> so_data o2 <> [])).
  { intros n o1 Hn. rewrite E2. destruct (Nat.eq_dec h n) as [->|Hd].
    - rewrite list_set_same by assumption. eexists. split; [reflexivity|]. rewrite Ho in Hn. injection Hn as <-. auto.
    - rewrite list_set_other by assumption. eauto. }
  constructor.
  - rewrite E1. apply (iv_dims s I).
  - rewrite E1, E2. intros n o1 Hn. apply list_set_nth in Hn. destruct Hn as [[-> [-> _]]|[_ Hn]]; [exact He|].
    apply (iv_structs s I _ _ Hn).
  - rewrite E3. destruct (iv_items s I) as [oi [H1 [H2 H3]]]. destruct (G _ _ H1) as [o2 [G1 [G2 G3]]].
    exists o2. split; [assumption|]. split; [congruence|auto].
  - rewrite E4. destruct (iv_containers s I) as [oi [H1 [H2 H3]]]. destruct (G _ _ H1) as [o2 [G1 [G2 G3]]].
    exists o2. split; [assumption|]. split; [congruence|auto].
  - rewrite E5, E4. intros Hs. destruct (iv_strip s I Hs) as [r Hr]. exists r. rewrite E2.
    destruct (Nat.eq_dec h (m_containers s)) as [->|Hd].
    + rewrite list_set_same by assumption. rewrite (Hst Hs eq_refl). rewrite Ho in Hr. injection Hr as ->. reflexivity.
    + rewrite list_set_other by assumption. assumption.
  - unfold heights_ok. rewrite E5, E6, E7. apply (iv_heights s I).
  - left. assumption.
  - left. split; assumption.
Qed.

Lemma micro_inv P Q s s' : inv s -> micro P Q s s' -> inv s'.
Proof.
  intros I M. pose proof (micro_views P Q s s' I M) as V.
  destruct M.
  - (* dims *)
    assert (Hk : forall r d, nth_error (m_dims s) r = Some d -> exists o', nth_error (m_dims s ++ [o]) r = Some o' /\
        do_kind o' = do_kind d /\ (complete d -> complete o')).
    { intros r d Hd. exists d. split; [apply nth_error_keep; assumption|auto]. }
    constructor; try apply I.
    + cbn. intros h d Hd. apply nth_error_snoc in Hd. destruct Hd as [Hd|[_ ->]]; [apply (iv_dims s I _ _ Hd)|assumption].
    + cbn. apply iv_structs_dims; assumption.
    + destruct V as [[V _]|[V _]]; [|left; assumption]. apply (fresh_same_views s); [assumption|assumption|reflexivity].
    + destruct V as [[V _]|V]; [|left; assumption]. apply (made_same_views s); [assumption|assumption|reflexivity|reflexivity].
  - (* reset *)
    constructor; try apply I; left; [reflexivity|split; reflexivity].
  - (* dim_set *)
    constructor; try apply I.
    + cbn. intros n d Hd. apply list_set_nth in Hd. destruct Hd as [[-> [-> _]]|[_ Hd]]; [|apply (iv_dims s I _ _ Hd)].
      apply good_vset; [apply (iv_dims s I _ _ H)|assumption|assumption].
    + cbn. apply iv_structs_dims; [assumption|]. intros r d Hd. destruct (Nat.eq_dec h r) as [->|Hne].
      * rewrite list_set_same by (apply nth_error_Some; congruence). eexists. split; [reflexivity|].
        rewrite H in Hd. injection Hd as <-. split; [reflexivity|]. intros C. apply complete_vset; assumption.
      * rewrite list_set_other by assumption. eauto.
    + left. reflexivity.
    + left. split; reflexivity.
  - (* struct *)
    constructor; try apply I.
    + cbn. intros h d Hd. apply nth_error_snoc in Hd. destruct Hd as [Hd|[_ ->]]; [apply (iv_structs s I _ _ Hd)|assumption].
    + destruct (iv_items s I) as [oi [H1 H2]]. exists oi. split; [apply nth_error_keep; assumption|assumption].
    + destruct (iv_containers s I) as [oi [H1 H2]]. exists oi. split; [apply nth_error_keep; assumption|assumption].
    + intros Hs. destruct (iv_strip s I Hs) as [r Hr]. exists r. apply nth_error_keep. assumption.
    + destruct V as [[V _]|[V _]]; [|left; assumption]. apply (fresh_same_views s); [assumption|assumption|reflexivity].
    + destruct V as [[V _]|V]; [|left; assumption]. apply (made_same_views s); [assumption|assumption|reflexivity|reflexivity].
  - (* struct_set *)
    apply (inv_struct_change s h o data); try assumption;
      try (unfold recount; destruct (so_kind o); reflexivity).
    + eapply entries_ok_set; try eassumption. apply (iv_structs s I _ _ H0).
    + intros _. apply vset_nonempty.
    + intros Hs ->. exfalso. destruct (iv_strip s I Hs) as [r' Hr]. rewrite H0 in Hr. injection Hr as ->.
      specialize (H1 Hs). discriminate.
  - (* struct_del *)
    apply (inv_struct_change s h o data); try assumption;
      try (unfold recount; destruct (so_kind o); reflexivity).
    + apply entries_ok_del. apply (iv_structs s I _ _ H0).
    + intros _. apply vdel_nonempty; assumption.
    + intros Hs ->. exfalso. destruct (iv_strip s I Hs) as [r' Hr]. rewrite H0 in Hr. injection Hr as ->.
      apply H1. reflexivity.
  - (* items_ref *)
    constructor; try apply I.
    + exists o. auto.
    + left. apply H2.
    + left. exact H2.
  - (* containers_ref *)
    constructor; try apply I.
    + exists o. auto.
    + cbn. congruence.
    + left. apply H4.
    + left. exact H4.
  - constructor; try apply I. exact H.
  - constructor; apply I.
  - constructor; apply I.
  - constructor; apply I.
  - (* put *)
    destruct H1 as [R1 [R2 R5]].
    assert (Hx : containers_of s = Some (pb_containers (in_pb x)) /\ items_of s = Some (pb_items (in_pb x)) /\
                 m_strip s = pb_strip (in_pb x) /\ m_min s = in_min x).
    { unfold view in H0. unfold containers_of, items_of.
      destruct (view_struct s (m_containers s)); [|discriminate].
      destruct (view_struct s (m_items s)); [|discriminate]. injection H0 as <-. auto. }
    destruct Hx as [X1 [X2 [X3 X4]]].
    constructor; try apply I.
    + intros Hs. cbn in Hs. cbn. rewrite Hs. rewrite X3 in Hs. destruct (R2 Hs) as [R3 R4].
      eexists. split; [reflexivity|]. split; [assumption|]. rewrite X4. assumption.
    + right. exists (pb_containers (in_pb x)), (pb_items (in_pb x)).
      split; [exact X1|]. split; [exact X2|]. cbn. rewrite X3. exact R1.
    + right. exists (pb_containers (in_pb x)), (pb_items (in_pb x)).
      split; [exact X1|]. split; [exact X2|]. cbn. rewrite X3. exact R5.
Qed.

Lemma star_inv P Q s s' : inv s -> star P Q s s' -> inv s'.
Proof. intros I H. induction H; [assumption|]. apply IHstar. eapply micro_inv; eassumption. Qed.

Lemma star_strip P Q s s' : star P Q s s' -> m_strip s' = m_strip s.
Proof. induction 1; [reflexivity|]. rewrite IHstar. eapply micro_strip; eassumption. Qed.

(** Without a solver: either nothing visible changed, or the solution is gone. *)
Lemma star_views P Q s s' : inv s -> star P Q s s' -> ~ Q ->
  (same_views s s' /\ m_sol s' = m_sol s /\ m_objs s' = m_objs s) \/ no_solution s'.
Proof.
  intros I H NQ. induction H as [s|s1 s2 s3 M S IH].
  - left. repeat split.
  - pose proof (micro_inv _ _ _ _ I M) as I2. specialize (IH I2).
    destruct IH as [[[A1 [A2 A3]] [A4 A5]]|IH]; [|right; assumption].
    destruct (micro_views P Q s1 s2 I M) as [[[B1 [B2 B3]] [[B4 B5]|B4]]|[B1 B2]]; [| tauto |].
    + left. repeat split; congruence.
    + right. split; congruence.
Qed.

(** A strip never changes. *)
Lemma micro_strip_fixed P Q s s' : inv s -> m_strip s = true -> micro P Q s s' ->
  m_containers s' = m_containers s /\ containers_of s' = containers_of s.
Proof.
  intros I Hs M. destruct (iv_strip s I Hs) as [r Hr].
  assert (Hrd : exists d, nth_error (m_dims s) r = Some d /\ do_kind d = KContainers /\ complete d).
  { destruct (iv_structs s I _ _ Hr) as [l [El [_ [_ Hl]]]]. cbn in El.
    destruct l as [|[i r'] [|? ?]]; try discriminate. injection El as _ Er. subst r'. apply (Hl i r). left. reflexivity. }
  destruct Hrd as [d [Hd [Hk Hc]]].
  assert (Hne : do_data d <> []).
  { intros E. unfold complete, complete_data in Hc. rewrite E in Hc. destruct Hc. discriminate. }
  assert (V : forall n data (s2 : machine), m_dims s2 = m_dims s ->
     m_structs s2 = list_set (m_structs s) n data -> n <> m_containers s -> m_containers s2 = m_containers s ->
     containers_of s2 = containers_of s).
  { intros n data s2 E1 E2 Hnc E3. unfold containers_of, view_struct. rewrite E1, E2, E3.
    rewrite list_set_other by assumption. reflexivity. }
  destruct M; try (split; [reflexivity|reflexivity]).
  - split; [reflexivity|]. apply (view_struct_dims s _ _ I). intros. apply nth_error_keep. assumption.
  - split; [reflexivity|]. unfold containers_of, view_struct. cbn [m_structs set_sol set_dims m_containers m_dims].
    rewrite Hr. cbn [so_kind so_data]. change [(VStr strip_id, VDims r)] with (sdict VDims [(strip_id, r)]).
    apply view_entries_ext. intros id r' [E|[]]. injection E as _ <-. apply list_set_other. intros ->.
    rewrite H in Hd. injection Hd as <-. apply Hne. apply H0; assumption.
  - split; [reflexivity|]. unfold containers_of, view_struct. cbn [m_structs set_structs m_containers m_dims].
    erewrite nth_error_keep by eassumption. rewrite Hr. reflexivity.
  - assert (h <> m_containers s).
    { intros ->. rewrite Hr in H0. injection H0 as <-. specialize (H1 Hs). discriminate. }
    split; [unfold recount; destruct (so_kind o); reflexivity|].
    apply (V h (mkSobj (so_kind o) data)); try assumption; unfold recount; destruct (so_kind o); reflexivity.
  - assert (h <> m_containers s).
    { intros ->. rewrite Hr in H0. injection H0 as <-. apply H1. reflexivity. }
    split; [unfold recount; destruct (so_kind o); reflexivity|].
    apply (V h (mkSobj (so_kind o) data)); try assumption; unfold recount; destruct (so_kind o); reflexivity.
  - congruence.
Qed.

Lemma star_strip_fixed P Q s s' : inv s -> m_strip s = true -> star P Q s s' ->
  containers_of s' = containers_of s.
Proof.
  intros I Hs H. induction H as [s|s1 s2 s3 M S IH]; [reflexivity|].
  destruct (micro_strip_fixed _ _ _ _ I Hs M) as [_ E]. rewrite IH, E; [reflexivity| |].
  - eapply micro_inv; eassumption.
  - rewrite (micro_strip _ _ _ _ M). assumption.
Qed.
End Machine.
