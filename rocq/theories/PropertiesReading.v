(** * C70: reading items, containers and dimensions, and what their methods return. *)
From Coq Require Import ZArith QArith String List Bool Lia Permutation.
From Verif Require Import Py ProofsPy Arith Construct Spec LocalSearch ProofsLocalSearch SpecSearch Values ProofsVal SpecValues
  Settings Instance SpecInstance SpecSettings SpecMapping ProofsAccept ProofsMachine ProofsOps ProofsRun ProofsHistory ProofsRefine
  PropertiesHistory ProofsMapping PropertiesStructures PropertiesMapping PropertiesValues Reading SpecReading ProofsReading.
Import ListNotations.
Open Scope string_scope.
Open Scope list_scope.
Open Scope Z_scope.

(** Reading an Items or Containers object gives its entries, and changes nothing. *)
Theorem C70_structures : forall ar, arith_laws ar ->
  forall env containers items settings width ops (s : machine ar),
  history env containers items settings width ops s -> without_ior ops ->
  forall h o l, nth_error (m_structs s) h = Some o -> view_struct s h = Some l ->
  forall q, exists r, ask_struct ar h q s = (s, r) /\ tells s h (so_kind o) l q r.
Proof.
  intros ar laws env containers items settings width ops s H Hi h o l Ho Hl q.
  pose proof (history_inv laws _ _ _ _ _ _ _ H Hi) as I.
  exists (answer (so_data o) q). split; [|apply struct_told; assumption].
  unfold ask_struct, sbind, get_sobj. rewrite Ho. reflexivity.
Qed.
Print Assumptions C70_structures.

(** [tells] leaves no choice. *)
Theorem C70_one_answer : forall ar, arith_laws ar ->
  forall env containers items settings width ops (s : machine ar),
  history env containers items settings width ops s -> without_ior ops ->
  forall h o l, nth_error (m_structs s) h = Some o -> view_struct s h = Some l ->
  forall q a b, tells s h (so_kind o) l q a -> tells s h (so_kind o) l q b -> a = b.
Proof.
  intros ar laws env containers items settings width ops s H Hi h o l Ho Hl q a b.
  pose proof (history_inv laws _ _ _ _ _ _ _ H Hi) as I. destruct (shown s h o I Ho) as [l' [E [_ [_ N]]]].
  assert (l' = l) by congruence. subst l'. apply (tells_one s h o _ l q a b I Ho N).
Qed.
Print Assumptions C70_one_answer.

(** Reading dimensions. *)
Theorem C70_dimensions : forall ar, arith_laws ar ->
  forall env containers items settings width ops (s : machine ar),
  history env containers items settings width ops s -> without_ior ops ->
  forall n k d, shows_dims s n k d ->
  exists keys, (keys = [wkey k; lkey k] \/ keys = [lkey k; wkey k]) /\
    forall q, exists r, ask_dims ar n q s = (s, r) /\ tells_dims k d keys q r.
Proof.
  intros ar laws env containers items settings width ops s H Hi n k d Hd.
  pose proof (history_inv laws _ _ _ _ _ _ _ H Hi) as I. destruct (dims_told s n k d I Hd) as [keys [o [K [Ho T]]]].
  exists keys. split; [exact K|]. intros q. exists (answer (do_data o) q). split; [|apply T].
  unfold ask_dims, sbind, get_dobj. rewrite Ho. reflexivity.
Qed.
Print Assumptions C70_dimensions.

(** [x.deepcopy()] and [x.deepcopy(ids)]: plain dictionaries with the entries asked for, or the error of
    the first id that is not there. *)
Theorem C70_deepcopy : forall ar, arith_laws ar ->
  forall env containers items settings width ops (s : machine ar),
  history env containers items settings width ops s -> without_ior ops ->
  forall h o l ids, nth_error (m_structs s) h = Some o -> view_struct s h = Some l ->
  exists r, deepcopy_call ar h ids s = (s, r) /\
   ((exists v l', r = Ok v /\ plain_entries (so_kind o) v l' /\ genuine v /\
       (ids = None -> l' = l) /\ NoDup (dkeys l') /\
       (forall i d, In (i, d) l' <-> In (i, d) l /\ In (VStr i) (asked l ids)) /\
       (NoDup (asked l ids) -> map VStr (dkeys l') = asked l ids) /\
       (forall j, In j (asked l ids) -> exists i, j = VStr i /\ In i (dkeys l))) \/
    (exists id, first_wrong l (asked l ids) id /\
       ((unhashable_value id /\ r = Err TypeError) \/ (~ unhashable_value id /\ r = Err KeyError)))).
Proof.
  intros ar laws env containers items settings width ops s H Hi h o l ids Ho Hl.
  pose proof (history_inv laws _ _ _ _ _ _ _ H Hi) as I. destruct (shown s h o I Ho) as [l0 [E [_ [K N]]]].
  assert (l0 = l) by congruence. subst l0. clear E.
  assert (A : match ids with None => vkeys (so_data o) | Some x => x end = asked l ids) by (destruct ids; [reflexivity|exact K]).
  eexists. split. { unfold deepcopy_call, sbind, get_sobj, sget, slift. rewrite Ho, A. reflexivity. }
  destruct (copies_told s h o l I Ho Hl (asked l ids) [] [] (Forall2_nil _)) as [[is_ [c' [E [H1 [H2 H3]]]]]|[is_ [id [rest [e [E [H1 [H2 H3]]]]]]]].
  - left. change (sdict (fun v : pyval => v) []) with (@nil (pyval * pyval)) in H2. rewrite H2.
    destruct (pick_in l is_ N [] (NoDup_nil _)) as [P1 P2]; [intros ? ? []|].
    exists (VDict (sdict (fun v => v) c')), (pick l is_ []). split; [reflexivity|]. split.
    { exists (sdict (fun v => v) c'). split; [reflexivity|]. clear - H3. induction H3 as [|[i a] [j b] c es [X [D _]] _ IH]; [constructor|].
      cbn [fst snd] in *. subst j. change (sdict (fun v => v) ((i, a) :: c)) with ((VStr i, a) :: sdict (fun v => v) c).
      constructor; [split; [reflexivity|exact D]|exact IH]. }
    split; [apply (shows_value _ _ _ H3 P1)|].
    assert (Inj : forall a b, map VStr a = map VStr b -> a = b).
    { induction a as [|x a IH]; intros [|y b] X; try discriminate X; [reflexivity|]. injection X as -> X. f_equal. apply IH, X. }
    split; [intros ->; cbn [asked] in E; apply Inj in E; rewrite <- E; apply pick_all, N|].
    split; [exact P1|]. split; [|split].
    + intros i d. rewrite P2, E. rewrite in_map_iff. split.
      * intros [X [[]|Y]]. split; [exact X|]. eauto.
      * intros [X [i' [[= ->] Y]]]. auto.
    + intros Nd. rewrite E in *. rewrite pick_order; [reflexivity| |exact H1|intros ? _ []]. apply NoDup_map_inv in Nd. exact Nd.
    + intros j Hj. rewrite E in Hj. apply in_map_iff in Hj. destruct Hj as [i [<- Hj]]. eauto.
  - right. change (sdict (fun v : pyval => v) []) with (@nil (pyval * pyval)) in H2. rewrite H2. exists id. split.
    + exists (map VStr is_), rest. split; [exact E|]. split.
      * apply Forall_forall. intros j Hj. apply in_map_iff in Hj. destruct Hj as [i [<- Hj]]. eauto.
      * intros i ->. destruct H3 as [[U _]|[[_ X] _]]; [apply C63_unhashable_values in U; discriminate U|apply X; reflexivity].
    + destruct H3 as [[U ->]|[[U _] ->]]; [left; auto|right]. split; [|reflexivity]. intros V. apply C63_unhashable_values in V. congruence.
Qed.
Print Assumptions C70_deepcopy.

(** What [x.deepcopy()] returns can be assigned: the entries are the same again. *)
Theorem C70_deepcopy_back : forall ar, arith_laws ar ->
  forall env containers items settings width ops (s : machine ar),
  history env containers items settings width ops s -> without_ior ops ->
  (forall l v, items_of s = Some l -> deepcopy_call ar (m_items s) None s = (s, Ok v) ->
     exists s', run (OpSetItems v) s = (s', Ok tt) /\ items_of s' = Some l) /\
  (forall l v, containers_of s = Some l -> deepcopy_call ar (m_containers s) None s = (s, Ok v) -> m_strip s = false ->
     exists s', run (OpSetContainers v) s = (s', Ok tt) /\ containers_of s' = Some l).
Proof.
  intros ar laws env containers items settings width ops s H Hi.
  pose proof (history_inv laws _ _ _ _ _ _ _ H Hi) as I.
  destruct (iv_items s I) as [oi [Hoi [Ki Ni]]]. destruct (iv_containers s I) as [oc [Hoc [Kc Nc]]].
  assert (G : forall h o l v, nth_error (m_structs s) h = Some o -> so_data o <> [] -> view_struct s h = Some l ->
     deepcopy_call ar h None s = (s, Ok v) -> structure_value (so_kind o) v l /\ genuine v).
  { intros h o l v Ho Hne Hv Hd.
    destruct (C70_deepcopy ar laws env containers items settings width ops s H Hi h o l None Ho Hv) as [r [E [[v' [l' [-> [P [G [El _]]]]]]|[id [[b [rest [X [_ W]]]] C]]]]].
    - rewrite E in Hd. injection Hd as ->. rewrite (El eq_refl) in P. split; [|exact G]. destruct P as [e [-> F]]. exists e. split; [reflexivity|].
      split; [|exact F]. intros ->. inversion F as [Z|]. subst l. destruct (shown s h o I Ho) as [l0 [E0 [L0 _]]]. rewrite Hv in E0. injection E0 as <-.
      cbn [length] in L0. destruct (so_data o); [exact (Hne eq_refl)|discriminate L0].
    - exfalso. cbn [asked] in X. assert (K : In id (map VStr (dkeys l))) by (rewrite X; apply in_app_iff; right; left; reflexivity).
      apply in_map_iff in K. destruct K as [i [<- K]]. exact (W i eq_refl K). }
  split.
  - intros l v Hl Hd. destruct (G _ _ _ _ Hoi Ni Hl Hd) as [Sv Gv]. rewrite Ki in Sv. destruct (C31_assign_items ar s v Gv) as [D E].
    destruct (proj2 (proj1 D)) as [s' R]; [eauto|]. exists s'. split; [exact R|]. apply (E l s' Sv R).
  - intros l v Hl Hd Hs. destruct (G _ _ _ _ Hoc Nc Hl Hd) as [Sv Gv]. rewrite Kc in Sv. destruct (C31_assign_containers ar s v Gv) as [_ D].
    destruct (D Hs) as [D1 E]. destruct (proj2 (proj1 D1)) as [s' R]; [eauto|]. exists s'. split; [exact R|]. apply (E l s' Sv R).
Qed.
Print Assumptions C70_deepcopy_back.

(** ** Equality *)

(** [x == y] for items or containers [x] and any value [y]. *)
Theorem C70_equal : forall ar, arith_laws ar ->
  forall env containers items settings width ops (s : machine ar),
  history env containers items settings width ops s -> without_ior ops ->
  forall h o l y, nth_error (m_structs s) h = Some o -> view_struct s h = Some l ->
  exists b, struct_equals ar h y s = (s, Ok b) /\ (b = true <-> same_entries s (so_kind o) l y).
Proof.
  intros ar laws env containers items settings width ops s H Hi h o l y Ho Hl.
  pose proof (history_inv laws _ _ _ _ _ _ _ H Hi) as I. apply struct_eq_told; assumption.
Qed.
Print Assumptions C70_equal.

Theorem C70_equal_dimensions : forall ar, arith_laws ar ->
  forall env containers items settings width ops (s : machine ar),
  history env containers items settings width ops s -> without_ior ops ->
  forall n k d y, shows_dims s n k d ->
  exists b, dims_equals ar n y s = (s, Ok b) /\ (b = true <-> same_dims s k d y).
Proof.
  intros ar laws env containers items settings width ops s H Hi n k d y Hd.
  pose proof (history_inv laws _ _ _ _ _ _ _ H Hi) as I. destruct (dims_eq_told s n k d y I Hd) as [b [E B]].
  exists b. split; [|exact B]. unfold dims_equals, sbind, sget, slift. rewrite E. reflexivity.
Qed.
Print Assumptions C70_equal_dimensions.

Lemma same_dims_shown {ar} (s : machine ar) n k k' d d' : inv s -> shows_dims s n k' d' ->
  (same_dims s k d (VDims n) <-> k = k' /\ d = d').
Proof.
  intros I [o [Ho [Hk Hd]]]. destruct (dobj_value k' o d' (iv_dims s I _ _ Ho) Hk Hd) as [[a [b [Pa [Pb E]]]] _].
  assert (W : vget (do_data o) (VStr (wkey k')) = Some a /\ vget (do_data o) (VStr (lkey k')) = Some b).
  { pose proof (wkey_lkey k') as N. destruct E as [[= ->]|[= ->]]; cbn [vget]; rewrite !key_eqb_strs, !String.eqb_refl.
    - destruct (String.eqb_spec (lkey k') (wkey k')); [congruence|]. auto.
    - destruct (String.eqb_spec (wkey k') (lkey k')); [congruence|]. auto. }
  assert (X : forall v z z', positive_int v z -> number_is z' v -> z' = z).
  { intros v z z' [[->|[-> ->]] _] N; inversion N; subst; reflexivity. }
  assert (Y : forall v z, positive_int v z -> number_is z v).
  { intros v z [[->|[-> ->]] _]; constructor. reflexivity. }
  split.
  - intros [e [M [_ [[x [Hx Nx]] [y [Hy Ny]]]]]]. inversion M as [|h' o' M1|h' o' M1]; subst. assert (o' = o) by congruence. subst o'.
    assert (K : k = do_kind o).
    { destruct E as [[= E]|[= E]]; rewrite E in Hx; destruct k, (do_kind o); try reflexivity; discriminate Hx. }
    subst k. split; [reflexivity|]. destruct W as [W1 W2]. rewrite W1 in Hx. rewrite W2 in Hy. injection Hx as <-. injection Hy as <-.
    destruct d as [p q], d' as [p' q']. cbn [dw dl] in *. rewrite (X _ _ _ Pa Nx), (X _ _ _ Pb Ny). reflexivity.
  - intros [-> <-]. exists (do_data o). split; [constructor; exact Ho|]. split; [destruct E as [[= ->]|[= ->]]; reflexivity|].
    split; [exists a; split; [apply W|apply Y, Pa]|exists b; split; [apply W|apply Y, Pb]].
Qed.

(** Two objects of the library: equal exactly if they have the same entries, in any order; items and
    containers never are. *)
Theorem C70_equal_objects : forall ar, arith_laws ar ->
  forall env containers items settings width ops (s : machine ar),
  history env containers items settings width ops s -> without_ior ops ->
  forall h1 h2 o1 o2 l1 l2, nth_error (m_structs s) h1 = Some o1 -> nth_error (m_structs s) h2 = Some o2 ->
  view_struct s h1 = Some l1 -> view_struct s h2 = Some l2 -> l1 <> [] ->
  exists b, struct_equals ar h1 (VStruct h2) s = (s, Ok b) /\
    (b = true <-> so_kind o1 = so_kind o2 /\ Permutation l1 l2).
Proof.
  intros ar laws env containers items settings width ops s H Hi h1 h2 o1 o2 l1 l2 H1 H2 V1 V2 Hne.
  pose proof (history_inv laws _ _ _ _ _ _ _ H Hi) as I.
  destruct (C70_equal ar laws env containers items settings width ops s H Hi h1 o1 l1 (VStruct h2) H1 V1) as [b [E B]].
  exists b. split; [exact E|]. rewrite B. clear b E B.
  destruct (refs_of s h2 o2 l2 I H2 V2) as [refs [E [N [K F]]]]. destruct (shown s h1 o1 I H1) as [l [E1 [_ [_ N1]]]].
  assert (l = l1) by congruence. subst l. clear E1.
  assert (N2 : NoDup (dkeys l2)) by (rewrite <- K; exact N).
  assert (L : length (so_data o2) = length l2).
  { rewrite E, length_sdict. apply (f_equal (@length _)) in K. unfold dkeys in K. rewrite !map_length in K. exact K. }
  assert (G : forall i d, (exists x, vget (so_data o2) (VStr i) = Some x /\ same_dims s (so_kind o1) d x) <->
              so_kind o1 = so_kind o2 /\ In (i, d) l2).
  { intros i d. rewrite E, vget_sdict. split.
    - intros [x [Hx Hs]]. destruct (dget refs i) as [r|] eqn:Er; [|discriminate Hx]. injection Hx as <-.
      assert (X := forall2_keys _ refs l2 (fun p q (H : fst p = fst q /\ _) => proj1 H) F i r Er). cbn beta in X.
      destruct X as [d2 [D1 [_ [r' [[= <-] [_ D2]]]]]]. apply (same_dims_shown s r _ _ _ _ I D2) in Hs. destruct Hs as [-> ->].
      split; [reflexivity|apply dget_In, D1].
    - intros [-> Hin]. assert (Hk : In i (dkeys refs)) by (rewrite K; unfold dkeys; apply in_map_iff; exists (i, d); auto).
      apply dget_Some_In in Hk. destruct Hk as [r Er]. rewrite Er. exists (VDims r). split; [reflexivity|].
      assert (X := forall2_keys _ refs l2 (fun p q (H : fst p = fst q /\ _) => proj1 H) F i r Er). cbn beta in X.
      destruct X as [d2 [D1 [_ [r' [[= <-] [_ D2]]]]]]. apply (same_dims_shown s r _ _ _ _ I D2).
      apply (In_dget _ _ _ N2) in Hin. split; [reflexivity|]. assert (Q : Some d = Some d2) by (rewrite <- Hin; exact D1). injection Q as ->. reflexivity. }
  assert (ND : forall l : odict dims, NoDup (dkeys l) -> NoDup l) by (intros l X; apply NoDup_map_inv in X; exact X).
  split.
  - intros [e [M [Le Hs]]]. inversion M as [|h' o' M1|h' o' M1]; subst. assert (o' = o2) by congruence. subst o'.
    assert (G' : forall i d, In (i, d) l1 -> so_kind o1 = so_kind o2 /\ In (i, d) l2) by (intros i d X; apply G, Hs, X).
    split; [destruct l1 as [|[i d] t]; [congruence|]; apply (G' i d (or_introl eq_refl))|].
    apply NoDup_Permutation_bis; [apply ND, N1|lia|]. intros [i d] X. apply G', X.
  - intros [Hk P]. exists (so_data o2). split; [constructor; exact H2|]. split; [rewrite L; symmetry; apply Permutation_length, P|].
    intros i d X. apply G. split; [exact Hk|]. eapply Permutation_in; eassumption.
Qed.
Print Assumptions C70_equal_objects.

(** ** Return values *)

(** [x.pop(id)], [x.pop(id, default)] return the entry, which shows what it showed, or the default. *)
Theorem C70_pop : forall ar, arith_laws ar ->
  forall env containers items settings width ops (s : machine ar),
  history env containers items settings width ops s -> without_ior ops ->
  forall h o l id default s' r, nth_error (m_structs s) h = Some o -> view_struct s h = Some l ->
  struct_pop_v ar h id default s = (s', r) ->
  run (OpStructPop h id (match default with Some _ => true | None => false end)) s = (s', forget r) /\
  forall v, r = Ok v ->
    (exists i d, id = VStr i /\ In (i, d) l /\ entry_is s h (so_kind o) i d v /\
       exists n, v = VDims n /\ shows_dims s' n (so_kind o) d) \/
    (absent l id /\ default = Some v /\ s' = s).
Proof.
  intros ar laws env containers items settings width ops s H Hi h o l id default s' r Ho Hl R.
  pose proof (history_inv laws _ _ _ _ _ _ _ H Hi) as I. pose proof (found_entry s h o l id I Ho Hl) as F.
  cbn [run]. unfold struct_pop_v, get_sobj in R. unfold sbind at 1 in R. rewrite Ho in R. unfold struct_pop, get_sobj. unfold sbind at 1. rewrite Ho.
  destruct (data_get (so_data o) id) as [v|e].
  - unfold sbind at 1 in R. destruct (struct_del ar h id s) as [s1 [[]|e]] eqn:D.
    + injection R as <- <-. split; [reflexivity|]. intros v' [= <-]. left. destruct F as [i [d [-> [F1 F2]]]]. exists i, d.
      split; [reflexivity|]. split; [exact F1|]. split; [exact F2|]. destruct F2 as [n [-> [_ F3]]]. exists n. split; [reflexivity|].
      exact (still s s1 n _ d (del_keeps s s1 h _ _ D) F3).
    + injection R as <- <-. split; [reflexivity|]. discriminate.
  - destruct F as [[F ->]|[F ->]]; [injection R as <- <-; split; [reflexivity|discriminate]|].
    destruct default as [v|]; injection R as <- <-; (split; [reflexivity|]); [|discriminate]. intros v' [= <-]. right. auto.
Qed.
Print Assumptions C70_pop.

(** [x.popitem()] returns the first id and entry. *)
Theorem C70_popitem : forall ar, arith_laws ar ->
  forall env containers items settings width ops (s : machine ar),
  history env containers items settings width ops s -> without_ior ops ->
  forall h o l s' r, nth_error (m_structs s) h = Some o -> view_struct s h = Some l ->
  struct_popitem_v ar h s = (s', r) ->
  run (OpStructPopitem h) s = (s', forget r) /\
  forall v, r = Ok v -> exists i d l' w, l = (i, d) :: l' /\ v = VTuple [VStr i; w] /\ entry_is s h (so_kind o) i d w /\
    exists n, w = VDims n /\ shows_dims s' n (so_kind o) d.
Proof.
  intros ar laws env containers items settings width ops s H Hi h o l s' r Ho Hl R.
  pose proof (history_inv laws _ _ _ _ _ _ _ H Hi) as I. destruct (refs_of s h o l I Ho Hl) as [refs [E [N [K F]]]].
  cbn [run]. unfold struct_popitem_v, get_sobj in R. unfold sbind at 1 in R. rewrite Ho, E in R. unfold struct_popitem, get_sobj. unfold sbind at 1. rewrite Ho, E. clear E N K.
  destruct F as [|[i n] [j d] refs l' [Ei Hd] F]; [injection R as <- <-; split; [reflexivity|discriminate]|].
  cbn [fst snd] in *. subst j. change (sdict VDims ((i, n) :: refs)) with ((VStr i, VDims n) :: sdict VDims refs) in *. cbv iota beta in *.
  unfold sbind at 1 in R. destruct (struct_del ar h (VStr i) s) as [s1 [[]|e]] eqn:D.
  - injection R as <- <-. split; [reflexivity|]. intros v [= <-]. exists i, d, l', (VDims n). split; [reflexivity|]. split; [reflexivity|]. split; [exact Hd|].
    exists n. split; [reflexivity|]. destruct Hd as [n' [[= <-] [_ F3]]]. exact (still s s1 n _ d (del_keeps s s1 h _ _ D) F3).
  - injection R as <- <-. split; [reflexivity|]. discriminate.
Qed.
Print Assumptions C70_popitem.

(** [x.setdefault(id, v)] returns the entry if there is one, and otherwise [v] itself: not the entry
    that it makes of [v]. *)
Theorem C70_setdefault : forall ar, arith_laws ar ->
  forall env containers items settings width ops (s : machine ar),
  history env containers items settings width ops s -> without_ior ops ->
  forall h o l id v s' r, nth_error (m_structs s) h = Some o -> view_struct s h = Some l -> genuine_dims v ->
  struct_setdefault_v ar h id v s = (s', r) ->
  run (OpStructSetdefault h id v) s = (s', forget r) /\
  forall w, r = Ok w ->
    (exists i d, id = VStr i /\ In (i, d) l /\ entry_is s h (so_kind o) i d w /\ s' = s) \/
    (exists i d, id = VStr i /\ ~ In i (dkeys l) /\ w = v /\ dims_value (so_kind o) v d /\
       view_struct s' h = Some (l ++ [(i, d)])).
Proof.
  intros ar laws env containers items settings width ops s H Hi h o l id v s' r Ho Hl G R.
  pose proof (history_inv laws _ _ _ _ _ _ _ H Hi) as I. pose proof (found_entry s h o l id I Ho Hl) as F.
  assert (R' : run (OpStructSetdefault h id v) s = (s', forget r)).
  { cbn [run]. unfold struct_setdefault_v, get_sobj in R. unfold sbind at 1 in R. rewrite Ho in R. unfold struct_setdefault, get_sobj. unfold sbind at 1. rewrite Ho.
    destruct (data_get (so_data o) id) as [w|e]; [injection R as <- <-; reflexivity|].
    destruct F as [[_ ->]|[_ ->]]; [injection R as <- <-; reflexivity|].
    unfold sbind in R. destruct (struct_set ar h id v s) as [s1 [[]|e]]; injection R as <- <-; reflexivity. }
  split; [exact R'|]. intros w ->.
  destruct (C63_calls ar laws env containers items settings width ops s H Hi h o l _ (CSetdefault id v) s' _ Ho Hl (ic_setdefault s h id v G) R') as [[l' [V B]] _].
  unfold struct_setdefault_v, get_sobj in R. unfold sbind at 1 in R. rewrite Ho in R.
  destruct (data_get (so_data o) id) as [x|e].
  - injection R as <- <-. left. destruct F as [i [d [-> [F1 F2]]]]. exists i, d. auto.
  - right. destruct F as [[F ->]|[F ->]]; [discriminate R|].
    unfold sbind in R. destruct (struct_set ar h id v s) as [s1 [[]|e]]; [|discriminate R]. injection R as _ <-.
    cbn [forget] in B. inversion B as [| | | | | | | | | | | | | | |? ? ? ? ? A B'|? i ? Hin| | | | ]; subst.
    + inversion B'; subst. destruct A as [_ A]. exists i, d. split; [reflexivity|]. split; [apply A; reflexivity|]. split; [reflexivity|]. split; [assumption|].
      rewrite V. rewrite ProofsAccept.dset_new by (apply A; reflexivity). reflexivity.
    + destruct F as [_ F]. exfalso. exact (F i eq_refl Hin).
Qed.
Print Assumptions C70_setdefault.

(** ** [x | y] *)

(** [x | y] raises a TypeError if [y] is no mapping. It succeeds exactly if [y] is itself an acceptable
    description that replaces all of [x]: the result has the entries of [y]. *)
Theorem C70_union : forall ar, arith_laws ar ->
  forall env containers items settings width ops (s : machine ar),
  history env containers items settings width ops s -> without_ior ops ->
  forall h o l y, nth_error (m_structs s) h = Some o -> view_struct s h = Some l ->
  ((forall e, ~ mapping_is s y e) -> struct_or ar h y s = (s, Err TypeError)) /\
  (forall e, mapping_is s y e -> genuine (VDict e) -> exists r, struct_or ar h y s = (s, r) /\
     ((exists new, r = Ok new) <-> exists es, structure_value (so_kind o) (VDict e) es /\ incl (dkeys l) (dkeys es)) /\
     (forall new es, r = Ok new -> structure_value (so_kind o) (VDict e) es ->
        map fst new = map VStr (dkeys l ++ filter (fun i => negb (existsb (String.eqb i) (dkeys l))) (dkeys es)) /\
        forall i d, In (i, d) es <-> exists data, In (VStr i, data) new /\ dims_value (so_kind o) (VDict data) d) /\
     (forall i d t, l = (i, d) :: t -> (forall x, vget e (VStr i) <> Some (VDict x)) -> r = Err (DimensionsError D_TYPE))).
Proof.
  intros ar laws env containers items settings width ops s H Hi h o l y Ho Hl.
  pose proof (history_inv laws _ _ _ _ _ _ _ H Hi) as I. destruct (refs_of s h o l I Ho Hl) as [refs [E [N [K F]]]]. split.
  - intros Hn. unfold struct_or, sbind, get_sobj, sget. rewrite Ho. destruct (mapping_data ar s y) as [e|] eqn:M; [|reflexivity].
    apply mapping_data_iff in M. destruct (Hn e M).
  - intros e M G. pose proof M as M'. apply mapping_data_iff in M'. exists (lone_structure (so_kind o) (union (so_data o) e)). split.
    { unfold struct_or, sbind, get_sobj, sget. rewrite Ho, M'. reflexivity. }
    rewrite E. destruct (union_told (so_kind o) s refs e N G) as [T1 T2]. rewrite <- K. split; [exact T1|]. split; [exact T2|].
    intros i d t -> Hx. inversion F as [|[j n] q refs' l' [Ei _] F' Er]. subst. cbn [fst] in Ei. subst j.
    change (sdict VDims ((i, n) :: refs')) with ((VStr i, VDims n) :: sdict VDims refs').
    destruct (union_first e (proj1 (G e eq_refl)) i (VDims n) (sdict VDims refs')) as [t' ->].
    cbn [lone_structure lone_entries]. rewrite lone_type; [reflexivity|]. intros x C. destruct (vget e (VStr i)) as [z|] eqn:Z; [|discriminate C].
    subst z. exact (Hx x eq_refl).
Qed.
Print Assumptions C70_union.

(** With another object of the library it always fails, and so does [y | x] for a dict [y]. *)
Theorem C70_union_objects : forall ar, arith_laws ar ->
  forall env containers items settings width ops (s : machine ar),
  history env containers items settings width ops s -> without_ior ops ->
  forall h o l, nth_error (m_structs s) h = Some o -> view_struct s h = Some l -> l <> [] ->
  (forall h2 o2, nth_error (m_structs s) h2 = Some o2 -> struct_or ar h (VStruct h2) s = (s, Err (DimensionsError D_TYPE))) /\
  (forall n k d, shows_dims s n k d -> struct_or ar h (VDims n) s = (s, Err (DimensionsError D_TYPE))) /\
  (forall y, genuine (VDict y) -> exists e, struct_ror ar y h s = (s, Err e)).
Proof.
  intros ar laws env containers items settings width ops s H Hi h o l Ho Hl Hne.
  pose proof (history_inv laws _ _ _ _ _ _ _ H Hi) as I.
  assert (U : forall y e, mapping_is s y e -> genuine (VDict e) -> (forall i x, vget e (VStr i) <> Some (VDict x)) ->
     struct_or ar h y s = (s, Err (DimensionsError D_TYPE))).
  { intros y e M G X. destruct (C70_union ar laws env containers items settings width ops s H Hi h o l y Ho Hl) as [_ T].
    destruct (T e M G) as [r [-> [_ [_ T3]]]]. destruct l as [|[i d] t]; [congruence|]. rewrite (T3 i d t eq_refl (X i)). reflexivity. }
  split; [|split].
  - intros h2 o2 H2. destruct (iv_structs s I _ _ H2) as [refs [E [N _]]]. apply (U _ (so_data o2)); [constructor; exact H2| |].
    + intros x [= <-]. rewrite E. split; [apply distinct_sdict, N|]. intros id w Hin. unfold sdict in Hin. apply in_map_iff in Hin.
      destruct Hin as [p [[= <- <-] _]]. intros d C. discriminate C.
    + intros i x. rewrite E, vget_sdict. destruct (dget refs i); discriminate.
  - intros n k d [od [Hod [Hk Hd]]]. destruct (dobj_value k od d (iv_dims s I _ _ Hod) Hk Hd) as [[a [b [Pa [Pb E]]]] D].
    assert (P : forall v z x, positive_int v z -> v <> VDict x) by (intros v z x [[->|[-> _]] _]; discriminate).
    apply (U _ (do_data od)); [constructor; exact Hod| |].
    + intros x [= <-]. split; [exact D|]. intros id w Hin. intros x ->. exfalso.
      destruct E as [[= E]|[= E]]; rewrite E in Hin; cbn [In] in Hin;
        destruct Hin as [[= _ X]|[[= _ X]|[]]]; subst; (eapply P; [|reflexivity]; eassumption).
    + intros i x C. assert (Y : In (VDict x) (map snd (do_data od))).
      { clear - C. induction (do_data od) as [|[k v] t IH]; [discriminate C|]. cbn [vget] in C. destruct (key_eqb (VStr i) k); [injection C as ->; left; reflexivity|right; apply IH, C]. }
      destruct E as [[= E]|[= E]]; rewrite E in Y; cbn [map snd In] in Y; destruct Y as [X|[X|[]]]; (eapply P; [|exact X]; eassumption).
  - intros y G. destruct (iv_structs s I _ _ Ho) as [refs [E [N _]]].
    unfold struct_ror, sbind, get_sobj, slift. rewrite Ho, E.
    destruct (lone_structure (so_kind o) (union y (sdict VDims refs))) as [new|e] eqn:L; [|eauto]. exfalso.
    unfold lone_structure in L. destruct (union y (sdict VDims refs)) as [|p u] eqn:Eu; [discriminate L|]. rewrite <- Eu in L. apply lone_entries_told in L.
    assert (R0 : refs <> []).
    { intros ->. destruct (shown s h o I Ho) as [l0 [E0 [L0 _]]]. rewrite Hl in E0. injection E0 as <-. rewrite E in L0. destruct l; [congruence|discriminate L0]. }
    assert (X : exists i n, In (VStr i, VDims n) (union y (sdict VDims refs))).
    { clear - R0 N. revert y. assert (Y : forall rs y i n, ~ In i (dkeys rs) -> In (VStr i, VDims n) y -> In (VStr i, VDims n) (union y (sdict VDims rs))).
      { clear. induction rs as [|[j m] rs IH]; intros y i n Hi Hin; [exact Hin|]. apply (IH (vset y (VStr j) (VDims m))).
        - intros C. apply Hi. right. exact C.
        - assert (Hne : i <> j) by (intros ->; apply Hi; left; reflexivity). clear - Hin Hne.
          induction y as [|[k v] y IH]; [destruct Hin|]. cbn [vset]. destruct (key_eqb (VStr j) k) eqn:Ek.
          + destruct Hin as [[= -> ->]|Hin]; [|right; exact Hin]. apply key_eqb_str_l in Ek. congruence.
          + destruct Hin as [[= -> ->]|Hin]; [left; reflexivity|right; apply IH, Hin]. }
      intros y. destruct refs as [|[i n] refs]; [congruence|]. exists i, n. cbn [dkeys map fst] in N. inversion N as [|? ? N1 N2]; subst.
      apply (Y refs (vset y (VStr i) (VDims n))); [exact N1|]. clear. induction y as [|[k v] y IH]; cbn [vset]; [left; reflexivity|].
      destruct (key_eqb (VStr i) k) eqn:Ek; [apply key_eqb_str_l in Ek; subst k; left; reflexivity|right; exact IH]. }
    destruct X as [i [n X]]. clear - L X. induction L as [|p q d new [_ A] _ IH]; [destruct X|]. destruct X as [->|X]; [discriminate A|exact (IH X)].
Qed.
Print Assumptions C70_union_objects.

(** ** The items of the example after some work: "b" 7 x 7, "c" 3 x 3 and "d" 1 x 2. *)
Definition answer_of {A} (c : SM (machine qarith) A) (s : machine qarith) : result A := snd (c s).
Example C70_demo :
  let s := after bins mapping_work in
  history no_libraries two_containers three_items VNone VNone mapping_work s /\ without_ior mapping_work /\
  view_struct s 1 = Some [("b", mkDims 7 7); ("c", mkDims 3 3); ("d", mkDims 1 2)] /\
  (answer_of (ask_struct _ 1 QLen) s = Ok (VInt 3) /\
   answer_of (ask_struct _ 1 QList) s = Ok (VList [VStr "b"; VStr "c"; VStr "d"]) /\
   answer_of (ask_struct _ 1 (QIn (VStr "a"))) s = Ok (VBool false) /\
   answer_of (ask_struct _ 1 (QGet (VStr "a"))) s = Err KeyError /\
   answer_of (ask_struct _ 1 (QGet (VList []))) s = Err TypeError /\
   answer_of (ask_struct _ 1 (QGetDefault (VInt 1) VNone)) s = Ok VNone /\
   answer_of (ask_dims _ 4 (QGet (VStr "w"))) s = Ok (VInt 3)) /\
  (answer_of (deepcopy_call _ 1 (Some [VStr "d"; VStr "c"])) s = Ok (VDict [(VStr "d", py_dims KItems 1 2); (VStr "c", py_dims KItems 3 3)]) /\
   answer_of (deepcopy_call _ 1 (Some [VStr "d"; VInt 0; VList []])) s = Err KeyError) /\
  (let y := VDict [(VStr "d", py_dims KItems 1 2); (VStr "b", VDict [(VStr "l", VFloat (FNum 7)); (VStr "w", VInt 7)]); (VStr "c", VDims 4)] in
   answer_of (struct_equals _ 1 y) s = Ok true /\ answer_of (struct_equals _ 1 (VStruct 0)) s = Ok false /\
   answer_of (struct_equals _ 1 (VStruct 1)) s = Ok true) /\
  (answer_of (struct_pop_v _ 1 (VStr "c") None) s = Ok (VDims 4) /\
   answer_of (struct_pop_v _ 1 (VStr "z") (Some (VInt 5))) s = Ok (VInt 5) /\
   answer_of (struct_setdefault_v _ 1 (VStr "z") (py_dims KItems 2 2)) s = Ok (py_dims KItems 2 2)) /\
  (answer_of (struct_or _ 1 (VStruct 1)) s = Err (DimensionsError D_TYPE) /\ answer_of (struct_or _ 1 (VInt 1)) s = Err TypeError /\
   answer_of (struct_or _ 1 (VDict [(VStr "e", py_dims KItems 9 9); (VStr "d", py_dims KItems 1 2); (VStr "c", py_dims KItems 1 1); (VStr "b", py_dims KItems 2 2)])) s =
     Ok [(VStr "b", [(VStr "w", VInt 2); (VStr "l", VInt 2)]); (VStr "c", [(VStr "w", VInt 1); (VStr "l", VInt 1)]);
         (VStr "d", [(VStr "w", VInt 1); (VStr "l", VInt 2)]); (VStr "e", [(VStr "w", VInt 9); (VStr "l", VInt 9)])]).
Proof.
  split; [apply bins_history|]. split; [intros o [<-|[<-|[<-|[]]]]; reflexivity|]. split; [vm_compute; reflexivity|].
  split; [refine (conj _ (conj _ (conj _ (conj _ (conj _ (conj _ _)))))); vm_compute; reflexivity|].
  split; [split; vm_compute; reflexivity|]. split; [intros y; refine (conj _ (conj _ _)); vm_compute; reflexivity|].
  split; [refine (conj _ (conj _ _)); vm_compute; reflexivity|]. refine (conj _ (conj _ _)); vm_compute; reflexivity.
Qed.
