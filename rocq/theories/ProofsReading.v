(** * Reading items, containers and dimensions: proofs. *)
From Coq Require Import ZArith QArith String List Bool Lia Permutation.
From Verif Require Import Py ProofsPy Arith Construct Spec LocalSearch ProofsLocalSearch SpecSearch Values ProofsVal SpecValues
  Settings Instance SpecInstance SpecSettings SpecMapping ProofsAccept ProofsMachine ProofsOps ProofsRun ProofsHistory ProofsRefine
  PropertiesHistory ProofsMapping PropertiesStructures PropertiesMapping SpecReport Report PropertiesReport PropertiesValues Reading SpecReading.
Import ListNotations.
Open Scope string_scope.
Open Scope list_scope.
Open Scope Z_scope.

Section Reading.
Context {ar : arith}.
Notation machine := (machine ar).

Lemma refs_of (s : machine) h o l : inv s -> nth_error (m_structs s) h = Some o -> view_struct s h = Some l ->
  exists refs, so_data o = sdict VDims refs /\ NoDup (dkeys refs) /\ dkeys refs = dkeys l /\
    Forall2 (fun p q => fst p = fst q /\ entry_is s h (so_kind o) (fst q) (snd q) (VDims (snd p))) refs l.
Proof.
  intros I Ho Hv. destruct (iv_structs s I _ _ Ho) as [refs [E [N [_ _]]]]. unfold view_struct in Hv. rewrite Ho, E in Hv.
  pose proof (viewed_of _ _ _ _ Hv) as V. exists refs. split; [exact E|]. split; [exact N|].
  split; [clear - V; induction V as [|[i r] [j d] t e [H _] _ IH]; [reflexivity|unfold dkeys in *; cbn [map fst] in *; subst; f_equal; exact IH]|].
  assert (Hh : forall i r, In (i, r) refs -> holds s h i r) by (intros i r X; apply (holds_refs s h o refs i r Ho E); exact X).
  clear - V Hh. induction V as [|[i r] [j d] t e [H H'] _ IH]; constructor.
  - cbn [fst snd] in *. subst j. split; [reflexivity|]. exists r. split; [reflexivity|]. split; [apply Hh; left; reflexivity|]. exact H'.
  - apply IH. intros; apply Hh; right; assumption.
Qed.

Lemma forall2_keys {A B} (R : string * A -> string * B -> Prop) l1 l2 : (forall p q, R p q -> fst p = fst q) -> Forall2 R l1 l2 ->
  forall i a, dget l1 i = Some a -> exists b, dget l2 i = Some b /\ R (i, a) (i, b).
Proof.
  intros HR F. induction F as [|[i1 a1] [i2 b2] t1 t2 Hp _ IH]; intros i a; [discriminate|].
  pose proof (HR _ _ Hp) as E. cbn [fst] in E. subst i2. cbn [dget]. destruct (String.eqb_spec i i1) as [->|].
  - intros [= ->]. eauto.
  - apply IH.
Qed.

(** What [self.data[id]] finds. *)
Lemma found_entry (s : machine) h o l id : inv s -> nth_error (m_structs s) h = Some o -> view_struct s h = Some l ->
  match data_get (so_data o) id with
  | Ok v => exists i d, id = VStr i /\ In (i, d) l /\ entry_is s h (so_kind o) i d v
  | Err e => (unhashable_value id /\ e = TypeError) \/ (absent l id /\ e = KeyError)
  end.
Proof.
  intros I Ho Hv. pose proof (found_key s h o l id I Ho Hv) as F. destruct (data_get (so_data o) id) as [v|e] eqn:G.
  - destruct F as [i [-> Hin]]. destruct (refs_of s h o l I Ho Hv) as [refs [E [N [K F]]]].
    unfold data_get in G. cbn [hashable negb] in G. rewrite E, vget_sdict in G.
    destruct (dget refs i) as [r|] eqn:Er; [|discriminate G]. cbn [option_map] in G. injection G as <-.
    assert (X := forall2_keys _ refs l (fun p q (H : fst p = fst q /\ _) => proj1 H) F i r Er). cbn beta in X.
    destruct X as [d [D1 [_ D2]]]. exists i, d. split; [reflexivity|]. split; [apply dget_In, D1|exact D2].
  - destruct F as [[F1 ->]|F]; [left|right; exact F]. split; [apply C63_unhashable_values, F1|reflexivity].
Qed.

Lemma struct_told (s : machine) h o l q : inv s -> nth_error (m_structs s) h = Some o -> view_struct s h = Some l ->
  tells s h (so_kind o) l q (answer (so_data o) q).
Proof.
  intros I Ho Hv. destruct (refs_of s h o l I Ho Hv) as [refs [E [N [K F]]]].
  destruct q as [id|id w|id| | | |]; cbn [answer].
  - pose proof (found_entry s h o l id I Ho Hv) as G. destruct (data_get (so_data o) id) as [v|e].
    + destruct G as [i [d [-> [G1 G2]]]]. exact (t_get _ _ _ _ i d v G1 G2).
    + destruct G as [[G ->]|[G ->]]; [apply t_get_unhashable|apply t_get_absent]; exact G.
  - pose proof (found_entry s h o l id I Ho Hv) as G. destruct (data_get (so_data o) id) as [v|e].
    + destruct G as [i [d [-> [G1 G2]]]]. exact (t_default _ _ _ _ i d v w G1 G2).
    + destruct G as [[G ->]|[G ->]]; [apply t_default_unhashable|apply t_default_absent]; exact G.
  - pose proof (found_key s h o l id I Ho Hv) as G. unfold data_get in G. destruct (hashable id) eqn:Hh; cbn [negb] in *.
    + unfold vmem. destruct (vget (so_data o) id).
      * destruct G as [i [-> G]]. apply t_in, G.
      * destruct G as [[G _]|[G _]]; [congruence|]. apply t_in_absent, G.
    + apply t_in_unhashable, C63_unhashable_values, Hh.
  - rewrite E. unfold zlen. rewrite length_sdict. assert (L : length refs = length l).
    { apply (f_equal (@length _)) in K. unfold dkeys in K. rewrite !map_length in K. exact K. }
    rewrite L. apply t_len.
  - rewrite E, vkeys_sdict, K. apply t_list.
  - apply t_values. rewrite E. unfold sdict. rewrite map_map. cbn [snd]. clear - F. induction F as [|p q t e [H1 H2] _ IH]; constructor; assumption.
  - apply t_items. rewrite E. unfold sdict. rewrite map_map. cbn [fst snd]. clear - F. induction F as [|p q t e [H1 H2] _ IH]; constructor; [|exact IH].
    exists (VDims (snd p)). rewrite H1. auto.
Qed.

Lemma holds_one (s : machine) h o i r r' : inv s -> nth_error (m_structs s) h = Some o -> holds s h i r -> holds s h i r' -> r = r'.
Proof.
  intros I Ho H H'. destruct (iv_structs s I _ _ Ho) as [refs [E [N _]]].
  apply (holds_refs s h o refs i r Ho E) in H. apply (holds_refs s h o refs i r' Ho E) in H'.
  apply (In_dget _ _ _ N) in H. apply (In_dget _ _ _ N) in H'. congruence.
Qed.

Lemma entry_one (s : machine) h o k i d v d' v' : inv s -> nth_error (m_structs s) h = Some o ->
  entry_is s h k i d v -> entry_is s h k i d' v' -> v = v'.
Proof. intros I Ho [r [-> [H _]]] [r' [-> [H' _]]]. f_equal. eapply holds_one; eassumption. Qed.

Lemma tells_one (s : machine) h o k l q a b : inv s -> nth_error (m_structs s) h = Some o -> NoDup (dkeys l) ->
  tells s h k l q a -> tells s h k l q b -> a = b.
Proof.
  intros I Ho N H1 H2.
  assert (U : forall id, absent l id -> unhashable_value id -> False).
  { intros id [A _] B. apply C63_unhashable_values in B. congruence. }
  assert (W : forall i d, In (i, d) l -> absent l (VStr i) -> False).
  { intros i d A [_ B]. apply (B i eq_refl). unfold dkeys. apply in_map_iff. exists (i, d). auto. }
  assert (W' : forall i, In i (dkeys l) -> absent l (VStr i) -> False) by (intros i A [_ B]; exact (B i eq_refl A)).
  assert (V : forall i, unhashable_value (VStr i) -> False) by (intros i B; apply C63_unhashable_values in B; discriminate B).
  destruct H1; inversion H2; subst; try reflexivity; try (exfalso; eauto; fail); try (f_equal; eapply entry_one; eassumption).
  - f_equal. f_equal. match goal with A : Forall2 _ l vs, B : Forall2 _ l vs0 |- _ => rename A into F1; rename B into F2 end.
    clear - I Ho F1 F2. revert vs vs0 F1 F2.
    induction l as [|p l IH]; intros x y A B; inversion A; inversion B; subst; [reflexivity|]. f_equal; [eapply entry_one; eassumption|apply IH; assumption].
  - f_equal. f_equal. match goal with A : Forall2 _ l vs, B : Forall2 _ l vs0 |- _ => rename A into F1; rename B into F2 end.
    clear - I Ho F1 F2. revert vs vs0 F1 F2.
    induction l as [|p l IH]; intros x y A B; inversion A as [|? ? ? ? [v1 [-> E1]]]; inversion B as [|? ? ? ? [v2 [-> E2]]]; subst; [reflexivity|].
    f_equal; [|apply IH; assumption]. do 3 f_equal. eapply entry_one; eassumption.
Qed.

(** ** Dimensions *)
Lemma dims_told (s : machine) r k d : inv s -> shows_dims s r k d ->
  exists keys o, (keys = [wkey k; lkey k] \/ keys = [lkey k; wkey k]) /\ nth_error (m_dims s) r = Some o /\
    forall q, tells_dims k d keys q (answer (do_data o) q).
Proof.
  intros I [o [Ho [Hk Hd]]].
  destruct (dobj_value k o d (iv_dims s I _ _ Ho) Hk Hd) as [[a [b [Pa [Pb E]]]] _].
  assert (X : exists keys v1 v2, (keys = [wkey k; lkey k] /\ v1 = a /\ v2 = b \/ keys = [lkey k; wkey k] /\ v1 = b /\ v2 = a) /\
     exists k1 k2, keys = [k1; k2] /\ do_data o = [(VStr k1, v1); (VStr k2, v2)] /\ side_of k d k1 v1 /\ side_of k d k2 v2).
  { unfold side_of. destruct E as [[= E]|[= E]].
    - exists [wkey k; lkey k], a, b. split; [auto|]. exists (wkey k), (lkey k). auto 8.
    - exists [lkey k; wkey k], b, a. split; [auto|]. exists (lkey k), (wkey k). auto 8. }
  destruct X as [keys [v1 [v2 [X1 [k1 [k2 [-> [X2 [S1 S2]]]]]]]]]. exists [k1; k2], o.
  assert (Y : [k1; k2] = [wkey k; lkey k] \/ [k1; k2] = [lkey k; wkey k]) by (destruct X1 as [[X1 _]|[X1 _]]; auto).
  split; [exact Y|]. split; [exact Ho|]. rewrite X2.
  assert (Ne : String.eqb k2 k1 = false) by (apply String.eqb_neq; destruct k, Y as [[= -> ->]|[= -> ->]]; discriminate).
  assert (G : forall key, match data_get [(VStr k1, v1); (VStr k2, v2)] key with
     | Ok v => exists i, key = VStr i /\ side_of k d i v
     | Err e => (unhashable_value key /\ e = TypeError) \/ (~ unhashable_value key /\ key <> VStr (wkey k) /\ key <> VStr (lkey k) /\ e = KeyError)
     end).
  { intros key. unfold data_get. destruct (hashable key) eqn:Hh; cbn [negb]; [|left; split; [apply C63_unhashable_values, Hh|reflexivity]].
    cbn [vget]. destruct (key_eqb key (VStr k1)) eqn:E1; [apply key_eqb_str_r in E1; eauto|].
    destruct (key_eqb key (VStr k2)) eqn:E2; [apply key_eqb_str_r in E2; eauto|]. right.
    assert (N1 : key <> VStr k1) by (intros ->; rewrite key_eqb_strs, String.eqb_refl in E1; discriminate E1).
    assert (N2 : key <> VStr k2) by (intros ->; rewrite key_eqb_strs, String.eqb_refl in E2; discriminate E2).
    split; [intros U; apply C63_unhashable_values in U; congruence|]. destruct Y as [[= -> ->]|[= -> ->]]; auto. }
  intros [key|key w|key| | | |]; cbn [answer].
  - specialize (G key). destruct (data_get _ key) as [v|e].
    + destruct G as [i [-> G]]. apply td_get, G.
    + destruct G as [[G ->]|[G1 [G2 [G3 ->]]]]; [apply td_get_unhashable, G|apply td_get_absent; assumption].
  - specialize (G key). destruct (data_get _ key) as [v|e].
    + destruct G as [i [-> G]]. apply td_default, G.
    + destruct G as [[G ->]|[G1 [G2 [G3 ->]]]]; [apply td_default_unhashable, G|apply td_default_absent; assumption].
  - specialize (G key). unfold data_get in G. destruct (hashable key) eqn:Hh; cbn [negb] in *.
    + unfold vmem. destruct (vget _ key).
      * destruct G as [i [-> [[-> _]|[-> _]]]]; apply td_in; auto.
      * destruct G as [[G _]|[G1 [G2 [G3 _]]]]; [apply C63_unhashable_values in G; congruence|apply td_in_absent; assumption].
    + apply td_in_unhashable, C63_unhashable_values, Hh.
  - apply td_len.
  - apply (td_list k d [k1; k2]).
  - apply td_values. cbn. constructor; [exact S1|]. constructor; [exact S2|]. constructor.
  - apply td_items. cbn. constructor; [exists v1; auto|]. constructor; [exists v2; auto|]. constructor.
Qed.

(** ** Deep copies *)
Definition pick (l : odict dims) (ids : list string) (es : odict dims) : odict dims :=
  fold_left (fun es i => match dget l i with Some d => dset es i d | None => es end) ids es.

Lemma pick_in l ids : NoDup (dkeys l) -> forall es, NoDup (dkeys es) -> (forall i d, In (i, d) es -> In (i, d) l) ->
  NoDup (dkeys (pick l ids es)) /\ forall i d, In (i, d) (pick l ids es) <-> In (i, d) l /\ (In i (dkeys es) \/ In i ids).
Proof.
  intros N. induction ids as [|j ids IH]; intros es Ne He; cbn [pick fold_left].
  - split; [exact Ne|]. intros i d. split.
    + intros H. split; [apply He, H|]. left. unfold dkeys. apply in_map_iff. exists (i, d). auto.
    + intros [H1 [H2|[]]]. unfold dkeys in H2. apply in_map_iff in H2. destruct H2 as [[i' d'] [E H2]]. cbn [fst] in E. subst i'.
      assert (d' = d); [|subst; exact H2]. apply He in H2. apply (In_dget _ _ _ N) in H1. apply (In_dget _ _ _ N) in H2. congruence.
  - fold (pick l ids). change (fold_left _ ids ?x) with (pick l ids x). destruct (dget l j) as [dj|] eqn:Ej.
    + destruct (IH (dset es j dj)) as [I1 I2].
      * apply NoDup_dset, Ne.
      * intros i d H. apply In_dset in H. destruct H as [[-> ->]|H]; [apply dget_In, Ej|apply He, H].
      * split; [exact I1|]. intros i d. rewrite I2. rewrite In_dkeys_dset. cbn [In]. intuition congruence.
    + destruct (IH es Ne He) as [I1 I2]. split; [exact I1|]. intros i d. rewrite I2. cbn [In].
      split; [intuition|]. intros [H1 [H2|[<-|H2]]]; auto. apply (In_dget _ _ _ N) in H1. congruence.
Qed.

Lemma pick_order l ids : NoDup ids -> (forall i, In i ids -> In i (dkeys l)) -> forall es, (forall i, In i ids -> ~ In i (dkeys es)) ->
  dkeys (pick l ids es) = dkeys es ++ ids.
Proof.
  intros N. induction N as [|j ids Hj N IH]; intros Hi es He; cbn [pick fold_left]; [rewrite app_nil_r; reflexivity|].
  change (fold_left _ ids ?x) with (pick l ids x). destruct (dget l j) as [dj|] eqn:Ej.
  2: { exfalso. apply dget_None in Ej. apply Ej, Hi. left. reflexivity. }
  rewrite IH.
  - rewrite dset_new by (apply He; left; reflexivity). unfold dkeys. rewrite map_app, <- app_assoc. reflexivity.
  - intros i H. apply Hi. right. exact H.
  - intros i H C. apply In_dkeys_dset in C. destruct C as [->|C]; [exact (Hj H)|]. apply (He i); [right; exact H|exact C].
Qed.

Definition shows_entry (k : kind) (p : string * pyval) (q : string * dims) : Prop :=
  fst p = fst q /\ dims_value k (snd p) (snd q) /\ genuine_dims (snd p).

Lemma shows_dset k i v d : forall c es, Forall2 (shows_entry k) c es -> shows_entry k (i, v) (i, d) ->
  Forall2 (shows_entry k) (dset c i v) (dset es i d).
Proof.
  intros c es F R. induction F as [|[j a] [j' b] t e [E Hp] F IH]; cbn [dset]; [constructor; [exact R|constructor]|].
  cbn [fst] in E. subst j'. destruct (String.eqb_spec i j) as [<-|]; constructor; try assumption. split; [reflexivity|exact Hp].
Qed.

Lemma copies_told (s : machine) h o l : inv s -> nth_error (m_structs s) h = Some o -> view_struct s h = Some l ->
  forall ids (c : odict pyval) es, Forall2 (shows_entry (so_kind o)) c es ->
  (exists is_ c', ids = map VStr is_ /\ (forall i, In i is_ -> In i (dkeys l)) /\
     copies ar s (so_data o) ids (sdict (fun v => v) c) = Ok (VDict (sdict (fun v => v) c')) /\
     Forall2 (shows_entry (so_kind o)) c' (pick l is_ es)) \/
  (exists is_ id rest e, ids = map VStr is_ ++ id :: rest /\ (forall i, In i is_ -> In i (dkeys l)) /\
     copies ar s (so_data o) ids (sdict (fun v => v) c) = Err e /\
     (unhashable_value id /\ e = TypeError \/ absent l id /\ e = KeyError)).
Proof.
  intros I Ho Hv. induction ids as [|id ids IH]; intros c es F.
  - left. exists [], c. split; [reflexivity|]. split; [intros i []|]. split; [reflexivity|exact F].
  - cbn [copies]. pose proof (found_entry s h o l id I Ho Hv) as G. destruct (data_get (so_data o) id) as [v|e]; cbn [bind].
    + destruct G as [i [d [-> [Hin [r [-> [_ [od [Hod [Hk Hd]]]]]]]]]]. cbn [copied]. rewrite Hod. cbn [bind].
      destruct (dobj_value (so_kind o) od d (iv_dims s I _ _ Hod) Hk Hd) as [D1 D2].
      rewrite (vset_sdict (fun v => v) c i (VDict (do_data od))).
      assert (K : In i (dkeys l)) by (unfold dkeys; apply in_map_iff; exists (i, d); auto).
      assert (Ed : dget l i = Some d).
      { destruct (refs_of s h o l I Ho Hv) as [refs [_ [N [E _]]]]. apply In_dget; [rewrite <- E; exact N|exact Hin]. }
      destruct (IH (dset c i (VDict (do_data od))) (dset es i d)) as [[is_ [c' [-> [H1 [H2 H3]]]]]|[is_ [id' [rest [e [-> [H1 [H2 H3]]]]]]]].
      { apply shows_dset; [exact F|]. split; [reflexivity|]. split; [exact D1|]. intros x [= <-]. exact D2. }
      * left. exists (i :: is_), c'. split; [reflexivity|]. split; [intros j [<-|Hj]; auto|]. split; [exact H2|].
        cbn [pick fold_left]. rewrite Ed. exact H3.
      * right. exists (i :: is_), id', rest, e. split; [reflexivity|]. split; [intros j [<-|Hj]; auto|]. split; [exact H2|exact H3].
    + right. exists [], id, ids, e. split; [reflexivity|]. split; [intros i []|]. split; [reflexivity|exact G].
Qed.

Lemma shows_keys k c es : Forall2 (shows_entry k) c es -> dkeys c = dkeys es.
Proof. induction 1 as [|[i a] [j b] c es [E _] _ IH]; [reflexivity|]. cbn [fst] in E. subst j. unfold dkeys in *. cbn [map fst]. f_equal. exact IH. Qed.

Lemma shows_value k c es : Forall2 (shows_entry k) c es -> NoDup (dkeys es) ->
  genuine (VDict (sdict (fun v => v) c)) /\ (es <> [] -> structure_value k (VDict (sdict (fun v => v) c)) es).
Proof.
  intros F N. split.
  - intros x [= <-]. split; [apply distinct_sdict; rewrite (shows_keys _ _ _ F); exact N|]. intros id w Hin.
    unfold sdict in Hin. apply in_map_iff in Hin. destruct Hin as [[i a] [[= <- <-] Hin]].
    clear - F Hin. induction F as [|p q c es [_ [_ G]] _ IH]; [destruct Hin|]. destruct Hin as [->|Hin]; [exact G|exact (IH Hin)].
  - intros Hne. exists (sdict (fun v => v) c). split; [reflexivity|]. split; [intros C; apply Hne; destruct F; [reflexivity|discriminate C]|].
    clear - F. induction F as [|[i a] [j b] c es [E [D _]] _ IH]; [constructor|]. cbn [fst snd] in *. subst j.
    change (sdict (fun v => v) ((i, a) :: c)) with ((VStr i, a) :: sdict (fun v => v) c). constructor; [split; [reflexivity|exact D]|exact IH].
Qed.

Lemma pick_all l : NoDup (dkeys l) -> pick l (dkeys l) [] = l.
Proof.
  intros N. assert (X : forall l2 l1, l = l1 ++ l2 -> pick l (dkeys l2) l1 = l).
  { induction l2 as [|[i d] l2 IH]; intros l1 E; [cbn; rewrite app_nil_r in E; auto|]. cbn [dkeys map fst pick fold_left].
    rewrite (In_dget l i d N) by (rewrite E; apply in_app_iff; right; left; reflexivity).
    rewrite dset_new. { apply IH. rewrite <- app_assoc. exact E. }
    rewrite E in N. unfold dkeys in *. rewrite map_app in N. cbn [map fst] in N. apply NoDup_remove_2 in N.
    intros C. apply N. apply in_app_iff. left. exact C. }
  apply (X l []). reflexivity.
Qed.

(** ** Equality *)
Lemma mapping_data_iff (s : machine) w d : mapping_data ar s w = Some d <-> mapping_is s w d.
Proof.
  split.
  - destruct w; cbn [mapping_data]; try discriminate.
    + intros [= <-]. constructor.
    + destruct (nth_error (m_structs s) h) as [o|] eqn:E; cbn [option_map]; [|discriminate]. intros [= <-]. constructor. exact E.
    + destruct (nth_error (m_dims s) h) as [o|] eqn:E; cbn [option_map]; [|discriminate]. intros [= <-]. constructor. exact E.
  - intros [e|h o H|h o H]; cbn [mapping_data]; [reflexivity|rewrite H; reflexivity|rewrite H; reflexivity].
Qed.

Lemma side_eq_told v z w : positive_int v z -> exists b, side_eq v w = Ok b /\ (b = true <-> number_is z w).
Proof.
  intros [Hv _]. assert (P : exists p, as_number v = Some (FNum p) /\ (p == inject_Z z)%Q).
  { destruct Hv as [->|[-> ->]]; cbn [as_number]; eexists; split; try reflexivity. }
  destruct P as [p [Ep Hp]]. unfold side_eq. rewrite Ep. eexists. split; [reflexivity|].
  destruct w; cbn [as_number]; try (split; [discriminate|intros H; inversion H; fail]).
  - cbn [float_eqb]. rewrite Qeq_bool_iff, Hp. split.
    + intros E. constructor. destruct b.
      * exact (proj1 (inject_Z_injective z 1) E).
      * exact (proj1 (inject_Z_injective z 0) E).
    + intros H. inversion H as [|b' E|]; subst. destruct b; reflexivity.
  - cbn [float_eqb]. rewrite Qeq_bool_iff, Hp, inject_Z_injective. split; [intros ->; constructor|]. intros H. inversion H. reflexivity.
  - destruct f; cbn [float_eqb]; try (split; [discriminate|intros H; inversion H; fail]).
    rewrite Qeq_bool_iff, Hp. split.
    + intros E. constructor. symmetry. exact E.
    + intros H. inversion H as [| |q' E]; subst. symmetry. exact E.
Qed.

Lemma dims_eq_told (s : machine) r k d w : inv s -> shows_dims s r k d ->
  exists b, dims_eq ar s (VDims r) w = Ok b /\ (b = true <-> same_dims s k d w).
Proof.
  intros I [o [Ho [Hk Hd]]]. cbn [dims_eq]. rewrite Ho.
  destruct (dobj_value k o d (iv_dims s I _ _ Ho) Hk Hd) as [[a [b [Pa [Pb E]]]] _].
  destruct (mapping_data ar s w) as [e|] eqn:Em.
  2: { exists false. split; [reflexivity|]. split; [discriminate|]. intros [e [H _]]. apply mapping_data_iff in H. congruence. }
  apply mapping_data_iff in Em.
  assert (U : forall e', mapping_is s w e' -> e' = e).
  { intros e' H. apply mapping_data_iff in H. apply mapping_data_iff in Em. congruence. }
  unfold dict_eq, zlen.
  assert (L : length (do_data o) = 2%nat) by (destruct E as [[= ->]|[= ->]]; reflexivity). rewrite L.
  destruct (Z.eqb_spec (Z.of_nat 2) (Z.of_nat (length e))) as [El|El].
  2: { exists false. split; [reflexivity|]. split; [discriminate|]. intros [e' [H [H' _]]]. apply U in H. subst e'. rewrite H' in El. congruence. }
  assert (El' : length e = 2%nat) by lia.
  assert (X : exists k1 v1 z1 k2 v2 z2, do_data o = [(VStr k1, v1); (VStr k2, v2)] /\ positive_int v1 z1 /\ positive_int v2 z2 /\
     ((k1 = wkey k /\ k2 = lkey k /\ z1 = dw d /\ z2 = dl d) \/ (k1 = lkey k /\ k2 = wkey k /\ z1 = dl d /\ z2 = dw d))).
  { destruct E as [[= E]|[= E]]; rewrite E.
    - exists (wkey k), a, (dw d), (lkey k), b, (dl d). auto 8.
    - exists (lkey k), b, (dl d), (wkey k), a, (dw d). auto 8. }
  destruct X as [k1 [v1 [z1 [k2 [v2 [z2 [X1 [P1 [P2 X2]]]]]]]]]. rewrite X1. cbn [all_equal].
  assert (Y : same_dims s k d w <-> (exists a, vget e (VStr k1) = Some a /\ number_is z1 a) /\ (exists b, vget e (VStr k2) = Some b /\ number_is z2 b)).
  { split.
    - intros [e' [H [_ H']]]. apply U in H. subst e'. destruct X2 as [[-> [-> [-> ->]]]|[-> [-> [-> ->]]]]; tauto.
    - intros H. exists e. split; [exact Em|]. split; [exact El'|]. destruct X2 as [[-> [-> [-> ->]]]|[-> [-> [-> ->]]]]; tauto. }
  destruct (vget e (VStr k1)) as [w1|] eqn:W1.
  2: { exists false. split; [reflexivity|]. split; [discriminate|]. intros H. apply Y in H. destruct H as [[x [H _]] _]. discriminate H. }
  destruct (side_eq_told v1 z1 w1 P1) as [b1 [-> B1]]. cbn [bind]. destruct b1.
  2: { exists false. split; [reflexivity|]. split; [discriminate|]. intros H. apply Y in H. destruct H as [[x [[= <-] H]] _]. apply B1, H. }
  destruct (vget e (VStr k2)) as [w2|] eqn:W2.
  2: { exists false. split; [reflexivity|]. split; [discriminate|]. intros H. apply Y in H. destruct H as [_ [x [H _]]]. discriminate H. }
  destruct (side_eq_told v2 z2 w2 P2) as [b2 [-> B2]]. cbn [bind]. exists b2. split; [destruct b2; reflexivity|]. rewrite Y, B2.
  split; [intros H; split; eexists; split; try reflexivity; [apply B1; reflexivity|exact H]|]. intros [_ [x [[= <-] H]]]. exact H.
Qed.

Lemma struct_eq_told (s : machine) h o l w : inv s -> nth_error (m_structs s) h = Some o -> view_struct s h = Some l ->
  exists b, struct_equals ar h w s = (s, Ok b) /\ (b = true <-> same_entries s (so_kind o) l w).
Proof.
  intros I Ho Hv. destruct (refs_of s h o l I Ho Hv) as [refs [E [N [K F]]]].
  unfold struct_equals, sbind at 1, get_sobj. rewrite Ho. unfold sbind, sget, slift.
  destruct (mapping_data ar s w) as [e|] eqn:Em.
  2: { exists false. split; [reflexivity|]. split; [discriminate|]. intros [e [H _]]. apply mapping_data_iff in H. congruence. }
  apply mapping_data_iff in Em.
  assert (U : forall e', mapping_is s w e' -> e' = e).
  { intros e' H. apply mapping_data_iff in H. apply mapping_data_iff in Em. congruence. }
  assert (L : length (so_data o) = length l).
  { rewrite E, length_sdict. apply (f_equal (@length _)) in K. unfold dkeys in K. rewrite !map_length in K. exact K. }
  unfold dict_eq, zlen. destruct (Z.eqb_spec (Z.of_nat (length (so_data o))) (Z.of_nat (length e))) as [El|El].
  2: { exists false. split; [reflexivity|]. split; [discriminate|]. intros [e' [H [H' _]]]. apply U in H. subst e'. lia. }
  assert (X : exists b, all_equal (dims_eq ar s) (so_data o) e = Ok b /\
     (b = true <-> forall i d, In (i, d) l -> exists x, vget e (VStr i) = Some x /\ same_dims s (so_kind o) d x)).
  { rewrite E. clear - I F. induction F as [|[i r] [j d] t l' [Ei Hd] F IH].
    - exists true. split; [reflexivity|]. split; [intros _ ? ? []|reflexivity].
    - cbn [fst snd] in *. subst j. change (sdict VDims ((i, r) :: t)) with ((VStr i, VDims r) :: sdict VDims t). cbn [all_equal].
      destruct (vget e (VStr i)) as [x|] eqn:Ex.
      2: { exists false. split; [reflexivity|]. split; [discriminate|]. intros H. destruct (H i d (or_introl eq_refl)) as [x [H1 _]]. congruence. }
      destruct Hd as [r' [[= <-] [_ Hd]]]. destruct (dims_eq_told s r (so_kind o) d x I Hd) as [b1 [-> B1]]. cbn [bind].
      destruct b1.
      2: { exists false. split; [reflexivity|]. split; [discriminate|]. intros H. destruct (H i d (or_introl eq_refl)) as [y [H1 H2]].
           apply B1. congruence. }
      destruct IH as [b [-> IH]]. exists b. split; [reflexivity|]. rewrite IH. split.
      + intros H i' d' [[= <- <-]|H']; [exists x; split; [exact Ex|apply B1; reflexivity]|apply H, H'].
      + intros H i' d' H'. apply H. right. exact H'. }
  destruct X as [b [-> X]]. exists b. split; [reflexivity|]. rewrite X. split.
  - intros H. exists e. split; [exact Em|]. split; [lia|exact H].
  - intros [e' [H [_ H']]]. apply U in H. subst e'. exact H'.
Qed.

(** ** Return values *)
Definition forget {A} (r : result A) : result unit := match r with Ok _ => Ok tt | Err e => Err e end.

Lemma del_keeps (s s' : machine) h id r : struct_del ar h id s = (s', r) -> m_dims s' = m_dims s.
Proof.
  intros H. destruct (struct_del_cases _ _ _ _ _ H) as [[e [_ ->]]|[_ [o' [_ [_ [_ ->]]]]]]; [reflexivity|].
  rewrite recount_dims. reflexivity.
Qed.
Lemma still (s s' : machine) r k d : m_dims s' = m_dims s -> shows_dims s r k d -> shows_dims s' r k d.
Proof. intros E [o H]. exists o. rewrite E. exact H. Qed.

(** ** Unions *)
Lemma lone_get k id v (s : machine) : lone_dims k id v =
  match get_dimensions ar k id v s with
  | (s', Ok r) => match nth_error (m_dims s') r with Some o => Ok (do_data o) | None => Err nothing_there end
  | (_, Err e) => Err e
  end.
Proof.
  unfold lone_dims, get_dimensions. rewrite swhen_cases. destruct (negb (is_str id)); [reflexivity|].
  destruct v; try reflexivity. destruct d as [|p d]; [reflexivity|]. unfold new_dimensions. rewrite swhen_cases.
  destruct (negb (has_proper_keys k (p :: d))); [reflexivity|]. unfold sbind, slift. destruct (fill_dims k (p :: d) []) as [data|e]; [|reflexivity].
  unfold reset, smodify, new_dobj. cbn [m_dims set_dims set_sol]. rewrite nth_error_app2, Nat.sub_diag by lia. reflexivity.
Qed.

Lemma lone_told k id v (s : machine) : genuine_dims v ->
  match lone_dims k id v with
  | Ok data => exists i d, id = VStr i /\ dims_value k v d /\ dims_value k (VDict data) d
  | Err e => entry_error k id v e
  end.
Proof.
  intros G. destruct (value_or_error k id v G) as [[i [d [-> H]]]|[e H]].
  - destruct (get_dimensions_accepts k i v d s H) as [data [V E]]. pose proof (lone_get k (VStr i) v s) as X. rewrite E in X.
    cbn [m_dims set_dims] in X. rewrite nth_error_app2, Nat.sub_diag in X by lia. cbn [nth_error do_data] in X. rewrite X.
    exists i, d. split; [reflexivity|]. split; [exact H|].
    unfold get_dimensions in E. rewrite swhen_cases in E. cbn [is_str negb] in E.
    destruct (new_dimensions_cases k v s _ _ E) as [[e [C _]]|[data' [_ [G1 [_ [_ E']]]]]]; [discriminate C|].
    apply (f_equal (@m_dims ar)) in E'. cbn [m_dims set_dims] in E'. apply app_inv_head in E'. injection E' as <-.
    apply (dobj_value k (mkDobj k data) d G1 eq_refl V).
  - pose proof (lone_get k id v s) as X. rewrite (get_dimensions_rejects k id v e s H) in X. rewrite X. exact H.
Qed.

Lemma lone_type k i v : (forall d, v <> VDict d) -> lone_dims k (VStr i) v = Err (DimensionsError D_TYPE).
Proof. intros H. destruct v; try reflexivity. exfalso. exact (H _ eq_refl). Qed.

Lemma union_first e : distinct_keys e -> forall i x t, exists t',
  union ((VStr i, x) :: t) e = (VStr i, match vget e (VStr i) with Some y => y | None => x end) :: t'.
Proof.
  induction e as [|[k v] e IH]; intros D i x t; [exists t; reflexivity|].
  inversion D as [|? ? D1 D2]; subst. unfold union. cbn [fold_left fst snd vset vget].
  destruct (key_eqb k (VStr i)) eqn:E.
  - apply key_eqb_str_r in E. subst k. rewrite key_eqb_strs, String.eqb_refl. destruct (IH D2 i v t) as [t' H]. exists t'.
    unfold union in H. rewrite H. f_equal. f_equal. destruct (vget e (VStr i)) as [y|] eqn:Ey; [|reflexivity].
    exfalso. clear - D1 Ey. induction e as [|[k2 v2] e IH]; [discriminate Ey|]. inversion D1 as [|? ? A B]; subst. cbn [fst] in A. cbn [vget] in Ey.
    destruct (key_eqb (VStr i) k2) eqn:E2; [apply key_eqb_str_l in E2; subst k2; rewrite key_eqb_strs, String.eqb_refl in A; discriminate A|].
    exact (IH B Ey).
  - destruct (key_eqb (VStr i) k) eqn:E2; [apply key_eqb_str_l in E2; subst k; rewrite key_eqb_strs, String.eqb_refl in E; discriminate E|].
    destruct (IH D2 i x (vset t k v)) as [t' H]. exists t'. exact H.
Qed.

Definition strings (d : vdict) : Prop := forall key, In key (vkeys d) -> exists i, key = VStr i.
Lemma strings_odict (d : vdict) : strings d -> exists c : odict pyval, d = sdict (fun v => v) c.
Proof.
  induction d as [|[k v] d IH]; intros H; [exists []; reflexivity|].
  destruct IH as [c ->]; [intros key Hk; apply H; right; exact Hk|].
  destruct (H k (or_introl eq_refl)) as [i ->]. exists ((i, v) :: c). reflexivity.
Qed.

Lemma vset_more d k v key : In key (vkeys d) -> In key (vkeys (vset d k v)).
Proof.
  induction d as [|[k' v'] d IH]; cbn [vset vkeys map fst]; [intros []|]. intros H. destruct (key_eqb k k').
  - exact H.
  - destruct H as [<-|H]; [left; reflexivity|right; apply IH, H].
Qed.
Lemma vset_strange d k v : (forall i, k <> VStr i) -> exists key, In key (vkeys (vset d k v)) /\ forall i, key <> VStr i.
Proof.
  intros H. induction d as [|[k' v'] d [key [IH1 IH2]]]; cbn [vset vkeys map fst].
  - exists k. split; [left; reflexivity|exact H].
  - destruct (key_eqb k k') eqn:E.
    + exists k'. split; [left; reflexivity|]. intros i ->. apply key_eqb_str_r in E. exact (H i E).
    + exists key. split; [right; exact IH1|exact IH2].
Qed.
Lemma union_more e : forall d key, In key (vkeys d) -> In key (vkeys (union d e)).
Proof. induction e as [|[k v] e IH]; intros d key H; [exact H|]. apply (IH (vset d k v)). apply vset_more, H. Qed.
Lemma str_dec (k : pyval) : (exists i, k = VStr i) \/ forall i, k <> VStr i.
Proof. destruct k; try (right; discriminate). left; eauto. Qed.
Lemma union_strings d e : strings (union d e) -> strings d /\ strings e.
Proof.
  intros H. split; [intros key Hk; apply H, union_more, Hk|]. revert d H. induction e as [|[k v] e IH]; intros d H key Hk; [destruct Hk|].
  destruct Hk as [<-|Hk]; [|exact (IH _ H key Hk)]. destruct (str_dec k) as [X|X]; [exact X|]. exfalso.
  destruct (vset_strange d k v X) as [key [K1 K2]]. destruct (H key (union_more e _ _ K1)) as [i ->]. exact (K2 i eq_refl).
Qed.

Lemma lone_entries_told k d new : lone_entries k d = Ok new <-> Forall2 (fun p q => fst q = fst p /\ lone_dims k (fst p) (snd p) = Ok (snd q)) d new.
Proof.
  split.
  - revert new. induction d as [|[id v] d IH]; intros new; cbn [lone_entries]; [intros [= <-]; constructor|].
    destruct (lone_dims k id v) as [x|e] eqn:E; cbn [bind]; [|discriminate]. destruct (lone_entries k d) as [r|e]; cbn [bind]; [|discriminate].
    intros [= <-]. constructor; [split; [reflexivity|exact E]|]. apply IH. reflexivity.
  - induction 1 as [|[id v] [id' x] d new [E H] _ IH]; [reflexivity|]. cbn [fst snd] in *. subst id'. cbn [lone_entries]. rewrite H, IH. reflexivity.
Qed.

Definition overlay {A} (a b : odict A) : odict A := fold_left (fun d kv => dset d (fst kv) (snd kv)) b a.
Lemma union_overlay a b : union (sdict (fun v => v) a) (sdict (fun v => v) b) = sdict (fun v => v) (overlay a b).
Proof.
  revert a. induction b as [|[i v] b IH]; intros a; [reflexivity|]. unfold union, overlay. cbn [fold_left map sdict fst snd].
  rewrite (vset_sdict (fun v => v) a i v). apply IH.
Qed.
Lemma overlay_get {A} (b : odict A) : NoDup (dkeys b) -> forall a i,
  dget (overlay a b) i = match dget b i with Some v => Some v | None => dget a i end.
Proof.
  induction b as [|[j v] b IH]; intros N a i; [reflexivity|]. cbn [dkeys map fst] in N. inversion N as [|? ? N1 N2]; subst.
  unfold overlay. cbn [fold_left fst snd]. change (fold_left _ b ?x) with (overlay x b). rewrite (IH N2). cbn [dget].
  destruct (String.eqb_spec i j) as [->|Hne].
  - rewrite (proj2 (dget_None b j) N1). apply dget_dset_same.
  - destruct (dget b i); [reflexivity|]. apply dget_dset_other. congruence.
Qed.
Lemma overlay_keys {A} (b : odict A) : NoDup (dkeys b) -> forall a,
  dkeys (overlay a b) = dkeys a ++ filter (fun i => negb (dmem a i)) (dkeys b).
Proof.
  induction b as [|[j v] b IH]; intros N a; [rewrite app_nil_r; reflexivity|]. cbn [dkeys map fst] in N. inversion N as [|? ? N1 N2]; subst.
  unfold overlay. cbn [fold_left fst snd]. change (fold_left _ b ?x) with (overlay x b). rewrite (IH N2). cbn [dkeys map fst filter].
  assert (E : filter (fun i => negb (dmem (dset a j v) i)) (dkeys b) = filter (fun i => negb (dmem a i)) (dkeys b)).
  { apply filter_ext_in. intros i Hi. f_equal. unfold dmem. rewrite dget_dset_other; [reflexivity|]. intros ->. exact (N1 Hi). }
  rewrite E. rewrite dkeys_dset. change (map fst b) with (dkeys b). destruct (dmem a j) eqn:M; cbn [negb]; [reflexivity|].
  rewrite <- app_assoc. reflexivity.
Qed.

Lemma forall_choose {A B} (R : A -> B -> Prop) l : (forall x, In x l -> exists y, R x y) -> exists ys, Forall2 R l ys.
Proof.
  induction l as [|x l IH]; intros H; [exists []; constructor|]. destruct (H x (or_introl eq_refl)) as [y Hy].
  destruct IH as [ys Hys]; [intros z Hz; apply H; right; exact Hz|]. exists (y :: ys). constructor; assumption.
Qed.

Lemma sdict_inj {A} (f : A -> pyval) a : dkeys a = dkeys (map (fun p => (fst p, f (snd p))) a).
Proof. unfold dkeys. rewrite map_map. reflexivity. Qed.

Lemma value_strings k e es : Forall2 (fun p q => fst p = VStr (fst q) /\ dims_value k (snd p) (snd q)) e es ->
  exists c : odict pyval, e = sdict (fun v => v) c /\ dkeys c = dkeys es /\
    Forall2 (fun p q => fst p = fst q /\ dims_value k (snd p) (snd q)) c es.
Proof.
  induction 1 as [|[id v] [i d] e es [E D] _ [c [-> [K F]]]]; [exists []; repeat split; constructor|]. cbn [fst snd] in *. subst id.
  exists ((i, v) :: c). split; [reflexivity|]. split; [unfold dkeys in *; cbn [map fst]; f_equal; exact K|]. constructor; [split; [reflexivity|exact D]|exact F].
Qed.

Lemma distinct_nodup (c : odict pyval) : distinct_keys (sdict (fun v => v) c) -> NoDup (dkeys c).
Proof.
  induction c as [|[i v] c IH]; intros D; [constructor|]. change (sdict (fun v => v) ((i, v) :: c)) with ((VStr i, v) :: sdict (fun v => v) c) in D.
  inversion D as [|? ? D1 D2]; subst. constructor; [|apply IH, D2]. intros C. rewrite Forall_forall in D1.
  unfold dkeys in C. apply in_map_iff in C. destruct C as [[j w] [E C]]. cbn [fst] in E. subst j.
  assert (X := D1 (VStr i, w)). cbn [fst] in X. rewrite key_eqb_strs, String.eqb_refl in X. assert (In (VStr i, w) (sdict (fun v => v) c)).
  { unfold sdict. apply in_map_iff. exists (i, w). auto. } specialize (X H). discriminate X.
Qed.

(** What the union of the entries [a] (Dimensions objects) with [e] is worth. *)
Lemma union_told k (s : machine) (a : odict nat) e : NoDup (dkeys a) -> genuine (VDict e) ->
  let r := lone_structure k (union (sdict VDims a) e) in
  ((exists new, r = Ok new) <-> exists es, structure_value k (VDict e) es /\ incl (dkeys a) (dkeys es)) /\
  (forall new es, r = Ok new -> structure_value k (VDict e) es ->
     map fst new = map VStr (dkeys a ++ filter (fun i => negb (existsb (String.eqb i) (dkeys a))) (dkeys es)) /\
     forall i d, In (i, d) es <-> exists data, In (VStr i, data) new /\ dims_value k (VDict data) d).
Proof.
  intros Na G r. destruct (G e eq_refl) as [De Ge].
  set (a' := map (fun p => (fst p, VDims (snd p))) a).
  assert (Ea : sdict VDims a = sdict (fun v => v) a') by (unfold sdict, a'; rewrite map_map; reflexivity).
  assert (Ka : dkeys a' = dkeys a) by (unfold a', dkeys; rewrite map_map; reflexivity).
  assert (Va : forall i v, dget a' i = Some v -> exists n, v = VDims n).
  { intros i v H. apply dget_In in H. unfold a' in H. apply in_map_iff in H. destruct H as [[j n] [[= <- <-] _]]. eauto. }
  assert (Na' : NoDup (dkeys a')) by (rewrite Ka; exact Na).
  assert (Nov : forall b : odict pyval, NoDup (dkeys b) -> NoDup (dkeys (overlay a' b))).
  { intros b _. assert (X : forall b a0 : odict pyval, NoDup (dkeys a0) -> NoDup (dkeys (overlay a0 b))).
    { clear. induction b as [|[j v] b IH]; intros a0 N; [exact N|]. apply IH, NoDup_dset, N. } apply X, Na'. }
  (* what a success tells *)
  assert (S1 : forall new, r = Ok new -> exists c es, e = sdict (fun v => v) c /\ NoDup (dkeys c) /\ structure_value k (VDict e) es /\
     dkeys c = dkeys es /\ incl (dkeys a) (dkeys es) /\
     Forall2 (fun p q => fst q = fst p /\ lone_dims k (fst p) (snd p) = Ok (snd q)) (sdict (fun v => v) (overlay a' c)) new).
  { intros new Hr. unfold r, lone_structure in Hr. destruct (union (sdict VDims a) e) as [|p u] eqn:Eu; [discriminate Hr|].
    rewrite <- Eu in Hr. apply lone_entries_told in Hr.
    assert (St : strings (union (sdict VDims a) e)).
    { intros key Hk. unfold vkeys in Hk. apply in_map_iff in Hk. destruct Hk as [[key' v] [E Hin]]. cbn [fst] in E. subst key'.
      clear - Hr Hin. induction Hr as [|p q d new [_ H] _ IH]; [destruct Hin|]. destruct Hin as [->|Hin]; [|exact (IH Hin)].
      cbn [fst snd] in H. unfold lone_dims in H. destruct key; try discriminate H. eauto. }
    apply union_strings in St. destruct St as [_ St]. destruct (strings_odict e St) as [c Ec]. subst e.
    pose proof (distinct_nodup c De) as Nc. rewrite Ea, union_overlay in Hr.
    assert (All : forall i v, dget (overlay a' c) i = Some v -> exists data, lone_dims k (VStr i) v = Ok data).
    { intros i v H. apply dget_In in H. assert (Hin : In (VStr i, v) (sdict (fun v => v) (overlay a' c))).
      { unfold sdict. apply in_map_iff. exists (i, v). auto. }
      clear - Hr Hin. induction Hr as [|p q d new [_ H] _ IH]; [destruct Hin|]. destruct Hin as [->|Hin]; [eauto|exact (IH Hin)]. }
    assert (Inc : incl (dkeys a) (dkeys c)).
    { intros i Hi. rewrite <- Ka in Hi. apply dget_Some_In in Hi. destruct Hi as [v Hi].
      destruct (dget c i) as [w|] eqn:E; [apply dget_Some_In; eauto|]. exfalso.
      destruct (All i v) as [data H]; [rewrite overlay_get, E by exact Nc; exact Hi|].
      destruct (Va i v Hi) as [n ->]. discriminate H. }
    assert (Cho : exists es, Forall2 (fun p q => fst p = fst q /\ dims_value k (snd p) (snd q)) c es).
    { apply forall_choose. intros [i v] Hin. destruct (All i v) as [data H].
      { rewrite overlay_get by exact Nc. rewrite (In_dget _ _ _ Nc Hin). reflexivity. }
      pose proof (lone_told k (VStr i) v s) as X. rewrite H in X.
      destruct X as [i' [d [[= <-] [X _]]]]; [apply (Ge (VStr i)); unfold sdict; apply in_map_iff; exists (i, v); auto|].
      exists (i, d). auto. }
    destruct Cho as [es Fes]. exists c, es.
    assert (Kes : dkeys c = dkeys es).
    { clear - Fes. induction Fes as [|[i v] [j d] c es [E _] _ IH]; [reflexivity|]. cbn [fst] in E. subst j. unfold dkeys in *. cbn [map fst]. f_equal. exact IH. }
    split; [reflexivity|]. split; [exact Nc|]. split; [|split; [exact Kes|split; [rewrite <- Kes; exact Inc|exact Hr]]].
    exists (sdict (fun v => v) c). split; [reflexivity|]. split.
    - intros C. destruct c; [|discriminate C]. rewrite Ea, union_overlay in Eu. destruct a as [|[i n] a]; [discriminate Eu|].
      exact (Inc i (or_introl eq_refl)).
    - clear - Fes. induction Fes as [|[i v] [j d] c es [E D] _ IH]; [constructor|]. cbn [fst snd] in *. subst j.
      change (sdict (fun v => v) ((i, v) :: c)) with ((VStr i, v) :: sdict (fun v => v) c). constructor; [split; [reflexivity|exact D]|exact IH]. }
  split; [split|].
  - intros [new H]. destruct (S1 new H) as [c [es [_ [_ [H1 [_ [H2 _]]]]]]]. eauto.
  - intros [es [[e' [[= <-] [Hne F]]] Inc]]. destruct (value_strings k e es F) as [c [Ec [Kc Fc]]]. subst e.
    pose proof (distinct_nodup c De) as Nc. unfold r. rewrite Ea, union_overlay.
    assert (X : exists new, lone_entries k (sdict (fun v => v) (overlay a' c)) = Ok new).
    { destruct (forall_choose (fun p q => fst q = fst p /\ lone_dims k (fst p) (snd p) = Ok (snd q)) (sdict (fun v => v) (overlay a' c))) as [new Fn].
      - intros [id v] Hin. unfold sdict in Hin. apply in_map_iff in Hin. destruct Hin as [[i v'] [[= <- <-] Hin]].
        apply (In_dget _ _ _ (Nov c Nc)) in Hin. rewrite (overlay_get _ Nc) in Hin.
        destruct (dget c i) as [w|] eqn:E.
        + injection Hin as ->. assert (D : exists d, dims_value k v' d).
          { apply dget_In in E. clear - Fc E. induction Fc as [|p q c es [_ H] _ IH]; [destruct E|]. destruct E as [->|E]; [eauto|exact (IH E)]. }
          destruct D as [d D]. pose proof (lone_told k (VStr i) v' s) as L.
          cbn [fst snd]. destruct (lone_dims k (VStr i) v') as [data|er] eqn:El; [exists (VStr i, data); auto|].
          exfalso. eapply value_no_error; [exact D|]. apply L. apply (Ge (VStr i)). unfold sdict. apply in_map_iff. exists (i, v'). split; [reflexivity|apply dget_In, E].
        + exfalso. assert (Hi : In i (dkeys a)) by (rewrite <- Ka; apply dget_Some_In; eauto). apply Inc in Hi. rewrite <- Kc in Hi.
          apply dget_None in E. exact (E Hi).
      - exists new. apply lone_entries_told. exact Fn. }
    destruct X as [new X]. exists new. unfold lone_structure.
    destruct (sdict (fun v => v) (overlay a' c)) as [|p u] eqn:Eu; [|rewrite <- Eu; rewrite Eu; exact X].
    exfalso. destruct c as [|[i v] c]; [exact (Hne eq_refl)|]. assert (Z0 : dget (overlay a' ((i, v) :: c)) i = Some v).
    { rewrite (overlay_get _ Nc). cbn [dget]. rewrite String.eqb_refl. reflexivity. }
    destruct (overlay a' ((i, v) :: c)); [discriminate Z0|discriminate Eu].
  - intros new es Hr Hes. destruct (S1 new Hr) as [c [es' [Ec [Nc [Hes' [Kc [Inc F]]]]]]]. subst e.
    destruct Hes as [e' [[= <-] [_ Fe]]]. destruct (value_strings k _ es Fe) as [c' [Ec' [Kc' Fc']]].
    assert (c' = c).
    { clear - Ec'. revert c' Ec'. induction c as [|[i v] c IH]; intros [|[j w] c'] H; try discriminate H; [reflexivity|]. injection H as -> -> H. f_equal. apply IH. exact H. }
    subst c'. split.
    + assert (K : map fst new = vkeys (sdict (fun v => v) (overlay a' c))).
      { clear - F. induction F as [|p q d new [E _] _ IH]; [reflexivity|]. unfold vkeys in *. cbn [map]. f_equal; assumption. }
      rewrite K, vkeys_sdict, (overlay_keys _ Nc), Ka, Kc'. f_equal. f_equal. apply filter_ext. intros i. f_equal.
      apply eq_true_iff_eq. rewrite existsb_exists. unfold dmem. split.
      * intros H. exists i. split; [|apply String.eqb_refl]. rewrite <- Ka. apply dget_Some_In. destruct (dget a' i); [eauto|discriminate H].
      * intros [j [Hj Ej]]. apply String.eqb_eq in Ej. subst j. rewrite <- Ka in Hj. apply dget_Some_In in Hj. destruct Hj as [v ->]. reflexivity.
    + assert (One : forall i v data, In (VStr i, data) new -> dget (overlay a' c) i = Some v -> lone_dims k (VStr i) v = Ok data).
      { intros i v data Hin Hg. assert (X : exists v', In (VStr i, v') (sdict (fun v => v) (overlay a' c)) /\ lone_dims k (VStr i) v' = Ok data).
        { clear - F Hin. induction F as [|[pi pv] q d new [E H] _ IH]; [destruct Hin|]. destruct Hin as [->|Hin].
          - cbn [fst snd] in *. subst pi. exists pv. split; [left; reflexivity|exact H].
          - destruct (IH Hin) as [v' [A B]]. exists v'. split; [right; exact A|exact B]. }
        destruct X as [v' [X1 X2]]. unfold sdict in X1. apply in_map_iff in X1. destruct X1 as [[j w] [[= -> ->] X1]].
        apply (In_dget _ _ _ (Nov c Nc)) in X1. congruence. }
      assert (Nes : NoDup (dkeys es)) by (rewrite <- Kc'; exact Nc).
      assert (Val : forall i d, In (i, d) es -> exists v data, dget c i = Some v /\ In (VStr i, data) new /\
                lone_dims k (VStr i) v = Ok data /\ dims_value k v d /\ dims_value k (VDict data) d).
      { intros i d Hin. assert (X : exists v, In (i, v) c /\ dims_value k v d).
        { clear - Fc' Hin. induction Fc' as [|[pi pv] [qi qd] c es [E H] _ IH]; [destruct Hin|]. destruct Hin as [Hin|Hin].
          - injection Hin as -> ->. cbn [fst snd] in *. subst pi. exists pv. split; [left; reflexivity|exact H].
          - destruct (IH Hin) as [v' [A B]]. exists v'. split; [right; exact A|exact B]. }
        destruct X as [v [Xc Xd]]. assert (Xg : dget c i = Some v) by (apply In_dget; assumption).
        assert (Xo : dget (overlay a' c) i = Some v) by (rewrite (overlay_get _ Nc), Xg; reflexivity).
        assert (Xn : exists data, In (VStr i, data) new).
        { assert (K : In (VStr i, v) (sdict (fun v => v) (overlay a' c))) by (unfold sdict; apply in_map_iff; exists (i, v); split; [reflexivity|apply dget_In, Xo]).
          clear - F K. induction F as [|p [qi qd] d new [E _] _ IH]; [destruct K|]. destruct K as [->|K].
          - cbn [fst] in E. subst qi. exists qd. left. reflexivity.
          - destruct (IH K) as [data H]. exists data. right. exact H. }
        destruct Xn as [data Xn]. pose proof (One i v data Xn Xo) as L. exists v, data. split; [exact Xg|]. split; [exact Xn|]. split; [exact L|]. split; [exact Xd|].
        pose proof (lone_told k (VStr i) v s) as T. rewrite L in T. destruct T as [i' [d' [[= <-] [T1 T2]]]].
        { apply (Ge (VStr i)). unfold sdict. apply in_map_iff. exists (i, v). auto. }
        rewrite (dims_value_fun k v d d' Xd T1). exact T2. }
      intros i d. split.
      * intros Hin. destruct (Val i d Hin) as [v [data [_ [H1 [_ [_ H2]]]]]]. eauto.
      * intros [data [Hn Hd]]. assert (K : In i (dkeys es)).
        { assert (K : In (VStr i) (map fst new)) by (apply in_map_iff; exists (VStr i, data); auto).
          assert (K' : map fst new = vkeys (sdict (fun v => v) (overlay a' c))).
          { clear - F. induction F as [|p q d new [E _] _ IH]; [reflexivity|]. unfold vkeys in *. cbn [map]. f_equal; assumption. }
          rewrite K', vkeys_sdict, (overlay_keys _ Nc), Ka in K. apply in_map_iff in K. destruct K as [j [[= ->] K]].
          apply in_app_iff in K. destruct K as [K|K]; [rewrite Kc in *; rewrite <- Kc'; apply Inc, K|]. apply filter_In in K. rewrite <- Kc'. apply K. }
        apply dget_Some_In in K. destruct K as [d' K]. apply dget_In in K. destruct (Val i d' K) as [v [data' [V1 [V2 [V3 [V4 V5]]]]]].
        assert (data' = data).
        { assert (Xo : dget (overlay a' c) i = Some v) by (rewrite (overlay_get _ Nc), V1; reflexivity).
          pose proof (One i v data Hn Xo). congruence. }
        subst data'. rewrite (dims_value_fun k (VDict data) d d' Hd V5). exact K.
Qed.
End Reading.
