(** * Sorting and turning the items, and the whole hypersearch, on objects. *)
From Coq Require Import ZArith String List Bool Lia Factorial Permutation.
From Verif Require Import Py ProofsPy Arith Construct LocalSearch HyperSearch ItemsManip Values Settings Instance Memory SpecMemory ProofsMemory
  ProofsMemorySearch ProofsRefine.
Import ListNotations.
Open Scope Z_scope.
Open Scope sm_scope.

Notation same := same_structures.
Notation sound := dict_ids.
Section Items.
Context {ar : arith}.
Implicit Types (h : heap ar) (m : mem ar) (me : self).

(** The solution has been replaced by new empty dicts, not older than [n]. *)
Definition reset_to (n : nat) h me me' : Prop :=
  exists s o, me' = se_with_solution s o me /\ nth_error h s = Some (OTable []) /\ nth_error h o = Some (OObjs []) /\
              s <> o /\ (n <= s)%nat /\ (n <= o)%nat.

Lemma reset_at h me : exists h' me', m_reset ar (mkMem h me) = (mkMem h' me', Ok tt) /\ untouched h h' /\ reset_to (length h) h' me me'.
Proof.
  exists ((h ++ [OObjs []]) ++ [OTable []]), (se_with_solution (length (h ++ [OObjs (ar := ar) []])) (length h) me). split; [reflexivity|].
  split; [eapply untouched_trans; apply untouched_alloc|]. exists (length (h ++ [OObjs (ar := ar) []])), (length h). split; [reflexivity|].
  split; [apply nth_new|]. split; [apply nth_old, nth_new|]. rewrite app_length. cbn. lia.
Qed.
Lemma reset_mono n h h' me me' : untouched h h' -> reset_to n h me me' -> reset_to n h' me me'.
Proof. intros U [s [o [R1 [R2 [R3 R4]]]]]. exists s, o. split; [exact R1|]. split; [apply U, R2|]. split; [apply U, R3|exact R4]. Qed.
Lemma reset_trans n n' h me me' me'' : (n <= n')%nat ->
  me' = me \/ (exists s o, me' = se_with_solution s o me) -> reset_to n' h me' me'' -> reset_to n h me me''.
Proof.
  intros L E [s [o [R1 [R2 [R3 [R4 [R5 R6]]]]]]]. exists s, o. split; [|split; [exact R2|split; [exact R3|split; [exact R4|lia]]]].
  destruct E as [->|[s0 [o0 ->]]]; exact R1.
Qed.

Definition is_dims h : addr -> dims -> Prop := fun a x => nth_error h a = Some (ODims x).
Lemma dims_lt h t d : table (is_dims h) t d -> forall b, In b (map snd t) -> (b < length h)%nat.
Proof.
  intros H2 b Hb. induction H2 as [|[k0 c0] [k1 x] t0 e [_ Hx] _ IH]; [contradiction|]. destruct Hb as [<-|Hb]; [eapply nth_lt; exact Hx|auto].
Qed.

(** ** Sorting *)
Lemma sizes_at h me t d : table (p_item_ h) t d -> m_sizes ar t (mkMem h me) = (mkMem h me, Ok d).
Proof.
  induction 1 as [|[k a] [k' x] t d [Ek Hp] T IH]; cbn [m_sizes]; [reflexivity|]. cbn [fst snd] in *. subst k'.
  rewrite (sbind_ok _ _ _ _ _ (load_item_at h me a _ _ Hp)), (sbind_ok _ _ _ _ _ IH). reflexivity.
Qed.

Definition new_step (copies t : odict addr) (id : string) : H ar (odict addr) :=
  a <~ slift (dget_r copies id) ;; it <~ load_item a ;; n <~ alloc (ODims (fst it)) ;; m_reset ar ;;; sret (dset t id n).

Lemma new_loop n copies d : forall l h me t acc,
  (n <= length h)%nat -> table (p_item_ h) copies d -> table (is_dims h) t acc -> NoDup (map snd t) -> (forall a, In a (map snd t) -> (n <= a)%nat) ->
  NoDup (dkeys acc ++ dkeys l) -> (forall k x, In (k, x) l -> dget d k = Some x) ->
  exists h' me' t', hfold (new_step copies) (dkeys l) t (mkMem h me) = (mkMem h' me', Ok t') /\ untouched h h' /\
    table (is_dims h') t' (acc ++ l) /\ NoDup (map snd t') /\ (forall a, In a (map snd t') -> (n <= a)%nat) /\
    (l = [] /\ me' = me \/ reset_to n h' me me').
Proof.
  induction l as [|[k x] l IH]; intros h me t acc Ln Hc T ND Ge Nk Hg; cbn [dkeys map hfold fst].
  - exists h, me, t. rewrite app_nil_r. split; [reflexivity|]. split; [apply untouched_refl|]. auto 10.
  - pose proof (table_get _ copies d k Hc) as G. rewrite (Hg k x (or_introl eq_refl)) in G.
    destruct (dget copies k) as [a|] eqn:Ea; [|contradiction]. destruct G as [G _].
    set (h1 := h ++ [ODims x]). destruct (reset_at h1 me) as [h2 [me2 [R1 [R2 R3]]]].
    assert (E : new_step copies t k (mkMem h me) = (mkMem h2 me2, Ok (dset t k (length h)))).
    { unfold new_step. rewrite sbind_lift. unfold dget_r. rewrite Ea. rewrite (sbind_ok _ _ _ _ _ (load_item_at h me a _ _ G)).
      rewrite (sbind_ok _ _ _ _ _ (alloc_at h me _)). cbn [fst]. fold h1. rewrite (sbind_ok _ _ _ _ _ R1). reflexivity. }
    rewrite (sbind_ok _ _ _ _ _ E).
    assert (U2 : untouched h h2) by (eapply untouched_trans; [apply untouched_alloc|exact R2]).
    pose proof (untouched_length _ _ U2) as L2.
    assert (K : dset acc k x = acc ++ [(k, x)]).
    { apply dset_new, dget_None. intros F. cbn [dkeys map fst] in Nk. apply NoDup_app_iff in Nk. destruct Nk as [_ [_ D]]. apply (D k F). left. reflexivity. }
    destruct (IH h2 me2 (dset t k (length h)) (acc ++ [(k, x)])) as [h' [me' [t' [I1 [I2 [I3 [I4 [I5 I6]]]]]]]].
    + lia.
    + eapply table_mono; [exact Hc|]. intros b y _ Hy. apply U2, Hy.
    + rewrite <- K. apply table_set; [|apply R2; unfold h1; apply nth_new]. eapply table_mono; [exact T|]. intros b y _ Hy. apply U2, Hy.
    + apply nodup_snd_set. constructor; [|exact ND]. intros F. pose proof (dims_lt h t acc T _ F). lia.
    + intros b Hb. apply in_snd_set in Hb. destruct Hb as [->|Hb]; [lia|auto].
    + unfold dkeys in *. rewrite map_app. cbn [map fst] in *. rewrite <- app_assoc. exact Nk.
    + intros k' x' Hx. apply Hg. right. exact Hx.
    + exists h', me', t'. split; [exact I1|]. split; [eapply untouched_trans; eauto|]. split; [rewrite <- app_assoc in I3; exact I3|].
      split; [exact I4|]. split; [exact I5|]. right.
      assert (R3' : reset_to n h2 me me2) by (eapply reset_trans with (n' := length h1); [unfold h1; rewrite app_length; lia|left; reflexivity|exact R3]).
      destruct I6 as [[-> ->]|I6]; [eapply reset_mono; [exact I2|exact R3']|].
      eapply reset_trans; [apply le_n| |exact I6]. right. destruct R3' as [s [o [-> _]]]. eauto.
Qed.

(** The Dimensions objects of the items. *)
Definition own_dims (n : nat) h (a : addr) : Prop :=
  exists t, nth_error h a = Some (OStruct t) /\ NoDup (map snd t) /\ forall b, In b (map snd t) -> (n <= b)%nat.

Lemma sort_at n m x by_ reverse : (n <= length (me_heap m))%nat -> shows m x -> sound x ->
  match sort_items ar (Some (by_, reverse)) x with
  | Ok x' => exists m', m_sort_items ar (Some (by_, reverse)) m = (m', Ok tt) /\ untouched (me_heap m) (me_heap m') /\ shows m' x' /\ sound x' /\
      own_dims n (me_heap m') (se_items (me_self m')) /\ se_containers (me_self m') = se_containers (me_self m) /\ (n <= se_items (me_self m'))%nat
  | Err e => exists m', m_sort_items ar (Some (by_, reverse)) m = (m', Err e) /\ untouched (me_heap m) (me_heap m') /\ same m m' /\ fine m'
  end.
Proof.
  destruct m as [h me]. cbn [me_heap me_self]. intros Ln Sh Hs. pose proof Hs as [Sd [Sc Ne]]. pose proof Sh as [S1 [S2 [S3 [S4 [S5 [S6 [S7 [S8 [S9 [S10 S11]]]]]]]]]]. cbn [me_heap me_self] in *.
  unfold sort_items, m_sort_items. rewrite (sbind_ok _ _ _ _ _ (self_at h me)).
  pose proof (deepcopy_at h me (se_items me) (in_pb x) None S2 Sd) as D. cbn [items_for] in D.
  destruct D as [h1 [t [copies [D1 [D2 [D3 [D4 _]]]]]]]. rewrite (sbind_ok _ _ _ _ _ D1), (sbind_ok _ _ _ _ _ (load_table_at h1 me copies t D3)).
  rewrite (sbind_ok _ _ _ _ _ (sizes_at h1 me t _ D4)).
  destruct (key_lt ar by_) as [lt|].
  2:{ exists (mkMem h1 me). split; [reflexivity|]. split; [exact D2|]. split; [split; reflexivity|]. exists x.
      split; [apply shows_mono with h; [exact D2|exact Sh]|exact Hs]. }
  set (es := pb_items (in_pb x)) in *. set (sorted := py_sort_rev (elem_lt lt) reverse es).
  assert (Hp : Permutation sorted es) by apply py_sort_rev_perm.
  assert (Nk : NoDup (dkeys sorted)).
  { unfold dkeys. eapply Permutation_NoDup; [apply Permutation_map; symmetry; exact Hp|exact Sd]. }
  assert (Hg : forall k v, In (k, v) sorted -> dget es k = Some v).
  { intros k v Hv. apply In_dget; [exact Sd|]. eapply Permutation_in; [exact Hp|exact Hv]. }
  pose proof (untouched_length _ _ D2) as L1.
  destruct (new_loop n t es sorted h1 me [] [] ltac:(lia) D4 (Forall2_nil _) (NoDup_nil _) (fun a F => match F with end) Nk Hg)
    as [h2 [me2 [t2 [N1 [N2 [N3 [N4 [N5 N6]]]]]]]].
  destruct N6 as [[E _]|N6].
  { exfalso. apply Ne. apply Permutation_nil. rewrite <- E. exact Hp. }
  destruct N6 as [s [o [-> [R2 [R3 [R4 [R5 R6]]]]]]].
  exists (mkMem (h2 ++ [OStruct t2]) (se_with_items (length h2) (se_with_solution s o me))).
  assert (U : untouched h (h2 ++ [OStruct t2])) by (eapply untouched_trans; [exact D2|]; eapply untouched_trans; [exact N2|apply untouched_alloc]).
  cbn [me_heap me_self]. split.
  { unfold m_new_items. unfold new_step in N1. rewrite sbind_assoc, (sbind_ok _ _ _ _ _ N1). reflexivity. }
  split; [exact U|]. split.
  - unfold shows. cbn. split; [eapply struct_mono; [exact U|exact S1]|]. split.
    { exists t2. split; [apply nth_new|]. apply (table_mono (is_dims h2)); [exact N3|]. intros b y _ Hy. apply nth_old, Hy. }
    repeat (split; [assumption|]). split; [|split; [apply nth_old, R3|exact S11]].
    exists []. split; [apply nth_old, R2|constructor].
  - split; [split; [exact Nk|split; [exact Sc|]]|].
    { intros E. apply Ne. apply Permutation_nil. cbn in E. rewrite <- E. exact Hp. }
    pose proof (untouched_length _ _ N2). split; [|split; [reflexivity|cbn; lia]].
    exists t2. cbn. split; [apply nth_new|]. auto.
Qed.

(** ** Turning *)
Definition turned (turn : dims -> bool) (d : dims) : dims := if turn d then mkDims (dl d) (dw d) else d.

Lemma orient_each_at turn : forall t d h me, table (is_dims h) t d -> NoDup (map snd t) ->
  exists h' me', m_orient_each ar turn t (mkMem h me) = (mkMem h' me', Ok tt) /\
    table (is_dims h') t (map (fun kd => (fst kd, turned turn (snd kd))) d) /\ grows (map snd t) h h' /\
    if existsb (fun kd => turn (snd kd)) d then reset_to (length h) h' me me' else me' = me.
Proof.
  induction t as [|[k a] t IH]; intros d h me T ND; inversion T as [|? [k' x] ? d' [Ek Hx] T']; subst; cbn [m_orient_each map existsb fst snd].
  - exists h, me. split; [reflexivity|]. split; [constructor|]. split; [apply grows_refl|reflexivity].
  - cbn [fst snd] in Ek, Hx. subst k'. inversion ND as [|? ? N1 N2]; subst. cbn [snd] in N1.
    rewrite (sbind_ok _ _ _ _ _ (load_dims_at h me a x Hx)). unfold turned at 1. destruct (turn x) eqn:Et; cbn [orb].
    + rewrite !sbind_assoc, (sbind_ok _ _ _ _ _ (store_at h me a _)). set (h1 := list_set h a _).
      destruct (reset_at h1 me) as [h2 [me2 [R1 [R2 R3]]]]. rewrite !sbind_assoc, (sbind_ok _ _ _ _ _ R1).
      rewrite !sbind_assoc, (sbind_ok _ _ _ _ _ (store_at h2 me2 a _)). set (h3 := list_set h2 a _).
      destruct (reset_at h3 me2) as [h4 [me4 [R5 [R6 R7]]]]. rewrite (sbind_ok _ _ _ _ _ R5).
      assert (G1 : grows [a] h h1) by (apply grows_set; left; reflexivity).
      assert (Gu : forall p q : heap ar, untouched p q -> grows [a] p q).
      { intros p q U. split; [apply untouched_length, U|]. intros b Hb _. destruct (nth_error p b) as [o|] eqn:Eb; [apply U, Eb|].
        apply nth_error_None in Eb. lia. }
      assert (G3 : grows [a] h h3) by (eapply grows_trans; [exact G1|]; eapply grows_trans; [apply Gu, R2|apply grows_set; left; reflexivity]).
      assert (G4 : grows [a] h h4) by (eapply grows_trans; [exact G3|apply Gu, R6]).
      assert (T4 : table (is_dims h4) t d').
      { apply (table_mono (is_dims h)); [exact T'|]. intros b y Hb Hy. eapply grows_some; [exact G4| |exact Hy]. intros [<-|[]]. auto. }
      destruct (IH d' h4 me4 T4 N2) as [h5 [me5 [I1 [I2 [I3 I4]]]]].
      exists h5, me5. split; [exact I1|]. split.
      { constructor; [|exact I2]. split; [reflexivity|]. cbn [snd]. unfold turned. rewrite ?Et. unfold is_dims.
        eapply grows_some; [exact I3|exact N1|]. apply R6. unfold h3. eapply set_same. apply R2. unfold h1. eapply set_same. exact Hx. }
      split.
      { eapply grows_trans; [eapply grows_incl; [exact G4|]; intros b [<-|[]] _; left; reflexivity|].
        eapply grows_incl; [exact I3|]. intros b Hb _. right. exact Hb. }
      pose proof (proj1 G3) as L3. pose proof (proj1 G4) as L4.
      assert (E24 : reset_to (length h) h4 me me4).
      { eapply reset_trans with (n' := length h3); [lia| |exact R7]. right. destruct R3 as [s [o [-> _]]]. eauto. }
      destruct (existsb (fun kd => turn (snd kd)) d').
      * eapply reset_trans with (n' := length h4); [lia| |exact I4]. right. destruct E24 as [s [o [-> _]]]. eauto.
      * subst me5. destruct E24 as [s [o [E1 [E2 [E3 E4]]]]]. exists s, o. split; [exact E1|].
        assert (Nt : forall b, (In b (map snd t) -> exists y, nth_error h4 b = Some (ODims y))).
        { intros b Hb. clear - T4 Hb. induction T4 as [|[k0 c0] [k1 y] t0 e [_ Hy] _ IH]; [contradiction|]. destruct Hb as [<-|Hb]; eauto. }
        split; [eapply grows_some; [exact I3| |exact E2]; intros F; destruct (Nt _ F); congruence|].
        split; [eapply grows_some; [exact I3| |exact E3]; intros F; destruct (Nt _ F); congruence|exact E4].
    + assert (Es : forall B (K : unit -> H ar B), sbind (sret tt) K (mkMem h me) = K tt (mkMem h me)) by reflexivity. rewrite Es.
      destruct (IH d' h me T' N2) as [h5 [me5 [I1 [I2 [I3 I4]]]]]. exists h5, me5. split; [exact I1|]. split.
      { constructor; [|exact I2]. split; [reflexivity|]. cbn [snd]. unfold turned. rewrite ?Et. eapply grows_some; [exact I3|exact N1|exact Hx]. }
      split; [|exact I4]. eapply grows_incl; [exact I3|]. intros b Hb _. right. exact Hb.
Qed.

Lemma orient_all_at m x turn f : (forall d, f d = turned turn d) -> shows m x -> unshared m ->
  exists m', (data <~ load_struct (se_items (me_self m)) ;; m_orient_each ar turn data) m = (m', Ok tt) /\ grows (item_dims m) (me_heap m) (me_heap m') /\
    shows m' (orient_all ar f turn x) /\ same m m' /\ unshared m'.
Proof.
  destruct m as [h me]. unfold item_dims. cbn [me_heap me_self]. intros Hf Sh [ti [tc [U1 [U2 [U3 U4]]]]].
  pose proof Sh as [[tc' [S1 S1']] [[ti' [S2 S2']] [S3 [S4 [S5 [S6 [S7 [S8 [S9 [S10 S11]]]]]]]]]]. cbn [me_heap me_self] in *.
  rewrite U2 in S1. injection S1 as <-. rewrite U1 in S2. injection S2 as <-. rewrite U1.
  rewrite (sbind_ok _ _ _ _ _ (load_struct_at h me _ _ U1)).
  destruct (orient_each_at turn ti (pb_items (in_pb x)) h me S2' U3) as [h' [me' [O1 [O2 [O3 O4]]]]].
  exists (mkMem h' me'). cbn [me_heap me_self]. split; [exact O1|]. split; [exact O3|].
  assert (Dm : forall b, In b (map snd ti) -> exists y, nth_error h b = Some (ODims y)).
  { intros b Hb. clear - S2' Hb. induction S2' as [|[k0 c0] [k1 y] t0 e [_ Hy] _ IH]; [contradiction|]. destruct Hb as [<-|Hb]; eauto. }
  assert (Other : forall b o, nth_error h b = Some o -> (forall y, o <> ODims y) -> nth_error h' b = Some o).
  { intros b o Hb No. eapply grows_some; [exact O3| |exact Hb]. intros F. destruct (Dm _ F) as [y Hy]. apply (No y). congruence. }
  assert (C' : is_struct h' (se_containers me) (pb_containers (in_pb x))).
  { exists tc. split; [apply Other; [exact U2|discriminate]|]. eapply table_mono; [exact S1'|]. intros b y Hb Hy.
    eapply grows_some; [exact O3| |exact Hy]. intros F. exact (U4 b F Hb). }
  assert (I' : is_struct h' (se_items me) (map (fun kd => (fst kd, f (snd kd))) (pb_items (in_pb x)))).
  { exists ti. split; [apply Other; [exact U1|discriminate]|].
    replace (map (fun kd => (fst kd, f (snd kd))) (pb_items (in_pb x))) with (map (fun kd : string * dims => (fst kd, turned turn (snd kd))) (pb_items (in_pb x))); [exact O2|].
    apply map_ext. intros [k y]. cbn. rewrite Hf. reflexivity. }
  assert (Un' : forall me1, se_items me1 = se_items me -> se_containers me1 = se_containers me -> unshared (mkMem h' me1)).
  { intros me1 E1 E2. exists ti, tc. cbn [me_heap me_self]. rewrite E1, E2. split; [apply Other; [exact U1|discriminate]|].
    split; [apply Other; [exact U2|discriminate]|]. auto. }
  unfold orient_all. destruct (existsb (fun kd => turn (snd kd)) (pb_items (in_pb x))) eqn:Ex.
  - destruct O4 as [s [o [-> [R2 [R3 _]]]]]. split; [|split; [split; reflexivity|apply Un'; reflexivity]].
    unfold shows. cbn. split; [exact C'|]. split; [exact I'|]. repeat (split; [assumption|]). split; [|split; [exact R3|exact S11]].
    exists []. split; [exact R2|constructor].
  - subst me'. split; [|split; [split; reflexivity|apply Un'; reflexivity]].
    assert (Same : map (fun kd => (fst kd, f (snd kd))) (pb_items (in_pb x)) = pb_items (in_pb x)).
    { clear - Ex Hf. induction (pb_items (in_pb x)) as [|[k y] l IH]; [reflexivity|]. cbn in *. apply orb_false_iff in Ex. destruct Ex as [E1 E2].
      rewrite (IH E2), Hf. unfold turned. rewrite E1. reflexivity. }
    rewrite Same in I'. unfold shows. cbn. split; [exact C'|]. split; [exact I'|]. repeat (split; [assumption|]).
    split; [|split; [apply Other; [exact S10|discriminate]|exact S11]].
    destruct S9 as [ts [T1 T2]]. exists ts. split; [apply Other; [exact T1|discriminate]|]. eapply table_mono; [exact T2|].
    intros b c _ [tb [B1 B2]]. exists tb. split; [apply Other; [exact B1|discriminate]|]. eapply table_mono; [exact B2|].
    intros b' e _ He. apply Other; [exact He|discriminate].
Qed.

Lemma orient_keys o x : dkeys (pb_items (in_pb (orient_items ar o x))) = dkeys (pb_items (in_pb x)) /\
  pb_containers (in_pb (orient_items ar o x)) = pb_containers (in_pb x).
Proof.
  assert (A : forall f turn, dkeys (pb_items (in_pb (orient_all ar f turn x))) = dkeys (pb_items (in_pb x)) /\
                             pb_containers (in_pb (orient_all ar f turn x)) = pb_containers (in_pb x)).
  { intros f turn. unfold orient_all. destruct (existsb _ _); [|auto]. cbn. unfold dkeys. rewrite map_map. auto. }
  unfold orient_items. destruct o as [o|]; [|auto]. destruct (negb (pb_rotation (in_pb x))); [auto|].
  destruct (String.eqb o "wide"); [apply A|]. destruct (String.eqb o "long"); [apply A|auto].
Qed.

Lemma orient_at m x o : shows m x -> unshared m ->
  exists m', m_orient_items ar o m = (m', Ok tt) /\ grows (item_dims m) (me_heap m) (me_heap m') /\
    shows m' (orient_items ar o x) /\ same m m' /\ unshared m'.
Proof.
  intros Sh Un. assert (N : exists m', (m, Ok tt) = (m', Ok tt) /\ grows (item_dims m) (me_heap m) (me_heap m') /\ shows m' x /\ same m m' /\ unshared m').
  { exists m. split; [reflexivity|]. split; [apply grows_refl|]. split; [exact Sh|]. split; [apply same_refl|exact Un]. }
  unfold m_orient_items, orient_items. destruct o as [o|]; [|exact N].
  destruct m as [h me]. rewrite (sbind_ok _ _ _ _ _ (self_at h me)).
  assert (Er : se_rotation me = pb_rotation (in_pb x)) by apply Sh. rewrite Er. destruct (negb (pb_rotation (in_pb x))); [exact N|].
  destruct (String.eqb o "wide"); [|destruct (String.eqb o "long"); [|exact N]];
    (apply orient_all_at; [|exact Sh|exact Un]); intros d; reflexivity.
Qed.

(** ** [hypersearch] *)
Definition hs_value (r : hs_result ar) := (hr_best_strategy r, hr_clk r, hr_log r).

Lemma owns_fresh h m v : owns (length h) (me_heap m) (result_of m) v -> fresh_results h m.
Proof. intros [_ [_ [O3 O4]]]. split; [exact O3|exact O4]. Qed.

Lemma hypersearch_tail h ck limit throttle start strategies clk m x :
  (length h <= length (me_heap m))%nat -> shows m x -> sound x ->
  runs (r <~ m_single_process ar m_ls_fuel ck limit throttle start strategies clk ;;
        sret (mh_strategy (fst r), S (mh_clk (fst r)), snd r)) m
       (bind (single_process ar ck limit throttle start strategies x clk) (fun r => let '(s, log) := r in
         Ok (mkHsR (set_solution (hs_st s) (fst (hs_ret s)) (snd (hs_ret s))) (hs_strategy s) (S (hs_clk s)) log)))
       (fun m' v r => v = hs_value r /\ shows m' (hr_inst r) /\ fresh_results h m' /\ sound (hr_inst r)).
Proof.
  intros Ln Sh Sd. eapply runs_bind; [apply (single_process_at (length h)); [exact Ln|exact Sh|exact Sd]|].
  intros m1 [s lg] [f lg'] U S [A1 [A2 [A3 [A4 [A5 [A6 A7]]]]]]. cbn [fst snd] in *. subst lg'.
  apply runs_ret. unfold hs_value. cbn. rewrite A4, A5. split; [reflexivity|]. split; [exact A1|]. split; [|exact A2]. eapply owns_fresh. exact A3.
Qed.

Lemma dims_untouched (l : list addr) h0 h h' : untouched h0 h -> grows l h h' -> (forall a, In a l -> (length h0 <= a)%nat) -> untouched h0 h'.
Proof.
  intros U [L F] G a o Ha. pose proof (nth_lt _ _ _ Ha) as La. rewrite F; [apply U, Ha| |].
  - apply nth_lt with o. apply U, Ha.
  - intros I. specialize (G a I). lia.
Qed.

Lemma unshared_mono m m' : untouched (me_heap m) (me_heap m') -> same m m' -> unshared m -> unshared m'.
Proof.
  intros U [S1 S2] [ti [tc [U1 [U2 [U3 U4]]]]]. exists ti, tc. rewrite S1, S2. split; [apply U, U1|]. split; [apply U, U2|]. auto.
Qed.
Lemma orient_sound o x : sound x -> sound (orient_items ar o x).
Proof.
  intros [A [B C]]. destruct (orient_keys o x) as [K1 K2]. unfold dict_ids. rewrite K1, K2. split; [exact A|]. split; [exact B|].
  intros E. rewrite E in K1. cbn in K1. destruct (pb_items (in_pb x)); [auto|discriminate].
Qed.
Lemma orient_fine o m m' x : sound x -> shows m' (orient_items ar o x) -> fine m'.
Proof. intros Sd Sh. exists (orient_items ar o x). split; [exact Sh|]. apply orient_sound, Sd. Qed.
Lemma grows_only_changes l h h' : grows l h h' -> only_changes l h h'.
Proof. intros G a o Ha N. eapply grows_some; eauto. Qed.

Lemma hypersearch_sorted ck limit throttle o by_ reverse strategies clk m x :
  shows m x -> sound x ->
  match hypersearch ar ck limit throttle o (Some (by_, reverse)) strategies x clk with
  | Ok r => exists m', m_hypersearch ar m_ls_fuel ck limit throttle o (Some (by_, reverse)) strategies clk m = (m', Ok (hs_value r)) /\
      shows m' (hr_inst r) /\ untouched (me_heap m) (me_heap m') /\ fresh_results (me_heap m) m' /\ (unshared m -> unshared m') /\ sound (hr_inst r)
  | Err e => exists m', m_hypersearch ar m_ls_fuel ck limit throttle o (Some (by_, reverse)) strategies clk m = (m', Err e) /\
      untouched (me_heap m) (me_heap m') /\ (unshared m -> unshared m') /\ fine m'
  end.
Proof.
  intros Sh Sd. unfold hypersearch, m_hypersearch.
  pose proof (sort_at (length (me_heap m)) m x by_ reverse (le_n _) Sh Sd) as S.
  destruct (sort_items ar (Some (by_, reverse)) x) as [x1|e]; cbn [bind].
  2:{ destruct S as [m1 [S1 [S2 [S3 S4]]]]. exists m1. rewrite (sbind_err _ _ _ _ _ S1). split; [reflexivity|]. split; [exact S2|].
      split; [apply unshared_mono; assumption|exact S4]. }
  destruct S as [m1 [S1 [S2 [S3 [S4 [[ti [S5 [S6 S7]]] [S8 S9]]]]]]]. rewrite (sbind_ok _ _ _ _ _ S1).
  assert (Un : unshared m1).
  { pose proof Sh as [[tc [C1 C2]] _]. exists ti, tc. split; [exact S5|]. split; [rewrite S8; apply S2, C1|]. split; [exact S6|].
    intros a Ha F. specialize (S7 a Ha). pose proof (dims_lt _ _ _ C2 a F). lia. }
  destruct (orient_at m1 x1 o S3 Un) as [m2 [O1 [O2 [O3 [O4 O5]]]]]. rewrite (sbind_ok _ _ _ _ _ O1).
  assert (U2 : untouched (me_heap m) (me_heap m2)).
  { eapply dims_untouched; [exact S2|exact O2|]. unfold item_dims. rewrite S5. exact S7. }
  pose proof (hypersearch_tail (me_heap m) ck limit throttle (ck clk) strategies (S clk) m2 (orient_items ar o x1) (untouched_length _ _ U2) O3 (orient_sound o x1 S4)) as T.
  cbv zeta. unfold runs in T. match goal with |- match ?q with _ => _ end => destruct q as [r|e] end.
  - destruct T as [m3 [v [T1 [T2 [T3 [-> [T5 [T6 T7]]]]]]]]. exists m3. split; [exact T1|]. split; [exact T5|]. split; [eapply untouched_trans; eauto|].
    split; [exact T6|]. split; [|exact T7]. intros _. eapply unshared_mono; eauto.
  - destruct T as [m3 [T1 [T2 [T3 T4]]]]. exists m3. split; [exact T1|]. split; [eapply untouched_trans; eauto|]. split; [|exact T4].
    intros _. eapply unshared_mono; eauto.
Qed.

Lemma hypersearch_unsorted ck limit throttle o strategies clk m x :
  shows m x -> sound x -> unshared m ->
  match hypersearch ar ck limit throttle o None strategies x clk with
  | Ok r => exists m', m_hypersearch ar m_ls_fuel ck limit throttle o None strategies clk m = (m', Ok (hs_value r)) /\
      shows m' (hr_inst r) /\ only_changes (item_dims m) (me_heap m) (me_heap m') /\ fresh_results (me_heap m) m' /\ same m m' /\ unshared m' /\ sound (hr_inst r)
  | Err e => exists m', m_hypersearch ar m_ls_fuel ck limit throttle o None strategies clk m = (m', Err e) /\
      only_changes (item_dims m) (me_heap m) (me_heap m') /\ same m m' /\ unshared m' /\ fine m'
  end.
Proof.
  intros Sh Sd Un. unfold hypersearch, m_hypersearch. cbn [sort_items m_sort_items bind].
  assert (Es : forall B (K : unit -> H ar B), sbind (sret tt) K m = K tt m) by reflexivity. rewrite Es.
  destruct (orient_at m x o Sh Un) as [m2 [O1 [O2 [O3 [O4 O5]]]]]. rewrite (sbind_ok _ _ _ _ _ O1).
  pose proof (hypersearch_tail (me_heap m) ck limit throttle (ck clk) strategies (S clk) m2 (orient_items ar o x) (proj1 O2) O3 (orient_sound o x Sd)) as T.
  assert (G : forall h, untouched (me_heap m2) h -> only_changes (item_dims m) (me_heap m) h).
  { intros h U a q Ha N. apply U. eapply grows_some; eauto. }
  cbv zeta. unfold runs in T. match goal with |- match ?q with _ => _ end => destruct q as [r|e] end.
  - destruct T as [m3 [v [T1 [T2 [T3 [-> [T5 [T6 T7]]]]]]]]. exists m3. split; [exact T1|]. split; [exact T5|]. split; [apply G, T2|]. split; [exact T6|].
    split; [eapply same_trans; eauto|]. split; [eapply unshared_mono; eauto|exact T7].
  - destruct T as [m3 [T1 [T2 [T3 T4]]]]. exists m3. split; [exact T1|]. split; [apply G, T2|]. split; [eapply same_trans; eauto|].
    split; [eapply unshared_mono; eauto|exact T4].
Qed.
End Items.
