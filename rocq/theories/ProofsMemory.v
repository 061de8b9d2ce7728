(** * The solver on objects computes what Construct.v says, and owns what it changes. *)
From Coq Require Import ZArith String List Bool Lia Factorial.
From Verif Require Import Py ProofsPy Arith Construct LocalSearch HyperSearch Values Settings Instance Memory SpecMemory.
Import ListNotations.
Open Scope Z_scope.
Open Scope sm_scope.

(** ** Lists and dicts *)
Lemma nth_error_set {A} (l : list A) a b v :
  nth_error (list_set l a v) b = if Nat.eqb a b then (if Nat.ltb a (length l) then Some v else None) else nth_error l b.
Proof.
  revert a b. induction l as [|x l IH]; intros a b; cbn [list_set].
  - destruct b; cbn; destruct (Nat.eqb a _); reflexivity.
  - destruct a, b; cbn [nth_error Nat.eqb]; try reflexivity. rewrite IH. destruct (Nat.eqb a b); [|reflexivity].
    cbn [length]. change (S a <? S (length l))%nat with (a <? length l)%nat. reflexivity.
Qed.

Lemma set_same {A} (l : list A) a v x : nth_error l a = Some x -> nth_error (list_set l a v) a = Some v.
Proof.
  intros H. rewrite nth_error_set, Nat.eqb_refl. assert (a < length l)%nat by (apply nth_error_Some; congruence).
  destruct (Nat.ltb_spec a (length l)); [reflexivity|lia].
Qed.
Lemma set_other {A} (l : list A) a b v : a <> b -> nth_error (list_set l a v) b = nth_error l b.
Proof. intros H. rewrite nth_error_set. destruct (Nat.eqb_spec a b); [congruence|reflexivity]. Qed.

Lemma nth_old {A} (l : list A) o a x : nth_error l a = Some x -> nth_error (l ++ [o]) a = Some x.
Proof. intros H. rewrite nth_error_app1; [exact H|]. apply nth_error_Some. congruence. Qed.
Lemma nth_new {A} (l : list A) o : nth_error (l ++ [o]) (length l) = Some o.
Proof. rewrite nth_error_app2, Nat.sub_diag; [reflexivity|lia]. Qed.
Lemma nth_lt {A} (l : list A) a x : nth_error l a = Some x -> (a < length l)%nat.
Proof. intros H. apply nth_error_Some. congruence. Qed.
Lemma nth_old' {A} (l : list A) o a : (a < length l)%nat -> nth_error (l ++ [o]) a = nth_error l a.
Proof. intros. apply nth_error_app1. exact H. Qed.

Section Tables.
Context {X : Type}.
Implicit Types (P : addr -> X -> Prop) (t : odict addr) (d : odict X).

Lemma table_keys P t d : table P t d -> dkeys t = dkeys d.
Proof. induction 1 as [|[k a] [k' x] t d [E _] _ IH]; unfold dkeys in *; cbn in *; congruence. Qed.
Lemma table_length P t d : table P t d -> length t = length d.
Proof. induction 1; cbn; congruence. Qed.

Lemma table_get P t d k : table P t d ->
  match dget t k, dget d k with Some a, Some x => P a x /\ In a (map snd t) | None, None => True | _, _ => False end.
Proof.
  induction 1 as [|[k0 a] [k' x] t d [E Hp] _ IH]; cbn in *; [exact I|]. subst k'. destruct (String.eqb k k0); [auto|].
  destruct (dget t k), (dget d k); tauto.
Qed.

Lemma table_set P t d k a x : table P t d -> P a x -> table P (dset t k a) (dset d k x).
Proof.
  induction 1 as [|[k0 b] [k' y] t d [E Hp] H IH]; intros Ha; cbn in *.
  - constructor; [auto|constructor].
  - subst k'. destruct (String.eqb k k0); constructor; [auto|exact H|auto|exact (IH Ha)].
Qed.

Lemma table_del P t d k : table P t d -> table P (ddel t k) (ddel d k).
Proof.
  induction 1 as [|[k0 b] [k' y] t d [E Hp] H IH]; cbn in *; [constructor|]. subst k'.
  destruct (String.eqb k k0); [assumption|constructor; [auto|exact IH]].
Qed.

Lemma table_mono P P' t d : table P t d -> (forall a x, In a (map snd t) -> P a x -> P' a x) -> table P' t d.
Proof.
  induction 1 as [|[k0 b] [k' y] t d [E Hp] H IH]; intros M; constructor.
  - split; [exact E|]. apply M; [left; reflexivity|exact Hp].
  - apply IH. intros. apply M; [right; assumption|assumption].
Qed.
End Tables.

Lemma in_snd_del (t : odict addr) k a : In a (map snd (ddel t k)) -> In a (map snd t).
Proof. induction t as [|[k0 b] t IH]; cbn; [auto|]. destruct (String.eqb k k0); cbn; tauto. Qed.
Lemma nodup_snd_del (t : odict addr) k : NoDup (map snd t) -> NoDup (map snd (ddel t k)).
Proof.
  induction t as [|[k0 b] t IH]; cbn; [auto|]. intros H. inversion H as [|? ? N M]; subst. destruct (String.eqb k k0); [exact M|].
  cbn. constructor; [|auto]. intros F. apply N, (in_snd_del _ _ _ F).
Qed.
Lemma get_not_in_del (t : odict addr) k a : NoDup (map snd t) -> dget t k = Some a -> ~ In a (map snd (ddel t k)).
Proof.
  induction t as [|[k0 b] t IH]; cbn; [discriminate|]. intros H. inversion H as [|? ? N M]; subst. destruct (String.eqb k k0).
  - intros [= <-]. exact N.
  - intros G. cbn. intros [->|F]; [|exact (IH M G F)]. apply N. apply dget_In in G. apply in_map_iff. exists (k, a). auto.
Qed.
Lemma in_snd_set (t : odict addr) k a b : In b (map snd (dset t k a)) -> b = a \/ In b (map snd t).
Proof. apply In_dvals_dset. Qed.
Lemma nodup_snd_set (t : odict addr) k a : NoDup (a :: map snd t) -> NoDup (map snd (dset t k a)).
Proof.
  induction t as [|[k0 b] t IH]; cbn; intros H; [constructor; [auto|constructor]|].
  inversion H as [|? ? N M]; subst. inversion M as [|? ? N' M']; subst. cbn in N. destruct (String.eqb k k0); cbn.
  - constructor; [intros F; apply N; auto|exact M'].
  - constructor.
    + intros F. apply in_snd_set in F. destruct F as [->|F]; [apply N; auto|auto].
    + apply IH. constructor; [intros F; apply N; auto|exact M'].
Qed.
Lemma get_in_snd (t : odict addr) k a : dget t k = Some a -> In a (map snd t).
Proof. intros H. apply dget_In in H. apply in_map_iff. exists (k, a). auto. Qed.

(** [flat_map] over a dict with one entry replaced. *)
Lemma in_flat_set (f : addr -> list addr) (t : odict addr) k a b :
  In b (flat_map (fun kb => f (snd kb)) (dset t k a)) -> In b (f a) \/ In b (flat_map (fun kb => f (snd kb)) t).
Proof.
  induction t as [|[k0 c] t IH]; cbn; [rewrite app_nil_r; auto|]. destruct (String.eqb k k0); cbn; rewrite !in_app_iff; tauto.
Qed.
Lemma nodup_flat_set (f : addr -> list addr) (t : odict addr) k a :
  NoDup (f a ++ flat_map (fun kb => f (snd kb)) t) -> NoDup (flat_map (fun kb => f (snd kb)) (dset t k a)).
Proof.
  induction t as [|[k0 c] t IH]; cbn; intros H; [rewrite app_nil_r in *; exact H|].
  rewrite !NoDup_app_iff in H. destruct H as [Ha [[Hc [Ht D1]] D2]].
  destruct (String.eqb k k0); cbn; rewrite !NoDup_app_iff.
  - split; [exact Ha|]. split; [exact Ht|]. intros b Hb. specialize (D2 b Hb). rewrite in_app_iff in D2. tauto.
  - split; [exact Hc|]. split.
    + apply IH. apply NoDup_app_iff. split; [exact Ha|]. split; [exact Ht|]. intros b Hb. specialize (D2 b Hb). rewrite in_app_iff in D2. tauto.
    + intros b Hb F. apply in_flat_set in F. destruct F as [F|F]; [|exact (D1 b Hb F)]. specialize (D2 b F). rewrite in_app_iff in D2. tauto.
Qed.

(** ** Running *)
Section Memory.
Context {ar : arith}.
Implicit Types (h : heap ar) (m : mem ar) (me : self).

Lemma sbind_ok {S A B} (c : SM S A) (f : A -> SM S B) s s' a : c s = (s', Ok a) -> sbind c f s = f a s'.
Proof. intros H. unfold sbind. rewrite H. reflexivity. Qed.
Lemma sbind_err {S A B} (c : SM S A) (f : A -> SM S B) s s' e : c s = (s', Err e) -> sbind c f s = (s', Err e).
Proof. intros H. unfold sbind. rewrite H. reflexivity. Qed.
Lemma sbind_lift {S A B} (r : result A) (f : A -> SM S B) s :
  sbind (slift r) f s = match r with Ok a => f a s | Err e => (s, Err e) end.
Proof. unfold sbind, slift. destruct r; reflexivity. Qed.
Lemma sbind_assoc {S A B C} (c : SM S A) (f : A -> SM S B) (g : B -> SM S C) s :
  sbind (sbind c f) g s = sbind c (fun a => sbind (f a) g) s.
Proof. unfold sbind. destruct (c s) as [s1 [a|e]]; reflexivity. Qed.

Lemma load_table_at h me a t : nth_error h a = Some (OTable t) -> load_table a (mkMem h me) = (mkMem h me, Ok t).
Proof. intros H. unfold load_table, load, sbind. cbn [me_heap]. rewrite H. reflexivity. Qed.
Lemma load_struct_at h me a t : nth_error h a = Some (OStruct t) -> load_struct a (mkMem h me) = (mkMem h me, Ok t).
Proof. intros H. unfold load_struct, load, sbind. cbn [me_heap]. rewrite H. reflexivity. Qed.
Lemma load_item_at h me a d p : nth_error h a = Some (OItem d p) -> load_item a (mkMem h me) = (mkMem h me, Ok (d, p)).
Proof. intros H. unfold load_item, load, sbind. cbn [me_heap]. rewrite H. reflexivity. Qed.
Lemma load_dims_at h me a d : nth_error h a = Some (ODims d) -> load_dims a (mkMem h me) = (mkMem h me, Ok d).
Proof. intros H. unfold load_dims, load, sbind. cbn [me_heap]. rewrite H. reflexivity. Qed.
Lemma load_ids_at h me a l : nth_error h a = Some (OIds l) -> load_ids a (mkMem h me) = (mkMem h me, Ok l).
Proof. intros H. unfold load_ids, load, sbind. cbn [me_heap]. rewrite H. reflexivity. Qed.
Lemma load_entry_at h me a e : nth_error h a = Some (OEntry e) -> load_entry a (mkMem h me) = (mkMem h me, Ok e).
Proof. intros H. unfold load_entry, load, sbind. cbn [me_heap]. rewrite H. reflexivity. Qed.
Lemma load_objs_at h me a d : nth_error h a = Some (OObjs d) -> load_objs a (mkMem h me) = (mkMem h me, Ok d).
Proof. intros H. unfold load_objs, load, sbind. cbn [me_heap]. rewrite H. reflexivity. Qed.
Lemma alloc_at h me o : alloc o (mkMem h me) = (mkMem (h ++ [o]) me, Ok (length h)).
Proof. reflexivity. Qed.
Lemma store_at h me a o : store a o (mkMem h me) = (mkMem (list_set h a o) me, Ok tt).
Proof. reflexivity. Qed.
Lemma self_at h me : self_ (ar := ar) (mkMem h me) = (mkMem h me, Ok me).
Proof. reflexivity. Qed.

Lemma sget_at h me : sget (mkMem h me) = (mkMem h me, Ok (mkMem h me)).
Proof. reflexivity. Qed.
Lemma sret_at {A} (a : A) h me : sret a (mkMem h me) = (mkMem h me, Ok a).
Proof. reflexivity. Qed.

(** ** The search for an item *)
Lemma first_fit_at W L Xo Yo rotation g items ti d ids h me :
  nth_error h items = Some (OTable ti) -> table (fun a x => nth_error h a = Some (OItem x None)) ti d ->
  match first_fit W L Xo Yo rotation g d ids with
  | Ok None => m_first_fit ar W L Xo Yo rotation g items ids (mkMem h me) = (mkMem h me, Ok None)
  | Ok (Some (i, it, rot)) => exists a, dget ti i = Some a /\ nth_error h a = Some (OItem it None) /\ In i ids /\
      m_first_fit ar W L Xo Yo rotation g items ids (mkMem h me) = (mkMem h me, Ok (Some (i, a, rot)))
  | Err e => m_first_fit ar W L Xo Yo rotation g items ids (mkMem h me) = (mkMem h me, Err e)
  end.
Proof.
  intros Hi Ht. induction ids as [|i ids IH]; cbn [first_fit m_first_fit]; [reflexivity|].
  rewrite (sbind_ok _ _ _ _ _ (load_table_at h me items ti Hi)), sbind_lift.
  unfold dget_r. pose proof (table_get _ ti d i Ht) as G. destruct (dget ti i) as [a|] eqn:Ea, (dget d i) as [it|] eqn:Ed; try contradiction; cbn [bind]; [|reflexivity].
  destruct G as [G _]. rewrite (sbind_ok _ _ _ _ _ (load_item_at h me a _ _ G)), sbind_lift. cbn [fst].
  assert (R : match first_fit W L Xo Yo rotation g d ids with
    | Ok None => m_first_fit ar W L Xo Yo rotation g items ids (mkMem h me) = (mkMem h me, Ok None)
    | Ok (Some (i0, it0, rot)) => exists a0, dget ti i0 = Some a0 /\ nth_error h a0 = Some (OItem it0 None) /\ In i0 (i :: ids) /\
        m_first_fit ar W L Xo Yo rotation g items ids (mkMem h me) = (mkMem h me, Ok (Some (i0, a0, rot)))
    | Err e => m_first_fit ar W L Xo Yo rotation g items ids (mkMem h me) = (mkMem h me, Err e)
    end).
  { destruct (first_fit W L Xo Yo rotation g d ids) as [[[[i0 it0] r0]|]|e]; auto.
    destruct IH as [a0 [I1 [I2 [I3 I4]]]]. exists a0. split; [exact I1|]. split; [exact I2|]. split; [right; exact I3|exact I4]. }
  destruct (check_fitting W L Xo Yo (dw it) (dl it) g) as [[|]|e]; cbn [bind]; [|destruct rotation|reflexivity].
  - exists a. repeat split; auto. left. reflexivity.
  - rewrite sbind_lift. destruct (check_fitting W L Xo Yo (dl it) (dw it) g) as [[|]|e]; cbn [bind]; [|exact R|reflexivity].
    exists a. repeat split; auto. left. reflexivity.
  - exact R.
Qed.

(** ** The loop *)

(** The objects of a construction in progress: the items left, the ids left, the items placed. *)
Definition at_work h (items ids cur : addr) (own : list addr) (s : cstate ar) : Prop :=
  exists ti tc,
    nth_error h items = Some (OTable ti) /\ table (fun a x => nth_error h a = Some (OItem x None)) ti (st_items s) /\
    nth_error h ids = Some (OIds (st_ids s)) /\
    nth_error h cur = Some (OTable tc) /\
    table (fun a p => nth_error h a = Some (OItem (p_item p) (Some (p_x p, p_y p, p_rot p)))) tc (st_sol s) /\
    NoDup (items :: ids :: cur :: map snd ti ++ map snd tc) /\
    incl (map snd ti ++ map snd tc) own /\ NoDup (dkeys tc).

(** Nothing but these objects changed. *)
Definition only (l : list addr) h h' : Prop := length h' = length h /\ forall a, ~ In a l -> nth_error h' a = nth_error h a.

Lemma only_refl l h : only l h h.
Proof. split; auto. Qed.
Lemma only_trans l h1 h2 h3 : only l h1 h2 -> only l h2 h3 -> only l h1 h3.
Proof. intros [L1 F1] [L2 F2]. split; [congruence|]. intros a Ha. rewrite F2, F1; auto. Qed.
Lemma only_set l h a o : In a l -> only l h (list_set h a o).
Proof. intros Ha. split; [apply list_set_length|]. intros b Hb. apply set_other. intros ->. auto. Qed.

Definition vars_of (s : cstate ar) : vars ar := mkVars (st_obj s) (st_grid s) (st_pools s) (st_cur s).

Lemma place_at W L strip items ids cur own s Xo Yo i it rot a h me ti :
  at_work h items ids cur own s -> nth_error h items = Some (OTable ti) ->
  dget ti i = Some a -> nth_error h a = Some (OItem it None) ->
  match place_item ar W L strip s Xo Yo i it rot with
  | Ok s' => exists h', m_place ar W L strip items ids cur (vars_of s) Xo Yo i a rot (mkMem h me) = (mkMem h' me, Ok (vars_of s')) /\
      at_work h' items ids cur own s' /\ only (items :: ids :: cur :: own) h h'
  | Err e => exists h', m_place ar W L strip items ids cur (vars_of s) Xo Yo i a rot (mkMem h me) = (mkMem h' me, Err e) /\
      only (items :: ids :: cur :: own) h h'
  end.
Proof.
  intros [ti' [tc [H1 [H2 [H3 [H4 [H5 [ND [Inc NK]]]]]]]]] Hi Ha Hit. rewrite Hi in H1. injection H1 as <-.
  unfold m_place, place_item. rewrite (sbind_ok _ _ _ _ _ (load_item_at h me a _ _ Hit)). cbn [fst]. cbv zeta.
  change (va_grid (vars_of s)) with (st_grid s). rewrite sbind_lift. destruct (paint (st_grid s) Xo Yo (if rot then dl it else dw it) (if rot then dw it else dl it)) as [g'|e]; cbn [bind].
  2:{ exists h. split; [reflexivity|apply only_refl]. }
  assert (Ia : In a (map snd ti)) by (eapply get_in_snd; exact Ha).
  assert (Io : In a own) by (apply Inc, in_or_app; auto).
  inversion ND as [|? ? N1 ND1]; subst. inversion ND1 as [|? ? N2 ND2]; subst. inversion ND2 as [|? ? N3 ND3]; subst.
  cbn [In] in N1, N2. rewrite !in_app_iff in N1, N2, N3.
  assert (Ai : a <> items) by (intros ->; tauto). assert (Ad : a <> ids) by (intros ->; tauto). assert (Ac : a <> cur) by (intros ->; tauto).
  rewrite (sbind_ok _ _ _ _ _ (load_ids_at h me ids _ H3)), (sbind_ok _ _ _ _ _ (store_at h me ids _)).
  set (h1 := list_set h ids _).
  assert (K1 : nth_error h1 items = Some (OTable ti)) by (unfold h1; rewrite set_other; [exact Hi|intros ->; tauto]).
  rewrite (sbind_ok _ _ _ _ _ (load_table_at h1 me items _ K1)), (sbind_ok _ _ _ _ _ (store_at h1 me items _)).
  set (h2 := list_set h1 items _). rewrite (sbind_ok _ _ _ _ _ (store_at h2 me a _)). set (h3 := list_set h2 a _).
  assert (K3 : nth_error h3 cur = Some (OTable tc)).
  { unfold h3, h2, h1. rewrite !set_other; [exact H4|intros ->; tauto|intros ->; tauto|intros ->; tauto]. }
  rewrite (sbind_ok _ _ _ _ _ (load_table_at h3 me cur _ K3)), (sbind_ok _ _ _ _ _ (store_at h3 me cur _)). set (h4 := list_set h3 cur _).
  assert (O : only (items :: ids :: cur :: own) h h4).
  { eapply only_trans; [apply (only_set _ h ids); cbn; tauto|]. eapply only_trans; [apply (only_set _ h1 items); cbn; tauto|].
    eapply only_trans; [apply (only_set _ h2 a); cbn; tauto|]. apply (only_set _ h3 cur). cbn; tauto. }
  rewrite sbind_lift. destruct (generate_points ar g' W L Xo Yo (if rot then dl it else dw it) (if rot then dw it else dl it)) as [ps|e]; cbn [bind].
  2:{ exists h4. split; [reflexivity|exact O]. }
  exists h4. split; [reflexivity|]. split; [|exact O].
  assert (Other : forall b, b <> items -> b <> ids -> b <> cur -> b <> a -> nth_error h4 b = nth_error h b).
  { intros b B1 B2 B3 B4. unfold h4, h3, h2, h1. rewrite !set_other by congruence. reflexivity. }
  assert (A4 : nth_error h4 a = Some (OItem it (Some (Xo, Yo, rot)))).
  { unfold h4. rewrite set_other by congruence. unfold h3. eapply set_same with (x := OItem it None). unfold h2, h1. rewrite !set_other by congruence. exact Hit. }
  rewrite NoDup_app_iff in ND3. destruct ND3 as [NDi [NDc Dis]].
  exists (ddel ti i), (dset tc i a). cbn [st_items st_ids st_sol]. split; [|split; [|split; [|split; [|split; [|split; [|split]]]]]].
  - unfold h4, h3. rewrite !set_other by (intros ->; tauto). unfold h2. eapply set_same. exact K1.
  - apply table_del with (k := i) in H2. eapply table_mono; [exact H2|]. intros b x Hb Hx. cbn beta.
    assert (Bt : In b (map snd ti)) by (eapply in_snd_del; exact Hb).
    rewrite Other; [exact Hx|intros ->; tauto|intros ->; tauto|intros ->; tauto|].
    intros ->. exact (get_not_in_del ti i a NDi Ha Hb).
  - unfold h4, h3, h2. rewrite !set_other by (intros ->; tauto). unfold h1. eapply set_same. exact H3.
  - unfold h4. eapply set_same. exact K3.
  - apply table_set; [|exact A4]. eapply table_mono; [exact H5|]. intros b p Hb Hx. cbn beta.
    rewrite Other; [exact Hx|intros ->; tauto|intros ->; tauto|intros ->; tauto|]. intros ->. exact (Dis a Ia Hb).
  - assert (Sub : forall b, In b (map snd (ddel ti i) ++ map snd (dset tc i a)) -> In b (map snd ti) \/ In b (map snd tc)).
    { intros b Hb. apply in_app_or in Hb. destruct Hb as [Hb|Hb]; [left; eapply in_snd_del; exact Hb|]. apply in_snd_set in Hb.
      destruct Hb as [->|Hb]; auto. }
    assert (Nb : forall b, b = items \/ b = ids \/ b = cur -> ~ In b (map snd (ddel ti i) ++ map snd (dset tc i a))).
    { intros b Hb F. apply Sub in F. destruct Hb as [->|[->| ->]]; tauto. }
    constructor; [cbn [In]; intros [E|[E|F]]; [subst; tauto|subst; tauto|exact (Nb _ (or_introl eq_refl) F)]|].
    constructor; [cbn [In]; intros [E|F]; [subst; tauto|exact (Nb _ (or_intror (or_introl eq_refl)) F)]|].
    constructor; [exact (Nb _ (or_intror (or_intror eq_refl)))|].
    apply NoDup_app_iff. split; [apply nodup_snd_del, NDi|]. split.
    + apply nodup_snd_set. constructor; [exact (Dis a Ia)|exact NDc].
    + intros b Hb F. apply in_snd_set in F. destruct F as [->|F]; [exact (get_not_in_del ti i a NDi Ha Hb)|].
      exact (Dis b (in_snd_del _ _ _ Hb) F).
  - intros b Hb. apply in_app_or in Hb. destruct Hb as [Hb|Hb]; [apply Inc, in_or_app; left; eapply in_snd_del; exact Hb|].
    apply in_snd_set in Hb. destruct Hb as [->|Hb]; [exact Io|]. apply Inc, in_or_app. auto.
  - apply NoDup_dset, NK.
Qed.

Lemma body_at W L strip rotation strategy items ids cur own s p h me :
  at_work h items ids cur own s ->
  match loop_body ar W L strip rotation strategy s p with
  | Ok s' => exists h', m_body ar W L strip rotation strategy items ids cur (vars_of s) p (mkMem h me) = (mkMem h' me, Ok (vars_of s')) /\
      at_work h' items ids cur own s' /\ only (items :: ids :: cur :: own) h h'
  | Err e => exists h', m_body ar W L strip rotation strategy items ids cur (vars_of s) p (mkMem h me) = (mkMem h' me, Err e) /\
      only (items :: ids :: cur :: own) h h'
  end.
Proof.
  intros A. pose proof A as [ti [tc [H1 [H2 [H3 _]]]]]. unfold loop_body, m_body. destruct p as [Xo Yo].
  rewrite (sbind_ok _ _ _ _ _ (load_ids_at h me ids _ H3)).
  pose proof (first_fit_at W L Xo Yo rotation (st_grid s) items ti (st_items s) (st_ids s) h me H1 H2) as F.
  change (va_grid (vars_of s)) with (st_grid s).
  destruct (first_fit W L Xo Yo rotation (st_grid s) (st_items s) (st_ids s)) as [[[[i it] rot]|]|e]; cbn [bind].
  - destruct F as [a [F1 [F2 [_ F3]]]]. rewrite (sbind_ok _ _ _ _ _ F3). clear F3.
    pose proof (place_at W L strip items ids cur own s Xo Yo i it rot a h me ti A H1 F1 F2) as P.
    destruct (place_item ar W L strip s Xo Yo i it rot) as [s'|e]; cbn [bind].
    + destruct P as [h' [P1 [P2 P3]]]. rewrite (sbind_ok _ _ _ _ _ P1). change (va_pools (vars_of s')) with (st_pools s').
      destruct (get_current_point strategy (st_pools s')) as [cur' pp]. exists h'. split; [reflexivity|]. split; [|exact P3].
      exact P2.
    + destruct P as [h' [P1 P2]]. exists h'. rewrite (sbind_err _ _ _ _ _ P1). auto.
  - rewrite (sbind_ok _ _ _ _ _ F). unfold sbind at 1, sret. change (va_pools (vars_of s)) with (st_pools s).
    destruct (get_current_point strategy (st_pools s)) as [cur' pp]. exists h. split; [reflexivity|]. split; [exact A|apply only_refl].
  - rewrite (sbind_err _ _ _ _ _ F). exists h. split; [reflexivity|apply only_refl].
Qed.

Lemma loop_at fuel W L strip rotation strategy items ids cur own : forall s h me,
  at_work h items ids cur own s ->
  match construct_loop ar fuel W L strip rotation strategy s with
  | Ok s' => exists h', m_loop ar fuel W L strip rotation strategy items ids cur (vars_of s) (mkMem h me) = (mkMem h' me, Ok (vars_of s')) /\
      at_work h' items ids cur own s' /\ only (items :: ids :: cur :: own) h h'
  | Err e => exists h', m_loop ar fuel W L strip rotation strategy items ids cur (vars_of s) (mkMem h me) = (mkMem h' me, Err e) /\
      only (items :: ids :: cur :: own) h h'
  end.
Proof.
  induction fuel as [|n IH]; intros s h me A; pose proof A as [ti [tc [_ [_ [H3 _]]]]]; cbn [construct_loop m_loop];
    change (va_cur (vars_of s)) with (st_cur s); change (va_obj (vars_of s)) with (st_obj s);
    (destruct (st_cur s) as [p|] eqn:Ec; [|exists h; split; [reflexivity|split; [exact A|apply only_refl]]]);
    rewrite (sbind_ok _ _ _ _ _ (load_ids_at h me ids _ H3));
    (destruct (st_ids s) as [|i0 l0] eqn:Ei; [exists h; split; [reflexivity|split; [exact A|apply only_refl]]|]);
    (destruct (ngeb ar (st_obj s) (num1 ar)); [exists h; split; [reflexivity|split; [exact A|apply only_refl]]|]).
  - exists h. split; [reflexivity|apply only_refl].
  - pose proof (body_at W L strip rotation strategy items ids cur own s p h me A) as B.
    destruct (loop_body ar W L strip rotation strategy s p) as [s1|e]; cbn [bind].
    + destruct B as [h1 [B1 [B2 B3]]]. rewrite (sbind_ok _ _ _ _ _ B1). specialize (IH s1 h1 me B2).
      destruct (construct_loop ar n W L strip rotation strategy s1) as [s2|e].
      * destruct IH as [h2 [I1 [I2 I3]]]. exists h2. split; [exact I1|]. split; [exact I2|]. eapply only_trans; eauto.
      * destruct IH as [h2 [I1 I2]]. exists h2. split; [exact I1|]. eapply only_trans; eauto.
    + destruct B as [h1 [B1 B2]]. rewrite (sbind_err _ _ _ _ _ B1). eauto.
Qed.

(** ** One container *)

(** Objects are added, and of the old ones only those of [l] change. *)
Definition grows (l : list addr) h h' : Prop :=
  (length h <= length h')%nat /\ forall a, (a < length h)%nat -> ~ In a l -> nth_error h' a = nth_error h a.

Lemma grows_refl l h : grows l h h.
Proof. split; auto. Qed.
Lemma grows_trans l h1 h2 h3 : grows l h1 h2 -> grows l h2 h3 -> grows l h1 h3.
Proof. intros [L1 F1] [L2 F2]. split; [lia|]. intros a Ha Hn. rewrite F2, F1; auto. lia. Qed.
Lemma grows_incl l l' h1 h2 : grows l h1 h2 -> (forall a, In a l -> (a < length h1)%nat -> In a l') -> grows l' h1 h2.
Proof. intros [L1 F1] I. split; [lia|]. intros a Ha Hn. apply F1; auto. Qed.
Lemma grows_alloc l h o : grows l h (h ++ [o]).
Proof. split; [rewrite app_length; lia|]. intros a Ha _. apply nth_old', Ha. Qed.
Lemma grows_set l h a o : In a l -> grows l h (list_set h a o).
Proof. intros Ha. split; [rewrite list_set_length; lia|]. intros b Hb Hn. apply set_other. intros ->. auto. Qed.
Lemma grows_only l h h' : only l h h' -> grows l h h'.
Proof. intros [L F]. split; [lia|]. auto. Qed.
Lemma grows_nil_untouched h h' : grows [] h h' -> untouched h h'.
Proof. intros [_ F] a o H. rewrite F; [exact H|eapply nth_lt; exact H|auto]. Qed.
Lemma grows_some l h h' a o : grows l h h' -> ~ In a l -> nth_error h a = Some o -> nth_error h' a = Some o.
Proof. intros [_ F] N H. rewrite F; [exact H|eapply nth_lt; exact H|exact N]. Qed.

Definition p_placed h : addr -> placed -> Prop :=
  fun a p => nth_error h a = Some (OItem (p_item p) (Some (p_x p, p_y p, p_rot p))).
Definition p_item_ h : addr -> dims -> Prop := fun a x => nth_error h a = Some (OItem x None).
Definition p_entry h : addr -> entry -> Prop := fun a e => nth_error h a = Some (OEntry e).

Lemma fuel_at h ti d : table (p_item_ h) ti d -> m_fuel ti h = construct_fuel d.
Proof.
  intros H. unfold m_fuel, construct_fuel. f_equal. induction H as [|[k a] [k' x] ti d [_ Hp] H IH]; cbn in *; [reflexivity|].
  unfold p_item_ in Hp. rewrite Hp, IH. reflexivity.
Qed.

Lemma area_at h me tc sol : table (p_placed h) tc sol ->
  m_area ar (dvals tc) (mkMem h me) =
  (mkMem h me, Ok (fold_right Z.add 0 (map (fun kp => dw (p_item (snd kp)) * dl (p_item (snd kp))) sol))).
Proof.
  induction 1 as [|[k a] [k' x] tc sol [_ Hp] H IH]; cbn [dvals map m_area fold_right snd] in *; [reflexivity|].
  rewrite (sbind_ok _ _ _ _ _ (load_item_at h me a _ _ Hp)). unfold sbind at 1. unfold dvals in IH. rewrite IH. reflexivity.
Qed.

Lemma export_at n0 out : forall tc sol h me to done,
  table (p_placed h) tc sol -> (forall a, In a (map snd tc) -> (a < n0)%nat) ->
  nth_error h out = Some (OTable to) -> table (p_entry h) to done ->
  NoDup (out :: map snd to) -> (forall a, In a (out :: map snd to) -> (n0 <= a)%nat) -> NoDup (dkeys done ++ dkeys sol) ->
  exists h' to', m_export ar out tc (mkMem h me) = (mkMem h' me, Ok tt) /\
    nth_error h' out = Some (OTable to') /\ table (p_entry h') to' (done ++ map (fun kp => (fst kp, export (snd kp))) sol) /\
    NoDup (out :: map snd to') /\ (forall a, In a (out :: map snd to') -> (n0 <= a)%nat) /\ grows [out] h h'.
Proof.
  induction tc as [|[k a] tc IH]; intros sol h me to done Ht Hlt Ho Hto Hnd Hge Hk; inversion Ht as [|[? ?] [k' p] ? sol' [E Hp] Ht']; subst.
  - cbn [m_export map]. rewrite app_nil_r. exists h, to. split; [reflexivity|]. repeat (split; [assumption|]). apply grows_refl.
  - cbn [fst snd] in E, Hp. subst k'. cbn [m_export]. rewrite (sbind_ok _ _ _ _ _ (load_item_at h me a _ _ Hp)). cbn [fst snd].
    rewrite (sbind_ok _ _ _ _ _ (alloc_at h me _)).
    assert (Ep : mkPlaced (p_item p) (p_x p) (p_y p) (p_rot p) = p) by (destruct p; reflexivity). rewrite Ep.
    set (h1 := h ++ [OEntry (export p)]). assert (O1 : nth_error h1 out = Some (OTable to)) by (apply nth_old, Ho).
    rewrite (sbind_ok _ _ _ _ _ (load_table_at h1 me out _ O1)), (sbind_ok _ _ _ _ _ (store_at h1 me out _)).
    assert (Lo : (out < length h)%nat) by (eapply nth_lt; exact Ho).
    set (h2 := list_set h1 out _).
    assert (Far : forall b, b <> out -> nth_error h2 b = nth_error h1 b) by (intros; apply set_other; congruence).
    assert (Kd : dget done k = None).
    { apply dget_None. intros F. cbn [dkeys map fst] in Hk. apply NoDup_app_iff in Hk. destruct Hk as [_ [_ D]]. apply (D k F). left. reflexivity. }
    assert (Kt : dset done k (export p) = done ++ [(k, export p)]) by (apply dset_new, Kd).
    assert (G2 : grows [out] h h2) by (eapply grows_trans; [apply grows_alloc|apply grows_set; left; reflexivity]).
    assert (T2 : table (p_placed h2) tc sol').
    { eapply table_mono; [exact Ht'|]. intros b x Hb Hx. eapply grows_some; [exact G2| |exact Hx]. intros [<-|[]].
      specialize (Hge out (or_introl eq_refl)). specialize (Hlt out (or_intror Hb)). lia. }
    assert (T3 : table (p_entry h2) (dset to k (length h)) (done ++ [(k, export p)])).
    { rewrite <- Kt. apply table_set.
      - eapply table_mono; [exact Hto|]. intros b x Hb Hx. eapply grows_some; [exact G2| |exact Hx].
        intros [<-|[]]. inversion Hnd; auto.
      - unfold p_entry. rewrite Far by lia. apply nth_new. }
    assert (Lt : forall b, In b (map snd to) -> (b < length h)%nat).
    { intros b Hb. clear - Hto Hb. induction Hto as [|[k0 c] [k1 x] t d [_ Hx] _ IH]; [contradiction|]. destruct Hb as [<-|Hb]; [eapply nth_lt; exact Hx|auto]. }
    destruct (IH sol' h2 me (dset to k (length h)) (done ++ [(k, export p)])) as [h' [to' [I1 [I2 [I3 [I4 [I5 I6]]]]]]].
    + exact T2.
    + intros b Hb. apply Hlt. right. exact Hb.
    + unfold h2. eapply set_same. exact O1.
    + exact T3.
    + inversion Hnd as [|? ? N M]; subst. constructor.
      * intros F. apply in_snd_set in F. destruct F as [F|F]; [lia|auto].
      * apply nodup_snd_set. constructor; [|exact M]. intros F. specialize (Lt _ F). lia.
    + intros b [<-|Hb]; [apply Hge; left; reflexivity|]. apply in_snd_set in Hb. destruct Hb as [->|Hb]; [|apply Hge; right; exact Hb].
      specialize (Hge out (or_introl eq_refl)). lia.
    + unfold dkeys in *. rewrite map_app in *. cbn [map fst] in *. rewrite <- app_assoc. exact Hk.
    + exists h', to'. split; [exact I1|]. split; [exact I2|]. split.
      { rewrite <- app_assoc in I3. exact I3. }
      split; [exact I4|]. split; [exact I5|]. eapply grows_trans; eauto.
Qed.

Lemma construct_at W L strip rotation strategy items ids h me ti d :
  nth_error h items = Some (OTable ti) -> table (p_item_ h) ti d -> nth_error h ids = Some (OIds (dkeys d)) ->
  NoDup (items :: ids :: map snd ti) ->
  match construct_solution ar W L strip rotation strategy d with
  | Ok (d', obj, csol, _) => exists h' out ti',
      m_construct ar W L strip rotation strategy items ids (mkMem h me) = (mkMem h' me, Ok (obj, out)) /\
      nth_error h' items = Some (OTable ti') /\ table (p_item_ h') ti' d' /\ NoDup (map snd ti') /\ incl (map snd ti') (map snd ti) /\
      is_csol h' out csol /\ NoDup (csol_objects h' out) /\ (forall a, In a (csol_objects h' out) -> (length h <= a)%nat) /\
      grows (items :: ids :: map snd ti) h h'
  | Err e => exists h', m_construct ar W L strip rotation strategy items ids (mkMem h me) = (mkMem h' me, Err e) /\
      grows (items :: ids :: map snd ti) h h'
  end.
Proof.
  intros H1 H2 H3 ND. unfold construct_solution, m_construct. set (F := items :: ids :: map snd ti) in *.
  assert (Lt : forall b, In b F -> (b < length h)%nat).
  { intros b [<-|[<-|Hb]]; [eapply nth_lt; exact H1|eapply nth_lt; exact H3|].
    clear - H2 Hb. induction H2 as [|[k0 c] [k1 x] t e [_ Hx] _ IH]; [contradiction|]. destruct Hb as [<-|Hb]; [eapply nth_lt; exact Hx|auto]. }
  rewrite (sbind_ok _ _ _ _ _ (alloc_at h me _)). set (cur := length h). set (h1 := h ++ [OTable []]).
  assert (I1 : nth_error h1 items = Some (OTable ti)) by (apply nth_old, H1).
  rewrite (sbind_ok _ _ _ _ _ (load_table_at h1 me items _ I1)). rewrite (sbind_ok _ _ _ _ _ (sget_at h1 me)). cbn [me_heap].
  assert (T1 : table (p_item_ h1) ti d) by (eapply table_mono; [exact H2|intros b x _ Hx; apply nth_old, Hx]).
  rewrite (fuel_at h1 ti d T1).
  assert (A : at_work h1 items ids cur (map snd ti) (init_state ar W L d)).
  { exists ti, []. cbn [init_state st_items st_ids st_sol map]. split; [exact I1|]. split; [exact T1|]. split; [apply nth_old, H3|].
    split; [apply nth_new|]. split; [constructor|]. rewrite app_nil_r. split; [|split; [apply incl_refl|constructor]].
    inversion ND as [|? ? N1 M1]; subst. inversion M1 as [|? ? N2 M2]; subst.
    assert (Fc : ~ In cur F) by (intros E; specialize (Lt _ E); unfold cur in Lt; lia). unfold F in Fc. cbn [In] in *.
    constructor; [cbn [In]; intuition congruence|]. constructor; [cbn [In]; intuition congruence|]. constructor; [tauto|exact M2]. }
  pose proof (loop_at (construct_fuel d) W L strip rotation strategy items ids cur (map snd ti) (init_state ar W L d) h1 me A) as LP.
  change (mkVars (num0 ar) (empty_grid W L) empty_pools (Some (0, 0))) with (vars_of (init_state ar W L d)).
  assert (GO : forall h2, only (items :: ids :: cur :: map snd ti) h1 h2 -> grows F h h2).
  { intros h2 O. apply grows_only in O. apply grows_incl with (l := items :: ids :: cur :: map snd ti).
    - eapply grows_trans; [apply grows_alloc|exact O].
    - intros b Hb Hl. unfold F. cbn [In] in *. destruct Hb as [Hb|[Hb|[Hb|Hb]]]; try tauto. subst b. unfold cur in Hl. lia. }
  destruct (construct_loop ar (construct_fuel d) W L strip rotation strategy (init_state ar W L d)) as [s|e]; cbn [bind].
  2:{ destruct LP as [h2 [LP1 LP2]]. exists h2. rewrite (sbind_err _ _ _ _ _ LP1). split; [reflexivity|]. apply GO, LP2. }
  destruct LP as [h2 [LP1 [LP2 LP3]]]. rewrite (sbind_ok _ _ _ _ _ LP1). clear LP1.
  destruct LP2 as [ti' [tc [W1 [W2 [W3 [W4 [W5 [W6 [W7 W8]]]]]]]]].
  rewrite (sbind_ok _ _ _ _ _ (load_table_at h2 me cur _ W4)).
  assert (L2 : length h2 = S (length h)) by (destruct LP3 as [LL _]; rewrite LL; unfold h1; rewrite app_length; cbn; lia).
  inversion W6 as [|? ? N1 M1]; subst. inversion M1 as [|? ? N2 M2]; subst. inversion M2 as [|? ? N3 M3]; subst.
  apply NoDup_app_iff in M3. destruct M3 as [M3 [M4 M5]].
  assert (Fin : forall obj : num ar, exists h' out ti'0,
    (out <~ alloc (OTable []) ;; m_export ar out tc ;;; sret (obj, out)) (mkMem h2 me) = (mkMem h' me, Ok (obj, out)) /\
    nth_error h' items = Some (OTable ti'0) /\ table (p_item_ h') ti'0 (st_items s) /\ NoDup (map snd ti'0) /\ incl (map snd ti'0) (map snd ti) /\
    is_csol h' out (map (fun kp => (fst kp, export (snd kp))) (st_sol s)) /\ NoDup (csol_objects h' out) /\
    (forall a, In a (csol_objects h' out) -> (length h <= a)%nat) /\ grows F h h').
  { intros obj. rewrite (sbind_ok _ _ _ _ _ (alloc_at h2 me _)). set (out := length h2). set (h3 := h2 ++ [OTable []]).
    assert (T3 : table (p_placed h3) tc (st_sol s)) by (eapply table_mono; [exact W5|intros b x _ Hx; apply nth_old, Hx]).
    destruct (export_at (length h2) out tc (st_sol s) h3 me [] []) as [h' [to' [E1 [E2 [E3 [E4 [E5 E6]]]]]]].
    - exact T3.
    - intros b Hb. assert (In b F) by (unfold F; right; right; apply W7, in_or_app; auto). specialize (Lt b H). lia.
    - apply nth_new.
    - constructor.
    - constructor; [auto|constructor].
    - intros b [<-|[]]. lia.
    - cbn [app dkeys map]. pose proof (table_keys _ _ _ W5) as TK. unfold dkeys in *. rewrite <- TK. exact W8.
    - rewrite (sbind_ok _ _ _ _ _ E1). exists h', out, ti'. split; [reflexivity|].
      assert (G3 : grows [out] h2 h') by (eapply grows_trans; [apply grows_alloc|exact E6]).
      assert (Old : forall b o, (b < length h2)%nat -> nth_error h2 b = Some o -> nth_error h' b = Some o).
      { intros b o Hb Hx. eapply grows_some; [exact G3| |exact Hx]. intros [<-|[]]. unfold out in Hb. lia. }
      split; [apply Old; [eapply nth_lt; exact W1|exact W1]|]. split; [|split; [exact M3|split]].
      + eapply table_mono; [exact W2|]. intros b x _ Hx. apply Old; [eapply nth_lt; exact Hx|exact Hx].
      + intros b Hb. apply W7, in_or_app. auto.
      + assert (Eo : csol_objects h' out = out :: map snd to') by (unfold csol_objects; rewrite E2; reflexivity). rewrite Eo.
        split; [exists to'; split; [exact E2|exact E3]|]. split; [exact E4|]. split; [intros b Hb; specialize (E5 b Hb); lia|].
        apply grows_trans with h2; [apply GO, LP3|]. apply grows_incl with (l := [out]); [exact G3|].
        intros b [<-|[]] Hb. unfold out in Hb. lia. }
  destruct strip.
  - rewrite sbind_assoc, sbind_lift. change (va_grid (vars_of s)) with (st_grid s).
    destruct (top_row (st_grid s) (strip_rows L)) as [hh|e]; cbn [bind].
    + rewrite sbind_assoc, (sbind_ok _ _ _ _ _ (area_at h2 me tc _ W5)). rewrite (sbind_ok _ _ _ _ _ (sret_at _ h2 me)). apply Fin.
    + exists h2. split; [reflexivity|]. apply GO, LP3.
  - cbn [bind]. rewrite (sbind_ok _ _ _ _ _ (sret_at _ h2 me)). apply (Fin (st_obj s)).
Qed.
(** ** Whole solutions *)

Definition kept (n : nat) h h' : Prop := (length h <= length h')%nat /\ forall a, (a < n)%nat -> nth_error h' a = nth_error h a.

Lemma untouched_refl h : untouched h h.
Proof. intros a o H. exact H. Qed.
Lemma untouched_trans h1 h2 h3 : untouched h1 h2 -> untouched h2 h3 -> untouched h1 h3.
Proof. intros A B a o H. auto. Qed.
Lemma untouched_alloc h o : untouched h (h ++ [o]).
Proof. intros a x H. apply nth_old, H. Qed.
Lemma kept_untouched h h' : kept (length h) h h' -> untouched h h'.
Proof. intros [_ K] a o H. rewrite K; [exact H|eapply nth_lt; exact H]. Qed.
Lemma untouched_length h h' : untouched h h' -> (length h <= length h')%nat.
Proof.
  intros U. destruct h as [|o h]; [cbn; lia|]. destruct (nth_error (o :: h) (length h)) as [x|] eqn:E.
  - apply U, nth_lt in E. cbn [length]. lia.
  - apply nth_error_None in E. cbn [length] in E. lia.
Qed.

Lemma struct_mono h h' a d : untouched h h' -> is_struct h a d -> is_struct h' a d.
Proof. intros U [t [H1 H2]]. exists t. split; [apply U, H1|]. eapply table_mono; [exact H2|]. intros b x _ Hx. apply U, Hx. Qed.

Definition flat h (t : odict addr) : list addr := flat_map (fun kb => csol_objects h (snd kb)) t.

Lemma csol_same h h' a c : (forall b, In b (csol_objects h a) -> nth_error h' b = nth_error h b) ->
  is_csol h a c -> is_csol h' a c /\ csol_objects h' a = csol_objects h a.
Proof.
  intros E [t [H1 H2]]. assert (Ea : nth_error h' a = Some (OTable t)) by (rewrite E; [exact H1|left; reflexivity]).
  split.
  - exists t. split; [exact Ea|]. eapply table_mono; [exact H2|]. intros b x Hb Hx. rewrite E; [exact Hx|].
    unfold csol_objects. rewrite H1. right. exact Hb.
  - unfold csol_objects. rewrite Ea, H1. reflexivity.
Qed.

Lemma csols_same h h' t s : table (is_csol h) t s -> (forall b, In b (flat h t) -> nth_error h' b = nth_error h b) ->
  table (is_csol h') t s /\ flat h' t = flat h t.
Proof.
  intros T. induction T as [|[k a] [k' c] t s [Ek Hc] T IH]; intros E; [split; [constructor|reflexivity]|].
  cbn [snd fst] in *. destruct (csol_same h h' a c) as [C1 C2].
  - intros b Hb. apply E. unfold flat. cbn [flat_map snd]. apply in_or_app. left. exact Hb.
  - exact Hc.
  - destruct IH as [I1 I2].
    + intros b Hb. apply E. unfold flat. cbn [flat_map snd]. apply in_or_app. right. exact Hb.
    + split; [constructor; [split; [exact Ek|exact C1]|exact I1]|].
      unfold flat in *. cbn [flat_map snd]. rewrite C2, I2. reflexivity.
Qed.

Lemma flat_lt h t s : table (is_csol h) t s -> forall b, In b (flat h t) -> (b < length h)%nat.
Proof.
  induction 1 as [|[k a] [k' c] t s [Ek [tc [H1 H2]]] T IH]; intros b Hb; [contradiction|].
  unfold flat in Hb. cbn [flat_map snd] in *. apply in_app_or in Hb. destruct Hb as [Hb|Hb]; [|exact (IH b Hb)].
  unfold csol_objects in Hb. rewrite H1 in Hb. destruct Hb as [<-|Hb]; [eapply nth_lt; exact H1|].
  clear - H2 Hb. induction H2 as [|[k0 c0] [k1 x] t0 e [_ Hx] _ IH]; [contradiction|]. destruct Hb as [<-|Hb]; [eapply nth_lt; exact Hx|auto].
Qed.
Lemma items_lt h t d : table (p_item_ h) t d -> forall b, In b (map snd t) -> (b < length h)%nat.
Proof.
  intros H2 b Hb. induction H2 as [|[k0 c0] [k1 x] t0 e [_ Hx] _ IH]; [contradiction|]. destruct Hb as [<-|Hb]; [eapply nth_lt; exact Hx|auto].
Qed.

(** The solution [r] with the values [v]: made of objects not older than [n], each in one place. *)
Definition owns (n : nat) h (r : addr * addr) (v : solution * objvals ar) : Prop :=
  is_solution h (fst r) (fst v) /\ nth_error h (snd r) = Some (OObjs (snd v)) /\
  NoDup (snd r :: solution_objects h (fst r)) /\ forall a, In a (snd r :: solution_objects h (fst r)) -> (n <= a)%nat.

Lemma solution_mono h h' a s : untouched h h' -> is_solution h a s -> is_solution h' a s /\ solution_objects h' a = solution_objects h a.
Proof.
  intros U [t [H1 H2]]. destruct (csols_same h h' t s H2) as [C1 C2].
  - intros b Hb. pose proof (flat_lt h t s H2 b Hb) as L. destruct (nth_error h b) as [o|] eqn:E; [apply U, E|].
    apply nth_error_None in E. lia.
  - split; [exists t; split; [apply U, H1|exact C1]|]. unfold solution_objects. rewrite (U a _ H1), H1. unfold flat in C2. rewrite C2. reflexivity.
Qed.
Lemma owns_mono n h h' r v : untouched h h' -> owns n h r v -> owns n h' r v.
Proof.
  intros U [O1 [O2 [O3 O4]]]. destruct (solution_mono h h' _ _ U O1) as [S1 S2]. unfold owns. rewrite S2.
  split; [exact S1|]. split; [apply U, O2|]. split; [exact O3|exact O4].
Qed.
Lemma owns_le n n' h r v : (n' <= n)%nat -> owns n h r v -> owns n' h r v.
Proof. intros L [O1 [O2 [O3 O4]]]. split; [exact O1|]. split; [exact O2|]. split; [exact O3|]. intros a Ha. specialize (O4 a Ha). lia. Qed.

(** ** [deepcopy] *)
Lemma deepcopy_self (d : odict dims) : NoDup (dkeys d) -> deepcopy_seq d (dkeys d) = Ok d.
Proof.
  intros ND. unfold deepcopy_seq.
  assert (G : forall done todo, d = done ++ todo ->
    rfold (fun t i => bind (dget_r d i) (fun it => Ok (dset t i it))) (dkeys todo) done = Ok d).
  { intros done todo. revert done. induction todo as [|[k x] todo IH]; intros done E; cbn [dkeys map rfold].
    - rewrite app_nil_r in E. subst. reflexivity.
    - cbn [fst]. assert (Gk : dget d k = Some x).
      { apply In_dget; [exact ND|]. rewrite E. apply in_or_app. right. left. reflexivity. }
      unfold dget_r at 1. rewrite Gk. cbn [bind]. rewrite dset_new.
      + apply IH. rewrite <- app_assoc. exact E.
      + apply dget_None. intros F. rewrite E in ND. unfold dkeys in *. rewrite map_app in ND. apply NoDup_app_iff in ND.
        destruct ND as [_ [_ D]]. apply (D k F). left. reflexivity. }
  apply (G [] d). reflexivity.
Qed.

Definition copy_step (data t : odict addr) (id : string) : H ar (odict addr) :=
  da <~ slift (dget_r data id) ;; dd <~ load_dims da ;; n <~ alloc (OItem dd None) ;; sret (dset t id n).

Lemma deepcopy_loop h0 data d me : table (fun b x => nth_error h0 b = Some (ODims x)) data d -> forall ids h t acc,
  untouched h0 h -> table (p_item_ h) t acc -> NoDup (map snd t) -> (forall a, In a (map snd t) -> (length h0 <= a)%nat) ->
  match rfold (fun d' i => bind (dget_r d i) (fun it => Ok (dset d' i it))) ids acc with
  | Ok acc' => exists h' t', hfold (copy_step data) ids t (mkMem h me)
        = (mkMem h' me, Ok t') /\ untouched h h' /\ table (p_item_ h') t' acc' /\ NoDup (map snd t') /\ (forall a, In a (map snd t') -> (length h0 <= a)%nat)
  | Err e => exists h', hfold (copy_step data) ids t (mkMem h me) = (mkMem h' me, Err e) /\ untouched h h'
  end.
Proof.
  intros Hd. induction ids as [|i ids IH]; intros h t acc U T ND Ge; cbn [rfold hfold].
  - exists h, t. split; [reflexivity|]. split; [apply untouched_refl|]. auto.
  - pose proof (table_get _ data d i Hd) as G.
    assert (E : copy_step data t i (mkMem h me) = match dget d i with
      | Some x => (mkMem (h ++ [OItem x None]) me, Ok (dset t i (length h)))
      | None => (mkMem h me, Err KeyError) end).
    { unfold copy_step. rewrite sbind_lift. unfold dget_r.
      destruct (dget data i) as [a|] eqn:Ea, (dget d i) as [x|] eqn:Ex; try contradiction; [|reflexivity].
      destruct G as [G _]. rewrite (sbind_ok _ _ _ _ _ (load_dims_at h me a x (U _ _ G))). reflexivity. }
    unfold dget_r at 1. destruct (dget d i) as [x|] eqn:Ex; cbn [bind].
    + rewrite (sbind_ok _ _ _ _ _ E). specialize (IH (h ++ [OItem x None]) (dset t i (length h)) (dset acc i x)).
      assert (P1 : untouched h0 (h ++ [OItem x None])) by (eapply untouched_trans; [exact U|apply untouched_alloc]).
      assert (P2 : table (p_item_ (h ++ [OItem x None])) (dset t i (length h)) (dset acc i x)).
      { apply table_set; [|apply nth_new]. eapply table_mono; [exact T|]. intros b y _ Hy. apply nth_old, Hy. }
      assert (P3 : NoDup (map snd (dset t i (length h)))).
      { apply nodup_snd_set. constructor; [|exact ND]. intros F. pose proof (items_lt h t acc T _ F). lia. }
      assert (P4 : forall b, In b (map snd (dset t i (length h))) -> (length h0 <= b)%nat).
      { intros b Hb. apply in_snd_set in Hb. destruct Hb as [->|Hb]; [|auto]. apply untouched_length, U. }
      specialize (IH P1 P2 P3 P4).
      destruct (rfold _ ids (dset acc i x)) as [acc'|e].
      * destruct IH as [h' [t' [I1 [I2 I3]]]].
        exists h', t'. split; [exact I1|]. split; [eapply untouched_trans; [apply untouched_alloc|exact I2]|exact I3].
      * destruct IH as [h' [I1 I2]]. exists h'. split; [exact I1|]. eapply untouched_trans; [apply untouched_alloc|exact I2].
    + rewrite (sbind_err _ _ _ _ _ E). exists h. split; [reflexivity|apply untouched_refl].
Qed.

Lemma deepcopy_at h me a pb ids : is_struct h a (pb_items pb) -> NoDup (dkeys (pb_items pb)) ->
  match items_for pb ids with
  | Ok d => exists h' t r, m_deepcopy ar a ids (mkMem h me) = (mkMem h' me, Ok r) /\ untouched h h' /\
      nth_error h' r = Some (OTable t) /\ table (p_item_ h') t d /\ NoDup (r :: map snd t) /\ (forall b, In b (r :: map snd t) -> (length h <= b)%nat)
  | Err e => exists h', m_deepcopy ar a ids (mkMem h me) = (mkMem h' me, Err e) /\ untouched h h'
  end.
Proof.
  intros [data [H1 H2]] ND.
  assert (Ef : items_for pb ids = deepcopy_seq (pb_items pb) (match ids with None => dkeys data | Some l => l end)).
  { destruct ids as [l|]; [reflexivity|]. unfold items_for. rewrite (table_keys _ _ _ H2), deepcopy_self; [reflexivity|exact ND]. }
  rewrite Ef. unfold m_deepcopy. rewrite (sbind_ok _ _ _ _ _ (load_struct_at h me a _ H1)).
  pose proof (deepcopy_loop h data (pb_items pb) me H2 (match ids with None => dkeys data | Some l => l end) h [] []
    (untouched_refl h) (Forall2_nil _) (NoDup_nil _) (fun a F => match F with end)) as D.
  unfold copy_step in D.
  unfold deepcopy_seq. match goal with |- match ?r with _ => _ end => destruct r as [d|e] end.
  - destruct D as [h' [t' [D1 [D2 [D3 [D4 D5]]]]]]. rewrite (sbind_ok _ _ _ _ _ D1).
    exists (h' ++ [OTable t']), t', (length h'). split; [reflexivity|]. split; [eapply untouched_trans; [exact D2|apply untouched_alloc]|].
    split; [apply nth_new|]. split; [eapply table_mono; [exact D3|intros b x _ Hx; apply nth_old, Hx]|]. split.
    + constructor; [|exact D4]. intros F. pose proof (items_lt _ _ _ D3 _ F). lia.
    + intros b [<-|Hb]; [apply untouched_length, D2|auto].
  - destruct D as [h' [D1 D2]]. rewrite (sbind_err _ _ _ _ _ D1). eauto.
Qed.

(** ** The containers one by one *)
Definition working (n : nat) h (items objs sol : addr) (d : odict dims) (s : solution) (o : objvals ar) : Prop :=
  exists ti ts,
    nth_error h items = Some (OTable ti) /\ table (p_item_ h) ti d /\ nth_error h objs = Some (OObjs o) /\
    nth_error h sol = Some (OTable ts) /\ table (is_csol h) ts s /\
    NoDup (items :: objs :: sol :: map snd ti ++ flat h ts) /\
    forall a, In a (items :: objs :: sol :: map snd ti ++ flat h ts) -> (n <= a)%nat.

Lemma kept_trans n h1 h2 h3 : kept n h1 h2 -> kept n h2 h3 -> kept n h1 h3.
Proof. intros [L1 K1] [L2 K2]. split; [lia|]. intros a Ha. rewrite K2, K1; auto. Qed.
Lemma kept_alloc n h o : (n <= length h)%nat -> kept n h (h ++ [o]).
Proof. intros L. split; [rewrite app_length; lia|]. intros a Ha. apply nth_old'. lia. Qed.
Lemma kept_set n h a o : (n <= a)%nat -> kept n h (list_set h a o).
Proof. intros L. split; [rewrite list_set_length; lia|]. intros b Hb. apply set_other. lia. Qed.
Lemma kept_grows n l h h' : (n <= length h)%nat -> (forall a, In a l -> (n <= a)%nat) -> grows l h h' -> kept n h h'.
Proof. intros L G [L1 F]. split; [exact L1|]. intros a Ha. apply F; [lia|]. intros I. specialize (G a I). lia. Qed.

Lemma dset_dset {A} (d : odict A) k a b : dset (dset d k a) k b = dset d k b.
Proof.
  induction d as [|[k0 x] d IH]; cbn; [rewrite String.eqb_refl; reflexivity|]. destruct (String.eqb k k0) eqn:E; cbn; rewrite E; [reflexivity|].
  rewrite IH. reflexivity.
Qed.

Lemma step_at n items objs sol cid ca c h me pb d s o :
  (n <= length h)%nat -> working n h items objs sol d s o -> (ca < n)%nat -> nth_error h ca = Some (ODims c) ->
  se_strip me = pb_strip pb -> se_height me = pb_height pb -> se_rotation me = pb_rotation pb -> se_strategy me = pb_strategy pb ->
  match solve_step ar pb (d, s, o) (cid, c) with
  | Ok (d', s', o') => exists h', m_solve_step ar items objs sol cid ca (mkMem h me) = (mkMem h' me, Ok tt) /\
      working n h' items objs sol d' s' o' /\ kept n h h'
  | Err e => exists h', m_solve_step ar items objs sol cid ca (mkMem h me) = (mkMem h' me, Err e) /\ kept n h h'
  end.
Proof.
  intros Ln [ti [ts [H1 [H2 [H3 [H4 [H5 [ND Ge]]]]]]]] Lc Hc E1 E2 E3 E4.
  unfold m_solve_step, solve_step.
  pose proof (items_lt h ti d H2) as Li. pose proof (flat_lt h ts s H5) as Lf.
  pose proof (nth_lt _ _ _ H1) as L1. pose proof (nth_lt _ _ _ H3) as L3. pose proof (nth_lt _ _ _ H4) as L4.
  inversion ND as [|? ? N1 ND1]; subst. inversion ND1 as [|? ? N2 ND2]; subst. inversion ND2 as [|? ? N3 ND3]; subst.
  cbn [In] in N1, N2. rewrite !in_app_iff in N1, N2, N3. pose proof ND3 as ND3'. apply NoDup_app_iff in ND3'. destruct ND3' as [NDi [NDf Dis]].
  assert (Gi : (n <= items)%nat) by (apply Ge; left; reflexivity). assert (Go : (n <= objs)%nat) by (apply Ge; right; left; reflexivity).
  assert (Gs : (n <= sol)%nat) by (apply Ge; right; right; left; reflexivity).
  rewrite (sbind_ok _ _ _ _ _ (alloc_at h me _)). set (empty := length h). set (h1 := h ++ [OTable []]).
  rewrite (sbind_ok _ _ _ _ _ (load_table_at h1 me sol ts (nth_old _ _ _ _ H4))), (sbind_ok _ _ _ _ _ (store_at h1 me sol _)).
  set (h2 := list_set h1 sol _).
  assert (O2 : nth_error h2 objs = Some (OObjs o)) by (unfold h2; rewrite set_other by (intros ->; tauto); apply nth_old, H3).
  rewrite (sbind_ok _ _ _ _ _ (load_objs_at h2 me objs _ O2)), (sbind_ok _ _ _ _ _ (store_at h2 me objs _)).
  set (h3 := list_set h2 objs _).
  assert (Len3 : length h3 = S (length h)) by (unfold h3, h2, h1; rewrite !list_set_length, app_length; cbn; lia).
  assert (Far : forall b, (b < length h)%nat -> b <> sol -> b <> objs -> nth_error h3 b = nth_error h b).
  { intros b Hb Ns No. unfold h3, h2, h1. rewrite !set_other by congruence. apply nth_old', Hb. }
  assert (Em : nth_error h3 empty = Some (OTable [])).
  { unfold h3, h2, h1. rewrite !set_other by (unfold empty; lia). apply nth_new. }
  assert (So : nth_error h3 sol = Some (OTable (dset ts cid empty))).
  { unfold h3. rewrite set_other by (intros ->; tauto). unfold h2. eapply set_same. apply nth_old, H4. }
  assert (Ob : nth_error h3 objs = Some (OObjs (dset o cid (num0 ar)))) by (unfold h3; eapply set_same; exact O2).
  assert (K3 : kept n h h3).
  { apply kept_trans with h1; [apply kept_alloc, Ln|]. apply kept_trans with h2; [apply kept_set, Gs|apply kept_set, Go]. }
  rewrite (sbind_ok _ _ _ _ _ (load_dims_at h3 me ca c ltac:(rewrite Far by lia; exact Hc))).
  assert (It : nth_error h3 items = Some (OTable ti)) by (rewrite Far; [exact H1|exact L1|intros ->; tauto|intros ->; tauto]).
  rewrite (sbind_ok _ _ _ _ _ (load_table_at h3 me items _ It)).
  assert (T3 : table (p_item_ h3) ti d).
  { eapply table_mono; [exact H2|]. intros b x Hb Hx. unfold p_item_ in *. rewrite Far; [exact Hx|apply Li, Hb|intros ->; tauto|intros ->; tauto]. }
  assert (C3 : table (is_csol h3) ts s /\ flat h3 ts = flat h ts).
  { apply csols_same; [exact H5|]. intros b Hb. apply Far; [apply Lf, Hb|intros ->; tauto|intros ->; tauto]. }
  destruct C3 as [C3 F3].
  destruct d as [|kd d0].
  - inversion H2; subst ti. exists h3. split; [reflexivity|]. split; [|exact K3].
    exists [], (dset ts cid empty). split; [exact It|]. split; [constructor|]. split; [exact Ob|]. split; [exact So|].
    assert (Ce : csol_objects h3 empty = [empty]) by (unfold csol_objects; rewrite Em; reflexivity).
    assert (Ne : ~ In empty (flat h3 ts)) by (rewrite F3; intros F; specialize (Lf _ F); unfold empty in Lf; lia).
    split; [apply table_set; [exact C3|exists []; split; [exact Em|constructor]]|].
    assert (Old : forall b, In b (flat h3 (dset ts cid empty)) -> b = empty \/ In b (flat h ts)).
    { intros b Hb. unfold flat in Hb. apply in_flat_set in Hb. destruct Hb as [Hb|Hb]; [rewrite Ce in Hb; destruct Hb as [<-|[]]; auto|].
      right. rewrite <- F3. exact Hb. }
    cbn [map app]. split.
    + assert (NDx : NoDup (flat h3 (dset ts cid empty))).
      { apply nodup_flat_set. rewrite Ce. cbn [app]. constructor; [exact Ne|]. change (NoDup (flat h3 ts)). rewrite F3. exact NDf. }
      constructor; [|constructor; [|constructor; [|exact NDx]]]; cbn [In]; intros F.
      * destruct F as [F|[F|F]]; [tauto|tauto|]. apply Old in F. destruct F as [F|F]; [unfold empty in F; lia|tauto].
      * destruct F as [F|F]; [tauto|]. apply Old in F. destruct F as [F|F]; [unfold empty in F; lia|tauto].
      * apply Old in F. destruct F as [F|F]; [unfold empty in F; lia|tauto].
    + intros b [<-|[<-|[<-|Hb]]]; auto. apply Old in Hb. destruct Hb as [->|Hb]; [unfold empty; lia|]. apply Ge. right. right. right. apply in_or_app. auto.
  - destruct ti as [|ki ti0]; [inversion H2|]. set (ti := ki :: ti0) in *. set (d := kd :: d0) in *.
    rewrite (sbind_ok _ _ _ _ _ (alloc_at h3 me _)). set (ids := length h3). set (h4 := h3 ++ [OIds (dkeys ti)]).
    rewrite (sbind_ok _ _ _ _ _ (self_at h4 me)).
    assert (T4 : table (p_item_ h4) ti d) by (eapply table_mono; [exact T3|intros b x _ Hx; apply nth_old, Hx]).
    pose proof (construct_at (dw c) (if se_strip me then se_height me else dl c) (se_strip me) (se_rotation me) (se_strategy me)
      items ids h4 me ti d) as CA.
    assert (NDa : NoDup (items :: ids :: map snd ti)).
    { constructor; [|constructor; [|exact NDi]].
      - intros [F|F]; [unfold ids in F; lia|tauto].
      - intros F. specialize (Li _ F). unfold ids in Li. lia. }
    specialize (CA (nth_old _ _ _ _ It) T4).
    assert (Hids : nth_error h4 ids = Some (OIds (dkeys d))).
    { unfold h4, ids. rewrite nth_new. rewrite (table_keys _ _ _ T4). reflexivity. }
    specialize (CA Hids NDa).
    assert (Ga : forall b, In b (items :: ids :: map snd ti) -> (n <= b)%nat).
    { intros b [<-|[<-|Hb]]; [exact Gi|unfold ids; lia|]. apply Ge. right. right. right. apply in_or_app. auto. }
    assert (K4 : kept n h h4) by (apply kept_trans with h3; [exact K3|apply kept_alloc; lia]).
    assert (L4' : (n <= length h4)%nat) by (destruct K4; lia).
    unfold container_length. rewrite <- E1, <- E2, <- E3, <- E4.
    destruct (construct_solution ar (dw c) (if se_strip me then se_height me else dl c) (se_strip me) (se_rotation me) (se_strategy me) d)
      as [[[[d' obj] csol] pend]|e]; cbn [bind].
    2:{ destruct CA as [h5 [CA1 CA2]]. exists h5. rewrite (sbind_err _ _ _ _ _ CA1). split; [reflexivity|].
        apply kept_trans with h4; [exact K4|]. eapply kept_grows; eauto. }
    destruct CA as [h5 [out [ti' [CA1 [CA2 [CA3 [CA4 [CA5 [CA6 [CA7 [CA8 CA9]]]]]]]]]]].
    rewrite (sbind_ok _ _ _ _ _ CA1). cbn [fst snd].
    assert (Len4 : length h4 = S (S (length h))) by (unfold h4; rewrite app_length; cbn; lia).
    assert (Len5 : (length h4 <= length h5)%nat) by apply CA9.
    assert (Far5 : forall b, (b < length h)%nat -> b <> items -> ~ In b (map snd ti) -> nth_error h5 b = nth_error h3 b).
    { intros b Hb Ni Nt. destruct CA9 as [_ F9]. rewrite F9; [|lia|].
      - unfold h4. apply nth_old'. lia.
      - intros [F|[F|F]]; [congruence|unfold ids in F; lia|auto]. }
    assert (Ob5 : nth_error h5 objs = Some (OObjs (dset o cid (num0 ar)))) by (rewrite Far5; [exact Ob|exact L3|intros ->; tauto|tauto]).
    rewrite (sbind_ok _ _ _ _ _ (load_objs_at h5 me objs _ Ob5)), (sbind_ok _ _ _ _ _ (store_at h5 me objs _)).
    set (h6 := list_set h5 objs _).
    assert (So6 : nth_error h6 sol = Some (OTable (dset ts cid empty))).
    { unfold h6. rewrite set_other by (intros ->; tauto). rewrite Far5; [exact So|exact L4|intros ->; tauto|tauto]. }
    rewrite (sbind_ok _ _ _ _ _ (load_table_at h6 me sol _ So6)). rewrite store_at. rewrite !dset_dset. set (h7 := list_set h6 sol _).
    assert (Far7 : forall b, b <> objs -> b <> sol -> nth_error h7 b = nth_error h5 b).
    { intros b Nb Ns. unfold h7, h6. rewrite !set_other by congruence. reflexivity. }
    assert (Old7 : forall b, In b (flat h ts) -> nth_error h7 b = nth_error h b).
    { intros b Hb. pose proof (Lf b Hb). assert (Ns : b <> sol) by (intros ->; tauto). assert (No : b <> objs) by (intros ->; tauto).
      rewrite Far7, Far5, Far by (auto; first [lia|intros ->; tauto|intros F; exact (Dis b F Hb)]). reflexivity. }
    destruct (csols_same h h7 ts s H5 Old7) as [C7 F7].
    destruct (csol_same h5 h7 out csol) as [D7 G7].
    { intros b Hb. specialize (CA8 b Hb). apply Far7; lia. }
    { exact CA6. }
    exists h7. split; [reflexivity|]. split.
    + exists ti', (dset ts cid out).
      split; [rewrite Far7; [exact CA2|intros ->; tauto|intros ->; tauto]|].
      split. { eapply table_mono; [exact CA3|]. intros b x Hb Hx. apply CA5 in Hb. unfold p_item_ in *.
               rewrite Far7; [exact Hx|intros ->; tauto|intros ->; tauto]. }
      split. { unfold h7. rewrite set_other by (intros ->; tauto). unfold h6. rewrite dset_dset. eapply set_same. exact Ob5. }
      split. { unfold h7. eapply set_same. exact So6. }
      split; [apply table_set; [exact C7|exact D7]|].
      assert (Src : forall b, In b (flat h7 (dset ts cid out)) -> (length h4 <= b)%nat \/ In b (flat h ts)).
      { intros b Hb. unfold flat in Hb. apply in_flat_set in Hb. destruct Hb as [Hb|Hb]; [left; apply CA8; rewrite <- G7; exact Hb|].
        right. rewrite <- F7. exact Hb. }
      split.
      * assert (NDx : NoDup (flat h7 (dset ts cid out))).
        { apply nodup_flat_set. apply NoDup_app_iff. rewrite G7. split; [exact CA7|]. change (NoDup (flat h7 ts) /\ (forall b, In b (csol_objects h5 out) -> ~ In b (flat h7 ts))).
          rewrite F7. split; [exact NDf|]. intros b Hb F. specialize (CA8 b Hb). specialize (Lf b F). lia. }
        assert (Nx : forall b, (b < length h)%nat -> ~ In b (flat h ts) -> ~ In b (flat h7 (dset ts cid out))).
        { intros b Hb Nb F. apply Src in F. destruct F as [F|F]; [lia|auto]. }
        assert (Ix : forall b, In b (map snd ti') -> In b (map snd ti)) by exact CA5.
        constructor; [|constructor; [|constructor]]; cbn [In]; rewrite ?in_app_iff.
        -- intros [F|[F|[F|F]]]; [tauto|tauto|apply Ix in F; tauto|]. apply (Nx items); [exact L1|tauto|exact F].
        -- intros [F|[F|F]]; [tauto|apply Ix in F; tauto|]. apply (Nx objs); [exact L3|tauto|exact F].
        -- intros [F|F]; [apply Ix in F; tauto|]. apply (Nx sol); [exact L4|tauto|exact F].
        -- apply NoDup_app_iff. split; [exact CA4|]. split; [exact NDx|]. intros b Hb. apply Nx; [apply Li, Ix, Hb|]. apply Dis, Ix, Hb.
      * intros b [<-|[<-|[<-|Hb]]]; auto. apply in_app_or in Hb. destruct Hb as [Hb|Hb].
        -- apply Ge. right. right. right. apply in_or_app. left. apply CA5, Hb.
        -- apply Src in Hb. destruct Hb as [Hb|Hb]; [lia|]. apply Ge. right. right. right. apply in_or_app. auto.
    + apply kept_trans with h4; [exact K4|]. apply kept_trans with h5; [eapply kept_grows; eauto|].
      apply kept_trans with h6; [apply kept_set, Go|apply kept_set, Gs].
Qed.

Lemma each_at n items objs sol me pb :
  se_strip me = pb_strip pb -> se_height me = pb_height pb -> se_rotation me = pb_rotation pb -> se_strategy me = pb_strategy pb ->
  forall tc cs h d s o,
  (n <= length h)%nat -> working n h items objs sol d s o ->
  table (fun b x => nth_error h b = Some (ODims x)) tc cs -> (forall b, In b (map snd tc) -> (b < n)%nat) ->
  match rfold (solve_step ar pb) cs (d, s, o) with
  | Ok (d', s', o') => exists h', m_each ar items objs sol tc (mkMem h me) = (mkMem h' me, Ok tt) /\
      working n h' items objs sol d' s' o' /\ kept n h h'
  | Err e => exists h', m_each ar items objs sol tc (mkMem h me) = (mkMem h' me, Err e) /\ kept n h h'
  end.
Proof.
  intros E1 E2 E3 E4. induction tc as [|[cid ca] tc IH]; intros cs h d s o Ln Wk T Lc; inversion T as [|? [cid' c] ? cs' [Ek Hc] T']; subst; cbn [rfold m_each].
  - exists h. split; [reflexivity|]. split; [exact Wk|]. split; [lia|auto].
  - cbn [fst snd] in Ek, Hc. subst cid'. pose proof (step_at n items objs sol cid ca c h me pb d s o Ln Wk (Lc ca (or_introl eq_refl)) Hc E1 E2 E3 E4) as St.
    destruct (solve_step ar pb (d, s, o) (cid, c)) as [[[d1 s1] o1]|e]; cbn [bind].
    + destruct St as [h1 [S1 [S2 S3]]]. rewrite (sbind_ok _ _ _ _ _ S1).
      assert (T1 : table (fun b x => nth_error h1 b = Some (ODims x)) tc cs').
      { apply (table_mono (fun b x => nth_error h b = Some (ODims x))); [exact T'|]. intros b x Hb Hx. destruct S3 as [_ S3]. rewrite S3; [exact Hx|]. apply Lc. right. exact Hb. }
      assert (L1 : (n <= length h1)%nat) by (destruct S3; lia).
      specialize (IH cs' h1 d1 s1 o1 L1 S2 T1 (fun b Hb => Lc b (or_intror Hb))).
      destruct (rfold (solve_step ar pb) cs' (d1, s1, o1)) as [[[d2 s2] o2]|e].
      * destruct IH as [h2 [I1 [I2 I3]]]. exists h2. split; [exact I1|]. split; [exact I2|]. eapply kept_trans; eauto.
      * destruct IH as [h2 [I1 I2]]. exists h2. split; [exact I1|]. eapply kept_trans; eauto.
    + destruct St as [h1 [S1 S2]]. rewrite (sbind_err _ _ _ _ _ S1). eauto.
Qed.

Lemma working_owns n h items objs sol d s o : working n h items objs sol d s o -> owns n h (sol, objs) (s, o).
Proof.
  intros [ti [ts [H1 [H2 [H3 [H4 [H5 [ND Ge]]]]]]]]. unfold owns. cbn [fst snd].
  assert (E : solution_objects h sol = sol :: flat h ts) by (unfold solution_objects; rewrite H4; reflexivity). rewrite E.
  split; [exists ts; auto|]. split; [exact H3|].
  inversion ND as [|? ? N1 ND1]; subst. inversion ND1 as [|? ? N2 ND2]; subst. inversion ND2 as [|? ? N3 ND3]; subst.
  cbn [In] in N2. rewrite in_app_iff in N2, N3. apply NoDup_app_iff in ND3. split.
  - constructor; [cbn [In]; tauto|]. constructor; [tauto|tauto].
  - intros a [<-|[<-|Ha]]; apply Ge; cbn [In]; rewrite ?in_app_iff; auto.
Qed.

Lemma solve__at m x seq : shows m x -> NoDup (dkeys (pb_items (in_pb x))) ->
  match solve ar (in_pb x) seq with
  | Ok v => exists h' r, m_solve_ ar seq m = (mkMem h' (me_self m), Ok r) /\ untouched (me_heap m) h' /\ owns (length (me_heap m)) h' r v
  | Err e => exists h', m_solve_ ar seq m = (mkMem h' (me_self m), Err e) /\ untouched (me_heap m) h'
  end.
Proof.
  destruct m as [h me]. cbn [me_heap me_self]. intros Sh ND. destruct Sh as [S1 [S2 [S3 [S4 [S5 [S6 _]]]]]]. cbn [me_heap me_self] in *.
  unfold m_solve_, solve, solve_full. rewrite (sbind_ok _ _ _ _ _ (self_at h me)).
  pose proof (deepcopy_at h me (se_items me) (in_pb x) seq S2 ND) as D.
  destruct (items_for (in_pb x) seq) as [d|e]; cbn [bind].
  2:{ destruct D as [h1 [D1 D2]]. rewrite (sbind_err _ _ _ _ _ D1). eauto. }
  destruct D as [h1 [t [items [D1 [D2 [D3 [D4 [D5 D6]]]]]]]]. rewrite (sbind_ok _ _ _ _ _ D1).
  rewrite (sbind_ok _ _ _ _ _ (alloc_at h1 me _)), (sbind_ok _ _ _ _ _ (alloc_at (h1 ++ [OObjs []]) me _)).
  set (h2 := h1 ++ [OObjs []]). set (h3 := h2 ++ [OTable []]). set (objs := length h1). set (sol := length h2).
  assert (U3 : untouched h h3) by (eapply untouched_trans; [exact D2|]; eapply untouched_trans; apply untouched_alloc).
  pose proof (struct_mono h h3 _ _ U3 S1) as [tc [C1 C2]].
  rewrite (sbind_ok _ _ _ _ _ (load_struct_at h3 me _ _ C1)).
  assert (Lh1 : (length h <= length h1)%nat) by (apply untouched_length, D2).
  assert (Ls : sol = S (length h1)) by (unfold sol, h2; rewrite app_length; cbn; lia).
  assert (Lt : forall b, In b (items :: map snd t) -> (b < length h1)%nat).
  { intros b [<-|Hb]; [eapply nth_lt; exact D3|]. exact (items_lt _ _ _ D4 _ Hb). }
  assert (Wk : working (length h) h3 items objs sol d [] []).
  { exists t, []. split; [apply nth_old, nth_old, D3|]. split.
    { eapply table_mono; [exact D4|]. intros b y _ Hy. apply nth_old, nth_old, Hy. }
    split; [apply nth_old, nth_new|]. split; [apply nth_new|]. split; [constructor|]. unfold flat. cbn [flat_map]. rewrite app_nil_r. split.
    - inversion D5 as [|? ? N1 M1]; subst. constructor; [|constructor; [|constructor; [|exact M1]]]; cbn [In].
      + pose proof (Lt items (or_introl eq_refl)). unfold objs. intros [F|[F|F]]; [lia|lia|auto].
      + intros [F|F]; [unfold objs in F; lia|]. specialize (Lt objs (or_intror F)). unfold objs in Lt. lia.
      + intros F. specialize (Lt sol (or_intror F)). lia.
    - intros b [<-|[<-|[<-|Hb]]]; [apply D6; left; reflexivity|exact Lh1|lia|apply D6; right; exact Hb]. }
  assert (Lc : forall b, In b (map snd tc) -> (b < length h)%nat).
  { intros b Hb. destruct S1 as [tc' [C1' C2']]. pose proof (U3 _ _ C1') as E. rewrite C1 in E. injection E as <-.
    clear - C2' Hb. induction C2' as [|[k0 c0] [k1 y] t0 e [_ Hx] _ IH]; [contradiction|]. destruct Hb as [<-|Hb]; [eapply nth_lt; exact Hx|auto]. }
  pose proof (each_at (length h) items objs sol me (in_pb x) S5 S6 S3 S4 tc (pb_containers (in_pb x)) h3 d [] []) as EA.
  specialize (EA ltac:(unfold h3, h2; rewrite !app_length; lia) Wk C2 Lc).
  assert (U : forall h', kept (length h) h3 h' -> untouched h h').
  { intros h' [_ K] a ob Ha. rewrite K; [apply U3, Ha|eapply nth_lt; exact Ha]. }
  match type of EA with match ?r with _ => _ end => set (R := r) in EA end.
  match goal with |- context [rfold ?f ?l ?s] => change (rfold f l s) with R end.
  destruct R as [[[d' s'] o']|e]; cbn [bind].
  - destruct EA as [h' [EA1 [EA2 EA3]]]. rewrite (sbind_ok _ _ _ _ _ EA1). exists h', (sol, objs). split; [reflexivity|].
    split; [apply U, EA3|]. eapply working_owns. exact EA2.
  - destruct EA as [h' [EA1 EA2]]. rewrite (sbind_err _ _ _ _ _ EA1). exists h'. split; [reflexivity|apply U, EA2].
Qed.
End Memory.
