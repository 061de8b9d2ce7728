(** * C02, C08: when items can overlap, exactly how, and when they cannot. *)
From Coq Require Import ZArith String List Bool QArith Lia.
From Verif Require Import Py ProofsPy Arith Construct Spec ProofsSolution ProofsValues LocalSearch Values Settings
  Instance SpecInstance MultiHistory SpecMultiHistory ProofsMultiHistory PropertiesSolve PropertiesHistory PropertiesMultiHistory.
Import ListNotations.
Open Scope string_scope.
Open Scope list_scope.
Open Scope Z_scope.

(** [upper] stands with its bottom row in the top row of the wider [lower], strictly between its
    sides (or, if [lower] is a single row, crosses it there). *)
Definition dips_into (upper lower : entry) : Prop :=
  e_x lower < e_x upper /\ e_x upper + e_w upper < e_x lower + e_w lower /\
  (1 < e_l lower -> e_y upper = e_y lower + e_l lower - 1) /\
  (e_l lower = 1 -> e_y upper <= e_y lower < e_y upper + e_l upper).

Lemma benign_dips e1 e2 : 0 < e_w e1 -> 0 < e_w e2 -> 0 < e_l e2 -> benign e1 e2 -> overlap e1 e2 -> dips_into e1 e2.
Proof.
  intros W1 W2 L2 B [x [y [C1 C2]]]. unfold benign, on_open_top_row, covers in *.
  assert (T : y = e_y e2 + e_l e2 - 1) by (apply (B x y C1 C2)).
  split; [|split; [|split]].
  - destruct (Z_lt_le_dec (e_x e2) (e_x e1)) as [H|H]; [exact H|]. exfalso.
    assert (X : e_x e2 < e_x e2 < e_x e2 + e_w e2 - 1) by (apply (B (e_x e2) y); lia). lia.
  - destruct (Z_lt_le_dec (e_x e1 + e_w e1) (e_x e2 + e_w e2)) as [H|H]; [exact H|]. exfalso.
    assert (X : e_x e2 < e_x e2 + e_w e2 - 1 < e_x e2 + e_w e2 - 1) by (apply (B (e_x e2 + e_w e2 - 1) y); lia). lia.
  - intros H2. destruct (Z_lt_le_dec (e_y e1) y) as [H|H]; [|lia]. exfalso.
    assert (X : y - 1 = e_y e2 + e_l e2 - 1) by (apply (B x (y - 1)); lia). lia.
  - lia.
Qed.

(** Two items that share a cell: the one stored first dips into the one stored later, which is
    wider by at least 2. *)
Theorem C02_overlapping_pairs : forall ar pb sequence sol objs,
  valid_problem pb -> known_sequence pb sequence ->
  solve ar pb sequence = Ok (sol, objs) ->
  forall cid csol pre i1 e1 mid i2 e2 post,
    In (cid, csol) sol -> csol = pre ++ (i1, e1) :: mid ++ (i2, e2) :: post ->
    overlap e1 e2 -> dips_into e1 e2 /\ e_w e1 + 2 <= e_w e2.
Proof.
  intros ar pb sq sol objs Hv Hk H cid csol pre i1 e1 mid i2 e2 post Hin Heq Ho.
  assert (I1 : In (i1, e1) csol) by (subst csol; apply in_or_app; right; left; reflexivity).
  assert (I2 : In (i2, e2) csol) by (subst csol; apply in_or_app; right; right; apply in_or_app; right; left; reflexivity).
  destruct (C01_inside_container ar pb sq sol objs Hv Hk H cid csol i1 e1 Hin I1) as [c1 [_ P1]].
  destruct (C01_inside_container ar pb sq sol objs Hv Hk H cid csol i2 e2 Hin I2) as [c2 [_ P2]].
  unfold inside in P1, P2.
  assert (D : dips_into e1 e2).
  { apply benign_dips; try lia; [|exact Ho]. intros x y C1 C2. unfold on_open_top_row.
    exact (C03_overlap_only_on_top_row ar pb sq sol objs Hv Hk H cid csol pre i1 e1 mid i2 e2 post Hin Heq x y C1 C2). }
  split; [exact D|]. unfold dips_into in D. lia.
Qed.
Print Assumptions C02_overlapping_pairs.

(** Hence no overlap if the widths that different items can be given differ by at most 1. *)
Definition a_width (rotation : bool) (d : dims) (w : Z) : Prop := w = dw d \/ (rotation = true /\ w = dl d).
Definition similar_widths (rotation : bool) (items : odict dims) : Prop :=
  forall i1 d1 w1 i2 d2 w2, In (i1, d1) items -> In (i2, d2) items -> i1 <> i2 ->
    a_width rotation d1 w1 -> a_width rotation d2 w2 -> w2 <= w1 + 1.

Lemma ordpairs_split {A} (P : A -> A -> Prop) l :
  (forall pre a mid b post, l = pre ++ a :: mid ++ b :: post -> P a b) -> ForallOrdPairs P l.
Proof.
  induction l as [|a l IH]; intros H; constructor.
  - apply Forall_forall. intros b Hb. apply in_split in Hb. destruct Hb as [mid [post ->]]. apply (H [] a mid b post). reflexivity.
  - apply IH. intros pre x mid y post ->. apply (H (a :: pre) x mid y post). reflexivity.
Qed.

Lemma ordpairs_map {A B} (f : A -> B) (P : B -> B -> Prop) l :
  ForallOrdPairs (fun a b => P (f a) (f b)) l -> ForallOrdPairs P (map f l).
Proof.
  induction 1 as [|a l Ha Hl IH]; cbn [map]; constructor; [|exact IH]. apply Forall_map. exact Ha.
Qed.

Lemma NoDup_app_inv_r {A} (l1 l2 : list A) : NoDup (l1 ++ l2) -> NoDup l2.
Proof. induction l1 as [|x l1 IH]; [auto|]. cbn. intros H. inversion H; auto. Qed.
Lemma NoDup_app_inv_l {A} (l1 l2 : list A) : NoDup (l1 ++ l2) -> NoDup l1.
Proof.
  induction l1 as [|x l1 IH]; cbn; intros H; constructor; inversion H; subst; auto.
  intros Hin. apply H2. apply in_or_app. auto.
Qed.

Lemma stored_part_nodup (sol : solution) cid csol : NoDup (stored_ids sol) -> In (cid, csol) sol -> NoDup (dkeys csol).
Proof.
  unfold stored_ids. induction sol as [|[k c] sol IH]; intros H Hin; [contradiction|]. cbn [map concat snd] in H.
  destruct Hin as [[= <- <-]|Hin]; [apply NoDup_app_inv_l in H; exact H|]. apply IH; [|exact Hin]. eapply NoDup_app_inv_r. exact H.
Qed.

Lemma split_ids_differ {A} (csol : odict A) pre i1 e1 mid i2 e2 post :
  NoDup (dkeys csol) -> csol = pre ++ (i1, e1) :: mid ++ (i2, e2) :: post -> i1 <> i2.
Proof.
  intros H -> <-. unfold dkeys in H. rewrite map_app in H. apply NoDup_app_inv_r in H. cbn [map fst] in H. inversion H as [|a l N _]; subst.
  apply N. rewrite map_app. apply in_or_app. right. left. reflexivity.
Qed.

Lemma stores_width rotation d e : stores rotation d e -> a_width rotation d (e_w e).
Proof. intros [[-> _]|[-> [-> _]]]; [left|right]; auto. Qed.

Theorem C02_no_overlap_similar_partial : forall ar pb sequence sol objs,
  valid_problem pb -> known_sequence pb sequence ->
  solve ar pb sequence = Ok (sol, objs) ->
  similar_widths (pb_rotation pb) (pb_items pb) ->
  forall cid csol, In (cid, csol) sol -> no_overlaps (entries csol).
Proof.
  intros ar pb sq sol objs Hv Hk H Hs cid csol Hin. unfold no_overlaps, entries, dvals. apply (ordpairs_map snd (fun a b => ~ overlap a b)). apply ordpairs_split.
  intros pre [i1 e1] mid [i2 e2] post Heq Ho. cbn [snd] in Ho.
  destruct (C02_overlapping_pairs ar pb sq sol objs Hv Hk H cid csol pre i1 e1 mid i2 e2 post Hin Heq Ho) as [_ D].
  destruct (proj1 (C04_solve_is_solve_full ar pb sq sol objs) H) as [left_ F].
  destruct (C04_ids_stored_once ar pb sq left_ sol objs Hv Hk F) as [_ [_ [ND _]]].
  pose proof (split_ids_differ csol pre i1 e1 mid i2 e2 post (stored_part_nodup sol cid csol (NoDup_app_inv_l _ _ ND) Hin) Heq) as Hne.
  assert (I1 : In (i1, e1) csol) by (subst csol; apply in_or_app; right; left; reflexivity).
  assert (I2 : In (i2, e2) csol) by (subst csol; apply in_or_app; right; right; apply in_or_app; right; left; reflexivity).
  destruct (solve_stores ar pb sq Hv Hk sol objs H cid csol i1 e1 Hin I1) as [d1 [D1 S1]].
  destruct (solve_stores ar pb sq Hv Hk sol objs H cid csol i2 e2 Hin I2) as [d2 [D2 S2]].
  pose proof (Hs i1 d1 (e_w e1) i2 d2 (e_w e2) (dget_In _ _ _ D1) (dget_In _ _ _ D2) Hne (stores_width _ _ _ S1) (stores_width _ _ _ S2)). lia.
Qed.
Print Assumptions C02_no_overlap_similar_partial.

(** The bound is the best possible: the overlapping problem of C02 has widths 1 to 3. Equal items,
    or nearly square ones of one size, qualify. *)
Definition similar_demo : problem := {|
  pb_containers := [("bin", mkDims 20 20)];
  pb_items := [("a", mkDims 7 6); ("b", mkDims 6 7); ("c", mkDims 7 7); ("d", mkDims 6 6)];
  pb_rotation := true; pb_strategy := default_strategy; pb_strip := false; pb_height := 0 |}.
Example similar_demo_ok : valid_problem similar_demo /\ similar_widths true (pb_items similar_demo).
Proof.
  split; [valid_demo|]. assert (G : forall i d w, In (i, d) (pb_items similar_demo) -> a_width true d w -> 6 <= w <= 7).
  { intros i d w H. cbn in H. unfold a_width. repeat destruct H as [H|H]; try contradiction; injection H as <- <-; cbn [dw dl]; lia. }
  intros i1 d1 w1 i2 d2 w2 H1 H2 _ A1 A2. pose proof (G _ _ _ H1 A1). pose proof (G _ _ _ H2 A2). lia.
Qed.

(** C08 in that case. *)
Theorem C08_at_most_full_similar_partial : forall pb sequence sol objs cid csol obj,
  valid_problem pb -> known_sequence pb sequence -> pb_strip pb = false ->
  solve qarith pb sequence = Ok (sol, objs) ->
  similar_widths (pb_rotation pb) (pb_items pb) ->
  dget sol cid = Some csol -> dget objs cid = Some obj -> (obj <= 1)%Q.
Proof.
  intros pb sq sol objs cid csol obj Hv Hk Hb H Hs H1 H2. apply (C08_at_most_full_partial pb sq sol objs cid csol obj Hv Hk Hb H H1 H2).
  eapply C02_no_overlap_similar_partial; eauto. apply dget_In. exact H1.
Qed.
Print Assumptions C08_at_most_full_similar_partial.

(** The same for whatever solution an instance holds after any history of operations, searches
    included: of two overlapping items one dips into the other; and none overlap if the sides of
    different items differ by at most 1. *)
Lemma packing_pairs cs is_ strip sol : a_packing cs is_ strip sol ->
  forall cid csol i1 e1 i2 e2, In (cid, csol) sol -> In (i1, e1) csol -> In (i2, e2) csol -> i1 <> i2 ->
  overlap e1 e2 -> dips_into e1 e2 \/ dips_into e2 e1.
Proof.
  intros [_ [_ [P3 P4]]] cid csol i1 e1 i2 e2 Hin H1 H2 Hne Ho.
  assert (Pos : forall i e, In (i, e) csol -> 0 < e_w e /\ 0 < e_l e).
  { intros i e Hi. destruct (P3 cid csol i e Hin Hi) as [c [d [_ [_ [_ Q]]]]]. unfold inside in Q. destruct strip; lia. }
  destruct (Pos _ _ H1), (Pos _ _ H2). destruct (P4 cid csol i1 e1 i2 e2 Hin H1 H2 Hne) as [B|B]; [left|right]; apply benign_dips; auto.
  destruct Ho as [x [y [C1 C2]]]. exists x, y. auto.
Qed.

Lemma packing_no_overlap cs is_ strip sol : a_packing cs is_ strip sol -> similar_widths true is_ ->
  forall cid csol, In (cid, csol) sol -> no_overlaps (entries csol).
Proof.
  intros P Hs cid csol Hin. unfold no_overlaps, entries, dvals. apply (ordpairs_map snd (fun a b => ~ overlap a b)). apply ordpairs_split.
  intros pre [i1 e1] mid [i2 e2] post Heq Ho. cbn [snd] in Ho. pose proof P as [_ [P2 [P3 _]]].
  pose proof (split_ids_differ csol pre i1 e1 mid i2 e2 post (stored_part_nodup sol cid csol P2 Hin) Heq) as Hne.
  assert (I1 : In (i1, e1) csol) by (subst csol; apply in_or_app; right; left; reflexivity).
  assert (I2 : In (i2, e2) csol) by (subst csol; apply in_or_app; right; right; apply in_or_app; right; left; reflexivity).
  destruct (P3 cid csol i1 e1 Hin I1) as [c1 [d1 [_ [D1 [S1 _]]]]]. destruct (P3 cid csol i2 e2 Hin I2) as [c2 [d2 [_ [D2 [S2 _]]]]].
  apply stores_width in S1, S2. apply dget_In in D1, D2.
  pose proof (Hs i1 d1 _ i2 d2 _ D1 D2 Hne S1 S2). pose proof (Hs i2 d2 _ i1 d1 _ D2 D1 (not_eq_sym Hne) S2 S1).
  destruct (packing_pairs cs is_ strip sol P cid csol i1 e1 i2 e2 Hin I1 I2 Hne Ho) as [D|D]; unfold dips_into in D; lia.
Qed.

Theorem C02_histories_partial : forall ar, arith_laws ar ->
  forall env containers items settings width l (s : machine ar) is_,
  history env containers items settings width l s -> without_ior l -> items_of s = Some is_ ->
  (forall cid csol i1 e1 i2 e2, In (cid, csol) (m_sol s) -> In (i1, e1) csol -> In (i2, e2) csol -> i1 <> i2 ->
     overlap e1 e2 -> dips_into e1 e2 \/ dips_into e2 e1) /\
  (similar_widths true is_ -> forall cid csol, In (cid, csol) (m_sol s) -> no_overlaps (entries csol)).
Proof.
  intros ar laws env containers items settings width l s is_ H Hl Hi.
  destruct (C35_solution_fits_partial ar laws _ _ _ _ _ _ _ H Hl) as [E|[cs [is' [_ [E2 P]]]]].
  - rewrite E. split; [intros ? ? ? ? ? ? []|intros _ ? ? []].
  - rewrite Hi in E2. injection E2 as <-. split; [exact (packing_pairs _ _ _ _ P)|]. intros Hs. exact (packing_no_overlap _ _ _ _ P Hs).
Qed.
Print Assumptions C02_histories_partial.

(** With searches by several processes too. *)
Theorem C02_histories_processes_partial : forall ar, orderly ar ->
  forall env containers items settings width l (s : machine ar) is_,
  mhistory env containers items settings width l s -> mwithout_ior l -> items_of s = Some is_ ->
  (forall cid csol i1 e1 i2 e2, In (cid, csol) (m_sol s) -> In (i1, e1) csol -> In (i2, e2) csol -> i1 <> i2 ->
     overlap e1 e2 -> dips_into e1 e2 \/ dips_into e2 e1) /\
  (similar_widths true is_ -> forall cid csol, In (cid, csol) (m_sol s) -> no_overlaps (entries csol)).
Proof.
  intros ar laws env containers items settings width l s is_ H Hl Hi.
  destruct (C35_solution_fits_processes_partial ar laws _ _ _ _ _ _ _ H Hl) as [E|[cs [is' [_ [E2 P]]]]].
  - rewrite E. split; [intros ? ? ? ? ? ? []|intros _ ? ? []].
  - rewrite Hi in E2. injection E2 as <-. split; [exact (packing_pairs _ _ _ _ P)|]. intros Hs. exact (packing_no_overlap _ _ _ _ P Hs).
Qed.
Print Assumptions C02_histories_processes_partial.

(** The overlap of C02: i2 (1 x 4) crosses i3 (3 x 1). *)
Example C02_dips_witness :
  let e1 := mkEntry 2 0 1 4 in let e2 := mkEntry 1 2 3 1 in
  solve qarith overlap_problem None =
    Ok ([("bin", [("i0", mkEntry 0 0 2 2); ("i1", mkEntry 0 2 1 2)] ++ ("i2", e1) :: [] ++ ("i3", e2) :: [])], [("bin", 13 # 16)]) /\
  overlap e1 e2 /\ dips_into e1 e2.
Proof.
  cbv zeta. split; [vm_compute; reflexivity|]. split; [exists 2, 2; unfold covers; cbn; lia|]. unfold dips_into. cbn. lia.
Qed.

(** A history with items of similar sides. *)
Definition near_squares : pyval := VDict [(VStr "a", py_dims KItems 2 1); (VStr "b", py_dims KItems 2 2); (VStr "c", py_dims KItems 1 2)].
Definition near : machine qarith := fst (create qarith no_libraries two_containers near_squares VNone VNone (blank qarith)).
Example C02_histories_witness :
  snd (create qarith no_libraries two_containers near_squares VNone VNone (blank qarith)) = Ok tt /\
  m_sol (after near [OpSolve None; OpLocalSearch (fun _ => 0) true]) <> [] /\
  items_of (after near [OpSolve None; OpLocalSearch (fun _ => 0) true]) = Some [("a", mkDims 2 1); ("b", mkDims 2 2); ("c", mkDims 1 2)] /\
  similar_widths true [("a", mkDims 2 1); ("b", mkDims 2 2); ("c", mkDims 1 2)].
Proof.
  refine (conj _ (conj _ (conj _ _))); try (vm_compute; solve [reflexivity|discriminate]).
  assert (G : forall i d w, In (i, d) [("a", mkDims 2 1); ("b", mkDims 2 2); ("c", mkDims 1 2)] -> a_width true d w -> 1 <= w <= 2).
  { intros i d w H. cbn in H. unfold a_width. repeat destruct H as [H|H]; try contradiction; injection H as <- <-; cbn [dw dl]; lia. }
  intros i1 d1 w1 i2 d2 w2 H1 H2 _ A1 A2. pose proof (G _ _ _ H1 A1). pose proof (G _ _ _ H2 A2). lia.
Qed.
