(** * [solve()] refines the filling specification (C65). *)
From Coq Require Import ZArith String List Bool Lia QArith Permutation.
From Verif Require Import Py Arith Construct Spec Runs SpecPoints SpecFilling ProofsPy ProofsGrid ProofsConstruct
  ProofsSolve ProofsPacking ProofsSolution ProofsValues ProofsPoints.
Import ListNotations.
Open Scope Z_scope.

(** ** One container *)
Lemma split_item (items : odict dims) i d pre post :
  dkeys items = pre ++ i :: post -> dget items i = Some d -> ~ In i pre ->
  exists a b, items = a ++ (i, d) :: b /\ dkeys a = pre /\ ddel items i = a ++ b.
Proof.
  revert pre. induction items as [|[j e] t IH]; intros pre Hk Hd Hn; [destruct pre; discriminate|].
  simpl in Hd. destruct pre as [|k pre].
  - simpl in Hk. injection Hk as -> Hk. rewrite String.eqb_refl in Hd. injection Hd as ->.
    exists [], t. split; [reflexivity|]. split; [reflexivity|]. simpl. rewrite String.eqb_refl. reflexivity.
  - simpl in Hk. injection Hk as -> Hk.
    assert (Hne : String.eqb i k = false).
    { apply String.eqb_neq. intros ->. apply Hn. left. reflexivity. }
    rewrite Hne in Hd. destruct (IH pre Hk Hd) as [a [b [-> [Ha Hb]]]].
    { intros H. apply Hn. right. exact H. }
    exists ((k, e) :: a), b. split; [reflexivity|]. split; [simpl; f_equal; exact Ha|].
    simpl. rewrite Hne, Hb. reflexivity.
Qed.

Section One.
Context (W L : Z) (strip rotation : bool) (strategy : list pclass).
Context (items0 : odict dims).
Hypothesis HW : 0 < W.
Hypothesis HL : 0 < L.
Hypothesis Hitems0 : valid_items items0.

Notation ar := qarith.

Definition abstraction (s : cstate ar) : filling :=
  mkFilling (st_items s) (result_entries ar s) (st_pools s) (st_cur s).

Lemma stored_entries (s : cstate ar) : entries (f_stored (abstraction s)) = placed_entries ar s.
Proof. apply entries_result. Qed.

Lemma value_full (s : cstate ar) : inv ar W L strip rotation items0 s ->
  (ngeb ar (st_obj s) (num1 ar) = true <-> full W L strip (f_stored (abstraction s))).
Proof.
  intros Hs. unfold full. rewrite stored_entries, (i_obj _ _ _ _ _ _ _ Hs). destruct strip.
  - split; [discriminate|]. intros [? _]. discriminate.
  - cbn [ngeb qarith num1 num0]. unfold Qgeb. rewrite Qle_bool_iff.
    assert (HD : 0 < W * L) by nia.
    pose proof (fold_obj (W * L) (placed_entries ar s) HD 0%Q) as E. rewrite E.
    pose proof (inject_pos _ HD) as Hp.
    assert (Ed : (0 + inject_Z (total_area (placed_entries ar s)) / inject_Z (W * L) ==
                  inject_Z (total_area (placed_entries ar s)) / inject_Z (W * L))%Q) by ring.
    rewrite Ed. split.
    + intros H. split; [reflexivity|]. rewrite Zle_Qle.
      apply (Qmult_le_r _ _ (inject_Z (W * L)) Hp) in H.
      unfold Qdiv in H. rewrite <- Qmult_assoc, (Qmult_comm (/ _)), Qmult_inv_r, Qmult_1_r, Qmult_1_l in H
        by (intros H0; rewrite H0 in Hp; apply (Qlt_irrefl 0 Hp)).
      exact H.
    + intros [_ H]. rewrite Zle_Qle in H. apply Qle_shift_div_l; [exact Hp|].
      rewrite Qmult_1_l. exact H.
Qed.

Lemma running_goes_on (s : cstate ar) p : inv ar W L strip rotation items0 s ->
  (running ar s p <-> goes_on W L strip (abstraction s) p).
Proof.
  intros Hs. unfold running, goes_on. rewrite <- (value_full s Hs), (i_ids _ _ _ _ _ _ _ Hs).
  cbn [abstraction f_point f_left]. unfold dkeys.
  destruct (ngeb ar (st_obj s) (num1 ar)), (st_items s); simpl; intuition congruence.
Qed.

Lemma draws_of o (qs qs' : pools) : get_current_point strategy qs = (o, qs') -> draws strategy qs o qs'.
Proof.
  intros H. apply get_current_point_exact in H. destruct o.
  - destruct H as [b [c [a [H1 [H2 [H3 H4]]]]]]. eapply draws_some; eassumption.
  - destruct H. apply draws_none; assumption.
Qed.

Lemma draws_ext (qs1 qs2 qs' : pclass -> list point) o :
  (forall c, qs1 c = qs2 c) -> draws strategy qs1 o qs' -> draws strategy qs2 o qs'.
Proof.
  intros E [qs'' H1 H2 | b c a q qs'' H1 H2 H3 H4].
  - apply draws_none; intros c.
    + intros Hc. rewrite <- E. apply H1. exact Hc.
    + rewrite H2. apply E.
  - eapply draws_some; [exact H1| | |].
    + intros c' Hc. rewrite <- E. apply H2. exact Hc.
    + rewrite <- E. exact H3.
    + intros c' Hc. rewrite <- E. apply H4. exact Hc.
Qed.

Lemma step_refines s p s' :
  steps ar W L strip rotation strategy (init_state ar W L items0) s -> running ar s p ->
  loop_body ar W L strip rotation strategy s p = Ok s' ->
  fill_step W L rotation strategy p (abstraction s) (abstraction s').
Proof.
  intros Hst Hrun Hb.
  assert (Hs : inv ar W L strip rotation items0 s).
  { eapply steps_inv; [..|exact Hst|apply inv_init]; assumption. }
  pose proof Hrun as [Hcur _]. pose proof (i_cur _ _ _ _ _ _ _ Hs p Hcur) as Hp.
  destruct (loop_body_spec ar W L strip rotation strategy items0 Hitems0 s p Hs Hp)
    as [s1 [bf [ps [Hb1 [_ [Hout _]]]]]].
  assert (s1 = s') by congruence. subst s1. clear Hb1 bf ps.
  destruct (loop_body_grid ar W L strip rotation strategy items0 Hitems0 s p s' Hs Hp Hb)
    as [Hdraw _].
  apply draws_of in Hdraw.
  pose proof (points_exact ar W L strip rotation strategy items0 HW HL Hitems0 s p s'
                (or_introl eq_refl) Hst Hrun Hb) as Hpts.
  assert (Hpos : forall j dj, In (j, dj) (st_items s) -> pos_dims dj).
  { intros j dj Hj. apply In_dget in Hj; [|apply (inv_nodup _ _ _ _ _ _ Hitems0 s Hs)].
    eapply inv_items_pos; eassumption. }
  destruct Hout as [i d rot pre post Hids Hd Hpre Hfit Hsol Hitems | Hnone Hsol Hitems].
  - assert (Hplaced : placed_entries ar s' = placed_entries ar s ++
              [mkEntry (fst p) (snd p) (if rot then dl d else dw d) (if rot then dw d else dl d)]).
    { unfold placed_entries. rewrite Hsol, map_app. reflexivity. }
    destruct Hpts as [[Hno _]|[e [new [He Hnew]]]].
    { exfalso. rewrite Hplaced in Hno. apply (f_equal (@length _)) in Hno.
      rewrite app_length in Hno. simpl in Hno. lia. }
    rewrite Hplaced in He. apply app_inj_tail in He. destruct He as [_ <-].
    rewrite (i_ids _ _ _ _ _ _ _ Hs) in Hids.
    destruct (inv_nodup _ _ _ _ _ _ Hitems0 s Hs) as [Hnd _].
    destruct (split_item (st_items s) i d pre post Hids Hd) as [a [b [Hab [Ha Hdel]]]].
    { rewrite Hids in Hnd. apply NoDup_remove_2 in Hnd. intros H. apply Hnd. apply in_or_app. left. exact H. }
    pose proof (Hpos i d (dget_In _ _ _ Hd)) as [Hdw Hdl].
    assert (Es' : abstraction s' = mkFilling (a ++ b)
              (f_stored (abstraction s) ++ [(i, mkEntry (fst p) (snd p) (if rot then dl d else dw d) (if rot then dw d else dl d))])
              (st_pools s') (st_cur s')).
    { unfold abstraction. cbn [f_stored]. f_equal; [congruence|].
      unfold result_entries. rewrite Hsol, map_app. reflexivity. }
    rewrite Es'.
    apply fill_place with (earlier := a) (later := b) (d := d) (new := new).
    + exact Hab.
    + intros j dj Hj. rewrite stored_entries. apply (no_fit_pfit ar W L strip rotation items0); auto.
      * apply (Hpos j). rewrite Hab. apply in_or_app. left. exact Hj.
      * apply (Hpre j).
        -- rewrite <- Ha. apply in_map_iff. exists (j, dj). auto.
        -- apply In_dget; [exact Hnd|]. rewrite Hab. apply in_or_app. left. exact Hj.
    + rewrite stored_entries. destruct rot; [right|left; auto]. destruct Hfit as [H1 [H2 H3]].
      split; [assumption|]. split; [reflexivity|]. split; [reflexivity|].
      rewrite <- (fits_at_pfit ar W L strip rotation items0) by assumption. assumption.
    + rewrite stored_entries.
      rewrite <- (fits_at_pfit ar W L strip rotation items0) by (auto; destruct rot; assumption).
      destruct rot; [apply Hfit|exact Hfit].
    + rewrite stored_entries. intros c. destruct (Hnew c) as [_ H]. rewrite <- Hplaced. exact H.
    + apply draws_ext with (2 := Hdraw). intros c. apply (Hnew c).
  - destruct Hpts as [[_ Hsame]|[e [new [He _]]]].
    2:{ exfalso. unfold placed_entries in He. rewrite Hsol in He. apply (f_equal (@length _)) in He.
        rewrite app_length in He. simpl in He. lia. }
    assert (Es' : abstraction s' = mkFilling (f_left (abstraction s)) (f_stored (abstraction s)) (st_pools s') (st_cur s')).
    { unfold abstraction. cbn [f_left f_stored]. f_equal; [congruence|].
      unfold result_entries. rewrite Hsol. reflexivity. }
    rewrite Es'. apply fill_skip.
    + cbn [abstraction f_left]. intros j dj Hj. rewrite stored_entries.
      apply (no_fit_pfit ar W L strip rotation items0); auto; [apply (Hpos j dj Hj)|].
      apply (Hnone j).
      * rewrite (i_ids _ _ _ _ _ _ _ Hs). apply in_map_iff. exists (j, dj). auto.
      * apply In_dget; [apply (inv_nodup _ _ _ _ _ _ Hitems0 s Hs)|exact Hj].
    + apply draws_ext with (2 := Hdraw). exact Hsame.
Qed.

Lemma run_fills s :
  steps ar W L strip rotation strategy (init_state ar W L items0) s -> stopped ar s ->
  fills W L strip rotation strategy (start items0) (abstraction s).
Proof.
  intros Hst Hstop. change (start items0) with (abstraction (init_state ar W L items0)).
  cut (forall a, steps ar W L strip rotation strategy (init_state ar W L items0) a ->
         steps ar W L strip rotation strategy a s ->
         fills W L strip rotation strategy (abstraction a) (abstraction s)).
  { intros H. apply H; [constructor|exact Hst]. }
  clear Hst. intros a Hfrom Hst.
  induction Hst as [s|s p s1 s2 Hrun Hb Hst IH].
  - apply fills_end. intros p Hp. apply (Hstop p). apply running_goes_on; [|exact Hp].
    eapply steps_inv; [..|exact Hfrom|apply inv_init]; assumption.
  - assert (Hs : inv ar W L strip rotation items0 s).
    { eapply steps_inv; [..|exact Hfrom|apply inv_init]; assumption. }
    apply fills_step with p (abstraction s1).
    + apply running_goes_on; assumption.
    + apply step_refines; assumption.
    + apply IH; [exact Hstop|]. eapply steps_trans; [exact Hfrom|].
      econstructor; [exact Hrun|exact Hb|constructor].
Qed.

(** ** The specification determines the result *)
Lemma ordered_unique (l1 : list point) : forall l2,
  ForallOrdPairs left_or_below l1 -> ForallOrdPairs left_or_below l2 ->
  (forall q, In q l1 <-> In q l2) -> l1 = l2.
Proof.
  assert (Hasym : forall p q, left_or_below p q -> left_or_below q p -> False).
  { intros [px py] [qx qy] [H1 [H2 H3]] [H4 [H5 _]]. simpl in *. apply H3. f_equal; lia. }
  assert (Hnot : forall q l, Forall (left_or_below q) l -> ~ In q l).
  { intros q l H Hin. rewrite Forall_forall in H. destruct (H q Hin) as [_ [_ H']]. apply H'. reflexivity. }
  induction l1 as [|a l1 IH]; intros [|b l2] H1 H2 E.
  - reflexivity.
  - exfalso. apply (proj2 (E b)). left. reflexivity.
  - exfalso. apply (proj1 (E a)). left. reflexivity.
  - inversion H1 as [|? ? Fa H1']; subst. inversion H2 as [|? ? Fb H2']; subst.
    assert (a = b) as ->.
    { destruct (proj1 (E a) (or_introl eq_refl)) as [->|Ha]; [reflexivity|].
      destruct (proj2 (E b) (or_introl eq_refl)) as [->|Hb]; [reflexivity|].
      rewrite Forall_forall in Fa, Fb. exfalso. exact (Hasym _ _ (Fa _ Hb) (Fb _ Ha)). }
    f_equal. apply IH; auto. intros q. split; intros Hq.
    + destruct (proj1 (E q) (or_intror Hq)) as [<-|]; [|assumption]. exfalso. exact (Hnot _ _ Fa Hq).
    + destruct (proj2 (E q) (or_intror Hq)) as [<-|]; [|assumption]. exfalso. exact (Hnot _ _ Fb Hq).
Qed.

Definition same_filling (f g : filling) : Prop :=
  f_left f = f_left g /\ f_stored f = f_stored g /\ (forall c, f_queues f c = f_queues g c) /\
  f_point f = f_point g.

Lemma draws_det (q1 q2 q1' q2' : pclass -> list point) o1 o2 :
  (forall c, q1 c = q2 c) -> draws strategy q1 o1 q1' -> draws strategy q2 o2 q2' ->
  o1 = o2 /\ forall c, q1' c = q2' c.
Proof.
  intros E D1 D2. apply (draws_ext _ q2) in D1; [|exact E]. clear q1 E.
  destruct D1 as [q1' N1 S1 | b1 c1 a1 p1 q1' H1 N1 P1 S1];
  destruct D2 as [q2' N2 S2 | b2 c2 a2 p2 q2' H2 N2 P2 S2].
  - split; [reflexivity|]. intros c. rewrite S1, S2. reflexivity.
  - exfalso. rewrite N1 in P2; [discriminate|]. rewrite H2. apply in_or_app. right. left. reflexivity.
  - exfalso. rewrite N2 in P1; [discriminate|]. rewrite H1. apply in_or_app. right. left. reflexivity.
  - assert (c1 = c2) as ->.
    { rewrite H1 in H2. clear H1. revert b2 H2 N2. induction b1 as [|z b1 IH]; intros b2 H2 N2.
      - destruct b2 as [|z2 b2]; [injection H2 as -> _; reflexivity|].
        injection H2 as <- _. rewrite N2 in P1; [discriminate|left; reflexivity].
      - destruct b2 as [|z2 b2].
        + injection H2 as -> _. rewrite N1 in P2; [discriminate|left; reflexivity].
        + injection H2 as _ H2. apply (IH) with b2; [|exact H2|].
          * intros c Hc. apply N1. right. exact Hc.
          * intros c Hc. apply N2. right. exact Hc. }
    rewrite P1 in P2. injection P2 as -> P2. split; [reflexivity|]. intros c.
    destruct (pclass_eqb_spec c c2) as [->|Hne]; [exact P2|]. rewrite S1, S2 by exact Hne. reflexivity.
Qed.

Lemma first_unique (R : string * dims -> Prop) (l : odict dims) : forall a1 x1 b1 a2 x2 b2,
  a1 ++ x1 :: b1 = a2 ++ x2 :: b2 -> (forall y, In y a1 -> R y) -> ~ R x1 ->
  (forall y, In y a2 -> R y) -> ~ R x2 -> a1 = a2 /\ x1 = x2 /\ b1 = b2.
Proof.
  induction a1 as [|z a1 IH]; intros x1 b1 a2 x2 b2 E H1 N1 H2 N2.
  - destruct a2 as [|z2 a2]; [injection E as -> ->; auto|].
    injection E as -> _. exfalso. apply N1. apply H2. left. reflexivity.
  - destruct a2 as [|z2 a2]; [injection E as -> _; exfalso; apply N2; apply H1; left; reflexivity|].
    injection E as -> E. destruct (IH _ _ _ _ _ E) as [-> [-> ->]]; auto.
    + intros y Hy. apply H1. right. exact Hy.
    + intros y Hy. apply H2. right. exact Hy.
Qed.

Lemma fill_step_det p f1 f2 g1 g2 : same_filling f1 f2 ->
  fill_step W L rotation strategy p f1 g1 -> fill_step W L rotation strategy p f2 g2 -> same_filling g1 g2.
Proof.
  intros [El [Es [Eq _]]] S1 S2.
  assert (Hfits : forall es d w l, (w = dw d /\ l = dl d) \/
    (rotation = true /\ w = dl d /\ l = dw d /\ ~ pfit W L es p (dw d) (dl d)) ->
    pfit W L es p w l -> ~ fits_nowhere W L rotation es p d).
  { intros es d w l [[-> ->]|[Hr [-> [-> _]]]] H [N1 N2]; [exact (N1 H)|exact (N2 Hr H)]. }
  destruct S1 as [e1 i1 d1 l1 w1 h1 new1 o1 q1 L1 N1 O1 F1 P1 D1 | o1 q1 N1 D1];
  destruct S2 as [e2 i2 d2 l2 w2 h2 new2 o2 q2 L2 N2 O2 F2 P2 D2 | o2 q2 N2 D2].
  - rewrite <- El, L1 in L2. rewrite <- Es in *.
    destruct (first_unique (fun kd => fits_nowhere W L rotation (entries (f_stored f1)) p (snd kd)) []
                _ _ _ _ _ _ L2) as [-> [E ->]].
    + intros [j dj] Hj. exact (N1 j dj Hj).
    + exact (Hfits _ _ _ _ O1 F1).
    + intros [j dj] Hj. exact (N2 j dj Hj).
    + exact (Hfits _ _ _ _ O2 F2).
    + injection E as <- <-.
      assert (w1 = w2 /\ h1 = h2) as [<- <-].
      { destruct O1 as [[-> ->]|[_ [-> [-> X1]]]], O2 as [[-> ->]|[_ [-> [-> X2]]]]; auto; contradiction. }
      assert (Hq : forall c, new1 c = new2 c).
      { intros c. destruct (P1 c) as [A1 B1], (P2 c) as [A2 B2]. apply ordered_unique; auto.
        intros q. rewrite A1, A2. reflexivity. }
      assert (Hqq : forall c, f_queues f1 c ++ new1 c = f_queues f2 c ++ new2 c)
        by (intros c; rewrite Eq, Hq; reflexivity).
      destruct (draws_det _ _ _ _ _ _ Hqq D1 D2) as [-> Hqs].
      split; [reflexivity|]. split; [reflexivity|]. split; [exact Hqs|reflexivity].
  - exfalso. rewrite <- Es, <- El, L1 in N2. refine (Hfits _ _ _ _ O1 F1 (N2 i1 d1 _)).
    apply in_or_app. right. left. reflexivity.
  - exfalso. rewrite Es, El, L2 in N1. refine (Hfits _ _ _ _ O2 F2 (N1 i2 d2 _)).
    apply in_or_app. right. left. reflexivity.
  - destruct (draws_det _ _ _ _ _ _ Eq D1 D2) as [-> Hqs].
    split; [exact El|]. split; [exact Es|]. split; [exact Hqs|reflexivity].
Qed.

Lemma fills_det f1 g1 : fills W L strip rotation strategy f1 g1 -> forall f2 g2, same_filling f1 f2 ->
  fills W L strip rotation strategy f2 g2 -> same_filling g1 g2.
Proof.
  assert (Hgo : forall f1 f2 p, same_filling f1 f2 -> goes_on W L strip f1 p -> goes_on W L strip f2 p).
  { intros f1' f2' p [El [Es [_ Ep]]]. unfold goes_on. rewrite El, Es, Ep. auto. }
  assert (Hsym : forall f1 f2, same_filling f1 f2 -> same_filling f2 f1).
  { intros f1' f2' [El [Es [Eq Ep]]]. repeat split; auto. }
  induction 1 as [f1 N1 | f1 p1 g1 h1 G1 S1 _ IH]; intros f2 g2 E F2.
  - destruct F2 as [f2 N2 | f2 p2 g2 h2 G2 S2 F2]; [exact E|].
    exfalso. apply (N1 p2). exact (Hgo _ _ _ (Hsym _ _ E) G2).
  - destruct F2 as [f2 N2 | f2 p2 g2 h2 G2 S2 F2].
    + exfalso. apply (N2 p1). exact (Hgo _ _ _ E G1).
    + assert (p2 = p1) as ->.
      { destruct (Hgo _ _ _ E G1) as [A _]. destruct G2 as [B _]. congruence. }
      apply (IH g2); [|exact F2]. exact (fill_step_det p1 f1 f2 g1 g2 E S1 S2).
Qed.
End One.

(** ** All containers *)
Lemma solve_run_packs pb cs items rest sol objs :
  (forall cid c, In (cid, c) cs -> room_ok pb c) -> valid_items items ->
  solve_run qarith pb cs items rest sol objs -> packs pb cs items sol rest.
Proof.
  intros Hr Hi Hrun. induction Hrun as [items | cid c cs items mid rest csol obj sol objs Hb _ IH].
  - constructor.
  - destruct (Hr cid c (or_introl eq_refl)) as [Hw Hl].
    assert (IH' : packs pb cs mid sol rest).
    { apply IH; [intros; eapply Hr; right; eassumption|eapply built_valid; eassumption]. }
    clear IH. destruct Hb as [-> -> -> _ | s Hne Hst Hstop Hinv -> -> _].
    + change (@nil (string * entry)) with (f_stored (start [])).
      apply packs_cons; [|exact IH']. apply fills_end. intros p [_ [H _]]. apply H. reflexivity.
    + pose proof (run_fills (dw c) (container_length pb c) (pb_strip pb) (pb_rotation pb) (pb_strategy pb)
                    items Hw Hl Hi s Hst Hstop) as F.
      change (result_entries qarith s) with (f_stored (abstraction s)).
      apply packs_cons; [exact F|]. exact IH'.
Qed.

Lemma packs_det pb cs items sol rest : packs pb cs items sol rest ->
  forall sol' rest', packs pb cs items sol' rest' -> sol = sol' /\ rest = rest'.
Proof.
  induction 1 as [items | cid c cs items f sol rest F _ IH]; intros sol' rest' H.
  - inversion H; subst. auto.
  - inversion H as [| ? ? ? ? f' sol2 ? F' P']; subst.
    destruct (fills_det (dw c) (available_height pb c) (pb_strip pb) (pb_rotation pb) (pb_strategy pb)
                (start items) f F (start items) f') as [El [Es _]];
      [repeat split|exact F'|].
    rewrite <- El in P'. destruct (IH _ _ P') as [-> ->]. rewrite Es. auto.
Qed.

(** ** The sequence *)
Lemma nodup_rev_snoc (ids : list string) i :
  rev (nodup string_dec (rev (ids ++ [i]))) =
  if in_dec string_dec i ids then rev (nodup string_dec (rev ids)) else rev (nodup string_dec (rev ids)) ++ [i].
Proof.
  rewrite rev_unit. simpl. destruct (in_dec string_dec i (rev ids)) as [H|H], (in_dec string_dec i ids) as [H'|H'];
    try reflexivity; exfalso.
  - apply H'. apply in_rev. exact H.
  - apply H. apply in_rev in H'. exact H'.
Qed.

Lemma dset_keys_old {A} (d : odict A) i v : In i (dkeys d) -> dkeys (dset d i v) = dkeys d.
Proof.
  induction d as [|[j u] t IH]; simpl; [intros []|]. intros H. destruct (String.eqb_spec i j) as [->|Hne]; [reflexivity|].
  simpl. f_equal. apply IH. destruct H as [->|H]; [congruence|exact H].
Qed.

Lemma deepcopy_keys (items : odict dims) ids : forall acc done d,
  dkeys acc = rev (nodup string_dec (rev done)) ->
  rfold (fun d i => bind (dget_r items i) (fun it => Ok (dset d i it))) ids acc = Ok d ->
  dkeys d = rev (nodup string_dec (rev (done ++ ids))).
Proof.
  induction ids as [|i ids IH]; intros acc done d Ha H.
  - rewrite app_nil_r. simpl in H. injection H as <-. exact Ha.
  - cbn [rfold] in H. destruct (dget_r items i) as [it|]; cbn [bind] in H; [|discriminate].
    replace (done ++ i :: ids) with ((done ++ [i]) ++ ids) by (rewrite <- app_assoc; reflexivity).
    apply (IH (dset acc i it)); [|exact H]. rewrite nodup_rev_snoc.
    destruct (in_dec string_dec i done) as [Hin|Hin].
    + rewrite dset_keys_old; [exact Ha|]. rewrite Ha. rewrite <- in_rev. apply nodup_In. apply in_rev in Hin. exact Hin.
    + rewrite dset_new.
      * unfold dkeys in *. rewrite map_app, Ha. reflexivity.
      * apply dget_None. rewrite Ha, <- in_rev, nodup_In, <- in_rev. exact Hin.
Qed.

Lemma items_for_in_sequence pb sequence items :
  valid_problem pb -> known_sequence pb sequence ->
  items_for pb sequence = Ok items -> in_sequence pb sequence items.
Proof.
  intros Hv Hk H. pose proof (items_for_spec pb sequence (proj1 Hv) Hk) as [items' [H' [_ [_ Hd]]]].
  assert (items' = items) by congruence. subst items'.
  destruct sequence as [ids|]; simpl in *; [|congruence].
  split; [|exact Hd]. unfold deepcopy_seq in H. apply (deepcopy_keys (pb_items pb) ids [] []); [reflexivity|exact H].
Qed.

Lemma odict_ext (a : odict dims) : forall b (f : string -> option dims), dkeys a = dkeys b ->
  (forall i d, In (i, d) a -> f i = Some d) -> (forall i d, In (i, d) b -> f i = Some d) -> a = b.
Proof.
  induction a as [|[i d] a IH]; intros [|[j e] b] f E Ha Hb; try discriminate; [reflexivity|].
  simpl in E. injection E as -> E.
  pose proof (Ha j d (or_introl eq_refl)). pose proof (Hb j e (or_introl eq_refl)).
  assert (d = e) by congruence. subst e. f_equal. apply (IH b f E).
  - intros k v H1. apply Ha. right. exact H1.
  - intros k v H1. apply Hb. right. exact H1.
Qed.

Lemma in_sequence_det pb sequence a b : in_sequence pb sequence a -> in_sequence pb sequence b -> a = b.
Proof.
  destruct sequence; simpl; [|congruence]. intros [K1 D1] [K2 D2].
  apply (odict_ext a b (dget (pb_items pb))); [congruence|assumption|assumption].
Qed.
