(** * Doubles and exact arithmetic place the same items. *)
From Coq Require Import ZArith String List Bool QArith Qreals Reals Lra Lia Psatz Floats SpecFloat Permutation.
From Flocq Require Import Core BinarySingleNaN PrimFloat.
From Verif Require Import Py Arith Construct Spec Runs FloatArith FloatLaws SpecFloats ProofsFloat ProofsFloatValues
  ProofsPy ProofsGrid ProofsConstruct ProofsSolve ProofsPacking ProofsSolution ProofsValues.
Import ListNotations.
Open Scope Z_scope.

(** ** The comparison with 0.2 *)
Lemma div_overflow a b : 0 < a -> 0 < b -> ~ (Rabs (rnd (IZR a / IZR b)) < bpow radix2 1024)%R ->
  Prim2SF (int_div a b) = S754_infinity false.
Proof.
  intros Ha Hb Hov. destruct b as [|q|q]; try lia. destruct a as [|p|p]; try lia.
  unfold int_div. cbn [sf_of_Z].
  pose proof (Bdiv_correct_aux prec emax Hprec Hmax mode_NE false p 0 false q 0) as H. cbv zeta in H.
  unfold F2R in H. simpl (bpow _ _) in H. cbn [Fnum Fexp cond_Zopp] in H. rewrite !Rmult_1_r in H.
  destruct H as [Hvb H]. rewrite round_NE in H. rewrite Rlt_bool_false in H by (apply Rnot_lt_le; exact Hov).
  assert (E : SFdiv prec emax (S754_finite false p 0) (S754_finite false q 0) =
    (let '(mz, ez, lz) := SFdiv_core_binary prec emax (Zpos p) 0 (Zpos q) 0 in
     BinarySingleNaN.binary_round_aux prec emax mode_NE (xorb false false) mz ez lz)).
  { unfold SFdiv. destruct (SFdiv_core_binary prec emax (Zpos p) 0 (Zpos q) 0) as [[mz ez] lz].
    apply binary_round_aux_equiv. }
  rewrite E. rewrite Prim2SF_SF2Prim by exact Hvb. exact H.
Qed.

Lemma fifth_exact d w : 0 <= d -> 0 < w < 2 ^ 51 -> ratio_le_fifth farith d w = (5 * d <=? w).
Proof.
  intros Hd Hw. cbn [ratio_le_fifth farith].
  assert (E5 : 0.2%float = int_div 1 5) by (vm_compute; reflexivity). rewrite E5.
  destruct (div_FR_le 1 5 0) as [F5 R5]; [lia|lia|lia|lia|].
  assert (RW : (0 < IZR w)%R) by (apply IZR_lt; lia).
  destruct (Rlt_dec (Rabs (rnd (IZR d / IZR w))) (bpow radix2 1024)) as [Hs|Hs].
  - destruct (div_FR d w Hd ltac:(lia) Hs) as [Fd Rd]. rewrite leb_FR by assumption. rewrite Rd, R5.
    destruct (Z.leb_spec (5 * d) w) as [Hle|Hgt].
    + apply Rle_bool_true, rnd_le. apply Rmult_le_reg_r with (5 * IZR w)%R; [lra|].
      replace (IZR d / IZR w * (5 * IZR w))%R with (IZR (5 * d)) by (rewrite mult_IZR; field; lra).
      replace (1 / 5 * (5 * IZR w))%R with (IZR w) by field. apply IZR_le. exact Hle.
    + apply Rle_bool_false. apply rnd_lt.
      * eapply Rle_trans; [apply (bpow_le radix2 _ (-3)); lia|]. simpl. lra.
      * apply Rmult_lt_reg_r with (5 * IZR w)%R; [lra|].
        replace (bpow radix2 (-52) * (IZR d / IZR w) * (5 * IZR w))%R with (bpow radix2 (-52) * IZR (5 * d))%R
          by (rewrite mult_IZR; field; lra).
        replace ((IZR d / IZR w - 1 / 5) * (5 * IZR w))%R with (IZR (5 * d) - IZR w)%R by (rewrite mult_IZR; field; lra).
        assert (H1 : (IZR w + 1 <= IZR (5 * d))%R) by (rewrite <- plus_IZR; apply IZR_le; lia).
        assert (H2 : (IZR w + 1 <= bpow radix2 51)%R).
        { rewrite <- plus_IZR. replace (bpow radix2 51) with (IZR (2 ^ 51)) by (apply (IZR_Zpower radix2); lia). apply IZR_le. lia. }
        pose proof eps_pos as He.
        assert (H3 : (eps * bpow radix2 51 = / 2)%R) by (rewrite <- bpow_plus; reflexivity).
        assert (H4 : (eps <= / 2)%R) by (change (/ 2)%R with (bpow radix2 (-1)); apply bpow_le; lia).
        assert (H5 : (eps * (IZR w + 1) <= / 2)%R) by nra. nra.
  - destruct (Z.eq_dec d 0) as [->|Hnz].
    { exfalso. apply Hs. unfold Rdiv. rewrite Rmult_0_l, rnd_0, Rabs_R0. apply bpow_gt_0. }
    rewrite FloatAxioms.leb_spec, (div_overflow d w) by (lia || exact Hs).
    replace (5 * d <=? w) with false.
    + change (Prim2SF (int_div 1 5)) with (Prim2SF 0x1.999999999999ap-3). vm_compute. reflexivity.
    + symmetry. apply Z.leb_gt. destruct (Z_lt_le_dec w (5 * d)) as [|Hle]; [assumption|exfalso]. apply Hs.
      assert (Hq : (0 <= IZR d / IZR w <= 1)%R).
      { split; [apply Rmult_le_pos; [apply IZR_le; lia|apply Rlt_le, Rinv_0_lt_compat; exact RW]|].
        apply Rmult_le_reg_r with (IZR w); [exact RW|]. unfold Rdiv. rewrite Rmult_assoc, Rinv_l by lra.
        rewrite Rmult_1_r, Rmult_1_l. apply IZR_le. lia. }
      apply (small_ov _ 0); [lia|rewrite <- rnd_0; apply rnd_le; tauto|]. simpl. rewrite <- rnd_1. apply rnd_le. tauto.
Qed.

(** ** Two arithmetics, one placement *)
Section Same.
Context (a1 a2 : arith) (W L : Z) (strip rotation : bool) (strategy : list pclass).
Hypothesis HWr : forall d, 0 <= d -> ratio_le_fifth a1 d W = ratio_le_fifth a2 d W.
Hypothesis HLr : forall d, 0 <= d -> ratio_le_fifth a1 d L = ratio_le_fifth a2 d L.

(** Equal but for the value. *)
Definition same (s : cstate a1) (t : cstate a2) : Prop :=
  st_items s = st_items t /\ st_ids s = st_ids t /\ st_grid s = st_grid t /\ st_pools s = st_pools t /\
  st_cur s = st_cur t /\ st_sol s = st_sol t /\ st_pending s = st_pending t.

Lemma same_points g Xo Yo w l : generate_points a1 g W L Xo Yo w l = generate_points a2 g W L Xo Yo w l.
Proof.
  unfold generate_points.
  assert (EA : gen_A_side a1 g W L Xo (Yo + l) = gen_A_side a2 g W L Xo (Yo + l)).
  { unfold gen_A_side. destruct (gen_A_cond _ _ _ _) as [A|]; [cbn [bind]|reflexivity].
    destruct (gen_A_flags _ _ _ _) as [[f1 f2]|]; [cbn [bind]|reflexivity].
    destruct (gen_A_prime_cond _ _ _ _ _ _) as [sc|]; [cbn [bind]|reflexivity].
    destruct (if sc then _ else _) as [[x|]|]; cbn [bind]; [|reflexivity|reflexivity].
    rewrite HWr by apply Z.abs_nonneg. reflexivity. }
  assert (EB : gen_B_side a1 g W L Yo (Xo + w) = gen_B_side a2 g W L Yo (Xo + w)).
  { unfold gen_B_side. destruct (gen_B_cond _ _ _ _) as [A|]; [cbn [bind]|reflexivity].
    destruct (gen_B_flags _ _ _ _) as [[f1 f2]|]; [cbn [bind]|reflexivity].
    destruct (gen_B_prime_cond _ _ _ _ _ _) as [sc|]; [cbn [bind]|reflexivity].
    destruct (if sc then _ else _) as [[x|]|]; cbn [bind]; [|reflexivity|reflexivity].
    rewrite HLr by apply Z.abs_nonneg. reflexivity. }
  rewrite EA, EB. reflexivity.
Qed.

Lemma same_body s t p s' : same s t -> loop_body a1 W L strip rotation strategy s p = Ok s' ->
  exists t', loop_body a2 W L strip rotation strategy t p = Ok t' /\ same s' t'.
Proof.
  intros [E1 [E2 [E3 [E4 [E5 [E6 E7]]]]]] H. unfold loop_body in *. destruct p as [Xo Yo].
  rewrite E1, E2, E3 in H. destruct (first_fit W L Xo Yo rotation (st_grid t) (st_items t) (st_ids t)) as [[[[i it] rot]|]|] eqn:Ef;
    cbn [bind] in H; [| |discriminate].
  - unfold place_item in H. cbv zeta in H. rewrite E3 in H. cbn [bind].
    unfold place_item. cbv zeta.
    destruct (paint _ _ _ _ _) as [g'|] eqn:Ep; cbn [bind] in *; [|discriminate].
    rewrite same_points in H.
    destruct (generate_points a2 g' W L Xo Yo _ _) as [ps|] eqn:Eg; cbn [bind] in *; [|discriminate].
    cbn [st_pools] in H. rewrite E4 in H.
    destruct (get_current_point strategy (pools_extend (st_pools t) ps)) as [cur pp] eqn:Ec.
    injection H as <-. cbn [st_pools]. rewrite Ec. eexists. split; [reflexivity|].
    unfold same. cbn. rewrite E1, E2, E6. repeat split.
  - cbn [bind] in *. rewrite E4 in H. destruct (get_current_point strategy (st_pools t)) as [cur pp] eqn:Ec.
    injection H as <-. eexists. split; [reflexivity|]. unfold same. cbn. repeat split; assumption.
Qed.
End Same.

Lemma steps_det (ar : arith) W L strip rotation strategy (a b c : cstate ar) :
  steps ar W L strip rotation strategy a b -> stopped ar b ->
  steps ar W L strip rotation strategy a c -> stopped ar c -> b = c.
Proof.
  intros Hb Sb. revert c. induction Hb as [a|a p a1 b Hr Hbody _ IH]; intros c Hc Sc.
  - destruct Hc as [|a p a1 c Hr]; [reflexivity|]. exfalso. apply (Sb p Hr).
  - destruct Hc as [|a q a1' c Hr' Hbody' Hc]; [exfalso; apply (Sc p Hr)|].
    assert (q = p) by (destruct Hr as [Hp _], Hr' as [Hq _]; congruence). subst q.
    assert (a1' = a1) by congruence. subst. apply IH; assumption.
Qed.

(** What a value of at least 1 says about the area. *)
Lemma close_one D es o : 0 < D -> zlen es * D < 2 ^ 52 -> close D es o ->
  PrimFloat.leb 1 o = true -> D <= total_area es.
Proof.
  intros HD Hn [F [_ E]] H. destruct FR_1 as [F1 R1]. rewrite leb_FR, R1 in H by assumption.
  assert (Hge : (1 <= FR o)%R) by (destruct (Rle_bool_spec 1 (FR o)); [assumption|discriminate]).
  destruct (Z_le_gt_dec D (total_area es)) as [|G]; [assumption|exfalso].
  rewrite INR_IZR_INZ in E. change (Z.of_nat (length es)) with (zlen es) in E. apply Rabs_le_inv in E.
  assert (RD : (0 < IZR D)%R) by (apply IZR_lt; exact HD).
  assert (E1 : (IZR D <= IZR (total_area es) + IZR (zlen es * D) * eps)%R).
  { rewrite mult_IZR. replace (IZR (total_area es))%R with (IZR (total_area es) / IZR D * IZR D)%R by (field; lra).
    destruct E as [_ E]. nra. }
  assert (E2 : (IZR (zlen es * D) * eps < 1)%R).
  { replace 1%R with (bpow radix2 52 * eps)%R by (rewrite <- bpow_plus; reflexivity).
    apply Rmult_lt_compat_r; [apply eps_pos|].
    replace (bpow radix2 52) with (IZR (2 ^ 52)) by (apply (IZR_Zpower radix2); lia). apply IZR_lt. exact Hn. }
  assert (E3 : (IZR (total_area es) + 1 <= IZR D)%R) by (rewrite <- plus_IZR; apply IZR_le; lia). lra.
Qed.

Section Lockstep.
Context (W L : Z) (strip rotation : bool) (strategy : list pclass) (items0 : odict dims).
Hypothesis HW : 0 < W < 2 ^ 51.
Hypothesis HL : 0 < L < 2 ^ 51.
Hypothesis Hitems0 : valid_items items0.
Hypothesis Hbin : strip = false -> zlen items0 * (W * L) < 2 ^ 52.

Notation inv_f := (inv farith W L strip rotation items0).
Notation inv_q := (inv qarith W L strip rotation items0).
Notation steps_f := (steps farith W L strip rotation strategy).
Notation steps_q := (steps qarith W L strip rotation strategy).

Lemma exact_q s : strip = false -> inv_q s ->
  ngeb qarith (st_obj s) (num1 qarith) = true <-> W * L <= total_area (placed_entries qarith s).
Proof.
  clear Hbin Hitems0.
  intros Hs Hi. assert (HD : 0 < W * L) by nia. rewrite (i_obj _ _ _ _ _ _ _ Hi), Hs.
  assert (E : (fold_left (fun o e => nadd qarith o (ndiv qarith (entry_area e) (W * L))) (placed_entries qarith s) (num0 qarith)
               == inject_Z (total_area (placed_entries qarith s)) / inject_Z (W * L))%Q).
  { rewrite fold_obj by exact HD. simpl. unfold Qdiv. ring. }
  cbn [ngeb qarith num1]. unfold Qgeb. rewrite Qle_bool_iff. rewrite E. split; intros H.
  - apply (Qmult_le_compat_r _ _ (inject_Z (W * L))) in H; [|apply Qlt_le_weak, inject_pos; exact HD].
    rewrite Qmult_1_l in H.
    assert (E2 : (inject_Z (total_area (placed_entries qarith s)) / inject_Z (W * L) * inject_Z (W * L)
                  == inject_Z (total_area (placed_entries qarith s)))%Q).
    { field. intros C. unfold Qeq in C. simpl in C. lia. }
    rewrite E2 in H. first [rewrite <- Zle_Qle in H; exact H|rewrite <- Zle_Qle; exact H].
  - apply Qle_shift_div_l; [apply inject_pos; exact HD|]. rewrite Qmult_1_l. first [rewrite <- Zle_Qle in H; exact H|rewrite <- Zle_Qle; exact H].
Qed.

Lemma placed_len (ar : arith) s : inv ar W L strip rotation items0 s -> zlen (placed_entries ar s) <= zlen items0.
Proof.
  clear Hbin.
  intros Hi. pose proof (Permutation_length (i_perm _ _ _ _ _ _ _ Hi)) as P. rewrite app_length, map_length in P.
  unfold zlen, placed_entries. rewrite map_length. lia.
Qed.

(** The stored items only grow; if they do not, nothing is taken from the items. *)
Lemma steps_grow u v : steps_f u v -> inv_f u ->
  exists more, placed_entries farith v = placed_entries farith u ++ more /\
    (more = [] -> st_sol v = st_sol u /\ st_items v = st_items u) /\ Forall (fun e => 0 < entry_area e) more.
Proof.
  clear Hbin.
  intros H Hu.
  refine (proj1 (steps_preserve farith W L strip rotation strategy items0 Hitems0
    (fun v => (exists more, placed_entries farith v = placed_entries farith u ++ more /\
       (more = [] -> st_sol v = st_sol u /\ st_items v = st_items u) /\ Forall (fun e => 0 < entry_area e) more) /\ True) u v _ H Hu _)).
  - intros s p s' Hs Hs' [[more [E1 [E2 E3]]] _] Hp _ Hout. split; [|exact I].
    destruct Hout as [i d rot ? ? _ _ _ _ Hsol _ | _ Hsol Hit].
    + exists (more ++ [export (mkPlaced d (fst p) (snd p) rot)]).
      assert (Hpe : placed_entries farith s' = placed_entries farith s ++ [export (mkPlaced d (fst p) (snd p) rot)]).
      { unfold placed_entries. rewrite Hsol, map_app. reflexivity. }
      split; [rewrite Hpe, E1, app_assoc; reflexivity|]. split.
      * intros C. apply app_eq_nil in C. destruct C as [_ C]. discriminate C.
      * apply Forall_app. split; [exact E3|]. constructor; [|constructor].
        assert (Hin : inside W L (export (mkPlaced d (fst p) (snd p) rot))).
        { apply (i_in _ _ _ _ _ _ _ Hs'). rewrite Hpe. apply in_or_app. right. left. reflexivity. }
        unfold inside in Hin. unfold entry_area. nia.
    + exists more. assert (Hpe : placed_entries farith s' = placed_entries farith s) by (unfold placed_entries; rewrite Hsol; reflexivity).
      rewrite Hpe, Hsol, Hit. auto.
  - split; [|exact I]. exists []. rewrite app_nil_r. auto.
Qed.

Lemma lockstep s1 r1 : steps_f s1 r1 -> stopped farith r1 -> forall s2, same farith qarith s1 s2 ->
  inv_f s1 -> inv_q s2 -> (strip = false -> close (W * L) (placed_entries farith s1) (st_obj s1)) ->
  (strip = true \/ no_overlaps (placed_entries farith r1)) ->
  exists r2, steps_q s2 r2 /\ stopped qarith r2 /\ st_items r2 = st_items r1 /\ st_sol r2 = st_sol r1.
Proof.
  assert (HD : 0 < W * L) by nia.
  assert (Hpl : forall (u : cstate farith) (w : cstate qarith), same farith qarith u w -> placed_entries qarith w = placed_entries farith u).
  { intros u w [_ [_ [_ [_ [_ [E _]]]]]]. unfold placed_entries. rewrite E. reflexivity. }
  assert (Hsub : forall u w p, same farith qarith u w -> inv_f u -> inv_q w ->
     (strip = false -> close (W * L) (placed_entries farith u) (st_obj u)) -> running qarith w p -> running farith u p).
  { intros u w p Hs Hu Hw Hc [R1 [R2 R3]]. destruct (Hs) as [_ [E2 [_ [_ [E5 _]]]]]. split; [congruence|]. split; [congruence|].
    destruct strip eqn:Es.
    - rewrite (i_obj _ _ _ _ _ _ _ Hu). reflexivity.
    - destruct (ngeb farith (st_obj u) (num1 farith)) eqn:E; [exfalso|reflexivity].
      change (PrimFloat.leb 1 (st_obj u) = true) in E. apply (close_one (W * L) (placed_entries farith u)) in E; [|exact HD| |auto].
      + rewrite <- Es in Hw. rewrite <- (Hpl u w Hs) in E. apply (exact_q w Es Hw) in E. congruence.
      + rewrite <- Es in Hu. pose proof (placed_len farith u Hu). specialize (Hbin eq_refl). nia. }
  induction 1 as [s1|s1 p s1' r1 Hr Hbody Hst IH]; intros Sr s2 Hs I1 I2 Hc Hno.
  - exists s2. split; [constructor|]. split; [|destruct Hs as [E1 [_ [_ [_ [_ [E6 _]]]]]]; split; congruence].
    intros p Hp. apply (Sr p). eapply Hsub; eassumption.
  - destruct (ngeb qarith (st_obj s2) (num1 qarith)) eqn:Eq.
    + assert (Es : strip = false).
      { destruct strip eqn:Es; [|reflexivity]. rewrite (i_obj _ _ _ _ _ _ _ I2) in Eq. discriminate Eq. }
      exists s2. split; [constructor|]. split; [intros q [_ [_ C]]; congruence|].
      apply (exact_q s2 Es I2) in Eq. rewrite (Hpl _ _ Hs) in Eq.
      assert (Hall : steps_f s1 r1) by (econstructor; eassumption).
      destruct (steps_grow _ _ Hall I1) as [more [G1 [G2 G3]]].
      pose proof (steps_inv _ _ _ _ _ _ _ Hitems0 _ _ Hall I1) as Ir.
      destruct Hno as [C|Hno]; [congruence|].
      pose proof (disjoint_area W L _ (proj1 HW) (proj1 HL) (i_in _ _ _ _ _ _ _ Ir) Hno) as Ha.
      rewrite G1, total_area_app in Ha.
      assert (more = []).
      { destruct more as [|e more]; [reflexivity|exfalso]. apply Forall_inv in G3 as G4. apply Forall_inv_tail in G3.
        assert (0 <= total_area more).
        { clear - G3. induction G3 as [|x l Hx _ IH]; [reflexivity|]. change (total_area (x :: l)) with (entry_area x + total_area l). lia. }
        change (total_area (e :: more)) with (entry_area e + total_area more) in Ha. lia. }
      destruct (G2 H) as [G4 G5]. destruct Hs as [E1 [_ [_ [_ [_ [E6 _]]]]]]. split; congruence.
    + destruct (same_body farith qarith W L strip rotation strategy) with (s := s1) (t := s2) (p := p) (s' := s1')
        as [s2' [Hb2 Hs']]; try assumption.
      { intros d Hd. rewrite fifth_exact by lia. reflexivity. }
      { intros d Hd. rewrite fifth_exact by lia. reflexivity. }
      assert (R2 : running qarith s2 p).
      { destruct Hr as [A1 [A2 _]]. destruct Hs as [_ [E2 [_ [_ [E5 _]]]]]. split; [congruence|]. split; congruence. }
      destruct (IH Sr s2' Hs') as [r2 [J1 [J2 [J3 J4]]]].
      * destruct (loop_body_spec farith W L strip rotation strategy items0 Hitems0 s1 p I1 (i_cur _ _ _ _ _ _ _ I1 p (proj1 Hr)))
          as [z [? [? [Z1 [Z2 _]]]]]. congruence.
      * destruct (loop_body_spec qarith W L strip rotation strategy items0 Hitems0 s2 p I2 (i_cur _ _ _ _ _ _ _ I2 p (proj1 R2)))
          as [z [? [? [Z1 [Z2 _]]]]]. congruence.
      * intros Es. specialize (Hc Es). rewrite Es in *. eapply close_body; try eassumption; apply HW || apply HL.
      * exact Hno.
      * exists r2. split; [econstructor; eassumption|]. auto.
Qed.
End Lockstep.

(** ** All the containers *)
Section SolveSame.
Context (pb : problem).

Definition moderate (n : Z) (c : dims) : Prop :=
  0 < dw c < 2 ^ 51 /\ 0 < container_length pb c < 2 ^ 51 /\
  (pb_strip pb = false -> n * (dw c * dl c) < 2 ^ 52).

Lemma built_same c items rest csol obj : valid_items items -> moderate (zlen items) c ->
  built farith pb c items rest csol obj -> (pb_strip pb = true \/ no_overlaps (entries csol)) ->
  exists obj', built qarith pb c items rest csol obj'.
Proof.
  intros Hv [M1 [M2 M3]] [-> -> -> _ | s Hne Hst Hstop Hi -> -> _] Hno.
  - eexists. apply built_skip; reflexivity.
  - rewrite entries_result in Hno.
    destruct (lockstep (dw c) (container_length pb c) (pb_strip pb) (pb_rotation pb) (pb_strategy pb) items M1 M2 Hv)
      with (s1 := init_state farith (dw c) (container_length pb c) items) (r1 := s)
           (s2 := init_state qarith (dw c) (container_length pb c) items) as [r2 [S1 [S2 [S3 S4]]]]; try assumption.
    + intros Es. specialize (M3 Es). unfold container_length. rewrite Es. exact M3.
    + repeat split.
    + apply inv_init; lia || assumption.
    + apply inv_init; lia || assumption.
    + intros _. destruct FR_0 as [F0 R0]. unfold close. cbn [init_state st_obj st_sol placed_entries num0 farith].
      unfold placed_entries. cbn [init_state st_obj st_sol map].
      rewrite R0. simpl length. simpl INR. change (total_area []) with 0%Z. unfold Rdiv. rewrite !Rmult_0_l, Rminus_0_r, Rabs_R0.
      split; [exact F0|]. lra.
    + eexists. eapply built_run; [exact Hne|exact S1|exact S2| | | |reflexivity].
      * eapply steps_inv; [exact Hv|exact S1|apply inv_init; lia || assumption].
      * symmetry. exact S3.
      * unfold result_entries. rewrite S4. reflexivity.
Qed.

Lemma run_same cs items rest sol objs n : solve_run farith pb cs items rest sol objs -> valid_items items ->
  zlen items <= n -> (forall cid c, In (cid, c) cs -> moderate n c) ->
  (pb_strip pb = true \/ forall cid csol, In (cid, csol) sol -> no_overlaps (entries csol)) ->
  exists objs', solve_run qarith pb cs items rest sol objs'.
Proof.
  induction 1 as [items|cid c cs items mid rest csol obj sol objs Hb Hr IH]; intros Hv Hn Hm Hno.
  - eexists. constructor.
  - destruct (built_same c items mid csol obj Hv) as [obj' Hb']; [| exact Hb | |].
    + destruct (Hm cid c (or_introl eq_refl)) as [A [B C]]. split; [exact A|]. split; [exact B|].
      intros Es. specialize (C Es). assert (0 <= dw c * dl c).
      { unfold container_length in B. rewrite Es in B. nia. } nia.
    + destruct Hno as [|Hno]; [auto|right]. apply (Hno cid). left. reflexivity.
    + destruct (IH (built_valid _ _ _ _ _ _ _ Hv Hb)) as [objs' Hr'].
      * destruct (built_perm _ _ _ _ _ _ _ Hb) as [ds [P _]]. apply Permutation_length in P. rewrite app_length in P.
        unfold zlen in *. lia.
      * intros; eapply Hm; right; eassumption.
      * destruct Hno as [|Hno]; [auto|right]. intros; eapply Hno; right; eassumption.
      * eexists. econstructor; eassumption.
Qed.

Lemma built_det (ar : arith) c items r1 c1 o1 r2 c2 o2 : built ar pb c items r1 c1 o1 -> built ar pb c items r2 c2 o2 ->
  r1 = r2 /\ c1 = c2 /\ o1 = o2.
Proof.
  intros [E1 -> -> -> | s Hne Hst Hstop Hi -> -> ->] [E2 -> -> -> | s' Hne' Hst' Hstop' Hi' -> -> ->]; try congruence; auto.
  assert (s = s') by (eapply steps_det; eassumption). subst. auto.
Qed.

Lemma run_det (ar : arith) cs items r1 s1 o1 : solve_run ar pb cs items r1 s1 o1 ->
  forall r2 s2 o2, solve_run ar pb cs items r2 s2 o2 -> r1 = r2 /\ s1 = s2 /\ o1 = o2.
Proof.
  induction 1 as [items|cid c cs items mid rest csol obj sol objs Hb Hr IH]; intros r2 s2 o2 H.
  - inversion H. auto.
  - inversion H as [|? ? ? ? mid' ? csol' obj' sol' objs' Hb' Hr']; subst.
    destruct (built_det ar _ _ _ _ _ _ _ _ Hb Hb') as [<- [<- <-]].
    destruct (IH _ _ _ Hr') as [<- [<- <-]]. auto.
Qed.
End SolveSame.
