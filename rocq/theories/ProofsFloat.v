(** * Doubles: what the float operations of the objective value compute. *)
From Coq Require Import ZArith QArith Qabs Qpower Qreals Reals Lra Lia Bool Floats SpecFloat Psatz.
From Flocq Require Import Core BinarySingleNaN PrimFloat Relative.
From Verif Require Import Arith FloatArith FloatLaws SpecFloats.
Open Scope R_scope.

Notation fexp64 := (FLT_exp (-1074) 53).
Definition rnd (x : R) : R := round radix2 fexp64 ZnearestE x.
Definition FR (x : PrimFloat.float) : R := B2R (Prim2B x).
Definition FF (x : PrimFloat.float) : bool := is_finite (Prim2B x).

Lemma finite_FF x : finite x <-> FF x = true.
Proof.
  unfold finite, FF. rewrite <- B2SF_Prim2B. destruct (Prim2B x); simpl; intuition discriminate.
Qed.

Lemma Q2R_inject z : Q2R (inject_Z z) = IZR z.
Proof. unfold Q2R, inject_Z. simpl. rewrite RMicromega.Rinv_1. reflexivity. Qed.

Lemma Q2R_0 : Q2R 0 = 0.
Proof. exact (Q2R_inject 0). Qed.

Lemma Q2R_pow2 e : Q2R (Qpower 2 e) = bpow radix2 e.
Proof.
  assert (P : forall p, Q2R (Qpower_positive 2 p) = IZR (Z.pow_pos 2 p)).
  { intros p. change 2%Q with (inject_Z 2).
    assert (E : (Qpower_positive (inject_Z 2) p == inject_Z (Z.pow_pos 2 p))%Q).
    { symmetry. change (inject_Z (2 ^ Zpos p) == Qpower (inject_Z 2) (Zpos p))%Q. apply Zpower_Qpower. lia. }
    rewrite (Qeq_eqR _ _ E). apply Q2R_inject. }
  destruct e as [|p|p]; simpl.
  - exact (Q2R_inject 1).
  - apply P.
  - rewrite Q2R_inv; [rewrite P; reflexivity|].
    intros C. apply Qeq_eqR in C. rewrite P, Q2R_0 in C.
    apply (eq_IZR _ 0) in C. pose proof (Z.pow_pos_nonneg 2 (Zpos p)). simpl in H. lia.
Qed.

Lemma FR_fvalue x : Q2R (fvalue x) = FR x.
Proof.
  unfold fvalue, FR. rewrite <- B2SF_Prim2B.
  destruct (Prim2B x) as [s|s| |s m e H]; simpl; try apply Q2R_0.
  rewrite Q2R_mult, Q2R_inject, Q2R_pow2. unfold F2R. simpl. destruct s; reflexivity.
Qed.

(** ** Rounding *)
#[local] Instance fexp64_valid : Valid_exp fexp64.
Proof. apply FLT_exp_valid. reflexivity. Qed.

Lemma rnd_le x y : x <= y -> rnd x <= rnd y.
Proof. apply round_le; auto with typeclass_instances. Qed.

Lemma rnd_id x : generic_format radix2 fexp64 x -> rnd x = x.
Proof. apply round_generic. auto with typeclass_instances. Qed.

Lemma format_pow e : (-1074 <= e)%Z -> generic_format radix2 fexp64 (bpow radix2 e).
Proof. intros H. apply generic_format_bpow. unfold FLT_exp. lia. Qed.

Lemma format_0 : generic_format radix2 fexp64 0.
Proof. apply generic_format_0. Qed.

Lemma format_FR x : generic_format radix2 fexp64 (FR x).
Proof. unfold FR. apply generic_format_B2R. Qed.

(** Rounding error below a power of two. *)
Lemma rnd_err x e : (-1021 <= e)%Z -> Rabs x <= bpow radix2 e -> Rabs (rnd x - x) <= bpow radix2 (e - 54).
Proof.
  intros He Hx.
  destruct (Req_dec (Rabs x) (bpow radix2 e)) as [E|E].
  - assert (F : generic_format radix2 fexp64 x).
    { apply generic_format_abs_inv. rewrite E. apply format_pow. lia. }
    rewrite (rnd_id _ F), Rminus_diag_eq, Rabs_R0 by reflexivity. apply bpow_ge_0.
  - destruct (Req_dec x 0) as [->|Hn].
    + unfold rnd. rewrite round_0 by auto with typeclass_instances. rewrite Rminus_diag_eq, Rabs_R0 by reflexivity. apply bpow_ge_0.
    + eapply Rle_trans; [apply error_le_half_ulp; auto with typeclass_instances|].
      rewrite ulp_neq_0 by exact Hn.
      assert (Hc : (cexp radix2 fexp64 x <= e - 53)%Z).
      { unfold cexp. assert (mag radix2 x <= e)%Z by (apply mag_le_bpow; [exact Hn|lra]). unfold FLT_exp. lia. }
      replace (bpow radix2 (e - 54)) with (/ 2 * bpow radix2 (e - 53)).
      2:{ replace (e - 54)%Z with (-1 + (e - 53))%Z by ring. rewrite bpow_plus. simpl. reflexivity. }
      apply Rmult_le_compat_l; [lra|]. apply bpow_le. exact Hc.
Qed.

(** ** The operations *)
Lemma round_NE x : round radix2 (SpecFloat.fexp prec emax) (round_mode mode_NE) x = rnd x.
Proof. reflexivity. Qed.

Lemma add_FR x y : FF x = true -> FF y = true -> Rabs (rnd (FR x + FR y)) < bpow radix2 1024 ->
  FF (x + y) = true /\ FR (x + y) = rnd (FR x + FR y).
Proof.
  unfold FF, FR. intros Hx Hy Hb. rewrite add_equiv.
  pose proof (Bplus_correct _ _ Hprec Hmax mode_NE (Prim2B x) (Prim2B y) Hx Hy) as H.
  rewrite round_NE in H. rewrite Rlt_bool_true in H by exact Hb. destruct H as [H1 [H2 _]]. auto.
Qed.

Lemma mul_FR x y : FF x = true -> FF y = true -> Rabs (rnd (FR x * FR y)) < bpow radix2 1024 ->
  FF (x * y) = true /\ FR (x * y) = rnd (FR x * FR y).
Proof.
  unfold FF, FR. intros Hx Hy Hb. rewrite mul_equiv.
  pose proof (Bmult_correct _ _ Hprec Hmax mode_NE (Prim2B x) (Prim2B y)) as H.
  rewrite round_NE in H. rewrite Rlt_bool_true in H by exact Hb. destruct H as [H1 [H2 _]].
  rewrite Hx, Hy in H2. auto.
Qed.

Lemma FR_0 : FF 0 = true /\ FR 0 = 0.
Proof.
  change 0%float with PrimFloat.zero. unfold FF, FR. rewrite zero_equiv, Prim2B_B2Prim. split; reflexivity.
Qed.

Lemma div_FR a b : (0 <= a)%Z -> (0 < b)%Z -> Rabs (rnd (IZR a / IZR b)) < bpow radix2 1024 ->
  FF (int_div a b) = true /\ FR (int_div a b) = rnd (IZR a / IZR b).
Proof.
  intros Ha Hb Hov. destruct b as [|q|q]; try lia. destruct a as [|p|p]; try lia.
  - change (int_div 0 (Zpos q)) with 0%float. destruct FR_0 as [-> ->]. split; [reflexivity|].
    unfold Rdiv. rewrite Rmult_0_l. symmetry. apply round_0. auto with typeclass_instances.
  - unfold int_div, FF, FR. cbn [sf_of_Z].
    pose proof (Bdiv_correct_aux prec emax Hprec Hmax mode_NE false p 0 false q 0) as H. cbv zeta in H.
    unfold F2R in H. simpl (bpow _ _) in H. cbn [Fnum Fexp cond_Zopp] in H. rewrite !Rmult_1_r in H.
    destruct H as [Hvb H]. rewrite round_NE in H. rewrite Rlt_bool_true in H by exact Hov.
    destruct H as [H1 [H2 _]].
    assert (E : SFdiv prec emax (S754_finite false p 0) (S754_finite false q 0) =
      (let '(mz, ez, lz) := SFdiv_core_binary prec emax (Zpos p) 0 (Zpos q) 0 in
       BinarySingleNaN.binary_round_aux prec emax mode_NE (xorb false false) mz ez lz)).
    { unfold SFdiv. destruct (SFdiv_core_binary prec emax (Zpos p) 0 (Zpos q) 0) as [[mz ez] lz].
      apply binary_round_aux_equiv. }
    rewrite E. set (z := let '(mz, ez, lz) := _ in _) in *.
    assert (G : Prim2B (SF2Prim z) = SF2B z Hvb).
    { apply B2SF_inj. rewrite B2SF_Prim2B, B2SF_SF2B. apply Prim2SF_SF2Prim. exact Hvb. }
    rewrite G, B2R_SF2B, is_finite_SF2B. auto.
Qed.

Lemma leb_FR x y : FF x = true -> FF y = true -> PrimFloat.leb x y = Rle_bool (FR x) (FR y).
Proof. intros Hx Hy. rewrite leb_equiv. apply Bleb_correct; assumption. Qed.

Lemma ltb_FR x y : FF x = true -> FF y = true -> PrimFloat.ltb x y = Rlt_bool (FR x) (FR y).
Proof. intros Hx Hy. rewrite ltb_equiv. apply Bltb_correct; assumption. Qed.

Lemma FR_1 : FF 1 = true /\ FR 1 = 1.
Proof.
  change 1%float with PrimFloat.one. unfold FF, FR. rewrite one_equiv, Prim2B_B2Prim. split.
  - apply is_finite_Bone.
  - apply Bone_correct.
Qed.

(** ** Comparing rounded values *)
Lemma rnd_rel x : bpow radix2 (-1022) <= x -> Rabs (rnd x - x) <= bpow radix2 (-53) * x.
Proof.
  intros Hx. assert (0 < x) by (eapply Rlt_le_trans; [apply bpow_gt_0|exact Hx]).
  pose proof (relative_error_N_FLT radix2 (-1074) 53 eq_refl (fun z => negb (Z.even z)) x) as H1.
  rewrite (Rabs_pos_eq x) in H1 by lra. simpl (-1074 + 53 - 1)%Z in H1. simpl (- (53) + 1)%Z in H1.
  specialize (H1 Hx). replace (bpow radix2 (-53)) with (/ 2 * bpow radix2 (-52)); [exact H1|].
  change (-53)%Z with (-1 + -52)%Z. rewrite bpow_plus. reflexivity.
Qed.

Lemma rnd_lt x y : bpow radix2 (-1022) <= y -> bpow radix2 (-52) * x < x - y -> rnd y < rnd x.
Proof.
  intros Hy Hxy. assert (0 < y) by (eapply Rlt_le_trans; [apply bpow_gt_0|exact Hy]).
  pose proof (bpow_gt_0 radix2 (-52)) as Hp.
  assert (H53 : bpow radix2 (-53) = / 2 * bpow radix2 (-52)).
  { change (-53)%Z with (-1 + -52)%Z. rewrite bpow_plus. reflexivity. }
  assert (Hlt1 : bpow radix2 (-52) < 1) by (change 1 with (bpow radix2 0); apply bpow_lt; lia).
  assert (Hx : y < x).
  { destruct (Rlt_le_dec y x); [assumption|exfalso].
    destruct (Rle_lt_dec 0 x); [assert (0 <= bpow radix2 (-52) * x) by (apply Rmult_le_pos; lra); lra|].
    assert (bpow radix2 (-52) * x >= x); [|lra]. nra. }
  pose proof (rnd_rel y Hy) as E1. pose proof (rnd_rel x ltac:(lra)) as E2.
  apply Rabs_le_inv in E1, E2. rewrite H53 in E1, E2. nra.
Qed.

Lemma quot_pos a b : (0 < a)%Z -> (0 < b)%Z -> 0 < IZR a / IZR b.
Proof. intros Ha Hb. apply Rdiv_lt_0_compat; apply IZR_lt; assumption. Qed.

Lemma quot_ge a b e : (0 < a)%Z -> (0 < b)%Z -> (0 <= e)%Z -> (b <= 2 ^ e)%Z -> bpow radix2 (- e) <= IZR a / IZR b.
Proof.
  intros Ha Hb He Hle. rewrite bpow_opp.
  assert (H1 : IZR b <= bpow radix2 e) by (rewrite <- IZR_Zpower by exact He; apply IZR_le; exact Hle).
  assert (0 < IZR b) by (apply IZR_lt; assumption).
  assert (1 <= IZR a) by (apply IZR_le; lia).
  apply Rle_trans with (/ IZR b).
  - apply Rinv_le_contravar; assumption.
  - unfold Rdiv. rewrite <- (Rmult_1_l (/ IZR b)) at 1. apply Rmult_le_compat_r; [|assumption].
    apply Rlt_le, Rinv_0_lt_compat. assumption.
Qed.

Lemma quot_le a b e : (0 <= a)%Z -> (0 < b)%Z -> (0 <= e)%Z -> (a <= 2 ^ e)%Z -> 0 <= IZR a / IZR b <= bpow radix2 e.
Proof.
  intros Ha Hb He Hle.
  assert (H1 : IZR a <= bpow radix2 e) by (rewrite <- IZR_Zpower by exact He; apply IZR_le; exact Hle).
  assert (1 <= IZR b) by (apply IZR_le; lia). assert (0 <= IZR a) by (apply IZR_le; assumption).
  assert (Hi : 0 <= / IZR b <= 1).
  { split; [apply Rlt_le, Rinv_0_lt_compat; lra|]. rewrite <- Rinv_1. apply Rinv_le_contravar; lra. }
  unfold Rdiv. split; [apply Rmult_le_pos; tauto|]. nra.
Qed.

Lemma div_FR_le a b e : (0 <= a)%Z -> (0 < b)%Z -> (0 <= e <= 1023)%Z -> (a <= 2 ^ e)%Z ->
  FF (int_div a b) = true /\ FR (int_div a b) = rnd (IZR a / IZR b).
Proof.
  intros Ha Hb He Hle. apply div_FR; [assumption|assumption|].
  destruct (quot_le a b e Ha Hb (proj1 He) Hle) as [Q1 Q2].
  assert (0 <= rnd (IZR a / IZR b)).
  { replace 0 with (rnd 0) by (apply round_0; auto with typeclass_instances). apply rnd_le. exact Q1. }
  rewrite Rabs_pos_eq by assumption.
  apply Rle_lt_trans with (bpow radix2 e).
  - rewrite <- (rnd_id (bpow radix2 e)) by (apply format_pow; lia). apply rnd_le. exact Q2.
  - apply bpow_lt. lia.
Qed.

(** Quotients of moderate integers compare as doubles as they do exactly. *)
Lemma div_gt a b c d : (0 < a)%Z -> (0 < b)%Z -> (0 < c)%Z -> (0 < d)%Z ->
  (a <= 2 ^ 1000)%Z -> (c <= 2 ^ 1000)%Z -> (d <= 2 ^ 1000)%Z -> (a * d < 2 ^ 52)%Z ->
  PrimFloat.ltb (int_div c d) (int_div a b) = true <-> (c * b < a * d)%Z.
Proof.
  intros Ha Hb Hc Hd La Lc Ld Lad.
  destruct (div_FR_le a b 1000) as [A1 A2]; [lia|lia|lia|lia|].
  destruct (div_FR_le c d 1000) as [C1 C2]; [lia|lia|lia|lia|].
  rewrite (ltb_FR _ _ C1 A1), A2, C2.
  assert (Rb : 0 < IZR b) by (apply IZR_lt; assumption).
  assert (Rd : 0 < IZR d) by (apply IZR_lt; assumption).
  split.
  - intros H. destruct (Rlt_bool_spec (rnd (IZR c / IZR d)) (rnd (IZR a / IZR b))) as [H1|]; [|discriminate].
    destruct (Z_lt_le_dec (c * b) (a * d)) as [|Hle]; [assumption|exfalso].
    apply (Rlt_not_le _ _ H1). apply rnd_le.
    apply Rmult_le_reg_r with (IZR b * IZR d); [nra|].
    replace (IZR a / IZR b * (IZR b * IZR d)) with (IZR (a * d)) by (rewrite mult_IZR; field; lra).
    replace (IZR c / IZR d * (IZR b * IZR d)) with (IZR (c * b)) by (rewrite mult_IZR; field; lra).
    apply IZR_le. exact Hle.
  - intros H. apply Rlt_bool_true. apply rnd_lt.
    + eapply Rle_trans; [apply bpow_le|apply (quot_ge c d 1000)]; lia.
    + apply Rmult_lt_reg_r with (IZR b * IZR d); [nra|].
      replace (bpow radix2 (-52) * (IZR a / IZR b) * (IZR b * IZR d)) with (bpow radix2 (-52) * IZR (a * d))
        by (rewrite mult_IZR; field; lra).
      replace ((IZR a / IZR b - IZR c / IZR d) * (IZR b * IZR d)) with (IZR (a * d - c * b))
        by (rewrite minus_IZR, !mult_IZR; field; lra).
      apply Rlt_le_trans with 1; [|apply IZR_le; lia].
      replace 1 with (bpow radix2 (-52) * bpow radix2 52) by (rewrite <- bpow_plus; reflexivity).
      apply Rmult_lt_compat_l; [apply bpow_gt_0|].
      replace (bpow radix2 52) with (IZR (2 ^ 52)) by (apply (IZR_Zpower radix2); lia).
      apply IZR_lt. exact Lad.
Qed.
