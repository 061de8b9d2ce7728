(** * The number of strategies per process: a quotient of doubles, rounded up. *)
From Coq Require Import ZArith QArith Qreals Reals Lra Lia Bool List SpecFloat Floats Psatz.
From Flocq Require Import Core BinarySingleNaN PrimFloat Relative.
From Verif Require Import Py Arith FloatArith SpecFloats ProofsFloat ProofsFloatValues LocalSearch MultiProcess ProofsMulti.
Import ListNotations.
Open Scope R_scope.

#[local] Existing Instance fexp64_valid.

(** ** The quotient *)
Definition quotient (a b : Z) : spec_float := SFdiv prec emax (sf_of_Z a) (sf_of_Z b).

Lemma quotient_R a b : (0 < a)%Z -> (0 < b)%Z ->
  (Rabs (rnd (IZR a / IZR b)) < bpow radix2 1024 ->
     is_finite_SF (quotient a b) = true /\ SF2R radix2 (quotient a b) = rnd (IZR a / IZR b)) /\
  (bpow radix2 1024 <= Rabs (rnd (IZR a / IZR b)) -> quotient a b = S754_infinity false).
Proof.
  intros Ha Hb. destruct b as [|q|q]; try lia. destruct a as [|p|p]; try lia.
  unfold quotient. cbn [sf_of_Z].
  pose proof (Bdiv_correct_aux prec emax Hprec Hmax mode_NE false p 0 false q 0) as H. cbv zeta in H.
  unfold F2R in H. simpl (bpow _ _) in H. cbn [Fnum Fexp cond_Zopp] in H. rewrite !Rmult_1_r in H.
  destruct H as [Hvb H]. rewrite round_NE in H.
  assert (E : SFdiv prec emax (S754_finite false p 0) (S754_finite false q 0) =
    (let '(mz, ez, lz) := SFdiv_core_binary prec emax (Zpos p) 0 (Zpos q) 0 in
     BinarySingleNaN.binary_round_aux prec emax mode_NE (xorb false false) mz ez lz)).
  { unfold SFdiv. destruct (SFdiv_core_binary prec emax (Zpos p) 0 (Zpos q) 0) as [[mz ez] lz].
    apply binary_round_aux_equiv. }
  rewrite E. set (z := let '(mz, ez, lz) := _ in _) in *. split; intros Hov.
  - rewrite Rlt_bool_true in H by exact Hov. destruct H as [H1 [H2 _]]. auto.
  - rewrite Rlt_bool_false in H by exact Hov. exact H.
Qed.

Lemma sf_ceil_R z : is_finite_SF z = true -> sf_ceil z = Ok (Zceil (SF2R radix2 z)).
Proof.
  destruct z as [s|s| |s m e]; try discriminate; intros _.
  - cbn [sf_ceil SF2R]. rewrite (Zceil_IZR 0). reflexivity.
  - unfold sf_ceil, SF2R. f_equal.
    assert (Hv : (if s then Zneg m else Zpos m) = cond_Zopp s (Zpos m)) by (destruct s; reflexivity).
    rewrite Hv. set (v := cond_Zopp s (Zpos m)). clearbody v. clear Hv.
    destruct (Z.leb_spec 0 e) as [He|He].
    + unfold F2R. cbn [Fnum Fexp]. rewrite <- (IZR_Zpower radix2) by exact He. rewrite <- mult_IZR, Zceil_IZR. reflexivity.
    + unfold Zceil. f_equal.
      assert (P : (0 < 2 ^ (- e))%Z) by (apply Z.pow_pos_nonneg; lia).
      rewrite <- Zfloor_div by lia. f_equal. unfold F2R. cbn [Fnum Fexp].
      replace (bpow radix2 e) with (/ IZR (2 ^ - e)).
      2:{ change (2 ^ - e)%Z with (radix2 ^ - e)%Z. rewrite (IZR_Zpower radix2) by lia. rewrite <- bpow_opp. f_equal. lia. }
      rewrite opp_IZR. unfold Rdiv. ring.
Qed.

(** ** When it is rounded to zero, or too large *)
Definition tiny : R := bpow radix2 (-1075).
Definition huge : R := IZR (2 ^ 1024 - 2 ^ 970).

Lemma half_even : ZnearestE (/ 2) = 0%Z.
Proof.
  unfold Znearest. assert (F : Zfloor (/ 2) = 0%Z) by (apply Zfloor_imp; simpl; lra). rewrite F.
  rewrite Rcompare_Eq by lra. reflexivity.
Qed.

Lemma mag_tiny x : tiny <= x < bpow radix2 (-1074) -> mag radix2 x = (-1074)%Z :> Z.
Proof. intros H. apply mag_unique_pos. exact H. Qed.

Lemma scaled_tiny x : tiny <= x < bpow radix2 (-1074) -> cexp radix2 fexp64 x = (-1074)%Z.
Proof. intros H. unfold cexp. rewrite (mag_tiny x H). reflexivity. Qed.

Lemma tiny_pos : 0 < tiny.
Proof. apply bpow_gt_0. Qed.

Lemma rnd_tiny x : 0 <= x <= tiny -> rnd x = 0.
Proof.
  intros H. assert (T : rnd tiny = 0).
  { assert (B : tiny <= tiny < bpow radix2 (-1074)) by (split; [lra|apply bpow_lt; lia]).
    unfold rnd, round, scaled_mantissa. rewrite (scaled_tiny _ B).
    replace (tiny * bpow radix2 (- -1074)) with (/ 2).
    2:{ unfold tiny. rewrite <- bpow_plus. reflexivity. }
    rewrite half_even. unfold F2R. simpl. ring. }
  apply Rle_antisym; [rewrite <- T|rewrite <- rnd_0]; apply rnd_le; lra.
Qed.

Lemma rnd_not_tiny x : tiny < x -> bpow radix2 (-1074) <= rnd x.
Proof.
  intros H. destruct (Rlt_le_dec x (bpow radix2 (-1074))) as [Hx|Hx].
  - assert (B : tiny <= x < bpow radix2 (-1074)) by lra.
    unfold rnd, round, scaled_mantissa. rewrite (scaled_tiny _ B).
    assert (P : 0 < bpow radix2 (- -1074)) by apply bpow_gt_0.
    assert (E1 : tiny * bpow radix2 (- -1074) = / 2) by (unfold tiny; rewrite <- bpow_plus; reflexivity).
    assert (E2 : bpow radix2 (-1074) * bpow radix2 (- -1074) = 1) by (rewrite <- bpow_plus; reflexivity).
    rewrite (Znearest_imp _ _ 1).
    + unfold F2R. cbn [Fnum Fexp]. lra.
    + apply Rabs_lt. split.
      * apply (Rmult_lt_compat_r _ _ _ P) in H. rewrite E1 in H. lra.
      * apply (Rmult_lt_compat_r _ _ _ P) in Hx. rewrite E2 in Hx. lra.
  - rewrite <- (rnd_id (bpow radix2 (-1074))) by (apply format_pow; lia). apply rnd_le. exact Hx.
Qed.

Lemma scaled_huge x : bpow radix2 1023 <= x < bpow radix2 1024 -> cexp radix2 fexp64 x = 971%Z.
Proof.
  intros H. unfold cexp. assert (M : mag radix2 x = 1024%Z :> Z) by (apply mag_unique_pos; exact H). rewrite M. reflexivity.
Qed.

Lemma pow_R e : (0 <= e)%Z -> bpow radix2 e = IZR (2 ^ e).
Proof. intros H. symmetry. apply (IZR_Zpower radix2). exact H. Qed.

Lemma rnd_below_huge x : 0 <= x < huge -> Rabs (rnd x) < bpow radix2 1024.
Proof.
  intros H. assert (P : 0 <= rnd x) by (rewrite <- rnd_0; apply rnd_le; lra). rewrite Rabs_pos_eq by exact P.
  destruct (Rlt_le_dec x (bpow radix2 1023)) as [Hx|Hx].
  - eapply Rle_lt_trans; [|apply (bpow_lt radix2 1023); lia].
    rewrite <- (rnd_id (bpow radix2 1023)) by (apply format_pow; lia). apply rnd_le. lra.
  - assert (B : bpow radix2 1023 <= x < bpow radix2 1024).
    { split; [exact Hx|]. rewrite pow_R by lia. eapply Rlt_trans; [apply H|]. apply IZR_lt. reflexivity. }
    unfold rnd, round, scaled_mantissa. rewrite (scaled_huge _ B).
    assert (S : x * bpow radix2 (- (971)) < IZR (2 ^ 53) - / 2).
    { assert (Q : 0 < bpow radix2 (- (971))) by apply bpow_gt_0.
      destruct H as [_ H]. apply (Rmult_lt_compat_r _ _ _ Q) in H. eapply Rlt_le_trans; [exact H|].
      unfold huge. rewrite minus_IZR, <- !pow_R by lia. rewrite Rmult_minus_distr_r, <- !bpow_plus.
      change (970 + - (971))%Z with (-1)%Z. change (1024 + - (971))%Z with 53%Z. simpl (bpow _ (-1)). apply Req_le. reflexivity. }
    assert (Z1 : (ZnearestE (x * bpow radix2 (- (971))) <= 2 ^ 53 - 1)%Z).
    { rewrite <- (Znearest_imp (fun z => negb (Z.even z)) (IZR (2 ^ 53 - 1) + / 4) (2 ^ 53 - 1)).
      - destruct (Rle_dec (x * bpow radix2 (- (971))) (IZR (2 ^ 53 - 1) + / 4)) as [L|L].
        + apply Zrnd_le; auto with typeclass_instances.
        + apply Rnot_le_lt in L. rewrite minus_IZR in L. rewrite (Znearest_imp _ (x * bpow radix2 (- (971))) (2 ^ 53 - 1)).
          * rewrite (Znearest_imp _ _ (2 ^ 53 - 1)); [lia|]. apply Rabs_lt. lra.
          * apply Rabs_lt. rewrite minus_IZR. lra.
      - apply Rabs_lt. lra. }
    unfold F2R. cbn [Fnum Fexp]. apply Rle_lt_trans with (IZR (2 ^ 53 - 1) * bpow radix2 971).
    + apply Rmult_le_compat_r; [apply bpow_ge_0|]. apply IZR_le. exact Z1.
    + rewrite (pow_R 971), (pow_R 1024), <- mult_IZR by lia. apply IZR_lt. reflexivity.
Qed.

Lemma rnd_above_huge x : huge <= x -> bpow radix2 1024 <= Rabs (rnd x).
Proof.
  intros H. assert (T : rnd huge = bpow radix2 1024).
  { assert (B : bpow radix2 1023 <= huge < bpow radix2 1024).
    { unfold huge. rewrite !pow_R by lia. split; [apply IZR_le|apply IZR_lt]; [discriminate|reflexivity]. }
    unfold rnd, round, scaled_mantissa. rewrite (scaled_huge _ B).
    replace (huge * bpow radix2 (- (971))) with (IZR (2 ^ 53 - 1) + / 2).
    2:{ unfold huge. rewrite !minus_IZR, <- !pow_R by lia. rewrite Rmult_minus_distr_r, <- !bpow_plus.
        change (970 + - (971))%Z with (-1)%Z. change (1024 + - (971))%Z with 53%Z. simpl (bpow _ (-1)). lra. }
    assert (N : ZnearestE (IZR (2 ^ 53 - 1) + / 2) = (2 ^ 53)%Z).
    { unfold Znearest. assert (F : Zfloor (IZR (2 ^ 53 - 1) + / 2) = (2 ^ 53 - 1)%Z).
      { apply Zfloor_imp. rewrite plus_IZR. lra. }
      assert (C : Zceil (IZR (2 ^ 53 - 1) + / 2) = (2 ^ 53)%Z).
      { apply Zceil_imp. change (2 ^ 53 - 1)%Z with (2 ^ 53 + -1)%Z. rewrite plus_IZR. lra. }
      rewrite F, C. rewrite Rcompare_Eq by lra. reflexivity. }
    rewrite N. unfold F2R. cbn [Fnum Fexp]. rewrite (pow_R 971), (pow_R 1024), <- mult_IZR by lia. apply IZR_eq. reflexivity. }
  assert (L : bpow radix2 1024 <= rnd x) by (rewrite <- T; apply rnd_le; exact H).
  rewrite Rabs_pos_eq; [exact L|]. eapply Rle_trans; [apply bpow_ge_0|exact L].
Qed.

(** ** The strategies per process *)
Section Per.
Context (n : Z) (q : Q) (Hn : (0 < n)%Z) (Hq : (0 < q)%Q).
Let x : R := IZR n / Q2R q.

Lemma q_pos : 0 < Q2R q.
Proof. rewrite <- Q2R_0. apply Qlt_Rlt. exact Hq. Qed.

Lemma x_pos : 0 < x.
Proof. apply Rdiv_lt_0_compat; [apply IZR_lt; exact Hn|exact q_pos]. Qed.

Lemma num_pos : (0 < Qnum q)%Z.
Proof. unfold Qlt in Hq. simpl in Hq. lia. Qed.

Lemma x_eq : IZR (n * Zpos (Qden q)) / IZR (Qnum q) = x.
Proof.
  unfold x, Q2R. rewrite mult_IZR. pose proof num_pos as P. apply IZR_lt in P.
  assert (0 < IZR (Zpos (Qden q))) by (apply IZR_lt; lia). field. split; lra.
Qed.

Lemma per_spec : strategies_per_process n q =
  (if Rlt_dec x huge then Ok (Zceil (rnd x)) else Err OverflowError).
Proof.
  unfold strategies_per_process. fold (quotient (n * Zpos (Qden q)) (Qnum q)).
  destruct (quotient_R (n * Zpos (Qden q)) (Qnum q) ltac:(lia) num_pos) as [H1 H2]. rewrite x_eq in H1, H2.
  pose proof x_pos as P. destruct (Rlt_dec x huge) as [L|L].
  - destruct H1 as [F E]; [apply rnd_below_huge; lra|]. rewrite sf_ceil_R by exact F. rewrite E. reflexivity.
  - rewrite H2; [reflexivity|]. apply rnd_above_huge. apply Rnot_lt_le. exact L.
Qed.

Lemma per_zero : Zceil (rnd x) = 0%Z <-> x <= tiny.
Proof.
  pose proof x_pos as P. split; intros H.
  - apply Rnot_lt_le. intros C. apply rnd_not_tiny in C.
    assert (0 < IZR (Zceil (rnd x))) by (eapply Rlt_le_trans; [apply (bpow_gt_0 radix2 (-1074))|]; eapply Rle_trans; [exact C|apply Zceil_ub]).
    rewrite H in H0. simpl in H0. lra.
  - rewrite rnd_tiny by lra. apply (Zceil_IZR 0).
Qed.

(** Integers below [2^53] are doubles. *)
Lemma format_Z k : (Z.abs k <= 2 ^ 53)%Z -> generic_format radix2 fexp64 (IZR k).
Proof.
  intros H. destruct (Z.eq_dec (Z.abs k) (2 ^ 53)) as [E|E].
  - apply generic_format_abs_inv. rewrite <- abs_IZR, E. change (2 ^ 53)%Z with (radix2 ^ 53)%Z. rewrite (IZR_Zpower radix2) by lia. apply format_pow. lia.
  - apply generic_format_FLT. exists (Float radix2 k 0).
    + unfold F2R. simpl. ring.
    + simpl. change (Z.pow_pos 2 53) with (2 ^ 53)%Z. lia.
    + simpl. lia.
Qed.

(** No chunk is larger than the rounded up share. *)
Lemma per_balanced k : (0 <= k <= 2 ^ 53)%Z -> (k < Zceil (rnd x))%Z -> (inject_Z k * q < inject_Z n)%Q.
Proof.
  intros Hk H. assert (L : IZR k < rnd x).
  { apply Rnot_le_lt. intros C. apply Zceil_glb in C. lia. }
  assert (M : IZR k < x).
  { apply Rnot_le_lt. intros C. apply rnd_le in C. rewrite (rnd_id (IZR k)) in C by (apply format_Z; lia). lra. }
  apply Rlt_Qlt. rewrite Q2R_mult, !Q2R_inject. pose proof q_pos as P.
  unfold x in M. apply (Rmult_lt_compat_r _ _ _ P) in M. unfold Rdiv in M. rewrite Rmult_assoc, Rinv_l in M by lra. lra.
Qed.

(** No more chunks than the rounded up number of workers. *)
Lemma per_enough k : (1 <= k)%Z -> (n < 2 ^ 53)%Z -> (1 <= Zceil (rnd x))%Z -> (k * Zceil (rnd x) < n)%Z -> (inject_Z k < q)%Q.
Proof.
  intros Hk Hb Hp H. set (p := Zceil (rnd x)) in *.
  assert (U : rnd x <= IZR p) by apply Zceil_ub.
  assert (K1 : 1 <= IZR k) by (apply IZR_le; exact Hk).
  apply Rlt_Qlt. rewrite Q2R_inject. apply Rnot_le_lt. intros C. pose proof q_pos as P.
  assert (N1 : 1 <= IZR n) by (apply IZR_le; lia).
  assert (M : rnd (IZR n / IZR k) <= IZR p).
  { eapply Rle_trans; [|exact U]. apply rnd_le. unfold x. apply Rmult_le_compat_l; [lra|]. apply Rinv_le; assumption. }
  set (y := IZR n / IZR k) in *.
  assert (Yk : y * IZR k = IZR n) by (unfold y; field; lra).
  assert (Y1 : 1 <= y).
  { apply Rmult_le_reg_r with (IZR k); [lra|]. rewrite Yk, Rmult_1_l. apply IZR_le. nia. }
    assert (Er : Rabs (rnd y - y) <= bpow radix2 (-53) * Rabs y).
    { unfold rnd. eapply Rle_trans; [apply (relative_error_N_FLT radix2 (-1074) 53 ltac:(reflexivity) (fun z => negb (Z.even z)))|].
      - rewrite Rabs_pos_eq by lra. eapply Rle_trans; [apply (bpow_le radix2 _ 0); lia|]. simpl. lra.
      - apply Rmult_le_compat_r; [apply Rabs_pos|]. apply Req_le. change (-53 + 1)%Z with (-52)%Z.
        change (/ 2) with (bpow radix2 (-1)). rewrite <- bpow_plus. reflexivity. }
    rewrite (Rabs_pos_eq y) in Er by lra. apply Rabs_le_inv in Er.
    assert (F : IZR k * IZR p <= IZR n - 1) by (rewrite <- mult_IZR, <- (minus_IZR n 1); apply IZR_le; lia).
    assert (G : IZR n < bpow radix2 53) by (rewrite pow_R by lia; apply IZR_lt; exact Hb).
    assert (E : bpow radix2 53 * bpow radix2 (-53) = 1) by (rewrite <- bpow_plus; reflexivity).
    assert (J : bpow radix2 (-53) * IZR n < 1).
    { rewrite <- E, Rmult_comm. apply Rmult_lt_compat_r; [apply bpow_gt_0|exact G]. }
    assert (I1 : IZR k * rnd y <= IZR k * IZR p) by (apply Rmult_le_compat_l; lra).
    assert (I2 : IZR k * (rnd y - y) >= - (bpow radix2 (-53) * IZR n)).
    { rewrite <- Yk. apply Rle_ge. replace (- (bpow radix2 (-53) * (y * IZR k))) with (IZR k * (- (bpow radix2 (-53) * y))) by ring.
      apply Rmult_le_compat_l; lra. }
    rewrite Rmult_minus_distr_l, (Rmult_comm (IZR k) y), Yk in I2. lra.
Qed.
End Per.
