(** * Rounding [x * 0.1] and [x * 0.6] in doubles. *)
From Coq Require Import ZArith Reals Lra Lia Bool List String SpecFloat Floats Psatz.
From Flocq Require Import Core BinarySingleNaN PrimFloat.
From Verif Require Import Py Values ProofsFloat ProofsPartition Utils.
Open Scope R_scope.

#[local] Existing Instance fexp64_valid.
#[local] Existing Instance Hprec.
#[local] Existing Instance Hmax.

(** ** The product *)
Definition times (x : Z) (m : positive) (e : Z) : spec_float :=
  SFmul prec emax (SpecFloat.binary_normalize prec emax x 0 false) (S754_finite false m e).

Lemma SFmul_B (x y : binary_float prec emax) : SFmul prec emax (B2SF x) (B2SF y) = B2SF (Bmult mode_NE x y).
Proof.
  destruct x as [sx|sx| |sx mx ex Hx], y as [sy|sy| |sy my ey Hy]; try reflexivity.
  unfold Bmult. cbn [B2SF]. rewrite B2SF_SF2B. unfold SFmul. apply binary_round_aux_equiv.
Qed.

Lemma times_R x m e (Hb : SpecFloat.bounded prec emax m e = true) : (0 < x <= 2 ^ 53)%Z ->
  let y := IZR x * F2R (Float radix2 (Zpos m) e) in
  0 <= y <= bpow radix2 1000 ->
  exists f, SpecFloat.binary_normalize prec emax x 0 false = f /\ (forall s, f <> S754_infinity s) /\
    is_finite_SF (times x m e) = true /\ SF2R radix2 (times x m e) = rnd y.
Proof.
  intros Hx y Hy. unfold times. rewrite binary_normalize_equiv.
  pose proof (binary_normalize_correct _ _ Hprec Hmax mode_NE x 0 false) as N. cbv zeta in N.
  assert (Ex : F2R (Float radix2 x 0) = IZR x) by (unfold F2R; cbn; ring). rewrite Ex, round_NE in N.
  rewrite (rnd_id (IZR x)) in N by (apply format_Z; lia).
  rewrite Rlt_bool_true in N.
  2:{ rewrite Rabs_pos_eq by (apply IZR_le; lia). eapply Rle_lt_trans; [apply IZR_le; exact (proj2 Hx)|]. rewrite <- pow_R by lia. apply bpow_lt. reflexivity. }
  set (b := BinarySingleNaN.binary_normalize prec emax Hprec Hmax mode_NE x 0 false) in *. destruct N as [N1 [N2 _]].
  exists (B2SF b). split; [reflexivity|]. split; [intros s E; destruct b; discriminate|].
  set (c := B754_finite false m e Hb : binary_float prec emax).
  change (S754_finite false m e) with (B2SF c). rewrite SFmul_B.
  assert (Ec : B2R c = F2R (Float radix2 (Zpos m) e)) by reflexivity.
  pose proof (Bmult_correct _ _ Hprec Hmax mode_NE b c) as M. rewrite N1, Ec, round_NE in M. fold y in M.
  rewrite Rlt_bool_true in M.
  2:{ assert (R0 : 0 <= rnd y) by (rewrite <- ProofsFloatValues.rnd_0; apply rnd_le; lra). rewrite Rabs_pos_eq by exact R0.
      eapply Rle_lt_trans; [|apply (bpow_lt radix2 1000); reflexivity].
      rewrite <- (rnd_id (bpow radix2 1000)) by (apply format_pow; lia). apply rnd_le. lra. }
  destruct M as [M1 [M2 _]]. rewrite N2 in M2. split.
  - destruct (Bmult mode_NE b c); try reflexivity; discriminate M2.
  - rewrite <- M1. destruct (Bmult mode_NE b c); reflexivity.
Qed.

Lemma round_times_eq x c f : SpecFloat.binary_normalize prec emax x 0 false = f -> (forall s, f <> S754_infinity s) ->
  round_times x c = sf_round (SFmul prec emax f c).
Proof. intros E N. unfold round_times. rewrite E. destruct f; try reflexivity. exfalso. eapply N. reflexivity. Qed.

(** ** The nearest integer *)
Definition nearest (a b z : Z) : Prop :=
  (2 * Z.abs (a - b * z) <= b /\ (2 * Z.abs (a - b * z) = b -> Z.even z = true))%Z.
Lemma round_div_nearest a b : (0 < b)%Z -> nearest a b (round_div a b).
Proof.
  intros Hb. unfold nearest, round_div. pose proof (Z.div_mod a b ltac:(lia)) as E. pose proof (Z.mod_pos_bound a b Hb) as B.
  set (q := (a / b)%Z) in *. set (r := (a mod b)%Z) in *. clearbody q r. subst a.
  destruct (Z.ltb_spec (2 * r) b); [replace (b * q + r - b * q)%Z with r by lia; lia|].
  assert (Z1 : (b * q + r - b * (q + 1) = r - b)%Z) by lia.
  destruct (Z.ltb_spec b (2 * r)); [rewrite Z1; lia|]. destruct (Z.even q) eqn:Eq.
  - replace (b * q + r - b * q)%Z with r by lia. split; [lia|auto].
  - rewrite Z1. split; [lia|]. intros _. rewrite Z.even_add, Eq. reflexivity.
Qed.
Lemma nearest_unique a b x y : (0 < b)%Z -> nearest a b x -> nearest a b y -> x = y.
Proof.
  intros Hb [H1 H2] [H3 H4].
  assert (D : (b * Z.abs (x - y) <= b)%Z) by (rewrite <- (Z.abs_eq b) at 1 by lia; rewrite <- Z.abs_mul; lia).
  assert (D' : (Z.abs (x - y) <= 1)%Z) by nia.
  destruct (Z.eq_dec x y) as [|N]; [assumption|exfalso].
  assert (Z.even x = true /\ Z.even y = true).
  { assert (C : (x = y + 1 \/ y = x + 1)%Z) by lia. destruct C as [-> | ->]; split; (apply H2 || apply H4); lia. }
  assert (C : (x = y + 1 \/ y = x + 1)%Z) by lia. destruct H as [P Q].
  destruct C as [-> | ->]; rewrite Z.even_add in *; [rewrite Q in P|rewrite P in Q]; discriminate.
Qed.

(** [round] of a double: within a half of it, even when it lies between two integers. *)
Lemma sf_round_R z : is_finite_SF z = true -> exists k, sf_round z = Ok k /\
  Rabs (SF2R radix2 z - IZR k) <= / 2 /\ (forall j, SF2R radix2 z = IZR j + / 2 -> Z.even k = true).
Proof.
  destruct z as [s|s| |s m e]; try discriminate; intros _.
  - exists 0%Z. split; [reflexivity|]. cbn [SF2R]. split; [rewrite Rminus_0_r, Rabs_R0; lra|]. intros. reflexivity.
  - unfold sf_round, SF2R.
    assert (Hv : (if s then Zneg m else Zpos m) = cond_Zopp s (Zpos m)) by (destruct s; reflexivity).
    rewrite Hv. set (v := cond_Zopp s (Zpos m)). clearbody v. clear Hv. unfold F2R. cbn [Fnum Fexp].
    eexists. split; [reflexivity|]. destruct (Z.leb_spec 0 e) as [He|He].
    + rewrite pow_R by exact He. rewrite <- mult_IZR. split; [rewrite Rminus_diag_eq, Rabs_R0 by reflexivity; lra|].
      intros j E. exfalso. assert (E' : IZR (2 * (v * 2 ^ e)) = IZR (2 * j + 1)).
      { rewrite (mult_IZR 2), plus_IZR, (mult_IZR 2 j), E. lra. }
      apply eq_IZR in E'. lia.
    + assert (P : (0 < 2 ^ (- e))%Z) by (apply Z.pow_pos_nonneg; lia). set (b := (2 ^ (- e))%Z) in *.
      assert (Eb : bpow radix2 e = / IZR b).
      { unfold b. change (2 ^ - e)%Z with (radix2 ^ - e)%Z. rewrite (IZR_Zpower radix2) by lia. rewrite <- bpow_opp. f_equal. lia. }
      clearbody b. rewrite Eb. destruct (round_div_nearest v b P) as [N1 N2]. set (k := round_div v b) in *.
      assert (Pb : 0 < IZR b) by (apply IZR_lt; exact P). split.
      * assert (Ev : IZR v * / IZR b - IZR k = IZR (v - b * k) * / IZR b) by (rewrite minus_IZR, mult_IZR; field; lra).
        rewrite Ev, Rabs_mult, (Rabs_pos_eq (/ IZR b)) by (apply Rlt_le, Rinv_0_lt_compat; exact Pb).
        rewrite <- abs_IZR. apply IZR_le in N1. rewrite mult_IZR in N1.
        apply Rmult_le_reg_r with (IZR b); [exact Pb|]. rewrite Rmult_assoc, Rinv_l by lra. lra.
      * intros j E. apply N2. assert (E' : IZR (2 * v) = IZR ((2 * j + 1) * b)).
        { rewrite !mult_IZR, plus_IZR, mult_IZR. apply (Rmult_eq_compat_r (IZR b)) in E. rewrite Rmult_assoc, Rinv_l in E by lra. lra. }
        apply eq_IZR in E'. assert (H : (2 * (v - b * k) = (2 * j + 1 - 2 * k) * b)%Z) by lia.
        assert (B1 : (Z.abs (2 * j + 1 - 2 * k) <= 1)%Z).
        { assert (Ha : (Z.abs (2 * (v - b * k)) <= b)%Z) by lia. rewrite H, Z.abs_mul, (Z.abs_eq b) in Ha by lia. nia. }
        assert (B2 : (2 * j + 1 - 2 * k = 1 \/ 2 * j + 1 - 2 * k = -1)%Z) by lia. destruct B2 as [B2|B2]; rewrite B2 in H; lia.
Qed.

(** ** A product that ends in .5 is not changed by the error of the constant *)
Lemma rnd_near f : generic_format radix2 fexp64 f -> bpow radix2 (-1000) <= f -> rnd (f * (1 + bpow radix2 (-54))) = f.
Proof.
  intros Hf Hn. assert (P : 0 < f) by (eapply Rlt_le_trans; [apply (bpow_gt_0 radix2 (-1000))|exact Hn]).
  set (M := mag radix2 f : Z).
  assert (HM : (-999 <= M)%Z).
  { assert (H : bpow radix2 (-1000) < bpow radix2 M) by (eapply Rle_lt_trans; [exact Hn|]; unfold M; rewrite <- (Rabs_pos_eq f) at 1 by lra; apply bpow_mag_gt).
    apply lt_bpow in H. lia. }
  assert (Hc : cexp radix2 fexp64 f = (M - 53)%Z) by (unfold cexp, FLT_exp; fold M; lia).
  set (n := Ztrunc (scaled_mantissa radix2 fexp64 f)).
  assert (En : f = IZR n * bpow radix2 (M - 53)) by (rewrite <- Hc; exact Hf).
  assert (Hlt : f < bpow radix2 M) by (rewrite <- (Rabs_pos_eq f) by lra; apply bpow_mag_gt).
  assert (Hge : bpow radix2 (M - 1) <= f) by (rewrite <- (Rabs_pos_eq f) by lra; apply bpow_mag_le; lra).
  assert (Pe : 0 < bpow radix2 (M - 53)) by apply bpow_gt_0.
  assert (Hn1 : (n <= 2 ^ 53 - 1)%Z).
  { assert (L : IZR n < IZR (2 ^ 53)).
    { rewrite <- (pow_R 53) by lia. apply Rmult_lt_reg_r with (bpow radix2 (M - 53)); [exact Pe|].
      rewrite <- En, <- bpow_plus. replace (53 + (M - 53))%Z with M by ring. exact Hlt. }
    apply lt_IZR in L. lia. }
  assert (Hn0 : 0 < IZR n) by (apply Rmult_lt_reg_r with (bpow radix2 (M - 53)); [exact Pe|]; rewrite <- En, Rmult_0_l; exact P).
  assert (Hn2 : IZR n * bpow radix2 (-54) < / 2).
  { apply IZR_le in Hn1. rewrite minus_IZR, <- (pow_R 53) in Hn1 by lia.
    assert (E54 : bpow radix2 53 * bpow radix2 (-54) = / 2) by (rewrite <- bpow_plus; reflexivity).
    pose proof (bpow_gt_0 radix2 (-54)). nra. }
  set (y := f * (1 + bpow radix2 (-54))).
  assert (Ey : y * bpow radix2 (- (M - 53)) = IZR n + IZR n * bpow radix2 (-54)).
  { unfold y. rewrite En at 1. assert (E1 : bpow radix2 (M - 53) * bpow radix2 (- (M - 53)) = 1) by (rewrite <- bpow_plus, Z.add_opp_diag_r; reflexivity).
    transitivity (IZR n * (1 + bpow radix2 (-54)) * (bpow radix2 (M - 53) * bpow radix2 (- (M - 53)))); [ring|]. rewrite E1. ring. }
  assert (My : cexp radix2 fexp64 y = (M - 53)%Z).
  { unfold cexp. assert (E : mag radix2 y = M :> Z).
    { apply mag_unique_pos. pose proof (bpow_gt_0 radix2 (-54)). split; [unfold y; nra|].
      apply Rmult_lt_reg_r with (bpow radix2 (- (M - 53))); [apply bpow_gt_0|]. rewrite Ey, <- bpow_plus.
      replace (M + - (M - 53))%Z with 53%Z by ring. rewrite (pow_R 53) by lia. apply IZR_le in Hn1. rewrite minus_IZR in Hn1. lra. }
    rewrite E. unfold FLT_exp. lia. }
  unfold rnd, round, scaled_mantissa. rewrite My, Ey.
  rewrite (Znearest_imp _ _ n); [unfold F2R; cbn [Fnum Fexp]; symmetry; exact En|].
  replace (IZR n + IZR n * bpow radix2 (-54) - IZR n) with (IZR n * bpow radix2 (-54)) by ring.
  pose proof (bpow_gt_0 radix2 (-54)). rewrite Rabs_pos_eq by (apply Rlt_le, Rmult_lt_0_compat; assumption). exact Hn2.
Qed.

(** ** Tenths *)
Lemma tenth_R : F2R (Float radix2 7205759403792794 (-56)) = / 10 * (1 + bpow radix2 (-54)).
Proof.
  unfold F2R. cbn [Fnum Fexp]. change (bpow radix2 (-54)) with (/ IZR (2 ^ 54)). change (bpow radix2 (-56)) with (/ IZR (2 ^ 56)).
  change (2 ^ 54)%Z with 18014398509481984%Z. change (2 ^ 56)%Z with 72057594037927936%Z. lra.
Qed.
Lemma six_R : Rabs (F2R (Float radix2 5404319552844595 (-53)) - 6 / 10) <= bpow radix2 (-54).
Proof.
  unfold F2R. cbn [Fnum Fexp]. change (bpow radix2 (-54)) with (/ IZR (2 ^ 54)). change (bpow radix2 (-53)) with (/ IZR (2 ^ 53)).
  change (2 ^ 54)%Z with 18014398509481984%Z. change (2 ^ 53)%Z with 9007199254740992%Z. apply Rabs_le. lra.
Qed.

(** The double is close enough to [a / 10] for the nearest integer not to change, unless [a / 10]
    ends in .5. *)
Lemma close_round z a k : Rabs (SF2R radix2 z - IZR a / 10) < / 20 -> Rabs (SF2R radix2 z - IZR k) <= / 2 ->
  (a mod 10 <> 5)%Z -> round_div a 10 = k.
Proof.
  intros H1 H2 H5. assert (H : Rabs (IZR (a - 10 * k)) < IZR 6).
  { apply Rabs_def2 in H1. apply Rabs_le_inv in H2. rewrite minus_IZR, mult_IZR. apply Rabs_def1; lra. }
  rewrite <- abs_IZR in H. apply lt_IZR in H.
  apply (nearest_unique a 10); [lia|apply round_div_nearest; lia|]. unfold nearest.
  assert (N : Z.abs (a - 10 * k) <> 5%Z).
  { intros E. apply H5. assert (C : (a = 10 * k + 5 \/ a = 10 * (k - 1) + 5)%Z) by lia.
    destruct C as [-> | ->]; rewrite Z.add_comm, Z.mul_comm, Z_mod_plus_full; reflexivity. }
  lia.
Qed.

Lemma round_tenth x : (1 <= x <= 2 ^ 48)%Z -> round_times x tenth = Ok (round_div x 10).
Proof.
  intros Hx. unfold tenth.
  assert (RX : 1 <= IZR x <= IZR (2 ^ 48)) by (split; apply IZR_le; lia).
  set (y := IZR x * F2R (Float radix2 7205759403792794 (-56))).
  assert (Ey : y = IZR x / 10 * (1 + bpow radix2 (-54))) by (unfold y; rewrite tenth_R; lra).
  assert (E54 : 0 < bpow radix2 (-54) <= bpow radix2 (-53)) by (split; [apply bpow_gt_0|apply bpow_le; lia]).
  assert (E1 : bpow radix2 48 * bpow radix2 (-53) = / 32) by (rewrite <- bpow_plus; reflexivity).
  assert (E2 : bpow radix2 (-53) <= / 2) by (change (/ 2) with (bpow radix2 (-1)); apply bpow_le; lia).
  rewrite <- (pow_R 48) in RX by lia.
  assert (Dy : IZR x / 10 <= y /\ y - IZR x / 10 <= / 320) by (rewrite Ey; split; nra).
  assert (By : 0 <= y <= bpow radix2 48) by (split; [lra|]; destruct RX as [_ RX]; assert (32 <= bpow radix2 48) by (change 32 with (bpow radix2 5); apply bpow_le; lia); lra).
  destruct (times_R x 7205759403792794 (-56) ltac:(vm_compute; reflexivity) ltac:(lia)) as [f [Ef [Nf [F R]]]].
  { fold y. split; [lra|]. eapply Rle_trans; [apply By|]. apply bpow_le. lia. }
  fold y in R. unfold times in F, R. rewrite Ef in F, R.
  rewrite (round_times_eq _ _ _ Ef Nf). set (z := SFmul prec emax f _) in *. clearbody z. destruct (sf_round_R z F) as [k [-> [K1 K2]]]. f_equal. symmetry.
  assert (Err : Rabs (rnd y - y) <= bpow radix2 (48 - 54)) by (apply rnd_err; [lia|rewrite Rabs_pos_eq; lra]).
  change (bpow radix2 (48 - 54)) with (/ 64) in Err.
  assert (C : Rabs (SF2R radix2 z - IZR x / 10) < / 20).
  { rewrite R. apply Rabs_le_inv in Err. apply Rabs_def1; lra. }
  destruct (Z.eq_dec (x mod 10) 5) as [H5|H5]; [|eapply close_round; eassumption].
  pose proof (Z.div_mod x 10 ltac:(lia)) as Dm. rewrite H5 in Dm. set (j := (x / 10)%Z) in *.
  assert (Ex : IZR x / 10 = IZR j + / 2) by (rewrite Dm, plus_IZR, mult_IZR; lra).
  assert (Ez : SF2R radix2 z = IZR j + / 2).
  { rewrite R, Ey, Ex. apply rnd_near.
    - apply generic_format_FLT. exists (Float radix2 (2 * j + 1) (-1)).
      + unfold F2R. cbn [Fnum Fexp]. rewrite plus_IZR, mult_IZR. change (bpow radix2 (-1)) with (/ 2). lra.
      + cbn [Fnum]. change (radix2 ^ 53)%Z with (2 ^ 53)%Z. lia.
      + cbn [Fexp]. lia.
    - eapply Rle_trans; [apply (bpow_le radix2 _ (-4)); lia|]. rewrite <- Ex. change (bpow radix2 (-4)) with (/ 16). lra. }
  assert (Ev : Z.even k = true) by (eapply K2; exact Ez).
  apply (nearest_unique x 10); [lia|apply round_div_nearest; lia|]. split; [|intros _; exact Ev].
  rewrite Ez in K1. apply Rabs_le_inv in K1.
  assert (B : (j <= k <= j + 1)%Z).
  { split; apply le_IZR; [|rewrite plus_IZR]; lra. }
  lia.
Qed.

Lemma round_six x : (1 <= x <= 2 ^ 48)%Z -> round_times x six_tenths = Ok (round_div (6 * x) 10).
Proof.
  intros Hx. unfold six_tenths.
  assert (RX : 1 <= IZR x <= IZR (2 ^ 48)) by (split; apply IZR_le; lia).
  set (c := F2R (Float radix2 5404319552844595 (-53))). pose proof six_R as S. fold c in S. apply Rabs_le_inv in S.
  set (y := IZR x * c).
  assert (E54 : 0 < bpow radix2 (-54)) by apply bpow_gt_0.
  assert (E1 : bpow radix2 48 * bpow radix2 (-54) = / 64) by (rewrite <- bpow_plus; reflexivity).
  assert (E2 : bpow radix2 (-54) <= / 16) by (change (/ 16) with (bpow radix2 (-4)); apply bpow_le; lia).
  rewrite <- (pow_R 48) in RX by lia.
  assert (Dy : - / 64 <= y - 6 * IZR x / 10 <= / 64).
  { assert (E : y - 6 * IZR x / 10 = IZR x * (c - 6 / 10)) by (unfold y; field). rewrite E.
    assert (X1 : IZR x * bpow radix2 (-54) <= / 64) by nra. split; nra. }
  assert (By : 0 <= y <= bpow radix2 48) by (unfold y; split; nra).
  destruct (times_R x 5404319552844595 (-53) ltac:(vm_compute; reflexivity) ltac:(lia)) as [f [Ef [Nf [F R]]]].
  { fold c y. split; [lra|]. eapply Rle_trans; [apply By|]. apply bpow_le. lia. }
  fold c y in R. unfold times in F, R. rewrite Ef in F, R.
  rewrite (round_times_eq _ _ _ Ef Nf). set (z := SFmul prec emax f _) in *. clearbody z. destruct (sf_round_R z F) as [k [-> [K1 K2]]]. f_equal. symmetry.
  assert (Err : Rabs (rnd y - y) <= bpow radix2 (48 - 54)) by (apply rnd_err; [lia|rewrite Rabs_pos_eq; lra]).
  change (bpow radix2 (48 - 54)) with (/ 64) in Err.
  apply (close_round z (6 * x) k); [|exact K1|].
  - rewrite R, mult_IZR. apply Rabs_le_inv in Err. apply Rabs_def1; lra.
  - intros E. pose proof (Z.div_mod (6 * x) 10 ltac:(lia)). lia.
Qed.

(** ** Any size *)
Definition too_large (x : Z) : Prop := (2 ^ 1024 - 2 ^ 970 <= x)%Z.

Lemma round_times_any x m e (Hb : SpecFloat.bounded prec emax m e = true) : (1 <= x)%Z ->
  let c := F2R (Float radix2 (Zpos m) e) in
  / 16 <= c <= 1 ->
  (too_large x /\ round_times x (S754_finite false m e) = Err OverflowError) \/
  (~ too_large x /\ exists k, round_times x (S754_finite false m e) = Ok k /\ (0 <= k)%Z /\
     Rabs (IZR k - IZR x * c) <= / 2 + IZR x * bpow radix2 (-51)).
Proof.
  intros Hx c Hc. pose proof (binary_normalize_correct _ _ Hprec Hmax mode_NE x 0 false) as N. cbv zeta in N.
  assert (Ex : F2R (Float radix2 x 0) = IZR x) by (unfold F2R; cbn; ring). rewrite Ex, round_NE in N.
  assert (RX : 1 <= IZR x) by (apply IZR_le; lia).
  set (b := BinarySingleNaN.binary_normalize prec emax Hprec Hmax mode_NE x 0 false) in *.
  assert (Eb : SpecFloat.binary_normalize prec emax x 0 false = B2SF b) by apply binary_normalize_equiv.
  change (bpow radix2 emax) with (bpow radix2 1024) in N.
  destruct (Z_le_gt_dec (2 ^ 1024 - 2 ^ 970) x) as [T|T].
  - left. split; [exact T|].
    rewrite Rlt_bool_false in N by (apply rnd_above_huge; unfold huge; apply IZR_le; exact T).
    unfold round_times. rewrite Eb. unfold binary_overflow in N. cbn [overflow_to_inf] in N. rewrite N. reflexivity.
  - right. split; [unfold too_large; lia|].
    assert (HR : Rabs (rnd (IZR x)) < bpow radix2 1024) by (apply rnd_below_huge; unfold huge; split; [lra|apply IZR_lt; lia]).
    rewrite Rlt_bool_true in N by exact HR. destruct N as [N1 [N2 _]].
    assert (Small : bpow radix2 (-1022) <= / 32) by (change (/ 32) with (bpow radix2 (-5)); apply bpow_le; lia).
    assert (B53 : 0 < bpow radix2 (-53) <= / 4) by (split; [apply bpow_gt_0|change (/ 4) with (bpow radix2 (-2)); apply bpow_le; lia]).
    assert (B51 : bpow radix2 (-51) = 4 * bpow radix2 (-53)) by (change 4 with (bpow radix2 2); rewrite <- bpow_plus; reflexivity).
    set (r := rnd (IZR x)) in *.
    assert (Rr : Rabs (r - IZR x) <= bpow radix2 (-53) * IZR x) by (apply rnd_rel; lra).
    apply Rabs_le_inv in Rr. assert (Pr : / 2 <= r) by nra.
    set (y := r * c). assert (Py : / 32 <= y) by (unfold y; nra). assert (Yr : y <= r) by (unfold y; nra).
    assert (Ry : Rabs (rnd y - y) <= bpow radix2 (-53) * y) by (apply rnd_rel; lra). apply Rabs_le_inv in Ry.
    assert (P0 : 0 <= rnd y) by nra.
    set (d := B754_finite false m e Hb : binary_float prec emax).
    pose proof (Bmult_correct _ _ Hprec Hmax mode_NE b d) as M. rewrite N1, round_NE in M.
    change (B2R d) with c in M. fold y in M. change (bpow radix2 emax) with (bpow radix2 1024) in M.
    rewrite Rlt_bool_true in M.
    2:{ rewrite Rabs_pos_eq by exact P0. apply Rle_lt_trans with r; [|rewrite <- (Rabs_pos_eq r) by lra; exact HR].
        rewrite <- (rnd_id r); [apply rnd_le; exact Yr|]. unfold r. unfold rnd. apply generic_format_round; auto with typeclass_instances. }
    destruct M as [M1 [M2 _]]. rewrite N2 in M2.
    assert (E : round_times x (S754_finite false m e) = sf_round (B2SF (Bmult mode_NE b d))).
    { rewrite (round_times_eq _ _ _ Eb); [change (S754_finite false m e) with (B2SF d); rewrite SFmul_B; reflexivity|].
      intros s Es. destruct b; discriminate. }
    assert (F : is_finite_SF (B2SF (Bmult mode_NE b d)) = true) by (destruct (Bmult mode_NE b d); try reflexivity; discriminate M2).
    assert (V : SF2R radix2 (B2SF (Bmult mode_NE b d)) = rnd y) by (rewrite <- M1; destruct (Bmult mode_NE b d); reflexivity).
    destruct (sf_round_R _ F) as [k [K0 [K1 _]]]. rewrite V in K1. apply Rabs_le_inv in K1. exists k. rewrite E. split; [exact K0|]. split.
    + assert (L : IZR (-1) < IZR k) by lra. apply lt_IZR in L. lia.
    + rewrite B51. apply Rabs_le. assert (D : - (bpow radix2 (-53) * IZR x) <= y - IZR x * c <= bpow radix2 (-53) * IZR x) by (unfold y; split; nra).
      assert (U : y <= 2 * IZR x) by nra. split; nra.
Qed.

(** [round(x * 0.1)] and [round(x * 0.6)]: within a half, plus a relative error, of the tenth and
    the six tenths. *)
Definition about (a x k : Z) : Prop := (0 <= k /\ 2 ^ 50 * (10 * k - a * x - 5) <= 10 * x)%Z.
Lemma about_R a x k c : (0 <= k)%Z -> Rabs (c - IZR a / 10) <= bpow radix2 (-54) -> (1 <= x)%Z ->
  Rabs (IZR k - IZR x * c) <= / 2 + IZR x * bpow radix2 (-51) -> about a x k.
Proof.
  intros Hk Hc Hx H. split; [exact Hk|]. apply le_IZR. rewrite !mult_IZR, !minus_IZR, !mult_IZR, <- (pow_R 50) by lia.
  assert (RX : 1 <= IZR x) by (apply IZR_le; lia). apply Rabs_le_inv in H. apply Rabs_le_inv in Hc.
  assert (B : bpow radix2 (-51) = 8 * bpow radix2 (-54)) by (change 8 with (bpow radix2 3); rewrite <- bpow_plus; reflexivity).
  assert (P : 0 < bpow radix2 (-54)) by apply bpow_gt_0.
  assert (Q : bpow radix2 50 * bpow radix2 (-54) = / 16) by (rewrite <- bpow_plus; reflexivity).
  assert (P50 : 0 < bpow radix2 50) by apply bpow_gt_0. rewrite B in H.
  assert (D : IZR x * c <= IZR x * (IZR a / 10 + bpow radix2 (-54))) by nra.
  assert (S : 10 * IZR k - IZR a * IZR x - 5 <= 90 * IZR x * bpow radix2 (-54)) by lra.
  apply Rle_trans with (bpow radix2 50 * (90 * IZR x * bpow radix2 (-54))); [apply Rmult_le_compat_l; lra|].
  replace (bpow radix2 50 * (90 * IZR x * bpow radix2 (-54))) with (90 * IZR x * (bpow radix2 50 * bpow radix2 (-54))) by ring.
  rewrite Q. lra.
Qed.

Lemma round_tenth_any x : (1 <= x)%Z ->
  (too_large x /\ round_times x tenth = Err OverflowError) \/ (~ too_large x /\ exists k, round_times x tenth = Ok k /\ about 1 x k).
Proof.
  intros Hx. assert (C : / 16 <= F2R (Float radix2 7205759403792794 (-56)) <= 1).
  { rewrite tenth_R. assert (P : 0 < bpow radix2 (-54) <= 1) by (split; [apply bpow_gt_0|change 1 with (bpow radix2 0); apply bpow_le; lia]). lra. }
  destruct (round_times_any x 7205759403792794 (-56) ltac:(vm_compute; reflexivity) Hx C) as [[T E]|[T [k [E [K1 K2]]]]]; [left; auto|].
  right. split; [exact T|]. exists k. split; [exact E|]. eapply about_R; [exact K1| |exact Hx|exact K2].
  rewrite tenth_R. pose proof (bpow_gt_0 radix2 (-54)). apply Rabs_le. lra.
Qed.
Lemma round_six_any x : (1 <= x)%Z ->
  (too_large x /\ round_times x six_tenths = Err OverflowError) \/ (~ too_large x /\ exists k, round_times x six_tenths = Ok k /\ about 6 x k).
Proof.
  intros Hx. assert (C : / 16 <= F2R (Float radix2 5404319552844595 (-53)) <= 1).
  { pose proof six_R as S. apply Rabs_le_inv in S. assert (P : bpow radix2 (-54) <= / 16) by (change (/ 16) with (bpow radix2 (-4)); apply bpow_le; lia). lra. }
  destruct (round_times_any x 5404319552844595 (-53) ltac:(vm_compute; reflexivity) Hx C) as [[T E]|[T [k [E [K1 K2]]]]]; [left; auto|].
  right. split; [exact T|]. exists k. split; [exact E|]. eapply about_R; [exact K1|exact six_R|exact Hx|exact K2].
Qed.
