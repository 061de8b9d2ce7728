(** * The percentages of the log: quotients of integers in doubles, shown with four decimals. *)
From Coq Require Import ZArith QArith Qabs Qreals Reals Lra Lia Bool List String SpecFloat Floats Psatz.
From Flocq Require Import Core BinarySingleNaN PrimFloat.
From Verif Require Import Py Arith FloatArith Report ProofsFloat ProofsFloatValues ProofsPartition Utils ProofsUtils Text SpecText ProofsText.
Open Scope R_scope.

#[local] Existing Instance fexp64_valid.
#[local] Existing Instance Hprec.
#[local] Existing Instance Hmax.

(** ** Signs *)
Definition unsigned (z : spec_float) : Prop :=
  match z with S754_zero false | S754_finite false _ _ => True | _ => False end.

Lemma round_aux_unsigned m e l : is_finite_SF (SpecFloat.binary_round_aux prec emax false m e l) = true ->
  unsigned (SpecFloat.binary_round_aux prec emax false m e l).
Proof.
  unfold SpecFloat.binary_round_aux. destruct (shr_fexp prec emax m e l) as [mrs e1].
  destruct (shr_fexp prec emax _ e1 _) as [mrs2 e2]. destruct (shr_m mrs2) as [|p|p]; [intros _; exact I| |discriminate].
  destruct (Z.leb e2 (emax - prec)); [intros _; exact I|discriminate].
Qed.

Lemma div_unsigned a b : (0 <= a)%Z -> (0 < b)%Z -> is_finite_SF (SFdiv prec emax (sf_of_Z a) (sf_of_Z b)) = true ->
  unsigned (SFdiv prec emax (sf_of_Z a) (sf_of_Z b)).
Proof.
  intros Ha Hb. destruct b as [|q|q]; try lia. destruct a as [|p|p]; try lia; [intros _; exact I|].
  cbn [sf_of_Z SFdiv]. destruct (SFdiv_core_binary prec emax (Zpos p) 0 (Zpos q) 0) as [[mz ez] lz]. apply round_aux_unsigned.
Qed.

Lemma true_div_ok a b : (0 <= a)%Z -> (0 < b)%Z -> IZR a / IZR b < bpow radix2 1000 ->
  exists z, true_div a b = Ok z /\ unsigned z /\ SF2R radix2 z = rnd (IZR a / IZR b) /\
    (a = 0%Z \/ is_finite_SF z = true /\ z = quotient a b).
Proof.
  intros Ha Hb H. unfold true_div. destruct (Z.eqb_spec b 0) as [|_]; [lia|].
  destruct (Z.eq_dec a 0) as [->|Na].
  - exists (S754_zero false). destruct b as [|q|q]; try lia. split; [reflexivity|]. split; [exact I|].
    split; [|left; reflexivity]. cbn [SF2R]. unfold Rdiv. rewrite Rmult_0_l, rnd_0. reflexivity.
  - assert (Pa : (0 < a)%Z) by lia. destruct (quotient_R a b Pa Hb) as [Q _].
    assert (P : 0 < IZR a / IZR b) by (apply quot_pos; assumption).
    assert (B : Rabs (rnd (IZR a / IZR b)) < bpow radix2 1024).
    { assert (P0 : 0 <= rnd (IZR a / IZR b)) by (rewrite <- rnd_0; apply rnd_le; lra). rewrite Rabs_pos_eq by exact P0.
      eapply Rle_lt_trans; [|apply (bpow_lt radix2 1000); lia].
      rewrite <- (rnd_id (bpow radix2 1000)) by (apply format_pow; lia). apply rnd_le. lra. }
    specialize (Q B). destruct Q as [Q1 Q2]. pose proof (div_unsigned a b Ha Hb Q1) as U. fold (quotient a b) in U |- *.
    exists (quotient a b). split; [destruct (quotient a b); try reflexivity; discriminate Q1|]. auto.
Qed.

(** ** Four decimals *)
Lemma f4_R z : unsigned z -> exists n, f4 z = fixed4 n /\ (0 <= n)%Z /\ Rabs (IZR n - 10000 * SF2R radix2 z) <= / 2.
Proof.
  destruct z as [s|s| |s m e]; try contradiction; destruct s; try contradiction; intros _; cbn [f4 append SF2R].
  - exists 0%Z. split; [reflexivity|]. split; [lia|]. rewrite Rmult_0_r, Rminus_0_r, Rabs_R0. lra.
  - exists (ten_thousandths m e). split; [reflexivity|]. unfold ten_thousandths, F2R. cbn [Fnum Fexp cond_Zopp].
    destruct (Z.leb_spec 0 e) as [He|He].
    + split; [pose proof (Z.pow_nonneg 2 e); nia|]. rewrite pow_R by exact He. rewrite !mult_IZR.
      match goal with |- Rabs ?x <= _ => replace x with 0 by ring end. rewrite Rabs_R0. lra.
    + assert (P : (0 < 2 ^ (- e))%Z) by (apply Z.pow_pos_nonneg; lia). set (b := (2 ^ (- e))%Z) in *.
      assert (Eb : bpow radix2 e = / IZR b).
      { unfold b. change (2 ^ - e)%Z with (radix2 ^ - e)%Z. rewrite (IZR_Zpower radix2) by lia. rewrite <- bpow_opp. f_equal. lia. }
      clearbody b. rewrite Eb. destruct (round_div_nearest (Zpos m * 10000) b P) as [N1 N2].
      set (k := round_div (Zpos m * 10000) b) in *. clearbody k. split; [nia|].
      assert (Pb : 0 < IZR b) by (apply IZR_lt; exact P).
      assert (Ev : IZR k - 10000 * (IZR (Zpos m) * / IZR b) = - (IZR (Zpos m * 10000 - b * k) * / IZR b)) by (rewrite minus_IZR, !mult_IZR; field; lra).
      rewrite Ev, Rabs_Ropp, Rabs_mult, (Rabs_pos_eq (/ IZR b)) by (apply Rlt_le, Rinv_0_lt_compat; exact Pb).
      rewrite <- abs_IZR. apply IZR_le in N1. rewrite mult_IZR in N1.
      apply Rmult_le_reg_r with (IZR b); [exact Pb|]. rewrite Rmult_assoc, Rinv_l by lra. lra.
Qed.

Lemma shown4_ok z q : unsigned z -> 0 <= Q2R q ->
  (Rabs (SF2R radix2 z - Q2R q) <= Q2R q * bpow radix2 (-50) \/ (Q2R q <= / 20000 /\ SF2R radix2 z < / 20000)) -> shown4 (f4 z) q.
Proof.
  intros U Hq H. destruct (f4_R z U) as [n [E [Hn N]]]. destruct (fixed4_text n Hn) as [a [b [T [L [A V]]]]].
  exists a, b, n. rewrite E. split; [exact T|]. split; [exact L|]. split; [exact A|]. split; [exact V|].
  apply Rabs_le_inv in N.
  assert (E1 : Q2R (n # 10000) = IZR n / 10000) by (unfold Q2R; cbn [Qnum Qden]; reflexivity).
  assert (E2 : Q2R (1 # 20000) = / 20000) by (unfold Q2R; cbn [Qnum Qden]; lra).
  assert (E3 : Q2R (1 # 2 ^ 50) = bpow radix2 (-50)) by (unfold Q2R; cbn [Qnum Qden]; change (bpow radix2 (-50)) with (/ IZR (Zpos (2 ^ 50))); lra).
  assert (P50 : 0 < bpow radix2 (-50)) by apply bpow_gt_0.
  apply Qabs_Qle_condition. split; apply Rle_Qle; rewrite ?Q2R_opp, Q2R_minus, ?Q2R_plus, ?Q2R_mult, E1, E2, E3.
  - destruct H as [H|[H1 H2]]; [apply Rabs_le_inv in H; lra|].
    assert (B : IZR n < IZR 1) by lra. apply lt_IZR in B. assert (n = 0%Z) as -> by lia. nra.
  - destruct H as [H|[H1 H2]]; [apply Rabs_le_inv in H; lra|].
    assert (B : IZR n < IZR 1) by lra. apply lt_IZR in B. assert (n = 0%Z) as -> by lia. nra.
Qed.

Lemma Q2R_quot a b : (0 < b)%Z -> Q2R (inject_Z a / inject_Z b) = IZR a / IZR b.
Proof.
  intros Hb. rewrite Q2R_div; [rewrite !Q2R_inject; reflexivity|].
  intros E. unfold Qeq, inject_Z in E. cbn in E. lia.
Qed.

Lemma tiny_below e : (e <= -16)%Z -> bpow radix2 e < / 20000.
Proof. intros He. apply Rle_lt_trans with (bpow radix2 (-16)); [apply bpow_le; exact He|]. change (bpow radix2 (-16)) with (/ 65536). lra. Qed.

(** The utilization. *)
Lemma util_shown a b : (0 <= a)%Z -> (0 < b)%Z -> IZR a / IZR b < bpow radix2 1000 ->
  exists z, true_div a b = Ok z /\ shown4 (f4 z) (inject_Z a / inject_Z b).
Proof.
  intros Ha Hb H. destruct (true_div_ok a b Ha Hb H) as [z [E [U [R _]]]]. exists z. split; [exact E|].
  assert (P : 0 <= IZR a / IZR b) by (apply Rmult_le_pos; [apply IZR_le; exact Ha|apply Rlt_le, Rinv_0_lt_compat, IZR_lt; exact Hb]).
  apply shown4_ok; rewrite ?Q2R_quot by exact Hb; [exact U|exact P|]. rewrite R. set (q := IZR a / IZR b) in *.
  destruct (Rle_lt_dec (bpow radix2 (-1022)) q) as [B|B].
  - left. eapply Rle_trans; [apply rnd_rel; exact B|]. rewrite Rmult_comm. apply Rmult_le_compat_l; [exact P|apply bpow_le; lia].
  - right. pose proof (tiny_below (-1022) ltac:(lia)). split; [lra|]. eapply Rle_lt_trans; [|exact H0].
    rewrite <- (rnd_id (bpow radix2 (-1022))) by (apply format_pow; lia). apply rnd_le. lra.
Qed.

(** The percentage of the stored items. *)
Lemma hundred_R : F2R (Float radix2 7036874417766400 (-46)) = 100.
Proof. unfold F2R. cbn [Fnum Fexp]. change (bpow radix2 (-46)) with (/ IZR (2 ^ 46)). change (2 ^ 46)%Z with 70368744177664%Z. lra. Qed.

Lemma mul_unsigned p q e f : is_finite_SF (SFmul prec emax (S754_finite false p e) (S754_finite false q f)) = true ->
  unsigned (SFmul prec emax (S754_finite false p e) (S754_finite false q f)).
Proof. unfold SFmul. cbn [xorb]. apply round_aux_unsigned. Qed.

Lemma quotient_B a b : (0 < a)%Z -> (0 < b)%Z -> is_finite_SF (quotient a b) = true ->
  exists x : binary_float prec emax, B2SF x = quotient a b.
Proof.
  intros Ha Hb F. destruct b as [|q|q]; try lia. destruct a as [|p|p]; try lia. unfold quotient in *. cbn [sf_of_Z] in *.
  pose proof (Bdiv_correct_aux prec emax Hprec Hmax mode_NE false p 0 false q 0) as H. cbv zeta in H. destruct H as [Hvb _].
  assert (E : SFdiv prec emax (S754_finite false p 0) (S754_finite false q 0) =
    (let '(mz, ez, lz) := SFdiv_core_binary prec emax (Zpos p) 0 (Zpos q) 0 in
     BinarySingleNaN.binary_round_aux prec emax mode_NE (xorb false false) mz ez lz)).
  { unfold SFdiv. destruct (SFdiv_core_binary prec emax (Zpos p) 0 (Zpos q) 0) as [[mz ez] lz].
    apply binary_round_aux_equiv. }
  rewrite E. exists (SF2B _ Hvb). apply B2SF_SF2B.
Qed.

Lemma percent_shown c n : (0 <= c <= n)%Z -> (0 < n)%Z ->
  exists z, true_div c n = Ok z /\ shown4 (f4 (SFmul prec emax z hundred)) (inject_Z c / inject_Z n * 100).
Proof.
  intros Hc Hn.
  assert (P : 0 <= IZR c / IZR n) by (apply Rmult_le_pos; [apply IZR_le; lia|apply Rlt_le, Rinv_0_lt_compat, IZR_lt; exact Hn]).
  assert (P1 : IZR c / IZR n <= 1).
  { apply Rmult_le_reg_r with (IZR n); [apply IZR_lt; exact Hn|]. unfold Rdiv. rewrite Rmult_assoc, Rinv_l, Rmult_1_r, Rmult_1_l by (apply not_0_IZR; lia). apply IZR_le. lia. }
  assert (B1000 : 1 < bpow radix2 1000) by (change 1 with (bpow radix2 0); apply bpow_lt; lia).
  destruct (true_div_ok c n ltac:(lia) Hn ltac:(lra)) as [z [E [U [R D]]]]. exists z. split; [exact E|].
  assert (EQ : Q2R (inject_Z c / inject_Z n * 100) = IZR c / IZR n * 100).
  { rewrite Q2R_mult, Q2R_quot by exact Hn. unfold Q2R at 1. cbn [Qnum Qden]. lra. }
  destruct D as [->|[F ->]].
  - assert (z = S754_zero false) as ->.
    { unfold true_div in E. destruct (Z.eqb_spec n 0); [lia|]. destruct n; try lia. injection E as <-. reflexivity. }
    apply shown4_ok; rewrite ?EQ; [exact I|lra|]. left. cbn [SFmul hundred SF2R xorb]. unfold Rdiv. rewrite !Rmult_0_l, Rminus_0_r, Rabs_R0. lra.
  - assert (Pc : (0 < c)%Z \/ c = 0%Z) by lia. destruct Pc as [Pc| ->].
    2:{ unfold true_div in E. destruct (Z.eqb_spec n 0); [lia|]. destruct n; try lia. 
        apply shown4_ok; rewrite ?EQ; [exact I|lra|]. left. cbn. unfold Rdiv. rewrite !Rmult_0_l, Rminus_0_r, Rabs_R0. lra. }
    destruct (quotient_B c n Pc Hn F) as [x Ex].
    set (y := IZR c / IZR n) in *. set (r := rnd y) in *.
    assert (R0 : 0 <= r) by (unfold r; rewrite <- rnd_0; apply rnd_le; lra).
    assert (R1 : r <= 1) by (unfold r; rewrite <- (rnd_id 1) by (change 1 with (bpow radix2 0); apply format_pow; lia); apply rnd_le; lra).
    assert (Hb : SpecFloat.bounded prec emax 7036874417766400 (-46) = true) by (vm_compute; reflexivity).
    set (d := B754_finite false 7036874417766400 (-46) Hb : binary_float prec emax).
    assert (M0 : SFmul prec emax (quotient c n) hundred = B2SF (Bmult mode_NE x d)).
    { rewrite <- Ex. change hundred with (B2SF d). apply SFmul_B. }
    pose proof (Bmult_correct _ _ Hprec Hmax mode_NE x d) as M. rewrite round_NE in M. change (bpow radix2 emax) with (bpow radix2 1024) in M.
    assert (Bx : B2R x = r) by (rewrite <- R, <- Ex; destruct x; reflexivity).
    assert (Fx : is_finite x = true) by (rewrite <- Ex in F; destruct x; try reflexivity; discriminate F).
    assert (Bd : B2R d = 100) by exact hundred_R. rewrite Bx, Bd in M.
    assert (RR : 0 <= rnd (r * 100)) by (rewrite <- rnd_0; apply rnd_le; lra).
    rewrite Rlt_bool_true in M.
    2:{ rewrite Rabs_pos_eq by exact RR. apply Rle_lt_trans with (bpow radix2 7); [|apply bpow_lt; lia].
        rewrite <- (rnd_id (bpow radix2 7)) by (apply format_pow; lia). apply rnd_le. change (bpow radix2 7) with 128. lra. }
    destruct M as [M1 [M2 _]]. rewrite Fx in M2.
    assert (FM : is_finite_SF (SFmul prec emax (quotient c n) hundred) = true).
    { rewrite M0. destruct (Bmult mode_NE x d); try reflexivity; discriminate M2. }
    assert (VM : SF2R radix2 (SFmul prec emax (quotient c n) hundred) = rnd (r * 100)).
    { rewrite M0, <- M1. destruct (Bmult mode_NE x d); reflexivity. }
    apply shown4_ok; rewrite ?EQ, ?VM.
    + destruct (quotient c n) as [s|s| |s m e]; try contradiction; destruct s; try contradiction; [exact I|]. apply mul_unsigned. exact FM.
    + lra.
    + destruct (Rle_lt_dec (bpow radix2 (-1000)) y) as [B|B].
      * left. assert (S0 : 0 < bpow radix2 (-1000)) by apply bpow_gt_0.
        assert (S1 : bpow radix2 (-1022) <= bpow radix2 (-1000)) by (apply bpow_le; lia).
        assert (E1 : Rabs (r - y) <= bpow radix2 (-53) * y) by (apply rnd_rel; lra). apply Rabs_le_inv in E1.
        assert (B53 : 0 < bpow radix2 (-53) <= / 4) by (split; [apply bpow_gt_0|change (/ 4) with (bpow radix2 (-2)); apply bpow_le; lia]).
        assert (B50 : bpow radix2 (-50) = 8 * bpow radix2 (-53)) by (change 8 with (bpow radix2 3); rewrite <- bpow_plus; reflexivity).
        assert (Lr : bpow radix2 (-1022) <= r * 100) by nra.
        assert (E2 : Rabs (rnd (r * 100) - r * 100) <= bpow radix2 (-53) * (r * 100)) by (apply rnd_rel; exact Lr). apply Rabs_le_inv in E2.
        rewrite B50. apply Rabs_le. split; nra.
      * right. assert (T : bpow radix2 (-900) < / 20000) by (apply tiny_below; lia).
        assert (S2 : 128 * bpow radix2 (-1000) <= bpow radix2 (-900)).
        { change 128 with (bpow radix2 7). rewrite <- bpow_plus. apply bpow_le. lia. }
        assert (S0 : 0 < bpow radix2 (-1000)) by apply bpow_gt_0.
        split; [lra|]. eapply Rle_lt_trans; [|exact T].
        rewrite <- (rnd_id (bpow radix2 (-900))) by (apply format_pow; lia). apply rnd_le.
        assert (r <= bpow radix2 (-1000)) by (unfold r; rewrite <- (rnd_id (bpow radix2 (-1000))) by (apply format_pow; lia); apply rnd_le; lra). lra.
Qed.
