(** * Doubles: sums of objective values, and the bridge from reals to the rationals of the statements. *)
From Coq Require Import ZArith String List Bool QArith Qabs Qreals Reals Lra Lia Psatz Floats Permutation.
From Flocq Require Import Core.
From Verif Require Import Py Arith Construct Spec LocalSearch SpecSearch FloatArith FloatLaws SpecFloats ProofsFloat
  ProofsFloatValues ProofsPy PropertiesSolve PropertiesObjective.
Import ListNotations.
Open Scope R_scope.

(** ** From rationals to reals *)
Lemma Q2R_abs q : Q2R (Qabs q) = Rabs (Q2R q).
Proof.
  destruct (Qlt_le_dec q 0) as [H|H].
  - assert (E : (Qabs q == - q)%Q) by (apply Qabs_neg, Qlt_le_weak; exact H).
    rewrite (Qeq_eqR _ _ E), Q2R_opp. apply Qlt_le_weak, Qle_Rle in H. rewrite Q2R_0 in H.
    rewrite Rabs_left1; [reflexivity|exact H].
  - assert (E : (Qabs q == q)%Q) by (apply Qabs_pos; exact H).
    rewrite (Qeq_eqR _ _ E). apply Qle_Rle in H. rewrite Q2R_0 in H. rewrite Rabs_pos_eq; [reflexivity|exact H].
Qed.

Lemma inject_nz b : (b <> 0)%Z -> ~ (inject_Z b == 0)%Q.
Proof. intros H E. unfold Qeq in E. simpl in E. lia. Qed.

Lemma Q2R_ratio a b : (b <> 0)%Z -> Q2R (ratio a b) = IZR a / IZR b.
Proof. intros H. unfold ratio. rewrite Q2R_div by (apply inject_nz; exact H). rewrite !Q2R_inject. reflexivity. Qed.

Lemma Q2R_ulp : Q2R ulp52 = eps.
Proof. unfold Q2R, ulp52. simpl (Qnum _). simpl (Qden _). rewrite Rmult_1_l. reflexivity. Qed.

Lemma Q2R_qsum l : Q2R (qsum l) = fold_right Rplus 0 (map Q2R l).
Proof. induction l as [|q l IH]; cbn; [apply Q2R_0|]. rewrite Q2R_plus. unfold qsum in IH. rewrite IH. reflexivity. Qed.

Lemma INR_zlen {A} (l : list A) : INR (length l) = IZR (zlen l).
Proof. unfold zlen. apply INR_IZR_INZ. Qed.

(** ** Rounding errors *)
Lemma rnd_abs x : 0 <= x -> Rabs (rnd x - x) <= (/ 2 * x + / 4) * eps.
Proof.
  intros Hx. destruct (Rle_lt_dec (bpow radix2 (-1022)) x) as [H|H].
  - pose proof (rnd_rel x H) as E. rewrite eps_53 in E. pose proof eps_pos. nra.
  - assert (E : Rabs (rnd x - x) <= bpow radix2 (-1021 - 54)).
    { apply rnd_err; [lia|]. rewrite Rabs_pos_eq by exact Hx. apply Rlt_le. eapply Rlt_trans; [exact H|]. apply bpow_lt. lia. }
    assert (bpow radix2 (-1021 - 54) <= bpow radix2 (-54)) by (apply bpow_le; lia).
    rewrite eps_54 in H0. pose proof eps_pos. nra.
Qed.

Lemma format_even j : (0 <= j < 2 ^ 52)%Z -> rnd (2 * IZR j) = 2 * IZR j.
Proof.
  intros H. apply rnd_id. rewrite <- (mult_IZR 2 j). apply generic_format_FLT.
  exists (Float radix2 (2 * j) 0).
  - unfold F2R. cbn [Fexp Fnum]. change (bpow radix2 0) with 1. rewrite Rmult_1_r. reflexivity.
  - cbn [Fnum]. rewrite Z.abs_eq by lia. change (Z.pow (radix_val radix2) 53) with 9007199254740992%Z.
    change (2 ^ 52)%Z with 4503599627370496%Z in H. lia.
  - cbn [Fexp]. lia.
Qed.

Lemma big_ov j : (0 <= j < 2 ^ 52)%Z -> forall x, 0 <= x -> x <= 2 * IZR j -> Rabs x < bpow radix2 1024.
Proof.
  intros Hj x H0 H. apply (small_ov x 53); [lia|exact H0|].
  eapply Rle_trans; [exact H|]. change (bpow radix2 53) with (IZR (2 ^ 53)). rewrite <- mult_IZR. apply IZR_le. lia.
Qed.

(** One more term of at most 2. *)
Lemma add_step acc t j : FF acc = true -> FF t = true -> (0 <= j)%Z -> (j + 1 < 2 ^ 52)%Z ->
  0 <= FR acc <= 2 * IZR j -> 0 <= FR t <= 2 ->
  FF (acc + t) = true /\ 0 <= FR (acc + t) <= 2 * IZR (j + 1) /\
  Rabs (FR (acc + t) - (FR acc + FR t)) <= (IZR j + 5 / 4) * eps.
Proof.
  intros Ha Ht Hj Hj1 Ba Bt. rewrite plus_IZR.
  assert (Hr : 0 <= rnd (FR acc + FR t) <= 2 * IZR (j + 1)).
  { split; [rewrite <- rnd_0; apply rnd_le; lra|].
    rewrite <- (format_even (j + 1)) by lia. apply rnd_le. rewrite plus_IZR. lra. }
  destruct (add_FR acc t Ha Ht) as [H1 H2]; [apply (big_ov (j + 1)); [lia|tauto|tauto]|].
  rewrite H2. split; [exact H1|]. split; [rewrite plus_IZR in Hr; exact Hr|].
  eapply Rle_trans; [apply rnd_abs; lra|]. pose proof eps_pos. nra.
Qed.

(** A double at most 2 standing for a real up to [n] errors. *)
Definition stands (o : PrimFloat.float) (u : R) (n : R) : Prop :=
  FF o = true /\ 0 <= FR o <= 2 /\ 0 <= n /\ Rabs (FR o - u) <= n * eps.

Lemma sum_stands l : Forall (fun t => stands (fst t) (fst (snd t)) (snd (snd t))) l ->
  forall acc j S B, FF acc = true -> (0 <= j)%Z -> (j + zlen l < 2 ^ 52)%Z ->
  0 <= FR acc <= 2 * IZR j -> Rabs (FR acc - S) <= B * eps ->
  let r := fold_left PrimFloat.add (map fst l) acc in
  FF r = true /\ 0 <= FR r <= 2 * IZR (j + zlen l) /\
  Rabs (FR r - (S + fold_right Rplus 0 (map (fun t => fst (snd t)) l))) <=
    (B + fold_right Rplus 0 (map (fun t => snd (snd t)) l) + IZR (zlen l) * (IZR j + IZR (zlen l) + / 4)) * eps.
Proof.
  induction 1 as [|[o [u n]] l [So [Ro [Rn So']]] Hl IH]; intros acc j S B Ha Hj Hjl Ra Sa; cbn [map fold_left fold_right fst snd].
  - change (zlen []) with 0%Z. rewrite Z.add_0_r. split; [exact Ha|]. split; [exact Ra|].
    rewrite Rplus_0_r. eapply Rle_trans; [exact Sa|]. pose proof eps_pos. simpl (IZR 0). nra.
  - cbn [fst snd] in *.
    assert (E : zlen ((o, (u, n)) :: l) = (1 + zlen l)%Z) by (unfold zlen; cbn [length]; lia).
    rewrite E in *. assert (0 <= zlen l)%Z by (unfold zlen; lia).
    destruct (add_step acc o j Ha So Hj ltac:(lia) Ra Ro) as [A1 [A2 A3]].
    destruct (IH (acc + o)%float (j + 1)%Z (S + u) (B + n + (IZR j + 5 / 4)) A1) as [I1 [I2 I3]].
    + lia.
    + lia.
    + exact A2.
    + apply Rabs_le. apply Rabs_le_inv in Sa, So', A3. nra.
    + split; [exact I1|]. replace (j + (1 + zlen l))%Z with (j + 1 + zlen l)%Z by lia. split; [exact I2|].
      replace (S + (u + fold_right Rplus 0 (map (fun t => fst (snd t)) l)))
        with (S + u + fold_right Rplus 0 (map (fun t => fst (snd t)) l)) by ring.
      eapply Rle_trans; [exact I3|]. pose proof eps_pos.
      apply Rmult_le_compat_r; [lra|]. rewrite !plus_IZR.
      assert (0 <= IZR (zlen l)) by (apply IZR_le; lia). assert (0 <= IZR j) by (apply IZR_le; lia). nra.
Qed.

(** 0.7 *)
Lemma FR_07 : FF 0.7 = true /\ 0 <= FR 0.7 <= 1 /\ Rabs (FR 0.7 - 7 / 10) <= / 4 * eps.
Proof.
  assert (E : 0.7%float = int_div 7 10) by (vm_compute; reflexivity). rewrite E.
  apply (term_FR 7 10); lia.
Qed.

Lemma mul07 o u n : stands o u n ->
  FF (0.7 * o) = true /\ 0 <= FR (0.7 * o) <= 2 /\ Rabs (FR (0.7 * o) - 7 / 10 * u) <= (n + 2) * eps.
Proof.
  intros [Ho [Ro [Rn So]]]. destruct FR_07 as [F7 [R7 S7]].
  assert (Hp : 0 <= FR 0.7 * FR o <= 2) by nra.
  assert (Hr : 0 <= rnd (FR 0.7 * FR o) <= 2).
  { split; [rewrite <- rnd_0|rewrite <- rnd_2]; apply rnd_le; tauto. }
  destruct (mul_FR 0.7 o F7 Ho) as [H1 H2]; [apply (small_ov _ 1); simpl; lra || lia|].
  rewrite H2. split; [exact H1|]. split; [exact Hr|].
  pose proof (rnd_abs _ (proj1 Hp)) as E. pose proof eps_pos as He.
  apply Rabs_le. apply Rabs_le_inv in E, So, S7.
  assert (P1 : FR 0.7 * FR o - 7 / 10 * FR o <= / 2 * eps) by nra.
  assert (P2 : - (/ 2 * eps) <= FR 0.7 * FR o - 7 / 10 * FR o) by nra.
  assert ((/ 2 * (FR 0.7 * FR o) + / 4) * eps <= 5 / 4 * eps) by nra.
  nra.
Qed.

(** ** [calculate_obj_value()] *)
Definition rweighted (us : list R) : R :=
  match rev us with
  | [] => 0
  | [only] => only
  | last :: front => fold_right Rplus 0 front + 7 / 10 * last
  end.

Lemma Q2R_weighted l : Q2R (weighted l) = rweighted (map Q2R l).
Proof.
  unfold weighted, rweighted. rewrite <- map_rev. destruct (rev l) as [|a [|b t]]; cbn [map].
  - apply Q2R_0.
  - reflexivity.
  - rewrite Q2R_plus, Q2R_mult, Q2R_qsum. cbn [map].
    replace (Q2R (7 # 10)) with (7 / 10) by (unfold Q2R; simpl; lra). reflexivity.
Qed.

Lemma rsum_app a b : fold_right Rplus 0 (a ++ b) = fold_right Rplus 0 a + fold_right Rplus 0 b.
Proof. induction a as [|x a IH]; cbn; [ring|]. rewrite IH. ring. Qed.

Lemma rsum_rev a : fold_right Rplus 0 (rev a) = fold_right Rplus 0 a.
Proof. induction a as [|x a IH]; cbn; [reflexivity|]. rewrite rsum_app, IH. cbn. ring. Qed.

Lemma value_stands l : l <> [] -> Forall (fun t => stands (fst t) (fst (snd t)) (snd (snd t))) l -> (zlen l < 2 ^ 50)%Z ->
  exists v, obj_value farith (zlen l) (map fst l) = Ok v /\ FF v = true /\ 0 <= FR v <= 2 * IZR (zlen l) /\
    Rabs (FR v - rweighted (map (fun t => fst (snd t)) l)) <=
      (fold_right Rplus 0 (map (fun t => snd (snd t)) l) + 2 * IZR (zlen l) * IZR (zlen l)) * eps.
Proof.
  intros Hne Hl Hlen. destruct (exists_last Hne) as [front [[o [u n]] ->]].
  apply Forall_app in Hl. destruct Hl as [Hf Ho]. apply Forall_inv in Ho. cbn [fst snd] in Ho.
  assert (Hz : zlen (front ++ [(o, (u, n))]) = (zlen front + 1)%Z) by (unfold zlen; rewrite app_length; simpl; lia).
  assert (H0 : (0 <= zlen front)%Z) by (unfold zlen; lia).
  rewrite Hz in *. unfold obj_value. destruct FR_0 as [F0 R0].
  assert (S0 : Rabs (FR 0 - 0) <= 0 * eps) by (rewrite R0, Rminus_0_r, Rabs_R0, Rmult_0_l; lra).
  assert (Rf0 : 0 <= IZR (zlen front)) by (apply IZR_le; lia). pose proof eps_pos as He.
  destruct front as [|f front] using rev_ind.
  - replace (zlen [] + 1 =? 1)%Z with true by reflexivity. eexists. split; [reflexivity|].
    cbn [app map fold_right fst snd nsum farith]. change (zlen []) with 0%Z.
    assert (Ho' : Forall (fun t => stands (fst t) (fst (snd t)) (snd (snd t))) [(o, (u, n))]) by (constructor; [exact Ho|constructor]).
    destruct (sum_stands [(o, (u, n))] Ho' 0%float 0%Z 0 0 F0) as [I1 [I2 I3]];
      [lia|cbn; lia|rewrite R0; lra|exact S0|].
    cbn [map fold_left fold_right fst snd] in *. change (zlen [(o, (u, n))]) with 1%Z in *. split; [exact I1|].
    split; [exact I2|].
    unfold rweighted. cbn [rev app]. replace (0 + (u + 0)) with u in I3 by ring.
    eapply Rle_trans; [exact I3|]. apply Rmult_le_compat_r; [lra|]. simpl. destruct Ho as [_ [_ [Hn _]]]. lra.
  - clear IHfront. set (fr := front ++ [f]) in *.
    assert (H1 : (1 <= zlen fr)%Z) by (unfold fr, zlen; rewrite app_length; simpl; lia).
    replace (zlen fr + 1 =? 1)%Z with false by (symmetry; apply Z.eqb_neq; lia).
    rewrite map_app. cbn [map fst]. rewrite last_get, front_slice. cbn [bind]. eexists. split; [reflexivity|].
    change (nsum farith) with (fun l => fold_left PrimFloat.add l 0%float).
    change (nadd farith) with PrimFloat.add. change (n07 farith) with (fun x => PrimFloat.mul 0.7%float x). cbv beta.
    destruct (sum_stands fr Hf 0%float 0%Z 0 0 F0) as [I1 [I2 I3]]; [lia|lia|rewrite R0; lra|exact S0|].
    rewrite Z.add_0_l in I2. rewrite !Rplus_0_l in I3. set (s := fold_left _ _ _) in *.
    destruct (mul07 o u n Ho) as [M1 [M2 M3]].
    destruct (add_step s _ (zlen fr) I1 M1 H0 ltac:(lia) I2 M2) as [A1 [A2 A3]].
    split; [exact A1|]. split; [exact A2|].
    rewrite !map_app. cbn [map fst snd].
    assert (E : rweighted (map (fun t => fst (snd t)) fr ++ [u]) =
                fold_right Rplus 0 (map (fun t => fst (snd t)) fr) + 7 / 10 * u).
    { unfold rweighted. rewrite rev_app_distr. cbn [rev app]. unfold fr. rewrite map_app, rev_app_distr. cbn [map rev app].
      rewrite rsum_app. cbn [fold_right]. rewrite rsum_rev. ring. }
    rewrite E, rsum_app. cbn [fold_right]. rewrite Rplus_0_r.
    assert (R1 : 1 <= IZR (zlen fr)) by (apply IZR_le; lia). rewrite plus_IZR.
    set (N := IZR (zlen fr)) in *. set (U := fold_right Rplus 0 (map (fun t => fst (snd t)) fr)) in *.
    set (Ns := fold_right Rplus 0 (map (fun t => snd (snd t)) fr)) in *.
    apply Rabs_le. apply Rabs_le_inv in I3, M3, A3.
    assert (Q : (Ns + N * (N + / 4) + (n + 2) + (N + 5 / 4)) * eps <= (Ns + n + 2 * (N + 1) * (N + 1)) * eps).
    { apply Rmult_le_compat_r; [lra|]. nra. }
    nra.
Qed.
