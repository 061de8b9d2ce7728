(** * Doubles satisfy the order laws of the values ([value_laws]).

    Infinities included: the only assumption is that values are not NaN, and no operation of the
    objective value makes one. *)
From Coq Require Import ZArith List Reals Lra Lia Bool Floats SpecFloat.
From Flocq Require Import Core BinarySingleNaN PrimFloat.
From Verif Require Import Arith FloatArith FloatLaws SpecFloats ProofsFloat.
Import ListNotations.

Definition sfle (x y : spec_float) : bool :=
  match SFcompare x y with Some Lt | Some Eq => true | _ => false end.

Lemma leb_sfle x y : PrimFloat.leb x y = sfle (Prim2SF x) (Prim2SF y).
Proof.
  rewrite FloatAxioms.leb_spec. unfold SFleb, sfle.
  destruct (SFcompare _ _) as [[]|]; reflexivity.
Qed.

Lemma sfle_trans x y z : sfle x y = true -> sfle y z = true -> sfle x z = true.
Proof.
  unfold sfle.
  destruct x as [[]|[]| |[] m1 e1], y as [[]|[]| |[] m2 e2], z as [[]|[]| |[] m3 e3];
    simpl; try discriminate; auto;
    change (Pos.compare_cont Eq m1 m2) with (Pos.compare m1 m2);
    change (Pos.compare_cont Eq m2 m3) with (Pos.compare m2 m3);
    change (Pos.compare_cont Eq m1 m3) with (Pos.compare m1 m3).
  all: destruct (Z.compare_spec e1 e2), (Z.compare_spec e2 e3), (Z.compare_spec e1 e3);
    try discriminate; try lia; auto.
  all: destruct (Pos.compare_spec m1 m2), (Pos.compare_spec m2 m3), (Pos.compare_spec m1 m3);
    simpl; try discriminate; try lia; auto.
Qed.

Lemma sfle_refl x : sfle x x = match x with S754_nan => false | _ => true end.
Proof.
  unfold sfle. destruct x as [[]|[]| |[] m e]; simpl; try reflexivity;
    rewrite Z.compare_refl, Pos.compare_cont_refl; reflexivity.
Qed.

Lemma sf_antisym x y : SFcompare y x = match SFcompare x y with Some c => Some (CompOpp c) | None => None end.
Proof.
  destruct x as [[]|[]| |[] m1 e1], y as [[]|[]| |[] m2 e2]; try reflexivity; cbn [SFcompare];
    rewrite (Z.compare_antisym e1 e2); destruct (e1 ?= e2)%Z; try reflexivity; cbn [CompOpp];
    change (Pos.compare_cont Eq m1 m2) with (Pos.compare m1 m2);
    change (Pos.compare_cont Eq m2 m1) with (Pos.compare m2 m1);
    rewrite (Pos.compare_antisym m1 m2); destruct (Pos.compare m1 m2); reflexivity.
Qed.

Lemma sf_some x y : sfle x x = true -> sfle y y = true -> SFcompare x y <> None.
Proof.
  rewrite !sfle_refl. destruct x as [[]|[]| |[] m1 e1], y as [[]|[]| |[] m2 e2]; try discriminate; intros _ _; cbn [SFcompare];
    try discriminate; destruct (e1 ?= e2)%Z; discriminate.
Qed.

(** ** Nonnegative doubles *)
Lemma nonneg_cases x : nonneg farith x <->
  match Prim2B x with
  | B754_zero _ | B754_infinity false | B754_finite false _ _ _ => True
  | _ => False
  end.
Proof.
  unfold nonneg, at_most. cbn [ngeb num0 farith]. rewrite leb_sfle, <- (B2SF_Prim2B x).
  change (Prim2SF 0) with (S754_zero false).
  destruct (Prim2B x) as [[]|[]| |[] m e H]; cbn; intuition discriminate.
Qed.

Lemma nonneg_FR x : nonneg farith x -> (0 <= FR x)%R.
Proof.
  rewrite nonneg_cases. unfold FR. destruct (Prim2B x) as [s|[]| |[] m e H]; cbn [B2R]; try lra; try contradiction.
  intros _. apply F2R_ge_0. cbn. lia.
Qed.

Lemma FR_nonneg x : FF x = true -> (0 <= FR x)%R -> nonneg farith x.
Proof.
  intros Hf H. unfold nonneg, at_most. cbn [ngeb num0 farith]. destruct FR_0 as [F0 R0].
  rewrite leb_FR by assumption. rewrite R0. apply Rle_bool_true. exact H.
Qed.

Lemma sf_nonneg (z : spec_float) : SpecFloat.valid_binary prec emax z = true ->
  match z with S754_infinity false => True | _ => False end -> nonneg farith (SF2Prim z).
Proof.
  intros Hv H. unfold nonneg, at_most. cbn [ngeb num0 farith]. rewrite leb_sfle, Prim2SF_SF2Prim by exact Hv.
  destruct z as [[]|[]| |[] m e]; try contradiction. reflexivity.
Qed.

Lemma rnd_nonneg x : (0 <= x)%R -> (0 <= rnd x)%R.
Proof. intros H. replace 0%R with (rnd 0); [apply rnd_le; exact H|apply rnd_id; apply format_0]. Qed.

Lemma add_nonneg x y : nonneg farith x -> nonneg farith y -> nonneg farith (x + y)%float.
Proof.
  intros Hx Hy. pose proof Hx as Cx. pose proof Hy as Cy. rewrite nonneg_cases in Cx, Cy.
  destruct (FF x) eqn:Fx; [|].
  - destruct (FF y) eqn:Fy.
    + destruct (Rlt_dec (Rabs (rnd (FR x + FR y))) (bpow radix2 1024)) as [Hov|Hov].
      * destruct (add_FR x y Fx Fy Hov) as [G1 G2]. apply FR_nonneg; [exact G1|]. rewrite G2. apply rnd_nonneg.
        pose proof (nonneg_FR x Hx). pose proof (nonneg_FR y Hy). lra.
      * rewrite nonneg_cases, add_equiv.
        pose proof (Bplus_correct _ _ Hprec Hmax mode_NE (Prim2B x) (Prim2B y) Fx Fy) as H.
        rewrite round_NE in H. rewrite Rlt_bool_false in H by (apply Rnot_lt_le; exact Hov). destruct H as [H1 H2].
        assert (Hs : Bsign (Prim2B x) = false).
        { destruct (Bsign (Prim2B x)) eqn:E; [|reflexivity]. exfalso. apply Hov.
          unfold FR. destruct (Prim2B x) as [[]|[]| |[] m e Hm]; try discriminate E; try contradiction.
          destruct (Prim2B y) as [[]|[]| |[] m' e' Hm']; try discriminate H2; try contradiction.
          cbn [B2R]. rewrite Rplus_0_r. rewrite (rnd_id 0 format_0), Rabs_R0. apply bpow_gt_0. }
        rewrite Hs in H1. change (binary_overflow prec emax mode_NE false) with (S754_infinity false) in H1.
        set (b := BinarySingleNaN.Bplus mode_NE (Prim2B x) (Prim2B y)) in *. clearbody b.
        destruct b as [[]|[]| |[] m e Hm]; cbn in H1; try discriminate H1. exact I.
    + rewrite nonneg_cases, add_equiv. unfold FF in Fx, Fy.
      destruct (Prim2B x) as [[]|[]| |[] m e Hm]; try discriminate Fx; try contradiction;
        destruct (Prim2B y) as [[]|[]| |[] m' e' Hm']; try discriminate Fy; try contradiction; exact I.
  - rewrite nonneg_cases, add_equiv. unfold FF in Fx.
    destruct (Prim2B x) as [[]|[]| |[] m e Hm]; try discriminate Fx; try contradiction;
      destruct (Prim2B y) as [[]|[]| |[] m' e' Hm']; try contradiction; exact I.
Qed.

Lemma FR_07_pos : FF 0.7 = true /\ (0 < FR 0.7)%R /\ exists m e H, Prim2B 0.7 = B754_finite false m e H.
Proof.
  assert (E : exists m e H, Prim2B 0.7 = B754_finite false m e H).
  { assert (G : B2SF (Prim2B 0.7) = Prim2SF 0.7) by apply B2SF_Prim2B.
    destruct (Prim2B 0.7) as [[]|[]| |[] m e H]; try (vm_compute in G; discriminate G). eauto. }
  destruct E as [m [e [H E]]]. unfold FF, FR. rewrite E. split; [reflexivity|]. split; [|eauto].
  cbn [B2R]. apply F2R_gt_0. cbn. lia.
Qed.

Lemma mul07_nonneg x : nonneg farith x -> nonneg farith (0.7 * x)%float.
Proof.
  intros Hx. destruct FR_07_pos as [F7 [P7 [m7 [e7 [H7 E7]]]]].
  destruct (FF x) eqn:Fx.
  - destruct (Rlt_dec (Rabs (rnd (FR 0.7 * FR x))) (bpow radix2 1024)) as [Hov|Hov].
    + destruct (mul_FR 0.7 x F7 Fx Hov) as [G1 G2]. apply FR_nonneg; [exact G1|]. rewrite G2. apply rnd_nonneg.
      pose proof (nonneg_FR x Hx). apply Rmult_le_pos; lra.
    + pose proof Hx as Cx. rewrite nonneg_cases in Cx |- *. rewrite mul_equiv.
      pose proof (Bmult_correct _ _ Hprec Hmax mode_NE (Prim2B 0.7) (Prim2B x)) as H.
      rewrite round_NE in H. rewrite Rlt_bool_false in H by (apply Rnot_lt_le; exact Hov).
      assert (Hs : Bsign (Prim2B x) = false).
      { destruct (Bsign (Prim2B x)) eqn:E; [|reflexivity]. exfalso. apply Hov. unfold FR at 2.
        destruct (Prim2B x) as [[]|[]| |[] m e Hm]; try discriminate E; try contradiction.
        cbn [B2R]. rewrite Rmult_0_r. rewrite (rnd_id 0 format_0), Rabs_R0. apply bpow_gt_0. }
      assert (Hs7 : Bsign (Prim2B 0.7) = false) by (rewrite E7; reflexivity).
      rewrite Hs, Hs7 in H. change (binary_overflow prec emax mode_NE (xorb false false)) with (S754_infinity false) in H.
      set (b := BinarySingleNaN.Bmult mode_NE (Prim2B 0.7) (Prim2B x)) in *. clearbody b.
      destruct b as [[]|[]| |[] m e Hm]; cbn in H; try discriminate H. exact I.
  - rewrite nonneg_cases in Hx |- *. rewrite mul_equiv, E7. unfold FF in Fx.
    destruct (Prim2B x) as [[]|[]| |[] m e Hm]; try discriminate Fx; try contradiction; exact I.
Qed.

Lemma int_div_nonneg a b : (0 <= a)%Z -> (0 < b)%Z -> nonneg farith (int_div a b).
Proof.
  intros Ha Hb. destruct (Rlt_dec (Rabs (rnd (IZR a / IZR b))) (bpow radix2 1024)) as [Hov|Hov].
  - destruct (div_FR a b Ha Hb Hov) as [G1 G2]. apply FR_nonneg; [exact G1|]. rewrite G2. apply rnd_nonneg.
    apply Rmult_le_pos; [apply IZR_le; exact Ha|]. left. apply Rinv_0_lt_compat. apply IZR_lt. exact Hb.
  - destruct b as [|q|q]; try lia. destruct a as [|p|p]; try lia.
    + exfalso. apply Hov. unfold Rdiv. rewrite Rmult_0_l, (rnd_id 0 format_0), Rabs_R0. apply bpow_gt_0.
    + unfold int_div. cbn [sf_of_Z].
      pose proof (Bdiv_correct_aux prec emax Hprec Hmax mode_NE false p 0 false q 0) as H. cbv zeta in H.
      unfold F2R in H. simpl (bpow _ _) in H. cbn [Fnum Fexp cond_Zopp] in H. rewrite !Rmult_1_r in H.
      destruct H as [Hvb H]. rewrite round_NE in H. rewrite Rlt_bool_false in H by (apply Rnot_lt_le; exact Hov).
      assert (E : SFdiv prec emax (S754_finite false p 0) (S754_finite false q 0) =
        (let '(mz, ez, lz) := SFdiv_core_binary prec emax (Zpos p) 0 (Zpos q) 0 in
         BinarySingleNaN.binary_round_aux prec emax mode_NE (xorb false false) mz ez lz)).
      { unfold SFdiv. destruct (SFdiv_core_binary prec emax (Zpos p) 0 (Zpos q) 0) as [[mz ez] lz].
        apply binary_round_aux_equiv. }
      rewrite E. set (z := let '(mz, ez, lz) := _ in _) in *. apply sf_nonneg; [exact Hvb|].
      rewrite H. exact I.
Qed.

Lemma fold_add_nonneg l : forall a, nonneg farith a -> (forall x, In x l -> nonneg farith x) ->
  nonneg farith (fold_left PrimFloat.add l a).
Proof.
  induction l as [|b l IH]; intros a Ha H; [exact Ha|]. cbn [fold_left]. apply IH.
  - apply add_nonneg; [exact Ha|]. apply H. left. reflexivity.
  - intros x Hx. apply H. right. exact Hx.
Qed.

Lemma farith_values : value_laws farith.
Proof.
  constructor.
  - intros x y z. unfold at_most. cbn [ngeb farith]. rewrite !leb_sfle. apply sfle_trans.
  - intros x y. unfold at_most. cbn [ngeb farith]. rewrite !leb_sfle, !sfle_refl. unfold sfle.
    destruct (Prim2SF x) as [[]|[]| |[] m1 e1], (Prim2SF y) as [[]|[]| |[] m2 e2]; try discriminate; auto.
  - intros x y. unfold at_most. cbn [ngeb ngtb farith]. rewrite ltb_sflt, !leb_sfle. intros Hx Hy.
    unfold sflt, sfle. rewrite (sf_antisym (Prim2SF x) (Prim2SF y)).
    pose proof (sf_some _ _ Hx Hy) as Hn. destruct (SFcompare (Prim2SF x) (Prim2SF y)) as [[]|]; try reflexivity.
    contradiction.
  - intros x y. unfold below, at_most. cbn [ngeb ngtb farith]. rewrite ltb_sflt, leb_sfle. unfold sflt, sfle.
    destruct (SFcompare _ _) as [[]|]; auto.
  - intros x y. unfold at_most. cbn [ngeb neqb farith]. rewrite FloatAxioms.eqb_spec, !leb_sfle. unfold SFeqb, sfle.
    rewrite (sf_antisym (Prim2SF x) (Prim2SF y)). destruct (SFcompare (Prim2SF x) (Prim2SF y)) as [[]|]; cbn; intuition discriminate.
  - reflexivity.
  - reflexivity.
  - reflexivity.
  - exact int_div_nonneg.
  - exact add_nonneg.
  - exact mul07_nonneg.
  - intros l H. apply fold_add_nonneg; [reflexivity|exact H].
Qed.

Lemma farith_orderly : orderly farith.
Proof. exact (conj farith_laws farith_values). Qed.
