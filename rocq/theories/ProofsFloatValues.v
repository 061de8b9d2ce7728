(** * Objective values in doubles. *)
From Coq Require Import ZArith String List Bool QArith Qabs Qreals Reals Lra Lia Psatz Floats Permutation.
From Flocq Require Import Core.
From Verif Require Import Py Arith Construct Spec Runs FloatArith FloatLaws SpecFloats ProofsFloat
  ProofsPy ProofsGrid ProofsConstruct ProofsSolve ProofsPacking ProofsSolution ProofsValues.
Import ListNotations.
Open Scope R_scope.

Notation eps := (bpow radix2 (-52)).
Lemma eps_53 : bpow radix2 (-53) = / 2 * eps.
Proof. change (-53)%Z with (-1 + -52)%Z. rewrite bpow_plus. reflexivity. Qed.
Lemma eps_54 : bpow radix2 (-54) = / 4 * eps.
Proof. change (-54)%Z with (-2 + -52)%Z. rewrite bpow_plus. reflexivity. Qed.
Lemma eps_pos : 0 < eps.
Proof. apply bpow_gt_0. Qed.

Lemma rnd_0 : rnd 0 = 0.
Proof. apply round_0. auto with typeclass_instances. Qed.
Lemma rnd_1 : rnd 1 = 1.
Proof. apply rnd_id. change 1 with (bpow radix2 0). apply format_pow. lia. Qed.
Lemma rnd_2 : rnd 2 = 2.
Proof. apply rnd_id. change 2 with (bpow radix2 1). apply format_pow. lia. Qed.
Lemma small_ov x e : (e <= 1023)%Z -> 0 <= x -> x <= bpow radix2 e -> Rabs x < bpow radix2 1024.
Proof.
  intros He H0 H. rewrite Rabs_pos_eq by exact H0. eapply Rle_lt_trans; [exact H|]. apply bpow_lt. lia.
Qed.
Lemma two_pow : 2 = bpow radix2 1. Proof. reflexivity. Qed.

(** The quotient of an area by a larger one. *)
Lemma term_FR a D : (0 <= a <= D)%Z -> (0 < D)%Z ->
  FF (int_div a D) = true /\ 0 <= FR (int_div a D) <= 1 /\
  Rabs (FR (int_div a D) - IZR a / IZR D) <= / 4 * eps.
Proof.
  intros Ha HD. assert (HDR : 0 < IZR D) by (apply IZR_lt; lia).
  assert (Hq : 0 <= IZR a / IZR D <= 1).
  { split.
    - apply Rmult_le_pos; [apply IZR_le; lia|]. apply Rlt_le, Rinv_0_lt_compat. exact HDR.
    - apply Rmult_le_reg_r with (IZR D); [exact HDR|]. unfold Rdiv. rewrite Rmult_assoc, Rinv_l by lra.
      rewrite Rmult_1_r, Rmult_1_l. apply IZR_le. lia. }
  assert (Hr : 0 <= rnd (IZR a / IZR D) <= 1).
  { split; [rewrite <- rnd_0|rewrite <- rnd_1]; apply rnd_le; tauto. }
  destruct (div_FR a D) as [H1 H2]; [lia|lia|apply (small_ov _ 0); simpl; lra || lia|].
  rewrite H2. split; [exact H1|]. split; [exact Hr|].
  rewrite <- eps_54. apply (rnd_err _ 0); [lia|]. simpl. rewrite Rabs_pos_eq; lra.
Qed.

Lemma sum_FR o t : FF o = true -> FF t = true -> 0 <= FR o <= 1 -> 0 <= FR t <= 1 ->
  FF (o + t) = true /\ 0 <= FR (o + t) <= 2 /\ Rabs (FR (o + t) - (FR o + FR t)) <= / 2 * eps.
Proof.
  intros Ho Ht H1 H2.
  assert (Hr : 0 <= rnd (FR o + FR t) <= 2).
  { split; [rewrite <- rnd_0|rewrite <- rnd_2]; apply rnd_le; lra. }
  destruct (add_FR o t Ho Ht) as [H3 H4]; [apply (small_ov _ 1); simpl; lra || lia|].
  rewrite H4. split; [exact H3|]. split; [exact Hr|].
  rewrite <- eps_53. apply (rnd_err _ 1); [lia|]. simpl. rewrite Rabs_pos_eq; lra.
Qed.

Lemma total_area_cat a b : (total_area (a ++ b) = total_area a + total_area b)%Z.
Proof. unfold total_area. induction a as [|e a IH]; simpl; [reflexivity|]. rewrite IH. lia. Qed.

(** What the accumulated value is after some iterations. *)
Definition close (D : Z) (es : list entry) (o : PrimFloat.float) : Prop :=
  FF o = true /\ 0 <= FR o <= 2 /\
  Rabs (FR o - IZR (total_area es) / IZR D) <= INR (length es) * eps.

(** One iteration keeps the value close. *)
Lemma close_body W L rotation strategy its u p u1 : (0 < W)%Z -> (0 < L)%Z -> valid_items its ->
  inv farith W L false rotation its u -> running farith u p ->
  loop_body farith W L false rotation strategy u p = Ok u1 ->
  close (W * L) (placed_entries farith u) (st_obj u) -> close (W * L) (placed_entries farith u1) (st_obj u1).
Proof.
  intros Hw HL Hi Hu [Hp [_ Hge]] Hbody Hcu. assert (HD : (0 < W * L)%Z) by nia.
    pose proof (i_cur _ _ _ _ _ _ _ Hu p Hp) as Hpb.
    destruct (loop_body_spec farith _ _ _ _ strategy _ Hi u p Hu Hpb)
      as [u1' [? [? [Hb' [Hi' [Hout' _]]]]]].
    assert (u1' = u1) by congruence. subst u1'. 
    destruct Hcu as [C1 [C2 C3]].
    cbn [ngeb farith num1] in Hge. rewrite leb_FR in Hge by (try apply FR_1; exact C1).
    destruct FR_1 as [_ E1]. rewrite E1 in Hge.
    assert (Hlt : FR (st_obj u) < 1) by (destruct (Rle_bool_spec 1 (FR (st_obj u))); [discriminate|assumption]).
    destruct Hout' as [i d rot ? ? _ _ _ _ Hs' _ | _ Hs' _].
    - assert (Hpe : placed_entries farith u1 = placed_entries farith u ++
                      [export (mkPlaced d (fst p) (snd p) rot)]).
      { unfold placed_entries. rewrite Hs', map_app. reflexivity. }
      assert (Hin : In (export (mkPlaced d (fst p) (snd p) rot)) (placed_entries farith u1)).
      { rewrite Hpe. apply in_or_app. right. left. reflexivity. }
      apply (i_in _ _ _ _ _ _ _ Hi') in Hin. unfold inside in Hin.
      rewrite (i_obj _ _ _ _ _ _ _ Hi'), Hpe, fold_left_app, <- (i_obj _ _ _ _ _ _ _ Hu).
      set (ee := export _) in *. cbn [fold_left].
      assert (Ha : (0 <= entry_area ee <= W * L)%Z).
      { unfold entry_area. split; [nia|]. apply Z.mul_le_mono_nonneg; lia. }
      change (ndiv farith (entry_area ee) (W * L)) with (int_div (entry_area ee) (W * L)).
      change (nadd farith) with PrimFloat.add.
      destruct (term_FR (entry_area ee) (W * L) Ha HD) as [T1 [T2 T3]].
      destruct (sum_FR (st_obj u) _ C1 T1 ltac:(lra) T2) as [U1 [U2 U3]].
      split; [exact U1|]. split; [exact U2|].
      rewrite total_area_cat. change (total_area [ee]) with (entry_area ee + 0)%Z. rewrite Z.add_0_r.
      rewrite app_length, plus_INR. simpl (INR (length [ee])).
      rewrite plus_IZR. unfold Rdiv in *. rewrite Rmult_plus_distr_r.
      pose proof eps_pos. apply Rabs_le. apply Rabs_le_inv in U3, C3, T3. lra.
    - assert (Hpe : placed_entries farith u1 = placed_entries farith u) by (unfold placed_entries; rewrite Hs'; reflexivity).
      rewrite (i_obj _ _ _ _ _ _ _ Hi'), Hpe, <- (i_obj _ _ _ _ _ _ _ Hu). split; auto.
Qed.

Section Bin.
Context (pb : problem) (sequence : option (list string)).
Hypothesis Hv : valid_problem pb.
Hypothesis Hk : known_sequence pb sequence.

Lemma bin_close sol objs cid csol obj :
  pb_strip pb = false ->
  solve farith pb sequence = Ok (sol, objs) -> dget sol cid = Some csol -> dget objs cid = Some obj ->
  exists c, dget (pb_containers pb) cid = Some c /\ (0 < dw c * dl c)%Z /\
    close (dw c * dl c) (entries csol) obj.
Proof.
  intros Hstrip H Hs Ho.
  destruct (container_obj pb sequence Hv Hk farith _ _ _ _ _ H Hs Ho) as [c [its [its' [Hc [Hr [Hi [_ Hb]]]]]]].
  exists c. split; [assumption|]. destruct Hr as [Hw Hl].
  assert (HL : (0 < dl c)%Z) by (unfold container_length in Hl; rewrite Hstrip in Hl; exact Hl).
  assert (HD : (0 < dw c * dl c)%Z) by nia. split; [exact HD|].
  assert (Hnil : close (dw c * dl c) [] (num0 farith)).
  { destruct FR_0 as [F0 R0]. unfold close. cbn [num0 farith]. rewrite R0. simpl length. simpl INR.
    change (total_area []) with 0%Z. unfold Rdiv. rewrite !Rmult_0_l, Rminus_0_r, Rabs_R0.
    split; [exact F0|]. lra. }
  destruct Hb as [-> -> -> -> | s Hne Hst Hstop Hinv -> -> ->]; [exact Hnil|].
  assert (Hcl : container_length pb c = dl c) by (unfold container_length; rewrite Hstrip; reflexivity).
  unfold final_obj. rewrite entries_result.
  rewrite Hcl in *. rewrite Hstrip in *.
  rewrite <- (i_obj _ _ _ _ _ _ _ Hinv).
  assert (Hgen : forall u v, steps farith (dw c) (dl c) false (pb_rotation pb) (pb_strategy pb) u v ->
       inv farith (dw c) (dl c) false (pb_rotation pb) its u ->
       close (dw c * dl c) (placed_entries farith u) (st_obj u) ->
       close (dw c * dl c) (placed_entries farith v) (st_obj v)).
  { clear - Hw HL Hi. induction 1 as [u|u p u1 u2 Hrun Hbody _ IH]; intros Hu Hcu; [auto|].
    apply IH; [|eapply close_body; eassumption].
    destruct (loop_body_spec farith _ _ _ _ (pb_strategy pb) _ Hi u p Hu (i_cur _ _ _ _ _ _ _ Hu p (proj1 Hrun)))
      as [u1' [? [? [Hb' [Hi' _]]]]]. congruence. }
  apply (Hgen _ _ Hst); [apply inv_init; assumption|]. exact Hnil.
Qed.

Lemma strip_FR sol objs cid csol obj :
  pb_strip pb = true ->
  solve farith pb sequence = Ok (sol, objs) -> dget sol cid = Some csol ->
  dget objs cid = Some obj -> entries csol <> [] ->
  exists c, dget (pb_containers pb) cid = Some c /\ (0 < dw c)%Z /\
    obj = int_div (total_area (entries csol)) (dw c * Z.max 1 (stack_height (entries csol) - 1)).
Proof.
  intros Hstrip H Hs Ho Hne0.
  destruct (container_obj pb sequence Hv Hk farith _ _ _ _ _ H Hs Ho) as [c [its [its' [Hc [Hr [Hi [_ Hb]]]]]]].
  exists c. split; [assumption|]. destruct Hr as [Hw Hl]. split; [exact Hw|].
  destruct Hb as [-> -> -> -> | s Hne Hst Hstop Hinv -> -> ->].
  - exfalso. apply Hne0. reflexivity.
  - unfold final_obj. rewrite Hstrip, entries_result. reflexivity.
Qed.
End Bin.
