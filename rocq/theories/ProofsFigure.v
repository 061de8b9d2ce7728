(** * Figures: the ticks of the axes (in doubles) and the colours. *)
From Coq Require Import ZArith Reals Lra Lia Bool List String Ascii SpecFloat Floats FMapPositive Psatz.
From Flocq Require Import Core BinarySingleNaN PrimFloat.
From Verif Require Import Py Arith FloatArith ProofsFloat ProofsFloatValues ProofsPartition MultiProcess Report SpecReport Colours.
Import ListNotations.

#[local] Existing Instance fexp64_valid.
#[local] Existing Instance Hprec.
#[local] Existing Instance Hmax.

(** ** Ticks *)
Section Ticks.
Open Scope R_scope.
Lemma div20 d : (0 < d < 2 ^ 1000)%Z ->
  exists z, true_div d 20 = Ok z /\ is_finite_SF z = true /\ SF2R radix2 z = rnd (IZR d / 20).
Proof.
  intros Hd. assert (P : 0 < IZR d) by (apply IZR_lt; lia).
  assert (L : IZR d < bpow radix2 1000) by (rewrite pow_R by lia; apply IZR_lt; lia).
  destruct (quotient_R d 20 ltac:(lia) ltac:(lia)) as [Q _].
  assert (B : Rabs (rnd (IZR d / 20)) < bpow radix2 1024).
  { assert (P0 : 0 <= rnd (IZR d / 20)) by (rewrite <- rnd_0; apply rnd_le; lra). rewrite Rabs_pos_eq by exact P0.
    eapply Rle_lt_trans; [|apply (bpow_lt radix2 1000); lia].
    rewrite <- (rnd_id (bpow radix2 1000)) by (apply format_pow; lia). apply rnd_le. lra. }
  destruct (Q B) as [Q1 Q2]. exists (ProofsPartition.quotient d 20). split; [|auto]. unfold true_div. change (20 =? 0)%Z with false. cbv iota.
  fold (ProofsPartition.quotient d 20). destruct (ProofsPartition.quotient d 20); try reflexivity; discriminate Q1.
Qed.

Lemma dtick_ok d : (0 <= d < 2 ^ 1000)%Z -> exists t, dtick d = Ok t /\ good_tick d t.
Proof.
  intros Hd. destruct (Z.eq_dec d 0) as [->|N].
  { exists 0%Z. split; [reflexivity|]. split; cbn; lia. }
  destruct (div20 d ltac:(lia)) as [z [E1 [E2 E3]]]. unfold dtick. rewrite E1. cbn [bind]. rewrite (sf_ceil_R z E2), E3.
  eexists. split; [reflexivity|]. set (x := IZR d / 20).
  assert (P : 1 <= IZR d) by (apply IZR_le; lia). assert (Px : / 20 <= x) by (unfold x; lra).
  assert (S : bpow radix2 (-1022) <= x).
  { eapply Rle_trans; [apply (bpow_le radix2 (-1022) (-5)); lia|]. change (bpow radix2 (-5)) with (/ 32). lra. }
  pose proof (rnd_rel x S) as R. apply Rabs_le_inv in R.
  assert (B53 : bpow radix2 (-53) = / IZR (2 ^ 53)) by (change (-53)%Z with (- (53))%Z; rewrite bpow_opp, pow_R by lia; reflexivity).
  assert (X : 20 * x = IZR d) by (unfold x; lra).
  pose proof (Zceil_ub (rnd x)) as U. pose proof (Zceil_lb (rnd x)) as Lb. set (t := Zceil (rnd x)) in *.
  split.
  - intros Hs. assert (Ls : IZR d < IZR (2 ^ 53)) by (apply IZR_lt; exact Hs).
    assert (Pp : 0 < IZR (2 ^ 53)) by (apply IZR_lt; lia).
    assert (Er : bpow radix2 (-53) * x < / 20).
    { rewrite B53. apply Rmult_lt_reg_l with (IZR (2 ^ 53)); [exact Pp|]. rewrite <- Rmult_assoc, Rinv_r, Rmult_1_l by lra. unfold x. lra. }
    assert (Hk : exists k, (20 * (k - 1) < d <= 20 * k)%Z).
    { exists ((d + 19) / 20)%Z. pose proof (Z.div_mod (d + 19) 20 ltac:(lia)). pose proof (Z.mod_pos_bound (d + 19) 20 ltac:(lia)). lia. }
    destruct Hk as [k Hk].
    assert (t = k) as ->; [|exact Hk]. apply Z.le_antisymm.
    + apply Zceil_glb. rewrite <- (rnd_id (IZR k)) by (apply format_Z; lia). apply rnd_le.
      assert (IZR d <= IZR (20 * k)) by (apply IZR_le; lia). rewrite mult_IZR in *. lra.
    + assert (K : IZR (20 * (k - 1) + 1) <= IZR d) by (apply IZR_le; lia). rewrite plus_IZR, mult_IZR, minus_IZR in K.
      assert (G : IZR (k - 1) < IZR t) by (rewrite minus_IZR; lra). apply lt_IZR in G. lia.
  - assert (B50 : bpow radix2 (-53) * IZR (2 ^ 50) = / 8).
    { rewrite <- pow_R by lia. rewrite <- bpow_plus. change (bpow radix2 (-53 + 50)) with (/ 8). reflexivity. }
    assert (P50 : 0 < IZR (2 ^ 50)) by (apply IZR_lt; lia).
    apply le_IZR. rewrite mult_IZR, abs_IZR, plus_IZR, !mult_IZR, minus_IZR, mult_IZR.
    set (b := bpow radix2 (-53)) in *. set (p := IZR (2 ^ 50)) in *.
    assert (A : Rabs (20 * IZR t - IZR d) <= 20 + b * IZR d).
    { apply Rabs_le. rewrite <- X. pose proof (bpow_gt_0 radix2 (-53)) as Bp. fold b in Bp. split; nra. }
    apply Rle_trans with ((20 + b * IZR d) * p); [apply Rmult_le_compat_r; lra|].
    replace ((20 + b * IZR d) * p) with (20 * p + (b * p) * IZR d) by ring. rewrite B50. lra.
Qed.
End Ticks.

(** ** Colours *)
Definition add_bits (p : positive) (c : ascii) : positive :=
  let b (x : bool) p := if x then xI p else xO p in
  match c with Ascii a0 a1 a2 a3 a4 a5 a6 a7 => b a0 (b a1 (b a2 (b a3 (b a4 (b a5 (b a6 (b a7 p))))))) end.
Definition code (s : string) : positive := fold_left add_bits (list_ascii_of_string s) xH.
Fixpoint distinct (m : PositiveMap.t unit) (l : list positive) : bool :=
  match l with
  | [] => true
  | x :: t => negb (PositiveMap.mem x m) && distinct (PositiveMap.add x tt m) t
  end.
Lemma distinct_ok l : forall m, distinct m l = true -> NoDup l /\ (forall x, In x l -> PositiveMap.find x m = None).
Proof.
  induction l as [|x l IH]; intros m H; [split; [constructor|contradiction]|]. cbn in H. apply andb_true_iff in H. destruct H as [H1 H2].
  apply negb_true_iff in H1. destruct (IH _ H2) as [I1 I2].
  assert (Nx : PositiveMap.find x m = None). { rewrite PositiveMap.mem_find in H1. destruct (PositiveMap.find x m); [discriminate|reflexivity]. }
  split.
  - constructor; [|exact I1]. intros Hin. specialize (I2 x Hin). rewrite PositiveMap.gss in I2. discriminate.
  - intros y [<-|Hy]; [exact Nx|]. specialize (I2 y Hy). destruct (Pos.eq_dec y x) as [->|E]; [exact Nx|]. rewrite PositiveMap.gso in I2 by exact E. exact I2.
Qed.

Lemma colours_distinct : NoDup items_colors.
Proof.
  apply (NoDup_map_inv code). apply (distinct_ok _ (PositiveMap.empty unit)). vm_compute. reflexivity.
Qed.
Lemma colours_number : List.length items_colors = 1000%nat.
Proof. vm_compute. reflexivity. Qed.
Definition rgbb (s : string) : bool :=
  match s with
  | String c t => Ascii.eqb c "#" && (String.length t =? 6)%nat && forallb hex_digit (list_ascii_of_string t)
  | EmptyString => false
  end.
Lemma colours_rgb : Forall rgb items_colors.
Proof.
  assert (H : forallb rgbb items_colors = true) by (vm_compute; reflexivity).
  apply Forall_forall. intros s Hs. rewrite forallb_forall in H. specialize (H s Hs). destruct s as [|c t]; [discriminate|]. cbn in H.
  apply andb_true_iff in H. destruct H as [H H3]. apply andb_true_iff in H. destruct H as [H1 H2].
  apply Ascii.eqb_eq in H1. subst c. apply Nat.eqb_eq in H2. exists t. auto.
Qed.
