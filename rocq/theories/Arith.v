(** * The arithmetic behind objective values.

    hyperpack computes objective values with Python floats: [int / int], [+], [0.7 * x],
    [sum], [>], [>=] and one comparison [abs(d) / W <= 0.2]. The model takes these operations
    from a record, so that placement theorems hold for every arithmetic (IEEE doubles
    included) and value theorems can be stated for exact rationals. *)
From Coq Require Import ZArith List QArith Qreduction Bool.
Import ListNotations.

Record arith := {
  num : Type;
  num0 : num;                     (* mixins.py:67, 352  init_obj_value = 0 *)
  num1 : num;                     (* mixins.py:66, 353  max_obj_value = 1 *)
  nadd : num -> num -> num;       (* mixins.py:490      obj_value + ... *)
  ndiv : Z -> Z -> num;           (* mixins.py:20, 540  int / int *)
  n07 : num -> num;               (* mixins.py:1122     0.7 * last *)
  nsum : list num -> num;         (* mixins.py:1119, 1122  sum([...]) *)
  ngtb : num -> num -> bool;      (* mixins.py:1157, heuristics.py:425  x > y *)
  ngeb : num -> num -> bool;      (* mixins.py:401      x >= y *)
  nge_inf : num -> bool;          (* abstract.py:50, 58 x >= float("inf") *)
  nm1 : num;                      (* heuristics.py:530, processes.py:130  the literal -1 *)
  neqb : num -> num -> bool;      (* heuristics.py:530, 539  x == y *)
  ratio_le_fifth : Z -> Z -> bool (* mixins.py:190, 276 (d / W) <= 0.2 *)
}.

(** Exact rational arithmetic. [Qred] only normalises representations. *)
Definition Qgtb (x y : Q) : bool := negb (Qle_bool x y).
Definition Qgeb (x y : Q) : bool := Qle_bool y x.
Definition Qdivz (a b : Z) : Q :=
  match b with
  | Zpos p => Qred (a # p)
  | Zneg p => Qred (- a # p)
  | Z0 => 0
  end.

Definition qarith : arith := {|
  num := Q;
  num0 := 0%Q;
  num1 := 1%Q;
  nadd := fun x y => Qred (x + y);
  ndiv := Qdivz;
  n07 := fun x => Qred ((7 # 10) * x);
  nsum := fun l => fold_left (fun a x => Qred (a + x)) l 0%Q;
  ngtb := Qgtb;
  ngeb := Qgeb;
  nge_inf := fun _ => false;
  nm1 := (-1)%Q;
  neqb := Qeq_bool;
  ratio_le_fifth := fun d w => (5 * d <=? w)%Z
|}.

(** The order facts some theorems need. Both instances satisfy them ([qarith_laws] below,
    [farith_laws] in FloatLaws.v). *)
Record arith_laws (ar : arith) : Prop := {
  law_0_lt_1 : ngeb ar (num0 ar) (num1 ar) = false;
  law_gt_irrefl : forall x, ngtb ar x x = false;
  law_gt_trans : forall x y z, ngtb ar x y = true -> ngtb ar y z = true -> ngtb ar x z = true;
  law_ge_inf : forall x y, nge_inf ar x = true -> ngtb ar y x = false
}.

Lemma qarith_laws : arith_laws qarith.
Proof.
  constructor; simpl; unfold Qgtb.
  - reflexivity.
  - intros x. destruct (Qle_bool x x) eqn:E; [reflexivity|].
    assert (x <= x)%Q by apply Qle_refl. apply Qle_bool_iff in H. congruence.
  - intros x y z Hxy Hyz.
    destruct (Qle_bool x z) eqn:E; [|reflexivity].
    apply Qle_bool_iff in E.
    destruct (Qle_bool x y) eqn:E1; [discriminate|].
    destruct (Qle_bool y z) eqn:E2; [discriminate|].
    assert (y < x)%Q as H1.
    { apply Qnot_le_lt. intros H. apply Qle_bool_iff in H. congruence. }
    assert (z < y)%Q as H2.
    { apply Qnot_le_lt. intros H. apply Qle_bool_iff in H. congruence. }
    exfalso. apply (Qlt_irrefl z). eapply Qlt_le_trans; [|exact E].
    eapply Qlt_trans; eassumption.
  - discriminate.
Qed.

(** ** The order on values

    [x <= y] and [x < y] as Python compares them (false when one of them is NaN). *)
Definition at_most (ar : arith) (x y : num ar) : Prop := ngeb ar y x = true.
Definition below (ar : arith) (x y : num ar) : Prop := ngtb ar y x = true.
(** Neither negative nor NaN. *)
Definition nonneg (ar : arith) (x : num ar) : Prop := at_most ar (num0 ar) x.

(** What the theorems about several processes need: comparisons form a total order on the values
    that occur, and those are not negative. Both instances satisfy them ([qarith_values] below,
    [farith_values] in ProofsFloatOrder.v). *)
Record value_laws (ar : arith) : Prop := {
  vl_trans : forall x y z, at_most ar x y -> at_most ar y z -> at_most ar x z;
  (* the two sides of a comparison that holds are numbers *)
  vl_num : forall x y, at_most ar x y -> at_most ar x x /\ at_most ar y y;
  vl_total : forall x y, at_most ar x x -> at_most ar y y -> ngtb ar x y = negb (ngeb ar y x);
  vl_below : forall x y, below ar x y -> at_most ar x y;
  vl_eq : forall x y, neqb ar x y = true <-> at_most ar x y /\ at_most ar y x;
  vl_0 : nonneg ar (num0 ar);
  vl_m1 : below ar (nm1 ar) (num0 ar);
  vl_0_inf : nge_inf ar (num0 ar) = false;
  vl_div : forall a b, (0 <= a)%Z -> (0 < b)%Z -> nonneg ar (ndiv ar a b);
  vl_add : forall x y, nonneg ar x -> nonneg ar y -> nonneg ar (nadd ar x y);
  vl_07 : forall x, nonneg ar x -> nonneg ar (n07 ar x);
  vl_sum : forall l, (forall x, In x l -> nonneg ar x) -> nonneg ar (nsum ar l)
}.

Lemma qat_most x y : at_most qarith x y <-> (x <= y)%Q.
Proof. apply Qle_bool_iff. Qed.

Lemma qbelow x y : below qarith x y <-> (x < y)%Q.
Proof.
  unfold below. cbn [ngtb qarith]. unfold Qgtb. rewrite negb_true_iff. split.
  - intros H. apply Qnot_le_lt. intros C. apply Qle_bool_iff in C. congruence.
  - intros H. destruct (Qle_bool y x) eqn:E; [|reflexivity]. apply Qle_bool_iff in E.
    exfalso. apply (Qlt_irrefl x). eapply Qlt_le_trans; eassumption.
Qed.

Lemma qarith_values : value_laws qarith.
Proof.
  assert (A : forall x y : Q, (0 <= x)%Q -> (0 <= y)%Q -> (0 <= Qred (x + y))%Q).
  { intros x y Hx Hy. rewrite Qred_correct. rewrite <- (Qplus_0_l 0). apply Qplus_le_compat; assumption. }
  constructor; unfold nonneg.
  - intros x y z. rewrite !qat_most. apply Qle_trans.
  - intros x y _. rewrite !qat_most. split; apply Qle_refl.
  - intros x y _ _. reflexivity.
  - intros x y. rewrite qbelow, qat_most. apply Qlt_le_weak.
  - intros x y. rewrite !qat_most. cbn [neqb qarith]. rewrite Qeq_bool_iff. split.
    + intros H. rewrite H. split; apply Qle_refl.
    + intros [H1 H2]. apply Qle_antisym; assumption.
  - reflexivity.
  - reflexivity.
  - reflexivity.
  - intros a b Ha Hb. rewrite qat_most. cbn [num0 ndiv qarith]. destruct b as [|p|p]; try discriminate Hb.
    unfold Qdivz. rewrite Qred_correct. unfold Qle. cbn. rewrite Z.mul_1_r. exact Ha.
  - intros x y. rewrite !qat_most. apply A.
  - intros x. rewrite !qat_most. cbn [num0 n07 qarith]. intros H. rewrite Qred_correct.
    apply Qmult_le_0_compat; [discriminate|exact H].
  - intros l H. rewrite qat_most. cbn [num0 nsum qarith].
    assert (G : forall (l : list Q) (a : Q), (0 <= a)%Q -> (forall q, In q l -> 0 <= q)%Q ->
             (0 <= fold_left (fun a x => Qred (a + x)) l a)%Q).
    { clear - A. induction l as [|q l IH]; intros a Ha H; [assumption|]. cbn [fold_left]. apply IH.
      - apply A; [assumption|]. apply H. left. reflexivity.
      - intros q' Hq. apply H. right. assumption. }
    apply G; [apply Qle_refl|]. intros q Hq. apply qat_most. apply (H q Hq).
Qed.

(** ** Consequences *)
Section Order.
Context {ar : arith} (V : value_laws ar).
Notation "x <=' y" := (at_most ar x y) (at level 70).
Notation "x <' y" := (below ar x y) (at level 70).

Lemma nonneg_refl x : nonneg ar x -> x <=' x.
Proof. intros H. apply (vl_num ar V _ _ H). Qed.
Lemma below_num x y : x <' y -> x <=' x /\ y <=' y.
Proof. intros H. apply (vl_num ar V). apply (vl_below ar V). exact H. Qed.
Lemma below_not x y : x <' y -> ~ y <=' x.
Proof.
  intros H C. destruct (below_num _ _ H) as [Hx Hy]. unfold below, at_most in *.
  rewrite (vl_total ar V _ _ Hy Hx), C in H. discriminate H.
Qed.
Lemma not_below x y : x <=' x -> y <=' y -> ngtb ar y x = false -> y <=' x.
Proof.
  intros Hx Hy H. unfold at_most in *. rewrite (vl_total ar V _ _ Hy Hx) in H.
  destruct (ngeb ar x y); [reflexivity|discriminate H].
Qed.
Lemma not_at_most x y : x <=' x -> y <=' y -> ~ y <=' x -> x <' y.
Proof.
  intros Hx Hy H. unfold below, at_most in *. rewrite (vl_total ar V _ _ Hy Hx).
  destruct (ngeb ar x y); [contradiction|reflexivity].
Qed.
Lemma below_at_most x y z : x <' y -> y <=' z -> x <' z.
Proof.
  intros H1 H2. destruct (below_num _ _ H1) as [Hx Hy]. destruct (vl_num ar V _ _ H2) as [_ Hz].
  apply not_at_most; try assumption. intros C. apply (below_not _ _ H1). exact (vl_trans ar V _ _ _ H2 C).
Qed.
Lemma at_most_below x y z : x <=' y -> y <' z -> x <' z.
Proof.
  intros H1 H2. destruct (below_num _ _ H2) as [Hy Hz]. destruct (vl_num ar V _ _ H1) as [Hx _].
  apply not_at_most; try assumption. intros C. apply (below_not _ _ H2). exact (vl_trans ar V _ _ _ C H1).
Qed.
Lemma m1_not_nonneg : ~ nonneg ar (nm1 ar).
Proof. apply below_not. exact (vl_m1 ar V). Qed.
Lemma m1_num : nm1 ar <=' nm1 ar.
Proof. apply (below_num _ _ (vl_m1 ar V)). Qed.
Lemma nonneg_not_m1 x : nonneg ar x -> ~ x <=' nm1 ar.
Proof. intros H C. apply m1_not_nonneg. eapply (vl_trans ar V); eassumption. Qed.
Lemma nonneg_trans x y : nonneg ar x -> x <=' y -> nonneg ar y.
Proof. intros H1 H2. eapply (vl_trans ar V); eassumption. Qed.
Lemma m1_at_most x : nonneg ar x -> nm1 ar <=' x.
Proof. intros H. eapply (vl_trans ar V); [|exact H]. apply (vl_below ar V). exact (vl_m1 ar V). Qed.
End Order.

(** The arithmetics the theorems about several processes range over: exact rationals and doubles
    are two of them ([qarith_orderly], [farith_orderly]). *)
Definition orderly (ar : arith) : Prop := arith_laws ar /\ value_laws ar.
Lemma qarith_orderly : orderly qarith.
Proof. exact (conj qarith_laws qarith_values). Qed.
