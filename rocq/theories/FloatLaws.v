(** * IEEE binary64 satisfies the order laws the theorems ask for.

    Uses the standard library's axioms on primitive floats (FloatAxioms). *)
From Coq Require Import ZArith Floats SpecFloat Bool Lia.
From Verif Require Import Arith FloatArith.

Definition sflt (x y : spec_float) : bool :=
  match SFcompare x y with Some Lt => true | _ => false end.

Lemma sflt_irrefl x : sflt x x = false.
Proof.
  unfold sflt. destruct x as [s|s| |s m e]; simpl; try (destruct s; reflexivity); auto.
  destruct s; rewrite Z.compare_refl, Pos.compare_cont_refl; reflexivity.
Qed.

Lemma sflt_trans x y z : sflt x y = true -> sflt y z = true -> sflt x z = true.
Proof.
  unfold sflt.
  destruct x as [[]|[]| |[] m1 e1], y as [[]|[]| |[] m2 e2], z as [[]|[]| |[] m3 e3];
    simpl; try discriminate; auto;
    change (Pos.compare_cont Eq m1 m2) with (Pos.compare m1 m2);
    change (Pos.compare_cont Eq m2 m3) with (Pos.compare m2 m3);
    change (Pos.compare_cont Eq m1 m3) with (Pos.compare m1 m3).
  all: destruct (Z.compare_spec e1 e2), (Z.compare_spec e2 e3), (Z.compare_spec e1 e3);
    try discriminate; try lia; auto.
  all: destruct (Pos.compare_spec m1 m2), (Pos.compare_spec m2 m3), (Pos.compare_spec m1 m3);
    simpl; try discriminate; try lia; auto.
Qed.

Lemma ltb_sflt x y : PrimFloat.ltb x y = sflt (Prim2SF x) (Prim2SF y).
Proof.
  rewrite FloatAxioms.ltb_spec. unfold SFltb, sflt.
  destruct (SFcompare _ _) as [[]|]; reflexivity.
Qed.

Lemma farith_laws : arith_laws farith.
Proof.
  constructor; simpl.
  - reflexivity.
  - intros x. rewrite ltb_sflt. apply sflt_irrefl.
  - intros x y z H1 H2. rewrite ltb_sflt in *. eapply sflt_trans; eassumption.
  - intros x y H. rewrite FloatAxioms.leb_spec in H. rewrite ltb_sflt.
    change (Prim2SF PrimFloat.infinity) with (S754_infinity false) in H.
    unfold SFleb, sflt in *.
    destruct (Prim2SF x) as [[]|[]| |[] m e]; simpl in *; try discriminate;
      destruct (Prim2SF y) as [[]|[]| |[] m' e']; reflexivity.
Qed.
