(** * IEEE double instance of the arithmetic record. *)
From Coq Require Import ZArith List Bool Floats SpecFloat.
From Verif Require Import Arith.
Import ListNotations.

(** The integer as an exact (not normalised) binary number. *)
Definition sf_of_Z (z : Z) : spec_float :=
  match z with
  | Z0 => S754_zero false
  | Zpos p => S754_finite false p 0
  | Zneg p => S754_finite true p 0
  end.

(** [int / int]: CPython's true division of integers of any size gives the double nearest to the
    exact quotient. (A zero divisor, and a quotient above the largest double, raise in Python;
    neither occurs for the quotients of objective values.) *)
Definition int_div (a b : Z) : float := SF2Prim (SFdiv prec emax (sf_of_Z a) (sf_of_Z b)).

(** IEEE binary64, as CPython uses it (plain left to right [sum] as in CPython < 3.12). Used to
    replay the repo's test expectations, in the theorems of PropertiesFloat.v, and as an instance
    showing that the arithmetic-independent theorems cover the floats. *)
Definition farith : arith := {|
  num := float;
  num0 := 0%float;
  num1 := 1%float;
  nadd := PrimFloat.add;
  ndiv := int_div;
  n07 := fun x => PrimFloat.mul 0.7%float x;
  nsum := fun l => fold_left PrimFloat.add l 0%float;
  ngtb := fun x y => PrimFloat.ltb y x;
  ngeb := fun x y => PrimFloat.leb y x;
  nge_inf := fun x => PrimFloat.leb PrimFloat.infinity x;
  nm1 := (-1)%float;
  neqb := PrimFloat.eqb;
  ratio_le_fifth := fun d w => PrimFloat.leb (int_div d w) 0.2%float
|}.
