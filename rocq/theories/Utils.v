(** * Generating problems.

    Models generate_problem_data of /repo/hyperpack/utils.py:5-78, for integer keyword parameters.
    [round(x * 0.1)] and [round(x * 0.6)] are computed in doubles. Not modelled: float parameters,
    the printed summary. *)
From Coq Require Import ZArith String List Bool Decimal DecimalString SpecFloat Floats.
From Verif Require Import Py Values.
Import ListNotations.
Open Scope string_scope.
Open Scope list_scope.
Open Scope Z_scope.

(** The keyword parameters; [None]: not given. *)
Record kwargs := mkKw {
  kw_containers_num : option Z; kw_containers_length : option Z; kw_containers_width : option Z;
  kw_items_num : option Z; kw_items_length : option Z; kw_items_width : option Z
}.

(** [kwargs.get(key, default)] *)
Definition given (v : option Z) (default : Z) : Z := match v with Some z => z | None => default end.

(** The defaults, lines 5-10. *)
Definition containers_num (kw : kwargs) : Z := given (kw_containers_num kw) 1.
Definition containers_width (kw : kwargs) : Z := given (kw_containers_width kw) 50.
Definition containers_length (kw : kwargs) : Z := given (kw_containers_length kw) 50.
Definition items_num (kw : kwargs) : Z := given (kw_items_num kw) 30.
Definition items_width (kw : kwargs) : Z := given (kw_items_width kw) 5.
Definition items_length (kw : kwargs) : Z := given (kw_items_length kw) 3.

(** The doubles written 0.1 and 0.6. *)
Definition tenth : spec_float := S754_finite false 7205759403792794 (-56).
Definition six_tenths : spec_float := S754_finite false 5404319552844595 (-53).

(** [a / b] rounded to the nearest integer, ties to even. *)
Definition round_div (a b : Z) : Z :=
  let q := a / b in
  let r := a mod b in
  if 2 * r <? b then q else if b <? 2 * r then q + 1 else if Z.even q then q else q + 1.

(** [round(x)] of a double: the nearest integer, ties to even; an infinity raises OverflowError. *)
Definition sf_round (x : spec_float) : result Z :=
  match x with
  | S754_zero _ => Ok 0
  | S754_finite s m e =>
      let v := if s then Zneg m else Zpos m in
      Ok (if 0 <=? e then v * 2 ^ e else round_div v (2 ^ (- e)))
  | S754_infinity _ => Err OverflowError
  | S754_nan => Err ValueError
  end.

(** [round(x * c)] of an integer and a double: the integer is converted to the nearest double first
    (OverflowError if there is none). *)
Definition round_times (x : Z) (c : spec_float) : result Z :=
  match binary_normalize prec emax x 0 false with
  | S754_infinity _ => Err OverflowError
  | f => sf_round (SFmul prec emax f c)
  end.

(** [random.randint(lo, hi)]; every value between [lo] and [hi] is given by some [u]. *)
Definition randint (u lo hi : Z) : result Z :=
  if hi <? lo then Err ValueError else Ok (lo + u mod (hi - lo + 1)).

(** [f"{prefix}{n}"] *)
Definition numbered (prefix : string) (n : nat) : string :=
  (prefix ++ NilZero.string_of_uint (Nat.to_uint n))%string.

(** The loops of lines 42-47 and 65-71: [n] is the number of the next entry, [u] the draws. *)
Fixpoint draw_entries (prefix wk lk : string) (wlo whi llo lhi : Z) (u : nat -> Z) (n count : nat) : result vdict :=
  match count with
  | O => Ok []
  | S count' =>
      bind (randint (u (2 * n)%nat) wlo whi) (fun w =>
      bind (randint (u (2 * n + 1)%nat) llo lhi) (fun l =>
      bind (draw_entries prefix wk lk wlo whi llo lhi u (S n) count') (fun rest =>
      Ok ((VStr (numbered prefix n), VDict [(VStr wk, VInt w); (VStr lk, VInt l)]) :: rest))))
  end.

(** generate_problem_data(), lines 13-78: the draws for the containers, then those for the items. *)
Definition generate (kw : kwargs) (u v : nat -> Z) : result (pyval * pyval) :=
  let cw := containers_width kw in
  let cl := containers_length kw in
  bind (round_times cw tenth) (fun deviation_W =>
  bind (round_times cl tenth) (fun deviation_H =>
  bind (draw_entries "container-" "W" "L" (cw - deviation_W) (cw + deviation_W) (cl - deviation_H) (cl + deviation_H)
                     u 0 (Z.to_nat (containers_num kw))) (fun containers =>
  let iw := items_width kw in
  bind (round_times (items_length kw) six_tenths) (fun r_w =>
  bind (round_times iw six_tenths) (fun r_h =>
  let deviation_w := Z.max r_w 1 in
  let deviation_h := Z.max r_h 1 in
  bind (draw_entries "item-" "w" "l" (iw - deviation_w) (iw + deviation_w) (iw - deviation_h) (iw + deviation_h)
                     v 0 (Z.to_nat (items_num kw * containers_num kw))) (fun items =>
  Ok (VDict containers, VDict items))))))).
