(** * Vocabulary of C65 and C66: the potential points an item spawns, in terms of the
    rectangles in the container only. [es] lists them in placement order. *)
From Coq Require Import ZArith List Bool.
From Verif Require Import Py Arith FloatArith Construct Spec.
Import ListNotations.
Open Scope Z_scope.

(** No item covers the cell. *)
Definition free (es : list entry) (x y : Z) : Prop := forall e, In e es -> ~ covers e x y.

(** [e] is the item seen on the cell: it covers it and nothing placed later does. *)
Definition seen (es : list entry) (e : entry) (x y : Z) : Prop :=
  exists before after, es = before ++ e :: after /\ covers e x y /\
                       forall e', In e' after -> ~ covers e' x y.

Definition side_column (e : entry) (x : Z) : Prop := x = e_x e \/ x = e_x e + e_w e - 1.
Definition end_row (e : entry) (y : Z) : Prop := y = e_y e \/ y = e_y e + e_l e - 1.

(** The cell shows a corner, or any cell of the border, of an item. *)
Definition corner (es : list entry) (x y : Z) : Prop :=
  exists e, seen es e x y /\ side_column e x /\ end_row e y.
Definition border (es : list entry) (x y : Z) : Prop :=
  exists e, seen es e x y /\ (side_column e x \/ end_row e y).

(** Something is right behind the corner of the cells (x1, y1) (nearer) and (x2, y2) (the one
    beside the point): a straight border, or an item that begins there. *)
Definition backed (es : list entry) (x1 y1 x2 y2 : Z) : Prop :=
  (border es x1 y1 /\ border es x2 y2) \/
  ((free es x1 y1 \/ corner es x1 y1) /\ corner es x2 y2).

Section Points.
Context (W L : Z) (es : list entry) (e : entry).

(** The point above the upper left corner of [e], and the one right of its lower right corner. *)
Definition above : point := (e_x e, e_y e + e_l e).
Definition beside : point := (e_x e + e_w e, e_y e).

(** A: flush with the container's wall or with what is on the left. *)
Definition A_supported : Prop :=
  e_x e = 0 \/ backed es (e_x e - 1) (e_y e + e_l e - 1) (e_x e - 1) (e_y e + e_l e).
(** B: on the container's floor or on what is below. *)
Definition B_supported : Prop :=
  e_y e = 0 \/ backed es (e_x e + e_w e - 1) (e_y e - 1) (e_x e + e_w e) (e_y e - 1).

(** Going left from the upper left corner along its two rows: column [x] holds a wall. *)
Definition wall_left (x : Z) : Prop :=
  border es x (e_y e + e_l e) /\
  (border es x (e_y e + e_l e - 1) \/ free es x (e_y e + e_l e - 1)).

(** A' and E: nothing on the left; the point at the first wall met going left, or at the
    container's wall if both rows are free there. *)
Definition projected_left (q : point) : Prop :=
  let Y := e_y e + e_l e in
  snd q = Y /\ Y < L /\
  free es (e_x e - 1) Y /\ free es (e_x e - 1) (Y - 1) /\
  0 <= fst q < e_x e /\
  (forall x, fst q <= x < e_x e -> ~ wall_left x) /\
  ((fst q = 0 /\ free es 0 Y /\ free es 0 (Y - 1)) \/
   (0 < fst q /\ wall_left (fst q - 1))).

(** Going down from the lower right corner along its two columns: row [y] holds a floor, or the
    border of an item on the left that ends there. *)
Definition floor_below (y : Z) : Prop :=
  border es (e_x e + e_w e) y /\
  (border es (e_x e + e_w e - 1) y \/ free es (e_x e + e_w e - 1) y).
Definition ledge_below (y : Z) : Prop :=
  border es (e_x e + e_w e - 1) y /\ free es (e_x e + e_w e) y.

(** B' and F: nothing below; the point on the first floor met going down, or at the container's
    floor if both columns are free there; none if a ledge is met first. *)
Definition projected_down (q : point) : Prop :=
  let X := e_x e + e_w e in
  fst q = X /\ X < W /\
  free es X (e_y e - 1) /\ free es (X - 1) (e_y e - 1) /\
  0 <= snd q < e_y e /\
  (forall y, snd q <= y < e_y e -> ~ floor_below y /\ ~ ledge_below y) /\
  ((snd q = 0 /\ free es X 0 /\ free es (X - 1) 0) \/
   (0 < snd q /\ floor_below (snd q - 1))).

(** The points the placement of [e] (the last of [es]) adds to each class. *)
Definition spawns (c : pclass) (q : point) : Prop :=
  match c with
  | cA => q = above /\ snd q < L /\ free es (fst q) (snd q) /\ A_supported
  | cA__ => q = above /\ snd q < L /\ free es (fst q) (snd q) /\ ~ A_supported
  | cA_ => projected_left q /\ 5 * (e_x e - fst q) <= W
  | cE => projected_left q /\ W < 5 * (e_x e - fst q)
  | cB => q = beside /\ fst q < W /\ free es (fst q) (snd q) /\ B_supported
  | cB__ => q = beside /\ fst q < W /\ free es (fst q) (snd q) /\ ~ B_supported
  | cB_ => projected_down q /\ 5 * (e_y e - snd q) <= L
  | cF => projected_down q /\ L < 5 * (e_y e - snd q)
  | cC => snd q = e_y e + e_l e /\ snd q < L /\ e_x e < fst q < e_x e + e_w e /\
          corner es (fst q - 1) (snd q) /\ free es (fst q) (snd q)
  | cD => fst q = e_x e + e_w e /\ fst q < W /\ e_y e < snd q < e_y e + e_l e /\
          corner es (fst q) (snd q - 1) /\ free es (fst q) (snd q)
  end.

(** The order in which the points of one class are added. *)
Definition left_or_below (p q : point) : Prop := fst p <= fst q /\ snd p <= snd q /\ p <> q.
End Points.

(** Exact rationals, or Python's doubles with sides below 2^51. *)
Definition exact_fifths (ar : arith) (W L : Z) : Prop :=
  ar = qarith \/ (ar = farith /\ W < 2 ^ 51 /\ L < 2 ^ 51).
