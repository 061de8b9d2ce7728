(** * [orient_items] and [sort_items].

    Models ItemsManipulationMixin, /repo/hyperpack/mixins.py:970-1063, on the attributes of an
    instance ([inst] of LocalSearch.v). *)
From Coq Require Import ZArith String List Bool.
From Verif Require Import Py Arith Construct LocalSearch.
Import ListNotations.
Open Scope string_scope.
Open Scope list_scope.
Open Scope Z_scope.
Open Scope res_scope.

(** ** [list.sort] *)
Section Sort.
Context {A : Type} (lt : A -> A -> bool).

(** [list.sort()]: any correct sort; the elements sorted here ([\[key, id\]] lists with distinct
    ids) have no ties, so the result does not depend on the algorithm. *)
Fixpoint insert_sorted (a : A) (l : list A) : list A :=
  match l with
  | [] => [a]
  | b :: t => if lt b a then b :: insert_sorted a t else a :: l
  end.

Fixpoint py_sort (l : list A) : list A :=
  match l with
  | [] => []
  | a :: t => insert_sorted a (py_sort t)
  end.
End Sort.

(** [list.sort(reverse=True)] sorts with the order reversed. *)
Definition py_sort_rev {A} (lt : A -> A -> bool) (reverse : bool) (l : list A) : list A :=
  if reverse then py_sort (fun a b => lt b a) l else py_sort lt l.

Section Items.
Context (ar : arith).

(** The keys of mixins.py:1049-1059: [i["w"] * i["l"]], [i["w"] * 2 + i["l"] * 2] (integers) and
    [max(w, l) / min(w, l)] (a float). [key1 < key2]; [None]: no such criterion. *)
Definition key_lt (by_ : string) : option (dims -> dims -> bool) :=
  if String.eqb by_ "area" then Some (fun a b => dw a * dl a <? dw b * dl b)
  else if String.eqb by_ "perimeter" then Some (fun a b => dw a * 2 + dl a * 2 <? dw b * 2 + dl b * 2)
  else if String.eqb by_ "longest_side_ratio"
  then Some (fun a b => ngtb ar (ndiv ar (Z.max (dw b) (dl b)) (Z.min (dw b) (dl b)))
                                (ndiv ar (Z.max (dw a) (dl a)) (Z.min (dw a) (dl a))))
  else None.

(** Comparison of the lists [\[key, id\]]: by key, then by id. *)
Definition elem_lt (lt : dims -> dims -> bool) (a b : string * dims) : bool :=
  if lt (snd a) (snd b) then true
  else if lt (snd b) (snd a) then false
  else String.ltb (fst a) (fst b).

(** [self.items = {...}]: heuristics.py:111-113; building the new structure resets the solution
    (structures.py:75-76). The new dictionary was validated before. *)
Definition set_items (x : inst ar) (items : odict dims) : inst ar :=
  let pb := in_pb x in
  mkInst (mkProblem (pb_containers pb) items (pb_rotation pb) (pb_strategy pb) (pb_strip pb)
                    (pb_height pb))
         (in_min x) (in_cnum x) [] [] (in_hist x).

(** [sort_items], mixins.py:1021-1063; [None] skips. [reverse] is a bool (the source accepts any
    integer). *)
Definition sort_items (sorting_by : option (string * bool)) (x : inst ar) : result (inst ar) :=
  match sorting_by with
  | None => Ok x
  | Some (by_, reverse) =>
      match key_lt by_ with
      | None => Err NotImplementedError
      | Some lt => Ok (set_items x (py_sort_rev (elem_lt lt) reverse (pb_items (in_pb x))))
      end
  end.

(** The loops of lines 1009-1019: the dimensions of one item. *)
Definition orient_wide (d : dims) : dims := if dl d >? dw d then mkDims (dl d) (dw d) else d.
Definition orient_long (d : dims) : dims := if dl d <? dw d then mkDims (dl d) (dw d) else d.

(** Assigning ["w"], ["l"] resets the solution (structures.py:118-119); it happens only for the
    items that are turned. *)
Definition orient_all (f : dims -> dims) (turn : dims -> bool) (x : inst ar) : inst ar :=
  if existsb (fun kd => turn (snd kd)) (pb_items (in_pb x))
  then set_items x (map (fun kd => (fst kd, f (snd kd))) (pb_items (in_pb x)))
  else x.

(** [orient_items], mixins.py:975-1019. *)
Definition orient_items (orientation : option string) (x : inst ar) : inst ar :=
  match orientation with
  | None => x
  | Some o =>
      if negb (pb_rotation (in_pb x)) then x
      else if String.eqb o "wide" then orient_all orient_wide (fun d => dl d >? dw d) x
      else if String.eqb o "long" then orient_all orient_long (fun d => dl d <? dw d) x
      else x
  end.
End Items.
Arguments set_items {ar}.
