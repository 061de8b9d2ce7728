(** * Python primitives used by the model.

    These definitions model CPython behaviour, not code of /repo: exceptions as values,
    list/array indexing with negative indices, slices, slice assignment, [range], and
    insertion ordered dictionaries with string keys. *)
From Coq Require Import ZArith String List Bool.
Import ListNotations.
Open Scope Z_scope.

(** Error messages of /repo/hyperpack/exceptions.py, one constructor per message used. *)
Inductive containers_msg := (* exceptions.py:20-29 *)
| C_MISSING | C_TYPE | C_ID_TYPE | C_CANT_DELETE_STRUCTURE | C_CANT_DELETE
| C_STRIP_PACK_ONLY | C_STRIP_PACK_MIN_HEIGHT.
Inductive items_msg := (* exceptions.py:32-37 *)
| I_MISSING | I_TYPE | I_ID_TYPE | I_CANT_DELETE_STRUCTURE | I_CANT_DELETE.
Inductive dims_msg := (* exceptions.py:106-115 *)
| D_MISSING | D_TYPE | D_KEYS | D_VALUE | D_REFERENCE_OBJECT | D_CANT_DELETE.
Inductive points_msg := (* exceptions.py:130-139 *)
| PP_TYPE | PP_ELEMENT_TYPE | PP_ELEMENT_NOT_POINT | PP_DELETE | PP_DUPLICATE.
Inductive settings_msg := (* exceptions.py:40-103 *)
| S_CANT_DELETE | S_TYPE | S_MAX_TIME_TYPE | S_MAX_TIME_VALUE | S_WORKERS_VALUE
| S_ROTATION_TYPE | S_FIGURE_KEY_TYPE | S_PLOTLY_NOT_INSTALLED | S_PLOTLY_VERSION
| S_EXPORT_VALUE_TYPE | S_EXPORT_TYPE_MISSING | S_EXPORT_TYPE_VALUE
| S_EXPORT_PATH_MISSING | S_EXPORT_PATH_VALUE | S_EXPORT_PATH_NOT_EXISTS
| S_EXPORT_PATH_NOT_DIRECTORY | S_EXPORT_FORMAT_MISSING | S_EXPORT_FORMAT_TYPE
| S_EXPORT_FORMAT_VALUE | S_EXPORT_FILE_NAME_TYPE | S_EXPORT_FILE_NAME_VALUE
| S_EXPORT_KALEIDO_MISSING | S_EXPORT_KALEIDO_VERSION | S_EXPORT_WIDTH_VALUE
| S_EXPORT_HEIGHT_VALUE | S_FIGURE_SHOW_VALUE.

Inductive exn :=
| IndexError | KeyError | TypeError | ValueError | ZeroDivisionError | AttributeError
| NotImplementedError | OverflowError
| ContainersError (m : containers_msg)
| ItemsError (m : items_msg)
| DimensionsError (m : dims_msg)
| PotentialPointsError (m : points_msg)
| SettingsError (m : settings_msg)
| MultiProcessError
| FigureExportError
| OutOfFuel. (* not a Python exception: the model's loop bound was exhausted *)

Inductive result (A : Type) :=
| Ok (a : A)
| Err (e : exn).
Arguments Ok {A} a.
Arguments Err {A} e.

Definition bind {A B} (r : result A) (f : A -> result B) : result B :=
  match r with Ok a => f a | Err e => Err e end.

Declare Scope res_scope.
Notation "x <- e1 ;; e2" := (bind e1 (fun x => e2))
  (at level 100, e1 at next level, right associativity) : res_scope.
Open Scope res_scope.

Definition is_ok {A} (r : result A) : Prop := exists a, r = Ok a.

(** Length as an integer. *)
Definition zlen {A} (l : list A) : Z := Z.of_nat (length l).

(** [l[i]] resolves a possibly negative index against the length; [None] is IndexError. *)
Definition py_index (len i : Z) : option nat :=
  if (0 <=? i) && (i <? len) then Some (Z.to_nat i)
  else if (- len <=? i) && (i <? 0) then Some (Z.to_nat (i + len))
  else None.

(** [l[i]] *)
Definition py_get {A} (l : list A) (i : Z) : result A :=
  match py_index (zlen l) i with
  | Some n => match nth_error l n with Some a => Ok a | None => Err IndexError end
  | None => Err IndexError
  end.

Fixpoint list_set {A} (l : list A) (n : nat) (v : A) : list A :=
  match l, n with
  | [], _ => []
  | _ :: t, O => v :: t
  | h :: t, S m => h :: list_set t m v
  end.

(** [l[i] = v] *)
Definition py_set {A} (l : list A) (i : Z) (v : A) : result (list A) :=
  match py_index (zlen l) i with
  | Some n => Ok (list_set l n v)
  | None => Err IndexError
  end.

(** Clamping of a slice bound. *)
Definition slice_bound (len i : Z) : nat :=
  Z.to_nat (if i <? 0 then Z.max 0 (i + len) else Z.min i len).

(** [l[a:b]] *)
Definition py_slice {A} (l : list A) (a b : Z) : list A :=
  let a' := slice_bound (zlen l) a in
  let b' := slice_bound (zlen l) b in
  firstn (b' - a') (skipn a' l).

(** [l[a:b] = v] *)
Definition py_slice_set {A} (l : list A) (a b : Z) (v : list A) : list A :=
  let a' := slice_bound (zlen l) a in
  let b' := slice_bound (zlen l) b in
  firstn a' l ++ v ++ skipn (Nat.max a' b') l.

(** [range(a, b)] *)
Definition zrange (a b : Z) : list Z :=
  map (fun k => a + Z.of_nat k) (seq 0 (Z.to_nat (b - a))).

(** [range(a, -1, -1)], i.e. a, a-1, ..., 0 *)
Definition zrange_down (a : Z) : list Z :=
  map (fun k => a - Z.of_nat k) (seq 0 (Z.to_nat (a + 1))).

(** [\[v\] * n] *)
Definition py_repeat {A} (v : A) (n : Z) : list A := repeat v (Z.to_nat n).

(** Dictionaries with [str] keys in insertion order. *)
Definition odict (A : Type) := list (string * A).

Fixpoint dget {A} (d : odict A) (k : string) : option A :=
  match d with
  | [] => None
  | (k', v) :: t => if String.eqb k k' then Some v else dget t k
  end.

(** [d[k]] for reading: KeyError when absent. *)
Definition dget_r {A} (d : odict A) (k : string) : result A :=
  match dget d k with Some v => Ok v | None => Err KeyError end.

(** [d[k] = v]: keeps the position of an existing key, otherwise appends. *)
Fixpoint dset {A} (d : odict A) (k : string) (v : A) : odict A :=
  match d with
  | [] => [(k, v)]
  | (k', v') :: t => if String.eqb k k' then (k', v) :: t else (k', v') :: dset t k v
  end.

(** [del d[k]] (the caller handles an absent key). *)
Fixpoint ddel {A} (d : odict A) (k : string) : odict A :=
  match d with
  | [] => []
  | (k', v') :: t => if String.eqb k k' then t else (k', v') :: ddel t k
  end.

Definition dkeys {A} (d : odict A) : list string := map fst d.
Definition dvals {A} (d : odict A) : list A := map snd d.
Definition dmem {A} (d : odict A) (k : string) : bool :=
  match dget d k with Some _ => true | None => false end.

(** [list.remove(x)] on a list of strings (first occurrence). *)
Fixpoint lremove (l : list string) (x : string) : list string :=
  match l with
  | [] => []
  | h :: t => if String.eqb x h then t else h :: lremove t x
  end.

(** Left to right map that stops at the first exception. *)
Fixpoint rmap {A B} (f : A -> result B) (l : list A) : result (list B) :=
  match l with
  | [] => Ok []
  | h :: t => b <- f h ;; bs <- rmap f t ;; Ok (b :: bs)
  end.

(** Left to right fold that stops at the first exception. *)
Fixpoint rfold {A S} (f : S -> A -> result S) (l : list A) (s : S) : result S :=
  match l with
  | [] => Ok s
  | h :: t => s' <- f s h ;; rfold f t s'
  end.
