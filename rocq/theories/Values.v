(** * Python values.

    Models CPython, not code of /repo: the values a caller can hand to the API, [isinstance],
    truth value, hashing, equality of dictionary keys, and dictionaries with arbitrary keys. *)
From Coq Require Import ZArith String List Bool QArith.
From Verif Require Import Py.
Import ListNotations.
Open Scope Z_scope.

(** A float: its value, without rounding (signed zeros are not distinguished). *)
Inductive pyfloat := FNan | FInf (negative : bool) | FNum (q : Q).

Inductive pyval :=
| VNone
| VBool (b : bool)
| VInt (z : Z)
| VFloat (f : pyfloat)
| VStr (s : string)
| VTuple (l : list pyval)
| VList (l : list pyval)
| VDict (d : list (pyval * pyval))   (* dict, or an instance of a subclass *)
| VStruct (h : nat)                  (* a Containers or Items object (no subclass of dict) *)
| VDims (h : nat)                    (* a Dimensions object (no subclass of dict) *)
| VObj (n : nat).                    (* any other object: hashable by identity, not iterable,
                                        not comparable with numbers, true *)

(** [isinstance(v, int)] and its value: bool is a subclass of int. *)
Definition as_int (v : pyval) : option Z :=
  match v with
  | VInt z => Some z
  | VBool b => Some (if b then 1 else 0)
  | _ => None
  end.

Definition is_dict (v : pyval) : bool := match v with VDict _ => true | _ => false end.
Definition is_str (v : pyval) : bool := match v with VStr _ => true | _ => false end.
Definition is_bool (v : pyval) : bool := match v with VBool _ => true | _ => false end.

(** The value as a number. *)
Definition as_number (v : pyval) : option pyfloat :=
  match v with
  | VInt z => Some (FNum (inject_Z z))
  | VBool b => Some (FNum (if b then 1 else 0)%Q)
  | VFloat f => Some f
  | _ => None
  end.

Definition float_eqb (a b : pyfloat) : bool :=
  match a, b with
  | FNum p, FNum q => Qeq_bool p q
  | FInf x, FInf y => eqb x y
  | _, _ => false
  end.

(** [a == b] for hashable values. *)
Fixpoint key_eqb (a b : pyval) {struct a} : bool :=
  match a, b with
  | VNone, VNone => true
  | VStr s, VStr t => String.eqb s t
  | VTuple x, VTuple y =>
      (fix go (x y : list pyval) {struct x} : bool :=
         match x, y with
         | [], [] => true
         | a' :: x', b' :: y' => key_eqb a' b' && go x' y'
         | _, _ => false
         end) x y
  | VObj n, VObj m => Nat.eqb n m
  | _, _ => match as_number a, as_number b with
            | Some p, Some q => float_eqb p q
            | _, _ => false
            end
  end.

(** Objects with an [__eq__] and no [__hash__] are not hashable: list, dict and UserDict. *)
Fixpoint hashable (v : pyval) : bool :=
  match v with
  | VList _ | VDict _ | VStruct _ | VDims _ => false
  | VTuple l => (fix go (l : list pyval) : bool :=
                   match l with [] => true | a :: l' => hashable a && go l' end) l
  | _ => true
  end.

(** [bool(v)]. A UserDict object is false when empty; no such object can be empty here. *)
Definition truthy (v : pyval) : bool :=
  match v with
  | VNone => false
  | VBool b => b
  | VInt z => negb (z =? 0)
  | VFloat (FNum q) => negb (Qeq_bool q 0)
  | VFloat _ => true
  | VStr s => negb (String.eqb s "")
  | VTuple l | VList l => match l with [] => false | _ => true end
  | VDict d => match d with [] => false | _ => true end
  | VStruct _ | VDims _ | VObj _ => true
  end.

(** ** Dictionaries with arbitrary keys, in insertion order. *)
Definition vdict := list (pyval * pyval).

Fixpoint vget (d : vdict) (k : pyval) : option pyval :=
  match d with
  | [] => None
  | (k', v) :: t => if key_eqb k k' then Some v else vget t k
  end.

Fixpoint vset (d : vdict) (k v : pyval) : vdict :=
  match d with
  | [] => [(k, v)]
  | (k', v') :: t => if key_eqb k k' then (k', v) :: t else (k', v') :: vset t k v
  end.

Fixpoint vdel (d : vdict) (k : pyval) : vdict :=
  match d with
  | [] => []
  | (k', v') :: t => if key_eqb k k' then t else (k', v') :: vdel t k
  end.

Definition vkeys (d : vdict) : list pyval := map fst d.
Definition vmem (d : vdict) (k : pyval) : bool :=
  match vget d k with Some _ => true | None => false end.

(** [d.get("key")] *)
Definition vget_str (d : vdict) (k : string) : pyval :=
  match vget d (VStr k) with Some v => v | None => VNone end.

(** A dictionary has no key twice. *)
Definition distinct_keys (d : vdict) : Prop :=
  ForallOrdPairs (fun a b => key_eqb (fst b) (fst a) = false) d.

(** ** Computations on a state, whose effects stay when they raise. *)
Definition SM (S A : Type) := S -> S * result A.

Definition sret {S A} (a : A) : SM S A := fun s => (s, Ok a).
Definition sraise {S A} (e : exn) : SM S A := fun s => (s, Err e).
Definition sbind {S A B} (m : SM S A) (f : A -> SM S B) : SM S B :=
  fun s => match m s with (s', Ok a) => f a s' | (s', Err e) => (s', Err e) end.
Definition sget {S} : SM S S := fun s => (s, Ok s).
Definition smodify {S} (f : S -> S) : SM S unit := fun s => (f s, Ok tt).
Definition slift {S A} (r : result A) : SM S A := fun s => (s, r).
(** [if b: raise e] *)
Definition swhen {S} (b : bool) (e : exn) : SM S unit := if b then sraise e else sret tt.

Declare Scope sm_scope.
Notation "x <~ m ;; k" := (sbind m (fun x => k)) (at level 100, m at next level, right associativity) : sm_scope.
Notation "m ;;; k" := (sbind m (fun _ => k)) (at level 100, right associativity) : sm_scope.
