(** * Which Python values are false, and which cannot be keys of a dict. *)
From Coq Require Import ZArith QArith String List.
From Verif Require Import Py Values.
Import ListNotations.

(** [None], [False], zero and whatever is empty. *)
Inductive false_value : pyval -> Prop :=
| fv_none : false_value VNone
| fv_false : false_value (VBool false)
| fv_zero : false_value (VInt 0)
| fv_zero_float q : (q == 0)%Q -> false_value (VFloat (FNum q))
| fv_string : false_value (VStr "")
| fv_tuple : false_value (VTuple [])
| fv_list : false_value (VList [])
| fv_dict : false_value (VDict []).

(** Lists, dicts, the library's dict-like objects, and tuples that contain such a thing. *)
Inductive unhashable_value : pyval -> Prop :=
| uh_list l : unhashable_value (VList l)
| uh_dict d : unhashable_value (VDict d)
| uh_struct h : unhashable_value (VStruct h)
| uh_dims h : unhashable_value (VDims h)
| uh_tuple l x : In x l -> unhashable_value x -> unhashable_value (VTuple l).
