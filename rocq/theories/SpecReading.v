(** * What reading a dictionary of items, containers or dimensions should give (C70). *)
From Coq Require Import ZArith QArith String List Bool.
From Verif Require Import Py Arith Construct Spec Values Settings Instance SpecInstance SpecMapping SpecValues Reading.
Import ListNotations.
Open Scope Z_scope.

Section Spec.
Context {ar : arith}.

(** The entry [i] of the structure [h], of kind [k], is the object [v], which shows [d]. *)
Definition entry_is (s : machine ar) (h : nat) (k : kind) (i : string) (d : dims) (v : pyval) : Prop :=
  exists r, v = VDims r /\ holds s h i r /\ shows_dims s r k d.

(** The answers for a structure whose entries are [l]. *)
Inductive tells (s : machine ar) (h : nat) (k : kind) (l : odict dims) : query -> result pyval -> Prop :=
| t_get i d v : In (i, d) l -> entry_is s h k i d v -> tells s h k l (QGet (VStr i)) (Ok v)
| t_get_absent id : absent l id -> tells s h k l (QGet id) (Err KeyError)
| t_get_unhashable id : unhashable_value id -> tells s h k l (QGet id) (Err TypeError)
| t_default i d v w : In (i, d) l -> entry_is s h k i d v -> tells s h k l (QGetDefault (VStr i) w) (Ok v)
| t_default_absent id w : absent l id -> tells s h k l (QGetDefault id w) (Ok w)
| t_default_unhashable id w : unhashable_value id -> tells s h k l (QGetDefault id w) (Err TypeError)
| t_in i : In i (dkeys l) -> tells s h k l (QIn (VStr i)) (Ok (VBool true))
| t_in_absent id : absent l id -> tells s h k l (QIn id) (Ok (VBool false))
| t_in_unhashable id : unhashable_value id -> tells s h k l (QIn id) (Err TypeError)
| t_len : tells s h k l QLen (Ok (VInt (Z.of_nat (length l))))
| t_list : tells s h k l QList (Ok (VList (map VStr (dkeys l))))
| t_values vs : Forall2 (fun p v => entry_is s h k (fst p) (snd p) v) l vs -> tells s h k l QValues (Ok (VList vs))
| t_items vs : Forall2 (fun p v => exists w, v = VTuple [VStr (fst p); w] /\ entry_is s h k (fst p) (snd p) w) l vs ->
    tells s h k l QItems (Ok (VList vs)).

(** The answers of the dimensions of an item or a container: two keys, in one of the two orders. *)
Definition side_of (k : kind) (d : dims) (key : string) (v : pyval) : Prop :=
  (key = wkey k /\ positive_int v (dw d)) \/ (key = lkey k /\ positive_int v (dl d)).
Inductive tells_dims (k : kind) (d : dims) (keys : list string) : query -> result pyval -> Prop :=
| td_get key v : side_of k d key v -> tells_dims k d keys (QGet (VStr key)) (Ok v)
| td_get_absent key : ~ unhashable_value key -> key <> VStr (wkey k) -> key <> VStr (lkey k) ->
    tells_dims k d keys (QGet key) (Err KeyError)
| td_get_unhashable key : unhashable_value key -> tells_dims k d keys (QGet key) (Err TypeError)
| td_default key v w : side_of k d key v -> tells_dims k d keys (QGetDefault (VStr key) w) (Ok v)
| td_default_absent key w : ~ unhashable_value key -> key <> VStr (wkey k) -> key <> VStr (lkey k) ->
    tells_dims k d keys (QGetDefault key w) (Ok w)
| td_default_unhashable key w : unhashable_value key -> tells_dims k d keys (QGetDefault key w) (Err TypeError)
| td_in key : key = VStr (wkey k) \/ key = VStr (lkey k) -> tells_dims k d keys (QIn key) (Ok (VBool true))
| td_in_absent key : ~ unhashable_value key -> key <> VStr (wkey k) -> key <> VStr (lkey k) ->
    tells_dims k d keys (QIn key) (Ok (VBool false))
| td_in_unhashable key : unhashable_value key -> tells_dims k d keys (QIn key) (Err TypeError)
| td_len : tells_dims k d keys QLen (Ok (VInt 2))
| td_list : tells_dims k d keys QList (Ok (VList (map VStr keys)))
| td_values vs : Forall2 (side_of k d) keys vs -> tells_dims k d keys QValues (Ok (VList vs))
| td_items vs : Forall2 (fun key v => exists w, v = VTuple [VStr key; w] /\ side_of k d key w) keys vs ->
    tells_dims k d keys QItems (Ok (VList vs)).

(** ** Equality *)

(** The pairs of a mapping: a dict, or one of the library's objects. *)
Inductive mapping_is (s : machine ar) : pyval -> vdict -> Prop :=
| mi_dict d : mapping_is s (VDict d) d
| mi_struct (h : nat) (o : sobj) : nth_error (m_structs s) h = Some o -> mapping_is s (VStruct h) (so_data o)
| mi_dims (h : nat) (o : dobj) : nth_error (m_dims s) h = Some o -> mapping_is s (VDims h) (do_data o).

(** A number of any type equal to [z]. *)
Inductive number_is (z : Z) : pyval -> Prop :=
| ni_int : number_is z (VInt z)
| ni_bool (b : bool) : z = (if b then 1 else 0) -> number_is z (VBool b)
| ni_float q : (q == inject_Z z)%Q -> number_is z (VFloat (FNum q)).

(** Dimensions [d] of kind [k] and the value [w] are equal: [w] is a mapping with just the two keys and
    with equal numbers. *)
Definition same_dims (s : machine ar) (k : kind) (d : dims) (w : pyval) : Prop :=
  exists e, mapping_is s w e /\ length e = 2%nat /\
    (exists a, vget e (VStr (wkey k)) = Some a /\ number_is (dw d) a) /\
    (exists b, vget e (VStr (lkey k)) = Some b /\ number_is (dl d) b).
(** Entries [l] and the value [w]: a mapping with just these ids, in any order, and equal dimensions. *)
Definition same_entries (s : machine ar) (k : kind) (l : odict dims) (w : pyval) : Prop :=
  exists e, mapping_is s w e /\ length e = length l /\
    forall i d, In (i, d) l -> exists x, vget e (VStr i) = Some x /\ same_dims s k d x.

(** ** deepcopy(ids) *)

(** The ids asked for: without an argument, all. *)
Definition asked (l : odict dims) (ids : option (list pyval)) : list pyval :=
  match ids with None => map VStr (dkeys l) | Some ids => ids end.
(** The first of [ids] that is not there is [id]. *)
Definition first_wrong (l : odict dims) (ids : list pyval) (id : pyval) : Prop :=
  exists before rest, ids = before ++ id :: rest /\ Forall (fun j => exists i, j = VStr i /\ In i (dkeys l)) before /\
    forall i, id = VStr i -> ~ In i (dkeys l).
(** [v] is a plain dict with the entries [l], each as a plain dict of numbers. *)
Definition plain_entries (k : kind) (v : pyval) (l : odict dims) : Prop :=
  exists e, v = VDict e /\ Forall2 (fun p q => fst p = VStr (fst q) /\ dims_value k (snd p) (snd q)) e l.

(** Entries of the result of [x | y]: valid dimensions. *)
Definition valid_entry (k : kind) (p : pyval * vdict) (i : string) (d : dims) : Prop :=
  fst p = VStr i /\ dims_value k (VDict (snd p)) d.
End Spec.
