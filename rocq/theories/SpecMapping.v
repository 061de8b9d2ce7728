(** * Vocabulary of the statements about items, containers and dimensions as dictionaries. *)
From Coq Require Import ZArith String List Bool.
From Verif Require Import Py Arith Construct Spec Values Settings Instance SpecInstance.
Import ListNotations.
Open Scope string_scope.
Open Scope list_scope.
Open Scope Z_scope.

(** [l] without the entry [i]. *)
Definition without (i : string) (l : odict dims) : odict dims :=
  filter (fun p => negb (String.eqb (fst p) i)) l.

(** A call on an Items or Containers object. *)
Inductive mapping_call :=
| CSet (id v : pyval)                          (* x[id] = v *)
| CDel (id : pyval)                            (* del x[id] *)
| CPop (id : pyval) (default : bool)           (* x.pop(id), x.pop(id, default) *)
| CPopitem                                     (* x.popitem() *)
| CClear                                       (* x.clear() *)
| CSetdefault (id v : pyval)                   (* x.setdefault(id, v) *)
| CUpdate (pairs : list (pyval * pyval)) (last : result unit).
  (* x.update(y): [y] hands over [pairs] and then ends, or raises *)

(** [x] has no entry [id]; such a question about an unhashable value is a TypeError. *)
Definition absent (l : odict dims) (id : pyval) : Prop :=
  hashable id = true /\ forall i, id = VStr i -> ~ In i (dkeys l).

(** [becomes k locked l call l' r]: on an object of kind [k] whose entries are [l], [call] leaves
    the entries [l'] and the outcome [r]. [locked]: no assignment is allowed (the containers of
    a strip). *)
Inductive becomes (k : kind) (locked : bool) : odict dims -> mapping_call -> odict dims -> result unit -> Prop :=
(* assignment: a new entry comes last, an old one keeps its place *)
| b_set l i v d : locked = false -> dims_value k v d ->
    becomes k locked l (CSet (VStr i) v) (dset l i d) (Ok tt)
| b_set_invalid l id v e : locked = false -> entry_error k id v e ->
    becomes k locked l (CSet id v) l (Err e)
| b_set_locked l id v : locked = true ->
    becomes k locked l (CSet id v) l (Err (ContainersError C_STRIP_PACK_ONLY))
(* deletion: never of the last entry *)
| b_del l i : length l <> 1%nat -> In i (dkeys l) ->
    becomes k locked l (CDel (VStr i)) (without i l) (Ok tt)
| b_del_absent l id : length l <> 1%nat -> absent l id ->
    becomes k locked l (CDel id) l (Err KeyError)
| b_del_unhashable l id : length l <> 1%nat -> hashable id = false ->
    becomes k locked l (CDel id) l (Err TypeError)
| b_del_last l id : length l = 1%nat ->
    becomes k locked l (CDel id) l (Err (err_last k))
(* pop: a deletion if there is the entry *)
| b_pop l i default l' r : In i (dkeys l) -> becomes k locked l (CDel (VStr i)) l' r ->
    becomes k locked l (CPop (VStr i) default) l' r
| b_pop_absent l id default : absent l id ->
    becomes k locked l (CPop id default) l (if default then Ok tt else Err KeyError)
| b_pop_unhashable l id default : hashable id = false ->
    becomes k locked l (CPop id default) l (Err TypeError)
(* popitem: the first entry *)
| b_popitem i d l : l <> [] ->
    becomes k locked ((i, d) :: l) CPopitem l (Ok tt)
| b_popitem_last p :
    becomes k locked [p] CPopitem [p] (Err (err_last k))
| b_popitem_empty :
    becomes k locked [] CPopitem [] (Err KeyError)
(* clear: everything but the last entry, and an exception *)
| b_clear l p :
    becomes k locked (l ++ [p]) CClear [p] (Err (err_last k))
| b_clear_empty :
    becomes k locked [] CClear [] (Ok tt)
(* setdefault: an assignment if there is no such entry *)
| b_setdefault l id v l' r : absent l id -> becomes k locked l (CSet id v) l' r ->
    becomes k locked l (CSetdefault id v) l' r
| b_setdefault_there l i v : In i (dkeys l) ->
    becomes k locked l (CSetdefault (VStr i) v) l (Ok tt)
| b_setdefault_unhashable l id v : hashable id = false ->
    becomes k locked l (CSetdefault id v) l (Err TypeError)
(* update: assignments, up to the first that raises *)
| b_update_nil l last : becomes k locked l (CUpdate [] last) l last
| b_update l id v pairs last l1 l' r :
    becomes k locked l (CSet id v) l1 (Ok tt) -> becomes k locked l1 (CUpdate pairs last) l' r ->
    becomes k locked l (CUpdate ((id, v) :: pairs) last) l' r
| b_update_stop l id v pairs last e :
    becomes k locked l (CSet id v) l (Err e) ->
    becomes k locked l (CUpdate ((id, v) :: pairs) last) l (Err e).

Section Spec.
Context {ar : arith}.

(** What [list(v)] is. *)
Inductive lists (s : machine ar) : pyval -> list pyval -> Prop :=
| li_tuple l : lists s (VTuple l) l
| li_list l : lists s (VList l) l
| li_dict d : lists s (VDict d) (map fst d)
| li_string t : lists s (VStr t) (map (fun c => VStr (String c "")) (list_ascii_of_string t))
| li_struct h o : nth_error (m_structs s) h = Some o -> lists s (VStruct h) (map fst (so_data o))
| li_dims h o : nth_error (m_dims s) h = Some o -> lists s (VDims h) (map fst (do_data o)).
Definition not_iterable (v : pyval) : Prop :=
  match v with VNone | VBool _ | VInt _ | VFloat _ | VObj _ => True | _ => False end.

(** What [x.update(v)] goes through: the items of a mapping, the pairs in any other iterable;
    something else than a pair ends it. *)
Definition pair_in (s : machine ar) (v : pyval) (p : pyval * pyval) : Prop := lists s v [fst p; snd p].
Inductive no_pair (s : machine ar) : pyval -> exn -> Prop :=
| np_length v l : lists s v l -> length l <> 2%nat -> no_pair s v ValueError
| np_type v : not_iterable v -> no_pair s v TypeError.

Inductive hands_over (s : machine ar) : pyval -> list (pyval * pyval) -> result unit -> Prop :=
| ho_dict d : hands_over s (VDict d) d (Ok tt)
| ho_struct h o : nth_error (m_structs s) h = Some o -> hands_over s (VStruct h) (so_data o) (Ok tt)
| ho_dims h o : nth_error (m_dims s) h = Some o -> hands_over s (VDims h) (do_data o) (Ok tt)
| ho_pairs v l pairs : match v with VTuple _ | VList _ | VStr _ => True | _ => False end ->
    lists s v l -> Forall2 (pair_in s) l pairs -> hands_over s v pairs (Ok tt)
| ho_broken v l1 w l2 pairs e : match v with VTuple _ | VList _ | VStr _ => True | _ => False end ->
    lists s v (l1 ++ w :: l2) -> Forall2 (pair_in s) l1 pairs -> no_pair s w e ->
    hands_over s v pairs (Err e)
| ho_not v : not_iterable v -> hands_over s v [] (Err TypeError).

(** The call an operation on the structure [h] is; [None]: none of these. *)
Inductive is_call (s : machine ar) (h : nat) : op -> mapping_call -> Prop :=
| ic_set id v : genuine_dims v -> is_call s h (OpStructSet h id v) (CSet id v)
| ic_del id : is_call s h (OpStructDel h id) (CDel id)
| ic_pop id default : is_call s h (OpStructPop h id default) (CPop id default)
| ic_popitem : is_call s h (OpStructPopitem h) CPopitem
| ic_clear : is_call s h (OpStructClear h) CClear
| ic_setdefault id v : genuine_dims v -> is_call s h (OpStructSetdefault h id v) (CSetdefault id v)
| ic_update v pairs last : hands_over s v pairs last ->
    (forall id w, In (id, w) pairs -> genuine_dims w) ->
    is_call s h (OpStructUpdate h v) (CUpdate pairs last).

(** No assignment is allowed to the containers of a strip. *)
Definition locked (s : machine ar) (k : kind) : bool :=
  match k with KContainers => m_strip s | KItems => false end.

(** The entry [i] of the structure [h] is the Dimensions object [r]. *)
Definition holds (s : machine ar) (h : nat) (i : string) (r : nat) : Prop :=
  exists o, nth_error (m_structs s) h = Some o /\ In (VStr i, VDims r) (so_data o).

(** What the Dimensions object [r] shows. *)
Definition shows_dims (s : machine ar) (r : nat) (k : kind) (d : dims) : Prop :=
  exists o, nth_error (m_dims s) r = Some o /\ do_kind o = k /\ view_dobj o = Some d.

(** The object [r] now shows [d]: exactly the entries it is in change. *)
Definition seen_everywhere (s : machine ar) (r : nat) (d : dims) (s' : machine ar) : Prop :=
  forall h l, view_struct s h = Some l ->
  exists l', view_struct s' h = Some l' /\ dkeys l' = dkeys l /\
    forall i, (holds s h i r -> dget l' i = Some d) /\ (~ holds s h i r -> dget l' i = dget l i).
End Spec.

(** ** Dimensions *)

(** The error of [x[key] = v] on the dimensions [x] of an item or container. *)
Inductive key_error (k : kind) : pyval -> pyval -> exn -> Prop :=
| ke_unhashable key v : hashable key = false -> key_error k key v TypeError
| ke_key key v : hashable key = true -> key <> VStr (wkey k) -> key <> VStr (lkey k) ->
    key_error k key v (DimensionsError D_KEYS)
| ke_value key v : key = VStr (wkey k) \/ key = VStr (lkey k) -> (forall z, ~ positive_int v z) ->
    key_error k key v (DimensionsError D_VALUE).

(** Assignments one after the other, up to the first that raises. *)
Inductive assigned (k : kind) (locked : bool) : dims -> list (pyval * pyval) -> result unit -> dims -> result unit -> Prop :=
| as_nil d last : assigned k locked d [] last d last
| as_width d v z pairs last d' r : locked = false -> positive_int v z ->
    assigned k locked (mkDims z (dl d)) pairs last d' r ->
    assigned k locked d ((VStr (wkey k), v) :: pairs) last d' r
| as_length d v z pairs last d' r : locked = false -> positive_int v z ->
    assigned k locked (mkDims (dw d) z) pairs last d' r ->
    assigned k locked d ((VStr (lkey k), v) :: pairs) last d' r
| as_error d key v pairs last e : locked = false -> key_error k key v e ->
    assigned k locked d ((key, v) :: pairs) last d (Err e)
| as_locked d key v pairs last : locked = true ->
    assigned k locked d ((key, v) :: pairs) last d (Err (ContainersError C_STRIP_PACK_ONLY)).

(** The value [pairs] give last to the string [i]. *)
Definition last_given (pairs : list (pyval * pyval)) (i : string) : option pyval :=
  fold_left (fun o p => match fst p with VStr j => if String.eqb i j then Some (snd p) else o | _ => o end) pairs None.

(** [d |= y] on a plain dictionary, [y] handing over [pairs] and then ending with [last]: the pairs
    up to the first unhashable key are stored. *)
Definition merged (d : vdict) (pairs : list (pyval * pyval)) (last : result unit) (d' : vdict) (r : result unit) : Prop :=
  exists good rest, pairs = good ++ rest /\ (forall p, In p good -> hashable (fst p) = true) /\
    ((rest = [] /\ r = last) \/ (exists p t, rest = p :: t /\ hashable (fst p) = false /\ r = Err TypeError)) /\
    forall i, vget d' (VStr i) = match last_given good i with Some v => Some v | None => vget d (VStr i) end.
