(** * Reading items, containers and dimensions, and what their methods return.

    The part of the dictionary interface that Instance.v, concerned with effects, leaves out. Models
    what Containers, Items and Dimensions (structures.py:33-337) inherit from [collections.UserDict] and
    [collections.abc.MutableMapping] (CPython 3.9-3.11), and [deepcopy], structures.py:197-213.
    Not modelled: entries other than Dimensions, or values in them other than numbers (possible after
    [|=]), for [==] and [deepcopy]. *)
From Coq Require Import ZArith String List Bool.
From Verif Require Import Py Arith Construct LocalSearch Values Settings Instance.
Import ListNotations.
Open Scope Z_scope.
Open Scope sm_scope.

(** Questions that go to the inner dictionary [self.data]. *)
Inductive query :=
| QGet (key : pyval)                       (* x[key] *)
| QGetDefault (key default : pyval)        (* x.get(key, default) *)
| QIn (key : pyval)                        (* key in x *)
| QLen                                     (* len(x) *)
| QList                                    (* list(x), list(x.keys()) *)
| QValues                                  (* list(x.values()) *)
| QItems.                                  (* list(x.items()) *)

Definition answer (d : vdict) (q : query) : result pyval :=
  match q with
  | QGet key => data_get d key
  | QGetDefault key default => match data_get d key with
                               | Ok v => Ok v
                               | Err KeyError => Ok default
                               | Err e => Err e
                               end
  | QIn key => if negb (hashable key) then Err TypeError else Ok (VBool (vmem d key))
  | QLen => Ok (VInt (zlen d))
  | QList => Ok (VList (vkeys d))
  | QValues => Ok (VList (map snd d))
  | QItems => Ok (VList (map (fun kv => VTuple [fst kv; snd kv]) d))
  end.

Section Reading.
Context (ar : arith).
Notation machine := (machine ar).
Notation M := (SM machine).

Definition ask_struct (h : nat) (q : query) : M pyval := d <~ get_sobj ar h ;; slift (answer (so_data d) q).
Definition ask_dims (h : nat) (q : query) : M pyval := d <~ get_dobj ar h ;; slift (answer (do_data d) q).

(** ** [deepcopy(ids_sequence)], structures.py:197-213 *)
Definition copied (s : machine) (v : pyval) : result pyval :=
  match v with
  | VDims r => match nth_error (m_dims s) r with Some o => Ok (VDict (do_data o)) | None => Err nothing_there end
  | _ => Err unusable
  end.
Fixpoint copies (s : machine) (data : vdict) (ids : list pyval) (out : vdict) : result pyval :=
  match ids with
  | [] => Ok (VDict out)
  | id :: t => bind (data_get data id) (fun v => bind (copied s v) (fun c => copies s data t (vset out id c)))
  end.
Definition deepcopy_call (h : nat) (ids : option (list pyval)) : M pyval :=
  d <~ get_sobj ar h ;; s <~ sget ;;
  slift (copies s (so_data d) (match ids with None => vkeys (so_data d) | Some l => l end) []).

(** ** [x == y]: Mapping.__eq__, [dict(self.items()) == dict(other.items())] *)

(** [a == b] for two dictionaries, by the equality [eq] of the values. *)
Fixpoint all_equal (eq : pyval -> pyval -> result bool) (a b : vdict) : result bool :=
  match a with
  | [] => Ok true
  | (k, v) :: t => match vget b k with
                   | None => Ok false
                   | Some w => bind (eq v w) (fun e => if (e : bool) then all_equal eq t b else Ok false)
                   end
  end.
Definition dict_eq (eq : pyval -> pyval -> result bool) (a b : vdict) : result bool :=
  if zlen a =? zlen b then all_equal eq a b else Ok false.

(** A number and anything. *)
Definition side_eq (v w : pyval) : result bool :=
  match as_number v with
  | None => Err unusable
  | Some p => Ok (match as_number w with Some q => float_eqb p q | None => false end)
  end.

(** [dict(w.items())], if [w] is a Mapping. *)
Definition mapping_data (s : machine) (w : pyval) : option vdict :=
  match w with
  | VDict d => Some d
  | VStruct h => option_map so_data (nth_error (m_structs s) h)
  | VDims h => option_map do_data (nth_error (m_dims s) h)
  | _ => None
  end.

(** For [w] no Mapping, NotImplemented: then [==] compares identities. *)
Definition dims_eq (s : machine) (v w : pyval) : result bool :=
  match v with
  | VDims r => match nth_error (m_dims s) r with
               | None => Err nothing_there
               | Some o => match mapping_data s w with None => Ok false | Some d => dict_eq side_eq (do_data o) d end
               end
  | _ => Err unusable
  end.
Definition struct_equals (h : nat) (w : pyval) : M bool :=
  o <~ get_sobj ar h ;; s <~ sget ;;
  slift (match mapping_data s w with None => Ok false | Some d => dict_eq (dims_eq s) (so_data o) d end).
Definition dims_equals (h : nat) (w : pyval) : M bool := s <~ sget ;; slift (dims_eq s (VDims h) w).

(** ** What [pop], [popitem] and [setdefault] return (MutableMapping) *)
Definition struct_pop_v (h : nat) (id : pyval) (default : option pyval) : M pyval :=
  d <~ get_sobj ar h ;;
  match data_get (so_data d) id with
  | Ok v => struct_del ar h id ;;; sret v
  | Err KeyError => match default with Some v => sret v | None => sraise KeyError end
  | Err e => sraise e
  end.
Definition struct_popitem_v (h : nat) : M pyval :=
  d <~ get_sobj ar h ;;
  match so_data d with
  | [] => sraise KeyError
  | (id, v) :: _ => struct_del ar h id ;;; sret (VTuple [id; v])
  end.
(** [except KeyError: self[key] = default; return default] *)
Definition struct_setdefault_v (h : nat) (id v : pyval) : M pyval :=
  d <~ get_sobj ar h ;;
  match data_get (so_data d) id with
  | Ok w => sret w
  | Err KeyError => struct_set ar h id v ;;; sret v
  | Err e => sraise e
  end.

(** ** [x | y], [y | x]: UserDict.__or__, __ror__: [self.__class__(self.data | other)], an object without
    an instance; the constructors of structures.py:41-76, 142-156 with [instance = None] *)
Definition lone_dims (k : kind) (id v : pyval) : result vdict :=
  if negb (is_str id) then Err (err_id_type k)
  else match v with
       | VDict [] => Err (DimensionsError D_MISSING)
       | VDict d => if negb (has_proper_keys k d) then Err (DimensionsError D_KEYS) else fill_dims k d []
       | _ => Err (DimensionsError D_TYPE)
       end.
Fixpoint lone_entries (k : kind) (d : vdict) : result (list (pyval * vdict)) :=
  match d with
  | [] => Ok []
  | (id, v) :: t => bind (lone_dims k id v) (fun x => bind (lone_entries k t) (fun r => Ok ((id, x) :: r)))
  end.
Definition lone_structure (k : kind) (d : vdict) : result (list (pyval * vdict)) :=
  match d with [] => Err (err_missing k) | _ => lone_entries k d end.
Definition union (a b : vdict) : vdict := fold_left (fun d kv => vset d (fst kv) (snd kv)) b a.
Definition struct_or (h : nat) (w : pyval) : M (list (pyval * vdict)) :=
  o <~ get_sobj ar h ;; s <~ sget ;;
  match mapping_data s w with
  | None => sraise TypeError
  | Some d => slift (lone_structure (so_kind o) (union (so_data o) d))
  end.
(** [w | x] for a plain dict [w]. *)
Definition struct_ror (w : vdict) (h : nat) : M (list (pyval * vdict)) :=
  o <~ get_sobj ar h ;; slift (lone_structure (so_kind o) (union w (so_data o))).
End Reading.
