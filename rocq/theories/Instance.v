(** * The objects behind the API: Dimensions, Items, Containers and the problem instance.

    Models /repo/hyperpack/structures.py and, in /repo/hyperpack/heuristics.py,
    BasePackingProblem, PointGenerationSolver and HyperPack as a machine: a heap of Dimensions
    and Items/Containers objects, the attributes of one HyperPack instance, and the operations
    a caller can perform, in any order, on any object ever obtained (also one that is no longer
    part of the problem). Operations that raise keep the effects they already had.

    The methods the structures inherit from [collections.UserDict] / [MutableMapping] are
    modelled after CPython 3.9-3.11. Not modelled: assigning private attributes or the attribute
    [data] of a structure, several instances sharing structures, structures without an instance. *)
From Coq Require Import ZArith String Ascii List Bool.
From Verif Require Import Py Arith Construct LocalSearch ItemsManip HyperSearch Values Settings.
Import ListNotations.
Open Scope string_scope.
Open Scope list_scope.
Open Scope Z_scope.
Open Scope sm_scope.

Inductive kind := KContainers | KItems.

(** PROPER_DIMENSIONS_KEYS, structures.py:222-224, 319-321: width, length. *)
Definition wkey (k : kind) : string := match k with KContainers => "W" | KItems => "w" end.
Definition lkey (k : kind) : string := match k with KContainers => "L" | KItems => "l" end.

(** ERROR_CLASS.TYPE, ... *)
Definition err_type (k : kind) : exn :=
  match k with KContainers => ContainersError C_TYPE | KItems => ItemsError I_TYPE end.
Definition err_missing (k : kind) : exn :=
  match k with KContainers => ContainersError C_MISSING | KItems => ItemsError I_MISSING end.
Definition err_id_type (k : kind) : exn :=
  match k with KContainers => ContainersError C_ID_TYPE | KItems => ItemsError I_ID_TYPE end.
Definition err_last (k : kind) : exn :=
  match k with
  | KContainers => ContainersError C_CANT_DELETE_STRUCTURE
  | KItems => ItemsError I_CANT_DELETE_STRUCTURE
  end.
Definition strip_only : exn := ContainersError C_STRIP_PACK_ONLY.

(** A Dimensions object: [proper_keys] (as the kind of structure) and [data]. *)
Record dobj := mkDobj { do_kind : kind; do_data : vdict }.
(** A Containers or Items object: its class and [data]. *)
Record sobj := mkSobj { so_kind : kind; so_data : vdict }.

Section Machine.
Context (ar : arith).

Record machine := mkM {
  m_dims : list dobj;                      (* all the Dimensions objects, by address *)
  m_structs : list sobj;                   (* all the Items/Containers objects, by address *)
  m_items : nat;                           (* _items *)
  m_containers : nat;                      (* _containers *)
  m_strip : bool;                          (* _strip_pack *)
  m_height : option Z;                     (* _container_height; a bool is kept as 0/1 *)
  m_min : option Z;                        (* _container_min_height *)
  m_cnum : Z;                              (* _containers_num *)
  m_sol : solution;                        (* solution *)
  m_objs : objvals ar;                     (* obj_val_per_container *)
  m_hist : list Z;                         (* _heights_history *)
  m_strategy : list pclass;                (* _potential_points_strategy *)
  m_best : option (list pclass);           (* best_strategy (None also before any hypersearch) *)
  m_cfg : cfg                              (* settings and the attributes set from it *)
}.

Definition M := SM machine.

(** ** Heap *)
Definition set_dims (s : machine) (d : list dobj) : machine :=
  mkM d (m_structs s) (m_items s) (m_containers s) (m_strip s) (m_height s) (m_min s) (m_cnum s)
      (m_sol s) (m_objs s) (m_hist s) (m_strategy s) (m_best s) (m_cfg s).
Definition set_structs (s : machine) (d : list sobj) : machine :=
  mkM (m_dims s) d (m_items s) (m_containers s) (m_strip s) (m_height s) (m_min s) (m_cnum s)
      (m_sol s) (m_objs s) (m_hist s) (m_strategy s) (m_best s) (m_cfg s).
Definition set_items_ref (s : machine) (h : nat) : machine :=
  mkM (m_dims s) (m_structs s) h (m_containers s) (m_strip s) (m_height s) (m_min s) (m_cnum s)
      (m_sol s) (m_objs s) (m_hist s) (m_strategy s) (m_best s) (m_cfg s).
Definition set_containers_ref (s : machine) (h : nat) : machine :=
  mkM (m_dims s) (m_structs s) (m_items s) h (m_strip s) (m_height s) (m_min s) (m_cnum s)
      (m_sol s) (m_objs s) (m_hist s) (m_strategy s) (m_best s) (m_cfg s).
Definition set_heights (s : machine) (h m : option Z) : machine :=
  mkM (m_dims s) (m_structs s) (m_items s) (m_containers s) (m_strip s) h m (m_cnum s)
      (m_sol s) (m_objs s) (m_hist s) (m_strategy s) (m_best s) (m_cfg s).
Definition set_strip (s : machine) (b : bool) : machine :=
  mkM (m_dims s) (m_structs s) (m_items s) (m_containers s) b (m_height s) (m_min s) (m_cnum s)
      (m_sol s) (m_objs s) (m_hist s) (m_strategy s) (m_best s) (m_cfg s).
Definition set_cnum (s : machine) (n : Z) : machine :=
  mkM (m_dims s) (m_structs s) (m_items s) (m_containers s) (m_strip s) (m_height s) (m_min s) n
      (m_sol s) (m_objs s) (m_hist s) (m_strategy s) (m_best s) (m_cfg s).
Definition set_sol (s : machine) (sol : solution) (objs : objvals ar) : machine :=
  mkM (m_dims s) (m_structs s) (m_items s) (m_containers s) (m_strip s) (m_height s) (m_min s) (m_cnum s)
      sol objs (m_hist s) (m_strategy s) (m_best s) (m_cfg s).
Definition set_history (s : machine) (h : list Z) : machine :=
  mkM (m_dims s) (m_structs s) (m_items s) (m_containers s) (m_strip s) (m_height s) (m_min s) (m_cnum s)
      (m_sol s) (m_objs s) h (m_strategy s) (m_best s) (m_cfg s).
Definition set_pp_strategy (s : machine) (g : list pclass) : machine :=
  mkM (m_dims s) (m_structs s) (m_items s) (m_containers s) (m_strip s) (m_height s) (m_min s) (m_cnum s)
      (m_sol s) (m_objs s) (m_hist s) g (m_best s) (m_cfg s).
Definition set_best (s : machine) (g : option (list pclass)) : machine :=
  mkM (m_dims s) (m_structs s) (m_items s) (m_containers s) (m_strip s) (m_height s) (m_min s) (m_cnum s)
      (m_sol s) (m_objs s) (m_hist s) (m_strategy s) g (m_cfg s).
Definition set_cfg (s : machine) (c : cfg) : machine :=
  mkM (m_dims s) (m_structs s) (m_items s) (m_containers s) (m_strip s) (m_height s) (m_min s) (m_cnum s)
      (m_sol s) (m_objs s) (m_hist s) (m_strategy s) (m_best s) c.

(** No such object: not a Python behaviour. *)
Definition nothing_there : exn := OutOfFuel.

Definition get_dobj (h : nat) : M dobj := fun s =>
  (s, match nth_error (m_dims s) h with Some d => Ok d | None => Err nothing_there end).
Definition get_sobj (h : nat) : M sobj := fun s =>
  (s, match nth_error (m_structs s) h with Some d => Ok d | None => Err nothing_there end).
Definition put_dobj (h : nat) (d : dobj) : M unit := smodify (fun s => set_dims s (list_set (m_dims s) h d)).
Definition put_sobj (h : nat) (d : sobj) : M unit := smodify (fun s => set_structs s (list_set (m_structs s) h d)).
Definition new_dobj (d : dobj) : M nat := fun s => (set_dims s (m_dims s ++ [d]), Ok (length (m_dims s))).
Definition new_sobj (d : sobj) : M nat := fun s => (set_structs s (m_structs s ++ [d]), Ok (length (m_structs s))).

(** ** Dimensions, structures.py:33-122 *)

(** reset_instance_attrs, structures.py:78-80. *)
Definition reset : M unit := smodify (fun s => set_sol s [] []).

(** [key in self.proper_keys] *)
Definition is_proper (k : kind) (key : pyval) : bool :=
  key_eqb key (VStr (wkey k)) || key_eqb key (VStr (lkey k)).

(** validate_data, structures.py:82-91. *)
Definition validate_data (k : kind) (key item : pyval) : result unit :=
  if negb (hashable key) then Err TypeError       (* [key not in self.proper_keys] *)
  else if negb (is_proper k key) then Err (DimensionsError D_KEYS)
  else match as_int item with
       | Some z => if z <=? 0 then Err (DimensionsError D_VALUE) else Ok tt
       | None => Err (DimensionsError D_VALUE)
       end.

(** [set(dimensions) != self.proper_keys], structures.py:66. *)
Definition has_proper_keys (k : kind) (d : vdict) : bool :=
  forallb (is_proper k) (vkeys d) && vmem d (VStr (wkey k)) && vmem d (VStr (lkey k)).

(** The loop of structures.py:71-73. *)
Fixpoint fill_dims (k : kind) (d data : vdict) : result vdict :=
  match d with
  | [] => Ok data
  | (key, item) :: t =>
      bind (validate_data k key item) (fun _ => fill_dims k t (vset data key item))
  end.

(** [Dimensions(dims, self, self.instance)], structures.py:41-76. *)
Definition new_dimensions (k : kind) (v : pyval) : M nat :=
  match v with
  | VDict [] => sraise (DimensionsError D_MISSING)
  | VDict d =>
      swhen (negb (has_proper_keys k d)) (DimensionsError D_KEYS) ;;;
      data <~ slift (fill_dims k d []) ;;
      reset ;;; new_dobj (mkDobj k data)
  | _ => sraise (DimensionsError D_TYPE)
  end.

(** __getitem__ (UserDict). *)
Definition data_get (d : vdict) (key : pyval) : result pyval :=
  if negb (hashable key) then Err TypeError
  else match vget d key with Some v => Ok v | None => Err KeyError end.

(** __setitem__, structures.py:93-119. *)
Definition dim_set (h : nat) (key item : pyval) : M unit :=
  d <~ get_dobj h ;;
  s <~ sget ;;
  swhen (m_strip s && match do_kind d with KContainers => true | KItems => false end
         && match do_data d with [] => false | _ => true end) strip_only ;;;
  slift (validate_data (do_kind d) key item) ;;;
  put_dobj h (mkDobj (do_kind d) (vset (do_data d) key item)) ;;;
  reset.

(** __delitem__, structures.py:121-122. *)
Definition dim_del (h : nat) (key : pyval) : M unit := sraise (DimensionsError D_CANT_DELETE).

(** ** Items and Containers, structures.py:125-337 *)

(** get_dimensions, structures.py:185-191. *)
Definition get_dimensions (k : kind) (id v : pyval) : M nat :=
  swhen (negb (is_str id)) (err_id_type k) ;;; new_dimensions k v.

(** The loop of structures.py:153-156. *)
Fixpoint fill_struct (k : kind) (d data : vdict) : M vdict :=
  match d with
  | [] => sret data
  | (id, v) :: t =>
      h <~ get_dimensions k id v ;;
      fill_struct k t (vset data id (VDims h))
  end.

(** [Containers(v, self)], [Items(v, self)], structures.py:142-156. *)
Definition new_structure (k : kind) (v : pyval) : M nat :=
  match v with
  | VDict [] => sraise (err_missing k)
  | VDict d => data <~ fill_struct k d [] ;; new_sobj (mkSobj k data)
  | _ => sraise (err_type k)
  end.

(** reset_instance_attrs, structures.py:193-195, and of Containers, lines 230-232. *)
Definition struct_reset (h : nat) : M unit :=
  reset ;;;
  d <~ get_sobj h ;;
  match so_kind d with
  | KContainers => smodify (fun s => set_cnum s (zlen (so_data d)))
  | KItems => sret tt
  end.

(** __setitem__, structures.py:158-176. *)
Definition struct_set (h : nat) (id v : pyval) : M unit :=
  d <~ get_sobj h ;;
  s <~ sget ;;
  swhen (m_strip s && match so_kind d with KContainers => true | KItems => false end) strip_only ;;;
  r <~ get_dimensions (so_kind d) id v ;;
  put_sobj h (mkSobj (so_kind d) (vset (so_data d) id (VDims r))) ;;;
  struct_reset h.

(** __delitem__, structures.py:178-183. *)
Definition struct_del (h : nat) (id : pyval) : M unit :=
  d <~ get_sobj h ;;
  swhen (zlen (so_data d) =? 1) (err_last (so_kind d)) ;;;
  slift (data_get (so_data d) id) ;;;      (* [del self.data[key]]: TypeError or KeyError *)
  put_sobj h (mkSobj (so_kind d) (vdel (so_data d) id)) ;;;
  struct_reset h.

(** ** Inherited from MutableMapping and UserDict *)

(** What [update(other)] or [data |= other] goes through: the pairs, then possibly an exception.
    A mapping gives its items; other iterables must give pairs. *)
Definition char_str (c : ascii) : pyval := VStr (String c "").
Fixpoint chars (s : string) : list pyval :=
  match s with EmptyString => [] | String c t => char_str c :: chars t end.

(** [list(v)]; [None]: not iterable. *)
Definition iterated (s : machine) (v : pyval) : option (list pyval) :=
  match v with
  | VTuple l | VList l => Some l
  | VDict d => Some (map fst d)
  | VStr t => Some (chars t)
  | VStruct h => option_map (fun d => map fst (so_data d)) (nth_error (m_structs s) h)
  | VDims h => option_map (fun d => map fst (do_data d)) (nth_error (m_dims s) h)
  | _ => None
  end.

(** [key, value = v] *)
Definition as_pair (s : machine) (v : pyval) : result (pyval * pyval) :=
  match iterated s v with
  | Some [a; b] => Ok (a, b)
  | Some _ => Err ValueError
  | None => Err TypeError
  end.

Fixpoint pairs_of (s : machine) (l : list pyval) : list (pyval * pyval) * result unit :=
  match l with
  | [] => ([], Ok tt)
  | v :: t => match as_pair s v with
              | Ok p => let '(ps, r) := pairs_of s t in (p :: ps, r)
              | Err e => ([], Err e)
              end
  end.

Definition entries_of (v : pyval) : M (list (pyval * pyval) * result unit) := fun s =>
  (s, match v with
      | VDict d => Ok (d, Ok tt)
      | VStruct h => match nth_error (m_structs s) h with Some d => Ok (so_data d, Ok tt) | None => Err nothing_there end
      | VDims h => match nth_error (m_dims s) h with Some d => Ok (do_data d, Ok tt) | None => Err nothing_there end
      | _ => match iterated s v with
             | Some l => Ok (pairs_of s l)
             | None => Err TypeError
             end
      end).

(** [for key in other: self[key] = other[key]] *)
Fixpoint set_all (set : pyval -> pyval -> M unit) (l : list (pyval * pyval)) : M unit :=
  match l with
  | [] => sret tt
  | (k, v) :: t => set k v ;;; set_all set t
  end.

(** MutableMapping.update *)
Definition update (set : pyval -> pyval -> M unit) (other : pyval) : M unit :=
  p <~ entries_of other ;;
  set_all set (fst p) ;;; slift (snd p).

(** [dict.__ior__]: as update, on the inner dictionary. *)
Fixpoint merge (d : vdict) (l : list (pyval * pyval)) : vdict * result unit :=
  match l with
  | [] => (d, Ok tt)
  | (k, v) :: t => if hashable k then merge (vset d k v) t else (d, Err TypeError)
  end.

(** UserDict.__ior__: [self.data |= other] (or [other.data]); no validation. *)
Definition struct_ior (h : nat) (other : pyval) : M unit :=
  p <~ entries_of other ;;
  d <~ get_sobj h ;;
  let '(data, r) := merge (so_data d) (fst p) in
  put_sobj h (mkSobj (so_kind d) data) ;;; slift r ;;; slift (snd p).
Definition dim_ior (h : nat) (other : pyval) : M unit :=
  p <~ entries_of other ;;
  d <~ get_dobj h ;;
  let '(data, r) := merge (do_data d) (fst p) in
  put_dobj h (mkDobj (do_kind d) data) ;;; slift r ;;; slift (snd p).

(** MutableMapping.setdefault *)
Definition struct_setdefault (h : nat) (id v : pyval) : M unit :=
  d <~ get_sobj h ;;
  match data_get (so_data d) id with
  | Ok _ => sret tt
  | Err KeyError => struct_set h id v
  | Err e => sraise e
  end.
Definition dim_setdefault (h : nat) (key v : pyval) : M unit :=
  d <~ get_dobj h ;;
  match data_get (do_data d) key with
  | Ok _ => sret tt
  | Err KeyError => dim_set h key v
  | Err e => sraise e
  end.

(** MutableMapping.pop; [default]: whether a default is given. *)
Definition struct_pop (h : nat) (id : pyval) (default : bool) : M unit :=
  d <~ get_sobj h ;;
  match data_get (so_data d) id with
  | Ok _ => struct_del h id
  | Err KeyError => if default then sret tt else sraise KeyError
  | Err e => sraise e
  end.
Definition dim_pop (h : nat) (key : pyval) (default : bool) : M unit :=
  d <~ get_dobj h ;;
  match data_get (do_data d) key with
  | Ok _ => dim_del h key
  | Err KeyError => if default then sret tt else sraise KeyError
  | Err e => sraise e
  end.

(** MutableMapping.popitem: the first key. *)
Definition struct_popitem (h : nat) : M unit :=
  d <~ get_sobj h ;;
  match so_data d with
  | [] => sraise KeyError
  | (id, _) :: _ => struct_del h id
  end.
Definition dim_popitem (h : nat) : M unit :=
  d <~ get_dobj h ;;
  match do_data d with
  | [] => sraise KeyError
  | (key, _) :: _ => dim_del h key
  end.

(** MutableMapping.clear: popitem until KeyError. Every successful popitem removes a key, so
    [n] = the number of keys + 1 iterations suffice. *)
Fixpoint clear_loop (popitem : M unit) (n : nat) : M unit := fun s =>
  match n with
  | O => (s, Err OutOfFuel)
  | S n' => match popitem s with
            | (s', Ok _) => clear_loop popitem n' s'
            | (s', Err KeyError) => (s', Ok tt)
            | (s', Err e) => (s', Err e)
            end
  end.
Definition struct_clear (h : nat) : M unit :=
  d <~ get_sobj h ;; clear_loop (struct_popitem h) (S (length (so_data d))).
Definition dim_clear (h : nat) : M unit :=
  d <~ get_dobj h ;; clear_loop (dim_popitem h) (S (length (do_data d))).

(** [copy.copy(x)]: UserDict.__copy__ *)
Definition struct_copy_copy (h : nat) : M nat := d <~ get_sobj h ;; new_sobj d.
Definition dim_copy_copy (h : nat) : M nat := d <~ get_dobj h ;; new_dobj d.

(** [x.copy()]: UserDict.copy: a copy with empty data, then [c.update(self)]. *)
Definition struct_copy (h : nat) : M nat :=
  d <~ get_sobj h ;;
  c <~ new_sobj (mkSobj (so_kind d) []) ;;
  update (struct_set c) (VStruct h) ;;; sret c.
Definition dim_copy (h : nat) : M nat :=
  d <~ get_dobj h ;;
  c <~ new_dobj (mkDobj (do_kind d) []) ;;
  update (dim_set c) (VDims h) ;;; sret c.

(** ** Attributes of the instance, heuristics.py *)

(** [items] setter, heuristics.py:111-113. *)
Definition assign_items (v : pyval) : M unit :=
  h <~ new_structure KItems v ;; smodify (fun s => set_items_ref s h).

Definition vlen (v : pyval) : Z := match v with VDict d => zlen d | _ => 0 end.

(** [containers] setter, lines 125-130. *)
Definition assign_containers (v : pyval) : M unit :=
  s <~ sget ;;
  swhen (m_strip s) strip_only ;;;
  h <~ new_structure KContainers v ;;
  smodify (fun s => set_cnum (set_containers_ref s h) (vlen v)).

(** [container_height] setter, lines 142-151. *)
Definition assign_height (v : pyval) : M unit :=
  match as_int v with
  | None => sraise (DimensionsError D_VALUE)
  | Some z =>
      swhen (z <? 1) (DimensionsError D_VALUE) ;;;
      s <~ sget ;;
      swhen (match m_min s with Some m => z <? m | None => false end)
            (ContainersError C_STRIP_PACK_MIN_HEIGHT) ;;;
      smodify (fun s => set_heights s (Some z) (m_min s))
  end.

(** [container_min_height] setter, lines 163-171; [value > None] is a TypeError. *)
Definition assign_min_height (v : pyval) : M unit :=
  match as_int v with
  | None => sraise (DimensionsError D_VALUE)
  | Some z =>
      swhen (z <? 1) (DimensionsError D_VALUE) ;;;
      s <~ sget ;;
      match m_height s with
      | None => sraise TypeError
      | Some h => swhen (z >? h) (ContainersError C_STRIP_PACK_MIN_HEIGHT) ;;;
                  smodify (fun s => set_heights s (m_height s) (Some z))
      end
  end.

(** The dims stored under [id] in structure [h], as integers. *)
Definition view_dobj (d : dobj) : option dims :=
  match vget (do_data d) (VStr (wkey (do_kind d))), vget (do_data d) (VStr (lkey (do_kind d))) with
  | Some w, Some l => match as_int w, as_int l with
                      | Some w', Some l' => Some (mkDims w' l')
                      | _, _ => None
                      end
  | _, _ => None
  end.

Fixpoint view_entries (ds : list dobj) (k : kind) (d : vdict) : option (odict dims) :=
  match d with
  | [] => Some []
  | (VStr id, VDims r) :: t =>
      match nth_error ds r with
      | Some o => match do_kind o, k with
                  | KContainers, KContainers | KItems, KItems =>
                      match view_dobj o, view_entries ds k t with
                      | Some x, Some rest => Some ((id, x) :: rest)
                      | _, _ => None
                      end
                  | _, _ => None
                  end
      | None => None
      end
  | _ :: _ => None
  end.

(** What [items] (or [containers]) shows; [None] if some of it is not a dimensions record of
    integers. *)
Definition view_struct (s : machine) (h : nat) : option (odict dims) :=
  match nth_error (m_structs s) h with
  | Some d => view_entries (m_dims s) (so_kind d) (so_data d)
  | None => None
  end.

(** The attributes the solver reads. *)
Definition view (s : machine) : option (inst ar) :=
  match view_struct s (m_containers s), view_struct s (m_items s) with
  | Some cs, Some is_ =>
      Some (mkInst (mkProblem cs is_ (c_rotation (m_cfg s)) (m_strategy s) (m_strip s)
                              (match m_height s with Some h => h | None => 0 end))
                   (m_min s) (m_cnum s) (m_sol s) (m_objs s) (m_hist s))
  | _, _ => None
  end.

(** The solver on values it cannot use: outside the model. *)
Definition unusable : exn := OutOfFuel.
Definition solver_view : M (inst ar) := fun s =>
  (s, match view s with Some x => Ok x | None => Err unusable end).

(** reset_container_height, lines 93-105. *)
Definition reset_height : M unit :=
  s <~ sget ;;
  if m_strip s
  then x <~ solver_view ;;
       c <~ slift (dget_r (pb_containers (in_pb x)) strip_id) ;;
       smodify (fun s => set_heights s (Some (dw c * max_w_l_ratio)) None)
  else sret tt.

(** potential_points_strategy setter, heuristics.py:293-310. *)
Definition point_names : list (string * pclass) :=
  [("A", cA); ("B", cB); ("C", cC); ("D", cD); ("A_", cA_); ("B_", cB_); ("B__", cB__);
   ("A__", cA__); ("F", cF); ("E", cE)].

Fixpoint check_points (l : list pyval) (checked : list string) : result (list pclass) :=
  match l with
  | [] => Ok []
  | VStr el :: t =>
      match dget point_names el with
      | None => Err (PotentialPointsError PP_ELEMENT_NOT_POINT)
      | Some c => if existsb (String.eqb el) checked then Err (PotentialPointsError PP_DUPLICATE)
                  else bind (check_points t (el :: checked)) (fun r => Ok (c :: r))
      end
  | _ :: _ => Err (PotentialPointsError PP_ELEMENT_TYPE)
  end.

Definition assign_strategy (v : pyval) : M unit :=
  match v with
  | VTuple l => g <~ slift (check_points l []) ;; smodify (fun s => set_pp_strategy s g)
  | _ => sraise (PotentialPointsError PP_TYPE)
  end.

(** Running a computation on the settings. *)
Definition on_cfg (f : SM cfg unit) : M unit := fun s =>
  let '(c, r) := f (m_cfg s) in (set_cfg s c, r).

(** ** The solver on the instance *)

(** Storing what a search changes. *)
Definition put_back (y : inst ar) : M unit :=
  smodify (fun s =>
    set_sol (set_history (set_pp_strategy
      (set_heights s (if m_strip s then Some (pb_height (in_pb y)) else m_height s) (m_min s))
      (pb_strategy (in_pb y))) (in_hist y)) (in_sol y) (in_objs y)).

(** [solve], heuristics.py:263-270. *)
Definition do_solve (sequence : option (list string)) : M unit :=
  x <~ solver_view ;;
  y <~ slift (inst_solve ar x sequence) ;;
  put_back y.

(** [local_search], mixins.py:1169-1218. *)
Definition do_local_search (ck : clock) (throttle : bool) : M unit :=
  x <~ solver_view ;;
  s <~ sget ;;
  r <~ slift (local_search ar ck (c_limit (m_cfg s)) throttle None x 0) ;;
  put_back (fst (fst r)).

(** [items[_id]["w"], items[_id]["l"] = l, w] for the items that must be turned,
    mixins.py:1009-1019. *)
Definition orient_one (turn : Z -> Z -> bool) (h : nat) (id : pyval) : M unit :=
  d <~ get_sobj h ;;
  v <~ slift (data_get (so_data d) id) ;;
  match v with
  | VDims r =>
      o <~ get_dobj r ;;
      w <~ slift (data_get (do_data o) (VStr "w")) ;;
      l <~ slift (data_get (do_data o) (VStr "l")) ;;
      match as_int w, as_int l with
      | Some w', Some l' => if turn w' l' then dim_set r (VStr "w") l ;;; dim_set r (VStr "l") w else sret tt
      | _, _ => sraise unusable
      end
  | _ => sraise unusable
  end.

Fixpoint orient_each (turn : Z -> Z -> bool) (h : nat) (ids : list pyval) : M unit :=
  match ids with
  | [] => sret tt
  | id :: t => orient_one turn h id ;;; orient_each turn h t
  end.

(** [orient_items], mixins.py:975-1019. *)
Definition do_orient (orientation : option string) : M unit :=
  match orientation with
  | None => sret tt
  | Some o =>
      s <~ sget ;;
      d <~ get_sobj (m_items s) ;;
      if negb (c_rotation (m_cfg s)) then sret tt
      else if String.eqb o "wide" then orient_each (fun w l => l >? w) (m_items s) (vkeys (so_data d))
      else if String.eqb o "long" then orient_each (fun w l => l <? w) (m_items s) (vkeys (so_data d))
      else sret tt
  end.

(** [self._items.deepcopy()], structures.py:197-205: plain dictionaries. *)
Fixpoint deepcopy_entries (ds : list dobj) (d : vdict) : option vdict :=
  match d with
  | [] => Some []
  | (id, VDims r) :: t =>
      match nth_error ds r, deepcopy_entries ds t with
      | Some o, Some rest => Some ((id, VDict (do_data o)) :: rest)
      | _, _ => None
      end
  | _ :: _ => None
  end.

(** [sort_items], mixins.py:1021-1063: the copies, in the new order, become the items. *)
Definition do_sort (sorting_by : option (string * bool)) : M unit :=
  match sorting_by with
  | None => sret tt
  | Some (by_, reverse) =>
      x <~ solver_view ;;
      s <~ sget ;;
      d <~ get_sobj (m_items s) ;;
      match key_lt ar by_, deepcopy_entries (m_dims s) (so_data d) with
      | None, _ => sraise NotImplementedError
      | Some _, None => sraise unusable
      | Some lt, Some items =>
          let ids := map fst (py_sort_rev (elem_lt lt) reverse (pb_items (in_pb x))) in
          assign_items (VDict (map (fun id => (VStr id, match vget items (VStr id) with
                                                         | Some v => v | None => VNone end)) ids))
      end
  end.

(** [hypersearch] with [_workers_num == 1], heuristics.py:565-634. *)
Definition do_hypersearch (ck : clock) (throttle : bool) (orientation : option string)
           (sorting_by : option (string * bool)) (strategies : list (list pclass)) : M unit :=
  do_sort sorting_by ;;;
  do_orient orientation ;;;
  x <~ solver_view ;;
  s <~ sget ;;
  r <~ slift (single_process ar ck (c_limit (m_cfg s)) throttle (ck 0%nat) strategies x 1) ;;
  let h := fst r in
  put_back (set_solution (hs_st h) (fst (hs_ret h)) (snd (hs_ret h))) ;;;
  smodify (fun s => set_best s (Some (hs_strategy h))).

(** [self._workers_num == 1] *)
Definition one_worker (v : pyval) : bool := key_eqb v (VInt 1).

(** ** Operations *)
Inductive op :=
(* the instance *)
| OpSetItems (v : pyval)                       (* p.items = v *)
| OpSetContainers (v : pyval)                  (* p.containers = v *)
| OpDelItems                                   (* del p.items *)
| OpDelContainers
| OpSetHeight (v : pyval)                      (* p.container_height = v *)
| OpSetMinHeight (v : pyval)                   (* p.container_min_height = v *)
| OpDelHeight
| OpDelMinHeight
| OpResetHeight                                (* p.reset_container_height() *)
| OpSetStrategy (v : pyval)                    (* p.potential_points_strategy = v *)
| OpDelStrategy
| OpSetSettings (env : environment) (v : pyval)    (* p.settings = v *)
| OpDelSettings
| OpValidateSettings (env : environment)       (* p.validate_settings() *)
| OpEditSettings (d : vdict)                   (* p.settings[...] = ...: any change in place *)
(* an Items or Containers object *)
| OpStructSet (h : nat) (id v : pyval)         (* x[id] = v *)
| OpStructDel (h : nat) (id : pyval)           (* del x[id] *)
| OpStructPop (h : nat) (id : pyval) (default : bool)
| OpStructPopitem (h : nat)
| OpStructClear (h : nat)
| OpStructUpdate (h : nat) (v : pyval)
| OpStructSetdefault (h : nat) (id v : pyval)
| OpStructIor (h : nat) (v : pyval)            (* x |= v *)
| OpStructCopy (h : nat)                       (* x.copy() *)
| OpStructCopyCopy (h : nat)                   (* copy.copy(x) *)
(* a Dimensions object *)
| OpDimSet (h : nat) (key v : pyval)
| OpDimDel (h : nat) (key : pyval)
| OpDimPop (h : nat) (key : pyval) (default : bool)
| OpDimPopitem (h : nat)
| OpDimClear (h : nat)
| OpDimUpdate (h : nat) (v : pyval)
| OpDimSetdefault (h : nat) (key v : pyval)
| OpDimIor (h : nat) (v : pyval)
| OpDimCopy (h : nat)
| OpDimCopyCopy (h : nat)
(* the solver *)
| OpOrient (orientation : option string)
| OpSort (sorting_by : option (string * bool))
| OpSolve (sequence : option (list string))
| OpLocalSearch (ck : clock) (throttle : bool)
| OpHypersearch (ck : clock) (throttle : bool) (orientation : option string)
                (sorting_by : option (string * bool)) (strategies : list (list pclass)).

Definition ignore {A} (m : M A) : M unit := m ;;; sret tt.

Definition run (o : op) : M unit :=
  match o with
  | OpSetItems v => assign_items v
  | OpSetContainers v => assign_containers v
  | OpDelItems => sraise (ItemsError I_CANT_DELETE)                 (* heuristics.py:115-117 *)
  | OpDelContainers => sraise (ContainersError C_CANT_DELETE)       (* 132-134 *)
  | OpSetHeight v => assign_height v
  | OpSetMinHeight v => assign_min_height v
  | OpDelHeight => sraise (DimensionsError D_CANT_DELETE)           (* 153-155 *)
  | OpDelMinHeight => sraise (DimensionsError D_CANT_DELETE)        (* 173-175 *)
  | OpResetHeight => reset_height
  | OpSetStrategy v => assign_strategy v
  | OpDelStrategy => sraise (PotentialPointsError PP_DELETE)        (* 312-314 *)
  | OpSetSettings env v => on_cfg (assign_settings env v)
  | OpDelSettings => sraise (SettingsError S_CANT_DELETE)           (* 283-285 *)
  | OpValidateSettings env => on_cfg (validate_settings env)
  | OpEditSettings d => on_cfg (edit_settings d)
  | OpStructSet h id v => struct_set h id v
  | OpStructDel h id => struct_del h id
  | OpStructPop h id default => struct_pop h id default
  | OpStructPopitem h => struct_popitem h
  | OpStructClear h => struct_clear h
  | OpStructUpdate h v => update (struct_set h) v
  | OpStructSetdefault h id v => struct_setdefault h id v
  | OpStructIor h v => struct_ior h v
  | OpStructCopy h => ignore (struct_copy h)
  | OpStructCopyCopy h => ignore (struct_copy_copy h)
  | OpDimSet h key v => dim_set h key v
  | OpDimDel h key => dim_del h key
  | OpDimPop h key default => dim_pop h key default
  | OpDimPopitem h => dim_popitem h
  | OpDimClear h => dim_clear h
  | OpDimUpdate h v => update (dim_set h) v
  | OpDimSetdefault h key v => dim_setdefault h key v
  | OpDimIor h v => dim_ior h v
  | OpDimCopy h => ignore (dim_copy h)
  | OpDimCopyCopy h => ignore (dim_copy_copy h)
  | OpOrient o => do_orient o
  | OpSort sb => do_sort sb
  | OpSolve sq => do_solve sq
  | OpLocalSearch ck throttle => do_local_search ck throttle
  | OpHypersearch ck throttle o sb strategies =>
      s <~ sget ;;
      if one_worker (c_workers (m_cfg s)) then do_hypersearch ck throttle o sb strategies
      else sraise unusable                     (* several processes: see MultiHistory.v *)
  end.

(** ** The constructor, heuristics.py:36-91, 194-210, 357-368 *)

Definition blank : machine :=
  mkM [] [] 0 0 false None None 0 [] [] [] default_strategy None
      (mkCfg VNone true 0 VNone false false false false).

(** [HyperPack(containers, items, settings, strip_pack_width=width)] *)
Definition create (env : environment) (containers items settings width : pyval) : M unit :=
  (* _check_strip_pack *)
  match width with
  | VNone => smodify (fun s => set_heights (set_strip s false) None None)
  | _ =>
      match as_int width with
      | None => sraise (DimensionsError D_VALUE)
      | Some w =>
          swhen (w <=? 0) (DimensionsError D_VALUE) ;;;
          smodify (fun s => set_heights (set_strip s true) (Some (max_w_l_ratio * w)) None) ;;;
          h <~ new_structure KContainers
                 (VDict [(VStr strip_id, VDict [(VStr "W", width); (VStr "L", VInt (2 ^ 100))])]) ;;
          smodify (fun s => set_containers_ref s h)
      end
  end ;;;
  s <~ sget ;;
  (if negb (m_strip s)
   then h <~ new_structure KContainers containers ;; smodify (fun s => set_containers_ref s h)
   else match containers with VNone => sret tt | _ => sraise strip_only end) ;;;
  h <~ new_structure KItems items ;;
  smodify (fun s => set_items_ref s h) ;;;
  (fun s => let '(c, r) := new_settings env settings in (set_cfg s c, r)) ;;;
  s <~ sget ;;
  d <~ get_sobj (m_containers s) ;;
  smodify (fun s => set_sol (set_cnum (set_pp_strategy s default_strategy) (zlen (so_data d))) [] (m_objs s)).

(** The new object, if the constructor does not raise. *)
Definition created (env : environment) (containers items settings width : pyval) (s : machine) : Prop :=
  create env containers items settings width blank = (s, Ok tt).

(** ** Histories *)

(** [leads_to s l s']: the operations of [l], one after the other, whether they raise or not. *)
Inductive leads_to : machine -> list op -> machine -> Prop :=
| leads_nil s : leads_to s [] s
| leads_cons s o s1 r l s' : run o s = (s1, r) -> leads_to s1 l s' -> leads_to s (o :: l) s'.

End Machine.
Arguments mkM {ar}.
Arguments m_dims {ar}. Arguments m_structs {ar}. Arguments m_items {ar}. Arguments m_containers {ar}.
Arguments m_strip {ar}. Arguments m_height {ar}. Arguments m_min {ar}. Arguments m_cnum {ar}.
Arguments m_sol {ar}. Arguments m_objs {ar}. Arguments m_hist {ar}. Arguments m_strategy {ar}.
Arguments m_best {ar}. Arguments m_cfg {ar}.
Arguments set_dims {ar}. Arguments set_structs {ar}. Arguments set_items_ref {ar}.
Arguments set_containers_ref {ar}. Arguments set_heights {ar}. Arguments set_strip {ar}.
Arguments set_cnum {ar}. Arguments set_sol {ar}. Arguments set_history {ar}.
Arguments set_pp_strategy {ar}. Arguments set_best {ar}. Arguments set_cfg {ar}.
Arguments view_struct {ar}. Arguments view {ar}. Arguments run {ar}. Arguments leads_to {ar}.
Arguments created {ar}.
