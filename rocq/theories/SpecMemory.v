(** * What the objects of an instance say, and what it means to leave objects alone. *)
From Coq Require Import ZArith String List Bool.
From Verif Require Import Py Arith Construct LocalSearch HyperSearch ItemsManip Values Memory.
Import ListNotations.

Section Spec.
Context {ar : arith}.
Implicit Types (h : heap ar) (m : mem ar).

(** A dict whose values, one by one, are objects that stand for the values of [d]; the same keys in
    the same order. *)
Definition table {X} (stands_for : addr -> X -> Prop) (t : odict addr) (d : odict X) : Prop :=
  Forall2 (fun ka kx => fst ka = fst kx /\ stands_for (snd ka) (snd kx)) t d.

(** An Items or Containers object with these contents. *)
Definition is_struct h (a : addr) (d : odict dims) : Prop :=
  exists t, nth_error h a = Some (OStruct t) /\ table (fun b x => nth_error h b = Some (ODims x)) t d.

(** A solution: a dict of dicts of lists. *)
Definition is_csol h (a : addr) (c : odict entry) : Prop :=
  exists t, nth_error h a = Some (OTable t) /\ table (fun b e => nth_error h b = Some (OEntry e)) t c.
Definition is_solution h (a : addr) (sol : solution) : Prop :=
  exists t, nth_error h a = Some (OTable t) /\ table (is_csol h) t sol.

(** What the instance shows to its user. *)
Definition shows m (x : inst ar) : Prop :=
  let h := me_heap m in let me := me_self m in let pb := in_pb x in
  is_struct h (se_containers me) (pb_containers pb) /\
  is_struct h (se_items me) (pb_items pb) /\
  se_rotation me = pb_rotation pb /\ se_strategy me = pb_strategy pb /\ se_strip me = pb_strip pb /\
  se_height me = pb_height pb /\ se_min me = in_min x /\ se_cnum me = in_cnum x /\
  is_solution h (se_sol me) (in_sol x) /\ nth_error h (se_objs me) = Some (OObjs (in_objs x)) /\
  se_hist me = in_hist x.

(** Every object there was is still there, with the same contents. *)
Definition untouched h h' : Prop := forall a o, nth_error h a = Some o -> nth_error h' a = Some o.

(** The objects a solution consists of: its dict, the dict of every container, the lists in it. *)
Definition csol_objects h (a : addr) : list addr :=
  a :: match nth_error h a with Some (OTable t) => map snd t | _ => [] end.
Definition solution_objects h (a : addr) : list addr :=
  a :: match nth_error h a with Some (OTable t) => flat_map (fun kb => csol_objects h (snd kb)) t | _ => [] end.

(** The solution attributes hold objects that did not exist in [h], each in one place only. *)
Definition fresh_results h m : Prop :=
  let all := se_objs (me_self m) :: solution_objects (me_heap m) (se_sol (me_self m)) in
  NoDup all /\ forall a, In a all -> (length h <= a)%nat.

(** The ids of a dict are distinct, and there are items. *)
Definition dict_ids (x : inst ar) : Prop :=
  NoDup (dkeys (pb_items (in_pb x))) /\ NoDup (dkeys (pb_containers (in_pb x))) /\ pb_items (in_pb x) <> [].

(** The instance still has the same Items object and the same Containers object. *)
Definition same_structures m m' : Prop :=
  se_items (me_self m') = se_items (me_self m) /\ se_containers (me_self m') = se_containers (me_self m).

(** The Dimensions objects of the items; none of them stands in a second place. *)
Definition item_dims m : list addr :=
  match nth_error (me_heap m) (se_items (me_self m)) with Some (OStruct t) => map snd t | _ => [] end.
Definition unshared m : Prop :=
  exists ti tc, nth_error (me_heap m) (se_items (me_self m)) = Some (OStruct ti) /\
    nth_error (me_heap m) (se_containers (me_self m)) = Some (OStruct tc) /\
    NoDup (map snd ti) /\ forall a, In a (map snd ti) -> ~ In a (map snd tc).

(** Every object there was is still there; only the objects of [l] may have other contents. *)
Definition only_changes (l : list addr) h h' : Prop :=
  forall a o, nth_error h a = Some o -> ~ In a l -> nth_error h' a = Some o.

(** An instance as the constructor leaves it. *)
Definition usable m : Prop := (exists x, shows m x /\ dict_ids x) /\ unshared m.

(** ** Calls, in any order; a call that raises an exception does not end the history. *)
Inductive call :=
| CallSolve (sequence : option (list string))
| CallLocalSearch (ck : clock) (limit : Z) (throttle : bool)
| CallHypersearch (ck : clock) (limit : Z) (throttle : bool) (orientation : option string)
                  (sorting_by : option (string * bool)) (strategies : list (list pclass))
| CallSortItems (sorting_by : option (string * bool))
| CallOrientItems (orientation : option string).

(** What is known to be done in place: turning the items. *)
Definition in_place (c : call) : bool :=
  match c with
  | CallHypersearch _ _ _ _ None _ => true
  | CallOrientItems _ => true
  | _ => false
  end.
(** The calls that set the solution. *)
Definition solves (c : call) : bool :=
  match c with CallSolve _ | CallLocalSearch _ _ _ | CallHypersearch _ _ _ _ _ _ => true | _ => false end.

Definition run_call (c : call) (m : mem ar) : mem ar * result unit :=
  let drop {A} (r : mem ar * result A) : mem ar * result unit :=
    (fst r, match snd r with Ok _ => Ok tt | Err e => Err e end) in
  match c with
  | CallSolve seq => m_solve ar seq m
  | CallLocalSearch ck limit throttle =>
      drop (m_local_search ar (m_ls_fuel (me_self m) (length (item_dims m))) ck limit throttle None 0%nat m)
  | CallHypersearch ck limit throttle o sb strategies =>
      drop (m_hypersearch ar m_ls_fuel ck limit throttle o sb strategies 0%nat m)
  | CallSortItems sb => m_sort_items ar sb m
  | CallOrientItems o => m_orient_items ar o m
  end.
Definition after_calls (m : mem ar) (l : list call) : mem ar := fold_left (fun m c => fst (run_call c m)) l m.
End Spec.
