(** * Vocabulary of the statements about histories of an instance. *)
From Coq Require Import ZArith String List Bool.
From Verif Require Import Py Arith Construct Spec LocalSearch SpecSearch Values Settings Instance.
Import ListNotations.
Open Scope string_scope.
Open Scope list_scope.
Open Scope Z_scope.

(** ** Accepted values *)
Definition positive_int (v : pyval) (z : Z) : Prop := (v = VInt z \/ v = VBool true /\ z = 1) /\ 0 < z.

(** [{"w": ..., "l": ...}] (or ["W"], ["L"]) with positive integers, in any order. *)
Definition dims_value (k : kind) (v : pyval) (d : dims) : Prop :=
  exists a b, positive_int a (dw d) /\ positive_int b (dl d) /\
    (v = VDict [(VStr (wkey k), a); (VStr (lkey k), b)] \/ v = VDict [(VStr (lkey k), b); (VStr (wkey k), a)]).

(** A non-empty dict of such values, with strings as keys. *)
Definition structure_value (k : kind) (v : pyval) (entries : odict dims) : Prop :=
  exists l, v = VDict l /\ l <> [] /\
    Forall2 (fun p q => fst p = VStr (fst q) /\ dims_value k (snd p) (snd q)) l entries.

(** A dict has no key twice. *)
Definition genuine_dims (v : pyval) : Prop := forall d, v = VDict d -> distinct_keys d.
Definition genuine (v : pyval) : Prop :=
  forall l, v = VDict l -> distinct_keys l /\ forall id w, In (id, w) l -> genuine_dims w.

(** ** Documented errors *)
Definition exactly_proper_keys (k : kind) (d : vdict) : Prop :=
  forall key, In key (vkeys d) <-> key = VStr (wkey k) \/ key = VStr (lkey k).

(** The error for [{..., id: v, ...}]. *)
Inductive entry_error (k : kind) : pyval -> pyval -> exn -> Prop :=
| ee_id id v : (forall i, id <> VStr i) -> entry_error k id v (err_id_type k)
| ee_type i v : (forall d, v <> VDict d) -> entry_error k (VStr i) v (DimensionsError D_TYPE)
| ee_missing i : entry_error k (VStr i) (VDict []) (DimensionsError D_MISSING)
| ee_keys i d : d <> [] -> ~ exactly_proper_keys k d -> entry_error k (VStr i) (VDict d) (DimensionsError D_KEYS)
| ee_value i d key v : exactly_proper_keys k d -> In (key, v) d -> (forall z, ~ positive_int v z) ->
    entry_error k (VStr i) (VDict d) (DimensionsError D_VALUE).

(** The error for a whole structure: that of its first bad entry. *)
Inductive structure_error (k : kind) : pyval -> exn -> Prop :=
| se_type v : (forall l, v <> VDict l) -> structure_error k v (err_type k)
| se_missing : structure_error k (VDict []) (err_missing k)
| se_entry before id v after e :
    Forall (fun p => exists i d, fst p = VStr i /\ dims_value k (snd p) d) before ->
    entry_error k id v e -> structure_error k (VDict (before ++ (id, v) :: after)) e.

Section Spec.
Context {ar : arith}.

(** What [p.items] and [p.containers] show: ids with their width and length, in order; [None]
    if something there is not a pair of integers under the proper keys. *)
Definition items_of (s : machine ar) : option (odict dims) := view_struct s (m_items s).
Definition containers_of (s : machine ar) : option (odict dims) := view_struct s (m_containers s).

(** Containers and items are non-empty and all dimensions are positive integers. *)
Definition well_formed (s : machine ar) : Prop :=
  exists containers items,
    containers_of s = Some containers /\ items_of s = Some items /\
    containers <> [] /\ items <> [] /\ valid_items containers /\ valid_items items.

(** [x |= y] on a structure or on dimensions. *)
Definition uses_ior (o : op) : bool :=
  match o with OpStructIor _ _ | OpDimIor _ _ => true | _ => false end.
Definition without_ior (l : list op) : Prop := forall o, In o l -> uses_ior o = false.

(** [s] is reached from a newly created object by the operations [l]. *)
Definition history (env : environment) (containers items settings width : pyval)
           (l : list op) (s : machine ar) : Prop :=
  exists s0, created env containers items settings width s0 /\ leads_to s0 l s.

(** The solution was reset. *)
Definition no_solution (s : machine ar) : Prop := m_sol s = [] /\ m_objs s = [].

(** A packing of the items into the containers: every container has its (possibly empty) part,
    no item is stored twice, every entry is one of the items, in one of its two orientations,
    inside the container (a strip has no ceiling), and two entries of one container share cells
    at most on the top row of one of them (see C03). *)
Definition a_packing (containers items : odict dims) (strip : bool) (sol : solution) : Prop :=
  dkeys sol = dkeys containers /\
  NoDup (stored_ids sol) /\
  (forall cid csol i e, In (cid, csol) sol -> In (i, e) csol ->
     exists c d, dget containers cid = Some c /\ dget items i = Some d /\ stores true d e /\
       if strip then 0 < e_w e /\ 0 < e_l e /\ 0 <= e_x e /\ 0 <= e_y e /\ e_x e + e_w e <= dw c
       else inside (dw c) (dl c) e) /\
  (forall cid csol i1 e1 i2 e2, In (cid, csol) sol -> In (i1, e1) csol -> In (i2, e2) csol ->
     i1 <> i2 -> benign e1 e2 \/ benign e2 e1).

(** The solution and the values per container come from one construction: some sequence of these
    items packed into these containers, with some rotation, strategy and (in a strip) height.
    Copying a solution may list the entries of a container in another order. *)
Definition a_construction (containers items : odict dims) (strip : bool) (sol : solution)
           (objs : objvals ar) : Prop :=
  exists rotation strategy height sequence built,
    (strip = true -> 1 <= height) /\
    solve ar (mkProblem containers items rotation strategy strip height) sequence = Ok (built, objs) /\
    same_placements built sol.

(** The strip heights. *)
Definition heights_ok (s : machine ar) : Prop :=
  m_strip s = true ->
  exists h, m_height s = Some h /\ 1 <= h /\ forall m, m_min s = Some m -> 1 <= m <= h.
End Spec.
