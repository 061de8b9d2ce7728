(** * Vocabulary of the property statements about packings.

    Independent of how the solver works: rectangles, cells, containers, areas. An [entry]
    [mkEntry x y w l] is the list [Xo, Yo, w, l] stored in [solution[container][item]]. *)
From Coq Require Import ZArith String List Bool QArith.
From Verif Require Import Py Arith Construct.
Import ListNotations.
Open Scope Z_scope.

(** The unit cell with lower left corner (x, y) belongs to the rectangle. *)
Definition covers (e : entry) (x y : Z) : Prop :=
  e_x e <= x < e_x e + e_w e /\ e_y e <= y < e_y e + e_l e.

Definition overlap (e1 e2 : entry) : Prop := exists x y, covers e1 x y /\ covers e2 x y.

(** A non-degenerate rectangle inside a W x L container. *)
Definition inside (W L : Z) (e : entry) : Prop :=
  0 < e_w e /\ 0 < e_l e /\
  0 <= e_x e /\ 0 <= e_y e /\ e_x e + e_w e <= W /\ e_y e + e_l e <= L.

Definition entry_area (e : entry) : Z := e_w e * e_l e.
Definition total_area (es : list entry) : Z := fold_right (fun e n => entry_area e + n) 0 es.

(** Height of the stack of items, 0 when there are none. *)
Definition stack_height (es : list entry) : Z :=
  fold_right (fun e n => Z.max (e_y e + e_l e) n) 0 es.

(** The only cells of [later] that may also belong to something placed before it. *)
Definition on_open_top_row (later : entry) (x y : Z) : Prop :=
  y = e_y later + e_l later - 1 /\ e_x later < x < e_x later + e_w later - 1.

(** Sharing cells is confined to the open top row of the one placed later. *)
Definition benign (earlier later : entry) : Prop :=
  forall x y, covers earlier x y -> covers later x y -> on_open_top_row later x y.

(** In placement order. *)
Definition placed_in_order (es : list entry) : Prop := ForallOrdPairs benign es.

(** A w x l item put at (x, y) is inside the container and touches nothing already placed,
    except possibly on the open top row: what the solver calls "fits". *)
Definition passes_fit_test (W L : Z) (es : list entry) (x y w l : Z) : Prop :=
  x + w <= W /\ y + l <= L /\
  forall x' y', covers (mkEntry x y w l) x' y' -> ~ on_open_top_row (mkEntry x y w l) x' y' ->
                forall e, In e es -> ~ covers e x' y'.

(** The entry stores this item, in a permitted orientation. *)
Definition stores (rotation : bool) (d : dims) (e : entry) : Prop :=
  (e_w e = dw d /\ e_l e = dl d) \/ (rotation = true /\ e_w e = dl d /\ e_l e = dw d).

Definition pos_dims (d : dims) : Prop := 0 < dw d /\ 0 < dl d.

(** A problem as the validated structures provide it (structures.py): non-empty, distinct
    ids, positive integers; in strip mode a positive container height. *)
Definition valid_items (items : odict dims) : Prop :=
  NoDup (dkeys items) /\ forall i d, In (i, d) items -> pos_dims d.

Definition valid_problem (pb : problem) : Prop :=
  valid_items (pb_items pb) /\ valid_items (pb_containers pb) /\
  pb_items pb <> [] /\ pb_containers pb <> [] /\
  (pb_strip pb = true -> 0 < pb_height pb).

(** The sequence given to [solve] only names known items. *)
Definition known_sequence (pb : problem) (sequence : option (list string)) : Prop :=
  match sequence with
  | None => True
  | Some ids => forall i, In i ids -> In i (dkeys (pb_items pb))
  end.

(** The ids [solve] works with: the sequence given, or all of them. *)
Definition wanted (pb : problem) (sequence : option (list string)) : list string :=
  match sequence with None => dkeys (pb_items pb) | Some ids => ids end.

Definition entries (csol : odict entry) : list entry := map snd csol.

(** Ids stored in a solution, container by container. *)
Definition stored_ids (sol : solution) : list string :=
  concat (map (fun kc => dkeys (snd kc)) sol).

(** The height a container offers: its length, or the current strip height. *)
Definition available_height (pb : problem) (c : dims) : Z :=
  if pb_strip pb then pb_height pb else dl c.

(** Pairwise disjointness of the rectangles of a container. *)
Definition no_overlaps (es : list entry) : Prop :=
  ForallOrdPairs (fun a b => ~ overlap a b) es.

(** Total area of a set of items. *)
Definition items_area (items : odict dims) : Z :=
  fold_right (fun kd n => dw (snd kd) * dl (snd kd) + n) 0 items.

(** Sum of rationals. *)
Definition qsum (l : list Q) : Q := fold_right Qplus 0%Q l.
