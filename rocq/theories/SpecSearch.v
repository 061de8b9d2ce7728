(** * Vocabulary of the statements about searches. *)
From Coq Require Import ZArith String List Bool Permutation.
From Verif Require Import Py Arith Construct Spec LocalSearch.
Import ListNotations.
Open Scope Z_scope.

Section Spec.
Context (ar : arith).

(** A HyperPack instance as its constructor and setters leave it (see Properties C32, C36, C37):
    valid structures; in strip mode the one strip container, a positive height and a
    minimum height (if any) between 1 and the height. *)
Definition valid_inst (x : inst ar) : Prop :=
  valid_problem (in_pb x) /\
  (pb_strip (in_pb x) = true ->
     dkeys (pb_containers (in_pb x)) = [strip_id] /\
     forall m, in_min x = Some m -> 1 <= m <= pb_height (in_pb x)).

(** The number of containers kept for the objective value is the real one (C38). *)
Definition counted (x : inst ar) : Prop := in_cnum x = zlen (pb_containers (in_pb x)).

(** [sol], [objs] is what [solve(sequence)] produces for the problem at container height [h]. *)
Definition constructed (x : inst ar) (h : Z) (sequence : list string)
           (sol : solution) (objs : objvals ar) : Prop :=
  solve ar (pb_with_height (in_pb x) h) (Some sequence) = Ok (sol, objs).

(** The same placements, container by container and item by item (order may differ); the copy
    has no id twice in a container. *)
Definition same_placements (sol sol' : solution) : Prop :=
  dkeys sol = dkeys sol' /\
  (forall cid csol csol', dget sol cid = Some csol -> dget sol' cid = Some csol' ->
     forall i, dget csol i = dget csol' i) /\
  (forall cid csol', In (cid, csol') sol' -> NoDup (dkeys csol')).

(** The value [calculate_obj_value()] reports for the objective values [objs]. *)
Definition value_is (x : inst ar) (objs : objvals ar) (v : num ar) : Prop :=
  obj_value ar (in_cnum x) (dvals objs) = Ok v.

(** All the items of the problem are stored in the strip. *)
Definition strip_full (x : inst ar) (sol : solution) : Prop :=
  exists csol, dget sol strip_id = Some csol /\
    forall i, In i (dkeys (pb_items (in_pb x))) -> In i (dkeys csol).

(** What makes [local_search] move to a new node: a larger value and, in strip mode without
    minimum height, all the items stored. *)
Definition acceptable (x : inst ar) (sol : solution) (v best : num ar) : Prop :=
  ngtb ar v best = true /\
  (pb_strip (in_pb x) = true -> in_min x = None -> strip_full x sol).

(** Configuration attributes, everything but the solution and the height. *)
Definition same_config (x y : inst ar) : Prop :=
  in_pb y = pb_with_height (in_pb x) (pb_height (in_pb y)) /\
  in_min y = in_min x /\ in_cnum y = in_cnum x.
End Spec.
