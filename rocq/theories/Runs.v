(** * Runs of the construction loop, as a transition system.

    Vocabulary for the properties that speak about the points processed while a container is
    being filled (Properties C05, C11, C12, C48, C51). A state is the loop state of
    [_construct_solution] (mixins.py:400-524); [construct_result] in ProofsConstruct.v shows that
    the result of a construction is the stopped state of such a run. *)
From Coq Require Import ZArith String List Bool.
From Verif Require Import Py Arith Construct Spec.
Import ListNotations.
Open Scope Z_scope.

Section Runs.
Context (ar : arith) (W L : Z) (strip rotation : bool) (strategy : list pclass).

(** The rectangles placed so far, in placement order. *)
Definition placed_entries (s : cstate ar) : list entry :=
  map (fun kp => export (snd kp)) (st_sol s).

(** The loop goes on, at point [p] (mixins.py:400-401). *)
Definition running (s : cstate ar) (p : point) : Prop :=
  st_cur s = Some p /\ st_ids s <> [] /\ ngeb ar (st_obj s) (num1 ar) = false.

(** Some number of iterations. *)
Inductive steps : cstate ar -> cstate ar -> Prop :=
| steps_refl s : steps s s
| steps_cons s p s1 s2 :
    running s p -> loop_body ar W L strip rotation strategy s p = Ok s1 -> steps s1 s2 ->
    steps s s2.

Definition stopped (s : cstate ar) : Prop := forall p, ~ running s p.

(** The w x l item passes the fit test at point [p]. *)
Definition pfit (es : list entry) (p : point) (w l : Z) : Prop :=
  passes_fit_test W L es (fst p) (snd p) w l.

(** No permitted orientation of the item passes the fit test at point [p]. *)
Definition fits_nowhere (es : list entry) (p : point) (d : dims) : Prop :=
  ~ pfit es p (dw d) (dl d) /\ (rotation = true -> ~ pfit es p (dl d) (dw d)).
End Runs.
