(** * What [solve()] computes, without grids: the point generation heuristic in terms of
    rectangles, item sequences and queues of potential points (C65, C66).

    The vocabulary of single steps is in Spec.v (fit test) and SpecPoints.v (spawned points). *)
From Coq Require Import ZArith String List Bool.
From Verif Require Import Py Arith Construct Spec Runs SpecPoints.
Import ListNotations.
Open Scope Z_scope.

(** A container being filled. *)
Record filling := mkFilling {
  f_left : odict dims;                 (* the items not stored yet, in sequence order *)
  f_stored : odict entry;              (* the stored ones, in placement order *)
  f_queues : pclass -> list point;     (* the potential points of each class, oldest first *)
  f_point : option point               (* the point to use next *)
}.

Definition start (items : odict dims) : filling :=
  mkFilling items [] (fun _ => []) (Some (0, 0)).

(** The next point is the oldest one of the first class of the strategy that has any. *)
Inductive draws (strategy : list pclass) (qs : pclass -> list point)
  : option point -> (pclass -> list point) -> Prop :=
| draws_none qs' : (forall c, In c strategy -> qs c = []) -> (forall c, qs' c = qs c) ->
    draws strategy qs None qs'
| draws_some before c after q qs' :
    strategy = before ++ c :: after -> (forall c', In c' before -> qs c' = []) ->
    qs c = q :: qs' c -> (forall c', c' <> c -> qs' c' = qs c') ->
    draws strategy qs (Some q) qs'.

Section Filling.
Context (W L : Z) (strip rotation : bool) (strategy : list pclass).

(** In bins: the items' areas add up to the container's. *)
Definition full (stored : odict entry) : Prop :=
  strip = false /\ W * L <= total_area (entries stored).

Definition goes_on (f : filling) (p : point) : Prop :=
  f_point f = Some p /\ f_left f <> [] /\ ~ full (f_stored f).

Inductive fill_step (p : point) (f : filling) : filling -> Prop :=
| fill_place earlier i d later w l new o qs' :
    f_left f = earlier ++ (i, d) :: later ->
    (forall j dj, In (j, dj) earlier ->
       fits_nowhere W L rotation (entries (f_stored f)) p dj) ->
    (w = dw d /\ l = dl d) \/
    (rotation = true /\ w = dl d /\ l = dw d /\
     ~ pfit W L (entries (f_stored f)) p (dw d) (dl d)) ->
    pfit W L (entries (f_stored f)) p w l ->
    (forall c, (forall q, In q (new c) <->
                  spawns W L (entries (f_stored f) ++ [mkEntry (fst p) (snd p) w l])
                         (mkEntry (fst p) (snd p) w l) c q) /\
               ForallOrdPairs left_or_below (new c)) ->
    draws strategy (fun c => f_queues f c ++ new c) o qs' ->
    fill_step p f (mkFilling (earlier ++ later)
                             (f_stored f ++ [(i, mkEntry (fst p) (snd p) w l)]) qs' o)
| fill_skip o qs' :
    (forall j dj, In (j, dj) (f_left f) ->
       fits_nowhere W L rotation (entries (f_stored f)) p dj) ->
    draws strategy (f_queues f) o qs' ->
    fill_step p f (mkFilling (f_left f) (f_stored f) qs' o).

Inductive fills : filling -> filling -> Prop :=
| fills_end f : (forall p, ~ goes_on f p) -> fills f f
| fills_step f p g h : goes_on f p -> fill_step p f g -> fills g h -> fills f h.
End Filling.

(** The containers are filled one after the other with what the earlier ones left. *)
Inductive packs (pb : problem) : odict dims -> odict dims -> solution -> odict dims -> Prop :=
| packs_nil items : packs pb [] items [] items
| packs_cons cid c cs items f sol rest :
    fills (dw c) (available_height pb c) (pb_strip pb) (pb_rotation pb) (pb_strategy pb)
          (start items) f ->
    packs pb cs (f_left f) sol rest ->
    packs pb ((cid, c) :: cs) items ((cid, f_stored f) :: sol) rest.

(** The items in the order asked for: all of them, or the first occurrences in the sequence. *)
Definition in_sequence (pb : problem) (sequence : option (list string)) (items : odict dims) : Prop :=
  match sequence with
  | None => items = pb_items pb
  | Some ids => dkeys items = rev (nodup string_dec (rev ids)) /\
                forall i d, In (i, d) items -> dget (pb_items pb) i = Some d
  end.
