(** * Vocabulary of the statements about histories with several processes. *)
From Coq Require Import ZArith String List Bool QArith Permutation.
From Verif Require Import Py Arith Construct Spec LocalSearch Values Settings Instance SpecInstance SpecSettings
  PropertiesSettings MultiProcess MultiHistory.
Import ListNotations.
Open Scope string_scope.
Open Scope list_scope.
Open Scope Z_scope.

Section Vocabulary.
Context {ar : arith}.

(** [x |= y] on a structure or on dimensions. *)
Definition muses_ior (o : mop ar) : bool := match o with Plain o => uses_ior o | Processes _ => false end.
Definition mwithout_ior (l : list (mop ar)) : Prop := forall o, In o l -> muses_ior o = false.

(** [s] is reached from a newly created object by the operations [l]. *)
Definition mhistory (env : environment) (containers items settings width : pyval)
           (l : list (mop ar)) (s : machine ar) : Prop :=
  exists s0, created env containers items settings width s0 /\ mleads_to s0 l s.

(** Operations that replace the solution by a new one. *)
Definition searches (o : mop ar) : Prop :=
  match o with
  | Plain (OpSolve _) | Plain (OpLocalSearch _ _) | Plain (OpHypersearch _ _ _ _ _) | Processes _ => True
  | _ => False
  end.

(** Operations on the settings. *)
Definition touches_settings (o : mop ar) : Prop :=
  match o with
  | Plain (OpSetSettings _ _) | Plain (OpValidateSettings _) | Plain (OpEditSettings _) => True
  | _ => False
  end.

(** A positive finite number of workers. *)
Definition worker_number (v : pyval) (q : Q) : Prop := as_number v = Some (FNum q) /\ (0 < q)%Q.

(** The attributes have the values [p.settings] shows. *)
Definition in_force (s : machine ar) : Prop :=
  exists d, settings_of s = VDict d /\ rotation_is d (rotation_of s) /\ max_time_is d (max_time_of s) /\
    any_workers_is d (workers_of s).

(** The libraries installed and the directories still allow the figure asked for. *)
Definition figure_possible (env : environment) (s : machine ar) : Prop :=
  exists d, settings_of s = VDict d /\ figure_by_code env d.

(** A history in which no settings were rejected, nor their dictionary changed in place. *)
Definition undisturbed (o : mop ar) (r : result unit) : Prop :=
  match o with
  | Plain (OpSetSettings _ _) | Plain (OpValidateSettings _) => r = Ok tt
  | Plain (OpEditSettings _) => False
  | _ => True
  end.
Inductive agreed : machine ar -> list (mop ar) -> machine ar -> Prop :=
| agreed_nil s : agreed s [] s
| agreed_cons s o s1 r l s' : mrun o s s1 r -> undisturbed o r -> agreed s1 l s' -> agreed s (o :: l) s'.

(** Every stored entry has the dimensions of its item, exchanged only where rotation allows. *)
Definition turned_as_allowed (rotation : bool) (items : odict dims) (sol : solution) : Prop :=
  forall cid csol i e, In (cid, csol) sol -> In (i, e) csol ->
  exists d, dget items i = Some d /\ stores rotation d e.

(** What an operation leaves of the configuration: everything but the items, the solution and
    [best_strategy]. *)
Definition same_configuration (s s' : machine ar) : Prop :=
  containers_of s' = containers_of s /\ m_strip s' = m_strip s /\ m_strategy s' = m_strategy s /\
  m_height s' = m_height s /\ m_min s' = m_min s /\ m_cnum s' = m_cnum s /\ m_cfg s' = m_cfg s.

(** The same items, possibly in another order and turned. *)
Definition rearranged (before after : odict dims) : Prop :=
  Permutation (dkeys before) (dkeys after) /\
  forall i d d', dget before i = Some d -> dget after i = Some d' ->
    d' = d \/ d' = mkDims (dl d) (dw d).

End Vocabulary.
