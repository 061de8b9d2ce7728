(** * PointGenPack: the problem with [solve], [create_figure] and [log_solution], without the
    searches (/repo/hyperpack/heuristics.py:317-325).

    Its attributes and methods are those HyperPack inherits too (Instance.v), except the
    validation of the settings, which knows neither [max_time_in_seconds] nor [workers_num], and
    the methods of LocalSearchMixin, ItemsManipulationMixin and HyperPack, which it lacks. *)
From Coq Require Import ZArith String List Bool.
From Verif Require Import Py Arith Construct LocalSearch Values Settings Instance.
Import ListNotations.
Open Scope string_scope.
Open Scope list_scope.
Open Scope Z_scope.
Open Scope sm_scope.

(** [validate_settings()]: SolutionFigureMixin.validate_settings (mixins.py:965-967) with
    PointGenerationSolver._validate_settings (heuristics.py:214-256). *)
Definition pg_validate_settings (env : environment) : SM cfg unit :=
  validate_rotation ;;; validate_figure env.

(** The setter [settings = value], heuristics.py:278-281. *)
Definition pg_assign_settings (env : environment) (v : pyval) : SM cfg unit :=
  smodify (fun c => with_settings c v) ;;; pg_validate_settings env.

(** The constructor, heuristics.py:201-204. [_max_time_in_seconds] and [_workers_num] do not exist:
    the values given here are never read. *)
Definition pg_new_settings (env : environment) (v : pyval) : cfg * result unit :=
  pg_validate_settings env (mkCfg (if truthy v then v else VDict []) rotation_default limit_default
                                  workers_default false false false false).

Section PointGen.
Variable ar : arith.

(** [PointGenPack(containers, items, settings, strip_pack_width=width)]: heuristics.py:36-91,
    194-210; as [create] (Instance.v) with [pg_new_settings]. *)
Definition pg_create (env : environment) (containers items settings width : pyval) : M ar unit :=
  match width with
  | VNone => smodify (fun s => set_heights (set_strip s false) None None)
  | _ =>
      match as_int width with
      | None => sraise (DimensionsError D_VALUE)
      | Some w =>
          swhen (w <=? 0) (DimensionsError D_VALUE) ;;;
          smodify (fun s => set_heights (set_strip s true) (Some (max_w_l_ratio * w)) None) ;;;
          h <~ new_structure ar KContainers
                 (VDict [(VStr strip_id, VDict [(VStr "W", width); (VStr "L", VInt (2 ^ 100))])]) ;;
          smodify (fun s => set_containers_ref s h)
      end
  end ;;;
  s <~ sget ;;
  (if negb (m_strip s)
   then h <~ new_structure ar KContainers containers ;; smodify (fun s => set_containers_ref s h)
   else match containers with VNone => sret tt | _ => sraise strip_only end) ;;;
  h <~ new_structure ar KItems items ;;
  smodify (fun s => set_items_ref s h) ;;;
  (fun s => let '(c, r) := pg_new_settings env settings in (set_cfg s c, r)) ;;;
  s <~ sget ;;
  d <~ get_sobj ar (m_containers s) ;;
  smodify (fun s => set_sol (set_cnum (set_pp_strategy s default_strategy) (zlen (so_data d))) [] (m_objs s)).

(** One operation on it. [orient_items], [sort_items], [local_search] and [hypersearch] are not
    attributes. *)
Definition pg_run (o : op) : M ar unit :=
  match o with
  | OpOrient _ | OpSort _ | OpLocalSearch _ _ | OpHypersearch _ _ _ _ _ => sraise AttributeError
  | OpSetSettings env v => on_cfg ar (pg_assign_settings env v)
  | OpValidateSettings env => on_cfg ar (pg_validate_settings env)
  | _ => run o
  end.
End PointGen.
