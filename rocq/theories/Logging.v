(** * What is written to the "hyperpack" logger.

    Models the messages of /repo/hyperpack/exceptions.py, ErrorLoggingException (lines 4-17: making
    an exception of the library with a message logs the message with level ERROR) and every
    [hyperLogger.warning] and [hyperLogger.error] of the package: heuristics.py:409-422, 532-535;
    mixins.py:640, 841, 860, 998, 1004. The functions below are those of Settings.v, Instance.v,
    Report.v and MultiHistory.v with their records; PropertiesLogging.v shows that without the
    records they are the same. The INFO record of log_solution is the text of Text.v. Not
    modelled: DEBUG records, and what the worker processes log (processes.py:127-129). *)
From Coq Require Import ZArith String Ascii List Bool QArith.
From Verif Require Import Py Arith Construct LocalSearch Values Settings Instance MultiProcess MultiHistory Report.
Import ListNotations.
Open Scope string_scope.
Open Scope list_scope.
Open Scope Z_scope.

(** ** exceptions.py *)

Definition new_line : string := String (ascii_of_nat 10) "".
Definition tabulator : string := String (ascii_of_nat 9) "".

Definition containers_text (m : containers_msg) : string := (* lines 20-29 *)
  match m with
  | C_MISSING => "containers missing."
  | C_TYPE => "containers must be of type dict."
  | C_ID_TYPE => "container id must be of type str."
  | C_CANT_DELETE_STRUCTURE => "Can't remove any more containers."
  | C_CANT_DELETE => "Can't delete Containers structure."
  | C_STRIP_PACK_ONLY => "Can't assign or change containers when solving a strip-packing problem."
  | C_STRIP_PACK_MIN_HEIGHT => "Min container height must be less or equal to actual height."
  end.
Definition items_text (m : items_msg) : string := (* lines 32-37 *)
  match m with
  | I_MISSING => "items missing."
  | I_TYPE => "items must be of type dict."
  | I_ID_TYPE => "items' ids must be of type str."
  | I_CANT_DELETE_STRUCTURE => "Can't remove any more items."
  | I_CANT_DELETE => "Can't delete Items structure."
  end.
Definition dims_text (m : dims_msg) : string := (* lines 106-115 *)
  match m with
  | D_MISSING => "dimensions are missing."
  | D_TYPE => "dimensions must be of type dict."
  | D_KEYS => "dimensions must (only) contain Width and Length keys."
  | D_VALUE => "Width and Length must be positive integers."
  | D_REFERENCE_OBJECT => "Neither container or item reference structure provided."
  | D_CANT_DELETE => "Can't delete a dimension."
  end.
Definition points_text (m : points_msg) : string := (* lines 130-139 *)
  match m with
  | PP_TYPE => "Wrong potential points strategy type.Must be of type tuple."
  | PP_ELEMENT_TYPE => "Wrong potential points strategy format.Elements must be of type str."
  | PP_ELEMENT_NOT_POINT => "Wrong potential points strategy format.Elements must be potential points."
  | PP_DELETE => "Cannot delete potential_points_strategy attribute."
  | PP_DUPLICATE => "No duplicate potential points allowed."
  end.
Definition settings_text (m : settings_msg) : string := (* lines 40-103 *)
  match m with
  | S_CANT_DELETE => "Cant delete settings attribute"
  | S_TYPE => "settings must be of type dict."
  | S_MAX_TIME_TYPE => "settings-->'max_time_in_seconds': value must be of type int."
  | S_MAX_TIME_VALUE => "settings-->'max_time_in_seconds': value must be positive integer."
  | S_WORKERS_VALUE => "settings-->'workers_num': value must be positive integer."
  | S_ROTATION_TYPE => "settings-->'rotation': value must be of type boolean."
  | S_FIGURE_KEY_TYPE => "settings-->'figure': value must be of type dict."
  | S_PLOTLY_NOT_INSTALLED => "plotly library is not installed."
  | S_PLOTLY_VERSION => "plotly library must be at least 5.14.0 version."
  | S_EXPORT_VALUE_TYPE => "settings-->figure-->'export': key value must be of type dict."
  | S_EXPORT_TYPE_MISSING => "settings-->figure-->export-->'type': key wasn't provided."
  | S_EXPORT_TYPE_VALUE => "settings-->figure-->export-->'type': has wrong value. Choices are ('html', 'image')."
  | S_EXPORT_PATH_MISSING => "settings-->figure-->export-->'path': key wasn't provided."
  | S_EXPORT_PATH_VALUE => "settings-->figure-->export-->'path': value must be of type string."
  | S_EXPORT_PATH_NOT_EXISTS => "figure export path doesn't exist."
  | S_EXPORT_PATH_NOT_DIRECTORY => "figure export path must be a directory."
  | S_EXPORT_FORMAT_MISSING => "settings-->figure-->export-->'format': key wasn't provided."
  | S_EXPORT_FORMAT_TYPE => "settings-->figure-->export-->'format': value must be of type string."
  | S_EXPORT_FORMAT_VALUE => "settings-->figure-->export-->'format': value must be in (pdf, png, jpeg, webp, svg) for image exportation."
  | S_EXPORT_FILE_NAME_TYPE => "settings-->figure-->export-->'file_name': value must be of type string."
  | S_EXPORT_FILE_NAME_VALUE => "settings-->figure-->export-->'file_name': value has improper string characters."
  | S_EXPORT_KALEIDO_MISSING => "Cant export figure to image, kaleido library missing."
  | S_EXPORT_KALEIDO_VERSION => "kaleido library version must be at least 0.2.1. Cant export to image."
  | S_EXPORT_WIDTH_VALUE => "settings-->figure-->export-->'width': value must be positive integer"
  | S_EXPORT_HEIGHT_VALUE => "settings-->figure-->export-->'height': value must be positive integer"
  | S_FIGURE_SHOW_VALUE => "settings-->figure-->'show': value must be of type boolean."
  end.

(** The message of an exception of the library, [None] for the built-in ones. [why]: the text of
    the exception met while exporting a figure (line 119: ["ERROR at figure exportation:\n\t {}."]). *)
Definition message (why : string) (e : exn) : option string :=
  match e with
  | ContainersError m => Some (containers_text m)
  | ItemsError m => Some (items_text m)
  | DimensionsError m => Some (dims_text m)
  | PotentialPointsError m => Some (points_text m)
  | SettingsError m => Some (settings_text m)
  | MultiProcessError => Some "All hypersearch processes failed."     (* line 127 *)
  | FigureExportError => Some ("ERROR at figure exportation:" ++ new_line ++ tabulator ++ " " ++ why ++ ".")%string
  | IndexError | KeyError | TypeError | ValueError | ZeroDivisionError | AttributeError
  | NotImplementedError | OverflowError | OutOfFuel => None
  end.

(** The warnings and the error that are no exception. *)
Definition cpu_warning : string := "you are trying to set more workers than your cpu threads.".
Definition windows_warning : string :=
  ("In Windows OS multiprocessing needs 'Entry point protection'" ++ new_line ++
   "which means adding if '__name__' == '__main__' before multiprocessing depending code execution")%string.
Definition rotation_warning : string := "can't rotate items. Rotation is disabled".
Definition orientation_warning (o : string) : string :=
  ("orientation parameter '" ++ o ++ "' not valid. Orientation skipped.")%string.
Definition no_solution_log : string := "No solving operation has been concluded.".
Definition no_solution_figure : string := "Can't create figure if a solution hasn't been found.".
Definition no_figure_operation : string := "If not showing or exporting the figure makes the operation obsolete.".
Definition some_failed : string := "Some of the processes raised an exception. Please check logs.".

(** ** Computations with records *)
Inductive level := WARNING | ERROR.
Definition record := (level * string)%type.

(** The computer: [cpu_count()], [platform.system() == "Windows"],
    [current_process().name == "MainProcess"]; the text of the exception a failing export meets. *)
Record host := mkHost { h_cpus : Z; h_windows : bool; h_main : bool; h_why : string }.

Definition LM (S A : Type) := S -> S * result A * list record.

(** Making the exception that is raised: exceptions.py:11-17. *)
Definition raised {A} (why : string) (r : result A) : list record :=
  match r with
  | Ok _ => []
  | Err e => match message why e with Some t => [(ERROR, t)] | None => [] end
  end.

(** A computation that logs nothing but the exception it raises: nothing in it catches one of the
    library's. *)
Definition quiet {S A} (why : string) (m : SM S A) : LM S A :=
  fun s => let '(s', r) := m s in (s', r, raised why r).
Definition log {S} (l : list record) : LM S unit := fun s => (s, Ok tt, l).
Definition lbind {S A B} (m : LM S A) (f : A -> LM S B) : LM S B :=
  fun s => match m s with
           | (s', Ok a, l) => let '(s'', r, l') := f a s' in (s'', r, l ++ l')
           | (s', Err e, l) => (s', Err e, l)
           end.

Declare Scope lm_scope.
Notation "x <~~ m ;; k" := (lbind m (fun x => k)) (at level 100, m at next level, right associativity) : lm_scope.
Notation "m ;;;; k" := (lbind m (fun _ => k)) (at level 100, right associativity) : lm_scope.
Open Scope lm_scope.

(** ** Settings *)

(** [v > n] *)
Definition exceeds (v : pyval) (n : Z) : bool :=
  match as_number v with
  | Some (FNum q) => negb (Qle_bool q (inject_Z n))
  | Some (FInf negative) => negb negative
  | _ => false
  end.

(** heuristics.py:409-422 *)
Definition workers_warnings (h : host) (workers : pyval) : list record :=
  (if exceeds workers (h_cpus h) then [(WARNING, cpu_warning)] else []) ++
  (if exceeds workers 1 && h_windows h && h_main h then [(WARNING, windows_warning)] else []).

(** heuristics.py:400-404: the SettingsError raised for [not workers_num > 0] is caught by the
    [except Exception] around it, which makes a second one. *)
Definition workers_rejected (workers : pyval) : list record :=
  let t := settings_text S_WORKERS_VALUE in
  match as_number workers with
  | Some _ => [(ERROR, t); (ERROR, t)]
  | None => [(ERROR, t)]                   (* TypeError in the comparison *)
  end.

(** heuristics.py:370-422 *)
Definition validate_solver_l (h : host) : LM cfg unit :=
  quiet (h_why h) validate_rotation ;;;;
  c <~~ quiet (h_why h) sget ;;
  match c_settings c with
  | VDict [] =>
      quiet (h_why h) (smodify (fun c => with_workers (with_limit c limit_default) workers_default))
  | VDict d =>
      let t := match vget d (VStr "max_time_in_seconds") with Some v => v | None => VInt limit_default end in
      match as_int t with
      | None => quiet (h_why h) (sraise (serr S_MAX_TIME_TYPE))
      | Some z => quiet (h_why h) (sbind (swhen (z <? 1) (serr S_MAX_TIME_VALUE)) (fun _ => smodify (fun c => with_limit c z)))
      end ;;;;
      match vget_str d "workers_num" with
      | VNone => quiet (h_why h) (smodify (fun c => with_workers c workers_default)) ;;;; log (workers_warnings h workers_default)
      | w => if negb (positive_number w)
             then fun c => (c, Err (serr S_WORKERS_VALUE), workers_rejected w)
             else quiet (h_why h) (smodify (fun c => with_workers c w)) ;;;; log (workers_warnings h w)
      end
  | _ => quiet (h_why h) (sret tt)
  end.

(** mixins.py:965-967; 720-805 *)
Definition validate_settings_l (h : host) (env : environment) : LM cfg unit :=
  validate_solver_l h ;;;; quiet (h_why h) (validate_figure env).

(** heuristics.py:278-281 *)
Definition assign_settings_l (h : host) (env : environment) (v : pyval) : LM cfg unit :=
  quiet (h_why h) (smodify (fun c => with_settings c v)) ;;;; validate_settings_l h env.

(** heuristics.py:203-204 *)
Definition new_settings_l (h : host) (env : environment) (v : pyval) : cfg * result unit * list record :=
  validate_settings_l h env (mkCfg (if truthy v then v else VDict []) rotation_default limit_default
                                   workers_default false false false false).

Section Logging.
Context {ar : arith}.

Definition on_cfg_l (m : LM cfg unit) : LM (machine ar) unit :=
  fun s => let '(c, r, l) := m (m_cfg s) in (set_cfg s c, r, l).

(** ** orient_items, mixins.py:994-1007 *)
Definition orient_warnings (orientation : option string) (s : machine ar) : list record :=
  match orientation with
  | None => []
  | Some o =>
      if negb (c_rotation (m_cfg s)) then [(WARNING, rotation_warning)]
      else if String.eqb o "wide" || String.eqb o "long" then []
      else [(WARNING, orientation_warning o)]
  end.
Definition do_orient_l (h : host) (orientation : option string) : LM (machine ar) unit :=
  fun s => lbind (log (orient_warnings orientation s)) (fun _ => quiet (h_why h) (do_orient ar orientation)) s.

(** ** hypersearch in one process, heuristics.py:613-634 *)
Definition do_hypersearch_l (h : host) (ck : clock) (throttle : bool) (orientation : option string)
           (sorting_by : option (string * bool)) (strategies : list (list pclass)) : LM (machine ar) unit :=
  quiet (h_why h) (do_sort ar sorting_by) ;;;;
  do_orient_l h orientation ;;;;
  quiet (h_why h) (do_hypersearch ar ck throttle None None strategies).

(** ** Every operation of Instance.v *)
Definition run_l (h : host) (o : op) : LM (machine ar) unit :=
  match o with
  | OpSetSettings env v => on_cfg_l (assign_settings_l h env v)
  | OpValidateSettings env => on_cfg_l (validate_settings_l h env)
  | OpOrient o => do_orient_l h o
  | OpHypersearch ck throttle o sb strategies =>
      s <~~ quiet (h_why h) sget ;;
      if one_worker (c_workers (m_cfg s)) then do_hypersearch_l h ck throttle o sb strategies
      else quiet (h_why h) (sraise unusable)
  | _ => quiet (h_why h) (run o)
  end.

(** ** The constructor, heuristics.py:36-91, 194-210 *)
Definition create_l (h : host) (env : environment) (containers items settings width : pyval) : LM (machine ar) unit :=
  quiet (h_why h)
    (sbind
      match width with
      | VNone => smodify (fun s => set_heights (set_strip s false) None None)
      | _ =>
          match as_int width with
          | None => sraise (DimensionsError D_VALUE)
          | Some w =>
              sbind (swhen (w <=? 0) (DimensionsError D_VALUE)) (fun _ =>
              sbind (smodify (fun s => set_heights (set_strip s true) (Some (max_w_l_ratio * w)) None)) (fun _ =>
              sbind (new_structure ar KContainers
                       (VDict [(VStr strip_id, VDict [(VStr "W", width); (VStr "L", VInt (2 ^ 100))])])) (fun n =>
              smodify (fun s => set_containers_ref s n))))
          end
      end (fun _ =>
    sbind sget (fun s =>
    sbind (if negb (m_strip s)
           then sbind (new_structure ar KContainers containers) (fun n => smodify (fun s => set_containers_ref s n))
           else match containers with VNone => sret tt | _ => sraise strip_only end) (fun _ =>
    sbind (new_structure ar KItems items) (fun n =>
    smodify (fun s => set_items_ref s n)))))) ;;;;
  (fun s => let '(c, r, l) := new_settings_l h env settings in (set_cfg s c, r, l)) ;;;;
  quiet (h_why h)
    (sbind sget (fun s =>
     sbind (get_sobj ar (m_containers s)) (fun d =>
     smodify (fun s => set_sol (set_cnum (set_pp_strategy s default_strategy) (zlen (so_data d))) [] (m_objs s))))).

(** ** log_solution and create_figure, mixins.py:639-641, 840-861 *)
Definition log_solution_l (h : host) (s : machine ar) : result (option (list line)) * list record :=
  match m_sol s with
  | [] => (Ok None, [(WARNING, no_solution_log)])
  | _ :: _ => let r := log_solution s in (r, raised (h_why h) r)
  end.

Definition create_figure_l (h : host) (writes : string -> string -> bool) (show : bool) (s : machine ar)
  : list event * result unit * list record :=
  match m_sol s with
  | [] => ([], Ok tt, [(WARNING, no_solution_figure)])
  | _ :: _ =>
      if negb (c_plotly (m_cfg s)) then let r := Err (SettingsError S_PLOTLY_NOT_INSTALLED) in ([], r, raised (h_why h) r)
      else if negb (c_plotly_ok (m_cfg s)) then let r := Err (SettingsError S_PLOTLY_VERSION) in ([], r, raised (h_why h) r)
      else
        match c_settings (m_cfg s) with
        | VDict d =>
            match (match vget d (VStr "figure") with Some v => v | None => VDict [] end) with
            | VDict f =>
                let export := match vget f (VStr "export") with Some v => v | None => VNone end in
                let show' := truthy (match vget f (VStr "show") with Some v => v | None => VNone end) || show in
                if negb show' && is_none export then ([], Ok tt, [(WARNING, no_figure_operation)])
                else match view s with
                     | Some x => let '(ev, r) := figures_of writes export show' x (dkeys (pb_containers (in_pb x))) in
                                 (ev, r, raised (h_why h) r)
                     | None => ([], Err unusable, [])
                     end
            | VStruct _ | VDims _ => ([], Err unusable, [])
            | _ => ([], Err AttributeError, [])
            end
        | VStruct _ | VDims _ => ([], Err unusable, [])
        | _ => ([], Err AttributeError, [])
        end
  end.

(** ** hypersearch with several processes *)

(** heuristics.py:613-614 *)
Definition presort_l (h : host) (c : call ar) : LM (machine ar) unit :=
  quiet (h_why h) (do_sort ar (ca_sorting c)) ;;;; do_orient_l h (ca_orientation c).

(** Making one worker's instance, processes.py:47-58, with what its constructor logs (the built-in
    exceptions before it log nothing). *)
Definition child_records (h : host) (env : environment) (s : machine ar) : list record :=
  match struct_deepcopy s (m_containers s), struct_deepcopy s (m_items s), worker_settings (c_settings (m_cfg s)) with
  | Ok containers, Ok items, Ok settings =>
      if m_strip s
      then match strip_width containers with
           | Ok w => snd (create_l h env VNone (VDict items) settings w (blank ar))
           | Err _ => []
           end
      else snd (create_l h env (VDict containers) (VDict items) settings VNone (blank ar))
  | _, _, _ => []
  end.

(** heuristics.py:495-521: one instance after the other; an exception of the first ends it. *)
Definition prepare_records (h : host) (c : call ar) (s : machine ar) : list record :=
  match view s with
  | None => []
  | Some _ =>
      match partition (ca_strategies c) (c_workers (m_cfg s)) with
      | Err _ => []
      | Ok chunks =>
          match prepare c s with
          | Ok _ => concat (repeat (child_records h (ca_env c) s) (length chunks))
          | Err _ => child_records h (ca_env c) s
          end
      end
  end.

(** heuristics.py:529-535, the array seen after the joins *)
Definition joined_records (h : host) (l : list (num ar)) : list record :=
  if neqb ar (q_max l) (nm1 ar) then raised (A:=unit) (h_why h) (Err MultiProcessError)
  else if existsb (fun q => neqb ar (nm1 ar) q) l then [(ERROR, some_failed)] else [].

(** [multi] with the records of the parent. [t]: the moment after the joins, lines 526-535. *)
Inductive multi_l (h : host) (may_raise may_die : nat -> Prop) (c : call ar) (s : machine ar) :
  machine ar -> result unit -> list record -> Prop :=
| multi_l_presort s1 e l : presort_l h c s = (s1, Err e, l) -> multi_l h may_raise may_die c s s1 (Err e) l
| multi_l_prepare s1 e l : presort_l h c s = (s1, Ok tt, l) -> prepare c s1 = Err e ->
    multi_l h may_raise may_die c s s1 (Err e) (l ++ prepare_records h c s1)
| multi_l_raised s1 u t t' e l : presort_l h c s = (s1, Ok tt, l) -> prepare c s1 = Ok u ->
    reachable u may_raise may_die t -> s_parent t = PJoin (workers u) -> steps u may_raise may_die t t' ->
    s_parent t' = PRaised e ->
    multi_l h may_raise may_die c s s1 (Err e) (l ++ prepare_records h c s1 ++ joined_records h (array_list u t))
| multi_l_returned s1 u t t' sol objs g l : presort_l h c s = (s1, Ok tt, l) -> prepare c s1 = Ok u ->
    reachable u may_raise may_die t -> s_parent t = PJoin (workers u) -> steps u may_raise may_die t t' ->
    s_parent t' = PReturned sol objs g ->
    multi_l h may_raise may_die c s (assign_result s1 sol objs g) (Ok tt)
      (l ++ prepare_records h c s1 ++ joined_records h (array_list u t)).
End Logging.
