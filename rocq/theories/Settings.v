(** * Settings.

    Models the validation of [settings]: PointGenerationSolver._validate_settings
    (/repo/hyperpack/heuristics.py:214-259), HyperPack._validate_settings (lines 370-422) and
    SolutionFigureMixin (_check_plotly_kaleido_versions, _validate_figure_settings,
    validate_settings; /repo/hyperpack/mixins.py:674-805, 965-967). Their log records are in Logging.v. *)
From Coq Require Import ZArith String Ascii List Bool QArith.
From Verif Require Import Py Values.
Import ListNotations.
Open Scope string_scope.
Open Scope list_scope.
Open Scope Z_scope.
Open Scope sm_scope.

(** The environment: the [__version__] of the installed libraries ([None]: ImportError) and the
    file system. *)
Record environment := mkEnv {
  env_plotly : option string;
  env_kaleido : option string;
  env_exists : string -> bool;             (* Path(p).exists() *)
  env_is_dir : string -> bool              (* Path(p).is_dir() *)
}.

(** The attributes [settings], [_rotation], [_max_time_in_seconds], [_workers_num],
    [_plotly_installed], [_plotly_ver_ok], [_kaleido_installed], [_kaleido_ver_ok]. The value of
    [settings] is the caller's own dictionary: [edit_settings] below models the caller changing it. *)
Record cfg := mkCfg {
  c_settings : pyval;
  c_rotation : bool;
  c_limit : Z;
  c_workers : pyval;
  c_plotly : bool;
  c_plotly_ok : bool;
  c_kaleido : bool;
  c_kaleido_ok : bool
}.

Definition with_settings (c : cfg) (v : pyval) : cfg :=
  mkCfg v (c_rotation c) (c_limit c) (c_workers c) (c_plotly c) (c_plotly_ok c) (c_kaleido c) (c_kaleido_ok c).
Definition with_rotation (c : cfg) (b : bool) : cfg :=
  mkCfg (c_settings c) b (c_limit c) (c_workers c) (c_plotly c) (c_plotly_ok c) (c_kaleido c) (c_kaleido_ok c).
Definition with_limit (c : cfg) (z : Z) : cfg :=
  mkCfg (c_settings c) (c_rotation c) z (c_workers c) (c_plotly c) (c_plotly_ok c) (c_kaleido c) (c_kaleido_ok c).
Definition with_workers (c : cfg) (v : pyval) : cfg :=
  mkCfg (c_settings c) (c_rotation c) (c_limit c) v (c_plotly c) (c_plotly_ok c) (c_kaleido c) (c_kaleido_ok c).
Definition with_libs (c : cfg) (p po k ko : bool) : cfg :=
  mkCfg (c_settings c) (c_rotation c) (c_limit c) (c_workers c) p po k ko.

Definition serr (m : settings_msg) : exn := SettingsError m.

(** ROTATION_DEFAULT_VALUE, MAX_TIME_IN_SECONDS_DEFAULT_VALUE, WORKERS_NUM_DEFAULT_VALUE,
    heuristics.py:192, 346-347. *)
Definition rotation_default : bool := true.
Definition limit_default : Z := 60.
Definition workers_default : pyval := VInt 1.

(** PointGenerationSolver._validate_settings, heuristics.py:237-256. *)
Definition validate_rotation : SM cfg unit :=
  c <~ sget ;;
  match c_settings c with
  | VDict [] => smodify (fun c => with_rotation c rotation_default)
  | VDict d =>
      match vget_str d "rotation" with
      | VNone => smodify (fun c => with_rotation c rotation_default)
      | VBool b => smodify (fun c => with_rotation c b)
      | _ => sraise (serr S_ROTATION_TYPE)
      end
  | _ => sraise (serr S_TYPE)
  end.

(** [v > 0] *)
Definition positive_number (v : pyval) : bool :=
  match as_number v with
  | Some (FNum q) => negb (Qle_bool q 0)
  | Some (FInf negative) => negb negative
  | _ => false                             (* nan; or TypeError, caught by [except Exception] *)
  end.

(** HyperPack._validate_settings, heuristics.py:370-422. *)
Definition validate_solver : SM cfg unit :=
  validate_rotation ;;;
  c <~ sget ;;
  match c_settings c with
  | VDict [] =>                            (* lines 376-380 *)
      smodify (fun c => with_workers (with_limit c limit_default) workers_default)
  | VDict d =>
      (* lines 385-393: .get("max_time_in_seconds", 60) *)
      let t := match vget d (VStr "max_time_in_seconds") with Some v => v | None => VInt limit_default end in
      match as_int t with
      | None => sraise (serr S_MAX_TIME_TYPE)
      | Some z => swhen (z <? 1) (serr S_MAX_TIME_VALUE) ;;; smodify (fun c => with_limit c z)
      end ;;;
      (* lines 398-408 *)
      match vget_str d "workers_num" with
      | VNone => smodify (fun c => with_workers c workers_default)
      | w => swhen (negb (positive_number w)) (serr S_WORKERS_VALUE) ;;;
             smodify (fun c => with_workers c w)
      end
  | _ => sret tt                           (* not reached: S_TYPE was raised *)
  end.

(** ** Versions, mixins.py:689-718 *)

(** [s.split(".")] *)
Fixpoint split_dots (s : string) : list string :=
  match s with
  | EmptyString => [""]
  | String c t => if Ascii.eqb c "." then "" :: split_dots t
                  else match split_dots t with
                       | h :: r => String c h :: r
                       | [] => [String c ""]
                       end
  end.

(** [a < b] on tuples of strings. *)
Fixpoint strings_ltb (a b : list string) : bool :=
  match a, b with
  | _, [] => false
  | [], _ :: _ => true
  | x :: a', y :: b' => if String.eqb x y then strings_ltb a' b' else String.ltb x y
  end.

(** [tuple([x for x in version.split(".")][:3])] between two tuples of strings. *)
Definition version_ok (version : string) (lo hi : list string) : bool :=
  let v := firstn 3 (split_dots version) in
  negb (strings_ltb v lo) && strings_ltb v hi.

(** PLOTLY_MIN_VER, PLOTLY_MAX_VER, KALEIDO_MIN_VER, KALEIDO_MAX_VER, mixins.py:689-692. *)
Definition plotly_ok (env : environment) : bool :=
  match env_plotly env with Some v => version_ok v ["5"; "14"; "0"] ["6"; "0"; "0"] | None => false end.
Definition kaleido_ok (env : environment) : bool :=
  match env_kaleido env with Some v => version_ok v ["0"; "2"; "1"] ["0"; "3"; "0"] | None => false end.
Definition installed (v : option string) : bool := match v with Some _ => true | None => false end.

(** _check_plotly_kaleido_versions, mixins.py:694-718. *)
Definition check_versions (env : environment) : SM cfg unit :=
  smodify (fun c => with_libs c (installed (env_plotly env)) (plotly_ok env)
                              (installed (env_kaleido env)) (kaleido_ok env)).

(** ** Figure settings, mixins.py:720-805 *)

(** [re.compile(r"[a-zA-Z0-9_-]{1,45}$").match(name)]: 1 to 45 characters of the class, then the
    end of the string or a newline at its end. Characters outside ASCII (several bytes here) are
    not in the class. *)
Definition name_char (c : ascii) : bool :=
  let n := nat_of_ascii c in
  ((97 <=? n) && (n <=? 122) || (65 <=? n) && (n <=? 90) || (48 <=? n) && (n <=? 57)
   || (n =? 95) || (n =? 45))%nat.

Definition newline : ascii := ascii_of_nat 10.

Fixpoint name_match (s : string) (taken room : nat) : bool :=
  match s with
  | EmptyString => (1 <=? taken)%nat
  | String c t =>
      if name_char c
      then match room with O => false | S room' => name_match t (S taken) room' end
      else Ascii.eqb c newline && String.eqb t "" && (1 <=? taken)%nat
  end.
Definition file_name_ok (s : string) : bool := name_match s 0 45.

(** ACCEPTED_IMAGE_EXPORT_FORMATS, mixins.py:687; FIGURE_DEFAULT_FILE_NAME, line 686. *)
Definition image_formats : list string := ["pdf"; "png"; "jpeg"; "webp"; "svg"].
Definition default_file_name : string := "PlotlyGraph".

Definition is_string (v : pyval) (s : string) : bool := key_eqb v (VStr s).
Definition in_strings (v : pyval) (l : list string) : bool := existsb (is_string v) l.
Definition is_none (v : pyval) : bool := match v with VNone => true | _ => false end.
Definition not_positive_int (v : pyval) : bool :=
  match as_int v with Some z => z <=? 0 | None => true end.

(** Lines 775-779: [self._settings["figure"]["export"]["file_name"] = ...]: the caller's
    dictionary is changed. *)
Definition insert_file_name (c : cfg) : cfg :=
  match c_settings c with
  | VDict d =>
      match vget d (VStr "figure") with
      | Some (VDict f) =>
          match vget f (VStr "export") with
          | Some (VDict e) =>
              with_settings c (VDict (vset d (VStr "figure") (VDict (vset f (VStr "export")
                (VDict (vset e (VStr "file_name") (VStr default_file_name)))))))
          | _ => c
          end
      | _ => c
      end
  | _ => c
  end.

(** Lines 738-801: the value of ["export"]. *)
Definition validate_export (env : environment) (v : pyval) : SM cfg unit :=
  match v with
  | VDict e =>
      let ty := vget_str e "type" in
      swhen (is_none ty) (serr S_EXPORT_TYPE_MISSING) ;;;
      swhen (negb (in_strings ty ["html"; "image"])) (serr S_EXPORT_TYPE_VALUE) ;;;
      match vget_str e "path" with
      | VNone => sraise (serr S_EXPORT_PATH_MISSING)
      | VStr p => swhen (negb (env_exists env p)) (serr S_EXPORT_PATH_NOT_EXISTS) ;;;
                  swhen (negb (env_is_dir env p)) (serr S_EXPORT_PATH_NOT_DIRECTORY)
      | _ => sraise (serr S_EXPORT_PATH_VALUE)
      end ;;;
      let fmt := vget_str e "format" in
      let html := is_string ty "html" in
      swhen (is_none fmt && negb html) (serr S_EXPORT_FORMAT_MISSING) ;;;
      swhen (negb html && negb (is_str fmt)) (serr S_EXPORT_FORMAT_TYPE) ;;;
      swhen (is_string ty "image" && negb (in_strings fmt image_formats)) (serr S_EXPORT_FORMAT_VALUE) ;;;
      match vget_str e "file_name" with
      | VNone => smodify insert_file_name
      | VStr n => swhen (negb (file_name_ok n)) (serr S_EXPORT_FILE_NAME_VALUE)
      | _ => sraise (serr S_EXPORT_FILE_NAME_TYPE)
      end ;;;
      if is_string ty "image"
      then
        c <~ sget ;;
        swhen (negb (c_kaleido c)) (serr S_EXPORT_KALEIDO_MISSING) ;;;
        swhen (negb (c_kaleido_ok c)) (serr S_EXPORT_KALEIDO_VERSION) ;;;
        let width := vget_str e "width" in
        swhen (negb (is_none width) && not_positive_int width) (serr S_EXPORT_WIDTH_VALUE) ;;;
        let height := vget_str e "height" in
        swhen (negb (is_none height) && not_positive_int height) (serr S_EXPORT_HEIGHT_VALUE)
      else sret tt
  | _ => sraise (serr S_EXPORT_VALUE_TYPE)
  end.

(** _validate_figure_settings, mixins.py:720-805; [self._settings] is a dict here. *)
Definition validate_figure (env : environment) : SM cfg unit :=
  check_versions env ;;;
  c <~ sget ;;
  let fig := match c_settings c with
             | VDict d => match vget d (VStr "figure") with Some v => v | None => VDict [] end
             | _ => VDict []
             end in
  match fig with
  | VDict [] => sret tt
  | VDict f =>
      swhen (negb (c_plotly c)) (serr S_PLOTLY_NOT_INSTALLED) ;;;
      swhen (negb (c_plotly_ok c)) (serr S_PLOTLY_VERSION) ;;;
      match vget f (VStr "export") with
      | Some e => validate_export env e
      | None => sret tt
      end ;;;
      match vget f (VStr "show") with
      | None | Some (VBool _) => sret tt
      | Some _ => sraise (serr S_FIGURE_SHOW_VALUE)
      end
  | _ => sraise (serr S_FIGURE_KEY_TYPE)
  end.

(** [validate_settings()], mixins.py:965-967. *)
Definition validate_settings (env : environment) : SM cfg unit :=
  validate_solver ;;; validate_figure env.

(** The setter [settings = value], heuristics.py:278-281. *)
Definition assign_settings (env : environment) (v : pyval) : SM cfg unit :=
  smodify (fun c => with_settings c v) ;;; validate_settings env.

(** The constructor, heuristics.py:203-204: [self._settings = settings or {}]. The other
    attributes do not exist before; the values given here are overwritten or never seen. *)
Definition new_settings (env : environment) (v : pyval) : cfg * result unit :=
  validate_settings env (mkCfg (if truthy v then v else VDict []) rotation_default limit_default
                               workers_default false false false false).

(** The caller changes the dictionary [p.settings] in place ([p.settings["rotation"] = False], or
    through any other reference to it or to a dictionary inside it): any new contents [d]. No
    code of /repo runs. If [p.settings] is no dictionary there is nothing to change. *)
Definition edit_settings (d : vdict) : SM cfg unit :=
  c <~ sget ;;
  match c_settings c with
  | VDict _ => smodify (fun c => with_settings c (VDict d))
  | _ => sraise TypeError
  end.
