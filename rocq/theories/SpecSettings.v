(** * Vocabulary of the statements about settings (C40-C42).

    Independent of the model of the validation. The rules are those of
    /repo/docs/source/problem_params.rst and figures.rst; where the code follows other rules the
    difference is an explicit parameter of [figure_rules] or a second definition. *)
From Coq Require Import ZArith String Ascii List Bool QArith Decimal DecimalString.
From Verif Require Import Py Values Settings SpecInstance.
Import ListNotations.
Open Scope string_scope.
Open Scope list_scope.
Open Scope Z_scope.

(** [d] has no key [k]; or [None] there; the value of the key. *)
Definition absent (d : vdict) (k : string) : Prop := vget d (VStr k) = None.
Definition absent_or_none (d : vdict) (k : string) : Prop :=
  absent d k \/ vget d (VStr k) = Some VNone.
Definition has (d : vdict) (k : string) (v : pyval) : Prop := vget d (VStr k) = Some v.

Definition is_positive_int (v : pyval) : Prop := exists z, positive_int v z.
Definition an_int (v : pyval) (z : Z) : Prop :=
  v = VInt z \/ (v = VBool true /\ z = 1) \/ (v = VBool false /\ z = 0).

(** ** Solver settings: the value each attribute takes *)
Definition rotation_is (d : vdict) (b : bool) : Prop :=
  (absent_or_none d "rotation" /\ b = true) \/ has d "rotation" (VBool b).

Definition max_time_is (d : vdict) (z : Z) : Prop :=
  (absent d "max_time_in_seconds" /\ z = 60) \/
  exists v, has d "max_time_in_seconds" v /\ positive_int v z.

(** As documented. *)
Definition workers_is (d : vdict) (v : pyval) : Prop :=
  (absent_or_none d "workers_num" /\ v = VInt 1) \/ (has d "workers_num" v /\ is_positive_int v).

(** As in the code: also floats, even infinity. *)
Definition positive_float (v : pyval) : Prop :=
  v = VFloat (FInf false) \/ exists q, v = VFloat (FNum q) /\ (0 < q)%Q.
Definition any_workers_is (d : vdict) (v : pyval) : Prop :=
  (absent_or_none d "workers_num" /\ v = VInt 1) \/
  (has d "workers_num" v /\ (is_positive_int v \/ positive_float v)).

(** ** File names *)
Definition name_class : list ascii :=
  list_ascii_of_string "abcdefghijklmnopqrstuvwxyzABCDEFGHIJKLMNOPQRSTUVWXYZ0123456789_-".

(** The documented [r"^[a-zA-Z0-9_-]{1,45}$"]: 1 to 45 characters of the class. *)
Definition proper_name (s : string) : Prop :=
  (1 <= String.length s <= 45)%nat /\ forall c, In c (list_ascii_of_string s) -> In c name_class.

(** The code: [$] also matches before a newline at the end. *)
Definition line_feed : string := String (ascii_of_nat 10) "".
Definition proper_name_or_newline (s : string) : Prop :=
  proper_name s \/ exists t, proper_name t /\ s = (t ++ line_feed)%string.

(** ** Versions *)

(** A version number and its string. *)
Definition dec (n : nat) : string := NilZero.string_of_uint (Nat.to_uint n).
Definition version_string (a b c : nat) (suffix : list string) : string :=
  String.concat "." (dec a :: dec b :: dec c :: suffix).
Definition earlier (u v : nat * nat * nat) : Prop :=
  let '(a, b, c) := u in let '(a', b', c') := v in
  (a < a' \/ (a = a' /\ (b < b' \/ (b = b' /\ c < c'))))%nat.

(** As documented: at least [lo], before [hi]. *)
Definition version_between (v : string) (lo hi : nat * nat * nat) : Prop :=
  exists a b c suffix, v = version_string a b c suffix /\ ~ earlier (a, b, c) lo /\ earlier (a, b, c) hi.
Definition plotly_documented (env : environment) : Prop :=
  exists v, env_plotly env = Some v /\ version_between v (5, 14, 0)%nat (6, 0, 0)%nat.
Definition kaleido_documented (env : environment) : Prop :=
  exists v, env_kaleido env = Some v /\ version_between v (0, 2, 1)%nat (0, 3, 0)%nat.

(** As in the code: the first three parts compared as strings. *)
Inductive before : list string -> list string -> Prop :=
| before_end y b : before [] (y :: b)
| before_here x y a b : String.compare x y = Lt -> before (x :: a) (y :: b)
| before_later x a b : before a b -> before (x :: a) (x :: b).
Definition no_dot (s : string) : Prop := ~ In "."%char (list_ascii_of_string s).
Definition parts_between (v : string) (lo hi : list string) : Prop :=
  exists parts, parts <> [] /\ Forall no_dot parts /\ v = String.concat "." parts /\
    ~ before (firstn 3 parts) lo /\ before (firstn 3 parts) hi.
Definition plotly_by_code (env : environment) : Prop :=
  exists v, env_plotly env = Some v /\ parts_between v ["5"; "14"; "0"] ["6"; "0"; "0"].
Definition kaleido_by_code (env : environment) : Prop :=
  exists v, env_kaleido env = Some v /\ parts_between v ["0"; "2"; "1"] ["0"; "3"; "0"].

(** ** Figure settings *)
Definition size_ok (e : vdict) (k : string) : Prop :=
  absent_or_none e k \/ exists v, has e k v /\ is_positive_int v.

Definition directory (env : environment) (p : string) : Prop :=
  env_exists env p = true /\ env_is_dir env p = true.

Section Rules.
(** Which names, which installed libraries; whether the sizes matter for html too. *)
Context (name_rule : string -> Prop) (plotly kaleido : environment -> Prop) (html_sizes : bool).

Definition export_rules (env : environment) (e : vdict) : Prop :=
  (has e "type" (VStr "html") /\ (html_sizes = true -> size_ok e "width" /\ size_ok e "height") \/
   has e "type" (VStr "image") /\ size_ok e "width" /\ size_ok e "height" /\ kaleido env /\
     exists f, has e "format" (VStr f) /\ In f ["pdf"; "png"; "jpeg"; "webp"; "svg"]) /\
  (exists p, has e "path" (VStr p) /\ directory env p) /\
  (absent_or_none e "file_name" \/ exists n, has e "file_name" (VStr n) /\ name_rule n).

Definition figure_rules (env : environment) (d : vdict) : Prop :=
  absent d "figure" \/
  exists f, has d "figure" (VDict f) /\
    (f = [] \/
     plotly env /\
     (absent f "export" \/ exists e, has f "export" (VDict e) /\ export_rules env e) /\
     (absent f "show" \/ exists b, has f "show" (VBool b))).
End Rules.

Definition figure_documented := figure_rules proper_name plotly_documented kaleido_documented true.
Definition figure_by_code := figure_rules proper_name_or_newline plotly_by_code kaleido_by_code false.

(** ** What each message of SettingsError says *)
Definition figure_has (v : pyval) (k : string) (w : option pyval) : Prop :=
  exists d f, v = VDict d /\ has d "figure" (VDict f) /\ vget f (VStr k) = w.
Definition figure_wanted (v : pyval) : Prop :=
  exists d f, v = VDict d /\ has d "figure" (VDict f) /\ f <> [].
Definition export_has (v : pyval) (k : string) (w : option pyval) : Prop :=
  exists e, figure_has v "export" (Some (VDict e)) /\ vget e (VStr k) = w.
Definition export_lacks (v : pyval) (k : string) : Prop :=
  export_has v k None \/ export_has v k (Some VNone).

Definition reason (env : environment) (v : pyval) (m : settings_msg) : Prop :=
  match m with
  | S_TYPE => forall d, v <> VDict d
  | S_ROTATION_TYPE =>
      exists d w, v = VDict d /\ has d "rotation" w /\ w <> VNone /\ forall b, w <> VBool b
  | S_MAX_TIME_TYPE =>
      exists d w, v = VDict d /\ has d "max_time_in_seconds" w /\ forall z, ~ an_int w z
  | S_MAX_TIME_VALUE =>
      exists d w z, v = VDict d /\ has d "max_time_in_seconds" w /\ an_int w z /\ z < 1
  | S_WORKERS_VALUE =>
      exists d w, v = VDict d /\ has d "workers_num" w /\ w <> VNone /\ ~ is_positive_int w /\ ~ positive_float w
  | S_FIGURE_KEY_TYPE => exists d w, v = VDict d /\ has d "figure" w /\ forall f, w <> VDict f
  | S_PLOTLY_NOT_INSTALLED => figure_wanted v /\ env_plotly env = None
  | S_PLOTLY_VERSION => figure_wanted v /\ env_plotly env <> None /\ ~ plotly_by_code env
  | S_EXPORT_VALUE_TYPE => exists w, figure_has v "export" (Some w) /\ forall e, w <> VDict e
  | S_EXPORT_TYPE_MISSING => export_lacks v "type"
  | S_EXPORT_TYPE_VALUE => exists w, export_has v "type" (Some w) /\ w <> VStr "html" /\ w <> VStr "image"
  | S_EXPORT_PATH_MISSING => export_lacks v "path"
  | S_EXPORT_PATH_VALUE => exists w, export_has v "path" (Some w) /\ forall p, w <> VStr p
  | S_EXPORT_PATH_NOT_EXISTS => exists p, export_has v "path" (Some (VStr p)) /\ env_exists env p = false
  | S_EXPORT_PATH_NOT_DIRECTORY => exists p, export_has v "path" (Some (VStr p)) /\ env_is_dir env p = false
  | S_EXPORT_FORMAT_MISSING => export_has v "type" (Some (VStr "image")) /\ export_lacks v "format"
  | S_EXPORT_FORMAT_TYPE =>
      export_has v "type" (Some (VStr "image")) /\ exists w, export_has v "format" (Some w) /\ forall f, w <> VStr f
  | S_EXPORT_FORMAT_VALUE =>
      export_has v "type" (Some (VStr "image")) /\
      exists f, export_has v "format" (Some (VStr f)) /\ ~ In f ["pdf"; "png"; "jpeg"; "webp"; "svg"]
  | S_EXPORT_FILE_NAME_TYPE => exists w, export_has v "file_name" (Some w) /\ w <> VNone /\ forall n, w <> VStr n
  | S_EXPORT_FILE_NAME_VALUE => exists n, export_has v "file_name" (Some (VStr n)) /\ ~ proper_name_or_newline n
  | S_EXPORT_KALEIDO_MISSING => export_has v "type" (Some (VStr "image")) /\ env_kaleido env = None
  | S_EXPORT_KALEIDO_VERSION =>
      export_has v "type" (Some (VStr "image")) /\ env_kaleido env <> None /\ ~ kaleido_by_code env
  | S_EXPORT_WIDTH_VALUE =>
      export_has v "type" (Some (VStr "image")) /\ exists w, export_has v "width" (Some w) /\ w <> VNone /\ ~ is_positive_int w
  | S_EXPORT_HEIGHT_VALUE =>
      export_has v "type" (Some (VStr "image")) /\ exists w, export_has v "height" (Some w) /\ w <> VNone /\ ~ is_positive_int w
  | S_FIGURE_SHOW_VALUE => exists w, figure_has v "show" (Some w) /\ forall b, w <> VBool b
  | S_CANT_DELETE => False
  end.

(** ** The default file name is written into the caller's dictionary *)
Definition default_name_inserted (v v' : pyval) : Prop :=
  exists d f e, v = VDict d /\ has d "figure" (VDict f) /\ has f "export" (VDict e) /\
    absent_or_none e "file_name" /\
    v' = VDict (vset d (VStr "figure") (VDict (vset f (VStr "export")
           (VDict (vset e (VStr "file_name") (VStr "PlotlyGraph")))))).
