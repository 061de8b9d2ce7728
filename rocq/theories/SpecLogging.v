(** * Vocabulary of the statements about logging (C71): when a warning is due.

    The rules of /repo/docs/source/problem_params.rst (workers_num), extra_methods.rst and
    logging.rst. The documentation promises the warning about Windows for every number of workers
    above 1; the code gives it on Windows, in the main process, only. *)
From Coq Require Import ZArith String List Bool QArith.
From Verif Require Import Py Values Settings Instance SpecSettings Logging PropertiesSettings.
Import ListNotations.
Open Scope string_scope.
Open Scope list_scope.
Open Scope Z_scope.

Definition more_than (v : pyval) (n : Z) : Prop :=
  (exists z, an_int v z /\ n < z) \/ (exists q, v = VFloat (FNum q) /\ (inject_Z n < q)%Q) \/ v = VFloat (FInf false).

Definition a_number (v : pyval) : Prop := (exists z, an_int v z) \/ exists f, v = VFloat f.

(** The settings [v] give the solver the number of workers [w] (whatever their figure part is). *)
Definition workers_given (v w : pyval) : Prop :=
  exists d b z, v = VDict d /\ rotation_is d b /\ max_time_is d z /\ any_workers_is d w.

(** Settings that are validated call for the warning [t]. *)
Inductive settings_warning (h : host) (v : pyval) : string -> Prop :=
| too_many_workers w : workers_given v w -> more_than w (h_cpus h) ->
    settings_warning h v "you are trying to set more workers than your cpu threads."
| entry_point w : workers_given v w -> more_than w 1 -> h_windows h = true -> h_main h = true ->
    settings_warning h v ("In Windows OS multiprocessing needs 'Entry point protection'" ++ new_line ++
      "which means adding if '__name__' == '__main__' before multiprocessing depending code execution")%string.

(** orient_items(o) with rotation enabled or not. *)
Inductive orient_warning (rotation : bool) : option string -> string -> Prop :=
| no_rotation o : rotation = false -> orient_warning rotation (Some o) "can't rotate items. Rotation is disabled"
| no_orientation o : rotation = true -> o <> "wide" -> o <> "long" ->
    orient_warning rotation (Some o) ("orientation parameter '" ++ o ++ "' not valid. Orientation skipped.")%string.

(** The operation [o] on [s] calls for the warning [t]. *)
Inductive due {ar} (h : host) (s : machine ar) : op -> string -> Prop :=
| due_settings env v o t : validates env v s o -> settings_warning h v t -> due h s o t
| due_orient o t : orient_warning (rotation_of s) o t -> due h s (OpOrient o) t
| due_hypersearch ck throttle o sb strategies s1 t :     (* sorted before, without an exception *)
    run (OpSort sb) s = (s1, Ok tt) -> orient_warning (rotation_of s) o t ->
    one_worker (workers_of s) = true -> due h s (OpHypersearch ck throttle o sb strategies) t.

Definition warnings (l : list record) : list string :=
  map snd (filter (fun r => match fst r with WARNING => true | ERROR => false end) l).
Definition errors (l : list record) : list string :=
  map snd (filter (fun r => match fst r with WARNING => false | ERROR => true end) l).

(** [r] is the result of a call that logs [l]: the errors logged are the message of the exception
    raised, if it is one of the library's; the one about workers_num comes twice when the value can
    be compared with numbers ([twice]). *)
Definition errors_of {A} (why : string) (twice : bool) (r : result A) : list string :=
  match r with
  | Ok _ => []
  | Err e => match message why e with
             | Some t => if twice then [t; t] else [t]
             | None => []
             end
  end.
