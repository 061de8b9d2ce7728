(** * Vocabulary of the statements about log_solution and create_figure (C45, C46). *)
From Coq Require Import ZArith String List Bool QArith Permutation.
From Verif Require Import Py Arith Construct Spec LocalSearch Values Settings Instance SpecInstance SpecSettings Report.
Import ListNotations.
Open Scope string_scope.
Open Scope list_scope.
Open Scope Z_scope.

(** The height shown for a container: its length; in a strip, the height of the stack of items,
    but not less than the minimum height. *)
Definition shown_height (strip : bool) (minimum : option Z) (c : dims) (csol : odict entry) : Z :=
  if strip
  then match minimum with Some m => Z.max m (stack_height (entries csol)) | None => stack_height (entries csol) end
  else dl c.

(** The part of the log about one container. *)
Definition container_log (strip : bool) (minimum : option Z) (sol : solution) (c : string * dims) (ls : list line) : Prop :=
  exists csol u, dget sol (fst c) = Some csol /\
    let h := shown_height strip minimum (snd c) csol in
    ls = [LContainer (fst c) (dw (snd c)) h; LUtil u] ++ (if strip then [LMaxHeight (stack_height (entries csol))] else []) /\
    (u * inject_Z (dw (snd c) * h) == 100 * inject_Z (total_area (entries csol)))%Q /\ 0 < dw (snd c) * h.

(** The whole log: stored and remaining items are a partition of the items, the remaining ones
    in the order of the items; the percentage is that of the stored ones. *)
Definition in_order_of (all some : list string) : Prop := exists keep, some = filter keep all.
Definition good_log (containers items : odict dims) (strip : bool) (minimum : option Z) (sol : solution)
           (ls : list line) : Prop :=
  exists percent parts remaining,
    ls = [LTitle; LPercent percent] ++ concat parts ++ [LRemaining remaining] /\
    (percent * inject_Z (Z.of_nat (length items)) == 100 * inject_Z (Z.of_nat (length (stored_ids sol))))%Q /\
    Forall2 (container_log strip minimum sol) containers parts /\
    Permutation (stored_ids sol ++ remaining) (dkeys items) /\
    in_order_of (dkeys items) remaining.

(** A strip in which nothing is stored, without minimum height. *)
Definition empty_strip {ar} (s : machine ar) : Prop :=
  m_strip s = true /\ stored_ids (m_sol s) = [] /\ m_min s = None.

(** ** Figures *)

(** One rectangle per stored item, in the order of the solution, with its two corners, its own
    colour and a trace over its four corners. *)
Definition draws (p : string * entry) (sh : shape) : Prop :=
  sh_label sh = fst p /\ sh_x0 sh = e_x (snd p) /\ sh_y0 sh = e_y (snd p) /\
  sh_x1 sh = e_x (snd p) + e_w (snd p) /\ sh_y1 sh = e_y (snd p) + e_l (snd p).
Definition traces (p : string * entry) (t : list Z * list Z) : Prop :=
  combine (fst t) (snd t) =
    [(e_x (snd p), e_y (snd p)); (e_x (snd p) + e_w (snd p), e_y (snd p));
     (e_x (snd p) + e_w (snd p), e_y (snd p) + e_l (snd p)); (e_x (snd p), e_y (snd p) + e_l (snd p))].

(** The ticks of an axis: at most 20 of them divide the side, the least distance for which this is
    so (up to the relative error of a double when the side is 2^53 or more). *)
Definition good_tick (side tick : Z) : Prop :=
  (side < 2 ^ 53 -> 20 * (tick - 1) < side <= 20 * tick) /\ Z.abs (20 * tick - side) * 2 ^ 50 <= 20 * 2 ^ 50 + side.
(** The axis shows the side with a margin of 2. *)
Definition good_axis (side : Z) (a : axis) : Prop := ax_from a = -2 /\ ax_to a = side + 2 /\ good_tick side (ax_tick a).

(** [#rrggbb] *)
Definition hex_digit (c : Ascii.ascii) : bool :=
  let n := Ascii.nat_of_ascii c in ((48 <=? n) && (n <=? 57) || (97 <=? n) && (n <=? 102))%nat.
Definition rgb (s : string) : Prop :=
  exists t, s = ("#" ++ t)%string /\ String.length t = 6%nat /\ forallb hex_digit (list_ascii_of_string t) = true.

Definition good_figure (strip : bool) (minimum : option Z) (sol : solution) (c : string * dims) (f : figure) : Prop :=
  exists csol, dget sol (fst c) = Some csol /\
    let h := shown_height strip minimum (snd c) csol in
    fg_title f = fst c /\ good_axis (dw (snd c)) (fg_x f) /\ good_axis h (fg_y f) /\ fg_frame f = ((0, 0), (dw (snd c), h)) /\
    Forall2 draws csol (fg_shapes f) /\ Forall2 traces csol (fg_traces f) /\
    NoDup (map sh_color (fg_shapes f)) /\ Forall rgb (map sh_color (fg_shapes f)).

(** No side is beyond what a double can hold. *)
Definition moderate_sides (strip : bool) (minimum : option Z) (sol : solution) (cs : odict dims) : Prop :=
  forall cid c csol, In (cid, c) cs -> dget sol cid = Some csol -> dw c < 2 ^ 1000 /\ shown_height strip minimum c csol < 2 ^ 1000.

(** What is to be done with the figures. *)
Record task := mkTask { t_show : bool; t_export : option (string * string * string * option (pyval * pyval)) }.
(** The events for one figure: first written (directory, "name__id.extension"), then shown. *)
Definition events_of (t : task) (f : figure) : list event :=
  (match t_export t with
   | Some (dir, file, ext, size) => [Wrote dir (file ++ "__" ++ fg_title f ++ "." ++ ext)%string size f]
   | None => []
   end) ++ (if t_show t then [Shown f] else []).

Definition size_is (e : vdict) (k : string) (v : pyval) : Prop :=
  (absent_or_none e k /\ v = VInt 1700) \/ (has e k v /\ is_positive_int v).
(** Accepted settings name a file and a type; settings changed later need not. *)
Definition file_is (e : vdict) (n : string) : Prop := has e "file_name" (VStr n) \/ absent e "file_name" /\ n = "".
Definition html_type (e : vdict) : Prop := has e "type" (VStr "html") \/ absent e "type".

(** The export asked for by the settings. *)
Inductive export_task (e : vdict) : string * string * string * option (pyval * pyval) -> Prop :=
| html_task dir n : html_type e -> has e "path" (VStr dir) -> file_is e n ->
    export_task e (dir, n, "html", None)
| image_task dir n fmt w h : has e "type" (VStr "image") -> has e "path" (VStr dir) -> file_is e n ->
    has e "format" (VStr fmt) -> size_is e "width" w -> size_is e "height" h ->
    export_task e (dir, n, fmt, Some (w, h)).

(** The task given by the settings [d] and the parameter [show]. *)
Definition task_of (d : vdict) (show : bool) (t : task) : Prop :=
  (absent d "figure" /\ t = mkTask show None) \/
  exists f, has d "figure" (VDict f) /\
    t_show t = (match vget f (VStr "show") with Some (VBool b) => b | _ => false end) || show /\
    match vget f (VStr "export") with
    | None => t_export t = None
    | Some (VDict e) => exists x, export_task e x /\ t_export t = Some x
    | Some _ => False
    end /\
    (absent f "show" \/ exists b, has f "show" (VBool b)).
