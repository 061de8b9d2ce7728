(** * Reporting and drawing the solution.

    Models SolutionLoggingMixin.log_solution (/repo/hyperpack/mixins.py:628-671) and
    SolutionFigureMixin.create_figure with colorgen (lines 807-963). Both only read the instance,
    so they are functions of its state. The log is here a list of lines with
    exact quotients; its text, with the number formats, is in Text.v. Of the arguments given to plotly the constant ones (annotation, fonts, axis titles, line
    styles, [hoverinfo] ...) are left out. Warnings and logged errors are in Logging.v. Not modelled: what plotly makes of a figure. *)
From Coq Require Import ZArith String List Bool QArith SpecFloat Floats.
From Verif Require Import Py Arith FloatArith Construct LocalSearch Values Settings Instance MultiProcess Colours.
Import ListNotations.
Open Scope string_scope.
Open Scope list_scope.
Open Scope Z_scope.

(** ** log_solution *)

(** The lines of the log. *)
Inductive line :=
| LTitle                                     (* Solution Log: *)
| LPercent (q : Q)                           (* Percent total items stored : q% *)
| LContainer (id : string) (w l : Z)         (* Container: id WxL *)
| LUtil (q : Q)                              (* [util%] : q% *)
| LMaxHeight (h : Z)                         (* [max height] : h *)
| LRemaining (ids : list string).            (* Remaining items : [...] *)

(** [a / b] *)
Definition quotient (a b : Z) : result Q :=
  if b =? 0 then Err ZeroDivisionError else Ok (inject_Z a / inject_Z b)%Q.

(** [sum([i[2] * i[3] ...])], mixins.py:653-655. *)
Definition stored_area (csol : odict entry) : Z :=
  fold_left (fun n e => n + e_w e * e_l e) (dvals csol) 0.

(** [sum([len(i) for cont_id, i in self.solution.items()])], line 644. *)
Definition stored_count (sol : solution) : Z :=
  fold_left (fun n csol => n + zlen csol) (dvals sol) 0.

Section Report.
Context {ar : arith}.

(** One container, lines 649-664. *)
Definition log_container (x : inst ar) (cid : string) : result (list line) :=
  l <- get_height ar x cid ;;
  c <- dget_r (pb_containers (in_pb x)) cid ;;
  csol <- dget_r (in_sol x) cid ;;
  u <- quotient (stored_area csol * 100) (dw c * l) ;;
  Ok ([LContainer cid (dw c) l; LUtil u] ++
      if pb_strip (in_pb x) then [LMaxHeight (solution_height csol)] else []).

Fixpoint log_containers (x : inst ar) (cids : list string) : result (list line) :=
  match cids with
  | [] => Ok []
  | cid :: t => a <- log_container x cid ;; b <- log_containers x t ;; Ok (a ++ b)
  end.

(** Lines 666-667. *)
Definition remaining_items (x : inst ar) : list string :=
  filter (fun id => negb (existsb (fun kc => dmem (snd kc) id) (in_sol x))) (dkeys (pb_items (in_pb x))).

(** log_solution(): [None] without a solution. *)
Definition log_view (x : inst ar) : result (list line) :=
  p <- quotient (stored_count (in_sol x)) (zlen (pb_items (in_pb x))) ;;
  cs <- log_containers x (dkeys (pb_containers (in_pb x))) ;;
  Ok ([LTitle; LPercent (p * 100)%Q] ++ cs ++ [LRemaining (remaining_items x)]).

Definition log_solution (s : machine ar) : result (option (list line)) :=
  match m_sol s with
  | [] => Ok None
  | _ :: _ => match view s with
              | Some x => ls <- log_view x ;; Ok (Some ls)
              | None => Err unusable
              end
  end.

(** ** create_figure *)

(** [a / b] of integers, in doubles. *)
Definition true_div (a b : Z) : result spec_float :=
  if b =? 0 then Err ZeroDivisionError
  else match SFdiv prec emax (sf_of_Z a) (sf_of_Z b) with S754_infinity _ => Err OverflowError | q => Ok q end.

(** get_figure_dtick_value, mixins.py:814-819: [math.ceil(dimension / scale)], scale 20. *)
Definition dtick (dimension : Z) : result Z := q <- true_div dimension 20 ;; sf_ceil q.

(** A drawn rectangle: label, two opposite corners, colour; the trace over its corners. An axis:
    its range and the distance of its ticks (which begin at 0). The frame of the container. *)
Record shape := mkShape { sh_label : string; sh_x0 : Z; sh_y0 : Z; sh_x1 : Z; sh_y1 : Z; sh_color : string }.
Record axis := mkAxis { ax_from : Z; ax_to : Z; ax_tick : Z }.
Record figure := mkFigure {
  fg_title : string;
  fg_x : axis; fg_y : axis;
  fg_shapes : list shape;
  fg_traces : list (list Z * list Z);
  fg_frame : (Z * Z) * (Z * Z)
}.

(** What a call does outside the instance. The size of an image is kept as given. *)
Inductive event :=
| Wrote (dir name : string) (size : option (pyval * pyval)) (f : figure)
| Shown (f : figure).

(** The loop over the items, mixins.py:902-922; colorgen raises IndexError past the last colour. *)
Fixpoint draw_items (i : nat) (csol : odict entry) : result (list shape * list (list Z * list Z)) :=
  match csol with
  | [] => Ok ([], [])
  | (id, e) :: t =>
      match nth_error items_colors i with
      | Some colour =>
           r <- draw_items (S i) t ;;
           Ok (mkShape id (e_x e) (e_y e) (e_x e + e_w e) (e_y e + e_l e) colour :: fst r,
               ([e_x e; e_x e + e_w e; e_x e + e_w e; e_x e],
                [e_y e; e_y e; e_y e + e_l e; e_y e + e_l e]) :: snd r)
      | None => Err IndexError
      end
  end.

(** Lines 866-934. *)
Definition draw_container (x : inst ar) (cid : string) : result figure :=
  l <- get_height ar x cid ;;
  c <- dget_r (pb_containers (in_pb x)) cid ;;
  tx <- dtick (dw c) ;;
  ty <- dtick l ;;
  csol <- dget_r (in_sol x) cid ;;
  r <- draw_items 0 csol ;;
  Ok (mkFigure cid (mkAxis (-2) (dw c + 2) tx) (mkAxis (-2) (l + 2) ty) (fst r) (snd r) ((0, 0), (dw c, l))).

(** Lines 936-963. [writes dir name]: whether plotly can write the file. Every exception in here
    becomes a FigureExportError. A file name or format that is no string (only possible by
    changing accepted settings in place) is outside the model. *)
Definition or_1700 (e : vdict) (k : string) : pyval :=
  let v := vget_str e k in if truthy v then v else VInt 1700.

Definition export_figure (writes : string -> string -> bool) (export : pyval) (cid : string) (f : figure)
  : result (list event) :=
  match export with
  | VDict e =>
      match vget e (VStr "path") with
      | Some (VStr dir) =>
          match (match vget e (VStr "file_name") with Some v => v | None => VStr "" end) with
          | VStr file =>
              match (match vget e (VStr "type") with Some v => v | None => VStr "html" end) with
              | VStr ty =>
                  if String.eqb ty "html"
                  then let name := (file ++ "__" ++ cid ++ ".html")%string in
                       if writes dir name then Ok [Wrote dir name None f] else Err FigureExportError
                  else if String.eqb ty "image"
                  then match vget e (VStr "format") with
                       | Some (VStr fmt) =>
                           let name := (file ++ "__" ++ cid ++ "." ++ fmt)%string in
                           if writes dir name
                           then Ok [Wrote dir name (Some (or_1700 e "width", or_1700 e "height")) f]
                           else Err FigureExportError
                       | Some _ => Err unusable
                       | None => Err FigureExportError
                       end
                  else Ok []
              | _ => Ok []
              end
          | _ => Err unusable
          end
      | _ => Err FigureExportError
      end
  | _ => Err FigureExportError
  end.

(** One container, lines 866-963: what happened, and how it ended. *)
Definition figure_of (writes : string -> string -> bool) (export : pyval) (show : bool) (x : inst ar)
           (cid : string) : list event * result unit :=
  match draw_container x cid with
  | Err e => ([], Err e)
  | Ok f =>
      match (if truthy export then export_figure writes export cid f else Ok []) with
      | Err e => ([], Err e)
      | Ok ev => (ev ++ (if show then [Shown f] else []), Ok tt)
      end
  end.

Fixpoint figures_of (writes : string -> string -> bool) (export : pyval) (show : bool) (x : inst ar)
         (cids : list string) : list event * result unit :=
  match cids with
  | [] => ([], Ok tt)
  | cid :: t =>
      match figure_of writes export show x cid with
      | (ev, Err e) => (ev, Err e)
      | (ev, Ok _) => let '(ev', r) := figures_of writes export show x t in (ev ++ ev', r)
      end
  end.

(** create_figure(show=...), lines 821-963: the events, in order, and the outcome. *)
Definition create_figure (writes : string -> string -> bool) (show : bool) (s : machine ar)
  : list event * result unit :=
  match m_sol s with
  | [] => ([], Ok tt)                                              (* a warning *)
  | _ :: _ =>
      if negb (c_plotly (m_cfg s)) then ([], Err (SettingsError S_PLOTLY_NOT_INSTALLED))
      else if negb (c_plotly_ok (m_cfg s)) then ([], Err (SettingsError S_PLOTLY_VERSION))
      else
        match c_settings (m_cfg s) with
        | VDict d =>
            match (match vget d (VStr "figure") with Some v => v | None => VDict [] end) with
            | VDict f =>
                let export := match vget f (VStr "export") with Some v => v | None => VNone end in
                let show' := truthy (match vget f (VStr "show") with Some v => v | None => VNone end) || show in
                if negb show' && is_none export then ([], Ok tt)   (* a warning *)
                else match view s with
                     | Some x => figures_of writes export show' x (dkeys (pb_containers (in_pb x)))
                     | None => ([], Err unusable)
                     end
            | VStruct _ | VDims _ => ([], Err unusable)
            | _ => ([], Err AttributeError)                        (* [figure_settings.get] *)
            end
        | VStruct _ | VDims _ => ([], Err unusable)
        | _ => ([], Err AttributeError)                            (* [self._settings.get] *)
        end
  end.
End Report.
