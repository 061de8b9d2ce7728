(** * The point generation construction heuristic.

    Models /repo/hyperpack/mixins.py, class PointGenerationMixin (lines 19-625). *)
From Coq Require Import ZArith String List Bool.
From Verif Require Import Py Arith.
Import ListNotations.
Open Scope Z_scope.
Open Scope res_scope.

(** Potential point classes: mixins.py:40-51 (["A"], ["B"], ["C"], ["D"], ["A_"], ["B_"],
    ["B__"], ["A__"], ["E"], ["F"]). *)
Inductive pclass := cA | cB | cC | cD | cA_ | cB_ | cB__ | cA__ | cE | cF.

Definition pclass_eqb (a b : pclass) : bool :=
  match a, b with
  | cA, cA | cB, cB | cC, cC | cD, cD | cA_, cA_ | cB_, cB_ | cB__, cB__ | cA__, cA__
  | cE, cE | cF, cF => true
  | _, _ => false
  end.

(** DEFAULT_POTENTIAL_POINTS_STRATEGY, mixins.py:40-51. *)
Definition default_strategy : list pclass := [cA; cB; cC; cD; cA_; cB_; cB__; cA__; cE; cF].

Definition point := (Z * Z)%type. (* (x, y) *)

(** [container_coords]: one row per y, each an array of W cells (mixins.py:394). *)
Definition grid := list (list Z).

(** [container_coords[y][x]] *)
Definition gget (g : grid) (y x : Z) : result Z := row <- py_get g y ;; py_get row x.

(** [container_coords[y][x] = v] *)
Definition gset (g : grid) (y x v : Z) : result grid :=
  row <- py_get g y ;; row' <- py_set row x v ;; py_set g y row'.

(** [container_coords[y][a:b] = array("I", [v] * n)] *)
Definition gfill (g : grid) (y a b v n : Z) : result grid :=
  row <- py_get g y ;; py_set g y (py_slice_set row a b (py_repeat v n)).

(** [[array("I", [0] * W) for y in range(L)]], mixins.py:394. *)
Definition empty_grid (W L : Z) : grid := map (fun _ => py_repeat 0 W) (zrange 0 L).

Definition nonzero (c : Z) : bool := negb (c =? 0).
Definition in23 (c : Z) : bool := (c =? 2) || (c =? 3). (* [c in (2, 3)] *)
Definition in03 (c : Z) : bool := (c =? 0) || (c =? 3). (* [c in (0, 3)] *)

(** Short-circuit boolean connectives over computations that may raise. *)
Definition rand_ (a : result bool) (b : result bool) : result bool :=
  x <- a ;; if x then b else Ok false.
Definition ror_ (a : result bool) (b : result bool) : result bool :=
  x <- a ;; if x then Ok true else b.

(** The row loop of [_check_fitting], mixins.py:95-99. *)
Fixpoint rows_free (g : grid) (Xo w : Z) (ys : list Z) : result bool :=
  match ys with
  | [] => Ok true
  | y :: ys' =>
      row <- py_get g y ;;
      if existsb nonzero (py_slice row Xo (Xo + w)) then Ok false
      else rows_free g Xo w ys'
  end.

(** [_check_fitting], mixins.py:73-99. *)
Definition check_fitting (W L Xo Yo w l : Z) (g : grid) : result bool :=
  blocked <-
    ror_ (Ok (Xo + w >? W))
   (ror_ (Ok (Yo + l >? L))
   (ror_ (c <- gget g Yo Xo ;; Ok (nonzero c))
   (ror_ (c <- gget g Yo (Xo + w - 1) ;; Ok (nonzero c))
   (ror_ (c <- gget g (Yo + l - 1) Xo ;; Ok (nonzero c))
         (c <- gget g (Yo + l - 1) (Xo + w - 1) ;; Ok (nonzero c)))))) ;;
  if blocked then Ok false
  else rows_free g Xo w (zrange Yo (Yo + l - 1)).

(** Marking the cells of a placed item, mixins.py:444-482. *)
Definition paint (g : grid) (Xo Yo w l : Z) : result grid :=
  let x_start := Xo in
  let x_end := Xo + w - 1 in
  let y_start := Yo in
  let y_end := Yo + l - 1 in
  (* interior, lines 450-452 *)
  g1 <- (if (w >? 2) && (l >? 2)
         then rfold (fun g y => gfill g y (x_start + 1) x_end 1 (w - 2))
                    (zrange (y_start + 1) y_end) g
         else Ok g) ;;
  (* horizontal sides, lines 455-462 *)
  g2 <- (if w >? 2
         then g' <- gfill g1 y_start (x_start + 1) x_end 2 (w - 2) ;;
              (if l >? 1 then gfill g' y_end (x_start + 1) x_end 2 (w - 2) else Ok g')
         else Ok g1) ;;
  (* vertical sides, lines 465-469 *)
  g3 <- (if l >? 2
         then rfold (fun g y =>
                       g' <- gset g y x_start 2 ;;
                       (if w >? 1 then gset g' y x_end 2 else Ok g'))
                    (zrange (y_start + 1) y_end) g2
         else Ok g2) ;;
  (* corners, lines 472-482 *)
  g4 <- gset g3 y_start x_start 3 ;;
  g5 <- gset g4 y_start x_end 3 ;;
  g6 <- gset g5 y_end x_start 3 ;;
  gset g6 y_end x_end 3.

(** ** [_generate_points], mixins.py:101-309.

    The method only appends to the queues of [potential_points] and never reads them, so the
    model returns the appended (class, point) pairs in order of appending. *)
Definition gen := list (pclass * point).

(** Lines 127-145: does point A exist? *)
Definition gen_A_cond (g : grid) (L Xo Ay : Z) : result bool :=
  rand_ (rand_ (Ok (Ay <? L)) (c <- gget g Ay Xo ;; Ok (c =? 0)))
        (ror_ (Ok (Xo =? 0))
        (ror_ (rand_ (c <- gget g (Ay - 1) (Xo - 1) ;; Ok (in23 c))
                     (c <- gget g Ay (Xo - 1) ;; Ok (in23 c)))
              (rand_ (c <- gget g (Ay - 1) (Xo - 1) ;; Ok (in03 c))
                     (c <- gget g Ay (Xo - 1) ;; Ok (c =? 3))))).

(** Lines 147-151: (append_A__, prohibit_E_and_A_). *)
Definition gen_A_flags (g : grid) (L Xo Ay : Z) : result (bool * bool) :=
  b1 <- ror_ (Ok (Ay >=? L)) (c <- gget g Ay Xo ;; Ok (nonzero c)) ;;
  if b1 then Ok (false, false)
  else
    b2 <- ror_ (Ok (Ay >=? L)) (c <- gget g Ay (Xo - 1) ;; Ok (in23 c)) ;;
    Ok (true, b2).

(** Lines 165-187: the leftward scan of A'/E. Both cells are read at every step; Python may
    short-circuit the second read, which is unobservable since both indices are in range. *)
Fixpoint scan_A_ (g : grid) (Ay : Z) (xs : list Z) : result (option Z) :=
  match xs with
  | [] => Ok None
  | x :: xs' =>
      up <- gget g Ay x ;;
      dn <- gget g (Ay - 1) x ;;
      if (up =? 0) && (dn =? 0) && (x =? 0) then Ok (Some x)
      else if (up =? 0) && (dn =? 0) then scan_A_ g Ay xs'
      else if in23 up && in23 dn then Ok (Some (x + 1))
      else if in23 up && (dn =? 0) then Ok (Some (x + 1))
      else scan_A_ g Ay xs'
  end.

(** Lines 155-162: the condition for A'/E. *)
Definition gen_A_prime_cond (g : grid) (L Xo Ay : Z) (A_gen prohibit : bool) : result bool :=
  rand_ (Ok (Ay <? L))
 (rand_ (Ok (Xo >? 0))
 (rand_ (Ok (negb A_gen))
 (rand_ (Ok (negb prohibit))
 (rand_ (c <- gget g (Ay - 1) (Xo - 1) ;; Ok (c =? 0))
        (c <- gget g Ay (Xo - 1) ;; Ok (c =? 0)))))).

(** Lines 212-228: does point B exist? *)
Definition gen_B_cond (g : grid) (W Yo Bx : Z) : result bool :=
  rand_ (rand_ (Ok (Bx <? W)) (c <- gget g Yo Bx ;; Ok (c =? 0)))
        (ror_ (Ok (Yo =? 0))
        (ror_ (rand_ (c <- gget g (Yo - 1) (Bx - 1) ;; Ok (in23 c))
                     (c <- gget g (Yo - 1) Bx ;; Ok (in23 c)))
              (rand_ (c <- gget g (Yo - 1) (Bx - 1) ;; Ok (in03 c))
                     (c <- gget g (Yo - 1) Bx ;; Ok (c =? 3))))).

(** Lines 230-234: (append_B__, prohibit_F_and_B_). *)
Definition gen_B_flags (g : grid) (W Yo Bx : Z) : result (bool * bool) :=
  b1 <- ror_ (Ok (Bx >=? W)) (c <- gget g Yo Bx ;; Ok (nonzero c)) ;;
  if b1 then Ok (false, false)
  else
    b2 <- ror_ (Ok (Bx >=? W)) (c <- gget g (Yo - 1) Bx ;; Ok (in23 c)) ;;
    Ok (true, b2).

(** Lines 248-273: the downward scan of B'/F (both cells read, as above). *)
Fixpoint scan_B_ (g : grid) (Bx : Z) (ys : list Z) : result (option Z) :=
  match ys with
  | [] => Ok None
  | y :: ys' =>
      rt <- gget g y Bx ;;
      lf <- gget g y (Bx - 1) ;;
      if (rt =? 0) && (lf =? 0) && (y =? 0) then Ok (Some y)
      else if (rt =? 0) && (lf =? 0) then scan_B_ g Bx ys'
      else if in23 rt && in23 lf then Ok (Some (y + 1))
      else if in23 rt && (lf =? 0) then Ok (Some (y + 1))
      else if in23 lf && (rt =? 0) then Ok None
      else scan_B_ g Bx ys'
  end.

(** Lines 238-245: the condition for B'/F. *)
Definition gen_B_prime_cond (g : grid) (W Yo Bx : Z) (B_gen prohibit : bool) : result bool :=
  rand_ (Ok (Bx <? W))
 (rand_ (Ok (Yo >? 0))
 (rand_ (Ok (negb B_gen))
 (rand_ (Ok (negb prohibit))
 (rand_ (c <- gget g (Yo - 1) (Bx - 1) ;; Ok (c =? 0))
        (c <- gget g (Yo - 1) Bx ;; Ok (c =? 0)))))).

(** Lines 295-300: C points. *)
Definition gen_C (g : grid) (Ay x : Z) : result gen :=
  b <- rand_ (c <- gget g Ay x ;; Ok (c =? 3)) (c <- gget g Ay (x + 1) ;; Ok (c =? 0)) ;;
  Ok (if b then [(cC, (x + 1, Ay))] else []).

(** Lines 304-309: D points. *)
Definition gen_D (g : grid) (Bx y : Z) : result gen :=
  b <- rand_ (c <- gget g y Bx ;; Ok (c =? 3)) (c <- gget g (y + 1) Bx ;; Ok (c =? 0)) ;;
  Ok (if b then [(cD, (Bx, y + 1))] else []).

Section WithArith.
Context (ar : arith).

(** Lines 122-204: the points on the A side of the item. *)
Definition gen_A_side (g : grid) (W L Xo Ay : Z) : result gen :=
  A_gen <- gen_A_cond g L Xo Ay ;;
  flags <- gen_A_flags g L Xo Ay ;;
  let '(append_A__, prohibit_E_and_A_) := flags in
  scan <- gen_A_prime_cond g L Xo Ay A_gen prohibit_E_and_A_ ;;
  x_point <- (if scan then scan_A_ g Ay (zrange_down (Xo - 1)) else Ok None) ;;
  Ok ((if A_gen then [(cA, (Xo, Ay))] else []) ++
      match x_point with
      | Some x => [(if ratio_le_fifth ar (Z.abs (Xo - x)) W then cA_ else cE, (x, Ay))]
      | None => []
      end ++
      (if negb A_gen && append_A__ then [(cA__, (Xo, Ay))] else [])).

(** Lines 206-291: the points on the B side of the item. *)
Definition gen_B_side (g : grid) (W L Yo Bx : Z) : result gen :=
  B_gen <- gen_B_cond g W Yo Bx ;;
  flags <- gen_B_flags g W Yo Bx ;;
  let '(append_B__, prohibit_F_and_B_) := flags in
  scan <- gen_B_prime_cond g W Yo Bx B_gen prohibit_F_and_B_ ;;
  y_point <- (if scan then scan_B_ g Bx (zrange_down (Yo - 1)) else Ok None) ;;
  Ok ((if B_gen then [(cB, (Bx, Yo))] else []) ++
      match y_point with
      | Some y => [(if ratio_le_fifth ar (Z.abs (Yo - y)) L then cB_ else cF, (Bx, y))]
      | None => []
      end ++
      (if negb B_gen && append_B__ then [(cB__, (Bx, Yo))] else [])).

(** [_generate_points], mixins.py:101-309. Debug logging is not modelled. *)
Definition generate_points (g : grid) (W L Xo Yo w l : Z) : result gen :=
  let Ay := Yo + l in
  let Bx := Xo + w in
  ga <- gen_A_side g W L Xo Ay ;;
  gb <- gen_B_side g W L Yo Bx ;;
  gc <- (if Ay <? L then rmap (gen_C g Ay) (zrange Xo (Bx - 1)) else Ok []) ;;
  gd <- (if Bx <? W then rmap (gen_D g Bx) (zrange Yo (Ay - 1)) else Ok []) ;;
  Ok (ga ++ gb ++ concat gc ++ concat gd).

(** ** Potential point queues *)

(** The dict of deques, mixins.py:324-337, without the "O" entry. *)
Definition pools := pclass -> list point.

Definition empty_pools : pools := fun _ => [].

(** [potential_points[c].append(p)] *)
Definition pool_append (pp : pools) (cp : pclass * point) : pools :=
  fun c => if pclass_eqb c (fst cp) then pp c ++ [snd cp] else pp c.

Definition pools_extend (pp : pools) (ps : gen) : pools := fold_left pool_append ps pp.

(** [_get_current_point], mixins.py:311-316. *)
Fixpoint get_current_point (strategy : list pclass) (pp : pools) : option point * pools :=
  match strategy with
  | [] => (None, pp)
  | c :: cs =>
      match pp c with
      | p :: rest => (Some p, fun c' => if pclass_eqb c' c then rest else pp c')
      | [] => get_current_point cs pp
      end
  end.

(** ** [_construct_solution], mixins.py:342-553 *)

(** An item's dictionary [{"w": w, "l": l}]. *)
Record dims := mkDims { dw : Z; dl : Z }.

(** An entry of [current_solution]: the item's dict after
    [item.update({"Xo": Xo, "Yo": Yo, "rotated": rotated})], mixins.py:500-501. *)
Record placed := mkPlaced { p_item : dims; p_x : Z; p_y : Z; p_rot : bool }.

(** Lines 546-551: the exported entry [Xo, Yo, w, l]. *)
Record entry := mkEntry { e_x : Z; e_y : Z; e_w : Z; e_l : Z }.

Definition export (p : placed) : entry :=
  mkEntry (p_x p) (p_y p)
          (if p_rot p then dl (p_item p) else dw (p_item p))
          (if p_rot p then dw (p_item p) else dl (p_item p)).

(** Lines 411-427: search of the first item that fits at the current point. *)
Fixpoint first_fit (W L Xo Yo : Z) (rotation : bool) (g : grid) (items : odict dims)
         (ids : list string) : result (option (string * dims * bool)) :=
  match ids with
  | [] => Ok None
  | i :: ids' =>
      it <- dget_r items i ;;
      check <- check_fitting W L Xo Yo (dw it) (dl it) g ;;
      if check then Ok (Some (i, it, false))
      else if rotation then
        check' <- check_fitting W L Xo Yo (dl it) (dw it) g ;;
        if check' then Ok (Some (i, it, true))
        else first_fit W L Xo Yo rotation g items ids'
      else first_fit W L Xo Yo rotation g items ids'
  end.

(** The loop state of [_construct_solution]. [st_pending] is [_current_potential_points]
    (lines 521-522, debug mode), kept to compare the model with the repo's point tests. *)
Record cstate := mkState {
  st_items : odict dims;         (* items *)
  st_ids : list string;          (* items_ids *)
  st_obj : num ar;               (* obj_value *)
  st_grid : grid;                (* container_coords *)
  st_pools : pools;              (* potential_points *)
  st_cur : option point;         (* current_point *)
  st_sol : odict placed;         (* current_solution *)
  st_pending : pools             (* _current_potential_points *)
}.

(** Placing the chosen item and generating points, lines 435-517. *)
Definition place_item (W L : Z) (strip : bool) (s : cstate) (Xo Yo : Z)
           (i : string) (it : dims) (rot : bool) : result cstate :=
  let w := if rot then dl it else dw it in
  let l := if rot then dw it else dl it in
  g' <- paint (st_grid s) Xo Yo w l ;;
  let obj' := if strip then st_obj s else nadd ar (st_obj s) (ndiv ar (w * l) (W * L)) in
  ps <- generate_points g' W L Xo Yo w l ;;
  Ok (mkState (ddel (st_items s) i) (lremove (st_ids s) i) obj' g'
              (pools_extend (st_pools s) ps) (st_cur s)
              (dset (st_sol s) i (mkPlaced it Xo Yo rot)) (st_pending s)).

(** One iteration of the [while True] loop, lines 400-524, for a current point. *)
Definition loop_body (W L : Z) (strip rotation : bool) (strategy : list pclass)
           (s : cstate) (p : point) : result cstate :=
  let '(Xo, Yo) := p in
  found <- first_fit W L Xo Yo rotation (st_grid s) (st_items s) (st_ids s) ;;
  s' <- match found with
        | Some (i, it, rot) => place_item W L strip s Xo Yo i it rot
        | None => Ok s
        end ;;
  let '(cur, pp) := get_current_point strategy (st_pools s') in
  Ok (mkState (st_items s') (st_ids s') (st_obj s') (st_grid s') pp cur (st_sol s')
              (st_pools s')).

(** The [while True] loop, lines 400-524. *)
Fixpoint construct_loop (fuel : nat) (W L : Z) (strip rotation : bool)
         (strategy : list pclass) (s : cstate) : result cstate :=
  match st_cur s with
  | None => Ok s
  | Some p =>
      match st_ids s with
      | [] => Ok s
      | _ :: _ =>
          if ngeb ar (st_obj s) (num1 ar) then Ok s
          else
            match fuel with
            | O => Err OutOfFuel
            | S n =>
                s' <- loop_body W L strip rotation strategy s p ;;
                construct_loop n W L strip rotation strategy s'
            end
      end
  end.

(** Lines 530-535: [for y in range(L - 1, 0, -1): if any(container_coords[y])]. *)
Fixpoint top_row (g : grid) (ys : list Z) : result Z :=
  match ys with
  | [] => Ok 1
  | y :: ys' =>
      row <- py_get g y ;;
      if existsb nonzero row then Ok y else top_row g ys'
  end.

(** [range(L - 1, 0, -1)] *)
Definition strip_rows (L : Z) : list Z := map (fun y => L - y) (zrange 1 L).

(** A bound on the number of loop iterations: the potential points an item can generate.
    Not in the source (the loop is unbounded there); [construct_total] shows it is enough. *)
Definition item_points (it : dims) : nat := Z.to_nat (dw it) + Z.to_nat (dl it) + 4.
Definition construct_fuel (items : odict dims) : nat :=
  S (fold_right (fun kv n => item_points (snd kv) + n)%nat O items).

Definition init_state (W L : Z) (items : odict dims) : cstate :=
  mkState items (dkeys items) (num0 ar) (empty_grid W L) empty_pools (Some (0, 0)) []
          empty_pools.

(** [_construct_solution] for one container: remaining items, objective value, solution,
    and (for validation only) the pending potential points. *)
Definition construct_solution (W L : Z) (strip rotation : bool) (strategy : list pclass)
           (items : odict dims) : result (odict dims * num ar * odict entry * pools) :=
  s <- construct_loop (construct_fuel items) W L strip rotation strategy
                      (init_state W L items) ;;
  obj <- (if strip
          then h <- top_row (st_grid s) (strip_rows L) ;;
               let items_area :=
                 fold_right Z.add 0
                   (map (fun kp => dw (p_item (snd kp)) * dl (p_item (snd kp))) (st_sol s)) in
               Ok (ndiv ar items_area (W * h))
          else Ok (st_obj s)) ;;
  Ok (st_items s, obj, map (fun kp => (fst kp, export (snd kp))) (st_sol s), st_pending s).

(** ** [_solve], mixins.py:555-625 *)

(** The attributes [_solve] reads. *)
Record problem := mkProblem {
  pb_containers : odict dims;       (* _containers: W is dw, L is dl *)
  pb_items : odict dims;            (* _items *)
  pb_rotation : bool;               (* _rotation *)
  pb_strategy : list pclass;        (* _potential_points_strategy *)
  pb_strip : bool;                  (* _strip_pack *)
  pb_height : Z                     (* _container_height, read in strip mode only *)
}.

(** [Items.deepcopy(ids_sequence)], structures.py:197-213 (dict comprehension: a repeated id
    keeps its first position; an unknown id raises KeyError). *)
Definition deepcopy_seq (items : odict dims) (ids : list string) : result (odict dims) :=
  rfold (fun d i => it <- dget_r items i ;; Ok (dset d i it)) ids [].

(** [Items.deepcopy()] or [Items.deepcopy(sequence)], mixins.py:588-591. *)
Definition items_for (pb : problem) (sequence : option (list string)) : result (odict dims) :=
  match sequence with
  | None => Ok (pb_items pb)
  | Some ids => deepcopy_seq (pb_items pb) ids
  end.

(** [_get_initial_container_length], mixins.py:318-322. *)
Definition container_length (pb : problem) (c : dims) : Z :=
  if pb_strip pb then pb_height pb else dl c.

Definition solution := odict (odict entry).
Definition objvals := odict (num ar).

(** One container of the loop of [_solve], lines 596-623. *)
Definition solve_step (pb : problem) (acc : odict dims * solution * objvals)
           (kc : string * dims) : result (odict dims * solution * objvals) :=
  let '(items, sol, objs) := acc in
  let '(cid, c) := kc in
  match items with
  | [] => Ok (items, dset sol cid [], dset objs cid (num0 ar))
  | _ :: _ =>
      r <- construct_solution (dw c) (container_length pb c) (pb_strip pb) (pb_rotation pb)
                              (pb_strategy pb) items ;;
      let '(items', util, csol, _) := r in
      Ok (items', dset sol cid csol, dset objs cid util)
  end.

(** [_solve], also returning the items left over after the last container. *)
Definition solve_full (pb : problem) (sequence : option (list string))
  : result (odict dims * solution * objvals) :=
  items <- items_for pb sequence ;;
  rfold (solve_step pb) (pb_containers pb) (items, [], []).

Definition solve (pb : problem) (sequence : option (list string))
  : result (solution * objvals) :=
  r <- solve_full pb sequence ;;
  let '(_, sol, objs) := r in Ok (sol, objs).

End WithArith.

Arguments mkState {ar}.
Arguments st_items {ar}. Arguments st_ids {ar}. Arguments st_obj {ar}.
Arguments st_grid {ar}. Arguments st_pools {ar}. Arguments st_cur {ar}.
Arguments st_sol {ar}. Arguments st_pending {ar}.
