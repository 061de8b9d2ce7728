(** * Local search.

    Models /repo/hyperpack/abstract.py (class AbstractLocalSearch) and, in /repo/hyperpack/mixins.py,
    DeepcopyMixin (lines 1066-1089) and LocalSearchMixin (lines 1092-1218), together with
    [Containers._get_height] / [Containers._set_height] (structures.py:234-294). *)
From Coq Require Import ZArith String List Bool Factorial.
From Verif Require Import Py Arith Construct.
Import ListNotations.
Open Scope Z_scope.
Open Scope res_scope.

(** ** AbstractLocalSearch *)

(** [list(combinations(range(n), 2))], abstract.py:114. *)
Definition index_swaps (n : nat) : list (nat * nat) :=
  concat (map (fun i => map (fun j => (i, j)) (seq (S i) (n - S i))) (seq 0 n)).

(** Lines 137-142: exchange of the elements i and j. *)
Definition swap_at (l : list string) (i j : nat) : list string :=
  match nth_error l i, nth_error l j with
  | Some a, Some b => list_set (list_set l i b) j a
  | _, _ => l
  end.

(** MAX_NEIGHBORS_THROTTLE, abstract.py:17 and heuristics.py:352. *)
Definition max_neighbors_throttle : Z := 2500.

(** [get_max_neighbors_num], abstract.py:37-43. The float n(n-1)/2 is exact. *)
Definition get_max_neighbors_num (throttle : bool) (n : Z) : Z :=
  let m := n * (n - 1) / 2 in
  if throttle && (m >? max_neighbors_throttle) then max_neighbors_throttle else m.

Section Abstract.
Context {num St Sol : Type}.
Context (evaluate_node : St -> list string -> result St)
        (calculate_obj_value : St -> result num)
        (get_solution : St -> result Sol)
        (get_init_solution : St -> result (St * Sol))
        (compare_node : St -> num -> num -> result bool)
        (extra_node_operations : St -> result St)
        (global_check : num -> bool)      (* global_check(value, optimum_obj_value) *)
        (out_of_time : nat -> bool).      (* time() - start_time >= max_time, n-th reading *)

(** The local variables of [local_search] that change, abstract.py:102-109. *)
Record ls := mkLs {
  ls_st : St;                  (* self *)
  ls_node : list string;       (* node_sequence *)
  ls_best : num;               (* best_obj_value *)
  ls_ret : Sol;                (* retained_solution *)
  ls_clk : nat                 (* number of clock readings so far *)
}.

(** What [debug_local_search] is called with for every node, abstract.py:177-185. *)
Record node_log := mkLog {
  nl_best : num;
  nl_processed : Z;
  nl_oot : bool;
  nl_global : bool;
  nl_found : bool
}.

(** The [for swap in index_swaps] loop, lines 134-173. *)
Fixpoint search_node (swaps : list (nat * nat)) (maxn processed : Z) (s : ls)
  : result (ls * node_log) :=
  match swaps with
  | [] => Ok (s, mkLog (ls_best s) processed false false false)
  | (i, j) :: rest =>
      let cur := swap_at (ls_node s) i j in
      st1 <- evaluate_node (ls_st s) cur ;;
      v <- calculate_obj_value st1 ;;
      better <- compare_node st1 v (ls_best s) ;;
      s' <- (if better
             then ret <- get_solution st1 ;;
                  st2 <- extra_node_operations st1 ;;
                  Ok (mkLs st2 cur v ret (ls_clk s))
             else Ok (mkLs st1 (ls_node s) (ls_best s) (ls_ret s) (ls_clk s))) ;;
      let glob := better && global_check (ls_best s') in
      let oot := out_of_time (ls_clk s') in
      let s'' := mkLs (ls_st s') (ls_node s') (ls_best s') (ls_ret s') (S (ls_clk s')) in
      let processed' := processed + 1 in
      if oot || better || glob || (processed' >=? maxn)
      then Ok (s'', mkLog (ls_best s'') processed' oot glob better)
      else search_node rest maxn processed' s''
  end.

(** The [while continue_criterion] loop, lines 124-188. *)
Fixpoint search_loop (fuel : nat) (swaps : list (nat * nat)) (maxn : Z) (s : ls)
  : result (ls * list node_log) :=
  match fuel with
  | O => Err OutOfFuel
  | S n =>
      r <- search_node swaps maxn 0 s ;;
      let '(s', nl) := r in
      if nl_found nl && negb (nl_oot nl) && negb (nl_global nl)
      then r' <- search_loop n swaps maxn s' ;;
           let '(s'', nls) := r' in Ok (s'', nl :: nls)
      else Ok (s', [nl])
  end.

(** [local_search], lines 94-191 (no [init_operations]: HyperPack has none). *)
Definition abstract_local_search (fuel : nat) (st : St) (init_sequence : list string)
           (throttle : bool) (clk : nat) : result (ls * list node_log) :=
  r <- get_init_solution st ;;
  let '(st0, ret) := r in
  best <- calculate_obj_value st0 ;;
  let n := length init_sequence in
  search_loop fuel (index_swaps n) (get_max_neighbors_num throttle (Z.of_nat n))
              (mkLs st0 init_sequence best ret clk).
End Abstract.

Arguments mkLs {num St Sol}.
Arguments ls_st {num St Sol}. Arguments ls_node {num St Sol}. Arguments ls_best {num St Sol}.
Arguments ls_ret {num St Sol}. Arguments ls_clk {num St Sol}.
Arguments mkLog {num}.
Arguments nl_best {num}. Arguments nl_processed {num}. Arguments nl_oot {num}.
Arguments nl_global {num}. Arguments nl_found {num}.

(** [compare_node] of the base class, abstract.py:62-66; OPTIMIZATION is "MAX" or "MIN". *)
Definition base_compare (ar : arith) (maximize : bool) (new best : num ar) : bool :=
  if maximize then ngtb ar new best else ngtb ar best new.

(** ** HyperPack *)
Section HyperPack.
Context (ar : arith).

(** The attributes of a HyperPack instance the searches read or write. *)
Record inst := mkInst {
  in_pb : problem;             (* containers, items, rotation, strategy, strip, height *)
  in_min : option Z;           (* _container_min_height *)
  in_cnum : Z;                 (* _containers_num *)
  in_sol : solution;           (* solution *)
  in_objs : objvals ar;        (* obj_val_per_container *)
  in_hist : list Z             (* _heights_history *)
}.

(** STRIP_PACK_CONT_ID, heuristics.py:34. *)
Definition strip_id : string := "strip-pack-container".

Definition set_solution (x : inst) (sol : solution) (objs : objvals ar) : inst :=
  mkInst (in_pb x) (in_min x) (in_cnum x) sol objs (in_hist x).

Definition pb_with_height (pb : problem) (h : Z) : problem :=
  mkProblem (pb_containers pb) (pb_items pb) (pb_rotation pb) (pb_strategy pb) (pb_strip pb) h.

Definition pb_with_strategy (pb : problem) (s : list pclass) : problem :=
  mkProblem (pb_containers pb) (pb_items pb) (pb_rotation pb) s (pb_strip pb) (pb_height pb).

Definition set_height_to (x : inst) (h : Z) : inst :=
  mkInst (pb_with_height (in_pb x) h) (in_min x) (in_cnum x) (in_sol x) (in_objs x) (in_hist x).

Definition set_strategy (x : inst) (s : list pclass) : inst :=
  mkInst (pb_with_strategy (in_pb x) s) (in_min x) (in_cnum x) (in_sol x) (in_objs x) (in_hist x).

Definition set_hist (x : inst) (h : list Z) : inst :=
  mkInst (in_pb x) (in_min x) (in_cnum x) (in_sol x) (in_objs x) h.

(** [solve], heuristics.py:263-270. *)
Definition inst_solve (x : inst) (sequence : option (list string)) : result inst :=
  r <- solve ar (in_pb x) sequence ;;
  let '(sol, objs) := r in Ok (set_solution x sol objs).

(** [evaluate_node], mixins.py:1097-1098. *)
Definition evaluate_node (x : inst) (sequence : list string) : result inst :=
  inst_solve x (Some sequence).

(** [_deepcopy_solution], mixins.py:1079-1089. *)
Definition deepcopy_container (items : odict dims) (csol : odict entry) : odict entry :=
  concat (map (fun id => match dget csol id with Some e => [(id, e)] | None => [] end)
              (dkeys items)).

Definition deepcopy_solution (pb : problem) (sol : solution) : result solution :=
  rmap (fun cid => csol <- dget_r sol cid ;; Ok (cid, deepcopy_container (pb_items pb) csol))
       (dkeys (pb_containers pb)).

(** [_copy_objective_val_per_container], mixins.py:1072-1077. *)
Definition copy_objs (objs : objvals ar) : objvals ar := map (fun kv => kv) objs.

(** [get_solution], mixins.py:1100-1104. *)
Definition get_solution (x : inst) : result (solution * objvals ar) :=
  sol <- deepcopy_solution (in_pb x) (in_sol x) ;;
  Ok (sol, copy_objs (in_objs x)).

(** [calculate_obj_value], mixins.py:1106-1123. [l[:-1]] and [l[-1]]. *)
Definition obj_value (cnum : Z) (vals : list (num ar)) : result (num ar) :=
  if cnum =? 1 then Ok (nsum ar vals)
  else last <- py_get vals (-1) ;;
       Ok (nadd ar (nsum ar (py_slice vals 0 (-1))) (n07 ar last)).

Definition calculate_obj_value (x : inst) : result (num ar) :=
  obj_value (in_cnum x) (dvals (in_objs x)).

(** [get_init_solution], mixins.py:1125-1130. *)
Definition get_init_solution (x : inst) : result (inst * (solution * objvals ar)) :=
  x' <- inst_solve x None ;;
  ret <- get_solution x' ;;
  Ok (x', ret).

(** [max([solution[i][1] + solution[i][3] for i in solution] or [0])], structures.py:261-264,
    288-292. *)
Definition solution_height (csol : odict entry) : Z :=
  match dvals csol with
  | [] => 0
  | e :: es => fold_left (fun m e => Z.max m (e_y e + e_l e)) es (e_y e + e_l e)
  end.

(** MAX_W_L_RATIO, heuristics.py:32. *)
Definition max_w_l_ratio : Z := 10.

(** [if self.instance._container_min_height is not None: max(...)], structures.py:266-270,
    295-299. *)
Definition min_height_max (m : option Z) (h : Z) : Z :=
  match m with Some mh => Z.max h mh | None => h end.

(** [_set_height], structures.py:274-294: the new [_container_height]. *)
Definition new_height (x : inst) : result Z :=
  match in_sol x with
  | [] => c <- dget_r (pb_containers (in_pb x)) strip_id ;; Ok (dw c * max_w_l_ratio)
  | _ :: _ => csol <- dget_r (in_sol x) strip_id ;;
              Ok (min_height_max (in_min x) (solution_height csol))
  end.

(** [_get_height], structures.py:234-272. *)
Definition get_height (x : inst) (cid : string) : result Z :=
  if pb_strip (in_pb x)
  then match in_sol x with
       | [] => c <- dget_r (pb_containers (in_pb x)) cid ;; Ok (dw c * max_w_l_ratio)
       | _ :: _ => csol <- dget_r (in_sol x) cid ;;
                   Ok (min_height_max (in_min x) (solution_height csol))
       end
  else c <- dget_r (pb_containers (in_pb x)) cid ;; Ok (dl c).

(** [extra_node_operations], mixins.py:1132-1137. *)
Definition extra_node_operations (x : inst) : result inst :=
  if pb_strip (in_pb x)
  then h <- new_height x ;;
       let x' := set_height_to x h in
       Ok (set_hist x' (in_hist x' ++ [h]))
  else Ok x.

(** [compare_node], mixins.py:1139-1167. *)
Definition compare_node (x : inst) (new best : num ar) : result bool :=
  let better := ngtb ar new best in
  if negb (pb_strip (in_pb x)) then Ok better
  else match in_min x with
       | None => csol <- dget_r (in_sol x) strip_id ;;
                 Ok ((zlen csol =? zlen (pb_items (in_pb x))) && better)
       | Some _ => Ok better
       end.

(** [global_check(value, get_optimum_objective_val())] with OPTIMIZATION = "MAX",
    abstract.py:45-60. *)
Definition global_check (v : num ar) : bool := nge_inf ar v.

(** Clock readings [time.time()], as integers of an arbitrary unit (floats in the source). *)
Definition clock := nat -> Z.

Definition out_of_time (ck : clock) (start limit : Z) (n : nat) : bool :=
  ck n - start >=? limit.

(** A bound on the number of nodes; not in the source. [local_search_total] shows that it is
    never reached. *)
Definition ls_fuel (x : inst) : nat :=
  S (fact (length (pb_items (in_pb x))) *
     (if pb_strip (in_pb x) then Z.to_nat (pb_height (in_pb x)) else 1))%nat.

(** [local_search], mixins.py:1169-1218, visiting at most [fuel x] nodes. [start] is [None] for
    a standalone search (the clock is read, line 1198) and [Some self.start_time] inside
    hypersearch (line 1200). Returns the instance, the number of clock readings so far, and the
    debug log. *)
Definition local_search_fuel (fuel : inst -> nat) (ck : clock) (limit : Z) (throttle : bool)
           (start : option Z) (x : inst) (clk : nat)
  : result (inst * nat * list (node_log (num := num ar))) :=
  let '(start_time, clk1) := match start with
                             | None => (ck clk, S clk)
                             | Some t => (t, clk)
                             end in
  let x1 := if pb_strip (in_pb x) then set_hist x [pb_height (in_pb x)] else x in
  r <- abstract_local_search evaluate_node calculate_obj_value get_solution get_init_solution
         compare_node extra_node_operations global_check (out_of_time ck start_time limit)
         (fuel x1) x1 (dkeys (pb_items (in_pb x1))) throttle clk1 ;;
  let '(s, log) := r in
  let '(sol, objs) := ls_ret s in
  Ok (set_solution (ls_st s) sol objs, ls_clk s, log).

Definition local_search := local_search_fuel ls_fuel.

End HyperPack.

Arguments mkInst {ar}. Arguments in_pb {ar}. Arguments in_min {ar}. Arguments in_cnum {ar}.
Arguments in_sol {ar}. Arguments in_objs {ar}. Arguments in_hist {ar}.
Arguments set_solution {ar}. Arguments set_height_to {ar}. Arguments set_strategy {ar}.
Arguments set_hist {ar}.
