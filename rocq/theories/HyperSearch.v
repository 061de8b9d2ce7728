(** * Hypersearch in one process.

    Models HyperPack.get_strategies, [_check_solution], [_single_process_hypersearch] and
    [hypersearch], /repo/hyperpack/heuristics.py:424-490, 565-634, and constants.py:3-7. *)
From Coq Require Import ZArith String List Bool.
From Verif Require Import Py Arith Construct Perms LocalSearch ItemsManip.
Import ListNotations.
Open Scope Z_scope.
Open Scope res_scope.

(** STRATEGIES_SUFFIX and STRATEGIES_SUFFIX_STRIPACK, heuristics.py:354-355. *)
Definition strategies_suffix : list pclass := [cA__; cB__; cF; cE].
Definition strategies_suffix_strip : list pclass := [cB__; cA__; cF; cE].

(** DEFAULT_POTENTIAL_POINTS_STRATEGY_POOL, constants.py:3-7. *)
Definition strategy_pool : list (list pclass) :=
  [[cA; cA_; cB_; cC; cB; cD; cA__; cB__; cF; cE];
   [cA; cA_; cB_; cC; cB; cD; cA__; cB__; cF; cE]].

(** [list(points.difference(set(suffixes)))], lines 449-454: a list in the iteration order of
    a Python set, which the language leaves open. [set_order strip order] says that [order] is
    one of the possible ones. *)
Definition set_order (strip : bool) (order : list pclass) : Prop :=
  NoDup order /\
  forall p, In p order <->
    In p default_strategy /\ ~ In p (if strip then strategies_suffix_strip else strategies_suffix).

(** [get_strategies], lines 439-459. *)
Definition get_strategies (exhaustive : bool) (order : list pclass) : list (list pclass) :=
  if exhaustive then map (fun p => p ++ strategies_suffix) (permutations order)
  else strategy_pool.

Section Hyper.
Context (ar : arith).

(** The local variables of [_single_process_hypersearch] (lines 461-490). *)
Record hs := mkHs {
  hs_st : inst ar;                             (* self *)
  hs_best : num ar;                            (* best_obj_value *)
  hs_ret : solution * objvals ar;              (* retain_solution *)
  hs_strategy : list pclass;                   (* best_strategy *)
  hs_clk : nat                                 (* clock readings so far *)
}.

(** [_check_solution], lines 424-428. *)
Definition check_solution (new best : num ar) : bool := ngtb ar new best.

(** [time.time() - self.start_time > self._max_time_in_seconds], line 487 ([>], not [>=] as in
    local_search). *)
Definition over_time (ck : clock) (start limit : Z) (n : nat) : bool := ck n - start >? limit.

(** The [for strategy in strategies] loop, lines 470-489. Also returns, for every strategy
    tried, the value its local search ended with (not in the source; [new_obj_val]). *)
Fixpoint hs_loop (ck : clock) (limit : Z) (throttle : bool) (start : Z)
         (strategies : list (list pclass)) (s : hs)
  : result (hs * list (list pclass * num ar)) :=
  match strategies with
  | [] => Ok (s, [])
  | g :: rest =>
      r <- local_search ar ck limit throttle (Some start) (set_strategy (hs_st s) g) (hs_clk s) ;;
      let '(x1, clk1, _) := r in
      v <- calculate_obj_value ar x1 ;;
      let better := check_solution v (hs_best s) in
      s' <- (if better
             then ret <- get_solution ar x1 ;; Ok (mkHs x1 v ret g clk1)
             else Ok (mkHs x1 (hs_best s) (hs_ret s) (hs_strategy s) clk1)) ;;
      if better && global_check ar v then Ok (s', [(g, v)])
      else
        let s'' := mkHs (hs_st s') (hs_best s') (hs_ret s') (hs_strategy s') (S clk1) in
        if over_time ck start limit clk1 then Ok (s'', [(g, v)])
        else r' <- hs_loop ck limit throttle start rest s'' ;;
             let '(s3, log) := r' in Ok (s3, (g, v) :: log)
  end.

(** [_single_process_hypersearch], lines 461-490. *)
Definition single_process (ck : clock) (limit : Z) (throttle : bool) (start : Z)
           (strategies : list (list pclass)) (x : inst ar) (clk : nat)
  : result (hs * list (list pclass * num ar)) :=
  r <- get_init_solution ar x ;;
  let '(x0, ret) := r in
  best <- calculate_obj_value ar x0 ;;
  hs_loop ck limit throttle start strategies (mkHs x0 best ret default_strategy clk).

(** What [hypersearch] leaves behind. *)
Record hs_result := mkHsR {
  hr_inst : inst ar;                           (* self *)
  hr_best_strategy : list pclass;              (* self.best_strategy *)
  hr_clk : nat;
  hr_log : list (list pclass * num ar)
}.

(** [hypersearch] with [_workers_num == 1], lines 613-634. *)
Definition hypersearch (ck : clock) (limit : Z) (throttle : bool)
           (orientation : option string) (sorting_by : option (string * bool))
           (strategies : list (list pclass)) (x : inst ar) (clk : nat) : result hs_result :=
  x1 <- sort_items ar sorting_by x ;;
  let x2 := orient_items ar orientation x1 in
  let start := ck clk in
  r <- single_process ck limit throttle start strategies x2 (S clk) ;;
  let '(s, log) := r in
  Ok (mkHsR (set_solution (hs_st s) (fst (hs_ret s)) (snd (hs_ret s))) (hs_strategy s)
            (S (hs_clk s)) log).
End Hyper.
Arguments mkHs {ar}. Arguments hs_st {ar}. Arguments hs_best {ar}. Arguments hs_ret {ar}.
Arguments hs_strategy {ar}. Arguments hs_clk {ar}.
Arguments mkHsR {ar}. Arguments hr_inst {ar}. Arguments hr_best_strategy {ar}.
Arguments hr_clk {ar}. Arguments hr_log {ar}.
