(** * Hypersearch with several processes.

    Models HyperPack._multi_process_hypersearch and [hypersearch] with [_workers_num > 1]
    (/repo/hyperpack/heuristics.py:492-563, 613-634) and HyperSearchProcess
    (/repo/hyperpack/processes.py) as a transition system: the parent, the workers, the shared
    array (one slot per worker) and one queue per worker, interleaved arbitrarily.

    The shared array holds objective values, in the arithmetic of the instance ([ar]), and the
    literals 0 and -1. *)
From Coq Require Import ZArith String List Bool QArith SpecFloat Floats.
From Verif Require Import Py Arith FloatArith Construct LocalSearch ItemsManip HyperSearch.
Import ListNotations.
Open Scope Z_scope.
Open Scope res_scope.

(** ** Partition of the strategies, heuristics.py:495-499 *)

(** [range(0, n, step)] for a positive step. *)
Definition range_step (n step : Z) : list Z :=
  map (fun k => k * step) (zrange 0 ((n + step - 1) / step)).

(** [[strategies[i:i+per] for i in range(0, len(strategies), per)]]. *)
Definition chunks_of {A} (strategies : list A) (per : Z) : list (list A) :=
  map (fun i => py_slice strategies i (i + per)) (range_step (zlen strategies) per).

(** [math.ceil(x)] of a double: the least integer that is not below it; an infinity raises
    OverflowError, a NaN ValueError. *)
Definition sf_ceil (x : spec_float) : result Z :=
  match x with
  | S754_zero _ => Ok 0
  | S754_finite s m e =>
      let v := if s then Zneg m else Zpos m in
      Ok (if 0 <=? e then v * 2 ^ e else - ((- v) / 2 ^ (- e)))
  | S754_infinity _ => Err OverflowError
  | S754_nan => Err ValueError
  end.

(** [math.ceil(len(strategies) / self._workers_num)], line 495, for a nonzero finite number of
    workers (validation also lets floats through): the quotient is the double nearest to the
    exact one, whether [_workers_num] is an int or a float. (For a float and [2 ** 53] or more
    strategies the length would be rounded first; no such list exists.) *)
Definition strategies_per_process (n : Z) (workers : Q) : result Z :=
  sf_ceil (SFdiv prec emax (sf_of_Z (n * Zpos (Qden workers))) (sf_of_Z (Qnum workers))).

(** Lines 495-499: [range] raises ValueError for a step of 0 (the quotient was rounded to 0); a
    negative step gives no chunk (it would need a negative [_workers_num]). *)
Definition strategies_chunks {A} (strategies : list A) (workers : Q) : result (list (list A)) :=
  per <- strategies_per_process (zlen strategies) workers ;;
  if per =? 0 then Err ValueError
  else if per <? 0 then Ok [] else Ok (chunks_of strategies per).

Section Multi.
Context (ar : arith).

(** ** The instance of a worker, processes.py:47-61 *)

(** STRIP_PACK_INIT_HEIGHT, heuristics.py:33. *)
Definition strip_pack_init_height : Z := 2 ^ 100.

(** [HyperPack(items=..., settings=..., containers=... | strip_pack_width=...)] followed by the
    assignment of [_container_min_height]: the copied items and containers are valid, the
    rotation setting is the parent's; the strategy is the default one and the height of a strip
    is the initial one, ten times the width (heuristics.py:80-91, 201-210). In bin mode
    there is no height (0 here). *)
Definition child_inst (x : inst ar) : result (inst ar) :=
  let pb := in_pb x in
  if pb_strip pb then
    c <- dget_r (pb_containers pb) strip_id ;;
    Ok (mkInst (mkProblem [(strip_id, mkDims (dw c) strip_pack_init_height)] (pb_items pb)
                          (pb_rotation pb) default_strategy true (max_w_l_ratio * dw c))
               (in_min x) 1 [] [] [])
  else
    Ok (mkInst (mkProblem (pb_containers pb) (pb_items pb) (pb_rotation pb) default_strategy
                          false 0)
               (in_min x) (zlen (pb_containers pb)) [] [] []).

(** ** Workers *)

(** [(best_obj_value, *retain_solution, best_strategy)], processes.py:122. *)
Record output := mkOut {
  o_value : num ar;
  o_solution : solution;
  o_objs : objvals ar;
  o_strategy : option (list pclass)
}.

(** [(-1, {}, {}, None)], processes.py:131. *)
Definition failure_output : output := mkOut (nm1 ar) [] [] None.

(** The local variables of [run], processes.py:68-77. *)
Record wst := mkW {
  w_inst : inst ar;                  (* self.instance *)
  w_best : num ar;                        (* best_obj_value *)
  w_ret : solution * objvals ar;     (* retain_solution *)
  w_strategy : option (list pclass);     (* best_strategy *)
  w_clk : nat                            (* clock readings so far *)
}.

(** Where a worker is in [run]. *)
Inductive phase :=
| PhIdle                                   (* not started *)
| PhBegin                                  (* line 65 *)
| PhLoop (s : wst) (rest : list (list pclass))
                                           (* line 79, [rest] still to be searched *)
| PhRead (s : wst) (g : list pclass) (v : num ar) (rest : list (list pclass)) (seen : list (num ar))
                                           (* line 85, reading the array slot by slot *)
| PhWrite (s : wst) (g : list pclass) (v : num ar) (rest : list (list pclass)) (opt : num ar)
                                           (* line 89 *)
| PhKeep (s : wst) (g : list pclass) (v : num ar) (rest : list (list pclass)) (opt : num ar)
                                           (* lines 91-106 *)
| PhCheck (s : wst) (rest : list (list pclass)) (opt : num ar)
                                           (* lines 108-120 *)
| PhPut (o : output)                       (* line 123 *)
| PhFail                                   (* line 130, in the except clause *)
| PhFailPut                                (* line 131 *)
| PhFlush (o : output)                     (* run() has returned; the queue's feeder thread
                                              must write [o] to the pipe before the process
                                              can exit *)
| PhExit                                   (* the process has exited *)
| PhKilled.                                (* the process was killed *)

(** Being inside the [try] of lines 64-123. *)
Definition in_try (p : phase) : bool :=
  match p with
  | PhBegin | PhLoop _ _ | PhRead _ _ _ _ _ | PhWrite _ _ _ _ _ | PhKeep _ _ _ _ _
  | PhCheck _ _ _ | PhPut _ => true
  | _ => false
  end.

(** The process exists and has not ended. *)
Definition alive (p : phase) : bool :=
  match p with PhIdle | PhExit | PhKilled => false | _ => true end.

Definition output_of (s : wst) : output :=
  mkOut (w_best s) (fst (w_ret s)) (snd (w_ret s)) (w_strategy s).

(** ** The parent, heuristics.py:522-563 *)
Inductive pphase :=
| PStart (i : nat)                         (* about to start process i, line 523 *)
| PJoin (i : nat)                          (* joining process i, line 525 *)
| PGet (j : nat)                           (* line 541: queue.get() of the winner *)
| PReturned (sol : solution) (objs : objvals ar) (strategy : option (list pclass))
| PRaised (e : exn).

(** [max(shared_list)] *)
Definition q_max (l : list (num ar)) : num ar :=
  match l with
  | [] => num0 ar
  | a :: t => fold_left (fun m q => if ngtb ar q m then q else m) t a
  end.

(** [shared_list.index(v)] *)
Fixpoint q_index (l : list (num ar)) (v : num ar) : nat :=
  match l with
  | [] => O
  | a :: t => if neqb ar a v then O else S (q_index t v)
  end.

(** ** The whole system *)

(** Fixed during one hypersearch. *)
Record setup := mkSetup {
  su_parent : inst ar;                 (* self, items already sorted and oriented *)
  su_child : inst ar;                  (* every worker's instance *)
  su_chunks : list (list (list pclass));   (* strategies_chunks *)
  su_clock : nat -> clock;                 (* what worker i reads *)
  su_start : Z;                            (* start_time *)
  su_limit : Z;                            (* max_time_in_seconds *)
  su_throttle : bool;
  su_forced : nat -> bool;                 (* _force_raise_error_index in (i, "all") *)
  su_size : output -> nat;                 (* bytes a result takes in the pipe *)
  su_capacity : nat                        (* bytes the pipe can hold unread *)
}.

Definition workers (u : setup) : nat := length (su_chunks u).
Definition chunk (u : setup) (i : nat) : list (list pclass) := nth i (su_chunks u) [].

Record sys := mkSys {
  s_array : nat -> num ar;                      (* shared_array *)
  s_phase : nat -> phase;
  s_queue : nat -> option output;          (* the pipe of worker i *)
  s_log : nat -> list (list pclass * num ar);   (* not in the source: strategies searched so far by
                                              worker i, with the values found *)
  s_parent : pphase
}.

Definition upd {A} (f : nat -> A) (i : nat) (v : A) : nat -> A :=
  fun j => if Nat.eqb j i then v else f j.

Definition set_phase (s : sys) (i : nat) (p : phase) : sys :=
  mkSys (s_array s) (upd (s_phase s) i p) (s_queue s) (s_log s) (s_parent s).
Definition set_parent (s : sys) (p : pphase) : sys :=
  mkSys (s_array s) (s_phase s) (s_queue s) (s_log s) p.
Definition set_slot (s : sys) (i : nat) (v : num ar) : sys :=
  mkSys (upd (s_array s) i v) (s_phase s) (s_queue s) (s_log s) (s_parent s).
Definition set_queue (s : sys) (i : nat) (o : output) : sys :=
  mkSys (s_array s) (s_phase s) (upd (s_queue s) i (Some o)) (s_log s) (s_parent s).
Definition add_log (s : sys) (i : nat) (g : list pclass) (v : num ar) : sys :=
  mkSys (s_array s) (s_phase s) (s_queue s) (upd (s_log s) i (s_log s i ++ [(g, v)])) (s_parent s).

(** [shared_Array = Array("d", [0] * len(strategies_chunks))], line 503. *)
Definition start_state : sys :=
  mkSys (fun _ => num0 ar) (fun _ => PhIdle) (fun _ => None) (fun _ => []) (PStart 0).

(** [list(shared_Array)] *)
Definition array_list (u : setup) (s : sys) : list (num ar) := map (s_array s) (seq 0 (workers u)).

(** [local_search(throttle=..., _hypersearch=True)] of worker [i] ends in [y]. *)
Definition worker_search (u : setup) (i : nat) (x : inst ar) (clk : nat)
           (y : inst ar) (clk' : nat) : Prop :=
  exists fuel log,
    local_search_fuel ar fuel (su_clock u i) (su_limit u) (su_throttle u)
                      (Some (su_start u)) x clk = Ok (y, clk', log).

(** One step of worker [i], processes.py:63-131. [may_raise i]: an exception may interrupt it
    at any moment inside the [try]; [may_die i]: the process may be killed. *)
Inductive worker_step (u : setup) (may_raise may_die : nat -> Prop) (i : nat) : sys -> sys -> Prop :=
| W_begin s x ret v :                      (* lines 68-77 *)
    s_phase s i = PhBegin -> su_forced u i = false ->
    get_init_solution ar (su_child u) = Ok (x, ret) -> calculate_obj_value ar x = Ok v ->
    worker_step u may_raise may_die i s (set_phase s i (PhLoop (mkW x v ret None 0) (chunk u i)))
| W_forced s :                             (* lines 65-66 *)
    s_phase s i = PhBegin -> su_forced u i = true ->
    worker_step u may_raise may_die i s (set_phase s i PhFail)
| W_search s w g rest y clk v :            (* lines 81-84 *)
    s_phase s i = PhLoop w (g :: rest) ->
    worker_search u i (set_strategy (w_inst w) g) (w_clk w) y clk ->
    calculate_obj_value ar y = Ok v ->
    worker_step u may_raise may_die i s
      (add_log (set_phase s i
         (PhRead (mkW y (w_best w) (w_ret w) (w_strategy w) clk) g v rest [])) i g v)
| W_read s w g v rest seen :               (* line 85, one slot *)
    s_phase s i = PhRead w g v rest seen -> (length seen < workers u)%nat ->
    worker_step u may_raise may_die i s
      (set_phase s i (PhRead w g v rest (seen ++ [s_array s (length seen)])))
| W_compare s w g v rest seen :            (* line 87 *)
    s_phase s i = PhRead w g v rest seen -> length seen = workers u ->
    worker_step u may_raise may_die i s
      (set_phase s i (if check_solution ar v (w_best w)
                      then PhWrite w g v rest (q_max seen) else PhCheck w rest (q_max seen)))
| W_write s w g v rest opt :               (* lines 88-89 *)
    s_phase s i = PhWrite w g v rest opt ->
    worker_step u may_raise may_die i s (set_phase (set_slot s i v) i (PhKeep w g v rest opt))
| W_keep s w g v rest opt ret :            (* lines 91-106 *)
    s_phase s i = PhKeep w g v rest opt -> get_solution ar (w_inst w) = Ok ret ->
    worker_step u may_raise may_die i s
      (let w' := mkW (w_inst w) v ret (Some g) (w_clk w) in
       set_phase s i (if global_check ar v then PhPut (output_of w') else PhCheck w' rest opt))
| W_check s w rest opt :                   (* lines 108-120 *)
    s_phase s i = PhCheck w rest opt ->
    worker_step u may_raise may_die i s
      (let w' := mkW (w_inst w) (w_best w) (w_ret w) (w_strategy w) (S (w_clk w)) in
       set_phase s i (if over_time (su_clock u i) (su_start u) (su_limit u) (w_clk w)
                         || global_check ar opt
                      then PhPut (output_of w') else PhLoop w' rest))
| W_end s w :                              (* line 122, no strategy left *)
    s_phase s i = PhLoop w [] ->
    worker_step u may_raise may_die i s (set_phase s i (PhPut (output_of w)))
| W_put s o :                              (* line 123 *)
    s_phase s i = PhPut o -> worker_step u may_raise may_die i s (set_phase s i (PhFlush o))
| W_raise s :                              (* line 126 *)
    may_raise i -> in_try (s_phase s i) = true ->
    worker_step u may_raise may_die i s (set_phase s i PhFail)
| W_fail s :                               (* line 130 *)
    s_phase s i = PhFail ->
    worker_step u may_raise may_die i s (set_phase (set_slot s i (nm1 ar)) i PhFailPut)
| W_fail_put s :                           (* line 131 *)
    s_phase s i = PhFailPut ->
    worker_step u may_raise may_die i s (set_phase s i (PhFlush failure_output))
| W_flush s o :                            (* the feeder thread; then the process exits *)
    s_phase s i = PhFlush o -> ((su_size u o <= su_capacity u)%nat \/ s_parent s = PGet i) ->
    worker_step u may_raise may_die i s (set_phase (set_queue s i o) i PhExit)
| W_die s :
    may_die i -> alive (s_phase s i) = true ->
    worker_step u may_raise may_die i s (set_phase s i PhKilled).

(** Lines 527-540: what the parent does with the array. *)
Definition decide (l : list (num ar)) : pphase :=
  if neqb ar (q_max l) (nm1 ar) then PRaised MultiProcessError else PGet (q_index l (q_max l)).

(** Lines 543-550: copying the winner's output. *)
Definition take (u : setup) (o : output) : pphase :=
  match deepcopy_solution (in_pb (su_parent u)) (o_solution o) with
  | Ok sol => PReturned sol (copy_objs ar (o_objs o)) (o_strategy o)
  | Err e => PRaised e
  end.

(** One step of the parent. *)
Inductive parent_step (u : setup) : sys -> sys -> Prop :=
| P_start s i : s_parent s = PStart i -> (i < workers u)%nat ->
    parent_step u s (set_parent (set_phase s i PhBegin) (PStart (S i)))
| P_started s : s_parent s = PStart (workers u) -> parent_step u s (set_parent s (PJoin 0))
| P_join s i : s_parent s = PJoin i -> (i < workers u)%nat ->
    (s_phase s i = PhExit \/ s_phase s i = PhKilled) ->
    parent_step u s (set_parent s (PJoin (S i)))
| P_joined s : s_parent s = PJoin (workers u) ->
    parent_step u s (set_parent s (decide (array_list u s)))
| P_get s j o : s_parent s = PGet j -> s_queue s j = Some o ->
    parent_step u s (set_parent s (take u o)).

Inductive step (u : setup) (may_raise may_die : nat -> Prop) (s s' : sys) : Prop :=
| St_parent : parent_step u s s' -> step u may_raise may_die s s'
| St_worker i : (i < workers u)%nat -> worker_step u may_raise may_die i s s' ->
    step u may_raise may_die s s'.

Inductive steps (u : setup) (may_raise may_die : nat -> Prop) (s : sys) : sys -> Prop :=
| steps_refl : steps u may_raise may_die s s
| steps_snoc s' s'' : steps u may_raise may_die s s' -> step u may_raise may_die s' s'' ->
    steps u may_raise may_die s s''.

(** A state some interleaving leads to. *)
Definition reachable (u : setup) (may_raise may_die : nat -> Prop) (s : sys) : Prop :=
  steps u may_raise may_die start_state s.

(** ** [hypersearch] with [_workers_num > 1] on the instance [x]: the setup it runs. *)
Definition multi_setup (orientation : option string) (sorting_by : option (string * bool))
           (strategies : list (list pclass)) (nworkers : Q) (cks : nat -> clock) (start limit : Z)
           (throttle : bool) (forced : nat -> bool) (size : output -> nat) (capacity : nat)
           (x : inst ar) : result setup :=
  x1 <- sort_items ar sorting_by x ;;
  let x2 := orient_items ar orientation x1 in
  chunks <- strategies_chunks strategies nworkers ;;
  child <- child_inst x2 ;;
  Ok (mkSetup x2 child chunks cks start limit throttle forced
              size capacity).

(** The user's object while [hypersearch] runs and after it: only a returning search replaces
    its solution and its [best_strategy] (lines 625-631; an exception leaves the attributes as
    they are). *)
Definition problem_now (u : setup) (s : sys) : inst ar :=
  match s_parent s with
  | PReturned sol objs _ => set_solution (su_parent u) sol objs
  | _ => su_parent u
  end.

(** [hypersearch] is over. *)
Definition over (s : sys) : Prop :=
  match s_parent s with PReturned _ _ _ | PRaised _ => True | _ => False end.
End Multi.

(* The arithmetic is the first argument of the types; elsewhere it is inferred. *)
Arguments child_inst {ar}.
Arguments mkOut {ar}. Arguments o_value {ar}. Arguments o_solution {ar}. Arguments o_objs {ar}.
Arguments o_strategy {ar}. Arguments failure_output {ar}.
Arguments mkW {ar}. Arguments w_inst {ar}. Arguments w_best {ar}. Arguments w_ret {ar}.
Arguments w_strategy {ar}. Arguments w_clk {ar}.
Arguments PhIdle {ar}. Arguments PhBegin {ar}. Arguments PhLoop {ar}. Arguments PhRead {ar}.
Arguments PhWrite {ar}. Arguments PhKeep {ar}. Arguments PhCheck {ar}. Arguments PhPut {ar}.
Arguments PhFail {ar}. Arguments PhFailPut {ar}. Arguments PhFlush {ar}. Arguments PhExit {ar}.
Arguments PhKilled {ar}. Arguments in_try {ar}. Arguments alive {ar}. Arguments output_of {ar}.
Arguments PStart {ar}. Arguments PJoin {ar}. Arguments PGet {ar}. Arguments PReturned {ar}.
Arguments PRaised {ar}. Arguments q_max {ar}. Arguments q_index {ar}.
Arguments mkSetup {ar}. Arguments su_parent {ar}. Arguments su_child {ar}. Arguments su_chunks {ar}.
Arguments su_clock {ar}. Arguments su_start {ar}. Arguments su_limit {ar}. Arguments su_throttle {ar}.
Arguments su_forced {ar}. Arguments su_size {ar}. Arguments su_capacity {ar}.
Arguments workers {ar}. Arguments chunk {ar}.
Arguments mkSys {ar}. Arguments s_array {ar}. Arguments s_phase {ar}. Arguments s_queue {ar}.
Arguments s_log {ar}. Arguments s_parent {ar}.
Arguments set_phase {ar}. Arguments set_parent {ar}. Arguments set_slot {ar}.
Arguments set_queue {ar}. Arguments add_log {ar}. Arguments start_state {ar}.
Arguments array_list {ar}. Arguments worker_search {ar}. Arguments worker_step {ar}.
Arguments decide {ar}. Arguments take {ar}. Arguments parent_step {ar}. Arguments step {ar}.
Arguments steps {ar}. Arguments reachable {ar}. Arguments multi_setup {ar}.
Arguments problem_now {ar}. Arguments over {ar}.
Arguments W_begin {ar}.
Arguments W_forced {ar}.
Arguments W_search {ar}.
Arguments W_read {ar}.
Arguments W_compare {ar}.
Arguments W_write {ar}.
Arguments W_keep {ar}.
Arguments W_check {ar}.
Arguments W_end {ar}.
Arguments W_put {ar}.
Arguments W_raise {ar}.
Arguments W_fail {ar}.
Arguments W_fail_put {ar}.
Arguments W_flush {ar}.
Arguments W_die {ar}.
Arguments P_start {ar}.
Arguments P_started {ar}.
Arguments P_join {ar}.
Arguments P_joined {ar}.
Arguments P_get {ar}.
Arguments St_parent {ar}.
Arguments St_worker {ar}.
Arguments steps_refl {ar}.
Arguments steps_snoc {ar}.
