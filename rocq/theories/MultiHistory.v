(** * Histories that may contain hypersearch with several processes.

    Models, on the instance machine of Instance.v, [hypersearch] with [_workers_num != 1]
    (/repo/hyperpack/heuristics.py:492-563, 613-634) and the construction of the workers'
    instances (/repo/hyperpack/processes.py:36-61); MultiProcess.v models what the processes do
    from there. Everything is stated for any arithmetic [ar] of the objective values.

    Simplifications: the environment (libraries, files) does not change while the workers'
    instances are made, so they are all equal; [copy.deepcopy] of the settings never fails. *)
From Coq Require Import ZArith String Ascii List Bool QArith Qround.
From Verif Require Import Py Arith Construct LocalSearch ItemsManip HyperSearch MultiProcess
  Values Settings Instance.
Import ListNotations.
Open Scope string_scope.
Open Scope list_scope.
Open Scope Z_scope.
Open Scope sm_scope.

(** ** Partition of the strategies, heuristics.py:495-499 *)

(** Lines 495-499 for any value of [_workers_num]; [len / inf] is 0.0 (or -0.0), and [range] raises
    ValueError for a step of 0. *)
Definition partition {A} (strategies : list A) (workers : pyval) : result (list (list A)) :=
  match as_number workers with
  | Some (FNum q) => if Qeq_bool q 0 then Err ZeroDivisionError else strategies_chunks strategies q
  | Some (FInf _) => Err ValueError
  | Some FNan => Err ValueError
  | None => Err TypeError
  end.

(** ** The instance of a worker, processes.py:36-61 *)

(** [settings = deepcopy(settings); if "workers_num" in settings: settings["workers_num"] = 1],
    lines 47-49. Rejected settings stay in the attribute, so it need not be a dict: [in] raises
    TypeError for a non-container, item assignment with a str as key raises TypeError for
    sequences. *)
Definition workers_key : pyval := VStr "workers_num".
Definition worker_settings (v : pyval) : result pyval :=
  match v with
  | VDict d => Ok (VDict (if vmem d workers_key then vset d workers_key (VInt 1) else d))
  | VList l | VTuple l => if existsb (key_eqb workers_key) l then Err TypeError else Ok v
  | VStr t => match String.index 0 "workers_num" t with Some _ => Err TypeError | None => Ok v end
  | VStruct _ | VDims _ => Err unusable    (* not modelled: settings = p.items *)
  | VNone | VBool _ | VInt _ | VFloat _ | VObj _ => Err TypeError
  end.

Section Histories.
Context {ar : arith}.

(** [self._containers.deepcopy()], [self._items.deepcopy()], structures.py:197-205. *)
Definition struct_deepcopy (s : machine ar) (h : nat) : result vdict :=
  match nth_error (m_structs s) h with
  | Some o => match deepcopy_entries (m_dims s) (so_data o) with
              | Some d => Ok d
              | None => Err unusable
              end
  | None => Err unusable
  end.

(** [containers["strip-pack-container"]["W"]], line 53. *)
Definition strip_width (containers : vdict) : result pyval :=
  bind (data_get containers (VStr strip_id)) (fun c =>
  match c with VDict d => data_get d (VStr "W") | _ => Err unusable end).

(** Lines 47-58; heuristics.py:508-511. *)
Definition child_machine (env : environment) (s : machine ar) : result (machine ar) :=
  bind (struct_deepcopy s (m_containers s)) (fun containers =>
  bind (struct_deepcopy s (m_items s)) (fun items =>
  bind (worker_settings (c_settings (m_cfg s))) (fun settings =>
  bind (if m_strip s
        then bind (strip_width containers) (fun w =>
             Ok (create ar env VNone (VDict items) settings w (blank ar)))
        else Ok (create ar env (VDict containers) (VDict items) settings VNone (blank ar)))
    (fun sr =>
  match snd sr with
  | Ok _ => Ok (set_heights (fst sr) (m_height (fst sr)) (m_min s))
  | Err e => Err e
  end)))).

(** ** [hypersearch] *)

(** The parameters of a call and what the processes meet. *)
Record call := mkCall {
  ca_env : environment;                    (* while the workers' instances are made *)
  ca_orientation : option string;
  ca_sorting : option (string * bool);
  ca_strategies : list (list pclass);      (* get_strategies() *)
  ca_throttle : bool;
  ca_clocks : nat -> clock;
  ca_start : Z;                            (* start_time *)
  ca_forced : nat -> bool;                 (* _force_raise_error_index in (i, "all") *)
  ca_size : output ar -> nat;
  ca_capacity : nat
}.

(** heuristics.py:613-614. *)
Definition presort (c : call) : M ar unit :=
  do_sort ar (ca_sorting c) ;;; do_orient ar (ca_orientation c).

(** heuristics.py:495-521: everything before the processes start. *)
Definition prepare (c : call) (s : machine ar) : result (setup ar) :=
  match view s with
  | None => Err unusable
  | Some x =>
      bind (partition (ca_strategies c) (c_workers (m_cfg s))) (fun chunks =>
      bind (child_machine (ca_env c) s) (fun y =>
      match view y with
      | None => Err unusable
      | Some child =>
          Ok (mkSetup x child chunks (ca_clocks c) (ca_start c) (c_limit (m_cfg y)) (ca_throttle c)
                      (ca_forced c) (ca_size c) (ca_capacity c))
      end))
  end.

(** The attributes a returning search assigns, heuristics.py:625-631. *)
Definition assign_result (s : machine ar) (sol : solution) (objs : objvals ar)
           (g : option (list pclass)) : machine ar := set_best (set_sol s sol objs) g.

(** [multi may_raise may_die c s s' r]: the call [c] on [s] can end in [s'] with result [r].
    Nothing in /repo changes [self] between the presorting and the final assignment. *)
Inductive multi (may_raise may_die : nat -> Prop) (c : call) (s : machine ar) :
  machine ar -> result unit -> Prop :=
| multi_presort s1 e : presort c s = (s1, Err e) -> multi may_raise may_die c s s1 (Err e)
| multi_prepare s1 e : presort c s = (s1, Ok tt) -> prepare c s1 = Err e ->
    multi may_raise may_die c s s1 (Err e)
| multi_raised s1 u t e : presort c s = (s1, Ok tt) -> prepare c s1 = Ok u ->
    reachable u may_raise may_die t -> s_parent t = PRaised e ->
    multi may_raise may_die c s s1 (Err e)
| multi_returned s1 u t sol objs g : presort c s = (s1, Ok tt) -> prepare c s1 = Ok u ->
    reachable u may_raise may_die t -> s_parent t = PReturned sol objs g ->
    multi may_raise may_die c s (assign_result s1 sol objs g) (Ok tt).

(** ** Histories *)

(** An operation of Instance.v, or hypersearch with several processes. *)
Inductive mop :=
| Plain (o : op)
| Processes (c : call).

Definition is_hypersearch (o : op) : bool :=
  match o with OpHypersearch _ _ _ _ _ => true | _ => false end.

(** hypersearch branches on [self._workers_num == 1], heuristics.py:627. Workers may raise and
    be killed at any moment. *)
Inductive mrun : mop -> machine ar -> machine ar -> result unit -> Prop :=
| mrun_plain o s s' r : (is_hypersearch o = true -> one_worker (c_workers (m_cfg s)) = true) ->
    run o s = (s', r) -> mrun (Plain o) s s' r
| mrun_processes c s s' r : one_worker (c_workers (m_cfg s)) = false ->
    multi (fun _ => True) (fun _ => True) c s s' r -> mrun (Processes c) s s' r.

Inductive mleads_to : machine ar -> list mop -> machine ar -> Prop :=
| mleads_nil s : mleads_to s [] s
| mleads_cons s o s1 r l s' : mrun o s s1 r -> mleads_to s1 l s' -> mleads_to s (o :: l) s'.

End Histories.

Arguments call : clear implicits.
Arguments mop : clear implicits.
