(** * A worker of a multi-process hypersearch does what a single-process hypersearch does with
    the worker's strategies. *)
From Coq Require Import ZArith String List Bool QArith Lia Permutation.
From Coq Require Import ZifyBool ZifyNat.
From Verif Require Import Py Arith Construct Spec LocalSearch SpecSearch ItemsManip HyperSearch MultiProcess
  ProofsPy ProofsSolve ProofsValues ProofsSearchRun PropertiesSearch ProofsHyper PropertiesHyper ProofsLoose ProofsMulti PropertiesMulti.
Import ListNotations.
Open Scope Z_scope.
Open Scope res_scope.

Section Worker.
Context {ar : arith} (L : arith_laws ar) (V : value_laws ar) (u : setup ar) (may_raise may_die : nat -> Prop).
Context (Hv : valid_inst ar (su_parent u)) (Hok : child_ok (su_parent u) (su_child u)) (Hvc : valid_inst ar (su_child u)).
Context (x0 : inst ar) (ret0 : solution * objvals ar) (v0 : num ar) (Hs0 : child_start (su_child u) x0 ret0 v0).
Context (Hfin : forall i g v, found_by u i g v -> nge_inf ar v = false).
Context (d : list pclass).

Notation ckl i := (hs_loop ar (su_clock u i) (su_limit u) (su_throttle u) (su_start u)).

Definition hs_of (w : wst ar) : hs ar :=
  mkHs (w_inst w) (w_best w) (w_ret w) (match w_strategy w with Some g => g | None => d end) (w_clk w).
Definition whole (i : nat) := ckl i (chunk u i) (mkHs x0 v0 ret0 d 0).
Definition pre {A} (l : list A) {B} (r : result (B * list A)) : result (B * list A) :=
  p <- r ;; Ok (fst p, l ++ snd p).
Definition check (i : nat) (s : hs ar) (rest : list (list pclass)) :=
  let s'' := mkHs (hs_st s) (hs_best s) (hs_ret s) (hs_strategy s) (S (hs_clk s)) in
  if over_time (su_clock u i) (su_start u) (su_limit u) (hs_clk s) then Ok (s'', []) else ckl i rest s''.
Definition keep (i : nat) (w : wst ar) (g : list pclass) (v : num ar) (rest : list (list pclass)) :=
  ret <- get_solution ar (w_inst w) ;; check i (mkHs (w_inst w) v ret g (w_clk w)) rest.
Definition compared (i : nat) (w : wst ar) (g : list pclass) (v : num ar) (rest : list (list pclass)) :=
  if check_solution ar v (w_best w) then keep i w g v rest else check i (hs_of w) rest.

Lemma pre_pre {A B} (l l' : list A) (r : result (B * list A)) : pre l (pre l' r) = pre (l ++ l') r.
Proof. unfold pre. destruct r as [[b t]|]; [|reflexivity]. cbn. rewrite app_assoc. reflexivity. Qed.

Lemma loop_step i w g rest y clk v : nge_inf ar v = false ->
  forall log, local_search ar (su_clock u i) (su_limit u) (su_throttle u) (Some (su_start u)) (set_strategy (w_inst w) g) (w_clk w) = Ok (y, clk, log) ->
  calculate_obj_value ar y = Ok v ->
  ckl i (g :: rest) (hs_of w) = pre [(g, v)] (compared i (mkW y (w_best w) (w_ret w) (w_strategy w) clk) g v rest).
Proof.
  intros Hf log E Ev. cbn [hs_loop]. cbn [hs_of hs_st hs_clk]. rewrite E. cbn [bind]. rewrite Ev. cbn [bind].
  unfold compared, keep, check, pre. cbn [w_best w_inst w_clk w_ret w_strategy hs_of hs_best hs_st hs_ret hs_strategy hs_clk].
  unfold global_check. rewrite Hf, andb_false_r.
  destruct (check_solution ar v (w_best w)).
  - destruct (get_solution ar y) as [ret|]; [|reflexivity]. cbn [bind hs_best hs_st hs_ret hs_strategy hs_clk].
    destruct (over_time _ _ _ _); [reflexivity|]. destruct (ckl i rest _) as [[s3 log3]|]; reflexivity.
  - cbn [bind hs_best hs_st hs_ret hs_strategy hs_clk].
    destruct (over_time _ _ _ _); [reflexivity|]. destruct (ckl i rest _) as [[s3 log3]|]; reflexivity.
Qed.

(** What was delivered without failing is what the loop ends with. *)
Definition done (i : nat) (l : list (list pclass * num ar)) (o : output ar) : Prop :=
  exists s, whole i = Ok (s, l) /\ o_value o = hs_best s /\ (o_solution o, o_objs o) = hs_ret s /\
    hs_strategy s = match o_strategy o with Some g => g | None => d end.

Definition rinv (s : sys ar) (i : nat) : Prop :=
  let l := s_log s i in
  match s_phase s i with
  | PhLoop w rest => valid_inst ar (w_inst w) /\ whole i = pre l (ckl i rest (hs_of w))
  | PhRead w g v rest _ => valid_inst ar (w_inst w) /\ whole i = pre l (compared i w g v rest)
  | PhWrite w g v rest _ | PhKeep w g v rest _ => valid_inst ar (w_inst w) /\ whole i = pre l (keep i w g v rest)
  | PhCheck w rest _ => valid_inst ar (w_inst w) /\ whole i = pre l (check i (hs_of w) rest)
  | PhPut o => done i l o
  | PhFlush o => o = failure_output \/ done i l o
  | PhExit => forall o, s_queue s i = Some o -> o = failure_output \/ done i l o
  | _ => True
  end.

Lemma rinv_worker i s s' : winv u may_raise may_die ret0 v0 s i -> worker_step u may_raise may_die i s s' -> rinv s i -> rinv s' i.
Proof.
  intros Hw H R. unfold rinv in *. destruct Hw as [Hlog [Hpre Hw]].
  destruct H as [s a r v P F E1 E2|s P F|s w g rest z clk v P S E|s w g v rest seen P Ln|s w g v rest seen P Ln
    |s w g v rest opt P|s w g v rest opt ret P E|s w rest opt P|s w P|s o P|s M P|s P|s P|s o P Ln|s M P];
    cbn [set_phase set_slot set_queue add_log s_array s_phase s_queue s_log];
    rewrite ?upd_same; try rewrite P in Hw; try rewrite P in R; try exact Logic.I.
  - (* begin *)
    destruct Hw as [W1 [W2 W3]].
    pose proof (cs_init _ _ _ _ Hs0) as I1. rewrite E1 in I1. injection I1 as -> ->.
    pose proof (cs_calc _ _ _ _ Hs0) as I2. rewrite E2 in I2. injection I2 as ->. rewrite W3.
    cbn [w_inst]. split.
    + pose proof (get_init_config _ _ _ _ E1) as C. unfold get_init_solution, inst_solve in E1.
      destruct (solve ar (in_pb (su_child u)) None) as [[sol objs]|]; [|discriminate]. cbn [bind] in E1.
      destruct (get_solution ar _); [|discriminate]. cbn [bind] in E1. injection E1 as <- _. exact Hvc.
    + unfold pre, hs_of, whole. cbn [w_inst w_best w_ret w_strategy w_clk].
      destruct (ckl i (chunk u i) _) as [[s1 l1]|]; reflexivity.
  - (* search *)
    destruct R as [R1 R2]. destruct S as [fuel [log Hrun]].
    destruct (search_step ar L (set_strategy (w_inst w) g) R1 (su_clock u i) (su_limit u) (su_throttle u) (Some (su_start u)) (w_clk w))
      as [y1 [clk1 [log1 [v1 [sol1 [Y1 [Y2 _]]]]]]].
    pose proof (local_search_fuel_any _ _ _ _ _ _ _ _ _ _ _ _ Hrun Y1) as Eq. injection Eq as -> -> ->.
    cbn [w_inst]. split; [exact Y2|]. destruct Hw as [W1 _].
    assert (Hf : nge_inf ar v = false).
    { eapply Hfin. destruct (wgood_search L u may_raise may_die ret0 v0 i _ _ _ _ _ _ W1 (ex_intro _ fuel (ex_intro _ log Hrun)) E) as [_ [_ G]]. exact G. }
    rewrite R2. rewrite (loop_step i w g rest z clk v Hf log Y1 E). rewrite pre_pre. reflexivity.
  - exact R.
  - (* compare *)
    destruct R as [R1 R2]. unfold compared in R2.
    destruct (check_solution ar v (w_best w)); split; assumption.
  - exact R.
  - (* keep *)
    destruct R as [R1 R2]. unfold keep in R2. rewrite E in R2. cbn [bind] in R2.
    destruct Hw as [[l0 [El W1]] _].
    assert (Hf : nge_inf ar v = false) by (apply (Hfin i g); apply Hlog; rewrite El; apply in_or_app; right; left; reflexivity).
    unfold global_check. rewrite Hf. split; [exact R1|exact R2].
  - (* check *)
    destruct R as [R1 R2]. destruct Hw as [_ [_ [_ [_ W5]]]].
    assert (Hf : nge_inf ar opt = false).
    { destruct (nge_inf ar opt) eqn:Ei; [|reflexivity]. destruct (slot_value_inf L V u _ W5 Ei) as [k [g [v [F1 F2]]]].
      rewrite (Hfin _ _ _ F1) in F2. discriminate. }
    unfold global_check. rewrite Hf, orb_false_r. unfold check in R2. cbn [hs_of hs_clk hs_st hs_best hs_ret hs_strategy] in R2.
    destruct (over_time (su_clock u i) (su_start u) (su_limit u) (w_clk w)).
    + unfold done. rewrite R2. unfold pre. cbn [bind fst snd]. rewrite app_nil_r. eexists. split; [reflexivity|].
      cbn [output_of o_value o_solution o_objs o_strategy w_best w_ret w_strategy hs_best hs_ret hs_strategy].
      split; [reflexivity|]. split; [symmetry; apply surjective_pairing|reflexivity].
    + split; [exact R1|exact R2].
  - (* end *)
    destruct R as [R1 R2]. unfold done. rewrite R2. unfold pre. cbn [hs_loop bind fst snd]. rewrite app_nil_r. eexists. split; [reflexivity|].
    unfold hs_of. cbn [output_of o_value o_solution o_objs o_strategy hs_best hs_ret hs_strategy].
    split; [reflexivity|]. split; [symmetry; apply surjective_pairing|reflexivity].
  - right. exact R.
  - left. reflexivity.
  - intros o' [= <-]. exact R.
Qed.

Lemma rinv_reachable s : reachable u may_raise may_die s -> forall i, (i < workers u)%nat -> rinv s i.
Proof.
  intros H. induction H as [|s s' H IH Hst]; [intros i _; exact Logic.I|]. intros i Hi.
  pose proof (sinv_reachable L V u may_raise may_die Hv Hok x0 ret0 v0 Hs0 s H) as [Hw _].
  specialize (IH i Hi). destruct Hst as [Hp|k Hk Hp].
  - destruct Hp as [s j P Ln|s P|s j P Ln E|s P|s j o P Q]; try exact IH.
    unfold rinv in *. cbn [set_parent set_phase s_phase s_log s_queue].
    destruct (Nat.eq_dec i j) as [->|Hne]; [rewrite upd_same; exact Logic.I|]. rewrite upd_other by assumption. exact IH.
  - destruct (Nat.eq_dec i k) as [->|Hne]; [eapply rinv_worker; [apply Hw; exact Hi|exact Hp|exact IH]|].
    destruct (worker_step_other _ _ _ _ _ _ i Hp Hne) as [_ [E2 [E3 E4]]]. unfold rinv in *. rewrite E2, E3, E4. exact IH.
Qed.

(** What a worker delivers. *)
Lemma worker_done s i o : reachable u may_raise may_die s -> (i < workers u)%nat -> s_queue s i = Some o -> o <> failure_output ->
  done i (s_log s i) o.
Proof.
  intros H Hi Hq Hf. pose proof (rinv_reachable s H i Hi) as R.
  pose proof (sinv_reachable L V u may_raise may_die Hv Hok x0 ret0 v0 Hs0 s H) as [Hw _]. specialize (Hw i Hi).
  destruct Hw as [_ [_ W]]. unfold rinv in R.
  destruct (s_phase s i); try (rewrite Hq in W; intuition discriminate).
  destruct (R o Hq) as [C|C]; [contradiction|exact C].
Qed.

Lemma whole_single i : d = default_strategy ->
  single_process ar (su_clock u i) (su_limit u) (su_throttle u) (su_start u) (chunk u i) (su_child u) 0 = whole i.
Proof.
  intros Hd. unfold single_process. rewrite (cs_init _ _ _ _ Hs0). cbn [bind]. rewrite (cs_calc _ _ _ _ Hs0). unfold whole. rewrite Hd. reflexivity.
Qed.
End Worker.

(** Only the readings of a clock matter. *)
Section SearchClock.
Context (ar : arith) (f g : nat -> bool) (same : forall n, f n = g n).
Notation node1 o := (search_node (evaluate_node ar) (calculate_obj_value ar) (get_solution ar) (compare_node ar)
  (extra_node_operations ar) (global_check ar) o).
Notation loop1 o := (search_loop (evaluate_node ar) (calculate_obj_value ar) (get_solution ar) (compare_node ar)
  (extra_node_operations ar) (global_check ar) o).
Lemma search_node_clock maxn : forall swaps p s, node1 f swaps maxn p s = node1 g swaps maxn p s.
Proof.
  induction swaps as [|[a b] rest IH]; intros p s; [reflexivity|]. cbn [search_node].
  destruct (evaluate_node ar (ls_st s) _) as [st1|]; [|reflexivity]. cbn [bind].
  destruct (calculate_obj_value ar st1) as [v|]; [|reflexivity]. cbn [bind].
  destruct (compare_node ar st1 v (ls_best s)) as [better|]; [|reflexivity]. cbn [bind].
  destruct (if better then _ else _) as [s'|]; [|reflexivity]. cbn [bind]. rewrite same, IH. reflexivity.
Qed.
Lemma search_loop_clock swaps maxn : forall fuel s, loop1 f fuel swaps maxn s = loop1 g fuel swaps maxn s.
Proof.
  induction fuel as [|fuel IH]; intros s; [reflexivity|]. cbn [search_loop]. rewrite search_node_clock.
  destruct (node1 g swaps maxn 0 s) as [[s' nl]|]; [|reflexivity]. cbn [bind]. rewrite IH. reflexivity.
Qed.
End SearchClock.

Lemma local_search_clock ar (ck ck' : clock) limit throttle start x clk : (forall n, ck n = ck' n) ->
  local_search ar ck limit throttle (Some start) x clk = local_search ar ck' limit throttle (Some start) x clk.
Proof.
  intros H. unfold local_search, local_search_fuel, abstract_local_search.
  destruct (get_init_solution ar _) as [[st0 ret]|]; [|reflexivity]. cbn [bind].
  destruct (calculate_obj_value ar st0); [|reflexivity]. cbn [bind].
  rewrite (search_loop_clock ar (out_of_time ck start limit) (out_of_time ck' start limit)); [reflexivity|].
  intros n. unfold out_of_time. rewrite H. reflexivity.
Qed.
Lemma hs_loop_clock ar (ck ck' : clock) limit throttle start : (forall n, ck n = ck' n) -> forall strategies s,
  hs_loop ar ck limit throttle start strategies s = hs_loop ar ck' limit throttle start strategies s.
Proof.
  intros H. induction strategies as [|g rest IH]; intros s; [reflexivity|]. cbn [hs_loop].
  rewrite (local_search_clock ar ck ck') by exact H.
  destruct (local_search _ _ _ _ _ _ _) as [[[x1 clk1] nl]|]; [|reflexivity]. cbn [bind].
  destruct (calculate_obj_value ar x1); [|reflexivity]. cbn [bind].
  destruct (if check_solution _ _ _ then _ else _) as [s'|]; [|reflexivity]. cbn [bind]. rewrite IH.
  unfold over_time. rewrite H. reflexivity.
Qed.
