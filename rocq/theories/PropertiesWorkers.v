(** * C80: several processes do what one process does with each part of the strategies; the first
    best result wins, whatever the schedule. C76 for several processes. *)
From Coq Require Import ZArith String List Bool QArith Lia Permutation.
From Coq Require Import ZifyBool ZifyNat.
From Verif Require Import Py Arith Construct Spec LocalSearch SpecSearch ItemsManip HyperSearch MultiProcess
  ProofsPy ProofsSolve ProofsValues ProofsSearchRun PropertiesSearch ProofsHyper PropertiesHyper ProofsLoose ProofsMulti PropertiesMulti
  PropertiesSolve FloatArith ProofsFloatOrder PropertiesFloat PropertiesFloatMulti ProofsLonger PropertiesLonger ProofsWorkers.
Import ListNotations.
Open Scope string_scope.
Open Scope list_scope.
Open Scope Z_scope.

(** ** Statements *)
(** What [_single_process_hypersearch] ends with on the problem of the workers with the strategies
    of part [i], the clock of process [i] and the time limit of the call; and its log. *)
Definition alone {ar} (u : setup ar) (i : nat) (h : hs ar) (log : list (list pclass * num ar)) : Prop :=
  single_process ar (su_clock u i) (su_limit u) (su_throttle u) (su_start u) (nth i (su_chunks u) []) (su_child u) 0 = Ok (h, log).

(** Worker [i] put a result that is not the one of a failure. *)
Definition reports {ar} (s : sys ar) (i : nat) (o : output ar) : Prop := s_queue s i = Some o /\ o <> failure_output.
Definition reported {ar} (s : sys ar) (i : nat) : Prop := exists o, reports s i o.

(** No value a worker finds counts as infinite (none does in exact arithmetic; see
    C27_values_finite for doubles). *)
Definition finite_values {ar} (u : setup ar) : Prop := forall i g v, worker_value u i g v -> nge_inf ar v = false.

(** The two calls differ in nothing the workers see, except the time limit. *)
Definition same_work {ar} (u1 u2 : setup ar) : Prop :=
  su_parent u1 = su_parent u2 /\ su_child u1 = su_child u2 /\ su_chunks u1 = su_chunks u2 /\
  (forall i n, su_clock u1 i n = su_clock u2 i n) /\ su_start u1 = su_start u2 /\ su_throttle u1 = su_throttle u2.

Section Call.
Context {ar : arith} (O : orderly ar) (x : inst ar) (Hv : valid_inst ar x) (Hcx : counted ar x)
  (strategies : list (list pclass)) (workers_num : Q) (u : setup ar)
  (Hne : strategies <> []) (Hn : (0 < workers_num)%Q) (Hr : runs x strategies workers_num u)
  (Hvc : valid_inst ar (su_child u)) (Hfin : finite_values u).

Lemma found_value k g v : found_by u k g v -> worker_value u k g v.
Proof.
  intros [z [c [z' [c' [[Z1 [Z5 Z6]] [Z2 [Z7 [Z3 Z4]]]]]]]].
  exists z, c, z', c'. split; [rewrite Z1 at 1; rewrite Z2; reflexivity|]. split; [exact Z5|]. split; [exact Z6|].
  split; [exact Z7|]. split; assumption.
Qed.

Lemma worker_alone mr md s i o : reachable u mr md s -> (i < workers u)%nat -> reports s i o ->
  exists h v0, alone u i h (s_log s i) /\ hs_best h = o_value o /\ hs_ret h = (o_solution o, o_objs o) /\ initial_value u v0 /\
    match o_strategy o with
    | Some g => hs_strategy h = g /\ below ar v0 (o_value o)
    | None => o_value o = v0
    end /\
    match o_strategy o with None => s_array s i = num0 ar | Some _ => s_array s i = o_value o end.
Proof.
  intros Hs Hi [Hq Hf]. pose proof O as [L V].
  destruct (runs_facts x Hv _ _ Hn u Hr) as [_ [Hvp [Hc [Hch Hw]]]].
  destruct (child_start_exists V _ _ Hc) as [x0 [ret0 [v0 Hs0]]].
  pose proof (sinv_reachable L V u mr md Hvp Hc x0 ret0 v0 Hs0 s Hs) as [Hwi _].
  destruct (worker_done L V u mr md Hvp Hc Hvc x0 ret0 v0 Hs0 (fun k g v F => Hfin k g v (found_value k g v F)) default_strategy
              s i o Hs Hi Hq Hf) as [h [D1 [D2 [D3 D4]]]].
  destruct (delivered u mr md ret0 v0 s i o (Hwi i Hi) Hq) as [[w [G1 [G2 [G3 _]]]]|[_ [_ C]]]; [|contradiction].
  exists h, v0. split; [|split; [symmetry; exact D2|split; [symmetry; exact D3|split; [eapply start_initial; exact Hs0|]]]].
  - unfold alone. change (nth i (su_chunks u) []) with (chunk u i). rewrite (whole_single u x0 ret0 v0 Hs0 default_strategy i eq_refl). exact D1.
  - pose proof (wg_which _ _ _ _ _ G2) as W. unfold slot_ok in G3. rewrite G1 in *. cbn [output_of o_strategy o_value] in *.
    destruct (w_strategy w) as [g|]; [|split; [apply W|exact G3]]. split; [split; [exact D4|apply W]|exact G3].
Qed.

Lemma alone_one i h log h' log' : alone u i h log -> alone u i h' log' -> h = h' /\ log = log'.
Proof. unfold alone. intros E E'. rewrite E in E'. injection E' as -> ->. split; reflexivity. Qed.

Lemma initial_one v v' : initial_value u v -> initial_value u v' -> v = v'.
Proof. intros [s [o [E1 E2]]] [s' [o' [F1 F2]]]. rewrite E1 in F1. injection F1 as <- <-. congruence. Qed.

Lemma initial_nonneg v : initial_value u v -> nonneg ar v.
Proof.
  intros H. pose proof O as [L V]. destruct (runs_facts x Hv _ _ Hn u Hr) as [_ [Hvp [Hc [Hch Hw]]]].
  destruct (child_start_exists V _ _ Hc) as [x0 [ret0 [v0 Hs0]]].
  rewrite (initial_one v v0 H (start_initial _ _ _ _ Hs0)). exact (cs_nonneg _ _ _ _ Hs0).
Qed.

Lemma winner_alone mr md s sol objs bs : reachable u mr md s -> s_parent s = PReturned sol objs bs ->
  exists v0 j h log, initial_value u v0 /\ (j < workers u)%nat /\ reported s j /\ alone u j h log /\
    calculate_obj_value ar (problem_now u s) = Ok (hs_best h) /\
    (forall i, (i < workers u)%nat -> reported s i -> exists h' log', alone u i h' log' /\ at_most ar (hs_best h') (hs_best h) /\
       ((i < j)%nat -> below ar (hs_best h') (hs_best h))) /\
    deepcopy_solution (in_pb (su_parent u)) (fst (hs_ret h)) = Ok sol /\ objs = snd (hs_ret h) /\
    bs = (if ngtb ar (hs_best h) v0 then Some (hs_strategy h) else None).
Proof.
  intros Hs Hp. pose proof O as [L V].
  destruct (runs_facts x Hv _ _ Hn u Hr) as [[o1 [sb1 Hprep]] [Hvp [Hc [_ Hw]]]].
  assert (Hcnt : counted ar (su_parent u)).
  { destruct (prepared_kept _ _ _ _ _ Hprep) as [P1 [_ [_ [_ [P5 _]]]]]. unfold counted in *. congruence. }
  destruct (child_start_exists V _ _ Hc) as [x0 [ret0 [v0 Hs0]]].
  pose proof (sinv_reachable L V u mr md Hvp Hc x0 ret0 v0 Hs0 s Hs) as Hi. pose proof Hi as [Hwi Hpi].
  unfold parent_inv in Hpi. rewrite Hp in Hpi. destruct Hpi as [_ [Hd|[j [o [Hd [Hq Ht]]]]]].
  { destruct (decide_cases (array_list u s)) as [E|[k E]]; rewrite E in Hd; discriminate. }
  destruct (get_winner V u mr md Hc x0 ret0 v0 Hs0 s j o Hw Hi Hd Hq) as [w W].
  destruct (take_winner u Hc ret0 v0 s j o w W) as [sol' [Et [Hcopy Hkeys]]].
  rewrite Ht in Et. injection Et as <- -> ->.
  pose proof (wn_good _ _ _ _ _ _ _ W) as Wg. pose proof (wn_out _ _ _ _ _ _ _ W) as Wo. pose proof (wn_index _ _ _ _ _ _ _ W) as Wj.
  assert (Hf : o <> failure_output).
  { intros C. apply (f_equal o_value) in C. rewrite Wo in C. cbn [output_of o_value failure_output] in C.
    pose proof (wgood_best V _ _ _ _ Hs0 _ _ Wg) as Wb. pose proof (cs_nonneg _ _ _ _ Hs0) as N. rewrite C in Wb.
    apply (m1_not_nonneg V). exact (nonneg_trans V _ _ N Wb). }
  destruct (worker_alone mr md s j o Hs Wj (conj Hq Hf)) as [h [v0' [A1 [A2 [A3 [A4 [A5 A6]]]]]]].
  pose proof (initial_nonneg v0' A4) as N0.
  exists v0', j, h, (s_log s j). split; [exact A4|]. split; [exact Wj|]. split; [exists o; split; assumption|]. split; [exact A1|].
  split. { rewrite A2. unfold problem_now. rewrite Hp. unfold calculate_obj_value. cbn [in_cnum in_objs set_solution].
    rewrite <- (ch_same_cnum _ _ Hc Hcnt). rewrite Wo. apply (wg_value _ _ _ _ _ Wg). }
  split; [|split; [rewrite A3; exact Hcopy|split; [rewrite A3; reflexivity|]]].
  - intros i Hi' [o' [Hq' Hf']]. destruct (worker_alone mr md s i o' Hs Hi' (conj Hq' Hf')) as [h' [v0'' [B1 [B2 [B3 [B4 [B5 B6]]]]]]].
    rewrite (initial_one v0'' v0' B4 A4) in *. clear B4 v0''.
    exists h', (s_log s i). split; [exact B1|]. rewrite A2, B2. split; [exact (wn_best _ _ _ _ _ _ _ W i o' Hi' Hq')|]. intros Hij.
    assert (Hslot : ngeb ar (s_array s i) (s_array s j) = false).
    { pose proof (slots_numbers V u mr md Hc x0 ret0 v0 Hs0 s Hwi) as Hnum.
      assert (Hnn : array_list u s <> []).
      { intros C. apply (f_equal (@length (num ar))) in C. rewrite array_list_length in C. simpl in C. lia. }
      destruct (q_max_spec ar V _ Hnn Hnum) as [Hin Hmax].
      unfold decide in Hd. destruct (neqb ar (q_max (array_list u s)) (nm1 ar)); [discriminate|]. injection Hd as Hd.
      destruct (q_index_spec ar V _ _ Hin (Hnum _ Hin)) as [_ [Q2 Q3]]. rewrite Hd in *.
      specialize (Q3 i Hij). rewrite array_list_nth in Q2, Q3 by lia.
      destruct (ngeb ar (s_array s i) (s_array s j)) eqn:E; [|reflexivity]. exfalso.
      assert (X : neqb ar (s_array s i) (q_max (array_list u s)) = true); [|congruence].
      apply (vl_eq ar V) in Q2. destruct Q2 as [Q2 Q4]. apply (vl_eq ar V). split; [apply Hmax; apply in_map; apply in_seq; lia|].
      eapply (vl_trans ar V); [exact Q4|exact E]. }
    pose proof (wn_best _ _ _ _ _ _ _ W i o' Hi' Hq') as Hle.
    destruct (vl_num ar V _ _ Hle) as [Ni Nj].
    destruct (o_strategy o') as [g'|]; destruct (o_strategy o) as [g|].
    + unfold below. rewrite (vl_total ar V _ _ Nj Ni). rewrite B6, A6 in Hslot. rewrite Hslot. reflexivity.
    + exfalso. rewrite B6, A6 in Hslot. destruct B5 as [_ B5]. pose proof (nonneg_trans V _ _ N0 (vl_below ar V _ _ B5)) as N.
      unfold nonneg, at_most in N. congruence.
    + rewrite B5. destruct A5 as [_ A5]. exact A5.
    + exfalso. rewrite B6, A6 in Hslot. pose proof (vl_0 ar V) as Z0. unfold nonneg, at_most in Z0. congruence.
  - rewrite A2. destruct (o_strategy o) as [g|].
    + destruct A5 as [A5 A5']. unfold below in A5'. rewrite A5', A5. reflexivity.
    + rewrite A5. destruct (ngtb ar v0' v0') eqn:E; [|reflexivity]. exfalso.
      exact (below_not V _ _ E (nonneg_refl V _ N0)).
Qed.
End Call.

(** ** C80 *)
(** Whatever the workers raise, whoever is killed, whatever the schedule: what a worker that does
    not fail delivers is what a single-process hypersearch with its strategies ends with. *)
Theorem C80_worker_is_single_process : forall ar, orderly ar -> forall x : inst ar, valid_inst ar x ->
  forall strategies workers_num u, strategies <> [] -> (0 < workers_num)%Q -> runs x strategies workers_num u ->
  valid_inst ar (su_child u) -> finite_values u ->
  forall may_raise may_die s, reachable u may_raise may_die s ->
  forall i o, (i < workers u)%nat -> reports s i o ->
  exists h v0, alone u i h (s_log s i) /\ initial_value u v0 /\
    o_value o = hs_best h /\ o_solution o = fst (hs_ret h) /\ o_objs o = snd (hs_ret h) /\
    o_strategy o = (if ngtb ar (hs_best h) v0 then Some (hs_strategy h) else None).
Proof.
  intros ar O x Hv strategies workers_num u Hne Hn Hr Hvc Hfin mr md s Hs i o Hi Ho.
  destruct (worker_alone O x Hv _ _ u Hn Hr Hvc Hfin mr md s i o Hs Hi Ho) as [h [v0 [A1 [A2 [A3 [A4 [A5 _]]]]]]].
  exists h, v0. split; [exact A1|]. split; [exact A4|]. split; [symmetry; exact A2|]. rewrite A3.
  split; [reflexivity|]. split; [reflexivity|]. rewrite A2. pose proof O as [L V].
  destruct (o_strategy o) as [g|].
  - destruct A5 as [A5 A5']. unfold below in A5'. rewrite A5', A5. reflexivity.
  - rewrite A5. destruct (ngtb ar v0 v0) eqn:E; [|reflexivity]. exfalso.
    exact (below_not V _ _ E (nonneg_refl V _ (initial_nonneg O x Hv _ _ u Hn Hr v0 A4))).
Qed.
Print Assumptions C80_worker_is_single_process.

(** What hypersearch returns is the result of the first part with the best value among the parts
    whose worker did not fail, each searched as one process would. *)
Theorem C80_first_best_part : forall ar, orderly ar -> forall x : inst ar, valid_inst ar x -> counted ar x ->
  forall strategies workers_num u, strategies <> [] -> (0 < workers_num)%Q -> runs x strategies workers_num u ->
  valid_inst ar (su_child u) -> finite_values u ->
  forall may_raise may_die s sol objs best_strategy, reachable u may_raise may_die s ->
  s_parent s = PReturned sol objs best_strategy ->
  exists v0 j h log, initial_value u v0 /\ (j < workers u)%nat /\ reported s j /\ alone u j h log /\
    calculate_obj_value ar (problem_now u s) = Ok (hs_best h) /\
    (forall i, (i < workers u)%nat -> reported s i -> exists h' log', alone u i h' log' /\ at_most ar (hs_best h') (hs_best h) /\
       ((i < j)%nat -> below ar (hs_best h') (hs_best h))) /\
    deepcopy_solution (in_pb (su_parent u)) (fst (hs_ret h)) = Ok sol /\ objs = snd (hs_ret h) /\
    best_strategy = (if ngtb ar (hs_best h) v0 then Some (hs_strategy h) else None).
Proof.
  intros ar O x Hv Hcx strategies workers_num u Hne Hn Hr Hvc Hfin mr md s sol objs bs Hs Hp.
  exact (winner_alone O x Hv Hcx strategies workers_num u Hn Hr Hvc Hfin mr md s sol objs bs Hs Hp).
Qed.
Print Assumptions C80_first_best_part.

(** The schedule plays no part, nor do the sizes of results and pipes: two calls whose workers
    read the same clocks and of which the same workers report return the same. *)
Theorem C80_schedule_irrelevant : forall ar, orderly ar -> forall x : inst ar, valid_inst ar x -> counted ar x ->
  forall strategies workers_num u1 u2, strategies <> [] -> (0 < workers_num)%Q ->
  runs x strategies workers_num u1 -> runs x strategies workers_num u2 -> same_work u1 u2 -> su_limit u1 = su_limit u2 ->
  valid_inst ar (su_child u1) -> finite_values u1 -> finite_values u2 ->
  forall may_raise1 may_die1 s1 sol1 objs1 best1 may_raise2 may_die2 s2 sol2 objs2 best2,
  reachable u1 may_raise1 may_die1 s1 -> s_parent s1 = PReturned sol1 objs1 best1 ->
  reachable u2 may_raise2 may_die2 s2 -> s_parent s2 = PReturned sol2 objs2 best2 ->
  (forall i, (i < workers u1)%nat -> (reported s1 i <-> reported s2 i)) ->
  sol1 = sol2 /\ objs1 = objs2 /\ best1 = best2.
Proof.
  intros ar O x Hv Hcx strategies workers_num u1 u2 Hne Hn Hr1 Hr2 [S1 [S2 [S3 [S4 [S5 S6]]]]] S7 Hvc Hf1 Hf2
    mr1 md1 s1 sol1 objs1 b1 mr2 md2 s2 sol2 objs2 b2 R1 P1 R2 P2 Hrep.
  assert (Hvc2 : valid_inst ar (su_child u2)) by (rewrite <- S2; exact Hvc).
  destruct (C80_first_best_part ar O x Hv Hcx _ _ u1 Hne Hn Hr1 Hvc Hf1 _ _ s1 _ _ _ R1 P1)
    as [v1 [j1 [h1 [l1 [A1 [A2 [A3 [A4 [_ [A5 [A6 [A7 A8]]]]]]]]]]]].
  destruct (C80_first_best_part ar O x Hv Hcx _ _ u2 Hne Hn Hr2 Hvc2 Hf2 _ _ s2 _ _ _ R2 P2)
    as [v2 [j2 [h2 [l2 [B1 [B2 [B3 [B4 [_ [B5 [B6 [B7 B8]]]]]]]]]]]].
  assert (Hw : workers u2 = workers u1) by (unfold workers; rewrite S3; reflexivity).
  assert (Ea : forall i h l, alone u2 i h l -> alone u1 i h l).
  { intros i h l. unfold alone. rewrite S2, S3, S5, S6, S7. intros H. rewrite <- H.
    unfold single_process. destruct (get_init_solution ar (su_child u2)) as [[y r]|]; [|reflexivity]. cbn [bind].
    destruct (calculate_obj_value ar y); [|reflexivity]. cbn [bind]. apply hs_loop_clock. exact (S4 i). }
  assert (Ev : v1 = v2).
  { eapply (initial_one u1); [exact A1|]. unfold initial_value in *. rewrite S2. exact B1. }
  pose proof O as [_ V].
  assert (Ej : j1 = j2).
  { destruct (Nat.lt_trichotomy j1 j2) as [H|[H|H]]; [|exact H|]; exfalso.
    - destruct (B5 j1 ltac:(lia) (proj1 (Hrep j1 A2) A3)) as [h' [l' [C1 [_ C2]]]].
      destruct (A5 j2 ltac:(lia) (proj2 (Hrep j2 ltac:(lia)) B3)) as [h'' [l'' [D1 [D2 _]]]].
      destruct (alone_one u1 _ _ _ _ _ A4 (Ea _ _ _ C1)) as [<- _]. destruct (alone_one u1 _ _ _ _ _ D1 (Ea _ _ _ B4)) as [-> _].
      exact (below_not V _ _ (C2 H) D2).
    - destruct (A5 j2 ltac:(lia) (proj2 (Hrep j2 ltac:(lia)) B3)) as [h' [l' [C1 [_ C2]]]].
      destruct (B5 j1 ltac:(lia) (proj1 (Hrep j1 A2) A3)) as [h'' [l'' [D1 [D2 _]]]].
      destruct (alone_one u1 _ _ _ _ _ A4 (Ea _ _ _ D1)) as [<- _]. destruct (alone_one u1 _ _ _ _ _ C1 (Ea _ _ _ B4)) as [-> _].
      exact (below_not V _ _ (C2 H) D2). }
  subst j2. destruct (alone_one u1 _ _ _ _ _ A4 (Ea _ _ _ B4)) as [<- _]. subst v2.
  rewrite S1, B6 in A6. injection A6 as <-. split; [reflexivity|]. split; congruence.
Qed.
Print Assumptions C80_schedule_irrelevant.

(** ** C76 for several processes
    The same call with a longer limit, where the winner of the shorter one does not fail. Clocks
    never go back and are never read exactly at the shorter limit (see C76_hypersearch_refuted). *)
Theorem C76_several_partial : forall ar, orderly ar -> forall x : inst ar, valid_inst ar x -> counted ar x ->
  forall strategies workers_num u1 u2, strategies <> [] -> (0 < workers_num)%Q ->
  runs x strategies workers_num u1 -> runs x strategies workers_num u2 -> same_work u1 u2 -> su_limit u1 <= su_limit u2 ->
  (forall i n, su_clock u1 i n <= su_clock u1 i (S n)) -> (forall i n, su_clock u1 i n - su_start u1 <> su_limit u1) ->
  valid_inst ar (su_child u1) -> finite_values u1 -> finite_values u2 ->
  forall may_raise1 may_die1 s1 sol1 objs1 best1 may_raise2 may_die2 s2 sol2 objs2 best2,
  reachable u1 may_raise1 may_die1 s1 -> s_parent s1 = PReturned sol1 objs1 best1 ->
  reachable u2 may_raise2 may_die2 s2 -> s_parent s2 = PReturned sol2 objs2 best2 ->
  (forall i, (i < workers u1)%nat -> reported s1 i -> reported s2 i) ->
  exists v1 v2, calculate_obj_value ar (problem_now u1 s1) = Ok v1 /\ calculate_obj_value ar (problem_now u2 s2) = Ok v2 /\
    at_most ar v1 v2.
Proof.
  intros ar O x Hv Hcx strategies workers_num u1 u2 Hne Hn Hr1 Hr2 [S1 [S2 [S3 [S4 [S5 S6]]]]] S7 Hmono Hexact Hvc Hf1 Hf2
    mr1 md1 s1 sol1 objs1 b1 mr2 md2 s2 sol2 objs2 b2 R1 P1 R2 P2 Hrep.
  assert (Hvc2 : valid_inst ar (su_child u2)) by (rewrite <- S2; exact Hvc).
  destruct (C80_first_best_part ar O x Hv Hcx _ _ u1 Hne Hn Hr1 Hvc Hf1 _ _ s1 _ _ _ R1 P1)
    as [v1 [j1 [h1 [l1 [A1 [A2 [A3 [A4 [A9 [A5 [A6 [A7 A8]]]]]]]]]]]].
  destruct (C80_first_best_part ar O x Hv Hcx _ _ u2 Hne Hn Hr2 Hvc2 Hf2 _ _ s2 _ _ _ R2 P2)
    as [v2 [j2 [h2 [l2 [B1 [B2 [B3 [B4 [B9 [B5 [B6 [B7 B8]]]]]]]]]]]].
  exists (hs_best h1), (hs_best h2). split; [exact A9|]. split; [exact B9|].
  assert (Hw : workers u2 = workers u1) by (unfold workers; rewrite S3; reflexivity).
  destruct (B5 j1 ltac:(lia) (Hrep j1 A2 A3)) as [h' [l' [C1 [C2 _]]]].
  pose proof O as [L V]. eapply (vl_trans ar V); [|exact C2].
  assert (N1 : at_most ar (hs_best h') (hs_best h')) by (apply (vl_num ar V _ _ C2)).
  unfold alone, single_process in A4, C1. rewrite <- S2, <- S3, <- S5, <- S6 in C1.
  destruct (get_init_solution ar (su_child u1)) as [[y r]|]; [|discriminate]. cbn [bind] in A4, C1.
  destruct (calculate_obj_value ar y) as [b|]; [|discriminate]. cbn [bind] in A4, C1.
  rewrite (hs_loop_clock ar (su_clock u2 j1) (su_clock u1 j1)) in C1 by (intros n; symmetry; apply S4).
  destruct (hs_loop_longer L (su_clock u1 j1) _ _ _ _ S7 (conj (Hmono j1) (Hexact j1)) _ _ _ _ _ _ A4 C1) as [G|G].
  - rewrite <- G. exact N1.
  - apply (vl_below ar V). exact G.
Qed.
Print Assumptions C76_several_partial.

(** In exact arithmetic, for problems with containers, no proviso is left. *)
Corollary C80_bins_exact : forall x : inst qarith, valid_inst qarith x -> counted qarith x -> pb_strip (in_pb x) = false ->
  forall strategies workers_num u, strategies <> [] -> (0 < workers_num)%Q -> runs x strategies workers_num u ->
  valid_inst qarith (su_child u) /\ finite_values u /\
  forall may_raise may_die s i o, reachable u may_raise may_die s -> (i < workers u)%nat -> reports s i o ->
  exists h, alone u i h (s_log s i) /\ o_value o = hs_best h /\ (o_solution o, o_objs o) = hs_ret h.
Proof.
  intros x Hv Hcx Es strategies workers_num u Hne Hn Hr.
  destruct (C27_workers_problem qarith qarith_orderly x Hv _ _ u Hne Hn Hr) as [_ [_ [_ [_ [_ [_ [_ W8]]]]]]].
  assert (Hvc : valid_inst qarith (su_child u)) by (apply W8; rewrite Es; discriminate).
  assert (Hf : finite_values u) by (intros i g v _; reflexivity).
  split; [exact Hvc|]. split; [exact Hf|]. intros mr md s i o Hs Hi Ho.
  destruct (C80_worker_is_single_process qarith qarith_orderly x Hv _ _ u Hne Hn Hr Hvc Hf mr md s Hs i o Hi Ho)
    as [h [v0 [A1 [_ [A2 [A3 [A4 _]]]]]]].
  exists h. split; [exact A1|]. split; [exact A2|]. rewrite A3, A4. symmetry. apply surjective_pairing.
Qed.
Print Assumptions C80_bins_exact.

(** In doubles, for moderate problems (fewer than 2^50 containers, total area up to 2^1023). *)
Corollary C80_bins_doubles : forall x : inst farith, valid_inst farith x -> moderate (in_pb x) -> pb_strip (in_pb x) = false ->
  forall strategies workers_num u, strategies <> [] -> (0 < workers_num)%Q -> runs x strategies workers_num u ->
  valid_inst farith (su_child u) /\ finite_values u.
Proof.
  intros x Hv Hm Es strategies workers_num u Hne Hn Hr.
  destruct (C27_workers_problem farith farith_orderly x Hv _ _ u Hne Hn Hr) as [_ [_ [_ [_ [_ [_ [_ W8]]]]]]].
  split; [apply W8; rewrite Es; discriminate|].
  intros i g v Hw. apply finite_not_inf. eapply (C27_values_finite x Hv Hm); eassumption.
Qed.
Print Assumptions C80_bins_doubles.

(** *** Witness: two calls on two containers and three items with two workers, whose clocks read 1
    all the time; with the limit 0 every worker stops at once, with the limit 60 the search
    finds something better. All hypotheses above hold of them. *)
Definition stopped_call (limit : Z) : result (setup qarith) :=
  multi_setup None None strategy_pool 2 (fun _ _ => 1) 0 limit true (fun _ => false) (fun _ => 0%nat) 0 better_pb.
Definition ends_with (r : result (setup qarith)) (v : Q) : Prop :=
  exists u s sol objs g, r = Ok u /\ runs better_pb strategy_pool 2 u /\ valid_inst qarith (su_child u) /\
    reachable u nobody nobody s /\ s_parent s = PReturned sol objs g /\
    (forall i, (i < workers u)%nat -> reported s i) /\ workers u = 2%nat /\
    calculate_obj_value qarith (problem_now u s) = Ok v.

Lemma better_pb_facts : valid_inst qarith better_pb /\ counted qarith better_pb.
Proof. split; [split; [valid_demo|discriminate]|reflexivity]. Qed.

Lemma call_ends limit u p v : stopped_call limit = Ok u -> two_workers u = Ok p ->
  match p with PReturned _ objs _ => obj_value qarith (in_cnum (su_parent u)) (dvals objs) = Ok v | _ => False end ->
  ends_with (stopped_call limit) v.
Proof.
  intros E T Ho. destruct better_pb_facts as [Hv Hcx].
  assert (Hr : runs better_pb strategy_pool 2 u).
  { exists None, None, (fun _ _ => 1), 0, limit, true, (fun _ => false), (fun _ => 0%nat), 0%nat. exact E. }
  assert (Hnf : none_forced u /\ (forall o, (su_size u o <= su_capacity u)%nat) /\ length (su_chunks u) = 2%nat).
  { unfold stopped_call, multi_setup in E. cbn [sort_items orient_items bind] in E.
    destruct (strategies_chunks strategy_pool 2) as [chunks|] eqn:Ec; [|discriminate]. cbn [bind] in E.
    destruct (child_inst better_pb); [|discriminate]. cbn [bind] in E. injection E as <-.
    split; [intros i; reflexivity|]. split; [intros o; apply le_n|]. cbn [su_chunks].
    assert (X : match strategies_chunks strategy_pool 2 with Ok c => length c = 2%nat | Err _ => False end) by (vm_compute; reflexivity).
    rewrite Ec in X. exact X. }
  destruct Hnf as [Hnf [Hcap Hlen]].
  destruct (two_workers_reach u p T Hnf Hcap) as [s [R1 R2]].
  destruct p as [| | |sol objs g|]; try contradiction.
  assert (Hne : strategy_pool <> []) by discriminate.
  assert (Hn : (0 < 2)%Q) by reflexivity.
  exists u, s, sol, objs, g. split; [exact E|]. split; [exact Hr|]. split.
  { apply (C80_bins_exact better_pb Hv Hcx eq_refl strategy_pool 2 u Hne Hn Hr). }
  split; [exact R1|]. split; [exact R2|]. split; [|split; [exact Hlen|]].
  - intros i Hi.
    destruct (C28_exceptions_contained qarith qarith_orderly better_pb Hv strategy_pool 2 u Hne Hn Hr nobody s R1) as [G _].
    { unfold over. rewrite R2. exact Logic.I. }
    destruct (G i Hi) as [o [Hq Hf]]. exists o. split; [exact Hq|]. intros C. destruct (Hf C) as [[]|F]. rewrite Hnf in F. discriminate.
  - unfold problem_now. rewrite R2. exact Ho.
Qed.

Example C80_witness : ends_with (stopped_call 0) 1 /\ ends_with (stopped_call 60) (46 # 45) /\
  exists u1 u2, stopped_call 0 = Ok u1 /\ stopped_call 60 = Ok u2 /\ same_work u1 u2 /\ su_limit u1 <= su_limit u2 /\
    (forall i n, su_clock u1 i n <= su_clock u1 i (S n)) /\ (forall i n, su_clock u1 i n - su_start u1 <> su_limit u1).
Proof.
  assert (G : forall limit v, (match stopped_call limit with
      | Ok u => match two_workers u with
                | Ok (PReturned sol objs g) => obj_value qarith (in_cnum (su_parent u)) (dvals objs) = Ok v
                | _ => False end
      | Err _ => False end) -> ends_with (stopped_call limit) v).
  { intros limit v H. destruct (stopped_call limit) as [u|] eqn:E; [|contradiction].
    destruct (two_workers u) as [p|] eqn:T; [|contradiction]. rewrite <- E. eapply call_ends; [exact E|exact T|].
    destruct p; try contradiction. exact H. }
  split; [apply G; vm_compute; reflexivity|]. split; [apply G; vm_compute; reflexivity|].
  unfold stopped_call, multi_setup. cbn [sort_items orient_items bind].
  destruct (strategies_chunks strategy_pool 2) as [chunks|] eqn:Ec; [|vm_compute in Ec; discriminate]. cbn [bind].
  destruct (child_inst better_pb) as [c|] eqn:Ech; [|vm_compute in Ech; discriminate]. cbn [bind].
  eexists _, _. split; [reflexivity|]. split; [reflexivity|].
  split; [repeat (split; [reflexivity|]); reflexivity|]. cbn. split; [discriminate|]. split; [intros; discriminate|intros; discriminate].
Qed.
