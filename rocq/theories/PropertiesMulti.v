(** * Properties of [hypersearch()] with several processes: C26-C30, C50. *)
From Coq Require Import ZArith String List Bool QArith Lia Permutation.
From Coq Require Import ZifyBool ZifyNat.
From Verif Require Import Py Arith Construct Spec Runs LocalSearch SpecSearch Perms ItemsManip
  HyperSearch MultiProcess ProofsPy ProofsConstruct ProofsSolve ProofsPacking ProofsSolution ProofsValues
  ProofsLocalSearch ProofsSearchRun PropertiesSolve PropertiesSearch PropertiesItems ProofsHyper PropertiesHyper ProofsLoose ProofsMulti.
Import ListNotations.
Open Scope string_scope.
Open Scope list_scope.
Open Scope Z_scope.

(** ** The runs of the theorems below

    [u] describes a call of [hypersearch] on the problem [x] with [workers_num] processes:
    any sorting and orientation, clocks, time limit, throttling, sizes of results, capacity of
    the pipes and forced failures. *)
Definition runs {ar} (x : inst ar) (strategies : list (list pclass)) (workers_num : Q) (u : setup ar) : Prop :=
  exists orientation sorting_by cks start limit throttle forced size capacity,
    multi_setup orientation sorting_by strategies workers_num cks start limit throttle forced size
                capacity x = Ok u.

(** Nobody raises, nobody is killed. *)
Definition nobody : nat -> Prop := fun _ => False.
Definition anybody : nat -> Prop := fun _ => True.
Definition none_forced {ar} (u : setup ar) : Prop := forall i, su_forced u i = false.

Section Run.
Context {ar : arith} (x : inst ar) (Hv : valid_inst ar x) (strategies : list (list pclass)) (workers_num : Q).
Context (Hn : (0 < workers_num)%Q) (u : setup ar) (Hr : runs x strategies workers_num u).

Lemma runs_facts : (exists o sb, prepared ar o sb x (su_parent u)) /\
  valid_inst ar (su_parent u) /\ child_ok (su_parent u) (su_child u) /\
  strategies_chunks strategies workers_num = Ok (su_chunks u) /\ (0 < workers u)%nat.
Proof.
  destruct Hr as [o [sb [cks [start [limit [throttle [forced [size [cap H]]]]]]]]]. unfold multi_setup in H.
  destruct (sort_items ar sb x) as [x1|] eqn:Es; [|discriminate]. cbn [bind] in H.
  destruct (strategies_chunks strategies workers_num) as [chunks|] eqn:Eh; [|discriminate]. cbn [bind] in H.
  destruct (child_inst (orient_items ar o x1)) as [ch|] eqn:Ec; [|discriminate]. cbn [bind] in H.
  injection H as <-. cbn [su_parent su_child su_chunks].
  split; [exists o, sb, x1; auto|].
  assert (Hvo : valid_inst ar (orient_items ar o x1)).
  { apply orient_items_valid. eapply sort_items_valid; eassumption. }
  split; [exact Hvo|]. split; [apply child_facts; assumption|]. split; [reflexivity|]. unfold workers. cbn [su_chunks].
  pose proof (chunks_some strategies workers_num _ Hn Eh) as E. unfold zlen in *. lia.
Qed.

Lemma runs_child : child_inst (su_parent u) = Ok (su_child u).
Proof.
  destruct Hr as [o [sb [cks [start [limit [throttle [forced [size [cap H]]]]]]]]]. unfold multi_setup in H.
  destruct (sort_items ar sb x) as [x1|] eqn:Es; [|discriminate]. cbn [bind] in H.
  destruct (strategies_chunks strategies workers_num) as [chunks|]; [|discriminate]. cbn [bind] in H.
  destruct (child_inst (orient_items ar o x1)) as [ch|] eqn:Ec; [|discriminate]. cbn [bind] in H.
  injection H as <-. exact Ec.
Qed.
End Run.

(** What [solve] of a fresh worker produces. *)
Definition initial_value {ar} (u : setup ar) (v0 : num ar) : Prop :=
  exists sol0 objs0, solve ar (in_pb (su_child u)) None = Ok (sol0, objs0) /\
    obj_value ar (in_cnum (su_child u)) (dvals objs0) = Ok v0.

(** The height the workers' solutions stay within: that of their strip, or the user's minimum
    height if it is larger. *)
Definition workers_height {ar} (u : setup ar) : Z :=
  match in_min (su_child u) with
  | Some m => Z.max (pb_height (in_pb (su_child u))) m
  | None => pb_height (in_pb (su_child u))
  end.

(** [v] is the value of a local search by worker [i] with strategy [g] on the workers' problem,
    in a strip from some height up to [workers_height]. *)
Definition worker_value {ar} (u : setup ar) (i : nat) (g : list pclass) (v : num ar) : Prop :=
  exists z clk z' clk',
    in_pb z = pb_with_height (pb_with_strategy (in_pb (su_child u)) g) (pb_height (in_pb z)) /\
    in_min z = in_min (su_child u) /\ in_cnum z = in_cnum (su_child u) /\
    (if pb_strip (in_pb (su_child u)) then 1 <= pb_height (in_pb z) <= workers_height u
     else pb_height (in_pb z) = pb_height (in_pb (su_child u))) /\
    worker_search u i z clk z' clk' /\ calculate_obj_value ar z' = Ok v.

Lemma start_initial {ar} (u : setup ar) x0 ret0 v0 : child_start (su_child u) x0 ret0 v0 -> initial_value u v0.
Proof.
  intros H. pose proof (cs_init _ _ _ _ H) as Hi. unfold get_init_solution, inst_solve in Hi.
  destruct (solve ar (in_pb (su_child u)) None) as [[sol objs]|] eqn:E; [|discriminate Hi]. cbn [bind] in Hi.
  destruct (get_solution ar _) as [r|] eqn:Eg; [|discriminate Hi]. cbn [bind] in Hi. injection Hi as <- <-.
  exists sol, objs. split; [exact E|]. pose proof (cs_value _ _ _ _ H) as Hval.
  destruct (get_solution_facts _ _ _ Eg) as [_ G]. rewrite G in Hval. exact Hval.
Qed.

(** ** C27 and C28

    For every interleaving of the workers' accesses to the shared array, every set of workers
    that may raise at any point and every set of workers that may be killed: when hypersearch
    returns, the value of its solution is that of a worker that did not fail, and no worker that
    delivered a result did better, neither with what it delivered nor with any of the local
    searches it made. *)
Theorem C27_winner_is_best : forall ar, orderly ar -> forall x : inst ar, valid_inst ar x -> counted ar x ->
  forall strategies workers_num u, strategies <> [] -> (0 < workers_num)%Q -> runs x strategies workers_num u ->
  forall may_raise may_die s sol objs best_strategy, reachable u may_raise may_die s ->
  s_parent s = PReturned sol objs best_strategy ->
  exists v v0, calculate_obj_value ar (problem_now u s) = Ok v /\ initial_value u v0 /\ at_most ar v0 v /\
    (* the best of what was delivered *)
    (forall i o, (i < workers u)%nat -> s_queue s i = Some o -> at_most ar (o_value o) v) /\
    (* and of everything the successful workers met *)
    (forall i o g w, (i < workers u)%nat -> s_queue s i = Some o -> o <> failure_output ->
       In (g, w) (s_log s i) -> at_most ar w v) /\
    (* it is the winner's result, copied *)
    exists j o, (j < workers u)%nat /\ s_queue s j = Some o /\ o <> failure_output /\ o_value o = v /\
      objs = o_objs o /\ best_strategy = o_strategy o /\
      deepcopy_solution (in_pb (su_parent u)) (o_solution o) = Ok sol /\
      (* either nothing beat the initial construction, or the strategy says who did *)
      match best_strategy with
      | None => v = v0 /\ forall i o g w, (i < workers u)%nat -> s_queue s i = Some o ->
                  o <> failure_output -> In (g, w) (s_log s i) -> at_most ar w v0
      | Some g => below ar v0 v /\ In (g, v) (s_log s j)
      end.
Proof.
  intros ar [L V] x Hv Hcx strategies workers_num u Hne Hn Hr mr md s sol objs g Hs Hp.
  destruct (runs_facts x Hv _ _ Hn u Hr) as [[o1 [sb1 Hprep]] [Hvp [Hc [_ Hw]]]].
  assert (Hcnt : counted ar (su_parent u)).
  { destruct (prepared_kept _ _ _ _ _ Hprep) as [P1 [_ [_ [_ [P5 _]]]]]. unfold counted in *. congruence. }
  destruct (child_start_exists V _ _ Hc) as [x0 [ret0 [v0 Hs0]]].
  pose proof (sinv_reachable L V u mr md Hvp Hc x0 ret0 v0 Hs0 s Hs) as Hi. pose proof Hi as [Hwi Hpi].
  unfold parent_inv in Hpi. rewrite Hp in Hpi. destruct Hpi as [_ [Hd|[j [o [Hd [Hq Ht]]]]]].
  { destruct (decide_cases (array_list u s)) as [E|[k E]]; rewrite E in Hd; discriminate. }
  destruct (get_winner V u mr md Hc x0 ret0 v0 Hs0 s j o Hw Hi Hd Hq) as [w W].
  destruct (take_winner u Hc ret0 v0 s j o w W) as [sol' [Et [Hcopy Hkeys]]].
  rewrite Ht in Et. injection Et as <- -> ->.
  pose proof (wn_good _ _ _ _ _ _ _ W) as Wg. pose proof (wn_out _ _ _ _ _ _ _ W) as Wo.
  pose proof (wgood_best V _ _ _ _ Hs0 _ _ Wg) as Wb.
  pose proof Hc as F.
  exists (o_value o), v0. split.
  { unfold problem_now. rewrite Hp. unfold calculate_obj_value. cbn [in_cnum in_objs set_solution].
    rewrite <- (ch_same_cnum _ _ F Hcnt). rewrite Wo. apply (wg_value _ _ _ _ _ Wg). }
  split; [eapply start_initial; exact Hs0|]. split; [rewrite Wo; exact Wb|].
  split; [apply (wn_best _ _ _ _ _ _ _ W)|]. split; [apply (wn_logs _ _ _ _ _ _ _ W)|].
  exists j, o. split; [apply (wn_index _ _ _ _ _ _ _ W)|]. split; [assumption|]. split.
  { intros C. apply (f_equal o_value) in C. rewrite Wo in C. cbn [output_of o_value failure_output] in C.
    pose proof (cs_nonneg _ _ _ _ Hs0) as N. rewrite C in Wb.
    apply (m1_not_nonneg V). exact (nonneg_trans V _ _ N Wb). }
  split; [reflexivity|]. split; [reflexivity|]. split; [reflexivity|]. split; [exact Hcopy|].
  pose proof (wg_which _ _ _ _ _ Wg) as Wh. rewrite Wo. cbn [output_of o_strategy o_value].
  destruct (w_strategy w) as [g|].
  - destruct Wh as [W1 W2]. split; assumption.
  - destruct Wh as [W1 W2]. split; [assumption|]. intros i o' g v' Hi' Hq' Hf Hin.
    rewrite <- W1. replace (w_best w) with (o_value o) by (rewrite Wo; reflexivity).
    eapply (wn_logs _ _ _ _ _ _ _ W); eassumption.
Qed.
Print Assumptions C27_winner_is_best.

(** The logs are what the workers did: every entry is the value of a local search of the
    workers' problem with a strategy of the worker's chunk, in order; a worker that delivers a
    result without failing has searched its whole chunk unless it saw the time limit exceeded (or
    a value reached infinity, which no exact value does). *)
Theorem C27_logs : forall ar, orderly ar -> forall x : inst ar, valid_inst ar x ->
  forall strategies workers_num u, strategies <> [] -> (0 < workers_num)%Q -> runs x strategies workers_num u ->
  exists chunks, strategies_chunks strategies workers_num = Ok chunks /\ workers u = length chunks /\
  forall may_raise may_die s, reachable u may_raise may_die s ->
  forall i, (i < workers u)%nat ->
    (exists rest, nth i chunks [] = map fst (s_log s i) ++ rest) /\
    (forall g v, In (g, v) (s_log s i) -> worker_value u i g v) /\
    (forall o, s_queue s i = Some o -> o <> failure_output ->
       map fst (s_log s i) = nth i chunks [] \/
       (exists n, su_clock u i n - su_start u > su_limit u) \/
       exists k g v, worker_value u k g v /\ nge_inf ar v = true).
Proof.
  intros ar [L V] x Hv strategies workers_num u Hne Hn Hr.
  destruct (runs_facts x Hv _ _ Hn u Hr) as [_ [Hvp [Hc [Hch Hw]]]].
  destruct (child_start_exists V _ _ Hc) as [x0 [ret0 [v0 Hs0]]].
  exists (su_chunks u). split; [exact Hch|]. split; [reflexivity|]. intros mr md s Hs i Hi.
  pose proof (sinv_reachable L V u mr md Hvp Hc x0 ret0 v0 Hs0 s Hs) as [Hwi _].
  pose proof (Hwi i Hi) as Hwi'. destruct Hwi' as [H1 [H2 H3]]. unfold chunk in H2.
  assert (Hwv : forall k g v, found_by u k g v -> worker_value u k g v).
  { intros k g v [z [c [z' [c' [[Z1 [Z5 Z6]] [Z2 [Z7 [Z3 Z4]]]]]]]].
    exists z, c, z', c'. split; [rewrite Z1 at 1; rewrite Z2; reflexivity|]. split; [exact Z5|]. split; [exact Z6|].
    split; [exact Z7|]. split; assumption. }
  split; [exact H2|]. split.
  - intros g v Hin. apply Hwv. exact (H1 g v Hin).
  - intros o Hq Hf. destruct (delivered u mr md ret0 v0 s i o (Hwi i Hi) Hq) as [G|[_ [_ C]]]; [|contradiction].
    destruct G as [w [_ [_ [_ G]]]]. unfold chunk in G.
    destruct G as [G|[[n G]|[k [g [v [G1 G2]]]]]]; [left; assumption|right; left|right; right; exists k, g, v; split; [apply Hwv; exact G1|exact G2]].
    exists n. unfold over_time in G. lia.
Qed.
Print Assumptions C27_logs.

(** C27 without failures and with time enough: the value returned is the maximum over the whole
    list of strategies, each of them searched by one worker. *)
Theorem C27_all_strategies_searched : forall ar, orderly ar -> forall x : inst ar, valid_inst ar x -> counted ar x ->
  forall strategies workers_num u, strategies <> [] -> (0 < workers_num)%Q -> runs x strategies workers_num u ->
  none_forced u ->
  (forall i n, su_clock u i n - su_start u <= su_limit u) ->
  (forall i g v, worker_value u i g v -> nge_inf ar v = false) ->
  forall s sol objs best_strategy, reachable u nobody nobody s -> s_parent s = PReturned sol objs best_strategy ->
  exists v, calculate_obj_value ar (problem_now u s) = Ok v /\
    let log := concat (map (s_log s) (seq 0 (workers u))) in
    map fst log = strategies /\ forall g w, In (g, w) log -> at_most ar w v.
Proof.
  intros ar [L V] x Hv Hcx strategies workers_num u Hne Hn Hr Hnf Hclk Hfin s sol objs g Hs Hp.
  destruct (C27_winner_is_best ar (conj L V) x Hv Hcx _ _ u Hne Hn Hr nobody nobody s sol objs g Hs Hp)
    as [v [v0 [H1 [_ [_ [_ [H2 _]]]]]]].
  exists v. split; [assumption|].
  destruct (runs_facts x Hv _ _ Hn u Hr) as [_ [Hvp [Hc [Hch Hw]]]].
  destruct (child_start_exists V _ _ Hc) as [x0 [ret0 [v0' Hs0]]].
  pose proof (sinv_reachable L V u nobody nobody Hvp Hc x0 ret0 v0' Hs0 s Hs) as [Hwi Hpi].
  unfold parent_inv in Hpi. rewrite Hp in Hpi. destruct Hpi as [He _].
  assert (Hdel : forall i, (i < workers u)%nat -> exists o, s_queue s i = Some o /\ o <> failure_output).
  { intros i Hi. pose proof (Hwi i Hi) as W. destruct W as [_ [_ W]].
    destruct (He i Hi) as [E|E]; rewrite E in W.
    - destruct W as [o [Eo [G|[[[]|F] _]]]]; [|rewrite Hnf in F; discriminate]. exists o. split; [assumption|].
      eapply (good_not_failure V); [exact Hs0|exact G].
    - destruct W as [[] _]. }
  cbn zeta. split.
  - rewrite concat_map, map_map. rewrite <- (chunks_concat strategies workers_num _ Hn Hch).
    f_equal. apply nth_ext with (d := []) (d' := []).
    + rewrite map_length, seq_length. reflexivity.
    + intros i Hi. rewrite map_length, seq_length in Hi.
      rewrite (nth_indep _ [] (map fst (s_log s 0%nat))) by (rewrite map_length, seq_length; assumption).
      rewrite (map_nth (fun i => map fst (s_log s i))), seq_nth by assumption. rewrite Nat.add_0_l.
      destruct (Hdel i Hi) as [o [Hq Hf]].
      destruct (C27_logs ar (conj L V) x Hv _ _ u Hne Hn Hr) as [chunks [Ech [_ G0]]].
      rewrite Hch in Ech. injection Ech as <-. destruct (G0 nobody nobody s Hs i Hi) as [_ [_ G]].
      destruct (G o Hq Hf) as [G1|[[n G1]|[k [g' [v' [G1 G2]]]]]]; [assumption| |].
      * specialize (Hclk i n). lia.
      * rewrite (Hfin _ _ _ G1) in G2. discriminate G2.
  - intros g' w Hin. apply in_concat in Hin. destruct Hin as [l [Hl Hin]]. apply in_map_iff in Hl.
    destruct Hl as [i [<- Hi]]. apply in_seq in Hi. destruct (Hdel i ltac:(lia)) as [o [Hq Hf]].
    eapply H2; [|exact Hq|exact Hf|exact Hin]. lia.
Qed.
Print Assumptions C27_all_strategies_searched.

Lemma prepared_ids {ar} o1 sb (x x2 : inst ar) : prepared ar o1 sb x x2 ->
  Permutation (dkeys (pb_items (in_pb x2))) (dkeys (pb_items (in_pb x))).
Proof.
  intros Hprep.
  destruct Hprep as [x1 [Hso ->]].
  unfold sort_items in Hso. transitivity (dkeys (pb_items (in_pb x1))).
  - assert (G : forall f t, dkeys (pb_items (in_pb (orient_all ar f t x1))) = dkeys (pb_items (in_pb x1))).
      { intros f t. unfold orient_all. destruct (existsb _ _); [|reflexivity]. cbn [in_pb set_items pb_items].
        unfold dkeys. rewrite map_map. reflexivity. }
      unfold orient_items. destruct o1 as [o1|]; [|reflexivity]. destruct (negb _); [reflexivity|].
      destruct (String.eqb o1 "wide"); [rewrite G; reflexivity|].
      destruct (String.eqb o1 "long"); [rewrite G; reflexivity|reflexivity].
  - destruct sb as [[by_ rv]|]; [|injection Hso as <-; reflexivity].
      destruct (key_lt ar by_); [|discriminate]. injection Hso as <-. cbn [in_pb set_items pb_items].
      unfold dkeys. apply Permutation_map. unfold py_sort_rev. destruct rv; apply py_sort_perm.
Qed.

Lemma known_perm {ar} (x : inst ar) u strategies workers_num seq : valid_inst ar x -> strategies <> [] ->
  (0 < workers_num)%Q -> runs x strategies workers_num u -> Permutation seq (dkeys (pb_items (in_pb x))) ->
  forall k, In k seq -> In k (dkeys (pb_items (in_pb (su_child u)))).
Proof.
  intros Hv Hne Hn Hr Hp k Hk.
  destruct (runs_facts x Hv _ _ Hn u Hr) as [[o1 [sb Hprep]] [Hvp [Hc _]]].
  rewrite (ch_items _ _ Hc).
  eapply Permutation_in; [symmetry; eapply prepared_ids; exact Hprep|]. eapply Permutation_in; [exact Hp|exact Hk].
Qed.

(** The result of a search whose parent is valid and whose workers got its items, ids, mode and
    minimum height: a construction on the workers' problem. *)
Lemma returned_made {ar} (O : orderly ar) (u : setup ar) : valid_inst ar (su_parent u) -> child_ok (su_parent u) (su_child u) ->
  (0 < workers u)%nat ->
  forall mr md s sol objs g, reachable u mr md s -> s_parent s = PReturned sol objs g ->
  exists h, hloose (su_child u) h /\
    made_by (pb_with_strategy (in_pb (su_child u)) (match g with None => default_strategy | Some g => g end))
            h (sol, objs).
Proof.
  destruct O as [L V]. intros Hvp F Hw mr md s sol objs g Hs Hp.
  destruct (child_start_exists V _ _ F) as [x0 [ret0 [v0 Hs0]]].
  pose proof (sinv_reachable L V u mr md Hvp F x0 ret0 v0 Hs0 s Hs) as Hi. pose proof Hi as [Hwi Hpi].
  unfold parent_inv in Hpi. rewrite Hp in Hpi. destruct Hpi as [_ [Hd|[j [o [Hd [Hq Ht]]]]]].
  { destruct (decide_cases (array_list u s)) as [E|[k E]]; rewrite E in Hd; discriminate. }
  destruct (get_winner V u mr md F x0 ret0 v0 Hs0 s j o Hw Hi Hd Hq) as [w W].
  destruct (take_winner u F ret0 v0 s j o w W) as [sol1 [Et [Hcopy Hkeys]]].
  rewrite Ht in Et. injection Et as <- -> ->.
  pose proof (wn_good _ _ _ _ _ _ _ W) as Wg. pose proof (wn_out _ _ _ _ _ _ _ W) as Wo.
  destruct (wg_loose _ _ _ _ _ Wg) as [_ [_ [h [Hh [seq [sol' [M1 [M2 M3]]]]]]]].
  rewrite Wo in *. cbn [output_of o_strategy o_objs o_solution] in *.
  exists h. split; [exact Hh|]. exists seq, sol'. cbn [in_pb pb_items pb_with_strategy pb_with_height fst snd] in *.
  split; [exact M1|]. split; [exact M2|].
  eapply same_placements_trans; [exact M3|].
  apply (deepcopy_same (in_pb (su_parent u)) (fst (w_ret w))); [apply Hvp|exact Hkeys| |exact Hcopy].
  intros cid csol i H1 H2. destruct M3 as [K1 [K2 _]].
  assert (Hpbv : valid_problem (pb_with_height (pb_with_strategy (in_pb (su_child u))
      (match w_strategy w with None => default_strategy | Some g => g end)) h)).
  { destruct (ch_valid _ _ F) as [V1 [V2 [V3 [V4 V5]]]]. repeat (split; [assumption|]).
    cbn [pb_strip pb_height pb_with_height pb_with_strategy]. intros E. unfold hloose in Hh. rewrite E in Hh. lia. }
  assert (Hkn : known_sequence (pb_with_height (pb_with_strategy (in_pb (su_child u))
      (match w_strategy w with None => default_strategy | Some g => g end)) h) (Some seq)).
  { intros k Hk. cbn [pb_items pb_with_height pb_with_strategy].
    eapply Permutation_in; [exact M1|exact Hk]. }
  assert (Hcs : In cid (dkeys sol')) by (rewrite K1; apply dget_Some_In; eauto).
  apply dget_Some_In in Hcs. destruct Hcs as [csol' Hcs].
  apply dget_Some_In in H2. destruct H2 as [e H2]. rewrite <- (K2 cid csol' csol Hcs H1) in H2.
  destruct (solve_stores ar _ _ Hpbv Hkn _ _ M2 cid csol' i e (dget_In _ _ _ Hcs) (dget_In _ _ _ H2))
    as [d [Hd' _]]. cbn [pb_items pb_with_height pb_with_strategy] in Hd'. rewrite (ch_items _ _ F) in Hd'.
  apply dget_Some_In. eauto.
Qed.

(** The only error of such a search. *)
Lemma raised_error {ar} (O : orderly ar) (u : setup ar) : valid_inst ar (su_parent u) -> child_ok (su_parent u) (su_child u) ->
  (0 < workers u)%nat ->
  forall mr md s e, reachable u mr md s -> s_parent s = PRaised e ->
  e = MultiProcessError /\ forall i, (i < workers u)%nat -> at_most ar (s_array s i) (nm1 ar).
Proof.
  destruct O as [L V]. intros Hvp F Hw mr md s e Hs Hp. destruct (child_start_exists V _ _ F) as [x0 [ret0 [v0 Hs0]]].
  pose proof (sinv_reachable L V u mr md Hvp F x0 ret0 v0 Hs0 s Hs) as Hi. pose proof Hi as [Hwi Hpi].
  unfold parent_inv in Hpi. rewrite Hp in Hpi. destruct Hpi as [_ [Hd|[j [o [Hd [Hq Ht]]]]]].
  - exact (decide_raise V u mr md F x0 ret0 v0 Hs0 s e Hw Hwi Hd).
  - destruct (get_winner V u mr md F x0 ret0 v0 Hs0 s j o Hw Hi Hd Hq) as [w W].
    destruct (take_winner u F ret0 v0 s j o w W) as [sol1 [Et _]]. rewrite Ht in Et. discriminate.
Qed.

(** The solution returned is a genuine construction: what [solve] produces on the workers'
    problem, which in bin mode is the user's own, with the winning strategy and some order of
    the items. *)
Theorem C27_genuine : forall ar, orderly ar -> forall x : inst ar, valid_inst ar x ->
  forall strategies workers_num u, strategies <> [] -> (0 < workers_num)%Q -> runs x strategies workers_num u ->
  forall may_raise may_die s sol objs best_strategy, reachable u may_raise may_die s ->
  s_parent s = PReturned sol objs best_strategy ->
  exists h seq sol',
    Permutation seq (dkeys (pb_items (in_pb x))) /\
    (if pb_strip (in_pb x) then 1 <= h <= workers_height u else h = pb_height (in_pb (su_child u))) /\
    solve ar (pb_with_height
                    (pb_with_strategy (in_pb (su_child u))
                       (match best_strategy with None => default_strategy | Some g => g end)) h)
          (Some seq) = Ok (sol', objs) /\
    same_placements sol' sol.
Proof.
  intros ar [L V] x Hv strategies workers_num u Hne Hn Hr mr md s sol objs g Hs Hp.
  destruct (runs_facts x Hv _ _ Hn u Hr) as [[o1 [sb Hprep]] [Hvp [F [_ Hw]]]].
  destruct (returned_made (conj L V) u Hvp F Hw mr md s sol objs g Hs Hp) as [h [Hh [seq [sol' [M1 [M2 M3]]]]]].
  destruct (prepared_kept _ _ _ _ _ Hprep) as [_ [_ [Es _]]].
  exists h, seq, sol'. cbn [in_pb pb_items pb_with_strategy pb_with_height fst snd] in *. rewrite (ch_items _ _ F) in M1.
  unfold hloose in Hh. rewrite (ch_strip _ _ F), Es in Hh.
  split; [|split; [exact Hh|split; [exact M2|exact M3]]].
  etransitivity; [exact M1|]. eapply prepared_ids. exact Hprep.
Qed.
Print Assumptions C27_genuine.

(** The workers' problem: the user's items (sorted and oriented), rotation and containers; the
    default strategy; in strip mode the height is ten times the width whatever the user's
    [container_height] is, and the minimum height is the user's. *)
Theorem C27_workers_problem : forall ar, orderly ar -> forall x : inst ar, valid_inst ar x ->
  forall strategies workers_num u, strategies <> [] -> (0 < workers_num)%Q -> runs x strategies workers_num u ->
  let pb := in_pb (su_child u) in
  pb_items pb = pb_items (in_pb (su_parent u)) /\ pb_rotation pb = pb_rotation (in_pb x) /\
  pb_strategy pb = default_strategy /\ pb_strip pb = pb_strip (in_pb x) /\ in_min (su_child u) = in_min x /\
  (pb_strip (in_pb x) = false -> pb_containers pb = pb_containers (in_pb x)) /\
  (pb_strip (in_pb x) = true -> exists c l, dget (pb_containers (in_pb x)) strip_id = Some c /\
     pb_containers pb = [(strip_id, mkDims (dw c) l)] /\ pb_height pb = 10 * dw c) /\
  (* when it is valid *)
  ((pb_strip (in_pb x) = true -> forall m c, in_min x = Some m ->
      dget (pb_containers (in_pb x)) strip_id = Some c -> m <= 10 * dw c) -> valid_inst ar (su_child u)).
Proof.
  intros ar [L V] x Hv strategies workers_num u Hne Hn Hr pb.
  destruct (runs_facts x Hv _ _ Hn u Hr) as [[o1 [sb Hprep]] [Hvp [Hc [_ Hw]]]].
  pose proof Hc as F. pose proof (runs_child x _ _ u Hr) as Hci.
  destruct (prepared_kept _ _ _ _ _ Hprep) as [P1 [P2 [P3 [P4 [P5 [P6 P7]]]]]].
  unfold pb. split; [apply (ch_items _ _ F)|]. split; [rewrite (child_rotation _ _ Hci); exact P2|].
  split; [apply (ch_strategy _ _ F)|]. split; [rewrite (ch_strip _ _ F); exact P3|].
  split; [rewrite (ch_min _ _ F); exact P4|]. rewrite <- P3, <- P1, <- P4. split; [|split].
  - intros E. apply (ch_containers _ _ F E).
  - intros E. unfold child_inst in Hci. rewrite E in Hci.
    destruct (dget (pb_containers (in_pb (su_parent u))) strip_id) as [c|] eqn:Ec;
      [|unfold dget_r in Hci; rewrite Ec in Hci; discriminate].
    exists c, strip_pack_init_height. split; [reflexivity|].
    unfold dget_r in Hci. rewrite Ec in Hci. cbn [bind] in Hci. injection Hci as <-. split; reflexivity.
  - apply child_valid; assumption.
Qed.
Print Assumptions C27_workers_problem.

(** ** C28: exceptions in the workers, any of them, at any point; no process is killed. *)
Theorem C28_exceptions_contained : forall ar, orderly ar -> forall x : inst ar, valid_inst ar x ->
  forall strategies workers_num u, strategies <> [] -> (0 < workers_num)%Q -> runs x strategies workers_num u ->
  forall may_raise s, reachable u may_raise nobody s -> over s ->
  (* every worker has reported, and only those that may raise or were made to have failed *)
  (forall i, (i < workers u)%nat -> exists o, s_queue s i = Some o /\
     (o = failure_output -> may_raise i \/ su_forced u i = true)) /\
  (* all failed: the error, and the problem is untouched *)
  ((forall i, (i < workers u)%nat -> s_queue s i = Some failure_output) ->
     s_parent s = PRaised MultiProcessError /\ problem_now u s = su_parent u) /\
  (* some did not fail: the result of one of them *)
  ((exists i o, (i < workers u)%nat /\ s_queue s i = Some o /\ o <> failure_output) ->
     exists sol objs g j o, s_parent s = PReturned sol objs g /\ (j < workers u)%nat /\
       s_queue s j = Some o /\ o <> failure_output /\ objs = o_objs o /\ g = o_strategy o /\
       deepcopy_solution (in_pb (su_parent u)) (o_solution o) = Ok sol).
Proof.
  intros ar [L V] x Hv strategies workers_num u Hne Hn Hr mr s Hs Hov.
  destruct (runs_facts x Hv _ _ Hn u Hr) as [_ [Hvp [Hc [_ Hw]]]].
  destruct (child_start_exists V _ _ Hc) as [x0 [ret0 [v0 Hs0]]].
  pose proof (sinv_reachable L V u mr nobody Hvp Hc x0 ret0 v0 Hs0 s Hs) as Hi. pose proof Hi as [Hwi Hpi].
  assert (He : forall k, (k < workers u)%nat -> ended (s_phase s k)).
  { unfold over in Hov. unfold parent_inv in Hpi. destruct (s_parent s); try contradiction; apply Hpi. }
  assert (Hdel : forall i, (i < workers u)%nat -> exists o, s_queue s i = Some o /\
     (good_out u ret0 v0 i (s_array s i) (s_log s i) o \/ failed_out u mr i (s_array s i) o)).
  { intros i Hi'. pose proof (Hwi i Hi') as W. destruct W as [_ [_ W]].
    destruct (He i Hi') as [E|E]; rewrite E in W; [exact W|]. destruct W as [[] _]. }
  split; [|split].
  - intros i Hi'. destruct (Hdel i Hi') as [o [Hq Ho]]. exists o. split; [assumption|]. intros C.
    destruct Ho as [G|[G _]]; [|exact G]. eapply (good_not_failure V) in G; [|exact Hs0]. destruct G. contradiction.
  - intros Hall.
    assert (Hm : forall k, (k < workers u)%nat -> s_array s k = nm1 ar).
    { intros k Hk. destruct (Hdel k Hk) as [o [Hq Ho]]. rewrite (Hall k Hk) in Hq. injection Hq as <-.
      destruct Ho as [G|[_ [G _]]]; [|exact G]. eapply (good_not_failure V) in G; [|exact Hs0]. destruct G. congruence. }
    assert (Hd : decide (array_list u s) = PRaised MultiProcessError).
    { destruct (decide_cases (array_list u s)) as [E|[j E]]; [assumption|].
      destruct (decide_get V u mr nobody Hc x0 ret0 v0 Hs0 s j Hw Hwi E) as [D1 [D2 _]]. exfalso. apply D2. rewrite (Hm j D1). reflexivity. }
    assert (Hpp : s_parent s = PRaised MultiProcessError).
    { unfold over in Hov. unfold parent_inv in Hpi. destruct (s_parent s); try contradiction.
      - destruct Hpi as [_ [D|[j [o [D _]]]]]; rewrite Hd in D; discriminate.
      - destruct Hpi as [_ [D|[j [o [D _]]]]]; rewrite Hd in D; [congruence|discriminate]. }
    split; [assumption|]. unfold problem_now. rewrite Hpp. reflexivity.
  - intros [i [o [Hi' [Hq Hf]]]].
    assert (Hge : nonneg ar (s_array s i)).
    { destruct (Hdel i Hi') as [o' [Hq' Ho]]. rewrite Hq in Hq'. injection Hq' as <-.
      destruct Ho as [G|[_ [_ G]]]; [|contradiction]. eapply (good_slot_nonneg V); [exact Hs0|exact G]. }
    destruct (decide_cases (array_list u s)) as [E|[j E]].
    { destruct (decide_raise V u mr nobody Hc x0 ret0 v0 Hs0 s _ Hw Hwi E) as [_ D]. specialize (D i Hi'). exfalso.
      exact (nonneg_not_m1 V _ Hge D). }
    destruct (decide_get V u mr nobody Hc x0 ret0 v0 Hs0 s j Hw Hwi E) as [D1 _]. destruct (Hdel j D1) as [o' [Hq' _]].
    destruct (get_winner V u mr nobody Hc x0 ret0 v0 Hs0 s j o' Hw Hi E Hq') as [w W].
    destruct (take_winner u Hc ret0 v0 s j o' w W) as [sol' [Et [Hcopy Hkeys]]].
    assert (Hpp : s_parent s = take u o').
    { unfold over in Hov. unfold parent_inv in Hpi. destruct (s_parent s); try contradiction.
      - destruct Hpi as [_ [D|[j' [o1 [D [Dq Dt]]]]]]; [congruence|]. rewrite E in D. injection D as <-. congruence.
      - destruct Hpi as [_ [D|[j' [o1 [D [Dq Dt]]]]]]; [congruence|]. rewrite E in D. injection D as <-. congruence. }
    exists sol', (o_objs o'), (o_strategy o'), j, o'. rewrite Hpp. split; [exact Et|]. split; [assumption|].
    split; [assumption|]. split; [|auto].
    destruct (delivered u mr nobody ret0 v0 s j o' (Hwi j D1) Hq') as [G|[_ [C _]]].
    + eapply (good_not_failure V) in G; [|exact Hs0]. apply G.
    + exfalso. destruct (decide_get V u mr nobody Hc x0 ret0 v0 Hs0 s j Hw Hwi E) as [_ [D2 _]]. apply D2. rewrite C. reflexivity.
Qed.
Print Assumptions C28_exceptions_contained.

(** What an error leaves: the problem with its items sorted and oriented; the solution is the
    user's or none. *)
Theorem C28_error_leaves_problem : forall ar, orderly ar -> forall x : inst ar, valid_inst ar x ->
  forall strategies workers_num u, strategies <> [] -> (0 < workers_num)%Q -> runs x strategies workers_num u ->
  forall may_raise may_die s e, reachable u may_raise may_die s -> s_parent s = PRaised e ->
  e = MultiProcessError /\
  (forall i, (i < workers u)%nat -> s_array s i = nm1 ar /\ (may_raise i \/ su_forced u i = true)) /\
  (in_sol (problem_now u s) = in_sol x \/ in_sol (problem_now u s) = []) /\
  exists orientation sorting_by, prepared ar orientation sorting_by x (problem_now u s).
Proof.
  intros ar [L V] x Hv strategies workers_num u Hne Hn Hr mr md s e Hs Hp.
  destruct (runs_facts x Hv _ _ Hn u Hr) as [[o1 [sb Hprep]] [Hvp [Hc [_ Hw]]]].
  destruct (child_start_exists V _ _ Hc) as [x0 [ret0 [v0 Hs0]]].
  pose proof (sinv_reachable L V u mr md Hvp Hc x0 ret0 v0 Hs0 s Hs) as Hi. pose proof Hi as [Hwi Hpi].
  unfold parent_inv in Hpi. rewrite Hp in Hpi. destruct Hpi as [He [Hd|[j [o [Hd [Hq Ht]]]]]].
  2:{ destruct (get_winner V u mr md Hc x0 ret0 v0 Hs0 s j o Hw Hi Hd Hq) as [w W].
      destruct (take_winner u Hc ret0 v0 s j o w W) as [sol1 [Et _]]. rewrite Ht in Et. discriminate. }
  destruct (decide_raise V u mr md Hc x0 ret0 v0 Hs0 s e Hw Hwi Hd) as [-> Hle]. split; [reflexivity|].
  unfold problem_now. rewrite Hp. split; [|split; [|eauto]].
  - intros i Hi'. specialize (Hle i Hi'). pose proof (Hwi i Hi') as [_ [_ W]].
    assert (Hneg : ~ nonneg ar (s_array s i)).
    { intros C. exact (nonneg_not_m1 V _ C Hle). }
    destruct (He i Hi') as [E|E]; rewrite E in W.
    + destruct W as [o [_ [G|[G1 [G2 _]]]]]; [|split; assumption]. exfalso. apply Hneg.
      eapply (good_slot_nonneg V); [exact Hs0|exact G].
    + destruct W as [_ [_ [[W _]|[W1 W2]]]]; [exfalso; apply Hneg; exact W|split; assumption].
  - destruct Hprep as [x1 [Hso ->]].
    assert (H1 : in_sol x1 = in_sol x \/ in_sol x1 = []).
    { unfold sort_items in Hso. destruct sb as [[by_ rv]|]; [|injection Hso as <-; auto].
      destruct (key_lt ar by_); [|discriminate]. injection Hso as <-. right. reflexivity. }
    assert (G : forall f t, in_sol (orient_all ar f t x1) = in_sol x1 \/ in_sol (orient_all ar f t x1) = []).
    { intros f t. unfold orient_all. destruct (existsb _ _); [right; reflexivity|left; reflexivity]. }
    assert (G2 : in_sol (orient_items ar o1 x1) = in_sol x1 \/ in_sol (orient_items ar o1 x1) = []).
    { unfold orient_items. destruct o1 as [o1|]; [|auto]. destruct (negb _); [auto|].
      destruct (String.eqb o1 "wide"); [apply G|]. destruct (String.eqb o1 "long"); [apply G|auto]. }
    destruct G2 as [E | E]; rewrite E; [exact H1|right; reflexivity].
Qed.
Print Assumptions C28_error_leaves_problem.

(** ** C29 *)

(** No schedule lets the search run for ever, whoever raises or is killed. *)
Theorem C29_every_run_ends : forall ar, orderly ar -> forall x : inst ar, valid_inst ar x ->
  forall strategies workers_num u, strategies <> [] -> (0 < workers_num)%Q -> runs x strategies workers_num u ->
  forall may_raise may_die (f : nat -> sys ar), f 0%nat = start_state ->
  ~ (forall n, step u may_raise may_die (f n) (f (S n))).
Proof.
  intros ar [L V] x Hv strategies workers_num u Hne Hn Hr mr md f H0 Hf.
  destruct (runs_facts x Hv _ _ Hn u Hr) as [_ [Hvp [Hc [_ Hw]]]].
  destruct (child_start_exists V _ _ Hc) as [x0 [ret0 [v0 Hs0]]].
  assert (Hreach : forall n, reachable u mr md (f n)).
  { induction n as [|n IH]; [rewrite H0; apply steps_refl|]. eapply steps_snoc; [exact IH|apply Hf]. }
  assert (G : forall n, (sys_measure u (f n) + n <= sys_measure u (f 0%nat))%nat).
  { induction n as [|n IH]; [lia|].
    pose proof (step_measure u mr md ret0 v0 _ _ (sinv_reachable L V u mr md Hvp Hc x0 ret0 v0 Hs0 _ (Hreach n)) (Hf n)). lia. }
  specialize (G (S (sys_measure u (f 0%nat)))). lia.
Qed.
Print Assumptions C29_every_run_ends.

(** The longest run of workers that have not ended, or none. *)
Lemma first_running {ar} (s : sys ar) n : (forall k, (k < n)%nat -> ended (s_phase s k)) \/
  exists k, (k < n)%nat /\ ~ ended (s_phase s k).
Proof.
  induction n as [|n IH]; [left; intros; lia|].
  destruct IH as [IH|[k [H1 H2]]]; [|right; exists k; split; [lia|assumption]].
  destruct (ended_dec (s_phase s n)) as [H|H]; [left|right; eauto].
  intros k Hk. destruct (Nat.eq_dec k n) as [->|]; [assumption|]. apply IH. lia.
Qed.

(** When does nothing move any more? When the search is over, or the parent waits for the
    result of a process that was killed. Results must fit in the pipes. *)
Lemma C29_stuck_cases : forall ar, orderly ar -> forall x : inst ar, valid_inst ar x ->
  forall strategies workers_num u, strategies <> [] -> (0 < workers_num)%Q -> runs x strategies workers_num u ->
  (forall o, (su_size u o <= su_capacity u)%nat) ->
  forall may_raise may_die s, reachable u may_raise may_die s ->
  over s \/ (exists s', step u may_raise may_die s s') \/
  exists j, s_parent s = PGet j /\ may_die j /\ s_phase s j = PhKilled.
Proof.
  intros ar [L V] x Hv strategies workers_num u Hne Hn Hr Hcap mr md s Hs.
  destruct (runs_facts x Hv _ _ Hn u Hr) as [_ [Hvp [Hc [_ Hw]]]].
  destruct (child_start_exists V _ _ Hc) as [x0 [ret0 [v0 Hs0]]].
  pose proof (sinv_reachable L V u mr md Hvp Hc x0 ret0 v0 Hs0 s Hs) as Hi. pose proof Hi as [Hwi Hpi].
  unfold parent_inv in Hpi. unfold over. destruct (s_parent s) as [i|i|j| |] eqn:Hp; [| | |tauto|tauto].
  - right. left. destruct Hpi as [A _]. destruct (Nat.eq_dec i (workers u)) as [->|E].
    + eexists. apply St_parent. apply P_started. exact Hp.
    + eexists. apply St_parent. eapply P_start; [exact Hp|lia].
  - right. left. destruct Hpi as [A [B C]]. destruct (Nat.eq_dec i (workers u)) as [->|E].
    + eexists. apply St_parent. apply P_joined. exact Hp.
    + assert (Hi' : (i < workers u)%nat) by lia. destruct (ended_dec (s_phase s i)) as [D|D].
      * eexists. apply St_parent. eapply P_join; [exact Hp|exact Hi'|exact D].
      * destruct (worker_progress L u mr md x0 ret0 v0 Hs0 i s (Hwi i Hi') (B i Hi') D) as [s' H'].
        { intros o _. apply Hcap. }
        exists s'. eapply St_worker; eassumption.
  - destruct Hpi as [A B]. destruct (decide_get V u mr md Hc x0 ret0 v0 Hs0 s j Hw Hwi B) as [D1 _].
    pose proof (Hwi j D1) as [_ [_ W]]. destruct (A j D1) as [E|E]; rewrite E in W.
    + destruct W as [o [Eo _]]. right. left. eexists. apply St_parent. eapply P_get; eassumption.
    + right. right. exists j. split; [reflexivity|]. split; [apply W|assumption].
Qed.

(** Without killed processes and with results that fit in the pipes, the search always returns
    or raises: from every reachable state it goes on until it is over, and every run ends
    ([C29_every_run_ends]). Missing for C29: the two cases refuted below. *)
Theorem C29_always_returns_partial : forall ar, orderly ar -> forall x : inst ar, valid_inst ar x ->
  forall strategies workers_num u, strategies <> [] -> (0 < workers_num)%Q -> runs x strategies workers_num u ->
  (forall o, (su_size u o <= su_capacity u)%nat) ->
  forall may_raise s, reachable u may_raise nobody s ->
  (over s \/ exists s', step u may_raise nobody s s') /\
  exists s', steps u may_raise nobody s s' /\ over s'.
Proof.
  intros ar [L V] x Hv strategies workers_num u Hne Hn Hr Hcap mr s Hs.
  assert (P : forall s, reachable u mr nobody s -> over s \/ exists s', step u mr nobody s s').
  { intros t Ht. destruct (C29_stuck_cases ar (conj L V) x Hv _ _ u Hne Hn Hr Hcap mr nobody t Ht) as [H|[H|[j [_ [[] _]]]]]; auto. }
  split; [auto|].
  destruct (runs_facts x Hv _ _ Hn u Hr) as [_ [Hvp [Hc [_ Hw]]]].
  destruct (child_start_exists V _ _ Hc) as [x0 [ret0 [v0 Hs0]]].
  remember (sys_measure u s) as m eqn:Em. revert s Hs Em.
  induction m as [m IH] using (well_founded_induction lt_wf). intros s Hs ->.
  destruct (P s Hs) as [Ho|[s' Hst]]; [exists s; split; [apply steps_refl|assumption]|].
  assert (Hs' : reachable u mr nobody s') by (eapply steps_snoc; eassumption).
  destruct (IH (sys_measure u s')) with (s := s') as [s2 [H1 H2]]; [|assumption|reflexivity|].
  { eapply step_measure; [|exact Hst]. eapply (sinv_reachable L V u mr nobody Hvp Hc x0 ret0 v0 Hs0). exact Hs. }
  exists s2. split; [|assumption]. clear -Hst H1.
  induction H1 as [|a b H1 IH1 H3]; [eapply steps_snoc; [apply steps_refl|exact Hst]|].
  eapply steps_snoc; [exact IH1|exact H3].
Qed.
Print Assumptions C29_always_returns_partial.

(** With killed processes: the only way not to return is to wait for one of them. *)
Theorem C29_only_kills_block_partial : forall ar, orderly ar -> forall x : inst ar, valid_inst ar x ->
  forall strategies workers_num u, strategies <> [] -> (0 < workers_num)%Q -> runs x strategies workers_num u ->
  (forall o, (su_size u o <= su_capacity u)%nat) ->
  forall may_raise may_die s, reachable u may_raise may_die s ->
  (forall s', ~ step u may_raise may_die s s') -> ~ over s ->
  exists j, s_parent s = PGet j /\ may_die j /\ s_phase s j = PhKilled.
Proof.
  intros ar [L V] x Hv strategies workers_num u Hne Hn Hr Hcap mr md s Hs Hno Hov.
  destruct (C29_stuck_cases ar (conj L V) x Hv _ _ u Hne Hn Hr Hcap mr md s Hs) as [H|[[s' H]|H]]; [contradiction| |exact H].
  exfalso. eapply Hno. exact H.
Qed.
Print Assumptions C29_only_kills_block_partial.

(** Refutation 1: if no result fits in the pipe, nobody raising and nobody killed, hypersearch
    never returns and never raises: every process waits for its result to be read before it can
    exit, and the parent waits for the processes to exit before it reads. *)
Theorem C29_large_results_block_refuted : forall ar, orderly ar -> forall x : inst ar, valid_inst ar x ->
  forall strategies workers_num u, strategies <> [] -> (0 < workers_num)%Q -> runs x strategies workers_num u ->
  (forall o, (su_capacity u < su_size u o)%nat) ->
  forall may_raise s, reachable u may_raise nobody s -> ~ over s.
Proof.
  intros ar [L V] x Hv strategies workers_num u Hne Hn Hr Hcap mr s Hs.
  destruct (runs_facts x Hv _ _ Hn u Hr) as [_ [Hvp [Hc [_ Hw]]]].
  destruct (child_start_exists V _ _ Hc) as [x0 [ret0 [v0 Hs0]]].
  assert (G : forall s, reachable u mr nobody s ->
    (forall k, (k < workers u)%nat -> ~ ended (s_phase s k)) /\
    match s_parent s with PStart _ => True | PJoin i => i = 0%nat | _ => False end).
  { clear s Hs. intros s Hs. induction Hs as [|s s' H IH Hst].
    { split; [intros k _ [C|C]; discriminate C|exact I]. }
    destruct IH as [I1 I2].
    pose proof (sinv_reachable L V u mr nobody Hvp Hc x0 ret0 v0 Hs0 s H) as [_ Hpi].
    destruct Hst as [Hst|i Hi Hst].
    - destruct Hst as [s i P Li|s P|s i P Li E|s P|s j o P Q]; unfold parent_inv in Hpi; rewrite P in *;
        cbn [set_parent set_phase s_parent s_phase]; try contradiction.
      + split; [|exact I]. intros k Hk. destruct (Nat.eq_dec k i) as [->|Hk'].
        * rewrite upd_same. intros [C|C]; discriminate C.
        * rewrite upd_other by assumption. auto.
      + split; [assumption|reflexivity].
      + subst i. exfalso. apply (I1 0%nat Hw). exact E.
      + exfalso. lia.
    - rewrite (worker_step_parent _ _ _ _ _ _ Hst). split; [|assumption].
      intros k Hk. destruct (Nat.eq_dec k i) as [->|Hk'].
      + destruct Hst; cbn [set_phase set_slot set_queue add_log s_array s_phase s_queue s_log];
          rewrite ?upd_same; repeat match goal with |- context [if ?b then _ else _] => destruct b end;
          try (intros [C|C]; discriminate C).
        * match goal with Lx : _ \/ _ |- _ => destruct Lx as [Lx|Lx] end.
          { match goal with Lx : (su_size u ?o <= _)%nat |- _ => specialize (Hcap o) end. lia. }
          { match goal with Lx : s_parent _ = PGet _ |- _ => rewrite Lx in I2 end. contradiction. }
        * match goal with M : nobody _ |- _ => destruct M end.
      + destruct (worker_step_other _ _ _ _ _ _ k Hst Hk') as [_ [-> _]]. auto. }
  destruct (G s Hs) as [_ G2]. unfold over. destruct (s_parent s); tauto.
Qed.
Print Assumptions C29_large_results_block_refuted.

(** Refutation 2: killing processes can leave the parent waiting for ever. *)
Theorem C29_killed_process_blocks_refuted : forall ar, orderly ar -> forall x : inst ar, valid_inst ar x ->
  forall strategies workers_num u, strategies <> [] -> (0 < workers_num)%Q -> runs x strategies workers_num u ->
  exists s, reachable u nobody anybody s /\ ~ over s /\ forall s', ~ step u nobody anybody s s'.
Proof.
  intros ar [L V] x Hv strategies workers_num u Hne Hn Hr.
  destruct (runs_facts x Hv _ _ Hn u Hr) as [_ [Hvp [Hc [_ Hw]]]].
  destruct (child_start_exists V _ _ Hc) as [x0 [ret0 [v0 Hs0]]].
  set (N := workers u) in *.
  (* all started *)
  assert (A : forall i, (i <= N)%nat -> exists s, reachable u nobody anybody s /\ s_parent s = PStart i /\
     (forall k, (k < i)%nat -> s_phase s k = PhBegin) /\ (forall k, s_array s k = num0 ar) /\ (forall k, s_queue s k = None)).
  { induction i as [|i IH]; intros Hi.
    - exists start_state. split; [apply steps_refl|]. split; [reflexivity|]. split; [lia|]. split; reflexivity.
    - destruct IH as [s [H1 [H2 [H3 [H4 H5]]]]]; [lia|].
      exists (set_parent (set_phase s i PhBegin) (PStart (S i))). split.
      { eapply steps_snoc; [exact H1|]. apply St_parent. apply P_start; [assumption|]. fold N. lia. }
      split; [reflexivity|]. split; [|split; assumption]. intros k Hk. cbn [set_parent set_phase s_phase].
      destruct (Nat.eq_dec k i) as [->|]; [apply upd_same|]. rewrite upd_other by assumption. apply H3. lia. }
  destruct (A N (le_n N)) as [s1 [H1 [H2 [H3 [H4 H5]]]]].
  (* all killed *)
  assert (B : forall i, (i <= N)%nat -> exists s, reachable u nobody anybody s /\ s_parent s = PStart N /\
     (forall k, (k < i)%nat -> s_phase s k = PhKilled) /\ (forall k, (i <= k < N)%nat -> s_phase s k = PhBegin) /\
     (forall k, s_array s k = num0 ar) /\ (forall k, s_queue s k = None)).
  { induction i as [|i IH]; intros Hi.
    - exists s1. split; [assumption|]. split; [assumption|]. split; [lia|]. split; [intros; apply H3; lia|]. split; assumption.
    - destruct IH as [s [I1 [I2 [I3 [I4 [I5 I6]]]]]]; [lia|].
      exists (set_phase s i PhKilled). split.
      { eapply steps_snoc; [exact I1|]. apply (St_worker _ _ _ _ _ i); [fold N; lia|]. apply W_die; [exact I|].
        rewrite I4 by lia. reflexivity. }
      split; [assumption|]. cbn [set_phase s_phase s_array s_queue]. split; [|split; [|split; assumption]].
      + intros k Hk. destruct (Nat.eq_dec k i) as [->|]; [apply upd_same|]. rewrite upd_other by assumption. apply I3. lia.
      + intros k Hk. rewrite upd_other by lia. apply I4. lia. }
  destruct (B N (le_n N)) as [s2 [I1 [I2 [I3 [_ [I5 I6]]]]]].
  (* all joined *)
  assert (C : forall i, (i <= N)%nat -> reachable u nobody anybody (set_parent s2 (PJoin i))).
  { induction i as [|i IH]; intros Hi.
    - eapply steps_snoc; [exact I1|]. apply St_parent. apply P_started. exact I2.
    - eapply steps_snoc; [apply IH; lia|]. apply St_parent.
      apply (P_join u (set_parent s2 (PJoin i)) i); [reflexivity|fold N; lia|]. right. apply I3. lia. }
  assert (Hdec : exists j, decide (array_list u s2) = PGet j).
  { destruct (decide_cases (array_list u s2)) as [E|E]; [|assumption].
    pose proof (sinv_reachable L V u nobody anybody Hvp Hc x0 ret0 v0 Hs0 s2 I1) as [Hwi _].
    destruct (decide_raise V u nobody anybody Hc x0 ret0 v0 Hs0 s2 _ Hw Hwi E) as [_ D]. specialize (D 0%nat Hw). rewrite I5 in D.
    exfalso. exact (nonneg_not_m1 V _ (vl_0 ar V) D). }
  destruct Hdec as [j Hj]. exists (set_parent s2 (PGet j)). split; [|split].
  - eapply steps_snoc; [apply (C N (le_n N))|]. apply St_parent. rewrite <- Hj.
    apply (P_joined u (set_parent s2 (PJoin N))). reflexivity.
  - intros O. exact O.
  - intros s' Hst. destruct Hst as [Hst|i Hi Hst].
    + inversion Hst as [s i E|s E|s i E|s E|s k o E Q]; subst; try discriminate E.
      cbn [set_parent s_queue] in Q. rewrite I6 in Q. discriminate Q.
    + destruct (worker_step_live _ _ _ _ _ _ Hst) as [_ [Lx _]]. apply Lx. right. apply I3. exact Hi.
Qed.
Print Assumptions C29_killed_process_blocks_refuted.

(** ** A concrete run *)
Lemma steps_trans {ar} (u : setup ar) mr md a b c : steps u mr md a b -> steps u mr md b c -> steps u mr md a c.
Proof. intros H1 H2. induction H2 as [|b' c' H2 IH Hst]; [assumption|]. eapply steps_snoc; eassumption. Qed.

Lemma steps_one {ar} (u : setup ar) mr md a b : step u mr md a b -> steps u mr md a b.
Proof. intros H. eapply steps_snoc; [apply steps_refl|exact H]. Qed.

(** What worker [i] with the single strategy [g] writes and delivers (not computed for an
    infinite value). *)
Definition one_strategy {ar} (u : setup ar) (i : nat) (g : list pclass) : result (num ar * output ar) :=
  bind (get_init_solution ar (su_child u)) (fun r => let '(x0, ret0) := r in
  bind (calculate_obj_value ar x0) (fun v0 =>
  bind (local_search ar (su_clock u i) (su_limit u) (su_throttle u) (Some (su_start u)) (set_strategy x0 g) 0) (fun r1 =>
  let y := fst (fst r1) in
  bind (calculate_obj_value ar y) (fun v =>
  if check_solution ar v v0
  then bind (get_solution ar y) (fun ret =>
       if nge_inf ar v then Err ValueError else Ok (v, mkOut v (fst ret) (snd ret) (Some g)))
  else Ok (num0 ar, mkOut v0 (fst ret0) (snd ret0) None))))).

(** Worker [i], one of two, with one strategy, from its start to its exit. *)
Lemma worker_whole_run {ar} (u : setup ar) i s g a o : (i < workers u)%nat -> workers u = 2%nat ->
  s_phase s i = PhBegin -> s_array s i = num0 ar -> su_forced u i = false -> chunk u i = [g] ->
  one_strategy u i g = Ok (a, o) -> (forall o, (su_size u o <= su_capacity u)%nat) ->
  exists s', steps u nobody nobody s s' /\ s_phase s' i = PhExit /\ s_queue s' i = Some o /\
    s_array s' i = a /\ s_parent s' = s_parent s /\
    (forall k, k <> i -> s_phase s' k = s_phase s k /\ s_queue s' k = s_queue s k /\ s_array s' k = s_array s k).
Proof.
  intros Hi Hn HB HA HF Hch H Hcap. unfold one_strategy in H.
  destruct (get_init_solution ar (su_child u)) as [[x0 ret0]|] eqn:Hinit; [|discriminate H]. cbn [bind] in H.
  destruct (calculate_obj_value ar x0) as [v0|] eqn:Hv0; [|discriminate H]. cbn [bind] in H.
  destruct (local_search ar (su_clock u i) _ _ _ _ _) as [[[y clk] lg]|] eqn:Hls; [|discriminate H]. cbn [bind fst] in H.
  destruct (calculate_obj_value ar y) as [v|] eqn:Hv; [|discriminate H]. cbn [bind] in H.
  assert (Hsearch : worker_search u i (set_strategy x0 g) 0 y clk) by (exists (ls_fuel ar), lg; exact Hls).
  assert (St : forall a b, worker_step u nobody nobody i a b -> steps u nobody nobody a b).
  { intros c d Hs. apply steps_one. eapply St_worker; eassumption. }
  set (w0 := mkW x0 v0 ret0 None 0). set (w1 := mkW y v0 ret0 None clk).
  set (s1 := set_phase s i (PhLoop w0 [g])).
  assert (H1 : steps u nobody nobody s s1) by (apply St; unfold s1, w0; rewrite <- Hch; apply W_begin; assumption).
  set (s2 := add_log (set_phase s1 i (PhRead w1 g v [] [])) i g v).
  assert (H2 : steps u nobody nobody s1 s2).
  { apply St. unfold s2, w1. change v0 with (w_best w0). change ret0 with (w_ret w0).
    change (None (A := list pclass)) with (w_strategy w0).
    apply W_search; [unfold s1; cbn [set_phase s_phase]; apply upd_same|exact Hsearch|exact Hv]. }
  set (s3 := set_phase s2 i (PhRead w1 g v [] ([] ++ [s_array s2 0%nat]))).
  assert (H3 : steps u nobody nobody s2 s3).
  { apply St. apply (W_read u nobody nobody i s2 w1 g v [] []); [unfold s2; cbn [add_log set_phase s_phase]; apply upd_same|].
    rewrite Hn. cbn [length]. lia. }
  set (s4 := set_phase s3 i (PhRead w1 g v [] ([s_array s2 0%nat] ++ [s_array s3 1%nat]))).
  assert (H4 : steps u nobody nobody s3 s4).
  { apply St. apply (W_read u nobody nobody i s3 w1 g v [] [s_array s2 0%nat]);
      [unfold s3; cbn [set_phase s_phase]; apply upd_same|]. rewrite Hn. cbn [length]. lia. }
  set (opt := q_max ([s_array s2 0%nat] ++ [s_array s3 1%nat])).
  (* up to line 108 *)
  assert (H5 : exists s5 w', steps u nobody nobody s4 s5 /\ s_phase s5 i = PhCheck w' [] opt /\
     output_of w' = o /\ s_array s5 i = a /\ s_queue s5 = s_queue s4 /\ s_parent s5 = s_parent s4 /\
     forall k, k <> i -> s_phase s5 k = s_phase s4 k /\ s_array s5 k = s_array s4 k).
  { set (s5 := set_phase s4 i (if check_solution ar v v0 then PhWrite w1 g v [] opt else PhCheck w1 [] opt)).
    assert (H5 : steps u nobody nobody s4 s5).
    { apply St. unfold s5. change v0 with (w_best w1) at 1.
      apply (W_compare u nobody nobody i s4 w1 g v [] _); [unfold s4; cbn [set_phase s_phase]; apply upd_same|].
      rewrite Hn. reflexivity. }
    destruct (check_solution ar v v0) eqn:Ecs.
    - destruct (get_solution ar y) as [ret|] eqn:Eg; [|discriminate H]. cbn [bind] in H.
      destruct (nge_inf ar v) eqn:Einf; [discriminate H|]. injection H as <- <-.
      set (s6 := set_phase (set_slot s5 i v) i (PhKeep w1 g v [] opt)).
      assert (H6 : steps u nobody nobody s5 s6).
      { apply St. apply W_write. unfold s5. cbn [set_phase s_phase]. apply upd_same. }
      set (w2 := mkW y v ret (Some g) clk).
      set (s7 := set_phase s6 i (PhCheck w2 [] opt)).
      assert (H7 : steps u nobody nobody s6 s7).
      { apply St. pose proof (W_keep u nobody nobody i s6 w1 g v [] opt ret) as K. unfold global_check in K.
        rewrite Einf in K. apply K; [|exact Eg].
        unfold s6. cbn [set_phase s_phase]. apply upd_same. }
      exists s7, w2. split; [eapply steps_trans; [exact H5|]; eapply steps_trans; [exact H6|exact H7]|].
      split; [unfold s7; cbn [set_phase s_phase]; apply upd_same|]. split; [reflexivity|].
      split; [unfold s7, s6; cbn [set_phase set_slot s_array]; apply upd_same|]. split; [reflexivity|]. split; [reflexivity|].
      intros k Hk. unfold s7, s6, s5. cbn [set_phase set_slot s_phase s_array]. rewrite !upd_other by assumption.
      split; reflexivity.
    - injection H as <- <-. exists s5, w1. split; [exact H5|].
      split; [unfold s5; cbn [set_phase s_phase]; apply upd_same|]. split; [reflexivity|].
      split; [exact HA|]. split; [reflexivity|]. split; [reflexivity|].
      intros k Hk. unfold s5. cbn [set_phase s_phase s_array]. rewrite upd_other by assumption. split; reflexivity. }
  destruct H5 as [s5 [w' [H5 [P5 [Ow [A5 [Q5 [R5 O5]]]]]]]].
  set (w2 := mkW (w_inst w') (w_best w') (w_ret w') (w_strategy w') (S (w_clk w'))).
  set (b := over_time (su_clock u i) (su_start u) (su_limit u) (w_clk w') || global_check ar opt).
  set (s6 := set_phase s5 i (if b then PhPut (output_of w2) else PhLoop w2 [])).
  assert (H6 : steps u nobody nobody s5 s6).
  { apply St. apply (W_check u nobody nobody i s5 w' [] opt). exact P5. }
  assert (H7 : exists s7, steps u nobody nobody s6 s7 /\ s_phase s7 i = PhPut (output_of w2) /\
     s_array s7 = s_array s6 /\ s_queue s7 = s_queue s6 /\ s_parent s7 = s_parent s6 /\
     forall k, k <> i -> s_phase s7 k = s_phase s6 k).
  { destruct b eqn:Eb.
    - exists s6. split; [apply steps_refl|]. split; [unfold s6; cbn [set_phase s_phase]; apply upd_same|]. auto.
    - exists (set_phase s6 i (PhPut (output_of w2))). split.
      + apply St. apply W_end. unfold s6. cbn [set_phase s_phase]. apply upd_same.
      + split; [cbn [set_phase s_phase]; apply upd_same|]. repeat (split; [reflexivity|]).
        intros k Hk. cbn [set_phase s_phase]. apply upd_other. assumption. }
  destruct H7 as [s7 [H7 [P7 [A7 [Q7 [R7 O7]]]]]].
  assert (Ew : output_of w2 = o) by exact Ow. rewrite Ew in P7.
  set (s8 := set_phase s7 i (PhFlush o)).
  assert (H8 : steps u nobody nobody s7 s8) by (apply St; apply W_put; assumption).
  set (s9 := set_phase (set_queue s8 i o) i PhExit).
  assert (H9 : steps u nobody nobody s8 s9).
  { apply St. apply W_flush; [unfold s8; cbn [set_phase s_phase]; apply upd_same|left; apply Hcap]. }
  exists s9. split.
  { eapply steps_trans; [exact H1|]. eapply steps_trans; [exact H2|]. eapply steps_trans; [exact H3|].
    eapply steps_trans; [exact H4|]. eapply steps_trans; [exact H5|]. eapply steps_trans; [exact H6|].
    eapply steps_trans; [exact H7|]. eapply steps_trans; [exact H8|exact H9]. }
  split; [unfold s9; cbn [set_phase s_phase]; apply upd_same|].
  split; [unfold s9; cbn [set_phase set_queue s_queue]; apply upd_same|].
  split; [unfold s9, s8; cbn [set_phase set_queue s_array]; rewrite A7; exact A5|].
  split; [unfold s9, s8; cbn [set_phase set_queue s_parent]; rewrite R7; unfold s6; cbn [set_phase s_parent]; rewrite R5; reflexivity|].
  intros k Hk. unfold s9, s8. cbn [set_phase set_queue s_phase s_queue s_array]. rewrite !upd_other by assumption.
  rewrite O7, Q7, A7 by assumption. unfold s6. cbn [set_phase s_phase s_queue s_array]. rewrite !upd_other by assumption.
  destruct (O5 k Hk) as [-> ->]. rewrite Q5. unfold s4, s3, s2, s1. cbn [set_phase add_log s_phase s_queue s_array].
  rewrite !upd_other by assumption. auto.
Qed.

(** Two workers with one strategy each: what hypersearch returns. *)
Definition two_workers {ar} (u : setup ar) : result (pphase ar) :=
  match su_chunks u with
  | [[g1]; [g2]] =>
      bind (one_strategy u 0 g1) (fun r1 => bind (one_strategy u 1 g2) (fun r2 =>
      match decide [fst r1; fst r2] with
      | PGet 0 => Ok (take u (snd r1))
      | PGet 1 => Ok (take u (snd r2))
      | PGet _ => Err ValueError
      | p => Ok p
      end))
  | _ => Err ValueError
  end.

Lemma two_workers_reach {ar} (u : setup ar) p : two_workers u = Ok p ->
  none_forced u -> (forall o, (su_size u o <= su_capacity u)%nat) ->
  exists s, reachable u nobody nobody s /\ s_parent s = p.
Proof.
  intros H HF Hcap. unfold two_workers in H.
  destruct (su_chunks u) as [|[|g1 [|]] [|[|g2 [|]] [|]]] eqn:Hch; try discriminate H.
  destruct (one_strategy u 0 g1) as [[a1 o1]|] eqn:E1; [|discriminate H].
  destruct (one_strategy u 1 g2) as [[a2 o2]|] eqn:E2; [|discriminate H]. cbn [bind fst snd] in H.
  assert (Hn : workers u = 2%nat) by (unfold workers; rewrite Hch; reflexivity).
  assert (Pt : forall a b, parent_step u a b -> steps u nobody nobody a b).
  { intros a b Hs. apply steps_one. apply St_parent. assumption. }
  set (t1 := set_parent (set_phase (start_state (ar := ar)) 0 PhBegin) (PStart 1)).
  assert (T1 : steps u nobody nobody start_state t1) by (apply Pt; apply P_start; [reflexivity|lia]).
  set (t2 := set_parent (set_phase t1 1 PhBegin) (PStart 2)).
  assert (T2 : steps u nobody nobody t1 t2) by (apply Pt; apply P_start; [reflexivity|lia]).
  destruct (worker_whole_run u 0 t2 g1 a1 o1) as [t3 [T3 [P3 [Q3 [A3 [R3 O3]]]]]];
    try assumption; try (unfold chunk; rewrite Hch; reflexivity); try lia; try reflexivity; [apply HF|].
  destruct (O3 1%nat ltac:(lia)) as [P31 [Q31 A31]].
  destruct (worker_whole_run u 1 t3 g2 a2 o2) as [t4 [T4 [P4 [Q4 [A4 [R4 O4]]]]]];
    try assumption; try (unfold chunk; rewrite Hch; reflexivity); try lia; [apply HF|].
  destruct (O4 0%nat ltac:(lia)) as [P40 [Q40 A40]].
  assert (R : s_parent t4 = PStart (workers u)) by (rewrite R4, R3, Hn; reflexivity).
  assert (J : forall k, (k < 2)%nat -> s_phase t4 k = PhExit).
  { intros k Hk. destruct k as [|[|k]]; [rewrite P40; exact P3|exact P4|lia]. }
  set (t5 := set_parent t4 (PJoin 0)).
  assert (T5 : steps u nobody nobody t4 t5) by (apply Pt; apply P_started; assumption).
  set (t6 := set_parent t5 (PJoin 1)).
  assert (T6 : steps u nobody nobody t5 t6).
  { apply Pt. apply P_join; [reflexivity|lia|]. left. apply (J 0%nat). lia. }
  set (t7 := set_parent t6 (PJoin 2)).
  assert (T7 : steps u nobody nobody t6 t7).
  { apply Pt. apply P_join; [reflexivity|lia|]. left. apply (J 1%nat). lia. }
  assert (D : decide (array_list u t7) = decide [a1; a2]).
  { unfold array_list. rewrite Hn. cbn [seq map]. cbn [t7 t6 t5 set_parent s_array]. rewrite A40, A3, A4. reflexivity. }
  set (t8 := set_parent t7 (decide [a1; a2])).
  assert (T8 : steps u nobody nobody t7 t8).
  { apply Pt. unfold t8. rewrite <- D. apply P_joined. cbn [t7 set_parent s_parent]. rewrite Hn. reflexivity. }
  assert (Q8 : s_queue t8 0%nat = Some o1 /\ s_queue t8 1%nat = Some o2).
  { cbn [t8 t7 t6 t5 set_parent s_queue]. rewrite Q40, Q4. auto. }
  assert (R8 : reachable u nobody nobody t8).
  { eapply steps_trans; [exact T1|]. eapply steps_trans; [exact T2|]. eapply steps_trans; [exact T3|].
    eapply steps_trans; [exact T4|]. eapply steps_trans; [exact T5|]. eapply steps_trans; [exact T6|].
    eapply steps_trans; [exact T7|exact T8]. }
  destruct (decide_cases [a1; a2]) as [E|[j E]]; rewrite E in H.
  - injection H as <-. exists t8. split; [exact R8|]. exact E.
  - destruct Q8 as [Qa Qb]. destruct j as [|[|j]]; [| |discriminate H]; injection H as <-.
    + exists (set_parent t8 (take u o1)). split; [|reflexivity].
      eapply steps_trans; [exact R8|]. apply Pt. apply (P_get u t8 0%nat); [exact E|exact Qa].
    + exists (set_parent t8 (take u o2)). split; [|reflexivity].
      eapply steps_trans; [exact R8|]. apply Pt. apply (P_get u t8 1%nat); [exact E|exact Qb].
Qed.

(** A problem the initial construction does not solve best: both workers find better packings,
    and hypersearch returns the one of the first. *)
Definition better_pb : inst qarith := bin_demo.
Example two_workers_demo : exists u p, runs better_pb strategy_pool 2 u /\ counted qarith better_pb /\ valid_inst qarith (su_child u) /\
  two_workers u = Ok p /\ none_forced u /\ (forall o, (su_size u o <= su_capacity u)%nat) /\
  exists sol objs g, p = PReturned sol objs (Some g).
Proof.
  destruct (multi_setup None None strategy_pool 2 (fun _ _ => 0) 0 60 true (fun _ => false) (fun _ => 0%nat) 0 better_pb)
    as [u|e] eqn:E; [|vm_compute in E; discriminate].
  assert (Hr : runs better_pb strategy_pool 2 u).
  { exists None, None, (fun _ _ => 0), 0, 60, true, (fun _ => false), (fun _ => 0%nat), 0%nat. exact E. }
  vm_compute in E. injection E as E. subst u.
  match type of Hr with runs _ _ _ ?u0 => set (u := u0) in * end.
  exists u. assert (T : exists r, two_workers u = Ok r /\ exists sol objs g, r = PReturned sol objs (Some g)).
  { apply Ok_with. vm_compute. eexists _, _, _. reflexivity. }
  destruct T as [r [T1 T2]]. exists r. split; [exact Hr|]. split; [reflexivity|]. split; [split; [valid_demo|discriminate]|].
  split; [exact T1|]. split; [intros i; reflexivity|]. split; [intros o; apply le_n|exact T2].
Qed.

(** ** C30

    A strip of width 2 and container_height 1, two 2 x 1 items, the two strategies of the pool,
    two workers: the solution returned reaches height 2. *)
Definition low_strip : inst qarith := fresh {|
  pb_containers := [("strip-pack-container", mkDims 2 40)];
  pb_items := [("a", mkDims 2 1); ("b", mkDims 2 1)];
  pb_rotation := true; pb_strategy := default_strategy; pb_strip := true; pb_height := 1 |} None.

Example low_strip_valid : valid_inst qarith low_strip.
Proof. split; [valid_demo|]. split; [reflexivity|discriminate]. Qed.

Definition low_setup : result (setup qarith) :=
  multi_setup None None strategy_pool 2 (fun _ _ => 0) 0 60 true (fun _ => false) (fun _ => 0%nat) 0 low_strip.

Theorem C30_within_chosen_height_refuted :
  exists u s sol objs g, valid_inst qarith low_strip /\ runs low_strip strategy_pool 2 u /\
    reachable u nobody nobody s /\ s_parent s = PReturned sol objs g /\
    pb_height (in_pb (problem_now u s)) = 1 /\
    exists csol e, dget sol strip_id = Some csol /\ dget csol "b" = Some e /\
      e_y e + e_l e = 2.
Proof.
  destruct low_setup as [u|e] eqn:E; [|vm_compute in E; discriminate].
  assert (Hr : runs low_strip strategy_pool 2 u).
  { exists None, None, (fun _ _ => 0), 0, 60, true, (fun _ => false), (fun _ => 0%nat), 0%nat. exact E. }
  unfold low_setup in E. vm_compute in E. injection E as E. subst u.
  match type of Hr with runs _ _ _ ?u0 => set (u := u0) in * end.
  assert (T : exists r, two_workers u = Ok r /\ exists sol objs g, r = PReturned sol objs g /\
     exists csol e, dget sol strip_id = Some csol /\ dget csol "b" = Some e /\ e_y e + e_l e = 2).
  { apply Ok_with. vm_compute. eexists _, _, _. split; [reflexivity|]. eexists _, _. split; [reflexivity|]. split; reflexivity. }
  destruct T as [p [T1 [sol [objs [g [-> T2]]]]]].
  destruct (two_workers_reach u _ T1) as [s [R1 R2]]; [intros i; reflexivity|intros o; apply le_n|].
  change (@s_parent qarith s = @PReturned qarith sol objs g) in R2.
  exists u, s, sol, objs, g. split; [exact low_strip_valid|]. split; [exact Hr|]. split; [exact R1|].
  split; [exact R2|]. split; [unfold problem_now; rewrite R2; reflexivity|exact T2].
Qed.
Print Assumptions C30_within_chosen_height_refuted.

(** What does hold: the solution fits in the workers' height, ten times the width of the strip,
    or the user's minimum height if that is larger. *)
Theorem C30_fits_workers_height_partial : forall ar, orderly ar -> forall x : inst ar, valid_inst ar x -> pb_strip (in_pb x) = true ->
  forall strategies workers_num u, strategies <> [] -> (0 < workers_num)%Q -> runs x strategies workers_num u ->
  forall c, dget (pb_containers (in_pb x)) strip_id = Some c ->
  forall may_raise may_die s sol objs best_strategy, reachable u may_raise may_die s ->
  s_parent s = PReturned sol objs best_strategy ->
  forall csol i e, dget sol strip_id = Some csol -> dget csol i = Some e ->
    inside (dw c) (match in_min x with Some m => Z.max (10 * dw c) m | None => 10 * dw c end) e.
Proof.
  intros ar [L V] x Hv Est strategies workers_num u Hne Hn Hr c Hcont mr md s sol objs g Hs Hp csol i e H1 H2.
  destruct (C27_workers_problem ar (conj L V) x Hv _ _ u Hne Hn Hr) as [W1 [W2 [W3 [W4 [W5 [_ [W6 _]]]]]]].
  destruct (W6 Est) as [c' [l [K1 [K2 K3]]]]. rewrite Hcont in K1. injection K1 as <-.
  destruct (C27_genuine ar (conj L V) x Hv _ _ u Hne Hn Hr mr md s sol objs g Hs Hp) as [h [seq [sol' [G1 [G2 [G3 [G4 [G5 _]]]]]]]].
  rewrite Est in G2. unfold workers_height in G2. rewrite K3, W5 in G2.
  set (gg := match g with None => default_strategy | Some g0 => g0 end) in *.
  destruct (runs_facts x Hv _ _ Hn u Hr) as [_ [_ [F _]]].
  assert (Hpbv : valid_problem (pb_with_height (pb_with_strategy (in_pb (su_child u)) gg) h)).
  { destruct (ch_valid _ _ F) as [V1 [V2 [V3 [V4 V5]]]]. repeat (split; [assumption|]). intros _.
    cbn [pb_height pb_with_height]. lia. }
  assert (Hkn : known_sequence (pb_with_height (pb_with_strategy (in_pb (su_child u)) gg) h) (Some seq)).
  { intros k Hk. cbn [pb_items pb_with_height pb_with_strategy].
    eapply (known_perm x u strategies workers_num); eassumption. }
  assert (Hcs : In strip_id (dkeys sol')) by (rewrite G4; apply dget_Some_In; eauto).
  apply dget_Some_In in Hcs. destruct Hcs as [csol' Hcs].
  rewrite <- (G5 _ _ _ Hcs H1) in H2.
  destruct (solve_inside ar _ _ Hpbv Hkn _ _ G3 strip_id csol' i e (dget_In _ _ _ Hcs) (dget_In _ _ _ H2))
    as [d [Hd Hin]]. cbn [pb_containers pb_with_height pb_with_strategy] in Hd. rewrite K2 in Hd.
  cbn [dget] in Hd. rewrite String.eqb_refl in Hd. injection Hd as <-. unfold inside in *.
  unfold available_height in Hin. cbn [dw dl pb_strip pb_height pb_with_height pb_with_strategy] in Hin.
  rewrite W4, Est in Hin. cbn [dw dl] in Hin. destruct (in_min x); lia.
Qed.
Print Assumptions C30_fits_workers_height_partial.

(** ** C50 with several workers: containers, strategy, heights and rotation stay; the items are
    the sorted and oriented ones. *)
Theorem C50_multi_configuration : forall ar, orderly ar -> forall x : inst ar, valid_inst ar x ->
  forall strategies workers_num u, strategies <> [] -> (0 < workers_num)%Q -> runs x strategies workers_num u ->
  forall s,
  let y := problem_now u s in
  pb_containers (in_pb y) = pb_containers (in_pb x) /\ pb_rotation (in_pb y) = pb_rotation (in_pb x) /\
  pb_strategy (in_pb y) = pb_strategy (in_pb x) /\ pb_strip (in_pb y) = pb_strip (in_pb x) /\
  pb_height (in_pb y) = pb_height (in_pb x) /\ in_min y = in_min x /\ in_cnum y = in_cnum x /\
  exists orientation sorting_by x2, prepared ar orientation sorting_by x x2 /\
    pb_items (in_pb y) = pb_items (in_pb x2).
Proof.
  intros ar [L V] x Hv strategies workers_num u Hne Hn Hr s y.
  destruct (runs_facts x Hv _ _ Hn u Hr) as [[o1 [sb Hprep]] _].
  destruct (prepared_kept _ _ _ _ _ Hprep) as [P1 [P2 [P3 [P4 [P5 [P6 P7]]]]]].
  assert (E : in_pb y = in_pb (su_parent u) /\ in_min y = in_min (su_parent u) /\ in_cnum y = in_cnum (su_parent u)).
  { unfold y, problem_now. destruct (s_parent s); repeat split. }
  destruct E as [E1 [E2 E3]]. rewrite E1, E2, E3.
  repeat (split; [assumption|]). exists o1, sb, (su_parent u). split; [assumption|reflexivity].
Qed.
Print Assumptions C50_multi_configuration.
