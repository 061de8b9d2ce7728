(** * Local search on an instance whose minimum height may exceed its height.

    A worker of a multi-process hypersearch starts from the initial height of a strip, ten times
    its width, with the user's minimum height (processes.py:55-61), so that the minimum may be
    above the height. *)
From Coq Require Import ZArith String List Bool Lia Permutation Factorial.
From Coq Require Import ZifyBool ZifyNat.
From Verif Require Import Py Arith Construct Spec Runs LocalSearch SpecSearch Perms
  ProofsPy ProofsGrid ProofsConstruct ProofsSolve ProofsPacking ProofsSolution ProofsValues
  ProofsLocalSearch ProofsSearchRun PropertiesSolve PropertiesSearch ProofsHyper.
Import ListNotations.
Open Scope Z_scope.

(** [valid_inst] without the comparison of the minimum height with the height. *)
Definition loose (ar : arith) (x : inst ar) : Prop :=
  valid_problem (in_pb x) /\
  (pb_strip (in_pb x) = true ->
     dkeys (pb_containers (in_pb x)) = [strip_id] /\ forall m, in_min x = Some m -> 1 <= m).

(** The largest height a search from [x] can be at. *)
Definition top {ar} (x : inst ar) : Z := min_height_max (in_min x) (pb_height (in_pb x)).

(** Heights it can be at. *)
Definition hloose {ar} (x : inst ar) (h : Z) : Prop :=
  if pb_strip (in_pb x) then 1 <= h <= top x else h = pb_height (in_pb x).

Lemma valid_loose ar (x : inst ar) : valid_inst ar x -> loose ar x.
Proof.
  intros [H1 H2]. split; [exact H1|]. intros Hs. destruct (H2 Hs) as [H3 H4]. split; [exact H3|].
  intros m Hm. apply H4 in Hm. lia.
Qed.

Lemma valid_top ar (x : inst ar) : valid_inst ar x -> pb_strip (in_pb x) = true -> top x = pb_height (in_pb x).
Proof.
  intros [_ H] Hs. destruct (H Hs) as [_ H2]. unfold top, min_height_max.
  destruct (in_min x) as [m|]; [|reflexivity]. specialize (H2 m eq_refl). lia.
Qed.

Section Loose.
Context (ar : arith) (x0 : inst ar) (Hl : loose ar x0).

Let pb0 := in_pb x0.
Let keys := dkeys (pb_items pb0).

Lemma hloose_start : hloose x0 (pb_height pb0).
Proof.
  destruct Hl as [[_ [_ [_ [_ Hh]]]] _]. unfold hloose, top, min_height_max, pb0 in *.
  destruct (pb_strip (in_pb x0)); [|reflexivity]. specialize (Hh eq_refl). destruct (in_min x0); lia.
Qed.

(** The same problem at height [h], without minimum. *)
Definition at_h (h : Z) : inst ar := mkInst (pb_with_height pb0 h) None (in_cnum x0) [] [] [].

Lemma at_h_valid h : hloose x0 h -> valid_inst ar (at_h h).
Proof.
  intros Hh. destruct Hl as [[Hi [Hc [H1 [H2 H3]]]] Hs]. unfold hloose, pb0 in *. split.
  - repeat (split; [assumption|]). cbn [at_h in_pb pb_strip pb_height pb_with_height]. intros E.
    fold pb0 in Hh. unfold pb0 in *. rewrite E in Hh. lia.
  - cbn [at_h in_pb pb_strip pb_containers pb_with_height in_min]. intros E. split; [apply (Hs E)|discriminate].
Qed.

Lemma at_h_hok h : hloose x0 h -> hok ar (at_h h) h.
Proof. intros Hh. exact (hok_start ar (at_h h) (at_h_valid h Hh)). Qed.

Lemma loose_total h seq : hloose x0 h -> Permutation seq keys ->
  exists sol objs v, constructed ar x0 h seq sol objs /\ value_is ar x0 objs v.
Proof.
  intros Hh Hp.
  destruct (constructed_total ar (at_h h) (at_h_valid h Hh) h seq (at_h_hok h Hh) Hp) as [sol [objs H]].
  destruct (objs_value ar (at_h h) (at_h_valid h Hh) h seq sol objs (at_h_hok h Hh) Hp H) as [v Hval].
  exists sol, objs, v. split; [exact H|exact Hval].
Qed.

Definition goodl (st : inst ar) : Prop := same_config ar x0 st /\ hloose x0 (pb_height (in_pb st)).

Lemma goodl_set_solution st sol objs : goodl st -> goodl (set_solution st sol objs).
Proof. intros [[H1 [H2 H3]] H4]. split; [split; [|split]|]; assumption. Qed.

Lemma loose_evaluate st seq : goodl st -> Permutation seq keys ->
  exists sol objs v, constructed ar x0 (pb_height (in_pb st)) seq sol objs /\
    value_is ar x0 objs v /\
    evaluate_node ar st seq = Ok (set_solution st sol objs) /\
    calculate_obj_value ar (set_solution st sol objs) = Ok v.
Proof.
  intros [[Hpb [Hm Hn]] Hh] Hp. destruct (loose_total _ _ Hh Hp) as [sol [objs [v [H Hval]]]].
  exists sol, objs, v. split; [assumption|]. split; [assumption|]. split.
  - unfold evaluate_node, inst_solve. rewrite Hpb. unfold constructed in H. rewrite H. reflexivity.
  - unfold calculate_obj_value. cbn. rewrite Hn. exact Hval.
Qed.

Lemma loose_get st seq sol objs : goodl st -> Permutation seq keys ->
  constructed ar x0 (pb_height (in_pb st)) seq sol objs ->
  get_solution ar (set_solution st sol objs) = Ok (copied ar x0 sol, objs).
Proof.
  intros [[Hpb _] Hh] Hp H.
  destruct (constructed_keys ar (at_h _) (at_h_valid _ Hh) _ seq sol objs (at_h_hok _ Hh) Hp H) as [K1 _].
  unfold get_solution. cbn [in_pb in_sol in_objs set_solution]. rewrite Hpb.
  change (deepcopy_solution (pb_with_height (in_pb x0) (pb_height (in_pb st))) sol)
    with (deepcopy_solution pb0 sol).
  rewrite deepcopy_solution_ok by exact K1. cbn [bind]. unfold copy_objs. rewrite map_id. reflexivity.
Qed.

Lemma loose_copied h seq sol objs : hloose x0 h -> Permutation seq keys ->
  constructed ar x0 h seq sol objs -> same_placements sol (copied ar x0 sol).
Proof. intros Hh Hp H. exact (copied_same ar (at_h h) (at_h_valid h Hh) h seq sol objs (at_h_hok h Hh) Hp H). Qed.

Lemma loose_strip h seq sol objs : pb_strip pb0 = true -> hloose x0 h -> Permutation seq keys ->
  constructed ar x0 h seq sol objs ->
  exists csol, sol = [(strip_id, csol)] /\ (forall i e, In (i, e) csol -> 1 <= e_y e + e_l e <= h).
Proof.
  intros Hs Hh Hp H.
  destruct (strip_csol ar (at_h h) (at_h_valid h Hh) h seq sol objs Hs (at_h_hok h Hh) Hp H)
    as [csol [W [_ [E [_ [_ [Hin _]]]]]]].
  exists csol. split; [exact E|]. intros i e He. apply Hin in He. unfold inside in He. lia.
Qed.

(** After an accepted evaluation. *)
Lemma loose_accept st seq sol objs v best : goodl st -> Permutation seq keys ->
  constructed ar x0 (pb_height (in_pb st)) seq sol objs ->
  exists b, compare_node ar (set_solution st sol objs) v best = Ok b /\
    (b = true -> ngtb ar v best = true /\
       exists st', extra_node_operations ar (set_solution st sol objs) = Ok st' /\ goodl st').
Proof.
  intros Hg Hp H. destruct Hg as [[Hpb [Hm Hn]] Hh] eqn:Eg. clear Eg.
  unfold compare_node, extra_node_operations. cbn [in_pb in_min in_sol set_solution].
  rewrite Hpb. cbn [pb_strip pb_items pb_with_height]. fold pb0.
  destruct (pb_strip pb0) eqn:Es; cbn [negb].
  - destruct (loose_strip _ _ _ _ Es Hh Hp H) as [csol [-> Hin]].
    unfold new_height. cbn [in_sol set_solution in_min]. unfold dget_r. cbn [dget]. rewrite String.eqb_refl. cbn [bind].
    assert (Hsh : solution_height csol = stack_height (entries csol)).
    { apply solution_height_eq. intros e He. unfold entries in He. apply in_map_iff in He.
      destruct He as [[i e'] [<- He]]. apply Hin in He. cbn [snd]. lia. }
    assert (Hge : forall i e, In (i, e) csol -> e_y e + e_l e <= solution_height csol).
    { intros i e He. rewrite Hsh. apply stack_height_ge. unfold entries. apply in_map_iff.
      exists (i, e). auto. }
    assert (Hh' : 1 <= pb_height (in_pb st) <= top x0).
    { unfold hloose in Hh. fold pb0 in Hh. rewrite Es in Hh. exact Hh. }
    assert (Hle : solution_height csol <= pb_height (in_pb st)).
    { rewrite Hsh. apply stack_height_le; [lia|]. intros e He. unfold entries in He.
      apply in_map_iff in He. destruct He as [[i e'] [<- He]]. apply Hin in He. cbn [snd]. lia. }
    set (nh := min_height_max (in_min st) (solution_height csol)).
    assert (G : 1 <= nh -> goodl (set_hist (set_height_to (set_solution st [(strip_id, csol)] objs) nh)
      (in_hist (set_height_to (set_solution st [(strip_id, csol)] objs) nh) ++ [nh]))).
    { intros H1. split.
      - unfold same_config. cbn [in_pb set_height_to set_hist pb_height pb_with_height in_min in_cnum set_solution].
        split; [rewrite Hpb; reflexivity|]. split; assumption.
      - unfold hloose. fold pb0. rewrite Es. cbn [in_pb set_height_to set_hist pb_height pb_with_height set_solution].
        split; [exact H1|]. unfold nh, top, min_height_max in *. rewrite Hm. destruct (in_min x0); lia. }
    rewrite Hm. destruct (in_min x0) as [m|] eqn:Em.
    + exists (ngtb ar v best). split; [reflexivity|]. intros Hb. split; [exact Hb|].
      eexists. split; [reflexivity|]. apply G. unfold nh. rewrite Hm. destruct Hl as [_ Hst]. destruct (Hst Es) as [_ Hmm]. specialize (Hmm m Em). cbn [min_height_max]. lia.
    + exists ((zlen csol =? zlen (pb_items pb0)) && ngtb ar v best). split; [reflexivity|].
      intros Hb. apply andb_true_iff in Hb. destruct Hb as [Hc Hb]. split; [exact Hb|].
      eexists. split; [reflexivity|]. apply G. unfold nh. rewrite Hm.
      destruct Hl as [[_ [_ [Hne _]]] _]. fold pb0 in Hne. cbn [min_height_max].
      destruct csol as [|[k e] t].
      * unfold zlen in Hc. destruct (pb_items pb0); [congruence|]. cbn [length] in Hc. lia.
      * specialize (Hge k e (or_introl eq_refl)). specialize (Hin k e (or_introl eq_refl)). lia.
  - exists (ngtb ar v best). split; [reflexivity|]. intros Hb. split; [exact Hb|].
    eexists. split; [reflexivity|]. apply goodl_set_solution. split; [split; [|split]|]; assumption.
Qed.

Section Node.
Context (oot : nat -> bool) (maxn : Z).
Notation node := (search_node (evaluate_node ar) (calculate_obj_value ar) (get_solution ar)
                    (compare_node ar) (extra_node_operations ar) (global_check ar) oot).
Notation loop := (search_loop (evaluate_node ar) (calculate_obj_value ar) (get_solution ar)
                    (compare_node ar) (extra_node_operations ar) (global_check ar) oot).

Definition heightl (st : inst ar) : Z := pb_height (in_pb st).

Lemma loose_node : forall swaps processed s, goodl (ls_st s) -> Permutation (ls_node s) keys ->
  (forall i j, In (i, j) swaps -> (i < j)%nat) ->
  exists s' nl, node swaps maxn processed s = Ok (s', nl) /\ goodl (ls_st s') /\
    Permutation (ls_node s') keys /\
    if nl_found nl
    then exists h sol objs, hloose x0 h /\ constructed ar x0 h (ls_node s') sol objs /\
           value_is ar x0 objs (ls_best s') /\ ngtb ar (ls_best s') (ls_best s) = true /\
           ls_ret s' = (copied ar x0 sol, objs)
    else ls_node s' = ls_node s /\ ls_best s' = ls_best s /\ ls_ret s' = ls_ret s.
Proof.
  induction swaps as [|[i j] swaps IH]; intros processed s Hg Hp Hsw; cbn [search_node].
  - eexists _, _. split; [reflexivity|]. cbn [nl_found]. auto.
  - assert (Hij : (i < j)%nat) by (apply Hsw; left; reflexivity).
    pose (cur := swap_at (ls_node s) i j).
    assert (Hcur : Permutation cur keys) by (unfold cur; rewrite swap_at_perm by assumption; exact Hp).
    destruct (loose_evaluate (ls_st s) cur Hg Hcur) as [sol [objs [v [Hc [Hval [He Hcalc]]]]]].
    destruct (loose_accept (ls_st s) cur sol objs v (ls_best s) Hg Hcur Hc) as [b [Hb Hacc]].
    fold cur. rewrite He. cbn [bind]. rewrite Hcalc. cbn [bind]. rewrite Hb. cbn [bind].
    destruct b.
    + destruct (Hacc eq_refl) as [Hgt [st' [Hx Hg']]].
      rewrite (loose_get (ls_st s) cur sol objs Hg Hcur Hc). cbn [bind]. rewrite Hx. cbn [bind].
      cbn [ls_best ls_clk ls_st ls_node ls_ret]. rewrite !orb_true_r. cbn [orb].
      eexists _, _. split; [reflexivity|]. cbn [ls_best ls_clk ls_st ls_node ls_ret nl_found].
      split; [exact Hg'|]. split; [exact Hcur|].
      exists (pb_height (in_pb (ls_st s))), sol, objs. split; [apply Hg|]. auto.
    + cbn [bind]. cbn [ls_best ls_clk ls_st ls_node ls_ret andb]. rewrite !orb_false_r.
      destruct (oot (ls_clk s) || (processed + 1 >=? maxn)).
      * eexists _, _. split; [reflexivity|]. cbn [ls_best ls_clk ls_st ls_node ls_ret nl_found].
        split; [apply goodl_set_solution; exact Hg|]. split; [exact Hp|]. auto.
      * set (s1 := mkLs (set_solution (ls_st s) sol objs) (ls_node s) (ls_best s) (ls_ret s)
                        (S (ls_clk s))).
        destruct (IH (processed + 1) s1) as [s' [nl [H1 [H2 [H3 H4]]]]].
        { apply goodl_set_solution. exact Hg. }
        { exact Hp. }
        { intros; apply Hsw; right; assumption. }
        exists s', nl. split; [exact H1|]. split; [exact H2|]. split; [exact H3|]. exact H4.
Qed.

(** The retained solution. *)
Definition retained (s : ls (num := num ar) (St := inst ar)) : Prop :=
  exists h sol objs, hloose x0 h /\ constructed ar x0 h (ls_node s) sol objs /\
    value_is ar x0 objs (ls_best s) /\ ls_ret s = (copied ar x0 sol, objs).

Definition evalsl : list (Z * list string) :=
  list_prod (if pb_strip pb0 then zrange 1 (top x0 + 1) else [pb_height pb0]) (permutations keys).

Lemma in_evalsl h seq : hloose x0 h -> Permutation seq keys -> In (h, seq) evalsl.
Proof.
  intros Hh Hp. unfold evalsl. apply in_prod.
  - unfold hloose in Hh. fold pb0 in Hh. destruct (pb_strip pb0).
    + apply in_zrange. lia.
    + left. symmetry. assumption.
  - apply in_permutations. assumption.
Qed.

Context (laws : arith_laws ar).

Lemma loose_loop swaps (Hsw : forall i j, In (i, j) swaps -> (i < j)%nat) :
  forall fuel visited s, goodl (ls_st s) -> Permutation (ls_node s) keys -> retained s ->
  NoDup visited -> incl visited evalsl ->
  (forall k v, In k visited -> eval_value ar x0 k v -> not_worse ar v (ls_best s)) ->
  (length evalsl - length visited < fuel)%nat ->
  exists s' log, loop fuel swaps maxn s = Ok (s', log) /\ goodl (ls_st s') /\
    Permutation (ls_node s') keys /\ retained s'.
Proof.
  induction fuel as [|fuel IH]; intros visited s Hg Hp Hr Hnd Hincl Hvis Hfuel; [lia|].
  destruct (loose_node swaps 0 s Hg Hp Hsw) as [s1 [nl [Hrun [Hg1 [Hp1 Hf]]]]].
  cbn [search_loop]. rewrite Hrun. cbn [bind].
  assert (Hr1 : retained s1).
  { destruct (nl_found nl).
    - destruct Hf as [h [sol [objs [F1 [F2 [F3 [F4 F5]]]]]]]. exists h, sol, objs. auto.
    - destruct Hf as [F1 [F2 F3]]. unfold retained. rewrite F1, F2, F3. exact Hr. }
  destruct (nl_found nl) eqn:Ef; cbn [andb].
  2:{ exists s1, [nl]. auto. }
  destruct (negb (nl_oot nl) && negb (nl_global nl)).
  2:{ exists s1, [nl]. auto. }
  destruct Hf as [h [sol [objs [F1 [F2 [F3 [F4 F5]]]]]]].
  pose (k := (h, ls_node s1)).
  assert (Hkv : eval_value ar x0 k (ls_best s1)) by (exists sol, objs; split; assumption).
  assert (Hnew : ~ In k visited).
  { intros C. pose proof (Hvis _ _ C Hkv) as Hw. destruct Hw as [Hw|Hw].
    - rewrite Hw in F4. rewrite (law_gt_irrefl _ laws) in F4. discriminate.
    - pose proof (law_gt_trans _ laws _ _ _ F4 Hw) as C2.
      rewrite (law_gt_irrefl _ laws) in C2. discriminate. }
  assert (Hnd' : NoDup (k :: visited)) by (constructor; assumption).
  assert (Hincl' : incl (k :: visited) evalsl).
  { intros z [<-|Hz]; [|apply Hincl; assumption]. apply in_evalsl; assumption. }
  destruct (IH (k :: visited) s1) as [s' [log [H1 H2]]]; try assumption.
  - intros z v [<-|Hz] Hev.
    + left. eapply eval_value_det; eassumption.
    + right. eapply not_worse_trans; [exact laws| |exact F4]. apply Hvis with (k := z); assumption.
  - pose proof (NoDup_incl_length Hnd' Hincl') as L. pose proof (NoDup_incl_length Hnd Hincl). cbn [length] in *. lia.
  - rewrite H1. cbn [bind]. exists s', (nl :: log). split; [reflexivity|exact H2].
Qed.
End Node.
End Loose.

(** ** The whole search *)
Section LooseSearch.
Context (ar : arith) (laws : arith_laws ar) (y : inst ar) (Hl : loose ar y).
Context (ck : clock) (limit : Z) (throttle : bool) (start : option Z) (clk : nat).

Lemma loose_search :
  exists fuel x1 clk1 log v sol',
    local_search_fuel ar fuel ck limit throttle start y clk = Ok (x1, clk1, log) /\
    loose ar x1 /\ same_config ar y x1 /\ hloose y (pb_height (in_pb x1)) /\
    calculate_obj_value ar x1 = Ok v /\
    get_solution ar x1 = Ok (sol', in_objs x1) /\ same_placements (in_sol x1) sol' /\
    exists h, hloose y h /\ made_by (in_pb y) h (sol', in_objs x1).
Proof.
  set (x1 := if pb_strip (in_pb y) then set_hist y [pb_height (in_pb y)] else y).
  assert (Hpb1 : in_pb x1 = in_pb y) by (unfold x1; destruct (pb_strip (in_pb y)); reflexivity).
  assert (Hg1 : goodl ar y x1).
  { split.
    - unfold same_config. rewrite Hpb1. split; [symmetry; apply pb_height_same|].
      unfold x1; destruct (pb_strip (in_pb y)); auto.
    - rewrite Hpb1. apply hloose_start with (ar := ar). assumption. }
  assert (Hn : NoDup (dkeys (pb_items (in_pb y)))) by apply Hl.
  destruct (loose_evaluate ar y Hl x1 (dkeys (pb_items (in_pb y))) Hg1 (Permutation_refl _))
    as [sol [objs [v [Hc [Hval [He Hcalc]]]]]].
  assert (Hsolve : solve ar (in_pb y) None = Ok (sol, objs)).
  { unfold constructed in Hc. rewrite Hpb1, pb_height_same in Hc.
    rewrite solve_default_sequence by assumption. exact Hc. }
  pose proof (loose_get ar y Hl x1 _ sol objs Hg1 (Permutation_refl _) Hc) as Hget.
  set (st0 := set_solution x1 sol objs) in *.
  set (first := match start with None => S clk | Some _ => clk end).
  set (begin := match start with None => ck clk | Some t => t end).
  set (s0 := mkLs st0 (dkeys (pb_items (in_pb y))) v (copied ar y sol, objs) first).
  set (n := length (pb_items (in_pb y))).
  assert (Hklen : length (dkeys (pb_items (in_pb y))) = n) by (unfold dkeys; apply map_length).
  assert (Hgst0 : goodl ar y st0) by (apply goodl_set_solution; assumption).
  assert (Hh0 : hloose y (pb_height (in_pb x1))) by apply Hg1.
  assert (Hr0 : retained ar y s0).
  { exists (pb_height (in_pb x1)), sol, objs. cbn [ls_node ls_best ls_ret s0]. auto. }
  destruct (loose_loop ar y Hl (out_of_time ck begin limit)
              (get_max_neighbors_num throttle (Z.of_nat n)) laws (index_swaps n))
    with (fuel := S (length (evalsl ar y)))
      (visited := [(pb_height (in_pb x1), dkeys (pb_items (in_pb y)))]) (s := s0)
    as [s [log [Hloop [Hg [Hp Hr]]]]].
  - intros i j Hin. apply in_index_swaps in Hin. lia.
  - assumption.
  - apply Permutation_refl.
  - assumption.
  - repeat constructor. intros [].
  - intros k [<-|[]]. apply in_evalsl; [exact Hh0|apply Permutation_refl].
  - intros k v' [<-|[]] Hev. left. eapply eval_value_det; [exact Hev|].
    exists sol, objs. split; assumption.
  - lia.
  - destruct Hr as [h [sol1 [objs1 [R1 [R2 [R3 R4]]]]]].
    pose proof (loose_copied ar y Hl h _ _ _ R1 Hp R2) as Hsame.
    assert (Hk1 : dkeys (copied ar y sol1) = dkeys (pb_containers (in_pb y))).
    { unfold copied. unfold dkeys at 1. rewrite map_map, map_id. reflexivity. }
    destruct Hg as [Hcfg Hh]. pose proof Hcfg as [C1 [C2 C3]].
    assert (E1 : pb_items (in_pb (ls_st s)) = pb_items (in_pb y)) by (rewrite C1; reflexivity).
    assert (E2 : pb_containers (in_pb (ls_st s)) = pb_containers (in_pb y)) by (rewrite C1; reflexivity).
    assert (Hsub : forall cid csol i, dget (copied ar y sol1) cid = Some csol -> In i (dkeys csol) ->
              In i (dkeys (pb_items (in_pb y)))).
    { intros cid csol i H1 H2. apply dget_In in H1. unfold copied in H1. apply in_map_iff in H1.
      destruct H1 as [cid' [[= <- <-] _]]. unfold deepcopy_container in H2. unfold dkeys at 1 in H2. rewrite concat_map in H2.
      apply in_concat in H2. destruct H2 as [l [Hin1 Hin2]]. rewrite map_map in Hin1. apply in_map_iff in Hin1.
      destruct Hin1 as [i' [<- Hi']]. destruct (dget _ i'); [|destruct Hin2].
      destruct Hin2 as [<-|[]]. exact Hi'. }
    set (x2 := set_solution (ls_st s) (copied ar y sol1) objs1).
    assert (Hk2 : dkeys (in_sol x2) = dkeys (pb_containers (in_pb x2))).
    { cbn [x2 in_sol in_pb set_solution]. rewrite E2. exact Hk1. }
    pose proof (deepcopy_solution_ok (in_pb x2) (in_sol x2) Hk2) as Hcopy.
    assert (Hsame2 : same_placements (in_sol x2) (map (fun cid => (cid, deepcopy_container (pb_items (in_pb x2))
                                match dget (in_sol x2) cid with Some c => c | None => [] end))
            (dkeys (pb_containers (in_pb x2))))).
    { refine (deepcopy_same (in_pb x2) (in_sol x2) _ _ Hk2 _ Hcopy).
      - cbn [x2 in_pb set_solution]. rewrite E1. exact Hn.
      - cbn [x2 in_pb in_sol set_solution]. rewrite E1. exact Hsub. }
    eexists (fun _ => S (length (evalsl ar y))), x2, (ls_clk s), log, (ls_best s), _.
    split.
    { unfold local_search_fuel.
      replace (match start with None => (ck clk, S clk) | Some t => (t, clk) end)
        with (begin, first) by (unfold begin, first; destruct start; reflexivity).
      fold x1. unfold abstract_local_search.
      unfold get_init_solution, inst_solve. rewrite Hpb1, Hsolve. cbn [bind]. fold st0.
      rewrite Hget. cbn [bind]. rewrite Hcalc. cbn [bind]. rewrite Hklen.
      fold s0. rewrite Hloop. cbn [bind]. rewrite R4. reflexivity. }
    split.
    { destruct Hl as [[V1 [V2 [V3 [V4 V5]]]] V6]. split.
      - cbn [x2 in_pb set_solution]. rewrite C1. repeat (split; [assumption|]).
        cbn [pb_strip pb_height pb_with_height]. intros Es. unfold hloose in Hh. rewrite Es in Hh. lia.
      - cbn [x2 in_pb in_min set_solution]. rewrite C2, E2. rewrite C1. exact V6. }
    split; [exact Hcfg|]. split; [exact Hh|]. split.
    { unfold calculate_obj_value. cbn [x2 in_cnum in_objs set_solution]. rewrite C3. exact R3. }
    split.
    { unfold get_solution. rewrite Hcopy. cbn [bind]. unfold copy_objs. rewrite map_id. reflexivity. }
    split; [exact Hsame2|]. exists h. split; [exact R1|].
    exists (ls_node s), sol1. cbn [fst snd x2 in_objs set_solution]. split; [exact Hp|]. split; [exact R2|].
    eapply same_placements_trans; [exact Hsame|exact Hsame2].
Qed.
End LooseSearch.

(** Two bounds on the number of nodes under which a search ends give the same result. *)
Lemma local_search_fuels ar fuel fuel' ck limit throttle start x clk r r' :
  local_search_fuel ar fuel ck limit throttle start x clk = Ok r ->
  local_search_fuel ar fuel' ck limit throttle start x clk = Ok r' -> r = r'.
Proof.
  unfold local_search_fuel.
  destruct (match start with None => _ | Some t => _ end) as [st clk1].
  set (x1 := if pb_strip (in_pb x) then set_hist x [pb_height (in_pb x)] else x).
  unfold abstract_local_search.
  destruct (get_init_solution ar x1) as [[x2 ret]|]; [|discriminate]. cbn [bind].
  destruct (calculate_obj_value ar x2) as [best|]; [|discriminate]. cbn [bind].
  match goal with |- bind ?e _ = _ -> bind ?e' _ = _ -> _ =>
    destruct e as [[s nl]|] eqn:E1; [|discriminate]; destruct e' as [[s' nl']|] eqn:E2; [|discriminate] end.
  cbn [bind]. apply (search_loop_more _ _ _ _ _ _ _ _ _ _ (fuel' x1)) in E1.
  apply (search_loop_more _ _ _ _ _ _ _ _ _ _ (fuel x1)) in E2.
  rewrite Nat.add_comm in E2. rewrite E1 in E2. injection E2 as <- <-.
  destruct (ls_ret s) as [sol objs]. intros [= <-] [= <-]. reflexivity.
Qed.

(** Every run that ends. *)
Lemma loose_search_run ar (laws : arith_laws ar) y fuel ck limit throttle start clk x1 clk1 log :
  loose ar y -> local_search_fuel ar fuel ck limit throttle start y clk = Ok (x1, clk1, log) ->
  loose ar x1 /\ same_config ar y x1 /\ hloose y (pb_height (in_pb x1)) /\
  exists sol', get_solution ar x1 = Ok (sol', in_objs x1) /\
    exists h, hloose y h /\ made_by (in_pb y) h (sol', in_objs x1).
Proof.
  intros Hl H.
  destruct (loose_search ar laws y Hl ck limit throttle start clk)
    as [f [x2 [c2 [l2 [v [sol' [H2 [L1 [L2 [L3 [_ [L5 [_ L6]]]]]]]]]]]]].
  pose proof (local_search_fuels _ _ _ _ _ _ _ _ _ _ _ H H2) as E. injection E as -> _ _.
  split; [exact L1|]. split; [exact L2|]. split; [exact L3|]. exists sol'. auto.
Qed.
