(** * Properties of [local_search()]: C14-C22, C49, C53. *)
From Coq Require Import ZArith String List Bool QArith Lia Permutation Factorial Sorted.
From Coq Require Import ZifyBool ZifyNat.
From Verif Require Import Py Arith FloatArith FloatLaws Construct Spec Runs LocalSearch SpecSearch Perms
  ProofsPy ProofsConstruct ProofsSolve ProofsPacking ProofsSolution ProofsValues
  ProofsLocalSearch ProofsSearchRun PropertiesSolve.
Import ListNotations.
Open Scope string_scope.
Open Scope list_scope.
Open Scope Z_scope.

(** ** Concrete instances *)
Definition fresh (pb : problem) (m : option Z) : inst qarith :=
  mkInst pb m (zlen (pb_containers pb)) [] [] [].

Definition bin_demo : inst qarith := fresh {|
  pb_containers := [("bin-1", mkDims 3 3); ("bin-2", mkDims 3 2)];
  pb_items := [("a", mkDims 1 1); ("b", mkDims 1 1); ("c", mkDims 2 2); ("d", mkDims 1 3)];
  pb_rotation := true; pb_strategy := default_strategy; pb_strip := false; pb_height := 0 |} None.

Definition strip_demo : inst qarith := fresh {|
  pb_containers := [("strip-pack-container", mkDims 4 40)];
  pb_items := [("a", mkDims 2 1); ("b", mkDims 2 2); ("c", mkDims 2 3)];
  pb_rotation := true; pb_strategy := default_strategy; pb_strip := true; pb_height := 5 |} None.

Example bin_demo_valid : valid_inst qarith bin_demo.
Proof. split; [valid_demo|discriminate]. Qed.
Example strip_demo_valid : valid_inst qarith strip_demo.
Proof. split; [valid_demo|]. split; [reflexivity|discriminate]. Qed.

(** A clock that never moves, and one that ticks at every reading. *)
Definition frozen : clock := fun _ => 0.
Definition ticking : clock := fun n => Z.of_nat n.

(** Three nodes, two moves, six clock readings per full node. *)
(** Three nodes, two moves to better sequences. *)
Example bin_demo_search :
  exists y, local_search qarith frozen 60 true None bin_demo 0 =
              Ok (y, 12%nat, [mkLog (61 # 60) 2 false false true;
                              mkLog (46 # 45) 3 false false true;
                              mkLog (46 # 45) 6 false false false]) /\
    in_objs y = [("bin-1", 5 # 9); ("bin-2", 2 # 3)].
Proof. eexists. split; vm_compute; reflexivity. Qed.

(** The limit of 3 ticks strikes at the fourth reading. *)
Example bin_demo_timeout :
  exists y, local_search qarith ticking 3 true None bin_demo 0 =
              Ok (y, 4%nat, [mkLog (61 # 60) 2 false false true;
                             mkLog (61 # 60) 1 true false false]).
Proof. eexists. vm_compute; reflexivity. Qed.

(** The strip gets lower: 5, then 4, then 3. *)
Example strip_demo_search :
  exists y, local_search qarith frozen 60 true None strip_demo 0 =
              Ok (y, 10%nat, [mkLog 1%Q 3 false false true; mkLog (3 # 2) 3 false false true;
                              mkLog (3 # 2) 3 false false false]) /\
    in_hist y = [5; 4; 3] /\ pb_height (in_pb y) = 3.
Proof. eexists. split; [vm_compute; reflexivity|]. split; vm_compute; reflexivity. Qed.

Section Statements.
Context (ar : arith) (laws : arith_laws ar) (x : inst ar) (Hv : valid_inst ar x).
Context (ck : clock) (limit : Z) (throttle : bool) (start : option Z) (clk : nat).

Lemma run_of y clk' log :
  local_search ar ck limit throttle start x clk = Ok (y, clk', log) ->
  exists s0 s, y = set_solution (ls_st s) (fst (ls_ret s)) (snd (ls_ret s)) /\ clk' = ls_clk s /\
    initial ar x start clk s0 /\ inv ar x s0 /\
    loop_run ar x (out_of_time ck (search_start ck start clk) limit)
             (get_max_neighbors_num throttle (zlen (pb_items (in_pb x))))
             (index_swaps (length (pb_items (in_pb x)))) s0 s log /\
    (length log <= length (evals ar x))%nat.
Proof.
  intros H. destruct (local_search_run ar laws x Hv ck limit throttle start clk)
    as [s0 [s [log' [H1 [H2 [H3 [H4 H5]]]]]]].
  rewrite H1 in H. injection H as <- <- <-. exists s0, s. auto 10.
Qed.

Lemma inv_facts s : inv ar x s ->
  let y := set_solution (ls_st s) (fst (ls_ret s)) (snd (ls_ret s)) in
  same_config ar x y /\ Permutation (ls_node s) (dkeys (pb_items (in_pb x))) /\
  calculate_obj_value ar y = Ok (ls_best s) /\
  exists h sol, hok ar x h /\ pb_height (in_pb y) <= h /\
    constructed ar x h (ls_node s) sol (in_objs y) /\ same_placements sol (in_sol y) /\
    in_sol y = copied ar x sol /\
    under ar x (pb_height (in_pb y)) sol.
Proof.
  intros [[Hc Hh] Hp [h [sol [objs [Q1 [Q2 [Q3 [Q4 [Q5 Q6]]]]]]]] _] y.
  split; [destruct Hc as [A [B C]]; split; [|split]; assumption|]. split; [assumption|].
  unfold y. rewrite Q5. cbn [fst snd]. split.
  - unfold calculate_obj_value. cbn [in_cnum in_objs set_solution].
    destruct Hc as [_ [_ ->]]. exact Q4.
  - exists h, sol. split; [assumption|]. split; [assumption|]. split; [assumption|].
    split; [|split; [reflexivity|assumption]]. eapply (copied_same ar x Hv); eassumption.
Qed.

Lemma same_placements_in sol sol' cid csol' i e :
  same_placements sol sol' -> dget sol' cid = Some csol' -> dget csol' i = Some e ->
  exists csol, dget sol cid = Some csol /\ dget csol i = Some e.
Proof.
  intros [H1 [H2 _]] H3 H4. assert (In cid (dkeys sol)) as Hin.
  { rewrite H1. apply dget_Some_In. eauto. }
  apply dget_Some_In in Hin. destruct Hin as [csol Hc]. exists csol. split; [assumption|].
  rewrite (H2 cid csol csol' Hc H3 i). assumption.
Qed.
End Statements.

(** ** C14. [new] is [best] or strictly larger in the arithmetic of the program. *)
Definition at_least (ar : arith) (new base : num ar) : Prop := new = base \/ ngtb ar new base = true.

Theorem C14_never_worse_than_initial : forall ar, arith_laws ar ->
  forall x, valid_inst ar x -> forall ck limit throttle start clk y clk' log,
  local_search ar ck limit throttle start x clk = Ok (y, clk', log) ->
  exists sol0 objs0 v0 v, solve ar (in_pb x) None = Ok (sol0, objs0) /\
    obj_value ar (in_cnum x) (dvals objs0) = Ok v0 /\
    calculate_obj_value ar y = Ok v /\ at_least ar v v0.
Proof.
  intros ar laws x Hv ck limit throttle start clk y clk' log H.
  destruct (run_of ar laws x Hv ck limit throttle start clk y clk' log H)
    as [s0 [s [-> [-> [I0 [Hi0 [R _]]]]]]].
  destruct (in0_sol _ _ _ _ _ I0) as [sol [objs [S1 [S2 S3]]]].
  exists sol, objs, (ls_best s0), (ls_best s). split; [assumption|]. split; [exact S2|].
  split; [apply (inv_facts ar x Hv s (lr_inv _ _ _ _ _ _ _ _ R))|].
  destruct (lr_value _ _ _ _ _ _ _ _ R) as [E|E]; [left; symmetry; assumption|right; assumption].
Qed.
Print Assumptions C14_never_worse_than_initial.

(** In exact arithmetic it is [v0 <= v]; the laws also hold for IEEE doubles. *)
Corollary C14_exact : forall x, valid_inst qarith x ->
  forall ck limit throttle start clk y clk' log,
  local_search qarith ck limit throttle start x clk = Ok (y, clk', log) ->
  exists sol0 objs0 v0 v, solve qarith (in_pb x) None = Ok (sol0, objs0) /\
    obj_value qarith (in_cnum x) (dvals objs0) = Ok v0 /\
    calculate_obj_value qarith y = Ok v /\ (v0 <= v)%Q.
Proof.
  intros x Hv ck limit throttle start clk y clk' log H.
  destruct (C14_never_worse_than_initial qarith qarith_laws x Hv _ _ _ _ _ _ _ _ H)
    as [sol0 [objs0 [v0 [v [H1 [H2 [H3 H4]]]]]]].
  exists sol0, objs0, v0, v. repeat (split; [assumption|]).
  destruct H4 as [->|H4]; [apply Qle_refl|].
  cbn in H4. unfold Qgtb in H4. destruct (Qle_bool v v0) eqn:E; [discriminate|].
  apply Qlt_le_weak, Qnot_le_lt. intros C. apply Qle_bool_iff in C. congruence.
Qed.
Print Assumptions C14_exact.

Corollary C14_doubles : forall x, valid_inst farith x ->
  forall ck limit throttle start clk y clk' log,
  local_search farith ck limit throttle start x clk = Ok (y, clk', log) ->
  exists sol0 objs0 v0 v, solve farith (in_pb x) None = Ok (sol0, objs0) /\
    obj_value farith (in_cnum x) (dvals objs0) = Ok v0 /\
    calculate_obj_value farith y = Ok v /\ (v = v0 \/ PrimFloat.ltb v0 v = true).
Proof. exact (C14_never_worse_than_initial farith farith_laws). Qed.
Print Assumptions C14_doubles.

(** ** C15 *)
Theorem C15_genuine_construction : forall ar, arith_laws ar ->
  forall x, valid_inst ar x -> forall ck limit throttle start clk y clk' log,
  local_search ar ck limit throttle start x clk = Ok (y, clk', log) ->
  exists seq h sol,
    Permutation seq (dkeys (pb_items (in_pb x))) /\
    solve ar (pb_with_height (in_pb x) h) (Some seq) = Ok (sol, in_objs y) /\
    same_placements sol (in_sol y) /\
    (if pb_strip (in_pb x) then pb_height (in_pb y) <= h <= pb_height (in_pb x)
     else h = pb_height (in_pb x)).
Proof.
  intros ar laws x Hv ck limit throttle start clk y clk' log H.
  destruct (run_of ar laws x Hv ck limit throttle start clk y clk' log H)
    as [s0 [s [-> [-> [I0 [Hi0 [R _]]]]]]].
  destruct (inv_facts ar x Hv s (lr_inv _ _ _ _ _ _ _ _ R))
    as [F1 [F2 [F3 [h [sol [F4 [F5 [F6 [F7 [F8 F9]]]]]]]]]].
  exists (ls_node s), h, sol. split; [assumption|]. split; [exact F6|]. split; [exact F7|].
  unfold hok in F4. destruct (pb_strip (in_pb x)); [|assumption]. lia.
Qed.
Print Assumptions C15_genuine_construction.

(** The placement guarantees carry over: ids, positions inside the containers, dimensions. *)
Theorem C15_placements : forall ar, arith_laws ar ->
  forall x, valid_inst ar x -> forall ck limit throttle start clk y clk' log,
  local_search ar ck limit throttle start x clk = Ok (y, clk', log) ->
  dkeys (in_sol y) = dkeys (pb_containers (in_pb x)) /\
  forall cid csol i e, dget (in_sol y) cid = Some csol -> dget csol i = Some e ->
    exists c d, dget (pb_containers (in_pb x)) cid = Some c /\
      dget (pb_items (in_pb x)) i = Some d /\
      inside (dw c) (if pb_strip (in_pb x) then pb_height (in_pb y) else dl c) e /\
      stores (pb_rotation (in_pb x)) d e /\
      (forall cid' csol', dget (in_sol y) cid' = Some csol' -> In i (dkeys csol') -> cid' = cid).
Proof.
  intros ar laws x Hv ck limit throttle start clk y clk' log H.
  destruct (run_of ar laws x Hv ck limit throttle start clk y clk' log H)
    as [s0 [s [-> [-> [I0 [Hi0 [R _]]]]]]].
  destruct (inv_facts ar x Hv s (lr_inv _ _ _ _ _ _ _ _ R))
    as [F1 [F2 [F3 [h [sol [F4 [F5 [F6 [F7 [F8 F9]]]]]]]]]].
  set (y := set_solution (ls_st s) (fst (ls_ret s)) (snd (ls_ret s))) in *.
  pose proof (constructed_keys ar x Hv _ _ _ _ F4 F2 F6) as [K1 [K2 [K3 K4]]].
  split; [rewrite <- (proj1 F7); assumption|].
  intros cid csol' i e H1 H2.
  destruct (same_placements_in _ _ _ _ _ _ F7 H1 H2) as [csol [H3 H4]].
  pose proof (dget_In _ _ _ H3) as H3'. pose proof (dget_In _ _ _ H4) as H4'.
  destruct (solve_inside ar _ _ (valid_at ar x Hv h F4) (known_at ar x h _ F2) _ _ F6 cid csol i e H3' H4')
    as [c [Hc Hin]].
  destruct (solve_stores ar _ _ (valid_at ar x Hv h F4) (known_at ar x h _ F2) _ _ F6 cid csol i e H3' H4')
    as [d [Hd Hst]].
  exists c, d. split; [exact Hc|]. split; [exact Hd|]. split; [|split; [exact Hst|]].
  - unfold available_height in Hin. cbn [pb_strip pb_height pb_with_height] in Hin.
    destruct (pb_strip (in_pb x)) eqn:Es; [|exact Hin].
    specialize (F9 Es cid csol i e H3' H4'). unfold inside in *. lia.
  - intros cid' csol'' H5 H6. apply dget_Some_In in H6. destruct H6 as [e' H6].
    destruct (same_placements_in _ _ _ _ _ _ F7 H5 H6) as [csol2 [H7 H8]].
    (* the ids stored in two containers are disjoint *)
    destruct (string_dec cid' cid) as [E|Hne]; [assumption|]. exfalso.
    apply dget_In in H7. apply dget_In in H8.
    assert (Ga : In i (dkeys csol)) by (apply in_map_iff; exists (i, e); auto).
    assert (Gb : In i (dkeys csol2)) by (apply in_map_iff; exists (i, e'); auto).
    clear - K3 H3' H7 Ga Gb Hne. unfold stored_ids in K3.
    induction sol as [|[k c0] t IH]; [destruct H3'|]. simpl in K3. apply NoDup_app_iff in K3.
    destruct K3 as [N1 [N2 N3]].
    assert (Hin : forall cs k', In (k', cs) t -> In i (dkeys cs) ->
              In i (concat (map (fun kc => dkeys (snd kc)) t))).
    { intros cs k' Hk Hi. apply in_concat. exists (dkeys cs). split; [|assumption].
      apply in_map_iff. exists (k', cs). auto. }
    destruct H3' as [E1|H3'], H7 as [E2|H7].
    + congruence.
    + injection E1 as -> ->. apply (N3 i Ga). eapply Hin; eassumption.
    + injection E2 as -> ->. apply (N3 i Gb). eapply Hin; eassumption.
    + apply IH; assumption.
Qed.
Print Assumptions C15_placements.

(** Nothing but the solution, the values and the strip height changes. *)
Theorem C15_configuration_kept : forall ar, arith_laws ar ->
  forall x, valid_inst ar x -> forall ck limit throttle start clk y clk' log,
  local_search ar ck limit throttle start x clk = Ok (y, clk', log) ->
  pb_items (in_pb y) = pb_items (in_pb x) /\ pb_containers (in_pb y) = pb_containers (in_pb x) /\
  pb_rotation (in_pb y) = pb_rotation (in_pb x) /\ pb_strategy (in_pb y) = pb_strategy (in_pb x) /\
  pb_strip (in_pb y) = pb_strip (in_pb x) /\ in_min y = in_min x /\ in_cnum y = in_cnum x /\
  (pb_strip (in_pb x) = false -> pb_height (in_pb y) = pb_height (in_pb x)).
Proof.
  intros ar laws x Hv ck limit throttle start clk y clk' log H.
  destruct (run_of ar laws x Hv ck limit throttle start clk y clk' log H)
    as [s0 [s [-> [-> [I0 [Hi0 [R _]]]]]]].
  pose proof (lr_inv _ _ _ _ _ _ _ _ R) as Hi.
  destruct (inv_facts ar x Hv s Hi) as [[E [E2 E3]] _]. rewrite E. cbn.
  repeat (split; [solve [reflexivity | assumption]|]). intros Hs.
  destruct (iv_good _ _ _ Hi) as [_ Hh]. unfold hok in Hh. rewrite Hs in Hh. exact Hh.
Qed.
Print Assumptions C15_configuration_kept.

(** ** C16: whatever the clock does, in particular if it stands still. *)
Theorem C16_terminates : forall ar, arith_laws ar ->
  forall x, valid_inst ar x -> forall ck limit throttle start clk,
  exists y clk' log, local_search ar ck limit throttle start x clk = Ok (y, clk', log) /\
    (pb_strip (in_pb x) = false -> (length log <= fact (length (pb_items (in_pb x))))%nat) /\
    (pb_strip (in_pb x) = true ->
       (length log <= Z.to_nat (pb_height (in_pb x)) * fact (length (pb_items (in_pb x))))%nat).
Proof.
  intros ar laws x Hv ck limit throttle start clk.
  destruct (local_search_run ar laws x Hv ck limit throttle start clk)
    as [s0 [s [log [H1 [H2 [H3 [H4 H5]]]]]]].
  eexists _, _, log. split; [exact H1|]. rewrite evals_length in H5.
  split; intros Hs; rewrite Hs in H5; lia.
Qed.
Print Assumptions C16_terminates.

(** The bound on the number of nodes used to write the [while] loop down as a function plays
    no role: any larger bound gives the same run. *)
Lemma search_loop_more : forall (num St Sol : Type) ev cv gs cn en gc oot n fuel swaps maxn s s' log,
  search_loop (num := num) (St := St) (Sol := Sol) ev cv gs cn en gc oot fuel swaps maxn s = Ok (s', log) ->
  search_loop ev cv gs cn en gc oot (n + fuel) swaps maxn s = Ok (s', log).
Proof.
  intros num St Sol ev cv gs cn en gc oot n fuel. induction fuel as [|fuel IH]; [discriminate|].
  intros swaps maxn s s' log. rewrite Nat.add_succ_r. cbn [search_loop].
  destruct (search_node ev cv gs cn en gc oot swaps maxn 0 s) as [[s1 nl]|e]; [|discriminate].
  cbn [bind]. destruct (nl_found nl && negb (nl_oot nl) && negb (nl_global nl)); [|auto].
  destruct (search_loop ev cv gs cn en gc oot fuel swaps maxn s1) as [[s2 nls]|e] eqn:E; [|discriminate].
  rewrite (IH _ _ _ _ _ E). auto.
Qed.

(** ** C17 *)
Theorem C17_local_optimum : forall ar, arith_laws ar ->
  forall x, valid_inst ar x -> forall ck limit throttle start clk y clk' log,
  local_search ar ck limit throttle start x clk = Ok (y, clk', log) ->
  (forall nl, In nl log -> nl_oot nl = false) ->
  (throttle = false \/
   zlen (pb_items (in_pb x)) * (zlen (pb_items (in_pb x)) - 1) / 2 <= 2500) ->
  exists seq h sol v,
    (* the final sequence, whose construction is the solution *)
    Permutation seq (dkeys (pb_items (in_pb x))) /\
    solve ar (pb_with_height (in_pb x) h) (Some seq) = Ok (sol, in_objs y) /\
    same_placements sol (in_sol y) /\ calculate_obj_value ar y = Ok v /\
    (* no exchange of two of its items is an acceptable improvement *)
    forall i j, (i < j < length seq)%nat ->
      forall sol' objs' v',
        solve ar (in_pb y) (Some (swap_at seq i j)) = Ok (sol', objs') ->
        obj_value ar (in_cnum x) (dvals objs') = Ok v' ->
        ~ (ngtb ar v' v = true /\
           (pb_strip (in_pb x) = true -> in_min x = None -> strip_full ar x sol')).
Proof.
  intros ar laws x Hv ck limit throttle start clk y clk' log H Hoot Hth.
  destruct (run_of ar laws x Hv ck limit throttle start clk y clk' log H)
    as [s0 [s [-> [-> [I0 [Hi0 [R _]]]]]]].
  destruct (inv_facts ar x Hv s (lr_inv _ _ _ _ _ _ _ _ R))
    as [F1 [F2 [F3 [h [sol [F4 [F5 [F6 [F7 [F8 F9]]]]]]]]]].
  exists (ls_node s), h, sol, (ls_best s).
  split; [assumption|]. split; [exact F6|]. split; [exact F7|]. split; [exact F3|].
  intros i j Hij sol' objs' v' Hs Hval.
  assert (Hlen : length (ls_node s) = length (pb_items (in_pb x))).
  { rewrite (Permutation_length F2). unfold dkeys. apply map_length. }
  refine (lr_opt _ _ _ _ _ _ _ _ R Hoot _ (i, j) _ sol' objs' v' _ Hval).
  - unfold get_max_neighbors_num.
    replace (zlen (index_swaps (length (pb_items (in_pb x)))))
      with (zlen (pb_items (in_pb x)) * (zlen (pb_items (in_pb x)) - 1) / 2)
      by (unfold zlen; rewrite index_swaps_length; reflexivity).
    unfold max_neighbors_throttle.
    destruct Hth as [->|Hth]; cbn [andb]; [lia|].
    destruct (throttle && _) eqn:E; [|lia]. lia.
  - apply in_index_swaps. lia.
  - cbn [fst snd]. unfold constructed. destruct F1 as [F1 _]. cbn [in_pb set_solution] in F1, Hs.
    unfold height. rewrite <- F1. exact Hs.
Qed.
Print Assumptions C17_local_optimum.

(** ** C18. Every evaluated neighbour is followed by one reading of the clock. *)
Theorem C18_throttle : forall ar, arith_laws ar ->
  forall x, valid_inst ar x -> forall ck limit throttle start clk y clk' log,
  local_search ar ck limit throttle start x clk = Ok (y, clk', log) ->
  (forall nl, In nl log ->
     0 <= nl_processed nl <= zlen (pb_items (in_pb x)) * (zlen (pb_items (in_pb x)) - 1) / 2 /\
     (throttle = true -> nl_processed nl <= 2500)) /\
  Z.of_nat clk' = Z.of_nat (match start with None => S clk | Some _ => clk end) +
                  fold_right (fun nl n => nl_processed nl + n) 0 log.
Proof.
  intros ar laws x Hv ck limit throttle start clk y clk' log H.
  destruct (run_of ar laws x Hv ck limit throttle start clk y clk' log H)
    as [s0 [s [-> [-> [I0 [Hi0 [R _]]]]]]]. split.
  - intros nl Hin. pose proof (lr_processed _ _ _ _ _ _ _ _ R nl Hin) as Hp.
    replace (zlen (index_swaps (length (pb_items (in_pb x)))))
      with (zlen (pb_items (in_pb x)) * (zlen (pb_items (in_pb x)) - 1) / 2) in Hp
      by (unfold zlen; rewrite index_swaps_length; reflexivity).
    split; [lia|]. intros ->. unfold get_max_neighbors_num, max_neighbors_throttle in Hp.
    cbn [andb] in Hp. destruct (_ >? 2500) eqn:E in Hp; lia.
  - rewrite (lr_clk _ _ _ _ _ _ _ _ R), (in0_clk _ _ _ _ _ I0). reflexivity.
Qed.
Print Assumptions C18_throttle.

(** ** C19. Reading number [k] happens after the evaluation number [k - first]. *)
Theorem C19_time_limit : forall ar, arith_laws ar ->
  forall x, valid_inst ar x -> forall ck limit throttle start clk y clk' log,
  local_search ar ck limit throttle start x clk = Ok (y, clk', log) ->
  let t0 := match start with None => ck clk | Some t => t end in
  let first := match start with None => S clk | Some _ => clk end in
  (* every reading but the last one is before the limit *)
  (forall k, (first <= k)%nat -> (S k < clk')%nat -> ck k - t0 < limit) /\
  (* hence at most one evaluation ends after the limit *)
  (length (filter (fun k => limit <=? ck k - t0)%Z (seq first (clk' - first))) <= 1)%nat /\
  (* and a reading after the limit ends the search *)
  (forall k, (first <= k < clk')%nat -> limit <= ck k - t0 -> clk' = S k).
Proof.
  intros ar laws x Hv ck limit throttle start clk y clk' log H t0 first.
  destruct (run_of ar laws x Hv ck limit throttle start clk y clk' log H)
    as [s0 [s [-> [-> [I0 [Hi0 [R _]]]]]]].
  assert (G : forall k, (first <= k)%nat -> (S k < ls_clk s)%nat -> ck k - t0 < limit).
  { intros k H1 H2. pose proof (lr_before _ _ _ _ _ _ _ _ R k) as Hb.
    rewrite (in0_clk _ _ _ _ _ I0) in Hb. specialize (Hb H1 H2). unfold out_of_time in Hb.
    fold t0 in Hb. unfold search_start in Hb. fold t0 in Hb. lia. }
  split; [exact G|]. split.
  - destruct (ls_clk s - first)%nat as [|n] eqn:En; [simpl; lia|].
    rewrite seq_S, filter_app, app_length.
    assert (E0 : filter (fun k => limit <=? ck k - t0) (seq first n) = []).
    { assert (Hall : forall k, In k (seq first n) -> (limit <=? ck k - t0) = false).
      { intros k Hk. apply in_seq in Hk. assert (ck k - t0 < limit) by (apply G; lia). lia. }
      induction (seq first n) as [|a l IH]; [reflexivity|]. cbn [filter].
      rewrite (Hall a) by (left; reflexivity). apply IH. intros k Hk. apply Hall. right. exact Hk. }
    rewrite E0. cbn [filter length]. destruct (limit <=? ck (first + n)%nat - t0); simpl; lia.
  - intros k Hk Hl. destruct (Nat.eq_dec (ls_clk s) (S k)); [assumption|].
    assert (ck k - t0 < limit) by (apply G; lia). lia.
Qed.
Print Assumptions C19_time_limit.

(** ** C20 *)
Lemma copied_full ar x h seq sol objs : valid_inst ar x -> hok ar x h ->
  Permutation seq (dkeys (pb_items (in_pb x))) -> pb_strip (in_pb x) = true ->
  constructed ar x h seq sol objs ->
  strip_full ar x sol <-> strip_full ar x (copied ar x sol).
Proof.
  intros Hv Hh Hp Hs Hc. pose proof (copied_same ar x Hv _ _ _ _ Hh Hp Hc) as [S1 [S2 _]].
  assert (K : forall k c, In k (dkeys c) <-> exists e : entry, dget c k = Some e)
    by (intros; symmetry; apply dget_Some_In).
  unfold strip_full. split; intros [c [H1 H2]].
  - assert (Hin : In strip_id (dkeys (copied ar x sol))) by (rewrite <- S1; apply dget_Some_In; eauto).
    apply dget_Some_In in Hin. destruct Hin as [c' Hc']. exists c'. split; [assumption|].
    intros i Hi. apply K. rewrite <- (S2 _ _ _ H1 Hc' i). apply K. auto.
  - assert (Hin : In strip_id (dkeys sol)) by (rewrite S1; apply dget_Some_In; eauto).
    apply dget_Some_In in Hin. destruct Hin as [c' Hc']. exists c'. split; [assumption|].
    intros i Hi. apply K. rewrite (S2 _ _ _ Hc' H1 i). apply K. auto.
Qed.

Theorem C20_only_full_strips_accepted : forall ar, arith_laws ar ->
  forall x, valid_inst ar x -> pb_strip (in_pb x) = true -> in_min x = None ->
  forall ck limit throttle start clk y clk' log,
  local_search ar ck limit throttle start x clk = Ok (y, clk', log) ->
  exists sol0 objs0, solve ar (in_pb x) None = Ok (sol0, objs0) /\
    (* the solution stores all the items or is (a copy of) the initial construction *)
    (strip_full ar x (in_sol y) \/ same_placements sol0 (in_sol y) /\ in_objs y = objs0) /\
    (strip_full ar x sol0 -> strip_full ar x (in_sol y)).
Proof.
  intros ar laws x Hv Hs Hm ck limit throttle start clk y clk' log H.
  destruct (run_of ar laws x Hv ck limit throttle start clk y clk' log H)
    as [s0 [s [-> [-> [I0 [Hi0 [R _]]]]]]].
  destruct (in0_sol _ _ _ _ _ I0) as [sol0 [objs0 [S1 [S2 S3]]]].
  exists sol0, objs0. split; [assumption|]. cbn [in_sol in_objs set_solution].
  assert (Hc0 : constructed ar x (pb_height (in_pb x)) (dkeys (pb_items (in_pb x))) sol0 objs0).
  { unfold constructed. rewrite pb_height_same, <- solve_default_sequence; [assumption|apply Hv]. }
  pose proof (hok_start ar x Hv) as Hh0.
  pose proof (copied_same ar x Hv _ _ _ _ Hh0 (Permutation_refl _) Hc0) as Hsame.
  destruct (lr_full _ _ _ _ _ _ _ _ R) as [[E _]|[sol [objs [E Hf]]]].
  - rewrite E, S3. cbn [fst snd]. split; [right; split; [assumption|reflexivity]|].
    apply (copied_full ar x _ _ sol0 objs0 Hv Hh0 (Permutation_refl _) Hs Hc0).
  - rewrite E. cbn [fst snd].
    assert (G : strip_full ar x (copied ar x sol)).
    { specialize (Hf Hs Hm). destruct Hf as [c [H1 H2]]. exists (deepcopy_container (pb_items (in_pb x)) c).
      destruct Hv as [[[Hn _] _] Hst]. destruct (Hst Hs) as [Hk _]. split.
      - unfold copied. rewrite dget_map_keys. rewrite Hk.
        destruct (in_dec string_dec strip_id [strip_id]) as [|C]; [|exfalso; apply C; left; reflexivity].
        rewrite H1. reflexivity.
      - intros i Hi. apply deepcopy_container_keys; [assumption|]. auto. }
    split; [left; exact G|intros _; exact G].
Qed.
Print Assumptions C20_only_full_strips_accepted.

(** ** C21: false of the code. The search evaluates a solution with all the items, but keeps
    the initial construction, which omits one and has the larger value. *)
Definition strip_omits : inst qarith := fresh {|
  pb_containers := [("strip-pack-container", mkDims 3 30)];
  pb_items := [("a", mkDims 1 1); ("b", mkDims 3 1); ("c", mkDims 1 2)];
  pb_rotation := false; pb_strategy := default_strategy; pb_strip := true; pb_height := 3 |} None.

Example strip_omits_valid : valid_inst qarith strip_omits.
Proof. split; [valid_demo|]. split; [reflexivity|discriminate]. Qed.

Theorem C21_full_strip_kept_refuted :
  exists y clk' log,
    valid_inst qarith strip_omits /\ pb_strip (in_pb strip_omits) = true /\ in_min strip_omits = None /\
    local_search qarith frozen 60 true None strip_omits 0 = Ok (y, clk', log) /\
    (* all the three neighbours of the initial sequence were evaluated, *)
    log = [mkLog (4 # 3) 3 false false false] /\
    (* one of them stores all the items, *)
    (exists sol objs, solve qarith (in_pb strip_omits) (Some ["b"; "a"; "c"]) = Ok (sol, objs) /\
       strip_full qarith strip_omits sol) /\
    (* the solution returned does not. *)
    in_sol y = [("strip-pack-container", [("a", mkEntry 0 0 1 1); ("b", mkEntry 0 1 3 1)])] /\
    ~ strip_full qarith strip_omits (in_sol y).
Proof.
  eexists _, _, _. split; [exact strip_omits_valid|]. split; [reflexivity|]. split; [reflexivity|].
  split; [vm_compute; reflexivity|]. split; [reflexivity|]. split; [|split].
  - eexists _, _. split; [vm_compute; reflexivity|]. eexists. split; [reflexivity|].
    cbn. intros i. intuition congruence.
  - reflexivity.
  - intros [c [E H]]. cbn in E. injection E as <-.
    assert (C : In "c" ["a"; "b"]) by (apply H; cbn; tauto). cbn in C. intuition discriminate.
Qed.
Print Assumptions C21_full_strip_kept_refuted.

(** What is true: if the initial construction is full, so is the solution of [local_search]. *)
Theorem C21_full_strip_kept_partial : forall ar, arith_laws ar ->
  forall x, valid_inst ar x -> pb_strip (in_pb x) = true -> in_min x = None ->
  forall ck limit throttle start clk y clk' log sol0 objs0,
  local_search ar ck limit throttle start x clk = Ok (y, clk', log) ->
  solve ar (in_pb x) None = Ok (sol0, objs0) -> strip_full ar x sol0 ->
  strip_full ar x (in_sol y).
Proof.
  intros ar laws x Hv Hs Hm ck limit throttle start clk y clk' log sol0 objs0 H H0 Hf.
  destruct (C20_only_full_strips_accepted ar laws x Hv Hs Hm _ _ _ _ _ _ _ _ H)
    as [sol1 [objs1 [E [_ G]]]]. rewrite H0 in E. injection E as <- <-. auto.
Qed.
Print Assumptions C21_full_strip_kept_partial.

Example strip_demo_full :
  exists sol objs, solve qarith (in_pb strip_demo) None = Ok (sol, objs) /\
    strip_full qarith strip_demo sol.
Proof.
  eexists _, _. split; [vm_compute; reflexivity|]. eexists. split; [reflexivity|]. cbn. intros i.
  intuition congruence.
Qed.

(** ** C22 *)
Theorem C22_strip_height : forall ar, arith_laws ar ->
  forall x, valid_inst ar x -> pb_strip (in_pb x) = true ->
  forall ck limit throttle start clk y clk' log,
  local_search ar ck limit throttle start x clk = Ok (y, clk', log) ->
  1 <= pb_height (in_pb y) <= pb_height (in_pb x) /\
  (forall m, in_min x = Some m -> m <= pb_height (in_pb y)) /\
  (* the heights used one after the other never increase *)
  StronglySorted Z.ge (in_hist y) /\ hd 0 (in_hist y) = pb_height (in_pb x) /\
  last (in_hist y) 0 = pb_height (in_pb y) /\
  (* the solution lies inside the final strip *)
  (forall cid csol i e, In (cid, csol) (in_sol y) -> In (i, e) csol ->
     e_y e + e_l e <= pb_height (in_pb y)).
Proof.
  intros ar laws x Hv Hs ck limit throttle start clk y clk' log H.
  destruct (run_of ar laws x Hv ck limit throttle start clk y clk' log H)
    as [s0 [s [-> [-> [I0 [Hi0 [R _]]]]]]].
  pose proof (lr_inv _ _ _ _ _ _ _ _ R) as Hi.
  destruct (inv_facts ar x Hv s Hi)
    as [F1 [F2 [F3 [h [sol [F4 [F5 [F6 [F7 [F8 F9]]]]]]]]]].
  cbn [in_pb in_hist in_sol set_solution] in *.
  destruct (iv_good _ _ _ Hi) as [_ Hh]. unfold hok in Hh. rewrite Hs in Hh. destruct Hh as [Hh1 Hh2].
  split; [assumption|]. split; [assumption|].
  destruct (iv_hist _ _ _ Hi Hs) as [J1 [J2 [J3 [t J4]]]].
  split; [assumption|]. split; [|split; [exact J3|]].
  - rewrite J4. reflexivity.
  - intros cid csol' i e H1 H2. rewrite F8 in H1. unfold copied in H1.
    apply in_map_iff in H1. destruct H1 as [cid' [[= <- <-] Hcid]].
    destruct (dget sol cid') as [csol|] eqn:Ec.
    + assert (Hd : In (i, e) csol).
      { unfold deepcopy_container in H2. apply in_concat in H2. destruct H2 as [l [Hl Hin]].
        apply in_map_iff in Hl. destruct Hl as [k [<- _]]. destruct (dget csol k) eqn:Ek; [|destruct Hin].
        destruct Hin as [[= <- <-]|[]]. apply dget_In. assumption. }
      apply (F9 Hs cid' csol i e); [apply dget_In; assumption|assumption].
    + exfalso. unfold deepcopy_container in H2. apply in_concat in H2. destruct H2 as [l [Hl Hin]].
      apply in_map_iff in Hl. destruct Hl as [k [<- _]]. destruct Hin.
Qed.
Print Assumptions C22_strip_height.

(** ** C49: the copy [_deepcopy_solution] takes. *)
Theorem C49_copy_preserves : forall ar pb sequence sol objs,
  valid_problem pb -> known_sequence pb sequence -> solve ar pb sequence = Ok (sol, objs) ->
  exists sol', deepcopy_solution pb sol = Ok sol' /\
    dkeys sol' = dkeys sol /\
    forall cid csol, dget sol cid = Some csol ->
      exists csol', dget sol' cid = Some csol' /\ Permutation csol' csol /\
        forall i, dget csol' i = dget csol i.
Proof.
  intros ar pb sq sol objs Hv Hk H.
  destruct (solve_run_of ar pb sq Hv Hk _ _ H) as [items [rest [_ [_ [Hf _]]]]].
  destruct (solve_ids ar pb sq Hv Hk _ _ _ Hf) as [K1 [_ [K3 K4]]].
  apply NoDup_app_iff in K3. destruct K3 as [K3 _].
  assert (Hn : NoDup (dkeys (pb_items pb))) by apply Hv.
  assert (Hsub : forall cid csol i, dget sol cid = Some csol -> In i (dkeys csol) ->
            In i (dkeys (pb_items pb))).
  { intros cid csol i H1 H2.
    assert (Hi : In i (wanted pb sq)) by (apply K4; left; eapply in_stored; eassumption).
    destruct sq as [ids|]; [apply Hk; exact Hi|exact Hi]. }
  eexists. split; [apply deepcopy_solution_ok; assumption|].
  destruct (deepcopy_same pb sol _ Hn K1 Hsub (deepcopy_solution_ok pb sol K1)) as [S1 [S2 _]].
  split; [symmetry; exact S1|]. intros cid csol Hc.
  assert (Hin : In cid (dkeys (pb_containers pb))) by (rewrite <- K1; apply dget_Some_In; eauto).
  exists (deepcopy_container (pb_items pb) csol).
  assert (Hg : dget (map (fun cid => (cid, deepcopy_container (pb_items pb)
                 match dget sol cid with Some c => c | None => [] end)) (dkeys (pb_containers pb))) cid
               = Some (deepcopy_container (pb_items pb) csol)).
  { rewrite dget_map_keys. destruct (in_dec string_dec cid (dkeys (pb_containers pb))); [|contradiction].
    rewrite Hc. reflexivity. }
  split; [exact Hg|].
  assert (Hget : forall i, dget (deepcopy_container (pb_items pb) csol) i = dget csol i)
    by (intros i; symmetry; apply (S2 cid csol _ Hc Hg i)).
  split; [|exact Hget].
  assert (Hnc : NoDup (dkeys csol)).
  { apply dget_In in Hc. unfold stored_ids in K3. eapply NoDup_concat_in; [exact K3|].
    apply in_map_iff. exists (cid, csol). auto. }
  assert (Hnd : NoDup (dkeys (deepcopy_container (pb_items pb) csol))).
  { unfold deepcopy_container. clear - Hn. induction (dkeys (pb_items pb)) as [|k ks IH]; [constructor|].
    inversion Hn as [|? ? Hk Hks]; subst. specialize (IH Hks). cbn [map concat].
    destruct (dget csol k) as [e|]; [|exact IH]. cbn [app]. unfold dkeys in *. cbn [map fst].
    constructor; [|exact IH]. intros C. apply Hk. apply in_map_iff in C.
    destruct C as [[k' e'] [E C]]. cbn in E. subst k'. apply in_concat in C.
    destruct C as [l [Hl Hin]]. apply in_map_iff in Hl. destruct Hl as [k2 [<- Hk2]].
    destruct (dget csol k2); [|destruct Hin]. destruct Hin as [[= <- <-]|[]]. exact Hk2. }
  apply NoDup_Permutation.
  - apply NoDup_map_inv with (f := fst). exact Hnd.
  - apply NoDup_map_inv with (f := fst). exact Hnc.
  - intros [i e]. split; intros Hi.
    + apply dget_In. rewrite <- Hget. apply In_dget; assumption.
    + apply dget_In. rewrite Hget. apply In_dget; assumption.
Qed.
Print Assumptions C49_copy_preserves.

(** ** C53: the search skeleton itself (AbstractLocalSearch), for any problem plugged into it,
    minimising or maximising: the value and the solution it ends with belong together, and the
    value is never worse than the initial one. *)
Theorem C53_skeleton_never_worse : forall (ar : arith), arith_laws ar ->
  forall (maximize : bool) (St Sol : Type)
    (evaluate_node : St -> list string -> result St)
    (calculate_obj_value : St -> result (num ar))
    (get_solution : St -> result Sol)
    (get_init_solution : St -> result (St * Sol))
    (extra_node_operations : St -> result St)
    (global_check : num ar -> bool) (out_of_time : nat -> bool)
    fuel st init throttle clk s log,
  abstract_local_search evaluate_node calculate_obj_value get_solution get_init_solution
    (fun _ new best => Ok (base_compare ar maximize new best)) extra_node_operations global_check
    out_of_time fuel st init throttle clk = Ok (s, log) ->
  exists st0 sol0 v0, get_init_solution st = Ok (st0, sol0) /\ calculate_obj_value st0 = Ok v0 /\
    (* unchanged, or the value and the solution of an evaluated sequence that is better *)
    ((ls_best s = v0 /\ ls_ret s = sol0 /\ ls_node s = init) \/
     ((if maximize then ngtb ar (ls_best s) v0 else ngtb ar v0 (ls_best s)) = true /\
      exists st1 st2, evaluate_node st1 (ls_node s) = Ok st2 /\
        calculate_obj_value st2 = Ok (ls_best s) /\ get_solution st2 = Ok (ls_ret s))) /\
    Permutation (ls_node s) init.
Proof.
  intros ar laws maximize St Sol ev cv gs gi en gc oot fuel st init throttle clk s log H.
  assert (Htrans : forall a b c, base_compare ar maximize a b = true -> base_compare ar maximize b c = true ->
            base_compare ar maximize a c = true).
  { intros a b c. unfold base_compare. destruct maximize.
    - intros; eapply (law_gt_trans _ laws); eassumption.
    - intros; eapply (law_gt_trans _ laws); eassumption. }
  unfold abstract_local_search in H. destruct (gi st) as [[st0 sol0]|e]; [|discriminate]. cbn [bind] in H.
  destruct (cv st0) as [v0|e] eqn:Ev; [|discriminate]. cbn [bind] in H.
  exists st0, sol0, v0. split; [reflexivity|]. split; [exact Ev|].
  set (rel := fun (a b : ls (num := num ar) (St := St) (Sol := Sol)) =>
     ((ls_best b = ls_best a /\ ls_ret b = ls_ret a /\ ls_node b = ls_node a) \/
      (base_compare ar maximize (ls_best b) (ls_best a) = true /\
       exists st1 st2, ev st1 (ls_node b) = Ok st2 /\ cv st2 = Ok (ls_best b) /\ gs st2 = Ok (ls_ret b))) /\
     Permutation (ls_node b) (ls_node a)).
  assert (Hrel : forall a b c, rel a b -> rel b c -> rel a c).
  { intros a b c [R1 P1] [R2 P2]. split; [|rewrite P2; exact P1].
    destruct R2 as [[-> [-> ->]]|[G2 E2]]; [exact R1|]. right. split; [|exact E2].
    destruct R1 as [[<- _]|[G1 _]]; [exact G2|]. eapply Htrans; eassumption. }
  assert (Hnode : forall swaps maxn p a b nl, (forall i j, In (i, j) swaps -> (i < j)%nat) ->
     search_node ev cv gs (fun _ new best => Ok (base_compare ar maximize new best)) en gc oot
                 swaps maxn p a = Ok (b, nl) -> rel a b).
  { induction swaps as [|[i j] swaps IH]; intros maxn p a b nl Hsw Hn.
    - cbn in Hn. injection Hn as <- <-. split; [left; auto|reflexivity].
    - cbn [search_node] in Hn. destruct (ev (ls_st a) (swap_at (ls_node a) i j)) as [st1|] eqn:E1; [|discriminate].
      cbn [bind] in Hn. destruct (cv st1) as [v|] eqn:E2; [|discriminate]. cbn [bind] in Hn.
      destruct (base_compare ar maximize v (ls_best a)) eqn:Eb.
      + destruct (gs st1) as [r|] eqn:E3; [|discriminate]. cbn [bind] in Hn.
        destruct (en st1) as [st2|] eqn:E4; [|discriminate]. cbn [bind] in Hn.
        rewrite orb_true_r in Hn. cbn [orb] in Hn. injection Hn as <- <-.
        cbn [ls_best ls_ret ls_node ls_st ls_clk]. split.
        * right. split; [exact Eb|]. exists (ls_st a), st1. auto.
        * apply swap_at_perm. apply Hsw. left. reflexivity.
      + cbn [bind andb] in Hn. rewrite !orb_false_r in Hn. cbn [ls_clk ls_best ls_st ls_node ls_ret] in Hn.
        destruct (oot (ls_clk a) || (p + 1 >=? maxn)) eqn:Es.
        * injection Hn as <- <-. split; [left; auto|reflexivity].
        * apply IH in Hn; [exact Hn|]. intros; apply Hsw; right; assumption. }
  assert (Hloop : forall fuel swaps maxn a b nls, (forall i j, In (i, j) swaps -> (i < j)%nat) ->
     search_loop ev cv gs (fun _ new best => Ok (base_compare ar maximize new best)) en gc oot
                 fuel swaps maxn a = Ok (b, nls) -> rel a b).
  { induction fuel0 as [|f IH]; intros swaps maxn a b nls Hsw Hl; [discriminate|].
    cbn [search_loop] in Hl.
    destruct (search_node ev cv gs _ en gc oot swaps maxn 0 a) as [[a1 nl]|] eqn:E; [|discriminate].
    cbn [bind] in Hl. apply Hnode in E; [|assumption].
    destruct (nl_found nl && negb (nl_oot nl) && negb (nl_global nl)).
    - destruct (search_loop ev cv gs _ en gc oot f swaps maxn a1) as [[a2 nls']|] eqn:E2; [|discriminate].
      cbn [bind] in Hl. injection Hl as <- <-. apply IH in E2; [|assumption]. eapply Hrel; eassumption.
    - injection Hl as <- <-. exact E. }
  apply Hloop in H; [exact H|]. intros i j Hin. apply in_index_swaps in Hin. lia.
Qed.
Print Assumptions C53_skeleton_never_worse.

(** A problem plugged into it: sequences of digits, minimise the first one. *)
Example skeleton_demo :
  exists s log,
    abstract_local_search (num := Q) (St := list string) (Sol := list string)
      (fun _ q => Ok q) (fun q => match q with "b" :: _ => Ok 1%Q | "a" :: _ => Ok 0%Q | _ => Ok 2%Q end)
      (fun q => Ok q) (fun q => Ok (q, q)) (fun _ new best => Ok (base_compare qarith false new best))
      (fun q => Ok q) (fun _ => false) (fun _ => false) 10 ["c"; "b"; "a"] ["c"; "b"; "a"] true 0
    = Ok (s, log) /\ ls_best s = 0%Q /\ ls_node s = ["a"; "c"; "b"] /\ length log = 3%nat.
Proof. eexists _, _. split; [vm_compute; reflexivity|]. repeat split. Qed.
