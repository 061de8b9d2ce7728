(** * The same search with a longer time limit: the longer run passes through everything the
    shorter one accepted. *)
From Coq Require Import ZArith String List Bool Lia.
From Coq Require Import ZifyBool ZifyNat.
From Verif Require Import Py Arith Construct Spec LocalSearch SpecSearch ItemsManip HyperSearch.
Import ListNotations.
Open Scope Z_scope.

(** ** The skeleton *)
Section Skeleton.
Context {num St Sol : Type}.
Context (evaluate_node : St -> list string -> result St)
        (calculate_obj_value : St -> result num)
        (get_solution : St -> result Sol)
        (compare_node : St -> num -> num -> result bool)
        (extra_node_operations : St -> result St)
        (global_check : num -> bool)
        (gt : num -> num -> bool).
(** Nodes are accepted for a better value only, and "better" is transitive. *)
Context (compare_gt : forall st v b, compare_node st v b = Ok true -> gt v b = true)
        (gt_trans : forall a b c, gt a b = true -> gt b c = true -> gt a c = true).

Notation node := (search_node evaluate_node calculate_obj_value get_solution compare_node extra_node_operations global_check).
Notation loop := (search_loop evaluate_node calculate_obj_value get_solution compare_node extra_node_operations global_check).

Definition as_good (v w : num) : Prop := v = w \/ gt v w = true.

Lemma as_good_refl v : as_good v v.
Proof. left. reflexivity. Qed.
Lemma as_good_trans a b c : as_good a b -> as_good b c -> as_good a c.
Proof.
  intros [->|H] [->|H']; [left; reflexivity|right; exact H'|right; exact H|right].
  eapply gt_trans; eassumption.
Qed.

Lemma node_value oot maxn : forall swaps p s s' nl, node oot swaps maxn p s = Ok (s', nl) -> as_good (ls_best s') (ls_best s).
Proof.
  induction swaps as [|[i j] rest IH]; intros p s s' nl H; cbn [search_node] in H.
  { injection H as <- <-. apply as_good_refl. }
  destruct (evaluate_node _ _) as [st1|]; [|discriminate]. cbn [bind] in H.
  destruct (calculate_obj_value st1) as [v|]; [|discriminate]. cbn [bind] in H.
  destruct (compare_node st1 v (ls_best s)) as [b|] eqn:Ec; [|discriminate]. cbn [bind] in H.
  destruct b.
  - destruct (get_solution st1); [|discriminate]. cbn [bind] in H.
    destruct (extra_node_operations st1); [|discriminate]. cbn [bind ls_best ls_clk ls_st ls_node ls_ret] in H.
    rewrite orb_true_r in H. cbn [orb] in H. injection H as <- <-. cbn [ls_best]. right. exact (compare_gt _ _ _ Ec).
  - cbn [bind ls_best ls_clk ls_st ls_node ls_ret andb] in H.
    destruct (oot (ls_clk s) || false || false || (p + 1 >=? maxn)).
    + injection H as <- <-. apply as_good_refl.
    + apply IH in H. exact H.
Qed.

Lemma loop_value oot swaps maxn : forall fuel s s' log, loop oot fuel swaps maxn s = Ok (s', log) -> as_good (ls_best s') (ls_best s).
Proof.
  induction fuel as [|fuel IH]; intros s s' log H; cbn [search_loop] in H; [discriminate|].
  destruct (node oot swaps maxn 0 s) as [[s1 nl]|] eqn:En; [|discriminate]. cbn [bind] in H.
  apply node_value in En. destruct (_ && _).
  - destruct (loop oot fuel swaps maxn s1) as [[s2 log2]|] eqn:El; [|discriminate]. cbn [bind] in H. injection H as <- <-.
    eapply as_good_trans; [eapply IH; exact El|exact En].
  - injection H as <- <-. exact En.
Qed.

(** The value kept belongs to the solution kept. *)
Section Kept.
Context (Inv : St -> Prop) (P : Sol -> num -> Prop).
Context (eval_inv : forall st sq st', Inv st -> evaluate_node st sq = Ok st' -> Inv st')
        (extra_inv : forall st st', Inv st -> extra_node_operations st = Ok st' -> Inv st')
        (got : forall st v ret, Inv st -> calculate_obj_value st = Ok v -> get_solution st = Ok ret -> P ret v).

Lemma node_kept oot maxn : forall swaps p s s' nl, Inv (ls_st s) -> P (ls_ret s) (ls_best s) ->
  node oot swaps maxn p s = Ok (s', nl) -> Inv (ls_st s') /\ P (ls_ret s') (ls_best s').
Proof.
  induction swaps as [|[i j] rest IH]; intros p s s' nl I0 P0 H; cbn [search_node] in H.
  { injection H as <- <-. auto. }
  destruct (evaluate_node _ _) as [st1|] eqn:Ee; [|discriminate]. cbn [bind] in H.
  pose proof (eval_inv _ _ _ I0 Ee) as I1.
  destruct (calculate_obj_value st1) as [v|] eqn:Ev; [|discriminate]. cbn [bind] in H.
  destruct (compare_node st1 v (ls_best s)) as [b|] eqn:Ec; [|discriminate]. cbn [bind] in H.
  destruct b.
  - destruct (get_solution st1) as [ret|] eqn:Eg; [|discriminate]. cbn [bind] in H.
    destruct (extra_node_operations st1) as [st2|] eqn:Ex; [|discriminate]. cbn [bind ls_best ls_clk ls_st ls_node ls_ret] in H.
    rewrite orb_true_r in H. cbn [orb] in H. injection H as <- <-. cbn [ls_best ls_st ls_ret].
    split; [eapply extra_inv; eassumption|eapply got; eassumption].
  - cbn [bind ls_best ls_clk ls_st ls_node ls_ret andb] in H.
    destruct (oot (ls_clk s) || false || false || (p + 1 >=? maxn)).
    + injection H as <- <-. auto.
    + eapply IH; [| |exact H]; assumption.
Qed.

Lemma loop_kept oot swaps maxn : forall fuel s s' log, Inv (ls_st s) -> P (ls_ret s) (ls_best s) ->
  loop oot fuel swaps maxn s = Ok (s', log) -> Inv (ls_st s') /\ P (ls_ret s') (ls_best s').
Proof.
  induction fuel as [|fuel IH]; intros s s' log I0 P0 H; cbn [search_loop] in H; [discriminate|].
  destruct (node oot swaps maxn 0 s) as [[s1 nl]|] eqn:En; [|discriminate]. cbn [bind] in H.
  destruct (node_kept _ _ _ _ _ _ _ I0 P0 En) as [I1 P1]. destruct (_ && _).
  - destruct (loop oot fuel swaps maxn s1) as [[s2 log2]|] eqn:El; [|discriminate]. cbn [bind] in H. injection H as <- <-.
    eapply IH; [exact I1|exact P1|exact El].
  - injection H as <- <-. auto.
Qed.
End Kept.

Context (short long : nat -> bool) (longer : forall n, long n = true -> short n = true).

Lemma node_longer maxn : forall swaps p s s1 nl1 s2 nl2,
  node short swaps maxn p s = Ok (s1, nl1) -> node long swaps maxn p s = Ok (s2, nl2) ->
  (nl_oot nl1 = true -> (1 <= ls_clk s1)%nat /\ short (pred (ls_clk s1)) = true) /\
  (nl_found nl1 = true -> s2 = s1 /\ nl_found nl2 = true /\ nl_global nl2 = nl_global nl1 /\
                          (nl_oot nl1 = false -> nl2 = nl1)) /\
  (nl_found nl1 = false -> ls_best s1 = ls_best s /\ (nl_oot nl1 = false -> s2 = s1 /\ nl2 = nl1)).
Proof.
  induction swaps as [|[i j] rest IH]; intros p s s1 nl1 s2 nl2 H1 H2; cbn [search_node] in H1, H2.
  { injection H1 as <- <-. injection H2 as <- <-. cbn. split; [discriminate|]. split; [discriminate|]. auto. }
  destruct (evaluate_node _ _) as [st1|]; [|discriminate]. cbn [bind] in H1, H2.
  destruct (calculate_obj_value st1) as [v|]; [|discriminate]. cbn [bind] in H1, H2.
  destruct (compare_node st1 v (ls_best s)) as [b|] eqn:Ec; [|discriminate]. cbn [bind] in H1, H2.
  destruct b.
  - destruct (get_solution st1); [|discriminate]. cbn [bind] in H1, H2.
    destruct (extra_node_operations st1); [|discriminate]. cbn [bind ls_best ls_clk ls_st ls_node ls_ret] in H1, H2.
    rewrite orb_true_r in H1, H2. cbn [orb] in H1, H2. injection H1 as <- <-. injection H2 as <- <-.
    cbn [nl_oot nl_found nl_global ls_clk ls_best pred]. split; [intros E; split; [lia|exact E]|].
    split; [|discriminate]. intros _. repeat (split; [reflexivity|]). intros E.
    destruct (long (ls_clk s)) eqn:El; [apply longer in El; congruence|]. rewrite E. reflexivity.
  - cbn [bind ls_best ls_clk ls_st ls_node ls_ret andb] in H1, H2.
    rewrite !orb_false_r in H1, H2.
    destruct (short (ls_clk s)) eqn:Es.
    + cbn [orb] in H1. injection H1 as <- <-. cbn [nl_oot nl_found nl_global ls_clk ls_best pred].
      split; [intros _; split; [lia|exact Es]|]. split; [discriminate|]. intros _. split; [reflexivity|discriminate].
    + destruct (long (ls_clk s)) eqn:El; [apply longer in El; congruence|]. cbn [orb] in H1, H2.
      destruct (p + 1 >=? maxn).
      * injection H1 as <- <-. injection H2 as <- <-. cbn. split; [discriminate|]. split; [discriminate|]. auto.
      * exact (IH _ _ _ _ _ _ H1 H2).
Qed.

(** Either the shorter run was never late and the runs are the same, or it ended late, and the
    longer one ends with a value as good. *)
Lemma loop_longer swaps maxn : forall fuel s s1 log1 s2 log2,
  loop short fuel swaps maxn s = Ok (s1, log1) -> loop long fuel swaps maxn s = Ok (s2, log2) ->
  (s2 = s1 /\ log2 = log1) \/
  ((exists nl, In nl log1 /\ nl_oot nl = true) /\ (1 <= ls_clk s1)%nat /\ short (pred (ls_clk s1)) = true /\
   as_good (ls_best s2) (ls_best s1)).
Proof.
  induction fuel as [|fuel IH]; intros s s1 log1 s2 log2 H1 H2; [discriminate|].
  pose proof (loop_value _ _ _ _ _ _ _ H2) as Hall.
  cbn [search_loop] in H1, H2.
  destruct (node short swaps maxn 0 s) as [[t1 nl1]|] eqn:E1; [|discriminate]. cbn [bind] in H1.
  destruct (node long swaps maxn 0 s) as [[t2 nl2]|] eqn:E2; [|discriminate]. cbn [bind] in H2.
  destruct (node_longer _ _ _ _ _ _ _ _ E1 E2) as [N1 [N2 N3]].
  destruct (nl_found nl1) eqn:Ef.
  - destruct (N2 eq_refl) as [-> [Ef2 [Eg Ho]]]. rewrite Ef2, Eg in H2. cbn [andb] in H1, H2.
    destruct (nl_oot nl1) eqn:Eo; cbn [negb andb] in H1.
    + injection H1 as <- <-. right. split; [exists nl1; split; [left; reflexivity|exact Eo]|].
      destruct (N1 eq_refl) as [A B]. split; [exact A|]. split; [exact B|].
      destruct (negb (nl_oot nl2) && negb (nl_global nl1)).
      * destruct (loop long fuel swaps maxn t1) as [[s3 log3]|] eqn:E3; [|discriminate]. cbn [bind] in H2. injection H2 as <- <-.
        eapply loop_value. exact E3.
      * injection H2 as <- <-. apply as_good_refl.
    + specialize (Ho eq_refl). subst nl2. rewrite Eo in H2. cbn [negb andb] in H2.
      destruct (negb (nl_global nl1)).
      * destruct (loop short fuel swaps maxn t1) as [[s3 log3]|] eqn:E3; [|discriminate]. cbn [bind] in H1. injection H1 as <- <-.
        destruct (loop long fuel swaps maxn t1) as [[s4 log4]|] eqn:E4; [|discriminate]. cbn [bind] in H2. injection H2 as <- <-.
        destruct (IH _ _ _ _ _ E3 E4) as [[-> ->]|[[nl [A B]] [C [D E]]]]; [left; auto|].
        right. split; [exists nl; split; [right; exact A|exact B]|]. auto.
      * injection H1 as <- <-. injection H2 as <- <-. left. auto.
  - cbn [andb] in H1. injection H1 as <- <-. destruct (N3 eq_refl) as [Eb Hs].
    destruct (nl_oot nl1) eqn:Eo.
    + right. split; [exists nl1; split; [left; reflexivity|exact Eo]|]. destruct (N1 eq_refl) as [A B].
      split; [exact A|]. split; [exact B|]. rewrite Eb. exact Hall.
    + destruct (Hs eq_refl) as [-> ->]. rewrite Ef in H2. cbn [andb] in H2. injection H2 as <- <-. left. auto.
Qed.
End Skeleton.

(** ** HyperPack *)
Section Pack.
Context {ar : arith} (laws : arith_laws ar).

Lemma compare_node_gt x v b : compare_node ar x v b = Ok true -> ngtb ar v b = true.
Proof.
  unfold compare_node. destruct (negb _); [intros [= ->]; reflexivity|].
  destruct (in_min x); [intros [= ->]; reflexivity|].
  destruct (dget_r (in_sol x) strip_id); [|discriminate]. cbn [bind]. intros [= H].
  apply andb_true_iff in H. apply H.
Qed.

Lemma late_longer ck start limit limit' n : limit <= limit' ->
  out_of_time ck start limit' n = true -> out_of_time ck start limit n = true.
Proof. unfold out_of_time. lia. Qed.

Lemma get_solution_objs (x : inst ar) sol objs : get_solution ar x = Ok (sol, objs) -> objs = in_objs x.
Proof.
  unfold get_solution. destruct (deepcopy_solution _ _); [|discriminate]. cbn [bind]. unfold copy_objs. rewrite map_id.
  intros [= _ <-]. reflexivity.
Qed.

Lemma evaluate_cnum (x y : inst ar) sq : evaluate_node ar x sq = Ok y -> in_cnum y = in_cnum x.
Proof.
  unfold evaluate_node, inst_solve. destruct (solve ar (in_pb x) _) as [[]|]; [|discriminate]. cbn [bind].
  intros [= <-]. reflexivity.
Qed.

Lemma extra_cnum (x y : inst ar) : extra_node_operations ar x = Ok y -> in_cnum y = in_cnum x.
Proof.
  unfold extra_node_operations. destruct (pb_strip _); [|intros [= <-]; reflexivity].
  destruct (new_height ar x); [|discriminate]. cbn [bind]. intros [= <-]. reflexivity.
Qed.

(** A search with two limits: the same run, or the shorter ended late and the longer one reaches
    a value as good. *)
Lemma local_search_longer ck limit limit' throttle start x clk y c log y' c' log' : limit <= limit' ->
  local_search ar ck limit throttle start x clk = Ok (y, c, log) ->
  local_search ar ck limit' throttle start x clk = Ok (y', c', log') ->
  (y' = y /\ c' = c /\ log' = log) \/
  ((exists nl, In nl log /\ nl_oot nl = true) /\ (1 <= c)%nat /\
   out_of_time ck (match start with None => ck clk | Some t => t end) limit (pred c) = true /\
   exists v v', calculate_obj_value ar y = Ok v /\ calculate_obj_value ar y' = Ok v' /\ as_good (ngtb ar) v' v).
Proof.
  intros Hl H1 H2. unfold local_search, local_search_fuel in H1, H2.
  set (x1 := if pb_strip (in_pb x) then set_hist x [pb_height (in_pb x)] else x) in *.
  unfold abstract_local_search in H1, H2.
  set (st := match start with None => ck clk | Some t => t end) in *.
  replace (match start with None => (ck clk, S clk) | Some t => (t, clk) end)
    with (st, match start with None => S clk | Some _ => clk end) in H1, H2 by (unfold st; destruct start; reflexivity).
  cbv beta iota in H1, H2.
  destruct (get_init_solution ar x1) as [[st0 ret]|] eqn:Ei; [|discriminate]. cbn [bind] in H1, H2.
  destruct (calculate_obj_value ar st0) as [best|] eqn:Eb; [|discriminate]. cbn [bind] in H1, H2.
  match type of H1 with bind ?a _ = _ => destruct a as [[s1 l1]|] eqn:E1; [|discriminate] end.
  match type of H2 with bind ?a _ = _ => destruct a as [[s2 l2]|] eqn:E2; [|discriminate] end.
  cbn [bind] in H1, H2.
  destruct (loop_longer _ _ _ _ _ _ (ngtb ar) compare_node_gt (law_gt_trans _ laws) _ _
              (fun n => late_longer ck st limit limit' n Hl) _ _ _ _ _ _ _ _ E1 E2)
    as [[-> ->]|[[nl [A B]] [C [D G]]]].
  - left. rewrite H1 in H2. injection H2 as -> -> ->. auto.
  - right.
    assert (Hini : in_cnum st0 = in_cnum x1 /\ obj_value ar (in_cnum x1) (dvals (snd ret)) = Ok best).
    { unfold get_init_solution in Ei. destruct (inst_solve ar x1 None) as [z|] eqn:Es; [|discriminate]. cbn [bind] in Ei.
      destruct (get_solution ar z) as [[sol objs]|] eqn:Eg; [|discriminate]. cbn [bind] in Ei. injection Ei as <- <-.
      apply get_solution_objs in Eg. subst objs. cbn [snd].
      assert (Ec : in_cnum z = in_cnum x1).
      { unfold inst_solve in Es. destruct (solve ar (in_pb x1) None) as [[]|]; [|discriminate]. cbn [bind] in Es. injection Es as <-. reflexivity. }
      split; [exact Ec|]. rewrite <- Ec. exact Eb. }
    destruct Hini as [Hn Hb].
    pose (Inv := fun z : inst ar => in_cnum z = in_cnum x1).
    pose (P := fun (r : solution * objvals ar) v => obj_value ar (in_cnum x1) (dvals (snd r)) = Ok v).
    assert (K : forall oot s l, search_loop (evaluate_node ar) (calculate_obj_value ar) (get_solution ar) (compare_node ar)
                 (extra_node_operations ar) (global_check ar) oot (ls_fuel ar x1)
                 (index_swaps (length (dkeys (pb_items (in_pb x1)))))
                 (get_max_neighbors_num throttle (Z.of_nat (length (dkeys (pb_items (in_pb x1))))))
                 (mkLs st0 (dkeys (pb_items (in_pb x1))) best ret match start with None => S clk | Some _ => clk end) = Ok (s, l) ->
              Inv (ls_st s) /\ P (ls_ret s) (ls_best s)).
    { intros oot s l E. eapply (loop_kept _ _ _ _ _ _ Inv P); [| | | | |exact E].
      - intros z sq z' I0 E0. unfold Inv in *. rewrite (evaluate_cnum _ _ _ E0). exact I0.
      - intros z z' I0 E0. unfold Inv in *. rewrite (extra_cnum _ _ E0). exact I0.
      - intros z v [sol objs] I0 E0 E3. unfold P, Inv in *. cbn [snd]. apply get_solution_objs in E3. subst objs.
        rewrite <- I0. exact E0.
      - exact Hn.
      - exact Hb. }
    destruct (K _ _ _ E1) as [K1 K2]. destruct (K _ _ _ E2) as [K3 K4]. clear K. unfold Inv, P in *.
    destruct (ls_ret s1) as [sol1 objs1]. destruct (ls_ret s2) as [sol2 objs2]. cbn [snd] in *.
    injection H1 as <- <- <-. injection H2 as <- <- <-. split; [exists nl; auto|]. split; [exact C|]. split; [exact D|].
    exists (ls_best s1), (ls_best s2). unfold calculate_obj_value. cbn [in_cnum in_objs set_solution].
    rewrite K1, K3. auto.
Qed.

(** ** The loop over the strategies *)
Notation good := (as_good (ngtb ar)).
Let tr := as_good_trans (ngtb ar) (law_gt_trans _ laws).

Lemma hs_loop_value ck limit throttle start strategies : forall s s' log,
  hs_loop ar ck limit throttle start strategies s = Ok (s', log) -> good (hs_best s') (hs_best s).
Proof.
  induction strategies as [|g rest IH]; intros s s' log H; cbn [hs_loop] in H.
  { injection H as <- <-. left. reflexivity. }
  destruct (local_search _ _ _ _ _ _ _) as [[[x1 clk1] nl]|]; [|discriminate]. cbn [bind] in H.
  destruct (calculate_obj_value ar x1) as [v|]; [|discriminate]. cbn [bind] in H.
  unfold check_solution in H. destruct (ngtb ar v (hs_best s)) eqn:Eb.
  - destruct (get_solution ar x1); [|discriminate]. cbn [bind andb] in H.
    assert (Hg : good v (hs_best s)) by (right; exact Eb).
    destruct (global_check ar v); [injection H as <- <-; exact Hg|].
    destruct (over_time _ _ _ _); [injection H as <- <-; exact Hg|].
    destruct (hs_loop ar ck limit throttle start rest _) as [[s3 log3]|] eqn:El; [|discriminate]. cbn [bind] in H. injection H as <- <-.
    apply IH in El. cbn [hs_best] in El. eapply tr; eassumption.
  - cbn [bind andb] in H.
    destruct (over_time _ _ _ _); [injection H as <- <-; left; reflexivity|].
    destruct (hs_loop ar ck limit throttle start rest _) as [[s3 log3]|] eqn:El; [|discriminate]. cbn [bind] in H. injection H as <- <-.
    apply IH in El. exact El.
Qed.

(** The clock never goes back, and no reading is exactly [limit] after the start. *)
Definition ticking (ck : clock) (start limit : Z) : Prop :=
  (forall n, ck n <= ck (S n)) /\ (forall n, ck n - start <> limit).

Lemma hs_loop_longer ck limit limit' throttle start : limit <= limit' -> ticking ck start limit ->
  forall strategies s s1 log1 s2 log2,
  hs_loop ar ck limit throttle start strategies s = Ok (s1, log1) ->
  hs_loop ar ck limit' throttle start strategies s = Ok (s2, log2) ->
  good (hs_best s2) (hs_best s1).
Proof.
  intros Hl [Hmono Hne]. induction strategies as [|g rest IH]; intros s s1 log1 s2 log2 H1 H2.
  { cbn [hs_loop] in H1, H2. injection H1 as <- <-. injection H2 as <- <-. left. reflexivity. }
  pose proof (hs_loop_value _ _ _ _ _ _ _ _ H2) as Hall.
  cbn [hs_loop] in H1, H2.
  destruct (local_search ar ck limit throttle (Some start) (set_strategy (hs_st s) g) (hs_clk s)) as [[[y1 c1] l1]|] eqn:E1; [|discriminate].
  destruct (local_search ar ck limit' throttle (Some start) (set_strategy (hs_st s) g) (hs_clk s)) as [[[y2 c2] l2]|] eqn:E2; [|discriminate].
  cbn [bind] in H1, H2.
  destruct (local_search_longer _ _ _ _ _ _ _ _ _ _ _ _ _ Hl E1 E2)
    as [[-> [-> ->]]|[_ [C [D [v [v' [Ev [Ev' G]]]]]]]].
  - (* the same search *)
    destruct (calculate_obj_value ar y1) as [v|]; [|discriminate]. cbn [bind] in H1, H2.
    assert (Ho : over_time ck start limit c1 = false -> over_time ck start limit' c1 = false) by (unfold over_time; lia).
    unfold check_solution in H1, H2. destruct (ngtb ar v (hs_best s)) eqn:Eb.
    + destruct (get_solution ar y1) as [ret|]; [|discriminate]. cbn [bind andb hs_st hs_best hs_ret hs_strategy] in H1, H2.
      destruct (global_check ar v); [injection H1 as <- <-; injection H2 as <- <-; left; reflexivity|].
      destruct (over_time ck start limit c1).
      * injection H1 as <- <-. cbn [hs_best].
        destruct (over_time ck start limit' c1); [injection H2 as <- <-; left; reflexivity|].
        destruct (hs_loop ar ck limit' throttle start rest _) as [[s3 log3]|] eqn:El; [|discriminate]. cbn [bind] in H2. injection H2 as <- <-.
        apply hs_loop_value in El. exact El.
      * rewrite Ho in H2 by reflexivity.
        destruct (hs_loop ar ck limit throttle start rest _) as [[s3 log3]|] eqn:El; [|discriminate]. cbn [bind] in H1. injection H1 as <- <-.
        destruct (hs_loop ar ck limit' throttle start rest _) as [[s4 log4]|] eqn:El'; [|discriminate]. cbn [bind] in H2. injection H2 as <- <-.
        exact (IH _ _ _ _ _ El El').
    + cbn [bind andb hs_st hs_best hs_ret hs_strategy] in H1, H2.
      destruct (over_time ck start limit c1).
      * injection H1 as <- <-. exact Hall.
      * rewrite Ho in H2 by reflexivity.
        destruct (hs_loop ar ck limit throttle start rest _) as [[s3 log3]|] eqn:El; [|discriminate]. cbn [bind] in H1. injection H1 as <- <-.
        destruct (hs_loop ar ck limit' throttle start rest _) as [[s4 log4]|] eqn:El'; [|discriminate]. cbn [bind] in H2. injection H2 as <- <-.
        exact (IH _ _ _ _ _ El El').
  - (* the shorter search ended late, so the shorter run ends here *)
    assert (Hover : over_time ck start limit c1 = true).
    { unfold out_of_time in D. unfold over_time. destruct c1 as [|c1]; [lia|]. cbn [pred] in D.
      pose proof (Hmono c1). pose proof (Hne (S c1)). lia. }
    rewrite Ev in H1. rewrite Ev' in H2. cbn [bind] in H1, H2. rewrite Hover in H1.
    unfold check_solution in H1, H2. destruct (ngtb ar v (hs_best s)) eqn:Eb.
    + assert (H1' : hs_best s1 = v).
      { destruct (get_solution ar y1) as [ret|]; [|discriminate]. cbn [bind andb] in H1.
        destruct (global_check ar v); injection H1 as <- <-; reflexivity. }
      rewrite H1'.
      assert (Eb' : ngtb ar v' (hs_best s) = true).
      { destruct G as [->|G]; [exact Eb|]. eapply (law_gt_trans _ laws); eassumption. }
      rewrite Eb' in H2. destruct (get_solution ar y2) as [ret|]; [|discriminate].
      cbn [bind andb hs_st hs_best hs_ret hs_strategy] in H2.
      destruct (global_check ar v'); [injection H2 as <- <-; exact G|].
      destruct (over_time ck start limit' c2); [injection H2 as <- <-; exact G|].
      destruct (hs_loop ar ck limit' throttle start rest _) as [[s3 log3]|] eqn:El; [|discriminate]. cbn [bind] in H2. injection H2 as <- <-.
      apply hs_loop_value in El. cbn [hs_best] in El. exact (tr _ _ _ El G).
    + cbn [bind andb] in H1. injection H1 as <- <-. exact Hall.
Qed.
End Pack.
