(** * Searches in a strip with height to spare: the height is not observable. *)
From Coq Require Import ZArith String List Bool Lia Permutation.
From Verif Require Import Py ProofsPy Arith Construct Spec ProofsSolve ProofsValues LocalSearch SpecSearch ItemsManip HyperSearch
  PropertiesSearch PropertiesItems ProofsHyper PropertiesInstance ProofsLoose ProofsTall ProofsAgain.
Import ListNotations.
Open Scope string_scope.
Open Scope list_scope.
Open Scope Z_scope.

(** Part of the items: no more reach. *)
Lemma dget_ddel_other {A} (d : odict A) i j : i <> j -> dget (ddel d i) j = dget d j.
Proof.
  intros H. induction d as [|[k v] t IH]; [reflexivity|]. cbn. destruct (String.eqb_spec i k) as [->|Hk].
  - destruct (String.eqb_spec j k); [congruence|reflexivity].
  - cbn. destruct (String.eqb j k); [reflexivity|exact IH].
Qed.

Definition pos_items (items : odict dims) : Prop := Forall (fun kv => pos_dims (snd kv)) items.

Lemma reach_part (part : odict dims) : forall items, NoDup (dkeys part) -> pos_items items ->
  (forall i d, In (i, d) part -> dget items i = Some d) -> reach part <= reach items.
Proof.
  induction part as [|[i d] t IH]; intros items Hn Hp Hsub; [apply reach_nonneg; exact Hp|].
  change (reach ((i, d) :: t)) with (longest d + reach t). rewrite (reach_del items i d) by (apply Hsub; left; reflexivity).
  inversion Hn as [|? ? Hi Hn']. subst. assert (reach t <= reach (ddel items i)); [|lia].
  apply IH; [exact Hn'|apply ddel_pos; exact Hp|]. intros j e Hin. rewrite dget_ddel_other; [apply Hsub; right; exact Hin|].
  intros ->. apply Hi. apply in_map_iff. exists (j, e). auto.
Qed.

Lemma deepcopy_part (items : odict dims) ids : forall acc d, NoDup (dkeys acc) -> (forall k v, dget acc k = Some v -> dget items k = Some v) ->
  rfold (fun d i => it <- dget_r items i ;; Ok (dset d i it)) ids acc = Ok d ->
  NoDup (dkeys d) /\ forall k v, dget d k = Some v -> dget items k = Some v.
Proof.
  induction ids as [|i t IH]; intros acc d Hn Ha; cbn [rfold]; [intros [= <-]; auto|].
  unfold dget_r at 1. destruct (dget items i) as [it|] eqn:E; [|discriminate]. cbn [bind]. apply IH; [apply NoDup_dset; exact Hn|].
  intros k v. destruct (string_dec i k) as [->|Hne]; [rewrite dget_dset_same; congruence|]. rewrite dget_dset_other by assumption. apply Ha.
Qed.

Lemma valid_pos items : valid_items items -> pos_items items.
Proof. intros [_ H]. apply Forall_forall. intros [i d] Hin. exact (H i d Hin). Qed.

Lemma items_for_reach pb sq its : valid_items (pb_items pb) -> items_for pb sq = Ok its ->
  pos_items its /\ reach its <= reach (pb_items pb).
Proof.
  intros V. destruct sq as [ids|]; cbn [items_for]; [|intros [= <-]; split; [apply valid_pos; exact V|lia]].
  intros E. destruct (deepcopy_part _ _ [] its (NoDup_nil _) ltac:(discriminate) E) as [Hn Hs].
  assert (Hin : forall i d, In (i, d) its -> dget (pb_items pb) i = Some d) by (intros i d H; apply Hs; apply In_dget; assumption).
  split; [|apply reach_part; [exact Hn|apply valid_pos; exact V|exact Hin]].
  apply Forall_forall. intros [i d] H. apply (proj2 V i). apply dget_In. exact (Hin i d H).
Qed.

Section Heights.
Context {ar : arith} (laws : arith_laws ar).
Notation inst := (inst ar).

(** Two heights the items cannot tell apart. *)
Definition spare (T h1 h2 : Z) : Prop :=
  0 <= T /\ T < h1 /\ T < h2 /\ forall d, 0 <= d <= T -> ratio_le_fifth ar d h1 = ratio_le_fifth ar d h2.

Lemma construct_spare T h1 h2 W rotation strategy items : spare T h1 h2 -> pos_items items -> reach items <= T ->
  construct_solution ar W h1 true rotation strategy items = construct_solution ar W h2 true rotation strategy items.
Proof.
  intros [H0 [H1 [H2 H3]]] Hp Hr. destruct (Z.le_ge_cases h1 h2) as [Hle|Hle].
  - pose proof (construct_solution_tall ar W h1 (h2 - h1) ltac:(lia) ltac:(lia) T H1) as G.
    replace (h1 + (h2 - h1)) with h2 in G by lia. symmetry. apply G; try assumption. intros d Hd. symmetry. apply H3. exact Hd.
  - pose proof (construct_solution_tall ar W h2 (h1 - h2) ltac:(lia) ltac:(lia) T H2) as G.
    replace (h2 + (h1 - h2)) with h1 in G by lia. apply G; assumption.
Qed.

Context (T h1 h2 : Z) (Hspare : spare T h1 h2).

(** The same strip problem, but for the height: the same, or still the one given. *)
Definition heights (p q : problem) : Prop := pb_height p = pb_height q \/ (pb_height p = h1 /\ pb_height q = h2).
Definition near_pb (p q : problem) : Prop :=
  pb_containers p = pb_containers q /\ pb_items p = pb_items q /\ pb_rotation p = pb_rotation q /\
  pb_strategy p = pb_strategy q /\ pb_strip p = true /\ pb_strip q = true /\ heights p q /\ reach (pb_items p) <= T /\
  valid_items (pb_items p) /\ dkeys (pb_containers p) = [strip_id].
Definition near (x y : inst) : Prop :=
  near_pb (in_pb x) (in_pb y) /\ in_min x = in_min y /\ in_cnum x = in_cnum y.
Definition nearly (x y : inst) : Prop := near x y /\ in_sol x = in_sol y /\ in_objs x = in_objs y.

Lemma solve_near p q sq : near_pb p q -> solve ar p sq = solve ar q sq.
Proof.
  intros [N1 [N2 [N3 [N4 [N5 [N6 [N7 [N8 [V Hk]]]]]]]]]. unfold solve, solve_full.
  replace (items_for q sq) with (items_for p sq) by (unfold items_for; rewrite N2; reflexivity).
  destruct (items_for p sq) as [its|] eqn:E; cbn [bind]; [|reflexivity].
  destruct (items_for_reach p sq its V E) as [Hp Hr]. rewrite <- N1. f_equal.
  destruct (pb_containers p) as [|[cid c] [|]]; cbn in Hk; try discriminate. cbn [rfold].
  apply bind_eq; [|reflexivity]. unfold solve_step. destruct its as [|it its]; [reflexivity|].
  unfold container_length. rewrite N5, N6, <- N3, <- N4. destruct N7 as [->|[-> ->]]; [reflexivity|].
  rewrite (construct_spare T h1 h2 (dw c) (pb_rotation p) (pb_strategy p) (it :: its) Hspare Hp); [reflexivity|lia].
Qed.

Lemma near_solve x y sq : near x y -> solve ar (in_pb x) sq = solve ar (in_pb y) sq.
Proof. intros [N _]. apply solve_near. exact N. Qed.

Lemma near_set x y sol objs : near x y -> nearly (set_solution x sol objs) (set_solution y sol objs).
Proof. intros H. split; [exact H|split; reflexivity]. Qed.

Lemma near_solve_agree x y sq : near x y -> agree nearly (inst_solve ar x sq) (inst_solve ar y sq).
Proof.
  intros H. unfold inst_solve. rewrite (near_solve _ _ sq H). destruct (solve ar (in_pb y) sq) as [[sol objs]|e]; cbn; [|reflexivity].
  apply near_set. exact H.
Qed.

Lemma near_value x y : nearly x y -> calculate_obj_value ar x = calculate_obj_value ar y.
Proof. intros [[_ [_ H]] [_ E]]. unfold calculate_obj_value. rewrite H, E. reflexivity. Qed.

Lemma near_get x y : nearly x y -> get_solution ar x = get_solution ar y.
Proof.
  intros [[[H1 [H2 _]] _] [E1 E2]]. unfold get_solution, deepcopy_solution. rewrite H1, H2, E1, E2. reflexivity.
Qed.

Lemma near_init x y : near x y ->
  agree (fun a b => nearly (fst a) (fst b) /\ snd a = snd b) (get_init_solution ar x) (get_init_solution ar y).
Proof.
  intros H. unfold get_init_solution. eapply agree_bind; [apply near_solve_agree; exact H|]. intros a b Hab.
  rewrite (near_get _ _ Hab). destruct (get_solution ar b); cbn; auto.
Qed.

Lemma near_compare x y v b : nearly x y -> compare_node ar x v b = compare_node ar y v b.
Proof.
  intros [[[H1 [H2 [H3 [H4 [H5 [H6 _]]]]]] [H7 _]] [E _]]. unfold compare_node. rewrite H5, H6, H7, E, H2. reflexivity.
Qed.

Lemma near_height x y : nearly x y -> new_height ar x = new_height ar y.
Proof. intros [[[H1 _] [H7 _]] [E _]]. unfold new_height. rewrite E, H1, H7. reflexivity. Qed.

Lemma near_extra x y : nearly x y -> agree nearly (extra_node_operations ar x) (extra_node_operations ar y).
Proof.
  intros A. pose proof (near_height _ _ A) as E. pose proof A as [[[H1 [H2 [H3 [H4 [H5 [H6 [_ [H8 [H9 H10]]]]]]]]] [H11 H12]] [E1 E2]].
  unfold extra_node_operations. rewrite H5, H6, E. destruct (new_height ar y) as [h|]; cbn [bind]; [|reflexivity].
  split; [|split; [exact E1|exact E2]]. split; [|split; [exact H11|exact H12]]. unfold near_pb, heights. cbn. repeat (split; [assumption|]).
  split; [left; reflexivity|]. auto.
Qed.

Section Loop.
Variables (f g : nat -> bool) (c1 c2 : nat).
Hypothesis same : same_answers f g c1 c2.
Notation node1 := (search_node (evaluate_node ar) (calculate_obj_value ar) (get_solution ar) (compare_node ar)
  (extra_node_operations ar) (global_check ar) f).
Notation node2 := (search_node (evaluate_node ar) (calculate_obj_value ar) (get_solution ar) (compare_node ar)
  (extra_node_operations ar) (global_check ar) g).
Notation loop1 := (search_loop (evaluate_node ar) (calculate_obj_value ar) (get_solution ar) (compare_node ar)
  (extra_node_operations ar) (global_check ar) f).
Notation loop2 := (search_loop (evaluate_node ar) (calculate_obj_value ar) (get_solution ar) (compare_node ar)
  (extra_node_operations ar) (global_check ar) g).

Definition near_ls (s t : ls (num := num ar) (St := inst) (Sol := solution * objvals ar)) : Prop :=
  nearly (ls_st s) (ls_st t) /\ ls_node s = ls_node t /\ ls_best s = ls_best t /\ ls_ret s = ls_ret t /\
  together c1 c2 (ls_clk s) (ls_clk t).

Lemma near_node maxn : forall swaps p s t, near_ls s t ->
  agree (fun a b => near_ls (fst a) (fst b) /\ snd a = snd b) (node1 swaps maxn p s) (node2 swaps maxn p t).
Proof.
  induction swaps as [|[i j] rest IH]; intros p s t H; pose proof H as [H1 [H2 [H3 [H4 H5]]]]; cbn [search_node].
  - cbn. rewrite H3. split; [exact H|reflexivity].
  - rewrite H2. eapply agree_bind; [apply near_solve_agree; exact (proj1 H1)|]. intros st1 st1' Hst.
    rewrite (near_value _ _ Hst). eapply agree_bind; [apply agree_eq; reflexivity|]. intros v ? <-.
    rewrite (near_compare _ _ _ _ Hst), H3. eapply agree_bind; [apply agree_eq; reflexivity|]. intros better ? <-.
    apply agree_bind with (P := near_ls).
    { destruct better.
      - rewrite (near_get _ _ Hst). eapply agree_bind; [apply agree_eq; reflexivity|]. intros ret ? <-.
        eapply agree_bind; [apply near_extra; exact Hst|]. intros a b Hab. cbn. split; [exact Hab|]. auto.
      - cbn. split; [exact Hst|]. cbn. auto. }
    intros s' t' [K1 [K2 [K3 [K4 K5]]]]. rewrite (answers_now _ _ _ _ _ _ same K5), K3.
    assert (N : near_ls (mkLs (ls_st s') (ls_node s') (ls_best t') (ls_ret s') (S (ls_clk s')))
                         (mkLs (ls_st t') (ls_node t') (ls_best t') (ls_ret t') (S (ls_clk t')))).
    { split; [exact K1|]. cbn. split; [exact K2|]. split; [reflexivity|]. split; [exact K4|]. apply together_next. exact K5. }
    destruct (_ || _ || _ || _).
    + cbn [agree fst snd]. split; [exact N|]. reflexivity.
    + apply IH. exact N.
Qed.

Lemma near_loop swaps maxn : forall fuel s t, near_ls s t ->
  agree (fun a b => near_ls (fst a) (fst b) /\ snd a = snd b) (loop1 fuel swaps maxn s) (loop2 fuel swaps maxn t).
Proof.
  induction fuel as [|n IH]; intros s t H; [reflexivity|]. cbn [search_loop].
  eapply agree_bind; [apply near_node; exact H|]. intros [s' nl] [t' nl'] [K E]. cbn [fst snd] in K, E. subst nl'.
  destruct (_ && _ && _).
  - eapply agree_bind; [apply IH; exact K|]. intros [s2 l1] [t2 l2] [K2 E]. cbn [fst snd] in K2, E. subst l2. cbn. split; [exact K2|reflexivity].
  - cbn. split; [exact K|reflexivity].
Qed.
End Loop.

(** With the same bound on the number of nodes. *)
Lemma near_search_fuel fuel (ck1 ck2 : clock) limit1 limit2 throttle start1 start2 x y clk1 clk2 : near x y ->
  same_answers (out_of_time ck1 (fst (begun ck1 start1 clk1)) limit1) (out_of_time ck2 (fst (begun ck2 start2 clk2)) limit2)
               (snd (begun ck1 start1 clk1)) (snd (begun ck2 start2 clk2)) ->
  agree (fun a b => nearly (fst (fst a)) (fst (fst b)) /\ snd a = snd b /\
           together (snd (begun ck1 start1 clk1)) (snd (begun ck2 start2 clk2)) (snd (fst a)) (snd (fst b)))
    (local_search_fuel ar (fun _ => fuel) ck1 limit1 throttle start1 x clk1) (local_search_fuel ar (fun _ => fuel) ck2 limit2 throttle start2 y clk2).
Proof.
  intros Hl Ht. unfold local_search_fuel.
  change (match start1 with None => (ck1 clk1, S clk1) | Some t => (t, clk1) end) with (begun ck1 start1 clk1).
  change (match start2 with None => (ck2 clk2, S clk2) | Some t => (t, clk2) end) with (begun ck2 start2 clk2).
  destruct (begun ck1 start1 clk1) as [st1 c1]. destruct (begun ck2 start2 clk2) as [st2 c2]. cbn [fst snd] in *.
  set (x1 := if pb_strip (in_pb x) then _ else _). set (y1 := if pb_strip (in_pb y) then _ else _).
  assert (L : near x1 y1) by (unfold x1, y1; destruct (pb_strip (in_pb x)), (pb_strip (in_pb y)); exact Hl).
  replace (pb_items (in_pb y1)) with (pb_items (in_pb x1)) by apply L.
  eapply agree_bind.
  - unfold abstract_local_search. eapply agree_bind; [apply near_init; exact L|]. intros [a ra] [b rb] [Hab E]. cbn [fst snd] in Hab, E. subst rb.
    rewrite (near_value _ _ Hab). eapply agree_bind; [apply agree_eq; reflexivity|]. intros v ? <-.
    apply (near_loop _ _ c1 c2 Ht). split; [exact Hab|]. cbn. repeat (split; [reflexivity|]). apply together_now.
  - intros [s l1] [t l2] [[K1 [K2 [K3 [K4 K5]]]] E]. cbn [fst snd] in *. subst l2. rewrite K4. destruct (ls_ret t) as [sol objs].
    cbn [agree fst snd]. split; [apply near_set; exact (proj1 K1)|]. split; [reflexivity|exact K5].
Qed.

(** More nodes allowed: the same, once it ends. *)
Lemma search_more_fuel m (ck : clock) limit throttle start x clk r :
  local_search ar ck limit throttle start x clk = Ok r ->
  local_search_fuel ar (fun _ => (m + ls_fuel ar (if pb_strip (in_pb x) then set_hist x [pb_height (in_pb x)] else x))%nat) ck limit throttle start x clk = Ok r.
Proof.
  unfold local_search, local_search_fuel. destruct (match start with None => _ | Some _ => _ end) as [st c].
  set (x1 := if pb_strip (in_pb x) then _ else _). unfold abstract_local_search.
  destruct (get_init_solution ar x1) as [[a ra]|]; cbn [bind]; [|discriminate].
  destruct (calculate_obj_value ar a) as [v|]; cbn [bind]; [|discriminate].
  match goal with |- bind ?q _ = _ -> _ => destruct q as [[s l]|] eqn:E; cbn [bind]; [|discriminate] end.
  intros H. rewrite (search_loop_more _ _ _ _ _ _ _ _ _ _ m _ _ _ _ _ _ E). exact H.
Qed.

Theorem near_search (ck1 ck2 : clock) limit1 limit2 throttle start1 start2 x y clk1 clk2 r1 r2 : near x y ->
  same_answers (out_of_time ck1 (fst (begun ck1 start1 clk1)) limit1) (out_of_time ck2 (fst (begun ck2 start2 clk2)) limit2)
               (snd (begun ck1 start1 clk1)) (snd (begun ck2 start2 clk2)) ->
  local_search ar ck1 limit1 throttle start1 x clk1 = Ok r1 -> local_search ar ck2 limit2 throttle start2 y clk2 = Ok r2 ->
  nearly (fst (fst r1)) (fst (fst r2)) /\ snd r1 = snd r2 /\
           together (snd (begun ck1 start1 clk1)) (snd (begun ck2 start2 clk2)) (snd (fst r1)) (snd (fst r2)).
Proof.
  intros N Ht E1 E2.
  set (f1 := ls_fuel ar (if pb_strip (in_pb x) then set_hist x [pb_height (in_pb x)] else x)).
  set (f2 := ls_fuel ar (if pb_strip (in_pb y) then set_hist y [pb_height (in_pb y)] else y)).
  pose proof (search_more_fuel f2 _ _ _ _ _ _ _ E1) as F1. pose proof (search_more_fuel f1 _ _ _ _ _ _ _ E2) as F2. fold f1 in F1. fold f2 in F2.
  replace (f1 + f2)%nat with (f2 + f1)%nat in F2 by lia.
  pose proof (near_search_fuel (f2 + f1) ck1 ck2 limit1 limit2 throttle start1 start2 x y clk1 clk2 N Ht) as A.
  rewrite F1, F2 in A. exact A.
Qed.

(** *** Hypersearch *)
Lemma near_strategy x y g : near x y -> near (set_strategy x g) (set_strategy y g).
Proof.
  intros [[H1 [H2 [H3 [H4 H5]]]] [H7 H8]]. split; [|split; [exact H7|exact H8]].
  unfold near_pb, heights. cbn. auto 10.
Qed.

Lemma reach_perm a b : Permutation a b -> reach a = reach b.
Proof. induction 1; unfold reach in *; cbn [fold_right] in *; lia. Qed.

Lemma near_set_items x y items : near x y -> valid_items items -> reach items <= T -> near (set_items x items) (set_items y items).
Proof.
  intros [[H1 [H2 [H3 [H4 [H5 [H6 [H7 [H8 [H9 H10]]]]]]]]] [H11 H12]] V R. split; [|split; [exact H11|exact H12]].
  unfold near_pb, heights in *. cbn. auto 15.
Qed.

Lemma near_sort sb x y : near x y -> agree near (sort_items ar sb x) (sort_items ar sb y).
Proof.
  intros H. destruct sb as [[by_ rv]|]; [|exact H]. cbn [sort_items]. destruct (key_lt ar by_) as [lt|]; [|reflexivity].
  pose proof H as [[_ [E _]] _]. cbn [agree]. rewrite <- E.
  assert (Hp : Permutation (py_sort_rev (elem_lt lt) rv (pb_items (in_pb x))) (pb_items (in_pb x)))
    by (unfold py_sort_rev; destruct rv; apply py_sort_perm).
  apply near_set_items; [exact H| |].
  - eapply valid_items_perm; [exact Hp|]. apply H.
  - rewrite (reach_perm _ _ Hp). apply H.
Qed.

Lemma reach_map f items : (forall d, longest (f d) = longest d) -> reach (map (fun kd => (fst kd, f (snd kd))) items) = reach items.
Proof. intros H. induction items as [|[i d] t IH]; [reflexivity|]. unfold reach in *. cbn [fold_right map fst snd]. rewrite H, IH. reflexivity. Qed.

Lemma near_orient_all f turn x y : (forall d, pos_dims d -> pos_dims (f d)) -> (forall d, longest (f d) = longest d) ->
  near x y -> near (orient_all ar f turn x) (orient_all ar f turn y).
Proof.
  intros Hf Hl H. unfold orient_all. pose proof H as [[_ [E [_ [_ [_ [_ [_ [R [V _]]]]]]]]] _]. rewrite <- E.
  destruct (existsb _ _); [|exact H]. apply near_set_items; [exact H| |rewrite reach_map; assumption].
  destruct V as [Hn Hd]. split.
  - unfold dkeys. rewrite map_map. exact Hn.
  - intros i d Hi. apply in_map_iff in Hi. destruct Hi as [[k d0] [[= <- <-] Hi]]. apply Hf. apply (Hd k). exact Hi.
Qed.

Lemma near_orient o x y : near x y -> near (orient_items ar o x) (orient_items ar o y).
Proof.
  intros H. destruct o as [o|]; [|exact H]. cbn [orient_items]. replace (pb_rotation (in_pb y)) with (pb_rotation (in_pb x)) by apply H.
  destruct (negb _); [exact H|]. destruct (String.eqb o "wide").
  { apply near_orient_all; [| |exact H].
    - intros d [A B]. unfold orient_wide. destruct (dl d >? dw d); split; assumption.
    - intros d. unfold orient_wide, longest. destruct (dl d >? dw d); cbn; lia. }
  destruct (String.eqb o "long"); [|exact H]. apply near_orient_all; [| |exact H].
  - intros d [A B]. unfold orient_long. destruct (dl d <? dw d); split; assumption.
  - intros d. unfold orient_long, longest. destruct (dl d <? dw d); cbn; lia.
Qed.

Definition near_hs (s t : hs ar) : Prop :=
  near (hs_st s) (hs_st t) /\ valid_inst ar (hs_st s) /\ valid_inst ar (hs_st t) /\
  hs_best s = hs_best t /\ hs_ret s = hs_ret t /\ hs_strategy s = hs_strategy t.

Lemma near_hs_loop ck1 ck2 limit1 limit2 start1 start2 throttle strategies : forall s t,
  in_step ck1 ck2 limit1 limit2 start1 start2 (hs_clk s) (hs_clk t) -> near_hs s t ->
  agree (fun a b => near_hs (fst a) (fst b) /\ snd a = snd b)
    (hs_loop ar ck1 limit1 throttle start1 strategies s) (hs_loop ar ck2 limit2 throttle start2 strategies t).
Proof.
  induction strategies as [|g rest IH]; intros s t [T1 T2] H; pose proof H as [H1 [V1 [V2 [H2 [H3 H4]]]]]; cbn [hs_loop].
  - cbn. split; [exact H|]. reflexivity.
  - destruct (search_step ar laws (set_strategy (hs_st s) g) (set_strategy_valid ar _ g V1) ck1 limit1 throttle (Some start1) (hs_clk s))
      as [x1 [clk1 [l1 [_ [_ [E1 [X1 _]]]]]]].
    destruct (search_step ar laws (set_strategy (hs_st t) g) (set_strategy_valid ar _ g V2) ck2 limit2 throttle (Some start2) (hs_clk t))
      as [y1 [clk2 [l2 [_ [_ [E2 [Y1 _]]]]]]].
    destruct (near_search ck1 ck2 limit1 limit2 throttle (Some start1) (Some start2) _ _ _ _ _ _ (near_strategy _ _ g H1) T1 E1 E2) as [A [_ K]].
    cbn [begun fst snd] in A, K. rewrite E1, E2. cbn [bind].
    rewrite (near_value _ _ A). eapply agree_bind; [apply agree_eq; reflexivity|]. intros v ? <-. rewrite H2.
    apply agree_bind with (P := fun a b => near_hs a b /\ hs_clk a = clk1 /\ hs_clk b = clk2).
    { destruct (check_solution ar v (hs_best t)).
      - rewrite (near_get _ _ A). eapply agree_bind; [apply agree_eq; reflexivity|]. intros ret ? <-. cbn.
        split; [split; [exact (proj1 A)|]|]; auto 10.
      - cbn. split; [split; [exact (proj1 A)|]|]; auto 10. }
    intros s' t' [K0 [C1 C2]]. destruct (_ && _).
    + cbn. split; [exact K0|]. reflexivity.
    + rewrite (answers_now _ _ _ _ _ _ T2 K).
      assert (N : near_hs (mkHs (hs_st s') (hs_best s') (hs_ret s') (hs_strategy s') (S clk1))
                           (mkHs (hs_st t') (hs_best t') (hs_ret t') (hs_strategy t') (S clk2))) by exact K0.
      pose proof (together_next _ _ _ _ K) as K'.
      destruct (over_time _ _ _ _).
      * cbn [agree fst snd]. split; [exact N|]. reflexivity.
      * eapply agree_bind; [apply IH; [|exact N]|].
        { cbn. split; eapply answers_later; eassumption. }
        intros [s3 l3] [t3 l4] [A3 E3]. cbn [fst snd] in *. subst l4. cbn. split; [exact A3|]. reflexivity.
Qed.

Lemma init_valid (x a : inst) ra : valid_inst ar x -> get_init_solution ar x = Ok (a, ra) -> valid_inst ar a.
Proof.
  intros V. unfold get_init_solution, inst_solve. destruct (solve ar (in_pb x) None) as [[sol objs]|]; cbn [bind]; [|discriminate].
  destruct (get_solution ar _); cbn [bind]; [|discriminate]. intros [= <- <-]. exact V.
Qed.

Theorem near_hypersearch ck1 ck2 limit1 limit2 throttle o sb strategies x y clk1 clk2 : near x y -> valid_inst ar x -> valid_inst ar y ->
  in_step ck1 ck2 limit1 limit2 (ck1 clk1) (ck2 clk2) (S clk1) (S clk2) ->
  agree (fun a b => nearly (hr_inst a) (hr_inst b) /\ hr_best_strategy a = hr_best_strategy b /\ hr_log a = hr_log b)
    (hypersearch ar ck1 limit1 throttle o sb strategies x clk1) (hypersearch ar ck2 limit2 throttle o sb strategies y clk2).
Proof.
  intros L Vx Vy Ht. unfold hypersearch.
  pose proof (near_sort sb _ _ L) as S0.
  destruct (sort_items ar sb x) as [x0|] eqn:Ex; destruct (sort_items ar sb y) as [y0|] eqn:Ey; cbn [agree] in S0; try contradiction; cbn [bind]; [|exact S0].
  pose proof (orient_items_valid ar _ o (sort_items_valid ar _ _ _ Vx Ex)) as Vx1.
  pose proof (orient_items_valid ar _ o (sort_items_valid ar _ _ _ Vy Ey)) as Vy1.
  pose proof (near_orient o _ _ S0) as L1. unfold single_process.
  pose proof (near_init _ _ L1) as I0.
  destruct (get_init_solution ar (orient_items ar o x0)) as [[a ra]|] eqn:Ea; destruct (get_init_solution ar (orient_items ar o y0)) as [[b rb]|] eqn:Eb;
    cbn [agree] in I0; try contradiction; cbn [bind]; [|exact I0].
  destruct I0 as [A E]. cbn [fst snd] in A, E. subst rb.
  rewrite (near_value _ _ A). destruct (calculate_obj_value ar b) as [v|]; cbn [bind]; [|reflexivity].
  eapply agree_bind.
  { apply (near_hs_loop ck1 ck2 limit1 limit2 _ _ throttle strategies (mkHs a v ra default_strategy (S clk1)) (mkHs b v ra default_strategy (S clk2))); [exact Ht|].
    split; [exact (proj1 A)|]. split; [eapply init_valid; [|exact Ea]; exact Vx1|]. split; [eapply init_valid; [|exact Eb]; exact Vy1|]. auto. }
  intros [s l1] [t l2] [[A1 [_ [_ [A2 [A3 A4]]]]] E]. cbn [fst snd] in *. subst l2. cbn. rewrite A3, A4.
  split; [apply near_set; exact A1|]. auto.
Qed.
End Heights.
