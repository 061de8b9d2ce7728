(** * Searches depend on the problem only, not on what the instance held before. *)
From Coq Require Import ZArith String List Bool Lia Permutation.
From Verif Require Import Py ProofsPy Arith Construct Spec ProofsSolve ProofsValues LocalSearch SpecSearch ItemsManip HyperSearch
  PropertiesInstance ProofsLoose.
Import ListNotations.
Open Scope string_scope.
Open Scope list_scope.
Open Scope Z_scope.

Section Again.
Context {ar : arith}.
Notation inst := (inst ar).

(** The same problem: what a search reads. In bins the heights are not read. *)
Definition like_pb (p q : problem) : Prop :=
  pb_containers p = pb_containers q /\ pb_items p = pb_items q /\ pb_rotation p = pb_rotation q /\
  pb_strategy p = pb_strategy q /\ pb_strip p = pb_strip q /\ (pb_strip p = true -> pb_height p = pb_height q).
Definition like (x y : inst) : Prop :=
  like_pb (in_pb x) (in_pb y) /\ (pb_strip (in_pb x) = true -> in_min x = in_min y) /\ in_cnum x = in_cnum y.
Definition alike (x y : inst) : Prop := like x y /\ in_sol x = in_sol y /\ in_objs x = in_objs y.

Lemma like_refl x : like x x.
Proof. repeat split. Qed.

Definition agree {A B} (P : A -> B -> Prop) (a : result A) (b : result B) : Prop :=
  match a, b with Ok x, Ok y => P x y | Err e, Err e' => e = e' | _, _ => False end.

Lemma agree_bind {A B A' B'} (P : A -> A' -> Prop) (Q : B -> B' -> Prop) a a' f f' :
  agree P a a' -> (forall x x', P x x' -> agree Q (f x) (f' x')) -> agree Q (bind a f) (bind a' f').
Proof. destruct a, a'; cbn; intros H K; try contradiction; auto. Qed.
Lemma agree_eq {A} (a b : result A) : a = b -> agree eq a b.
Proof. intros ->. destruct b; reflexivity. Qed.

Lemma solve_like p q sq : like_pb p q -> solve ar p sq = solve ar q sq.
Proof.
  intros [H1 [H2 [H3 [H4 [H5 H6]]]]]. unfold solve, solve_full.
  replace (items_for q sq) with (items_for p sq) by (unfold items_for; rewrite H2; reflexivity).
  destruct (items_for p sq); cbn [bind]; [|reflexivity]. rewrite H1. f_equal. apply rfold_ext. apply solve_step_ext; assumption.
Qed.

Lemma like_set x y sol objs : like x y -> alike (set_solution x sol objs) (set_solution y sol objs).
Proof. intros [H1 [H2 H3]]. split; [split; [exact H1|split; [exact H2|exact H3]]|split; reflexivity]. Qed.

Lemma solve_agree x y sq : like x y -> agree alike (inst_solve ar x sq) (inst_solve ar y sq).
Proof.
  intros H. unfold inst_solve. rewrite (solve_like _ _ sq (proj1 H)). destruct (solve ar (in_pb y) sq) as [[sol objs]|e]; cbn; [|reflexivity].
  apply like_set. exact H.
Qed.

Lemma value_alike x y : alike x y -> calculate_obj_value ar x = calculate_obj_value ar y.
Proof. intros [[_ [_ H]] [_ E]]. unfold calculate_obj_value. rewrite H, E. reflexivity. Qed.

Lemma get_solution_alike x y : alike x y -> get_solution ar x = get_solution ar y.
Proof.
  intros [[[H1 [H2 _]] _] [E1 E2]]. unfold get_solution, deepcopy_solution. rewrite H1, H2, E1, E2. reflexivity.
Qed.

Lemma init_agree x y : like x y ->
  agree (fun a b => alike (fst a) (fst b) /\ snd a = snd b) (get_init_solution ar x) (get_init_solution ar y).
Proof.
  intros H. unfold get_init_solution. eapply agree_bind; [apply solve_agree; exact H|]. intros a b Hab.
  rewrite (get_solution_alike _ _ Hab). destruct (get_solution ar b); cbn; auto.
Qed.

Lemma compare_alike x y v b : alike x y -> compare_node ar x v b = compare_node ar y v b.
Proof.
  intros [[[H1 [H2 [H3 [H4 [H5 H6]]]]] [H7 _]] [E _]]. unfold compare_node. rewrite <- H5.
  destruct (pb_strip (in_pb x)) eqn:Es; [|reflexivity]. cbn. rewrite (H7 eq_refl), E, H2. reflexivity.
Qed.

Lemma extra_agree x y : alike x y -> agree alike (extra_node_operations ar x) (extra_node_operations ar y).
Proof.
  intros A. pose proof A as [[[H1 [H2 [H3 [H4 [H5 H6]]]]] [H7 H8]] [E1 E2]]. unfold extra_node_operations. rewrite <- H5.
  destruct (pb_strip (in_pb x)) eqn:Es; [|exact A].
  replace (new_height ar y) with (new_height ar x).
  2:{ unfold new_height. rewrite E1, H1, (H7 eq_refl). reflexivity. }
  destruct (new_height ar x) as [h|]; cbn [bind]; [|reflexivity].
  split; [|split; [exact E1|exact E2]]. split; [|split; [|exact H8]].
  - unfold like_pb. cbn. rewrite Es, <- H5. auto 10.
  - intros _. exact (H7 eq_refl).
Qed.

(** The same answers of the clock from here on. *)
Definition same_answers (f g : nat -> bool) (c d : nat) : Prop := forall n, f (c + n)%nat = g (d + n)%nat.
(** The same number of readings since. *)
Definition together (c d a b : nat) : Prop := exists n, a = (c + n)%nat /\ b = (d + n)%nat.
Lemma together_now c d : together c d c d.
Proof. exists 0%nat. rewrite !Nat.add_0_r. auto. Qed.
Lemma together_next c d a b : together c d a b -> together c d (S a) (S b).
Proof. intros [n [-> ->]]. exists (S n). lia. Qed.
Lemma together_trans c d a b a' b' : together c d a b -> together a b a' b' -> together c d a' b'.
Proof. intros [n [-> ->]] [m [-> ->]]. exists (n + m)%nat. lia. Qed.
Lemma answers_now f g c d a b : same_answers f g c d -> together c d a b -> f a = g b.
Proof. intros H [n [-> ->]]. apply H. Qed.
Lemma answers_later f g c d a b : same_answers f g c d -> together c d a b -> same_answers f g a b.
Proof. intros H [n [-> ->]] m. rewrite <- !Nat.add_assoc. apply H. Qed.

Section Loop.
Variables (f g : nat -> bool) (c1 c2 : nat).
Hypothesis same : same_answers f g c1 c2.
Notation node1 := (search_node (evaluate_node ar) (calculate_obj_value ar) (get_solution ar) (compare_node ar)
  (extra_node_operations ar) (global_check ar) f).
Notation node2 := (search_node (evaluate_node ar) (calculate_obj_value ar) (get_solution ar) (compare_node ar)
  (extra_node_operations ar) (global_check ar) g).
Notation loop1 := (search_loop (evaluate_node ar) (calculate_obj_value ar) (get_solution ar) (compare_node ar)
  (extra_node_operations ar) (global_check ar) f).
Notation loop2 := (search_loop (evaluate_node ar) (calculate_obj_value ar) (get_solution ar) (compare_node ar)
  (extra_node_operations ar) (global_check ar) g).

Definition alike_ls (s t : ls (num := num ar) (St := inst) (Sol := solution * objvals ar)) : Prop :=
  alike (ls_st s) (ls_st t) /\ ls_node s = ls_node t /\ ls_best s = ls_best t /\ ls_ret s = ls_ret t /\
  together c1 c2 (ls_clk s) (ls_clk t).

Lemma node_agree maxn : forall swaps p s t, alike_ls s t ->
  agree (fun a b => alike_ls (fst a) (fst b) /\ snd a = snd b) (node1 swaps maxn p s) (node2 swaps maxn p t).
Proof.
  induction swaps as [|[i j] rest IH]; intros p s t H; pose proof H as [H1 [H2 [H3 [H4 H5]]]]; cbn [search_node].
  - cbn. rewrite H3. split; [exact H|reflexivity].
  - rewrite H2. eapply agree_bind; [apply solve_agree; exact (proj1 H1)|]. intros st1 st1' Hst.
    rewrite (value_alike _ _ Hst). eapply agree_bind; [apply agree_eq; reflexivity|]. intros v ? <-.
    rewrite (compare_alike _ _ _ _ Hst), H3. eapply agree_bind; [apply agree_eq; reflexivity|]. intros better ? <-.
    apply agree_bind with (P := alike_ls).
    { destruct better.
      - rewrite (get_solution_alike _ _ Hst). eapply agree_bind; [apply agree_eq; reflexivity|]. intros ret ? <-.
        eapply agree_bind; [apply extra_agree; exact Hst|]. intros a b Hab. cbn. split; [exact Hab|]. auto.
      - cbn. split; [exact Hst|]. cbn. auto. }
    intros s' t' [K1 [K2 [K3 [K4 K5]]]]. rewrite (answers_now _ _ _ _ _ _ same K5), K3.
    assert (N : alike_ls (mkLs (ls_st s') (ls_node s') (ls_best t') (ls_ret s') (S (ls_clk s')))
                         (mkLs (ls_st t') (ls_node t') (ls_best t') (ls_ret t') (S (ls_clk t')))).
    { split; [exact K1|]. cbn. split; [exact K2|]. split; [reflexivity|]. split; [exact K4|]. apply together_next. exact K5. }
    destruct (_ || _ || _ || _).
    + cbn [agree fst snd]. split; [exact N|]. reflexivity.
    + apply IH. exact N.
Qed.

Lemma loop_agree swaps maxn : forall fuel s t, alike_ls s t ->
  agree (fun a b => alike_ls (fst a) (fst b) /\ snd a = snd b) (loop1 fuel swaps maxn s) (loop2 fuel swaps maxn t).
Proof.
  induction fuel as [|n IH]; intros s t H; [reflexivity|]. cbn [search_loop].
  eapply agree_bind; [apply node_agree; exact H|]. intros [s' nl] [t' nl'] [K E]. cbn [fst snd] in K, E. subst nl'.
  destruct (_ && _ && _).
  - eapply agree_bind; [apply IH; exact K|]. intros [s2 l1] [t2 l2] [K2 E]. cbn [fst snd] in K2, E. subst l2. cbn. split; [exact K2|reflexivity].
  - cbn. split; [exact K|reflexivity].
Qed.
End Loop.

(** [start_time] and the readings so far *)
Definition begun (ck : clock) (start : option Z) (clk : nat) : Z * nat :=
  match start with None => (ck clk, S clk) | Some t => (t, clk) end.

Theorem local_search_again (ck1 ck2 : clock) limit1 limit2 throttle start1 start2 x y clk1 clk2 : like x y ->
  same_answers (out_of_time ck1 (fst (begun ck1 start1 clk1)) limit1) (out_of_time ck2 (fst (begun ck2 start2 clk2)) limit2)
               (snd (begun ck1 start1 clk1)) (snd (begun ck2 start2 clk2)) ->
  agree (fun a b => alike (fst (fst a)) (fst (fst b)) /\ snd a = snd b /\
           together (snd (begun ck1 start1 clk1)) (snd (begun ck2 start2 clk2)) (snd (fst a)) (snd (fst b)))
    (local_search ar ck1 limit1 throttle start1 x clk1) (local_search ar ck2 limit2 throttle start2 y clk2).
Proof.
  intros Hl Ht. unfold local_search, local_search_fuel.
  change (match start1 with None => (ck1 clk1, S clk1) | Some t => (t, clk1) end) with (begun ck1 start1 clk1).
  change (match start2 with None => (ck2 clk2, S clk2) | Some t => (t, clk2) end) with (begun ck2 start2 clk2).
  destruct (begun ck1 start1 clk1) as [st1 c1]. destruct (begun ck2 start2 clk2) as [st2 c2]. cbn [fst snd] in *.
  set (x1 := if pb_strip (in_pb x) then _ else _). set (y1 := if pb_strip (in_pb y) then _ else _).
  assert (L : like x1 y1) by (unfold x1, y1; destruct (pb_strip (in_pb x)), (pb_strip (in_pb y)); exact Hl).
  assert (F : ls_fuel ar x1 = ls_fuel ar y1).
  { destruct L as [[L1 [L2 [L3 [L4 [L5 L6]]]]] _]. unfold ls_fuel. rewrite L2, <- L5. destruct (pb_strip (in_pb x1)); [rewrite L6 by reflexivity|]; reflexivity. }
  rewrite F. replace (pb_items (in_pb y1)) with (pb_items (in_pb x1)) by apply L.
  eapply agree_bind.
  - unfold abstract_local_search. eapply agree_bind; [apply init_agree; exact L|]. intros [a ra] [b rb] [Hab E]. cbn [fst snd] in Hab, E. subst rb.
    rewrite (value_alike _ _ Hab). eapply agree_bind; [apply agree_eq; reflexivity|]. intros v ? <-.
    apply (loop_agree _ _ c1 c2 Ht). split; [exact Hab|]. cbn. repeat (split; [reflexivity|]). apply together_now.
  - intros [s l1] [t l2] [[K1 [K2 [K3 [K4 K5]]]] E]. cbn [fst snd] in *. subst l2. rewrite K4. destruct (ls_ret t) as [sol objs].
    cbn [agree fst snd]. split; [apply like_set; exact (proj1 K1)|]. split; [reflexivity|exact K5].
Qed.

(** *** Hypersearch *)
Lemma like_strategy x y g : like x y -> like (set_strategy x g) (set_strategy y g).
Proof.
  intros [[H1 [H2 [H3 [H4 [H5 H6]]]]] [H7 H8]]. split; [|split; [exact H7|exact H8]].
  unfold like_pb. cbn. auto 10.
Qed.

Lemma sort_agree sb x y : like x y -> agree like (sort_items ar sb x) (sort_items ar sb y).
Proof.
  intros H. destruct sb as [[by_ rv]|]; [|exact H]. cbn [sort_items]. destruct (key_lt ar by_) as [lt|]; [|reflexivity].
  destruct H as [[H1 [H2 [H3 [H4 [H5 H6]]]]] [H7 H8]]. cbn. rewrite H2. split; [|split; [exact H7|exact H8]]. unfold like_pb. cbn. auto 10.
Qed.

Lemma orient_all_like f t x y : like x y -> like (orient_all ar f t x) (orient_all ar f t y).
Proof.
  intros H. unfold orient_all. pose proof H as [[H1 [H2 [H3 [H4 [H5 H6]]]]] [H7 H8]]. rewrite H2.
  destruct (existsb _ _); (split; [|split; [exact H7|exact H8]]; unfold like_pb; cbn; auto 10).
Qed.

Lemma orient_like o x y : like x y -> like (orient_items ar o x) (orient_items ar o y).
Proof.
  intros H. destruct o as [o|]; [|exact H]. cbn [orient_items]. replace (pb_rotation (in_pb y)) with (pb_rotation (in_pb x)) by apply H.
  destruct (negb _); [exact H|]. destruct (String.eqb o "wide"); [apply orient_all_like; exact H|].
  destruct (String.eqb o "long"); [apply orient_all_like; exact H|exact H].
Qed.

(** Both tests of the clock give the same from here on. *)
Definition in_step (ck1 ck2 : clock) (limit1 limit2 start1 start2 : Z) (c1 c2 : nat) : Prop :=
  same_answers (out_of_time ck1 start1 limit1) (out_of_time ck2 start2 limit2) c1 c2 /\
  same_answers (over_time ck1 start1 limit1) (over_time ck2 start2 limit2) c1 c2.

Definition alike_hs (s t : hs ar) : Prop :=
  like (hs_st s) (hs_st t) /\ hs_best s = hs_best t /\ hs_ret s = hs_ret t /\ hs_strategy s = hs_strategy t.


Lemma hs_loop_again ck1 ck2 limit1 limit2 start1 start2 throttle strategies : forall s t,
  in_step ck1 ck2 limit1 limit2 start1 start2 (hs_clk s) (hs_clk t) -> alike_hs s t ->
  agree (fun a b => alike_hs (fst a) (fst b) /\ snd a = snd b /\ together (hs_clk s) (hs_clk t) (hs_clk (fst a)) (hs_clk (fst b)))
    (hs_loop ar ck1 limit1 throttle start1 strategies s) (hs_loop ar ck2 limit2 throttle start2 strategies t).
Proof.
  induction strategies as [|g rest IH]; intros s t [T1 T2] H; pose proof H as [H1 [H2 [H3 H4]]]; cbn [hs_loop].
  - cbn. split; [exact H|]. split; [reflexivity|apply together_now].
  - eapply agree_bind.
    { apply (local_search_again ck1 ck2 limit1 limit2 throttle (Some start1) (Some start2)); [apply like_strategy; exact H1|exact T1]. }
    cbn [begun fst snd]. intros [[x1 clk1] l1] [[y1 clk2] l2] [A [_ K]]. cbn [fst snd] in A, K.
    rewrite (value_alike _ _ A). eapply agree_bind; [apply agree_eq; reflexivity|]. intros v ? <-. rewrite H2.
    apply agree_bind with (P := fun a b => alike_hs a b /\ hs_clk a = clk1 /\ hs_clk b = clk2).
    { destruct (check_solution ar v (hs_best t)).
      - rewrite (get_solution_alike _ _ A). eapply agree_bind; [apply agree_eq; reflexivity|]. intros ret ? <-. cbn.
        split; [split; [exact (proj1 A)|]|]; auto.
      - cbn. split; [split; [exact (proj1 A)|]|]; auto. }
    intros s' t' [K0 [E1 E2]]. destruct (_ && _).
    + cbn. split; [exact K0|]. split; [reflexivity|]. rewrite E1, E2. exact K.
    + rewrite (answers_now _ _ _ _ _ _ T2 K).
      assert (N : alike_hs (mkHs (hs_st s') (hs_best s') (hs_ret s') (hs_strategy s') (S clk1))
                           (mkHs (hs_st t') (hs_best t') (hs_ret t') (hs_strategy t') (S clk2))) by exact K0.
      pose proof (together_next _ _ _ _ K) as K'.
      destruct (over_time _ _ _ _).
      * cbn [agree fst snd]. split; [exact N|]. split; [reflexivity|exact K'].
      * eapply agree_bind; [apply IH; [|exact N]|].
        { cbn. split; eapply answers_later; eassumption. }
        intros [s3 l3] [t3 l4] [A3 [E3 C3]]. cbn [fst snd hs_clk] in *. subst l4. cbn. split; [exact A3|]. split; [reflexivity|].
        eapply together_trans; eassumption.
Qed.

Theorem single_again ck1 ck2 limit1 limit2 start1 start2 throttle strategies x y clk1 clk2 : like x y ->
  in_step ck1 ck2 limit1 limit2 start1 start2 clk1 clk2 ->
  agree (fun a b => alike_hs (fst a) (fst b) /\ snd a = snd b /\ together clk1 clk2 (hs_clk (fst a)) (hs_clk (fst b)))
    (single_process ar ck1 limit1 throttle start1 strategies x clk1) (single_process ar ck2 limit2 throttle start2 strategies y clk2).
Proof.
  intros L T. unfold single_process. eapply agree_bind; [apply init_agree; exact L|]. intros [a ra] [b rb] [A E]. cbn [fst snd] in A, E. subst rb.
  rewrite (value_alike _ _ A). eapply agree_bind; [apply agree_eq; reflexivity|]. intros v ? <-.
  apply (hs_loop_again ck1 ck2 limit1 limit2 start1 start2 throttle strategies (mkHs a v ra default_strategy clk1) (mkHs b v ra default_strategy clk2)); [exact T|].
  split; [exact (proj1 A)|auto].
Qed.

(** [hypersearch] with one process: the same solution, values, heights, strategies. *)
Theorem hypersearch_again ck1 ck2 limit1 limit2 throttle o sb strategies x y clk1 clk2 : like x y ->
  in_step ck1 ck2 limit1 limit2 (ck1 clk1) (ck2 clk2) (S clk1) (S clk2) ->
  agree (fun a b => alike (hr_inst a) (hr_inst b) /\ hr_best_strategy a = hr_best_strategy b /\ hr_log a = hr_log b)
    (hypersearch ar ck1 limit1 throttle o sb strategies x clk1) (hypersearch ar ck2 limit2 throttle o sb strategies y clk2).
Proof.
  intros L T. unfold hypersearch. eapply agree_bind; [apply sort_agree; exact L|]. intros x1 y1 L1.
  eapply agree_bind; [apply single_again; [apply orient_like; exact L1|exact T]|].
  intros [s l1] [t l2] [[A1 [A2 [A3 A4]]] [E _]]. cbn [fst snd] in *. subst l2. cbn. rewrite A3, A4.
  split; [apply like_set; exact A1|]. auto.
Qed.
End Again.
