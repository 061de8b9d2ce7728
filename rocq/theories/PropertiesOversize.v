(** * C78: an item that fits in no container does not disturb the others.
      C79: later containers do not disturb earlier ones. *)
From Coq Require Import ZArith String List Bool Lia QArith Permutation.
From Verif Require Import Py ProofsPy Arith Construct Spec LocalSearch SpecSearch ProofsSolve ProofsLocalSearch
  PropertiesSolve PropertiesSearch PropertiesHyper PropertiesFinalHeight ProofsOversize.
Import ListNotations.
Open Scope string_scope.
Open Scope list_scope.
Open Scope Z_scope.

(** ** Vocabulary *)
(** Every permitted orientation is too wide or too high for every (empty) container. *)
Definition never_fits (pb : problem) (d : dims) : Prop :=
  forall cid c, In (cid, c) (pb_containers pb) ->
    (dw c < dw d \/ available_height pb c < dl d) /\
    (pb_rotation pb = true -> dw c < dl d \/ available_height pb c < dw d).

Definition with_items (pb : problem) (items : odict dims) : problem :=
  mkProblem (pb_containers pb) items (pb_rotation pb) (pb_strategy pb) (pb_strip pb) (pb_height pb).
Definition with_containers (pb : problem) (cs : odict dims) : problem :=
  mkProblem cs (pb_items pb) (pb_rotation pb) (pb_strategy pb) (pb_strip pb) (pb_height pb).

Lemma never_fits_rooms pb d : valid_problem pb -> never_fits pb d ->
  forall cid c, In (cid, c) (pb_containers pb) ->
  room_ok pb c /\ too_big (dw c) (container_length pb c) (pb_rotation pb) d.
Proof.
  intros Hv H cid c Hc. split; [exact (rooms_ok pb Hv cid c Hc)|]. exact (H cid c Hc).
Qed.

Lemma ddel_middle {A} (before after : odict A) i d : NoDup (dkeys (before ++ (i, d) :: after)) ->
  ddel (before ++ (i, d) :: after) i = before ++ after.
Proof.
  induction before as [|[k v] t IH]; simpl; intros N.
  - rewrite String.eqb_refl. reflexivity.
  - inversion N as [|? ? N1 N2]; subst. destruct (String.eqb_spec i k) as [->|_].
    + exfalso. apply N1. unfold dkeys. rewrite map_app. apply in_or_app. right. left. reflexivity.
    + rewrite IH by exact N2. reflexivity.
Qed.

Lemma bind_val {A B} (r : result A) (a : A) (k : A -> result B) : r = Ok a -> bind r k = k a.
Proof. intros ->. reflexivity. Qed.

(** ** C78, solve *)
(** The same solution and the same values as if the item were not there. A strip has one
    container, and something else to store. *)
Theorem C78_solve : forall ar pb before i d after, valid_problem pb ->
  pb_items pb = before ++ (i, d) :: after -> never_fits pb d ->
  (pb_strip pb = true -> length (pb_containers pb) = 1%nat /\ before ++ after <> []) ->
  exists sol objs, solve ar pb None = Ok (sol, objs) /\
    solve ar (with_items pb (before ++ after)) None = Ok (sol, objs).
Proof.
  intros ar pb before i d after Hv He Hf Hst.
  destruct (solve_spec ar pb None Hv I) as [items [rest [sol [objs [H1 [_ [_ [H2 H3]]]]]]]].
  exists sol, objs. split; [exact H3|]. unfold solve_full in H2. rewrite H1 in H2. cbn [bind] in H2.
  injection H1 as <-. unfold solve, solve_full. cbn [items_for with_items pb_items pb_containers bind].
  pose proof Hv as [Hvi _].
  assert (Hd : dget (pb_items pb) i = Some d).
  { apply In_dget; [apply Hvi|]. rewrite He. apply in_or_app. right. left. reflexivity. }
  assert (Em : ddel (pb_items pb) i = before ++ after).
  { rewrite He. apply ddel_middle. rewrite <- He. apply Hvi. }
  pose proof (rfold_without ar pb i d (pb_containers pb) (pb_items pb) [] [] rest sol objs Hvi Hd
                (never_fits_rooms pb d Hv Hf)) as R.
  rewrite Em in R. change (solve_step ar (with_items pb (before ++ after))) with (solve_step ar pb).
  refine (bind_val _ _ _ (R _ H2)). intros Es. right. exact (Hst Es).
Qed.
Print Assumptions C78_solve.

(** With a given sequence: leaving the item out of the sequence changes nothing. *)
Theorem C78_solve_sequence : forall ar pb i d sequence, valid_problem pb ->
  known_sequence pb (Some sequence) -> dget (pb_items pb) i = Some d -> never_fits pb d ->
  (pb_strip pb = true -> length (pb_containers pb) = 1%nat /\ remove string_dec i sequence <> []) ->
  exists sol objs, solve ar pb (Some sequence) = Ok (sol, objs) /\
    solve ar pb (Some (remove string_dec i sequence)) = Ok (sol, objs).
Proof.
  intros ar pb i d sq Hv Hk Hd Hf Hst.
  destruct (solve_spec ar pb (Some sq) Hv Hk) as [items [rest [sol [objs [H1 [[Hvi [Hkeys Hin]] [_ [H2 H3]]]]]]]].
  exists sol, objs. split; [exact H3|]. unfold solve_full in H2. rewrite H1 in H2. cbn [bind] in H2.
  cbn [items_for] in H1. unfold deepcopy_seq in H1.
  destruct (in_dec string_dec i sq) as [Hi|Hi]; [|rewrite notin_remove by exact Hi; exact H3].
  pose proof (deepcopy_without (pb_items pb) i sq [] items (NoDup_nil _) H1) as E.
  unfold solve, solve_full. cbn [items_for]. unfold deepcopy_seq. change (ddel (@nil (string * dims)) i) with (@nil (string * dims)) in E.
  rewrite E. cbn [bind].
  assert (Hdi : dget items i = Some d).
  { apply Hkeys in Hi. apply dget_Some_In in Hi. destruct Hi as [v Hv1]. pose proof (dget_In _ _ _ Hv1) as Hx.
    apply Hin in Hx. congruence. }
  refine (bind_val _ _ _ (rfold_without ar pb i d (pb_containers pb) items [] [] rest sol objs Hvi Hdi (never_fits_rooms pb d Hv Hf) _ H2)).
  - intros Es. right. destruct (Hst Es) as [C1 C2]. split; [exact C1|]. intros C. apply C2.
    destruct (remove string_dec i sq) as [|k ks] eqn:Er; [reflexivity|]. exfalso.
    assert (Hk0 : In k sq /\ k <> i) by (apply in_remove with string_dec; rewrite Er; left; reflexivity).
    assert (In k (dkeys items)) as Hki by (apply Hkeys; exact (proj1 Hk0)).
    apply dget_Some_In in Hki. destruct Hki as [v Hk1].
    assert (X : dget (ddel items i) k = Some v) by (rewrite dget_ddel_other by (intros ->; apply (proj2 Hk0); reflexivity); exact Hk1).
    rewrite C in X. discriminate.
Qed.
Print Assumptions C78_solve_sequence.

(** ** C78, local search of a strip: one such item and the search gives up *)
(** Without a minimum height only solutions with all the items are accepted (mixins.py:1150-1157),
    so what is returned is the initial construction and the height is never lowered. *)
Theorem C78_strip_search_gives_up : forall ar, arith_laws ar ->
  forall x, valid_inst ar x -> pb_strip (in_pb x) = true -> in_min x = None ->
  forall i d, dget (pb_items (in_pb x)) i = Some d -> never_fits (in_pb x) d ->
  forall ck limit throttle start clk y clk' log,
  local_search ar ck limit throttle start x clk = Ok (y, clk', log) ->
  pb_height (in_pb y) = pb_height (in_pb x) /\
  exists sol objs, solve ar (in_pb x) None = Ok (sol, objs) /\ same_placements sol (in_sol y) /\ in_objs y = objs.
Proof.
  intros ar laws x Hv Hs Hm i d Hd Hf ck limit throttle start clk y clk' log H.
  assert (N : ~ strip_full ar x (in_sol y)).
  { intros [csol [E1 E2]].
    assert (Hi : In i (dkeys (pb_items (in_pb x)))) by (apply dget_Some_In; exists d; exact Hd).
    specialize (E2 i Hi). apply dget_Some_In in E2. destruct E2 as [e E2].
    destruct (C15_placements ar laws x Hv ck limit throttle start clk y clk' log H) as [_ P].
    destruct (P _ _ _ _ E1 E2) as [c [d' [P1 [P2 [P3 [P4 _]]]]]]. assert (d' = d) by congruence. subst d'.
    apply dget_In in P1. specialize (Hf _ _ P1). unfold available_height in Hf. rewrite Hs in Hf, P3.
    destruct (C22_strip_height ar laws x Hv Hs ck limit throttle start clk y clk' log H) as [[_ Hh] _].
    destruct P3 as [Q1 [Q2 [Q3 [Q4 [Q5 Q6]]]]]. destruct Hf as [F1 F2].
    destruct P4 as [[A B]|[R [A B]]]; [|specialize (F2 R)]; lia. }
  split.
  - destruct (C20_lower_only_when_full ar laws x Hv Hs Hm ck limit throttle start clk y clk' log H) as [E|C]; [exact E|contradiction].
  - destruct (C20_only_full_strips_accepted ar laws x Hv Hs Hm ck limit throttle start clk y clk' log H)
      as [sol [objs [S1 [[C|[S2 S3]] _]]]]; [contradiction|]. exists sol, objs. auto.
Qed.
Print Assumptions C78_strip_search_gives_up.

(** ** C79 *)
(** With more containers after them, the first containers are packed just the same. *)
Theorem C79_solve : forall ar pb cs more sequence, valid_problem pb -> known_sequence pb sequence ->
  pb_containers pb = cs ++ more ->
  exists sol objs sol' objs',
    solve ar (with_containers pb cs) sequence = Ok (sol, objs) /\
    solve ar pb sequence = Ok (sol ++ sol', objs ++ objs') /\
    dkeys sol = dkeys cs /\ dkeys objs = dkeys cs /\ dkeys sol' = dkeys more /\ dkeys objs' = dkeys more.
Proof.
  intros ar pb cs more sq Hv Hk He.
  destruct (solve_spec ar pb sq Hv Hk) as [items [rest [sol [objs [H1 [[Hvi _] [_ [H2 H3]]]]]]]].
  unfold solve_full in H2. rewrite H1 in H2. cbn [bind] in H2. rewrite He in H2.
  pose proof (rooms_ok pb Hv) as Hr. destruct Hv as [_ [Hvc _]]. rewrite He in Hr, Hvc.
  destruct (rfold_more ar pb cs more items rest sol objs Hvi Hvc Hr H2)
    as [mid [sol1 [objs1 [sol2 [objs2 [E1 [-> [-> [K1 [K2 [K3 K4]]]]]]]]]]].
  exists sol1, objs1, sol2, objs2. split; [|auto].
  unfold solve, solve_full.
  replace (items_for (with_containers pb cs) sq) with (items_for pb sq) by (destruct sq; reflexivity).
  rewrite H1. cbn [bind with_containers pb_containers].
  exact (bind_val _ _ _ E1).
Qed.
Print Assumptions C79_solve.

(** So another container never costs a stored item. *)
Corollary C79_more_containers_store_more : forall ar pb cs more sequence sol objs, valid_problem pb ->
  known_sequence pb sequence -> pb_containers pb = cs ++ more ->
  solve ar (with_containers pb cs) sequence = Ok (sol, objs) ->
  exists sol' objs', solve ar pb sequence = Ok (sol', objs') /\
    forall cid csol, dget sol cid = Some csol -> dget sol' cid = Some csol.
Proof.
  intros ar pb cs more sq sol objs Hv Hk He H.
  destruct (C79_solve ar pb cs more sq Hv Hk He) as [s [o [s' [o' [H1 [H2 _]]]]]].
  rewrite H in H1. injection H1 as <- <-. exists (sol ++ s'), (objs ++ o'). split; [exact H2|].
  intros cid csol. clear. induction sol as [|[k v] t IH]; simpl; [discriminate|].
  destruct (String.eqb cid k); [auto|exact IH].
Qed.
Print Assumptions C79_more_containers_store_more.

(** ** Non-vacuity *)
Definition with_a_plank : problem := {|
  pb_containers := [("bin", mkDims 4 4); ("box", mkDims 3 2)];
  pb_items := [("a", mkDims 2 2); ("plank", mkDims 5 1); ("b", mkDims 4 2); ("c", mkDims 1 3)];
  pb_rotation := true; pb_strategy := default_strategy; pb_strip := false; pb_height := 0 |}.

Example C78_witness :
  valid_problem with_a_plank /\ never_fits with_a_plank (mkDims 5 1) /\
  (exists objs, solve qarith with_a_plank None =
     Ok ([("bin", [("a", mkEntry 0 0 2 2); ("b", mkEntry 0 2 4 2)]); ("box", [("c", mkEntry 0 0 3 1)])], objs)).
Proof.
  split; [valid_demo|]. split.
  - intros cid c [[= <- <-]|[[= <- <-]|[]]]; cbn; split; try (left; lia); intros _; right; lia.
  - eexists. vm_compute. reflexivity.
Qed.

Definition strip_with_a_plank : inst qarith := fresh {|
  pb_containers := [(strip_id, mkDims 4 0x100)];
  pb_items := [("a", mkDims 2 2); ("plank", mkDims 5 1); ("b", mkDims 3 2); ("c", mkDims 2 3)];
  pb_rotation := false; pb_strategy := default_strategy; pb_strip := true; pb_height := 40 |} None.

Example C78_strip_witness :
  valid_inst qarith strip_with_a_plank /\ never_fits (in_pb strip_with_a_plank) (mkDims 5 1).
Proof.
  split; [split; [valid_demo|]|].
  - intros _. split; [reflexivity|discriminate].
  - intros cid c [[= <- <-]|[]]. cbn. split; [left; lia|discriminate].
Qed.

Example C79_witness : exists v w,
  solve qarith (with_containers with_a_plank [("bin", mkDims 4 4)]) None =
    Ok ([("bin", [("a", mkEntry 0 0 2 2); ("b", mkEntry 0 2 4 2)])], [("bin", v)]) /\
  solve qarith with_a_plank None =
    Ok ([("bin", [("a", mkEntry 0 0 2 2); ("b", mkEntry 0 2 4 2)]); ("box", [("c", mkEntry 0 0 3 1)])], [("bin", v); ("box", w)]).
Proof. eexists _, _. split; vm_compute; reflexivity. Qed.
