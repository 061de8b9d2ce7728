(** * C83: the items that were left over have no influence on the solution. *)
From Coq Require Import ZArith String List Bool Lia QArith Permutation.
From Verif Require Import Py ProofsPy Arith Construct Spec LocalSearch SpecSearch ProofsSolve ProofsLocalSearch
  PropertiesSolve PropertiesSearch PropertiesHyper PropertiesFinalHeight ProofsOversize PropertiesOversize ProofsLeftover.
From Verif Require ProofsMultiHistory.
Import ListNotations.
Open Scope string_scope.
Open Scope list_scope.
Open Scope Z_scope.

(** ** Leaving several out *)
Definition dels (d : odict dims) (l : list string) : odict dims := fold_left ddel l d.

Lemma rfold_leave_out ar pb cs : forall l items rest sol objs k,
  valid_items items -> (forall cid c, In (cid, c) cs -> room_ok pb c) ->
  (pb_strip pb = true -> cs = [] \/ (length cs = 1%nat /\ In k (dkeys items) /\ ~ In k l)) ->
  rfold (solve_step ar pb) cs (items, [], []) = Ok (rest, sol, objs) ->
  (forall i, In i l -> In i (dkeys items) -> In i (dkeys rest)) -> NoDup (dkeys rest) ->
  exists rest', rfold (solve_step ar pb) cs (dels items l, [], []) = Ok (rest', sol, objs).
Proof.
  induction l as [|i l IH]; intros items rest sol objs k Hv Hc Hst H Hl Hn; [exists rest; exact H|].
  cbn [dels fold_left]. destruct (in_dec string_dec i (dkeys items)) as [Hi|Hi].
  - pose proof (Hl i (or_introl eq_refl) Hi) as Hr. apply dget_Some_In in Hr. destruct Hr as [d Hd].
    destruct (rfold_skip ar pb i d cs items [] [] rest sol objs Hv Hc) as [_ E]; [|exact H|exact Hd|].
    { intros Es. destruct (Hst Es) as [C|[C1 [C2 C3]]]; [left; exact C|]. right. split; [exact C1|]. intros C.
      apply dget_Some_In in C2. destruct C2 as [v C2].
      assert (X : dget (ddel items i) k = Some v) by (rewrite dget_ddel_other by (intros ->; apply C3; left; reflexivity); exact C2).
      rewrite C in X. discriminate. }
    refine (IH (ddel items i) (ddel rest i) sol objs k _ Hc _ E _ _).
    + destruct Hv as [N P]. split; [apply NoDup_ddel; exact N|]. intros j e Hj. apply (P j). apply ddel_incl in Hj. exact Hj.
    + intros Es. destruct (Hst Es) as [C|[C1 [C2 C3]]]; [left; exact C|]. right. split; [exact C1|].
      split; [|intros C; apply C3; right; exact C].
      apply dget_Some_In in C2. destruct C2 as [v C2]. apply dget_Some_In. exists v.
      rewrite dget_ddel_other by (intros ->; apply C3; left; reflexivity). exact C2.
    + intros j Hj Hk.
      assert (Nij : i <> j).
      { intros <-. apply dget_Some_In in Hk. destruct Hk as [v Hk]. rewrite dget_ddel_same in Hk by apply Hv. discriminate. }
      assert (Hk' : In j (dkeys items)).
      { apply dget_Some_In in Hk. destruct Hk as [v Hk]. rewrite dget_ddel_other in Hk by exact Nij. apply dget_Some_In. eauto. }
      pose proof (Hl j (or_intror Hj) Hk') as Hr. apply dget_Some_In in Hr. destruct Hr as [v Hr].
      apply dget_Some_In. exists v. rewrite dget_ddel_other by exact Nij. exact Hr.
    + apply NoDup_ddel. exact Hn.
  - rewrite (ddel_absent items i Hi). refine (IH items rest sol objs k Hv Hc _ H _ Hn).
    + intros Es. destruct (Hst Es) as [C|[C1 [C2 C3]]]; [left; exact C|]. right. split; [exact C1|]. split; [exact C2|].
      intros C. apply C3. right. exact C.
    + intros j Hj. apply Hl. right. exact Hj.
Qed.

Definition kept (keep : string -> bool) (items : odict dims) : odict dims := filter (fun kv => keep (fst kv)) items.

Lemma ddel_filter (items : odict dims) i : NoDup (dkeys items) ->
  ddel items i = filter (fun kv => negb (String.eqb i (fst kv))) items.
Proof.
  induction items as [|[k v] t IH]; intros N; [reflexivity|]. cbn in N. inversion N as [|? ? N1 N2]; subst.
  cbn [ddel filter fst]. destruct (String.eqb_spec i k) as [->|E]; cbn [negb].
  - assert (X : forall u : odict dims, ~ In k (dkeys u) -> filter (fun kv => negb (String.eqb k (fst kv))) u = u).
    { induction u as [|[j w] u IHu]; intros Hu; [reflexivity|]. cbn [filter fst]. destruct (String.eqb_spec k j) as [->|_].
      - exfalso. apply Hu. left. reflexivity.
      - cbn [negb]. rewrite IHu; [reflexivity|]. intros C. apply Hu. right. exact C. }
    symmetry. apply X. exact N1.
  - rewrite IH by exact N2. reflexivity.
Qed.

Lemma filter_twice {A} (f g : A -> bool) l : filter f (filter g l) = filter (fun x => g x && f x) l.
Proof. induction l as [|a t IH]; [reflexivity|]. cbn. destruct (g a); cbn; rewrite IH; reflexivity. Qed.

Lemma dels_filter : forall l (items : odict dims), NoDup (dkeys items) ->
  dels items l = filter (fun kv => negb (existsb (fun i => String.eqb i (fst kv)) l)) items.
Proof.
  induction l as [|i l IH]; intros items N.
  - cbn. induction items as [|a t IHt]; [reflexivity|]. cbn in *. inversion N; subst. rewrite <- IHt by assumption. reflexivity.
  - cbn [dels fold_left]. change (fold_left ddel l (ddel items i)) with (dels (ddel items i) l).
    rewrite IH by (apply NoDup_ddel; exact N). rewrite ddel_filter by exact N. rewrite filter_twice. apply filter_ext. intros [k v].
    cbn [existsb fst]. destruct (String.eqb i k); reflexivity.
Qed.

Lemma dels_kept keep (items : odict dims) : NoDup (dkeys items) ->
  kept keep items = dels items (filter (fun i => negb (keep i)) (dkeys items)).
Proof.
  intros N. rewrite dels_filter by exact N. unfold kept. apply filter_ext_in. intros [k v] Hk. cbn [fst].
  destruct (keep k) eqn:E.
  - symmetry. apply negb_true_iff. destruct (existsb _ _) eqn:X; [|reflexivity]. apply existsb_exists in X.
    destruct X as [j [Hj Ej]]. apply String.eqb_eq in Ej. subst j. apply filter_In in Hj. rewrite E in Hj. destruct Hj. discriminate.
  - symmetry. apply negb_false_iff. apply existsb_exists. exists k. split; [|apply String.eqb_refl]. apply filter_In.
    split; [apply in_map with (f := fst) in Hk; exact Hk|]. rewrite E. reflexivity.
Qed.

Lemma in_kept keep (items : odict dims) k : In k (dkeys (kept keep items)) <-> In k (dkeys items) /\ keep k = true.
Proof.
  unfold kept, dkeys. rewrite !in_map_iff. split.
  - intros [[j v] [E H]]. cbn in E. subst j. apply filter_In in H. split; [exists (k, v); tauto|tauto].
  - intros [[[j v] [E H]] K]. cbn in E. subst j. exists (k, v). split; [reflexivity|]. apply filter_In. tauto.
Qed.

Lemma leave_out ar pb items rest sol objs keep :
  valid_problem pb -> valid_items items ->
  rfold (solve_step ar pb) (pb_containers pb) (items, [], []) = Ok (rest, sol, objs) ->
  (forall i, In i (dkeys items) -> keep i = false -> In i (dkeys rest)) -> NoDup (dkeys rest) ->
  (pb_strip pb = true -> length (pb_containers pb) = 1%nat /\ exists k, In k (dkeys items) /\ keep k = true) ->
  exists rest', rfold (solve_step ar pb) (pb_containers pb) (kept keep items, [], []) = Ok (rest', sol, objs).
Proof.
  intros Hv Hi H Hk Hn Hst. rewrite dels_kept by apply Hi.
  destruct (pb_strip pb) eqn:Es.
  - destruct (Hst eq_refl) as [C [k [K1 K2]]]. eapply (rfold_leave_out ar pb _ _ items rest sol objs k Hi); [exact (rooms_ok pb Hv)| |exact H| |exact Hn].
    + intros _. right. split; [exact C|]. split; [exact K1|]. intros F. apply filter_In in F. rewrite K2 in F. destruct F. discriminate.
    + intros i F Hki. apply filter_In in F. apply Hk; [exact Hki|]. apply negb_true_iff. exact (proj2 F).
  - eapply (rfold_leave_out ar pb _ _ items rest sol objs "" Hi); [exact (rooms_ok pb Hv)|congruence|exact H| |exact Hn].
    intros i F Hki. apply filter_In in F. apply Hk; [exact Hki|]. apply negb_true_iff. exact (proj2 F).
Qed.

Lemma kept_dset keep (d : odict dims) j v :
  kept keep (dset d j v) = if keep j then dset (kept keep d) j v else kept keep d.
Proof.
  induction d as [|[k u] t IH]; cbn.
  - destruct (keep j); reflexivity.
  - destruct (String.eqb_spec j k) as [->|E]; cbn.
    + destruct (keep k) eqn:K; cbn; rewrite ?String.eqb_refl; reflexivity.
    + unfold kept in IH. rewrite IH. destruct (keep k) eqn:K, (keep j) eqn:J; cbn; try reflexivity.
      destruct (String.eqb_spec j k); [congruence|reflexivity].
Qed.

Lemma deepcopy_kept keep (items : odict dims) ids : forall acc r,
  rfold (fun d i => bind (dget_r items i) (fun it => Ok (dset d i it))) ids acc = Ok r ->
  rfold (fun d i => bind (dget_r items i) (fun it => Ok (dset d i it))) (filter keep ids) (kept keep acc) = Ok (kept keep r).
Proof.
  induction ids as [|j ids IH]; intros acc r H; cbn [rfold filter] in *; [injection H as <-; reflexivity|].
  destruct (dget_r items j) as [v|] eqn:E; [|discriminate]. cbn [bind] in H. pose proof (kept_dset keep acc j v) as K.
  specialize (IH _ _ H). rewrite K in IH. destruct (keep j); [cbn [rfold]; rewrite E; cbn [bind]|]; exact IH.
Qed.

(** ** C83 *)
(** [keep] may drop any of the items that were left over, and none of the stored ones. *)
Definition keeps_stored (keep : string -> bool) (sol : solution) : Prop :=
  forall i, In i (stored_ids sol) -> keep i = true.

(** Leaving them out of the sequence. (A strip has one container, and something else to store.) *)
Theorem C83_sequence : forall ar pb sequence keep sol objs, valid_problem pb ->
  solve ar pb (Some sequence) = Ok (sol, objs) -> keeps_stored keep sol ->
  (pb_strip pb = true -> length (pb_containers pb) = 1%nat /\ filter keep sequence <> []) ->
  solve ar pb (Some (filter keep sequence)) = Ok (sol, objs).
Proof.
  intros ar pb sq keep sol objs Hv H Hk Hst.
  assert (Ks : known_sequence pb (Some sq)) by (exact (ProofsMultiHistory.known_of_solve pb (Some sq) sol objs H)).
  destruct (solve_spec ar pb (Some sq) Hv Ks) as [items [rest [sol' [objs' [H1 [[Hvi [Hkeys Hin]] [_ [H2 H3]]]]]]]].
  rewrite H in H3. injection H3 as <- <-.
  destruct (C04_ids_stored_once ar pb (Some sq) rest sol objs Hv Ks H2) as [_ [_ [N P]]].
  pose proof H1 as H1'. unfold solve_full in H2. rewrite H1 in H2. cbn [bind] in H2. cbn [items_for] in H1'. unfold deepcopy_seq in H1'.
  apply (deepcopy_kept keep) in H1'. change (kept keep []) with (@nil (string * dims)) in H1'.
  destruct (leave_out ar pb items rest sol objs keep Hv Hvi H2) as [rest' E].
  - intros i Hi Ki. apply Hkeys in Hi. apply P in Hi. destruct Hi as [Hi|Hi]; [|exact Hi]. rewrite (Hk i Hi) in Ki. discriminate.
  - apply NoDup_app_iff in N. apply N.
  - intros Es. destruct (Hst Es) as [C1 C2]. split; [exact C1|]. destruct (filter keep sq) as [|k ks] eqn:F; [congruence|]. exists k.
    assert (X : In k (filter keep sq)) by (rewrite F; left; reflexivity). apply filter_In in X. destruct X as [X1 X2].
    split; [apply Hkeys; exact X1|exact X2].
  - unfold solve, solve_full. cbn [items_for]. unfold deepcopy_seq. rewrite H1'. cbn [bind].
    refine (bind_val _ _ _ E).
Qed.
Print Assumptions C83_sequence.

(** Taking them out of the problem. *)
Theorem C83_problem : forall ar pb keep sol objs, valid_problem pb ->
  solve ar pb None = Ok (sol, objs) -> keeps_stored keep sol ->
  (pb_strip pb = true -> length (pb_containers pb) = 1%nat /\ kept keep (pb_items pb) <> []) ->
  solve ar (with_items pb (kept keep (pb_items pb))) None = Ok (sol, objs).
Proof.
  intros ar pb keep sol objs Hv H Hk Hst.
  destruct (solve_spec ar pb None Hv Logic.I) as [items [rest [sol' [objs' [H1 [_ [_ [H2 H3]]]]]]]].
  rewrite H in H3. injection H3 as <- <-.
  destruct (C04_ids_stored_once ar pb None rest sol objs Hv Logic.I H2) as [_ [_ [N P]]].
  unfold solve_full in H2. rewrite H1 in H2. cbn [bind] in H2. injection H1 as <-.
  destruct (leave_out ar pb (pb_items pb) rest sol objs keep Hv (proj1 Hv) H2) as [rest' E].
  - intros i Hi Ki. apply P in Hi. destruct Hi as [Hi|Hi]; [|exact Hi]. rewrite (Hk i Hi) in Ki. discriminate.
  - apply NoDup_app_iff in N. apply N.
  - intros Es. destruct (Hst Es) as [C1 C2]. split; [exact C1|]. destruct (kept keep (pb_items pb)) as [|[k v] ks] eqn:F; [congruence|]. exists k.
    apply in_kept. rewrite F. left. reflexivity.
  - unfold solve, solve_full. cbn [items_for with_items pb_items pb_containers bind].
    change (solve_step ar (with_items pb (kept keep (pb_items pb)))) with (solve_step ar pb).
    refine (bind_val _ _ _ E).
Qed.
Print Assumptions C83_problem.

Lemma in_stored (sol : solution) i : NoDup (dkeys sol) ->
  (In i (stored_ids sol) <-> exists cid csol e, dget sol cid = Some csol /\ dget csol i = Some e).
Proof.
  intros N. unfold stored_ids. rewrite in_concat. split.
  - intros [l [Hl Hi]]. apply in_map_iff in Hl. destruct Hl as [[cid csol] [<- Hc]]. cbn [snd] in Hi. apply dget_Some_In in Hi.
    destruct Hi as [e He]. exists cid, csol, e. split; [apply In_dget; assumption|exact He].
  - intros [cid [csol [e [Hc He]]]]. exists (dkeys csol). split; [|apply dget_Some_In; eauto]. apply in_map_iff.
    exists (cid, csol). split; [reflexivity|apply dget_In; exact Hc].
Qed.

Lemma same_stored sol sol' i : NoDup (dkeys sol) -> same_placements sol sol' -> (In i (stored_ids sol) <-> In i (stored_ids sol')).
Proof.
  intros N [K [S _]]. assert (N' : NoDup (dkeys sol')) by (rewrite <- K; exact N).
  rewrite (in_stored sol i N), (in_stored sol' i N'). split; intros [cid [csol [e [Hc He]]]].
  - assert (X : In cid (dkeys sol')) by (rewrite <- K; apply dget_Some_In; eauto). apply dget_Some_In in X. destruct X as [csol' Hc'].
    exists cid, csol', e. split; [exact Hc'|]. rewrite <- (S cid csol csol' Hc Hc' i). exact He.
  - assert (X : In cid (dkeys sol)) by (rewrite K; apply dget_Some_In; eauto). apply dget_Some_In in X. destruct X as [csol' Hc'].
    exists cid, csol', e. split; [exact Hc'|]. rewrite (S cid csol' csol Hc' Hc i). exact He.
Qed.

(** So every solution [local_search] returns is what [solve] makes of the stored items alone, in some order. *)
Theorem C83_local_search : forall ar, arith_laws ar ->
  forall x, valid_inst ar x -> forall ck limit throttle start clk y clk' log,
  local_search ar ck limit throttle start x clk = Ok (y, clk', log) ->
  (pb_strip (in_pb x) = true -> stored_ids (in_sol y) <> []) ->
  exists seq h sol,
    NoDup seq /\ (forall i, In i seq <-> In i (stored_ids (in_sol y))) /\
    solve ar (pb_with_height (in_pb x) h) (Some seq) = Ok (sol, in_objs y) /\
    same_placements sol (in_sol y) /\
    (if pb_strip (in_pb x) then pb_height (in_pb y) <= h <= pb_height (in_pb x)
     else h = pb_height (in_pb x)).
Proof.
  intros ar laws x Hv ck limit throttle start clk y clk' log H Hst.
  destruct (C15_genuine_construction ar laws x Hv ck limit throttle start clk y clk' log H) as [seq [h [sol [Hp [Hs [Hsame Hh]]]]]].
  assert (Hvh : valid_problem (pb_with_height (in_pb x) h)).
  { pose proof Hv as [[V1 [V2 [V3 [V4 _]]]] _]. repeat (split; [assumption|]). intros Es. change (pb_strip (in_pb x) = true) in Es.
    pose proof Hh as Hh'. rewrite Es in Hh'. cbn [pb_height pb_with_height].
    pose proof (proj1 (C22_strip_height ar laws x Hv Es ck limit throttle start clk y clk' log H)). lia. }
  pose proof (ProofsMultiHistory.known_of_solve _ _ _ _ Hs) as Hk.
  destruct (solve_spec ar (pb_with_height (in_pb x) h) (Some seq) Hvh Hk) as [items [rest [sol' [objs' [_ [_ [_ [H2 H3]]]]]]]].
  rewrite Hs in H3. injection H3 as <- <-.
  destruct (C04_ids_stored_once ar _ (Some seq) rest sol (in_objs y) Hvh Hk H2) as [Kc [_ [N P]]].
  assert (Nc : NoDup (dkeys sol)) by (rewrite Kc; apply (proj1 (proj2 (proj1 Hv)))).
  assert (Hids : forall i, In i (stored_ids sol) <-> In i (stored_ids (in_sol y))) by (intros i; exact (same_stored sol (in_sol y) i Nc Hsame)).
  set (keep := fun i => if in_dec string_dec i (stored_ids sol) then true else false).
  assert (Hkeep : forall i, keep i = true <-> In i (stored_ids sol)).
  { intros i. unfold keep. destruct (in_dec string_dec i (stored_ids sol)); split; congruence || tauto. }
  assert (Hin : forall i, In i (filter keep seq) <-> In i (stored_ids (in_sol y))).
  { intros i. rewrite filter_In, Hkeep, <- Hids. split; [tauto|]. intros Hi. split; [|exact Hi].
    specialize (P i). cbn [wanted] in P. apply P. left. exact Hi. }
  exists (filter keep seq), h, sol. split; [|split; [exact Hin|split; [|split; [exact Hsame|exact Hh]]]].
  - apply NoDup_filter. apply (Permutation_NoDup (Permutation_sym Hp)). apply (proj1 (proj1 Hv)).
  - apply C83_sequence; [exact Hvh|exact Hs|intros i Hi; apply Hkeep; exact Hi|].
    intros Es. change (pb_strip (in_pb x) = true) in Es. pose proof Hv as [_ Hvs]. destruct (Hvs Es) as [Hone _]. split.
    + change (length (pb_containers (in_pb x)) = 1%nat). apply (f_equal (@length string)) in Hone. unfold dkeys in Hone. rewrite map_length in Hone. exact Hone.
    + intros C. apply (Hst Es). destruct (stored_ids (in_sol y)) as [|k ks] eqn:E; [reflexivity|]. exfalso.
      assert (X : In k (filter keep seq)) by (apply Hin; left; reflexivity). rewrite C in X. exact X.
Qed.
Print Assumptions C83_local_search.

(** ** Witness: the plank and the fifth item stay out. *)
Definition crowded : problem := {|
  pb_containers := [("bin", mkDims 4 4); ("box", mkDims 3 2)];
  pb_items := [("a", mkDims 2 2); ("plank", mkDims 5 1); ("b", mkDims 4 2); ("e", mkDims 3 3); ("c", mkDims 1 3)];
  pb_rotation := true; pb_strategy := default_strategy; pb_strip := false; pb_height := 0 |}.
Definition not_left (i : string) : bool := negb (String.eqb i "plank" || String.eqb i "e").

Example C83_witness : exists sol objs,
  valid_problem crowded /\ solve qarith crowded None = Ok (sol, objs) /\ keeps_stored not_left sol /\
  solve qarith (with_items crowded [("a", mkDims 2 2); ("b", mkDims 4 2); ("c", mkDims 1 3)]) None = Ok (sol, objs) /\
  stored_ids sol = ["a"; "b"; "c"].
Proof.
  eexists _, _. split; [valid_demo|]. split; [vm_compute; reflexivity|]. split; [|split; vm_compute; reflexivity].
  intros i Hi. vm_compute in Hi. repeat (destruct Hi as [<-|Hi]; [reflexivity|]). destruct Hi.
Qed.
